(** Pointers from a pinned field to itself, under the rules of Tree Borrows: the
    methods. *)
From Coq Require Import String Ascii List Bool Arith Lia.
From Verif Require Import Base Syntax ModelArgs ModelUtils ModelDerive ModelRun ModelAlias ModelTree.
From Verif Require Import SpecArgs SpecDerive SpecExpand SpecRun SpecAlias SpecSelfRef SpecTree SpecTreeSelf.
From Verif Require Import ProofsArgs ProofsUtils ProofsDerive ProofsExpand ProofsTypes ProofsRun ProofsRunProj ProofsRunReplace ProofsRunDrop ProofsAlias ProofsAliasRun ProofsAliasCall ProofsAliasMain.
From Verif Require Import ProofsSelfRef ProofsSelfRefOps ProofsSelfRefRun ProofsSelfRefMain ProofsTree ProofsTreeMain ProofsTreeSelf.
Import ListNotations.
Open Scope string_scope.
Open Scope list_scope.

Lemma tree_other l p os s : Forall (only p) os -> covers p l = false -> tree_steps l os s = Some s.
Proof.
  intros H Hl. induction H as [|o os Ho H IH]; [reflexivity|]. cbn [tree_steps].
  assert (tree_step l o s = Some s) as ->; [|exact IH]. destruct o; cbn in Ho; [| |destruct Ho]; subst; cbn [tree_step]; rewrite Hl; reflexivity.
Qed.
Lemma tree_fields {A} (G : nat * A -> list op) lo xs : (forall nf, Forall (only (PlField (fst nf))) (G nf)) -> forall k s,
  tree_steps lo (flat_map G (enum_from k xs)) s =
  match lo with
  | LRest => Some s
  | LField i => match (if Nat.leb k i then nth_error xs (i - k) else None) with Some f => tree_steps lo (G (i, f)) s | None => Some s end
  end.
Proof.
  intros HG. induction xs as [|x xs IH]; intros k s; cbn [enum_from flat_map].
  - destruct lo as [|i]; [reflexivity|]. destruct (Nat.leb k i); [|reflexivity]. destruct (i - k); reflexivity.
  - rewrite tree_steps_app. destruct (covers (PlField k) lo) eqn:C.
    + destruct lo as [|i]; [discriminate|]. cbn [covers] in C. apply Nat.eqb_eq in C. subst i. rewrite Nat.leb_refl, Nat.sub_diag. cbn [nth_error].
      destruct (tree_steps (LField k) (G (k, x)) s) as [s1|]; [|reflexivity]. rewrite IH.
      destruct (Nat.leb_spec (S k) k); [lia|reflexivity].
    + rewrite (tree_other lo (PlField k) _ _ (HG (k, x)) C), IH. destruct lo as [|i]; [reflexivity|].
      cbn [covers] in C. apply Nat.eqb_neq in C. destruct (Nat.leb_spec (S k) i), (Nat.leb_spec k i); try lia; [|reflexivity].
      replace (i - k) with (S (i - S k)) by lia. reflexivity.
Qed.

(** ** [project] *)
Section Project.
  Variables (np : place -> bool) (t n n' : nat) (disc : list op) (cs : nat -> nat) (l : list field).
  Hypothesis (Hnp : np PlSelf = true) (Hdisc : disc = [] \/ disc = [OUse false PlSelf (S n)]) (Hcs : good_cs n n' cs l).
  Notation ptr := (ptr_of n cs).
  (** What a part looks like afterwards, as long as the results are used. *)
  Definition tlent_at (own : list nat) (lo : loc) (T : tree) : Prop :=
    match lo with
    | LRest => theld (t :: own) T
    | LField i => match nth_error l i with
                  | Some f => if np (PlField i) then theld (ptr i f :: t :: own) T else tlends n (t :: own) (ptr i f) T
                  | None => theld (t :: own) T
                  end
    end.
  Definition tlent (own : list nat) (lo : loc) (T : tree) : Prop := unused_in n' T /\ calmed n T /\ tlent_at own lo T.
  Lemma tproject_at own lo T : theld (t :: own) T -> unused_in n T ->
    exists T', tree_steps lo (relaxed np (body_ops true t n disc cs l ++ [ORelease n])) T = Some T' /\ tlent own lo T'.
  Proof.
    intros H U. unfold body_ops. rewrite !relaxed_app, <- !app_assoc. cbn [relaxed map relax ref_kind]. rewrite Hnp. cbn [app tree_steps tree_step].
    rewrite !covers_self. pose proof (unused_calmed n T U) as C.
    destruct (theld_raw n n (t :: own) t T n H (or_introl eq_refl) C U (le_n n)) as (T1 & E1 & H1 & C1 & U1). rewrite E1.
    destruct (theld_raw n (S n) (n :: t :: own) n T1 (S n) H1 (or_introl eq_refl) C1 U1 (le_n _)) as (T2 & E2 & H2 & C2 & U2). rewrite E2.
    assert (Hd : exists T3, tree_steps lo (relaxed np disc) T2 = Some T3 /\ theld (S n :: n :: t :: own) T3 /\ unused_in (S (S n)) T3 /\ calmed n T3).
    { destruct Hdisc as [->| ->]; [exists T2; auto|]. cbn [relaxed map relax tree_steps tree_step]. rewrite covers_self.
      destruct (theld_use n (S n :: n :: t :: own) (S n) T2 false H2 (or_introl eq_refl) C2) as (T3 & E3 & H3). rewrite E3.
      exists T3. split; [reflexivity|]. split; [exact H3|]. split; [exact (access_unused _ _ _ _ _ E3 U2)|exact (access_calmed _ _ _ _ _ E3 C2)]. }
    destruct Hd as (T3 & E3 & H3 & U3 & C3). rewrite tree_steps_app, E3. clear T1 T2 E1 H1 C1 U1 E2 H2 C2 U2 E3 C U H.
    rewrite map_flat, !relaxed_flat. rewrite !tree_steps_app.
    rewrite tree_fields by (intros nf; apply relaxed_only; constructor; [reflexivity|constructor]).
    destruct Hcs as [Hn' Hc].
    assert (Hend : forall T4, tlent_at own lo T4 -> calmed n T4 -> unused_in n' T4 ->
      exists T', tree_steps lo [ORelease n] T4 = Some T' /\ tlent own lo T').
    { intros T4 H4 C4 U4. cbn [tree_steps tree_step]. rewrite (calmed_release n n T4 C4 (le_n n)). exists T4. split; [reflexivity|]. split; auto. }
    assert (Hw : incl (t :: own) (S n :: n :: t :: own)) by (intros x Hx; right; right; exact Hx).
    assert (U3' : unused_in n' T3) by (apply (unused_le (S (S n))); [lia|exact U3]).
    destruct lo as [|i].
    - cbv iota. rewrite tree_steps_app, tree_fields by (intros nf; apply relaxed_only; unfold pin_tag; destruct (pin_b (snd nf)); repeat constructor).
      apply Hend; auto. exact (theld_incl _ _ _ H3 Hw).
    - cbn [Nat.leb]. rewrite Nat.sub_0_r. destruct (nth_error l i) as [f|] eqn:Ef.
      2:{ cbv iota. rewrite tree_steps_app, tree_fields by (intros nf; apply relaxed_only; unfold pin_tag; destruct (pin_b (snd nf)); repeat constructor).
          cbn [Nat.leb]. rewrite Nat.sub_0_r, Ef. apply Hend; auto. unfold tlent_at. rewrite Ef. exact (theld_incl _ _ _ H3 Hw). }
      assert (Hi : i < length l) by (apply nth_error_Some; congruence).
      assert (Hin : In (i, f) (enum_from 0 l)) by (apply ProofsRun.enum_from_in; rewrite Nat.sub_0_r; split; [lia|exact Ef]).
      specialize (Hc (i, f) Hin). cbn [fst snd] in Hc.
      assert (Hgo : forall T4, (if np (PlField i) then theld (S (S n) + i :: S n :: n :: t :: own) T4 else tlends n (S n :: n :: t :: own) (S (S n) + i) T4) ->
         calmed n T4 -> unused_in (S (S (S n) + i)) T4 -> exists T',
         tree_steps (LField i) (flat_map (fun x => relaxed np (pin_tag true (fun j => S (S n) + j) cs x)) (enum_from 0 l) ++ [ORelease n]) T4 = Some T' /\ tlent own (LField i) T').
      { intros T4 H4 C4 U4.
        rewrite tree_steps_app, tree_fields by (intros nf; apply relaxed_only; unfold pin_tag; destruct (pin_b (snd nf)); repeat constructor).
        cbn [Nat.leb]. rewrite Nat.sub_0_r, Ef. unfold pin_tag. cbn [fst snd].
        unfold tlent_at in Hend. rewrite Ef in Hend. unfold ptr_of in Hend. destruct (pin_b f) eqn:Ep; cbn [relaxed map relax ref_kind].
        - specialize (Hc eq_refl). assert (Hci : S (S (S n) + i) <= cs i) by (clear - Hc Hi; lia). assert (Hcn : n <= cs i) by lia.
          destruct (np (PlField i)) eqn:En; cbn [tree_steps tree_step covers]; rewrite Nat.eqb_refl.
          + destruct (theld_raw n _ _ (S (S n) + i) T4 (cs i) H4 (or_introl eq_refl) C4 U4 Hci) as (T5 & E5 & H5 & C5 & U5). rewrite E5.
            apply Hend; [|exact C5|apply (unused_le (S (cs i))); [lia|exact U5]].
            apply (theld_incl _ _ _ H5). intros x [Hx|Hx]; [left; exact Hx|]. right. right. exact (Hw x Hx).
          + destruct (tlends_mut n _ _ _ T4 (cs i) H4 C4 U4 Hci Hcn) as (T5 & E5 & H5 & C5 & U5). rewrite E5.
            apply Hend; [exact (tlends_incl _ _ _ _ _ H5 Hw)|exact C5|apply (unused_le (S (cs i))); [lia|exact U5]].
        - cbn [tree_steps]. apply Hend; [|exact C4|apply (unused_le (S (S (S n) + i))); [lia|exact U4]]. destruct (np (PlField i)).
          + apply (theld_incl _ _ _ H4). intros x [Hx|Hx]; [left; exact Hx|]. right. exact (Hw x Hx).
          + exact (tlends_incl _ _ _ _ _ H4 Hw). }
      assert (Hii : S (S n) <= S (S n) + i) by (clear; lia). assert (Hni : n <= S (S n) + i) by (clear; lia).
      unfold field_tag. cbn [relaxed map relax fst ref_kind]. destruct (np (PlField i)) eqn:En; cbn [tree_steps tree_step covers]; rewrite Nat.eqb_refl.
      + destruct (theld_raw n _ _ (S n) T3 (S (S n) + i) H3 (or_introl eq_refl) C3 U3 Hii) as (T4 & E4 & H4 & C4 & U4). rewrite E4.
        apply Hgo; assumption.
      + destruct (theld_mut n _ _ (S n) T3 (S (S n) + i) H3 (or_introl eq_refl) C3 U3 Hii Hni) as (T4 & E4 & H4 & C4 & U4). rewrite E4.
        apply Hgo; assumption.
  Qed.
  Lemma tlent_held own lo T : tlent_at own lo T -> theld (t :: own) T.
  Proof.
    unfold tlent_at. destruct lo as [|i]; [auto|]. destruct (nth_error l i) as [f|]; [|auto]. destruct (np (PlField i)).
    - intros H. apply (theld_incl _ _ _ H). intros y Hy. right. exact Hy.
    - apply tlends_held.
  Qed.
  Lemma tlent_use own ks o lo T : storable np own -> incl (own lo) ks -> through true (parts n cs l) o \/ own_use own true o -> tlent ks lo T ->
    exists T', tree_step lo o T = Some T' /\ tlent ks lo T'.
  Proof.
    intros Hst Hks Ho (U & C & Hl).
    assert (Fin : forall b c T', tree_access b c T = Some T' -> tlent_at ks lo T' -> tlent ks lo T').
    { intros b c T' E H. split; [exact (access_unused _ _ _ _ _ E U)|]. split; [exact (access_calmed _ _ _ _ _ E C)|exact H]. }
    destruct Ho as [Ho|Ho].
    - destruct Ho as (x & p & c & b & Hin & Htg & _ & ->). destruct (parts_target n cs l x p c Hin Htg) as (i & f & Ef & -> & ->).
      cbn [tree_step]. destruct (covers (PlField i) lo) eqn:Cv; [|exists T; split; [reflexivity|]; split; auto].
      destruct lo as [|j]; [discriminate|]. cbn [covers] in Cv. apply Nat.eqb_eq in Cv. subst j. unfold tlent_at in Hl, Fin. rewrite Ef in Hl, Fin.
      destruct (np (PlField i)) eqn:En.
      + destruct (theld_use n _ (ptr i f) T b Hl (or_introl eq_refl) C) as (T' & E & H'). exists T'. split; [exact E|]. exact (Fin _ _ _ E H').
      + destruct (tlends_use n _ _ T b Hl C) as (T' & E & H'). exists T'. split; [exact E|]. exact (Fin _ _ _ E H').
    - destruct Ho as (b & i & r & Hr & _ & ->). pose proof (Hst i r Hr) as En.
      cbn [tree_step]. destruct (covers (PlField i) lo) eqn:Cv; [|exists T; split; [reflexivity|]; split; auto].
      destruct lo as [|j]; [discriminate|]. cbn [covers] in Cv. apply Nat.eqb_eq in Cv. subst j. unfold tlent_at in Hl, Fin.
      destruct (nth_error l i) as [f|] eqn:Ef.
      + rewrite En in Hl, Fin. destruct (theld_use n _ r T b Hl) as (T' & E & H'); [right; right; exact (Hks _ Hr)|exact C|].
        exists T'. split; [exact E|]. exact (Fin _ _ _ E H').
      + destruct (theld_use n _ r T b Hl) as (T' & E & H'); [right; exact (Hks _ Hr)|exact C|]. exists T'. split; [exact E|]. exact (Fin _ _ _ E H').
  Qed.
  Lemma tlent_uses own ks os lo : storable np own -> incl (own lo) ks -> Forall (fun o => through true (parts n cs l) o \/ own_use own true o) os ->
    forall T, tlent ks lo T -> exists T', tree_steps lo os T = Some T' /\ tlent ks lo T'.
  Proof.
    intros Hst Hks H. induction H as [|o os Ho H IH]; intros T HT; [exists T; auto|].
    destruct (tlent_use own ks o lo T Hst Hks Ho HT) as (T1 & E1 & H1). cbn [tree_steps]. rewrite E1. exact (IH T1 H1).
  Qed.
End Project.
Lemma c76_project w a u vp fs uses np own kept t n mem :
  program w a -> has_proj PMut (w_item w) a = true -> value_of (w_item w) u vp fs ->
  np PlSelf = true -> storable np own -> (forall l, incl (own l) (kept l)) -> (forall l, kin (t :: kept l) (mem l)) -> unused n mem ->
  exists ptrs ops n' mem1,
    alias_project w (u_var u) uses "project" true t n = Some (AvProj ptrs, ops, n') /\
    map (fun x => (fst x, forget (snd x))) ptrs = map (fun x => (fst x, Some (snd x))) (references true fs) /\
    grows (relaxed np ops) mem mem1 /\ n <= n' /\
    forall os, Forall (fun o => through true ptrs o \/ own_use own true o) os ->
      exists mem2, grows os mem1 mem2 /\ unused n' mem2 /\ (forall l, kin (t :: kept l) (mem2 l)) /\
        forall x k d, In x ptrs -> snd x = AvPin true (PlField k) d -> np (PlField k) = true ->
          kin (d :: t :: kept (LField k)) (mem2 (LField k)).
Proof.
  intros Hp Hh Hv Hnp Hst Hk Hm Hf.
  destruct (project_explicit w a PMut u vp fs uses t n ltac:(discriminate) Hp Hh Hv) as (self & disc & cs & n' & E & Hd & Hc).
  cbn zeta in E, Hc. cbn [mname kbool] in E. set (l := fields_list (replace_fields self fs)) in *.
  destruct (after_ok (relaxed np (body_ops true t n disc cs l ++ [ORelease n])) mem (fun lo T => tlent np t n n' cs l (kept lo) lo T)) as [R H].
  { intros lo. apply tproject_at; auto. apply kin_held; apply Hm. }
  set (mem1 := after _ mem) in *.
  exists (parts n cs l), (body_ops true t n disc cs l ++ [ORelease n]), n', mem1. split; [exact E|]. split; [apply parts_forget|].
  split; [exact R|]. split; [destruct Hc; lia|]. intros os Hos.
  destruct (after_ok os mem1 (fun lo T => tlent np t n n' cs l (kept lo) lo T)) as [R2 H2].
  { intros lo. apply tlent_uses with (own := own); auto. }
  exists (after os mem1). split; [exact R2|]. split; [intros lo; exact (proj1 (H2 lo))|].
  split.
  - intros lo. apply held_kin. exact (tlent_held _ _ _ _ _ _ _ _ (proj2 (proj2 (H2 lo)))).
  - intros x k d Hx Ex En. assert (Ht : target (snd x) = Some (PlField k, d)) by (rewrite Ex; reflexivity).
    destruct (parts_target n cs l x (PlField k) d Hx Ht) as (i & f & Ef & Ep & ->). injection Ep as <-.
    destruct (H2 (LField k)) as (_ & _ & Hat). unfold tlent_at in Hat. rewrite Ef, En in Hat. exact (held_kin _ _ Hat).
Qed.

(** ** [project_ref] *)
Lemma c76_project_ref w a u vp fs uses np own kept t n mem :
  program w a -> has_proj PRef (w_item w) a = true -> value_of (w_item w) u vp fs ->
  (forall l, incl (own l) (kept l)) -> (forall l, kin (t :: kept l) (mem l)) -> unused n mem ->
  exists ptrs ops n' mem1,
    alias_project w (u_var u) uses "project_ref" false t n = Some (AvProj ptrs, ops, n') /\
    map (fun x => (fst x, forget (snd x))) ptrs = map (fun x => (fst x, Some (snd x))) (references false fs) /\
    grows (relaxed np ops) mem mem1 /\ n <= n' /\ unused n' mem1 /\ (forall l, kin (t :: kept l) (mem1 l)) /\
    forall os, Forall (fun o => through false ptrs o \/ own_use own false o) os -> grows os mem1 mem1.
Proof.
  intros Hp Hh Hv Hks Hm Hf.
  assert (Hh0 : forall l, theld (t :: kept l) (mem l)) by (intros l; apply kin_held, Hm).
  assert (Hu : tree_usable false t mem).
  { intros l. destruct (theld_use n _ t (mem l) false (Hh0 l) (or_introl eq_refl) (unused_calmed _ _ (Hf l))) as (T' & E & _). rewrite E. discriminate. }
  destruct (project_explicit w a PRef u vp fs uses t n ltac:(discriminate) Hp Hh Hv) as (self0 & disc & cs & n0 & E0 & Hd & _).
  destruct (alias_project_go w a PRef u vp fs uses t n ltac:(discriminate) Hp Hh Hv) as (vs & a' & m' & self & E & G & R).
  cbn [mname kbool] in *. cbn zeta in E0. pose proof E as Eops. rewrite E0 in Eops.
  apply (f_equal (fun o => match o with Some (_, x, _) => x | None => [] end)) in Eops. cbv beta iota in Eops.
  destruct (tshared_call t n a' m' mem _ vs Hu Hf G R) as (mem1 & R1 & Hk & U1 & Q & H).
  assert (K : forall l, exists P xs o1, (forall x, In x (t :: kept l) -> tree_path x (tr_ptrs (mem1 l)) = Some P) /\
    tr_nodes (mem1 l) = xs ++ o1 /\ Forall (frozen n) xs /\ Forall (fun u => u < n) P /\
    all_nodes (node_access false P) o1 = Some o1 /\ exists ow, all_nodes (node_access true P) o1 = Some ow).
  { intros l. destruct (Hh0 l) as (P & H1 & ow & Ew). destruct (Q l) as (P2 & o1 & EP & Eo & ps & xs & A & B & C & D). cbn [tr_ptrs tr_nodes] in *.
    rewrite (H1 t (or_introl eq_refl)) in EP. injection EP as <-. exists P, xs, o1. split; [|split; [exact C|split; [exact D|split; [|split]]]].
    - intros x Hx. destruct (unused_path _ _ _ _ (Hf l) (H1 x Hx)) as [Hxn _]. rewrite A, (path_skip n); auto.
    - exact (proj2 (unused_path _ _ _ _ (Hf l) (H1 t (or_introl eq_refl)))).
    - exact (all_idem _ _ _ _ Eo).
    - destruct (all_read_write _ _ _ Ew) as (o2 & E2 & E3). rewrite Eo in E2. injection E2 as <-. eauto. }
  exists vs, (a_ops a' ++ [ORelease n]), (a_next a'), mem1.
  split; [exact E|]. split; [exact (forget_refs false self fs m' vs R)|].
  split; [rewrite <- Eops, (relaxed_shared np t n disc cs _ Hd), Eops; exact R1|]. split; [exact Hk|]. split; [exact U1|]. split.
  - intros l. apply held_kin. destruct (K l) as (P & xs & o1 & K1 & K2 & K3 & K4 & K5 & ow & K6). exists P. split; [exact K1|].
    destruct (kill_new n P xs K4) as (ys & Ey & _).
    { eapply Forall_impl; [|exact K3]. intros x (F & _ & F3). auto. }
    exists (ys ++ ow). rewrite K2, all_nodes_app, Ey, K6. reflexivity.
  - intros os Hos. induction Hos as [|o os Ho Hos IH]; [apply grows_nil|].
    change (o :: os) with ([o] ++ os). eapply grows_app; [|exact IH]. destruct Ho as [Ho|Ho].
    + destruct Ho as (x & p & c & b & Hx & Tx & Hb & ->). destruct b; [specialize (Hb eq_refl); discriminate|].
      intros l. cbn [tree_steps tree_step]. destruct (covers p l) eqn:C; [|reflexivity]. rewrite (H x p c Hx Tx l C). reflexivity.
    + destruct Ho as (b & i & r & Hr & Hb & ->). destruct b; [specialize (Hb eq_refl); discriminate|].
      intros l. cbn [tree_steps tree_step]. destruct (covers (PlField i) l) eqn:C; [|reflexivity].
      destruct l as [|j]; [discriminate|]. cbn [covers] in C. apply Nat.eqb_eq in C. subst j.
      destruct (K (LField i)) as (P & xs & o1 & K1 & K2 & K3 & K4 & K5 & _).
      rewrite (access_of false r (mem1 (LField i)) P (tr_nodes (mem1 (LField i)))); [destruct (mem1 (LField i)); reflexivity|apply K1; right; exact (Hks _ _ Hr)|].
      rewrite K2, all_nodes_app, (frozen_read n P xs K3), K5. reflexivity.
Qed.

(** ** The destructor *)
Fixpoint tfits (n0 : nat) (xs : list nat) (lo hi : nat) (os : list op) : Prop :=
  match os with
  | [] => lo <= hi
  | ORetag PkRaw false PlSelf f new :: r => In f xs /\ lo <= new /\ tfits n0 (new :: xs) (S new) hi r
  | OUse _ _ c :: r => In c xs /\ tfits n0 xs lo hi r
  | ORelease u :: r => n0 <= u /\ tfits n0 xs lo hi r
  | _ => False
  end.
Lemma fits_tfits n0 os : (forall u, In (ORelease u) os -> n0 <= u) -> forall xs lo hi, fits_ops xs lo hi os -> tfits n0 xs lo hi os.
Proof.
  induction os as [|o os IH]; intros Hu xs lo hi H; [exact H|]. specialize (IH (fun u Hx => Hu u (or_intror Hx))).
  destruct o as [[] [] [] f new|b p c|r]; cbn [fits_ops tfits] in *; try destruct H.
  - destruct H0 as [H1 H2]. auto.
  - auto.
  - split; [apply Hu; left; reflexivity|auto].
Qed.
Lemma tmixed_at own kept lo os us all : incl (own lo) (kept lo) -> mixed os us all -> Forall (own_use own true) us -> forall n0 xs n n' T,
  tfits n0 xs n n' os -> theld (xs ++ kept lo) T -> calmed n0 T -> unused_in n T ->
  exists T', tree_steps lo all T = Some T' /\ theld (xs ++ kept lo) T' /\ unused_in n' T'.
Proof.
  intros Hks. induction 1 as [|o os us all H IH|u os us all H IH]; intros Hus n0 xs n n' T Ho HT Hc Hu.
  - exists T. split; [reflexivity|]. split; [exact HT|]. exact (unused_le _ _ _ Ho Hu).
  - assert (Huse : forall b p c, In c xs -> exists T1, tree_step lo (OUse b p c) T = Some T1 /\ theld (xs ++ kept lo) T1 /\ calmed n0 T1 /\ unused_in n T1).
    { intros b p c Hx. cbn [tree_step]. destruct (covers p lo); [|exists T; auto].
      destruct (theld_use n0 (xs ++ kept lo) c T b HT (in_or_app _ _ _ (or_introl Hx)) Hc) as (T1 & E1 & H1).
      exists T1. split; [exact E1|]. split; [exact H1|]. split; [exact (access_calmed _ _ _ _ _ E1 Hc)|exact (access_unused _ _ _ _ _ E1 Hu)]. }
    destruct o as [[] [] [] f new|b p c|r]; cbn [tfits] in Ho; try destruct Ho.
    + destruct H1 as [Hle Hr]. cbn [tree_steps tree_step]. rewrite covers_self.
      destruct (theld_raw n0 n (xs ++ kept lo) f T new HT (in_or_app _ _ _ (or_introl H0)) Hc Hu Hle) as (T1 & E1 & H1 & C1 & U1). rewrite E1.
      destruct (IH Hus n0 (new :: xs) (S new) n' T1 Hr H1 C1 U1) as (T' & E & HT' & HU').
      exists T'. split; [exact E|]. split; [apply (theld_incl _ _ _ HT'); intros y Hy; right; exact Hy|exact HU'].
    + cbn [tree_steps]. destruct (Huse b p c H0) as (T1 & E1 & HT1 & HC1 & HU1). rewrite E1. exact (IH Hus n0 xs n n' T1 H1 HT1 HC1 HU1).
    + cbn [tree_steps tree_step]. rewrite (calmed_release n0 r T Hc H0). exact (IH Hus n0 xs n n' T H1 HT Hc Hu).
  - inversion Hus as [|x y Hx Hus']; subst. destruct Hx as (b & i & r & Hr & _ & ->). cbn [tree_steps].
    assert (exists T1, tree_step lo (OUse b (PlField i) r) T = Some T1 /\ theld (xs ++ kept lo) T1 /\ calmed n0 T1 /\ unused_in n T1) as (T1 & E1 & HT1 & HC1 & HU1).
    { cbn [tree_step]. destruct (covers (PlField i) lo) eqn:C; [|exists T; auto].
      destruct lo as [|j]; [discriminate|]. cbn [covers] in C. apply Nat.eqb_eq in C. subst j.
      destruct (theld_use n0 (xs ++ kept (LField i)) r T b HT (in_or_app _ _ _ (or_intror (Hks _ Hr))) Hc) as (T1 & E1 & H1).
      exists T1. split; [exact E1|]. split; [exact H1|]. split; [exact (access_calmed _ _ _ _ _ E1 Hc)|exact (access_unused _ _ _ _ _ E1 Hu)]. }
    rewrite E1. exact (IH Hus' n0 xs n n' T1 Ho HT1 HC1 HU1).
Qed.
Lemma drop_releases w a v uses t n ops n' : program w a -> alias_destroy w v uses t n = Some (AvOwned, ops, n') ->
  forall u, In (ORelease u) ops -> n <= u.
Proof.
  intros Hp. unfold alias_destroy. rewrite (program_drop w a Hp). destruct (ar_pinned_drop a); [|intros E; injection E as <- <-; intros u []].
  pose proof (program_scope _ _ Hp) as Hw.
  unfold alias_method. cbn [drop_method m_params m_body map rev app].
  unfold drop_body. cbn [alias_body alias_stmts alias_stmt alias_rhs alias_atom].
  change (is_wild (PBind (I "__pinned_self"))) with false. cbv iota.
  unfold alias_call at 1. rewrite (support_pp w Hw). cbn [lookup].
  assert (same_name (I "self") (I "self") = true) as E by reflexivity. rewrite E.
  cbn [derive_ptr alias_coerce alias_pat take]. rewrite E, (pg_locals _ _ Hp "__pinned_self") by (cbn; auto). cbn [app].
  unfold alias_call. rewrite (support_pp w Hw). cbn [lookup].
  assert (same_name (I "__pinned_self") (I "__pinned_self") = true) as E2 by reflexivity. rewrite E2.
  cbn [take]. rewrite E2. cbn [alias_drop alias_finish alias_drops]. unfold user_code. cbn [a_next a_ops].
  intros Eo. injection Eo as <- <-. intros u Hin.
  repeat (apply in_app_or in Hin; destruct Hin as [Hin|Hin]); cbn [In] in Hin;
    repeat match goal with H : _ \/ _ |- _ => destruct H as [H|H] end; try discriminate; try (injection Hin as <-; lia); try contradiction;
    try (apply in_flat_map in Hin; destruct Hin as (x & _ & Hin); destruct (inside (snd x) PlSelf); [destruct Hin as [Hin|[]]; discriminate|destruct Hin]).
  all: repeat (apply in_app_or in Hin; destruct Hin as [Hin|Hin]); cbn [In] in Hin;
    repeat match goal with H : _ \/ _ |- _ => destruct H as [H|H] end; try discriminate; try (injection Hin as <-; lia); try contradiction;
    try (apply in_flat_map in Hin; destruct Hin as (x & _ & Hin); destruct (inside (snd x) PlSelf); [destruct Hin as [Hin|[]]; discriminate|destruct Hin]).
Qed.
Lemma relaxed_release np os u : In (ORelease u) (relaxed np os) -> In (ORelease u) os.
Proof.
  unfold relaxed. intros H. apply in_map_iff in H. destruct H as (o & E & Ho). destruct o as [[] pr p f c| |]; cbn in E; try discriminate; [|injection E as <-; exact Ho].
  destruct (np p); discriminate.
Qed.
Lemma c76_drop w a v uses np own kept t n mem :
  program w a -> np PlSelf = true -> (forall l, incl (own l) (kept l)) -> (forall l, kin (t :: kept l) (mem l)) -> unused n mem ->
  exists ops n', alias_destroy w v uses t n = Some (AvOwned, ops, n') /\ n <= n' /\
    forall us all, Forall (own_use own true) us -> mixed (relaxed np ops) us all ->
      exists mem', grows all mem mem' /\ unused n' mem' /\ forall l, kin (t :: kept l) (mem' l).
Proof.
  intros Hp Hnp Hks Hm Hf. destruct (drop_explicit w a v uses t n Hp) as (ops & n' & E & H). exists ops, n'. split; [exact E|].
  specialize (H np Hnp). split; [exact (fits_le _ _ _ _ H)|]. intros us all Hus Hmix.
  assert (Ht : tfits n [t] n n' (relaxed np ops)).
  { apply fits_tfits; [|exact H]. intros u Hu. exact (drop_releases w a v uses t n ops n' Hp E u (relaxed_release _ _ _ Hu)). }
  destruct (after_ok all mem (fun lo T => theld (t :: kept lo) T /\ unused_in n' T)) as [R Hr].
  { intros lo. exact (tmixed_at own kept lo _ _ _ (Hks lo) Hmix Hus n [t] n n' (mem lo) Ht (kin_held _ _ _ (Hm lo)) (unused_calmed _ _ (Hf lo)) (Hf lo)). }
  exists (after all mem). split; [exact R|]. split; [intros lo; exact (proj2 (Hr lo))|].
  intros lo. apply held_kin. exact (proj1 (Hr lo)).
Qed.

(** ** All of it *)
Lemma c76_life w a v uses np own kept t n ops n' mem :
  program w a -> variant_of_item (w_item w) v -> np PlSelf = true -> storable np own ->
  (forall l, incl (own l) (kept l)) -> (forall l, kin (t :: kept l) (mem l)) -> unused n mem -> life w a v uses np own t n ops n' ->
  exists mem', grows ops mem mem' /\ unused n' mem' /\ forall l, kin (t :: kept l) (mem' l).
Proof.
  intros Hp (u & vp & fs & Hv & <-) Hnp Hst Hks Hm Hf H. revert mem Hm Hf.
  induction H as [n|n o os n' Ho H IH|n ptrs ops n1 us os n' Hh E Hus H IH|n ptrs ops n1 us os n' Hh E Hus H IH|n r ops n1 us all os n' E Hus Hmix H IH]; intros mem Hm Hf.
  - exists mem. split; [apply grows_nil|]. auto.
  - destruct (after_ok [o] mem (fun lo T => theld (t :: kept lo) T /\ unused_in n T)) as [R1 H1].
    { intros lo. assert (mixed [] [o] [o]) as Hmix by (repeat constructor).
      apply (tmixed_at own kept lo [] [o] [o] (Hks lo) Hmix (Forall_cons _ Ho (Forall_nil _)) n [t] n n (mem lo)); [cbn; lia|apply kin_held; apply Hm|apply unused_calmed, Hf|apply Hf]. }
    destruct (IH (after [o] mem)) as (m2 & R2 & F2 & T2).
    { intros l. apply held_kin. exact (proj1 (H1 l)). }
    { intros l. exact (proj2 (H1 l)). }
    exists m2. split; [|auto]. change (o :: os) with ([o] ++ os). eapply grows_app; eassumption.
  - destruct (c76_project w a u vp fs uses np own kept t n mem Hp Hh Hv Hnp Hst Hks Hm Hf) as (ptrs' & ops' & n1' & m1 & E' & _ & R1 & _ & K).
    rewrite E in E'. injection E' as <- <- <-. destruct (K us Hus) as (m2 & R2 & F2 & T2 & _).
    destruct (IH m2 T2 F2) as (m3 & R3 & F3 & T3). exists m3. split; [|auto]. eapply grows_app; [exact R1|]. eapply grows_app; eassumption.
  - destruct (c76_project_ref w a u vp fs uses np own kept t n mem Hp Hh Hv Hks Hm Hf) as (ptrs' & ops' & n1' & m1 & E' & _ & R1 & _ & F1 & T1 & K).
    rewrite E in E'. injection E' as <- <- <-. pose proof (K us Hus) as R2.
    destruct (IH m1 T1 F1) as (m3 & R3 & F3 & T3). exists m3. split; [|auto]. eapply grows_app; [exact R1|]. eapply grows_app; eassumption.
  - destruct (c76_drop w a (u_var u) uses np own kept t n mem Hp Hnp Hks Hm Hf) as (ops' & n1' & E' & _ & K).
    rewrite E in E'. injection E' as -> <- <-. destruct (K us all Hus Hmix) as (m1 & R1 & F1 & T1).
    destruct (IH m1 T1 F1) as (m3 & R3 & F3 & T3). exists m3. split; [|auto]. eapply grows_app; eassumption.
Qed.
Lemma c76_use ts s t b n : kin ts s -> In t ts -> unused_in n s ->
  exists s', tree_access b t s = Some s' /\ kin ts s' /\ unused_in n s'.
Proof.
  intros H Ht U. destruct ts as [|t0 ts]; [destruct Ht|].
  destruct (theld_use n (t0 :: ts) t s b (kin_held _ _ _ H) Ht (unused_calmed _ _ U)) as (s' & E & H'). exists s'. split; [exact E|].
  split; [exact (held_kin _ _ H')|exact (access_unused _ _ _ _ _ E U)].
Qed.

(** ** Fields of fields *)
Lemma grows_unique os m m1 m2 : grows os m m1 -> grows os m m2 -> forall l, m1 l = m2 l.
Proof. intros H1 H2 l. specialize (H1 l). specialize (H2 l). congruence. Qed.
Lemma self_within_kin kept t n mem ks c n' mem' : (forall l, kin (t :: kept l) (mem l)) -> unused n mem ->
  self_within kept t n mem ks c n' mem' -> (forall l, kin (c :: ks l) (mem' l)) /\ unused n' mem' /\ forall l, In t (c :: ks l).
Proof.
  intros Hm Hf H.
  induction H as [|ks c n1 mem1 w a v uses np own ops n2 mem2 H IH Hp Hv Hnp Hst Hks Hl G
                  |ks c n1 mem1 w a v uses np own ptrs ops us n2 mem2 x k d H IH Hp Hh Hv Hnp Hst Hks E Hus G Hx Ex En].
  - split; [exact Hm|]. split; [exact Hf|]. intros l. left. reflexivity.
  - destruct IH as (K & F & T). destruct (c76_life w a v uses np own ks c n1 ops n2 mem1 Hp Hv Hnp Hst Hks K F Hl) as (m2 & G2 & F2 & K2).
    pose proof (grows_unique _ _ _ _ G G2) as Q. split; [|split; [|exact T]]; intros l; rewrite Q; [apply K2|apply F2].
  - destruct IH as (K & F & T). destruct Hv as (u & vp & fs & Hv & <-).
    destruct (c76_project w a u vp fs uses np own ks c n1 mem1 Hp Hh Hv Hnp Hst Hks K F) as (ptrs' & ops' & n2' & m1 & E' & _ & R1 & _ & Q1).
    rewrite E in E'. injection E' as <- <- <-. destruct (Q1 us Hus) as (m2 & R2 & F2 & _ & P2).
    pose proof (grows_unique _ _ _ _ G (grows_app _ _ _ _ _ R1 R2)) as Q. rewrite Q.
    split; [|split].
    + intros _. exact (P2 x k d Hx Ex En).
    + intros _. apply F2.
    + intros _. right. apply T.
Qed.
Lemma c76_within kept t n mem ks c n' mem' : (forall l, kin (t :: kept l) (mem l)) -> unused n mem ->
  self_within kept t n mem ks c n' mem' ->
  (forall l, kin (c :: ks l) (mem' l)) /\ unused n' mem' /\ (forall l, In t (c :: ks l)) /\
  forall w a v uses np own ops n2, program w a -> variant_of_item (w_item w) v -> np PlSelf = true -> storable np own ->
    (forall l, incl (own l) (ks l)) -> life w a v uses np own c n' ops n2 ->
    exists mem2, grows ops mem' mem2 /\ forall l, kin (c :: ks l) (mem2 l).
Proof.
  intros Hm Hf H. destruct (self_within_kin _ _ _ _ _ _ _ _ Hm Hf H) as (K & F & T). split; [exact K|]. split; [exact F|]. split; [exact T|].
  intros w a v uses np own ops n2 Hp Hv Hnp Hst Hks Hl.
  destruct (c76_life w a v uses np own ks c n' ops n2 mem' Hp Hv Hnp Hst Hks K F Hl) as (m2 & G & _ & K2). eauto.
Qed.
