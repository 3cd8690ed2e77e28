(** Pointers from a pinned field to itself: the calls. *)
From Coq Require Import String Ascii List Bool Arith Lia.
From Verif Require Import Base Syntax ModelArgs ModelUtils ModelDerive ModelRun ModelAlias.
From Verif Require Import SpecArgs SpecDerive SpecExpand SpecRun SpecAlias SpecSelfRef.
From Verif Require Import ProofsArgs ProofsUtils ProofsDerive ProofsExpand ProofsTypes ProofsRun ProofsRunProj ProofsRunReplace.
From Verif Require Import ProofsRunDrop ProofsAlias ProofsAliasRun ProofsAliasCall ProofsAliasMain ProofsSelfRef ProofsSelfRefOps.
Import ListNotations.
Open Scope string_scope.
Open Scope list_scope.

Definition low (n : nat) (s : stack) : Prop := Forall (fun e => en_tag e < n) s.
Lemma low_le n m s : low n s -> n <= m -> low m s.
Proof. intros H Hm. eapply Forall_impl; [|exact H]. intros e He. cbn in *. lia. Qed.
Lemma access_lows b x s s' n : access b x s = Some s' -> low n s -> low n s'.
Proof.
  intros E H. apply Forall_forall. intros e He. destruct (access_tags _ _ _ _ e E He) as (y & Hy & <-).
  unfold low in H. rewrite Forall_forall in H. exact (H y Hy).
Qed.
Lemma retag_lows k pr x new s s' n : retag k pr x new s = Some s' -> low n s -> n <= new -> low (S new) s'.
Proof.
  intros E H Hn. assert (Hacc : forall b s1, access b x s = Some s1 -> low (S new) s1) by (intros b s1 E1; apply (low_le n); [exact (access_lows _ _ _ _ _ E1 H)|lia]).
  destruct k; cbn [retag] in E.
  - destruct (access true x s) as [s1|] eqn:E1; [|discriminate]. injection E as <-. constructor; [cbn; lia|exact (Hacc _ _ E1)].
  - destruct (access false x s) as [s1|] eqn:E1; [|discriminate]. injection E as <-. constructor; [cbn; lia|exact (Hacc _ _ E1)].
  - destruct (granting true x s) as [[[above g] below]|] eqn:Eg; [|discriminate]. apply granting_split in Eg. destruct Eg as (Es & _ & _).
    assert (Ha : fst (incompatible g above) ++ snd (incompatible g above) = above).
    { unfold incompatible. destruct (is_raw g); [symmetry; apply split_raw_eq|apply app_nil_r]. }
    destruct (incompatible g above) as [gone kept]. cbn [fst snd] in Ha. injection E as <-.
    assert (H' : low (S new) (gone ++ kept ++ g :: below)) by (rewrite app_assoc, Ha, <- Es; apply (low_le n); [exact H|lia]).
    unfold low in *. apply Forall_app in H'. destruct H' as [H1 H2]. apply Forall_app. split; [exact H1|]. constructor; [cbn; lia|exact H2].
Qed.
Lemma held_low ts n s x : held ts s -> low n s -> In x ts -> x < n.
Proof.
  intros (junk & raws & rest & -> & _ & _ & _ & _ & Hi) H Hx. apply Hi in Hx. apply in_map_iff in Hx. destruct Hx as (e & <- & He).
  unfold low in H. rewrite Forall_forall in H. apply H. apply in_or_app. right. apply in_or_app. left. exact He.
Qed.
Lemma low_neq n s new : low n s -> n <= new -> Forall (fun e => en_tag e <> new) s.
Proof. intros H Hn. eapply Forall_impl; [|exact H]. intros e He. cbn in *. lia. Qed.
Lemma release_tag n e : en_tag (release n e) = en_tag e.
Proof. unfold release. destruct (Nat.eqb _ _); reflexivity. Qed.
Lemma release_perm n e : en_perm (release n e) = en_perm e.
Proof. unfold release. destruct (Nat.eqb _ _); reflexivity. Qed.
Lemma held_release ts s n : held ts s -> held ts (map (release n) s).
Proof.
  intros H. apply held_together in H. apply together_held. destruct H as (above & group & below & -> & Hg & Ha & Hi).
  exists (map (release n) above), (map (release n) group), (map (release n) below). rewrite !map_app. split; [reflexivity|]. split; [|split].
  - apply Forall_map. eapply Forall_impl; [|exact Hg]. intros e He. rewrite release_perm. exact He.
  - apply Forall_map. eapply Forall_impl; [|exact Ha]. intros e (H1 & H2). rewrite release_tag. split; [|exact H2].
    unfold release. destruct (Nat.eqb _ _); [reflexivity|exact H1].
  - intros x Hx. rewrite map_map. specialize (Hi x Hx). apply in_map_iff in Hi. destruct Hi as (e & <- & He).
    apply in_map_iff. exists e. split; [apply release_tag|exact He].
Qed.
Lemma low_release m s n : low m s -> low m (map (release n) s).
Proof. intros H. apply Forall_map. eapply Forall_impl; [|exact H]. intros e He. rewrite release_tag. exact He. Qed.

(** ** Memory *)
Lemma runs_each os mem (P : loc -> stack -> Prop) : (forall l, exists s, steps l os (mem l) = Some s /\ P l s) ->
  exists mem', runs os mem mem' /\ forall l, P l (mem' l).
Proof.
  intros H. exists (fun l => match steps l os (mem l) with Some s => s | None => [] end). split.
  - intros l. destruct (H l) as (s & -> & _). reflexivity.
  - intros l. destruct (H l) as (s & -> & Hs). exact Hs.
Qed.
Definition only (p : place) (o : op) : Prop :=
  match o with ORetag _ _ q _ _ | OUse _ q _ => q = p | ORelease _ => False end.
Lemma steps_other l p os s : Forall (only p) os -> covers p l = false -> steps l os s = Some s.
Proof.
  intros H Hl. induction H as [|o os Ho H IH]; [reflexivity|]. cbn [steps].
  assert (step l o s = Some s) as ->; [|exact IH]. destruct o; cbn in Ho; [| |destruct Ho]; subst; cbn [step]; rewrite Hl; reflexivity.
Qed.
Lemma steps_fields {A} (G : nat * A -> list op) lo xs : (forall nf, Forall (only (PlField (fst nf))) (G nf)) -> forall k s,
  steps lo (flat_map G (enum_from k xs)) s =
  match lo with
  | LRest => Some s
  | LField i => match (if Nat.leb k i then nth_error xs (i - k) else None) with Some f => steps lo (G (i, f)) s | None => Some s end
  end.
Proof.
  intros HG. induction xs as [|x xs IH]; intros k s; cbn [enum_from flat_map].
  - destruct lo as [|i]; [reflexivity|]. destruct (Nat.leb k i); [|reflexivity]. destruct (i - k); reflexivity.
  - rewrite steps_app. destruct (covers (PlField k) lo) eqn:C.
    + destruct lo as [|i]; [discriminate|]. cbn [covers] in C. apply Nat.eqb_eq in C. subst i. rewrite Nat.leb_refl, Nat.sub_diag. cbn [nth_error].
      destruct (steps (LField k) (G (k, x)) s) as [s1|]; [|reflexivity]. rewrite IH.
      destruct (Nat.leb_spec (S k) k); [lia|reflexivity].
    + rewrite (steps_other lo (PlField k) _ _ (HG (k, x)) C), IH. destruct lo as [|i]; [reflexivity|].
      cbn [covers] in C. apply Nat.eqb_neq in C. destruct (Nat.leb_spec (S k) i), (Nat.leb_spec k i); try lia; [|reflexivity].
      replace (i - k) with (S (i - S k)) by lia. reflexivity.
Qed.
Lemma map_flat {A} (f : A -> op) l : map f l = flat_map (fun x => [f x]) l.
Proof. induction l as [|x l IH]; [reflexivity|]. cbn. rewrite IH. reflexivity. Qed.
Lemma relaxed_flat {A} np (G : A -> list op) l : relaxed np (flat_map G l) = flat_map (fun x => relaxed np (G x)) l.
Proof. unfold relaxed. induction l as [|x l IH]; [reflexivity|]. cbn [flat_map]. rewrite map_app, IH. reflexivity. Qed.
Lemma relaxed_app np a b : relaxed np (a ++ b) = relaxed np a ++ relaxed np b.
Proof. apply map_app. Qed.
Lemma relaxed_only np p os : Forall (only p) os -> Forall (only p) (relaxed np os).
Proof.
  intros H. apply Forall_map. eapply Forall_impl; [|exact H]. intros o Ho. destruct o as [[] pr q f t'| |]; cbn in *; try exact Ho.
  destruct (np q); exact Ho.
Qed.

(** ** [project] *)
Section Project.
  Variables (np : place -> bool) (t n n' : nat) (disc : list op) (cs : nat -> nat) (l : list field).
  Hypothesis (Hnp : np PlSelf = true) (Hdisc : disc = [] \/ disc = [OUse false PlSelf (S n)]) (Hcs : good_cs n n' cs l).
  Definition ptr_of (i : nat) (f : field) : nat := if pin_b f then cs i else S (S n) + i.
  (** What a location looks like afterwards, as long as the results are used. *)
  Definition lent (own : list nat) (lo : loc) (s : stack) : Prop :=
    low n' s /\ held (t :: own) s /\
    match lo with
    | LRest => True
    | LField i => match nth_error l i with
                  | Some f => if np (PlField i) then held (ptr_of i f :: t :: own) s else exists s1, s = mkEntry (ptr_of i f) Unique false :: s1
                  | None => True
                  end
    end.
  Lemma project_at own lo s : held (t :: own) s -> low n s ->
    exists s', steps lo (relaxed np (body_ops true t n disc cs l ++ [ORelease n])) s = Some s' /\ lent own lo s'.
  Proof.
    intros H L. unfold body_ops. rewrite !relaxed_app, <- !app_assoc. cbn [relaxed map relax ref_kind]. rewrite Hnp. cbn [app steps step].
    rewrite !covers_self.
    destruct (held_raw (t :: own) s t H (or_introl eq_refl) n (low_neq n s n L (le_n n))) as (s1 & E1 & H1). rewrite E1.
    pose proof (retag_lows _ _ _ _ _ _ _ E1 L (le_n n)) as L1.
    destruct (held_raw (n :: t :: own) s1 n H1 (or_introl eq_refl) (S n) (low_neq _ s1 _ L1 (le_n _))) as (s2 & E2 & H2). rewrite E2.
    pose proof (retag_lows _ _ _ _ _ _ _ E2 L1 (le_n _)) as L2.
    assert (Hd : exists s3, steps lo (relaxed np disc) s2 = Some s3 /\ held (S n :: n :: t :: own) s3 /\ low (S (S n)) s3).
    { destruct Hdisc as [->| ->]; [exists s2; auto|]. cbn [relaxed map relax steps step]. rewrite covers_self.
      destruct (held_read (S n :: n :: t :: own) s2 (S n) H2 (or_introl eq_refl)) as (s3 & E3 & H3). rewrite E3.
      exists s3. split; [reflexivity|]. split; [exact H3|]. exact (access_lows _ _ _ _ _ E3 L2). }
    destruct Hd as (s3 & E3 & H3 & L3). rewrite steps_app, E3. clear s1 s2 E1 H1 L1 E2 H2 L2 E3.
    rewrite map_flat, !relaxed_flat. rewrite !steps_app.
    rewrite steps_fields by (intros nf; apply relaxed_only; constructor; [reflexivity|constructor]).
    destruct Hcs as [Hn' Hc].
    assert (Hend : forall s4, held (t :: own) s4 -> low n' s4 -> nth_error l (match lo with LField i => i | LRest => length l end) = None ->
      exists s', steps lo [ORelease n] s4 = Some s' /\ lent own lo s').
    { intros s4 H4 L4 Hnone. cbn [steps step]. eexists. split; [reflexivity|]. split; [apply low_release; exact L4|].
      split; [apply held_release; exact H4|]. destruct lo as [|i]; [exact Logic.I|]. rewrite Hnone. exact Logic.I. }
    assert (Hw : incl (t :: own) (S n :: n :: t :: own)) by (intros x Hx; right; right; exact Hx).
    destruct lo as [|i].
    - cbv iota. rewrite steps_app, steps_fields by (intros nf; apply relaxed_only; unfold pin_tag; destruct (pin_b (snd nf)); repeat constructor).
      apply Hend; [exact (held_incl _ _ _ H3 Hw)|apply (low_le _ _ _ L3); lia|]. apply nth_error_None. lia.
    - cbn [Nat.leb]. rewrite Nat.sub_0_r. destruct (nth_error l i) as [f|] eqn:Ef.
      2:{ cbv iota. rewrite steps_app, steps_fields by (intros nf; apply relaxed_only; unfold pin_tag; destruct (pin_b (snd nf)); repeat constructor).
          cbn [Nat.leb]. rewrite Nat.sub_0_r, Ef. apply Hend; [exact (held_incl _ _ _ H3 Hw)|apply (low_le _ _ _ L3); lia|reflexivity]. }
      assert (Hi : i < length l) by (apply nth_error_Some; congruence).
      assert (Hin : In (i, f) (enum_from 0 l)) by (apply ProofsRun.enum_from_in; rewrite Nat.sub_0_r; split; [lia|exact Ef]).
      specialize (Hc (i, f) Hin). cbn [fst snd] in Hc.
      assert (Htl : forall x, In x (S n :: n :: t :: own) -> x < S (S n)) by (intros x Hx; exact (held_low _ _ _ x H3 L3 Hx)).
      assert (Hgo : forall s4, (if np (PlField i) then held (S (S n) + i :: S n :: n :: t :: own) s4 else held (S n :: n :: t :: own) s4 /\ exists r, s4 = mkEntry (S (S n) + i) Unique false :: r) ->
         low (S (S (S n) + i)) s4 -> exists s',
         steps (LField i) (flat_map (fun x => relaxed np (pin_tag true (fun j => S (S n) + j) cs x)) (enum_from 0 l) ++ [ORelease n]) s4 = Some s' /\ lent own (LField i) s').
      { intros s4 H4 L4.
        rewrite steps_app, steps_fields by (intros nf; apply relaxed_only; unfold pin_tag; destruct (pin_b (snd nf)); repeat constructor).
        cbn [Nat.leb]. rewrite Nat.sub_0_r, Ef. unfold pin_tag. cbn [fst snd].
        assert (Hfin : forall s5, (if np (PlField i) then held (ptr_of i f :: t :: own) s5 else held (t :: own) s5 /\ exists r, s5 = mkEntry (ptr_of i f) Unique false :: r) ->
          low n' s5 -> exists s', steps (LField i) [ORelease n] s5 = Some s' /\ lent own (LField i) s').
        { intros s5 H5 L5. cbn [steps step]. eexists. split; [reflexivity|]. split; [apply low_release; exact L5|]. rewrite Ef.
          destruct (np (PlField i)).
          - split; [apply held_release; apply (held_incl _ _ _ H5); intros x Hx; right; exact Hx|apply held_release; exact H5].
          - destruct H5 as (H5 & r & ->). split; [apply held_release; exact H5|]. cbn [map]. unfold release at 1. cbn [en_tag en_perm].
            assert (Nat.eqb (ptr_of i f) n = false) as ->.
            { apply Nat.eqb_neq. unfold ptr_of. destruct (pin_b f); [specialize (Hc eq_refl)|]; lia. }
            eauto. }
        unfold ptr_of in Hfin. destruct (pin_b f) eqn:Ep; cbn [relaxed map relax ref_kind].
        - specialize (Hc eq_refl). assert (Hci : S (S (S n) + i) <= cs i) by (clear - Hc Hi; lia). destruct (np (PlField i)) eqn:En; cbn [steps step covers]; rewrite Nat.eqb_refl.
          + destruct (held_raw _ s4 (S (S n) + i) H4 (or_introl eq_refl) (cs i) (low_neq _ s4 _ L4 Hci)) as (s5 & E5 & H5). rewrite E5.
            apply Hfin.
            * apply (held_incl _ _ _ H5). intros x [Hx|Hx]; [left; exact Hx|]. right. right. exact (Hw x Hx).
            * apply (low_le (S (cs i))); [|lia]. exact (retag_lows _ _ _ _ _ _ _ E5 L4 Hci).
          + destruct H4 as (H4 & r & ->).
            destruct (held_child (S n :: n :: t :: own) r (S (S n) + i) false (cs i) H4) as (E5 & H5).
            { intros Hx. specialize (Htl _ Hx). lia. }
            rewrite E5. apply Hfin; [split; [exact (held_incl _ _ _ H5 Hw)|eauto]|].
            apply (low_le (S (cs i))); [|lia]. exact (retag_lows _ _ _ _ _ _ _ E5 L4 Hci).
        - cbn [steps]. apply Hfin; [|apply (low_le _ _ _ L4); lia]. destruct (np (PlField i)).
          + apply (held_incl _ _ _ H4). intros x [Hx|Hx]; [left; exact Hx|]. right. exact (Hw x Hx).
          + destruct H4 as (H4 & Hr). split; [exact (held_incl _ _ _ H4 Hw)|exact Hr]. }
      assert (Hii : S (S n) <= S (S n) + i) by (clear; lia).
      unfold field_tag. cbn [relaxed map relax fst ref_kind]. destruct (np (PlField i)) eqn:En; cbn [steps step covers]; rewrite Nat.eqb_refl.
      + destruct (held_raw _ s3 (S n) H3 (or_introl eq_refl) (S (S n) + i) (low_neq _ s3 _ L3 Hii)) as (s4 & E4 & H4). rewrite E4.
        apply Hgo; [exact H4|]. exact (retag_lows _ _ _ _ _ _ _ E4 L3 Hii).
      + destruct (held_mut _ s3 (S n) H3 (or_introl eq_refl) (S (S n) + i)) as (s4 & E4 & H4 & _).
        { intros Hx. specialize (Htl _ Hx). lia. }
        rewrite E4. apply Hgo; [split; [exact H4|eauto]|]. exact (retag_lows _ _ _ _ _ _ _ E4 L3 Hii).
  Qed.

  Definition parts : list (option ident * av) := map (part_of true (fun j => S (S n) + j) cs) (enum_from 0 l).
  Lemma parts_target x p c : In x parts -> target (snd x) = Some (p, c) -> exists i f, nth_error l i = Some f /\ p = PlField i /\ c = ptr_of i f.
  Proof.
    intros Hin Ht. apply in_map_iff in Hin. destruct Hin as ([i f] & <- & Hi). apply ProofsRun.enum_from_in in Hi. destruct Hi as [_ Hi].
    rewrite Nat.sub_0_r in Hi. exists i, f. split; [exact Hi|]. unfold part_of in Ht. cbn [fst snd] in Ht. unfold ptr_of.
    destruct (pin_b f); cbn [target] in Ht; injection Ht as <- <-; auto.
  Qed.
  Lemma lent_use own ks o lo s : storable np own -> incl (own lo) ks -> through true parts o \/ own_use own true o -> lent ks lo s ->
    exists s', step lo o s = Some s' /\ lent ks lo s'.
  Proof.
    intros Hst Hks [Ho|Ho] (L & H & Hl).
    - destruct Ho as (x & p & c & b & Hin & Htg & _ & ->). destruct (parts_target x p c Hin Htg) as (i & f & Ef & -> & ->).
      cbn [step]. destruct (covers (PlField i) lo) eqn:C; [|exists s; split; [reflexivity|]; split; [exact L|]; split; [exact H|exact Hl]].
      destruct lo as [|j]; [discriminate|]. cbn [covers] in C. apply Nat.eqb_eq in C. subst j. rewrite Ef in Hl.
      destruct (np (PlField i)) eqn:En.
      + apply held_together in Hl. destruct (c69_use _ s (ptr_of i f) b Hl (or_introl eq_refl)) as (s' & E & H').
        apply together_held in H'. exists s'. split; [exact E|]. split; [exact (access_lows _ _ _ _ _ E L)|].
        split; [apply (held_incl _ _ _ H'); intros y Hy; right; exact Hy|]. rewrite Ef, En. exact H'.
      + destruct Hl as (s1 & ->). exists (mkEntry (ptr_of i f) Unique false :: s1). split; [apply top_use|]. split; [exact L|]. split; [exact H|].
        rewrite Ef, En. eauto.
    - destruct Ho as (b & i & r & Hr & _ & ->). pose proof (Hst i r Hr) as En.
      cbn [step]. destruct (covers (PlField i) lo) eqn:C; [|exists s; split; [reflexivity|]; split; [exact L|]; split; [exact H|exact Hl]].
      destruct lo as [|j]; [discriminate|]. cbn [covers] in C. apply Nat.eqb_eq in C. subst j.
      destruct (nth_error l i) as [f|] eqn:Ef.
      + rewrite En in Hl. apply held_together in Hl. destruct (c69_use _ s r b Hl) as (s' & E & H'); [right; right; exact (Hks _ Hr)|].
        apply together_held in H'. exists s'. split; [exact E|]. split; [exact (access_lows _ _ _ _ _ E L)|].
        split; [apply (held_incl _ _ _ H'); intros y Hy; right; exact Hy|]. rewrite Ef, En. exact H'.
      + apply held_together in H. destruct (c69_use _ s r b H) as (s' & E & H'); [right; exact (Hks _ Hr)|].
        apply together_held in H'. exists s'. split; [exact E|]. split; [exact (access_lows _ _ _ _ _ E L)|]. split; [exact H'|]. rewrite Ef. exact Logic.I.
  Qed.
  Lemma lent_uses own ks os lo : storable np own -> incl (own lo) ks -> Forall (fun o => through true parts o \/ own_use own true o) os ->
    forall s, lent ks lo s -> exists s', steps lo os s = Some s' /\ lent ks lo s'.
  Proof.
    intros Hst Hks H. induction H as [|o os Ho H IH]; intros s Hs; [exists s; auto|].
    destruct (lent_use own ks o lo s Hst Hks Ho Hs) as (s1 & E1 & H1). cbn [steps]. rewrite E1. exact (IH s1 H1).
  Qed.
End Project.
