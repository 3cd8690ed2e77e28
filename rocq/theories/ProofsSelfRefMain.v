(** Pointers from a pinned field to itself: what callers see. *)
From Coq Require Import String Ascii List Bool Arith Lia.
From Verif Require Import Base Syntax ModelArgs ModelUtils ModelDerive ModelRun ModelAlias.
From Verif Require Import SpecArgs SpecDerive SpecExpand SpecRun SpecAlias SpecSelfRef.
From Verif Require Import ProofsArgs ProofsUtils ProofsDerive ProofsExpand ProofsTypes ProofsRun ProofsRunProj ProofsRunReplace.
From Verif Require Import ProofsRunDrop ProofsAlias ProofsAliasRun ProofsAliasCall ProofsAliasMain ProofsSelfRef ProofsSelfRefOps ProofsSelfRefRun.
Import ListNotations.
Open Scope string_scope.
Open Scope list_scope.

Lemma fresh_low n mem l : fresh n mem -> low n (mem l).
Proof. intros H. apply Forall_forall. exact (H l). Qed.
Lemma low_fresh n (mem : memory) : (forall l, low n (mem l)) -> fresh n mem.
Proof. intros H l x Hx. specialize (H l). unfold low in H. rewrite Forall_forall in H. exact (H x Hx). Qed.

Lemma parts_forget self fs n cs : map (fun x => (fst x, forget (snd x))) (parts n cs (fields_list (replace_fields self fs))) =
  map (fun x => (fst x, Some (snd x))) (references true fs).
Proof.
  rewrite <- (ref_val_references true self fs). unfold parts. rewrite !map_map. apply map_ext. intros [i f]. unfold part_of, ref_val.
  cbn [fst snd]. destruct (pin_b f); reflexivity.
Qed.
Lemma c69_project w a u vp fs uses np own kept t n mem :
  program w a -> has_proj PMut (w_item w) a = true -> value_of (w_item w) u vp fs ->
  np PlSelf = true -> storable np own -> (forall l, incl (own l) (kept l)) -> (forall l, together (t :: kept l) (mem l)) -> fresh n mem ->
  exists ptrs ops n' mem',
    alias_project w (u_var u) uses "project" true t n = Some (AvProj ptrs, ops, n') /\
    map (fun x => (fst x, forget (snd x))) ptrs = map (fun x => (fst x, Some (snd x))) (references true fs) /\
    runs (relaxed np ops) mem mem' /\ n <= n' /\
    forall os, Forall (fun o => through true ptrs o \/ own_use own true o) os ->
      exists m2, runs os mem' m2 /\ fresh n' m2 /\ (forall l, together (t :: kept l) (m2 l)) /\
        forall x k d, In x ptrs -> snd x = AvPin true (PlField k) d -> np (PlField k) = true ->
          together (d :: t :: kept (LField k)) (m2 (LField k)).
Proof.
  intros Hp Hh Hv Hnp Hst Hks Hm Hf.
  destruct (project_explicit w a PMut u vp fs uses t n ltac:(discriminate) Hp Hh Hv) as (self & disc & cs & n' & E & Hd & Hc).
  cbn zeta in E, Hc. cbn [mname kbool] in E. set (l := fields_list (replace_fields self fs)) in *.
  destruct (runs_each (relaxed np (body_ops true t n disc cs l ++ [ORelease n])) mem (fun lo s => lent np t n n' cs l (kept lo) lo s)) as (mem' & R & H).
  { intros lo. apply project_at; auto; [apply together_held; apply Hm|apply fresh_low; exact Hf]. }
  exists (parts n cs l), (body_ops true t n disc cs l ++ [ORelease n]), n', mem'. split; [exact E|]. split; [apply parts_forget|].
  split; [exact R|]. split; [destruct Hc; lia|]. intros os Hos.
  destruct (runs_each os mem' (fun lo s => lent np t n n' cs l (kept lo) lo s)) as (m2 & R2 & H2).
  { intros lo. apply lent_uses with (own := own); auto. }
  exists m2. split; [exact R2|]. split; [apply low_fresh; intros lo; exact (proj1 (H2 lo))|].
  split.
  - intros lo. apply held_together. exact (proj1 (proj2 (H2 lo))).
  - intros x k d Hx Ex En. assert (Ht : target (snd x) = Some (PlField k, d)) by (rewrite Ex; reflexivity).
    destruct (parts_target n cs l x (PlField k) d Hx Ht) as (i & f & Ef & Ep & ->). injection Ep as <-.
    destruct (H2 (LField k)) as (_ & _ & Hat). rewrite Ef, En in Hat. exact (held_together _ _ Hat).
Qed.

(** ** [project_ref] *)
Lemma relaxed_same np os : Forall (fun o => match o with ORetag PkMut _ _ _ _ => False | _ => True end) os -> relaxed np os = os.
Proof.
  intros H. unfold relaxed. induction H as [|o os Ho H IH]; [reflexivity|]. cbn [map]. rewrite IH. f_equal.
  destruct o as [[] pr p f t'| |]; try reflexivity. destruct Ho.
Qed.
Lemma relaxed_shared np t n disc cs l : (disc = [] \/ disc = [OUse false PlSelf (S n)]) ->
  relaxed np (body_ops false t n disc cs l ++ [ORelease n]) = body_ops false t n disc cs l ++ [ORelease n].
Proof.
  intros Hd. apply relaxed_same. unfold body_ops. cbn [ref_kind]. rewrite !Forall_app. split; [split|].
  - repeat constructor.
  - split; [destruct Hd as [->| ->]; repeat constructor|]. split.
    + apply Forall_map. apply Forall_forall. intros nf _. exact Logic.I.
    + apply Forall_flat_map. apply Forall_forall. intros nf _. unfold pin_tag. destruct (pin_b (snd nf)); repeat constructor.
  - repeat constructor.
Qed.
Lemma held_reread ts s x y s1 : held ts s -> In x ts -> In y ts -> access false x s = Some s1 -> access false y s1 = Some s1.
Proof.
  intros H Hx Hy E. destruct (held_read ts s x H Hx) as (s1' & E' & _). rewrite E in E'. injection E' as <-.
  destruct H as (junk & raws & rest & -> & Hr & Hs & Hp & Hn & Hi).
  assert (Hform : forall z, In z ts -> forall j, map en_tag j = map en_tag junk -> existsb en_prot j = false ->
    access false z (j ++ raws ++ rest) = Some (map disable j ++ raws ++ rest)).
  { intros z Hz j Ej Pj. destruct (find_raw false z raws rest Hr (Hi z Hz)) as (ra & g & rb & Er & Eg & _).
    assert (forallb is_raw ra = true) as Hra by (rewrite Er, forallb_app in Hr; apply andb_true_iff in Hr; exact (proj1 Hr)).
    unfold access. rewrite (granting_junk false z j _ _ _ _ ltac:(rewrite Ej; exact (Hn z Hz)) Eg).
    assert (existsb (fun e => is_unique e && en_prot e) (j ++ ra) = false) as ->.
    { rewrite existsb_app. apply orb_false_iff. split.
      - clear - Pj. induction j as [|e j IH]; [reflexivity|]. cbn in *. apply orb_false_iff in Pj. destruct Pj as [P1 P2].
        rewrite (IH P2), P1, andb_false_r. reflexivity.
      - clear - Hra. induction ra as [|e ra IH]; [reflexivity|]. cbn in *. apply andb_true_iff in Hra. destruct Hra as [H1 H2].
        rewrite (IH H2). unfold is_raw, is_unique in *. destruct (en_perm e); try discriminate. reflexivity. }
    rewrite map_app, (map_disable_raw ra Hra). rewrite Er, <- !app_assoc. reflexivity. }
  rewrite (Hform x Hx junk eq_refl Hp) in E. injection E as <-.
  rewrite (Hform y Hy (map disable junk)).
  - assert (map disable (map disable junk) = map disable junk) as -> by (rewrite map_map; apply map_ext; exact disable_twice). reflexivity.
  - rewrite map_map. apply map_ext. exact disable_tag.
  - clear - Hp. induction junk as [|e junk IH]; [reflexivity|]. cbn in *. rewrite disable_prot. apply orb_false_iff in Hp. destruct Hp as [-> Hp]. exact (IH Hp).
Qed.
Lemma c69_project_ref w a u vp fs uses np own kept t n mem :
  program w a -> has_proj PRef (w_item w) a = true -> value_of (w_item w) u vp fs ->
  (forall l, incl (own l) (kept l)) -> (forall l, together (t :: kept l) (mem l)) -> fresh n mem ->
  exists ptrs ops n' mem',
    alias_project w (u_var u) uses "project_ref" false t n = Some (AvProj ptrs, ops, n') /\
    map (fun x => (fst x, forget (snd x))) ptrs = map (fun x => (fst x, Some (snd x))) (references false fs) /\
    runs (relaxed np ops) mem mem' /\ n <= n' /\ fresh n' mem' /\ (forall l, together (t :: kept l) (mem' l)) /\
    forall os, Forall (fun o => through false ptrs o \/ own_use own false o) os -> runs os mem' mem'.
Proof.
  intros Hp Hh Hv Hks Hm Hf.
  assert (Hu : usable false t mem).
  { intros l. destruct (held_read (t :: kept l) (mem l) t (together_held _ _ (Hm l)) (or_introl eq_refl)) as (s' & E & _). rewrite E. discriminate. }
  destruct (project_explicit w a PRef u vp fs uses t n ltac:(discriminate) Hp Hh Hv) as (self0 & disc & cs & n0 & E0 & Hd & _).
  destruct (alias_project_go w a PRef u vp fs uses t n ltac:(discriminate) Hp Hh Hv) as (vs & a' & m' & self & E & G & R).
  cbn [mname kbool] in *. cbn zeta in E0. pose proof E as Eops. rewrite E0 in Eops.
  apply (f_equal (fun o => match o with Some (_, x, _) => x | None => [] end)) in Eops. cbv beta iota in Eops.
  destruct (call_outer false t n mem a' m' Hf Hu G) as (H1 & H2 & H3 & _ & H4).
  pose proof (usable_tag false t n mem Hf Hu) as Ht.
  assert (Hread : forall l r, In r (t :: kept l) -> access false r (outer false t n m' mem l) = Some (outer false t n m' mem l)).
  { intros l r Hr. destruct (H4 l) as (x & s1 & Ea & -> & Hx). apply read_below.
    - exact (held_reread _ _ _ _ _ (together_held _ _ (Hm l)) (or_introl eq_refl) Hr Ea).
    - apply shared_new with (n := n); [|exact Hx]. exact (held_low _ _ _ r (together_held _ _ (Hm l)) (fresh_low _ _ l Hf) Hr). }
  exists vs, (a_ops a' ++ [ORelease n]), (a_next a'), (outer false t n m' mem).
  split; [exact E|]. split; [exact (forget_refs false self fs m' vs R)|].
  split; [rewrite <- Eops, (relaxed_shared np t n disc cs _ Hd), Eops; exact H1|]. split; [exact H3|]. split; [exact H2|]. split.
  - intros l. destruct (H4 l) as (x & s1 & Ea & -> & Hx).
    destruct (held_read (t :: kept l) (mem l) t (together_held _ _ (Hm l)) (or_introl eq_refl)) as (s' & E' & H'). rewrite Ea in E'. injection E' as <-.
    apply held_together in H'. destruct H' as (above & group & below & -> & Hg & Ha & Hi).
    exists ((x ++ [mkEntry n SharedRO false]) ++ above), group, below. split; [rewrite <- !app_assoc; reflexivity|]. split; [exact Hg|]. split; [|exact Hi].
    apply Forall_app. split; [|exact Ha].
    assert (Hlow : forall r, In r (t :: kept l) -> r < n) by (intros r Hr; exact (held_low _ _ _ r (together_held _ _ (Hm l)) (fresh_low _ _ l Hf) Hr)).
    apply Forall_app. split.
    + eapply Forall_impl; [|exact Hx]. intros e (N1 & N2 & _). split; [exact N2|]. intros Hin. specialize (Hlow _ Hin). lia.
    + constructor; [|constructor]. cbn [en_tag en_prot]. split; [reflexivity|]. intros Hin. specialize (Hlow _ Hin). lia.
  - intros os Hos. induction Hos as [|o os Ho Hos IH]; [apply runs_nil|].
    change (o :: os) with ([o] ++ os). eapply runs_app; [|exact IH]. destruct Ho as [Ho|Ho].
    + apply (through_runs false m' _ _ vs [o] R); [constructor; [exact Ho|constructor]|]. intros c p. apply top_outer.
    + destruct Ho as (b & i & r & Hr & Hb & ->). destruct b; [specialize (Hb eq_refl); discriminate|].
      intros l. cbn [steps step]. destruct (covers (PlField i) l) eqn:C; [|reflexivity].
      destruct l as [|j]; [discriminate|]. cbn [covers] in C. apply Nat.eqb_eq in C. subst j. rewrite (Hread (LField i) r); [reflexivity|right; exact (Hks _ _ Hr)].
Qed.

(** ** The destructor *)
Fixpoint fits_ops (xs : list nat) (lo hi : nat) (os : list op) : Prop :=
  match os with
  | [] => lo <= hi
  | ORetag PkRaw false PlSelf f new :: r => In f xs /\ lo <= new /\ fits_ops (new :: xs) (S new) hi r
  | OUse _ _ c :: r => In c xs /\ fits_ops xs lo hi r
  | ORelease _ :: r => fits_ops xs lo hi r
  | _ => False
  end.
Lemma mixed_at own kept lo os us all : incl (own lo) (kept lo) -> mixed os us all -> Forall (own_use own true) us -> forall xs n n' s,
  fits_ops xs n n' os -> held (xs ++ kept lo) s -> low n s -> exists s', steps lo all s = Some s' /\ held (xs ++ kept lo) s' /\ low n' s'.
Proof.
  intros Hks. induction 1 as [|o os us all H IH|u os us all H IH]; intros Hus xs n n' s Ho Hs Hl.
  - exists s. split; [reflexivity|]. split; [exact Hs|]. exact (low_le _ _ _ Hl Ho).
  - assert (Huse : forall b p c, In c xs -> exists s1, step lo (OUse b p c) s = Some s1 /\ held (xs ++ kept lo) s1 /\ low n s1).
    { intros b p c Hc. cbn [step]. destruct (covers p lo); [|exists s; auto].
      destruct (c69_use (xs ++ kept lo) s c b (held_together _ _ Hs)) as (s1 & E1 & H1); [apply in_or_app; left; exact Hc|].
      exists s1. split; [exact E1|]. split; [apply together_held; exact H1|]. exact (access_lows _ _ _ _ _ E1 Hl). }
    destruct o as [[] [] [] f new|b p c|r]; cbn [fits_ops] in Ho; try destruct Ho.
    + destruct H1 as [Hle Hr]. cbn [steps step]. rewrite covers_self.
      destruct (held_raw (xs ++ kept lo) s f Hs (in_or_app _ _ _ (or_introl H0)) new (low_neq _ _ _ Hl Hle)) as (s1 & E1 & Hs1). rewrite E1.
      destruct (IH Hus (new :: xs) (S new) n' s1 Hr Hs1 (retag_lows _ _ _ _ _ _ _ E1 Hl Hle)) as (s' & E & Hs' & Hl').
      exists s'. split; [exact E|]. split; [apply (held_incl _ _ _ Hs'); intros y Hy; right; exact Hy|exact Hl'].
    + cbn [steps]. destruct (Huse b p c H0) as (s1 & E1 & Hs1 & Hl1). rewrite E1. exact (IH Hus xs n n' s1 H1 Hs1 Hl1).
    + cbn [steps step]. exact (IH Hus xs n n' _ Ho (held_release _ _ _ Hs) (low_release _ _ _ Hl)).
  - inversion Hus as [|x y Hu Hus']; subst. destruct Hu as (b & i & r & Hr & _ & ->). cbn [steps].
    assert (exists s1, step lo (OUse b (PlField i) r) s = Some s1 /\ held (xs ++ kept lo) s1 /\ low n s1) as (s1 & E1 & Hs1 & Hl1).
    { cbn [step]. destruct (covers (PlField i) lo) eqn:C; [|exists s; auto].
      destruct lo as [|j]; [discriminate|]. cbn [covers] in C. apply Nat.eqb_eq in C. subst j.
      destruct (c69_use (xs ++ kept (LField i)) s r b (held_together _ _ Hs)) as (s1 & E1 & H1); [apply in_or_app; right; exact (Hks _ Hr)|].
      exists s1. split; [exact E1|]. split; [apply together_held; exact H1|]. exact (access_lows _ _ _ _ _ E1 Hl). }
    rewrite E1. exact (IH Hus' xs n n' s1 Ho Hs1 Hl1).
Qed.
Lemma drop_explicit w a v uses t n : program w a -> exists ops n', alias_destroy w v uses t n = Some (AvOwned, ops, n') /\
  forall np, np PlSelf = true -> fits_ops [t] n n' (relaxed np ops).
Proof.
  intros Hp. pose proof (program_scope _ _ Hp) as Hw. unfold alias_destroy. rewrite (program_drop w a Hp). destruct (ar_pinned_drop a).
  - unfold alias_method. cbn [drop_method m_params m_body map rev app].
    unfold drop_body. cbn [alias_body alias_stmts alias_stmt alias_rhs alias_atom].
    change (is_wild (PBind (I "__pinned_self"))) with false. cbv iota.
    unfold alias_call at 1. rewrite (support_pp w Hw). cbn [lookup].
    assert (same_name (I "self") (I "self") = true) as E by reflexivity. rewrite E.
    cbn [derive_ptr alias_coerce alias_pat take]. rewrite E, (pg_locals _ _ Hp "__pinned_self") by (cbn; auto). cbn [app].
    unfold alias_call. rewrite (support_pp w Hw). cbn [lookup].
    assert (same_name (I "__pinned_self") (I "__pinned_self") = true) as E2 by reflexivity. rewrite E2.
    cbn [take]. rewrite E2. cbn [alias_drop alias_finish alias_drops]. unfold user_code. cbn [a_next a_ops].
    eexists _, _. split; [reflexivity|]. intros np Hnp.
    cbn [app relaxed map relax]. rewrite Hnp. cbn [fits_ops].
    split; [left; reflexivity|]. split; [lia|]. split; [left; reflexivity|]. split; [lia|].
    cbn [fits_ops]. split; [left; reflexivity|]. split; [lia|].
    assert (Hgen : forall l xs rest, In (S (S n)) xs -> (forall xs', fits_ops xs' (S (S (S n))) (S (S (S n))) rest) ->
      fits_ops xs (S (S (S n))) (S (S (S n)))
       (map (relax np) (flat_map (fun bq : bool * place => if inside (snd bq) PlSelf then [OUse (fst bq) (snd bq) (S (S n))] else []) l) ++ rest)).
    { induction l as [|[b q] l IH]; intros xs rest Hx Hr; [apply Hr|]. cbn [flat_map fst snd]. destruct (inside q PlSelf); [|exact (IH xs rest Hx Hr)].
      cbn [app map relax fits_ops]. split; [exact Hx|exact (IH xs rest Hx Hr)]. }
    rewrite !map_app. cbn [map relax]. rewrite <- !app_assoc. apply Hgen; [left; reflexivity|]. intros xs'. cbn [app fits_ops]. lia.
  - exists [], n. split; [reflexivity|]. intros np _. cbn. lia.
Qed.
Lemma fits_le os : forall xs n n', fits_ops xs n n' os -> n <= n'.
Proof.
  induction os as [|o os IH]; intros xs n n' H; [exact H|].
  destruct o as [[] [] [] f new|b p c|r]; cbn [fits_ops] in H; try destruct H.
  - destruct H0 as [H1 H2]. apply IH in H2. lia.
  - exact (IH _ _ _ H0).
  - exact (IH _ _ _ H).
Qed.
Lemma c69_drop w a v uses np own kept t n mem :
  program w a -> np PlSelf = true -> (forall l, incl (own l) (kept l)) -> (forall l, together (t :: kept l) (mem l)) -> fresh n mem ->
  exists ops n', alias_destroy w v uses t n = Some (AvOwned, ops, n') /\ n <= n' /\
    forall us all, Forall (own_use own true) us -> mixed (relaxed np ops) us all ->
      exists mem', runs all mem mem' /\ fresh n' mem' /\ forall l, together (t :: kept l) (mem' l).
Proof.
  intros Hp Hnp Hks Hm Hf. destruct (drop_explicit w a v uses t n Hp) as (ops & n' & E & H). exists ops, n'. split; [exact E|].
  specialize (H np Hnp). split; [exact (fits_le _ _ _ _ H)|]. intros us all Hus Hmix.
  destruct (runs_each all mem (fun lo s => held (t :: kept lo) s /\ low n' s)) as (mem' & R & Hr).
  { intros lo. exact (mixed_at own kept lo _ _ _ (Hks lo) Hmix Hus [t] n n' (mem lo) H (together_held _ _ (Hm lo)) (fresh_low _ _ lo Hf)). }
  exists mem'. split; [exact R|]. split; [apply low_fresh; intros lo; exact (proj2 (Hr lo))|].
  intros lo. apply held_together. exact (proj1 (Hr lo)).
Qed.

(** ** All of it *)
Lemma c69_life w a v uses np own kept t n ops n' mem :
  program w a -> variant_of_item (w_item w) v -> np PlSelf = true -> storable np own ->
  (forall l, incl (own l) (kept l)) -> (forall l, together (t :: kept l) (mem l)) -> fresh n mem -> life w a v uses np own t n ops n' ->
  exists mem', runs ops mem mem' /\ fresh n' mem' /\ forall l, together (t :: kept l) (mem' l).
Proof.
  intros Hp (u & vp & fs & Hv & <-) Hnp Hst Hks Hm Hf H. revert mem Hm Hf.
  induction H as [n|n o os n' Ho H IH|n ptrs ops n1 us os n' Hh E Hus H IH|n ptrs ops n1 us os n' Hh E Hus H IH|n r ops n1 us all os n' E Hus Hmix H IH]; intros mem Hm Hf.
  - exists mem. split; [apply runs_nil|]. auto.
  - destruct (runs_each [o] mem (fun lo s => held (t :: kept lo) s /\ low n s)) as (m1 & R1 & H1).
    { intros lo. assert (mixed [] [o] [o]) as Hmix by (repeat constructor).
      apply (mixed_at own kept lo [] [o] [o] (Hks lo) Hmix (Forall_cons _ Ho (Forall_nil _)) [t] n n (mem lo)); [cbn; lia|apply together_held; apply Hm|apply fresh_low; exact Hf]. }
    destruct (IH m1) as (m2 & R2 & F2 & T2).
    { intros l. apply held_together. exact (proj1 (H1 l)). }
    { apply low_fresh. intros l. exact (proj2 (H1 l)). }
    exists m2. split; [|auto]. change (o :: os) with ([o] ++ os). eapply runs_app; eassumption.
  - destruct (c69_project w a u vp fs uses np own kept t n mem Hp Hh Hv Hnp Hst Hks Hm Hf) as (ptrs' & ops' & n1' & m1 & E' & _ & R1 & _ & K).
    rewrite E in E'. injection E' as <- <- <-. destruct (K us Hus) as (m2 & R2 & F2 & T2 & _).
    destruct (IH m2 T2 F2) as (m3 & R3 & F3 & T3). exists m3. split; [|auto]. eapply runs_app; [exact R1|]. eapply runs_app; eassumption.
  - destruct (c69_project_ref w a u vp fs uses np own kept t n mem Hp Hh Hv Hks Hm Hf) as (ptrs' & ops' & n1' & m1 & E' & _ & R1 & _ & F1 & T1 & K).
    rewrite E in E'. injection E' as <- <- <-. pose proof (K us Hus) as R2.
    destruct (IH m1 T1 F1) as (m3 & R3 & F3 & T3). exists m3. split; [|auto]. eapply runs_app; [exact R1|]. eapply runs_app; eassumption.
  - destruct (c69_drop w a (u_var u) uses np own kept t n mem Hp Hnp Hks Hm Hf) as (ops' & n1' & E' & _ & K).
    rewrite E in E'. injection E' as -> <- <-. destruct (K us all Hus Hmix) as (m1 & R1 & F1 & T1).
    destruct (IH m1 T1 F1) as (m3 & R3 & F3 & T3). exists m3. split; [|auto]. eapply runs_app; eassumption.
Qed.

(** ** Fields of fields *)
Lemma runs_unique os m m1 m2 : runs os m m1 -> runs os m m2 -> forall l, m1 l = m2 l.
Proof. intros H1 H2 l. specialize (H1 l). specialize (H2 l). congruence. Qed.
Lemma lives_within_together kept t n mem ks c n' mem' : (forall l, together (t :: kept l) (mem l)) -> fresh n mem ->
  lives_within kept t n mem ks c n' mem' -> (forall l, together (c :: ks l) (mem' l)) /\ fresh n' mem' /\ forall l, In t (c :: ks l).
Proof.
  intros Hm Hf H.
  induction H as [|ks c n1 mem1 w a v uses np own ops n2 mem2 H IH Hp Hv Hnp Hst Hks Hl G
                  |ks c n1 mem1 w a v uses np own ptrs ops us n2 mem2 x k d H IH Hp Hh Hv Hnp Hst Hks E Hus G Hx Ex En].
  - split; [exact Hm|]. split; [exact Hf|]. intros l. left. reflexivity.
  - destruct IH as (K & F & T). destruct (c69_life w a v uses np own ks c n1 ops n2 mem1 Hp Hv Hnp Hst Hks K F Hl) as (m2 & G2 & F2 & K2).
    pose proof (runs_unique _ _ _ _ G G2) as Q. split; [|split; [|exact T]]; intros l; rewrite Q; [apply K2|apply F2].
  - destruct IH as (K & F & T). destruct Hv as (u & vp & fs & Hv & <-).
    destruct (c69_project w a u vp fs uses np own ks c n1 mem1 Hp Hh Hv Hnp Hst Hks K F) as (ptrs' & ops' & n2' & m1 & E' & _ & R1 & _ & Q1).
    rewrite E in E'. injection E' as <- <- <-. destruct (Q1 us Hus) as (m2 & R2 & F2 & _ & P2).
    pose proof (runs_unique _ _ _ _ G (runs_app _ _ _ _ _ R1 R2)) as Q. rewrite Q.
    split; [|split].
    + intros _. exact (P2 x k d Hx Ex En).
    + intros _. apply F2.
    + intros _. right. apply T.
Qed.
Lemma c69_within kept t n mem ks c n' mem' : (forall l, together (t :: kept l) (mem l)) -> fresh n mem ->
  lives_within kept t n mem ks c n' mem' ->
  (forall l, together (c :: ks l) (mem' l)) /\ fresh n' mem' /\ (forall l, In t (c :: ks l)) /\
  forall w a v uses np own ops n2, program w a -> variant_of_item (w_item w) v -> np PlSelf = true -> storable np own ->
    (forall l, incl (own l) (ks l)) -> life w a v uses np own c n' ops n2 ->
    exists mem2, runs ops mem' mem2 /\ forall l, together (c :: ks l) (mem2 l).
Proof.
  intros Hm Hf H. destruct (lives_within_together _ _ _ _ _ _ _ _ Hm Hf H) as (K & F & T). split; [exact K|]. split; [exact F|]. split; [exact T|].
  intros w a v uses np own ops n2 Hp Hv Hnp Hst Hks Hl.
  destruct (c69_life w a v uses np own ks c n' ops n2 mem' Hp Hv Hnp Hst Hks K F Hl) as (m2 & G & _ & K2). eauto.
Qed.
