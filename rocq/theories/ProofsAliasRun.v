(** The aliasing rules: the generated statements. *)
From Coq Require Import String Ascii List Bool Arith Lia.
From Verif Require Import Base Syntax ModelArgs ModelUtils ModelDerive ModelRun ModelAlias.
From Verif Require Import SpecArgs SpecDerive SpecExpand SpecRun SpecAlias.
From Verif Require Import ProofsArgs ProofsUtils ProofsDerive ProofsExpand ProofsTypes ProofsRun ProofsRunProj ProofsRunReplace ProofsAlias.
Import ListNotations.
Open Scope string_scope.
Open Scope list_scope.

(** ** Memory *)
Definition push (p : place) (e : entry) (m : memory) : memory := fun l => if covers p l then e :: m l else m l.
Definition top (q : perm) (t : nat) (p : place) (m : memory) : Prop :=
  forall l, covers p l = true -> exists pr r, m l = mkEntry t q pr :: r.
Definition settled (b : bool) (t : nat) (p : place) (m : memory) : Prop :=
  forall l, covers p l = true -> access b t (m l) = Some (m l).
Definition kperm (b : bool) : perm := if b then Unique else SharedRO.
Definition allows (q : perm) (b : bool) : bool :=
  match q with Unique | SharedRW => true | SharedRO => negb b | Disabled => false end.

Lemma top_settled q b t p m : allows q b = true -> top q t p m -> settled b t p m.
Proof.
  intros Hq Ht l Hl. destruct (Ht l Hl) as (pr & r & ->). unfold access. cbn [granting]. unfold grants. cbn [en_tag en_perm].
  rewrite Nat.eqb_refl. cbn [andb]. destruct q, b; try discriminate; reflexivity.
Qed.
Lemma top_push q t pr p m : top q t p (push p (mkEntry t q pr) m).
Proof. intros l Hl. unfold push. rewrite Hl. eauto. Qed.
Lemma top_other q t p e p' m : (forall l, covers p l = true -> covers p' l = false) -> top q t p m -> top q t p (push p' e m).
Proof. intros H Ht l Hl. unfold push. rewrite (H l Hl). apply Ht. exact Hl. Qed.
Lemma covers_field i j l : i <> j -> covers (PlField i) l = true -> covers (PlField j) l = false.
Proof.
  destruct l as [|k]; cbn; [discriminate|]. intros H E. apply Nat.eqb_eq in E. subst k. apply Nat.eqb_neq.
  intros X. apply H. symmetry. exact X.
Qed.
Lemma covers_self l : covers PlSelf l = true. Proof. destruct l; reflexivity. Qed.
Lemma settled_part b t q p m : inside q p = true -> settled b t p m -> settled b t q m.
Proof.
  intros Hi H l Hl. apply H. destruct q, p; cbn in *; try discriminate; try reflexivity.
  apply Nat.eqb_eq in Hi. subst. exact Hl.
Qed.

(** Pointers at the top: what they are used for does not end any other. *)
Definition at_top (b : bool) (t : nat) (s : stack) : Prop := exists q pr r, s = mkEntry t q pr :: r /\ allows q b = true.
Definition held (b : bool) (t : nat) (p : place) (m : memory) : Prop := forall l, covers p l = true -> at_top b t (m l).
Lemma top_held q b t p m : allows q b = true -> top q t p m -> held b t p m.
Proof. intros Hq Ht l Hl. destruct (Ht l Hl) as (pr & r & E). exists q, pr, r. auto. Qed.
Lemma at_top_access b t s : at_top b t s -> access b t s = Some s.
Proof.
  intros (q & pr & r & -> & Hq). unfold access. cbn [granting]. unfold grants. cbn [en_tag en_perm].
  rewrite Nat.eqb_refl. cbn [andb]. destruct q, b; try discriminate; reflexivity.
Qed.
Lemma held_settled b t p m : held b t p m -> settled b t p m.
Proof. intros H l Hl. apply at_top_access. apply H. exact Hl. Qed.
Lemma held_other b t p e p' m : (forall l, covers p l = true -> covers p' l = false) -> held b t p m -> held b t p (push p' e m).
Proof. intros H Ht l Hl. unfold push. rewrite (H l Hl). apply Ht. exact Hl. Qed.
Lemma held_part b t q p m : inside q p = true -> held b t p m -> held b t q m.
Proof.
  intros Hi H l Hl. apply H. destruct q, p; cbn in *; try discriminate; try reflexivity.
  apply Nat.eqb_eq in Hi. subst. exact Hl.
Qed.

(** Sequences of operations that use pointers at the top only, except that a raw
    pointer is written through after all that lies above it; [k]: the tags from there on
    are new. *)
Definition kind_write (k : ModelAlias.pkind) : bool := match k with PkShared => false | _ => true end.
Definition calm_op (l : loc) (k : nat) (o : op) (s : stack) (k1 : nat) : Prop :=
  match o with
  | ORetag kd _ p f to_ => k <= to_ /\ k1 = S to_ /\ (covers p l = true -> at_top (kind_write kd) f s)
  | OUse b p t => k1 = k /\ (covers p l = true -> at_top b t s \/
      (b = true /\ exists x pr r, s = x ++ mkEntry t SharedRW pr :: r /\ Forall (fun e => en_prot e = false) x /\
         access true t s = Some (mkEntry t SharedRW pr :: r)))
  | ORelease _ => k1 = k
  end.
Fixpoint calm (l : loc) (k : nat) (os : list op) (s : stack) (k' : nat) : Prop :=
  match os with
  | [] => k <= k'
  | o :: r => exists k1, calm_op l k o s k1 /\ forall s', step l o s = Some s' -> calm l k1 r s' k'
  end.
Lemma calm_app l os1 : forall k os2 s s' k1 k2, calm l k os1 s k1 -> steps l os1 s = Some s' ->
  (forall k0, k0 <= k1 -> calm l k0 os2 s' k2) -> calm l k (os1 ++ os2) s k2.
Proof.
  induction os1 as [|o os1 IH]; intros k os2 s s' k1 k2 H Hs H2; cbn [app calm steps] in *.
  - injection Hs as <-. apply H2. exact H.
  - destruct H as (k0 & Ho & Hr). exists k0. split; [exact Ho|]. intros s0 E. rewrite E in Hs. exact (IH _ _ _ _ _ _ (Hr s0 E) Hs H2).
Qed.
Lemma calm_le l os : forall k0 k s k', k0 <= k -> calm l k os s k' -> calm l k0 os s k'.
Proof.
  induction os as [|o os IH]; intros k0 k s k' Hk H; cbn [calm] in *; [lia|].
  destruct H as (k1 & Ho & Hr). destruct o as [kd pr p f t|b p t|t]; cbn [calm_op] in *.
  - exists k1. destruct Ho as (A & B & C). split; [repeat split; auto; lia|exact Hr].
  - exists k0. destruct Ho as (-> & C). split; [auto|]. intros s' E. exact (IH k0 k s' k' Hk (Hr s' E)).
  - exists k0. subst k1. split; [reflexivity|]. intros s' E. exact (IH k0 k s' k' Hk (Hr s' E)).
Qed.

Lemma fresh_push n p e m : fresh n m -> en_tag e = n -> fresh (S n) (push p e m).
Proof.
  intros H He l x Hx. unfold push in Hx. destruct (covers p l); [destruct Hx as [<-|Hx]; [lia|]|]; pose proof (H l x Hx); lia.
Qed.

(** ** Steps of the interpreter *)
Definition new_entry (b : bool) (lo : nat) (e : entry) : Prop :=
  lo <= en_tag e /\ en_prot e = false /\ (b = false -> en_perm e = SharedRO).
Definition extends (b : bool) (lo : nat) (m m' : memory) : Prop :=
  forall l, exists x, m' l = x ++ m l /\ Forall (new_entry b lo) x.
Record go (b : bool) (a a' : ast) (m m' : memory) : Prop := {
  go_ops : exists os, a_ops a' = a_ops a ++ os /\ runs os m m' /\ (forall t, releases os t -> a_next a <= t);
  go_ext : extends b (a_next a) m m';
  go_next : a_next a <= a_next a';
  go_fresh : fresh (a_next a') m';
  go_calm : forall os, a_ops a' = a_ops a ++ os -> forall l, calm l (a_next a) os (m l) (a_next a')
}.
Lemma no_ops (o os : list op) : o = o ++ os -> os = [].
Proof. intros H. rewrite <- (app_nil_r o) in H at 1. apply app_inv_head in H. auto. Qed.
Lemma go_refl b a m : fresh (a_next a) m -> go b a a m m.
Proof.
  intros H. constructor; [|intros l; exists []; auto|lia|exact H|].
  - exists []. rewrite app_nil_r. split; [reflexivity|]. split; [apply runs_nil|]. intros t [].
  - intros os E l. rewrite (no_ops _ _ E). cbn [calm]. lia.
Qed.
Lemma go_trans b a1 a2 a3 m1 m2 m3 : go b a1 a2 m1 m2 -> go b a2 a3 m2 m3 -> go b a1 a3 m1 m3.
Proof.
  intros [(o1 & E1 & R1 & L1) X1 N1 F1 C1] [(o2 & E2 & R2 & L2) X2 N2 F2 C2]. constructor; [| |lia|exact F2|].
  - exists (o1 ++ o2). rewrite E2, E1, <- app_assoc. split; [reflexivity|]. split; [eapply runs_app; eassumption|].
    intros t Ht. apply in_app_or in Ht. destruct Ht as [Ht|Ht]; [auto|]. pose proof (L2 t Ht). lia.
  - intros l. destruct (X1 l) as (x1 & H1 & G1), (X2 l) as (x2 & H2 & G2). exists (x2 ++ x1).
    rewrite H2, H1, app_assoc. split; [reflexivity|]. apply Forall_app. split; [|exact G1].
    eapply Forall_impl; [|exact G2]. intros e [? ?]. split; [lia|assumption].
  - intros os E l. rewrite E2, E1, <- app_assoc in E. apply app_inv_head in E. subst os.
    apply (calm_app l o1 _ _ _ (m2 l) (a_next a2)); [exact (C1 o1 E1 l)|exact (R1 l)|].
    intros k0 Hk. apply (calm_le l o2 k0 (a_next a2)); [exact Hk|]. exact (C2 o2 E2 l).
Qed.
Lemma go_weaken b a a' m m' : go b a a' m m' -> go true a a' m m'.
Proof.
  intros [G1 G2 G3 G4 G5]. constructor; auto. intros l. destruct (G2 l) as (x & E & H). exists x. split; [exact E|].
  eapply Forall_impl; [|exact H]. intros e (H1 & H2 & _). repeat split; auto. discriminate.
Qed.
Lemma extends_push b lo p e m : new_entry b lo e -> extends b lo m (push p e m).
Proof. intros H l. unfold push. destruct (covers p l); [exists [e]; auto|exists []; auto]. Qed.

Lemma go_ref b p t a m : fresh (a_next a) m -> held b t p m ->
  go b a (snd (derive_ptr (ref_kind b) p t a)) m (push p (mkEntry (a_next a) (kperm b) false) m).
Proof.
  intros Hf Hh. pose proof (held_settled _ _ _ _ Hh) as Hs. cbn [derive_ptr snd]. constructor; cbn [a_ops a_next]; [| |lia| |].
  - exists [ORetag (ref_kind b) false p t (a_next a)]. split; [reflexivity|]. split.
    + intros l. cbn [steps step]. unfold push. destruct (covers p l) eqn:E; [|reflexivity].
      specialize (Hs l E). destruct b; cbn [ref_kind retag kperm]; rewrite Hs; reflexivity.
    + intros u [H|[]]. discriminate.
  - apply extends_push. repeat split; cbn; auto. intros ->. reflexivity.
  - apply fresh_push; auto.
  - intros os E l. apply app_inv_head in E. subst os. cbn [calm]. exists (S (a_next a)). split; [|intros; lia].
    split; [lia|]. split; [reflexivity|]. intros El. specialize (Hh l El). destruct b; exact Hh.
Qed.
Lemma go_raw q p t a m : fresh (a_next a) m -> allows q true = true -> top q t p m ->
  go true a (snd (derive_ptr PkRaw p t a)) m (push p (mkEntry (a_next a) SharedRW false) m).
Proof.
  intros Hf Hq Hs. cbn [derive_ptr snd]. constructor; cbn [a_ops a_next]; [| |lia| |].
  - exists [ORetag PkRaw false p t (a_next a)]. split; [reflexivity|]. split.
    + intros l. cbn [steps step]. unfold push. destruct (covers p l) eqn:E; [|reflexivity].
      destruct (Hs l E) as (pr & r & ->). cbn [retag granting].
      assert (grants true t (mkEntry t q pr) = true) as ->.
      { unfold grants. cbn [en_tag en_perm]. rewrite Nat.eqb_refl. destruct q; try discriminate; reflexivity. }
      unfold incompatible. destruct (is_raw _); reflexivity.
    + intros u [H|[]]. discriminate.
  - apply extends_push. repeat split; cbn; auto. discriminate.
  - apply fresh_push; auto.
  - intros os E l. apply app_inv_head in E. subst os. cbn [calm]. exists (S (a_next a)). split; [|intros; lia].
    split; [lia|]. split; [reflexivity|]. intros El. exact (top_held q true t p m Hq Hs l El).
Qed.
Lemma go_use c b p t a m : fresh (a_next a) m -> held b t p m -> go c a (emit [OUse b p t] a) m m.
Proof.
  intros Hf Hh. pose proof (held_settled _ _ _ _ Hh) as Hs. constructor; cbn [a_ops a_next emit]; [|intros l; exists []; auto|lia|exact Hf|].
  - exists [OUse b p t]. split; [reflexivity|]. split.
    + intros l. cbn [steps step]. destruct (covers p l) eqn:E; [|reflexivity]. rewrite (Hs l E). reflexivity.
    + intros u [H|[]]. discriminate.
  - intros os E l. apply app_inv_head in E. subst os. cbn [calm]. exists (a_next a). split; [|intros; lia].
    split; [reflexivity|]. intros El. left. exact (Hh l El).
Qed.
Lemma release_other n l : Forall (fun x => en_tag x <> n) l -> map (release n) l = l.
Proof.
  intros H. induction H as [|x l Hx H IH]; cbn [map]; [reflexivity|]. rewrite IH. unfold release.
  apply Nat.eqb_neq in Hx. rewrite Hx. reflexivity.
Qed.
Lemma fresh_other n m l : fresh n m -> Forall (fun x => en_tag x <> n) (m l).
Proof. intros H. apply Forall_forall. intros x Hx. pose proof (H l x Hx). lia. Qed.
Lemma go_user uses p t a m : fresh (a_next a) m -> held true t p m ->
  go true a (user_code uses p t a) m (push p (mkEntry (a_next a) Unique false) m).
Proof.
  intros Hf Hh. pose proof (held_settled _ _ _ _ Hh) as Hs. unfold user_code. constructor; cbn [a_ops a_next]; [| |lia| |].
  - eexists. split; [reflexivity|]. split.
    + set (n := a_next a) in *.
      change (ORetag PkMut true p t n :: ?x) with ([ORetag PkMut true p t n] ++ x).
      apply (runs_app _ _ m (push p (mkEntry n Unique true) m)).
      { intros l. cbn [steps step]. unfold push. destruct (covers p l) eqn:E; [|reflexivity]. cbn [retag]. rewrite (Hs l E). reflexivity. }
      apply (runs_app _ _ _ (push p (mkEntry n Unique true) m)).
      * induction (uses p) as [|[b q] us IH]; cbn [flat_map fst snd]; [apply runs_nil|].
        destruct (inside q p) eqn:E; [|exact IH]. eapply runs_app; [|exact IH].
        assert (settled b n q (push p (mkEntry n Unique true) m)) as H.
        { apply (settled_part b n q p _ E). apply (top_settled Unique); [destruct b; reflexivity|apply top_push]. }
        intros l. cbn [steps step]. destruct (covers q l) eqn:El; [|reflexivity]. rewrite (H l El). reflexivity.
      * intros l. cbn [steps step]. unfold push. destruct (covers p l); cbn [map];
          rewrite (release_other n (m l)) by (apply fresh_other; exact Hf); [|reflexivity].
        unfold release. cbn [en_tag en_perm]. rewrite Nat.eqb_refl. reflexivity.
    + intros u [H|H]; [discriminate|]. apply in_app_or in H. destruct H as [H|[H|[]]]; [|injection H as <-; lia].
      apply in_flat_map in H. destruct H as (bq & _ & H). destruct (inside _ _); [destruct H as [H|[]]; discriminate|destruct H].
  - apply extends_push. repeat split; cbn; auto. discriminate.
  - apply fresh_push; auto.
  - intros os E l. apply app_inv_head in E. subst os. set (n := a_next a) in *. cbn [calm]. exists (S n).
    split; [split; [lia|split; [reflexivity|exact (Hh l)]]|]. intros s' Es. cbn [step] in Es.
    assert (Hs' : forall q, inside q p = true -> covers q l = true -> at_top true n s').
    { intros q Hi Hq. assert (Hl : covers p l = true).
      { destruct q, p; cbn in *; try discriminate; try reflexivity. apply Nat.eqb_eq in Hi. subst. exact Hq. }
      rewrite Hl in Es. cbn [retag] in Es. rewrite (Hs l Hl) in Es. injection Es as <-. exists Unique, true, (m l). auto. }
    clear Es. induction (uses p) as [|[b q] us IH]; cbn [flat_map fst snd app].
    + cbn [calm]. exists (S n). split; [reflexivity|]. intros; lia.
    + destruct (inside q p) eqn:Ei; [|exact IH]. cbn [app calm]. exists (S n). split.
      * split; [reflexivity|]. intros Hq. left. destruct (Hs' q Ei Hq) as (r & pr & x & -> & Hr). exists r, pr, x. split; [reflexivity|].
        destruct r, b; auto; discriminate.
      * intros s2 E2. cbn [step] in E2. destruct (covers q l) eqn:Hq; [|injection E2 as <-; exact IH].
        assert (access b n s' = Some s') as X.
        { apply at_top_access. destruct (Hs' q Ei Hq) as (r & pr & x & -> & Hr). exists r, pr, x. split; [reflexivity|].
          destruct r, b; auto; discriminate. }
        rewrite X in E2. injection E2 as <-. exact IH.
Qed.

(** ** Variables *)
Lemma lookup_take x y e : same_name x y = false -> lookup x (take y e) = lookup x e.
Proof.
  intros H. induction e as [|[z v] e IH]; cbn [take lookup]; [reflexivity|].
  destruct (same_name y z) eqn:E; cbn [lookup].
  - destruct (same_name x z) eqn:E2; [|reflexivity].
    apply same_name_iff in E, E2. apply same_name_false in H. congruence.
  - destruct (same_name x z); [reflexivity|exact IH].
Qed.
Definition quiet_av (v : av) : Prop := match v with AvPtr _ _ _ | AvPin _ _ _ | AvOwned => True | _ => False end.
Definition quiet (e : aenv) : Prop := forall x v, In (x, Some v) e -> quiet_av v.
Lemma drops_quiet uses e a : quiet e -> alias_drops uses e a = a.
Proof.
  revert a. induction e as [|[x [v|]] e IH]; intros a H; cbn [alias_drops]; [reflexivity| |].
  - assert (quiet_av v) as Hv by (apply (H x); left; reflexivity).
    assert (alias_drop uses v a = a) as -> by (destruct v; try contradiction; reflexivity).
    apply IH. intros y u Hu. apply (H y). right; exact Hu.
  - apply IH. intros y u Hu. apply (H y). right; exact Hu.
Qed.
Lemma drops_app uses e1 e2 a : alias_drops uses (e1 ++ e2) a = alias_drops uses e2 (alias_drops uses e1 a).
Proof. revert a. induction e1 as [|[x [v|]] e1 IH]; intros a; cbn [app alias_drops]; auto. Qed.
Lemma quiet_app e1 e2 : quiet e1 -> quiet e2 -> quiet (e1 ++ e2).
Proof. intros H1 H2 x v H. apply in_app_or in H. destruct H; [eapply H1|eapply H2]; eassumption. Qed.
Lemma quiet_take x e : quiet e -> quiet (take x e).
Proof.
  induction e as [|[y v] e IH]; intros H; cbn [take]; [exact H|].
  destruct (same_name x y); intros z u Hu.
  - destruct Hu as [Hu|Hu]; [discriminate|]. apply (H z). right; exact Hu.
  - destruct Hu as [Hu|Hu]; [apply (H z); left; exact Hu|].
    apply (IH (fun z u Hz => H z u (or_intror Hz)) z). exact Hu.
Qed.

(** ** Patterns *)
Definition tagged (b : bool) (tg : nat -> nat) (nl : list (nat * field)) : aenv :=
  map (fun nf => (binding nf, Some (AvPtr (ref_kind b) (PlField (fst nf)) (tg (fst nf))))) nl.
Lemma tagged_quiet b tg nl : quiet (tagged b tg nl).
Proof. intros x v H. apply in_map_iff in H. destruct H as (nf & H & _). injection H as _ <-. exact Coq.Init.Logic.I. Qed.
(** Memory outside of the fields from number [k] on. *)
Definition same_before (k : nat) (m m' : memory) : Prop := forall l, (forall j, k <= j -> l <> LField j) -> m' l = m l.

Lemma tag_binds_go b t l : forall k a m, fresh (a_next a) m ->
  (forall nf, In nf (enum_from k l) -> held b t (PlField (fst nf)) m) ->
  exists tg a' m', tag_binds b t (binds b k l) a = Some (tagged b tg (enum_from k l), a') /\ go b a a' m m' /\
    (forall nf, In nf (enum_from k l) -> top (kperm b) (tg (fst nf)) (PlField (fst nf)) m') /\ same_before k m m'.
Proof.
  induction l as [|f l IH]; intros k a m Hf Hs.
  - exists (fun x => x), a, m. split; [reflexivity|]. split; [apply go_refl; exact Hf|]. split; [intros nf []|]. intros l' _. reflexivity.
  - unfold binds. cbn [enum_from map fst snd tag_binds derive_ptr].
    pose proof (go_ref b (PlField k) t a m Hf (Hs (k, f) (or_introl eq_refl))) as G1. cbn [derive_ptr snd] in G1.
    set (a1 := mkA (S (a_next a)) _) in *. set (m1 := push (PlField k) _ m) in *.
    destruct (IH (S k) a1 m1) as (tg & a2 & m2 & E & G2 & T & B).
    + apply (go_fresh _ _ _ _ _ G1).
    + intros nf Hin. apply held_other; [|apply Hs; right; exact Hin].
      intros l'. apply covers_field.
      destruct nf as [j g]. apply ProofsRun.enum_from_in in Hin. cbn [fst]. lia.
    + exists (fun j => if Nat.eqb j k then a_next a else tg j), a2, m2.
      assert (Et : tagged b (fun j => if Nat.eqb j k then a_next a else tg j) (enum_from (S k) l) = tagged b tg (enum_from (S k) l)).
      { unfold tagged. apply map_ext_in. intros [j g] Hin. apply ProofsRun.enum_from_in in Hin. cbn [fst].
        assert (Nat.eqb j k = false) as -> by (apply Nat.eqb_neq; lia). reflexivity. }
      split.
      * fold (binds b (S k) l). rewrite E. unfold tagged at 2. cbn [map fst]. rewrite Nat.eqb_refl.
        fold (tagged b (fun j => if Nat.eqb j k then a_next a else tg j) (enum_from (S k) l)). rewrite Et. reflexivity.
      * split; [eapply go_trans; eassumption|]. split.
        -- intros nf [<-|Hin].
           ++ cbn [fst]. rewrite Nat.eqb_refl. intros l' Hl. rewrite (B l').
              ** apply (top_push (kperm b) (a_next a) false (PlField k) m l' Hl).
              ** intros j Hj ->. cbn in Hl. apply Nat.eqb_eq in Hl. lia.
           ++ destruct nf as [j g]. pose proof Hin as Hin'. apply ProofsRun.enum_from_in in Hin'. cbn [fst].
              assert (Nat.eqb j k = false) as -> by (apply Nat.eqb_neq; lia). apply (T (j, g) Hin).
        -- intros l' Hl. rewrite (B l') by (intros j Hj; apply Hl; lia). unfold m1, push.
           destruct (covers (PlField k) l') eqn:El; [|reflexivity]. destruct l' as [|j]; [discriminate|].
           cbn in El. apply Nat.eqb_eq in El. subst j. elim (Hl k); [lia|reflexivity].
Qed.
Lemma lookup_tagged b tg l : forall k e0 nf, NoDup (map name (map binding (enum_from k l))) -> In nf (enum_from k l) ->
  lookup (binding nf) (tagged b tg (enum_from k l) ++ e0) = Some (AvPtr (ref_kind b) (PlField (fst nf)) (tg (fst nf))).
Proof.
  induction l as [|f l IH]; intros k e0 nf Hn Hin; [destruct Hin|].
  unfold tagged. cbn [enum_from map app lookup] in *. inversion Hn as [|x y Hx Hy]; subst.
  destruct Hin as [<-|Hin]; [rewrite same_name_refl; reflexivity|].
  assert (same_name (binding nf) (binding (k, f)) = false) as ->.
  { apply same_name_false. intros E. apply Hx. rewrite <- E. apply in_map. apply in_map. exact Hin. }
  apply IH; assumption.
Qed.

(** ** The literal of [project] and [project_ref] *)
Definition is_ref (b : bool) (m : memory) (nf : nat * field) (x : option ident * av) : Prop :=
  fst x = f_ident (snd nf) /\
  exists c, top (kperm b) c (PlField (fst nf)) m /\
    snd x = if pin_b (snd nf) then AvPin b (PlField (fst nf)) c else AvPtr (ref_kind b) (PlField (fst nf)) c.

Lemma alias_body_fields w uses b tg d l : scope_ok w -> shaped d l -> forall k e a m, fresh (a_next a) m ->
  (forall nf, In nf (enum_from k l) -> lookup (binding nf) e = Some (AvPtr (ref_kind b) (PlField (fst nf)) (tg (fst nf)))) ->
  (forall nf, In nf (enum_from k l) -> top (kperm b) (tg (fst nf)) (PlField (fst nf)) m) ->
  NoDup (map name (map binding (enum_from k l))) -> quiet e ->
  exists vs e' a' m', alias_fields w uses (map body_of (enum_from k l)) d e a = Some (vs, e', a') /\ quiet e' /\
    go b a a' m m' /\ Forall2 (is_ref b m') (enum_from k l) vs /\ same_before k m m'.
Proof.
  intros Hw. induction l as [|f l IH]; intros Hs k e a m Hf Hg Ht Hn Hq; cbn [enum_from map alias_fields].
  - exists [], e, a, m. split; [reflexivity|]. split; [exact Hq|]. split; [apply go_refl; exact Hf|]. split; [constructor|].
    intros l' _. reflexivity.
  - cbn [enum_from map] in Hn. inversion Hn as [|x y Hx Hy]; subst.
    pose proof (Hg (k, f) (or_introl eq_refl)) as Hb. pose proof (Ht (k, f) (or_introl eq_refl)) as Hb'. cbn [fst] in Hb, Hb'.
    set (e1 := take (binding (k, f)) e).
    assert (He1 : quiet e1) by (apply quiet_take; exact Hq).
    assert (Hg1 : forall nf, In nf (enum_from (S k) l) -> lookup (binding nf) e1 = Some (AvPtr (ref_kind b) (PlField (fst nf)) (tg (fst nf)))).
    { intros nf Hin. unfold e1. rewrite lookup_take.
      - apply Hg. right. exact Hin.
      - apply same_name_false. intros E. apply Hx. rewrite <- E. apply in_map. apply in_map. exact Hin. }
    assert (Hev : exists c a1 m1,
      alias_atom w uses (snd (body_of (k, f))) e a =
        Some (if pin_b f then AvPin b (PlField k) c else AvPtr (ref_kind b) (PlField k) c, e1, a1) /\
      go b a a1 m m1 /\ top (kperm b) c (PlField k) m1 /\ (forall l', covers (PlField k) l' = false -> m1 l' = m l')).
    { unfold body_of. cbn [snd fst]. destruct (pin_b f); cbn [snd alias_atom].
      - unfold alias_call. rewrite (support_pp w Hw), Hb.
        pose proof (go_ref b (PlField k) (tg k) a m Hf (top_held (kperm b) b _ _ _ ltac:(destruct b; reflexivity) Hb')) as G.
        exists (a_next a), (snd (derive_ptr (ref_kind b) (PlField k) (tg k) a)), (push (PlField k) (mkEntry (a_next a) (kperm b) false) m).
        split; [destruct b; reflexivity|]. split; [exact G|]. split; [apply top_push|].
        intros l' Hl. unfold push. rewrite Hl. reflexivity.
      - rewrite Hb. exists (tg k), a, m. split; [reflexivity|]. split; [apply go_refl; exact Hf|]. split; [exact Hb'|]. reflexivity. }
    destruct Hev as (c & a1 & m1 & Hev & G1 & T1 & O1).
    destruct (IH (shaped_tail _ _ _ Hs) (S k) e1 a1 m1) as (vs & e2 & a2 & m2 & E2 & Q2 & G2 & R2 & B2); auto.
    { apply (go_fresh _ _ _ _ _ G1). }
    { intros nf Hin l' Hl. rewrite O1; [apply (Ht nf (or_intror Hin) l' Hl)|].
      destruct nf as [j g]. apply ProofsRun.enum_from_in in Hin. cbn [fst] in Hl. apply (covers_field j k l'); [lia|exact Hl]. }
    destruct (body_of (k, f)) as [n at0] eqn:Eb. cbn [snd] in Hev. rewrite Hev, E2.
    eexists _, e2, a2, m2. split; [reflexivity|]. split; [exact Q2|]. split; [eapply go_trans; eassumption|]. split.
    + constructor; [|exact R2]. split; cbn [fst snd].
      * unfold body_of in Eb. cbn [snd] in Eb. destruct (pin_b f); injection Eb as <- <-.
        -- destruct d as [[]|]; try reflexivity; destruct (f_ident f); reflexivity.
        -- unfold binding. cbn [snd fst]. destruct d as [[]|]; cbn [shaped] in Hs; try discriminate.
           ++ rewrite (Hs f (or_introl eq_refl)). reflexivity.
           ++ destruct (f_ident f) eqn:E; [reflexivity|]. elim (Hs f (or_introl eq_refl) E).
      * exists c. split; [|reflexivity]. intros l' Hl. rewrite (B2 l'); [apply T1; exact Hl|].
        intros j Hj ->. cbn in Hl. apply Nat.eqb_eq in Hl. lia.
    + intros l' Hl. rewrite (B2 l') by (intros j Hj; apply Hl; lia). apply O1.
      destruct (covers (PlField k) l') eqn:El; [|reflexivity]. destruct l' as [|j]; [discriminate|].
      cbn in El. apply Nat.eqb_eq in El. subst j. elim (Hl k); [lia|reflexivity].
Qed.

(** ** The literal of [project_replace] *)
Definition is_owned (nf : nat * field) (x : option ident * av) : Prop := fst x = f_ident (snd nf) /\ snd x = AvOwned.
Lemma alias_move_fields w uses tg d l : scope_ok w -> forall k e a m, fresh (a_next a) m ->
  (forall nf, In nf (enum_from k l) -> lookup (binding nf) e = Some (AvPtr PkMut (PlField (fst nf)) (tg (fst nf)))) ->
  (forall nf, In nf (enum_from k l) -> top Unique (tg (fst nf)) (PlField (fst nf)) m) ->
  exists vs a' m', alias_fields w uses (map move_of (enum_from k l)) d e a = Some (vs, e, a') /\
    go true a a' m m' /\ Forall2 is_owned (enum_from k l) vs /\ same_before k m m' /\
    (forall nf, In nf (enum_from k l) -> pin_b (snd nf) = true -> top Unique (tg (fst nf)) (PlField (fst nf)) m').
Proof.
  intros Hw. induction l as [|f l IH]; intros k e a m Hf Hg Ht; cbn [enum_from map alias_fields].
  - exists [], a, m. split; [reflexivity|]. split; [apply go_refl; exact Hf|]. split; [constructor|]. split; [intros l' _; reflexivity|intros nf []].
  - pose proof (Hg (k, f) (or_introl eq_refl)) as Hb. pose proof (Ht (k, f) (or_introl eq_refl)) as Hb'. cbn [fst] in Hb, Hb'.
    assert (Hev : exists a1 m1,
      alias_atom w uses (snd (move_of (k, f))) e a = Some (AvOwned, e, a1) /\ go true a a1 m m1 /\
      (pin_b f = true -> m1 = m) /\ (forall l', covers (PlField k) l' = false -> m1 l' = m l')).
    { unfold move_of. cbn [snd fst]. destruct (pin_b f); cbn [snd alias_atom].
      - unfold pp_priv. rewrite (support_pp w Hw). exists a, m. split; [reflexivity|]. split; [apply go_refl; exact Hf|]. auto.
      - unfold alias_call. rewrite (support_pp w Hw), Hb. cbn [derive_ptr].
        pose proof (go_ref false (PlField k) (tg k) a m Hf (top_held Unique false _ _ _ eq_refl Hb')) as G. cbn [derive_ptr snd ref_kind kperm] in G.
        eexists _, (push (PlField k) (mkEntry (a_next a) SharedRO false) m). split; [reflexivity|]. split; [|split].
        + eapply go_trans; [exact (go_weaken _ _ _ _ _ G)|]. apply go_use; [apply (go_fresh _ _ _ _ _ G)|].
          apply (top_held SharedRO); [reflexivity|apply top_push].
        + discriminate.
        + intros l' Hl. unfold push. rewrite Hl. reflexivity. }
    destruct Hev as (a1 & m1 & Hev & G1 & T1 & O1).
    destruct (IH (S k) e a1 m1) as (vs & a2 & m2 & E2 & G2 & R2 & B2 & P2).
    { apply (go_fresh _ _ _ _ _ G1). }
    { intros nf Hin. apply Hg. right; exact Hin. }
    { intros nf Hin l' Hl. rewrite O1; [apply (Ht nf (or_intror Hin) l' Hl)|].
      destruct nf as [j g]. apply ProofsRun.enum_from_in in Hin. cbn [fst] in Hl. apply (covers_field j k l'); [lia|exact Hl]. }
    destruct (move_of (k, f)) as [n at0] eqn:Eb. cbn [snd] in Hev. rewrite Hev, E2.
    eexists _, a2, m2. split; [reflexivity|]. split; [eapply go_trans; eassumption|]. split; [|split].
    + constructor; [|exact R2]. split; cbn [fst snd]; [|reflexivity].
      unfold move_of in Eb. cbn [snd] in Eb. destruct (pin_b f); injection Eb as <- <-; destruct d as [[]|]; try reflexivity; destruct (f_ident f); reflexivity.
    + intros l' Hl. rewrite (B2 l') by (intros j Hj; apply Hl; lia). apply O1.
      destruct (covers (PlField k) l') eqn:El; [|reflexivity]. destruct l' as [|j]; [discriminate|].
      cbn in El. apply Nat.eqb_eq in El. subst j. elim (Hl k); [lia|reflexivity].
    + intros nf [<-|Hin] Hp; [|apply P2; assumption]. cbn [fst snd] in *. intros l' Hl. rewrite (B2 l').
      * rewrite (T1 Hp). apply Hb'. exact Hl.
      * intros j Hj ->. cbn in Hl. apply Nat.eqb_eq in Hl. lia.
Qed.
