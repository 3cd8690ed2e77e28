(** Tree Borrows: the generated code follows the chain of its newest pointers. *)
From Coq Require Import String Ascii List Bool Arith Lia.
From Verif Require Import Base Syntax ModelArgs ModelUtils ModelDerive ModelRun ModelAlias ModelTree.
From Verif Require Import SpecArgs SpecDerive SpecExpand SpecRun SpecAlias SpecTree.
From Verif Require Import ProofsAlias ProofsAliasRun.
Import ListNotations.
Open Scope string_scope.
Open Scope list_scope.

(** ** Lists of nodes *)
Lemma all_nodes_app f l1 l2 : all_nodes f (l1 ++ l2) =
  match all_nodes f l1, all_nodes f l2 with Some a, Some b => Some (a ++ b) | _, _ => None end.
Proof.
  induction l1 as [|x l1 IH]; cbn [app all_nodes]; [destruct (all_nodes f l2); reflexivity|].
  rewrite IH. destruct (f x); [|reflexivity]. destruct (all_nodes f l1); [|reflexivity]. destruct (all_nodes f l2); reflexivity.
Qed.
Lemma all_nodes_exists f l : (forall x, In x l -> exists y, f x = Some y) -> exists l', all_nodes f l = Some l'.
Proof.
  induction l as [|x l IH]; intros H; cbn [all_nodes]; [eauto|]. destruct (H x (or_introl eq_refl)) as (y & ->).
  destruct IH as (l' & ->); [intros z Hz; apply H; right; exact Hz|]. eauto.
Qed.
Lemma all_nodes_rel f l l' : all_nodes f l = Some l' -> Forall2 (fun x y => f x = Some y) l l'.
Proof.
  revert l'. induction l as [|x l IH]; intros l'; cbn [all_nodes]; [intros H; injection H as <-; constructor|].
  destruct (f x) eqn:E; [|discriminate]. destruct (all_nodes f l) as [s|] eqn:E2; [|discriminate]. intros H. injection H as <-.
  constructor; auto.
Qed.
Lemma all_nodes_of f l l' : Forall2 (fun x y => f x = Some y) l l' -> all_nodes f l = Some l'.
Proof. intros H. induction H as [|x y l l' Hx H IH]; cbn [all_nodes]; [reflexivity|]. rewrite Hx, IH. reflexivity. Qed.
Lemma all_nodes_ext f g l : (forall x, In x l -> f x = g x) -> all_nodes f l = all_nodes g l.
Proof.
  induction l as [|x l IH]; intros H; cbn [all_nodes]; [reflexivity|]. rewrite (H x (or_introl eq_refl)), IH; [reflexivity|].
  intros y Hy. apply H. right. exact Hy.
Qed.
Lemma all_nodes_same f l : (forall x, In x l -> f x = Some x) -> all_nodes f l = Some l.
Proof.
  induction l as [|x l IH]; intros H; cbn [all_nodes]; [reflexivity|]. rewrite (H x (or_introl eq_refl)), IH; [reflexivity|].
  intros y Hy. apply H. right. exact Hy.
Qed.
Lemma Forall2_in_r {A B} (R : A -> B -> Prop) l l' y : Forall2 R l l' -> In y l' -> exists x, In x l /\ R x y.
Proof. intros H. induction H as [|a b l l' Hab H IH]; intros []; [subst; exists a; split; [left; reflexivity|exact Hab]|]. destruct (IH H0) as (x & ? & ?). exists x. split; [right|]; assumption. Qed.
Lemma Forall2_in_l {A B} (R : A -> B -> Prop) l l' x : Forall2 R l l' -> In x l -> exists y, In y l' /\ R x y.
Proof. intros H. induction H as [|a b l l' Hab H IH]; intros []; [subst; exists b; split; [left; reflexivity|exact Hab]|]. destruct (IH H0) as (y & ? & ?). exists y. split; [right|]; assumption. Qed.

Lemma node_kept w p x y : node_access w p x = Some y -> nd_tag y = nd_tag x /\ nd_prot y = nd_prot x.
Proof. unfold node_access. destruct (next_state _ _ _ _); [|discriminate]. intros H. injection H as <-. auto. Qed.
Lemma all_tags w p l l' : all_nodes (node_access w p) l = Some l' -> map nd_tag l' = map nd_tag l.
Proof.
  intros H. apply all_nodes_rel in H. induction H as [|x y l l' Hx H IH]; cbn [map]; [reflexivity|].
  rewrite IH. destruct (node_kept _ _ _ _ Hx) as [-> _]. reflexivity.
Qed.
Lemma elem_in t p : elem t p = true <-> In t p.
Proof.
  unfold elem. rewrite existsb_exists. split; [intros (x & Hx & E); apply Nat.eqb_eq in E; subst; exact Hx|].
  intros H. exists t. split; [exact H|apply Nat.eqb_refl].
Qed.
Lemma elem_low n t p : Forall (fun u => u < n) p -> n <= t -> elem t p = false.
Proof.
  intros H Ht. destruct (elem t p) eqn:E; [|reflexivity]. apply elem_in in E. rewrite Forall_forall in H. specialize (H t E). lia.
Qed.
Lemma elem_app_low n t q p : Forall (fun u => n <= u) q -> t < n -> elem t (q ++ p) = elem t p.
Proof.
  intros H Ht. unfold elem. rewrite existsb_app. replace (existsb (Nat.eqb t) q) with false; [reflexivity|]. symmetry.
  induction H as [|u q Hu H IH]; cbn [existsb]; [reflexivity|]. rewrite IH, orb_false_r. apply Nat.eqb_neq. lia.
Qed.
Lemma path_skip n t (np op : list (nat * list nat)) : Forall (fun x => n <= fst x) np -> t < n -> tree_path t (np ++ op) = tree_path t op.
Proof.
  intros H Ht. induction H as [|[u p] np Hu H IH]; cbn [app tree_path]; [reflexivity|]. cbn [fst] in Hu.
  replace (Nat.eqb u t) with false; [exact IH|]. symmetry. apply Nat.eqb_neq. lia.
Qed.
Lemma path_in t ps p : tree_path t ps = Some p -> In (t, p) ps.
Proof.
  induction ps as [|[u q] ps IH]; cbn [tree_path]; [discriminate|]. destruct (Nat.eqb u t) eqn:E; [|right; auto].
  intros H. injection H as ->. apply Nat.eqb_eq in E. subst. left. reflexivity.
Qed.

(** ** The chain *)
Section Chain.
  Variable b : bool.              (* writes are allowed *)
  Variable n : nat.               (* the first new tag *)
  Variable P : list nat.          (* the tag of the pointer the chain starts from, and its ancestors *)
  Variable op_ : list (nat * list nat).
  Variable inv : list node -> Prop.
  Hypothesis P_low : Forall (fun u => u < n) P.
  Hypothesis op_low : forall t p, In (t, p) op_ -> t < n /\ Forall (fun u => u < n) p.
  Hypothesis inv_ok : forall O, inv O -> forall w, (w = true -> b = true) ->
    exists O', all_nodes (node_access w P) O = Some O' /\ inv O'.

  Fixpoint chain_path (s : stack) : list nat :=
    match s with [] => P | e :: r => if is_raw e then chain_path r else en_tag e :: chain_path r end.
  Definition state_ok (q : perm) (st : tstate) : Prop :=
    match q with Unique => st = TReserved false \/ st = TActive | SharedRO => st = TFrozen | _ => False end.
  Record link (T : tree) (nn : list node) (k : nat) (e : entry) (r : stack) : Prop := {
    lk_path : tree_path (en_tag e) (tr_ptrs T) = Some (chain_path (e :: r));
    lk_node : is_raw e = false -> exists x, In x nn /\ nd_tag x = en_tag e /\ nd_prot x = en_prot e /\ state_ok (en_perm e) (nd_state x);
    lk_perm : en_perm e <> Disabled;
    lk_ro : en_perm e <> SharedRO -> Forall (fun f => en_perm f <> SharedRO) r;
    lk_mode : b = false -> en_perm e = SharedRO;
    lk_new : n <= en_tag e < k
  }.
  Definition links (T : tree) (nn : list node) (k : nat) (s : stack) : Prop := forall x e r, s = x ++ e :: r -> link T nn k e r.
  Record new_node (k : nat) (s : stack) (x : node) : Prop := {
    nw_tag : n <= nd_tag x < k;
    nw_mode : b = false -> nd_state x = TFrozen;
    nw_prot : nd_prot x = true -> exists e, In e s /\ is_raw e = false /\ en_tag e = nd_tag x
  }.
  Record sim_parts (k : nat) (s : stack) (T : tree) (np : list (nat * list nat)) (nn oo : list node) : Prop := {
    sm_ptrs : tr_ptrs T = np ++ op_;
    sm_new_ptrs : Forall (fun x => n <= fst x < k /\ Forall (fun u => u < k) (snd x)) np;
    sm_nodes : tr_nodes T = nn ++ oo;
    sm_inv : inv oo;
    sm_old : Forall (fun x => nd_tag x < n) oo;
    sm_dup : NoDup (map nd_tag nn);
    sm_new : Forall (new_node k s) nn;
    sm_links : links T nn k s
  }.
  Definition sim (k : nat) (s : stack) (T : tree) : Prop := exists np nn oo, sim_parts k s T np nn oo.

  Lemma same_node nn (x y : node) : NoDup (map nd_tag nn) -> In x nn -> In y nn -> nd_tag x = nd_tag y -> x = y.
  Proof.
    intros Hd Hx Hy E. induction nn as [|z nn IH]; [destruct Hx|]. cbn [map] in Hd. inversion Hd as [|? ? Hz Hd']; subst.
    destruct Hx as [->|Hx], Hy as [->|Hy]; auto.
    - elim Hz. rewrite E. apply in_map. exact Hy.
    - elim Hz. rewrite <- E. apply in_map. exact Hx.
  Qed.
  Lemma links_tail T nn k x r : links T nn k (x ++ r) -> links T nn k r.
  Proof. intros H y e q ->. apply (H (x ++ y) e q). rewrite <- app_assoc. reflexivity. Qed.
  Lemma chain_path_split s : exists q, chain_path s = q ++ P /\ forall u, In u q -> exists e, In e s /\ is_raw e = false /\ en_tag e = u.
  Proof.
    induction s as [|e s (q & E & H)]; cbn [chain_path]; [exists []; split; [reflexivity|intros u []]|].
    destruct (is_raw e) eqn:Er.
    - exists q. split; [exact E|]. intros u Hu. destruct (H u Hu) as (f & ? & ?). exists f. split; [right|]; assumption.
    - exists (en_tag e :: q). rewrite E. split; [reflexivity|]. intros u [<-|Hu]; [exists e; repeat split; auto; left; reflexivity|].
      destruct (H u Hu) as (f & ? & ?). exists f. split; [right|]; assumption.
  Qed.
  Lemma chain_path_has s e : In e s -> is_raw e = false -> In (en_tag e) (chain_path s).
  Proof.
    induction s as [|f s IH]; [intros []|]; intros [->|H] He; cbn [chain_path].
    - rewrite He. left. reflexivity.
    - destruct (is_raw f); [auto|right; auto].
  Qed.
  Lemma links_in T nn k s e : links T nn k s -> In e s -> exists x r, s = x ++ e :: r /\ link T nn k e r.
  Proof. intros H He. apply in_split in He. destruct He as (x & r & E). exists x, r. split; [exact E|exact (H x e r E)]. Qed.
  Lemma chain_high T nn k s : links T nn k s -> exists q, chain_path s = q ++ P /\ Forall (fun u => n <= u) q.
  Proof.
    intros H. destruct (chain_path_split s) as (q & E & Hq). exists q. split; [exact E|]. apply Forall_forall. intros u Hu.
    destruct (Hq u Hu) as (e & He & _ & <-). destruct (links_in _ _ _ _ _ H He) as (? & ? & _ & L). apply (lk_new _ _ _ _ _ L).
  Qed.
  Lemma chain_below T nn k s m : links T nn k s -> k <= m -> n <= m -> Forall (fun u => u < m) (chain_path s).
  Proof.
    intros H Hk Hn. destruct (chain_path_split s) as (q & E & Hq). rewrite E. apply Forall_app. split.
    - apply Forall_forall. intros u Hu. destruct (Hq u Hu) as (e & He & _ & <-). destruct (links_in _ _ _ _ _ H He) as (? & ? & _ & L).
      pose proof (lk_new _ _ _ _ _ L). lia.
    - eapply Forall_impl; [|exact P_low]. intros u. cbn. lia.
  Qed.
  (** A new node that belongs to the path is that of an entry. *)
  Lemma chain_node T nn k s x : links T nn k s -> NoDup (map nd_tag nn) -> In x nn -> n <= nd_tag x ->
    elem (nd_tag x) (chain_path s) = true ->
    exists e y r, s = y ++ e :: r /\ is_raw e = false /\ en_tag e = nd_tag x /\ nd_prot x = en_prot e /\ state_ok (en_perm e) (nd_state x) /\ link T nn k e r.
  Proof.
    intros H Hd Hx Hn He. apply elem_in in He. destruct (chain_path_split s) as (q & E & Hq). rewrite E in He.
    apply in_app_or in He. destruct He as [He|He]; [|rewrite Forall_forall in P_low; specialize (P_low _ He); lia].
    destruct (Hq _ He) as (e & Hin & Hr & Et). destruct (links_in _ _ _ _ _ H Hin) as (y & r & Es & L).
    destruct (lk_node _ _ _ _ _ L Hr) as (z & Hz & Ez & Ep & Hs).
    assert (z = x) by (apply (same_node nn); auto; congruence). subst z. exists e, y, r. auto 10.
  Qed.

  (** An access through an entry, if none above it is protected. *)
  Lemma sim_access k x e r T w : sim k (x ++ e :: r) T -> Forall (fun f => en_prot f = false) x ->
    allows (en_perm e) w = true ->
    exists l', all_nodes (node_access w (chain_path (e :: r))) (tr_nodes T) = Some l' /\ sim k (e :: r) (mkTree (tr_ptrs T) l').
  Proof.
    intros (np & nn & oo & [S1 S2 S3 S4 S5 S6 S7 S8]) Hx Hw.
    pose proof (S8 x e r eq_refl) as Le. set (s := e :: r) in *.
    assert (L : links T nn k s) by (apply (links_tail T nn k x); exact S8).
    assert (Hwb : w = true -> b = true).
    { intros ->. destruct (bool_dec b true) as [Eb|Eb]; [exact Eb|]. apply not_true_is_false in Eb.
      pose proof (lk_mode _ _ _ _ _ Le Eb) as E. rewrite E in Hw. discriminate. }
    assert (Hro : w = true -> Forall (fun f => en_perm f <> SharedRO) s).
    { intros ->. assert (en_perm e <> SharedRO) as He by (intros E; rewrite E in Hw; discriminate).
      constructor; [exact He|]. exact (lk_ro _ _ _ _ _ Le He). }
    destruct (chain_high T nn k s L) as (q & Eq & Hq).
    rewrite S3, all_nodes_app.
    assert (Hold : all_nodes (node_access w (chain_path s)) oo = all_nodes (node_access w P) oo).
    { apply all_nodes_ext. intros y Hy. unfold node_access. rewrite Eq, (elem_app_low n); [reflexivity|exact Hq|].
      rewrite Forall_forall in S5. exact (S5 y Hy). }
    destruct (inv_ok oo S4 w Hwb) as (oo' & Eo & Io). rewrite Hold, Eo.
    assert (Hloc : forall y, In y nn -> elem (nd_tag y) (chain_path s) = true ->
      exists st, next_state w true (nd_prot y) (nd_state y) = Some st /\
        (st = nd_state y \/ (w = true /\ st = TActive)) /\
        (forall f, In f s -> is_raw f = false -> en_tag f = nd_tag y -> state_ok (en_perm f) st)).
    { intros y Hy Hp. rewrite Forall_forall in S7. pose proof (S7 y Hy) as [[N1 _] N2 N3].
      destruct (chain_node T nn k s y L S6 Hy N1 Hp) as (f & u & v & Es & Hr & Et & Epr & Hok & Lf).
      assert (Hall : forall g, In g s -> is_raw g = false -> en_tag g = nd_tag y -> state_ok (en_perm g) (nd_state y)).
      { intros g Hg Hgr Hgt. destruct (links_in _ _ _ _ _ L Hg) as (? & ? & _ & Lg).
        destruct (lk_node _ _ _ _ _ Lg Hgr) as (z & Hz & Ez & _ & Hs).
        assert (z = y) by (apply (same_node nn); auto; congruence). subst z. exact Hs. }
      destruct w.
      - specialize (Hro eq_refl). rewrite Forall_forall in Hro.
        assert (Hf : In f s) by (rewrite Es; apply in_or_app; right; left; reflexivity). specialize (Hro f Hf).
        destruct (en_perm f) eqn:Ef; try contradiction. exists TActive.
        split; [destruct Hok as [-> | ->]; cbn [next_state andb]; reflexivity|]. split; [right; auto|].
        intros g Hg Hgr Hgt. specialize (Hall g Hg Hgr Hgt).
        assert (en_perm g <> SharedRO).
        { pose proof (Hro) as _. intros E. rewrite E in Hall. cbn in Hall. rewrite Hall in Hok. destruct Hok; discriminate. }
        destruct (en_perm g); try contradiction. right. reflexivity.
      - exists (nd_state y). split; [|split; [left; reflexivity|exact Hall]].
        destruct (en_perm f); try contradiction; [destruct Hok as [-> | ->]|rewrite Hok]; reflexivity. }
    assert (Hfor : forall y, In y nn -> elem (nd_tag y) (chain_path s) = false -> nd_prot y = false).
    { intros y Hy Hp. destruct (nd_prot y) eqn:E; [|reflexivity]. exfalso. rewrite Forall_forall in S7.
      destruct (nw_prot _ _ _ (S7 y Hy) E) as (f & Hf & Hfr & Hft). apply in_app_or in Hf. destruct Hf as [Hf|Hf].
      - destruct (links_in T nn k (x ++ s) f S8) as (? & ? & _ & Lf); [apply in_or_app; left; exact Hf|].
        destruct (lk_node _ _ _ _ _ Lf Hfr) as (z & Hz & Ez & Ep & _).
        assert (z = y) by (apply (same_node nn); auto; congruence). subst z.
        rewrite Forall_forall in Hx. rewrite (Hx f Hf) in Ep. congruence.
      - pose proof (chain_path_has s f Hf Hfr) as Hin. rewrite Hft in Hin. apply elem_in in Hin. congruence. }
    destruct (all_nodes_exists (node_access w (chain_path s)) nn) as (nn' & En).
    { intros y Hy. unfold node_access. destruct (elem (nd_tag y) (chain_path s)) eqn:Ep.
      - destruct (Hloc y Hy Ep) as (st & -> & _). cbn [option_map]. eauto.
      - rewrite (Hfor y Hy Ep). destruct w, (nd_state y); cbn [next_state option_map]; eauto. }
    rewrite En. exists (nn' ++ oo'). split; [reflexivity|]. exists np, nn', oo'.
    pose proof (all_nodes_rel _ _ _ En) as Rn.
    constructor; cbn [tr_ptrs tr_nodes]; auto.
    - apply Forall_forall. intros y Hy. apply (in_map nd_tag) in Hy. rewrite (all_tags _ _ _ _ Eo) in Hy.
      apply in_map_iff in Hy. destruct Hy as (z & <- & Hz). rewrite Forall_forall in S5. exact (S5 z Hz).
    - rewrite (all_tags _ _ _ _ En). exact S6.
    - apply Forall_forall. intros y Hy. destruct (Forall2_in_r _ _ _ _ Rn Hy) as (z & Hz & Ez).
      destruct (node_kept _ _ _ _ Ez) as [Et Ep]. rewrite Forall_forall in S7. pose proof (S7 z Hz) as [N1 N2 N3].
      constructor; [rewrite Et; exact N1| |].
      + intros Hb. specialize (N2 Hb). unfold node_access in Ez. rewrite N2 in Ez.
        destruct w; [specialize (Hwb eq_refl); congruence|].
        destruct (elem (nd_tag z) (chain_path s)); cbn [next_state option_map] in Ez; injection Ez as <-; reflexivity.
      + intros Hp. rewrite Ep in Hp. rewrite Et. destruct (elem (nd_tag z) (chain_path s)) eqn:Ee.
        * destruct (chain_node T nn k s z L S6 Hz (proj1 N1) Ee) as (f & u & v & Es & Hr & Ef & _). exists f.
          split; [rewrite Es; apply in_or_app; right; left; reflexivity|]. auto.
        * rewrite (Hfor z Hz Ee) in Hp. discriminate.
    - intros u f v Ef. pose proof (L u f v Ef) as [K1 K2 K3 K4 K5 K6]. constructor; auto.
      intros Hr. destruct (K2 Hr) as (z & Hz & Ez & Ep & Hs). destruct (Forall2_in_l _ _ _ _ Rn Hz) as (y & Hy & Ey).
      destruct (node_kept _ _ _ _ Ey) as [Et Ept]. exists y. split; [exact Hy|]. split; [congruence|]. split; [congruence|].
      assert (Hf : In f s) by (rewrite Ef; apply in_or_app; right; left; reflexivity).
      assert (Ee : elem (nd_tag z) (chain_path s) = true) by (apply elem_in; rewrite Ez; apply chain_path_has; auto).
      unfold node_access in Ey. rewrite Ee in Ey. destruct (Hloc z Hz Ee) as (st & Est & _ & Hok). rewrite Est in Ey.
      cbn [option_map] in Ey. injection Ey as <-. cbn [nd_state]. apply Hok; auto.
  Qed.

  Lemma sim_le k k' s T : k <= k' -> sim k s T -> sim k' s T.
  Proof.
    intros Hk (np & nn & oo & [S1 S2 S3 S4 S5 S6 S7 S8]). exists np, nn, oo. constructor; auto.
    - eapply Forall_impl; [|exact S2]. intros x (A & B). split; [lia|]. eapply Forall_impl; [|exact B]. intros u. cbn. lia.
    - eapply Forall_impl; [|exact S7]. intros x [N1 N2 N3]. constructor; auto. lia.
    - intros x e r E. destruct (S8 x e r E) as [K1 K2 K3 K4 K5 K6]. constructor; auto. lia.
  Qed.
  (** A new pointer above. *)
  Lemma sim_push k s T t q pr st : sim k s T -> k <= t -> n <= t -> q <> Disabled -> (b = false -> q = SharedRO) ->
    (q <> SharedRO -> Forall (fun f => en_perm f <> SharedRO) s) -> state_ok q st ->
    sim (S t) (mkEntry t q pr :: s) (mkTree ((t, t :: chain_path s) :: tr_ptrs T) (mkNode t st pr :: tr_nodes T)).
  Proof.
    intros (np & nn & oo & [S1 S2 S3 S4 S5 S6 S7 S8]) Hk Hn Hq Hm Hro Hst.
    assert (Hraw : is_raw (mkEntry t q pr) = false) by (destruct q; try reflexivity; contradiction).
    exists ((t, t :: chain_path s) :: np), (mkNode t st pr :: nn), oo. constructor; cbn [tr_ptrs tr_nodes]; auto.
    - rewrite S1. reflexivity.
    - constructor; [cbn [fst snd]; split; [lia|constructor; [lia|apply (chain_below T nn k); auto; lia]]|].
      eapply Forall_impl; [|exact S2]. intros x (A & B). split; [lia|]. eapply Forall_impl; [|exact B]. intros u. cbn. lia.
    - rewrite S3. reflexivity.
    - cbn [map nd_tag]. constructor; [|exact S6]. intros H. apply in_map_iff in H. destruct H as (x & E & Hx).
      rewrite Forall_forall in S7. destruct (S7 x Hx) as [N1 _ _]. lia.
    - constructor.
      + constructor; cbn [nd_tag nd_state nd_prot]; [lia| |].
        * intros Hb. rewrite (Hm Hb) in Hst. exact Hst.
        * intros _. exists (mkEntry t q pr). split; [left; reflexivity|auto].
      + eapply Forall_impl; [|exact S7]. intros x [N1 N2 N3]. constructor; auto; try lia.
        intros Hp. destruct (N3 Hp) as (e & He & H). exists e. split; [right; exact He|exact H].
    - intros x e r E. destruct x as [|y x]; cbn [app] in E.
      + injection E as <- <-. constructor; cbn [en_tag en_perm tr_ptrs tree_path]; auto; try lia.
        * rewrite Nat.eqb_refl. cbn [chain_path]. rewrite Hraw. reflexivity.
        * intros _. exists (mkNode t st pr). cbn. auto 10.
      + injection E as _ ->. destruct (S8 x e r eq_refl) as [K1 K2 K3 K4 K5 K6]. constructor; auto; try lia.
        * cbn [tr_ptrs tree_path]. assert (Nat.eqb t (en_tag e) = false) as -> by (apply Nat.eqb_neq; lia). exact K1.
        * intros Hr. destruct (K2 Hr) as (z & Hz & H). exists z. split; [right; exact Hz|exact H].
  Qed.
  Lemma sim_raw k s T t pr : sim k s T -> k <= t -> n <= t -> b = true -> Forall (fun f => en_perm f <> SharedRO) s ->
    sim (S t) (mkEntry t SharedRW pr :: s) (mkTree ((t, chain_path s) :: tr_ptrs T) (tr_nodes T)).
  Proof.
    intros (np & nn & oo & [S1 S2 S3 S4 S5 S6 S7 S8]) Hk Hn Hb Hro.
    exists ((t, chain_path s) :: np), nn, oo. constructor; cbn [tr_ptrs tr_nodes]; auto.
    - rewrite S1. reflexivity.
    - constructor; [cbn [fst snd]; split; [lia|apply (chain_below T nn k); auto; lia]|].
      eapply Forall_impl; [|exact S2]. intros x (A & B). split; [lia|]. eapply Forall_impl; [|exact B]. intros u. cbn. lia.
    - eapply Forall_impl; [|exact S7]. intros x [N1 N2 N3]. constructor; auto; try lia.
      intros Hp. destruct (N3 Hp) as (e & He & H). exists e. split; [right; exact He|exact H].
    - intros x e r E. destruct x as [|y x]; cbn [app] in E.
      + injection E as <- <-. constructor; cbn [en_tag en_perm tr_ptrs tree_path]; auto; try discriminate; try lia; try congruence.
        rewrite Nat.eqb_refl. reflexivity.
      + injection E as _ ->. destruct (S8 x e r eq_refl) as [K1 K2 K3 K4 K5 K6]. constructor; auto; try lia.
        cbn [tr_ptrs tree_path]. assert (Nat.eqb t (en_tag e) = false) as -> by (apply Nat.eqb_neq; lia). exact K1.
  Qed.
  Lemma sim_top_path k e r T : sim k (e :: r) T -> tree_path (en_tag e) (tr_ptrs T) = Some (chain_path (e :: r)).
  Proof. intros (np & nn & oo & H). exact (lk_path _ _ _ _ _ (sm_links _ _ _ _ _ _ H [] e r eq_refl)). Qed.
  Lemma sim_path k x e r T : sim k (x ++ e :: r) T -> tree_path (en_tag e) (tr_ptrs T) = Some (chain_path (e :: r)).
  Proof. intros (np & nn & oo & H). exact (lk_path _ _ _ _ _ (sm_links _ _ _ _ _ _ H x e r eq_refl)). Qed.
  Lemma sim_writable k e r T : sim k (e :: r) T -> allows (en_perm e) true = true ->
    b = true /\ Forall (fun f => en_perm f <> SharedRO) (e :: r).
  Proof.
    intros (np & nn & oo & H) Ha. pose proof (sm_links _ _ _ _ _ _ H [] e r eq_refl) as L.
    assert (en_perm e <> SharedRO) as He by (intros E; rewrite E in Ha; discriminate). split.
    - destruct (bool_dec b true) as [Eb|Eb]; [exact Eb|]. apply not_true_is_false in Eb. elim He. exact (lk_mode _ _ _ _ _ L Eb).
    - constructor; [exact He|]. exact (lk_ro _ _ _ _ _ L He).
  Qed.

  (** Protectors. *)
  Lemma release_raw u e : is_raw (release u e) = is_raw e.
  Proof. unfold release. destruct (Nat.eqb _ _); reflexivity. Qed.
  Lemma release_tag u e : en_tag (release u e) = en_tag e.
  Proof. unfold release. destruct (Nat.eqb _ _); reflexivity. Qed.
  Lemma release_perm u e : en_perm (release u e) = en_perm e.
  Proof. unfold release. destruct (Nat.eqb _ _); reflexivity. Qed.
  Lemma chain_release u s : chain_path (map (release u) s) = chain_path s.
  Proof. induction s as [|e s IH]; cbn [map chain_path]; [reflexivity|]. rewrite release_raw, release_tag, IH. reflexivity. Qed.
  Lemma unprotect_tag u x : nd_tag (unprotect u x) = nd_tag x.
  Proof. unfold unprotect. destruct (Nat.eqb _ _); reflexivity. Qed.
  Lemma unprotect_state u x : nd_state (unprotect u x) = nd_state x.
  Proof. unfold unprotect. destruct (Nat.eqb _ _); reflexivity. Qed.
  Lemma unprotect_prot u x : nd_prot (unprotect u x) = (if Nat.eqb (nd_tag x) u then false else nd_prot x).
  Proof. unfold unprotect. destruct (Nat.eqb _ _); reflexivity. Qed.
  Lemma unprotect_low u l : n <= u -> Forall (fun x => nd_tag x < n) l -> map (unprotect u) l = l.
  Proof.
    intros Hu H. induction H as [|x l Hx H IH]; cbn [map]; [reflexivity|]. rewrite IH. unfold unprotect.
    assert (Nat.eqb (nd_tag x) u = false) as -> by (apply Nat.eqb_neq; lia). reflexivity.
  Qed.
  Lemma unprotect_links T nn k s u : links T nn k s -> links T (map (unprotect u) nn) k (map (release u) s).
  Proof.
    intros H x' e' r' E. apply map_eq_app in E. destruct E as (x & y & -> & _ & E).
    destruct y as [|e r]; [discriminate|]. cbn [map] in E. injection E as E1 E2. subst e' r'.
    destruct (H x e r eq_refl) as [K1 K2 K3 K4 K5 K6]. constructor.
    - rewrite release_tag. change (release u e :: map (release u) r) with (map (release u) (e :: r)). rewrite chain_release. exact K1.
    - rewrite release_raw, release_tag, release_perm. intros Hr. destruct (K2 Hr) as (z & Hz & Ez & Ep & Hs).
      exists (unprotect u z). split; [apply in_map; exact Hz|]. rewrite unprotect_tag, unprotect_state, unprotect_prot.
      split; [exact Ez|]. split; [|exact Hs]. unfold release. rewrite Ez. destruct (Nat.eqb (en_tag e) u); [reflexivity|exact Ep].
    - rewrite release_perm. exact K3.
    - rewrite release_perm. intros Hp. apply Forall_map. eapply Forall_impl; [|exact (K4 Hp)]. intros f. cbn beta. rewrite release_perm. auto.
    - rewrite release_perm. exact K5.
    - rewrite release_tag. exact K6.
  Qed.
  Lemma unprotect_new k s u nn : Forall (new_node k s) nn -> Forall (new_node k (map (release u) s)) (map (unprotect u) nn).
  Proof.
    intros H. apply Forall_map. eapply Forall_impl; [|exact H]. intros x [N1 N2 N3].
    constructor; rewrite ?unprotect_tag, ?unprotect_state; auto.
    rewrite unprotect_prot. destruct (Nat.eqb (nd_tag x) u); [discriminate|]. intros Hp. destruct (N3 Hp) as (e & He & Hr & Et).
    exists (release u e). split; [apply in_map; exact He|]. rewrite release_raw, release_tag. auto.
  Qed.
  Lemma unprotect_same u nn x : NoDup (map nd_tag nn) -> In x nn -> nd_tag x = u -> nd_prot x = false -> map (unprotect u) nn = nn.
  Proof.
    intros Hd Hx Ht Hp. rewrite <- (map_id nn) at 2. apply map_ext_in. intros y Hy. unfold unprotect.
    destruct (Nat.eqb (nd_tag y) u) eqn:E; [|reflexivity]. apply Nat.eqb_eq in E.
    assert (y = x) by (apply (same_node nn); auto; congruence). subst y. destruct x as [a c d]. cbn in *. subst. reflexivity.
  Qed.
  Lemma find_none (l : list node) u : find (fun x => Nat.eqb (nd_tag x) u) l = None -> map (unprotect u) l = l.
  Proof.
    intros H. rewrite <- (map_id l) at 2. apply map_ext_in. intros y Hy. unfold unprotect. pose proof (find_none _ _ H y Hy) as E. cbn beta in E.
    rewrite E. reflexivity.
  Qed.

  Lemma sim_release k s T u : sim k s T -> n <= u -> exists T', tree_release u T = Some T' /\ sim k (map (release u) s) T'.
  Proof.
    intros (np & nn & oo & [S1 S2 S3 S4 S5 S6 S7 S8]) Hu.
    assert (Hun : map (unprotect u) nn = nn -> sim k (map (release u) s) T).
    { intros E. exists np, nn, oo. constructor; auto.
      - rewrite <- E. apply unprotect_new. exact S7.
      - rewrite <- E. apply unprotect_links. exact S8. }
    unfold tree_release, find_node. destruct (find (fun x => Nat.eqb (nd_tag x) u) (tr_nodes T)) as [x|] eqn:Ef.
    2:{ exists T. split; [reflexivity|]. apply Hun. rewrite S3 in Ef. apply find_none in Ef. rewrite map_app in Ef.
        apply (f_equal (firstn (length nn))) in Ef. rewrite !firstn_app, firstn_all, Nat.sub_diag in Ef.
        rewrite <- (map_length (unprotect u) nn) in Ef at 1. rewrite firstn_all, map_length, Nat.sub_diag in Ef. cbn [firstn] in Ef.
        rewrite !app_nil_r in Ef. exact Ef. }
    apply find_some in Ef. destruct Ef as [Hx Ex]. apply Nat.eqb_eq in Ex. rewrite S3 in Hx. apply in_app_or in Hx.
    destruct Hx as [Hx|Hx]; [|rewrite Forall_forall in S5; specialize (S5 x Hx); lia].
    destruct (nd_prot x) eqn:Ep.
    2:{ exists T. split; [destruct (tree_path u (tr_ptrs T)); reflexivity|]. apply Hun. apply (unprotect_same u nn x); auto. }
    pose proof S7 as S7'. rewrite Forall_forall in S7'.
    destruct (nw_prot _ _ _ (S7' x Hx) Ep) as (e & He & Her & Het). rewrite Ex in Het.
    destruct (links_in _ _ _ _ _ S8 He) as (y & r & Es & Le). pose proof (lk_path _ _ _ _ _ Le) as Epath. rewrite Het in Epath. rewrite Epath.
    destruct (lk_node _ _ _ _ _ Le Her) as (x2 & Hx2 & Ex2 & _ & Hst).
    assert (x2 = x) by (apply (same_node nn); auto; congruence). subst x2.
    assert (L : links T nn k (e :: r)) by (apply (links_tail T nn k y); rewrite <- Es; exact S8).
    set (w := match nd_state x with TActive => true | _ => false end).
    assert (Hro : w = true -> b = true /\ Forall (fun f => en_perm f <> SharedRO) (e :: r)).
    { unfold w. intros Ew. assert (en_perm e <> SharedRO) as Hne.
      { intros E. rewrite E in Hst. cbn in Hst. rewrite Hst in Ew. discriminate. }
      split; [|constructor; [exact Hne|exact (lk_ro _ _ _ _ _ Le Hne)]].
      destruct (bool_dec b true) as [Eb|Eb]; [exact Eb|]. apply not_true_is_false in Eb. elim Hne. exact (lk_mode _ _ _ _ _ Le Eb). }
    set (f := fun y0 : node => if below u T y0 then Some y0 else node_access w (chain_path (e :: r)) y0).
    assert (exists T', option_map (fun l => mkTree (tr_ptrs T) (map (unprotect u) l)) (all_nodes f (tr_nodes T)) = Some T' /\
                       sim k (map (release u) s) T') as (T' & ET & HT).
    2:{ exists T'. split; [|exact HT]. unfold f, w in ET. destruct (nd_state x) eqn:Est; try exact ET.
        destruct (en_perm e); cbn [state_ok] in Hst; try contradiction; [destruct Hst; discriminate|discriminate]. }
    destruct (chain_high T nn k (e :: r) L) as (q & Eq & Hq).
    assert (Hold : all_nodes f oo = all_nodes (node_access w P) oo).
    { apply all_nodes_ext. intros z Hz. unfold f. rewrite Forall_forall in S5. specialize (S5 z Hz).
      assert (below u T z = false) as ->.
      { unfold below. rewrite S1, (path_skip n); [| |exact S5].
        2:{ eapply Forall_impl; [|exact S2]. intros v (A & _). cbn. lia. }
        destruct (tree_path (nd_tag z) op_) as [p|] eqn:Epz; [|reflexivity]. apply path_in in Epz.
        destruct (op_low _ _ Epz) as [_ Hp]. exact (elem_low n u p Hp Hu). }
      unfold node_access. rewrite Eq, (elem_app_low n); [reflexivity|exact Hq|exact S5]. }
    destruct (inv_ok oo S4 w (fun E => proj1 (Hro E))) as (oo' & Eo & Io).
    assert (Hbel : forall z, In z nn -> nd_prot z = true -> below u T z = true \/ elem (nd_tag z) (chain_path (e :: r)) = true).
    { intros z Hz Hp. destruct (nw_prot _ _ _ (S7' z Hz) Hp) as (g & Hg & Hgr & Hgt). rewrite Es in Hg. apply in_app_or in Hg.
      destruct Hg as [Hg|Hg].
      - left. apply in_split in Hg. destruct Hg as (y1 & y2 & ->). pose proof (S8 y1 g (y2 ++ e :: r)) as Lg.
        rewrite Es, <- app_assoc in Lg. specialize (Lg eq_refl). unfold below. rewrite <- Hgt, (lk_path _ _ _ _ _ Lg).
        apply elem_in. rewrite <- Het. apply chain_path_has; [|exact Her]. right. apply in_or_app. right. left. reflexivity.
      - right. apply elem_in. rewrite <- Hgt. apply chain_path_has; assumption. }
    assert (Hloc : forall z, In z nn -> elem (nd_tag z) (chain_path (e :: r)) = true ->
      exists st, next_state w true (nd_prot z) (nd_state z) = Some st /\
        (forall g, In g s -> is_raw g = false -> en_tag g = nd_tag z -> state_ok (en_perm g) st)).
    { intros z Hz Hp. pose proof (S7' z Hz) as [[N1 _] N2 N3].
      destruct (chain_node T nn k (e :: r) z L S6 Hz N1 Hp) as (g & u0 & v & Eg & Hr & Et & Epr & Hok & Lf).
      assert (Hall : forall g, In g s -> is_raw g = false -> en_tag g = nd_tag z -> state_ok (en_perm g) (nd_state z)).
      { intros g0 Hg Hgr Hgt. destruct (links_in _ _ _ _ _ S8 Hg) as (? & ? & _ & Lg).
        destruct (lk_node _ _ _ _ _ Lg Hgr) as (z0 & Hz0 & Ez0 & _ & Hs).
        assert (z0 = z) by (apply (same_node nn); auto; congruence). subst z0. exact Hs. }
      destruct w.
      - destruct (Hro eq_refl) as [_ Hf]. rewrite Forall_forall in Hf.
        assert (Hg : In g (e :: r)) by (rewrite Eg; apply in_or_app; right; left; reflexivity). specialize (Hf g Hg).
        destruct (en_perm g) eqn:Ef; try contradiction. exists TActive.
        split; [destruct Hok as [-> | ->]; reflexivity|].
        intros g0 Hg0 Hgr Hgt. specialize (Hall g0 Hg0 Hgr Hgt). destruct (en_perm g0); try contradiction; [right; reflexivity|].
        cbn in Hall. rewrite Hall in Hok. destruct Hok; discriminate.
      - exists (nd_state z). split; [|exact Hall].
        destruct (en_perm g); try contradiction; [destruct Hok as [-> | ->]|rewrite Hok]; reflexivity. }
    destruct (all_nodes_exists f nn) as (nn' & En).
    { intros z Hz. unfold f. destruct (below u T z) eqn:Eb; [eauto|]. unfold node_access.
      destruct (elem (nd_tag z) (chain_path (e :: r))) eqn:Ee.
      - destruct (Hloc z Hz Ee) as (st & -> & _). cbn [option_map]. eauto.
      - destruct (nd_prot z) eqn:Epz; [destruct (Hbel z Hz Epz); congruence|].
        destruct w, (nd_state z); cbn [next_state option_map]; eauto. }
    pose proof (all_nodes_rel _ _ _ En) as Rn.
    assert (Hkept : forall z z', f z = Some z' -> nd_tag z' = nd_tag z /\ nd_prot z' = nd_prot z).
    { intros z z'. unfold f. destruct (below u T z); [intros E; injection E as <-; auto|apply node_kept]. }
    rewrite S3, all_nodes_app, En, Hold, Eo. cbn [option_map]. eexists. split; [reflexivity|].
    rewrite map_app, (unprotect_low u oo' Hu).
    2:{ apply Forall_forall. intros z Hz. apply (in_map nd_tag) in Hz. rewrite (all_tags _ _ _ _ Eo) in Hz.
        apply in_map_iff in Hz. destruct Hz as (z0 & <- & Hz0). rewrite Forall_forall in S5. exact (S5 z0 Hz0). }
    assert (Etags : map nd_tag nn' = map nd_tag nn).
    { clear - Rn Hkept. induction Rn as [|z z' l l' Hz H IH]; cbn [map]; [reflexivity|]. rewrite IH. destruct (Hkept _ _ Hz) as [-> _]. reflexivity. }
    exists np, (map (unprotect u) nn'), oo'. constructor; cbn [tr_ptrs tr_nodes]; auto.
    - apply Forall_forall. intros z Hz. apply (in_map nd_tag) in Hz. rewrite (all_tags _ _ _ _ Eo) in Hz.
      apply in_map_iff in Hz. destruct Hz as (z0 & <- & Hz0). rewrite Forall_forall in S5. exact (S5 z0 Hz0).
    - rewrite map_map, (map_ext _ nd_tag (unprotect_tag u)), Etags. exact S6.
    - apply unprotect_new. apply Forall_forall. intros z' Hz'. destruct (Forall2_in_r _ _ _ _ Rn Hz') as (z & Hz & Ez).
      destruct (Hkept _ _ Ez) as [Et Epz]. pose proof (S7' z Hz) as [N1 N2 N3]. constructor; [rewrite Et; exact N1| |rewrite Epz, Et; exact N3].
      intros Hb. specialize (N2 Hb). unfold f in Ez. destruct (below u T z); [injection Ez as <-; exact N2|].
      unfold node_access in Ez. rewrite N2 in Ez. destruct w eqn:Ew; [destruct (Hro eq_refl); congruence|].
      destruct (elem (nd_tag z) (chain_path (e :: r))); cbn [next_state option_map] in Ez; injection Ez as <-; reflexivity.
    - apply unprotect_links with (T := mkTree (tr_ptrs T) (map (unprotect u) nn' ++ oo')). intros x0 g v Eg.
      pose proof (S8 x0 g v Eg) as [K1 K2 K3 K4 K5 K6]. constructor; auto.
      intros Hr. destruct (K2 Hr) as (z & Hz & Ez & Epz & Hs). destruct (Forall2_in_l _ _ _ _ Rn Hz) as (z' & Hz' & Ez').
      destruct (Hkept _ _ Ez') as [Et Ept]. exists z'. split; [exact Hz'|]. split; [congruence|]. split; [congruence|].
      unfold f in Ez'. destruct (below u T z) eqn:Ebz; [injection Ez' as <-; exact Hs|].
      assert (Hg : In g s) by (rewrite Eg; apply in_or_app; right; left; reflexivity).
      assert (Ee : elem (nd_tag z) (chain_path (e :: r)) = true).
      { apply elem_in. rewrite Ez. apply chain_path_has; [|exact Hr].
        (* otherwise the entry is above, and its node below the protected one *)
        rewrite Es in Eg. 
        assert (In g (e :: r) \/ exists y1 y2, y = y1 ++ g :: y2 /\ v = y2 ++ e :: r) as [H|(y1 & y2 & E1 & E2)]; [|exact H|].
        { clear - Eg. revert x0 Eg. induction y as [|a y IH]; intros x0 Eg; cbn [app] in Eg.
          - left. rewrite Eg. apply in_or_app. right. left. reflexivity.
          - destruct x0 as [|c x0]; cbn [app] in Eg; injection Eg as E1 E2.
            + right. exists [], y. subst. auto.
            + destruct (IH x0 E2) as [H|(y1 & y2 & -> & ->)]; [left; exact H|]. right. exists (a :: y1), y2. auto. }
        exfalso. subst v. unfold below in Ebz. rewrite Ez, K1 in Ebz.
        assert (elem u (chain_path (g :: y2 ++ e :: r)) = true); [|congruence].
        apply elem_in. rewrite <- Het. apply chain_path_has; [|exact Her]. right. apply in_or_app. right. left. reflexivity. }
      unfold node_access in Ez'. rewrite Ee in Ez'. destruct (Hloc z Hz Ee) as (st & Est & Hok). rewrite Est in Ez'.
      cbn [option_map] in Ez'. injection Ez' as <-. cbn [nd_state]. apply Hok; auto.
  Qed.

  (** ** Operations *)
  Lemma sim_step l k o s k1 s' T : calm_op l k o s k1 -> step l o s = Some s' -> n <= k -> (forall u, o = ORelease u -> n <= u) ->
    sim k s T -> exists T', tree_step l o T = Some T' /\ sim k1 s' T'.
  Proof.
    intros Hc Hs Hk Hr HT. destruct o as [kd pr p f t|w p t|u]; cbn [calm_op step tree_step] in *.
    - destruct Hc as (Ht & -> & Htop). destruct (covers p l).
      2:{ injection Hs as <-. exists T. split; [reflexivity|]. apply (sim_le k); [lia|exact HT]. }
      specialize (Htop eq_refl). pose proof (at_top_access _ _ _ Htop) as Ha. destruct Htop as (q & pr0 & r & -> & Hq).
      unfold tree_retag. rewrite (sim_top_path k _ _ T HT : tree_path f _ = _).
      destruct kd; cbn [kind_write] in *.
      + cbn [retag] in Hs. rewrite Ha in Hs. cbn [option_map] in Hs. injection Hs as <-.
        destruct (sim_writable k _ _ T HT Hq) as [Hb Hro].
        destruct (sim_access k [] (mkEntry f q pr0) r T false HT (Forall_nil _)) as (l' & -> & HT').
        { destruct q; try discriminate; reflexivity. }
        cbn [option_map]. eexists. split; [reflexivity|].
        apply (sim_push k _ (mkTree (tr_ptrs T) l') t Unique pr (TReserved false)); auto; try discriminate; [lia|congruence|].
        left. reflexivity.
      + cbn [retag] in Hs. rewrite Ha in Hs. cbn [option_map] in Hs. injection Hs as <-.
        destruct (sim_access k [] (mkEntry f q pr0) r T false HT (Forall_nil _)) as (l' & -> & HT').
        { exact Hq. }
        cbn [option_map]. eexists. split; [reflexivity|].
        apply (sim_push k _ (mkTree (tr_ptrs T) l') t SharedRO pr TFrozen); auto; try discriminate; [lia|congruence|reflexivity].
      + destruct (sim_writable k _ _ T HT Hq) as [Hb Hro]. cbn [retag granting] in Hs.
        assert (grants true f (mkEntry f q pr0) = true) as Eg.
        { unfold grants. cbn [en_tag en_perm]. rewrite Nat.eqb_refl. destruct q; try discriminate; reflexivity. }
        rewrite Eg in Hs. unfold incompatible in Hs.
        assert (s' = mkEntry t SharedRW pr :: mkEntry f q pr0 :: r) as -> by (destruct (is_raw _) in Hs; injection Hs as <-; reflexivity).
        eexists. split; [reflexivity|]. apply (sim_raw k); auto. lia.
    - destruct Hc as (-> & Htop). destruct (covers p l); [|injection Hs as <-; exists T; auto]. unfold tree_access.
      destruct (Htop eq_refl) as [Ht|(-> & x & pr & r & -> & Hx & Ha)].
      + rewrite (at_top_access _ _ _ Ht) in Hs. injection Hs as <-. destruct Ht as (q & pr & r & -> & Hq).
        rewrite (sim_top_path k _ _ T HT : tree_path t _ = _).
        destruct (sim_access k [] (mkEntry t q pr) r T w HT (Forall_nil _) Hq) as (l' & -> & HT').
        cbn [option_map]. eauto.
      + rewrite Ha in Hs. injection Hs as <-. rewrite (sim_path k x _ r T HT : tree_path t _ = _).
        destruct (sim_access k x (mkEntry t SharedRW pr) r T true HT Hx eq_refl) as (l' & -> & HT').
        cbn [option_map]. eauto.
    - subst k1. injection Hs as <-. apply sim_release; [exact HT|]. apply Hr. reflexivity.
  Qed.
  Lemma sim_steps l os : forall k s k' s' T, calm l k os s k' -> steps l os s = Some s' -> n <= k ->
    (forall u, releases os u -> n <= u) -> sim k s T -> exists T', tree_steps l os T = Some T' /\ sim k' s' T'.
  Proof.
    induction os as [|o os IH]; intros k s k' s' T Hc Hs Hk Hr HT; cbn [calm steps tree_steps] in *.
    - injection Hs as <-. exists T. split; [reflexivity|]. exact (sim_le k k' s T Hc HT).
    - destruct Hc as (k1 & Ho & Hn). destruct (step l o s) as [s1|] eqn:E; [|discriminate].
      destruct (sim_step l k o s k1 s1 T Ho E Hk) as (T1 & E1 & H1); [intros u ->; apply Hr; left; reflexivity|exact HT|].
      rewrite E1. apply (IH k1 s1 k' s' T1); auto.
      + destruct o; cbn [calm_op] in Ho; [destruct Ho as (? & -> & _); lia|destruct Ho as (-> & _); exact Hk|subst; exact Hk].
      + intros u Hu. apply Hr. right. exact Hu.
  Qed.
End Chain.
