(** Proofs for C71. *)
From Coq Require Import String List Bool PeanoNat Lia Permutation.
From Verif Require Import Base Syntax ModelArgs ModelUtils ModelDerive ModelMeaning ModelTraits.
From Verif Require Import SpecArgs SpecDerive SpecLifetime SpecExpand SpecRun SpecMeaning SpecTraits SpecProgram.
From Verif Require Import ProofsDerive ProofsRun ProofsTraitsForm ProofsTraits ProofsTraitsMain ProofsTraitsProps.
Import ListNotations.
Open Scope string_scope.
Open Scope list_scope.

Section Program.
  Variable p : program.
  Notation U := (pr_univ p).
  Notation T := (D U).
  Notation E_ := (env T (LT U)).
  Notation bp := (bare_program p).
  Hypothesis Hr : program_rust p.
  Hypothesis Hn : program_names p.

  Lemma defines_entity k x e : nth_error (pr_items p) k = Some x -> known e ->
    defines p (match e with EItem => DfItem k | EGen y => DfGen k y | ELib y => DfLib y end) (entity_def (only p x) e).
  Proof. intros H He. destruct e; cbn; eauto. Qed.

  Lemma only_rust x : In x (pr_items p) -> rust (only p x).
  Proof.
    intros Hin. destruct (In_nth_error _ _ Hin) as (k & Hk). constructor.
    - exact (pu_derive _ Hr x Hin).
    - exact (pu_name _ Hr x Hin).
    - exact (pu_ordered _ Hr x Hin).
    - intros e e' a a' He He' E.
      destruct (pu_nominal _ Hr _ _ _ _ a a' (defines_entity k x e Hk He) (defines_entity k x e' Hk He') E) as [X ->].
      split; [|reflexivity]. destruct e, e'; congruence.
    - intros e l m d a He. exact (pu_ref _ Hr _ _ l m d a (defines_entity k x e Hk He)).
    - exact (pu_private _ Hr).
    - exact (pu_unsafe_unpin _ Hr).
    - exact (pu_alias _ Hr).
    - exact (pu_actual _ Hr).
    - intros tr e a Htr He. exact (pu_other _ Hr tr _ _ a Htr (defines_entity k x e Hk He)).
    - intros E im s l tr e a Him Htr He Hm.
      destruct (pu_orphan _ Hr E im s l tr _ _ a Him Htr (defines_entity k x e Hk He) Hm) as (k' & X).
      destruct e; try discriminate. reflexivity.
    - intros s l. exact (pu_sized_item _ Hr x s l Hin).
    - exact (pu_sized_tuple _ Hr).
    - exact (pu_sized_phantom _ Hr).
  Qed.

  (** What the impls of an expansion are for. *)
  Lemma gen_is x E im s l tr t : In x (pr_items p) -> In (E, im) (expanded p x) ->
    matches bp E im s l tr t ->
    (exists y a, tr = u_inst U (en_gen x y) a /\
       (t = item_at (only p x) s l \/
        forall holds, generics_sat bp holds (impl_env bp E im s l) (i_generics im) -> holds (drop_trait bp) t)) \/
    (In tr (the_traits bp) /\ t = item_at (only p x) s l /\
      (tr = drop_trait bp -> forall holds s0 l0, item_at (only p x) s l = item_at (only p x) s0 l0 ->
        generics_sat bp holds (impl_env bp E im s l) (i_generics im) -> where_holds (only p x) holds s0 l0)).
  Proof.
    intros Hin Hi Hm. pose proof (only_rust x Hin) as Hx. destruct (Hn x Hin) as (Hl & Hu & a & Ha).
    pose proof (un_visible _ Hu) as Hv. form (only p x) Ha Hx pin v front Hpin Hfront Hform.
    destruct (gen_trait (only p x) a pin v front Hfront Hform E im s l tr t Hi Hm) as [-> Him].
    destruct (gen_cases (only p x) Hx a pin v front Hfront Hform Hv im s l tr t Him Hm)
      as [(Hd & -> & -> & Et)|(Et & H)].
    - left. do 2 eexists. split; [reflexivity|]. right. intros holds Hs.
      apply (blanket_sat (only p x) Hx a pin v front Hform) in Hs. destruct Hs as [Hs _]. rewrite Et. exact Hs.
    - destruct H as [[-> ->]|[(_ & -> & ->)|[(_ & -> & ->)|[(_ & -> & ->)|(_ & -> & ->)]]]].
      + right. split; [left; reflexivity|]. split; [exact Et|]. intros X.
        apply (ru_nominal _ Hx (ELib "Unpin") (ELib "Drop")) in X; [destruct X; discriminate|cbn; auto 12|cbn; auto 12].
      + right. split; [right; left; reflexivity|]. split; [exact Et|]. intros X.
        apply (ru_nominal _ Hx (ELib "UnsafeUnpin") (ELib "Drop")) in X; [destruct X; discriminate|cbn; auto 12|cbn; auto 12].
      + right. split; [right; right; left; reflexivity|]. split; [exact Et|]. intros _ holds s0 l0 E0 Hs.
        exact (proj1 (plain_sat (only p x) Hx pin Hpin Hl Hv Hu holds _ _ _ s l s0 l0 E0) Hs).
      + left. do 2 eexists. split; [reflexivity|]. left. exact Et.
      + right. split; [right; right; right; left; reflexivity|]. split; [exact Et|]. intros X.
        apply (ru_nominal _ Hx (ELib "PinnedDrop") (ELib "Drop")) in X; [destruct X; discriminate|cbn; auto 12|cbn; auto 12].
  Qed.

  Lemma item_at_def x s l : item_at (only p x) s l = u_inst U (en_def x) (param_args (item_params (only p x)) s l).
  Proof. reflexivity. Qed.
  Lemma trait_defines tr : In tr (the_traits bp) -> exists y, In y lib_names /\ tr = u_inst U (pr_lib p y) [].
  Proof. intros [<-|[<-|[<-|[<-|[]]]]]; eexists; (split; [|reflexivity]); cbn; auto 12. Qed.
  Lemma trait_not_gen j x y a tr : nth_error (pr_items p) j = Some x -> In tr (the_traits bp) -> tr <> u_inst U (en_gen x y) a.
  Proof.
    intros Hj Htr E. destruct (trait_defines tr Htr) as (z & Hz & ->).
    destruct (pu_nominal _ Hr (DfLib z) (DfGen j y) _ _ _ _ (conj Hz eq_refl) (ex_intro _ x (conj Hj eq_refl)) E) as [X _]. discriminate.
  Qed.

  (** The impls of one expansion are for its own item. *)
  Lemma own_item j y E im s l tr e d a : nth_error (pr_items p) j = Some y -> In (E, im) (expanded p y) ->
    In tr (the_traits bp) -> defines p e d -> matches bp E im s l tr (u_inst U d a) -> e = DfItem j.
  Proof.
    intros Hj Hi Htr Hd Hm. destruct (gen_is y E im s l tr _ (nth_error_In _ _ Hj) Hi Hm) as [(z & b & X & _)|(_ & X & _)].
    - destruct (trait_not_gen j y z b tr Hj Htr X).
    - rewrite item_at_def in X.
      destruct (pu_nominal _ Hr e (DfItem j) _ _ _ _ Hd (ex_intro _ y (conj Hj eq_refl)) X) as [-> _]. reflexivity.
  Qed.

  (** ** Two expansions *)
  Lemma expanded_apart fails j k y z u w : j <> k -> nth_error (pr_items p) j = Some y -> nth_error (pr_items p) k = Some z ->
    In u (expanded p y) -> In w (expanded p z) -> ~ conflict bp fails u w.
  Proof.
    intros Hjk Hj Hk Hu Hw (s1 & l1 & s2 & l2 & tr & t & M1 & M2 & _). destruct u as [E1 i1], w as [E2 i2]. cbn [fst snd] in *.
    destruct (gen_is y E1 i1 s1 l1 tr t (nth_error_In _ _ Hj) Hu M1) as [(a & b & X1 & _)|(Htr & X1 & _)];
    destruct (gen_is z E2 i2 s2 l2 tr t (nth_error_In _ _ Hk) Hw M2) as [(a' & b' & X2 & _)|(Htr' & X2 & _)].
    - rewrite X1 in X2.
      destruct (pu_nominal _ Hr (DfGen j a) (DfGen k a') _ _ _ _ (ex_intro _ y (conj Hj eq_refl)) (ex_intro _ z (conj Hk eq_refl)) X2) as [X _].
      injection X as X _. contradiction.
    - exact (trait_not_gen j y a b tr Hj Htr' X1).
    - exact (trait_not_gen k z a' b' tr Hk Htr X2).
    - rewrite X1, !item_at_def in X2.
      destruct (pu_nominal _ Hr (DfItem j) (DfItem k) _ _ _ _ (ex_intro _ y (conj Hj eq_refl)) (ex_intro _ z (conj Hk eq_refl)) X2) as [X _].
      injection X as X. contradiction.
  Qed.

  Definition pairwise {A} (R : A -> A -> Prop) (l : list A) : Prop :=
    forall i j x y, i <> j -> nth_error l i = Some x -> nth_error l j = Some y -> R x y.
  Lemma pairwise_app {A} (R : A -> A -> Prop) l l' : (forall x y, R x y -> R y x) ->
    (pairwise R (l ++ l') <-> pairwise R l /\ pairwise R l' /\ forall x y, In x l -> In y l' -> R x y).
  Proof.
    intros Hs. split.
    - intros H. split; [|split].
      + intros i j x y Hij Hi Hj. apply (H i j); [exact Hij| |]; rewrite nth_error_app1; try assumption; apply nth_error_Some; congruence.
      + intros i j x y Hij Hi Hj. apply (H (length l + i) (length l + j)); [lia| |]; (rewrite nth_error_app2; [|lia]).
        * replace (length l + i - length l) with i by lia. exact Hi.
        * replace (length l + j - length l) with j by lia. exact Hj.
      + intros x y Hx Hy. destruct (In_nth_error _ _ Hx) as (i & Hi), (In_nth_error _ _ Hy) as (j & Hj).
        assert (Li : i < length l) by (apply nth_error_Some; congruence).
        apply (H i (length l + j)); [lia| |].
        * rewrite nth_error_app1; assumption.
        * rewrite nth_error_app2; [|lia]. replace (length l + j - length l) with j by lia. exact Hj.
    - intros (H1 & H2 & H) i j x y Hij Hi Hj. destruct (Nat.lt_ge_cases i (length l)) as [Li|Li], (Nat.lt_ge_cases j (length l)) as [Lj|Lj].
      + rewrite nth_error_app1 in Hi by exact Li. rewrite nth_error_app1 in Hj by exact Lj. exact (H1 i j x y Hij Hi Hj).
      + rewrite nth_error_app1 in Hi by exact Li. rewrite nth_error_app2 in Hj by exact Lj.
        apply H; eapply nth_error_In; eassumption.
      + rewrite nth_error_app2 in Hi by exact Li. rewrite nth_error_app1 in Hj by exact Lj.
        apply Hs, H; eapply nth_error_In; eassumption.
      + rewrite nth_error_app2 in Hi by exact Li. rewrite nth_error_app2 in Hj by exact Lj.
        apply (H2 (i - length l) (j - length l)); [lia|exact Hi|exact Hj].
  Qed.
  Lemma pairwise_perm {A} (R : A -> A -> Prop) l l' : Permutation l l' -> pairwise R l -> pairwise R l'.
  Proof.
    intros Hp H i j x y Hij Hi Hj. apply Permutation_nth_error in Hp. destruct Hp as (_ & f & Hf & He).
    rewrite He in Hi, Hj. apply (H (f i) (f j)); [|exact Hi|exact Hj]. intros X. apply Hij, Hf, X.
  Qed.

  Lemma coherent_iff fails : pr_items p <> [] ->
    (program_coherent p fails <-> forall x, In x (pr_items p) -> coherent (only p x) fails).
  Proof.
    intros Hne. set (R := fun u w : E_ * impl => ~ conflict bp fails u w).
    assert (Rs : forall u w, R u w -> R w u).
    { intros u w H (s1 & l1 & s2 & l2 & tr & t & A & B & C & E). apply H. exists s2, l2, s1, l1, tr, t. auto. }
    change (program_coherent p fails) with (pairwise R (pr_impls p ++ flat_map (expanded p) (pr_items p) ++ lib_impls bp)).
    assert (Ho : forall x, coherent (only p x) fails <-> pairwise R (pr_impls p ++ expanded p x ++ lib_impls bp)) by reflexivity.
    assert (Hf : pairwise R (flat_map (expanded p) (pr_items p)) <-> forall x, In x (pr_items p) -> pairwise R (expanded p x)).
    { assert (G : forall l2 l1, pr_items p = l1 ++ l2 ->
        (pairwise R (flat_map (expanded p) l2) <-> forall x, In x l2 -> pairwise R (expanded p x))).
      { induction l2 as [|x l2 IH]; intros l1 E; cbn [flat_map].
        - split; [intros _ x []|]. intros _ i j u w _ Hi. destruct i; discriminate.
        - rewrite (pairwise_app R _ _ Rs). rewrite (IH (l1 ++ [x])) by (rewrite <- app_assoc; exact E). split.
          + intros (H1 & H2 & _) y [<-|Hy]; auto.
          + intros H. split; [apply H; left; reflexivity|]. split; [intros y Hy; apply H; right; exact Hy|].
            intros u w Hu Hw. apply in_flat_map in Hw. destruct Hw as (y & Hy & Hw). destruct (In_nth_error _ _ Hy) as (k & Hk).
            apply (expanded_apart fails (length l1) (length l1 + S k) x y); [lia| | |exact Hu|exact Hw]; rewrite E.
            * rewrite nth_error_app2 by lia. rewrite Nat.sub_diag. reflexivity.
            * rewrite nth_error_app2 by lia. replace (length l1 + S k - length l1) with (S k) by lia. exact Hk. }
      exact (G (pr_items p) [] eq_refl). }
    rewrite !(pairwise_app R _ _ Rs), Hf. split.
    - intros (H1 & (H2 & H3 & H4) & H5) x Hx. apply Ho. rewrite !(pairwise_app R _ _ Rs).
      split; [exact H1|]. split; [split; [exact (H2 x Hx)|]; split; [exact H3|]|].
      + intros u w Hu Hw. apply H4; [|exact Hw]. apply in_flat_map. exists x. auto.
      + intros u w Hu Hw. apply H5; [exact Hu|]. apply in_app_or in Hw. apply in_or_app.
        destruct Hw as [Hw|Hw]; [left|right; exact Hw]. apply in_flat_map. exists x. auto.
    - intros H. assert (H' : forall x, In x (pr_items p) -> pairwise R (pr_impls p ++ expanded p x ++ lib_impls bp)) by (intros x Hx; apply Ho, H, Hx).
      clear H. destruct (pr_items p) as [|x0 r] eqn:Ei; [contradiction|]. rewrite <- Ei in *.
      assert (H0 : In x0 (pr_items p)) by (rewrite Ei; left; reflexivity).
      pose proof (H' x0 H0) as G. rewrite !(pairwise_app R _ _ Rs) in G. destruct G as (G1 & (_ & G3 & _) & G5).
      split; [exact G1|]. split; [split; [|split; [exact G3|]]|].
      + intros x Hx. pose proof (H' x Hx) as G. rewrite !(pairwise_app R _ _ Rs) in G. tauto.
      + intros u w Hu Hw. apply in_flat_map in Hu. destruct Hu as (x & Hx & Hu).
        pose proof (H' x Hx) as G. rewrite !(pairwise_app R _ _ Rs) in G. destruct G as (_ & (_ & _ & G) & _). auto.
      + intros u w Hu Hw. apply in_app_or in Hw. destruct Hw as [Hw|Hw]; [|apply G5; [exact Hu|apply in_or_app; right; exact Hw]].
        apply in_flat_map in Hw. destruct Hw as (x & Hx & Hw).
        pose proof (H' x Hx) as G. rewrite !(pairwise_app R _ _ Rs) in G. destruct G as (_ & _ & G). apply G; [exact Hu|].
        apply in_or_app. left. exact Hw.
  Qed.
End Program.

Lemma drop_mode p x E im s l t a : program_rust p -> program_names p -> In x (pr_items p) -> In (E, im) (expanded p x) ->
  matches (bare_program p) E im s l (drop_trait (bare_program p)) t -> options (attrs_of (en_item x)) a -> ar_pinned_drop a = true.
Proof.
  intros Hr Hn Hin Hi Hm Ha. pose proof (only_rust p Hr x Hin) as Hx. destruct (Hn x Hin) as (Hl & Hu & _).
  pose proof (un_visible _ Hu) as Hv. form (only p x) Ha Hx pin v front Hpin Hfront Hform.
  destruct (gen_trait (only p x) a pin v front Hfront Hform E im s l _ t Hi Hm) as [-> Him].
  assert (N : forall y, In y lib_names -> y <> "Drop" -> drop_trait (only p x) <> u_inst (pr_univ p) (pr_lib p y) []).
  { intros y Hy Hne X. apply (ru_nominal _ Hx (ELib "Drop") (ELib y)) in X; [|cbn; auto 12|exact Hy]. destruct X as [X _]. congruence. }
  destruct (gen_cases (only p x) Hx a pin v front Hfront Hform Hv im s l _ t Him Hm)
    as [(_ & _ & X & _)|(_ & [(_ & X)|[(_ & _ & X)|[(X & _)|[(_ & _ & X)|(_ & _ & X)]]]])].
  - exfalso. apply (ru_nominal _ Hx (ELib "Drop") (EGen _)) in X; [destruct X; discriminate|cbn; auto 12|exact Logic.I].
  - destruct (N "Unpin" ltac:(cbn; auto 12) ltac:(discriminate) X).
  - destruct (N "UnsafeUnpin" ltac:(cbn; auto 12) ltac:(discriminate) X).
  - exact X.
  - exfalso. apply (ru_nominal _ Hx (ELib "Drop") (EGen _)) in X; [destruct X; discriminate|cbn; auto 12|exact Logic.I].
  - destruct (N "PinnedDrop" ltac:(cbn; auto 12) ltac:(discriminate) X).
Qed.
