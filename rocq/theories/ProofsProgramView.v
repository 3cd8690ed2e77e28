(** Proofs for C71: what one item sees of the program. *)
From Coq Require Import String List Bool PeanoNat Lia Permutation.
From Verif Require Import Base Syntax ModelArgs ModelUtils ModelDerive ModelMeaning ModelTraits.
From Verif Require Import SpecArgs SpecDerive SpecLifetime SpecExpand SpecRun SpecMeaning SpecTraits SpecProgram.
From Verif Require Import ProofsDerive ProofsTypes ProofsRun ProofsTraitsForm ProofsTraits ProofsTraitsMain ProofsTraitsProps ProofsProgram.
Import ListNotations.
Open Scope string_scope.
Open Scope list_scope.

Section View.
  Variable p : program.
  Notation U := (pr_univ p).
  Notation T := (D U).
  Notation E_ := (env T (LT U)).
  Notation bp := (bare_program p).
  Variables (holds : T -> T -> Prop) (fails : E_ -> wpred -> Prop).
  Hypothesis Hc : program_compiles p holds fails.
  Hypothesis Hn : program_names p.
  Variables (l1 l2 : list (entry U)) (x : entry U).
  Hypothesis Hi : pr_items p = l1 ++ x :: l2.
  Notation Hr := (pc_rust _ _ _ Hc).
  Notation k := (length l1).
  Notation ys := (l1 ++ l2).
  Notation se := (view p holds x ys).

  Lemma here : nth_error (pr_items p) k = Some x.
  Proof. rewrite Hi, nth_error_app2 by lia. rewrite Nat.sub_diag. reflexivity. Qed.
  Lemma here_in : In x (pr_items p).
  Proof. exact (nth_error_In _ _ here). Qed.
  Lemma elsewhere y : In y ys -> exists j, j <> k /\ nth_error (pr_items p) j = Some y.
  Proof.
    rewrite Hi. intros H. apply in_app_or in H. destruct H as [H|H]; destruct (In_nth_error _ _ H) as (j & Hj).
    - exists j. assert (L : j < k) by (apply nth_error_Some; congruence). split; [lia|]. rewrite nth_error_app1; assumption.
    - exists (k + S j). split; [lia|]. rewrite nth_error_app2 by lia. replace (k + S j - k) with (S j) by lia. exact Hj.
  Qed.

  Lemma view_known e : known e ->
    defines p (match e with EItem => DfItem k | EGen y => DfGen k y | ELib y => DfLib y end) (entity_def se e).
  Proof. intros He. destruct e; cbn; eauto using here. Qed.

  Lemma lib_defines E c g fs : In (E, c, g, fs) (structs_of bp (lib_env bp) (pr_lib p) lib_items) -> exists y, defines p (DfLib y) c.
  Proof.
    intros H. apply in_flat_map in H. destruct H as (o & Ho & H).
    cbn in Ho. destruct Ho as [<-|[<-|[<-|[<-|[<-|[]]]]]]; try (destruct H; fail); destruct H as [H|[]]; injection H as <- <- <- <-;
      eexists; (split; [|reflexivity]); cbn; auto 12.
  Qed.
  Lemma entry_defines j y E c g fs : nth_error (pr_items p) j = Some y -> In (E, c, g, fs) (entry_defs p y) ->
    defines p (DfItem j) c \/ exists z, defines p (DfGen j z) c.
  Proof.
    intros Hj H. apply in_app_or in H. destruct H as [H|H].
    - left. exists y. split; [exact Hj|]. unfold item_def in H. destruct (se_item (only p y)); try (destruct H; fail);
        destruct H as [H|[]]; injection H; auto.
    - right. apply in_flat_map in H. destruct H as (o & _ & H). destruct o; try (destruct H; fail). destruct H as [H|[]].
      injection H as <- <- <- <-. eexists. exists y. split; [exact Hj|reflexivity].
  Qed.

  Lemma sized_not_unpin : sized_trait bp <> unpin bp.
  Proof.
    intros E. pose proof (pu_sized_phantom _ Hr (u_never U)) as H. unfold has_size in H. cbn [se_other bare_program only] in H.
    change (pr_other p (sized_trait bp) (u_inst U (pr_lib p "PhantomData") [DTy (u_never U)])) in H. rewrite E in H.
    revert H. apply (pu_other _ Hr _ (DfLib "PhantomData")); [left; reflexivity|]. split; [cbn; auto 12|reflexivity].
  Qed.
  Lemma view_size t : has_size se t <-> has_size bp t.
  Proof.
    split; [|intros H; left; exact H]. intros [H|[H _]]; [exact H|]. destruct (sized_not_unpin H).
  Qed.

  Lemma view_rust : rust se.
  Proof.
    pose proof here_in as Hin. pose proof (only_rust p Hr x Hin) as Ho. constructor.
    - exact (ru_derive _ Ho).
    - exact (ru_name _ Ho).
    - exact (ru_ordered _ Ho).
    - exact (ru_nominal _ Ho).
    - exact (ru_ref _ Ho).
    - exact (ru_private _ Ho).
    - exact (ru_unsafe_unpin _ Ho).
    - exact (ru_alias _ Ho).
    - exact (ru_actual _ Ho).
    - intros tr e a Htr He [H|[_ H]]; [exact (ru_other _ Ho tr e a Htr He H)|].
      destruct H as (E & c & g & fs & s & l & Hd & Ht & _). apply in_flat_map in Hd. destruct Hd as (y & Hy & Hd).
      destruct (elsewhere y Hy) as (j & Hjk & Hj). pose proof (view_known e He) as Hk.
      destruct (entry_defines j y E c g fs Hj Hd) as [H|(z & H)].
      + destruct (pu_nominal _ Hr _ _ _ _ _ _ Hk H Ht) as [X _]. destruct e; try discriminate. injection X as X. congruence.
      + destruct (pu_nominal _ Hr _ _ _ _ _ _ Hk H Ht) as [X _]. destruct e; try discriminate. injection X as X _. congruence.
    - intros E im s l tr e a Him Htr He Hm. apply in_app_or in Him. destruct Him as [Him|Him].
      + exact (ru_orphan _ Ho E im s l tr e a Him Htr He Hm).
      + apply in_flat_map in Him. destruct Him as (y & Hy & Him). destruct (elsewhere y Hy) as (j & Hjk & Hj).
        pose proof (own_item p Hr Hn j y E im s l tr _ _ a Hj Him Htr (view_known e He) Hm) as X.
        destruct e; try discriminate. reflexivity.
    - intros s l. rewrite view_size. refine (iff_trans (ru_sized_item _ Ho s l) _).
      split; intros H fs f Hfs Hf; [apply view_size|apply view_size]; exact (H fs f Hfs Hf).
    - intros l H. apply view_size. apply (ru_sized_tuple _ Ho). intros d Hd. apply view_size. exact (H d Hd).
    - intros d. apply view_size. exact (ru_sized_phantom _ Ho d).
  Qed.

  Lemma view_impls : Permutation (program_impls p) (all_impls se).
  Proof.
    unfold program_impls. rewrite Hi.
    change (Permutation (pr_impls p ++ flat_map (expanded p) (l1 ++ x :: l2) ++ lib_impls bp)
      ((pr_impls p ++ flat_map (expanded p) ys) ++ expanded p x ++ lib_impls bp)).
    rewrite <- app_assoc. apply Permutation_app_head. rewrite app_assoc. apply Permutation_app_tail.
    rewrite !flat_map_app. cbn [flat_map]. rewrite <- app_assoc. apply Permutation_app_head. apply Permutation_app_comm.
  Qed.
  Lemma view_in im : In im (program_impls p) <-> In im (all_impls se).
  Proof. split; apply Permutation_in; [|apply Permutation_sym]; exact view_impls. Qed.
  Lemma view_explicit c : explicit_unpin se c <->
    exists E im s l a, In (E, im) (program_impls p) /\ matches bp E im s l (unpin bp) (u_inst U c a).
  Proof.
    split; intros (E & im & s & l & a & H & Hm); exists E, im, s, l, a; (split; [apply view_in; exact H|exact Hm]).
  Qed.
  Lemma defs_in d : In d (program_defs p) <-> In d (definitions se) \/ In d (flat_map (entry_defs p) ys).
  Proof.
    unfold program_defs. rewrite Hi, flat_map_app. cbn [flat_map].
    change (definitions se) with (item_def (only p x) ++ structs_of (only p x) (inner_env (only p x)) (en_gen x) (scoped (en_exp x)) ++
      structs_of bp (lib_env bp) (pr_lib p) lib_items).
    unfold entry_defs at 2. rewrite flat_map_app, !in_app_iff. tauto.
  Qed.

  Lemma view_solution : solution se holds.
  Proof.
    intros tr t. rewrite (pc_solution _ _ _ Hc). unfold program_selected, selected.
    assert (A : (exists im, In im (program_impls p) /\ applies bp holds im tr t) <-> by_impl se holds tr t).
    { split.
      - intros ([E im] & H & s & l & Hm & Hs). exists E, im, s, l. split; [apply view_in; exact H|]. split; [exact Hm|exact Hs].
      - intros (E & im & s & l & H & Hm & Hs). exists (E, im). split; [apply view_in; exact H|]. exists s, l. split; [exact Hm|exact Hs]. }
    assert (B : unpin_by_fields p holds (program_defs p) t <-> by_fields se holds t \/ unpin_by_fields p holds (flat_map (entry_defs p) ys) t).
    { split.
      - intros (E & c & g & fs & s & l & Hd & Ht & He & Hf). apply defs_in in Hd. destruct Hd as [Hd|Hd]; [left|right].
        + exists E, c, g, fs, s, l. split; [exact Hd|]. split; [exact Ht|]. split; [|exact Hf]. intros X. apply He, view_explicit, X.
        + exists E, c, g, fs, s, l. auto.
      - intros [(E & c & g & fs & s & l & Hd & Ht & He & Hf)|(E & c & g & fs & s & l & Hd & Ht & He & Hf)];
          exists E, c, g, fs, s, l; (split; [apply defs_in; auto|]); (split; [exact Ht|]).
        + split; [|exact Hf]. intros X. apply He, view_explicit, X.
        + auto. }
    rewrite A, B. cbn [se_other view].
    change (unpin se) with (unpin bp). change (se_univ se) with U. change (se_lib se) with (pr_lib p). tauto.
  Qed.

  (** Where [x] has a destructor, its where clause holds. *)
  Lemma drop_where a : holds (drop_trait bp) (u_inst U (en_def x) a) ->
    exists s0 l0, a = param_args (item_params se) s0 l0 /\ where_holds se holds s0 l0.
  Proof.
    assert (Dx : defines p (DfItem k) (en_def x)) by (exists x; split; [exact here|reflexivity]).
    assert (Dl : forall y, In y lib_names -> defines p (DfLib y) (pr_lib p y)) by (intros y Hy; split; [exact Hy|reflexivity]).
    assert (NU : drop_trait bp <> unpin bp).
    { intros X. destruct (pu_nominal _ Hr _ _ _ _ _ _ (Dl "Drop" ltac:(cbn; auto 12)) (Dl "Unpin" ltac:(cbn; auto 12)) X). discriminate. }
    intros H. apply (pc_solution _ _ _ Hc) in H. destruct H as [([E im] & Him & s & l & Hm & Hs)|[[X _]|[[X _]|[[X _]|H]]]];
      try (destruct (NU X); fail).
    2:{ exfalso. refine (pu_other _ Hr _ _ _ _ _ Dx H). cbn. auto. }
    cbn [fst snd] in *. apply in_app_or in Him. destruct Him as [Him|Him].
    { exact (pc_headers _ _ _ Hc x here_in E im s l _ a Him Hm Hs). }
    apply in_app_or in Him. destruct Him as [Him|Him].
    - apply in_flat_map in Him. destruct Him as (y & Hy & Him). destruct (In_nth_error _ _ Hy) as (j & Hj).
      assert (Htr : In (drop_trait bp) (the_traits bp)) by (cbn; auto).
      pose proof (own_item p Hr Hn j y E im s l _ _ _ a Hj Him Htr Dx Hm) as X. injection X as X.
      rewrite <- X, here in Hj. injection Hj as <-.
      destruct (gen_is p Hr Hn x E im s l _ _ here_in Him Hm) as [(z & b & Y & _)|(_ & Y & W)].
      + destruct (trait_not_gen p Hr k x z b _ here Htr Y).
      + rewrite item_at_def in Y. destruct (pu_nominal _ Hr _ _ _ _ _ _ Dx Dx Y) as [_ ->].
        exists s, l. split; [reflexivity|]. exact (W eq_refl holds s l eq_refl Hs).
    - destruct (lib_impl_cases (only p x) E im s l _ _ Him Hm) as [(X & _)|(X & _)]; [|destruct (NU X)].
      destruct (pu_nominal _ Hr _ _ _ _ _ _ (Dl "Drop" ltac:(cbn; auto 12)) (Dl "UnsafeUnpin" ltac:(cbn; auto 12)) X). discriminate.
  Qed.

  Lemma view_headers : headers_ok se holds.
  Proof.
    assert (Dx : defines p (DfItem k) (en_def x)) by (exists x; split; [exact here|reflexivity]).
    intros E im s l tr a Him Hm Hs. apply in_app_or in Him. destruct Him as [Him|Him].
    - exact (pc_headers _ _ _ Hc x here_in E im s l tr a Him Hm Hs).
    - apply in_flat_map in Him. destruct Him as (y & Hy & Him). destruct (elsewhere y Hy) as (j & Hjk & Hj).
      assert (G : u_inst U (en_def x) a <> item_at (only p y) s l).
      { rewrite item_at_def. intros X.
        destruct (pu_nominal _ Hr _ (DfItem j) _ _ _ _ Dx (ex_intro _ y (conj Hj eq_refl)) X) as [Z _]. injection Z as Z. congruence. }
      destruct (gen_is p Hr Hn y E im s l tr _ (nth_error_In _ _ Hj) Him Hm) as [(z & b & _ & [X|W])|(_ & X & _)].
      + destruct (G X).
      + apply drop_where. exact (W holds Hs).
      + destruct (G X).
  Qed.

  Lemma view_compiles : compiles se holds fails.
  Proof.
    constructor.
    - exact view_rust.
    - exact view_solution.
    - exact view_headers.
    - constructor; [exact (rf_sound _ _ _ (pc_refuter _ _ _ Hc))|exact (rf_foreign _ _ _ (pc_refuter _ _ _ Hc))].
    - exact (pairwise_perm (fun u w => ~ conflict bp fails u w) _ _ view_impls (pc_coherent _ _ _ Hc)).
    - intros im Him. exact (pc_bodies _ _ _ Hc x im here_in Him).
  Qed.
End View.

Lemma c71_view p holds fails l1 x l2 : program_compiles p holds fails -> program_names p -> pr_items p = l1 ++ x :: l2 ->
  compiles (view p holds x (l1 ++ l2)) holds fails.
Proof. intros Hc Hn Hi. exact (view_compiles p holds fails Hc Hn l1 l2 x Hi). Qed.

Lemma split_in p x : In x (pr_items p) -> exists l1 l2, pr_items p = l1 ++ x :: l2.
Proof. intros H. apply in_split. exact H. Qed.

Lemma view_names p holds x ys : In x (pr_items p) -> program_names p ->
  legal (view p holds x ys) /\ uncaptured (view p holds x ys).
Proof.
  intros Hin Hn. destruct (Hn x Hin) as (Hl & Hu & _). split.
  - constructor; [exact (lg_self _ Hl)|exact (lg_Self _ Hl)|exact (lg_name _ Hl)|exact (lg_params _ Hl)|].
    intros lt Hlt B. apply (lg_binders _ Hl lt Hlt). destruct B as [f Hf Hb|i bs d b H1 H2 H3|lts t bs H1 H2|lts t bs H1 H2|lts t bs b H1 H2 H3].
    + exact (Bi_field (only p x) lt f Hf Hb).
    + exact (Bi_bound (only p x) lt i bs d b H1 H2 H3).
    + exact (Bi_for (only p x) lt lts t bs H1 H2).
    + exact (Bi_where (only p x) lt lts t bs H1 H2).
    + exact (Bi_where_bound (only p x) lt lts t bs b H1 H2 H3).
  - constructor; [|exact (un_names _ Hu)|exact (un_pin _ Hu)|exact (un_spelled _ Hu)|exact (un_macros _ Hu)].
    constructor; [exact (vi_item _ (un_visible _ Hu))|exact (vi_params _ (un_visible _ Hu))].
Qed.

Lemma c71_default p holds fails x a s l :
  program_compiles p holds fails -> program_names p -> In x (pr_items p) -> options (attrs_of (en_item x)) a -> ar_unpin a = UDefault ->
  (holds (unpin (only p x)) (item_at (only p x) s l) <->
   where_holds (only p x) holds s l /\
   forall f, pinned_field (only p x) f -> holds (unpin (only p x)) (type_at (only p x) s l f)).
Proof.
  intros Hc Hn Hin Ha Ea. destruct (split_in p x Hin) as (l1 & l2 & Hi).
  destruct (view_names p holds x (l1 ++ l2) Hin Hn) as [Hl Hu].
  exact (c28 (view p holds x (l1 ++ l2)) holds fails a s l Ha Hl Hu (c71_view p holds fails l1 x l2 Hc Hn Hi) Ea).
Qed.
Lemma c71_negative p holds fails x a s l :
  program_compiles p holds fails -> program_names p -> In x (pr_items p) -> options (attrs_of (en_item x)) a -> ar_unpin a = UNegative ->
  ~ holds (unpin (only p x)) (item_at (only p x) s l).
Proof.
  intros Hc Hn Hin Ha Ea. destruct (split_in p x Hin) as (l1 & l2 & Hi).
  destruct (view_names p holds x (l1 ++ l2) Hin Hn) as [Hl Hu].
  exact (c29 (view p holds x (l1 ++ l2)) holds fails a s l Ha Hl Hu (c71_view p holds fails l1 x l2 Hc Hn Hi) Ea).
Qed.

Lemma c71_unsafe p holds fails x a s l :
  program_compiles p holds fails -> program_names p -> In x (pr_items p) -> options (attrs_of (en_item x)) a -> ar_unpin a = UUnsafe ->
  (holds (unpin (only p x)) (item_at (only p x) s l) <->
   where_holds (only p x) holds s l /\
   exists y, In y (pr_impls p) /\ applies (only p x) holds y (unsafe_unpin (only p x)) (item_at (only p x) s l)).
Proof.
  intros Hc Hn Hin Ha Ea. destruct (split_in p x Hin) as (l1 & l2 & Hi).
  destruct (view_names p holds x (l1 ++ l2) Hin Hn) as [Hl Hu].
  refine (iff_trans (c30 (view p holds x (l1 ++ l2)) holds fails a s l Ha Hl Hu (c71_view p holds fails l1 x l2 Hc Hn Hi) Ea) _).
  split; intros [Hw ([E im] & Hy & Happ)]; (split; [exact Hw|]); exists (E, im); (split; [|exact Happ]).
  - apply in_app_or in Hy. destruct Hy as [Hy|Hy]; [exact Hy|]. exfalso.
    apply in_flat_map in Hy. destruct Hy as (y & Hy & Him). destruct (elsewhere p l1 l2 x Hi y Hy) as (j & Hjk & Hj).
    destruct Happ as (s' & l' & Hm & _).
    assert (X : DfItem (length l1) = DfItem j).
    { refine (own_item p (pc_rust _ _ _ Hc) Hn j y E im s' l' (unsafe_unpin (bare_program p)) _ (en_def x) _ Hj Him _ _ Hm).
      - right. left. reflexivity.
      - exists x. split; [exact (here p l1 l2 x Hi)|reflexivity]. }
    injection X as X. congruence.
  - apply in_or_app. left. exact Hy.
Qed.

Lemma c71_names (m : list (item * args * expansion)) :
  (forall it a e, In (it, a, e) m -> parse_derive it = Ok e /\ options (attrs_of it) a) ->
  flat_map (fun x => name_of (fst (fst x)) :: flat_map introduces (exposed (snd x))) m =
  flat_map (fun x => name_of (fst (fst x)) :: flat_map (fun k => opt_given k (snd (fst x))) all_proj) m.
Proof.
  induction m as [|[[it a] e] m IH]; intros H; [reflexivity|]. cbn [flat_map fst snd].
  destruct (H it a e (or_introl eq_refl)) as [He Ha]. rewrite IH by (intros; apply H; right; assumption).
  f_equal. f_equal. destruct it as [s|en|].
  - exact (proj1 (c12_struct s e a He Ha)).
  - exact (proj1 (c12_enum en e a He Ha)).
  - discriminate He.
Qed.
