(** The trait properties, as stated in PropTraits.v. *)
From Coq Require Import String Ascii List Bool PeanoNat Lia.
From Verif Require Import Base Syntax SyntaxInd ModelArgs ModelUtils ModelDerive ModelMeaning ModelTraits
  SpecArgs SpecDerive SpecLifetime SpecExpand SpecRun SpecMeaning SpecTraits
  ProofsArgs ProofsUtils ProofsDerive ProofsExpand ProofsTypes ProofsRun ProofsMeaning ProofsTraitsForm ProofsTraitsEnv
  ProofsTraits ProofsTraitsMain.
Import ListNotations.
Open Scope string_scope.
Open Scope list_scope.

Ltac form se Ha Hr pin v front Hpin Hfront Hform :=
  destruct (scoped_form (se_item se) (se_exp se) _ (ru_derive _ Hr) Ha (ru_ordered _ Hr)) as (pin & v & front & Hpin & Hfront & Hform).
Ltac form' se Ha Hr := let pin := fresh "pin" in let v := fresh "v" in let front := fresh "front" in
  let Hpin := fresh "Hpin" in let Hfront := fresh "Hfront" in let Hform := fresh "Hform" in form se Ha Hr pin v front Hpin Hfront Hform.

Lemma c26 se holds fails a x s l :
  options (attrs_of (se_item se)) a -> rust se -> legal se -> uncaptured se ->
  solution se holds -> headers_ok se holds -> refuter se holds fails ->
  ar_pinned_drop a = true \/ sized_at se s l ->
  In x (se_impls se) -> applies se holds x (drop_trait se) (item_at se s l) ->
  ~ coherent se fails.
Proof.
  intros Ha Hr Hl Hu Hs Hh Hf Hz Hx H. form' se Ha Hr.
  apply (m26 se a Hr Hl (un_visible _ Hu) Hu pin v front Hpin Hfront Hform holds Hs fails Hh Hf x
    (param_args (item_params se) s l) Hx); [|exact H].
  intros E. destruct Hz as [Hz|Hz]; [congruence|]. apply Hs. do 4 right. apply (ru_sized_item _ Hr). exact Hz.
Qed.
Lemma c26_alone' se holds fails a :
  options (attrs_of (se_item se)) a -> rust se -> visible se ->
  solution se holds -> refutes_drop se holds fails -> refutes_sized se holds fails ->
  (forall x s l, In x (se_impls se) -> applies se holds x (drop_trait se) (item_at se s l) ->
    ~ holds (sized_trait se) (item_at se s l)) ->
  forall k j x y, k <> j ->
    nth_error (generated_impls se ++ lib_impls se) k = Some x ->
    nth_error (generated_impls se ++ lib_impls se) j = Some y -> ~ conflict se fails x y.
Proof.
  intros Ha Hr Hv Hs Hd Hz Hn. form' se Ha Hr.
  apply (alone_coherent se a Hr Hv pin v front Hpin Hfront Hform holds Hs fails Hd).
  intros x s l Hx Hap E i0 HE. apply (Hz E i0 s l HE). exact (Hn x s l Hx Hap).
Qed.
Lemma c26_alone se holds fails a :
  options (attrs_of (se_item se)) a -> rust se -> visible se ->
  solution se holds -> refutes_drop se holds fails ->
  (forall x s l, In x (se_impls se) -> ~ applies se holds x (drop_trait se) (item_at se s l)) ->
  forall k j x y, k <> j ->
    nth_error (generated_impls se ++ lib_impls se) k = Some x ->
    nth_error (generated_impls se ++ lib_impls se) j = Some y -> ~ conflict se fails x y.
Proof.
  intros Ha Hr Hv Hs Hd Hn. form' se Ha Hr.
  apply (alone_coherent se a Hr Hv pin v front Hpin Hfront Hform holds Hs fails Hd).
  intros x s l Hx Hap. destruct (Hn x s l Hx Hap).
Qed.
Lemma conflict_sym se fails x y : conflict se fails x y -> conflict se fails y x.
Proof. intros (s1 & l1 & s2 & l2 & tr & t & H1 & H2 & F1 & F2). exists s2, l2, s1, l1, tr, t. auto. Qed.
(** An impl of the user against one of the expansion or the support crate. *)
Lemma c48_pair se fails a x y :
  options (attrs_of (se_item se)) a -> rust se -> visible se -> traits_private se ->
  (forall x s l tr b, In x (se_impls se) -> In tr (implemented se a) ->
    ~ matches se (fst x) (snd x) s l tr (u_inst (se_univ se) (se_def se) b)) ->
  In x (se_impls se) -> In y (generated_impls se ++ lib_impls se) -> ~ conflict se fails x y.
Proof.
  intros Ha Hr Hv Hp Hi Hx Hy (s1 & l1 & s2 & l2 & tr & t & H1 & H2 & _). form' se Ha Hr.
  destruct x as [E im], y as [E' im']. cbn [fst snd] in *. apply in_app_or in Hy. destruct Hy as [Hy|Hy].
  - destruct (gen_trait se a pin v front Hfront Hform E' im' s2 l2 tr t Hy H2) as [-> Hin].
    destruct (gen_cases se Hr a pin v front Hfront Hform Hv im' s2 l2 tr t Hin H2) as [(_ & _ & -> & _)|[-> C]].
    + exact (Hp E im s1 l1 _ _ _ Hx H1).
    + assert (X : forall tr, In tr (implemented se a) -> ~ matches se E im s1 l1 tr (item_at se s2 l2)) by (intros tr' H'; exact (Hi (E, im) s1 l1 tr' _ Hx H')).
      unfold implemented in X.
      destruct C as [[_ ->]|[(Ea & _ & ->)|[(Ed & _ & ->)|[(_ & _ & ->)|(Ed & _ & ->)]]]].
      * exact (X _ (or_introl eq_refl) H1).
      * apply (X (unsafe_unpin se)); [|exact H1]. right. destruct (ar_unpin a); [left; reflexivity|congruence|left; reflexivity].
      * apply (X (drop_trait se)); [|exact H1]. rewrite Ed. right. apply in_or_app. right. left. reflexivity.
      * exact (Hp E im s1 l1 _ _ _ Hx H1).
      * apply (X (pinned_drop se)); [|exact H1]. rewrite Ed. right. apply in_or_app. right. left. reflexivity.
  - destruct (lib_impl_cases se E' im' s2 l2 tr t Hy H2) as [(-> & -> & _)|[-> ->]].
    + discriminate (ru_orphan _ Hr E im s1 l1 (unsafe_unpin se) (ELib "Wrapper") _ Hx ltac:(cbn; tauto) ltac:(cbn; tauto) H1).
    + discriminate (ru_orphan _ Hr E im s1 l1 (unpin se) (ELib "AlwaysUnpin") _ Hx ltac:(cbn; tauto) ltac:(cbn; tauto) H1).
Qed.
Lemma c48 se holds fails a :
  options (attrs_of (se_item se)) a -> rust se -> visible se -> traits_private se ->
  solution se holds -> refutes_drop se holds fails ->
  (forall x s l, In x (se_impls se) -> ~ applies se holds x (drop_trait se) (item_at se s l)) ->
  (forall x s l tr b, In x (se_impls se) -> In tr (implemented se a) ->
    ~ matches se (fst x) (snd x) s l tr (u_inst (se_univ se) (se_def se) b)) ->
  (forall i j x y, i <> j -> nth_error (se_impls se) i = Some x -> nth_error (se_impls se) j = Some y ->
    ~ conflict se fails x y) ->
  coherent se fails.
Proof.
  intros Ha Hr Hv Hp Hs Hd Hn Hi Hu i j x y Hij. unfold all_impls.
  pose proof (c26_alone se holds fails a Ha Hr Hv Hs Hd Hn) as Hg.
  pose proof (fun x y => c48_pair se fails a x y Ha Hr Hv Hp Hi) as Hc.
  remember (generated_impls se ++ lib_impls se) as L eqn:EL. clear EL.
  destruct (Nat.lt_ge_cases i (List.length (se_impls se))) as [Hl|Hl], (Nat.lt_ge_cases j (List.length (se_impls se))) as [Hl'|Hl'].
  - rewrite !nth_error_app1 by assumption. apply Hu. exact Hij.
  - rewrite nth_error_app1, nth_error_app2 by assumption. intros Hx Hy. apply Hc; eapply nth_error_In; eassumption.
  - rewrite nth_error_app2, nth_error_app1 by assumption. intros Hx Hy H. apply conflict_sym in H. revert H.
    apply Hc; eapply nth_error_In; eassumption.
  - rewrite !nth_error_app2 by assumption. apply Hg. intros H. apply Hij.
    apply (f_equal (fun n => n + List.length (se_impls se))) in H. rewrite !Nat.sub_add in H by assumption. exact H.
Qed.
Lemma c27_given se holds fails a s l :
  options (attrs_of (se_item se)) a -> legal se -> uncaptured se -> compiles se holds fails ->
  ar_pinned_drop a = true -> where_holds se holds s l ->
  exists k x, nth_error (se_impls se) k = Some x /\ applies se holds x (pinned_drop se) (item_at se s l) /\
    forall k' x', nth_error (se_impls se) k' = Some x' -> applies se holds x' (pinned_drop se) (item_at se s l) -> k' = k.
Proof.
  intros Ha Hl Hu [Hr Hs Hh Hf Hc Hb] Ea Hw. form' se Ha Hr.
  exact (m27_some se a Hr Hl (un_visible _ Hu) Hu pin v front Hpin Hfront Hform holds Hs fails Hf Hc Hb s l Ea Hw).
Qed.
Lemma c27_not_given se holds fails a x b :
  options (attrs_of (se_item se)) a -> rust se -> legal se -> uncaptured se ->
  solution se holds -> headers_ok se holds -> refuter se holds fails ->
  ar_pinned_drop a = false ->
  In x (se_impls se) -> applies se holds x (pinned_drop se) (u_inst (se_univ se) (se_def se) b) ->
  ~ coherent se fails.
Proof.
  intros Ha Hr Hl Hu Hs Hh Hf Ea Hx H. form' se Ha Hr.
  exact (m27_none se a Hr Hl (un_visible _ Hu) Hu pin v front Hpin Hform holds fails Hh Hf x b Ea Hx H).
Qed.
Lemma c28 se holds fails a s l :
  options (attrs_of (se_item se)) a -> legal se -> uncaptured se -> compiles se holds fails ->
  ar_unpin a = UDefault ->
  (holds (unpin se) (item_at se s l) <->
   where_holds se holds s l /\ forall f, pinned_field se f -> holds (unpin se) (type_at se s l f)).
Proof.
  intros Ha Hl Hu [Hr Hs Hh Hf Hc _] Ea. form' se Ha Hr.
  exact (m28 se a Hr Hl (un_visible _ Hu) Hu pin v front Hpin Hfront Hform holds Hs fails Hh Hf Hc s l Ea).
Qed.
Lemma c29 se holds fails a s l :
  options (attrs_of (se_item se)) a -> legal se -> uncaptured se -> compiles se holds fails ->
  ar_unpin a = UNegative -> ~ holds (unpin se) (item_at se s l).
Proof.
  intros Ha Hl Hu [Hr Hs Hh Hf Hc _] Ea. form' se Ha Hr.
  exact (m29 se a Hr Hl (un_visible _ Hu) Hu pin v front Hpin Hfront Hform holds Hs fails Hh Hf Hc s l Ea).
Qed.
Lemma c30 se holds fails a s l :
  options (attrs_of (se_item se)) a -> legal se -> uncaptured se -> compiles se holds fails ->
  ar_unpin a = UUnsafe ->
  (holds (unpin se) (item_at se s l) <->
   where_holds se holds s l /\
   exists x, In x (se_impls se) /\ applies se holds x (unsafe_unpin se) (item_at se s l)).
Proof.
  intros Ha Hl Hu [Hr Hs Hh Hf Hc _] Ea. form' se Ha Hr.
  exact (m30 se a Hr Hl (un_visible _ Hu) Hu pin v front Hpin Hfront Hform holds Hs fails Hh Hf Hc s l Ea).
Qed.
Lemma c32_unpin se holds fails a x b :
  options (attrs_of (se_item se)) a -> rust se -> legal se -> uncaptured se ->
  headers_ok se holds -> refuter se holds fails ->
  In x (se_impls se) -> applies se holds x (unpin se) (u_inst (se_univ se) (se_def se) b) ->
  ~ coherent se fails.
Proof.
  intros Ha Hr Hl Hu Hh Hf Hx H. form' se Ha Hr.
  exact (m32_unpin se a Hr Hl (un_visible _ Hu) Hu pin v front Hpin Hform holds fails Hh Hf x b Hx H).
Qed.
Lemma c32_unsafe se holds fails a x b :
  options (attrs_of (se_item se)) a -> rust se -> legal se -> uncaptured se ->
  headers_ok se holds -> refuter se holds fails ->
  ar_unpin a <> UUnsafe ->
  In x (se_impls se) -> applies se holds x (unsafe_unpin se) (u_inst (se_univ se) (se_def se) b) ->
  ~ coherent se fails.
Proof.
  intros Ha Hr Hl Hu Hh Hf Ea Hx H. form' se Ha Hr.
  exact (m32_unsafe se a Hr Hl (un_visible _ Hu) Hu pin v front Hpin Hform holds fails Hh Hf x b Ea Hx H).
Qed.
Lemma c43 se holds fails a s l f :
  options (attrs_of (se_item se)) a -> legal se -> uncaptured se -> compiles se holds fails ->
  (forall x, In x (se_impls se) -> ~ applies se holds x (unsafe_unpin se) (item_at se s l)) ->
  holds (unpin se) (item_at se s l) -> pinned_field se f -> holds (unpin se) (type_at se s l f).
Proof.
  intros Ha Hl Hu Hc Hn H Hf. destruct (ar_unpin a) eqn:Ea.
  - apply (c28 se holds fails a s l Ha Hl Hu Hc Ea) in H. apply H. exact Hf.
  - apply (c30 se holds fails a s l Ha Hl Hu Hc Ea) in H. destruct H as [_ (x & Hx & H)]. destruct (Hn x Hx H).
  - destruct (c29 se holds fails a s l Ha Hl Hu Hc Ea H).
Qed.

(** ** C33 *)
Lemma c33 se a :
  options (attrs_of (se_item se)) a -> rust se -> legal se -> uncaptured se -> ar_unpin a = UDefault ->
  exists vv gg fs, In (OStruct vv (helper_name (name_of (se_item se))) gg fs) (scoped (se_exp se)) /\
  forall s l,
    (forall f, pinned_field se f -> exists h, In h (fields_list fs) /\
       den_ty (in_helper se gg s l) (f_ty h) = type_at se s l f) /\
    (forall h, In h (fields_list fs) ->
       (exists f, pinned_field se f /\ den_ty (in_helper se gg s l) (f_ty h) = type_at se s l f) \/
       (exists p d, den_ty (in_helper se gg s l) (f_ty h) = u_inst (se_univ se) (se_lib se "AlwaysUnpin") [DLt p; DTy d]) \/
       (exists lt m d, den_ty (in_helper se gg s l) (f_ty h) = u_ref (se_univ se) lt m d)).
Proof.
  intros Ha Hr Hl Hu Ea. form' se Ha Hr.
  exists v, (helper_def se pin), (FNamed (helper_fs (generics_of (se_item se)) pin (pinned_types (se_item se)))). split.
  - rewrite Hform. right. rewrite !in_app_iff. right. left. unfold unpin_items. rewrite Ea. left. reflexivity.
  - intros s l. unfold in_helper. rewrite (helper_args se pin).
    change (u_inst (se_univ se) (se_gen se (name (helper_name (name_of (se_item se)))))
      (DLt (l pin) :: param_args (item_params se) s l)) with (helper_at se (l pin) s l). split.
    + intros f Hf. exact (helper_fields_all se Hr pin Hpin Hl Hu (l pin) s l s l f eq_refl eq_refl Hf).
    + intros h Hh. destruct (helper_field se Hr a pin v front Hpin Hform Hl (un_visible _ Hu) Hu (l pin) s l s l h eq_refl eq_refl Hh) as [(c & X & _)|[X|X]]; eauto.
Qed.

(** ** C31 *)
Lemma c31_same it1 it2 e1 e2 a :
  parse_derive it1 = Ok e1 -> parse_derive it2 = Ok e2 ->
  options (attrs_of it1) a -> options (attrs_of it2) a ->
  ordered (g_params (generics_of it1)) ->
  name_of it1 = name_of it2 -> generics_of it1 = generics_of it2 -> pinned_tys_of it1 = pinned_tys_of it2 ->
  (forall im, i_trait im = Some (support ["__private"; "Unpin"]) \/ i_trait im = Some (support ["UnsafeUnpin"]) ->
    (In (OImpl im) (scoped e1) <-> In (OImpl im) (scoped e2))) /\
  (forall g fs, (exists v, In (OStruct v (helper_name (name_of it1)) g fs) (scoped e1)) <->
                (exists v, In (OStruct v (helper_name (name_of it1)) g fs) (scoped e2))).
Proof.
  intros H1 H2 A1 A2 Ho En Eg Et.
  destruct (scoped_form it1 e1 a H1 A1 Ho) as (pin & v1 & f1 & P1 & F1 & E1).
  rewrite Eg in Ho. destruct (scoped_form it2 e2 a H2 A2 Ho) as (pin2 & v2 & f2 & P2 & F2 & E2).
  rewrite Eg in P1. pose proof (pin_lifetime_unique _ _ _ P1 P2) as <-.
  assert (Ep : pinned_types it1 = pinned_types it2).
  { assert (X : forall it, pinned_types it = map (replace_ty (own_type (name_of it) (generics_of it))) (pinned_tys_of it)).
    { intros it. unfold pinned_types, pinned_tys_of. induction (fields_of it) as [|fs l IH]; [reflexivity|].
      cbn [flat_map]. rewrite map_app, <- IH. f_equal. rewrite map_map. f_equal.
      clear. induction (fields_list fs) as [|f l IH]; [reflexivity|]. cbn [filter]. rewrite is_pinned_pin_b, IH. reflexivity. }
    rewrite !X, En, Eg, Et. reflexivity. }
  rewrite E1, E2, Ep, En, Eg. rewrite En in F1. split.
  - intros im Him.
    assert (K : forall f, front_ok (name_of it2) f -> ~ In (OImpl im) f).
    { intros f Hf Hin. apply (fo_impl _ _ Hf) in Hin. destruct Him; congruence. }
    cbn [In]. rewrite !in_app_iff. split; (intros [X|[X|[X|X]]]; [discriminate| | |]).
    + destruct (K f1 F1 X).
    + right. right. left. revert X. unfold unpin_items. destruct (ar_unpin a); cbn [In]; intros X; intuition (try discriminate).
    + right. right. right. exact X.
    + destruct (K f2 F2 X).
    + right. right. left. revert X. unfold unpin_items. destruct (ar_unpin a); cbn [In]; intros X; intuition (try discriminate).
    + right. right. right. exact X.
  - intros gg fs. rewrite <- En.
    assert (K : forall f v, front_ok (name_of it2) f -> ~ In (OStruct v (helper_name (name_of it1)) gg fs) f).
    { intros f v Hf Hin. rewrite En in Hin. exact (fo_struct _ _ Hf _ _ _ _ Hin eq_refl). }
    split; intros (v & X); cbn [In] in X; rewrite !in_app_iff in X; (destruct X as [X|[X|[X|X]]]; [discriminate| | |]).
    + destruct (K f1 v F1 X).
    + exists v2. cbn [In]. rewrite !in_app_iff. right. right. left. revert X. unfold unpin_items.
      destruct (ar_unpin a); cbn [In]; intros X; intuition (try discriminate).
      match goal with X : OStruct _ _ _ _ = _ |- _ => injection X as _ <- <- end. left. reflexivity.
    + exfalso. unfold drop_items in X. destruct (ar_pinned_drop a); cbn in X; intuition discriminate.
    + destruct (K f2 v F2 X).
    + exists v1. cbn [In]. rewrite !in_app_iff. right. right. left. revert X. unfold unpin_items.
      destruct (ar_unpin a); cbn [In]; intros X; intuition (try discriminate).
      match goal with X : OStruct _ _ _ _ = _ |- _ => injection X as _ <- <- end. left. reflexivity.
    + exfalso. unfold drop_items in X. destruct (ar_pinned_drop a); cbn in X; intuition discriminate.
Qed.

Lemma c31_unused se holds fails a s l s' l' :
  options (attrs_of (se_item se)) a -> legal se -> uncaptured se -> compiles se holds fails ->
  ar_unpin a = UDefault -> where_holds se holds s l -> where_holds se holds s' l' ->
  (forall f, pinned_field se f ->
    (forall m ts, ~ In (NMacro m ts) (nodes_ty (f_ty f))) /\ ~ looks_up (nodes_ty (f_ty f)) "Self" /\
    (forall x, looks_up (nodes_ty (f_ty f)) x -> In x (param_names (item_params se)) -> s x = s' x) /\
    (forall x, In (NLt x) (nodes_ty (f_ty f)) -> In x (param_lts (item_params se)) -> l x = l' x)) ->
  (holds (unpin se) (item_at se s l) <-> holds (unpin se) (item_at se s' l')).
Proof.
  intros Ha Hl Hu Hc Ea Hw Hw' Hag.
  assert (E : forall f, pinned_field se f -> type_at se s l f = type_at se s' l' f).
  { intros f Hf. destruct (Hag f Hf) as (Hm & Hself & Hn & Hlt).
    pose proof (co_rust _ _ _ Hc) as Hr. form' se Ha Hr.
    unfold type_at. rewrite !place_eq.
    transitivity (den_ty (mkEnv (outside se s' (item_at se s' l')) (place_lts se l)) (f_ty f)).
    - apply (proj1 (den_agree (se_univ se) (fun x => x = pin) _ _)); [intros x _; reflexivity|]. constructor.
      + intros x Hx. unfold outside. destruct (existsb (String.eqb x) (param_names (item_params se))) eqn:Ex.
        * apply existsb_in in Ex. rewrite (Hn x Hx Ex). reflexivity.
        * destruct (String.eqb_spec x "Self") as [->|_]; [contradiction|reflexivity].
      + intros m ts f' g' Hin. destruct (Hm m ts Hin).
      + intros ? -> Hin. apply (un_pin _ Hu pin Hpin). apply (pt_written _ _ _ (part_field se f Hf)). exact Hin.
    - apply (proj1 (den_lts (se_univ se) _)); [exact Hm|]. intros x Hx. unfold place_lts.
      destruct (existsb (String.eqb x) (param_lts (item_params se))) eqn:Ex; [|reflexivity].
      apply Hlt; [exact Hx|]. apply existsb_in. exact Ex. }
  rewrite !(c28 se holds fails a _ _ Ha Hl Hu Hc Ea). split; intros [_ H]; (split; [assumption|]); intros f Hf.
  - rewrite <- E by exact Hf. apply H. exact Hf.
  - rewrite E by exact Hf. apply H. exact Hf.
Qed.
Lemma c31_changed se it e other holds fails holds' fails' a a' s l :
  let se' := with_item se it e other in
  options (attrs_of (se_item se)) a -> legal se -> uncaptured se -> compiles se holds fails -> ar_unpin a = UDefault ->
  options (attrs_of it) a' -> legal se' -> uncaptured se' -> compiles se' holds' fails' -> ar_unpin a' = UDefault ->
  (forall t, In t (pinned_tys_of (se_item se)) <-> In t (pinned_tys_of it)) ->
  (where_holds se holds s l <-> where_holds se' holds' s l) ->
  (forall t, In t (pinned_tys_of it) ->
    (holds (unpin se) (den_ty (place se s l) t) <-> holds' (unpin se) (den_ty (place se' s l) t))) ->
  (holds (unpin se) (item_at se s l) <-> holds' (unpin se) (item_at se' s l)).
Proof.
  cbn zeta. intros Ha Hl Hu Hc Ea Ha' Hl' Hu' Hc' Ea' Ht Hw Hag.
  rewrite (c28 se holds fails a _ _ Ha Hl Hu Hc Ea).
  pose proof (c28 (with_item se it e other) holds' fails' a' s l Ha' Hl' Hu' Hc' Ea') as X.
  assert (P : forall se0 f, pinned_field se0 f -> In (f_ty f) (pinned_tys_of (se_item se0))).
  { intros se0 f (fs & Hfs & Hf & Hp). unfold pinned_tys_of. apply in_flat_map. exists fs. split; [exact Hfs|].
    apply in_map_iff. exists f. split; [reflexivity|]. apply filter_In. split; [exact Hf|]. rewrite is_pinned_pin_b. apply pin_b_iff. exact Hp. }
  assert (Q : forall se0 t, In t (pinned_tys_of (se_item se0)) -> exists f, pinned_field se0 f /\ f_ty f = t).
  { intros se0 t Hin. unfold pinned_tys_of in Hin. apply in_flat_map in Hin. destruct Hin as (fs & Hfs & Hin).
    apply in_map_iff in Hin. destruct Hin as (f & Ef & Hin). apply filter_In in Hin. destruct Hin as [Hin Hp].
    exists f. split; [|exact Ef]. exists fs. split; [exact Hfs|]. split; [exact Hin|]. apply pin_b_iff. rewrite <- is_pinned_pin_b. exact Hp. }
  refine (iff_trans _ (iff_sym X)). rewrite Hw. split; intros [A B]; (split; [exact A|]); intros f Hf.
  - pose proof (P _ _ Hf) as Hin. apply (Hag _ Hin). apply Ht in Hin. destruct (Q _ _ Hin) as (f0 & Hf0 & E0).
    specialize (B f0 Hf0). unfold type_at in B. rewrite E0 in B. exact B.
  - pose proof (P _ _ Hf) as Hin. apply Ht in Hin. apply (Hag _ Hin). destruct (Q (with_item se it e other) _ Hin) as (f0 & Hf0 & E0).
    specialize (B f0 Hf0). unfold type_at in B. rewrite E0 in B. exact B.
Qed.
