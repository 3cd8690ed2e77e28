(** The trait properties. *)
From Coq Require Import String Ascii List Bool Lia.
From Verif Require Import Base Syntax SyntaxInd ModelArgs ModelUtils ModelDerive ModelMeaning ModelTraits
  SpecArgs SpecDerive SpecLifetime SpecExpand SpecRun SpecMeaning SpecTraits
  ProofsArgs ProofsUtils ProofsDerive ProofsExpand ProofsTypes ProofsRun ProofsMeaning ProofsTraitsForm ProofsTraitsEnv
  ProofsTraits.
Import ListNotations.
Open Scope string_scope.
Open Scope list_scope.

Section Coherence.
  Variable se : setting.
  Variable fails : env (D (se_univ se)) (LT (se_univ se)) -> wpred -> Prop.
  Lemma coherent_user_gen x y : coherent se fails -> In x (se_impls se) -> In y (generated_impls se ++ lib_impls se) ->
    ~ conflict se fails x y.
  Proof.
    intros Hc Hx Hy. apply In_nth_error in Hx, Hy. destruct Hx as (k & Hk), Hy as (j & Hj).
    assert (k < length (se_impls se)) by (apply nth_error_Some; congruence).
    apply (Hc k (length (se_impls se) + j)); [lia| |]; unfold all_impls.
    - rewrite nth_error_app1 by assumption. exact Hk.
    - rewrite nth_error_app2 by lia. replace (length (se_impls se) + j - length (se_impls se)) with j by lia. exact Hj.
  Qed.
  Lemma coherent_diff x y : coherent se fails -> In x (all_impls se) -> In y (all_impls se) -> x <> y -> ~ conflict se fails x y.
  Proof.
    intros Hc Hx Hy Hne. apply In_nth_error in Hx, Hy. destruct Hx as (k & Hk), Hy as (j & Hj).
    apply (Hc k j); [|exact Hk|exact Hj]. intros ->. congruence.
  Qed.
  Lemma coherent_user_user k j x y : coherent se fails -> nth_error (se_impls se) k = Some x -> nth_error (se_impls se) j = Some y ->
    conflict se fails x y -> k = j.
  Proof.
    intros Hc Hx Hy H. destruct (PeanoNat.Nat.eq_dec k j) as [E|E]; [exact E|]. exfalso.
    apply (Hc k j x y E); [| |exact H]; unfold all_impls; rewrite nth_error_app1; try assumption; apply nth_error_Some; congruence.
  Qed.
End Coherence.

Section Main.
  Variable se : setting.
  Notation U := (se_univ se).
  Notation T := (D U).
  Notation it := (se_item se).
  Variable a : args.
  Hypothesis Ha : options (attrs_of it) a.
  Hypothesis Hr : rust se.
  Hypothesis Hl : legal se.
  Hypothesis Hv : visible se.
  Hypothesis Hu : uncaptured se.
  Notation i := (name_of it).
  Notation g := (generics_of it).
  Notation gs := (spelled i g).
  Variables (pin : string) (v : vis) (front : list oitem).
  Hypothesis Hpin : pin_lifetime g pin.
  Hypothesis Hfront : front_ok i front.
  Hypothesis Hform : scoped (se_exp se) = OExternCrate (I "pin_project") (I "_pin_project") :: front ++
      unpin_items a v i g pin (pinned_types it) ++ drop_items a i g.
  Variable holds : T -> T -> Prop.
  Hypothesis Hsol : solution se holds.

  Notation unpin_impl := (unpin_impl se a pin).
  Notation unsafe_impl := (unsafe_impl se a pin).
  Notation drop_impl := (drop_impl se).
  Notation guard_impl := (guard_impl se).
  Notation pdrop_impl := (pdrop_impl se).
  Notation blanket := (blanket i).
  Notation inn := (inner_env se).

  Section Fails.
    Variable fails : env T (LT U) -> wpred -> Prop.
    Hypothesis Hh : headers_ok se holds.
    Hypothesis Hf : refuter se holds fails.

    Lemma sat_not_fails E gg : generics_sat se holds E gg -> forall w, In w (all_preds gg) -> ~ fails E w.
    Proof. intros H w Hw Hfail. exact (rf_sound _ _ _ Hf _ _ Hfail (H w Hw)). Qed.
    Lemma extra_not_fails s l lf : ~ fails (mkEnv (inside se s (item_at se s l)) lf) (extra se a pin).
    Proof.
      unfold extra. destruct (ar_unpin a); apply (rf_foreign _ _ _ Hf); cbn [names];
        exact (inside_pp se a pin v front Hform Hv s _).
    Qed.
    Lemma pin_not_fails u tr ms s l : where_holds se holds s l ->
      forall w, In w (all_preds (pin_generics gs pin (extra se a pin))) ->
      ~ fails (impl_env se inn (mkImpl u (pin_generics gs pin (extra se a pin)) tr (self_ty se) ms) s l) w.
    Proof.
      intros Hw w Hin.
      rewrite (env_eq se Hr Hv _ u tr ms s l (fits_pin se pin _) (lts_pin_sub se pin _)).
      pose proof (proj2 (where_transfer se Hr pin Hpin Hl Hv Hu s s l l eq_refl (pin_generics gs pin (extra se a pin)) (or_introl (lts_pin se pin _)) holds) Hw) as Hs.
      apply (pin_preds se pin _ _ (extra_relaxes se a pin)) in Hin. destruct Hin as [->|[Hin| ->]].
      - intros Hfail. apply (rf_sound _ _ _ Hf) in Hfail. apply Hfail. intros b [].
      - intros Hfail. apply (rf_sound _ _ _ Hf) in Hfail. apply Hfail, Hs. exact Hin.
      - apply extra_not_fails.
    Qed.
    Lemma plain_not_fails u tr ms s l : where_holds se holds s l ->
      forall w, In w (all_preds (plain_generics gs)) ->
      ~ fails (impl_env se inn (mkImpl u (plain_generics gs) tr (self_ty se) ms) s l) w.
    Proof.
      intros Hw. apply (sat_not_fails _ (plain_generics gs)).
      apply (plain_sat se Hr pin Hpin Hl Hv Hu holds u tr ms s l s l eq_refl). exact Hw.
    Qed.

    Lemma in_gen im : In im (trait_impls se a pin) -> In (inn, im) (generated_impls se ++ lib_impls se).
    Proof.
      intros H. apply in_or_app. left. rewrite (gen_impls_eq se a pin v front Hform), in_app_iff. right. apply in_map_iff. eauto.
    Qed.
    (** A user impl that applies, against a generated one whose requirements are not refuted. *)
    Lemma overlap x tr b im : In x (se_impls se) -> applies se holds x tr (u_inst U (se_def se) b) ->
      In im (trait_impls se a pin) ->
      (forall s l, where_holds se holds s l -> matches se inn im s l tr (item_at se s l)) ->
      (forall s l, where_holds se holds s l -> forall w, In w (all_preds (i_generics im)) -> ~ fails (impl_env se inn im s l) w) ->
      ~ coherent se fails.
    Proof.
      intros Hx (s1 & l1 & Hm & Hs) Him Hm2 Hnf Hc.
      destruct x as [E im1]. cbn [fst snd] in *.
      destruct (Hh E im1 s1 l1 tr b Hx Hm Hs) as (s0 & l0 & -> & Hw).
      apply (coherent_user_gen se fails (E, im1) (inn, im) Hc Hx (in_gen im Him)).
      exists s1, l1, s0, l0, tr, (item_at se s0 l0). cbn [fst snd]. split; [exact Hm|]. split; [apply Hm2; exact Hw|].
      split; [apply sat_not_fails; exact Hs|]. apply Hnf. exact Hw.
    Qed.
    Lemma m32_unpin x b : In x (se_impls se) -> applies se holds x (unpin se) (u_inst U (se_def se) b) -> ~ coherent se fails.
    Proof.
      intros Hx H. apply (overlap x (unpin se) b unpin_impl Hx H).
      - left. reflexivity.
      - intros s l _. apply (m_unpin se Hr a pin v front Hform Hv). auto.
      - intros s l Hw. apply pin_not_fails. exact Hw.
    Qed.
    Lemma m32_unsafe x b : ar_unpin a <> UUnsafe -> In x (se_impls se) ->
      applies se holds x (unsafe_unpin se) (u_inst U (se_def se) b) -> ~ coherent se fails.
    Proof.
      intros Ea Hx H. apply (overlap x (unsafe_unpin se) b unsafe_impl Hx H).
      - unfold trait_impls. right. apply in_or_app. left. destruct (ar_unpin a); [left; reflexivity|contradiction|left; reflexivity].
      - intros s l _. apply (m_unsafe se Hr a pin v front Hform Hv). auto.
      - intros s l Hw. apply pin_not_fails. exact Hw.
    Qed.
    Lemma in_drop im : In im (if ar_pinned_drop a then [drop_impl] else [blanket; guard_impl; pdrop_impl]) -> In im (trait_impls se a pin).
    Proof. intros H. unfold trait_impls. right. apply in_or_app. right. exact H. Qed.
    Lemma m27_none x b : ar_pinned_drop a = false -> In x (se_impls se) ->
      applies se holds x (pinned_drop se) (u_inst U (se_def se) b) -> ~ coherent se fails.
    Proof.
      intros Ea Hx H. apply (overlap x (pinned_drop se) b pdrop_impl Hx H).
      - apply in_drop. rewrite Ea. cbn. auto.
      - intros s l _. apply (m_pdrop se Hr a pin v front Hform Hv). auto.
      - intros s l Hw. apply plain_not_fails. exact Hw.
    Qed.
    Lemma m26 x b : In x (se_impls se) ->
      (ar_pinned_drop a = false -> holds (sized_trait se) (u_inst U (se_def se) b)) ->
      applies se holds x (drop_trait se) (u_inst U (se_def se) b) -> ~ coherent se fails.
    Proof.
      intros Hx Hsz H. destruct (ar_pinned_drop a) eqn:Ea.
      - apply (overlap x (drop_trait se) b drop_impl Hx H).
        + apply in_drop. rewrite Ea. cbn. auto.
        + intros s l _. apply (m_drop se Hr a pin v front Hform Hv). auto.
        + intros s l Hw. apply plain_not_fails. exact Hw.
      - destruct H as (s1 & l1 & Hm & Hs). destruct x as [E im1]. cbn [fst snd] in *.
        destruct (Hh E im1 s1 l1 _ b Hx Hm Hs) as (s0 & l0 & -> & Hw). intros Hc.
        assert (Hd : holds (drop_trait se) (item_at se s0 l0)).
        { apply (holds_by_impl se holds Hsol). exists E, im1, s1, l1. split; [unfold all_impls; apply in_or_app; auto|]. auto. }
        apply (coherent_diff se fails (inn, blanket) (inn, guard_impl) Hc).
        + apply (trait_in se a pin v front Hform). apply in_drop. rewrite Ea. cbn. auto.
        + apply (trait_in se a pin v front Hform). apply in_drop. rewrite Ea. cbn. auto.
        + intros X. apply (f_equal (fun x => g_where (i_generics (snd x)))) in X. discriminate.
        + exists (fun _ => item_at se s0 l0), l0, s0, l0, (guard_trait se), (item_at se s0 l0). cbn [fst snd].
          split; [apply (m_blanket se a pin v front Hfront Hform _ _ _ _ Ea); auto|].
          split; [apply (m_guard se Hr a pin v front Hfront Hform Hv _ _ _ _ Ea); auto|]. split.
          * apply sat_not_fails. apply (blanket_sat se Hr a pin v front Hform). split; [exact Hd|exact (Hsz eq_refl)].
          * apply plain_not_fails. exact Hw.
    Qed.

    Hypothesis Hc : coherent se fails.
    Lemma no_user_unpin s l : ~ exists x, In x (se_impls se) /\ applies se holds x (unpin se) (item_at se s l).
    Proof. intros (x & Hx & H). exact (m32_unpin x _ Hx H Hc). Qed.

    Lemma m_unpin_iff s l : holds (unpin se) (item_at se s l) <->
      where_holds se holds s l /\ exists p, condition se a holds p s l.
    Proof.
      rewrite (item_unpin se Hr a pin v front Hpin Hfront Hform Hl Hv Hu holds Hsol). split.
      - intros [H|H]; [destruct (no_user_unpin s l H)|exact H].
      - auto.
    Qed.
    Lemma m28 s l : ar_unpin a = UDefault ->
      (holds (unpin se) (item_at se s l) <->
       where_holds se holds s l /\ forall f, pinned_field se f -> holds (unpin se) (type_at se s l f)).
    Proof.
      intros Ea. rewrite m_unpin_iff. unfold condition. rewrite Ea. split.
      - intros [Hw (p & Hp)]. split; [exact Hw|]. apply (helper_unpin se Hr a pin v front Hpin Hfront Hform Hl Hv Hu holds Hsol p s l Ea). exact Hp.
      - intros [Hw Hp]. split; [exact Hw|]. exists (u_elided U).
        apply (helper_unpin se Hr a pin v front Hpin Hfront Hform Hl Hv Hu holds Hsol _ s l Ea). exact Hp.
    Qed.
    Lemma m29 s l : ar_unpin a = UNegative -> ~ holds (unpin se) (item_at se s l).
    Proof.
      intros Ea. rewrite m_unpin_iff. unfold condition. rewrite Ea. intros [_ (p & Hp)].
      apply (wrapper_unpin se Hr a pin v front Hpin Hfront Hform Hv holds Hsol) in Hp.
      exact (phantom_pinned se Hr a pin v front Hpin Hfront Hform Hv holds Hsol _ Hp).
    Qed.
    Lemma unsafe_user s l : ar_unpin a = UUnsafe ->
      (holds (unsafe_unpin se) (item_at se s l) <->
       exists x, In x (se_impls se) /\ applies se holds x (unsafe_unpin se) (item_at se s l)).
    Proof.
      intros Ea. split.
      - intros H. apply (item_cases se Hr a pin v front Hpin Hfront Hform Hv holds Hsol) in H; [|cbn; auto].
        destruct H as [H|(s1 & l1 & im & E & Him & Hm & _)]; [exact H|]. exfalso.
        destruct (gen_cases se Hr a pin v front Hfront Hform Hv im s1 l1 _ _ Him Hm) as [(_ & _ & X & _)|(_ & X)].
        + revert X. apply (guard_not_known se Hr). cbn. auto.
        + destruct X as [[_ X]|[(X & _)|[(_ & _ & X)|[(_ & _ & X)|(_ & _ & X)]]]].
          * destruct (unpin_unsafe se Hr). symmetry. exact X.
          * contradiction.
          * apply (nominal se Hr (ELib "UnsafeUnpin") (ELib "Drop")) in X; [destruct X; discriminate|cbn; auto 9|cbn; auto 9].
          * revert X. apply (guard_not_known se Hr). cbn. auto.
          * apply (nominal se Hr (ELib "UnsafeUnpin") (ELib "PinnedDrop")) in X; [destruct X; discriminate|cbn; auto 9|cbn; auto 12].
      - intros ((E & im) & Hx & s1 & l1 & Hm & Hs). apply (holds_by_impl se holds Hsol).
        exists E, im, s1, l1. split; [unfold all_impls; apply in_or_app; auto|]. auto.
    Qed.
    Lemma m30 s l : ar_unpin a = UUnsafe ->
      (holds (unpin se) (item_at se s l) <->
       where_holds se holds s l /\ exists x, In x (se_impls se) /\ applies se holds x (unsafe_unpin se) (item_at se s l)).
    Proof.
      intros Ea. rewrite m_unpin_iff, <- (unsafe_user s l Ea). unfold condition. rewrite Ea. split.
      - intros [Hw (p & Hp)]. split; [exact Hw|]. apply (wrapper_unsafe se Hr a pin v front Hfront Hform Hv holds Hsol) in Hp. exact Hp.
      - intros [Hw Hp]. split; [exact Hw|]. exists (u_elided U).
        apply (wrapper_unsafe se Hr a pin v front Hfront Hform Hv holds Hsol). exact Hp.
    Qed.

    Hypothesis Hb : forall x, In x (generated_impls se) -> typechecks se holds x.
    Lemma m27_some s l : ar_pinned_drop a = true -> where_holds se holds s l ->
      exists k x, nth_error (se_impls se) k = Some x /\ applies se holds x (pinned_drop se) (item_at se s l) /\
        forall k' x', nth_error (se_impls se) k' = Some x' -> applies se holds x' (pinned_drop se) (item_at se s l) -> k' = k.
    Proof.
      intros Ea Hw.
      assert (Hd : holds (pinned_drop se) (item_at se s l)).
      { assert (Hin : In (inn, drop_impl) (generated_impls se)).
        { rewrite (gen_impls_eq se a pin v front Hform), in_app_iff. right. apply in_map_iff. exists drop_impl.
          split; [reflexivity|]. apply in_drop. rewrite Ea. left. reflexivity. }
        assert (X := Hb _ Hin s l drop_method tr_pinned_drop (or_introl eq_refl)). cbn [fst snd] in X.
        assert (Ep : In tr_pinned_drop (body_obligations (m_body drop_method))) by (cbn; auto).
        specialize (X Ep).
        assert (Hs : generics_sat se holds (impl_env se inn drop_impl s l) (i_generics drop_impl))
          by (apply (plain_sat se Hr pin Hpin Hl Hv Hu holds _ _ _ s l s l eq_refl); exact Hw).
        specialize (X Hs). unfold ProofsTraits.drop_impl in X.
        rewrite (env_eq se Hr Hv _ _ _ _ s l (fits_plain se) (lts_plain_sub se)) in X.
        unfold tr_pinned_drop in X. rewrite (den_priv_path se Hr) in X by apply (inside_pp se a pin v front Hform Hv).
        cbn [i_generics i_self] in X. rewrite (header_den se Hr Hv _ s l (fits_plain se) (lts_plain_sub se)) in X. exact X. }
      apply (item_cases se Hr a pin v front Hpin Hfront Hform Hv holds Hsol) in Hd; [|cbn; auto].
      destruct Hd as [(x & Hx & Hap)|(s1 & l1 & im & E & Him & Hm & _)].
      - apply In_nth_error in Hx. destruct Hx as (k & Hk). exists k, x. split; [exact Hk|]. split; [exact Hap|].
        intros k' x' Hk' Hap'. apply (coherent_user_user se fails k' k x' x Hc Hk' Hk).
        destruct Hap as (s1 & l1 & Hm & Hs), Hap' as (s2 & l2 & Hm2 & Hs2).
        exists s2, l2, s1, l1, (pinned_drop se), (item_at se s l). split; [exact Hm2|]. split; [exact Hm|].
        split; apply sat_not_fails; assumption.
      - exfalso. destruct (gen_cases se Hr a pin v front Hfront Hform Hv im s1 l1 _ _ Him Hm) as [(X & _)|(_ & X)]; [congruence|].
        destruct X as [[_ X]|[(_ & _ & X)|[(_ & _ & X)|[(X & _)|(X & _)]]]]; try congruence.
        + apply (nominal se Hr (ELib "PinnedDrop") (ELib "Unpin")) in X; [destruct X; discriminate|cbn; auto 12|cbn; auto 9].
        + apply (nominal se Hr (ELib "PinnedDrop") (ELib "UnsafeUnpin")) in X; [destruct X; discriminate|cbn; auto 12|cbn; auto 9].
        + apply (nominal se Hr (ELib "PinnedDrop") (ELib "Drop")) in X; [destruct X; discriminate|cbn; auto 12|cbn; auto 9].
    Qed.
  End Fails.

  (** ** The expansion on its own *)
  Section Alone.
    Variable fails : env T (LT U) -> wpred -> Prop.
    Hypothesis Hd : refutes_drop se holds fails.
    Hypothesis Hnd : forall x s l, In x (se_impls se) -> applies se holds x (drop_trait se) (item_at se s l) ->
      forall E i0, names E (name i0) = HDone (item_at se s l) -> fails E (WTy [] (ty_ident i0) [sized_bound]).
    Notation apart := (fun x y => ~ conflict se fails x y).

    Lemma not_drop s l : ar_pinned_drop a = false ->
      (forall x, In x (se_impls se) -> ~ applies se holds x (drop_trait se) (item_at se s l)) ->
      ~ holds (drop_trait se) (item_at se s l).
    Proof.
      intros Ea Hno H. apply (item_cases se Hr a pin v front Hpin Hfront Hform Hv holds Hsol) in H; [|cbn; auto].
      destruct H as [(x & Hx & H)|(s1 & l1 & im & E & Him & Hm & _)]; [exact (Hno x Hx H)|].
      destruct (gen_cases se Hr a pin v front Hfront Hform Hv im s1 l1 _ _ Him Hm) as [(_ & _ & X & _)|(_ & X)].
      - revert X. apply (guard_not_known se Hr). cbn. auto.
      - destruct X as [[_ X]|[(_ & _ & X)|[(X & _)|[(_ & _ & X)|(_ & _ & X)]]]].
        + apply (nominal se Hr (ELib "Drop") (ELib "Unpin")) in X; [destruct X; discriminate|cbn; auto 9|cbn; auto 9].
        + apply (nominal se Hr (ELib "Drop") (ELib "UnsafeUnpin")) in X; [destruct X; discriminate|cbn; auto 9|cbn; auto 9].
        + congruence.
        + revert X. apply (guard_not_known se Hr). cbn. auto.
        + apply (nominal se Hr (ELib "Drop") (ELib "PinnedDrop")) in X; [destruct X; discriminate|cbn; auto 9|cbn; auto 12].
    Qed.
    Lemma blanket_guard s1 l1 s2 l2 t : ar_pinned_drop a = false ->
      matches se inn blanket s1 l1 (guard_trait se) t -> t = item_at se s2 l2 ->
      (forall w, In w (all_preds (i_generics blanket)) -> ~ fails (impl_env se inn blanket s1 l1) w) -> False.
    Proof.
      intros Ea Hm -> Hn. apply (m_blanket se a pin v front Hfront Hform _ _ _ _ Ea) in Hm. destruct Hm as [Ht _].
      assert (Hno : forall x, In x (se_impls se) -> ~ applies se holds x (drop_trait se) (item_at se s2 l2)).
      { intros x Hx Hap. refine (Hn (WTy [] (ty_ident (I "T")) [sized_bound]) (or_intror (or_introl eq_refl)) _).
        apply (Hnd x s2 l2 Hx Hap). rewrite Ht. reflexivity. }
      refine (Hn (WTy [] (ty_ident (I "T")) [trait_bound tr_drop]) (or_introl eq_refl) _).
      apply (Hd _ (I "T") tr_drop s2 l2).
      - rewrite Ht. reflexivity.
      - intros f. unfold tr_drop. rewrite (blanket_env se). cbn [names].
        rewrite (den_priv_path se Hr); [reflexivity|]. exact (inner_pp se a pin v front Hform).
      - apply not_drop; [exact Ea|exact Hno].
    Qed.

    Lemma lib_apart im x : In im (trait_impls se a pin) -> In x (lib_impls se) -> ~ conflict se fails (inn, im) x.
    Proof.
      intros Him Hx (s1 & l1 & s2 & l2 & tr & t & H1 & H2 & _). destruct x as [E im2]. cbn [fst snd] in *.
      destruct (lib_impl_cases se E im2 s2 l2 tr t Hx H2) as [(-> & -> & _)|(-> & ->)];
        destruct (gen_cases se Hr a pin v front Hfront Hform Hv im s1 l1 _ _ Him H1) as [(_ & _ & X & _)|(X & _)].
      - revert X. apply (guard_not_known se Hr). cbn. auto.
      - apply (nominal se Hr (ELib "Wrapper") EItem) in X; [destruct X; discriminate|cbn; auto|exact Logic.I].
      - revert X. apply (guard_not_known se Hr). cbn. auto.
      - apply (nominal se Hr (ELib "AlwaysUnpin") EItem) in X; [destruct X; discriminate|cbn; auto|exact Logic.I].
    Qed.
    Lemma gen_apart im im' : In im (trait_impls se a pin) -> In im' (trait_impls se a pin) -> i_trait im <> i_trait im' \/
      (im = blanket /\ im' = guard_impl) -> ~ conflict se fails (inn, im) (inn, im').
    Proof.
      intros H1 H2 Hne (s1 & l1 & s2 & l2 & tr & t & M1 & M2 & N1 & _). cbn [fst snd] in *.
      pose proof (gen_cases se Hr a pin v front Hfront Hform Hv im s1 l1 _ _ H1 M1) as C1.
      pose proof (gen_cases se Hr a pin v front Hfront Hform Hv im' s2 l2 _ _ H2 M2) as C2.
      assert (G : forall x, In x lib_names -> guard_trait se <> u_inst U (se_lib se x) []).
      { intros x Hx X. apply (nominal se Hr (EGen _) (ELib x)) in X; [destruct X; discriminate|exact Logic.I|exact Hx]. }
      assert (N : forall x y, In x lib_names -> In y lib_names -> u_inst U (se_lib se x) [] = u_inst U (se_lib se y) [] -> x = y).
      { intros x y Hx Hy X. apply (nominal se Hr (ELib x) (ELib y)) in X; [destruct X as [X _]; injection X; auto|exact Hx|exact Hy]. }
      unfold unpin, unsafe_unpin, drop_trait, pinned_drop in C1, C2.
      destruct C1 as [(Ea & -> & -> & E1)|(E1 & [(-> & ->)|[(_ & -> & ->)|[(_ & -> & ->)|[(Ea & -> & ->)|(_ & -> & ->)]]]])];
      destruct C2 as [(Ea2 & -> & X & E2)|(E2 & [(-> & X)|[(_ & -> & X)|[(_ & -> & X)|[(Ea2 & -> & X)|(_ & -> & X)]]]])];
      try (destruct (G "Unpin" ltac:(cbn; auto 12)); congruence);
      try (destruct (G "UnsafeUnpin" ltac:(cbn; auto 12)); congruence);
      try (destruct (G "Drop" ltac:(cbn; auto 12)); congruence);
      try (destruct (G "PinnedDrop" ltac:(cbn; auto 12)); congruence);
      try (apply N in X; [discriminate|cbn; auto 12|cbn; auto 12]);
      try (destruct Hne as [Hne|[Hne1 Hne2]];
           [destruct Hne; reflexivity
           |apply (f_equal (fun im => g_where (i_generics im))) in Hne1;
            apply (f_equal (fun im => g_where (i_generics im))) in Hne2; discriminate]).
      exact (blanket_guard s1 l1 s2 l2 t Ea M1 E2 N1).
    Qed.
    Lemma lib_lib : ForallOrdPairs apart (lib_impls se).
    Proof.
      cbn [lib_impls impls_of flat_map lib_items app]. repeat constructor.
      intros (s1 & l1 & s2 & l2 & tr & t & M1 & M2 & _). cbn [fst snd] in *.
      destruct M1 as (_ & p & Hp & E1), M2 as (_ & p' & Hp' & E2). injection Hp as <-. injection Hp' as <-.
      cbn in E1, E2. rewrite <- E2 in E1.
      apply (nominal se Hr (ELib "UnsafeUnpin") (ELib "Unpin")) in E1; [destruct E1; discriminate|cbn; auto 12|cbn; auto 12].
    Qed.
    Lemma fop_app {A} (R : A -> A -> Prop) l l' : ForallOrdPairs R l -> ForallOrdPairs R l' ->
      (forall x y, In x l -> In y l' -> R x y) -> ForallOrdPairs R (l ++ l').
    Proof.
      induction 1 as [|x l Hx Hl' IH]; intros H2 H; [exact H2|]. cbn. constructor.
      - apply Forall_app. split; [exact Hx|]. apply Forall_forall. intros y Hy. apply H; [left; reflexivity|exact Hy].
      - apply IH; [exact H2|]. intros y z Hy Hz. apply H; [right; exact Hy|exact Hz].
    Qed.
    Lemma fop_nth {A} (R : A -> A -> Prop) l : ForallOrdPairs R l -> (forall x y, R x y -> R y x) ->
      forall k j x y, k <> j -> nth_error l k = Some x -> nth_error l j = Some y -> R x y.
    Proof.
      intros H Hsym. induction H as [|z l Hz Hl' IH]; intros k j x y Hkj Hk Hj; [destruct k; discriminate|].
      rewrite Forall_forall in Hz. destruct k, j; cbn in Hk, Hj.
      - destruct Hkj. reflexivity.
      - injection Hk as <-. apply Hz. eapply nth_error_In. exact Hj.
      - injection Hj as <-. apply Hsym, Hz. eapply nth_error_In. exact Hk.
      - eapply IH; [|exact Hk|exact Hj]. intros E. apply Hkj. congruence.
    Qed.
    Lemma conflict_sym x y : conflict se fails x y -> conflict se fails y x.
    Proof. intros (s1 & l1 & s2 & l2 & tr & t & A & B & C & E). exists s2, l2, s1, l1, tr, t. auto. Qed.
    Lemma inherent_apart x y : i_trait (snd x) = None -> ~ conflict se fails x y.
    Proof. intros H (s1 & l1 & s2 & l2 & tr & t & (_ & p & Hp & _) & _). congruence. Qed.
    Lemma fop_all {A} (R : A -> A -> Prop) (l : list A) : (forall x y, In x l -> In y l -> R x y) -> ForallOrdPairs R l.
    Proof.
      induction l as [|x l IH]; intros H; constructor.
      - apply Forall_forall. intros y Hy. apply H; [left; reflexivity|right; exact Hy].
      - apply IH. intros y z Hy Hz. apply H; right; assumption.
    Qed.

    Lemma alone : ForallOrdPairs apart (generated_impls se ++ lib_impls se).
    Proof.
      rewrite (gen_impls_eq se a pin v front Hform), <- app_assoc. apply fop_app; [| |].
      - apply fop_all. intros x y Hx _. destruct x as [E im]. apply inherent_apart.
        apply (front_inherent se front Hfront E im Hx).
      - apply fop_app; [|apply lib_lib|].
        + assert (Hall : forall im, In im (trait_impls se a pin) -> In im (trait_impls se a pin)) by auto.
          revert Hall. unfold trait_impls at 1 3. destruct (ar_unpin a) eqn:Eu, (ar_pinned_drop a) eqn:Ed; cbn [app map]; intros Hall;
            repeat (constructor; [repeat (constructor; [apply gen_apart; [apply Hall; cbn; auto 9|apply Hall; cbn; auto 9|]|])|]);
            try (left; discriminate); try (right; split; reflexivity);
            repeat constructor.
        + intros x y Hx Hy. apply in_map_iff in Hx. destruct Hx as (im & <- & Him). apply lib_apart; assumption.
      - intros x y Hx _. destruct x as [E im]. apply inherent_apart. apply (front_inherent se front Hfront E im Hx).
    Qed.
    Lemma alone_coherent : forall k j x y, k <> j ->
      nth_error (generated_impls se ++ lib_impls se) k = Some x ->
      nth_error (generated_impls se ++ lib_impls se) j = Some y -> ~ conflict se fails x y.
    Proof. apply (fop_nth _ _ alone). intros x y H X. apply H, conflict_sym, X. Qed.
  End Alone.
End Main.
