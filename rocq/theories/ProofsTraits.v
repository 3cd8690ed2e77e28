(** Which impls apply to the item and to the helper struct. *)
From Coq Require Import String Ascii List Bool Lia.
From Verif Require Import Base Syntax SyntaxInd ModelArgs ModelUtils ModelDerive ModelMeaning ModelTraits
  SpecArgs SpecDerive SpecLifetime SpecExpand SpecRun SpecMeaning SpecTraits
  ProofsArgs ProofsUtils ProofsDerive ProofsExpand ProofsTypes ProofsRun ProofsMeaning ProofsTraitsForm ProofsTraitsEnv.
Import ListNotations.
Open Scope string_scope.
Open Scope list_scope.

Lemma last_char_app s c : last (list_ascii_of_string (String.append s (String c EmptyString))) "a"%char = c.
Proof.
  induction s as [|d s IH]; [reflexivity|]. cbn [String.append list_ascii_of_string].
  remember (list_ascii_of_string (String.append s (String c EmptyString))) as l eqn:E.
  destruct l as [|x l]; [|exact IH]. destruct s; discriminate.
Qed.
Lemma append_assoc a b c : String.append a (String.append b c) = String.append (String.append a b) c.
Proof. induction a as [|x a IH]; [reflexivity|]. cbn. f_equal. exact IH. Qed.
Lemma guard_last i : last (list_ascii_of_string (name (drop_guard_name i))) "a"%char = "p"%char.
Proof.
  cbn [drop_guard_name name I]. change "MustNotImplDrop" with (String.append "MustNotImplDro" "p").
  rewrite append_assoc. apply last_char_app.
Qed.
Lemma guard_neq i x : last (list_ascii_of_string x) "a"%char <> "p"%char -> name (drop_guard_name i) <> x.
Proof. intros H E. apply H. rewrite <- E. apply guard_last. Qed.

Lemma enum_from_snd {A} (l : list A) : forall k, map snd (enum_from k l) = l.
Proof. induction l as [|x l IH]; intros k; [reflexivity|]. cbn. f_equal. apply IH. Qed.
Lemma enumerate_in {A} (l : list A) x : In x l <-> exists n, In (n, x) (enumerate l).
Proof.
  rewrite <- (enum_from_snd l 0) at 1. rewrite in_map_iff. split.
  - intros ((n & y) & E & H). cbn in E. subst y. eauto.
  - intros (n & H). exists (n, x). auto.
Qed.

Section Laws.
  Variable se : setting.
  Hypothesis Hr : rust se.
  Notation U := (se_univ se).
  Notation T := (D U).
  Notation it := (se_item se).

  (** ** Nominal types *)
  Lemma nominal e e' a b : known e -> known e' ->
    u_inst U (entity_def se e) a = u_inst U (entity_def se e') b -> e = e' /\ a = b.
  Proof. apply (ru_nominal _ Hr). Qed.
  Lemma unpin_unsafe : unpin se <> unsafe_unpin se.
  Proof. intros H. apply (nominal (ELib "Unpin") (ELib "UnsafeUnpin")) in H; [destruct H; discriminate|cbn; auto 9|cbn; auto 9]. Qed.

  (** ** The support crate *)
  Definition wrapper (l : LT U) (d : T) : T := u_inst U (se_lib se "Wrapper") [DLt l; DTy d].
  Definition always (l : LT U) (d : T) : T := u_inst U (se_lib se "AlwaysUnpin") [DLt l; DTy d].
  Definition pfof (d : T) : T := u_inst U (se_lib se "PinnedFieldsOf") [DTy d].
  Lemma pfof_eq d : pfof d = d.
  Proof.
    unfold pfof. rewrite (ru_alias _ Hr).
    transitivity (u_proj U (u_inst U (se_lib se "PinnedFieldsOfHelperStruct") [DTy d])
        (u_inst U (se_lib se "PinnedFieldsOfHelperTrait") []) "Actual" []); [reflexivity|].
    rewrite (ru_actual _ Hr). reflexivity.
  Qed.
  Lemma lib_impl_cases E im s l tr t : In (E, im) (lib_impls se) -> matches se E im s l tr t ->
    (tr = unsafe_unpin se /\ t = wrapper (l "'_") (s "T") /\
      (forall holds, generics_sat se holds (impl_env se E im s l) (i_generics im) <-> holds (unsafe_unpin se) (s "T"))) \/
    (tr = unpin se /\ t = always (l "'_") (s "T")).
  Proof.
    cbn [lib_impls impls_of flat_map lib_items app]. intros [H|[H|[]]]; injection H as <- <-.
    - intros (Ht & p & Hp & Htr). left. cbn in Hp. injection Hp as <-. cbn in Htr, Ht. split; [symmetry; exact Htr|].
      split; [symmetry; exact Ht|]. intros holds. split.
      + intros H. assert (X := H (WTy [] lib_t [maybe_sized; lib_bound "UnsafeUnpin"]) ltac:(cbn; auto)).
        specialize (X _ (fun _ _ => eq_refl) (lib_bound "UnsafeUnpin") ltac:(cbn; auto) _ (fun _ _ => eq_refl)).
        exact X.
      + intros H w Hw. cbn in Hw. destruct Hw as [<-|[<-|[]]].
        * intros b [].
        * intros f _ b [<-|[<-|[]]]; [exact Logic.I|]. intros f' _. exact H.
    - intros (Ht & p & Hp & Htr). right. cbn in Hp. injection Hp as <-. cbn in Htr, Ht. split; [symmetry; exact Htr|symmetry; exact Ht].
  Qed.
  Lemma lib_always (holds : T -> T -> Prop) l d : holds (sized_trait se) d -> by_impl se holds (unpin se) (always l d).
  Proof.
    intros Hd.
    exists (lib_env se), (mkImpl false (mkGenerics [PLt "'_" []; PTy (I "T") [] None] None)
      (Some (Path false [seg1 "Unpin"])) (lib_app "AlwaysUnpin" [ALt "'_"; ATy lib_t]) []), (fun _ => d), (fun _ => l).
    split; [unfold all_impls; rewrite !in_app_iff; right; right; cbn; auto|]. split.
    - split; [reflexivity|]. eexists. split; reflexivity.
    - intros w [<-|[<-|[<-|[]]]]; [intros b []|intros f _ b []|]. intros f _ b [<-|[]] f' _. exact Hd.
  Qed.
  Lemma lib_wrapper (holds : T -> T -> Prop) l d : holds (unsafe_unpin se) d -> by_impl se holds (unsafe_unpin se) (wrapper l d).
  Proof.
    intros Hd. set (im := mkImpl true
     (mkGenerics [PLt "'_" []; PTy (I "T") [maybe_sized; lib_bound "UnsafeUnpin"] None] None)
     (Some (Path false [seg1 "UnsafeUnpin"])) (lib_app "Wrapper" [ALt "'_"; ATy lib_t]) []).
    assert (Hin : In (lib_env se, im) (lib_impls se)) by (cbn; auto).
    assert (Hm : matches se (lib_env se) im (fun _ => d) (fun _ => l) (unsafe_unpin se) (wrapper l d)).
    { split; [reflexivity|]. eexists. split; reflexivity. }
    exists (lib_env se), im, (fun _ => d), (fun _ => l).
    split; [unfold all_impls; rewrite !in_app_iff; auto|]. split; [exact Hm|].
    destruct (lib_impl_cases _ _ _ _ _ _ Hin Hm) as [(_ & _ & X)|[X _]].
    - apply X. exact Hd.
    - destruct unpin_unsafe. symmetry. exact X.
  Qed.

  (** ** The generated items *)
  Variable a : args.
  Variables (pin : string) (v : vis) (front : list oitem).
  Notation i := (name_of it).
  Notation g := (generics_of it).
  Notation gs := (spelled i g).
  Notation own := (own_type i g).
  Hypothesis Hpin : pin_lifetime g pin.
  Hypothesis Hfront : front_ok i front.
  Hypothesis Hform : scoped (se_exp se) = OExternCrate (I "pin_project") (I "_pin_project") :: front ++
      unpin_items a v i g pin (pinned_types it) ++ drop_items a i g.

  Definition extra : wpred :=
    match ar_unpin a with UUnsafe => unsafe_pred pin | UNegative => never_pred pin | UDefault => default_pred i g pin end.
  Definition self_ty : ty := applied i (map as_arg (g_params g)).
  Definition unpin_impl : impl := mkImpl false (pin_generics gs pin extra) (Some tr_unpin) self_ty [].
  Definition unsafe_impl : impl := mkImpl true (pin_generics gs pin extra) (Some tr_unsafe_unpin) self_ty [].
  Definition drop_impl : impl := mkImpl false (plain_generics gs) (Some tr_drop) self_ty [drop_method].
  Definition guard_impl : impl := mkImpl false (plain_generics gs) (Some (guard_path i)) self_ty [].
  Definition pdrop_impl : impl := mkImpl false (plain_generics gs) (Some tr_pinned_drop) self_ty [dummy_method].
  Definition helper_def : generics := mkGenerics (PLt pin [] :: g_params gs) (Some (preds gs)).

  Definition trait_impls : list impl :=
    unpin_impl :: (match ar_unpin a with UUnsafe => [] | _ => [unsafe_impl] end) ++
    (if ar_pinned_drop a then [drop_impl] else [blanket i; guard_impl; pdrop_impl]).

  Lemma impls_of_app E l l' : impls_of se E (l ++ l') = impls_of se E l ++ impls_of se E l'.
  Proof. unfold impls_of. apply flat_map_app. Qed.
  Lemma gen_impls_eq : generated_impls se = impls_of se (inner_env se) front ++ map (fun im => (inner_env se, im)) trait_impls.
  Proof.
    unfold generated_impls. rewrite Hform.
    change (impls_of se (inner_env se) (front ++ unpin_items a v i g pin (pinned_types it) ++ drop_items a i g) =
      impls_of se (inner_env se) front ++ map (fun im => (inner_env se, im)) trait_impls).
    rewrite !impls_of_app. f_equal. unfold trait_impls, unpin_items, drop_items, unpin_impl, unsafe_impl, extra.
    destruct (ar_unpin a), (ar_pinned_drop a); reflexivity.
  Qed.
  Lemma front_inherent E im : In (E, im) (impls_of se (inner_env se) front) -> E = inner_env se /\ i_trait im = None.
  Proof.
    intros H. apply in_flat_map in H. destruct H as (x & Hx & H). destruct x as [| |im'| | |]; try (destruct H; fail). destruct H as [H|[]].
    injection H as <- <-. split; [reflexivity|]. apply (fo_impl _ _ Hfront). exact Hx.
  Qed.
  Lemma gen_trait E im s l tr t : In (E, im) (generated_impls se) -> matches se E im s l tr t ->
    E = inner_env se /\ In im trait_impls.
  Proof.
    rewrite gen_impls_eq. intros H (_ & p & Hp & _). apply in_app_or in H. destruct H as [H|H].
    - apply front_inherent in H. destruct H as [_ H]. congruence.
    - apply in_map_iff in H. destruct H as (im' & H & Hin). injection H as <- <-. auto.
  Qed.
  Lemma trait_in im : In im trait_impls -> In (inner_env se, im) (all_impls se).
  Proof.
    intros H. unfold all_impls. rewrite gen_impls_eq, !in_app_iff. right. left. right. apply in_map_iff. eauto.
  Qed.

  (** ** Names of the expansion *)
  Lemma pp_hidden : hidden se "_pin_project".
  Proof. unfold hidden. rewrite Hform. left. reflexivity. Qed.
  Lemma inner_pp : names (inner_env se) "_pin_project" = HDone (crate_ se).
  Proof. cbn [inner_env names]. rewrite Hform. reflexivity. Qed.
  Lemma no_extern o y : In (OExternCrate o y) (scoped (se_exp se)) -> name y = "_pin_project".
  Proof.
    rewrite Hform. intros [H|H]; [injection H as _ <-; reflexivity|]. exfalso. rewrite !in_app_iff in H.
    destruct H as [H|[H|H]].
    - exact (fo_extern _ _ Hfront _ _ H).
    - revert H. unfold unpin_items. destruct (ar_unpin a); cbn; intuition discriminate.
    - revert H. unfold drop_items. destruct (ar_pinned_drop a); cbn; intuition discriminate.
  Qed.
  Lemma inner_gen x : hidden se x -> x <> "_pin_project" -> names (inner_env se) x = HDef (se_gen se x).
  Proof.
    intros H Hx. cbn [inner_env names]. rewrite (introduced_gen se _ x H); [reflexivity|].
    intros o y Hin E. apply no_extern in Hin. congruence.
  Qed.
  Lemma helper_hidden : ar_unpin a = UDefault -> hidden se (name (helper_name i)).
  Proof.
    intros H. unfold hidden. rewrite Hform. cbn [flat_map]. rewrite !flat_map_app, !map_app, !in_app_iff.
    right. right. left. unfold unpin_items. rewrite H. left. reflexivity.
  Qed.
  Lemma helper_pp : name (helper_name i) <> "_pin_project".
  Proof. discriminate. Qed.
  Lemma guard_hidden : ar_pinned_drop a = false -> hidden se (name (drop_guard_name i)).
  Proof.
    intros H. unfold hidden. rewrite Hform. cbn [flat_map]. rewrite !flat_map_app, !map_app, !in_app_iff.
    right. right. right. unfold drop_items. rewrite H. left. reflexivity.
  Qed.

  (** ** Places *)
  Hypothesis Hl : legal se.
  Hypothesis Hv : visible se.
  Hypothesis Hu : uncaptured se.

  Definition fits (gg : generics) : Prop := param_names (g_params gg) = param_names (item_params se).
  Lemma fits_pin w : fits (pin_generics gs pin w).
  Proof. unfold fits, pin_generics. cbn [g_params]. change (param_names (map without_default (g_params gs)) = param_names (item_params se)).
    rewrite pn_without. unfold spelled. cbn [replace_generics g_params]. apply pn_replace. Qed.
  Lemma fits_plain : fits (plain_generics gs).
  Proof. unfold fits, plain_generics. cbn [g_params]. rewrite pn_without. unfold spelled. cbn [replace_generics g_params]. apply pn_replace. Qed.
  Lemma lts_pin w : param_lts (g_params (pin_generics gs pin w)) = pin :: param_lts (item_params se).
  Proof. unfold pin_generics. cbn [g_params]. change (pin :: param_lts (map without_default (g_params gs)) = pin :: param_lts (item_params se)).
    rewrite pl_without. unfold spelled. cbn [replace_generics g_params]. rewrite pl_replace. reflexivity. Qed.
  Lemma lts_plain : param_lts (g_params (plain_generics gs)) = param_lts (item_params se).
  Proof. unfold plain_generics. cbn [g_params]. rewrite pl_without. unfold spelled. cbn [replace_generics g_params]. apply pl_replace. Qed.

  Definition lts_in (gg : generics) (l : string -> LT U) (x : string) : LT U :=
    if existsb (String.eqb x) (param_lts (g_params gg)) then l x else lts_of (se_outer se) x.

  Lemma header_den gg s l : fits gg -> (forall x, In x (param_lts (item_params se)) -> In x (param_lts (g_params gg))) ->
    den_ty (header_env se (inner_env se) gg s l) self_ty = item_at se s l.
  Proof.
    intros Hf Hlt. unfold header_env, with_params. apply (own_den se).
    - rewrite Hf. rewrite existsb_notin by apply (vi_item _ Hv).
      rewrite (inner_visible se) by apply (vi_item _ Hv). apply (ru_name _ Hr).
    - intros x Hx. rewrite Hf, (proj2 (existsb_in x _) Hx). reflexivity.
    - intros x Hx. rewrite (proj2 (existsb_in x _) (Hlt x Hx)). reflexivity.
  Qed.
  Lemma env_eq gg u tr ms s l : fits gg -> (forall x, In x (param_lts (item_params se)) -> In x (param_lts (g_params gg))) ->
    impl_env se (inner_env se) (mkImpl u gg tr self_ty ms) s l = mkEnv (inside se s (item_at se s l)) (lts_in gg l).
  Proof.
    intros Hf Hlt. unfold impl_env. cbn [i_generics i_self]. rewrite (header_den gg s l Hf Hlt).
    unfold with_params, with_self. cbn [names lts_of]. rewrite Hf. reflexivity.
  Qed.
  Lemma inside_pp s d : inside se s d "_pin_project" = HDone (crate_ se).
  Proof.
    unfold inside. rewrite existsb_notin; [exact inner_pp|]. intros H. apply (vi_params _ Hv _ H pp_hidden).
  Qed.
  Lemma inside_gen s d x : hidden se x -> x <> "_pin_project" -> x <> "Self" -> inside se s d x = HDef (se_gen se x).
  Proof.
    intros H H1 H2. unfold inside. rewrite existsb_notin; [|intros H'; apply (vi_params _ Hv _ H' H)].
    destruct (String.eqb_spec x "Self") as [E|_]; [contradiction|]. apply inner_gen; assumption.
  Qed.

  Lemma den_priv n f x ga : n "_pin_project" = HDone (crate_ se) ->
    den_ty (U := U) (mkEnv n f) (pp_priv_ty x ga) = u_inst U (se_lib se x) (den_gargs (mkEnv n f) ga).
  Proof. intros H. rewrite (den_pp U n f _ x ga H). apply (ru_private _ Hr). Qed.
  Lemma den_priv_path n f x : n "_pin_project" = HDone (crate_ se) ->
    den_path (U := U) (mkEnv n f) (pp_path ["__private"; x] GNone) = u_inst U (se_lib se x) [].
  Proof. intros H. rewrite (den_pp_path U n f _ x H). apply (ru_private _ Hr). Qed.
  Lemma den_unsafe_path n f : n "_pin_project" = HDone (crate_ se) ->
    den_path (U := U) (mkEnv n f) tr_unsafe_unpin = unsafe_unpin se.
  Proof. intros H. rewrite <- (ru_unsafe_unpin _ Hr). cbn. rewrite H. reflexivity. Qed.
  Lemma den_pfof n f t : n "_pin_project" = HDone (crate_ se) ->
    den_ty (U := U) (mkEnv n f) (pinned_fields_of t) = den_ty (mkEnv n f) t.
  Proof.
    intros H. change (pinned_fields_of t) with (pp_priv_ty "PinnedFieldsOf" (GAngle false [ATy t])).
    rewrite (den_priv n f _ _ H), d_gangle. cbn [map]. rewrite d_aty. apply pfof_eq.
  Qed.
  Lemma guard_self : name (drop_guard_name i) <> "Self".
  Proof. apply guard_neq. discriminate. Qed.
  Lemma guard_pp : name (drop_guard_name i) <> "_pin_project".
  Proof. apply guard_neq. discriminate. Qed.
  Definition guard_trait : T := u_inst U (se_gen se (name (drop_guard_name i))) [].
  Lemma den_guard_path s d f : ar_pinned_drop a = false ->
    den_path (mkEnv (inside se s d) f) (guard_path i) = guard_trait.
  Proof.
    intros H. cbn [guard_path den_path map den_seg den_gargs path_of sels names].
    rewrite (inside_gen s d _ (guard_hidden H) guard_pp guard_self). reflexivity.
  Qed.

  (** ** Requirements of the generated impls *)
  Lemma part_pred w : In w (preds g) -> part se (nodes_wpred w) (lts_wpred w).
  Proof.
    intros Hw. split.
    - intros x Hx. unfold written. apply in_or_app. left. unfold nodes_generics. apply in_or_app. right.
      apply in_flat_map. exists w. split; [exact Hw|exact Hx].
    - intros x Hx. destruct w as [lt bs|lts t bs]; [destruct Hx|]. cbn [lts_wpred] in Hx. rewrite !in_app_iff in Hx.
      destruct Hx as [Hx|[Hx|Hx]].
      + eapply Bi_for; eassumption.
      + eapply Bi_where; [exact Hw|]. apply lts_binds. exact Hx.
      + apply in_flat_map in Hx. destruct Hx as (b & Hb & Hx). eapply Bi_where_bound; [exact Hw|exact Hb|]. apply lts_binds. exact Hx.
  Qed.
  Lemma part_bound j bs d b : In (PTy j bs d) (g_params g) -> In b bs -> part se (nodes_bound b) (lts_bound b).
  Proof.
    intros Hp Hb. split.
    - intros x Hx. unfold written. apply in_or_app. left. unfold nodes_generics. apply in_or_app. left.
      apply in_flat_map. exists (PTy j bs d). split; [exact Hp|]. cbn [nodes_param]. apply in_flat_map. eauto.
    - intros x Hx. eapply Bi_bound; [exact Hp|exact Hb|]. apply lts_binds. exact Hx.
  Qed.
  Lemma part_field f : pinned_field se f -> part se (nodes_ty (f_ty f)) (lts_ty (f_ty f)).
  Proof.
    intros Hf. split.
    - intros x Hx. destruct Hf as (fs & Hfs & Hin & Hp). unfold written. apply in_or_app. right.
      apply in_flat_map. exists fs. split; [exact Hfs|]. apply in_flat_map. exists f. split; [exact Hin|].
      replace (is_pinned f) with true; [exact Hx|]. symmetry. rewrite is_pinned_pin_b. apply pin_b_iff. exact Hp.
    - intros x Hx. eapply Bi_field; [exact Hf|]. apply lts_binds. exact Hx.
  Qed.

  Section Requirements.
    Variables (s1 s : string -> T) (l1 l : string -> LT U).
    Hypothesis Hargs : item_at se s1 l1 = item_at se s l.
    Lemma same_args : param_args (item_params se) s1 l1 = param_args (item_params se) s l.
    Proof. apply (nominal EItem EItem) in Hargs; [|exact Logic.I|exact Logic.I]. apply Hargs. Qed.
    Lemma same_s x : In x (param_names (item_params se)) -> s1 x = s x.
    Proof. apply (proj1 (param_args_inj U _ _ _ _ _ same_args)). Qed.
    Lemma same_l x : In x (param_lts (item_params se)) -> l1 x = l x.
    Proof. apply (proj2 (param_args_inj U _ _ _ _ _ same_args)). Qed.

    Variable gg : generics.
    Hypothesis Hlts : param_lts (g_params gg) = pin :: param_lts (item_params se) \/
                      param_lts (g_params gg) = param_lts (item_params se).
    Lemma lts_in_ok : lts_ok se l (lts_in gg l1).
    Proof.
      intros x Hx. unfold lts_in. rewrite (proj2 (existsb_in x _)); [apply same_l; exact Hx|].
      destruct Hlts as [->| ->]; [right|]; exact Hx.
    Qed.
    Definition place_lts (x : string) : LT U :=
      if existsb (String.eqb x) (param_lts (item_params se)) then l x else lts_of (se_outer se) x.
    Lemma place_eq : place se s l = mkEnv (outside se s (item_at se s l)) place_lts.
    Proof. reflexivity. Qed.
    Lemma lts_in_same : same_but pin (lts_in gg l1) place_lts.
    Proof.
      intros x Hx. unfold lts_in, place_lts.
      assert (E : existsb (String.eqb x) (param_lts (g_params gg)) = existsb (String.eqb x) (param_lts (item_params se))).
      { destruct Hlts as [->| ->]; [|reflexivity]. cbn [existsb]. destruct (String.eqb_spec x pin); [contradiction|reflexivity]. }
      rewrite E. destruct (existsb (String.eqb x) (param_lts (item_params se))) eqn:E2; [|reflexivity].
      apply same_l. apply existsb_in. exact E2.
    Qed.
    Lemma field_inside f : pinned_field se f -> forall n, (forall x, x <> "Self" -> n x = inside se s1 (item_at se s l) x) ->
      den_ty (mkEnv n (lts_in gg l1)) (replace_ty own (f_ty f)) = type_at se s l f.
    Proof.
      intros Hf n Hn. unfold type_at. rewrite place_eq.
      apply (den_in_helper se Hr Hl Hu pin Hpin s1 s l same_s); [exact Hn|apply part_field; exact Hf|apply lts_in_ok|apply lts_in_same].
    Qed.

    Variable holds : T -> T -> Prop.
    Notation Ein := (mkEnv (inside se s1 (item_at se s l)) (lts_in gg l1)).
    Lemma param_transfer p : In p (g_params g) ->
      ((forall w, In w (param_pred (without_default (replace_param own p))) -> pred_sat se holds Ein w) <->
       (forall w, In w (param_pred p) -> pred_sat se holds (place se s l) w)).
    Proof.
      intros Hp. rewrite place_eq. destruct p as [lt bs|j bs d|j t d]; cbn [replace_param without_default param_pred].
      - assert (E : forall x, In (NLt x) (nodes_param (PLt lt bs)) -> lts_in gg l1 x = place_lts x).
        { intros x Hx. apply lts_in_same. intros ->. apply (un_pin _ Hu pin Hpin). unfold written. apply in_or_app. left.
          unfold nodes_generics. apply in_or_app. left. apply in_flat_map. eauto. }
        assert (E' : forall b, In b bs -> lts_in gg l1 b = place_lts b).
        { intros b Hb. apply E. right. apply in_map. exact Hb. }
        split; intros H w [<-|[]] b Hb; cbn [lts_of]; [rewrite <- (E' b Hb)|rewrite (E' b Hb)];
          [rewrite <- E by (left; reflexivity)|rewrite E by (left; reflexivity)];
          apply (H _ (or_introl eq_refl) b Hb).
      - pose proof (in_param_names _ _ Hp) as Hj.
        assert (D1 : forall f, den_ty (mkEnv (inside se s1 (item_at se s l)) f) (ty_ident j) = s (name j)).
        { intros f. unfold ty_ident. rewrite d_path. cbn [map den_seg den_gargs path_of sels names].
          rewrite (inside_param se s1 _ _ Hj). apply same_s. exact Hj. }
        assert (D2 : forall f, den_ty (mkEnv (outside se s (item_at se s l)) f) (ty_ident j) = s (name j)).
        { intros f. unfold ty_ident. rewrite d_path. cbn [map den_seg den_gargs path_of sels names].
          rewrite (outside_param se s _ _ Hj). reflexivity. }
        split; intros H w [<-|[]] f Hf b Hb; cbn [names lts_of] in *.
        + specialize (H _ (or_introl eq_refl) (lts_in gg l1) (fun _ _ => eq_refl)). cbn [names lts_of] in H.
          rewrite D1 in H. rewrite D2.
          apply (bound_transfer se Hr Hl Hu pin Hpin s1 s l same_s holds b (lts_in gg l1) f).
          * eapply part_bound; eassumption.
          * apply lts_in_ok.
          * intros x Hx. rewrite (lts_in_same x Hx). symmetry. apply Hf. intros [].
          * apply H. apply in_map. exact Hb.
        + specialize (H _ (or_introl eq_refl) place_lts (fun _ _ => eq_refl)). cbn [names lts_of] in H.
          rewrite D2 in H. rewrite D1. apply in_map_iff in Hb. destruct Hb as (b0 & <- & Hb).
          apply (bound_transfer se Hr Hl Hu pin Hpin s1 s l same_s holds b0 f place_lts).
          * eapply part_bound; eassumption.
          * intros x Hx. rewrite (Hf x) by (intros []). apply lts_in_ok. exact Hx.
          * intros x Hx. rewrite (Hf x) by (intros []). apply lts_in_same. exact Hx.
          * apply H. exact Hb.
      - split; intros _ w [].
    Qed.
    Lemma own_not_param i0 : In (name i0) (param_names (item_params se)) -> is_param i0 (tp_ty own) = false.
    Proof.
      intros Hi. unfold own_type, tp_ty. cbn [tp_q tp_path is_param].
      assert (N : String.eqb (name i) (name i0) = false).
      { apply String.eqb_neq. intros E. destruct (vi_item _ Hv) as [_ X]. apply X. unfold item_name. rewrite E. exact Hi. }
      destruct (g_params g); [exact N|reflexivity].
    Qed.
    Lemma is_param_replace i0 t : In (name i0) (param_names (item_params se)) -> incl (nodes_ty t) (written se) ->
      is_param i0 (replace_ty own t) = is_param i0 t.
    Proof.
      intros Hi Hw. assert (HS : name i0 <> "Self") by (intros E; apply (lg_params _ Hl); rewrite <- E; exact Hi).
      destruct t as [q p|lt m t|m t|ts|t|t e|lts ts o|bs|t| |m ts]; try reflexivity.
      cbn [replace_ty]. destruct (path_is_Self q p) eqn:E1.
      - rewrite (own_not_param i0 Hi). apply path_is_Self_true in E1. destruct E1 as [-> ->]. cbn [is_param I name].
        symmetry. apply String.eqb_neq. intros E. apply HS. symmetry. exact E.
      - destruct (path_starts_Self q p) eqn:E2.
        + destruct q; [discriminate|]. destruct p as [[] [|[j []] [|]]]; try discriminate. reflexivity.
        + destruct q as [[t n]|]; [destruct p; reflexivity|]. destruct p as [[] [|[j ga] [|s2 r]]]; try reflexivity; [|destruct ga; reflexivity].
          cbn [replace_path map replace_seg underscore_path prepend_underscore_to_self].
          unfold prepend_underscore_to_self. destruct (ident_is j "self") eqn:Ej; [|destruct ga; reflexivity].
          exfalso. apply ident_is_eq in Ej. subst j.
          assert (Hn : In (NPath None false [I "self"]) (written se)) by (apply Hw; left; reflexivity).
          destruct (lg_self _ Hl _ _ _ Hn [] [] eq_refl) as (_ & _ & X). exact (X eq_refl).
    Qed.
    Lemma is_maybe_replace bs : existsb is_maybe (map (replace_bound own) bs) = existsb is_maybe bs.
    Proof. induction bs as [|b bs IH]; [reflexivity|]. cbn [map existsb]. rewrite IH. destruct b; reflexivity. Qed.
    Lemma relaxes_replace i0 ws : In (name i0) (param_names (item_params se)) -> incl (flat_map nodes_wpred ws) (written se) ->
      existsb (relaxes i0) (map (replace_wpred own) ws) = existsb (relaxes i0) ws.
    Proof.
      intros Hi. induction ws as [|w ws IH]; intros Hw; [reflexivity|]. cbn [map existsb flat_map] in *. apply incl_app_inv in Hw.
      destruct Hw as [Hw Hws]. rewrite (IH Hws). f_equal.
      destruct w as [lt bs|lts t bs]; [reflexivity|]. cbn [replace_wpred relaxes]. rewrite is_maybe_replace, (is_param_replace i0 t Hi); [reflexivity|].
      intros x Hx. apply Hw. cbn [nodes_wpred]. apply in_or_app. left. exact Hx.
    Qed.
    Lemma sized_sat n lf j d : (forall f, den_ty (U := U) (mkEnv n f) (ty_ident j) = d) ->
      (pred_sat se holds (mkEnv n lf) (WTy [] (ty_ident j) [sized_bound]) <->
       holds (sized_trait se) d).
    Proof.
      intros Hd. split.
      - intros H. specialize (H lf (fun _ _ => eq_refl) _ (or_introl eq_refl) lf (fun _ _ => eq_refl)).
        cbn [names lts_of] in H. rewrite Hd in H. exact H.
      - intros H f _ b [<-|[]] f' _. cbn [names]. rewrite Hd. exact H.
    Qed.
    Lemma implicit_transfer p : In p (g_params g) ->
      ((forall w, In w (implicit_pred (preds gs) (without_default (replace_param own p))) -> pred_sat se holds Ein w) <->
       (forall w, In w (implicit_pred (preds g) p) -> pred_sat se holds (place se s l) w)).
    Proof.
      intros Hp. rewrite place_eq. destruct p as [lt bs|j bs d|j t d]; cbn [replace_param without_default implicit_pred];
        [split; intros _ w []| |split; intros _ w []].
      pose proof (in_param_names _ _ Hp) as Hj.
      assert (Ep : preds gs = map (replace_wpred own) (preds g)).
      { unfold preds, spelled. cbn [replace_generics g_where]. destruct (g_where g); reflexivity. }
      rewrite Ep, is_maybe_replace, (relaxes_replace j _ Hj).
      2:{ intros x Hx. unfold written, nodes_generics. apply in_or_app. left. apply in_or_app. right. exact Hx. }
      destruct (existsb is_maybe bs || existsb (relaxes j) (preds g)); [split; intros _ w []|].
      assert (D1 : forall f, den_ty (mkEnv (inside se s1 (item_at se s l)) f) (ty_ident j) = s (name j)).
      { intros f. unfold ty_ident. rewrite d_path. cbn [map den_seg den_gargs path_of sels names].
        rewrite (inside_param se s1 _ _ Hj). apply same_s. exact Hj. }
      assert (D2 : forall f, den_ty (mkEnv (outside se s (item_at se s l)) f) (ty_ident j) = s (name j)).
      { intros f. unfold ty_ident. rewrite d_path. cbn [map den_seg den_gargs path_of sels names].
        rewrite (outside_param se s _ _ Hj). reflexivity. }
      split; intros H w [<-|[]].
      - apply (sized_sat _ _ _ _ D2). apply (sized_sat _ (lts_in gg l1) _ _ D1). apply H. left. reflexivity.
      - apply (sized_sat _ _ _ _ D1). apply (sized_sat _ place_lts _ _ D2). apply H. left. reflexivity.
    Qed.
    Lemma where_transfer : (forall w, In w (all_preds (plain_generics gs)) ->
        pred_sat se holds Ein w) <-> where_holds se holds s l.
    Proof.
      assert (P1 : (forall w, In w (flat_map param_pred (map without_default (g_params gs))) -> pred_sat se holds Ein w) <->
        (forall w, In w (flat_map param_pred (g_params g)) -> pred_sat se holds (place se s l) w)).
      { unfold spelled. cbn [replace_generics g_params]. rewrite map_map. split; intros H w Hw.
        - apply in_flat_map in Hw. destruct Hw as (p & Hp & Hw). apply (proj1 (param_transfer p Hp)); [|exact Hw].
          intros w' Hw'. apply H. apply in_flat_map. eexists. split; [|exact Hw']. apply in_map_iff. eauto.
        - apply in_flat_map in Hw. destruct Hw as (p' & Hp & Hw). apply in_map_iff in Hp. destruct Hp as (p & <- & Hp).
          apply (proj2 (param_transfer p Hp)); [|exact Hw]. intros w' Hw'. apply H. apply in_flat_map. eauto. }
      assert (P2 : (forall w, In w (preds gs) -> pred_sat se holds Ein w) <->
        (forall w, In w (preds g) -> pred_sat se holds (place se s l) w)).
      { assert (Ep : preds gs = map (replace_wpred own) (preds g)).
        { unfold preds, spelled. cbn [replace_generics g_where]. destruct (g_where g); reflexivity. }
        rewrite Ep, place_eq. split; intros H w Hw.
        - apply (pred_transfer se Hr Hl Hu pin Hpin s1 s l same_s holds w (lts_in gg l1) place_lts);
            [apply part_pred; exact Hw|apply lts_in_ok|apply lts_in_same|]. apply H. apply in_map. exact Hw.
        - apply in_map_iff in Hw. destruct Hw as (w0 & <- & Hw).
          apply (pred_transfer se Hr Hl Hu pin Hpin s1 s l same_s holds w0 (lts_in gg l1) place_lts);
            [apply part_pred; exact Hw|apply lts_in_ok|apply lts_in_same|]. apply H. exact Hw. }
      assert (P3 : (forall w, In w (flat_map (implicit_pred (preds gs)) (map without_default (g_params gs))) -> pred_sat se holds Ein w) <->
        (forall w, In w (flat_map (implicit_pred (preds g)) (g_params g)) -> pred_sat se holds (place se s l) w)).
      { replace (map without_default (g_params gs)) with (map (fun p => without_default (replace_param own p)) (g_params g))
          by (unfold spelled; cbn [replace_generics g_params]; rewrite map_map; reflexivity).
        split; intros H w Hw.
        - apply in_flat_map in Hw. destruct Hw as (p & Hp & Hw). apply (proj1 (implicit_transfer p Hp)); [|exact Hw].
          intros w' Hw'. apply H. apply in_flat_map. eexists. split; [|exact Hw']. apply in_map_iff. eauto.
        - apply in_flat_map in Hw. destruct Hw as (p' & Hp & Hw). apply in_map_iff in Hp. destruct Hp as (p & <- & Hp).
          apply (proj2 (implicit_transfer p Hp)); [|exact Hw]. intros w' Hw'. apply H. apply in_flat_map. eauto. }
      unfold where_holds, generics_sat, all_preds. change (where_of g) with (preds g).
      cbn [plain_generics g_params where_of g_where]. split.
      - intros H w Hw. rewrite !in_app_iff in Hw. destruct Hw as [Hw|[Hw|Hw]].
        + apply (proj1 P1); [|exact Hw]. intros w' Hw'. apply H. rewrite !in_app_iff. auto.
        + apply (proj1 P3); [|exact Hw]. intros w' Hw'. apply H. rewrite !in_app_iff. auto.
        + apply (proj1 P2); [|exact Hw]. intros w' Hw'. apply H. rewrite !in_app_iff. auto.
      - intros H w Hw. rewrite !in_app_iff in Hw. destruct Hw as [Hw|[Hw|Hw]].
        + apply (proj2 P1); [|exact Hw]. intros w' Hw'. apply H. rewrite !in_app_iff. auto.
        + apply (proj2 P3); [|exact Hw]. intros w' Hw'. apply H. rewrite !in_app_iff. auto.
        + apply (proj2 P2); [|exact Hw]. intros w' Hw'. apply H. rewrite !in_app_iff. auto.
    Qed.
  End Requirements.

  Lemma lts_pin_sub w x : In x (param_lts (item_params se)) -> In x (param_lts (g_params (pin_generics gs pin w))).
  Proof. rewrite lts_pin. intros H. right. exact H. Qed.
  Lemma lts_plain_sub x : In x (param_lts (item_params se)) -> In x (param_lts (g_params (plain_generics gs))).
  Proof. rewrite lts_plain. auto. Qed.

  Lemma m_self gg u p ms s l tr t : fits gg -> (forall x, In x (param_lts (item_params se)) -> In x (param_lts (g_params gg))) ->
    (matches se (inner_env se) (mkImpl u gg (Some p) self_ty ms) s l tr t <->
     t = item_at se s l /\ tr = den_path (mkEnv (inside se s (item_at se s l)) (lts_in gg l)) p).
  Proof.
    intros Hf Hlt. unfold matches. rewrite (env_eq gg u (Some p) ms s l Hf Hlt). cbn [i_generics i_self i_trait].
    rewrite (header_den gg s l Hf Hlt). split.
    - intros (<- & p' & Hp & <-). injection Hp as <-. auto.
    - intros (-> & ->). split; [reflexivity|]. eauto.
  Qed.
  Lemma m_unpin s l tr t : matches se (inner_env se) unpin_impl s l tr t <-> t = item_at se s l /\ tr = unpin se.
  Proof. unfold unpin_impl. rewrite (m_self _ _ _ _ s l tr t (fits_pin _) (lts_pin_sub _)).
    unfold tr_unpin. rewrite den_priv_path by apply inside_pp. reflexivity. Qed.
  Lemma m_unsafe s l tr t : matches se (inner_env se) unsafe_impl s l tr t <-> t = item_at se s l /\ tr = unsafe_unpin se.
  Proof. unfold unsafe_impl. rewrite (m_self _ _ _ _ s l tr t (fits_pin _) (lts_pin_sub _)).
    rewrite den_unsafe_path by apply inside_pp. reflexivity. Qed.
  Lemma m_drop s l tr t : matches se (inner_env se) drop_impl s l tr t <-> t = item_at se s l /\ tr = drop_trait se.
  Proof. unfold drop_impl. rewrite (m_self _ _ _ _ s l tr t fits_plain lts_plain_sub).
    unfold tr_drop. rewrite den_priv_path by apply inside_pp. reflexivity. Qed.
  Lemma m_pdrop s l tr t : matches se (inner_env se) pdrop_impl s l tr t <-> t = item_at se s l /\ tr = pinned_drop se.
  Proof. unfold pdrop_impl. rewrite (m_self _ _ _ _ s l tr t fits_plain lts_plain_sub).
    unfold tr_pinned_drop. rewrite den_priv_path by apply inside_pp. reflexivity. Qed.
  Lemma m_guard s l tr t : ar_pinned_drop a = false ->
    (matches se (inner_env se) guard_impl s l tr t <-> t = item_at se s l /\ tr = guard_trait).
  Proof. intros H. unfold guard_impl. rewrite (m_self _ _ _ _ s l tr t fits_plain lts_plain_sub).
    rewrite (den_guard_path s _ _ H). reflexivity. Qed.

  (** The blanket impl [impl<T: Drop> FooMustNotImplDrop for T]. *)
  Definition blanket_names (s : string -> T) (x : string) : head T :=
    if existsb (String.eqb x) ["T"] then HDone (s x)
    else if String.eqb x "Self" then HDone (s "T") else names (inner_env se) x.
  Lemma blanket_env s l : impl_env se (inner_env se) (blanket i) s l = mkEnv (blanket_names s) (lts_of (se_outer se)).
  Proof. reflexivity. Qed.
  Lemma m_blanket s l tr t : ar_pinned_drop a = false ->
    (matches se (inner_env se) (blanket i) s l tr t <-> t = s "T" /\ tr = guard_trait).
  Proof.
    intros H. unfold matches. rewrite blanket_env. cbn [i_trait blanket].
    change (den_ty (header_env se (inner_env se) (i_generics (blanket i)) s l) (i_self (blanket i))) with (s "T").
    assert (E : den_path (mkEnv (blanket_names s) (lts_of (se_outer se))) (guard_path i) = guard_trait).
    { cbn [guard_path den_path map den_seg den_gargs path_of sels names]. unfold blanket_names.
      rewrite existsb_notin; [|intros [X|[]]; revert X; apply not_eq_sym, guard_neq; discriminate].
      destruct (String.eqb_spec (name (drop_guard_name i)) "Self") as [X|_]; [destruct (guard_self X)|].
      rewrite (inner_gen _ (guard_hidden H) guard_pp). reflexivity. }
    split.
    - intros (<- & p & Hp & <-). injection Hp as <-. rewrite E. auto.
    - intros (-> & ->). split; [reflexivity|]. exists (guard_path i). auto.
  Qed.
  Lemma blanket_sat holds s l :
    generics_sat se holds (impl_env se (inner_env se) (blanket i) s l) (i_generics (blanket i)) <->
    holds (drop_trait se) (s "T") /\ holds (sized_trait se) (s "T").
  Proof.
    rewrite blanket_env. cbn [blanket i_generics].
    assert (E : forall f, den_path (mkEnv (blanket_names s) f) tr_drop = drop_trait se).
    { intros f. unfold tr_drop. rewrite den_priv_path; [reflexivity|]. exact inner_pp. }
    split.
    - intros H. split.
      + specialize (H (WTy [] (ty_ident (I "T")) [trait_bound tr_drop]) (or_introl eq_refl) _ (fun _ _ => eq_refl)
          (trait_bound tr_drop) (or_introl eq_refl) _ (fun _ _ => eq_refl)). cbn [names lts_of] in H. rewrite E in H. exact H.
      + exact (H _ (or_intror (or_introl eq_refl)) _ (fun _ _ => eq_refl) _ (or_introl eq_refl) _ (fun _ _ => eq_refl)).
    - intros [H H'] w Hw. cbn in Hw. destruct Hw as [<-|[<-|[]]]; intros f _ b [<-|[]] f' _; cbn [names]; [rewrite E; exact H|exact H'].
  Qed.

  Lemma gen_cases im s l tr t : In im trait_impls -> matches se (inner_env se) im s l tr t ->
    (ar_pinned_drop a = false /\ im = blanket i /\ tr = guard_trait /\ t = s "T") \/
    (t = item_at se s l /\
     ((im = unpin_impl /\ tr = unpin se) \/
      (ar_unpin a <> UUnsafe /\ im = unsafe_impl /\ tr = unsafe_unpin se) \/
      (ar_pinned_drop a = true /\ im = drop_impl /\ tr = drop_trait se) \/
      (ar_pinned_drop a = false /\ im = guard_impl /\ tr = guard_trait) \/
      (ar_pinned_drop a = false /\ im = pdrop_impl /\ tr = pinned_drop se))).
  Proof.
    unfold trait_impls. intros [<-|H] Hm.
    - apply m_unpin in Hm. right. destruct Hm. auto.
    - apply in_app_or in H. destruct H as [H|H].
      + destruct (ar_unpin a) eqn:Ea; try (destruct H; fail); destruct H as [<-|[]]; apply m_unsafe in Hm; destruct Hm;
          right; (split; [assumption|]); right; left; (split; [congruence|auto]).
      + destruct (ar_pinned_drop a) eqn:Ed.
        * destruct H as [<-|[]]. apply m_drop in Hm. destruct Hm. right. split; [assumption|]. auto 9.
        * destruct H as [<-|[<-|[<-|[]]]].
          -- apply (m_blanket s l tr t Ed) in Hm. destruct Hm. left. auto.
          -- apply (m_guard s l tr t Ed) in Hm. destruct Hm. right. split; [assumption|]. auto 9.
          -- apply m_pdrop in Hm. destruct Hm. right. split; [assumption|]. auto 9.
  Qed.

  (** ** What the impls require *)
  Lemma relaxes_extra i0 ws w : (forall i0, relaxes i0 w = false) -> existsb (relaxes i0) (ws ++ [w]) = existsb (relaxes i0) ws.
  Proof. intros H. rewrite existsb_app. cbn [existsb]. rewrite H, !orb_false_r. reflexivity. Qed.
  Lemma pin_preds w w' : (forall i0, relaxes i0 w = false) ->
    (In w' (all_preds (pin_generics gs pin w)) <-> w' = WLt pin [] \/ In w' (all_preds (plain_generics gs)) \/ w' = w).
  Proof.
    intros Hw. unfold all_preds. cbn [pin_generics plain_generics g_params flat_map param_pred implicit_pred where_of g_where app].
    assert (E : flat_map (implicit_pred (preds gs ++ [w])) (map without_default (g_params gs)) =
                flat_map (implicit_pred (preds gs)) (map without_default (g_params gs))).
    { apply flat_map_ext. intros [|i0 bs d|]; [reflexivity| |reflexivity]. cbn [implicit_pred]. rewrite (relaxes_extra i0 _ _ Hw). reflexivity. }
    rewrite E. cbn [In]. rewrite !in_app_iff. cbn [In]. intuition auto.
  Qed.
  Lemma pin_sat holds u tr ms w s1 l1 s l : (forall i0, relaxes i0 w = false) -> item_at se s1 l1 = item_at se s l ->
    (generics_sat se holds (impl_env se (inner_env se) (mkImpl u (pin_generics gs pin w) tr self_ty ms) s1 l1) (pin_generics gs pin w) <->
     where_holds se holds s l /\
     pred_sat se holds (mkEnv (inside se s1 (item_at se s l)) (lts_in (pin_generics gs pin w) l1)) w).
  Proof.
    intros Hw0 E. rewrite (env_eq _ u tr ms s1 l1 (fits_pin w) (lts_pin_sub w)), E.
    rewrite <- (where_transfer s1 s l1 l E (pin_generics gs pin w) (or_introl (lts_pin w)) holds).
    assert (Hin : forall w', In w' (all_preds (pin_generics gs pin w)) <->
      w' = WLt pin [] \/ In w' (all_preds (plain_generics gs)) \/ w' = w) by (intros; apply pin_preds; exact Hw0).
    unfold generics_sat. split.
    - intros H. split; [intros w' Hw; apply H|apply H]; apply Hin; auto.
    - intros [H1 H2] w' Hw. apply Hin in Hw. destruct Hw as [->|[Hw| ->]].
      + intros b [].
      + apply H1. exact Hw.
      + exact H2.
  Qed.
  Lemma plain_sat holds u tr ms s1 l1 s l : item_at se s1 l1 = item_at se s l ->
    (generics_sat se holds (impl_env se (inner_env se) (mkImpl u (plain_generics gs) tr self_ty ms) s1 l1) (plain_generics gs) <->
     where_holds se holds s l).
  Proof.
    intros E. rewrite (env_eq _ u tr ms s1 l1 fits_plain lts_plain_sub), E.
    rewrite <- (where_transfer s1 s l1 l E (plain_generics gs) (or_intror lts_plain) holds). reflexivity.
  Qed.

  Definition helper_at (p : LT U) (s : string -> T) (l : string -> LT U) : T :=
    u_inst U (se_gen se (name (helper_name i))) (DLt p :: param_args (item_params se) s l).
  Definition condition (holds : T -> T -> Prop) (p : LT U) (s : string -> T) (l : string -> LT U) : Prop :=
    match ar_unpin a with
    | UUnsafe => holds (unsafe_unpin se) (wrapper p (item_at se s l))
    | UNegative => holds (unpin se) (wrapper p (u_inst U (se_lib se "PhantomPinned") []))
    | UDefault => holds (unpin se) (helper_at p s l)
    end.
  Lemma simple_pred holds n lf t tr c : (forall f, (forall x, f x = lf x) -> den_ty (U := U) (mkEnv n f) t = c) ->
    forall d, (forall f, den_path (U := U) (mkEnv n f) tr = d) ->
    (pred_sat se holds (mkEnv n lf) (WTy [] t [trait_bound tr]) <-> holds d c).
  Proof.
    intros Ht d Hd. split.
    - intros H. specialize (H lf (fun _ _ => eq_refl) (trait_bound tr) (or_introl eq_refl) lf (fun _ _ => eq_refl)).
      cbn [names lts_of] in H. rewrite Hd, (Ht lf (fun _ => eq_refl)) in H. exact H.
    - intros H f Hf b [<-|[]] f' _. cbn [names]. rewrite Hd, (Ht f); [exact H|]. intros x. apply Hf. intros [].
  Qed.
  Lemma extra_sat holds s1 l1 s l : item_at se s1 l1 = item_at se s l ->
    (pred_sat se holds (mkEnv (inside se s1 (item_at se s l)) (lts_in (pin_generics gs pin extra) l1)) extra <->
     condition holds (l1 pin) s l).
  Proof.
    intros E.
    set (lf := lts_in (pin_generics gs pin extra) l1).
    assert (Hp : lf pin = l1 pin).
    { unfold lf, lts_in. rewrite lts_pin. cbn [existsb]. rewrite String.eqb_refl. reflexivity. }
    assert (Hpp : forall s d, inside se s d "_pin_project" = HDone (crate_ se)) by (intros; apply inside_pp).
    assert (Hok : lts_ok se l lf).
    { apply (lts_in_ok s1 s l1 l E). left. apply lts_pin. }
    unfold condition. revert Hok. unfold extra. destruct (ar_unpin a) eqn:Ea; intros Hok.
    - apply simple_pred.
      + intros f Hf. rewrite den_pfof by apply Hpp. unfold helper_ty.
        rewrite (den_applied U (inside se s1 (item_at se s l)) f (helper_name i) (se_gen se (name (helper_name i)))).
        * unfold helper_at. f_equal. cbn [map]. rewrite d_alt. cbn [lts_of]. rewrite Hf, Hp. f_equal.
          change (g_params g) with (item_params se). apply den_args.
          -- intros x Hx. rewrite (inside_param se s1 _ x Hx). f_equal. apply (same_s s1 s l1 l E). exact Hx.
          -- intros x Hx. rewrite Hf. apply Hok. exact Hx.
        * apply inside_gen; [apply helper_hidden; exact Ea|discriminate|discriminate].
      + intros f. unfold tr_unpin. rewrite den_priv_path by apply Hpp. reflexivity.
    - apply simple_pred.
      + intros f Hf. rewrite den_pfof by apply Hpp. unfold ty_wrapper. rewrite den_priv by apply Hpp.
        rewrite d_gangle. cbn [map]. rewrite d_alt, d_aty. cbn [lts_of]. rewrite Hf, Hp.
        assert (Es : den_ty (mkEnv (inside se s1 (item_at se s l)) f) ty_self = item_at se s l).
        { unfold ty_self, ty_ident. rewrite d_path. cbn [map den_seg den_gargs path_of sels names name I].
          rewrite (inside_Self se Hl). reflexivity. }
        rewrite Es. reflexivity.
      + intros f. apply den_unsafe_path. apply Hpp.
    - apply simple_pred.
      + intros f Hf. rewrite den_pfof by apply Hpp. unfold ty_wrapper. rewrite den_priv by apply Hpp.
        rewrite d_gangle. cbn [map]. rewrite d_alt, d_aty, den_priv by apply Hpp. cbn [lts_of]. rewrite Hf, Hp. reflexivity.
      + intros f. unfold tr_unpin. rewrite den_priv_path by apply Hpp. reflexivity.
  Qed.

  Lemma extra_relaxes i0 : relaxes i0 extra = false.
  Proof. unfold extra. destruct (ar_unpin a); reflexivity. Qed.

  (** ** Selection *)
  Section Selection.
    Variable holds : T -> T -> Prop.
    Hypothesis Hsol : solution se holds.

    Lemma in_traits tr : In tr (the_traits se) -> exists x, In x lib_names /\ tr = u_inst U (se_lib se x) [].
    Proof.
      intros [<-|[<-|[<-|[<-|[]]]]]; eexists; (split; [|reflexivity]); cbn; auto 12.
    Qed.
    Lemma guard_not_known tr : In tr (the_traits se) -> tr <> guard_trait.
    Proof.
      intros H E. destruct (in_traits tr H) as (x & Hx & ->).
      apply (nominal (ELib x) (EGen _)) in E; [destruct E; discriminate|exact Hx|exact Logic.I].
    Qed.
    Lemma item_is s l : item_at se s l = u_inst U (entity_def se EItem) (param_args (item_params se) s l).
    Proof. reflexivity. Qed.

    Lemma by_impl_cases tr e b : In tr (the_traits se) -> known e ->
      by_impl se holds tr (u_inst U (entity_def se e) b) ->
      (e = EItem /\ exists x, In x (se_impls se) /\ applies se holds x tr (u_inst U (entity_def se e) b)) \/
      (exists s l im, e = EItem /\ b = param_args (item_params se) s l /\ In im trait_impls /\
         matches se (inner_env se) im s l tr (item_at se s l) /\
         generics_sat se holds (impl_env se (inner_env se) im s l) (i_generics im)) \/
      (tr = unsafe_unpin se /\ e = ELib "Wrapper" /\ exists p d, b = [DLt p; DTy d] /\ holds (unsafe_unpin se) d) \/
      (tr = unpin se /\ e = ELib "AlwaysUnpin").
    Proof.
      intros Htr He (E & im & s & l & Hin & Hm & Hs). unfold all_impls in Hin. rewrite !in_app_iff in Hin.
      destruct Hin as [Hin|[Hin|Hin]].
      - left. split; [eapply (ru_orphan _ Hr); eassumption|]. exists (E, im). split; [exact Hin|]. exists s, l. auto.
      - right. left. destruct (gen_trait E im s l _ _ Hin Hm) as [-> Him].
        destruct (gen_cases im s l _ _ Him Hm) as [(_ & _ & X & _)|(X & _)].
        + destruct (guard_not_known _ Htr X).
        + pose proof X as X'. rewrite item_is in X. apply nominal in X; [|exact He|exact Logic.I]. destruct X as [-> ->].
          exists s, l, im. auto 9.
      - right. right. destruct (lib_impl_cases E im s l _ _ Hin Hm) as [(-> & X & Y)|(-> & X)].
        + left. apply (nominal e (ELib "Wrapper")) in X; [|exact He|cbn; auto]. destruct X as [-> ->].
          split; [reflexivity|]. split; [reflexivity|]. exists (l "'_"), (s "T"). split; [reflexivity|]. apply Y. exact Hs.
        + right. apply (nominal e (ELib "AlwaysUnpin")) in X; [|exact He|cbn; auto]. destruct X as [-> _]. auto.
    Qed.
    Lemma holds_cases tr e b : In tr (the_traits se) -> known e -> holds tr (u_inst U (entity_def se e) b) ->
      by_impl se holds tr (u_inst U (entity_def se e) b) \/
      (tr = unpin se /\ by_fields se holds (u_inst U (entity_def se e) b)) \/
      (tr = unpin se /\ e = ELib "PhantomData").
    Proof.
      intros Htr He H. apply Hsol in H. destruct H as [H|[H|[(Ht & d & H & _)|[(Ht & l & m & d & H)|H]]]].
      - auto.
      - auto.
      - right. right. apply (nominal e (ELib "PhantomData")) in H; [|exact He|cbn; auto 9]. split; [exact Ht|apply H].
      - symmetry in H. destruct (ru_ref _ Hr e l m d b He H).
      - destruct (ru_other _ Hr tr e b Htr He H).
    Qed.
    Lemma holds_by_impl tr t : by_impl se holds tr t -> holds tr t.
    Proof. intros H. apply Hsol. left. exact H. Qed.

    Lemma def_cases E c gg fs e s l b : In (E, c, gg, fs) (definitions se) -> known e ->
      u_inst U (entity_def se e) b = u_inst U c (param_args (g_params gg) s l) ->
      (e = EItem) \/
      (exists v' n fx, e = EGen (name n) /\ c = se_gen se (name n) /\ E = inner_env se /\ fs = fields_list fx /\
         In (OStruct v' n gg fx) (scoped (se_exp se)) /\ b = param_args (g_params gg) s l) \/
      (exists v' n fx, e = ELib (name n) /\ E = lib_env se /\ fs = fields_list fx /\ In (OStruct v' n gg fx) lib_items /\
         b = param_args (g_params gg) s l).
    Proof.
      intros Hin He Heq. unfold definitions in Hin. rewrite !in_app_iff in Hin. destruct Hin as [Hin|[Hin|Hin]].
      - left. assert (c = se_def se).
        { unfold item_def in Hin. destruct (se_item se); try (destruct Hin; fail); destruct Hin as [Hin|[]]; injection Hin; auto. }
        subst c. apply (nominal e EItem) in Heq; [apply Heq|exact He|exact Logic.I].
      - right. left. unfold structs_of in Hin. apply in_flat_map in Hin. destruct Hin as (x & Hx & Hin).
        destruct x as [v' n gg' fx| | | | |]; try (destruct Hin; fail). destruct Hin as [Hin|[]]. injection Hin as <- <- <- <-.
        apply (nominal e (EGen (name n))) in Heq; [|exact He|exact Logic.I]. destruct Heq as [-> ->].
        exists v', n, fx. auto 9.
      - right. right. unfold structs_of in Hin. apply in_flat_map in Hin. destruct Hin as (x & Hx & Hin).
        destruct x as [v' n gg' fx| | | | |]; try (destruct Hin; fail). destruct Hin as [Hin|[]]. injection Hin as <- <- <- <-.
        apply (nominal e (ELib (name n))) in Heq; [|exact He|].
        + destruct Heq as [-> ->]. exists v', n, fx. auto 9.
        + cbn in Hx. destruct Hx as [Hx|[Hx|[Hx|[Hx|[Hx|[]]]]]]; try discriminate; injection Hx as <- <- <- <-; cbn; auto 9.
    Qed.

    (** *** The support crate *)
    Lemma wrapper_unsafe p d : holds (unsafe_unpin se) (wrapper p d) <-> holds (unsafe_unpin se) d.
    Proof.
      split; [|intros H; apply holds_by_impl, lib_wrapper; exact H]. intros H.
      apply (holds_cases _ (ELib "Wrapper")) in H; [|cbn; auto|cbn; auto].
      destruct H as [H|[[H _]|[H _]]]; try (destruct unpin_unsafe; symmetry; exact H).
      apply (by_impl_cases _ (ELib "Wrapper")) in H; [|cbn; auto|cbn; auto].
      destruct H as [[H _]|[(s & l & im & H & _)|[(_ & _ & p' & d' & H & Hd)|[_ H]]]]; try discriminate.
      injection H as _ <-. exact Hd.
    Qed.
    Lemma phantom_pinned b : ~ holds (unpin se) (u_inst U (se_lib se "PhantomPinned") b).
    Proof.
      intros H. apply (holds_cases _ (ELib "PhantomPinned")) in H; [|cbn; auto|cbn; auto].
      destruct H as [H|[[_ H]|[_ H]]]; [| |discriminate].
      - apply (by_impl_cases _ (ELib "PhantomPinned")) in H; [|cbn; auto|cbn; auto].
        destruct H as [[H _]|[(s & l & im & H & _)|[(_ & H & _)|[_ H]]]]; discriminate.
      - destruct H as (E & c & gg & fs & s & l & Hin & Heq & _).
        apply (def_cases E c gg fs (ELib "PhantomPinned") s l b Hin) in Heq; [|cbn; auto].
        destruct Heq as [H|[(v' & n & fx & H & _)|(v' & n & fx & H & _ & _ & Hx & _)]]; try discriminate.
        cbn in Hx. destruct Hx as [Hx|[Hx|[Hx|[Hx|[Hx|[]]]]]]; try discriminate; injection Hx as _ <- _ _; discriminate.
    Qed.
    Lemma wrapper_unpin p d : holds (unpin se) (wrapper p d) -> holds (unpin se) d.
    Proof.
      intros H. apply (holds_cases _ (ELib "Wrapper")) in H; [|cbn; auto|cbn; auto].
      destruct H as [H|[[_ H]|[_ H]]]; [| |discriminate].
      - apply (by_impl_cases _ (ELib "Wrapper")) in H; [|cbn; auto|cbn; auto].
        destruct H as [[H _]|[(s & l & im & H & _)|[(H & _)|[_ H]]]]; try discriminate.
        destruct unpin_unsafe. exact H.
      - destruct H as (E & c & gg & fs & s & l & Hin & Heq & _ & Hf).
        apply (def_cases E c gg fs (ELib "Wrapper") s l _ Hin) in Heq; [|cbn; auto].
        destruct Heq as [H|[(v' & n & fx & H & _)|(v' & n & fx & H & -> & -> & Hx & Hb)]]; try discriminate.
        cbn in Hx. destruct Hx as [Hx|[Hx|[Hx|[Hx|[Hx|[]]]]]]; try discriminate; injection Hx as <- <- <- <-; try discriminate.
        cbn in Hb. injection Hb as _ Hd.
        specialize (Hf (lib_field lib_t) ltac:(cbn; auto)). cbn in Hf. rewrite Hd. exact Hf.
    Qed.

    (** *** The helper struct *)
    Lemma pinned_types_in t : In t (pinned_types it) <-> exists f, pinned_field se f /\ t = replace_ty own (f_ty f).
    Proof.
      unfold pinned_types, pinned_field. rewrite in_flat_map. split.
      - intros (fs & Hfs & Hin). apply in_map_iff in Hin. destruct Hin as (f & <- & Hf). apply filter_In in Hf. destruct Hf as [Hf Hp].
        exists f. split; [|reflexivity]. exists fs. split; [exact Hfs|]. split; [exact Hf|]. apply pin_b_iff. exact Hp.
      - intros (f & (fs & Hfs & Hf & Hp) & ->). exists fs. split; [exact Hfs|]. apply in_map_iff. exists f. split; [reflexivity|].
        apply filter_In. split; [exact Hf|]. apply pin_b_iff. exact Hp.
    Qed.
    Lemma helper_struct v' n gg fx : In (OStruct v' n gg fx) (scoped (se_exp se)) -> name n = name (helper_name i) ->
      gg = helper_def /\ fx = FNamed (helper_fs g pin (pinned_types it)).
    Proof.
      rewrite Hform. intros [H|H] Hn; [discriminate|]. rewrite !in_app_iff in H. destruct H as [H|[H|H]].
      - destruct (fo_struct _ _ Hfront _ _ _ _ H Hn).
      - unfold unpin_items in H. destruct (ar_unpin a); cbn [In] in H.
        + destruct H as [H|[H|[H|[]]]]; try discriminate. injection H as <- <- <- <-. auto.
        + destruct H as [H|[]]; discriminate.
        + destruct H as [H|[H|[]]]; discriminate.
      - unfold drop_items in H. destruct (ar_pinned_drop a); cbn [In] in H.
        + destruct H as [H|[]]; discriminate.
        + destruct H as [H|[H|[H|[H|[]]]]]; discriminate.
    Qed.
    Lemma not_explicit_gen x : ~ explicit_unpin se (se_gen se x).
    Proof.
      intros (E & im & s & l & b & Hin & Hm). unfold all_impls in Hin. rewrite !in_app_iff in Hin.
      destruct Hin as [Hin|[Hin|Hin]].
      - pose proof (ru_orphan _ Hr E im s l (unpin se) (EGen x) b Hin (or_introl eq_refl) Logic.I Hm). discriminate.
      - destruct (gen_trait E im s l _ _ Hin Hm) as [-> Him].
        destruct (gen_cases im s l _ _ Him Hm) as [(_ & _ & X & _)|(X & _)].
        + destruct (guard_not_known _ (or_introl eq_refl) X).
        + apply (nominal (EGen x) EItem) in X; [destruct X; discriminate|exact Logic.I|exact Logic.I].
      - destruct (lib_impl_cases E im s l _ _ Hin Hm) as [(X & _)|(_ & X)].
        + exact (unpin_unsafe X).
        + apply (nominal (EGen x) (ELib "AlwaysUnpin")) in X; [destruct X; discriminate|exact Logic.I|cbn; auto].
    Qed.
    Lemma helper_args s l : param_args (U := U) (g_params helper_def) s l = DLt (l pin) :: param_args (item_params se) s l.
    Proof.
      unfold helper_def, spelled. cbn [g_params replace_generics]. unfold param_args. cbn [map]. f_equal.
      rewrite map_map. apply map_ext. intros []; reflexivity.
    Qed.
    Lemma helper_lts : param_lts (g_params helper_def) = pin :: param_lts (item_params se).
    Proof.
      unfold helper_def, spelled. cbn [g_params replace_generics]. unfold param_lts at 1. cbn [flat_map app]. f_equal.
      apply pl_replace.
    Qed.
    Lemma helper_fits : fits helper_def.
    Proof. unfold fits, helper_def, spelled. cbn [g_params replace_generics]. apply pn_replace. Qed.
    Lemma helper_place t s1 l1 : with_params (U := U) (g_params helper_def) s1 l1 (with_self t (inner_env se)) =
      mkEnv (inside se s1 t) (lts_in helper_def l1).
    Proof. unfold with_params, with_self. cbn [names lts_of]. rewrite helper_fits. reflexivity. Qed.

    Lemma helper_field p s l s1 l1 f : item_at se s1 l1 = item_at se s l -> l1 pin = p ->
      In f (helper_fs g pin (pinned_types it)) ->
      let d := den_ty (with_params (g_params helper_def) s1 l1 (with_self (helper_at p s l) (inner_env se))) (f_ty f) in
      (exists c, d = always p c /\ se_other se (sized_trait se) c) \/
      (exists f0, pinned_field se f0 /\ d = type_at se s l f0) \/ (exists lt m c, d = u_ref U lt m c).
    Proof.
      intros E Ep Hin. rewrite helper_place. unfold helper_fs in Hin. destruct Hin as [<-|Hin].
      - left. cbn zeta. cbn [f_ty]. rewrite den_priv by apply inside_pp. rewrite d_gangle. cbn [map]. rewrite d_alt, d_aty.
        cbn [lts_of]. unfold lts_in at 1. rewrite helper_lts. cbn [existsb]. rewrite String.eqb_refl, Ep. eexists. split; [reflexivity|].
        assert (Hph : forall t, In t (map (fun j => pp_priv_ty "PhantomData" (targ (ty_ident j))) (type_params g)) ->
          se_other se (sized_trait se) (den_ty (mkEnv (inside se s1 (helper_at p s l)) (lts_in helper_def l1)) t)).
        { intros t Ht. apply in_map_iff in Ht. destruct Ht as (j & <- & _). rewrite den_priv by apply inside_pp.
          apply (ru_sized_phantom _ Hr). }
        unfold phantom_tuple. revert Hph.
        destruct (map (fun j => pp_priv_ty "PhantomData" (targ (ty_ident j))) (type_params g)) as [|t [|t2 r]]; intros Hph.
        + apply (ru_sized_tuple _ Hr). intros d [].
        + exact (Hph t (or_introl eq_refl)).
        + rewrite d_tuple. apply (ru_sized_tuple _ Hr). intros d Hd. apply in_map_iff in Hd. destruct Hd as (x & <- & Hx).
          apply Hph. exact Hx.
      - apply in_app_or in Hin. destruct Hin as [Hin|Hin]; apply in_map_iff in Hin; destruct Hin as ((n & t) & <- & Hin); cbn zeta; cbn [f_ty fst snd].
        + right. left. assert (Ht : In t (pinned_types it)) by (apply enumerate_in; eauto).
          apply pinned_types_in in Ht. destruct Ht as (f0 & Hf0 & ->). exists f0. split; [exact Hf0|].
          apply (field_inside s1 s l1 l E helper_def (or_introl helper_lts) f0 Hf0).
          intros x Hx. unfold inside. destruct (String.eqb_spec x "Self"); [contradiction|reflexivity].
        + right. right. rewrite d_ref. eauto.
    Qed.
    Lemma helper_fields_all p s l s1 l1 f0 : item_at se s1 l1 = item_at se s l -> l1 pin = p ->
      pinned_field se f0 -> exists f, In f (helper_fs g pin (pinned_types it)) /\
      den_ty (with_params (g_params helper_def) s1 l1 (with_self (helper_at p s l) (inner_env se))) (f_ty f) = type_at se s l f0.
    Proof.
      intros E Ep Hf0. assert (Ht : In (replace_ty own (f_ty f0)) (pinned_types it)) by (apply pinned_types_in; eauto).
      apply enumerate_in in Ht. destruct Ht as (n & Hn).
      exists (mkField [] VInherited (Some (id_field n)) (replace_ty own (f_ty f0))). split.
      - right. apply in_or_app. left. apply in_map_iff. exists (n, replace_ty own (f_ty f0)). auto.
      - rewrite helper_place. cbn [f_ty]. apply (field_inside s1 s l1 l E helper_def (or_introl helper_lts) f0 Hf0).
        intros x Hx. unfold inside. destruct (String.eqb_spec x "Self"); [contradiction|reflexivity].
    Qed.

    Lemma helper_unpin p s l : ar_unpin a = UDefault ->
      (holds (unpin se) (helper_at p s l) <-> forall f, pinned_field se f -> holds (unpin se) (type_at se s l f)).
    Proof.
      intros Ea. split.
      - intros H f0 Hf0.
        apply (holds_cases _ (EGen (name (helper_name i)))) in H; [|cbn; auto|exact Logic.I].
        destruct H as [H|[[_ H]|[_ H]]]; [| |discriminate].
        + apply (by_impl_cases _ (EGen (name (helper_name i)))) in H; [|cbn; auto|exact Logic.I].
          destruct H as [[H _]|[(s' & l' & im & H & _)|[(_ & H & _)|[_ H]]]]; discriminate.
        + destruct H as (E & c & gg & fs & s1 & l1 & Hin & Heq & _ & Hf). pose proof Heq as Heq'.
          apply (def_cases E c gg fs (EGen (name (helper_name i))) s1 l1 _ Hin) in Heq; [|exact Logic.I].
          destruct Heq as [H|[(v' & n & fx & H & -> & -> & -> & Hx & Hb)|(v' & n & fx & H & _)]]; try discriminate.
          injection H as H. destruct (helper_struct v' n gg fx Hx (eq_sym H)) as [-> ->].
          rewrite helper_args in Hb. injection Hb as Hp Hb.
          assert (Ei : item_at se s1 l1 = item_at se s l) by (unfold item_at; rewrite <- Hb; reflexivity).
          destruct (helper_fields_all p s l s1 l1 f0 Ei (eq_sym Hp) Hf0) as (f & Hfin & Hd).
          specialize (Hf f Hfin). fold (helper_at p s l) in Hf. rewrite <- Hd. exact Hf.
      - intros H. apply Hsol. right. left. split; [reflexivity|].
        set (l1 := fun x => if String.eqb x pin then p else l x).
        assert (Ep : l1 pin = p) by (unfold l1; rewrite String.eqb_refl; reflexivity).
        assert (Ei : item_at se s l1 = item_at se s l).
        { unfold item_at. f_equal. apply param_args_ext; [reflexivity|]. intros x Hx. unfold l1.
          destruct (String.eqb_spec x pin) as [->|_]; [|reflexivity]. destruct (pin_not_param _ _ Hpin Hx). }
        exists (inner_env se), (se_gen se (name (helper_name i))), helper_def, (helper_fs g pin (pinned_types it)), s, l1.
        split; [|split; [|split]].
        + unfold definitions. rewrite !in_app_iff. right. left. unfold structs_of. apply in_flat_map.
          exists (OStruct v (helper_name i) helper_def (FNamed (helper_fs g pin (pinned_types it)))). split; [|left; reflexivity].
          rewrite Hform. right. rewrite !in_app_iff. right. left. unfold unpin_items. rewrite Ea. left. reflexivity.
        + unfold helper_at. rewrite helper_args, Ep. do 2 f_equal.
          apply (nominal EItem EItem) in Ei; [symmetry; apply Ei|exact Logic.I|exact Logic.I].
        + apply not_explicit_gen.
        + intros f Hf. destruct (helper_field p s l s l1 f Ei Ep Hf) as [(c & Hc & Hc')|[(f0 & Hf0 & Hc)|(lt & m & c & Hc)]]; rewrite Hc.
          * apply holds_by_impl. apply lib_always. apply Hsol. do 4 right. exact Hc'.
          * apply H. exact Hf0.
          * apply Hsol. right. right. right. left. split; [reflexivity|]. eauto.
    Qed.

    (** *** The item *)
    Lemma unpin_explicit : explicit_unpin se (se_def se).
    Proof.
      exists (inner_env se), unpin_impl, (fun _ => u_never U), (fun _ => u_elided U).
      eexists. split; [apply trait_in; left; reflexivity|]. apply m_unpin. split; reflexivity.
    Qed.
    Lemma item_by_impl tr s l : In tr (the_traits se) -> (holds tr (item_at se s l) <-> by_impl se holds tr (item_at se s l)).
    Proof.
      intros Htr. split; [|apply holds_by_impl]. intros H.
      apply (holds_cases _ EItem) in H; [|exact Htr|exact Logic.I].
      destruct H as [H|[[_ H]|[_ H]]]; [exact H| |discriminate].
      destruct H as (E & c & gg & fs & s1 & l1 & Hin & Heq & Hn & _).
      assert (c = se_def se) as ->.
      { pose proof Heq as Heq'. apply (def_cases E c gg fs EItem s1 l1 _ Hin) in Heq'; [|exact Logic.I].
        unfold definitions in Hin. rewrite !in_app_iff in Hin. destruct Hin as [Hin|[Hin|Hin]].
        - unfold item_def in Hin. destruct (se_item se); try (destruct Hin; fail); destruct Hin as [Hin|[]]; injection Hin; auto.
        - apply in_flat_map in Hin. destruct Hin as (x & Hx & Hin). destruct x as [v' n gg' fx| | | | |]; try (destruct Hin; fail).
          destruct Hin as [Hin|[]]. injection Hin as <- <- <- <-.
          apply (nominal EItem (EGen (name n))) in Heq; [destruct Heq; discriminate|exact Logic.I|exact Logic.I].
        - apply in_flat_map in Hin. destruct Hin as (x & Hx & Hin). destruct x as [v' n gg' fx| | | | |]; try (destruct Hin; fail).
          destruct Hin as [Hin|[]]. injection Hin as <- <- <- <-.
          apply (nominal EItem (ELib (name n))) in Heq; [destruct Heq; discriminate|exact Logic.I|].
          cbn in Hx. destruct Hx as [Hx|[Hx|[Hx|[Hx|[Hx|[]]]]]]; try discriminate; injection Hx as <- <- <- <-; cbn; auto 9. }
      destruct (Hn unpin_explicit).
    Qed.
    Lemma item_cases tr s l : In tr (the_traits se) -> holds tr (item_at se s l) ->
      (exists x, In x (se_impls se) /\ applies se holds x tr (item_at se s l)) \/
      (exists s1 l1 im, item_at se s1 l1 = item_at se s l /\ In im trait_impls /\
         matches se (inner_env se) im s1 l1 tr (item_at se s l) /\
         generics_sat se holds (impl_env se (inner_env se) im s1 l1) (i_generics im)).
    Proof.
      intros Htr H. apply (item_by_impl _ _ _ Htr) in H.
      apply (by_impl_cases _ EItem) in H; [|exact Htr|exact Logic.I].
      destruct H as [[_ H]|[(s1 & l1 & im & _ & Hb & Him & Hm & Hs)|[(_ & H & _)|[_ H]]]]; try discriminate.
      - left. exact H.
      - right. assert (E : item_at se s1 l1 = item_at se s l) by (unfold item_at; rewrite <- Hb; reflexivity).
        rewrite E in Hm. eauto 9.
    Qed.
    Lemma set_pin p s l : exists l1, item_at se s l1 = item_at se s l /\ l1 pin = p.
    Proof.
      exists (fun x => if String.eqb x pin then p else l x). rewrite String.eqb_refl. split; [|reflexivity].
      unfold item_at. f_equal. apply param_args_ext; [reflexivity|]. intros x Hx.
      destruct (String.eqb_spec x pin) as [->|_]; [|reflexivity]. destruct (pin_not_param _ _ Hpin Hx).
    Qed.
    Lemma item_unpin s l : holds (unpin se) (item_at se s l) <->
      (exists x, In x (se_impls se) /\ applies se holds x (unpin se) (item_at se s l)) \/
      (where_holds se holds s l /\ exists p, condition holds p s l).
    Proof.
      split.
      - intros H. apply item_cases in H; [|cbn; auto]. destruct H as [H|(s1 & l1 & im & E & Him & Hm & Hs)]; [left; exact H|right].
        destruct (gen_cases im s1 l1 _ _ Him Hm) as [(_ & _ & X & _)|(_ & X)].
        + destruct (guard_not_known (unpin se) (or_introl eq_refl) X).
        + destruct X as [[-> _]|[(_ & _ & X)|[(_ & _ & X)|[(_ & _ & X)|(_ & _ & X)]]]].
          * apply (pin_sat holds _ _ _ _ s1 l1 s l extra_relaxes E) in Hs. destruct Hs as [Hw Hc]. split; [exact Hw|].
            apply (extra_sat holds s1 l1 s l E) in Hc. eauto.
          * destruct (unpin_unsafe X).
          * apply (nominal (ELib "Unpin") (ELib "Drop")) in X; [destruct X; discriminate|cbn; auto 9|cbn; auto 9].
          * destruct (guard_not_known (unpin se) (or_introl eq_refl) X).
          * apply (nominal (ELib "Unpin") (ELib "PinnedDrop")) in X; [destruct X; discriminate|cbn; auto 9|cbn; auto 12].
      - intros [(x & Hx & s1 & l1 & Hm & Hs)|[Hw (p & Hc)]].
        + apply holds_by_impl. destruct x as [E im]. exists E, im, s1, l1. split; [unfold all_impls; apply in_or_app; auto|]. auto.
        + destruct (set_pin p s l) as (l1 & E & Ep). apply holds_by_impl.
          exists (inner_env se), unpin_impl, s, l1. split; [apply trait_in; left; reflexivity|]. split.
          * apply m_unpin. auto.
          * apply (pin_sat holds _ _ _ _ s l1 s l extra_relaxes E). split; [exact Hw|]. apply (extra_sat holds s l1 s l E). rewrite Ep. exact Hc.
    Qed.
  End Selection.
End Laws.
