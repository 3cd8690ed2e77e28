(** The two stages in sequence. *)
From Coq Require Import String Ascii List Bool Arith Lia.
From Verif Require Import Base Syntax ModelArgs ModelUtils ModelAttribute ModelDerive ModelPipeline.
From Verif Require Import SpecArgs SpecDerive SpecPipeline SpecLifetime SpecExpand ProofsArgs ProofsUtils ProofsRepr ProofsDerive.
Import ListNotations.
Open Scope string_scope.
Open Scope list_scope.

Lemma parse_attribute_ok args input r : parse_attribute args input = Ok r <->
  ri_body input <> ROther /\
  rattrs_find (ri_attrs input) "pin" = false /\ rattrs_find (ri_attrs input) "pin_project" = false /\
  r = mkRItem (ri_attrs input ++ [RAttr derive_attr; RAttr (pin_attr args)]) (ri_body input).
Proof.
  unfold parse_attribute. destruct (ri_body input) eqn:E;
    (destruct (rattrs_find (ri_attrs input) "pin"); [split; [discriminate|intros (_ & H & _); discriminate]|]);
    (destruct (rattrs_find (ri_attrs input) "pin_project"); [split; [discriminate|intros (_ & _ & H & _); discriminate]|]);
    (split; [intros H; first [discriminate H | injection H as <-; repeat split; discriminate]
            | intros (H & _ & _ & ->); first [reflexivity | elim H; reflexivity]]).
Qed.

Lemma parse_attribute_not_panic args input m : parse_attribute args input <> Panic m.
Proof.
  unfold parse_attribute. destruct (ri_body input); try discriminate;
    destruct (rattrs_find _ _); try discriminate; destruct (rattrs_find _ _); discriminate.
Qed.

Lemma rattrs_find_true l s : rattrs_find l s = true <-> exists x, In (RAttr x) l /\ attr_named x s.
Proof.
  unfold rattrs_find. rewrite existsb_exists. split.
  - intros ([x| |] & H1 & H2); try discriminate. exists x. split; [exact H1|apply attr_is_iff; exact H2].
  - intros (x & H1 & H2). exists (RAttr x). split; [exact H1|apply attr_is_iff; exact H2].
Qed.

(** The derive reads back the argument tokens. *)
Lemma filter_pin_unrelated l : unrelated l -> filter (fun a => attr_is a "pin") l = [].
Proof.
  intros H. apply filter_nil_iff. intros x Hx. destruct (attr_is x "pin") eqn:E; [|reflexivity].
  apply attr_is_iff in E. elim (proj1 (H x Hx) E).
Qed.
Lemma pin_attr_named args : attr_named (pin_attr args) "pin".
Proof. split; reflexivity. Qed.
Lemma parse_args_handover l1 l2 args : unrelated l1 -> unrelated l2 ->
  parse_args (l1 ++ pin_attr args :: l2) = args_parse args.
Proof.
  intros H1 H2. unfold parse_args.
  assert (attrs_find (l1 ++ pin_attr args :: l2) "pin_project" = None) as ->.
  { apply attrs_find_none. intros x Hx Hn. apply in_app_or in Hx. destruct Hx as [Hx|[<-|Hx]].
    - elim (proj2 (H1 x Hx) Hn).
    - destruct Hn as [_ Hn]. discriminate.
    - elim (proj2 (H2 x Hx) Hn). }
  rewrite filter_app. cbn [filter]. rewrite (filter_pin_unrelated _ H1), (filter_pin_unrelated _ H2).
  reflexivity.
Qed.

(** ** Configuration *)
Section Cfg.
  Variable holds : nat -> bool.
  Definition item_of (attrs : list attr) (b : raw_body) : item :=
    match b with
    | RStruct v i g fs => ItStruct (mkStruct attrs v i (strip_generics holds g) (strip_fields holds fs))
    | REnum v i g vs => ItEnum (mkEnum attrs v i (strip_generics holds g) (flat_map (strip_variant holds) vs))
    | ROther => ItOther
    end.
  Lemma strip_item_eq l b : strip_item holds (mkRItem l b) =
    if snd (expand_attrs holds l) then Some (item_of (fst (expand_attrs holds l)) b) else None.
  Proof. unfold strip_item. cbn [ri_attrs ri_body]. destruct (expand_attrs holds l) as [x []]; reflexivity. Qed.
  Lemma expand_attrs_app l1 l2 :
    expand_attrs holds (l1 ++ l2) =
    (fst (expand_attrs holds l1) ++ fst (expand_attrs holds l2),
     snd (expand_attrs holds l1) && snd (expand_attrs holds l2)).
  Proof. unfold expand_attrs. cbn [fst snd]. rewrite flat_map_app, forallb_app. reflexivity. Qed.
  Lemma strip_marked l b args :
    strip_item holds (mkRItem (l ++ [RAttr derive_attr; RAttr (pin_attr args)]) b) =
    if snd (expand_attrs holds l)
    then Some (item_of (fst (expand_attrs holds l) ++ [derive_attr; pin_attr args]) b) else None.
  Proof.
    rewrite strip_item_eq, expand_attrs_app.
    replace (expand_attrs holds [RAttr derive_attr; RAttr (pin_attr args)])
      with ([derive_attr; pin_attr args], true) by reflexivity.
    cbn [fst snd]. rewrite andb_true_r. reflexivity.
  Qed.

  (** An attribute that the attribute stage would complain about makes the derive fail as well. *)
  Lemma in_expand x l : In (RAttr x) l -> In x (fst (expand_attrs holds l)).
  Proof. intros H. unfold expand_attrs. cbn [fst]. apply in_flat_map. exists (RAttr x). split; [exact H|left; reflexivity]. Qed.
  Lemma options_no_pin l1 args a : options (l1 ++ [derive_attr; pin_attr args]) a ->
    forall x, In x l1 -> ~ attr_named x "pin" /\ ~ attr_named x "pin_project".
  Proof.
    intros (ts & pl & (Hpp & k1 & y & d & k2 & E & Hy & _ & Hn) & _) x Hx.
    split; [|apply Hpp; apply in_or_app; left; exact Hx].
    intros Hxp.
    (* two [pin]s: x in l1 and the last one *)
    assert (Hc : length (filter (fun a => attr_is a "pin") (l1 ++ [derive_attr; pin_attr args])) >= 2).
    { rewrite filter_app, app_length. cbn [filter]. 
      assert (length (filter (fun a => attr_is a "pin") l1) >= 1).
      { assert (Hi : In x (filter (fun a => attr_is a "pin") l1)) by (apply filter_In; split; [exact Hx|apply attr_is_iff; exact Hxp]).
        destruct (filter (fun a => attr_is a "pin") l1); [destruct Hi|cbn; lia]. }
      change (attr_is derive_attr "pin") with false. change (attr_is (pin_attr args) "pin") with true. cbn [length]. lia. }
    rewrite E, filter_app, app_length in Hc. cbn [filter] in Hc.
    assert (forall z, In z (k1 ++ k2) -> attr_is z "pin" = false) as Hf.
    { intros z Hz. destruct (attr_is z "pin") eqn:Ez; [|reflexivity]. apply attr_is_iff in Ez. elim (Hn z Hz Ez). }
    assert (filter (fun a => attr_is a "pin") k1 = []) as E1 by (apply filter_nil_iff; intros z Hz; apply Hf, in_or_app; auto).
    assert (filter (fun a => attr_is a "pin") k2 = []) as E2 by (apply filter_nil_iff; intros z Hz; apply Hf, in_or_app; auto).
    rewrite E1, E2 in Hc. cbn in Hc. destruct (attr_is y "pin"); cbn in Hc; lia.
  Qed.

  Lemma derive_options it e : parse_derive it = Ok e -> exists a, options (item_attrs it) a.
  Proof.
    destruct it as [s|en|]; [| |discriminate]; intros H.
    - apply parse_derive_struct in H. destruct H as (a & Ha & _). exists a. apply (as_options _ _ Ha).
    - apply parse_derive_enum in H. destruct H as (a & Ha & _). exists a. apply (ae_options _ _ Ha).
  Qed.

  (** Success of the whole depends only on the configured item. *)
  Lemma pipeline_some args input e :
    pipeline holds (fun r => r) args input = Ok (Some e) <->
    exists l b, (snd (expand_attrs holds (ri_attrs input)) = true) /\
      l = fst (expand_attrs holds (ri_attrs input)) /\ b = ri_body input /\
      parse_derive (item_of (l ++ [derive_attr; pin_attr args]) b) = Ok e.
  Proof.
    unfold pipeline. rewrite bind_ok. split.
    - intros (r & H1 & H2). apply parse_attribute_ok in H1. destruct H1 as (_ & _ & _ & ->).
      rewrite strip_marked in H2. destruct (snd (expand_attrs holds (ri_attrs input))); [|discriminate].
      apply bind_ok in H2. destruct H2 as (x & Hx & E). injection E as ->.
      do 2 eexists. split; [reflexivity|]. split; [reflexivity|]. split; [reflexivity|]. exact Hx.
    - intros (l & b & H1 & -> & -> & H2).
      exists (mkRItem (ri_attrs input ++ [RAttr derive_attr; RAttr (pin_attr args)]) (ri_body input)). split.
      + destruct (derive_options _ _ H2) as [a Ha].
        assert (Hb : ri_body input <> ROther) by (intros E; rewrite E in H2; discriminate).
        assert (Ha' : options (fst (expand_attrs holds (ri_attrs input)) ++ [derive_attr; pin_attr args]) a).
        { destruct (ri_body input); [exact Ha|exact Ha|elim Hb; reflexivity]. }
        pose proof (options_no_pin _ _ _ Ha') as Hno.
        apply parse_attribute_ok. split; [exact Hb|]. split; [|split; [|reflexivity]].
        * destruct (rattrs_find (ri_attrs input) "pin") eqn:E; [|reflexivity].
          apply rattrs_find_true in E. destruct E as (x & Hx & Hn). apply in_expand in Hx. elim (proj1 (Hno x Hx) Hn).
        * destruct (rattrs_find (ri_attrs input) "pin_project") eqn:E; [|reflexivity].
          apply rattrs_find_true in E. destruct E as (x & Hx & Hn). apply in_expand in Hx. elim (proj2 (Hno x Hx) Hn).
      + rewrite strip_marked, H1, H2. reflexivity.
  Qed.
End Cfg.

Lemma pipeline_same holds args r r' e :
  strip_item holds r = strip_item holds r' ->
  pipeline holds (fun x => x) args r = Ok (Some e) -> pipeline holds (fun x => x) args r' = Ok (Some e).
Proof.
  intros E H. apply pipeline_some in H. destruct H as (l & b & H1 & -> & -> & H2).
  destruct r as [la b], r' as [la' b']. rewrite !strip_item_eq in E. cbn [ri_attrs ri_body] in *. rewrite H1 in E.
  destruct (snd (expand_attrs holds la')) eqn:H1'; [|discriminate]. injection E as E.
  apply pipeline_some. do 2 eexists. cbn [ri_attrs ri_body]. split; [exact H1'|]. split; [reflexivity|]. split; [reflexivity|].
  assert (Hg : forall x y c d, item_of holds x c = item_of holds y d -> c <> ROther ->
    forall z, item_of holds (x ++ z) c = item_of holds (y ++ z) d).
  { intros x y c d He N z. destruct c, d; cbn [item_of] in *; try discriminate; [injection He; intros; congruence|injection He; intros; congruence|reflexivity]. }
  rewrite <- (Hg _ _ _ _ E); [exact H2|]. intros ->. discriminate H2.
Qed.

Lemma disabled_snd holds l : disabled holds l -> snd (expand_attrs holds l) = false.
Proof.
  intros (p & H1 & H2). unfold expand_attrs. cbn [snd]. destruct (forallb _ l) eqn:E; [|reflexivity].
  rewrite forallb_forall in E. specialize (E _ H1). cbn in E. congruence.
Qed.
Lemma strip_field_disabled holds f : disabled holds (rf_attrs f) -> strip_field holds f = [].
Proof.
  intros H. apply disabled_snd in H. unfold strip_field. destruct (expand_attrs holds (rf_attrs f)) as [x k].
  cbn in H. rewrite H. reflexivity.
Qed.
Lemma strip_variant_disabled holds v : disabled holds (rv_attrs v) -> strip_variant holds v = [].
Proof.
  intros H. apply disabled_snd in H. unfold strip_variant. destruct (expand_attrs holds (rv_attrs v)) as [x k].
  cbn in H. rewrite H. reflexivity.
Qed.
(** Changes that configuration does not see. *)
Record invisible (holds : nat -> bool) (c : change) : Prop := {
  iv_params : forall l l', ch_params c l l' -> forall w, strip_generics holds (mkRGenerics l w) = strip_generics holds (mkRGenerics l' w);
  iv_fields : forall l l', ch_fields c l l' -> flat_map (strip_field holds) l = flat_map (strip_field holds) l';
  iv_variants : forall l l', ch_variants c l l' -> flat_map (strip_variant holds) l = flat_map (strip_variant holds) l'
}.
Lemma flat_map_drops {A B} (f : A -> list B) (R : A -> Prop) l l' : (forall x, R x -> f x = []) -> drops R l l' -> flat_map f l = flat_map f l'.
Proof. intros H [l1 x l2 Hx]. rewrite !flat_map_app. cbn [flat_map]. rewrite (H _ Hx). reflexivity. Qed.
Lemma flat_map_at_one {A B} (f : A -> list B) (R : A -> A -> Prop) l l' : (forall x y, R x y -> f x = f y) -> at_one R l l' -> flat_map f l = flat_map f l'.
Proof. intros H [l1 x y l2 Hx]. rewrite !flat_map_app. cbn [flat_map]. rewrite (H _ _ Hx). reflexivity. Qed.
Lemma without_invisible holds : invisible holds {|
  ch_params := drops (fun p => disabled holds (fst p));
  ch_fields := drops (fun f => disabled holds (rf_attrs f));
  ch_variants := drops (fun v => disabled holds (rv_attrs v)) |}.
Proof.
  constructor; cbn [ch_params ch_fields ch_variants].
  - intros l l' H w. unfold strip_generics. cbn [rg_params rg_where]. f_equal. revert H. apply flat_map_drops.
    intros p H. rewrite (disabled_snd _ _ H). reflexivity.
  - intros l l'. apply flat_map_drops. apply strip_field_disabled.
  - intros l l'. apply flat_map_drops. apply strip_variant_disabled.
Qed.
Lemma resolved_same holds l l' : resolved holds l l' -> expand_attrs holds l = expand_attrs holds l'.
Proof.
  intros [p l1 l2 H|p k l1 l2 H|p k l1 l2 H]; unfold expand_attrs; rewrite !flat_map_app, !forallb_app; cbn [flat_map forallb expand_attr fst snd];
    rewrite H; cbn [fst snd app andb]; rewrite ?flat_map_app, ?forallb_app; reflexivity.
Qed.
Lemma resolved_invisible holds : invisible holds {|
  ch_params := at_one (fun p p' => resolved holds (fst p) (fst p') /\ snd p = snd p');
  ch_fields := at_one (fun f f' => resolved holds (rf_attrs f) (rf_attrs f') /\ f' = mkRField (rf_attrs f') (rf_vis f) (rf_ident f) (rf_ty f));
  ch_variants := at_one (fun v v' => resolved holds (rv_attrs v) (rv_attrs v') /\ v' = mkRVariant (rv_attrs v') (rv_ident v) (rv_fields v) (rv_disc v)) |}.
Proof.
  constructor; cbn [ch_params ch_fields ch_variants].
  - intros l l' H w. unfold strip_generics. cbn [rg_params rg_where]. f_equal. revert H. apply flat_map_at_one.
    intros p p' [H E]. rewrite (resolved_same _ _ _ H), E. reflexivity.
  - intros l l'. apply flat_map_at_one. intros f f' [H ->]. unfold strip_field. cbn [rf_attrs rf_vis rf_ident rf_ty].
    rewrite (resolved_same _ _ _ H). reflexivity.
  - intros l l'. apply flat_map_at_one. intros f f' [H ->]. unfold strip_variant. cbn [rv_attrs rv_ident rv_fields rv_disc].
    rewrite (resolved_same _ _ _ H). reflexivity.
Qed.
Lemma changed_fields_same holds c fs fs' : invisible holds c -> changed_fields c fs fs' -> strip_fields holds fs = strip_fields holds fs'.
Proof. intros H [l l' Hc|l l' Hc]; cbn [strip_fields]; f_equal; apply (iv_fields _ _ H); exact Hc. Qed.
Lemma changed_item holds c l b b' : invisible holds c -> changed c b b' -> item_of holds l b = item_of holds l b'.
Proof.
  intros H [v i k k' w fs Hc|v i g fs fs' Hc|v i k k' w vs Hc|v i g k k' Hc|v i g k k' Hc]; cbn [item_of]; do 2 f_equal.
  - apply (iv_params _ _ H). exact Hc.
  - apply (changed_fields_same _ _ _ _ H Hc).
  - apply (iv_params _ _ H). exact Hc.
  - apply (iv_variants _ _ H). exact Hc.
  - revert Hc. apply flat_map_at_one. intros x y [at_ n gs gs' d Hg]. unfold strip_variant.
    cbn [rv_attrs rv_ident rv_fields rv_disc]. rewrite (changed_fields_same _ _ _ _ H Hg). reflexivity.
Qed.
(** Equal in every outcome, also errors. *)
Lemma pipeline_changed holds ch args l b b' : invisible holds ch -> changed ch b b' ->
  pipeline holds (fun x => x) args (mkRItem l b) = pipeline holds (fun x => x) args (mkRItem l b').
Proof.
  intros Hch H. pose proof (fun l => changed_item holds ch l _ _ Hch H) as Hi.
  assert (Hb : (ri_body (mkRItem l b) = ROther <-> False) /\ (ri_body (mkRItem l b') = ROther <-> False)).
  { destruct H; cbn; split; split; intros X; solve [discriminate X|destruct X]. }
  assert (E : forall c, (c = b \/ c = b') -> pipeline holds (fun x => x) args (mkRItem l c) =
    if rattrs_find l "pin" then Err "#[pin] attribute may only be used on fields of structs or variants"
    else if rattrs_find l "pin_project" then Err "duplicate #[pin_project] attribute"
    else if snd (expand_attrs holds l)
      then do e <- parse_derive (item_of holds (fst (expand_attrs holds l) ++ [derive_attr; pin_attr args]) c); Ok (Some e)
      else Ok None).
  { intros c Hc. unfold pipeline, parse_attribute. cbn [ri_body ri_attrs].
    destruct c; [| |exfalso; cbn in Hb; destruct Hb as [B1 B2]; destruct Hc as [Hc|Hc]; [apply B1|apply B2]; symmetry; exact Hc];
    (destruct (rattrs_find l "pin"); [reflexivity|]); (destruct (rattrs_find l "pin_project"); [reflexivity|]);
    cbn [bind]; rewrite strip_marked; destruct (snd (expand_attrs holds l)); reflexivity. }
  rewrite !E by auto. rewrite Hi. reflexivity.
Qed.
Lemma pipeline_without holds args l b b' : without holds b b' ->
  pipeline holds (fun x => x) args (mkRItem l b) = pipeline holds (fun x => x) args (mkRItem l b').
Proof. apply pipeline_changed, without_invisible. Qed.
Lemma pipeline_resolved holds args l b b' : resolved_inside holds b b' ->
  pipeline holds (fun x => x) args (mkRItem l b) = pipeline holds (fun x => x) args (mkRItem l b').
Proof. apply pipeline_changed, resolved_invisible. Qed.
Lemma pipeline_resolved_item holds args l l' b e : resolved holds l l' ->
  (pipeline holds (fun x => x) args (mkRItem l b) = Ok (Some e) <-> pipeline holds (fun x => x) args (mkRItem l' b) = Ok (Some e)).
Proof. intros H. split; apply pipeline_same; rewrite !strip_item_eq, (resolved_same _ _ _ H); reflexivity. Qed.
Lemma expand_source holds l : expand_attrs holds (map RAttr l) = (l, true).
Proof.
  unfold expand_attrs. f_equal; induction l as [|x l IH]; cbn [map flat_map forallb expand_attr fst snd app andb]; [reflexivity| |reflexivity|exact IH].
  rewrite IH. reflexivity.
Qed.
Lemma strip_source_fields holds fs : strip_fields holds (source_fields fs) = fs.
Proof.
  assert (H : forall l, flat_map (strip_field holds) (map (fun f => mkRField (map RAttr (f_attrs f)) (f_vis f) (f_ident f) (f_ty f)) l) = l).
  { induction l as [|f l IH]; cbn [map flat_map]; [reflexivity|]. rewrite IH. unfold strip_field. cbn [rf_attrs rf_vis rf_ident rf_ty].
    rewrite expand_source. destruct f; reflexivity. }
  destruct fs; cbn [source_fields strip_fields]; rewrite ?H; reflexivity.
Qed.
Lemma strip_source_generics holds g : strip_generics holds (source_generics g) = g.
Proof.
  unfold strip_generics, source_generics. destruct g as [ps w]. cbn [rg_params rg_where g_params g_where]. f_equal.
  induction ps as [|p ps IH]; cbn [map flat_map fst snd]; [reflexivity|]. rewrite IH. reflexivity.
Qed.
Lemma source_item holds it l : item_of holds (item_attrs it ++ l) (ri_body (source it)) = with_attrs it l.
Proof.
  destruct it as [s|en|]; cbn [source ri_body item_of with_attrs item_attrs]; [| |reflexivity]; do 2 f_equal;
    rewrite ?strip_source_generics, ?strip_source_fields; try reflexivity.
  induction (e_variants en) as [|v vs IH]; cbn [map flat_map]; [reflexivity|]. rewrite IH. unfold strip_variant.
  cbn [rv_attrs rv_ident rv_fields rv_disc]. rewrite expand_source, strip_source_fields. destruct v; reflexivity.
Qed.
Lemma pipeline_source holds args it e :
  pipeline holds (fun x => x) args (source it) = Ok (Some e) <-> parse_derive (with_attrs it [derive_attr; pin_attr args]) = Ok e.
Proof.
  rewrite pipeline_some. assert (Ea : it = ItOther \/ expand_attrs holds (ri_attrs (source it)) = (item_attrs it, true)).
  { destruct it; [right|right|left; reflexivity]; apply expand_source. }
  destruct Ea as [->|Ea].
  { split; [intros (l & b & _ & _ & -> & H); exact H|intros H; discriminate H]. }
  rewrite Ea. split.
  - intros (l & b & _ & -> & -> & H). cbn [fst] in H. rewrite source_item in H. exact H.
  - intros H. do 2 eexists. split; [reflexivity|]. split; [reflexivity|]. split; [reflexivity|]. cbn [fst]. rewrite source_item. exact H.
Qed.

(** ** Missing or duplicate markers *)
Lemma parse_args_unmarked l : ~ (exists ts, marked l ts) -> forall a, parse_args l <> Ok a.
Proof. intros H a Ha. apply parse_args_iff in Ha. destruct Ha as (t & pl & Hm & _). apply H. eauto. Qed.

Lemma parse_input_not_panic ts m : parse_input ts <> Panic m.
Proof.
  unfold parse_input. destruct ts as [|[i| | |] r]; try discriminate.
  destruct (accept_as_ident i); try discriminate. destruct (ident_is i "__private").
  - destruct r as [|[| | |[] l] [|]]; discriminate.
  - destruct r; discriminate.
Qed.
Lemma parse_input_none ts : parse_input ts = Ok None <-> ts = [] \/ exists i, plain_ident i /\ ts = [TIdent i].
Proof.
  unfold parse_input. split.
  - destruct ts as [|[i| | |] r]; try discriminate; [auto|].
    destruct (accept_as_ident i) eqn:E; try discriminate. apply accept_plain in E.
    destruct (ident_is i "__private").
    + destruct r as [|[| | |[] l] [|]]; try discriminate. eauto.
    + destruct r; try discriminate. eauto.
  - intros [->|(i & Hi & ->)]; [reflexivity|]. apply accept_plain in Hi. rewrite Hi.
    destruct (ident_is i "__private"); reflexivity.
Qed.
Lemma parse_args_panic l : (exists m, parse_args l = Panic m) <-> marker_replaced l.
Proof.
  unfold parse_args, marker_replaced. split.
  - intros [m H]. destruct (attrs_find l "pin_project") eqn:E; [discriminate|].
    rewrite attrs_find_none in E. split; [exact E|].
    destruct (filter (fun a => attr_is a "pin") l) as [|x more] eqn:F; [discriminate|].
    unfold require_list in H. destruct (a_meta x) as [|d ts|] eqn:M; try discriminate. cbn [bind] in H.
    destruct (parse_input ts) as [prev| |] eqn:P; [|discriminate|elim (parse_input_not_panic _ _ P)]. cbn [bind] in H.
    destruct more as [|x2 more].
    2: { destruct (a_meta x2); try discriminate. cbn [bind] in H.
         destruct (parse_input ts0) eqn:P2; try discriminate. elim (parse_input_not_panic _ _ P2). }
    destruct prev as [l'|]; [elim (args_parse_not_panic _ _ H)|].
    apply filter_single in F. destruct F as (Hx & l1 & l2 & -> & Hn). exists l1, x, d, ts, l2.
    split; [reflexivity|]. split; [apply attr_is_iff; exact Hx|]. split; [exact M|].
    split; [apply parse_input_none; exact P|].
    intros y Hy Hp. apply attr_is_iff in Hp. rewrite Hn in Hp by exact Hy. discriminate.
  - intros (H1 & l1 & x & d & ts & l2 & -> & Hx & M & Hts & Hn).
    apply (attrs_find_none (l1 ++ x :: l2)) in H1. rewrite H1.
    assert (Hf : filter (fun a => attr_is a "pin") (l1 ++ x :: l2) = [x]).
    { apply filter_single. split; [apply attr_is_iff; exact Hx|]. exists l1, l2. split; [reflexivity|].
      intros y Hy. destruct (attr_is y "pin") eqn:Ey; [|reflexivity]. apply attr_is_iff in Ey. elim (Hn y Hy Ey). }
    rewrite Hf. unfold require_list. rewrite M. cbn [bind]. apply parse_input_none in Hts. rewrite Hts. cbn [bind]. eauto.
Qed.

(** ** Panics of the derive *)
Lemma attr_is_replace x s : s <> "self" -> s <> "__self" -> attr_is (replace_attr x) s = attr_is x s.
Proof.
  intros H1 H2. destruct (attr_is x s) eqn:E.
  - apply attr_is_iff. apply named_in; [exact H1|exact H2|]. apply attr_is_iff. exact E.
  - destruct (attr_is (replace_attr x) s) eqn:F; [|reflexivity].
    apply attr_is_iff in F. apply named_out in F; [|exact H1|exact H2]. apply attr_is_iff in F. congruence.
Qed.
Lemma attrs_find_replace l s : s <> "self" -> s <> "__self" ->
  attrs_find (map replace_attr l) s = option_map replace_attr (attrs_find l s).
Proof.
  intros H1 H2. unfold attrs_find. induction l as [|x l IH]; [reflexivity|].
  cbn [map find]. rewrite attr_is_replace by assumption. destruct (attr_is x s); [reflexivity|exact IH].
Qed.
Lemma filter_replace l s : s <> "self" -> s <> "__self" ->
  filter (fun a => attr_is a s) (map replace_attr l) = map replace_attr (filter (fun a => attr_is a s) l).
Proof.
  intros H1 H2. induction l as [|x l IH]; [reflexivity|].
  cbn [map filter]. rewrite attr_is_replace by assumption. destruct (attr_is x s); cbn [map]; rewrite IH; reflexivity.
Qed.
Lemma parse_args_replace l : parse_args (map replace_attr l) = parse_args l.
Proof.
  unfold parse_args. rewrite attrs_find_replace, filter_replace by discriminate.
  destruct (attrs_find l "pin_project"); [reflexivity|]. cbn [option_map].
  destruct (filter (fun a => attr_is a "pin") l) as [|x [|y m]]; reflexivity.
Qed.
Lemma bnp {A B} (r : res A) (f : A -> res B) m :
  (forall m, r <> Panic m) -> (forall a m, f a <> Panic m) -> bind r f <> Panic m.
Proof. intros Hr Hf. apply bind_not_panic; [exact Hr|]. intros a _. apply Hf. Qed.
Lemma position_exact_not_panic k p s l m : position_exact_from k p s l <> Panic m.
Proof.
  revert k p. induction l as [|x l IH]; intros k p; cbn [position_exact_from]; [discriminate|].
  destruct (attr_is x s); [|apply IH]. destruct p; [discriminate|]. destruct (a_meta x); try discriminate. apply IH.
Qed.
Lemma visit_field_list_not_panic lt l : forall n m, visit_field_list lt n l <> Panic m.
Proof.
  induction l as [|f l IH]; intros n m; cbn [visit_field_list]; [discriminate|].
  apply bnp; [intros; apply position_exact_not_panic|]. intros o ?.
  apply bnp; [intros; apply IH|]. intros [] ?. destruct (is_some o); discriminate.
Qed.
Lemma visit_variants_not_panic cx vs : forall m, visit_variants cx vs <> Panic m.
Proof.
  induction vs as [|v vs IH]; intros m; cbn [visit_variants]; [discriminate|].
  apply bnp; [intros; apply visit_field_list_not_panic|]. intros pf ?.
  apply bnp; [intros; apply IH|]. intros pv ?. discriminate.
Qed.
Lemma validate_variants_not_panic vs m : forall b, validate_variants b vs <> Panic m.
Proof.
  induction vs as [|v vs IH]; intros b; cbn [validate_variants]; [discriminate|].
  destruct (v_disc v); [discriminate|]. destruct (is_some _); [discriminate|].
  destruct (fields_is_empty _); apply IH.
Qed.
Lemma validate_enum_not_panic vs m : validate_enum vs <> Panic m.
Proof.
  unfold validate_enum. destruct vs; [discriminate|]. apply bnp; [intros; apply validate_variants_not_panic|].
  intros [] ?; discriminate.
Qed.
Lemma ensure_not_packed_not_panic cx fs m : ensure_not_packed cx fs <> Panic m.
Proof.
  unfold ensure_not_packed. apply bnp; [intros; apply check_reprs_not_panic|]. intros _ ?. destruct fs; discriminate.
Qed.
Lemma parse_struct_not_panic cx fs m : parse_struct cx fs <> Panic m.
Proof.
  unfold parse_struct. intros H. revert H.
  destruct (ensure_not_packed cx (Some fs)) eqn:E1; cbn [bind]; [|discriminate|elim (ensure_not_packed_not_panic _ _ _ E1)].
  destruct fs as [l|l|].
  - destruct (validate_struct (FNamed l)) eqn:E2; cbn [bind]; [|discriminate|unfold validate_struct in E2; destruct (fields_is_empty (FNamed l)); discriminate].
    destruct (visit_fields cx (FNamed l)) eqn:E3; cbn [bind]; [discriminate|discriminate|elim (visit_field_list_not_panic _ _ _ _ E3)].
  - destruct (validate_struct (FUnnamed l)) eqn:E2; cbn [bind]; [|discriminate|unfold validate_struct in E2; destruct (fields_is_empty (FUnnamed l)); discriminate].
    destruct (visit_fields cx (FUnnamed l)) eqn:E3; cbn [bind]; [discriminate|discriminate|elim (visit_field_list_not_panic _ _ _ _ E3)].
  - discriminate.
Qed.
Lemma parse_enum_not_panic cx vs m : parse_enum cx vs <> Panic m.
Proof.
  unfold parse_enum. destruct (ar_project_replace (cx_args cx)); try discriminate;
  (apply bnp; [intros; apply ensure_not_packed_not_panic|]; intros _ ?;
   apply bnp; [intros; apply validate_enum_not_panic|]; intros _ ?;
   apply bnp; [intros; apply visit_variants_not_panic|]; intros pv ?; discriminate).
Qed.
Lemma bind_panic {A B} (r : res A) (f : A -> res B) m :
  (forall a n, f a <> Panic n) -> bind r f = Panic m -> r = Panic m.
Proof. intros H. destruct r; cbn; intros E; [elim (H _ _ E)|discriminate|congruence]. Qed.
Lemma context_new_panic attrs v i g k m :
  context_new attrs v i g k = Panic m <-> parse_args attrs = Panic m.
Proof.
  unfold context_new. split.
  - apply bind_panic. intros a n. destruct (name_clash a i); discriminate.
  - intros ->. reflexivity.
Qed.
Lemma parse_derive_panic it : (exists m, parse_derive it = Panic m) <-> marker_replaced (item_attrs it).
Proof.
  rewrite <- parse_args_panic. destruct it as [s|e|]; cbn [parse_derive item_attrs].
  - rewrite <- (parse_args_replace (s_attrs s)). split; intros [m H]; exists m.
    + apply bind_panic in H.
      * apply context_new_panic in H. exact H.
      * intros cx n. apply bnp; [intros; apply parse_struct_not_panic|]. intros; discriminate.
    + cbn [replace_struct s_attrs s_vis s_ident s_generics].
      match goal with |- bind ?x _ = _ => assert (x = Panic m) as -> by (apply context_new_panic; exact H) end. reflexivity.
  - rewrite <- (parse_args_replace (e_attrs e)). split; intros [m H]; exists m.
    + apply bind_panic in H.
      * apply context_new_panic in H. exact H.
      * intros cx n. apply bnp; [intros; apply parse_enum_not_panic|]. intros; discriminate.
    + cbn [replace_enum e_attrs e_vis e_ident e_generics].
      match goal with |- bind ?x _ = _ => assert (x = Panic m) as -> by (apply context_new_panic; exact H) end. reflexivity.
  - split; intros [m H]; [discriminate|]. discriminate H.
Qed.

(** Without interference the two stages never panic. *)
Lemma pipeline_no_panic holds args input m : pipeline holds (fun r => r) args input <> Panic m.
Proof.
  unfold pipeline. intros H.
  destruct (parse_attribute args input) as [r|e|p] eqn:E; cbn [bind] in H; [|discriminate|elim (parse_attribute_not_panic _ _ _ E)].
  apply parse_attribute_ok in E. destruct E as (Hb & _ & _ & ->). rewrite strip_marked in H.
  destruct (snd (expand_attrs holds (ri_attrs input))); [|discriminate].
  apply bind_panic in H; [|discriminate].
  assert (Hp : exists m, parse_derive (item_of holds (fst (expand_attrs holds (ri_attrs input)) ++ [derive_attr; pin_attr args]) (ri_body input)) = Panic m) by eauto.
  apply parse_derive_panic in Hp.
  assert (Hi : item_attrs (item_of holds (fst (expand_attrs holds (ri_attrs input)) ++ [derive_attr; pin_attr args]) (ri_body input)) =
    fst (expand_attrs holds (ri_attrs input)) ++ [derive_attr; pin_attr args])
    by (destruct (ri_body input); [reflexivity|reflexivity|elim Hb; reflexivity]).
  rewrite Hi in Hp. destruct Hp as (_ & l1 & x & d & ts & l2 & E & Hx & M & Hts & Hn).
  (* the marker is the only [pin] attribute *)
  assert (Hin : In (pin_attr args) (l1 ++ x :: l2)) by (rewrite <- E; apply in_or_app; right; right; left; reflexivity).
  assert (x = pin_attr args).
  { apply in_app_or in Hin. destruct Hin as [Hin|[Hin|Hin]]; [|exact Hin|];
      exfalso; apply (Hn (pin_attr args)); try apply pin_attr_named; apply in_or_app; auto. }
  subst x. cbn in M. injection M as <- <-. destruct Hts as [Hts|(i & _ & Hts)]; discriminate.
Qed.

(** ** Readings used by the property files *)
Lemma attribute_rejects args input :
  (exists x, In (RAttr x) (ri_attrs input) /\ (attr_named x "pin" \/ attr_named x "pin_project")) ->
  exists m, parse_attribute args input = Err m.
Proof.
  intros (x & Hx & Hn). destruct (parse_attribute args input) as [r|m|m] eqn:E; [|eauto|elim (parse_attribute_not_panic _ _ _ E)].
  apply parse_attribute_ok in E. destruct E as (_ & E1 & E2 & _). exfalso.
  destruct Hn as [Hn|Hn].
  - assert (rattrs_find (ri_attrs input) "pin" = true) by (apply rattrs_find_true; eauto). congruence.
  - assert (rattrs_find (ri_attrs input) "pin_project" = true) by (apply rattrs_find_true; eauto). congruence.
Qed.
Lemma derive_unmarked it : ~ (exists ts, marked (item_attrs it) ts) ->
  (exists m, parse_derive it = Err m) \/ (marker_replaced (item_attrs it) /\ exists m, parse_derive it = Panic m).
Proof.
  intros H. destruct (parse_derive it) as [e|m|m] eqn:E; [|left; eauto|right; split; [apply parse_derive_panic|]; eauto].
  exfalso. apply derive_options in E. destruct E as (a & ts & pl & Hm & _). apply H. eauto.
Qed.
Lemma derive_not_accepted it : (forall e, parse_derive it <> Ok e) -> ~ marker_replaced (item_attrs it) ->
  exists m, parse_derive it = Err m.
Proof.
  intros H1 H2. destruct (parse_derive it) as [e|m|m] eqn:E; [elim (H1 e eq_refl)|eauto|].
  elim H2. apply parse_derive_panic. eauto.
Qed.

Lemma handover_item holds args input r it :
  parse_attribute args input = Ok r -> strip_item holds r = Some it ->
  unrelated (fst (expand_attrs holds (ri_attrs input))) ->
  parse_args (item_attrs it) = args_parse args.
Proof.
  intros H1 H2 Hu. apply parse_attribute_ok in H1. destruct H1 as (Hb & _ & _ & ->).
  rewrite strip_marked in H2. destruct (snd (expand_attrs holds (ri_attrs input))); [|discriminate].
  apply (f_equal (fun o => match o with Some x => x | None => it end)) in H2. subst it.
  assert (Hi : item_attrs (item_of holds (fst (expand_attrs holds (ri_attrs input)) ++ [derive_attr; pin_attr args]) (ri_body input)) =
    (fst (expand_attrs holds (ri_attrs input)) ++ [derive_attr]) ++ pin_attr args :: []).
  { rewrite <- app_assoc. destruct (ri_body input); [reflexivity|reflexivity|elim Hb; reflexivity]. }
  rewrite Hi. apply parse_args_handover.
  - intros x Hx. apply in_app_or in Hx. destruct Hx as [Hx|[<-|[]]]; [apply Hu; exact Hx|].
    split; intros [_ E]; discriminate.
  - intros x [].
Qed.

(** ** [repr] *)
Lemma find_filter {A} (f g : A -> bool) l : (forall x, f x = true -> g x = true) ->
  find f (filter g l) = find f l.
Proof.
  intros H. induction l as [|x l IH]; [reflexivity|]. cbn [filter find]. destruct (g x) eqn:E.
  - cbn [find]. rewrite IH. reflexivity.
  - destruct (f x) eqn:F; [rewrite (H _ F) in E; discriminate|exact IH].
Qed.
Lemma filter_filter {A} (f g : A -> bool) l : (forall x, f x = true -> g x = true) ->
  filter f (filter g l) = filter f l.
Proof.
  intros H. induction l as [|x l IH]; [reflexivity|]. cbn [filter]. destruct (g x) eqn:E.
  - cbn [filter]. rewrite IH. reflexivity.
  - destruct (f x) eqn:F; [rewrite (H _ F) in E; discriminate|exact IH].
Qed.
Lemma attr_is_other x s t : s <> t -> attr_is x s = true -> attr_is x t = false.
Proof.
  intros N H. destruct (attr_is x t) eqn:E; [|reflexivity].
  apply attr_is_iff in H. apply attr_is_iff in E. destruct H as [_ H], E as [_ E]. rewrite H in E. injection E as E. contradiction.
Qed.
Lemma parse_args_without_reprs l : parse_args (without_reprs l) = parse_args l.
Proof.
  unfold parse_args, without_reprs, attrs_find. rewrite find_filter, filter_filter; [reflexivity| |].
  - intros x Hx. rewrite (attr_is_other x "pin" "repr"); [reflexivity|discriminate|exact Hx].
  - intros x Hx. rewrite (attr_is_other x "pin_project" "repr"); [reflexivity|discriminate|exact Hx].
Qed.
Lemma options_without_reprs l a : options (without_reprs l) a <-> options l a.
Proof. rewrite <- !parse_args_iff, parse_args_without_reprs. reflexivity. Qed.
Lemma reprs_ok_without l : reprs_ok (without_reprs l).
Proof.
  intros x d ts Hx Hn. apply filter_In in Hx. destruct Hx as [_ Hx]. apply attr_is_iff in Hn. rewrite Hn in Hx. discriminate.
Qed.
Lemma packed_not_ok l : repr_packed l -> ~ reprs_ok l.
Proof.
  intros (x & d & ts & es & H1 & H2 & H3 & H4 & H5) H. destruct (H x d ts H1 H2 H3) as (es' & H6 & H7).
  rewrite (entries_unique _ _ _ H6 H4) in H7. contradiction.
Qed.
Lemma struct_repr_iff s : is_ok (parse_derive (ItStruct s)) <->
  reprs_ok (s_attrs s) /\ is_ok (parse_derive (ItStruct (struct_without_reprs s))).
Proof.
  split.
  - intros [e H]. apply parse_derive_struct in H. destruct H as (a & [H1 H2 H3 H4 H5] & _). split; [exact H3|].
    eexists. apply parse_derive_struct. exists a. split; [|reflexivity]. constructor; try assumption.
    + apply options_without_reprs. exact H1.
    + apply reprs_ok_without.
  - intros [Hr [e H]]. apply parse_derive_struct in H. destruct H as (a & [H1 H2 H3 H4 H5] & _).
    eexists. apply parse_derive_struct. exists a. split; [|reflexivity]. constructor; try assumption.
    apply options_without_reprs. exact H1.
Qed.
Lemma enum_repr_iff s : is_ok (parse_derive (ItEnum s)) <->
  reprs_ok (e_attrs s) /\ is_ok (parse_derive (ItEnum (enum_without_reprs s))).
Proof.
  split.
  - intros [e H]. apply parse_derive_enum in H. destruct H as (a & [H1 H2 H3 H4 H5 H6 H7 H8] & _). split; [exact H4|].
    eexists. apply parse_derive_enum. exists a. split; [|reflexivity]. constructor; try assumption.
    + apply options_without_reprs. exact H1.
    + apply reprs_ok_without.
  - intros [Hr [e H]]. apply parse_derive_enum in H. destruct H as (a & [H1 H2 H3 H4 H5 H6 H7 H8] & _).
    eexists. apply parse_derive_enum. exists a. split; [|reflexivity]. constructor; try assumption.
    apply options_without_reprs. exact H1.
Qed.

Lemma attribute_keeps args input r : parse_attribute args input = Ok r ->
  ri_body r = ri_body input /\
  exists d m, ri_attrs r = ri_attrs input ++ [RAttr d; RAttr m] /\
    attr_named d "derive" /\ a_meta d = MList Paren (rooted ["pin_project"; "__private"; "__PinProjectInternalDerive"]) /\
    attr_named m "pin" /\ a_meta m = MList Paren [TIdent (I "__private"); TGroup Paren args].
Proof.
  intros H. apply parse_attribute_ok in H. destruct H as (_ & _ & _ & ->). split; [reflexivity|].
  exists derive_attr, (pin_attr args). repeat (split; [reflexivity || (split; reflexivity)|]). reflexivity.
Qed.
Lemma struct_accepted s : is_ok (parse_derive (ItStruct s)) <-> exists a, accepts_struct s a.
Proof.
  split.
  - intros [x H]. apply parse_derive_struct in H. destruct H as (a & Ha & _). eauto.
  - intros [a Ha]. eexists. apply parse_derive_struct. eauto.
Qed.
Lemma enum_accepted s : is_ok (parse_derive (ItEnum s)) <-> exists a, accepts_enum s a.
Proof.
  split.
  - intros [x H]. apply parse_derive_enum in H. destruct H as (a & Ha & _). eauto.
  - intros [a Ha]. eexists. apply parse_derive_enum. eauto.
Qed.
Lemma struct_packed s : repr_packed (s_attrs s) -> ~ is_ok (parse_derive (ItStruct s)).
Proof. intros Hp H. apply struct_repr_iff in H. exact (packed_not_ok _ Hp (proj1 H)). Qed.
Lemma enum_packed s : repr_packed (e_attrs s) -> ~ is_ok (parse_derive (ItEnum s)).
Proof. intros Hp H. apply enum_repr_iff in H. exact (packed_not_ok _ Hp (proj1 H)). Qed.
