(** Projected types only refer to types that live long enough. *)
From Coq Require Import String List Bool.
From Verif Require Import Base Syntax SyntaxInd ModelUtils ModelDerive ModelMeaning.
From Verif Require Import SpecArgs SpecDerive SpecLifetime SpecExpand SpecRun SpecMeaning SpecOutlives.
From Verif Require Import ProofsUtils ProofsDerive ProofsExpand ProofsTypes ProofsMeaning ProofsSelf.
Import ListNotations.
Open Scope string_scope.
Open Scope list_scope.

Section Scope.
  Variable U : univ.
  Variable out : D U -> LT U -> Prop.
  Variable lout : LT U -> LT U -> Prop.
  Hypothesis HR : outlives_rules out lout.
  Variable r : LT U.
  Notation fine E := (scope_outlives out lout E r).

  Lemma under_fine E lts : fine E -> fine (under lts E).
  Proof.
    intros [H1 H2]. constructor; [exact H1|]. intros x. cbn. unfold bind_lts. destruct (existsb _ lts); [apply HR|apply H2].
  Qed.

  Lemma use_head_fine E x a : fine E -> args_outlive out lout a r -> out (use_head (names E x) a) r.
  Proof.
    intros H Ha. pose proof (so_names _ _ _ _ _ H x) as Hx. destruct (names E x) as [d|d]; cbn in *.
    - destruct a; [exact Hx|apply HR; assumption].
    - apply HR; assumption.
  Qed.
  Lemma sels_fine l : forall d, out d r -> (forall x a, In (x, a) l -> args_outlive out lout a r) -> out (sels d l) r.
  Proof.
    induction l as [|[x a] l IH]; intros d Hd Hl; [exact Hd|]. cbn. apply IH.
    - apply HR; [exact Hd|]. apply (Hl x). left. reflexivity.
    - intros y b Hy. apply (Hl y). right. exact Hy.
  Qed.
  Lemma path_fine E lead l : fine E -> (forall x a, In (x, a) l -> args_outlive out lout a r) -> out (path_of E lead l) r.
  Proof.
    intros HE Hl. destruct l as [|[x a] l]; [apply HR|]. cbn. apply sels_fine.
    - destruct lead; [apply HR|apply use_head_fine; [exact HE|]]; apply (Hl x); left; reflexivity.
    - intros y b Hy. apply (Hl y). right. exact Hy.
  Qed.
  Lemma qpath_fine E d n lead l : fine E -> out d r -> (forall x a, In (x, a) l -> args_outlive out lout a r) ->
    out (qpath_of E d n lead l) r.
  Proof.
    intros HE Hd Hl. destruct n as [|n]; [apply sels_fine; assumption|]. unfold qpath_of.
    assert (Hk : forall k x a, In (x, a) (skipn k l) -> args_outlive out lout a r).
    { intros k x a H. apply (Hl x). rewrite <- (firstn_skipn k l). apply in_or_app. right. exact H. }
    specialize (Hk (S n)). destruct (skipn (S n) l) as [|[x a] q]; [apply HR|]. apply sels_fine.
    - apply HR; [exact Hd| |apply (Hk x); left; reflexivity]. apply path_fine; [exact HE|].
      intros y b H. apply (Hl y). rewrite <- (firstn_skipn (S n) l). apply in_or_app. left. exact H.
    - intros y b H. apply (Hk y). right. exact H.
  Qed.

  Lemma den_fine :
    (forall t E, fine E -> out (den_ty E t) r) /\
    (forall p, match p with Path _ segs => forall E, fine E -> forall x a, In (x, a) (map (den_seg E) segs) -> args_outlive out lout a r end) /\
    (forall s E, fine E -> args_outlive out lout (snd (den_seg E s)) r) /\
    (forall a E, fine E -> args_outlive out lout (den_gargs E a) r) /\
    (forall a E, fine E -> arg_outlives out lout (den_garg E a) r) /\
    (forall b E, fine E -> bound_outlives out lout (den_bound E b) r) /\
    (forall e E, fine E -> out (den_expr E e) r).
  Proof.
    assert (Hlist : forall l E, Forall (fun t => forall E, fine E -> out (den_ty E t) r) l -> fine E ->
      forall d, In d (map (den_ty E) l) -> out d r).
    { intros l E H HE d Hd. apply in_map_iff in Hd. destruct Hd as (t & <- & Ht). rewrite Forall_forall in H. apply H; assumption. }
    assert (Hopt : forall o E, Po (fun t => forall E, fine E -> out (den_ty E t) r) o -> fine E ->
      forall d, (match o with Some t => Some (den_ty E t) | None => None end) = Some d -> out d r).
    { intros [t|] E H HE d Hd; [|discriminate]. injection Hd as <-. apply H. exact HE. }
    apply syntax_ind.
    - intros q [lead segs] Hq Hp E HE. rewrite (d_path U). destruct q as [[t n]|].
      + apply qpath_fine; [exact HE|apply Hq; exact HE|]. apply Hp. exact HE.
      + apply path_fine; [exact HE|]. apply Hp. exact HE.
    - intros lt m t H E HE. rewrite (d_ref U). apply HR; [|apply H; exact HE]. destruct lt; [apply HE|apply HR].
    - intros m t H E HE. rewrite (d_ptr U). apply HR. apply H. exact HE.
    - intros l H E HE. rewrite (d_tuple U). apply HR. apply Hlist; assumption.
    - intros t H E HE. rewrite (d_slice U). apply HR. apply H. exact HE.
    - intros t e H H' E HE. rewrite (d_array U). apply HR; auto.
    - intros lts l o H H' E HE. rewrite (d_fn U). pose proof (under_fine E lts HE) as HE'. apply HR.
      + apply Hlist; assumption.
      + apply Hopt; assumption.
    - intros bs H E HE. rewrite (d_dyn U). apply HR. intros b Hb. apply in_map_iff in Hb. destruct Hb as (b' & <- & Hb).
      rewrite Forall_forall in H. apply H; assumption.
    - intros t H E HE. apply H. exact HE.
    - intros E HE. apply HR.
    - intros m ts E HE. apply HR. exact HE.
    - intros lead segs H E HE x a Hin. apply in_map_iff in Hin. destruct Hin as (s & Es & Hs).
      rewrite Forall_forall in H. pose proof (H s Hs E HE) as X. rewrite Es in X. exact X.
    - intros i a H E HE. apply H. exact HE.
    - intros E HE a [].
    - intros b l H E HE a Ha. change (In a (map (den_garg E) l)) in Ha. apply in_map_iff in Ha. destruct Ha as (a' & <- & Ha).
      rewrite Forall_forall in H. apply H; assumption.
    - intros l o H H' E HE a [<-|[]]. cbn. split; [apply Hlist; assumption|apply Hopt; assumption].
    - intros lt E HE. apply HE.
    - intros t H E HE. apply H. exact HE.
    - intros e H E HE. apply H. exact HE.
    - intros i t H E HE. apply H. exact HE.
    - intros lt E HE. apply HE.
    - intros m lts [lead segs] H E HE. pose proof (under_fine E lts HE) as HE'. cbn.
      apply path_fine; [exact HE'|]. apply H. exact HE'.
    - intros q [lead segs] Hq Hp E HE. rewrite (d_epath U). destruct q as [[t n]|].
      + apply qpath_fine; [exact HE|apply Hq; exact HE|]. apply Hp. exact HE.
      + apply path_fine; [exact HE|]. apply Hp. exact HE.
    - intros s E HE. apply HR.
    - intros f l H H' E HE. rewrite (d_ecall U). apply HR; [apply H; exact HE|].
      intros d Hd. apply in_map_iff in Hd. destruct Hd as (t & <- & Ht). rewrite Forall_forall in H'. apply H'; assumption.
    - intros m ts E HE. apply HR. exact HE.
  Qed.
End Scope.

(** ** The scope of a projected type *)
Lemma Forall2_in_r {A B} (R : A -> B -> Prop) l l' : Forall2 R l l' -> forall y, In y l' -> exists x, In x l /\ R x y.
Proof.
  induction 1 as [|a b l l' H _ IH]; intros y Hy; [destruct Hy|]. destruct Hy as [<-|Hy]; [exists a; split; [left; reflexivity|exact H]|].
  destruct (IH y Hy) as (x & Hx & HR). exists x. split; [right; exact Hx|exact HR].
Qed.
Lemma existsb_names x l : existsb (String.eqb x) l = true <-> In x l.
Proof.
  rewrite existsb_exists. split.
  - intros (y & Hy & E). apply String.eqb_eq in E. subst y. exact Hy.
  - intros H. exists x. split; [exact H|apply String.eqb_refl].
Qed.
Lemma in_param_names x ps : In x (param_names ps) <-> exists i, In i (param_idents ps) /\ name i = x.
Proof.
  unfold param_names, param_idents. rewrite in_flat_map. split.
  - intros ([lt bs|i bs d|i t d] & Hp & H); [destruct H| |]; destruct H as [<-|[]]; exists i; (split; [|reflexivity]); apply in_flat_map;
      eexists; (split; [exact Hp|left; reflexivity]).
  - intros (i & Hi & <-). apply in_flat_map in Hi. destruct Hi as (p & Hp & Hi). exists p. split; [exact Hp|].
    destruct p as [lt bs|j bs d|j t d]; [destruct Hi| |]; destruct Hi as [<-|[]]; left; reflexivity.
Qed.
Lemma in_param_lts x ps : In x (param_lts ps) <-> exists bs, In (PLt x bs) ps.
Proof.
  unfold param_lts. rewrite in_flat_map. split.
  - intros ([lt bs|i bs d|i t d] & Hp & H); [|destruct H|destruct H]. destruct H as [<-|[]]. eauto.
  - intros (bs & H). eexists. split; [exact H|left; reflexivity].
Qed.

Lemma idents_cons lt bs ps : param_idents (PLt lt bs :: ps) = param_idents ps. Proof. reflexivity. Qed.
Lemma spelled_idents i g : param_idents (g_params (spelled i g)) = param_idents (g_params g).
Proof.
  unfold spelled, replace_generics, param_idents. cbn [g_params]. rewrite flat_map_concat_map, map_map, <- flat_map_concat_map.
  apply flat_map_ext. intros [lt bs|j bs d|j t d]; reflexivity.
Qed.
Lemma spelled_lts i g lt : (exists bs, In (PLt lt bs) (g_params (spelled i g))) <-> exists bs, In (PLt lt bs) (g_params g).
Proof.
  unfold spelled, replace_generics. cbn [g_params]. split; intros (bs & H).
  - apply in_map_iff in H. destruct H as ([lt' bs'|j bs' d|j t d] & E & H); try discriminate. injection E as -> <-. eauto.
  - exists bs. apply in_map_iff. exists (PLt lt bs). auto.
Qed.

Section Projected.
  Variables (i : ident) (g gg : generics) (pin : string).
  Hypothesis Hparams : g_params gg = PLt pin [] :: g_params (spelled i g).
  Hypothesis Hpreds : In (WTy [] (applied i (map as_arg (g_params g))) [BLt pin]) (preds gg).
  Hypothesis Hname : ~ In (name i) (map name (param_idents (g_params g))).
  Variable U : univ.
  Variable out : D U -> LT U -> Prop.
  Variable lout : LT U -> LT U -> Prop.
  Hypothesis HR : outlives_rules out lout.
  Variables (E : env (D U) (LT U)) (c : D U) (s : string -> D U) (l : string -> LT U).
  Hypothesis HE : module_level out lout E.
  Hypothesis Hc : names E (name i) = HDef c.
  Hypothesis Hnom : nominal out lout c.
  Notation E' := (with_params (g_params gg) s l E).
  Hypothesis Hsat : outlives_sat out E' (preds gg).

  Lemma names_param j : In j (param_idents (g_params g)) -> names E' (name j) = HDone (s (name j)).
  Proof.
    intros H. cbn [names with_params]. replace (existsb _ _) with true; [reflexivity|]. symmetry. apply existsb_names.
    apply in_param_names. exists j. split; [|reflexivity]. rewrite Hparams, idents_cons, spelled_idents. exact H.
  Qed.
  Lemma names_other x : ~ In x (map name (param_idents (g_params g))) -> names E' x = names E x.
  Proof.
    intros H. cbn [names with_params]. replace (existsb _ _) with false; [reflexivity|]. symmetry. apply not_true_is_false. rewrite existsb_names.
    rewrite in_param_names, Hparams, idents_cons, spelled_idents. intros (j & Hj & <-). apply H. apply in_map. exact Hj.
  Qed.
  Lemma pin_lt : lts_of E' pin = l pin.
  Proof.
    cbn [lts_of with_params]. rewrite Hparams. cbn. rewrite String.eqb_refl. reflexivity.
  Qed.

  Lemma own_den : den_ty E' (applied i (map as_arg (g_params g))) = u_inst U c (map (den_garg E') (map as_arg (g_params g))).
  Proof.
    unfold applied. rewrite (d_path U). cbn [map]. rewrite d_seg. cbn [path_of sels]. rewrite names_other by exact Hname. rewrite Hc.
    cbn [use_head]. f_equal. destruct (map as_arg (g_params g)); reflexivity.
  Qed.

  Lemma param_fine p : In p (g_params g) -> arg_outlives out lout (den_garg E' (as_arg p)) (l pin).
  Proof.
    intros Hp. pose proof (Hsat _ _ Hpreds) as H. rewrite own_den, pin_lt in H. apply (Hnom _ _ H).
    apply in_map. apply in_map. exact Hp.
  Qed.

  Lemma projected_scope : scope_outlives out lout E' (l pin).
  Proof.
    constructor.
    - intros x. destruct (in_dec String.string_dec x (map name (param_idents (g_params g)))) as [Hx|Hx].
      + apply in_map_iff in Hx. destruct Hx as (j & <- & Hj). rewrite (names_param j Hj). cbn.
        unfold param_idents in Hj. apply in_flat_map in Hj. destruct Hj as (p & Hp & Hj). pose proof (param_fine p Hp) as H.
        assert (Hj' : In j (param_idents (g_params g))) by (apply in_flat_map; eauto).
        destruct p as [lt bs|k bs d|k t d]; [destruct Hj| |]; destruct Hj as [<-|[]]; cbn [as_arg] in H; rewrite d_aty in H; cbn [arg_outlives] in H;
          unfold ty_ident in H; rewrite d_path in H; cbn [map] in H; rewrite ?d_seg in H;
          cbn [path_of sels den_gargs] in H; rewrite (names_param _ Hj') in H; exact H.
      + rewrite names_other by exact Hx. apply HE.
    - intros x. destruct (existsb (String.eqb x) (param_lts (g_params gg))) eqn:Ex.
      + apply existsb_names, in_param_lts in Ex. destruct Ex as (bs & Hin). rewrite Hparams in Hin. destruct Hin as [Hin|Hin].
        * injection Hin as <- _. rewrite pin_lt. apply HR.
        * assert (Hb : exists bs, In (PLt x bs) (g_params g)) by (apply (spelled_lts i); eauto). destruct Hb as (bs' & Hb).
          exact (param_fine _ Hb).
      + cbn [lts_of with_params]. rewrite Ex. apply HE.
  Qed.

  Lemma projected_refs k f f' lt t : k <> POwn -> field_projected k pin (own_type i g) f f' -> has_ref (f_ty f') lt t ->
    out (den_ty E' t) (lts_of E' lt).
  Proof.
    intros Hk Hf Hr. assert (lt = pin).
    { assert (forall s m t0, has_ref (priv s (TyRef (Some pin) m t0)) lt t -> lt = pin).
      { unfold priv. clear. intros s m t0 H. inversion H as [|lead segs j b lt' m' t' E1]; subst.
        change [seg1 "pin_project"; seg1 "__private"; Seg (I s) (GAngle false [ATy (TyRef (Some pin) m t0)])] with
          ([seg1 "pin_project"; seg1 "__private"] ++ [Seg (I s) (GAngle false [ATy (TyRef (Some pin) m t0)])]) in *.
        match goal with H : _ ++ _ = _ ++ _ |- _ => apply app_inj_tail in H; destruct H as [_ H]; injection H; intros; congruence end. }
      destruct (pin_b f) eqn:X.
      - apply pin_b_iff in X. rewrite (fp_pinned _ _ _ _ _ Hf X) in Hr. destruct k; [eauto|eauto|contradiction].
      - rewrite (fp_unpinned _ _ _ _ _ Hf) in Hr by (rewrite <- pin_b_iff; congruence).
        destruct k; [inversion Hr; reflexivity|inversion Hr; reflexivity|contradiction]. }
    subst lt. rewrite pin_lt. apply (den_fine U out lout HR); exact projected_scope.
  Qed.
End Projected.

Lemma c46_struct s e a k : parse_derive (ItStruct s) = Ok e -> options (s_attrs s) a -> struct_has k a = true -> k <> POwn ->
  ordered (g_params (s_generics s)) -> ~ In (name (s_ident s)) (map name (param_idents (g_params (s_generics s)))) ->
  exists v gg fs', In (OStruct v (proj_name k a (s_ident s)) gg fs') (all_items e) /\
  forall U out lout E c sb lb, outlives_rules out lout -> module_level out lout E ->
    names E (name (s_ident s)) = HDef c -> nominal out lout c ->
    let E' := with_params (U := U) (g_params gg) sb lb E in
    outlives_sat out E' (preds gg) ->
    forall fld lt t, In fld (fields_list fs') -> has_ref (f_ty fld) lt t -> out (den_ty E' t) (lts_of E' lt).
Proof.
  intros H Ho Hk Hno Hord Hn. destruct (struct_form _ _ _ H Ho) as [_ ->].
  pose proof (struct_kind_in k a (struct_cx a (spelled_struct s)) (s_fields (spelled_struct s)) eq_refl Hk) as Hin.
  rewrite struct_kind_eq in Hin. rewrite kdef_struct in Hin by exact Hord.
  do 3 eexists. split.
  - unfold all_items. apply in_or_app. destruct (is_some (given_name k a)); [left|right]; exact Hin.
  - intros U out lout E c sb lb HR HE Hc Hnom E' Hsat fld lt t Hf.
    assert (Hp := fields_projected_kty k (struct_lt s) (self_type (s_ident s) (s_generics s)) (s_fields s)).
    rewrite self_type_own in *.
    assert (HF : Forall2 (field_projected k (struct_lt s) (own_type (s_ident s) (s_generics s))) (fields_list (s_fields s))
      (fields_list (rebuild_fields (replace_fields (own_type (s_ident s) (s_generics s)) (s_fields s))
       (map (retype (kty k (struct_lt s)))
          (fields_list (replace_fields (own_type (s_ident s) (s_generics s)) (s_fields s))))))).
    { inversion Hp; subst; [assumption|assumption|constructor]. }
    apply (Forall2_in_r _ _ _ HF) in Hf. destruct Hf as (f & _ & Hf).
    eapply projected_refs; try eassumption; [destruct k; [reflexivity|reflexivity|contradiction]|].
    destruct k; [| |contradiction]; cbn; apply in_or_app; right; left; reflexivity.
Qed.
Lemma c46_enum e x a k : parse_derive (ItEnum e) = Ok x -> options (e_attrs e) a -> enum_has k a = true -> k <> POwn ->
  ordered (g_params (e_generics e)) -> ~ In (name (e_ident e)) (map name (param_idents (g_params (e_generics e)))) ->
  exists v gg vs', In (OEnum v (proj_name k a (e_ident e)) gg vs') (all_items x) /\
  forall U out lout E c sb lb, outlives_rules out lout -> module_level out lout E ->
    names E (name (e_ident e)) = HDef c -> nominal out lout c ->
    let E' := with_params (U := U) (g_params gg) sb lb E in
    outlives_sat out E' (preds gg) ->
    forall w fld lt t, In w vs' -> In fld (fields_list (v_fields w)) -> has_ref (f_ty fld) lt t ->
    out (den_ty E' t) (lts_of E' lt).
Proof.
  intros H Ho Hk Hno Hord Hn. destruct (enum_form _ _ _ H Ho) as [_ ->].
  pose proof (enum_kind_in k a (enum_cx a (spelled_enum e)) (e_variants (spelled_enum e)) eq_refl Hk) as Hin.
  rewrite enum_kind_eq in Hin. rewrite kdef_enum in Hin by exact Hord.
  do 3 eexists. split.
  - unfold all_items. apply in_or_app. left; exact Hin.
  - intros U out lout E c sb lb HR HE Hc Hnom E' Hsat w fld lt t Hw Hf.
    assert (Hp := variants_projected k (enum_lt e) (self_type (e_ident e) (e_generics e)) (e_variants e)).
    apply (Forall2_in_r _ _ _ Hp) in Hw. destruct Hw as (w0 & _ & Hw). rewrite self_type_own in Hw.
    assert (HF : Forall2 (field_projected k (enum_lt e) (own_type (e_ident e) (e_generics e))) (fields_list (v_fields w0)) (fields_list (v_fields w))).
    { pose proof (vp_fields _ _ _ _ _ Hw) as X. inversion X; subst; [assumption|assumption|constructor]. }
    apply (Forall2_in_r _ _ _ HF) in Hf. destruct Hf as (f & _ & Hf).
    eapply projected_refs; try eassumption; [destruct k; [reflexivity|reflexivity|contradiction]|].
    destruct k; [| |contradiction]; cbn; apply in_or_app; right; left; reflexivity.
Qed.

(** ** Calling the methods *)
Lemma with_params_same U ps ps' s l (E : env (D U) (LT U)) : param_names ps = param_names ps' -> param_lts ps = param_lts ps' ->
  with_params ps s l E = with_params ps' s l E.
Proof. intros H1 H2. unfold with_params. rewrite H1, H2. reflexivity. Qed.
Lemma without_default_names ps : param_names (map without_default ps) = param_names ps /\ param_lts (map without_default ps) = param_lts ps.
Proof.
  induction ps as [|[lt bs|j bs d|j t d] ps [IH1 IH2]]; [auto| | |]; cbn;
    unfold param_names, param_lts in *; rewrite ?IH1, ?IH2; auto.
Qed.

Lemma calls_general i g gg pin im ks a U (out : D U -> LT U -> Prop) E s l :
  g_params gg = PLt pin [] :: g_params (spelled i g) ->
  preds gg = preds (spelled i g) ++ [WTy [] (applied i (map as_arg (g_params g))) [BLt pin]] ->
  projection_impl ks pin a i g im ->
  let Em := with_params (PLt pin [] :: g_params (i_generics im)) s l E in
  outlives_sat out Em (preds (i_generics im)) -> out (den_ty Em (i_self im)) (l pin) ->
  outlives_sat out (with_params (g_params gg) s l E) (preds gg).
Proof.
  intros H1 H2 [_ Hs Hp Hw _] Em Hsat Hself. assert (EE : with_params (g_params gg) s l E = Em).
  { unfold Em. rewrite H1, Hp. destruct (without_default_names (g_params (spelled i g))) as [X Y].
    apply with_params_same; [exact (eq_sym X)|exact (f_equal (cons pin) (eq_sym Y))]. }
  rewrite EE. intros t lt Hin. rewrite H2 in Hin. apply in_app_or in Hin. destruct Hin as [Hin|[Hin|[]]].
  - apply Hsat. rewrite Hw. exact Hin.
  - injection Hin as <- <-. rewrite Hs in Hself. replace (lts_of Em pin) with (l pin); [exact Hself|].
    unfold Em. cbn. rewrite String.eqb_refl. reflexivity.
Qed.

Lemma c46_struct_calls s e a k : parse_derive (ItStruct s) = Ok e -> options (s_attrs s) a -> struct_has k a = true -> k <> POwn ->
  ordered (g_params (s_generics s)) ->
  exists v gg fs' im pin m, In (OStruct v (proj_name k a (s_ident s)) gg fs') (all_items e) /\
  inherent_impls (all_items e) = [im] /\ In m (i_methods im) /\ m_name m = proj_method k /\ m_lts m = [pin] /\
  m_self m = pin_self (Some pin) (match k with PMut => true | _ => false end) /\
  m_ret m = Some (applied (proj_name k a (s_ident s)) (map as_arg (g_params gg))) /\
  forall U (out : D U -> LT U -> Prop) E sb lb,
    let Em := with_params (PLt pin [] :: g_params (i_generics im)) sb lb E in
    outlives_sat out Em (preds (i_generics im)) -> out (den_ty Em (i_self im)) (lb pin) ->
    outlives_sat out (with_params (g_params gg) sb lb E) (preds gg).
Proof.
  intros H Ho Hk Hno Hord. destruct (c10_impl_struct s e a H Ho Hord) as (im & lt & Him & Hlt & Hpi).
  destruct (struct_form _ _ _ H Ho) as [_ E0].
  pose proof (struct_kind_in k a (struct_cx a (spelled_struct s)) (s_fields (spelled_struct s)) eq_refl Hk) as Hin.
  rewrite struct_kind_eq in Hin. rewrite kdef_struct in Hin by exact Hord.
  pose proof (pin_lifetime_unique _ _ _ Hlt (struct_lt_ok s)) as El. subst lt.
  assert (Hm : exists m, In m (i_methods im) /\ projection_method k (struct_lt s) a (s_ident s) (s_generics s) m).
  { destruct Hpi as [_ _ _ _ HM]. assert (In k (filter (fun k => struct_has k a) all_proj)).
    { apply filter_In. split; [destruct k; cbn; auto|exact Hk]. }
    clear - HM H0. induction HM as [|k0 m ks ms HP HM IH]; [destruct H0|]. destruct H0 as [->|H0].
    - exists m. split; [left; reflexivity|exact HP].
    - destruct (IH H0) as (m' & Hm' & HP'). exists m'. split; [right; exact Hm'|exact HP']. }
  destruct Hm as (m & Hm & Hpm). do 3 eexists. exists im, (struct_lt s), m. split.
  { rewrite E0. unfold all_items. apply in_or_app. destruct (is_some (given_name k a)); [left|right]; exact Hin. }
  split; [exact Him|]. split; [exact Hm|]. destruct Hpm as [P1 P2 P3 P4 P5 P6].
  split; [exact P1|]. split; [rewrite P3; destruct k; [reflexivity|reflexivity|contradiction]|].
  split; [rewrite P4; destruct k; [reflexivity|reflexivity|contradiction]|]. split.
  - rewrite P6. do 2 f_equal. cbn [g_params].
    assert (X : map as_arg (g_params (spelled (s_ident s) (s_generics s))) = map as_arg (g_params (s_generics s))).
    { unfold spelled, replace_generics. cbn [g_params]. rewrite map_map. apply map_ext. intros [? ?|? ? ?|? ? ?]; reflexivity. }
    destruct k; [| |contradiction]; cbn [projected_params map app as_arg]; rewrite X; reflexivity.
  - intros U out E sb lb Em. eapply calls_general; [| |exact Hpi]; destruct k; try contradiction; reflexivity.
Qed.
Lemma c46_enum_calls e x a k : parse_derive (ItEnum e) = Ok x -> options (e_attrs e) a -> enum_has k a = true -> k <> POwn ->
  ordered (g_params (e_generics e)) ->
  exists v gg vs' im pin m, In (OEnum v (proj_name k a (e_ident e)) gg vs') (all_items x) /\
  inherent_impls (all_items x) = [im] /\ In m (i_methods im) /\ m_name m = proj_method k /\ m_lts m = [pin] /\
  m_self m = pin_self (Some pin) (match k with PMut => true | _ => false end) /\
  m_ret m = Some (applied (proj_name k a (e_ident e)) (map as_arg (g_params gg))) /\
  forall U (out : D U -> LT U -> Prop) E sb lb,
    let Em := with_params (PLt pin [] :: g_params (i_generics im)) sb lb E in
    outlives_sat out Em (preds (i_generics im)) -> out (den_ty Em (i_self im)) (lb pin) ->
    outlives_sat out (with_params (g_params gg) sb lb E) (preds gg).
Proof.
  intros H Ho Hk Hno Hord. destruct (c10_impl_enum e x a H Ho Hord) as (im & lt & Him & Hlt & Hpi).
  destruct (enum_form _ _ _ H Ho) as [_ E0].
  pose proof (enum_kind_in k a (enum_cx a (spelled_enum e)) (e_variants (spelled_enum e)) eq_refl Hk) as Hin.
  rewrite enum_kind_eq in Hin. rewrite kdef_enum in Hin by exact Hord.
  pose proof (pin_lifetime_unique _ _ _ Hlt (enum_lt_ok e)) as El. subst lt.
  assert (Hm : exists m, In m (i_methods im) /\ projection_method k (enum_lt e) a (e_ident e) (e_generics e) m).
  { destruct Hpi as [_ _ _ _ HM]. assert (In k (filter (fun k => enum_has k a) all_proj)).
    { apply filter_In. split; [destruct k; cbn; auto|exact Hk]. }
    clear - HM H0. induction HM as [|k0 m ks ms HP HM IH]; [destruct H0|]. destruct H0 as [->|H0].
    - exists m. split; [left; reflexivity|exact HP].
    - destruct (IH H0) as (m' & Hm' & HP'). exists m'. split; [right; exact Hm'|exact HP']. }
  destruct Hm as (m & Hm & Hpm). do 3 eexists. exists im, (enum_lt e), m. split.
  { rewrite E0. unfold all_items. apply in_or_app. left; exact Hin. }
  split; [exact Him|]. split; [exact Hm|]. destruct Hpm as [P1 P2 P3 P4 P5 P6].
  split; [exact P1|]. split; [rewrite P3; destruct k; [reflexivity|reflexivity|contradiction]|].
  split; [rewrite P4; destruct k; [reflexivity|reflexivity|contradiction]|]. split.
  - rewrite P6. do 2 f_equal. cbn [g_params].
    assert (X : map as_arg (g_params (spelled (e_ident e) (e_generics e))) = map as_arg (g_params (e_generics e))).
    { unfold spelled, replace_generics. cbn [g_params]. rewrite map_map. apply map_ext. intros [? ?|? ? ?|? ? ?]; reflexivity. }
    destruct k; [| |contradiction]; cbn [projected_params map app as_arg]; rewrite X; reflexivity.
  - intros U out E sb lb Em. eapply calls_general; [| |exact Hpi]; destruct k; try contradiction; reflexivity.
Qed.
