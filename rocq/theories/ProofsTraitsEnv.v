(** Types mean the same inside [const _] as outside. *)
From Coq Require Import String Ascii List Bool Lia.
From Verif Require Import Base Syntax SyntaxInd ModelArgs ModelUtils ModelDerive ModelMeaning ModelTraits
  SpecArgs SpecDerive SpecLifetime SpecExpand SpecRun SpecMeaning SpecTraits
  ProofsArgs ProofsUtils ProofsDerive ProofsExpand ProofsTypes ProofsMeaning ProofsTraitsForm.
Import ListNotations.
Open Scope string_scope.
Open Scope list_scope.

Lemma existsb_in x l : existsb (String.eqb x) l = true <-> In x l.
Proof.
  rewrite existsb_exists. split.
  - intros (y & Hy & E). apply String.eqb_eq in E. subst y. exact Hy.
  - intros H. exists x. split; [exact H|apply String.eqb_refl].
Qed.
Lemma existsb_notin x l : ~ In x l -> existsb (String.eqb x) l = false.
Proof. intros H. destruct (existsb (String.eqb x) l) eqn:E; [apply existsb_in in E; contradiction|reflexivity]. Qed.

(** ** Names introduced inside [const _] *)
Section Introduced.
  Variable se : setting.
  Lemma introduced_none l x : ~ In x (map name (flat_map introduces l)) -> introduced se l x = None.
  Proof.
    induction l as [|it l IH]; [reflexivity|]. intros H. cbn [flat_map] in H. rewrite map_app in H.
    assert (H1 : ~ In x (map name (flat_map introduces l))) by (intros X; apply H, in_or_app; auto).
    assert (H2 : ~ In x (map name (introduces it))) by (intros X; apply H, in_or_app; auto).
    specialize (IH H1).
    assert (K : forall y, introduces it = [y] -> name y <> x).
    { intros y Ei E. apply H2. rewrite Ei. left. exact E. }
    destruct it as [v i g fs|v i g vs|im|i|i g t|o y]; cbn [introduced]; try exact IH.
    - destruct (String.eqb_spec (name i) x) as [E|Ny]; [destruct (K i eq_refl E)|exact IH].
    - destruct (String.eqb_spec (name i) x) as [E|Ny]; [destruct (K i eq_refl E)|exact IH].
    - destruct (String.eqb_spec (name i) x) as [E|Ny]; [destruct (K i eq_refl E)|exact IH].
    - destruct (String.eqb_spec "__assert_not_repr_packed" x) as [E|Ny]; [destruct (K (I "__assert_not_repr_packed") eq_refl E)|exact IH].
    - destruct (String.eqb_spec (name y) x) as [E|Ny]; [destruct (K y eq_refl E)|exact IH].
  Qed.
  Lemma introduced_gen l x : In x (map name (flat_map introduces l)) ->
    (forall o y, In (OExternCrate o y) l -> name y <> x) -> introduced se l x = Some (HDef (se_gen se x)).
  Proof.
    induction l as [|it l IH]; [intros []|]. intros H Hn. cbn [flat_map] in H. rewrite map_app in H.
    assert (Hn' : forall o y, In (OExternCrate o y) l -> name y <> x) by (intros o y Hin; apply (Hn o y); right; exact Hin).
    apply in_app_or in H.
    assert (K : forall y, name y <> x -> introduces it = [y] -> introduced se l x = Some (HDef (se_gen se x))).
    { intros y Ny Ei. rewrite Ei in H. destruct H as [[H|[]]|H]; [contradiction|]. exact (IH H Hn'). }
    destruct it as [v i g fs|v i g vs|im|i|i g t|o y]; cbn [introduced].
    - destruct (String.eqb_spec (name i) x) as [E|Ny]; [reflexivity|exact (K i Ny eq_refl)].
    - destruct (String.eqb_spec (name i) x) as [E|Ny]; [reflexivity|exact (K i Ny eq_refl)].
    - destruct H as [[]|H]. exact (IH H Hn').
    - destruct (String.eqb_spec (name i) x) as [E|Ny]; [reflexivity|exact (K i Ny eq_refl)].
    - destruct (String.eqb_spec "__assert_not_repr_packed" x) as [E|Ny]; [reflexivity|].
      exact (K (I "__assert_not_repr_packed") Ny eq_refl).
    - destruct (String.eqb_spec (name y) x) as [E|Ny]; [|exact (K y Ny eq_refl)].
      destruct (Hn o y (or_introl eq_refl) E).
  Qed.
End Introduced.

(** ** Parameters *)
Lemma pn_without ps : param_names (map without_default ps) = param_names ps.
Proof. unfold param_names. induction ps as [|[] ps IH]; cbn in *; rewrite ?IH; reflexivity. Qed.
Lemma pl_without ps : param_lts (map without_default ps) = param_lts ps.
Proof. unfold param_lts. induction ps as [|[] ps IH]; cbn in *; rewrite ?IH; reflexivity. Qed.
Lemma pn_replace r ps : param_names (map (replace_param r) ps) = param_names ps.
Proof. unfold param_names. induction ps as [|[] ps IH]; cbn in *; rewrite ?IH; reflexivity. Qed.
Lemma pl_replace r ps : param_lts (map (replace_param r) ps) = param_lts ps.
Proof. unfold param_lts. induction ps as [|[] ps IH]; cbn in *; rewrite ?IH; reflexivity. Qed.
Lemma in_param_names p ps : In p ps -> match p with PLt _ _ => True | PTy i _ _ | PConst i _ _ => In (name i) (param_names ps) end.
Proof. intros H. destruct p; [exact Logic.I| |]; unfold param_names; apply in_flat_map; eexists; (split; [exact H|left; reflexivity]). Qed.
Lemma in_param_lts lt bs ps : In (PLt lt bs) ps -> In lt (param_lts ps).
Proof. intros H. unfold param_lts. apply in_flat_map. exists (PLt lt bs). split; [exact H|left; reflexivity]. Qed.
Lemma pin_not_param g pin : pin_lifetime g pin -> ~ In pin (param_lts (g_params g)).
Proof.
  intros (n & _ & H & _) Hin. unfold param_lts in Hin. apply in_flat_map in Hin. destruct Hin as (p & Hp & Hin).
  destruct p as [lt bs| |]; [|destruct Hin|destruct Hin]. destruct Hin as [->|[]].
  apply (H pin); [eapply D_param; exact Hp|]. exists "". clear.
  induction pin as [|c r IH]; [reflexivity|]. cbn. f_equal. exact IH.
Qed.

Section ParamArgs.
  Variable U : univ.
  (** Equal arguments come from equal instantiations. *)
  Lemma param_args_inj ps s l s' l' : param_args (U := U) ps s l = param_args ps s' l' ->
    (forall x, In x (param_names ps) -> s x = s' x) /\ (forall x, In x (param_lts ps) -> l x = l' x).
  Proof.
    induction ps as [|p ps IH]; [intros _; split; intros x []|]. cbn [param_args map]. intros E.
    injection E as E1 E2. destruct (IH E2) as [A B]. unfold param_names, param_lts in *. cbn [flat_map].
    destruct p; injection E1 as E1; split; intros x Hx; apply in_app_or in Hx;
      try (destruct Hx as [[<-|[]]|Hx]); try (destruct Hx as [[]|Hx]); auto.
  Qed.
  Lemma param_args_ext ps s l s' l' :
    (forall x, In x (param_names ps) -> s x = s' x) -> (forall x, In x (param_lts ps) -> l x = l' x) ->
    param_args (U := U) ps s l = param_args ps s' l'.
  Proof.
    intros A B. unfold param_args. apply map_ext_in. intros p Hp. pose proof (in_param_names p ps Hp) as X.
    destruct p; [rewrite (B lt) by (eapply in_param_lts; exact Hp); reflexivity| |]; rewrite A by exact X; reflexivity.
  Qed.

  (** The type [i<'a, T, N>]. *)
  Lemma den_args n f ps s l :
    (forall x, In x (param_names ps) -> n x = HDone (s x)) -> (forall x, In x (param_lts ps) -> f x = l x) ->
    map (den_garg (U := U) (mkEnv n f)) (map as_arg ps) = param_args ps s l.
  Proof.
    intros A B. unfold param_args. rewrite map_map. apply map_ext_in. intros p Hp. pose proof (in_param_names p ps Hp) as X.
    destruct p as [lt bs|j bs d|j t d]; cbn [as_arg].
    - rewrite d_alt. cbn [lts_of]. rewrite (B lt) by (eapply in_param_lts; exact Hp). reflexivity.
    - rewrite d_aty. unfold ty_ident. rewrite d_path. cbn [map den_seg den_gargs path_of sels].
      change (names (mkEnv n f) (name j)) with (n (name j)). rewrite A by exact X. reflexivity.
    - rewrite d_aty. unfold ty_ident. rewrite d_path. cbn [map den_seg den_gargs path_of sels].
      change (names (mkEnv n f) (name j)) with (n (name j)). rewrite A by exact X. reflexivity.
  Qed.
  Lemma den_applied n f i c l : n (name i) = HDef c ->
    den_ty (U := U) (mkEnv n f) (applied i l) = u_inst U c (map (den_garg (mkEnv n f)) l).
  Proof.
    intros H. unfold applied. rewrite d_path. destruct l as [|x l].
    - cbn [map den_seg den_gargs path_of sels]. change (names (mkEnv n f) (name i)) with (n (name i)). rewrite H. reflexivity.
    - cbn [map]. rewrite d_seg, d_gangle. cbn [path_of sels]. change (names (mkEnv n f) (name i)) with (n (name i)). rewrite H. reflexivity.
  Qed.
  (** A path of the support crate. *)
  Lemma den_pp n f d x ga : n "_pin_project" = HDone d ->
    den_ty (U := U) (mkEnv n f) (pp_priv_ty x ga) =
    u_sel U (u_sel U d "__private" []) x (den_gargs (mkEnv n f) ga).
  Proof.
    intros H. unfold pp_priv_ty, pp_path. cbn [removelast last map app seg1]. rewrite d_path. cbn [map]. rewrite !d_seg.
    cbn [path_of sels name I]. unfold seg1. rewrite !d_seg. cbn [path_of sels name I names]. rewrite H. reflexivity.
  Qed.
  Lemma den_pp_path n f d x : n "_pin_project" = HDone d ->
    den_path (U := U) (mkEnv n f) (pp_path ["__private"; x] GNone) = u_sel U (u_sel U d "__private" []) x [].
  Proof.
    intros H. unfold den_path, pp_path. cbn. rewrite H. reflexivity.
  Qed.
End ParamArgs.

(** What the spelled-out type contains. *)
Lemma nodes_applied i ps x : In x (nodes_ty (applied i (map as_arg ps))) ->
  x = NOddSelf \/ x = NPath None false [i] \/
  (exists lt, In lt (param_lts ps) /\ x = NLt lt) \/
  (exists j, In (name j) (param_names ps) /\ x = NPath None false [j]).
Proof.
  unfold applied. cbn [nodes_ty map seg_ident flat_map nodes_seg app]. intros [<-|H]; [auto|].
  rewrite app_nil_r in H. apply in_app_or in H. destruct H as [H|H]; [|apply odd_self_only in H; auto].
  assert (G : In x (flat_map nodes_garg (map as_arg ps))).
  { destruct (map as_arg ps); [destruct H|exact H]. }
  clear H. apply in_flat_map in G. destruct G as (y & Hy & Hx). apply in_map_iff in Hy. destruct Hy as (p & <- & Hp).
  pose proof (in_param_names p ps Hp) as X.
  destruct p as [lt bs|j bs d|j t d]; cbn [as_arg nodes_garg] in Hx.
  - destruct Hx as [<-|[]]. right. right. left. exists lt. split; [eapply in_param_lts; exact Hp|reflexivity].
  - cbn in Hx. destruct Hx as [<-|Hx]; [right; right; right; eauto|]. left.
    destruct (String.eqb (name j) "Self"); [|destruct Hx]. destruct (ident_eqb j (I "Self")); [destruct Hx|].
    destruct Hx as [<-|[]]. reflexivity.
  - cbn in Hx. destruct Hx as [<-|Hx]; [right; right; right; eauto|]. left.
    destruct (String.eqb (name j) "Self"); [|destruct Hx]. destruct (ident_eqb j (I "Self")); [destruct Hx|].
    destruct Hx as [<-|[]]. reflexivity.
Qed.

Lemma applied_own i g : ordered (g_params g) -> tp_ty (own_type i g) = applied i (map as_arg (g_params g)).
Proof.
  intros H. rewrite <- self_type_own. change (tp_ty (self_type i g)) with (ty_applied i g). apply ty_applied_ordered. exact H.
Qed.

Section Transfer.
  Variable se : setting.
  Hypothesis Hr : rust se.
  Hypothesis Hl : legal se.
  Hypothesis Hu : uncaptured se.
  Notation U := (se_univ se).
  Notation T := (D U).
  Notation it := (se_item se).
  Notation own := (own_type (name_of it) (generics_of it)).
  Variable pin : string.
  Hypothesis Hpin : pin_lifetime (generics_of it) pin.

  (** Names inside [const _], in a place where the parameters are instantiated
      and [Self] is [d]. *)
  Definition inside (s : string -> T) (d : T) (x : string) : head T :=
    if existsb (String.eqb x) (param_names (item_params se)) then HDone (s x)
    else if String.eqb x "Self" then HDone d else names (inner_env se) x.
  Definition outside (s : string -> T) (d : T) (x : string) : head T :=
    if existsb (String.eqb x) (param_names (item_params se)) then HDone (s x)
    else if String.eqb x "Self" then HDone d else names (se_outer se) x.

  Lemma inner_visible x : ~ hidden se x -> names (inner_env se) x = names (se_outer se) x.
  Proof. intros H. cbn [inner_env names]. rewrite (introduced_none se _ x H). reflexivity. Qed.
  Lemma inside_param s d x : In x (param_names (item_params se)) -> inside s d x = HDone (s x).
  Proof. intros H. unfold inside. rewrite (proj2 (existsb_in x _) H). reflexivity. Qed.
  Lemma outside_param s d x : In x (param_names (item_params se)) -> outside s d x = HDone (s x).
  Proof. intros H. unfold outside. rewrite (proj2 (existsb_in x _) H). reflexivity. Qed.
  Lemma inside_item s d : inside s d (item_name se) = HDef (se_def se).
  Proof.
    unfold inside. rewrite existsb_notin by apply (vi_item _ (un_visible _ Hu)).
    destruct (String.eqb_spec (item_name se) "Self") as [E|_]; [destruct (lg_name _ Hl E)|].
    rewrite inner_visible by apply (vi_item _ (un_visible _ Hu)). apply (ru_name _ Hr).
  Qed.
  Lemma outside_item s d : outside s d (item_name se) = HDef (se_def se).
  Proof.
    unfold outside. rewrite existsb_notin by apply (vi_item _ (un_visible _ Hu)).
    destruct (String.eqb_spec (item_name se) "Self") as [E|_]; [destruct (lg_name _ Hl E)|].
    apply (ru_name _ Hr).
  Qed.
  Lemma inside_Self s d : inside s d "Self" = HDone d.
  Proof. unfold inside. rewrite existsb_notin by apply (lg_params _ Hl). reflexivity. Qed.
  Lemma outside_Self s d : outside s d "Self" = HDone d.
  Proof. unfold outside. rewrite existsb_notin by apply (lg_params _ Hl). reflexivity. Qed.
  Lemma inside_visible s s' d x : ~ hidden se x -> (forall y, In y (param_names (item_params se)) -> s y = s' y) ->
    inside s d x = outside s' d x.
  Proof.
    intros H Hs. unfold inside, outside. destruct (existsb (String.eqb x) (param_names (item_params se))) eqn:E.
    - apply existsb_in in E. rewrite (Hs x E). reflexivity.
    - rewrite (inner_visible x H). reflexivity.
  Qed.

  Lemma own_ty : tp_ty own = spelled_self se.
  Proof. apply applied_own. apply (ru_ordered _ Hr). Qed.
  Lemma own_lts lt : In (NLt lt) (nodes_ty (tp_ty own)) -> In lt (param_lts (item_params se)).
  Proof.
    rewrite own_ty. intros H. apply nodes_applied in H.
    destruct H as [H|[H|[(lt' & H & E)|(j & _ & H)]]]; try discriminate. injection E as ->. exact H.
  Qed.
  Lemma own_macro_free : macro_free (nodes_ty (tp_ty own)).
  Proof.
    rewrite own_ty. intros m ts H. apply nodes_applied in H.
    destruct H as [H|[H|[(lt' & _ & E)|(j & _ & H)]]]; discriminate.
  Qed.
  Lemma own_names x : looks_up (nodes_ty (tp_ty own)) x -> x = item_name se \/ In x (param_names (item_params se)).
  Proof.
    rewrite own_ty. intros (q & i & r & H & _ & <-). apply nodes_applied in H.
    destruct H as [H|[H|[(lt' & _ & E)|(j & Hj & H)]]]; try discriminate; injection H as -> -> ->; [left; reflexivity|right; exact Hj].
  Qed.

  (** The spelled-out type means the type. *)
  Lemma own_den n f s l : n (item_name se) = HDef (se_def se) ->
    (forall x, In x (param_names (item_params se)) -> n x = HDone (s x)) ->
    (forall x, In x (param_lts (item_params se)) -> f x = l x) ->
    den_ty (mkEnv n f) (spelled_self se) = item_at se s l.
  Proof.
    intros H1 H2 H3. unfold spelled_self. rewrite (den_applied U n f _ _ _ H1). unfold item_at. f_equal. apply den_args; assumption.
  Qed.

  (** Parts of what the user wrote. *)
  Record part (l : list node) (b : list string) : Prop := {
    pt_written : forall x, In x l -> In x (written se);
    pt_binders : forall x, In x b -> binder se x
  }.

  Section At.
    Variables (s s' : string -> T) (l : string -> LT U).
    Hypothesis Hs : forall y, In y (param_names (item_params se)) -> s y = s' y.
    Let d := item_at se s' l.
    Let n1 := inside s d.
    Let n2 := outside s' d.

    Definition lts_ok (f : string -> LT U) : Prop := forall x, In x (param_lts (item_params se)) -> f x = l x.
    Lemma d_inside f : lts_ok f -> den_ty (mkEnv n1 f) (spelled_self se) = d.
    Proof.
      intros Hf. rewrite (own_den n1 f s l).
      - unfold d, item_at. f_equal. apply param_args_ext; [exact Hs|reflexivity].
      - apply inside_item.
      - intros x Hx. apply inside_param. exact Hx.
      - exact Hf.
    Qed.
    Lemma d_outside f : lts_ok f -> den_ty (mkEnv n2 f) (spelled_self se) = d.
    Proof.
      intros Hf. apply own_den; [apply outside_item| |exact Hf]. intros x Hx. apply outside_param. exact Hx.
    Qed.
    Lemma ok_l : lts_ok l. Proof. intros x _. reflexivity. Qed.

    Lemma part_agree nl b : part nl b -> agree_on U (fun x => x = pin) n1 n2 nl.
    Proof.
      intros [H1 H2]. constructor.
      - intros x (q & i & r & Hin & Hq & Hx). apply inside_visible; [|exact Hs].
        apply (un_names _ Hu). exists q, i, r. auto.
      - intros m ts f g Hin Hfg. apply H1 in Hin.
        rewrite <- (un_spelled _ Hu n1 l) with (m := m) (ts := ts);
          [|unfold n1; rewrite (inside_Self s d); f_equal; symmetry; apply d_inside; apply ok_l|exact Hin].
        rewrite <- (un_spelled _ Hu n2 l) with (m := m) (ts := ts);
          [|unfold n2; rewrite (outside_Self s' d); f_equal; symmetry; apply d_outside; apply ok_l|exact Hin].
        apply (un_macros _ Hu pin); [exact Hpin|exact Hin| |exact Hfg].
        intros x Hx _. apply inside_visible; [exact Hx|exact Hs].
      - intros ? -> Hin. apply H1 in Hin. apply (un_pin _ Hu pin Hpin). exact Hin.
    Qed.
    Lemma part_replaceable nl b : part nl b -> replaceable U own n1 nl b.
    Proof.
      intros [H1 H2]. constructor.
      - intros q lead p Hin. apply (lg_self _ Hl q lead p). apply H1. exact Hin.
      - rewrite own_ty. intros m ts lf Hin. apply (un_spelled _ Hu n1 l); [|apply H1; exact Hin].
        unfold n1. rewrite (inside_Self s d). f_equal. symmetry. apply d_inside. apply ok_l.
      - left. reflexivity.
      - intros x Hx Hin. apply own_lts in Hin. apply (lg_binders _ Hl x Hin). apply H2. exact Hx.
    Qed.
    Lemma n1_self : n1 "Self" = HDone (den_ty (mkEnv n1 l) (tp_ty own)).
    Proof. unfold n1 at 1. rewrite inside_Self, own_ty. f_equal. symmetry. apply d_inside. apply ok_l. Qed.
    Lemma good_ok f : lts_ok f -> good_lts U own l f.
    Proof. intros H x Hx. apply H. apply own_lts. exact Hx. Qed.

    Lemma den_in_ty t f g : part (nodes_ty t) (lts_ty t) -> lts_ok f -> same_but pin f g ->
      den_ty (mkEnv n1 f) (replace_ty own t) = den_ty (mkEnv n2 g) t.
    Proof.
      intros Hp Hf Hfg.
      rewrite (proj1 (den_replace U own n1 l n1_self own_macro_free) t f (good_ok f Hf) (part_replaceable _ _ Hp)).
      apply (proj1 (den_agree U (fun x => x = pin) n1 n2) t f g Hfg (part_agree _ _ Hp)).
    Qed.
    Lemma den_in_bound b f g : part (nodes_bound b) (lts_bound b) -> lts_ok f -> same_but pin f g ->
      den_bound (mkEnv n1 f) (replace_bound own b) = den_bound (mkEnv n2 g) b.
    Proof.
      intros Hp Hf Hfg.
      destruct (den_replace U own n1 l n1_self own_macro_free) as (_ & _ & _ & _ & _ & X & _).
      rewrite (X b f (good_ok f Hf) (part_replaceable _ _ Hp)).
      destruct (den_agree U (fun x => x = pin) n1 n2) as (_ & _ & _ & _ & _ & Y & _).
      apply (Y b f g Hfg (part_agree _ _ Hp)).
    Qed.
    Lemma den_in_path p f g : part (nodes_bound (BTrait false [] p)) (lts_path p) -> lts_ok f -> same_but pin f g ->
      den_path (mkEnv n1 f) (replace_path own p) = den_path (mkEnv n2 g) p.
    Proof.
      intros Hp Hf Hfg. pose proof (den_in_bound (BTrait false [] p) f g Hp Hf Hfg) as E.
      rewrite r_btrait in E. destruct p as [lead segs]. rewrite r_pathc in *. rewrite !d_btrait in E. injection E as E. exact E.
    Qed.

    (** The same when [Self] stands for something else. *)
    Lemma den_in_helper t f g n : (forall x, x <> "Self" -> n x = n1 x) ->
      part (nodes_ty t) (lts_ty t) -> lts_ok f -> same_but pin f g ->
      den_ty (mkEnv n f) (replace_ty own t) = den_ty (mkEnv n2 g) t.
    Proof.
      intros Hn Hp Hf Hfg. rewrite <- (den_in_ty t f g Hp Hf Hfg).
      apply (proj1 (den_agree U (fun x => x = pin) n n1)); [intros x _; reflexivity|].
      pose proof (proj1 (nodes_replace own eq_refl) t) as Ho.
      constructor.
      - intros x (q & i & r & Hin & Hq & <-). apply Hn. intros E. apply Ho in Hin. destruct Hin as [Hin|[Hin|(p' & Hin & Ep & Hodd)]].
        + assert (X : looks_up (nodes_ty (tp_ty own)) (name i)) by (exists q, i, r; auto). apply own_names in X.
          rewrite E in X. destruct X as [X|X]; [apply (lg_name _ Hl); auto|apply (lg_params _ Hl); exact X].
        + congruence.
        + apply (lg_Self _ Hl). apply (pt_written _ _ Hp). eapply Hodd; [reflexivity|reflexivity|exact E].
      - intros m ts f' g' Hin Hfg'. apply Ho in Hin. destruct Hin as [Hin|(ts' & Hin & ->)].
        + destruct (own_macro_free m ts Hin).
        + rewrite own_ty. apply (un_macros _ Hu pin); [exact Hpin|apply (pt_written _ _ Hp); exact Hin| |exact Hfg'].
          intros x _ Hx. apply Hn. exact Hx.
      - intros ? -> Hin. apply Ho in Hin. destruct Hin as [Hin|Hin].
        + apply own_lts in Hin. exact (pin_not_param _ _ Hpin Hin).
        + apply (un_pin _ Hu pin Hpin). apply (pt_written _ _ Hp). exact Hin.
    Qed.

    (** ** Requirements *)
    Variable holds : T -> T -> Prop.
    (** Fix up the lifetimes outside the binder. *)
    Definition rebind (lts : list string) (f' f1 : string -> LT U) : string -> LT U :=
      fun x => if existsb (String.eqb x) lts then f' x else f1 x.
    Lemma rebind_except lts f' f1 : except se lts (rebind lts f' f1) f1.
    Proof. intros x Hx. unfold rebind. rewrite existsb_notin by exact Hx. reflexivity. Qed.
    Lemma rebind_same lts f' f1 f2 : same_but pin f1 f2 -> except se lts f' f2 -> same_but pin (rebind lts f' f1) f'.
    Proof.
      intros H He x Hx. unfold rebind. destruct (existsb (String.eqb x) lts) eqn:E; [reflexivity|].
      rewrite (H x Hx). symmetry. apply He. intros Hin. apply existsb_in in Hin. congruence.
    Qed.
    Lemma same_sym (f g : string -> LT U) : same_but pin f g -> same_but pin g f.
    Proof. intros H x Hx. symmetry. apply H. exact Hx. Qed.
    Lemma ok_except lts f f1 : lts_ok f1 -> except se lts f f1 -> (forall x, In x lts -> binder se x) -> lts_ok f.
    Proof.
      intros H He Hb x Hx. rewrite (He x); [apply H; exact Hx|]. intros Hin. exact (lg_binders _ Hl x Hx (Hb x Hin)).
    Qed.

    Lemma bound_transfer b f g dd : part (nodes_bound b) (lts_bound b) -> lts_ok f -> same_but pin f g ->
      (bound_sat se holds (mkEnv n1 f) dd (replace_bound own b) <-> bound_sat se holds (mkEnv n2 g) dd b).
    Proof.
      intros Hp Hf Hfg. destruct b as [lt|[] lts p].
      - rewrite r_blt. cbn [bound_sat lts_of]. rewrite (Hfg lt); [reflexivity|]. intros ->.
        apply (un_pin _ Hu pin Hpin). apply (pt_written _ _ Hp). left. reflexivity.
      - rewrite r_btrait. reflexivity.
      - rewrite r_btrait. cbn [bound_sat names lts_of].
        assert (Hb : forall x, In x lts -> binder se x).
        { intros x Hx. apply (pt_binders _ _ Hp). cbn [lts_bound]. apply in_or_app. auto. }
        assert (Hp' : part (nodes_bound (BTrait false [] p)) (lts_path p)).
        { split; [destruct p; apply (pt_written _ _ Hp)|]. intros x Hx. apply (pt_binders _ _ Hp). cbn [lts_bound]. apply in_or_app. auto. }
        split; intros H f' Hf'.
        + set (f1 := rebind lts f' f).
          assert (Hok : lts_ok f1) by (eapply ok_except; [exact Hf|apply rebind_except|exact Hb]).
          rewrite <- (den_in_path p f1 f' Hp' Hok); [apply H; apply rebind_except|].
          eapply rebind_same; eassumption.
        + set (g1 := rebind lts f' g).
          assert (Hok : lts_ok f') by (eapply ok_except; [exact Hf|exact Hf'|exact Hb]).
          rewrite (den_in_path p f' g1 Hp' Hok); [apply H; apply rebind_except|].
          apply same_sym. eapply rebind_same; [apply same_sym; exact Hfg|exact Hf'].
    Qed.

    Lemma pred_transfer w f g : part (nodes_wpred w) (lts_wpred w) -> lts_ok f -> same_but pin f g ->
      (pred_sat se holds (mkEnv n1 f) (replace_wpred own w) <-> pred_sat se holds (mkEnv n2 g) w).
    Proof.
      intros Hp Hf Hfg. destruct w as [lt bs|lts t bs]; cbn [replace_wpred pred_sat names lts_of].
      - assert (Hne : forall x, In (NLt x) (nodes_wpred (WLt lt bs)) -> f x = g x).
        { intros x Hx. apply Hfg. intros ->. apply (un_pin _ Hu pin Hpin). apply (pt_written _ _ Hp). exact Hx. }
        assert (E : forall b, In b bs -> f b = g b).
        { intros b Hb. apply Hne. right. apply in_map. exact Hb. }
        rewrite (Hne lt) by (left; reflexivity).
        split; intros H b Hb; [rewrite <- (E b Hb)|rewrite (E b Hb)]; apply H; exact Hb.
      - assert (Hb : forall x, In x lts -> binder se x).
        { intros x Hx. apply (pt_binders _ _ Hp). cbn [lts_wpred]. apply in_or_app. auto. }
        assert (Ht : part (nodes_ty t) (lts_ty t)).
        { split; intros x Hx; [apply (pt_written _ _ Hp)|apply (pt_binders _ _ Hp)]; cbn [nodes_wpred lts_wpred]; rewrite !in_app_iff; auto. }
        assert (Hbs : forall b, In b bs -> part (nodes_bound b) (lts_bound b)).
        { intros b Hin. split; intros x Hx; [apply (pt_written _ _ Hp)|apply (pt_binders _ _ Hp)]; cbn [nodes_wpred lts_wpred];
            rewrite !in_app_iff; [right|right; right]; apply in_flat_map; eauto. }
        split; intros H f' Hf' b Hin.
        + set (f1 := rebind lts f' f).
          assert (Hok : lts_ok f1) by (eapply ok_except; [exact Hf|apply rebind_except|exact Hb]).
          assert (Hsame : same_but pin f1 f') by (eapply rebind_same; eassumption).
          rewrite <- (den_in_ty t f1 f' Ht Hok Hsame).
          apply (bound_transfer b f1 f' _ (Hbs b Hin) Hok Hsame). apply H; [apply rebind_except|]. apply in_map. exact Hin.
        + apply in_map_iff in Hin. destruct Hin as (b0 & <- & Hin).
          set (g1 := rebind lts f' g).
          assert (Hok : lts_ok f') by (eapply ok_except; [exact Hf|exact Hf'|exact Hb]).
          assert (Hsame : same_but pin f' g1) by (apply same_sym; eapply rebind_same; [apply same_sym; exact Hfg|exact Hf']).
          rewrite (den_in_ty t f' g1 Ht Hok Hsame).
          apply (bound_transfer b0 f' g1 _ (Hbs b0 Hin) Hok Hsame). apply H; [apply rebind_except|exact Hin].
    Qed.
  End At.
End Transfer.
