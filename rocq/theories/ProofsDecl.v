(** Generated declarations are legal. *)
From Coq Require Import String Ascii List Bool Arith Lia.
From Verif Require Import Base Syntax SyntaxInd ModelArgs ModelUtils ModelDerive ModelMeaning ModelTraits.
From Verif Require Import SpecArgs SpecDerive SpecLifetime SpecExpand SpecRun SpecMeaning SpecTraits SpecVis SpecDecl.
From Verif Require Import ProofsArgs ProofsUtils ProofsDerive ProofsExpand ProofsTypes ProofsVis ProofsMeaning ProofsRun
  ProofsOutlives ProofsTraitsForm.
Import ListNotations.
Open Scope string_scope.
Open Scope list_scope.

(** ** Mentions survive the replacement of [Self] *)
Section Keep.
  Variable self : type_path.

  (** [y] is still there in [l], unless it is [Self] or [self]. *)
  Definition stays (l : list node) (y : node) : Prop :=
    match y with
    | NLt lt => In (NLt lt) l
    | NPath q false (i :: _) => q <> Some 0 -> name i <> "Self" -> name i <> "self" -> looks_up l (name i)
    | _ => True
    end.
  Lemma stays_sub l l' y : (forall z, In z l -> In z l') -> stays l y -> stays l' y.
  Proof.
    intros H. destruct y as [q [] [|i p]|lt|m ts| |]; cbn; auto. intros Hy A B C.
    destruct (Hy A B C) as (q' & j & r & X & Y & Z). exists q', j, r. auto.
  Qed.
  Definition keeps {A} (h : A -> list node) (r : A -> A) (x : A) : Prop := forall y, In y (h x) -> stays (h (r x)) y.

  Lemma keeps_list {A} (h : A -> list node) (r : A -> A) l : Forall (keeps h r) l -> keeps (flat_map h) (map r) l.
  Proof.
    intros H y Hy. apply in_flat_map in Hy. destruct Hy as (x & Hx & Hy). rewrite Forall_forall in H.
    eapply stays_sub; [|apply (H x Hx); exact Hy]. intros z Hz. apply in_flat_map. exists (r x).
    split; [apply in_map; exact Hx|exact Hz].
  Qed.
  Lemma odd_stays tr q lead segs l x : In x (odd_self tr q lead segs) -> stays l x.
  Proof. intros H. apply odd_self_only in H. subst x. exact Logic.I. Qed.

  Lemma path_stays q lead segs l :
    (path_is_Self q (Path lead segs) = false -> path_starts_Self q (Path lead segs) = false ->
     In (NPath (match q with Some (_, k) => Some k | None => None end) lead
           (map seg_ident (underscore_path (map (replace_seg self) segs)))) l) ->
    stays l (NPath (match q with Some (_, k) => Some k | None => None end) lead (map seg_ident segs)).
  Proof.
    intros H. destruct lead; [exact Logic.I|]. destruct segs as [|[i a] rest]; [exact Logic.I|].
    cbn [map seg_ident stays]. intros H0 H1 H2.
    assert (Hs : ident_is i "Self" = false) by (unfold ident_is; apply String.eqb_neq in H1; rewrite H1; apply andb_false_r).
    assert (Ho : ident_is i "self" = false) by (unfold ident_is; apply String.eqb_neq in H2; rewrite H2; apply andb_false_r).
    rewrite seg_ident_underscore, seg_ident_replace in H.
    assert (E : exists r, replace_ids (map seg_ident (Seg i a :: rest)) = i :: r).
    { destruct rest; cbn; [|eauto]. unfold prepend_underscore_to_self. rewrite Ho. eauto. }
    destruct E as (r & E). rewrite E in H.
    eexists _, i, r. split; [|split; [exact H0|reflexivity]]. apply H.
    - destruct q, a, rest; cbn; try reflexivity. exact Hs.
    - destruct q, a, rest; cbn; try reflexivity. exact Hs.
  Qed.

  Lemma nodes_kept :
    (forall t, keeps nodes_ty (replace_ty self) t) /\
    (forall p, match p with Path _ segs => keeps (flat_map nodes_seg) (map (replace_seg self)) segs end) /\
    (forall s, keeps nodes_seg (replace_seg self) s) /\
    (forall a, keeps nodes_gargs (replace_gargs self) a) /\
    (forall a, keeps nodes_garg (replace_garg self) a) /\
    (forall b, keeps nodes_bound (replace_bound self) b) /\
    (forall e, keeps nodes_expr (replace_expr self) e).
  Proof.
    assert (Ho : forall o, Po (keeps nodes_ty (replace_ty self)) o ->
      keeps (fun o => match o with Some t => nodes_ty t | None => [] end)
           (fun o => match o with Some t => Some (replace_ty self t) | None => None end) o).
    { intros [t|] H; [exact H|intros y []]. }
    assert (Hin : forall (l1 l2 l1' l2' : list node), (forall y, In y l1 -> stays l1' y) -> (forall y, In y l2 -> stays l2' y) ->
      forall y, In y (l1 ++ l2) -> stays (l1' ++ l2') y).
    { intros l1 l2 l1' l2' H1 H2 y Hy. apply in_app_or in Hy. destruct Hy as [Hy|Hy].
      - eapply stays_sub; [|apply H1; exact Hy]. intros z Hz. apply in_or_app. auto.
      - eapply stays_sub; [|apply H2; exact Hy]. intros z Hz. apply in_or_app. auto. }
    (* a path, as a type or as an expression *)
    assert (Hpp : forall q lead segs l, Pq (keeps nodes_ty (replace_ty self)) q ->
      keeps (flat_map nodes_seg) (map (replace_seg self)) segs ->
      (path_is_Self q (Path lead segs) = false ->
       path_starts_Self q (Path lead segs) = true ->
       forall z, In z (flat_map nodes_seg (skipn 1 (map (replace_seg self) segs))) -> In z l) ->
      (path_is_Self q (Path lead segs) = false ->
       path_starts_Self q (Path lead segs) = false ->
       forall z, In z (NPath (match q with Some (_, k) => Some k | None => None end) lead
           (map seg_ident (underscore_path (map (replace_seg self) segs))) ::
           match q with Some (t, _) => nodes_ty (replace_ty self t) | None => [] end ++
           flat_map nodes_seg (map (replace_seg self) segs)) -> In z l) ->
      forall y, In y (nodes_ty (TyPath q (Path lead segs))) -> stays l y).
    { intros q lead segs l Hq' Hp H1 H2 y Hy. cbn [nodes_ty] in Hy. destruct Hy as [<-|Hy].
      - apply path_stays. intros A B. apply H2; [exact A|exact B|]. left. reflexivity.
      - apply in_app_or in Hy. destruct Hy as [Hy|Hy].
        + destruct q as [[t n]|]; [|destruct Hy]. cbn in Hq'. eapply stays_sub; [|apply Hq'; exact Hy].
          intros z Hz. apply H2; [reflexivity|reflexivity|]. right. apply in_or_app. left. exact Hz.
        + apply in_app_or in Hy. destruct Hy as [Hy|Hy]; [|eapply odd_stays; exact Hy].
          destruct (path_is_Self q (Path lead segs)) eqn:E1.
          { apply path_is_Self_true in E1. destruct E1 as [_ X]. injection X as -> ->. destruct Hy. }
          destruct (path_starts_Self q (Path lead segs)) eqn:E2.
          * eapply stays_sub; [apply H1; [reflexivity|reflexivity]|].
            destruct q; [discriminate|]. destruct lead; [discriminate|]. destruct segs as [|[i []] segs]; try discriminate.
            exact (Hp y Hy).
          * eapply stays_sub; [|apply Hp; exact Hy]. intros z Hz. apply H2; [reflexivity|reflexivity|]. right. apply in_or_app. right. exact Hz. }
    apply syntax_ind.
    - intros q [lead segs] Hq' Hp. intros y. rewrite r_path. apply Hpp; [exact Hq'|exact Hp| |].
      + intros E1 E2 z Hz. rewrite E1, E2. right. apply in_or_app. right. apply in_or_app. left. rewrite nodes_underscore. exact Hz.
      + intros E1 E2 z Hz. rewrite E1, E2, r_pathc. cbn [nodes_ty]. destruct Hz as [<-|Hz].
        * left. destruct q as [[]|]; reflexivity.
        * right. rewrite nodes_underscore. apply in_app_or in Hz. destruct Hz as [Hz|Hz].
          -- apply in_or_app. left. destruct q as [[]|]; exact Hz.
          -- apply in_or_app. right. apply in_or_app. left. exact Hz.
    - intros lt m t H. intros y. rewrite r_ref. cbn [nodes_ty]. apply Hin; [|exact H].
      intros z Hz. destruct lt as [x|]; [|destruct Hz]. destruct Hz as [<-|[]]. left. reflexivity.
    - intros m t H y. rewrite r_ptr. apply H.
    - intros l H y. rewrite r_tuple. exact (keeps_list _ _ l H y).
    - intros t H y. rewrite r_slice. apply H.
    - intros t e H H' y. rewrite r_array. apply Hin; assumption.
    - intros lts l o H H' y. rewrite r_fn. cbn [nodes_ty]. apply Hin; [exact (keeps_list _ _ l H)|exact (Ho o H')].
    - intros l H y. rewrite r_dyn. exact (keeps_list _ _ l H y).
    - intros t H y. rewrite r_paren. apply H.
    - intros y [].
    - intros m ts y [<-|[]]. exact Logic.I.
    - intros lead segs H. apply keeps_list. exact H.
    - intros i a H y. rewrite r_seg. apply H.
    - intros y [].
    - intros b l H y. rewrite r_gangle. exact (keeps_list _ _ l H y).
    - intros l o H H' y. rewrite r_gparen. cbn [nodes_gargs]. apply Hin; [exact (keeps_list _ _ l H)|exact (Ho o H')].
    - intros lt y [<-|[]]. left. reflexivity.
    - intros t H y. rewrite r_aty. apply H.
    - intros t H y. rewrite r_aconst. apply H.
    - intros i t H y. rewrite r_aassoc. apply H.
    - intros lt y [<-|[]]. left. reflexivity.
    - intros m lts [lead segs] H y Hy. rewrite r_btrait, r_pathc. cbn [nodes_bound] in *. destruct Hy as [<-|Hy].
      + apply (path_stays None). intros _ _. left. reflexivity.
      + apply in_app_or in Hy. destruct Hy as [Hy|Hy]; [|eapply odd_stays; exact Hy].
        eapply stays_sub; [|apply H; exact Hy]. intros z Hz. right. apply in_or_app. left. rewrite nodes_underscore. exact Hz.
    - intros q [lead segs] Hq' Hp y Hy. rewrite r_epath. cbn [nodes_expr] in Hy. destruct Hy as [Hy|Hy].
      + eapply Hpp; [exact Hq'|exact Hp| | |left; exact Hy].
        * intros E1 E2 z Hz. rewrite E1, E2. right. apply in_or_app. right. apply in_or_app. left. rewrite nodes_underscore. exact Hz.
        * intros E1 E2 z Hz. rewrite E1, E2, r_pathc. cbn [nodes_expr]. destruct Hz as [<-|Hz].
          -- left. destruct q as [[]|]; reflexivity.
          -- right. rewrite nodes_underscore. apply in_app_or in Hz. destruct Hz as [Hz|Hz].
             ++ apply in_or_app. left. destruct q as [[]|]; exact Hz.
             ++ apply in_or_app. right. apply in_or_app. left. exact Hz.
      + assert (Hy' : In y (nodes_ty (TyPath q (Path lead segs))) \/ stays [] y).
        { rewrite !in_app_iff in Hy. cbn [nodes_ty]. destruct Hy as [Hy|[Hy|[Hy|Hy]]].
          - left. right. apply in_or_app. left. exact Hy.
          - left. right. apply in_or_app. right. apply in_or_app. left. exact Hy.
          - right. eapply odd_stays. exact Hy.
          - right. destruct q; [destruct Hy|]. destruct lead; [destruct Hy|].
            destruct segs as [|[i []] [|]]; try destruct Hy.
            destruct (ident_eqb i (I "Self")); [|destruct Hy]. destruct Hy as [<-|[]]. exact Logic.I. }
        destruct Hy' as [Hy'|Hy']; [|eapply stays_sub; [|exact Hy']; intros z []].
        eapply Hpp; [exact Hq'|exact Hp| | |exact Hy'].
        * intros E1 E2 z Hz. rewrite E1, E2. right. apply in_or_app. right. apply in_or_app. left. rewrite nodes_underscore. exact Hz.
        * intros E1 E2 z Hz. rewrite E1, E2, r_pathc. cbn [nodes_expr]. destruct Hz as [<-|Hz].
          -- left. destruct q as [[]|]; reflexivity.
          -- right. rewrite nodes_underscore. apply in_app_or in Hz. destruct Hz as [Hz|Hz].
             ++ apply in_or_app. left. destruct q as [[]|]; exact Hz.
             ++ apply in_or_app. right. apply in_or_app. left. exact Hz.
    - intros s y [].
    - intros f l H H' y. rewrite r_ecall. cbn [nodes_expr]. apply Hin; [exact H|exact (keeps_list _ _ l H')].
    - intros m ts y [<-|[]]. exact Logic.I.
  Qed.

  Lemma occurs_replace p t : (forall i, In i (param_idents [p]) -> name i <> "Self" /\ name i <> "self") ->
    occurs p t -> occurs p (replace_ty self t).
  Proof.
    intros Hp. destruct p as [lt bs|i bs d|i ct d]; cbn [occurs].
    - apply (proj1 nodes_kept t).
    - intros (q & j & r & Hin & Hq & E). apply (proj1 nodes_kept t) in Hin. cbn in Hin. rewrite E in Hin.
      destruct (Hp i); [left; reflexivity|]. apply Hin; assumption.
    - intros (q & j & r & Hin & Hq & E). apply (proj1 nodes_kept t) in Hin. cbn in Hin. rewrite E in Hin.
      destruct (Hp i); [left; reflexivity|]. apply Hin; assumption.
  Qed.
End Keep.

(** ** The generated items, one by one *)
Lemma struct_items a s o :
  In o (all_items (struct_out (struct_cx a s) (s_fields s))) ->
  (exists k, struct_has k a = true /\ o = struct_kind k (struct_cx a s) (s_fields s)) \/
  (exists x y, o = OExternCrate x y) \/
  (exists im, o = OImpl im /\ i_trait im = None) \/
  o = assert_item (struct_cx a s) (s_fields s) \/
  In o (make_unpin_impl (struct_cx a s) (map f_ty (filter pin_b (fields_list (s_fields s))))) \/
  In o (make_drop_impl (struct_cx a s)).
Proof.
  unfold all_items, struct_out. change (cx_args (struct_cx a s)) with a. cbn [exposed scoped].
  assert (Hk : forall k, struct_has k a = true -> In o [struct_kind k (struct_cx a s) (s_fields s)] ->
    exists k, struct_has k a = true /\ o = struct_kind k (struct_cx a s) (s_fields s)) by (intros k A [<-|[]]; eauto).
  assert (Hr : (pr_span (ar_project_replace a) = true -> struct_has POwn a = true) /\
               (is_some (pr_ident (ar_project_replace a)) = true -> struct_has POwn a = true)).
  { unfold struct_has. destruct (ar_project_replace a); cbn; auto. }
  assert (Hw : forall b k, In o (when b [struct_kind k (struct_cx a s) (s_fields s)]) -> (b = true -> struct_has k a = true) ->
    exists k, struct_has k a = true /\ o = struct_kind k (struct_cx a s) (s_fields s)).
  { intros [] k X Y; [apply (Hk k); [apply Y; reflexivity|exact X]|destruct X]. }
  intros H. apply in_app_or in H. destruct H as [H|[H|H]].
  - left. apply in_app_or in H. destruct H as [H|H]; [apply (Hw _ PMut H); reflexivity|].
    apply in_app_or in H. destruct H as [H|H]; [apply (Hw _ PRef H); reflexivity|].
    apply (Hw _ POwn H). intros X. apply andb_true_iff in X. apply (proj1 Hr), X.
  - right. left. subst o. eauto.
  - apply in_app_or in H. destruct H as [H|H].
    + apply in_app_or in H. destruct H as [H|H]; [left; apply (Hw _ PMut H); reflexivity|].
      apply in_app_or in H. destruct H as [H|H]; [left; apply (Hw _ PRef H); reflexivity|].
      apply in_app_or in H. destruct H as [H|H].
      * left. apply (Hw _ POwn H). intros X. apply andb_true_iff in X. apply (proj1 Hr), X.
      * destruct H as [<-|[<-|[]]]; [|auto 10]. right. right. left. eexists. split; reflexivity.
    + apply in_app_or in H. destruct H as [H|H]; auto 10.
Qed.
Lemma enum_items a e o : ar_project_replace a <> PRUnnamed ->
  In o (all_items (enum_out (enum_cx a e) (e_variants e))) ->
  (exists k, enum_has k a = true /\ o = enum_kind k (enum_cx a e) (e_variants e)) \/
  (exists x y, o = OExternCrate x y) \/
  (exists im, o = OImpl im /\ i_trait im = None) \/
  In o (make_unpin_impl (enum_cx a e) (flat_map (fun v => pinned_tys (fields_list (v_fields v))) (e_variants e))) \/
  In o (make_drop_impl (enum_cx a e)).
Proof.
  intros N. unfold all_items, enum_out. change (cx_args (enum_cx a e)) with a. cbn [exposed scoped].
  assert (Hw : forall b k, In o (when b [enum_kind k (enum_cx a e) (e_variants e)]) -> (b = true -> enum_has k a = true) ->
    exists k, enum_has k a = true /\ o = enum_kind k (enum_cx a e) (e_variants e)).
  { intros [] k X Y; [|destruct X]. destruct X as [<-|[]]. eauto. }
  intros H. apply in_app_or in H. destruct H as [H|[H|H]].
  - left. apply in_app_or in H. destruct H as [H|H].
    { apply (Hw _ PMut H). unfold enum_has. cbn. destruct (ar_project a); [reflexivity|discriminate]. }
    apply in_app_or in H. destruct H as [H|H].
    { apply (Hw _ PRef H). unfold enum_has. cbn. destruct (ar_project_ref a); [reflexivity|discriminate]. }
    apply (Hw _ POwn H). unfold enum_has. cbn. destruct (ar_project_replace a); [discriminate|discriminate|reflexivity].
  - right. left. subst o. eauto.
  - apply in_app_or in H. destruct H as [H|H].
    + destruct H as [<-|[]]. right. right. left. eexists. split; reflexivity.
    + apply in_app_or in H. destruct H as [H|H]; auto 10.
Qed.

(** The generics of the projected type [k]. *)
Definition pgen (k : proj) (lt : string) (i : ident) (g : generics) : generics :=
  mkGenerics (projected_params k lt (spelled i g)) (Some (projected_preds k lt i g (spelled i g))).

Lemma item_forms it e a : parse_derive it = Ok e -> options (attrs_of it) a -> ordered (g_params (generics_of it)) ->
  exists pin, pin_lifetime (generics_of it) pin /\ forall o, In o (all_items e) ->
  (exists s k v n fs', it = ItStruct s /\ has_proj k it a = true /\
     o = OStruct v n (pgen k pin (name_of it) (generics_of it)) fs' /\
     fields_projected k pin (own_type (name_of it) (generics_of it)) (s_fields s) fs') \/
  (exists en k v n vs', it = ItEnum en /\ has_proj k it a = true /\
     o = OEnum v n (pgen k pin (name_of it) (generics_of it)) vs' /\
     Forall2 (variant_projected k pin (own_type (name_of it) (generics_of it))) (e_variants en) vs') \/
  (exists x y, o = OExternCrate x y) \/
  (exists im, o = OImpl im /\ i_trait im = None) \/
  (exists t ms, o = OAssert (plain_generics (spelled (name_of it) (generics_of it))) t ms) \/
  In o (unpin_items a (replace_vis (vis_of it)) (name_of it) (generics_of it) pin (pinned_types it)) \/
  In o (drop_items a (name_of it) (generics_of it)).
Proof.
  intros H Ho Hord. destruct it as [s|en|]; [| |discriminate]; cbn [attrs_of name_of generics_of vis_of] in *.
  - destruct (struct_form _ _ _ H Ho) as [_ ->]. exists (struct_lt s). split; [apply struct_lt_ok|]. intros o Hin.
    apply struct_items in Hin. destruct Hin as [(k & Hk & ->)|[Hin|[Hin|[->|[Hin|Hin]]]]].
    + left. rewrite struct_kind_eq. do 5 eexists. split; [reflexivity|]. split; [exact Hk|].
      rewrite kdef_struct by exact Hord. split; [reflexivity|]. rewrite <- self_type_own. apply fields_projected_kty.
    + right. right. left. exact Hin.
    + do 3 right. left. exact Hin.
    + do 4 right. left. unfold assert_item. destruct (impl_header s a Hord) as [E _]. rewrite E. do 2 eexists. reflexivity.
    + do 5 right. left.
      rewrite <- (unpin_form (s_ident s) (s_generics s) Hord a (s_attrs (spelled_struct s)) (replace_vis (s_vis s)) KStruct).
      eapply eq_ind; [exact Hin|]. f_equal. unfold pinned_types. cbn [fields_of flat_map name_of generics_of]. rewrite app_nil_r.
      cbn [spelled_struct replace_struct s_fields]. rewrite fields_list_replace. apply pinned_tys_replace.
    + do 6 right.
      rewrite <- (drop_form (s_ident s) (s_generics s) Hord a (s_attrs (spelled_struct s)) (replace_vis (s_vis s)) KStruct).
      exact Hin.
  - destruct (enum_form _ _ _ H Ho) as [Ha ->]. exists (enum_lt en). split; [apply enum_lt_ok|]. intros o Hin.
    apply enum_items in Hin; [|apply (ae_replace_named _ _ Ha)].
    destruct Hin as [(k & Hk & ->)|[Hin|[Hin|[Hin|Hin]]]].
    + right. left. rewrite enum_kind_eq. do 5 eexists. split; [reflexivity|]. split; [exact Hk|].
      rewrite kdef_enum by exact Hord. split; [reflexivity|]. rewrite <- self_type_own. apply variants_projected.
    + right. right. left. exact Hin.
    + do 3 right. left. exact Hin.
    + do 5 right. left.
      rewrite <- (unpin_form (e_ident en) (e_generics en) Hord a (e_attrs (spelled_enum en)) (replace_vis (e_vis en)) KEnum).
      eapply eq_ind; [exact Hin|]. f_equal. unfold pinned_types. cbn [fields_of name_of generics_of].
      cbn [spelled_enum replace_enum e_variants]. rewrite !flat_map_concat_map, !map_map. f_equal. apply map_ext. intros v.
      cbn [replace_variant v_fields]. unfold pinned_tys. rewrite fields_list_replace. apply pinned_tys_replace.
    + do 6 right.
      rewrite <- (drop_form (e_ident en) (e_generics en) Hord a (e_attrs (spelled_enum en)) (replace_vis (e_vis en)) KEnum).
      exact Hin.
Qed.

(** ** Parameters *)
Lemma lt_params_lts l : lt_params l = param_lts l.
Proof. reflexivity. Qed.
Lemma spelled_lt_params i g : lt_params (g_params (spelled i g)) = lt_params (g_params g).
Proof.
  unfold spelled, replace_generics, lt_params. cbn [g_params]. rewrite flat_map_concat_map, map_map, <- flat_map_concat_map.
  apply flat_map_ext. intros []; reflexivity.
Qed.
Lemma idents_without_default l : param_idents (map without_default l) = param_idents l.
Proof. unfold param_idents. rewrite flat_map_concat_map, map_map, <- flat_map_concat_map. apply flat_map_ext. intros []; reflexivity. Qed.
Lemma lts_without_default l : lt_params (map without_default l) = lt_params l.
Proof. unfold lt_params. rewrite flat_map_concat_map, map_map, <- flat_map_concat_map. apply flat_map_ext. intros []; reflexivity. Qed.
Lemma ordered_without_default l : ordered l -> ordered (map without_default l).
Proof.
  intros (a & b & -> & Ha & Hb). exists (map without_default a), (map without_default b).
  split; [apply map_app|]. split; intros p Hp; apply in_map_iff in Hp; destruct Hp as ([] & <- & Hq);
    first [apply (Ha _ Hq)|apply (Hb _ Hq)].
Qed.
Lemma in_lt_params lt l : In lt (lt_params l) <-> exists bs, In (PLt lt bs) l.
Proof. apply in_param_lts. Qed.

Section Params.
  Variables (i : ident) (g : generics) (pin : string).
  Hypothesis Hl : params_legal (g_params g).
  Hypothesis Hpin : pin_lifetime g pin.
  Lemma pin_not_param : ~ In pin (lt_params (g_params g)).
  Proof. rewrite in_lt_params. intros (bs & H). apply (pin_lifetime_fresh _ _ Hpin). eapply D_param. exact H. Qed.
  Lemma spelled_ordered : ordered (g_params (spelled i g)).
  Proof. unfold spelled. apply ordered_replace. apply Hl. Qed.
  Lemma legal_spelled : params_legal (g_params (spelled i g)).
  Proof.
    constructor.
    - apply spelled_ordered.
    - rewrite spelled_lt_params. apply Hl.
    - rewrite spelled_idents. apply Hl.
    - rewrite spelled_idents. apply Hl.
  Qed.
  Lemma legal_plain l : params_legal l -> params_legal (map without_default l).
  Proof.
    intros H. constructor.
    - apply ordered_without_default, H.
    - rewrite lts_without_default. apply H.
    - rewrite idents_without_default. apply H.
    - rewrite idents_without_default. apply H.
  Qed.
  Lemma legal_pin l : lt_params l = lt_params (g_params g) -> params_legal l -> params_legal (PLt pin [] :: l).
  Proof.
    intros E H. constructor.
    - apply ordered_cons, H.
    - change (NoDup (pin :: lt_params l)). constructor; [|apply H]. rewrite E. apply pin_not_param.
    - cbn. apply H.
    - cbn. apply H.
  Qed.
  Lemma legal_projected k : params_legal (projected_params k pin (spelled i g)).
  Proof.
    destruct k; cbn [projected_params]; try apply legal_spelled; apply legal_pin; try apply legal_spelled; apply spelled_lt_params.
  Qed.
End Params.

(** ** Uses *)
Lemma occurs_sub p t t' : (forall y, In y (nodes_ty t) -> In y (nodes_ty t')) -> occurs p t -> occurs p t'.
Proof.
  intros H. destruct p as [lt bs|i bs d|i ct d]; cbn [occurs]; [apply H| |];
    intros (q & j & r & A & B & C); exists q, j, r; auto.
Qed.
Lemma in_priv s t y : In y (nodes_ty t) -> In y (nodes_ty (priv s t)).
Proof. intros H. right. cbn. rewrite !app_nil_r. exact H. Qed.
Lemma in_ref lt m t y : In y (nodes_ty t) -> In y (nodes_ty (TyRef (Some lt) m (TyParen t))).
Proof. intros H. right. exact H. Qed.
Lemma in_pinned_ty k lt t y : In y (nodes_ty t) -> In y (nodes_ty (pinned_ty k lt t)).
Proof. intros H. destruct k; cbn [pinned_ty]; apply in_priv; try apply in_ref; exact H. Qed.
Lemma in_unpinned_ty k lt t y : In y (nodes_ty t) -> In y (nodes_ty (unpinned_ty k lt t)).
Proof. intros H. destruct k; cbn [unpinned_ty]; try apply in_ref; exact H. Qed.
Lemma pin_in_pinned_ty k lt t : k <> POwn -> In (NLt lt) (nodes_ty (pinned_ty k lt t)).
Proof. intros H. destruct k; [| |elim H; reflexivity]; apply in_priv; left; reflexivity. Qed.
Lemma pin_in_unpinned_ty k lt t : k <> POwn -> In (NLt lt) (nodes_ty (unpinned_ty k lt t)).
Proof. intros H. destruct k; [| |elim H; reflexivity]; left; reflexivity. Qed.

Lemma pinned_dec f : pinned f \/ ~ pinned f.
Proof. destruct (pin_b f) eqn:E; [left; apply pin_b_iff; exact E|right; rewrite <- pin_b_iff, E; discriminate]. Qed.

Lemma field_occurs k lt self f f' p :
  (forall i, In i (param_idents [p]) -> name i <> "Self" /\ name i <> "self") ->
  field_projected k lt self f f' -> occurs p (f_ty f) -> occurs p (f_ty f').
Proof.
  intros Hp [_ _ _ _ H1 H2] Ho. apply (occurs_replace self) in Ho; [|exact Hp].
  destruct (pinned_dec f) as [Hf|Hf]; [rewrite (H1 Hf)|rewrite (H2 Hf)]; (eapply occurs_sub; [|exact Ho]); intros y Hy;
    [apply in_pinned_ty|apply in_unpinned_ty]; exact Hy.
Qed.
Lemma field_pin k lt self f f' : k <> POwn -> field_projected k lt self f f' -> In (NLt lt) (nodes_ty (f_ty f')).
Proof.
  intros Hk [_ _ _ _ H1 H2].
  destruct (pinned_dec f) as [Hf|Hf]; [rewrite (H1 Hf)|rewrite (H2 Hf)]; [apply pin_in_pinned_ty|apply pin_in_unpinned_ty]; exact Hk.
Qed.

(** ** Fields *)
Lemma projected_list k lt self fs fs' : fields_projected k lt self fs fs' ->
  Forall2 (field_projected k lt self) (fields_list fs) (fields_list fs').
Proof. intros []; [assumption|assumption|constructor]. Qed.
Lemma projected_idents k lt self l l' : Forall2 (field_projected k lt self) l l' -> map f_ident l' = map f_ident l.
Proof. induction 1 as [|f f' l l' H _ IH]; cbn; [reflexivity|]. f_equal; [apply H|exact IH]. Qed.
Lemma projected_legal k lt self fs fs' : fields_projected k lt self fs fs' -> fields_legal fs -> fields_legal fs'.
Proof.
  intros [l l' H|l l' H|]; cbn; [| |auto].
  - intros [H1 H2]. apply projected_idents in H. rewrite <- (map_map f_ident (option_map name)) in *. rewrite H.
    split; [|exact H2]. intros f Hf E. assert (X : In None (map f_ident l')) by (rewrite <- E; apply in_map; exact Hf).
    rewrite H in X. apply in_map_iff in X. destruct X as (f' & E' & Hf'). apply (H1 f' Hf' E').
  - intros H1 f Hf. apply projected_idents in H. assert (X : In (f_ident f) (map f_ident l')) by (apply in_map; exact Hf).
    rewrite H in X. apply in_map_iff in X. destruct X as (f' & E' & Hf'). rewrite <- E'. apply H1. exact Hf'.
Qed.
Lemma Forall2_in_l {A B} (R : A -> B -> Prop) l l' x : Forall2 R l l' -> In x l -> exists y, In y l' /\ R x y.
Proof.
  intros H. induction H as [|a b l l' Hab _ IH]; [intros []|]. intros [->|Hx]; [exists b; split; [left; reflexivity|exact Hab]|].
  destruct (IH Hx) as (y & Hy & HR). exists y. split; [right; exact Hy|exact HR].
Qed.

(** A projected type.  [fss'] are the projected field lists. *)
Lemma projected_type_legal i g pin k fss fss' vs vs' :
  pin_lifetime g pin -> type_legal (g_params g) fss vs ->
  Forall2 (fields_projected k pin (own_type i g)) fss fss' ->
  map name vs' = map name vs -> (exists fs f, In fs fss /\ In f (fields_list fs)) ->
  type_legal (projected_params k pin (spelled i g)) fss' vs'.
Proof.
  intros Hpin [Hl Hu Hf Hv] HF Ev Hne. constructor.
  - apply legal_projected; assumption.
  - assert (Hin : forall p, In p (g_params (spelled i g)) -> is_const p = false ->
      exists fs f, In fs fss' /\ In f (fields_list fs) /\ occurs p (f_ty f)).
    { intros p Hp Hc. unfold spelled, replace_generics in Hp. cbn [g_params] in Hp. apply in_map_iff in Hp.
      destruct Hp as (p0 & <- & Hp). destruct (Hu p0 Hp) as (fs & f & A & B & C); [destruct p0; [reflexivity|reflexivity|exact Hc]|].
      destruct (Forall2_in_l _ _ _ _ HF A) as (fs' & A' & HR). apply projected_list in HR.
      destruct (Forall2_in_l _ _ _ _ HR B) as (f' & B' & HR'). exists fs', f'. split; [exact A'|]. split; [exact B'|].
      assert (Hkw : forall j, In j (param_idents [p0]) -> name j <> "Self" /\ name j <> "self").
      { intros j Hj. apply (pl_keywords _ Hl). unfold param_idents in *. apply in_flat_map. exists p0. split; [exact Hp|].
        cbn in Hj. rewrite app_nil_r in Hj. exact Hj. }
      pose proof (field_occurs _ _ _ _ _ p0 Hkw HR' C) as X. destruct p0; exact X. }
    assert (Hp : k <> POwn -> exists fs f, In fs fss' /\ In f (fields_list fs) /\ occurs (PLt pin []) (f_ty f)).
    { intros Hk. destruct Hne as (fs & f & A & B). destruct (Forall2_in_l _ _ _ _ HF A) as (fs' & A' & HR). apply projected_list in HR.
      destruct (Forall2_in_l _ _ _ _ HR B) as (f' & B' & HR'). exists fs', f'. split; [exact A'|]. split; [exact B'|].
      eapply field_pin; eassumption. }
    intros p Hp' Hc. destruct k; cbn [projected_params] in Hp'; [| |apply Hin; assumption];
      (destruct Hp' as [<-|Hp']; [apply Hp; discriminate|apply Hin; assumption]).
  - intros fs' Hfs'. destruct (Forall2_in_r _ _ _ HF _ Hfs') as (fs & A & HR).
    eapply projected_legal; [exact HR|]. apply Hf. exact A.
  - rewrite Ev. exact Hv.
Qed.

(** ** The helper struct *)
Lemma enum_from_fst {A} (l : list A) k : map fst (enum_from k l) = seq k (length l).
Proof. revert k. induction l as [|x l IH]; intros k; cbn; [reflexivity|]. f_equal. apply IH. Qed.
Lemma append_inj s a b : (s ++ a)%string = (s ++ b)%string -> a = b.
Proof. induction s as [|c s IH]; cbn; [auto|]. intros E. injection E as E. auto. Qed.

Lemma helper_fields_legal g pin tys : fields_legal (FNamed (helper_fs g pin tys)).
Proof.
  cbn [fields_legal]. split.
  - intros f Hf. unfold helper_fs in Hf. destruct Hf as [<-|Hf]; [discriminate|]. apply in_app_or in Hf.
    destruct Hf as [Hf|Hf]; apply in_map_iff in Hf; destruct Hf as (x & <- & _); discriminate.
  - unfold helper_fs. cbn [map f_ident option_map name I]. rewrite map_app, !map_map. cbn [f_ident option_map name I].
    set (F := fun n : nat => Some (String.append "__field" (string_of_nat n))).
    set (L := fun n : nat => Some (String.append "__lifetime" (string_of_nat n))).
    change (NoDup (Some "__pin_project_use_generics" ::
      map (fun x : nat * ty => F (fst x)) (enumerate tys) ++ map (fun x : nat * string => L (fst x)) (enumerate (lifetimes g)))).
    rewrite <- (map_map fst F), <- (map_map fst L). unfold enumerate. rewrite !enum_from_fst.
    constructor.
    + rewrite in_app_iff, !in_map_iff. intros [(n & E & _)|(n & E & _)]; discriminate.
    + assert (HF : forall l, NoDup l -> NoDup (map F l)).
      { intros l. induction 1 as [|n l Hn _ IH]; cbn; constructor; [|exact IH]. rewrite in_map_iff. intros (m & E & Hm).
        injection E as E. apply string_of_nat_inj in E. subst m. contradiction. }
      assert (HL : forall l, NoDup l -> NoDup (map L l)).
      { intros l. induction 1 as [|n l Hn _ IH]; cbn; constructor; [|exact IH]. rewrite in_map_iff. intros (m & E & Hm).
        injection E as E. apply string_of_nat_inj in E. subst m. contradiction. }
      pose proof (HF _ (seq_NoDup (length tys) 0)) as A. pose proof (HL _ (seq_NoDup (length (lifetimes g)) 0)) as B.
      revert A. generalize (seq 0 (length tys)). intros l. induction l as [|n l IH]; [intros _; exact B|].
      cbn [map app]. intros X. inversion X as [|x y Hx Hy]; subst. constructor; [|apply IH; exact Hy].
      rewrite in_app_iff. intros [Y|Y]; [contradiction|]. apply in_map_iff in Y. destruct Y as (m & E & _). discriminate.
Qed.

Lemma phantom_uses ps j : In j ps -> looks_up (nodes_ty (phantom_tuple ps)) (name j).
Proof.
  intros H. assert (X : looks_up (flat_map nodes_ty (map (fun i => pp_priv_ty "PhantomData" (targ (ty_ident i))) ps)) (name j)).
  { exists None, j, []. split; [|split; [discriminate|reflexivity]]. apply in_flat_map.
    exists (pp_priv_ty "PhantomData" (targ (ty_ident j))). split; [apply in_map_iff; eauto|]. right. left. reflexivity. }
  unfold phantom_tuple. destruct (map _ ps) as [|t [|t' l]]; [exact X| |exact X].
  cbn [flat_map] in X. rewrite app_nil_r in X. exact X.
Qed.

Lemma helper_legal i g pin tys : pin_lifetime g pin -> params_legal (g_params g) ->
  type_legal (PLt pin [] :: g_params (spelled i g)) [FNamed (helper_fs g pin tys)] [].
Proof.
  intros Hpin Hl. constructor.
  - apply (legal_projected i g pin Hl Hpin PMut).
  - intros p Hp Hc.
    assert (Hu : forall f, In f (helper_fs g pin tys) -> occurs p (f_ty f) ->
      exists fs f, In fs [FNamed (helper_fs g pin tys)] /\ In f (fields_list fs) /\ occurs p (f_ty f)).
    { intros f Hf Ho. exists (FNamed (helper_fs g pin tys)), f. split; [left; reflexivity|]. split; [exact Hf|exact Ho]. }
    destruct Hp as [<-|Hp].
    { eapply Hu; [left; reflexivity|]. right. left. reflexivity. }
    unfold spelled, replace_generics in Hp. cbn [g_params] in Hp. apply in_map_iff in Hp. destruct Hp as (p0 & <- & Hp).
    destruct p0 as [lt bs|j bs d|j t d]; [| |discriminate].
    + assert (Hlt : In lt (lifetimes g)) by (unfold lifetimes; apply in_flat_map; eexists; split; [exact Hp|left; reflexivity]).
      apply In_nth_error in Hlt. destruct Hlt as (n & Hn).
      eapply Hu; [right; apply in_or_app; right; apply in_map_iff; exists (n, lt); split; [reflexivity|]|left; reflexivity].
      unfold enumerate. apply enum_from_in. rewrite Nat.sub_0_r. split; [lia|exact Hn].
    + assert (Hj : In j (type_params g)) by (unfold type_params; apply in_flat_map; eexists; split; [exact Hp|left; reflexivity]).
      eapply Hu; [left; reflexivity|]. cbn [replace_param occurs f_ty].
      destruct (phantom_uses _ _ Hj) as (q & x & r & A & B & C). exists q, x, r. split; [|split; assumption].
      right. cbn. rewrite !app_nil_r. right. exact A.
  - intros fs [<-|[]]. apply helper_fields_legal.
  - constructor.
Qed.

(** ** Impls *)
Lemma applied_uses i ps p : In p ps -> is_lt_param p = false -> occurs p (applied i (map as_arg ps)).
Proof.
  intros Hin Hp. assert (X : forall j, p = PTy j (match p with PTy _ b _ => b | _ => [] end) (match p with PTy _ _ d => d | _ => None end) \/
      p = PConst j (match p with PConst _ t _ => t | _ => TyNever end) (match p with PConst _ _ d => d | _ => None end) ->
      looks_up (nodes_ty (applied i (map as_arg ps))) (name j)).
  { intros j Hj. exists None, j, []. split; [|split; [discriminate|reflexivity]].
    assert (Y : In (NPath None false [j]) (flat_map nodes_garg (map as_arg ps))).
    { apply in_flat_map. exists (as_arg p). split; [apply in_map; exact Hin|]. destruct Hj as [-> | ->]; left; reflexivity. }
    right. unfold applied. destruct (map as_arg ps) as [|x l]; [destruct Y|].
    change (In (NPath None false [j]) ((flat_map nodes_garg (x :: l) ++ []) ++ odd_self false None false [Seg i (GAngle false (x :: l))])).
    apply in_or_app. left. rewrite app_nil_r. exact Y. }
  destruct p as [lt bs|j bs d|j t d]; [discriminate| |]; apply X; auto.
Qed.
Lemma applied_uses' i g p : In p (map without_default (g_params (spelled i g))) -> is_lt_param p = false ->
  occurs p (applied i (map as_arg (g_params g))).
Proof.
  intros Hin Hp. apply in_map_iff in Hin. destruct Hin as (p1 & <- & Hin). unfold spelled, replace_generics in Hin. cbn [g_params] in Hin.
  apply in_map_iff in Hin. destruct Hin as (p0 & <- & Hin).
  assert (X : occurs p0 (applied i (map as_arg (g_params g)))) by (apply applied_uses; [exact Hin|destruct p0; [discriminate Hp|reflexivity|reflexivity]]).
  destruct p0; exact X.
Qed.

Lemma proj_methods_nodup f : NoDup (map (fun k => name (proj_method k)) (filter f all_proj)).
Proof.
  unfold all_proj. cbn [filter]. destruct (f PMut), (f PRef), (f POwn); cbn [map proj_method name I];
    repeat constructor; cbn; intuition discriminate.
Qed.

Section Impls.
  Variables (i : ident) (g : generics) (pin : string).
  Hypothesis Hl : params_legal (g_params g).
  Hypothesis Hpin : pin_lifetime g pin.
  Notation gs := (spelled i g).
  Notation self := (applied i (map as_arg (g_params g))).

  Lemma plain_legal : params_legal (map without_default (g_params gs)).
  Proof. apply legal_plain, legal_spelled. exact Hl. Qed.
  Lemma pin_legal : params_legal (PLt pin [] :: map without_default (g_params gs)).
  Proof.
    apply (legal_pin g pin Hpin); [rewrite lts_without_default; apply spelled_lt_params|apply plain_legal].
  Qed.
  Lemma pin_impl_legal u w tr : impl_legal (mkImpl u (pin_generics gs pin w) tr self []).
  Proof.
    constructor; cbn [i_generics pin_generics g_params i_self i_methods].
    - apply pin_legal.
    - intros p [<-|Hp] Hn; [discriminate|]. apply applied_uses'; assumption.
    - constructor.
    - intros m [].
  Qed.
  Lemma plain_impl_legal u tr ms : NoDup (map (fun m => name (m_name m)) ms) ->
    (forall m, In m ms -> m_lts m = [] \/ m_lts m = [pin]) ->
    forall ps, ps = map without_default (g_params gs) ->
    forall w, impl_legal (mkImpl u (mkGenerics ps w) tr self ms).
  Proof.
    intros H1 H2 ps -> w. constructor; cbn [i_generics g_params i_self i_methods].
    - apply plain_legal.
    - intros p Hp Hn. apply applied_uses'; assumption.
    - exact H1.
    - intros m Hm. destruct (H2 m Hm) as [-> | ->]; (split; [repeat constructor; intros []|]); intros lt []; [|contradiction].
      subst lt. rewrite lts_without_default, spelled_lt_params. apply pin_not_param. exact Hpin.
  Qed.
  Lemma unpin_items_legal a v tys o : In o (unpin_items a v i g pin tys) -> item_legal o.
  Proof.
    unfold unpin_items. destruct (ar_unpin a).
    - intros [<-|[<-|[<-|[]]]]; [apply helper_legal; assumption|apply pin_impl_legal|apply pin_impl_legal].
    - intros [<-|[]]. apply pin_impl_legal.
    - intros [<-|[<-|[]]]; apply pin_impl_legal.
  Qed.
  Lemma drop_items_legal a o : In o (drop_items a i g) -> item_legal o.
  Proof.
    unfold drop_items. destruct (ar_pinned_drop a).
    - intros [<-|[]]. apply plain_impl_legal; [repeat constructor; intros []| |reflexivity].
      intros m [<-|[]]. left. reflexivity.
    - intros [<-|[<-|[<-|[<-|[]]]]].
      + exact Logic.I.
      + constructor; cbn.
        * constructor; cbn.
          -- exists [], [PTy (I "T") [trait_bound tr_drop] None]. split; [reflexivity|]. split; [intros p []|].
             intros p [<-|[]]. reflexivity.
          -- constructor.
          -- repeat constructor. intros [].
          -- intros j [<-|[]]. split; discriminate.
        * intros p [<-|[]] _. exists None, (I "T"), []. split; [left; reflexivity|]. split; [discriminate|reflexivity].
        * constructor.
        * intros m [].
      + apply plain_impl_legal; [constructor|intros m []|reflexivity].
      + apply plain_impl_legal; [repeat constructor; intros []| |reflexivity]. intros m [<-|[]]. left. reflexivity.
  Qed.
End Impls.

Lemma params_of_generics it : params_of it = g_params (generics_of it).
Proof. destruct it; reflexivity. Qed.

Lemma inherent_impl it e a : parse_derive it = Ok e -> options (attrs_of it) a -> ordered (g_params (generics_of it)) ->
  exists im lt, inherent_impls (all_items e) = [im] /\ pin_lifetime (generics_of it) lt /\
    projection_impl (filter (fun k => has_proj k it a) all_proj) lt a (name_of it) (generics_of it) im.
Proof.
  intros H Ho Hord. destruct it as [s|en|]; [apply c10_impl_struct|apply c10_impl_enum|discriminate]; assumption.
Qed.
Lemma some_field it e : parse_derive it = Ok e -> exists fs f, In fs (fields_of it) /\ In f (fields_list fs).
Proof.
  intros H. apply derive_form in H. destruct H as [(s & a & -> & Ha & _)|(en & a & -> & Ha & _)].
  - destruct (as_nonempty _ _ Ha) as (f & Hf). exists (s_fields s), f. split; [left; reflexivity|exact Hf].
  - destruct (ae_nonempty _ _ Ha) as (v & f & Hv & Hf). exists (v_fields v), f. split; [apply in_map; exact Hv|exact Hf].
Qed.

Lemma c47 it e o : parse_derive it = Ok e -> declared_legally it -> In o (all_items e) -> item_legal o.
Proof.
  intros H Hd Hin.
  assert (Ho : exists a, options (attrs_of it) a).
  { destruct (derive_form _ _ H) as [(s & a & -> & _ & Ho & _)|(en & a & -> & _ & Ho & _)]; exists a; exact Ho. }
  destruct Ho as (a & Ho). pose proof (tl_params _ _ _ Hd) as Hl. unfold declared_legally in Hd. rewrite params_of_generics in Hd, Hl.
  pose proof (pl_order _ Hl) as Hord.
  destruct (item_forms _ _ _ H Ho Hord) as (pin & Hpin & HF). specialize (HF o Hin).
  destruct HF as [HF|[HF|[HF|[HF|[HF|[HF|HF]]]]]].
  - destruct HF as (s & k & v & n & fs' & E & Hk & -> & HP). cbn [item_legal].
    eapply (projected_type_legal (name_of it) (generics_of it) pin k (fields_of it)); [exact Hpin|exact Hd| | |].
    + rewrite E in *. cbn [fields_of]. constructor; [exact HP|constructor].
    + rewrite E. reflexivity.
    + apply (some_field _ _ H).
  - destruct HF as (en & k & v & n & vs' & E & Hk & -> & HP). cbn [item_legal].
    eapply (projected_type_legal (name_of it) (generics_of it) pin k (fields_of it)); [exact Hpin|exact Hd| | |].
    + rewrite E in *. cbn [fields_of]. clear -HP. induction HP as [|x y l l' Hxy _ IH]; cbn [map]; constructor; [apply Hxy|exact IH].
    + rewrite E in *. cbn [variant_names]. clear -HP. induction HP as [|x y l l' Hxy _ IH]; cbn [map]; [reflexivity|].
      rewrite IH. f_equal. f_equal. apply Hxy.
    + apply (some_field _ _ H).
  - destruct HF as (x & y & ->). exact Logic.I.
  - destruct HF as (im & -> & Hi). pose proof (in_inherent_impls _ _ Hin Hi) as Hii.
    destruct (inherent_impl _ _ _ H Ho Hord) as (im' & lt & E & Hlt & HP). rewrite E in Hii. destruct Hii as [->|[]].
    assert (lt = pin) as -> by (eapply pin_lifetime_unique; eassumption).
    destruct im as [u [ps w] tr t ms]. destruct HP as [_ Hs Hps _ Hm]. cbn [i_self i_generics g_params i_methods] in *. subst t.
    apply (plain_impl_legal (name_of it) (generics_of it) pin Hl Hpin); [| |exact Hps].
    + assert (X : map (fun m => name (m_name m)) ms = map (fun k => name (proj_method k)) (filter (fun k => has_proj k it a) all_proj)).
      { clear -Hm. induction Hm as [|k m l l' Hkm _ IH]; cbn [map]; [reflexivity|]. rewrite IH. f_equal. f_equal. apply Hkm. }
      rewrite X. apply proj_methods_nodup.
    + intros m Hm'. destruct (Forall2_in_r _ _ _ Hm _ Hm') as (k & _ & Hk). rewrite (pm_lts _ _ _ _ _ _ Hk). destruct k; auto.
  - destruct HF as (t & ms & ->). cbn [item_legal plain_generics g_params]. apply plain_legal. exact Hl.
  - eapply unpin_items_legal; eassumption.
  - eapply (drop_items_legal _ _ pin); eassumption.
Qed.

(** ** The helper struct and the headers of the impls *)
Lemma c10_helper it e a v g fs : parse_derive it = Ok e -> options (attrs_of it) a -> ordered (params_of it) ->
  In (OStruct v (helper_name (name_of it)) g fs) (scoped e) ->
  v = replace_vis (vis_of it) /\
  exists lt, pin_lifetime (generics_of it) lt /\
    g_params g = PLt lt [] :: g_params (spelled (name_of it) (generics_of it)) /\
    preds g = preds (spelled (name_of it) (generics_of it)).
Proof.
  intros H Ho Hord Hin. rewrite params_of_generics in Hord.
  destruct (scoped_form_vis _ _ _ H Ho Hord) as (pin & front & Hpin & Hf & E).
  rewrite E in Hin. destruct Hin as [Hin|Hin]; [discriminate|]. apply in_app_or in Hin. destruct Hin as [Hin|Hin].
  { exfalso. apply (fo_struct _ _ Hf _ _ _ _ Hin). reflexivity. }
  apply in_app_or in Hin. destruct Hin as [Hin|Hin].
  - unfold unpin_items in Hin. destruct (ar_unpin a).
    + destruct Hin as [Hin|[Hin|[Hin|[]]]]; [|discriminate|discriminate]. injection Hin as <- <- _.
      split; [reflexivity|]. exists pin. split; [exact Hpin|]. split; reflexivity.
    + destruct Hin as [Hin|[]]; discriminate.
    + destruct Hin as [Hin|[Hin|[]]]; discriminate.
  - exfalso. unfold drop_items in Hin. destruct (ar_pinned_drop a); cbn in Hin; intuition discriminate.
Qed.
Lemma c10_helper_generics it e a v g fs : parse_derive it = Ok e -> options (attrs_of it) a -> ordered (params_of it) ->
  In (OStruct v (helper_name (name_of it)) g fs) (scoped e) ->
  exists lt, pin_lifetime (generics_of it) lt /\
    g_params g = PLt lt [] :: g_params (spelled (name_of it) (generics_of it)) /\
    preds g = preds (spelled (name_of it) (generics_of it)).
Proof. intros H Ho Hord Hin. apply (c10_helper _ _ _ _ _ _ H Ho Hord Hin). Qed.
Lemma c13_helper it e a v g fs m : parse_derive it = Ok e -> options (attrs_of it) a -> ordered (params_of it) ->
  In (OStruct v (helper_name (name_of it)) g fs) (scoped e) -> legal Rust2018 m v -> v = vis_of it.
Proof.
  intros H Ho Hord Hin Hv. destruct (c10_helper _ _ _ _ _ _ H Ho Hord Hin) as [-> _].
  destruct (vis_of it) as [| |b p]; try reflexivity. cbn [replace_vis] in *. destruct p as [|j [|]]; try reflexivity.
  cbn [replace_ids] in *. unfold prepend_underscore_to_self in *. destruct (ident_is j "self") eqn:E; [|reflexivity].
  exfalso. destruct Hv as (t & Ht & _). discriminate.
Qed.
Lemma c13_helper_any it e a v g fs : parse_derive it = Ok e -> options (attrs_of it) a -> ordered (params_of it) ->
  In (OStruct v (helper_name (name_of it)) g fs) (scoped e) -> ~ is_pub_self (vis_of it) -> v = vis_of it.
Proof.
  intros H Ho Hord Hin Hv. destruct (c10_helper _ _ _ _ _ _ H Ho Hord Hin) as [-> _].
  destruct (vis_of it) as [| |b p]; try reflexivity. cbn [replace_vis] in *. destruct p as [|j [|]]; try reflexivity.
  cbn [replace_ids] in *. unfold prepend_underscore_to_self in *. destruct (ident_is j "self") eqn:E; [|reflexivity].
  exfalso. apply Hv. exists b. f_equal. f_equal. destruct j as [[] x]; cbn in E; [discriminate|]. apply String.eqb_eq in E. subst x. reflexivity.
Qed.

(** The impls of [Unpin] and [UnsafeUnpin] have one more lifetime and one more
    predicate; those of [Drop] and [PinnedDrop] nothing more. *)
Lemma c10_headers it e a im tr : parse_derive it = Ok e -> options (attrs_of it) a -> ordered (params_of it) ->
  In (OImpl im) (all_items e) -> i_trait im = Some tr ->
  (tr = support ["__private"; "Unpin"] \/ tr = support ["UnsafeUnpin"] ->
   exists lt w, pin_lifetime (generics_of it) lt /\
     g_params (i_generics im) = PLt lt [] :: map without_default (g_params (spelled (name_of it) (generics_of it))) /\
     preds (i_generics im) = preds (spelled (name_of it) (generics_of it)) ++ [w]) /\
  (tr = support ["__private"; "Drop"] \/ tr = support ["__private"; "PinnedDrop"] ->
   g_params (i_generics im) = map without_default (g_params (spelled (name_of it) (generics_of it))) /\
   preds (i_generics im) = preds (spelled (name_of it) (generics_of it))).
Proof.
  intros H Ho Hord Hin Ht. rewrite params_of_generics in Hord.
  destruct (item_forms _ _ _ H Ho Hord) as (pin & Hpin & HF). specialize (HF _ Hin).
  destruct HF as [HF|[HF|[HF|[HF|[HF|[HF|HF]]]]]].
  - destruct HF as (s & k & v & n & fs' & _ & _ & X & _). discriminate.
  - destruct HF as (s & k & v & n & fs' & _ & _ & X & _). discriminate.
  - destruct HF as (x & y & X). discriminate.
  - destruct HF as (im' & X & Y). injection X as ->. congruence.
  - destruct HF as (t & ms & X). discriminate.
  - assert (X : exists w, i_generics im = pin_generics (spelled (name_of it) (generics_of it)) pin w /\
                  (tr = tr_unpin \/ tr = tr_unsafe_unpin)).
    { unfold unpin_items in HF. destruct (ar_unpin a).
      - destruct HF as [X|[X|[X|[]]]]; [discriminate| |]; injection X as <-; injection Ht as <-; eexists; (split; [reflexivity|]); auto.
      - destruct HF as [X|[]]; injection X as <-; injection Ht as <-; eexists; (split; [reflexivity|]); auto.
      - destruct HF as [X|[X|[]]]; injection X as <-; injection Ht as <-; eexists; (split; [reflexivity|]); auto. }
    destruct X as (w & E & Htr). rewrite E. split.
    + intros _. exists pin, w. split; [exact Hpin|]. split; reflexivity.
    + intros [-> | ->]; destruct Htr; discriminate.
  - unfold drop_items in HF. destruct (ar_pinned_drop a).
    + destruct HF as [X|[]]. injection X as <-. injection Ht as <-. split; [intros [X|X]; discriminate|]. intros _. split; reflexivity.
    + destruct HF as [X|[X|[X|[X|[]]]]]; [discriminate| | |]; injection X as <-; injection Ht as <-.
      * split; intros [X|X]; discriminate.
      * split; intros [X|X]; discriminate.
      * split; [intros [X|X]; discriminate|]. intros _. split; reflexivity.
Qed.
