(** The generated code takes no names from the scope around it but those of the user. *)
From Coq Require Import String Ascii List Bool Arith.
From Verif Require Import Base Syntax SyntaxInd ModelArgs ModelUtils ModelDerive ModelMeaning.
From Verif Require Import SpecArgs SpecDerive SpecLifetime SpecExpand SpecRun SpecMeaning SpecTraits SpecScope.
From Verif Require Import ProofsArgs ProofsUtils ProofsDerive ProofsExpand ProofsTypes ProofsMeaning ProofsUnsafe.
Import ListNotations.
Open Scope string_scope.
Open Scope list_scope.

(** Every name looked up in [l] satisfies [A]. *)
Definition only (A : string -> Prop) (l : list node) : Prop := forall x, looks_up l x -> A x.

Lemma only_nil A : only A []. Proof. intros x (q & i & r & [] & _). Qed.
Lemma only_app A l l' : only A l -> only A l' -> only A (l ++ l').
Proof.
  intros H H' x (q & i & r & Hin & Hq & E). apply in_app_or in Hin. destruct Hin as [Hin|Hin]; [apply H|apply H'];
    exists q, i, r; auto.
Qed.
Lemma only_app_l A l l' : only A (l ++ l') -> only A l.
Proof. intros H x (q & i & r & Hin & Hq & E). apply H. exists q, i, r. split; [apply in_or_app; auto|auto]. Qed.
Lemma only_app_r A l l' : only A (l ++ l') -> only A l'.
Proof. intros H x (q & i & r & Hin & Hq & E). apply H. exists q, i, r. split; [apply in_or_app; auto|auto]. Qed.
Lemma only_cons_path (A : string -> Prop) q lead p l : (lead = false -> q <> Some 0 -> forall i r, p = i :: r -> A (name i)) -> only A l ->
  only A (NPath q lead p :: l).
Proof.
  intros H Hl x (q' & i & r & [Hin|Hin] & Hq & E).
  - injection Hin as -> -> ->. subst x. eapply H; [reflexivity|exact Hq|reflexivity].
  - apply Hl. exists q', i, r. auto.
Qed.
Lemma only_cons_lt A lt l : only A l -> only A (NLt lt :: l).
Proof. intros H x (q & i & r & [Hin|Hin] & Hq & E); [discriminate|]. apply H. exists q, i, r. auto. Qed.
Lemma only_flat {B} A (f : B -> list node) l : (forall b, In b l -> only A (f b)) -> only A (flat_map f l).
Proof.
  intros H. induction l as [|b l IH]; [apply only_nil|]. cbn. apply only_app; [apply H; left; reflexivity|].
  apply IH. intros c Hc. apply H. right. exact Hc.
Qed.
Lemma only_flat_in {B} A (f : B -> list node) l b : only A (flat_map f l) -> In b l -> only A (f b).
Proof.
  intros H Hb x (q & i & r & Hin & Hq & E). apply H. exists q, i, r. split; [apply in_flat_map; eauto|auto].
Qed.
Lemma only_sub (A : string -> Prop) l l' : (forall y, In y l -> In y l') -> only A l' -> only A l.
Proof. intros S H x (q & i & r & Hin & Hq & E). apply H. exists q, i, r. auto. Qed.

(** ** Replacing [Self] *)
Section Origins.
  Variable self : type_path.
  Hypothesis Hq : tp_q self = None.
  Variable A : string -> Prop.
  Hypothesis Hs : only A (nodes_ty (tp_ty self)).

  Lemma only_origin l l' : self_legal l -> only A l -> (forall y, In y l' -> origin self l y) -> only A l'.
  Proof.
    intros HL HA HO x (q & i & r & Hin & Hq0 & E). destruct (HO _ Hin) as [H|H].
    - apply Hs. exists q, i, r. auto.
    - cbn in H. destruct H as [->|(p' & Hp & Ep & _)]; [elim Hq0; reflexivity|].
      apply HA. assert (p' = i :: r) as ->; [|exists q, i, r; auto].
      destruct p' as [|j [|k p']]; cbn in Ep; try congruence.
      unfold prepend_underscore_to_self in Ep. destruct (ident_is j "self") eqn:F; cbn in Ep; [|congruence].
      apply ident_is_eq in F. subst j. destruct (HL _ _ _ Hp [] [] eq_refl) as (_ & _ & X). elim X. reflexivity.
  Qed.
  Lemma self_legal_sub l l' : (forall y, In y l -> In y l') -> self_legal l' -> self_legal l.
  Proof. intros S H q lead p Hin. apply (H q lead p). apply S. exact Hin. Qed.

  Lemma only_ty t : self_legal (nodes_ty t) -> only A (nodes_ty t) -> only A (nodes_ty (replace_ty self t)).
  Proof.
    intros HL HA. eapply only_origin; [exact HL|exact HA|]. destruct (nodes_replace self Hq) as (H & _). exact (H t).
  Qed.
  Lemma only_bound b : self_legal (nodes_bound b) -> only A (nodes_bound b) -> only A (nodes_bound (replace_bound self b)).
  Proof.
    intros HL HA. eapply only_origin; [exact HL|exact HA|]. destruct (nodes_replace self Hq) as (_ & _ & _ & _ & _ & H & _). exact (H b).
  Qed.
  Lemma only_expr b : self_legal (nodes_expr b) -> only A (nodes_expr b) -> only A (nodes_expr (replace_expr self b)).
  Proof.
    intros HL HA. eapply only_origin; [exact HL|exact HA|]. destruct (nodes_replace self Hq) as (_ & _ & _ & _ & _ & _ & H). exact (H b).
  Qed.
End Origins.

(** ** Generics *)
Definition param_ok (A : string -> Prop) (p : gparam) : Prop :=
  only A (nodes_param p) /\ only A (nodes_default p) /\ forall i, In i (param_idents [p]) -> A (name i).
Record gok (A : string -> Prop) (g : generics) : Prop := {
  go_params : forall p, In p (g_params g) -> param_ok A p;
  go_preds : forall w, In w (where_of g) -> only A (nodes_wpred w)
}.
Lemma gok_nodes A g : gok A g -> only A (nodes_all_generics g).
Proof.
  intros [H1 H2]. unfold nodes_all_generics, nodes_generics. apply only_app; [apply only_app|]; apply only_flat.
  - intros p Hp. apply H1. exact Hp.
  - exact H2.
  - intros p Hp. apply H1. exact Hp.
Qed.
Lemma gok_intro A g : only A (nodes_all_generics g) -> (forall i, In i (param_idents (g_params g)) -> A (name i)) -> gok A g.
Proof.
  intros H Hi. unfold nodes_all_generics, nodes_generics in H. split.
  - intros p Hp. split; [|split].
    + apply only_app_l, only_app_l in H. eapply only_flat_in; eassumption.
    + apply only_app_r in H. eapply only_flat_in; eassumption.
    + intros i Hin. apply Hi. unfold param_idents in *. apply in_flat_map. exists p. split; [exact Hp|].
      cbn in Hin. rewrite app_nil_r in Hin. exact Hin.
  - intros w Hw. apply only_app_l, only_app_r in H. eapply only_flat_in; eassumption.
Qed.
Lemma in_lts_first p l : In p (lts_first l) <-> In p l.
Proof.
  unfold lts_first. rewrite in_app_iff, !filter_In. destruct (is_lt_param p) eqn:E; cbn; intuition congruence.
Qed.
Lemma gok_def A g w : gok A g -> (forall x, In x w -> only A (nodes_wpred x)) -> gok A (def_generics g w).
Proof.
  intros [H1 H2] Hw. split; [|exact Hw]. intros p Hp. apply H1. apply in_lts_first. exact Hp.
Qed.
Lemma gok_strip A p : param_ok A p -> param_ok A (strip_default p).
Proof. intros (H1 & H2 & H3). destruct p; split; try exact H1; split; try exact H3; apply only_nil. Qed.
Lemma gok_impl A g : gok A g -> gok A (impl_generics g).
Proof.
  intros [H1 H2]. split; [|exact H2]. intros p Hp. cbn in Hp. unfold impl_params in Hp. apply in_map_iff in Hp.
  destruct Hp as (p' & <- & Hp). apply gok_strip. apply H1. apply in_lts_first. exact Hp.
Qed.
Lemma gok_lifetime A lt g : gok A g -> gok A (insert_lifetime lt g).
Proof.
  intros [H1 H2]. split; [|exact H2]. intros p [<-|Hp]; [|apply H1; exact Hp].
  split; [|split; [apply only_nil|intros i []]]. apply only_cons_lt, only_nil.
Qed.
Lemma gok_push A g w : gok A g -> only A (nodes_wpred w) -> gok A (push_where g w).
Proof.
  intros [H1 H2] Hw. split; [exact H1|]. intros x Hx. cbn in Hx. apply in_app_or in Hx.
  destruct Hx as [Hx|[<-|[]]]; [apply H2; exact Hx|exact Hw].
Qed.
Lemma gok_make A g : gok A g -> gok A (make_where_clause g).
Proof. intros [H1 H2]. split; [exact H1|exact H2]. Qed.
Lemma only_odd A tr q lead segs : only A (odd_self tr q lead segs).
Proof. intros x (q' & j & r & Hin & _). apply odd_self_only in Hin. discriminate Hin. Qed.
Lemma only_ident (A : string -> Prop) i : A (name i) -> only A (nodes_ty (ty_ident i)).
Proof.
  intros H. cbn [nodes_ty ty_ident]. apply only_cons_path.
  { intros _ _ j r E. cbn in E. injection E as <- _. exact H. }
  cbn [app flat_map nodes_seg nodes_gargs]. apply only_odd.
Qed.
Lemma only_applied (A : string -> Prop) i g : A (name i) -> gok A g -> only A (nodes_ty (ty_applied i g)).
Proof.
  intros Hi [H1 _]. unfold ty_applied, self_path. cbn [nodes_ty]. apply only_cons_path.
  { intros _ _ j r E. cbn in E. injection E as <- _. exact Hi. }
  cbn [app flat_map nodes_seg]. rewrite app_nil_r.
  assert (Ho : only A (odd_self false None false [Seg i (ty_generics g)])).
  { intros x (q & j & r & Hin & _). apply odd_self_only in Hin. discriminate Hin. }
  apply only_app; [|exact Ho]. unfold ty_generics.
  assert (Hl : forall l, (forall p, In p l -> In p (g_params g)) -> only A (flat_map nodes_garg (map param_arg l))).
  { intros l Hl. rewrite flat_map_concat_map, map_map, <- flat_map_concat_map. apply only_flat. intros p Hp.
    destruct (H1 p (Hl p Hp)) as (_ & _ & H3). destruct p as [lt bs|j bs d|j t d]; cbn [param_arg nodes_garg].
    - apply only_cons_lt, only_nil.
    - apply only_ident. apply H3. left. reflexivity.
    - apply only_ident. apply H3. left. reflexivity. }
  destruct (g_params g) as [|p ps]; [apply only_nil|]. apply Hl. intros p' Hp'. apply in_lts_first. exact Hp'.
Qed.

(** Relative and absolute paths of the support crate. *)
Lemma only_pp (A : string -> Prop) l a : A "_pin_project" -> only A (nodes_gargs a) ->
  only A (nodes_ty (TyPath None (pp_path l a))).
Proof.
  intros H Ha. unfold pp_path. cbn [nodes_ty map app]. apply only_cons_path.
  { intros _ _ i r E. cbn in E. injection E as <- _. exact H. }
  cbn [app flat_map seg1 nodes_seg nodes_gargs]. apply only_app; [|apply only_odd].
  rewrite flat_map_app. cbn [flat_map nodes_seg]. rewrite app_nil_r. apply only_app; [|exact Ha].
  apply only_flat. intros s Hs. apply in_map_iff in Hs. destruct Hs as (x & <- & _). apply only_nil.
Qed.
Lemma only_pp_bound (A : string -> Prop) l : A "_pin_project" -> only A (nodes_bound (trait_bound (pp_path l GNone))).
Proof.
  intros H. unfold pp_path, trait_bound. cbn [nodes_bound map app]. apply only_cons_path.
  { intros _ _ i r E. cbn in E. injection E as <- _. exact H. }
  cbn [app flat_map seg1 nodes_seg nodes_gargs]. apply only_app; [|apply only_odd].
  rewrite flat_map_app. cbn [flat_map nodes_seg nodes_gargs app]. rewrite app_nil_r.
  apply only_flat. intros s Hs. apply in_map_iff in Hs. destruct Hs as (x & <- & _). apply only_nil.
Qed.
Lemma only_abs A s a : only A (nodes_gargs a) -> only A (nodes_ty (abs_priv_ty s a)).
Proof.
  intros Ha. unfold abs_priv_ty. cbn [nodes_ty]. apply only_cons_path; [discriminate|].
  cbn [app flat_map seg1 nodes_seg nodes_gargs]. rewrite !app_nil_r. exact Ha.
Qed.
Lemma only_targ A t : only A (nodes_ty t) -> only A (nodes_gargs (targ t)).
Proof. intros H. cbn. rewrite app_nil_r. exact H. Qed.
Lemma only_at (A : string -> Prop) p l : (forall i r, p = i :: r -> A (name i)) -> only A l -> only A (at_path p :: l).
Proof. intros H Hl. apply only_cons_path; [|exact Hl]. intros _ _. exact H. Qed.

(** ** Declared parameters *)
Lemma in_param_idents j l : In j (param_idents l) <-> exists p, In p l /\ In j (param_idents [p]).
Proof.
  unfold param_idents. rewrite in_flat_map. split; intros (p & Hp & Hj); exists p; split; try exact Hp.
  - cbn. rewrite app_nil_r. exact Hj.
  - cbn in Hj. rewrite app_nil_r in Hj. exact Hj.
Qed.
Definition more (l l' : list gparam) : Prop := forall j, In j (param_idents l) -> In j (param_idents l').
Lemma more_lts_first l : more l (lts_first l).
Proof. intros j H. apply in_param_idents in H. destruct H as (p & Hp & Hj). apply in_param_idents. exists p. split; [apply in_lts_first; exact Hp|exact Hj]. Qed.
Lemma more_strip l : more l (map strip_default l).
Proof.
  intros j H. apply in_param_idents in H. destruct H as (p & Hp & Hj). apply in_param_idents. exists (strip_default p).
  split; [apply in_map; exact Hp|]. destruct p; exact Hj.
Qed.
Lemma more_trans l1 l2 l3 : more l1 l2 -> more l2 l3 -> more l1 l3.
Proof. intros H H' j Hj. auto. Qed.
Lemma more_impl g : more (g_params g) (impl_params g).
Proof. eapply more_trans; [apply more_lts_first|apply more_strip]. Qed.
Lemma more_lifetime lt g : more (g_params g) (g_params (insert_lifetime lt g)).
Proof. intros j H. exact H. Qed.

(** ** Fields *)
Lemma only_mut_ty A lt f : only A (nodes_ty (f_ty f)) -> only A (nodes_ty (mut_ty lt f)).
Proof.
  intros H. unfold mut_ty. destruct (pin_b f).
  - apply only_abs, only_targ. cbn. apply only_cons_lt. exact H.
  - cbn. apply only_cons_lt. exact H.
Qed.
Lemma only_ref_ty A lt f : only A (nodes_ty (f_ty f)) -> only A (nodes_ty (ref_ty lt f)).
Proof.
  intros H. unfold ref_ty. destruct (pin_b f).
  - apply only_abs, only_targ. cbn. apply only_cons_lt. exact H.
  - cbn. apply only_cons_lt. exact H.
Qed.
Lemma only_own_ty A f : only A (nodes_ty (f_ty f)) -> only A (nodes_ty (own_ty f)).
Proof.
  intros H. unfold own_ty. destruct (pin_b f).
  - apply only_abs, only_targ. exact H.
  - exact H.
Qed.
Lemma only_kty A k lt f : only A (nodes_ty (f_ty f)) -> only A (nodes_ty (kty k lt f)).
Proof. destruct k; [apply only_mut_ty|apply only_ref_ty|apply only_own_ty]. Qed.
Lemma rebuild_list fs l : rebuild_fields fs l = FUnit \/ fields_list (rebuild_fields fs l) = l.
Proof. destruct fs; auto. Qed.
Lemma only_fields A k lt fs : only A (nodes_fields fs) ->
  only A (nodes_fields (rebuild_fields fs (map (retype (kty k lt)) (fields_list fs)))).
Proof.
  intros H. unfold nodes_fields. destruct (rebuild_list fs (map (retype (kty k lt)) (fields_list fs))) as [->| ->]; [apply only_nil|].
  apply only_flat. intros f Hf. apply in_map_iff in Hf. destruct Hf as (f0 & <- & Hf). cbn [retype f_ty].
  apply only_kty. eapply (only_flat_in A (fun f => nodes_ty (f_ty f))); eassumption.
Qed.

Lemma in_enum_from {C} (l : list C) k n x : In (n, x) (enum_from k l) -> In x l.
Proof. revert k. induction l as [|y l IH]; intros k H; [destruct H|]. destruct H as [[= _ <-]|H]; [left; reflexivity|right; eapply IH; exact H]. Qed.

(** ** Items *)
Section Items.
  Variables (a : args) (attrs : list attr) (v : vis) (i : ident) (g : generics) (kd : type_kind).
  Let cx := cx_of a attrs v i g kd.
  Variable B : string -> Prop.
  Let ps := map name (param_idents (g_params g)).
  Let A (x : string) : Prop := B x \/ In x ps.
  Hypothesis HSelf : B "Self".
  Hypothesis Hi : B (name i).
  Hypothesis Hg : gok A g.

  (** The names that an item looks up, apart from its parameters. *)
  Definition fine (o : oitem) : Prop :=
    only (fun x => B x \/ In x (map name (param_idents (declares o)))) (nodes_oitem o).
  Lemma fine_intro o : more (g_params g) (declares o) -> only A (nodes_oitem o) -> fine o.
  Proof.
    intros Hm H x Hx. destruct (H x Hx) as [Hb|Hb]; [left; exact Hb|right]. unfold ps in Hb. apply in_map_iff in Hb.
    destruct Hb as (j & <- & Hj). apply in_map. apply Hm. exact Hj.
  Qed.
  Lemma ASelf : A "Self". Proof. left. exact HSelf. Qed.
  Lemma cg : gok A (cx_generics cx). Proof. apply gok_make. exact Hg. Qed.
  Lemma cpg : gok A (cx_pgenerics cx). Proof. apply gok_lifetime. exact Hg. Qed.
  Lemma capp : only A (nodes_ty (ty_applied (cx_ident cx) (cx_generics cx))).
  Proof. apply only_applied; [left; exact Hi|apply cg]. Qed.
  Lemma cself : only A (nodes_ty ty_self). Proof. apply only_ident. apply ASelf. Qed.
  Lemma kdef_ok k : gok A (kdef k cx).
  Proof.
    assert (Hw : forall x, In x (where_of g) -> only A (nodes_wpred x)) by apply Hg.
    assert (Hp : forall x, In x (cx_pwhere cx) -> only A (nodes_wpred x)).
    { intros x Hx. cbn in Hx. apply in_app_or in Hx. destruct Hx as [Hx|[<-|[]]]; [apply Hw; exact Hx|].
      cbn [nodes_wpred]. apply only_app; [apply only_applied; [left; exact Hi|exact Hg]|].
      cbn. apply only_cons_lt, only_nil. }
    destruct k; [apply gok_def; [apply cpg|exact Hp]|apply gok_def; [apply cpg|exact Hp]|apply gok_def; [apply cg|exact Hw]].
  Qed.
  Lemma kdef_more k : more (g_params g) (g_params (kdef k cx)).
  Proof.
    destruct k; cbn [kdef pdef odef def_generics g_params].
    - eapply more_trans; [apply more_lifetime|apply more_lts_first].
    - eapply more_trans; [apply more_lifetime|apply more_lts_first].
    - apply more_lts_first.
  Qed.
  Lemma struct_kind_fine k fs : only A (nodes_fields fs) -> fine (struct_kind k cx fs).
  Proof.
    intros Hf. apply fine_intro; [destruct k; exact (kdef_more PMut) || exact (kdef_more POwn)|].
    assert (E : nodes_oitem (struct_kind k cx fs) = nodes_all_generics (kdef k cx) ++
      nodes_fields (rebuild_fields fs (map (retype (kty k (cx_lifetime cx))) (fields_list fs)))) by (destruct k; reflexivity).
    rewrite E. apply only_app; [apply gok_nodes, kdef_ok|apply only_fields; exact Hf].
  Qed.
  Lemma enum_kind_fine k vs : (forall w, In w vs -> only A (nodes_fields (v_fields w))) -> fine (enum_kind k cx vs).
  Proof.
    intros Hf. apply fine_intro; [destruct k; exact (kdef_more PMut) || exact (kdef_more POwn)|].
    assert (E : nodes_oitem (enum_kind k cx vs) = nodes_all_generics (kdef k cx) ++
      flat_map (fun w => nodes_fields (v_fields w)) (map (variant_of (kty k (cx_lifetime cx))) vs)) by (destruct k; reflexivity).
    rewrite E. apply only_app; [apply gok_nodes, kdef_ok|]. apply only_flat. intros w Hw. apply in_map_iff in Hw.
    destruct Hw as (w0 & <- & Hw). apply only_fields. apply Hf. exact Hw.
  Qed.

  (** Inside [const _], where the support crate has a name. *)
  Hypothesis Hpp : B "_pin_project".
  Lemma App : A "_pin_project". Proof. left. exact Hpp. Qed.

  Lemma assert_fine fs : fine (assert_item cx fs).
  Proof.
    apply fine_intro; [apply more_impl|]. cbn [assert_item nodes_oitem]. apply only_app; [|apply capp].
    apply gok_nodes, gok_impl, cg.
  Qed.
  Lemma recv_ok lt m : only A (nodes_ty (pp_priv_ty "Pin" (targ (TyRef lt m ty_self)))).
  Proof.
    apply only_pp; [apply App|]. apply only_targ. cbn [nodes_ty]. apply only_app; [|apply cself].
    destruct lt; [apply only_cons_lt, only_nil|apply only_nil].
  Qed.
  Lemma method_ok m t b : match m_self m with RecvTyped t => only A (nodes_ty t) | RecvRefMut => True end ->
    (forall x, In x (m_params m) -> only A (nodes_ty (snd x))) -> m_ret m = t -> only A (nodes_opt t) ->
    m_body m = b -> only A (nodes_body b) -> only A (nodes_method m).
  Proof.
    intros H1 H2 <- H3 <- H4. unfold nodes_method. apply only_app; [destruct (m_self m); [exact H1|apply only_nil]|].
    apply only_app; [apply only_flat; exact H2|]. apply only_app; assumption.
  Qed.
  Lemma prologue_ok b : only A (nodes_body b) -> only A (nodes_body (add_prologue replace_prologue b)).
  Proof.
    assert (Hpro : only A (flat_map nodes_stmt replace_prologue)).
    { cbn. apply only_at; [intros j r E; injection E as <- _; apply ASelf|].
      apply only_at; [intros j r E; injection E as <- _; apply App|apply only_nil]. }
    intros H. destruct b as [ss t|ss sc arms]; cbn [add_prologue nodes_body] in *; rewrite flat_map_app, <- app_assoc;
      (apply only_app; [exact Hpro|exact H]).
  Qed.
  Definition en : bool := match kd with KEnum => true | KStruct => false end.
  Lemma proj_impl_fine b1 b2 b3 :
    (en && negb (is_some (ar_project a)) = false -> B (name (cx_mut_ident cx)) /\ only A (nodes_body b1)) ->
    (en && negb (is_some (ar_project_ref a)) = false -> B (name (cx_ref_ident cx)) /\ only A (nodes_body b2)) ->
    (pr_span (ar_project_replace a) = true -> en && negb (is_some (pr_ident (ar_project_replace a))) = false ->
      B (name (cx_own_ident cx)) /\ only A (nodes_body b3)) ->
    fine (make_proj_impl cx b1 b2 b3).
  Proof.
    intros H1 H2 H3. apply fine_intro; [apply more_impl|].
    unfold make_proj_impl. cbn [nodes_oitem]. unfold nodes_impl. cbn [i_generics i_trait i_self i_methods app].
    apply only_app; [apply gok_nodes, gok_impl, cg|]. apply only_app; [apply capp|].
    apply only_flat. intros m Hm. change (cx_kind cx) with kd in Hm. fold en in Hm. change (cx_args cx) with a in Hm.
    apply in_app_or in Hm. destruct Hm as [Hm|Hm].
    { destruct (en && negb (is_some (ar_project a))) eqn:E; [destruct Hm|]. destruct Hm as [<-|[]]. destruct (H1 eq_refl) as [X Y].
      eapply method_ok; [apply recv_ok|intros x []|reflexivity| |reflexivity|exact Y].
      apply only_applied; [left; exact X|apply cpg]. }
    apply in_app_or in Hm. destruct Hm as [Hm|Hm].
    { destruct (en && negb (is_some (ar_project_ref a))) eqn:E; [destruct Hm|]. destruct Hm as [<-|[]]. destruct (H2 eq_refl) as [X Y].
      eapply method_ok; [apply recv_ok|intros x []|reflexivity| |reflexivity|exact Y].
      apply only_applied; [left; exact X|apply cpg]. }
    destruct (pr_span _) eqn:Ep; [|destruct Hm]. destruct (en && _) eqn:E in Hm; [destruct Hm|].
    destruct Hm as [<-|[]]. destruct (H3 eq_refl E) as [X Y].
    eapply method_ok; [apply recv_ok| |reflexivity| |reflexivity|apply prologue_ok; exact Y].
    - intros x [<-|[]]. apply cself.
    - apply only_applied; [left; exact X|apply cg].
  Qed.

  Lemma empty_fine u gg l : gok A gg -> more (g_params g) (g_params gg) ->
    fine (empty_impl u gg (pp_path l GNone) (ty_applied (cx_ident cx) (cx_generics cx))).
  Proof.
    intros H Hm. apply fine_intro; [exact Hm|]. unfold empty_impl. cbn [nodes_oitem]. unfold nodes_impl.
    cbn [i_generics i_trait i_self i_methods flat_map]. rewrite app_nil_r.
    apply only_app; [apply gok_nodes; exact H|]. apply only_app; [apply only_pp_bound, App|apply capp].
  Qed.
  Lemma wpred_ok t l : only A (nodes_ty t) -> only A (nodes_wpred (WTy [] (ty_pinned_fields_of t) [trait_bound (pp_path l GNone)])).
  Proof.
    intros H. cbn [nodes_wpred flat_map]. rewrite app_nil_r. apply only_app; [|apply only_pp_bound, App].
    apply only_pp; [apply App|]. apply only_targ. exact H.
  Qed.
  Lemma wrapper_ok lt t : only A (nodes_ty t) -> only A (nodes_ty (ty_wrapper lt t)).
  Proof.
    intros H. apply only_pp; [apply App|]. cbn [nodes_gargs flat_map nodes_garg app]. apply only_cons_lt. rewrite app_nil_r. exact H.
  Qed.
  Lemma helper_ok tys : (forall t, In t tys -> only A (nodes_ty t)) -> only A (nodes_fields (FNamed (helper_fields cx tys))).
  Proof.
    intros H. unfold nodes_fields. cbn [fields_list]. apply only_flat. intros f Hf. unfold helper_fields in Hf.
    destruct Hf as [<-|Hf]; [|apply in_app_or in Hf; destruct Hf as [Hf|Hf]].
    - cbn [f_ty]. apply only_pp; [apply App|]. cbn [nodes_gargs flat_map nodes_garg app]. apply only_cons_lt. rewrite app_nil_r.
      assert (Hps : forall j, In j (type_params (cx_generics cx)) -> A (name j)).
      { intros j Hj. right. apply in_map. unfold type_params in Hj. apply in_flat_map in Hj. destruct Hj as (p & Hp & Hj).
        apply in_param_idents. exists p. split; [exact Hp|]. destruct p; [destruct Hj|exact Hj|destruct Hj]. }
      assert (Hph : forall t, In t (map (fun j => pp_priv_ty "PhantomData" (targ (ty_ident j))) (type_params (cx_generics cx))) ->
        only A (nodes_ty t)).
      { intros t Ht. apply in_map_iff in Ht. destruct Ht as (j & <- & Hj). apply only_pp; [apply App|]. apply only_targ, only_ident, Hps, Hj. }
      unfold phantom_tuple. revert Hph.
      generalize (map (fun j => pp_priv_ty "PhantomData" (targ (ty_ident j))) (type_params (cx_generics cx))).
      intros l Hph. destruct l as [|t [|t' l]].
      + apply only_nil.
      + cbn [nodes_ty]. apply Hph. left. reflexivity.
      + change (only A (flat_map nodes_ty (t :: t' :: l))). apply only_flat. exact Hph.
    - apply in_map_iff in Hf. destruct Hf as ([n t] & <- & Hf). cbn [f_ty snd]. apply H.
      eapply in_enum_from. exact Hf.
    - apply in_map_iff in Hf. destruct Hf as ([n lt] & <- & Hf). cbn. apply only_cons_lt, only_nil.
  Qed.
  Lemma unpin_fine tys o : (forall t, In t tys -> only A (nodes_ty t)) ->
    (ar_unpin a = UDefault -> B (name (id_unpin i))) -> In o (make_unpin_impl cx tys) -> fine o.
  Proof.
    intros Ht Hh Hin. unfold make_unpin_impl in Hin. change (cx_args cx) with a in Hin.
    destruct (ar_unpin a).
    - specialize (Hh eq_refl).
      assert (Hgg : gok A (mkGenerics (impl_params (cx_pgenerics cx)) (Some (where_of (cx_generics cx) ++
          [WTy [] (ty_pinned_fields_of (ty_applied (id_unpin (cx_ident cx)) (cx_pgenerics cx))) [trait_bound tr_unpin]])))).
      { split; [apply (gok_impl _ _ cpg)|]. intros w Hw. cbn [where_of g_where] in Hw. apply in_app_or in Hw.
        destruct Hw as [Hw|[<-|[]]]; [apply cg; exact Hw|].
        apply wpred_ok. apply only_applied; [left; exact Hh|apply cpg]. }
      assert (Hmm : more (g_params g) (impl_params (cx_pgenerics cx))) by (eapply more_trans; [apply more_lifetime|apply more_impl]).
      destruct Hin as [<-|[<-|[<-|[]]]].
      + apply fine_intro; [eapply more_trans; [apply more_lifetime|apply more_lts_first]|].
        cbn [nodes_oitem]. apply only_app; [|apply helper_ok; exact Ht]. apply gok_nodes, gok_def; [apply cpg|apply cg].
      + apply empty_fine; [exact Hgg|exact Hmm].
      + apply empty_fine; [exact Hgg|exact Hmm].
    - assert (Hgg : forall w, only A (nodes_wpred w) -> gok A (impl_generics (push_where (cx_pgenerics cx) w)))
        by (intros w Hw; apply gok_impl, gok_push; [apply cpg|exact Hw]).
      destruct Hin as [<-|[]].
      apply empty_fine; [apply Hgg, wpred_ok, wrapper_ok, cself|intros j Hj; apply more_impl; exact Hj].
    - assert (Hgg : forall w, only A (nodes_wpred w) -> gok A (impl_generics (push_where (cx_pgenerics cx) w)))
        by (intros w Hw; apply gok_impl, gok_push; [apply cpg|exact Hw]).
      destruct Hin as [<-|[<-|[]]];
        (apply empty_fine; [apply Hgg, wpred_ok, wrapper_ok, only_pp; [apply App|apply only_nil]
                           |intros j Hj; apply more_impl; exact Hj]).
  Qed.
  Lemma drop_fine o : (ar_pinned_drop a = false -> B (name (id_drop_trait i))) -> In o (make_drop_impl cx) -> fine o.
  Proof.
    intros Ht Hin. unfold make_drop_impl in Hin. change (cx_args cx) with a in Hin. destruct (ar_pinned_drop a).
    - destruct Hin as [<-|[]]. apply fine_intro; [apply more_impl|]. cbn [nodes_oitem]. unfold nodes_impl.
      cbn [i_generics i_trait i_self i_methods flat_map]. apply only_app; [apply gok_nodes, gok_impl, cg|].
      apply only_app; [apply only_pp_bound, App|]. apply only_app; [apply capp|]. rewrite app_nil_r. cbn.
      apply only_at; [intros j r E; injection E as <- _; apply App|].
      apply only_at; [intros j r E; injection E as <- _; apply App|apply only_nil].
    - specialize (Ht eq_refl).
      assert (Htr : forall C : string -> Prop, C (name (id_drop_trait i)) ->
        only C (nodes_bound (BTrait false [] (Path false [Seg (id_drop_trait i) GNone])))).
      { intros C HC. cbn [nodes_bound]. apply only_cons_path; [intros _ _ j r E; cbn in E; injection E as <- _; exact HC|].
        cbn [app flat_map nodes_seg nodes_gargs]. apply only_odd. }
      destruct Hin as [<-|[<-|[<-|[<-|[]]]]].
      + apply only_nil.
      + unfold fine. cbn [nodes_oitem declares]. unfold nodes_impl. cbn [i_generics i_trait i_self i_methods flat_map g_params].
        rewrite app_nil_r. apply only_app; [|apply only_app].
        * unfold nodes_all_generics, nodes_generics. cbn [g_params g_where flat_map nodes_param nodes_default app]. rewrite !app_nil_r.
          apply only_pp_bound. left. exact Hpp.
        * apply Htr. left. exact Ht.
        * apply only_ident. right. left. reflexivity.
      + apply fine_intro; [apply more_impl|]. cbn [nodes_oitem]. unfold nodes_impl.
        cbn [i_generics i_trait i_self i_methods flat_map]. rewrite app_nil_r. apply only_app; [apply gok_nodes, gok_impl, cg|].
        apply only_app; [apply Htr; left; exact Ht|apply capp].
      + apply fine_intro; [apply more_impl|]. cbn [nodes_oitem]. unfold nodes_impl.
        cbn [i_generics i_trait i_self i_methods flat_map]. apply only_app; [apply gok_nodes, gok_impl, cg|].
        apply only_app; [apply only_pp_bound, App|]. apply only_app; [apply capp|]. rewrite app_nil_r.
        eapply method_ok; [apply recv_ok|intros x []|reflexivity|apply only_nil|reflexivity|apply only_nil].
  Qed.

  (** Bodies. *)
  Lemma guards_ok l : only A (flat_map nodes_stmt (map guard_stmt l)).
  Proof.
    induction l as [|b l IH]; [apply only_nil|]. cbn. apply only_at; [intros j r E; injection E as <- _; apply App|exact IH].
  Qed.
  Lemma Lit_ok (C : string -> Prop) p d fs : (forall j r, p = j :: r -> C (name j)) ->
    (forall x, In x fs -> only C (nodes_atom (snd x))) -> only C (nodes_rhs (RLit p d fs)).
  Proof. intros H Hf. cbn. apply only_at; [exact H|apply only_flat; exact Hf]. Qed.
  Lemma pp_atom l : only A [at_path (pp l)].
  Proof. apply only_at; [intros j r E; injection E as <- _; apply App|apply only_nil]. Qed.
  Lemma body_of_ok l x : In x (map body_of l) -> only A (nodes_atom (snd x)).
  Proof.
    intros H. apply in_map_iff in H. destruct H as (nf & <- & _). unfold body_of.
    destruct (pin_b (snd nf)); [apply pp_atom|apply only_nil].
  Qed.
  Lemma move_of_ok l x : In x (map move_of l) -> only A (nodes_atom (snd x)).
  Proof.
    intros H. apply in_map_iff in H. destruct H as (nf & <- & _). unfold move_of.
    destruct (pin_b (snd nf)); apply pp_atom.
  Qed.
  Lemma own_stmts_ok own fs : (forall j r, own = j :: r -> A (name j)) -> only A (flat_map nodes_stmt (own_stmts own fs)).
  Proof.
    intros H. unfold own_stmts. cbn [flat_map nodes_stmt nodes_pat nodes_opt app]. apply only_app.
    - apply Lit_ok; [exact H|intros x Hx; eapply move_of_ok; exact Hx].
    - rewrite app_nil_r. apply guards_ok.
  Qed.
  Lemma struct_body_ok m n fs : A (name n) -> only A (nodes_body (struct_body m n fs)).
  Proof.
    intros H. unfold struct_body. cbn [nodes_body flat_map nodes_stmt struct_pat nodes_pat nodes_opt app nodes_rhs nodes_atom].
    apply only_at; [intros j r E; injection E as <- _; apply ASelf|].
    apply only_at; [intros j r E; injection E as <- _; exact H|].
    apply only_flat. intros x Hx. eapply body_of_ok. exact Hx.
  Qed.
  Lemma struct_body_own_ok n fs : A (name n) -> only A (nodes_body (struct_body_own n fs)).
  Proof.
    intros H. unfold struct_body_own. cbn [nodes_body].
    apply only_app; [|apply only_nil]. cbn [flat_map]. apply only_app; [|apply own_stmts_ok; intros j r E; injection E as <- _; exact H].
    apply only_at; [intros j r E; injection E as <- _; apply ASelf|apply only_nil].
  Qed.
  Lemma enum_body_ok m n vs : A (name n) -> only A (nodes_body (enum_body m n vs)).
  Proof.
    intros H. unfold enum_body. cbn [nodes_body flat_map nodes_atom app]. apply only_flat. intros x Hx.
    apply in_map_iff in Hx. destruct Hx as (w & <- & _). unfold nodes_arm, variant_arm. cbn [arm_pat arm_stmts arm_tail flat_map app].
    apply only_app; [apply only_at; [intros j r E; injection E as <- _; apply ASelf|apply only_nil]|].
    apply Lit_ok; [intros j r E; injection E as <- _; exact H|intros x Hx; eapply body_of_ok; exact Hx].
  Qed.
  Lemma enum_body_own_ok n vs : A (name n) -> only A (nodes_body (enum_body_own n vs)).
  Proof.
    intros H. unfold enum_body_own. cbn [nodes_body flat_map nodes_atom app]. apply only_flat. intros x Hx.
    apply in_map_iff in Hx. destruct Hx as (w & <- & _). unfold nodes_arm, variant_arm_own. cbn [arm_pat arm_stmts arm_tail].
    apply only_app; [apply only_at; [intros j r E; injection E as <- _; apply ASelf|apply only_nil]|].
    apply only_app; [apply own_stmts_ok; intros j r E; injection E as <- _; exact H|apply only_nil].
  Qed.
End Items.

(** ** The item after the replacement of [Self] *)
Lemma legal_sub l l' : (forall y, In y l -> In y l') -> self_legal l' -> self_legal l.
Proof. intros S H q lead p Hin. apply (H q lead p). apply S. exact Hin. Qed.
Lemma legal_app_l l l' : self_legal (l ++ l') -> self_legal l.
Proof. apply legal_sub. intros y H. apply in_or_app. auto. Qed.
Lemma legal_app_r l l' : self_legal (l ++ l') -> self_legal l'.
Proof. apply legal_sub. intros y H. apply in_or_app. auto. Qed.
Lemma legal_in {B} (f : B -> list node) l b : self_legal (flat_map f l) -> In b l -> self_legal (f b).
Proof. intros H Hb. eapply legal_sub; [|exact H]. intros y Hy. apply in_flat_map. eauto. Qed.

Section Spelled.
  Variables (A : string -> Prop) (i : ident) (g : generics).
  Hypothesis Hi : A (name i).
  Hypothesis Hps : forall j, In j (param_idents (g_params g)) -> A (name j).
  Hypothesis Hg : only A (nodes_all_generics g).
  Hypothesis Hl : self_legal (nodes_all_generics g).
  Let self := self_type i g.

  Lemma gok_orig : gok A g. Proof. apply gok_intro; assumption. Qed.
  Lemma self_only : only A (nodes_ty (tp_ty self)).
  Proof. apply (only_applied A i g Hi gok_orig). Qed.
  Lemma gok_spelled : gok A (replace_generics self g).
  Proof.
    unfold nodes_all_generics, nodes_generics in Hl.
    destruct gok_orig as [H1 H2]. split.
    - intros p Hp. cbn in Hp. apply in_map_iff in Hp. destruct Hp as (p0 & <- & Hp).
      destruct (H1 p0 Hp) as (P1 & P2 & P3).
      pose proof (legal_in _ _ _ (legal_app_l _ _ (legal_app_l _ _ Hl)) Hp) as L1.
      pose proof (legal_in _ _ _ (legal_app_r _ _ Hl) Hp) as L2.
      destruct p0 as [lt bs|j bs d|j t d]; cbn [replace_param nodes_param nodes_default] in *.
      + split; [exact P1|]. split; [exact P2|exact P3].
      + split; [|split; [|exact P3]].
        * apply only_flat. intros b Hb. apply in_map_iff in Hb. destruct Hb as (b0 & <- & Hb).
          apply only_bound; [reflexivity|apply self_only|eapply legal_in; eassumption|eapply only_flat_in; eassumption].
        * destruct d as [t|]; [|apply only_nil]. apply only_ty; [reflexivity|apply self_only|exact L2|exact P2].
      + split; [|split; [|exact P3]].
        * apply only_ty; [reflexivity|apply self_only|exact L1|exact P1].
        * destruct d as [e|]; [|apply only_nil]. apply only_expr; [reflexivity|apply self_only|exact L2|exact P2].
    - intros w Hw. unfold where_of in *. cbn in Hw. destruct (g_where g) as [l|]; [|destruct Hw]. cbn in Hw.
      apply in_map_iff in Hw. destruct Hw as (w0 & <- & Hw).
      pose proof (legal_in _ _ _ (legal_app_r _ _ (legal_app_l _ _ Hl)) Hw) as L1. specialize (H2 _ Hw).
      destruct w0 as [lt bs|lts t bs]; cbn [replace_wpred nodes_wpred] in *; [exact H2|].
      apply only_app.
      + apply only_ty; [reflexivity|apply self_only|eapply legal_app_l; exact L1|eapply only_app_l; exact H2].
      + apply only_flat. intros b Hb. apply in_map_iff in Hb. destruct Hb as (b0 & <- & Hb).
        apply only_bound; [reflexivity|apply self_only| |].
        * eapply legal_in; [eapply legal_app_r; exact L1|exact Hb].
        * eapply only_flat_in; [eapply only_app_r; exact H2|exact Hb].
  Qed.
  Lemma fields_spelled fs : only A (nodes_fields fs) -> self_legal (nodes_fields fs) -> only A (nodes_fields (replace_fields self fs)).
  Proof.
    intros HA HL. unfold nodes_fields in *. rewrite fields_list_replace. apply only_flat. intros f Hf. apply in_map_iff in Hf.
    destruct Hf as (f0 & <- & Hf). cbn [replace_field f_ty]. apply only_ty; [reflexivity|apply self_only| |].
    - eapply (legal_in (fun f => nodes_ty (f_ty f))); eassumption.
    - eapply (only_flat_in A (fun f => nodes_ty (f_ty f))); eassumption.
  Qed.
End Spelled.

(** ** C52 *)
Lemma item_only (B : string -> Prop) it : (forall x, user_name it x -> B x) ->
  only (fun x => B x \/ In x (map name (param_idents (g_params (generics_of it))))) (nodes_item it).
Proof.
  intros H x Hx. destruct (in_dec string_dec x (map name (param_idents (g_params (generics_of it))))) as [Hin|Hn]; [right; exact Hin|].
  left. apply H. right. auto.
Qed.
Lemma params_spelled self l : param_idents (map (replace_param self) l) = param_idents l.
Proof. induction l as [|[] l IH]; cbn; [reflexivity|exact IH|f_equal; exact IH|f_equal; exact IH]. Qed.

Section Main.
  Variables (it : item) (B : string -> Prop).
  Hypothesis HL : self_legal (nodes_item it).
  Hypothesis Hu : forall x, user_name it x -> B x.
  Let g := generics_of it.
  Let A (x : string) : Prop := B x \/ In x (map name (param_idents (g_params g))).

  Lemma main_name : B (name (name_of it)). Proof. apply Hu. left. reflexivity. Qed.
  Lemma main_generics : gok A (replace_generics (self_type (name_of it) g) g).
  Proof.
    apply gok_spelled.
    - left. apply main_name.
    - intros j Hj. right. apply in_map. exact Hj.
    - eapply only_app_l. apply item_only. exact Hu.
    - eapply legal_app_l. exact HL.
  Qed.
  Lemma main_generics' : gok (fun x => B x \/ In x (map name (param_idents (g_params (replace_generics (self_type (name_of it) g) g)))))
    (replace_generics (self_type (name_of it) g) g).
  Proof. cbn [g_params replace_generics]. rewrite params_spelled. apply main_generics. Qed.
  Lemma main_fields fs : In fs (fields_of it) -> only A (nodes_fields (replace_fields (self_type (name_of it) g) fs)).
  Proof.
    intros H. apply fields_spelled.
    - left. apply main_name.
    - intros j Hj. right. apply in_map. exact Hj.
    - eapply only_app_l. apply item_only. exact Hu.
    - eapply only_flat_in; [eapply only_app_r; apply item_only; exact Hu|exact H].
    - eapply legal_in; [eapply legal_app_r; exact HL|exact H].
  Qed.
  Lemma main_fields' fs : In fs (fields_of it) ->
    only (fun x => B x \/ In x (map name (param_idents (g_params (replace_generics (self_type (name_of it) g) g)))))
      (nodes_fields (replace_fields (self_type (name_of it) g) fs)).
  Proof. intros H. cbn [g_params replace_generics]. rewrite params_spelled. apply main_fields. exact H. Qed.
End Main.

Lemma fine_refers B o x : fine B o -> refers o x -> B x.
Proof. intros H (H1 & _ & H3). destruct (H x H1) as [Hb|Hb]; [exact Hb|contradiction]. Qed.

Lemma c52_exposed it e o x : parse_derive it = Ok e -> self_legal (nodes_item it) -> In o (exposed e) -> refers o x -> user_name it x.
Proof.
  intros H HL Hin Hr.
  assert (Hf : fine (fun x => x = "Self" \/ user_name it x) o).
  { pose proof (main_generics' it (fun x => x = "Self" \/ user_name it x) HL (fun x Hx => or_intror Hx)) as Hg.
    pose proof (main_fields' it (fun x => x = "Self" \/ user_name it x) HL (fun x Hx => or_intror Hx)) as Hfs.
    assert (Hi : name (name_of it) = "Self" \/ user_name it (name (name_of it))) by (right; left; reflexivity).
    apply derive_form in H. destruct H as [(s & a & -> & _ & ->)|(n & a & -> & _ & ->)].
    - apply struct_exposed in Hin. destruct Hin as [k ->].
      apply (struct_kind_fine a _ _ (s_ident s) (s_generics (spelled_struct s)) KStruct); [exact Hi|exact Hg|].
      apply Hfs. left. reflexivity.
    - apply enum_exposed in Hin. destruct Hin as [k ->].
      apply (enum_kind_fine a _ _ (e_ident n) (e_generics (spelled_enum n)) KEnum); [exact Hi|exact Hg|].
      intros w Hw. cbn in Hw. apply in_map_iff in Hw. destruct Hw as (w0 & <- & Hw). apply Hfs. cbn. apply in_map. exact Hw. }
  destruct (fine_refers _ _ _ Hf Hr) as [->|Hx]; [|exact Hx]. destruct Hr as (_ & X & _). elim X. reflexivity.
Qed.

Lemma only_in_pinned A fs t : only A (nodes_fields fs) -> In t (map f_ty (filter pin_b (fields_list fs))) -> only A (nodes_ty t).
Proof.
  intros H Ht. apply in_map_iff in Ht. destruct Ht as (f & <- & Hf). apply filter_In in Hf.
  eapply (only_flat_in A (fun f => nodes_ty (f_ty f))); [exact H|apply Hf].
Qed.
Definition introduced (e : expansion) : list string := map name (flat_map introduces (all_items e)).
Lemma introduced_in e o j : In o (all_items e) -> In j (introduces o) -> In (name j) (introduced e).
Proof. intros Ho Hj. apply in_map. apply in_flat_map. eauto. Qed.
Lemma in_all e o : In o (exposed e) \/ In o (scoped e) -> In o (all_items e).
Proof. intros H. apply in_or_app. exact H. Qed.

Lemma c52_scoped it e o x : parse_derive it = Ok e -> self_legal (nodes_item it) -> In o (scoped e) -> refers o x ->
  user_name it x \/ In x (introduced e).
Proof.
  intros H HL Hin Hr.
  set (B := fun x => x = "Self" \/ user_name it x \/ In x (introduced e)).
  assert (Hu : forall x, user_name it x -> B x) by (intros y Hy; right; left; exact Hy).
  assert (Hintro : forall o j, In o (all_items e) -> In j (introduces o) -> B (name j))
    by (intros o' j Ho Hj; right; right; eapply introduced_in; eassumption).
  assert (Hf : fine B o).
  { pose proof (main_generics' it B HL Hu) as Hg. pose proof (main_fields' it B HL Hu) as Hfs.
    assert (Hi : B (name (name_of it))) by (right; left; left; reflexivity).
    assert (HS : B "Self") by (left; reflexivity).
    apply derive_form in H. destruct H as [(s & a & -> & _ & ->)|(n & a & -> & Ha & ->)].
    - set (cx := struct_cx a (spelled_struct s)) in *. set (fs := s_fields (spelled_struct s)) in *.
      assert (Hpp : B "_pin_project").
      { apply (Hintro (OExternCrate (I "pin_project") (I "_pin_project")) (I "_pin_project"));
          [apply in_all; right; left; reflexivity|left; reflexivity]. }
      assert (Hmut : B (name (cx_mut_ident cx))).
      { apply (Hintro (struct_mut cx fs)); [|left; reflexivity]. apply in_all. unfold struct_out. cbn [exposed scoped].
        destruct (is_some (ar_project (cx_args cx))); [left; left; reflexivity|right; right; left; reflexivity]. }
      assert (Href : B (name (cx_ref_ident cx))).
      { apply (Hintro (struct_ref cx fs)); [|left; reflexivity]. apply in_all. unfold struct_out. cbn [exposed scoped].
        destruct (is_some (ar_project (cx_args cx))), (is_some (ar_project_ref (cx_args cx))); cbn; auto 6. }
      assert (Hown : pr_span (ar_project_replace a) = true -> B (name (cx_own_ident cx))).
      { intros Ep. apply (Hintro (struct_own cx fs)); [|left; reflexivity]. apply in_all. unfold struct_out. cbn [exposed scoped].
        change (cx_args cx) with a. rewrite Ep.
        destruct (is_some (ar_project a)), (is_some (ar_project_ref a)), (is_some (pr_ident (ar_project_replace a))); cbn; auto 8. }
      assert (Hff : only (fun x => B x \/ In x (map name (param_idents (g_params (s_generics (spelled_struct s)))))) (nodes_fields fs))
        by (apply Hfs; left; reflexivity).
      assert (Hun : ar_unpin a = UDefault -> B (name (id_unpin (s_ident s)))).
      { intros E. apply (Hintro (OStruct (cx_vis cx) (id_unpin (s_ident s))
           (def_generics (cx_pgenerics cx) (where_of (cx_generics cx)))
           (FNamed (helper_fields cx (map f_ty (filter pin_b (fields_list fs))))))); [|left; reflexivity].
        apply in_all. right. unfold struct_out. cbn [scoped]. right. rewrite !in_app_iff. right. left.
        unfold make_unpin_impl. change (cx_args cx) with a. rewrite E. left. reflexivity. }
      assert (Hdr : ar_pinned_drop a = false -> B (name (id_drop_trait (s_ident s)))).
      { intros E. apply (Hintro (OTrait (id_drop_trait (s_ident s)))); [|left; reflexivity].
        apply in_all. right. unfold struct_out. cbn [scoped]. right. rewrite !in_app_iff. right. right.
        unfold make_drop_impl. change (cx_args cx) with a. rewrite E. left. reflexivity. }
      apply struct_scoped in Hin. destruct Hin as [->|[[k ->]|[->|[->|[Hin|Hin]]]]].
      + apply only_nil.
      + apply (struct_kind_fine a _ _ (s_ident s) (s_generics (spelled_struct s)) KStruct); assumption.
      + apply (proj_impl_fine a _ _ (s_ident s) (s_generics (spelled_struct s)) KStruct); try assumption.
        * intros _. split; [exact Hmut|]. apply struct_body_ok; try assumption. left. exact Hmut.
        * intros _. split; [exact Href|]. apply struct_body_ok; try assumption. left. exact Href.
        * intros Ep _. split; [exact (Hown Ep)|]. apply struct_body_own_ok; try assumption. left. exact (Hown Ep).
      + apply (assert_fine a _ _ (s_ident s) (s_generics (spelled_struct s)) KStruct); assumption.
      + eapply (unpin_fine a _ _ (s_ident s) (s_generics (spelled_struct s)) KStruct); [..|exact Hin]; try assumption.
        intros t Ht. eapply only_in_pinned; eassumption.
      + eapply (drop_fine a _ _ (s_ident s) (s_generics (spelled_struct s)) KStruct); [..|exact Hin]; assumption.
    - set (cx := enum_cx a (spelled_enum n)) in *. set (vs := e_variants (spelled_enum n)) in *.
      assert (Hpp : B "_pin_project").
      { apply (Hintro (OExternCrate (I "pin_project") (I "_pin_project")) (I "_pin_project"));
          [apply in_all; right; left; reflexivity|left; reflexivity]. }
      assert (Hmut : is_some (ar_project a) = true -> B (name (cx_mut_ident cx))).
      { intros E. apply (Hintro (enum_mut cx vs)); [|left; reflexivity]. apply in_all. left. unfold enum_out. cbn [exposed].
        change (cx_args cx) with a. rewrite E. left. reflexivity. }
      assert (Href : is_some (ar_project_ref a) = true -> B (name (cx_ref_ident cx))).
      { intros E. apply (Hintro (enum_ref cx vs)); [|left; reflexivity]. apply in_all. left. unfold enum_out. cbn [exposed].
        change (cx_args cx) with a. rewrite E. rewrite !in_app_iff. right. left. left. reflexivity. }
      assert (Hown : is_some (pr_ident (ar_project_replace a)) = true -> B (name (cx_own_ident cx))).
      { intros E. apply (Hintro (enum_own cx vs)); [|left; reflexivity]. apply in_all. left. unfold enum_out. cbn [exposed].
        change (cx_args cx) with a. rewrite E. rewrite !in_app_iff. right. right. left. reflexivity. }
      assert (Hff : forall w, In w vs -> only (fun x => B x \/ In x (map name (param_idents (g_params (e_generics (spelled_enum n))))))
          (nodes_fields (v_fields w))).
      { intros w Hw. cbn in Hw. apply in_map_iff in Hw. destruct Hw as (w0 & <- & Hw). apply Hfs. cbn. apply in_map. exact Hw. }
      assert (Hun : ar_unpin a = UDefault -> B (name (id_unpin (e_ident n)))).
      { intros E. apply (Hintro (OStruct (cx_vis cx) (id_unpin (e_ident n))
           (def_generics (cx_pgenerics cx) (where_of (cx_generics cx)))
           (FNamed (helper_fields cx (flat_map (fun v => pinned_tys (fields_list (v_fields v))) vs))))); [|left; reflexivity].
        apply in_all. right. unfold enum_out. cbn [scoped]. right. rewrite !in_app_iff. right. left.
        unfold make_unpin_impl. change (cx_args cx) with a. rewrite E. left. reflexivity. }
      assert (Hdr : ar_pinned_drop a = false -> B (name (id_drop_trait (e_ident n)))).
      { intros E. apply (Hintro (OTrait (id_drop_trait (e_ident n)))); [|left; reflexivity].
        apply in_all. right. unfold enum_out. cbn [scoped]. right. rewrite !in_app_iff. right. right.
        unfold make_drop_impl. change (cx_args cx) with a. rewrite E. left. reflexivity. }
      apply enum_scoped in Hin. destruct Hin as [->|[->|[Hin|Hin]]].
      + apply only_nil.
      + apply (proj_impl_fine a _ _ (e_ident n) (e_generics (spelled_enum n)) KEnum); try assumption.
        * intros E. apply negb_false_iff in E. split; [exact (Hmut E)|]. apply enum_body_ok; try assumption. left. exact (Hmut E).
        * intros E. apply negb_false_iff in E. split; [exact (Href E)|]. apply enum_body_ok; try assumption. left. exact (Href E).
        * intros _ E. apply negb_false_iff in E. split; [exact (Hown E)|]. apply enum_body_own_ok; try assumption. left. exact (Hown E).
      + eapply (unpin_fine a _ _ (e_ident n) (e_generics (spelled_enum n)) KEnum); [..|exact Hin]; try assumption.
        intros t Ht. apply in_flat_map in Ht. destruct Ht as (w & Hw & Ht). eapply only_in_pinned; [apply Hff; exact Hw|exact Ht].
      + eapply (drop_fine a _ _ (e_ident n) (e_generics (spelled_enum n)) KEnum); [..|exact Hin]; assumption. }
  destruct (fine_refers _ _ _ Hf Hr) as [->|Hx]; [|exact Hx]. destruct Hr as (_ & X & _). elim X. reflexivity.
Qed.

(** For examples: nothing is called [self]. *)
Definition no_self (n : node) : bool :=
  match n with NPath _ _ p => negb (existsb (fun i => ident_eqb i (I "self")) p) | _ => true end.
Lemma no_self_legal l : forallb no_self l = true -> self_legal l.
Proof.
  intros H q lead p Hin l1 l2 ->. rewrite forallb_forall in H. specialize (H _ Hin). cbn in H.
  rewrite existsb_app in H. cbn in H. rewrite orb_true_r in H. discriminate H.
Qed.
