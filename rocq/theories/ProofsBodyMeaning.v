(** C49: the moved body resolves to the same code. *)
From Coq Require Import String Ascii List Bool Arith.
From Verif Require Import Base Syntax ModelArgs ModelUtils ModelPinnedDrop ModelMeaning.
From Verif Require Import SpecLifetime SpecExpand SpecMeaning SpecPinnedDrop SpecBody BodyInd.
From Verif Require Import ProofsArgs ProofsUtils ProofsExpand ProofsMeaning ProofsSelf ProofsPinnedDrop ProofsBody.
Import ListNotations.
Open Scope string_scope.
Open Scope list_scope.

(** What a body contains, directly. *)
Definition nodes_opt (o : option ty) : list node := match o with Some t => nodes_ty t | None => [] end.
Fixpoint nodes_pat (p : bpat) : list node :=
  match p with
  | QWild | QBind _ _ | QMacro _ _ => []
  | QPath q p => nodes_expr (EPath q p)
  | QStruct p fs => nodes_spath p ++ flat_map (fun f => nodes_pat (snd f)) fs
  | QTupleStruct p l => nodes_spath p ++ flat_map nodes_pat l
  | QTuple l => flat_map nodes_pat l
  end.
Fixpoint nodes_body (x : bexpr) : list node :=
  match x with
  | XPath q p => nodes_vpath q p
  | XLit _ | XMacro _ _ => []
  | XCall f l => nodes_body f ++ flat_map nodes_body l
  | XMethod f _ targs l => nodes_body f ++ flat_map nodes_garg targs ++ flat_map nodes_body l
  | XField f _ | XUnary _ f => nodes_body f
  | XStruct p fs base =>
    nodes_spath p ++ flat_map (fun f => nodes_body (snd f)) fs ++
    match base with Some b => nodes_body b | None => [] end
  | XBinary _ a b => nodes_body a ++ nodes_body b
  | XCast f t => nodes_body f ++ nodes_ty t
  | XBlock l => flat_map nodes_stmt l
  | XMatch f arms => nodes_body f ++ flat_map (fun a => nodes_pat (fst a) ++ nodes_body (snd a)) arms
  | XClosure ps f => flat_map (fun p => nodes_pat (fst p) ++ nodes_opt (snd p)) ps ++ nodes_body f
  end
with nodes_stmt (s : bstmt) : list node :=
  match s with
  | YLet p t e => nodes_pat p ++ nodes_opt t ++ match e with Some x => nodes_body x | None => [] end
  | YExpr x => nodes_body x
  | YFn _ _ _ _ | YMacroRules _ _ | YItem _ _ => []
  end.

(** The lifetimes bound by [for<..>] in the types of a body. *)
Definition lts_opt (o : option ty) : list string := match o with Some t => lts_ty t | None => [] end.
Fixpoint lts_pat (p : bpat) : list string :=
  match p with
  | QWild | QBind _ _ | QMacro _ _ => []
  | QPath q p => lts_expr (EPath q p)
  | QStruct p fs => lts_path p ++ flat_map (fun f => lts_pat (snd f)) fs
  | QTupleStruct p l => lts_path p ++ flat_map lts_pat l
  | QTuple l => flat_map lts_pat l
  end.
Fixpoint lts_body (x : bexpr) : list string :=
  match x with
  | XPath q p => lts_expr (EPath q p)
  | XLit _ | XMacro _ _ => []
  | XCall f l => lts_body f ++ flat_map lts_body l
  | XMethod f _ targs l => lts_body f ++ flat_map lts_garg targs ++ flat_map lts_body l
  | XField f _ | XUnary _ f => lts_body f
  | XStruct p fs base =>
    lts_path p ++ flat_map (fun f => lts_body (snd f)) fs ++
    match base with Some b => lts_body b | None => [] end
  | XBinary _ a b => lts_body a ++ lts_body b
  | XCast f t => lts_body f ++ lts_ty t
  | XBlock l => flat_map lts_stmt l
  | XMatch f arms => lts_body f ++ flat_map (fun a => lts_pat (fst a) ++ lts_body (snd a)) arms
  | XClosure ps f => flat_map (fun p => lts_pat (fst p) ++ lts_opt (snd p)) ps ++ lts_body f
  end
with lts_stmt (s : bstmt) : list string :=
  match s with
  | YLet p t e => lts_pat p ++ lts_opt t ++ match e with Some x => lts_body x | None => [] end
  | YExpr x => lts_body x
  | YFn _ _ _ _ | YMacroRules _ _ | YItem _ _ => []
  end.


Definition lts_part (x : part) : list string :=
  match x with
  | PaTy t => lts_ty t
  | PaArg a => lts_garg a
  | PaPath p => lts_path p
  | PaValue q p | PaPat q p => lts_expr (EPath q p)
  end.
Lemma flat_map_in {A B} (f g : A -> list B) l : Forall (fun x => f x = g x) l -> flat_map f l = flat_map g l.
Proof. induction 1 as [|x l Hx _ IH]; [reflexivity|]. cbn [flat_map]. rewrite Hx, IH. reflexivity. Qed.
Lemma flat_map_flat {A B C} (f : B -> list C) (g : A -> list B) l : flat_map f (flat_map g l) = flat_map (fun x => flat_map f (g x)) l.
Proof. induction l as [|x l IH]; [reflexivity|]. cbn [flat_map]. rewrite flat_map_app, IH. reflexivity. Qed.
Lemma parts_pat_nodes p : flat_map nodes_part (parts_pat p) = nodes_pat p.
Proof.
  induction p as [|m x|q P|P fs Hfs|P l Hl|l Hl|m ts] using pat_ind'; cbn [parts_pat nodes_pat flat_map nodes_part]; rewrite ?app_nil_r, ?flat_map_flat; try reflexivity;
    first [apply flat_map_in; assumption|f_equal; apply flat_map_in; assumption].
Qed.
Lemma parts_pat_lts p : flat_map lts_part (parts_pat p) = lts_pat p.
Proof.
  induction p as [|m x|q P|P fs Hfs|P l Hl|l Hl|m ts] using pat_ind'; cbn [parts_pat lts_pat flat_map lts_part]; rewrite ?app_nil_r, ?flat_map_flat; try reflexivity;
    first [apply flat_map_in; assumption|f_equal; apply flat_map_in; assumption].
Qed.
Lemma parts_opt_nodes o : flat_map nodes_part (parts_opt o) = nodes_opt o.
Proof. destruct o; cbn; rewrite ?app_nil_r; reflexivity. Qed.
Lemma parts_opt_lts o : flat_map lts_part (parts_opt o) = lts_opt o.
Proof. destruct o; cbn; rewrite ?app_nil_r; reflexivity. Qed.
Ltac parts hyp := repeat match goal with
  | |- ?x = ?x => reflexivity
  | H : ?a = _ |- ?a = _ => exact H
  | |- _ ++ _ = _ ++ _ => f_equal
  | |- flat_map _ (map _ _) = _ => rewrite flat_map_map
  | |- flat_map _ (flat_map _ _) = _ => rewrite flat_map_flat
  | |- flat_map _ (_ ++ _) = _ => rewrite flat_map_app
  | |- flat_map _ (parts_pat _) = _ => hyp
  | |- flat_map _ (parts_opt _) = _ => hyp
  | |- flat_map _ (match ?b with Some _ => _ | None => _ end) = _ => destruct b
  | |- flat_map _ ?l = flat_map _ ?l => apply flat_map_in
  | H : Forall _ ?l |- Forall _ ?l => revert H; apply Forall_impl; intros
  | |- Forall _ ?l => apply Forall_forall; intros
  end.
Lemma parts_nodes : (forall x, flat_map nodes_part (parts_body x) = nodes_body x) /\ (forall s, flat_map nodes_part (parts_stmt s) = nodes_stmt s).
Proof.
  apply body_ind; intros; cbn [parts_body parts_stmt nodes_body nodes_stmt flat_map nodes_part Pb] in *; rewrite ?app_nil_r, ?flat_map_app;
    cbn [flat_map nodes_part]; rewrite ?app_nil_r;
    parts ltac:(first [apply parts_pat_nodes|apply parts_opt_nodes]); first [assumption|reflexivity].
Qed.
Lemma parts_lts : (forall x, flat_map lts_part (parts_body x) = lts_body x) /\ (forall s, flat_map lts_part (parts_stmt s) = lts_stmt s).
Proof.
  apply body_ind; intros; cbn [parts_body parts_stmt lts_body lts_stmt flat_map lts_part Pb] in *; rewrite ?app_nil_r, ?flat_map_app;
    cbn [flat_map lts_part]; rewrite ?app_nil_r;
    parts ltac:(first [apply parts_pat_lts|apply parts_opt_lts]); first [assumption|reflexivity].
Qed.

Lemma lts_bound_iff lt b : In lt (lts_bound b) <-> binds_bound lt b.
Proof. destruct (lts_binds lt) as (_ & _ & _ & _ & _ & H & _). apply H. Qed.
Lemma lts_part_binds lt x : In lt (lts_part x) -> binds_part lt x.
Proof.
  destruct (lts_binds lt) as (H1 & H2 & _ & H4 & _ & _ & H7). destruct x; cbn [lts_part binds_part]; intros H.
  - apply H1. exact H.
  - apply H4. cbn [lts_gargs flat_map]. rewrite app_nil_r. exact H.
  - apply H2. exact H.
  - apply H7. exact H.
  - apply H7. exact H.
Qed.

Section Move.
  Variable U : univ.
  Variables n n' : string -> head (D U).
  Variable f : string -> LT U.
  Variable p : path.
  Let own := mkTypePath None p.
  Variable loc : label -> head (D U).
  Variable call : scope -> env (D U) (LT U) -> list ident -> list ttree -> D U.
  (** Everything the body contains. *)
  Variable N : list node.
  Variable L : string -> Prop.
  Variable C : list (list ident * list ttree).

  Hypothesis Hp : self_type_is U n f p.
  Hypothesis Hn' : moved_names U n n'.
  Hypothesis Hnames : forall x, looks_up N x \/ looks_up (nodes_spath p) x -> x <> "__self" /\ x <> "__drop_inner".
  Hypothesis Hkey : self_legal N.
  Hypothesis Hodd : ~ In NOddSelf N.
  Hypothesis Hlts : forall x, L x -> ~ In (NLt x) (nodes_spath p).
  Hypothesis Htypes : forall m ts n1 n2 f g, In (NMacro m ts) N -> n1 "Self" = n "Self" ->
    moved_names U n1 n2 -> (forall x, g x = f x) ->
    u_macro U (mkEnv n2 g) m (visit_macro (print_ty (TyPath None p)) ts) = u_macro U (mkEnv n1 f) m ts.
  Hypothesis Hcalls : forall m ts n1 n2 f e1 e2, In (m, ts) C -> n1 "Self" = n "Self" ->
    moved_names U n1 n2 -> moved_scope e1 e2 ->
    call e2 (mkEnv n2 f) m (visit_macro (print_ty (TyPath None p)) ts) = call e1 (mkEnv n1 f) m ts.

  (** ** Types *)

  Record nrel (n1 n2 : string -> head (D U)) : Prop := {
    nr_moved : moved_names U n1 n2;
    nr_Self : n1 "Self" = n "Self";
    nr_own : forall x, looks_up (nodes_spath p) x -> n1 x = n x
  }.
  Definition nothing (x : string) : Prop := False.

  Lemma own_den n1 n2 : nrel n1 n2 -> den_ty (mkEnv n1 f) (TyPath None p) = den_ty (mkEnv n f) (TyPath None p).
  Proof.
    intros H. apply (proj1 (den_agree U nothing n1 n)); [intros x _; reflexivity|]. constructor.
    - exact (nr_own _ _ H).
    - intros m ts g h Hin. destruct (si_macros _ _ _ _ Hp m ts Hin).
    - intros x [].
  Qed.
  Lemma own_den' n1 n2 : nrel n1 n2 -> den_ty (mkEnv n2 f) (TyPath None p) = den_ty (mkEnv n f) (TyPath None p).
  Proof.
    intros H. rewrite <- (own_den n1 n2 H). apply (proj1 (den_agree U nothing n2 n1)); [intros x _; reflexivity|]. constructor.
    - intros x Hx. apply (nr_moved _ _ H).
      + intros ->. exact (si_Self _ _ _ _ Hp Hx).
      + apply Hnames. right. exact Hx.
    - intros m ts g h Hin. destruct (si_macros _ _ _ _ Hp m ts Hin).
    - intros x [].
  Qed.
  Lemma n1_self n1 n2 : nrel n1 n2 -> n1 "Self" = HDone (den_ty (mkEnv n1 f) (tp_ty own)).
  Proof. intros H. rewrite (nr_Self _ _ H), (si_self _ _ _ _ Hp). f_equal. symmetry. exact (own_den n1 n2 H). Qed.

  Lemma part_replaceable n1 n2 nl ls : nrel n1 n2 -> (forall x, In x nl -> In x N) -> (forall x, In x ls -> L x) ->
    replaceable U own n1 nl ls.
  Proof.
    intros H HN HL. constructor.
    - intros q lead l Hin. apply (Hkey q lead l). auto.
    - intros m ts lf Hin. apply (Htypes m ts n1 n1 lf lf); auto.
      + apply H.
      + intros x _ _. reflexivity.
    - left. reflexivity.
    - auto.
  Qed.
  Lemma legal_head q lead j r p' : In (NPath q lead p') N -> replace_ids p' = j :: r -> exists j' r', p' = j' :: r' /\ name j' = name j.
  Proof.
    intros Hin E. destruct p' as [|j' [|k r']]; [discriminate| |]; cbn in E.
    - exists j', []. split; [reflexivity|]. injection E as <- _. unfold prepend_underscore_to_self.
      destruct (ident_is j' "self") eqn:Ei; [|reflexivity]. apply ident_is_eq in Ei. subst j'.
      destruct (Hkey _ _ _ Hin [] [] eq_refl) as (_ & _ & X). congruence.
    - injection E as <- _. eauto.
  Qed.
  Lemma part_agree n1 n2 nl nl' : nrel n1 n2 -> (forall x, In x nl -> In x N) -> (forall y, In y nl' -> origin own nl y) ->
    agree_on U nothing n2 n1 nl'.
  Proof.
    intros H HN Ho. constructor.
    - intros x (q & j & r & Hin & Hq & <-). apply Ho in Hin. destruct Hin as [Hin|[Hin|(p' & Hin & Ep & Hx)]].
      + assert (X : looks_up (nodes_spath p) (name j)) by (exists q, j, r; auto).
        apply (nr_moved _ _ H); [intros E; rewrite E in X; exact (si_Self _ _ _ _ Hp X)|apply Hnames; right; exact X].
      + contradiction.
      + apply (nr_moved _ _ H).
        * intros E. apply Hodd. apply HN. eapply Hx; [reflexivity|reflexivity|exact E].
        * symmetry in Ep. destruct (legal_head _ _ _ _ _ (HN _ Hin) Ep) as (j' & r' & -> & <-).
          apply Hnames. left. exists q, j', r'. auto.
    - intros m ts g h Hin Hgh. apply Ho in Hin. destruct Hin as [Hin|(ts' & Hin & ->)]; [destruct (si_macros _ _ _ _ Hp m ts Hin)|].
      change (tp_ty own) with (TyPath None p).
      rewrite (Htypes m ts' n1 n2 h g (HN _ Hin) (nr_Self _ _ H) (nr_moved _ _ H) (fun x => Hgh x (fun F => F))).
      symmetry. apply (Htypes m ts' n1 n1 h h (HN _ Hin) (nr_Self _ _ H)); [intros x _ _; reflexivity|reflexivity].
    - intros x [].
  Qed.

  Lemma m_ty n1 n2 t : nrel n1 n2 -> (forall x, In x (nodes_ty t) -> In x N) -> (forall x, In x (lts_ty t) -> L x) ->
    den_ty (mkEnv n2 f) (replace_ty own t) = den_ty (mkEnv n1 f) t.
  Proof.
    intros H HN HL. transitivity (den_ty (mkEnv n1 f) (replace_ty own t)).
    - apply (proj1 (den_agree U nothing n2 n1)); [intros x _; reflexivity|].
      apply (part_agree n1 n2 (nodes_ty t)); [exact H|exact HN|]. exact (proj1 (nodes_replace own eq_refl) t).
    - refine (proj1 (den_replace U own n1 f (n1_self n1 n2 H) (si_macros _ _ _ _ Hp)) t f _ _);
        [intros x _; reflexivity|apply (part_replaceable n1 n2); assumption].
  Qed.
  Lemma m_garg n1 n2 t : nrel n1 n2 -> (forall x, In x (nodes_garg t) -> In x N) -> (forall x, In x (lts_garg t) -> L x) ->
    den_garg (mkEnv n2 f) (replace_garg own t) = den_garg (mkEnv n1 f) t.
  Proof.
    intros H HN HL. transitivity (den_garg (mkEnv n1 f) (replace_garg own t)).
    - destruct (den_agree U nothing n2 n1) as (_ & _ & _ & _ & X & _). apply X; [intros x _; reflexivity|].
      apply (part_agree n1 n2 (nodes_garg t)); [exact H|exact HN|].
      destruct (nodes_replace own eq_refl) as (_ & _ & _ & _ & Y & _). exact (Y t).
    - destruct (den_replace U own n1 f (n1_self n1 n2 H) (si_macros _ _ _ _ Hp)) as (_ & _ & _ & _ & X & _).
      apply X; [intros x _; reflexivity|apply (part_replaceable n1 n2); assumption].
  Qed.
  Lemma m_bound n1 n2 t : nrel n1 n2 -> (forall x, In x (nodes_bound t) -> In x N) -> (forall x, In x (lts_bound t) -> L x) ->
    forall g, (forall x, In (NLt x) (nodes_spath p) -> g x = f x) ->
    den_bound (mkEnv n2 g) (replace_bound own t) = den_bound (mkEnv n1 g) t.
  Proof.
    intros H HN HL g Hg. transitivity (den_bound (mkEnv n1 g) (replace_bound own t)).
    - destruct (den_agree U nothing n2 n1) as (_ & _ & _ & _ & _ & X & _). apply X; [intros x _; reflexivity|].
      apply (part_agree n1 n2 (nodes_bound t)); [exact H|exact HN|].
      destruct (nodes_replace own eq_refl) as (_ & _ & _ & _ & _ & Y & _). exact (Y t).
    - destruct (den_replace U own n1 f (n1_self n1 n2 H) (si_macros _ _ _ _ Hp)) as (_ & _ & _ & _ & _ & X & _).
      apply X; [exact Hg|apply (part_replaceable n1 n2); assumption].
  Qed.
  Lemma m_ty_under n1 n2 t : nrel n1 n2 -> (forall x, In x (nodes_ty t) -> In x N) -> (forall x, In x (lts_ty t) -> L x) ->
    forall g, (forall x, In (NLt x) (nodes_spath p) -> g x = f x) ->
    den_ty (mkEnv n2 g) (replace_ty own t) = den_ty (mkEnv n1 g) t.
  Proof.
    intros H HN HL g Hg. transitivity (den_ty (mkEnv n1 g) (replace_ty own t)).
    - apply (proj1 (den_agree U nothing n2 n1)); [intros x _; reflexivity|].
      apply (part_agree n1 n2 (nodes_ty t)); [exact H|exact HN|]. exact (proj1 (nodes_replace own eq_refl) t).
    - refine (proj1 (den_replace U own n1 f (n1_self n1 n2 H) (si_macros _ _ _ _ Hp)) t g Hg _).
      apply (part_replaceable n1 n2); assumption.
  Qed.
  Lemma m_expr n1 n2 t : nrel n1 n2 -> (forall x, In x (nodes_expr t) -> In x N) -> (forall x, In x (lts_expr t) -> L x) ->
    den_expr (mkEnv n2 f) (replace_expr own t) = den_expr (mkEnv n1 f) t.
  Proof.
    intros H HN HL. transitivity (den_expr (mkEnv n1 f) (replace_expr own t)).
    - destruct (den_agree U nothing n2 n1) as (_ & _ & _ & _ & _ & _ & X). apply X; [intros x _; reflexivity|].
      apply (part_agree n1 n2 (nodes_expr t)); [exact H|exact HN|].
      destruct (nodes_replace own eq_refl) as (_ & _ & _ & _ & _ & _ & Y). exact (Y t).
    - destruct (den_replace U own n1 f (n1_self n1 n2 H) (si_macros _ _ _ _ Hp)) as (_ & _ & _ & _ & _ & _ & X).
      apply X; [intros x _; reflexivity|apply (part_replaceable n1 n2); assumption].
  Qed.
  Lemma m_segs n1 n2 segs : nrel n1 n2 -> (forall x, In x (flat_map nodes_seg segs) -> In x N) ->
    (forall x, In x (flat_map lts_seg segs) -> L x) ->
    map (den_seg (mkEnv n2 f)) (map (replace_seg own) segs) = map (den_seg (mkEnv n1 f)) segs.
  Proof.
    intros H HN HL. transitivity (map (den_seg (mkEnv n1 f)) (map (replace_seg own) segs)).
    - destruct (den_agree U nothing n2 n1) as (_ & X & _).
      refine (X (Path false (map (replace_seg own) segs)) f f _ _); [intros x _; reflexivity|].
      apply (part_agree n1 n2 (flat_map nodes_seg segs)); [exact H|exact HN|].
      destruct (nodes_replace own eq_refl) as (_ & Y & _). exact (Y (Path false segs)).
    - destruct (den_replace U own n1 f (n1_self n1 n2 H) (si_macros _ _ _ _ Hp)) as (_ & X & _).
      refine (X (Path false segs) f _ _); [intros x _; reflexivity|apply (part_replaceable n1 n2); assumption].
  Qed.

  (** Paths of struct expressions and patterns. *)
  Lemma turbofish_den E s : den_seg (U := U) E (add_turbofish s) = den_seg E s.
  Proof. destruct s as [i [|[] l|l o]]; try reflexivity. destruct l; reflexivity. Qed.
  Lemma turbofish_nodes s : nodes_seg (add_turbofish s) = nodes_seg s.
  Proof. destruct s as [i [|[] l|l o]]; try reflexivity. destruct l; reflexivity. Qed.
  Lemma turbofish_ident s : seg_ident (add_turbofish s) = seg_ident s.
  Proof. destruct s as [i [|[] l|l o]]; try reflexivity. destruct l; reflexivity. Qed.
  Lemma path_of_app (E : env (D U) (LT U)) lead s r r' :
    path_of E lead ((s :: r) ++ r') = sels (path_of E lead (s :: r)) r'.
  Proof.
    destruct s as [x a]. cbn [path_of app]. generalize (if lead then u_abs U x a else use_head (names E x) a). revert r'.
    induction r as [|[y b] r IH]; intros r' d; [reflexivity|]. cbn [app sels]. apply IH.
  Qed.
  Lemma own_segs_free lead segs : p = Path lead segs -> self_free (flat_map nodes_seg segs) /\
    forall i a, segs = [Seg i a] -> ident_is i "self" = false.
  Proof.
    intros E. split.
    - assert (Hsub : forall x, In x (flat_map nodes_seg segs) -> In x (nodes_spath p)).
      { intros x Hx. rewrite E. unfold nodes_spath. cbn [nodes_ty]. right. apply in_or_app. right. apply in_or_app. left. exact Hx. }
      split; [intros m ts Hin; exact (si_macros _ _ _ _ Hp m ts (Hsub _ Hin))|].
      split.
      + intros r Hin. apply (si_Self _ _ _ _ Hp). exists None, (I "Self"), r. split; [apply Hsub; exact Hin|]. split; [discriminate|reflexivity].
      + intros q l Hin. destruct (si_keyword _ _ _ _ Hp _ _ _ (Hsub _ Hin) [] [] eq_refl) as (_ & _ & X). congruence.
    - intros i a ->. destruct (ident_is i "self") eqn:Ei; [|reflexivity]. apply ident_is_eq in Ei. subst i.
      assert (Hin : In (NPath None lead [I "self"]) (nodes_spath p)) by (rewrite E; left; reflexivity).
      destruct (si_keyword _ _ _ _ Hp _ _ _ Hin [] [] eq_refl) as (_ & _ & X). congruence.
  Qed.
  Lemma m_spath n1 n2 P : nrel n1 n2 -> (forall x, In x (nodes_spath P) -> In x N) -> (forall x, In x (lts_path P) -> L x) ->
    den_path (mkEnv n2 f) (replace_struct_path own P) = den_path (mkEnv n1 f) P.
  Proof.
    intros H HN HL. destruct P as [lead segs].
    destruct (path_is_Self None (Path lead segs) || path_starts_Self None (Path lead segs)) eqn:E.
    2:{ apply orb_false_iff in E. destruct E as [E1 E2].
        assert (X : replace_struct_path own (Path lead segs) = replace_path own (Path lead segs)).
        { unfold replace_struct_path. f_equal. unfold self_to_expr_path. destruct lead; [reflexivity|].
          destruct segs as [|[i a] r]; [reflexivity|]. destruct a; try reflexivity. cbn in E1, E2.
          destruct r; [rewrite E1|rewrite E2]; reflexivity. }
        rewrite X. pose proof (m_ty n1 n2 (TyPath None (Path lead segs)) H HN) as Y. rewrite r_path, E1, E2 in Y.
        apply Y. exact HL. }
    assert (X : lead = false /\ exists r, segs = Seg (I "Self") GNone :: r).
    { destruct lead; [discriminate|]. split; [reflexivity|]. destruct segs as [|[i a] r]; [discriminate|].
      destruct a; try (destruct r; discriminate).
      assert (Ei : ident_is i "Self" = true) by (destruct r; cbn in E; rewrite ?orb_false_r in E; exact E).
      apply ident_is_eq in Ei. subst i. eauto. }
    destruct X as [-> [r ->]]. clear E.
    unfold replace_struct_path. change (self_to_expr_path own (Path false (Seg (I "Self") GNone :: r))) with
      (match p with Path lead segs => Path lead (map add_turbofish segs ++ r) end).
    destruct (si_path _ _ _ _ Hp) as (lead & s & rs & Ep).
    destruct (own_segs_free lead (s :: rs) Ep) as [Hf Hone].
    pose proof (own_den' n1 n2 H) as Ho. rewrite Ep in Ho |- *. rewrite d_path in Ho.
    rewrite r_pathc. rewrite map_app.
    assert (Eu : map (replace_seg own) (map add_turbofish (s :: rs)) = map add_turbofish (s :: rs)).
    { destruct (replace_unchanged own) as (_ & Y & _). apply (Y (Path false (map add_turbofish (s :: rs)))).
      rewrite flat_map_map. rewrite (flat_map_ext _ nodes_seg) by (intros x; apply turbofish_nodes). exact Hf. }
    rewrite Eu.
    assert (Eus : underscore_path (map add_turbofish (s :: rs) ++ map (replace_seg own) r) =
                  map add_turbofish (s :: rs) ++ map (replace_seg own) r).
    { destruct rs as [|s2 rs]; [|cbn [map app]; destruct (add_turbofish s); reflexivity].
      destruct r as [|r1 r]; [|cbn [map app]; destruct (add_turbofish s); reflexivity]. cbn [map app].
      destruct (add_turbofish s) as [i a] eqn:Es. cbn [underscore_path]. unfold prepend_underscore_to_self.
      destruct s as [i0 a0].
      assert (i = i0) by (pose proof (turbofish_ident (Seg i0 a0)) as Y; rewrite Es in Y; exact Y). subst i0.
      rewrite (Hone i a0 eq_refl). reflexivity. }
    rewrite Eus. unfold den_path at 1. rewrite map_app, map_map.
    rewrite (map_ext (fun x => den_seg (mkEnv n2 f) (add_turbofish x)) (den_seg (mkEnv n2 f))) by (intros x; apply turbofish_den).
    rewrite map_cons, path_of_app, <- map_cons. cbn [map] in Ho |- *. rewrite Ho.
    rewrite (m_segs n1 n2 r H).
    - transitivity (sels (use_head (n1 "Self") []) (map (den_seg (mkEnv n1 f)) r)); [|reflexivity].
      rewrite (n1_self n1 n2 H). cbn [use_head]. change (tp_ty own) with (TyPath None p). rewrite (own_den n1 n2 H), Ep. reflexivity.
    - intros x Hx. apply HN. unfold nodes_spath. cbn [nodes_ty]. right. apply in_or_app. right. apply in_or_app. left.
      cbn [flat_map]. apply in_or_app. right. exact Hx.
    - intros x Hx. apply HL. cbn [lts_path]. exact Hx.
  Qed.

  (** ** Scopes *)
  Definition free (x : ident) : Prop := x <> I "__self" /\ x <> I "__drop_inner".
  Definition bound_ok (x : ident) : Prop := x <> I "self" /\ name x <> "Self" /\ ~ looks_up (nodes_spath p) (name x).
  Definition not_local (o : option label) : Prop := forall k, o <> Some (Local k).

  Record srel (e1 e2 : scope) : Prop := {
    sr_plain : forall x, free x -> x <> I "self" -> lookup x e2 = lookup x e1;
    sr_self : exists k, lookup (I "self") e1 = Some (Local k) /\ lookup (I "__self") e2 = Some (Local k);
    sr_items : forall x, free x -> lookup x (items_only e2) = lookup x (items_only e1);
    sr_named : forall x, x <> "__drop_inner" -> item_named x e2 = item_named x e1;
    sr_none : forall x, x = "Self" \/ looks_up (nodes_spath p) x -> item_named x e1 = None;
    sr_Self : not_local (lookup (I "Self") e1);
    sr_own : forall i a, p = Path false [Seg i a] -> not_local (lookup i e2)
  }.
  Lemma srel_moved e1 e2 : srel e1 e2 -> moved_scope e1 e2.
  Proof.
    intros H. split.
    - destruct (sr_self _ _ H) as (k & -> & ->). reflexivity.
    - intros x H1 H2 H3. apply (sr_plain _ _ H); [split; assumption|exact H1].
  Qed.
  Definition N1 e := names (env_in loc e (mkEnv n f)).
  Definition N2 e := names (env_in loc e (mkEnv n' f)).
  Lemma srel_nrel e1 e2 : srel e1 e2 -> nrel (N1 e1) (N2 e2).
  Proof.
    intros H. unfold N1, N2. constructor; cbn [names env_in].
    - intros x H1 H2. rewrite (sr_named _ _ H x H2). rewrite (Hn' x H1 H2). reflexivity.
    - rewrite (sr_none _ _ H "Self") by (left; reflexivity). reflexivity.
    - intros x Hx. rewrite (sr_none _ _ H x) by (right; exact Hx). reflexivity.
  Qed.

  Lemma item_named_bind x xs : forall k e, item_named x (bind_vars k xs e) = item_named x e.
  Proof. induction xs as [|y xs IH]; intros k e; [reflexivity|]. cbn [bind_vars]. rewrite IH. reflexivity. Qed.
  Lemma srel_bind xs : (forall x, In x xs -> free x /\ bound_ok x) ->
    forall k e1 e2, srel e1 e2 -> srel (bind_vars k xs e1) (bind_vars k xs e2).
  Proof.
    induction xs as [|y xs IH]; intros H k e1 e2 He; [exact He|]. cbn [bind_vars].
    apply IH; [intros x Hx; apply H; right; exact Hx|].
    destruct (H y (or_introl eq_refl)) as [[Hy1 Hy2] (Hy3 & Hy4 & Hy5)]. destruct He as [A B Ci Dn En Fs G]. constructor.
    - intros x Hx Hs. cbn [lookup]. rewrite (A x Hx Hs). reflexivity.
    - destruct B as (j & B1 & B2). exists j. cbn [lookup]. destruct (ident_eqb y (I "self")) eqn:E1; [apply ident_eqb_eq in E1; contradiction|].
      destruct (ident_eqb y (I "__self")) eqn:E2; [apply ident_eqb_eq in E2; contradiction|]. split; assumption.
    - exact Ci.
    - exact Dn.
    - exact En.
    - cbn [lookup]. destruct (ident_eqb y (I "Self")) eqn:E1; [apply ident_eqb_eq in E1; subst y; elim Hy4; reflexivity|exact Fs].
    - intros i a Ep. cbn [lookup]. destruct (ident_eqb y i) eqn:E1; [|apply (G i a Ep)].
      apply ident_eqb_eq in E1. subst y. elim Hy5. rewrite Ep. exists None, i, []. split; [left; reflexivity|]. split; [discriminate|reflexivity].
  Qed.

  Lemma item_named_app x a b : item_named x (a ++ b) = match item_named x a with Some l => Some l | None => item_named x b end.
  Proof.
    induction a as [|[y [d z|k]] a IH]; [reflexivity| |exact IH]. cbn [app item_named]. destruct (String.eqb (name y) x); [reflexivity|exact IH].
  Qed.
  Lemma item_named_block x d l : (forall i, In i (flat_map binders_stmt l) -> name i <> x) -> item_named x (block_items d l) = None.
  Proof.
    intros H. unfold block_items. induction l as [|s l IH]; [reflexivity|]. cbn [flat_map] in *.
    rewrite item_named_app, IH by (intros i Hi; apply H; apply in_or_app; right; exact Hi).
    destruct s as [q t e|e|a v sg b|y ts|y ts]; try reflexivity; cbn [item_named].
    - destruct (String.eqb_spec (name (fs_ident sg)) x) as [E|_]; [|reflexivity]. elim (H (fs_ident sg)); [left; reflexivity|exact E].
    - destruct (String.eqb_spec (name y) x) as [E|_]; [|reflexivity]. elim (H y); [left; reflexivity|exact E].
  Qed.
  Lemma lookup_block_item x d l : not_local (lookup x (block_items d l)).
  Proof.
    intros k. unfold block_items. induction l as [|s l IH]; [discriminate|]. cbn [flat_map]. rewrite lookup_app.
    destruct s as [q t e|e|a v sg b|y ts|y ts]; try exact IH; cbn [lookup].
    - destruct (ident_eqb (fs_ident sg) x); [discriminate|exact IH].
    - destruct (ident_eqb y x); [discriminate|exact IH].
  Qed.
  Lemma not_local_block x d l e : not_local (lookup x e) -> not_local (lookup x (block_items d l ++ e)).
  Proof.
    intros H k. rewrite lookup_app. pose proof (lookup_block_item x d l k) as Hb.
    destruct (lookup x (block_items d l)); [exact Hb|apply H].
  Qed.
  Lemma srel_block d l e1 e2 :
    (forall x, In x (flat_map mentions_stmt l) -> free x) -> (forall x, In x (flat_map binders_stmt l) -> bound_ok x) ->
    srel e1 e2 -> srel (block_items d l ++ e1) (block_items d l ++ e2).
  Proof.
    intros Hm Hb [A B Ci Dn En Fs G]. constructor.
    - intros x Hx Hs. rewrite !lookup_app, (A x Hx Hs). reflexivity.
    - destruct B as (j & B1 & B2). exists j. rewrite !lookup_app. rewrite !lookup_block_none; [split; assumption| |].
      + intros s Hs x Hx ->. assert (Hin : In (I "__self") (flat_map mentions_stmt l)).
        { apply in_flat_map. exists s. split; [exact Hs|]. apply binders_mentions. exact Hx. }
        exact (proj1 (Hm _ Hin) eq_refl).
      + intros s Hs x Hx E. subst x. apply (proj1 (Hb (I "self") (proj2 (in_flat_map _ _ _) (ex_intro _ s (conj Hs Hx))))). reflexivity.
    - intros x Hx. rewrite !items_only_app, !lookup_app, (Ci x Hx). reflexivity.
    - intros x Hx. rewrite !item_named_app, (Dn x Hx). reflexivity.
    - intros x Hx. rewrite item_named_app, item_named_block; [apply En; exact Hx|]. intros i Hi E. subst x.
      destruct (Hb i Hi) as (_ & H1 & H2). destruct Hx; contradiction.
    - apply not_local_block. exact Fs.
    - intros i a Ep. apply not_local_block. exact (G i a Ep).
  Qed.

  (** ** Code *)
  Record ok (m b : list ident) (nl : list node) (ls : list string) (cs : list (list ident * list ttree)) : Prop := {
    ok_m : forall x, In x m -> free x;
    ok_b : forall x, In x b -> bound_ok x;
    ok_n : forall x, In x nl -> In x N;
    ok_l : forall x, In x ls -> L x;
    ok_c : forall x, In x cs -> In x C
  }.
  Lemma ok_sub m b nl ls cs m' b' nl' ls' cs' : ok m b nl ls cs -> incl m' m -> incl b' b -> incl nl' nl -> incl ls' ls -> incl cs' cs ->
    ok m' b' nl' ls' cs'.
  Proof. intros [A B Cn Dl Ec] H1 H2 H3 H4 H5. constructor; auto. Qed.
  Lemma incl_flat {A B} (g : A -> list B) l a : In a l -> incl (g a) (flat_map g l).
  Proof. intros H x Hx. apply in_flat_map. eauto. Qed.
  Definition okx x := ok (mentions x) (binders x) (nodes_body x) (lts_body x) (calls_body x).
  Definition oks s := ok (mentions_stmt s) (binders_stmt s) (nodes_stmt s) (lts_stmt s) (calls_stmt s).
  Definition okl l := ok (flat_map mentions_stmt l) (flat_map binders_stmt l) (flat_map nodes_stmt l) (flat_map lts_stmt l) (flat_map calls_stmt l).
  Definition okp q := ok (pat_vars q) (pat_vars q) (nodes_pat q) (lts_pat q) (calls_pat q).

  Lemma m_path e1 e2 q P : srel e1 e2 ->
    (forall x, In x (match q, P with None, Path false [Seg i _] => [i] | _, _ => [] end) -> free x) ->
    (forall x, In x (nodes_vpath q P) -> In x N) -> (forall x, In x (lts_expr (EPath q P)) -> L x) ->
    (let '(q', P') := replace_qpath own q P in res_path loc (mkEnv n' f) e2 q' P') = res_path loc (mkEnv n f) e1 q P.
  Proof.
    intros He Hm HN HL. pose proof (srel_nrel e1 e2 He) as Hr.
    assert (Hd : (forall x, In x (nodes_expr (EPath q P)) -> In x N) ->
      den_expr (mkEnv (N2 e2) f) (replace_expr own (EPath q P)) = den_expr (mkEnv (N1 e1) f) (EPath q P))
      by (intros HN'; apply m_expr; assumption).
    assert (Hpath : forall q P E e, res_path loc E e q P = MPath (den_expr (env_in loc e E) (EPath q P)) \/
      exists x a k, q = None /\ P = Path false [Seg x a] /\ lookup x e = Some (Local k) /\ res_path loc E e q P = MLocal k).
    { intros q0 P0 E e. unfold res_path. destruct q0; [left; reflexivity|]. destruct P0 as [[|] [|[x a] [|s r]]]; try (left; reflexivity).
      destruct (lookup x e) as [[d z|k]|] eqn:El; try (left; reflexivity). right. eauto 7. }
    unfold replace_qpath. rewrite r_epath in *. 
    destruct (path_is_Self q P) eqn:E1.
    { destruct q; [discriminate|]. destruct P as [[|] [|[i [| |]] [|]]]; try discriminate. cbn in E1. apply ident_is_eq in E1. subst i.
      assert (X : res_path loc (mkEnv n f) e1 None (Path false [Seg (I "Self") GNone]) =
        MPath (den_expr (env_in loc e1 (mkEnv n f)) (EPath None (Path false [Seg (I "Self") GNone])))).
      { destruct (Hpath None (Path false [Seg (I "Self") GNone]) (mkEnv n f) e1) as [X|(x & a & k & _ & E & El & _)]; [exact X|].
        injection E as <- _. elim (sr_Self _ _ He k El). }
      rewrite X. specialize (Hd HN).
      destruct (Hpath None (self_to_expr_path own (Path false [Seg (I "Self") GNone])) (mkEnv n' f) e2) as [Y|(x & a & k & _ & E & El & _)].
      - rewrite Y. f_equal. exact Hd.
      - exfalso. change (self_to_expr_path own (Path false [Seg (I "Self") GNone])) with
          (match p with Path lead segs => Path lead (map add_turbofish segs ++ []) end) in E.
        destruct p as [lead segs] eqn:Ep. rewrite app_nil_r in E. injection E as -> E.
        destruct segs as [|s [|s2 r]]; try discriminate. injection E as E.
        assert (Z : x = seg_ident s) by (rewrite <- (turbofish_ident s), E; reflexivity). destruct s as [i0 a0]. cbn in Z. subst i0.
        exact (sr_own _ _ He x a0 Ep k El). }
    destruct (path_starts_Self q P) eqn:E2.
    { destruct q; [discriminate|]. destruct P as [[|] [|[i [| |]] [|s2 r]]]; try discriminate. cbn [res_path]. f_equal. apply Hd. exact HN. }
    destruct q as [[t k]|]; [cbn [res_path]; f_equal; apply Hd; exact HN|].
    destruct P as [[|] segs]; [cbn [res_path]; rewrite r_pathc; cbn [res_path]; f_equal; apply Hd; exact HN|].
    rewrite r_pathc in *. destruct segs as [|[i a] [|s2 r]].
    - exact (f_equal MPath (Hd HN)).
    - cbn [map] in *. rewrite r_seg in *. cbn [underscore_path] in *. unfold prepend_underscore_to_self in *.
      destruct (ident_is i "self") eqn:E3; cbn [fst] in *.
      + apply ident_is_eq in E3. subst i. destruct (sr_self _ _ He) as (k & L1 & L2). unfold res_path. rewrite L1, L2. reflexivity.
      + assert (Hi : i <> I "self") by (intros ->; discriminate).
        assert (HN' : forall x, In x (nodes_expr (EPath None (Path false [Seg i a]))) -> In x N).
        { intros x Hx. apply HN. unfold nodes_vpath. destruct a; try exact Hx.
          destruct (ident_eqb i (I "self")) eqn:E; [apply ident_eqb_eq in E; contradiction|exact Hx]. }
        unfold res_path. rewrite (sr_plain _ _ He i (Hm i (or_introl eq_refl)) Hi).
        destruct (lookup i e1) as [[d z|k]|]; [f_equal; apply Hd; exact HN'|reflexivity|f_equal; apply Hd; exact HN'].
    - destruct (Hpath None (Path false (underscore_path (map (replace_seg own) (Seg i a :: s2 :: r)))) (mkEnv n' f) e2)
        as [Y|(x & b & k & _ & E & _)].
      + rewrite Y. refine (f_equal MPath (Hd _)). intros x Hx. apply HN. destruct a; exact Hx.
      + exfalso. cbn [map] in E. rewrite r_seg in E. discriminate E.
  Qed.

  Ltac inc := first [apply incl_refl | apply incl_nil_l
    | apply incl_appl; solve [inc] | apply incl_appr; solve [inc]
    | match goal with H : In ?a ?l |- incl _ (flat_map ?h ?l) =>
        apply (fun X => incl_tran X (incl_flat h l a H)); cbn beta; cbn [fst snd]; solve [inc] end ].
  Ltac sub Hk := apply (ok_sub _ _ _ _ _ _ _ _ _ _ Hk); inc.
  Lemma map_Forall_eq {A B} (P : A -> Prop) (g : A -> B) (h : A -> B) l :
    Forall P l -> (forall x, P x -> In x l -> g x = h x) -> map g l = map h l.
  Proof.
    induction 1 as [|x l Hx _ IH]; intros H; [reflexivity|]. cbn [map]. rewrite (H x Hx (or_introl eq_refl)), IH; [reflexivity|].
    intros y Hy Hin. apply H; [exact Hy|right; exact Hin].
  Qed.

  Lemma m_pat e1 e2 : srel e1 e2 -> forall q, okp q ->
    res_pat loc call (mkEnv n' f) e2 (replace_pat own q) = res_pat loc call (mkEnv n f) e1 q.
  Proof.
    intros He. pose proof (srel_nrel e1 e2 He) as Hr.
    induction q as [|m x|q P|P fs Hfs|P l Hl|l Hl|m ts] using pat_ind'; intros Hk; try reflexivity; cbn [replace_pat res_pat].
    - unfold replace_qpath. pose proof (m_expr (N1 e1) (N2 e2) (EPath q P) Hr (ok_n _ _ _ _ _ Hk) (ok_l _ _ _ _ _ Hk)) as H.
      rewrite r_epath in *. destruct (path_is_Self q P); [|destruct (path_starts_Self q P)]; try destruct P; exact (f_equal MPPath H).
    - f_equal.
      + apply (m_spath (N1 e1) (N2 e2) P Hr); intros x Hx; [apply (ok_n _ _ _ _ _ Hk)|apply (ok_l _ _ _ _ _ Hk)];
          cbn [nodes_pat lts_pat]; apply in_or_app; left; exact Hx.
      + rewrite map_map. apply (map_Forall_eq _ _ _ _ Hfs). intros [i q] Hq Hin. cbn [fst snd] in *. f_equal. apply Hq.
        revert Hk. unfold okp. cbn [pat_vars nodes_pat lts_pat calls_pat]. intros Hk. sub Hk.
    - f_equal.
      + apply (m_spath (N1 e1) (N2 e2) P Hr); intros x Hx; [apply (ok_n _ _ _ _ _ Hk)|apply (ok_l _ _ _ _ _ Hk)];
          cbn [nodes_pat lts_pat]; apply in_or_app; left; exact Hx.
      + rewrite map_map. apply (map_Forall_eq _ _ _ _ Hl). intros q Hq Hin. apply Hq.
        revert Hk. unfold okp. cbn [pat_vars nodes_pat lts_pat calls_pat]. intros Hk.
        sub Hk.
    - f_equal. rewrite map_map. apply (map_Forall_eq _ _ _ _ Hl). intros q Hq Hin. apply Hq.
      revert Hk. unfold okp. cbn [pat_vars nodes_pat lts_pat calls_pat]. intros Hk.
      sub Hk.
    - f_equal. apply Hcalls; [apply (ok_c _ _ _ _ _ Hk); left; reflexivity|apply Hr|apply Hr|apply srel_moved; exact He].
  Qed.

  Notation R1 := (res loc call (mkEnv n f)).
  Notation R2 := (res loc call (mkEnv n' f)).
  Notation S1 := (res_stmt loc call (mkEnv n f)).
  Notation S2 := (res_stmt loc call (mkEnv n' f)).
  Definition kept_x x := okx x -> forall k d e1 e2, srel e1 e2 -> R2 k d e2 (replace_bexpr own x) = R1 k d e1 x.
  Definition kept_s s := oks s -> forall k d e1 e2, srel e1 e2 -> S2 k d e2 (replace_bstmt own s) = S1 k d e1 s.

  Lemma vars_ok vs m b nl ls cs : ok m b nl ls cs -> incl vs m -> incl vs b -> forall x, In x vs -> free x /\ bound_ok x.
  Proof. intros [A B _ _ _] H1 H2 x Hx. auto. Qed.

  Lemma m_stmts l : Forall kept_s l -> okl l -> forall k d e1 e2, srel e1 e2 ->
    res_stmts loc call (mkEnv n' f) d k e2 (map (replace_bstmt own) l) = res_stmts loc call (mkEnv n f) d k e1 l.
  Proof.
    induction 1 as [|s l Hs _ IH]; intros Hk k d e1 e2 He; [reflexivity|]. cbn [res_stmts map].
    unfold okl in Hk. cbn [flat_map] in Hk.
    rewrite (Hs ltac:(sub Hk) _ _ _ _ He), stmt_vars_replace. f_equal. apply IH; [sub Hk|].
    apply srel_bind; [|exact He]. destruct s as [q t e|e|a v sg b|y ts|y ts]; try (intros x []). cbn [stmt_vars].
    apply (vars_ok _ _ _ _ _ _ Hk); cbn [mentions_stmt binders_stmt]; inc.
  Qed.

  Ltac here Hk := unfold okx, oks, okp in *; cbn [mentions mentions_stmt binders binders_stmt nodes_body nodes_stmt lts_body lts_stmt calls_body calls_stmt
    fst snd nodes_opt lts_opt option_map] in *; sub Hk.
  Lemma m_opt e1 e2 t : srel e1 e2 -> (forall x, In x (nodes_opt t) -> In x N) -> (forall x, In x (lts_opt t) -> L x) ->
    option_map (den_ty (env_in loc e2 (mkEnv n' f))) (option_map (replace_ty own) t) = option_map (den_ty (env_in loc e1 (mkEnv n f))) t.
  Proof.
    intros He HN HL. destruct t as [t|]; [|reflexivity]. cbn. f_equal.
    exact (m_ty (N1 e1) (N2 e2) t (srel_nrel e1 e2 He) HN HL).
  Qed.

  Lemma m_body : (forall x, kept_x x) /\ (forall s, kept_s s).
  Proof.
    apply (body_ind kept_x kept_s); unfold kept_x, kept_s; cbn [replace_bexpr replace_bstmt res res_stmt].
    - intros q P Hk k d e1 e2 He. pose proof (m_path e1 e2 q P He (ok_m _ _ _ _ _ Hk) (ok_n _ _ _ _ _ Hk) (ok_l _ _ _ _ _ Hk)) as H.
      destruct (replace_qpath own q P) as [q' P']. exact H.
    - reflexivity.
    - intros g l Hg Hl Hk k d e1 e2 He. rewrite (Hg ltac:(here Hk) _ _ _ _ He). f_equal. rewrite map_map.
      apply (map_Forall_eq _ _ _ _ Hl). intros x Hx Hin. apply Hx; [here Hk|exact He].
    - intros g m t l Hg Hl Hk k d e1 e2 He. rewrite (Hg ltac:(here Hk) _ _ _ _ He). f_equal.
      + rewrite map_map. apply map_ext_in. intros a Ha. apply (m_garg (N1 e1) (N2 e2) a (srel_nrel e1 e2 He)).
        * intros x Hx. apply (ok_n _ _ _ _ _ Hk). cbn [nodes_body]. apply in_or_app. right. apply in_or_app. left. apply in_flat_map. eauto.
        * intros x Hx. apply (ok_l _ _ _ _ _ Hk). cbn [lts_body]. apply in_or_app. right. apply in_or_app. left. apply in_flat_map. eauto.
      + rewrite map_map. apply (map_Forall_eq _ _ _ _ Hl). intros x Hx Hin. apply Hx; [here Hk|exact He].
    - intros g i Hg Hk k d e1 e2 He. rewrite (Hg ltac:(here Hk) _ _ _ _ He). reflexivity.
    - intros P fs b Hfs Hb Hk k d e1 e2 He. f_equal.
      + apply (m_spath (N1 e1) (N2 e2) P (srel_nrel e1 e2 He)); intros x Hx; [apply (ok_n _ _ _ _ _ Hk)|apply (ok_l _ _ _ _ _ Hk)];
          cbn [nodes_body lts_body]; apply in_or_app; left; exact Hx.
      + rewrite map_map. apply (map_Forall_eq _ _ _ _ Hfs). intros [i x] Hx Hin. cbn [fst snd] in *. f_equal. apply Hx; [here Hk|exact He].
      + destruct b as [b|]; [|reflexivity]. f_equal. apply Hb; [here Hk|exact He].
    - intros o g Hg Hk k d e1 e2 He. rewrite (Hg ltac:(here Hk) _ _ _ _ He). reflexivity.
    - intros o a b Ha Hb Hk k d e1 e2 He. rewrite (Ha ltac:(here Hk) _ _ _ _ He), (Hb ltac:(here Hk) _ _ _ _ He). reflexivity.
    - intros g t Hg Hk k d e1 e2 He. rewrite (Hg ltac:(here Hk) _ _ _ _ He). f_equal.
      apply (m_ty (N1 e1) (N2 e2) t (srel_nrel e1 e2 He)); intros x Hx; [apply (ok_n _ _ _ _ _ Hk)|apply (ok_l _ _ _ _ _ Hk)];
        cbn [nodes_body lts_body]; apply in_or_app; right; exact Hx.
    - intros l Hl Hk k d e1 e2 He. f_equal.
      change (res_stmts loc call (mkEnv n' f) (S d) k (block_items (S d) (map (replace_bstmt own) l) ++ e2) (map (replace_bstmt own) l)
        = res_stmts loc call (mkEnv n f) (S d) k (block_items (S d) l ++ e1) l).
      apply (m_stmts l Hl Hk k (S d)).
      rewrite block_items_replace. apply srel_block; [apply Hk|apply Hk|exact He].
    - intros g arms Hg Ha Hk k d e1 e2 He. rewrite (Hg ltac:(here Hk) _ _ _ _ He). f_equal. rewrite map_map.
      apply (map_Forall_eq _ _ _ _ Ha). intros [q x] Hx Hin. cbn [fst snd] in *. rewrite pat_vars_replace. f_equal.
      + apply m_pat; [exact He|here Hk].
      + apply Hx; [here Hk|]. apply srel_bind; [|exact He]. unfold okx in Hk. cbn [mentions binders] in Hk.
        apply (vars_ok _ _ _ _ _ _ Hk); inc.
    - intros ps g Hg Hk k d e1 e2 He.
      replace (flat_map (fun q : bpat * option ty => pat_vars (fst q))
        (map (fun q : bpat * option ty => (replace_pat own (fst q), option_map (replace_ty own) (snd q))) ps))
        with (flat_map (fun q : bpat * option ty => pat_vars (fst q)) ps).
      2:{ rewrite flat_map_map. apply flat_map_ext. intros q. symmetry. apply pat_vars_replace. }
      f_equal.
      + rewrite map_map. apply map_ext_in. intros [q t] Hin. cbn [fst snd]. f_equal.
        * apply m_pat; [exact He|here Hk].
        * apply m_opt; [exact He| |]; intros x Hx; [apply (ok_n _ _ _ _ _ Hk)|apply (ok_l _ _ _ _ _ Hk)]; cbn [nodes_body lts_body];
            apply in_or_app; left; apply in_flat_map; exists (q, t); (split; [exact Hin|]); cbn [fst snd]; apply in_or_app; right; exact Hx.
      + apply Hg; [here Hk|]. apply srel_bind; [|exact He]. unfold okx in Hk. cbn [mentions binders] in Hk.
        apply (vars_ok _ _ _ _ _ _ Hk); inc.
    - intros m ts Hk k d e1 e2 He. f_equal. pose proof (srel_nrel e1 e2 He) as Hr.
      apply Hcalls; [apply (ok_c _ _ _ _ _ Hk); left; reflexivity|apply Hr|apply Hr|apply srel_moved; exact He].
    - intros q t e Hx Hk k d e1 e2 He. f_equal.
      + apply m_pat; [exact He|here Hk].
      + apply m_opt; [exact He| |]; intros x Hin; [apply (ok_n _ _ _ _ _ Hk)|apply (ok_l _ _ _ _ _ Hk)]; cbn [nodes_stmt lts_stmt];
          apply in_or_app; right; apply in_or_app; left; exact Hin.
      + destruct e as [x|]; [|reflexivity]. f_equal. apply Hx; [here Hk|exact He].
    - intros x Hx Hk k d e1 e2 He. f_equal. apply Hx; [exact Hk|exact He].
    - intros a v sg b Hb Hk k d e1 e2 He. f_equal.
      cbn [uses_stmt].
      assert (F : forall l, Forall (fun s => allP free (mentions_stmt s) ->
        forall n d e1 e2, agree free e1 e2 -> uses_stmt n d e1 s = uses_stmt n d e2 s) l)
        by (intros l; apply Forall_forall; intros s _; apply (proj2 (uses_ext free))).
      apply (ext_stmts free b (F b)) with (d := S d).
      + intros x Hx. apply (ok_m _ _ _ _ _ Hk). right. apply in_or_app. right. exact Hx.
      + apply agree_app. apply agree_bind. intros x Hx. rewrite !items_only_idem. split; apply He; exact Hx.
    - intros x ts Hk k d e1 e2 He. f_equal. pose proof (srel_nrel e1 e2 He) as Hr.
      apply Hcalls; [apply (ok_c _ _ _ _ _ Hk); left; reflexivity|apply Hr|apply Hr|apply srel_moved; exact He].
    - reflexivity.
  Qed.

  (** ** The inner function *)
  Lemma srel_start : srel [(I "self", Local 0)] [(I "__self", Local 0); (I "__drop_inner", Item 0 (I "__drop_inner"))].
  Proof.
    constructor.
    - intros x [H1 H2] H3. cbn [lookup].
      destruct (ident_eqb (I "self") x) eqn:E1; [apply ident_eqb_eq in E1; elim H3; symmetry; exact E1|].
      destruct (ident_eqb (I "__self") x) eqn:E2; [apply ident_eqb_eq in E2; elim H1; symmetry; exact E2|].
      destruct (ident_eqb (I "__drop_inner") x) eqn:E3; [apply ident_eqb_eq in E3; elim H2; symmetry; exact E3|]. reflexivity.
    - exists 0. split; reflexivity.
    - intros x [H1 H2]. cbn [items_only filter snd lookup].
      destruct (ident_eqb (I "__drop_inner") x) eqn:E3; [apply ident_eqb_eq in E3; elim H2; symmetry; exact E3|]. reflexivity.
    - intros x Hx. cbn [item_named I name]. destruct (String.eqb_spec "__drop_inner" x) as [E|_]; [elim Hx; symmetry; exact E|reflexivity].
    - reflexivity.
    - intros k. discriminate.
    - intros i a Ep k. cbn [lookup]. destruct (ident_eqb (I "__self") i) eqn:E2.
      + apply ident_eqb_eq in E2. subst i. intros _. refine (proj1 (Hnames "__self" (or_intror _)) eq_refl).
        rewrite Ep. exists None, (I "__self"), []. split; [left; reflexivity|]. split; [discriminate|reflexivity].
      + destruct (ident_eqb (I "__drop_inner") i); discriminate.
  Qed.
  Lemma srel_guard e1 e2 : srel e1 e2 -> srel e1 ((drop_inner_id, Item 1 drop_inner_id) :: e2).
  Proof.
    intros [A B Ci Dn En Fs G]. constructor.
    - intros x Hx Hs. cbn [lookup].
      destruct (ident_eqb drop_inner_id x) eqn:E3; [apply ident_eqb_eq in E3; elim (proj2 Hx); symmetry; exact E3|]. apply A; assumption.
    - destruct B as (j & B1 & B2). exists j. split; [exact B1|]. exact B2.
    - intros x Hx.
      match goal with |- lookup _ (items_only (?h :: ?r)) = _ => change (items_only (h :: r)) with (h :: items_only r) end. cbn [lookup].
      destruct (ident_eqb drop_inner_id x) eqn:E3; [apply ident_eqb_eq in E3; elim (proj2 Hx); symmetry; exact E3|]. apply Ci; assumption.
    - intros x Hx. cbn [item_named drop_inner_id I name].
      destruct (String.eqb_spec "__drop_inner" x) as [E|_]; [elim Hx; symmetry; exact E|]. apply Dn. exact Hx.
    - exact En.
    - exact Fs.
    - intros i a Ep k. cbn [lookup]. destruct (ident_eqb drop_inner_id i); [discriminate|]. exact (G i a Ep k).
  Qed.

  Lemma m_inner l : okl l ->
    res_body loc call (mkEnv n' f) 1 [I "__self"] [(I "__drop_inner", Item 0 (I "__drop_inner"))] (dummy_fn :: replace_block own l) =
    MFn [] VInherited (mkSig false false false false (I "__drop_inner") (mkGenerics [] None) [] false None) [] [] ::
    res_body loc call (mkEnv n f) 1 [I "self"] [] l.
  Proof.
    intros Hk. unfold res_body. cbn [length bind_vars items_only filter snd]. cbn [res_stmts]. f_equal.
    assert (F : Forall kept_s l) by (apply Forall_forall; intros s _; apply m_body).
    apply (m_stmts l F Hk). cbn [stmt_vars dummy_fn bind_vars].
    match goal with |- srel _ (block_items 1 (?d :: _) ++ ?e) =>
      change (block_items 1 (d :: replace_block own l) ++ e) with
        ((drop_inner_id, Item 1 drop_inner_id) :: (block_items 1 (map (replace_bstmt own) l) ++ e)) end.
    rewrite block_items_replace. apply srel_guard. apply srel_block; [apply Hk|apply Hk|]. exact srel_start.
  Qed.

  (** ** The signature *)
  Lemma start_nrel : nrel n n'.
  Proof. constructor; auto. Qed.
  Lemma m_generics g : (forall x, In x (nodes_generics g) -> In x N) -> (forall x, binds_generics x g -> L x) ->
    den_generics (mkEnv n' f) (replace_generics own g) = den_generics (mkEnv n f) g.
  Proof.
    intros HN HL. destruct g as [ps w]. unfold den_generics, nodes_generics, binds_generics in *. cbn [g_params g_where replace_generics] in *.
    pose proof start_nrel as Hr. assert (Hf : forall x, In (NLt x) (nodes_spath p) -> f x = f x) by reflexivity. f_equal.
    - rewrite map_map. apply map_ext_in. intros [lt bs|i bs d|i t d] Hin; [reflexivity| |]; cbn [replace_param den_param]; f_equal.
      + rewrite map_map. apply map_ext_in. intros b Hb. apply (m_bound n n' b Hr); [| |exact Hf].
        * intros x Hx. apply HN. apply in_or_app. left. apply in_flat_map. exists (PTy i bs d). split; [exact Hin|]. apply in_flat_map. eauto.
        * intros x Hx. apply HL. left. exists i, bs, d, b. split; [exact Hin|]. split; [exact Hb|]. apply lts_bound_iff. exact Hx.
      + apply (m_ty n n' t Hr).
        * intros x Hx. apply HN. apply in_or_app. left. apply in_flat_map. exists (PConst i t d). split; [exact Hin|exact Hx].
        * intros x Hx. apply HL. right. left. exists i, t, d. split; [exact Hin|]. apply (proj1 (lts_binds x)). exact Hx.
    - destruct w as [w|]; [|reflexivity]. cbn [option_map]. rewrite map_map. apply map_ext_in. intros [lt bs|lts t bs] Hin; [reflexivity|].
      cbn [replace_wpred den_wpred]. cbn [under names lts_of].
      assert (HL' : forall x, In x lts \/ binds_ty x t \/ (exists b, In b bs /\ binds_bound x b) -> L x).
      { intros x Hx. apply HL. right. right. exists w, lts, t, bs. auto. }
      assert (HN' : forall x, In x (nodes_ty t) \/ In x (flat_map nodes_bound bs) -> In x N).
      { intros x Hx. apply HN. apply in_or_app. right. apply in_flat_map. exists (WTy lts t bs). split; [exact Hin|]. apply in_or_app. exact Hx. }
      assert (Hg : forall x, In (NLt x) (nodes_spath p) -> bind_lts (U := U) lts f x = f x).
      { intros x Hx. unfold bind_lts. destruct (existsb (String.eqb x) lts) eqn:E; [|reflexivity].
        apply existsb_exists in E. destruct E as (y & Hy & E). apply String.eqb_eq in E. subst y.
        elim (Hlts x (HL' x (or_introl Hy)) Hx). }
      f_equal.
      + apply (m_ty_under n n' t Hr); [auto| |exact Hg]. intros x Hx. apply HL'. right. left. apply (proj1 (lts_binds x)). exact Hx.
      + rewrite map_map. apply map_ext_in. intros b Hb. apply (m_bound n n' b Hr); [| |exact Hg].
        * intros x Hx. apply HN'. right. apply in_flat_map. eauto.
        * intros x Hx. apply HL'. right. right. exists b. split; [exact Hb|]. apply lts_bound_iff. exact Hx.
  Qed.
End Move.


Lemma movable_inner U n n' f p loc call l :
  self_type_is U n f p -> moved_names U n n' -> movable U n call p l ->
  res_body loc call (mkEnv n' f) 1 [I "__self"] [(I "__drop_inner", Item 0 (I "__drop_inner"))]
    (dummy_fn :: replace_block (mkTypePath None p) l) =
  MFn [] VInherited (mkSig false false false false (I "__drop_inner") (mkGenerics [] None) [] false None) [] [] ::
  res_body loc call (mkEnv n f) 1 [I "self"] [] l.
Proof.
  intros Hp Hn [[M2 M3 M4 M7 M8] M1 M5 M6 M9].
  apply (m_inner U n n' f p loc call (flat_map nodes_part (flat_map parts_stmt l))
    (fun x => exists t, In t (flat_map parts_stmt l) /\ binds_part x t) (flat_map calls_stmt l)); try assumption.
  constructor; try (intros x Hx; exact Hx).
  - intros x Hx. exact (M1 x Hx).
  - intros x Hx. split; [apply M5; exact Hx|]. split; [apply M5; exact Hx|]. exact (M6 x Hx).
  - intros x Hx. rewrite flat_map_flat. apply in_flat_map in Hx. destruct Hx as (s & Hs & Hx). apply in_flat_map. exists s.
    split; [exact Hs|]. rewrite (proj2 parts_nodes). exact Hx.
  - intros x Hx. apply in_flat_map in Hx. destruct Hx as (s & Hs & Hx). rewrite <- (proj2 parts_lts) in Hx.
    apply in_flat_map in Hx. destruct Hx as (t & Ht & Hx). exists t. split; [apply in_flat_map; eauto|]. apply lts_part_binds. exact Hx.
Qed.

Lemma pinned_drop_body args im im' m p U n n' f loc call :
  pinned_drop_attribute args im = Ok (PdImpl im') -> im_items im = [IIFn m] -> im_self im = TyPath None p ->
  self_type_is U n f p -> moved_names U n n' -> movable U n call p (mt_block m) ->
  exists m' at' vis' sig' body' rest guard,
    im_items im' = [IIFn m'] /\ mt_block m' = YFn at' vis' sig' body' :: rest /\
    res_body loc call (mkEnv n' f) 1 (flat_map arg_vars (fs_inputs sig')) [(fs_ident sig', Item 0 (fs_ident sig'))] body' =
    guard :: res_body loc call (mkEnv n f) 1 [I "self"] [] (mt_block m) /\
    exists s, guard = MFn [] VInherited s [] [] /\ fs_ident s = fs_ident sig'.
Proof.
  intros H Hi Hs Hp Hn Hmov. apply pinned_drop_ok in H. destruct H as (m0 & q & p0 & neg & (_ & _ & Hi' & Hg & _) & Hself & _ & ->).
  rewrite Hi in Hi'. injection Hi' as <-. rewrite Hs in Hself. injection Hself as <- <-.
  do 7 eexists. split; [reflexivity|]. split; [reflexivity|]. cbn [fs_ident replace_sig inner_sig fs_inputs].
  destruct (gd_self _ Hg) as (at_ & mu & t & r & -> & _). cbn [map flat_map replace_fnarg replace_pat arg_vars pat_vars app].
  split.
  - change (replace_block (mkTypePath None p) (dummy_fn :: mt_block m)) with (dummy_fn :: replace_block (mkTypePath None p) (mt_block m)).
    apply movable_inner; eassumption.
  - eexists. split; reflexivity.
Qed.

Lemma pinned_drop_signature args im im' m p U n n' f at_ mu r t :
  pinned_drop_attribute args im = Ok (PdImpl im') -> im_items im = [IIFn m] -> im_self im = TyPath None p ->
  fs_inputs (mt_sig m) = [FRecv at_ r mu (Some t)] ->
  self_type_is U n f p -> moved_names U n n' -> movable_sig U n p (im_generics im) t ->
  exists m' at' vis' sig' body' rest ats t',
    im_items im' = [IIFn m'] /\ mt_block m' = YFn at' vis' sig' body' :: rest /\
    fs_inputs sig' = [FTyped ats (QBind mu (I "__self")) t'] /\
    den_ty (mkEnv n' f) t' = den_ty (mkEnv n f) t /\
    fs_out sig' = fs_out (mt_sig m) /\
    den_generics (mkEnv n' f) (fs_generics sig') = den_generics (mkEnv n f) (im_generics im).
Proof.
  intros H Hi Hs Hin Hp Hn [M2 M3 M4 M7 M8]. apply pinned_drop_ok in H. destruct H as (m0 & q & p0 & neg & (_ & _ & Hi' & Hg & _) & Hself & _ & ->).
  rewrite Hi in Hi'. injection Hi' as <-. rewrite Hs in Hself. injection Hself as <- <-.
  do 8 eexists. split; [reflexivity|]. split; [reflexivity|]. cbn [fs_ident replace_sig inner_sig fs_inputs fs_out fs_generics].
  rewrite Hin. split; [reflexivity|]. split; [|split].
  - apply (m_ty U n f p (nodes_generics (im_generics im) ++ nodes_ty t) (fun x => binds_generics x (im_generics im) \/ binds_ty x t)) with (n1 := n) (n2 := n'); try assumption.
    + apply start_nrel. exact Hn.
    + intros x Hx. apply in_or_app. right. exact Hx.
    + intros x Hx. right. apply (proj1 (lts_binds x)). exact Hx.
  - destruct (gd_ret _ Hg) as [-> | ->]; reflexivity.
  - apply (m_generics U n n' f p (nodes_generics (im_generics im) ++ nodes_ty t) (fun x => binds_generics x (im_generics im) \/ binds_ty x t)); try assumption.
    + intros x Hx. apply in_or_app. left. exact Hx.
    + intros x Hx. left. exact Hx.
Qed.
