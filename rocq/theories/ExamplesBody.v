(** A concrete [#[pinned_drop]] impl whose body uses [Self] in many places. *)
From Coq Require Import String Ascii List Bool Arith.
From Verif Require Import Base Syntax ModelArgs ModelUtils ModelAttribute ModelPinnedDrop ModelMeaning.
From Verif Require Import SpecLifetime SpecMeaning SpecPinnedDrop SpecBody.
From Verif Require Import ProofsArgs ProofsUtils ProofsPinnedDrop ProofsBody ProofsBodyMeaning Examples ExamplesTraits ExamplesMeaning ExamplesPinnedDrop.
Import ListNotations.
Open Scope string_scope.
Open Scope list_scope.

Definition pth (l : list string) : path := Path false (map seg1 l).
Definition p_foo : path := Path false [Seg (I "Foo") (GAngle false [ATy (tid "T")])].
(** [{ let this: Self::Out = Self::start::<Self>(self);
       fn helper(x: u8) { x; }
       let f = |y: &Self| y as for<'b> fn(&'b Self) -> mac![fn Self];
       match this { Self::A(x, Self::B { c: d }) => helper(x), Self => Self { a: 1, ..Self::BASE }, _ => Self };
       { let self_ = self; log!(self) };
       self.run::<Self>(f) }] *)
Definition self_body : list bstmt :=
  [YLet (QBind false (I "this")) (Some (TyPath None (pth ["Self"; "Out"])))
     (Some (ModelPinnedDrop.XCall (XPath None (Path false [seg1 "Self"; Seg (I "start") (GAngle true [ATy ty_self])])) [var (I "self")]));
   YFn [] VInherited (mkSig false false false false (I "helper") (mkGenerics [] None)
     [FTyped [] (QBind false (I "x")) (tid "u8")] false None) [YExpr (var (I "x"))];
   YLet (QBind false (I "f")) None (Some (XClosure [(QBind false (I "y"), Some (TyRef None false ty_self))]
     (XCast (var (I "y")) (TyFn ["'b"] [TyRef (Some "'b") false ty_self] (Some (TyMacro [I "mac"] [TIdent (I "fn"); TIdent (I "Self")]))))));
   YExpr (XMatch (var (I "this"))
     [(QTupleStruct (pth ["Self"; "A"]) [QBind false (I "x"); QStruct (pth ["Self"; "B"]) [(I "c", QBind false (I "d"))]],
       ModelPinnedDrop.XCall (var (I "helper")) [var (I "x")]);
      (QPath None (pth ["Self"]), XStruct (pth ["Self"]) [(I "a", ModelPinnedDrop.XLit "1")] (Some (XPath None (pth ["Self"; "BASE"]))));
      (QWild, var (I "Self"))]);
   YExpr (XBlock [YLet (QBind false (I "self_")) None (Some (var (I "self"))); YExpr (ModelPinnedDrop.XMacro [I "log"] [TIdent (I "self")])]);
   YExpr (XMethod (var (I "self")) (I "run") [ATy ty_self] [var (I "f")])].
Definition self_impl : item_impl := pd_impl [IIFn (pd_method self_body)].

(** In the impl [Self] is [Foo<T>]; in the function it is something else. *)
Definition in_impl (x : string) : head dt :=
  if String.eqb x "Self" then HDone (den_ty (U := terms) (mkEnv base_ex (fun l => l)) (TyPath None p_foo)) else base_ex x.
Definition in_fn (x : string) : head dt :=
  if String.eqb x "Self" then HDone (usr "Other") else if String.eqb x "__drop_inner" then HDef (XUsr "inner") else base_ex x.
(** Items of the body are different from everything else. *)
Definition local_item (l : label) : head dt := HDef (XGen "item").
(** [m!(x)] looks at the variable [x]. *)
Definition call_ex (e : scope) (E : env dt string) (m : list ident) (ts : list ttree) : dt :=
  match ts with
  | [TIdent x] => match lookup x e with Some (Local k) => XTuple (repeat (XMacro m []) (S k)) | _ => XNever end
  | _ => XMacro m ts
  end.

Lemma in_impl_self : self_type_is terms in_impl (fun l => l) p_foo.
Proof.
  constructor.
  - exists false, (Seg (I "Foo") (GAngle false [ATy (tid "T")])), []. reflexivity.
  - vm_compute. reflexivity.
  - intros m ts. vm_compute. intuition discriminate.
  - apply no_self_legal. vm_compute. reflexivity.
  - intros H. apply (name_free_looks ["Self"]) in H; [|vm_compute; reflexivity]. apply H. left. reflexivity.
Qed.
Lemma in_fn_moved : moved_names terms in_impl in_fn.
Proof.
  intros x H1 H2. unfold in_impl, in_fn. destruct (String.eqb_spec x "Self") as [E|_]; [contradiction|].
  destruct (String.eqb_spec x "__drop_inner") as [E|_]; [contradiction|]. reflexivity.
Qed.
Lemma foo_looks x : looks_up (nodes_spath p_foo) x -> x = "Foo" \/ x = "T".
Proof. intros (q & i & r & Hin & _ & <-). vm_compute in Hin. destruct Hin as [Hin|[Hin|[]]]; injection Hin as <- <- <-; auto. Qed.
Lemma foo_names_ok x : looks_up (nodes_spath p_foo) x -> x <> "__self" /\ x <> "__drop_inner".
Proof. intros H. apply foo_looks in H. destruct H as [-> | ->]; split; discriminate. Qed.
Lemma foo_lts x : ~ In (NLt x) (nodes_spath p_foo).
Proof. vm_compute. intuition discriminate. Qed.
Lemma fn_macro_only l n1 n2 : (forall m ts, In (NMacro m ts) l -> ts = [TIdent (I "fn"); TIdent (I "Self")]) ->
  forall m ts f g, In (NMacro m ts) l ->
  u_macro terms (mkEnv n2 g) m (visit_macro (print_ty (TyPath None p_foo)) ts) = u_macro terms (mkEnv n1 f) m ts.
Proof. intros H m ts f g Hin. rewrite (H m ts Hin). vm_compute. reflexivity. Qed.

Lemma self_body_movable : movable terms in_impl call_ex p_foo self_body.
Proof.
  constructor.
  - constructor.
    + intros x [Hx|Hx]; [|apply foo_names_ok; exact Hx].
      apply (name_free_looks ["__self"; "__drop_inner"]) in Hx; [|vm_compute; reflexivity].
      split; intros ->; apply Hx; [left|right; left]; reflexivity.
    + apply no_self_legal. vm_compute. reflexivity.
    + vm_compute. intros H. repeat (destruct H as [H|H]; [discriminate H|]). exact H.
    + intros x _. apply foo_lts.
    + intros m ts n1 n2 f g Hin _ _ _. apply (fn_macro_only _ n1 n2) with (f := f) (g := g) in Hin; [exact Hin|].
      clear. intros m ts Hin. vm_compute in Hin.
      repeat (destruct Hin as [Hin|Hin]; [try discriminate Hin; injection Hin as <- <-; reflexivity|]). destruct Hin.
  - intros x Hx. vm_compute in Hx. repeat (destruct Hx as [Hx|Hx]; [subst x; split; discriminate|]). destruct Hx.
  - intros x Hx. vm_compute in Hx. repeat (destruct Hx as [Hx|Hx]; [subst x; split; discriminate|]). destruct Hx.
  - intros x Hx Hl. apply foo_looks in Hl. vm_compute in Hx.
    repeat (destruct Hx as [Hx|Hx]; [subst x; destruct Hl; discriminate|]). destruct Hx.
  - intros m ts n1 n2 f e1 e2 Hin _ _ [He _]. vm_compute in Hin. destruct Hin as [Hin|[]]. injection Hin as <- <-.
    change (call_ex e2 (mkEnv n2 f) [I "log"] [TIdent (I "__self")] = call_ex e1 (mkEnv n1 f) [I "log"] [TIdent (I "self")]). unfold call_ex. rewrite He. reflexivity.
Qed.

(** [impl<T: Into<Self>> PinnedDrop for Foo<T> where for<'b> &'b Self: Tr<Self::Out>] *)
Definition self_where_generics : generics :=
  mkGenerics [PTy (I "T") [BTrait false [] (Path false [Seg (I "Into") (GAngle false [ATy ty_self])])] None]
    (Some [WTy ["'b"] (TyRef (Some "'b") false ty_self)
             [BTrait false [] (Path false [Seg (I "Tr") (GAngle false [ATy (TyPath None (pth ["Self"; "Out"]))])])]]).
Definition self_where_impl : item_impl :=
  mkItemImpl [] false false self_where_generics (Some (false, Path false [seg1 "PinnedDrop"]))
    (TyPath None p_foo) [IIFn (pd_method self_body)].
Lemma self_where_movable : movable_sig terms in_impl p_foo self_where_generics pin_self_ty.
Proof.
  constructor.
  - intros x [Hx|Hx]; [|apply foo_names_ok; exact Hx].
    apply (name_free_looks ["__self"; "__drop_inner"]) in Hx; [|vm_compute; reflexivity].
    split; intros ->; apply Hx; [left|right; left]; reflexivity.
  - apply no_self_legal. vm_compute. reflexivity.
  - vm_compute. intros H. repeat (destruct H as [H|H]; [discriminate H|]). exact H.
  - intros x _. apply foo_lts.
  - intros m ts n1 n2 f g Hin. exfalso. vm_compute in Hin. repeat (destruct Hin as [Hin|Hin]; [discriminate Hin|]). destruct Hin.
Qed.

(** F15: [impl<T> PinnedDrop for Foo<T> { fn drop(self: Pin<&mut Self>) { struct Foo; let x: Self; } }] *)
Definition hidden_body : list bstmt := [YItem (I "Foo") []; YLet (QBind false (I "x")) (Some ty_self) None].
Definition hidden_impl : item_impl := pd_impl [IIFn (pd_method hidden_body)].
Lemma hidden_parts : respellable terms in_impl p_foo (flat_map nodes_part (flat_map parts_stmt hidden_body))
  (fun x => exists t, In t (flat_map parts_stmt hidden_body) /\ binds_part x t).
Proof.
  constructor.
  - intros x [Hx|Hx]; [|apply foo_names_ok; exact Hx].
    apply (name_free_looks ["__self"; "__drop_inner"]) in Hx; [|vm_compute; reflexivity].
    split; intros ->; apply Hx; [left|right; left]; reflexivity.
  - apply no_self_legal. vm_compute. reflexivity.
  - vm_compute. intros H. repeat (destruct H as [H|H]; [discriminate H|]). exact H.
  - intros x _. apply foo_lts.
  - intros m ts n1 n2 f g Hin. exfalso. vm_compute in Hin. repeat (destruct Hin as [Hin|Hin]; [discriminate Hin|]). destruct Hin.
Qed.
Lemma hidden_type_differs : exists im im' m p U n n' f loc call m' at' vis' sig' body' rest,
  pinned_drop_attribute [] im = Ok (PdImpl im') /\ im_items im = [IIFn m] /\ im_self im = TyPath None p /\
  self_type_is U n f p /\ moved_names U n n' /\
  respellable U n p (flat_map nodes_part (flat_map parts_stmt (mt_block m)))
    (fun x => exists t, In t (flat_map parts_stmt (mt_block m)) /\ binds_part x t) /\
  (forall x, In x (flat_map mentions_stmt (mt_block m)) -> x <> I "__self" /\ x <> I "__drop_inner") /\
  (forall x, In x (flat_map binders_stmt (mt_block m)) -> x <> I "self" /\ name x <> "Self") /\
  flat_map calls_stmt (mt_block m) = [] /\
  im_items im' = [IIFn m'] /\ mt_block m' = YFn at' vis' sig' body' :: rest /\
  forall guard, res_body (U := U) loc call (mkEnv n' f) 1 (flat_map arg_vars (fs_inputs sig')) [(fs_ident sig', Item 0 (fs_ident sig'))] body' <>
    guard :: res_body loc call (mkEnv n f) 1 [I "self"] [] (mt_block m).
Proof.
  exists hidden_impl. do 2 eexists. exists p_foo, terms, in_impl, in_fn, (fun l => l), local_item, call_ex. do 6 eexists.
  split; [vm_compute; reflexivity|]. split; [reflexivity|]. split; [reflexivity|]. split; [apply in_impl_self|]. split; [apply in_fn_moved|].
  split; [apply hidden_parts|].
  split; [intros x Hx; vm_compute in Hx; repeat (destruct Hx as [Hx|Hx]; [subst x; split; discriminate|]); destruct Hx|].
  split; [intros x Hx; vm_compute in Hx; repeat (destruct Hx as [Hx|Hx]; [subst x; split; discriminate|]); destruct Hx|].
  split; [reflexivity|]. split; [reflexivity|]. split; [reflexivity|].
  intros guard. vm_compute. intros H. discriminate H.
Qed.

(** [struct Foo<T>(#[pin] dyn A + B, [Self; { Self::N }])] *)
Definition plus_item : item :=
  ItStruct (mkStruct [ModelAttribute.pin_attr []] VInherited (I "Foo") (mkGenerics [PTy (I "T") [] None] None)
    (FUnnamed [mkField [mkAttr false [I "pin"] Syntax.MPath] VInherited None (TyDyn [BTrait false [] (pth ["A"]); BTrait false [] (pth ["B"])]);
               mkField [] VInherited None (TyArray ty_self (Syntax.ECall (EPath None (pth ["Self"; "n"])) [EPath None (pth ["Self"])]))])).
