(** Vocabulary for C52: the names that generated code takes from the scope around it. *)
From Coq Require Import String List Bool.
From Verif Require Import Base Syntax SpecDerive SpecExpand SpecRun SpecMeaning SpecTraits.
Import ListNotations.
Open Scope string_scope.
Open Scope list_scope.

(** ** Everything that is written somewhere *)
Definition nodes_opt (o : option ty) : list node := match o with Some t => nodes_ty t | None => [] end.
Definition nodes_default (p : gparam) : list node :=
  match p with
  | PTy _ _ (Some t) => nodes_ty t
  | PConst _ _ (Some e) => nodes_expr e
  | _ => []
  end.
(** Generics with the defaults of parameters. *)
Definition nodes_all_generics (g : generics) : list node :=
  nodes_generics g ++ flat_map nodes_default (g_params g).
Definition nodes_fields (fs : fields) : list node := flat_map (fun f => nodes_ty (f_ty f)) (fields_list fs).

(** Paths in the bodies of methods: types that are built or matched, functions. *)
Definition at_path (p : list ident) : node := NPath None false p.
Definition nodes_atom (a : atom) : list node :=
  match a with
  | AVar _ | AMethod _ _ | ARefMutDeref _ => []
  | ACall f _ => [at_path f]
  | APath p => [at_path p]
  end.
Definition nodes_rhs (r : rhs) : list node :=
  match r with
  | RAtom a => nodes_atom a
  | RLit p _ fs => at_path p :: flat_map (fun x => nodes_atom (snd x)) fs
  end.
Definition nodes_pat (p : pat) : list node :=
  match p with PBind _ => [] | PLit q _ _ => [at_path q] end.
Fixpoint nodes_stmt (s : stmt) : list node :=
  match s with
  | SLet p t r => nodes_pat p ++ nodes_opt t ++ nodes_rhs r
  | SExpr a => nodes_atom a
  | SBlock l => flat_map nodes_stmt l
  end.
Definition nodes_arm (a : arm) : list node :=
  nodes_pat (arm_pat a) ++ flat_map nodes_stmt (arm_stmts a) ++ nodes_rhs (arm_tail a).
Definition nodes_body (b : body) : list node :=
  match b with
  | BTail l t => flat_map nodes_stmt l ++ match t with Some r => nodes_rhs r | None => [] end
  | BMatch l a arms => flat_map nodes_stmt l ++ nodes_atom a ++ flat_map nodes_arm arms
  end.
Definition nodes_method (m : method) : list node :=
  match m_self m with RecvTyped t => nodes_ty t | RecvRefMut => [] end ++
  flat_map (fun x => nodes_ty (snd x)) (m_params m) ++ nodes_opt (m_ret m) ++ nodes_body (m_body m).
Definition nodes_impl (im : impl) : list node :=
  nodes_all_generics (i_generics im) ++
  match i_trait im with Some p => nodes_bound (BTrait false [] p) | None => [] end ++
  nodes_ty (i_self im) ++ flat_map nodes_method (i_methods im).
Definition nodes_oitem (o : oitem) : list node :=
  match o with
  | OStruct _ _ g fs => nodes_all_generics g ++ nodes_fields fs
  | OEnum _ _ g vs => nodes_all_generics g ++ flat_map (fun v => nodes_fields (v_fields v)) vs
  | OImpl im => nodes_impl im
  | OAssert g t _ => nodes_all_generics g ++ nodes_ty t
  | OTrait _ | OExternCrate _ _ => []
  end.
(** The item that carries the attribute. *)
Definition nodes_item (it : item) : list node :=
  nodes_all_generics (generics_of it) ++ flat_map nodes_fields (fields_of it).

(** ** Names from outside *)

(** The parameters that a generated item declares. *)
Definition declares (o : oitem) : list gparam :=
  match o with
  | OStruct _ _ g _ | OEnum _ _ g _ | OAssert g _ _ => g_params g
  | OImpl im => g_params (i_generics im)
  | OTrait _ | OExternCrate _ _ => []
  end.
(** [o] refers to something called [x] outside of itself. *)
Definition refers (o : oitem) (x : string) : Prop :=
  looks_up (nodes_oitem o) x /\ x <> "Self" /\ ~ In x (map name (param_idents (declares o))).
(** So does the item itself, or [x] is its name. *)
Definition user_name (it : item) (x : string) : Prop :=
  x = name (name_of it) \/
  (looks_up (nodes_item it) x /\ ~ In x (map name (param_idents (g_params (generics_of it))))).
