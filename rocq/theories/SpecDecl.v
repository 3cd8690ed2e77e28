(** What rustc asks of every declaration: parameters in order, different and
    used, fields and variants different. *)
From Coq Require Import String List Bool.
From Verif Require Import Base Syntax ModelUtils SpecExpand SpecRun SpecMeaning.
Import ListNotations.
Open Scope string_scope.
Open Scope list_scope.

Definition lt_params (l : list gparam) : list string :=
  flat_map (fun p => match p with PLt lt _ => [lt] | _ => [] end) l.
(** The parameter [p] occurs in the type [t]. *)
Definition occurs (p : gparam) (t : ty) : Prop :=
  match p with
  | PLt lt _ => In (NLt lt) (nodes_ty t)
  | PTy i _ _ | PConst i _ _ => looks_up (nodes_ty t) (name i)
  end.
Definition is_const (p : gparam) : bool := match p with PConst _ _ _ => true | _ => false end.

(** Lifetimes come first (rustc: "lifetime parameters must be declared prior to
    type and const parameters"), and names are different (E0403). *)
Record params_legal (l : list gparam) : Prop := {
  pl_order : ordered l;
  pl_lts : NoDup (lt_params l);
  pl_idents : NoDup (map name (param_idents l));
  pl_keywords : forall i, In i (param_idents l) -> name i <> "Self" /\ name i <> "self"
}.

(** A struct or an enum with parameters [l], field lists [fss] and variants [vs]. *)
Record type_legal (l : list gparam) (fss : list fields) (vs : list ident) : Prop := {
  tl_params : params_legal l;
  (* lifetimes and types are used in a field (E0392); constants need not be *)
  tl_used : forall p, In p l -> is_const p = false ->
    exists fs f, In fs fss /\ In f (fields_list fs) /\ occurs p (f_ty f);
  tl_fields : forall fs, In fs fss -> fields_legal fs;   (* E0124 *)
  tl_variants : NoDup (map name vs)                      (* E0428 *)
}.

Record impl_legal (im : impl) : Prop := {
  il_params : params_legal (g_params (i_generics im));
  (* type and const parameters occur in the self type (E0207) *)
  il_constrained : forall p, In p (g_params (i_generics im)) -> is_lt_param p = false -> occurs p (i_self im);
  (* methods have different names (E0592), their lifetimes are different
     (E0403) and not those of the impl (E0496) *)
  il_methods : NoDup (map (fun m => name (m_name m)) (i_methods im));
  il_lts : forall m, In m (i_methods im) ->
    NoDup (m_lts m) /\ forall lt, In lt (m_lts m) -> ~ In lt (lt_params (g_params (i_generics im)))
}.

Definition item_legal (o : oitem) : Prop :=
  match o with
  | OStruct _ _ g fs => type_legal (g_params g) [fs] []
  | OEnum _ _ g vs => type_legal (g_params g) (map v_fields vs) (map v_ident vs)
  | OImpl im => impl_legal im
  | OAssert g _ _ => params_legal (g_params g)
  | OTrait _ | OExternCrate _ _ => True
  end.

(** The item that carries the attribute. *)
Definition declared_legally (it : item) : Prop :=
  type_legal (params_of it) (fields_of it) (variant_names it).
