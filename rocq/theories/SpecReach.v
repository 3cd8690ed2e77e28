(** Vocabulary for C57: who may use the types in the interface of an item
    (RFC 2145 and before it the errors E0445 and E0446). *)
From Coq Require Import String List Bool.
From Verif Require Import Base Syntax SpecDerive SpecExpand SpecRun SpecMeaning SpecTraits SpecScope SpecVis.
Import ListNotations.
Open Scope string_scope.
Open Scope list_scope.

(** The items of an expansion under their names.  What is found behind the name
    of the support crate is public; a trait without [pub] is private. *)
Definition named_items (o : oitem) : list (string * vis) :=
  match o with
  | OStruct v i _ _ | OEnum v i _ _ => [(name i, v)]
  | OTrait i => [(name i, VInherited)]
  | OExternCrate _ i => [(name i, VPub)]
  | OImpl _ | OAssert _ _ _ => []
  end.
Fixpoint look (x : string) (l : list (string * vis)) : option vis :=
  match l with
  | [] => None
  | (y, v) :: r => if String.eqb x y then Some v else look x r
  end.
(** [::pin_project::__private::X]. *)
Definition support_path (p : list ident) : bool :=
  match p with
  | [a; b; _] => String.eqb (name a) "pin_project" && String.eqb (name b) "__private"
  | _ => false
  end.

Section Reach.
  Variables (ed : edition) (m : module).   (* where the item [it] stands *)
  (** [user lead p w]: [w] may use what the path [p] denotes at that place. *)
  Variable user : bool -> list ident -> viewer -> Prop.
  Variable it : item.
  (** What the expansion adds. *)
  Variable gen : list oitem.

  (** [w] may use what is written as [n] in an item with the parameters [ps]. *)
  Definition usable (ps : list gparam) (w : viewer) (n : node) : Prop :=
    match n with
    | NPath (Some 0) _ _ => True   (* [<T>::x]: [x] is found in the type *)
    | NPath _ lead p =>
      match lead, p with
      | false, i :: _ =>
        if existsb (String.eqb (name i)) (map name (param_idents ps)) then True
        else if String.eqb (name i) "Self" || String.eqb (name i) (name (name_of it)) then visible ed m (vis_of it) w
        else match look (name i) (flat_map named_items gen) with
             | Some v => visible ed m v w
             | None => user false p w
             end
      | true, _ => if support_path p then True else user true p w
      | false, [] => user false [] w
      end
    | NLt _ | NMacro _ _ | NSelfValue | NOddSelf => True
    end.

  (** An impl is as visible as its trait and its type. *)
  Definition header (im : impl) : list node :=
    match i_trait im with Some p => nodes_bound (BTrait false [] p) | None => [] end ++ nodes_ty (i_self im).
  Definition impl_visible (im : impl) (w : viewer) : Prop :=
    forall n, In n (header im) -> usable (g_params (i_generics im)) w n.
  Definition nodes_signature (me : method) : list node :=
    match m_self me with RecvTyped t => nodes_ty t | RecvRefMut => [] end ++
    flat_map (fun x => nodes_ty (snd x)) (m_params me) ++ nodes_opt (m_ret me).

  (** [o] shows everything in [ns] to all that satisfy [R]. *)
  Inductive shows : oitem -> (viewer -> Prop) -> list node -> Prop :=
  | sh_struct v i g fs : shows (OStruct v i g fs) (visible ed m v) (nodes_all_generics g)
  | sh_field v i g fs f : In f (fields_list fs) ->
      shows (OStruct v i g fs) (fun w => visible ed m v w /\ visible ed m (f_vis f) w) (nodes_ty (f_ty f))
  | sh_enum v i g vs :
      shows (OEnum v i g vs) (visible ed m v) (nodes_all_generics g ++ flat_map (fun x => nodes_fields (v_fields x)) vs)
  | sh_impl im : shows (OImpl im) (impl_visible im) (nodes_all_generics (i_generics im))
  | sh_method im me : i_trait im = None -> In me (i_methods im) ->
      shows (OImpl im) (fun w => impl_visible im w /\ visible ed m (m_vis me) w) (nodes_signature me)
  | sh_fn g t ms : shows (OAssert g t ms) (visible ed m VInherited) (nodes_all_generics g ++ nodes_ty t).

  (** No type or trait in the interface of [o] is less visible than the interface. *)
  Definition no_leak (o : oitem) : Prop :=
    forall R ns w n, shows o R ns -> R w -> In n ns -> usable (declares o) w n.
End Reach.

(** The item that carries the attribute, as an item of the program. *)
Definition as_item (it : item) : oitem :=
  match it with
  | ItStruct s => OStruct (s_vis s) (s_ident s) (s_generics s) (s_fields s)
  | ItEnum e => OEnum (e_vis e) (e_ident e) (e_generics e) (e_variants e)
  | ItOther => OTrait (I "")
  end.
(** What the item mentions can be named in its module and in the modules inside. *)
Definition in_reach (ed : edition) (m : module) (user : bool -> list ident -> viewer -> Prop) (it : item) : Prop :=
  forall n x, In n (nodes_item it) -> within m x -> usable ed m user it [] (g_params (generics_of it)) (Inside x) n.
Definition no_pub_self (it : item) : Prop :=
  ~ is_pub_self (vis_of it) /\ forall fs f, In fs (fields_of it) -> In f (fields_list fs) -> ~ is_pub_self (f_vis f).
(** The names are chosen well: the item is not called like a parameter, and the
    expansion introduces different names, none of which the item uses for
    something else. *)
Record apart (it : item) (gen : list oitem) : Prop := {
  ap_params : ~ In (name (name_of it)) (map name (param_idents (g_params (generics_of it))));
  ap_names : NoDup (map name (flat_map introduces gen));
  ap_user : forall x, user_name it x \/ x = "Self" -> ~ In x (map name (flat_map introduces gen))
}.
