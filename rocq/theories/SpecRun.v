(** Vocabulary for the properties of running the generated methods. *)
From Coq Require Import String Ascii List Bool Arith.
From Verif Require Import Base Syntax ModelArgs ModelUtils ModelDerive ModelRun.
From Verif Require Import SpecArgs SpecDerive SpecExpand.
Import ListNotations.
Open Scope string_scope.
Open Scope list_scope.

(** ** Items *)
Definition attrs_of (it : item) : list attr :=
  match it with ItStruct s => s_attrs s | ItEnum e => e_attrs e | ItOther => [] end.
Definition name_of (it : item) : ident :=
  match it with ItStruct s => s_ident s | ItEnum e => e_ident e | ItOther => I "" end.
Definition vis_of (it : item) : vis :=
  match it with ItStruct s => s_vis s | ItEnum e => e_vis e | ItOther => VInherited end.
Definition params_of (it : item) : list gparam :=
  match it with ItStruct s => g_params (s_generics s) | ItEnum e => g_params (e_generics e) | ItOther => [] end.
(** The field lists: one, or one per variant. *)
Definition fields_of (it : item) : list fields :=
  match it with ItStruct s => [s_fields s] | ItEnum e => map v_fields (e_variants e) | ItOther => [] end.
Definition variant_names (it : item) : list ident :=
  match it with ItEnum e => map v_ident (e_variants e) | _ => [] end.
(** Is the projection generated? *)
Definition has_proj (k : proj) (it : item) (a : args) : bool :=
  match it with ItStruct _ => struct_has k a | ItEnum _ => enum_has k a | ItOther => false end.
(** Type and const parameters. *)
Definition param_idents (l : list gparam) : list ident :=
  flat_map (fun p => match p with PLt _ _ => [] | PTy i _ _ | PConst i _ _ => [i] end) l.

(** [f] has an attribute [#[pin]]. *)
Definition is_pinned (f : field) : bool :=
  existsb (fun x => negb (a_lead x) && match a_path x with [i] => ident_eqb i (I "pin") | _ => false end) (f_attrs f).
Definition numbered {A} (l : list A) : list (nat * A) := combine (seq 0 (length l)) l.
(** The variable that the generated code uses for a field. *)
Definition field_var (nf : nat * field) : ident :=
  match f_ident (snd nf) with Some i => i | None => I ("_" ++ string_of_nat (fst nf)) end.

(** ** Programs

    What rustc insists on: names of fields and of variants are different; and
    tuple fields have no name. *)
Definition fields_legal (fs : fields) : Prop :=
  match fs with
  | FNamed l => (forall f, In f l -> f_ident f <> None) /\
      NoDup (map (fun f => option_map name (f_ident f)) l)
  | FUnnamed l => forall f, In f l -> f_ident f = None
  | FUnit => True
  end.

Record program (w : world) (a : args) : Prop := {
  (* the derive accepted the item and printed the expansion *)
  pg_expansion : parse_derive (w_item w) = Ok (w_exp w);
  pg_options : options (attrs_of (w_item w)) a;
  pg_fields : forall fs, In fs (fields_of (w_item w)) -> fields_legal fs;
  pg_variants : NoDup (map name (variant_names (w_item w)));
  (* the names of the type, of its parameters and of everything generated differ *)
  pg_names : NoDup (map name (name_of (w_item w) :: param_idents (params_of (w_item w)) ++
                              flat_map introduces (all_items (w_exp w))));
  (* no constant is named like a field (or [_0], [_1], .. for tuple fields) *)
  pg_consts : forall fs nf, In fs (fields_of (w_item w)) -> In nf (numbered (fields_list fs)) ->
    w_consts w (field_var nf) = false;
  (* nor like a local variable of the generated code *)
  pg_locals : forall s, In s ["__self_ptr"; "__guard"; "__result"; "__pinned_self"] -> w_consts w (I s) = false
}.

(** ** Values: [u] is a value of the type [it], of the variant [vp] (empty for a
    struct) with the fields [fs]. *)
Inductive value_of : item -> uval -> list ident -> fields -> Prop :=
| V_struct s ids : length ids = length (fields_list (s_fields s)) ->
    value_of (ItStruct s) (mkUval None ids) [] (s_fields s)
| V_enum e v ids : In v (e_variants e) -> length ids = length (fields_list (v_fields v)) ->
    value_of (ItEnum e) (mkUval (Some (v_ident v)) ids) [v_ident v] (v_fields v).

(** [*self] holds [u], after the events [t]. *)
Definition holding (u : uval) (t : list event) (x : stat) : st :=
  mkSt (u_var u) (map Some (u_ids u)) t x.

(** ** Results *)

(** References to the fields where they are; pinned ones in [Pin]. *)
Definition references (m : bool) (fs : fields) : list (option ident * rv) :=
  map (fun nf => (f_ident (snd nf), if is_pinned (snd nf) then RPin m (PlField (fst nf)) else RRef m (PlField (fst nf))))
    (numbered (fields_list fs)).
(** The old values of the unpinned fields, and [PhantomData] for the others. *)
Definition taken (fs : fields) (ids : list nat) : list (option ident * rv) :=
  map (fun fi => (f_ident (fst fi), if is_pinned (fst fi) then RPhantom else RVal (snd fi)))
    (combine (fields_list fs) ids).
(** Position and value of the (un)pinned fields, in declaration order. *)
Definition select (b : bool) (fs : fields) (ids : list nat) : list (nat * nat) :=
  flat_map (fun x => if Bool.eqb (is_pinned (fst (snd x))) b then [(fst x, snd (snd x))] else [])
    (numbered (combine (fields_list fs) ids)).

Definition read_out (x : nat * nat) : event := EvRead (fst x) (snd x).
Definition dropped_in_place (x : nat * nat) : event := EvDrop (PlField (fst x)) (snd x).
Definition dropped_elsewhere (x : nat * nat) : event := EvDrop PlTemp (snd x).

(** How many of the destructors panic. *)
Definition panickers (w : world) (l : list (nat * nat)) : nat :=
  length (filter (fun x => w_panics w (snd x)) l).

(** Names that [project_replace] cannot cope with (finding F4): a pinned field
    [__result], or a pinned field [__guard] that is not the last pinned one. *)
Definition replaceable (fs : fields) : Prop :=
  (forall f i, In f (fields_list fs) -> is_pinned f = true -> f_ident f = Some i -> name i <> "__result") /\
  (forall l1 f l2 g l3 i, fields_list fs = l1 ++ f :: l2 ++ g :: l3 ->
     is_pinned f = true -> is_pinned g = true -> f_ident f = Some i -> name i <> "__guard").

(** The values whose destructor ran, and the values in [*self]. *)
Definition destroyed (t : list event) : list nat :=
  flat_map (fun e => match e with EvDrop _ id => [id] | _ => [] end) t.
Definition stored (s : st) : list nat :=
  flat_map (fun o => match o with Some id => [id] | None => [] end) (s_slots s).

(** The part of a place in memory that a reference gives access to. *)
Definition place_of (v : rv) : option place :=
  match v with RRef _ p | RPin _ p => Some p | _ => None end.
Definition exclusive (v : rv) : bool :=
  match v with RRef m _ | RPin m _ => m | _ => false end.

(** ** Sequences of destructor calls

    [happens evs n x evs' x']: the calls [evs], [n] of which panic, are made in
    order, starting in the state [x]; [evs'] are the calls that really happen
    and [x'] is the state afterwards.  One panic does not stop the others; a
    second one aborts. *)
Definition after_panic (x : stat) : stat := match x with Run => Unwind | Unwind => Abort | y => y end.
Inductive happens (evs : list event) (n : nat) : stat -> list event -> stat -> Prop :=
| H_none x : n = 0 -> happens evs n x evs x
| H_one : n = 1 -> happens evs n Run evs Unwind
| H_two t rest : 2 <= n -> evs = t ++ rest -> happens evs n Run t Abort
| H_again t rest : 1 <= n -> evs = t ++ rest -> happens evs n Unwind t Abort
| H_dead : happens evs n Abort [] Abort.

(** The fields of a value, in order. *)
Definition all_fields (u : uval) : list (nat * nat) := numbered (u_ids u).
(** [*self] after all its fields were destroyed. *)
Definition emptied (u : uval) (t : list event) (x : stat) : st := mkSt (u_var u) (map (fun _ => None) (u_ids u)) t x.

(** The values that a result owns. *)
Fixpoint owned (v : rv) : list nat :=
  match v with
  | RVal id => [id]
  | RUser u => u_ids u
  | RProj _ fs => flat_map (fun f => owned (snd f)) fs
  | _ => []
  end.
Definition owned_opt (v : option rv) : list nat := match v with Some x => owned x | None => [] end.

(** The same world with a compiler that has (or has not) rust-lang/rust#47949. *)
Definition with_leaky (b : bool) (w : world) : world :=
  mkWorld (w_item w) (w_exp w) (w_consts w) (w_panics w) (w_body_panics w) b.

(** Everything that the generated code declares (C12). *)
Definition generated_names (it : item) (a : args) : list ident :=
  flat_map (fun k => opt_given k a) all_proj ++ [I "_pin_project"] ++
  match it with
  | ItStruct s => flat_map (fun k => struct_hidden k a (s_ident s)) all_proj ++ [I "__assert_not_repr_packed"]
  | _ => []
  end ++
  (if is_default a then [helper_name (name_of it)] else []) ++
  (if ar_pinned_drop a then [] else [drop_guard_name (name_of it)]).
