(** Running the generated methods: Rust's semantics for the statements and
    expressions that the [quote!] templates of
    /repo/pin-project-internal/src/pin_project/derive.rs produce (410-421,
    494-508, 550-558, 603-627, 670-687, 873-883, 964-1012), and the support
    functions of /repo/src/lib.rs:181-349 that they call. *)
From Coq Require Import String Ascii List Bool Arith.
From Verif Require Import Base Syntax ModelArgs ModelUtils ModelDerive.
Import ListNotations.
Open Scope string_scope.
Open Scope list_scope.

(** ** Values, places, events

    A value of a field type is opaque: it is represented by a number that
    identifies it.  A value of the user's type is a variant (for enums) and the
    values of its fields. *)
Record uval : Type := mkUval { u_var : option ident; u_ids : list nat }.

(** Places: the pinned value [*self], one of its fields, or somewhere else (a
    local variable or temporary). *)
Inductive place : Type := PlSelf | PlField (i : nat) | PlTemp.

Inductive rv : Type :=
| RVal (id : nat)                          (* an owned field value *)
| RUser (u : uval)                         (* an owned value of the user's type *)
| RRef (m : bool) (p : place)              (* &T, &mut T *)
| RPin (m : bool) (p : place)              (* Pin<&T>, Pin<&mut T> *)
| RPtr (p : place)                         (* *mut T *)
| RPhantom                                 (* PhantomData *)
| RUnit
| RProj (p : list ident) (fs : list (option ident * rv))  (* a value of a generated type *)
| RDropGuard (p : place)                   (* lib.rs:307-325 *)
| ROverGuard (p : place) (u : uval).       (* lib.rs:327-349 *)

Inductive event : Type :=
| EvDrop (p : place) (id : nat)   (* the destructor of the value [id] runs at [p] *)
| EvRead (i : nat) (id : nat)     (* the bits of field [i] are copied out *)
| EvWrite (u : uval)              (* [*self] is overwritten without dropping *)
| EvBody (p : place)              (* the user's [PinnedDrop::drop] is called on [Pin<&mut Self>] at [p] *)
| EvStore (i : nat) (id : nat).   (* the value [id] is written to field [i] (by the program around) *)

(** [Run]: normal; [Unwind]: a panic is unwinding the stack; [Abort]: a second
    panic while unwinding aborted the process; [Stuck]: undefined behaviour or
    code that does not compile. *)
Inductive stat : Type := Run | Unwind | Abort | Stuck.

(** The contents of [*self]: variant and fields; [None] is a field that was
    destroyed.  The trace has the newest event last. *)
Record st : Type := mkSt {
  s_var : option ident; s_slots : list (option nat); s_trace : list event; s_stat : stat
}.

(** ** The program around the methods *)
Record world : Type := mkWorld {
  w_item : item;                (* the item *)
  w_exp : expansion;            (* what the derive printed for it *)
  w_consts : ident -> bool;     (* constants and unit structs in scope: identifier patterns refer to them *)
  w_panics : nat -> bool;       (* values whose destructor panics *)
  w_body_panics : list event -> bool;  (* the user's [PinnedDrop::drop] panics when called after these events *)
  w_leaky : bool                (* the compiler has rust-lang/rust#47949 *)
}.

(** rustc does not distinguish [r#a] from [a]. *)
Definition same_name (i j : ident) : bool := String.eqb (name i) (name j).
Definition has_name (i : ident) (l : list ident) : bool := existsb (same_name i) l.

Definition item_generics (it : item) : generics :=
  match it with ItStruct s => s_generics s | ItEnum e => e_generics e | ItOther => mkGenerics [] None end.
Definition item_ident (it : item) : ident :=
  match it with ItStruct s => s_ident s | ItEnum e => e_ident e | ItOther => I "" end.
Definition generic_names (g : generics) : list ident :=
  flat_map (fun p => match p with PTy i _ _ | PConst i _ _ => [i] | PLt _ _ => [] end) (g_params g).
(** Names an item declares. *)
Definition declares (o : oitem) : list ident :=
  match o with
  | OStruct _ i _ _ | OEnum _ i _ _ | OTrait i => [i]
  | OExternCrate _ i => [i]
  | OAssert _ _ _ => [I "__assert_not_repr_packed"]
  | OImpl _ => []
  end.
Definition declaring (n : ident) (l : list oitem) : list oitem :=
  filter (fun o => has_name n (declares o)) l.

(** What a name refers to inside of the [const _] block (derive.rs:66-108):
    generic parameters of the impl, then the items of the block, then the items
    next to the user's.  [None]: something else, or an ambiguity (which is an
    error).  Simplification: type and value namespaces are merged. *)
Definition resolve (w : world) (n : ident) : option oitem :=
  if has_name n (generic_names (item_generics (w_item w))) then None
  else
    match declaring n (scoped (w_exp w)) with
    | [o] => Some o
    | _ :: _ => None
    | [] => match declaring n (exposed (w_exp w)) with [o] => Some o | _ => None end
    end.
(** Paths of the support crate: [_pin_project::rest]. *)
Definition support_path (w : world) (p : list ident) : option (list string) :=
  match p with
  | c :: rest =>
    if ident_is c "_pin_project" then
      match resolve w c with
      | Some (OExternCrate o _) => if ident_is o "pin_project" then Some (map name rest) else None
      | _ => None
      end
    else None
  | [] => None
  end.
(** [Self] is the user's type as long as its name means the user's type inside
    of the block. *)
Definition self_ok (w : world) : bool :=
  let n := item_ident (w_item w) in
  negb (has_name n (generic_names (item_generics (w_item w)))) &&
  match declaring n (exposed (w_exp w) ++ scoped (w_exp w)) with [] => true | _ => false end.
(** The fields of [Self] / [Self::v]. *)
Definition self_fields (w : world) (p : list ident) : option fields :=
  match w_item w, p with
  | ItStruct s, [c] => if ident_is c "Self" && self_ok w then Some (s_fields s) else None
  | ItEnum e, [c; v] =>
    if ident_is c "Self" && self_ok w then
      option_map v_fields (find (fun x => same_name v (v_ident x)) (e_variants e))
    else None
  | _, _ => None
  end.
(** The fields of a generated type named in a struct expression. *)
Definition lit_fields (w : world) (p : list ident) : option fields :=
  match p with
  | [n] => match resolve w n with Some (OStruct _ _ _ fs) => Some fs | _ => None end
  | [n; v] =>
    match resolve w n with
    | Some (OEnum _ _ _ vs) => option_map v_fields (find (fun x => same_name v (v_ident x)) vs)
    | _ => None
    end
  | _ => None
  end.

(** ** Destructors *)
Definition set_stat (s : st) (x : stat) : st := mkSt (s_var s) (s_slots s) (s_trace s) x.
Definition add_event (s : st) (e : event) : st := mkSt (s_var s) (s_slots s) (s_trace s ++ [e]) (s_stat s).
Definition live (s : st) : bool := match s_stat s with Run | Unwind => true | _ => false end.
(** A panic: starts unwinding, or aborts if the stack is being unwound already. *)
Definition panic (s : st) : st :=
  match s_stat s with Run => set_stat s Unwind | Unwind => set_stat s Abort | _ => s end.

Definition drop_id (w : world) (p : place) (id : nat) (s : st) : st :=
  if live s then
    let s' := add_event s (EvDrop p id) in if w_panics w id then panic s' else s'
  else s.
Fixpoint set_nth {A} (n : nat) (x : A) (l : list A) : list A :=
  match n, l with
  | 0, _ :: r => x :: r
  | S n', y :: r => y :: set_nth n' x r
  | _, [] => []
  end.
(** [ptr::drop_in_place] on a field.  Destroying a destroyed value is undefined. *)
Definition drop_slot (w : world) (i : nat) (s : st) : st :=
  if live s then
    match nth_error (s_slots s) i with
    | Some (Some id) =>
      drop_id w (PlField i) id (mkSt (s_var s) (set_nth i None (s_slots s)) (s_trace s) (s_stat s))
    | _ => set_stat s Stuck
    end
  else s.
(** The fields of a value that is not in [*self], in declaration order. *)
Fixpoint drop_ids (w : world) (l : list nat) (s : st) : st :=
  match l with [] => s | id :: r => drop_ids w r (drop_id w PlTemp id s) end.
Fixpoint drop_slots (w : world) (i n : nat) (s : st) : st :=
  match n with 0 => s | S n' => drop_slots w (S i) n' (drop_slot w i s) end.

(** [UnsafeOverwriteGuard::drop] (lib.rs:341-349). *)
Definition overwrite (p : place) (u : uval) (s : st) : st :=
  if live s then
    match p with
    | PlSelf => mkSt (u_var u) (map Some (u_ids u)) (s_trace s ++ [EvWrite u]) (s_stat s)
    | _ => set_stat s Stuck
    end
  else s.
(** [UnsafeDropInPlaceGuard::drop] (lib.rs:317-325); the generated code makes
    these guards for fields only. *)
Definition drop_in_place (w : world) (p : place) (s : st) : st :=
  match p with PlField i => drop_slot w i s | _ => if live s then set_stat s Stuck else s end.

(** The destructor of a run-time value; [udrop] is the one of the user's type.
    Fields are destroyed in order, also while unwinding. *)
Fixpoint drop_rv (w : world) (udrop : uval -> st -> st) (v : rv) (s : st) : st :=
  match v with
  | RVal id => drop_id w PlTemp id s
  | RUser u => udrop u s
  | RProj _ fs =>
    (fix go (fs : list (option ident * rv)) (s : st) : st :=
       match fs with [] => s | (_, x) :: r => go r (drop_rv w udrop x s) end) fs s
  | RDropGuard p => drop_in_place w p s
  | ROverGuard p u => overwrite p u s
  | RRef _ _ | RPin _ _ | RPtr _ | RPhantom | RUnit => s
  end.

(** ** Variables: newest first; [None] has been moved out of *)
Definition env := list (ident * option rv).
Fixpoint get_var (x : ident) (e : env) : option rv :=
  match e with
  | [] => None
  | (y, v) :: r => if same_name x y then v else get_var x r
  end.
Fixpoint move_var (x : ident) (e : env) : env :=
  match e with
  | [] => []
  | (y, v) :: r => if same_name x y then (y, None) :: r else (y, v) :: move_var x r
  end.
Fixpoint drop_env (w : world) (udrop : uval -> st -> st) (e : env) (s : st) : st :=
  match e with
  | [] => s
  | (_, Some v) :: r => drop_env w udrop r (drop_rv w udrop v s)
  | (_, None) :: r => drop_env w udrop r s
  end.

(** ** Expressions.  [None]: does not compile. *)
Definition is_dummy_impl (o : oitem) : bool :=
  match o with
  | OImpl im =>
    match i_trait im with
    | Some (Path _ segs) => match last segs (Seg (I "") GNone) with Seg i _ => ident_is i "PinnedDrop" end
    | None => false
    end
  | _ => false
  end.
Definition eval_call (w : world) (f : list ident) (args : list ident) (e : env) (s : st) : option (rv * env * st) :=
  match support_path w f, args with
  | Some ["__private"; "Pin"; "new_unchecked"], [x] =>
    match get_var x e with Some (RRef m p) => Some (RPin m p, move_var x e, s) | _ => None end
  | Some ["__private"; "ptr"; "read"], [x] =>
    match get_var x e with
    | Some (RRef _ (PlField i)) =>
      match nth_error (s_slots s) i with
      | Some (Some id) => Some (RVal id, e, add_event s (EvRead i id))
      | _ => None
      end
    | _ => None
    end
  | Some ["__private"; "UnsafeDropInPlaceGuard"; "new"], [x] =>
    match get_var x e with Some (RRef true p) | Some (RPtr p) => Some (RDropGuard p, e, s) | _ => None end
  | Some ["__private"; "UnsafeOverwriteGuard"; "new"], [x; y] =>
    match get_var x e, get_var y e with
    | Some (RRef true p), Some (RUser u) | Some (RPtr p), Some (RUser u) => Some (ROverGuard p u, move_var y e, s)
    | _, _ => None
    end
  | Some ["__private"; "PinnedDrop"; "drop"], [x] =>
    match get_var x e with
    | Some (RPin true p) =>
      (* the user's body, or the generated empty one *)
      if existsb is_dummy_impl (scoped (w_exp w)) then Some (RUnit, move_var x e, s)
      else
        let s' := add_event s (EvBody p) in
        Some (RUnit, move_var x e, if w_body_panics w (s_trace s) then panic s' else s')
    | _ => None
    end
  | _, _ => None
  end.
Definition eval_atom (w : world) (a : atom) (e : env) (s : st) : option (rv * env * st) :=
  match a with
  | AVar x => match get_var x e with Some v => Some (v, move_var x e, s) | None => None end
  | AMethod x m =>
    match get_var x e with
    | Some (RPin true p) => if ident_is m "get_unchecked_mut" then Some (RRef true p, move_var x e, s) else None
    | Some (RPin false p) => if ident_is m "get_ref" then Some (RRef false p, e, s) else None
    | _ => None
    end
  | ARefMutDeref x =>
    match get_var x e with Some (RPtr p) | Some (RRef true p) => Some (RRef true p, e, s) | _ => None end
  | ACall f args => eval_call w f args e s
  | APath p =>
    match support_path w p with Some ["__private"; "PhantomData"] => Some (RPhantom, e, s) | _ => None end
  end.

(** Does a value fit the declared type of a field?  Field values are opaque and
    fit everywhere.  Simplification: coercions such as [&mut T] to [&T] are
    taken to be errors; the theorems show that none is needed. *)
Definition head_is (t : ty) (s : string) : option gargs :=
  match t with
  | TyPath None (Path _ segs) =>
    match last segs (Seg (I "") GNone) with Seg i a => if ident_is i s then Some a else None end
  | _ => None
  end.
Definition fits (t : ty) (v : rv) : bool :=
  match v with
  | RVal _ => true
  | RRef m _ => match t with TyRef _ m' _ => Bool.eqb m m' | _ => false end
  | RPin m _ => match head_is t "Pin" with Some (GAngle _ [ATy (TyRef _ m' _)]) => Bool.eqb m m' | _ => false end
  | RPhantom => is_some (head_is t "PhantomData")
  | _ => false
  end.

Fixpoint all_some {A} (l : list (option A)) : option (list A) :=
  match l with
  | [] => Some []
  | Some x :: r => option_map (cons x) (all_some r)
  | None :: _ => None
  end.
Definition field_named (i : option ident) (p : option ident * rv) : bool :=
  match i, fst p with Some a, Some b => same_name a b | _, _ => false end.
(** A struct expression: all fields of the type, each exactly once. *)
Definition build (fs : fields) (d : option delim) (vs : list (option ident * rv)) : option (list (option ident * rv)) :=
  if negb (Nat.eqb (length vs) (length (fields_list fs))) then None
  else
    match d, fs with
    | Some Brace, FNamed l =>
      all_some (map (fun f => match find (field_named (f_ident f)) vs with
                              | Some (_, v) => if fits (f_ty f) v then Some (f_ident f, v) else None
                              | None => None
                              end) l)
    | Some Paren, FUnnamed l =>
      all_some (map (fun fv => match fst (snd fv) with
                               | None => if fits (f_ty (fst fv)) (snd (snd fv)) then Some (None, snd (snd fv)) else None
                               | Some _ => None
                               end) (combine l vs))
    | None, FUnit => Some []
    | _, _ => None
    end.
Fixpoint eval_fields (w : world) (fs : list (option ident * atom)) (d : option delim) (e : env) (s : st)
  : option (list (option ident * rv) * env * st) :=
  match fs with
  | [] => Some ([], e, s)
  | (n, a) :: r =>
    match eval_atom w a e s with
    | Some (v, e1, s1) =>
      match eval_fields w r d e1 s1 with
      | Some (vs, e2, s2) =>
        let n' := match d, n, a with Some Brace, None, AVar x => Some x | _, _, _ => n end in
        Some ((n', v) :: vs, e2, s2)
      | None => None
      end
    | None => None
    end
  end.
Definition eval_rhs (w : world) (r : rhs) (e : env) (s : st) : option (rv * env * st) :=
  match r with
  | RAtom a => eval_atom w a e s
  | RLit p d fs =>
    match lit_fields w p with
    | Some decl =>
      match eval_fields w fs d e s with
      | Some (vs, e', s') =>
        match build decl d vs with Some l => Some (RProj p l, e', s') | None => None end
      | None => None
      end
    | None => None
    end
  end.

(** ** Patterns *)
Fixpoint nodup_names (l : list ident) : bool :=
  match l with [] => true | x :: r => negb (has_name x r) && nodup_names r end.
Fixpoint index_of (b : ident) (k : nat) (l : list field) : option nat :=
  match l with
  | [] => None
  | f :: r => match f_ident f with
              | Some i => if same_name b i then Some k else index_of b (S k) r
              | None => index_of b (S k) r
              end
  end.
(** All fields must be mentioned (there is no [..]); identifier patterns that
    name a constant are not bindings. *)
Definition bind_fields (w : world) (fs : fields) (d : option delim) (bs : list ident) (m : bool)
  : option (list (ident * option rv)) :=
  if negb (Nat.eqb (length bs) (length (fields_list fs)) && nodup_names bs) || existsb (w_consts w) bs then None
  else
    match d, fs with
    | Some Brace, FNamed l =>
      all_some (map (fun b => option_map (fun i => (b, Some (RRef m (PlField i)))) (index_of b 0 l)) bs)
    | Some Paren, FUnnamed _ => Some (map (fun ib => (snd ib, Some (RRef m (PlField (fst ib))))) (enumerate bs))
    | None, FUnit => Some []
    | _, _ => None
    end.
(** Does the value in [*self] have the shape of this pattern? *)
Definition variant_matches (p : list ident) (s : st) : bool :=
  match p, s_var s with
  | [_], None => true
  | [_; v], Some x => same_name v x
  | _, _ => false
  end.
Definition bind_pat (w : world) (p : pat) (v : rv) (s : st) : option (list (ident * option rv)) :=
  match p with
  | PBind x => if w_consts w x then None else Some [(x, Some v)]
  | PLit path d bs =>
    match v, self_fields w path with
    | RRef m PlSelf, Some fs => if variant_matches path s then bind_fields w fs d bs m else None
    | _, _ => None
    end
  end.

(** ** Statements and bodies *)
Definition coerce (t : option ty) (v : rv) : option rv :=
  match t with
  | None => Some v
  | Some (TyPtr true _) => match v with RRef true p | RPtr p => Some (RPtr p) | _ => None end
  | Some _ => None
  end.
Definition running (s : st) : bool := match s_stat s with Run => true | _ => false end.
(** At the end of a block its variables are destroyed, newest first. *)
Definition leave (w : world) (udrop : uval -> st -> st) (outer : nat) (es : env * st) : env * st :=
  let '(e, s) := es in
  let k := length e - outer in
  (skipn k e, drop_env w udrop (firstn k e) s).
(** [let _ = call(..);] keeps nothing: the value is destroyed at once.  (The
    generated code has no such statement; one in place of [let __guard = ..] in
    derive.rs:681, 1003 would be a bug.) *)
Definition is_wild (p : pat) : bool := match p with PBind x => ident_is x "_" | PLit _ _ _ => false end.
Fixpoint run_stmt (w : world) (udrop : uval -> st -> st) (x : stmt) (e : env) (s : st) : option (env * st) :=
  match x with
  | SLet p t r =>
    match eval_rhs w r e s with
    | Some (v, e1, s1) =>
      match coerce t v with
      | Some v' =>
        if is_wild p then Some (e1, drop_rv w udrop v' s1)
        else match bind_pat w p v' s1 with Some bs => Some (bs ++ e1, s1) | None => None end
      | None => None
      end
    | None => None
    end
  | SExpr a =>
    match eval_atom w a e s with
    | Some (v, e1, s1) => Some (e1, drop_rv w udrop v s1)
    | None => None
    end
  | SBlock ss =>
    option_map (leave w udrop (length e))
      ((fix go (ss : list stmt) (e : env) (s : st) : option (env * st) :=
          match ss with
          | [] => Some (e, s)
          | y :: r =>
            if running s then
              match run_stmt w udrop y e s with Some (e1, s1) => go r e1 s1 | None => None end
            else Some (e, s)
          end) ss e s)
  end.
Fixpoint run_stmts (w : world) (udrop : uval -> st -> st) (ss : list stmt) (e : env) (s : st) : option (env * st) :=
  match ss with
  | [] => Some (e, s)
  | y :: r =>
    if running s then
      match run_stmt w udrop y e s with Some (e1, s1) => run_stmts w udrop r e1 s1 | None => None end
    else Some (e, s)
  end.

(** The end of a function: the tail is evaluated, then all variables are
    destroyed.  If that panics, the result is destroyed as well, except on a
    compiler with rust-lang/rust#47949, which forgets it. *)
Definition finish (w : world) (udrop : uval -> st -> st) (tail : option rhs) (e : env) (s : st) : option (option rv * st) :=
  if running s then
    match (match tail with Some r => eval_rhs w r e s | None => Some (RUnit, e, s) end) with
    | Some (v, e1, s1) =>
      let s2 := drop_env w udrop e1 s1 in
      if running s2 then Some (Some v, s2)
      else Some (None, if w_leaky w then s2 else drop_rv w udrop v s2)
    | None => None
    end
  else Some (None, drop_env w udrop e s).
Fixpoint find_arm (path_matches : list ident -> bool) (l : list arm) : option arm :=
  match l with
  | [] => None
  | x :: r =>
    match arm_pat x with
    | PLit p _ _ => if path_matches p then Some x else find_arm path_matches r
    | PBind _ => Some x
    end
  end.
Definition run_body (w : world) (udrop : uval -> st -> st) (b : body) (e : env) (s : st) : option (option rv * st) :=
  match b with
  | BTail ss t =>
    match run_stmts w udrop ss e s with Some (e1, s1) => finish w udrop t e1 s1 | None => None end
  | BMatch ss scrut arms =>
    match run_stmts w udrop ss e s with
    | Some (e1, s1) =>
      match eval_atom w scrut e1 s1 with
      | Some (v, e2, s2) =>
        match find_arm (fun p => variant_matches p s2) arms with
        | Some x =>
          match bind_pat w (arm_pat x) v s2 with
          | Some bs =>
            match run_stmts w udrop (arm_stmts x) (bs ++ e2) s2 with
            | Some (e3, s3) => finish w udrop (Some (arm_tail x)) e3 s3
            | None => None
            end
          | None => None
          end
        | None => None
        end
      | None => None
      end
    | None => None
    end
  end.

(** The declared result type must be the type of the result. *)
Definition ret_ok (m : method) (v : rv) : bool :=
  match m_ret m, v with
  | None, RUnit => true
  | Some (TyPath None (Path false [Seg n _])), RProj (n' :: _) _ => same_name n n'
  | _, _ => false
  end.
(** Calling a method: the receiver and the other arguments become variables. *)
Definition call (w : world) (udrop : uval -> st -> st) (m : method) (recv : rv) (args : list rv) (s : st)
  : option (option rv * st) :=
  if Nat.eqb (length args) (length (m_params m)) then
    match run_body w udrop (m_body m)
            (rev (map (fun pv => (fst (fst pv), Some (snd pv))) (combine (m_params m) args)) ++
             [(I "self", Some recv)]) s with
    | Some (Some v, s') => if ret_ok m v then Some (Some v, s') else None
    | r => r
    end
  else None.

(** ** The destructor of the user's type: its [Drop] impl if the derive
    generated one (derive.rs:867-887), then its fields. *)
Definition is_drop_impl (w : world) (o : oitem) : list method :=
  match o with
  | OImpl im =>
    match i_trait im with
    | Some (Path false segs) =>
      match support_path w (map (fun x => match x with Seg i _ => i end) segs) with
      | Some ["__private"; "Drop"] => i_methods im
      | _ => []
      end
    | _ => []
    end
  | _ => []
  end.
Definition no_user (u : uval) (s : st) : st := if live s then set_stat s Stuck else s.
Definition call_drop (w : world) (p : place) (s : st) : st :=
  if running s then
    match flat_map (is_drop_impl w) (scoped (w_exp w)) with
    | [] => s
    | m :: _ =>
      match call w no_user m (RRef true p) [] s with
      | Some (_, s') => s'
      | None => set_stat s Stuck
      end
    end
  else if live s then
    (* the same while unwinding: a panic aborts *)
    match flat_map (is_drop_impl w) (scoped (w_exp w)) with
    | [] => s
    | m :: _ =>
      match call w no_user m (RRef true p) [] (set_stat s Run) with
      | Some (_, s') =>
        match s_stat s' with
        | Run => set_stat s' Unwind
        | Unwind => set_stat s' Abort
        | _ => s'
        end
      | None => set_stat s Stuck
      end
    end
  else s.
Definition drop_user (w : world) (u : uval) (s : st) : st := drop_ids w (u_ids u) (call_drop w PlTemp s).
(** Dropping [*self] where it is. *)
Definition drop_self (w : world) (s : st) : st :=
  let s1 := call_drop w PlSelf s in drop_slots w 0 (length (s_slots s)) s1.

(** ** The methods of the user's type *)
Definition find_method (w : world) (n : string) : option method :=
  find (fun m => ident_is (m_name m) n)
    (flat_map (fun o => match o with
                        | OImpl im => match i_trait im with None => i_methods im | Some _ => [] end
                        | _ => []
                        end) (scoped (w_exp w))).
Definition call_method (w : world) (n : string) (recv : rv) (args : list rv) (s : st) : option (option rv * st) :=
  match find_method w n with Some m => call w (drop_user w) m recv args s | None => None end.
(** A state in which [*self] holds the value [u]. *)
Definition start (u : uval) : st := mkSt (u_var u) (map Some (u_ids u)) [] Run.
