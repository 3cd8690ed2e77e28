(** Pointers and the aliasing rules: what the generated methods
    (/repo/pin-project-internal/src/pin_project/derive.rs:410-421, 494-508, 550-558,
    603-627, 670-687, 873-883, 964-1012) and the functions of
    /repo/src/lib.rs:181-349 that they call do with references, and the rules of
    Stacked Borrows that decide whether this is undefined behaviour.

    Every pointer has a tag, every byte of memory has a stack of tags; creating a
    pointer from another one pushes a tag, using a pointer removes what lies above
    its tag, and using a pointer whose tag is gone is undefined.  Simplifications:
    all bytes of a field are one location; what [*self] has besides its fields
    (padding, a discriminant) is one more; an exclusive reference always gets a
    unique tag, also if its target is not [Unpin] (the rules really used are more
    permissive there: C69); there is no interior mutability; the pointers that
    [Pin::new_unchecked], [ptr::read] and the [new] functions of the guards create on
    entry, inside and on return are one pointer, as nothing else happens in between. *)
From Coq Require Import String Ascii List Bool Arith.
From Verif Require Import Base Syntax ModelArgs ModelUtils ModelDerive ModelRun.
Import ListNotations.
Open Scope string_scope.
Open Scope list_scope.

(** ** The rules *)
Inductive perm : Type := Unique | SharedRW | SharedRO | Disabled.
Record entry : Type := mkEntry { en_tag : nat; en_perm : perm; en_prot : bool }.
(** The newest entry first. *)
Definition stack : Type := list entry.

Definition grants (write : bool) (t : nat) (x : entry) : bool :=
  Nat.eqb (en_tag x) t &&
  match en_perm x with Unique | SharedRW => true | SharedRO => negb write | Disabled => false end.
(** What lies above the newest entry that allows the access, the entry, and the rest. *)
Fixpoint granting (write : bool) (t : nat) (s : stack) : option (stack * entry * stack) :=
  match s with
  | [] => None
  | x :: r =>
    if grants write t x then Some ([], x, r)
    else match granting write t r with Some (above, g, below) => Some (x :: above, g, below) | None => None end
  end.
Definition is_raw (x : entry) : bool := match en_perm x with SharedRW => true | _ => false end.
Definition is_unique (x : entry) : bool := match en_perm x with Unique => true | _ => false end.
(** The entries for raw pointers directly above the entry stay valid if it is one too. *)
Fixpoint split_raw (l : stack) : stack * stack :=
  match l with
  | [] => ([], [])
  | x :: r => let '(p, k) := split_raw r in match p with [] => if is_raw x then ([], x :: k) else ([x], k) | _ => (x :: p, k) end
  end.
Definition incompatible (g : entry) (above : stack) : stack * stack :=
  if is_raw g then split_raw above else (above, []).
Definition disable (x : entry) : entry := if is_unique x then mkEntry (en_tag x) Disabled (en_prot x) else x.
(** [None] is undefined behaviour. *)
Definition access (write : bool) (t : nat) (s : stack) : option stack :=
  match granting write t s with
  | None => None
  | Some (above, g, below) =>
    if write then
      let '(gone, kept) := incompatible g above in
      if existsb en_prot gone then None else Some (kept ++ g :: below)
    else if existsb (fun x => is_unique x && en_prot x) above then None
    else Some (map disable above ++ g :: below)
  end.
Inductive pkind : Type := PkMut | PkShared | PkRaw.   (* &mut T, &T, *mut T *)
(** A new pointer [to_] from the pointer [from]. *)
Definition retag (k : pkind) (prot : bool) (from to_ : nat) (s : stack) : option stack :=
  match k with
  | PkMut => option_map (cons (mkEntry to_ Unique prot)) (access true from s)
  | PkShared => option_map (cons (mkEntry to_ SharedRO prot)) (access false from s)
  | PkRaw =>
    match granting true from s with
    | None => None
    | Some (above, g, below) =>
      let '(gone, kept) := incompatible g above in Some (gone ++ mkEntry to_ SharedRW prot :: kept ++ g :: below)
    end
  end.

(** ** What a program does with pointers to the parts of [*self] *)
Inductive op : Type :=
| ORetag (k : pkind) (prot : bool) (p : place) (from to_ : nat)
| OUse (write : bool) (p : place) (t : nat)
| ORelease (t : nat).                         (* the function with the protected argument returns *)
Inductive loc : Type := LRest | LField (i : nat).
Definition covers (p : place) (l : loc) : bool :=
  match p, l with
  | PlSelf, _ => true
  | PlField i, LField j => Nat.eqb i j
  | _, _ => false
  end.
Definition release (t : nat) (x : entry) : entry :=
  if Nat.eqb (en_tag x) t then mkEntry (en_tag x) (en_perm x) false else x.
Definition step (l : loc) (o : op) (s : stack) : option stack :=
  match o with
  | ORetag k prot p from to_ => if covers p l then retag k prot from to_ s else Some s
  | OUse write p t => if covers p l then access write t s else Some s
  | ORelease t => Some (map (release t) s)
  end.
Fixpoint steps (l : loc) (os : list op) (s : stack) : option stack :=
  match os with [] => Some s | o :: r => match step l o s with Some s' => steps l r s' | None => None end end.

(** ** The operations of the generated code *)
Inductive av : Type :=
| AvPtr (k : pkind) (p : place) (t : nat)
| AvPin (m : bool) (p : place) (t : nat)         (* Pin<&T>, Pin<&mut T> *)
| AvProj (fs : list (option ident * av))
| AvDropGuard (p : place) (t : nat)              (* lib.rs:307-325 *)
| AvOverGuard (p : place) (t : nat)              (* lib.rs:327-349 *)
| AvOwned.                                       (* not a pointer *)
Definition ref_kind (m : bool) : pkind := if m then PkMut else PkShared.

Definition aenv : Type := list (ident * option av).
Fixpoint lookup (x : ident) (e : aenv) : option av :=
  match e with [] => None | (y, v) :: r => if same_name x y then v else lookup x r end.
Fixpoint take (x : ident) (e : aenv) : aenv :=
  match e with [] => [] | (y, v) :: r => if same_name x y then (y, None) :: r else (y, v) :: take x r end.
(** The next tag, and the operations so far. *)
Record ast : Type := mkA { a_next : nat; a_ops : list op }.
Definition emit (os : list op) (a : ast) : ast := mkA (a_next a) (a_ops a ++ os).
Definition derive_ptr (k : pkind) (p : place) (t : nat) (a : ast) : nat * ast :=
  (a_next a, mkA (S (a_next a)) (a_ops a ++ [ORetag k false p t (a_next a)])).

Section Code.
  Variable w : world.
  Variable var : option ident.          (* the variant of the value *)
  (** What destructors of fields and the user's [PinnedDrop::drop] do with the
      exclusive reference they get: reads ([false]) and writes of the target or parts
      of it.  (Others cannot be done with this reference and are left out.) *)
  Variable uses : place -> list (bool * place).
  Definition inside (q p : place) : bool :=
    match q, p with
    | PlSelf, PlSelf => true
    | PlField _, PlSelf => true
    | PlField i, PlField j => Nat.eqb i j
    | _, _ => false
    end.

  (** The user's function is called with a reference made from [t], which is
      protected until it returns. *)
  Definition user_code (p : place) (t : nat) (a : ast) : ast :=
    let n := a_next a in
    mkA (S n) (a_ops a ++ ORetag PkMut true p t n ::
               flat_map (fun bq => if inside (snd bq) p then [OUse (fst bq) (snd bq) n] else []) (uses p) ++
               [ORelease n]).

  Definition alias_call (f : list ident) (args : list ident) (e : aenv) (a : ast) : option (av * aenv * ast) :=
    match support_path w f, args with
    | Some ["__private"; "Pin"; "new_unchecked"], [x] =>
      match lookup x e with
      | Some (AvPtr PkMut p t) => let '(n, a1) := derive_ptr PkMut p t a in Some (AvPin true p n, take x e, a1)
      | Some (AvPtr PkShared p t) => let '(n, a1) := derive_ptr PkShared p t a in Some (AvPin false p n, take x e, a1)
      | _ => None
      end
    | Some ["__private"; "ptr"; "read"], [x] =>   (* the argument is coerced to [*const T] *)
      match lookup x e with
      | Some (AvPtr _ p t) => let '(n, a1) := derive_ptr PkShared p t a in Some (AvOwned, e, emit [OUse false p n] a1)
      | _ => None
      end
    | Some ["__private"; "UnsafeDropInPlaceGuard"; "new"], [x] =>   (* coerced to [*mut T] *)
      match lookup x e with
      | Some (AvPtr PkMut p t) => let '(n, a1) := derive_ptr PkRaw p t a in Some (AvDropGuard p n, e, a1)
      | Some (AvPtr PkRaw p t) => Some (AvDropGuard p t, e, a)
      | _ => None
      end
    | Some ["__private"; "UnsafeOverwriteGuard"; "new"], [x; y] =>
      match lookup x e, lookup y e with
      | Some (AvPtr PkMut p t), Some AvOwned => let '(n, a1) := derive_ptr PkRaw p t a in Some (AvOverGuard p n, take y e, a1)
      | Some (AvPtr PkRaw p t), Some AvOwned => Some (AvOverGuard p t, take y e, a)
      | _, _ => None
      end
    | Some ["__private"; "PinnedDrop"; "drop"], [x] =>
      match lookup x e with
      | Some (AvPin true p t) => Some (AvOwned, take x e, user_code p t a)
      | _ => None
      end
    | _, _ => None
    end.
  Definition alias_atom (x : atom) (e : aenv) (a : ast) : option (av * aenv * ast) :=
    match x with
    | AVar x => match lookup x e with Some v => Some (v, take x e, a) | None => None end
    | AMethod x m =>
      match lookup x e with
      | Some (AvPin true p t) =>
        if ident_is m "get_unchecked_mut" then let '(n, a1) := derive_ptr PkMut p t a in Some (AvPtr PkMut p n, take x e, a1) else None
      | Some (AvPin false p t) =>
        if ident_is m "get_ref" then let '(n, a1) := derive_ptr PkShared p t a in Some (AvPtr PkShared p n, e, a1) else None
      | _ => None
      end
    | ARefMutDeref x =>
      match lookup x e with
      | Some (AvPtr PkRaw p t) | Some (AvPtr PkMut p t) => let '(n, a1) := derive_ptr PkMut p t a in Some (AvPtr PkMut p n, e, a1)
      | _ => None
      end
    | ACall f args => alias_call f args e a
    | APath p => match support_path w p with Some ["__private"; "PhantomData"] => Some (AvOwned, e, a) | _ => None end
    end.
  Fixpoint alias_fields (fs : list (option ident * atom)) (d : option delim) (e : aenv) (a : ast) : option (list (option ident * av) * aenv * ast) :=
    match fs with
    | [] => Some ([], e, a)
    | (n, x) :: r =>
      match alias_atom x e a with
      | Some (v, e1, a1) =>
        match alias_fields r d e1 a1 with
        | Some (vs, e2, a2) =>
          let n' := match d, n, x with Some Brace, None, AVar y => Some y | _, _, _ => n end in
          Some ((n', v) :: vs, e2, a2)
        | None => None
        end
      | None => None
      end
    end.
  Definition alias_rhs (r : rhs) (e : aenv) (a : ast) : option (av * aenv * ast) :=
    match r with
    | RAtom x => alias_atom x e a
    | RLit _ d fs => match alias_fields fs d e a with Some (vs, e1, a1) => Some (AvProj vs, e1, a1) | None => None end
    end.

  (** The bindings of a pattern are references derived from the one it is matched with. *)
  Fixpoint tag_binds (m : bool) (t : nat) (bs : list (ident * option rv)) (a : ast) : option (aenv * ast) :=
    match bs with
    | [] => Some ([], a)
    | (x, Some (RRef _ p)) :: r =>
      let '(n, a1) := derive_ptr (ref_kind m) p t a in
      match tag_binds m t r a1 with Some (e, a2) => Some ((x, Some (AvPtr (ref_kind m) p n)) :: e, a2) | None => None end
    | _ => None
    end.
  Definition alias_pat (p : pat) (v : av) (a : ast) : option (aenv * ast) :=
    match p with
    | PBind x => if w_consts w x then None else Some ([(x, Some v)], a)
    | PLit path d bs =>
      match self_fields w path with
      | Some fs =>
        if variant_matches path (mkSt var [] [] Run) then
          match v with
          | AvPtr PkMut PlSelf t => match bind_fields w fs d bs true with Some l => tag_binds true t l a | None => None end
          | AvPtr PkShared PlSelf t => match bind_fields w fs d bs false with Some l => tag_binds false t l a | None => None end
          | _ => None
          end
        else None
      | None => None
      end
    end.
  Definition alias_coerce (t : option ty) (v : av) (a : ast) : option (av * ast) :=
    match t with
    | None => Some (v, a)
    | Some (TyPtr true _) =>
      match v with
      | AvPtr PkMut p t => let '(n, a1) := derive_ptr PkRaw p t a in Some (AvPtr PkRaw p n, a1)
      | AvPtr PkRaw p t => Some (v, a)
      | _ => None
      end
    | Some _ => None
    end.

  (** Destructors of values: of guards (lib.rs:317-325, 341-349); the others do not
      touch [*self]. *)
  Fixpoint alias_drop (v : av) (a : ast) : ast :=
    match v with
    | AvProj fs => (fix go (fs : list (option ident * av)) (a : ast) : ast :=
                      match fs with [] => a | (_, x) :: r => go r (alias_drop x a) end) fs a
    | AvDropGuard p t => user_code p t a
    | AvOverGuard p t => emit [OUse true p t] a
    | AvPtr _ _ _ | AvPin _ _ _ | AvOwned => a
    end.
  Fixpoint alias_drops (e : aenv) (a : ast) : ast :=
    match e with
    | [] => a
    | (_, Some v) :: r => alias_drops r (alias_drop v a)
    | (_, None) :: r => alias_drops r a
    end.
  Definition alias_leave (outer : nat) (x : aenv * ast) : aenv * ast :=
    let k := length (fst x) - outer in (skipn k (fst x), alias_drops (firstn k (fst x)) (snd x)).

  (** A panic of a destructor does not change what the others do: while the stack is
      unwound they run in the same order.  An abort cuts the sequence off. *)
  Fixpoint alias_stmt (x : stmt) (e : aenv) (a : ast) : option (aenv * ast) :=
    match x with
    | SLet p t r =>
      match alias_rhs r e a with
      | Some (v, e1, a1) =>
        match alias_coerce t v a1 with
        | Some (v', a2) =>
          if is_wild p then Some (e1, alias_drop v' a2)
          else match alias_pat p v' a2 with Some (bs, a3) => Some (bs ++ e1, a3) | None => None end
        | None => None
        end
      | None => None
      end
    | SExpr y => match alias_atom y e a with Some (v, e1, a1) => Some (e1, alias_drop v a1) | None => None end
    | SBlock ss =>
      option_map (alias_leave (length e))
        ((fix go (ss : list stmt) (e : aenv) (a : ast) : option (aenv * ast) :=
            match ss with
            | [] => Some (e, a)
            | y :: r => match alias_stmt y e a with Some (e1, a1) => go r e1 a1 | None => None end
            end) ss e a)
    end.
  Fixpoint alias_stmts (ss : list stmt) (e : aenv) (a : ast) : option (aenv * ast) :=
    match ss with
    | [] => Some (e, a)
    | y :: r => match alias_stmt y e a with Some (e1, a1) => alias_stmts r e1 a1 | None => None end
    end.
  Definition alias_finish (tail : option rhs) (e : aenv) (a : ast) : option (av * ast) :=
    match (match tail with Some r => alias_rhs r e a | None => Some (AvOwned, e, a) end) with
    | Some (v, e1, a1) => Some (v, alias_drops e1 a1)
    | None => None
    end.
  Definition alias_body (b : body) (e : aenv) (a : ast) : option (av * ast) :=
    match b with
    | BTail ss t => match alias_stmts ss e a with Some (e1, a1) => alias_finish t e1 a1 | None => None end
    | BMatch ss scrut arms =>
      match alias_stmts ss e a with
      | Some (e1, a1) =>
        match alias_atom scrut e1 a1 with
        | Some (AvPtr k p t, e2, a2) =>
          match find_arm (fun p => variant_matches p (mkSt var [] [] Run)) arms with
          | Some x =>
            (* the discriminant is read *)
            match alias_pat (arm_pat x) (AvPtr k p t) (emit [OUse false p t] a2) with
            | Some (bs, a3) =>
              match alias_stmts (arm_stmts x) (bs ++ e2) a3 with
              | Some (e3, a4) => alias_finish (Some (arm_tail x)) e3 a4
              | None => None
              end
            | None => None
            end
          | None => None
          end
        | _ => None
        end
      | None => None
      end
    end.

  (** A call with a receiver made from the caller's pointer [t].  The receiver is
      protected until the function returns.  [n]: the first tag that is not used yet.
      The result, the operations, and the next tag. *)
  Definition alias_method (m : method) (recv : nat -> av) (k : pkind) (t n : nat) : option (av * list op * nat) :=
    match alias_body (m_body m)
            (rev (map (fun p => (fst p, Some AvOwned)) (m_params m)) ++ [(I "self", Some (recv n))])
            (mkA (S n) [ORetag k true PlSelf t n]) with
    | Some (v, a) => Some (v, a_ops a ++ [ORelease n], a_next a)
    | None => None
    end.
  (** The methods of the type, and the generated destructor. *)
  Definition alias_project (n : string) (mut : bool) (t next : nat) : option (av * list op * nat) :=
    match find_method w n with
    | Some m => alias_method m (AvPin mut PlSelf) (ref_kind mut) t next
    | None => None
    end.
  Definition alias_destroy (t next : nat) : option (av * list op * nat) :=
    match flat_map (is_drop_impl w) (scoped (w_exp w)) with
    | m :: _ => alias_method m (AvPtr PkMut PlSelf) PkMut t next
    | [] => Some (AvOwned, [], next)
    end.
End Code.
