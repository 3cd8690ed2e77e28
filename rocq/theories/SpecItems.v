(** A reader for the items a derive can generate, over token trees (the
    reference: Items, Attributes, Visibility and Privacy, Generic parameters,
    Where clauses, Structs, Enumerations, Implementations, Functions, Statements,
    Patterns), on top of the reader for types of SpecRead.v.  It is what rustc
    does with the output of the macro.  In the bodies of functions only the forms
    of Syntax.v are known; everything else is refused. *)
From Coq Require Import String Ascii List Bool Arith.
From Verif Require Import Base Syntax SpecArgs SpecRead.
Import ListNotations.
Open Scope string_scope.
Open Scope list_scope.

(** ** What is read *)
(** [#[a::b]] or [#[a::b(c::d, ..)]]. *)
Definition rattr : Type := list ident * option (list (list ident)).
Inductive rarg : Type :=
| RSelfTyped (t : ty)   (* self: T *)
| RSelfRefMut           (* &mut self *)
| RArg (i : ident) (t : ty).
Record rmethod : Type := mkRMethod {
  rm_attrs : list rattr; rm_vis : vis; rm_unsafe : bool; rm_name : ident; rm_lts : list string;
  rm_args : list rarg; rm_ret : option ty; rm_body : body }.
Inductive ritem : Type :=
| SeenStruct (v : vis) (i : ident) (g : generics) (fs : fields)
| SeenEnum (v : vis) (i : ident) (g : generics) (vs : list variant)
| SeenImpl (unsafe_ : bool) (g : generics) (trait_ : option path) (self_ : ty) (ms : list rmethod)
| SeenTrait (i : ident)
| SeenFn (i : ident) (g : generics) (args : list rarg) (fields : list (ident + string)) (* { let _ = &this.f; .. } *)
| SeenExtern (krate : ident) (as_ : ident).

(** Items and then [const _: () = { .. };], with items in it. *)
Record routput : Type := mkROutput {
  ro_outer : list (list rattr * ritem); ro_attrs : list rattr; ro_inner : list (list rattr * ritem) }.

(** ** Names *)
Definition place (i : ident) : bool := existsb (ident_is i) ["crate"; "self"; "super"].
(** A name that can be given to something: a raw identifier or no keyword. *)
Definition name_ok (i : ident) : bool :=
  raw i || negb (existsb (String.eqb (name i)) (strict_keywords ++ reserved_keywords ++ ["_"])).
Definition read_name : reader ident := fun ts =>
  match ts with TIdent i :: r => if name_ok i then Some (i, r) else None | _ => None end.
Definition read_word : reader ident := fun ts =>
  match ts with TIdent i :: r => if path_word i then Some (i, r) else None | _ => None end.

(** Until the tokens are used up. *)
Fixpoint read_all {A} (f : reader A) (n : nat) (ts : list ttree) : option (list A) :=
  match ts, n with
  | [], _ => Some []
  | _, 0 => None
  | _, S n =>
    match f ts with
    | Some (x, r) => match read_all f n r with Some l => Some (x :: l) | None => None end
    | None => None
    end
  end.

Section Items.
  Variable n : nat.
  Notation rt := (read_ty n true).
  Definition words : reader (list ident) := chain read_word (eat2 ":" ":") n.

  (** ** Visibilities: [pub], [pub(crate)], [pub(self)], [pub(super)] and
      [pub(in a::b)]; other parentheses do not belong to [pub] *)
  Definition read_vis (ts : list ttree) : option (vis * list ttree) :=
    match eat_word "pub" ts with
    | None => Some (VInherited, ts)
    | Some r =>
      match r with
      | TGroup Paren body :: r' =>
        match eat_word "in" body with
        | Some b => match words b with Some (p, []) => Some (VRestricted true p, r') | _ => None end
        | None =>
          match body with
          | [TIdent i] => if place i then Some (VRestricted false [i], r') else Some (VPub, r)
          | _ => Some (VPub, r)
          end
        end
      | _ => Some (VPub, r)
      end
    end.

  (** ** Attributes *)
  Definition read_attr (ts : list ttree) : option rattr :=
    match words ts with
    | Some (p, []) => Some (p, None)
    | Some (p, [TGroup Paren body]) => match list_in words n body with Some (l, _) => Some (p, Some l) | None => None end
    | _ => None
    end.
  Fixpoint read_attrs (ts : list ttree) : option (list rattr * list ttree) :=
    match ts with
    | TPunct c _ :: TGroup Bracket body :: r =>
      if Ascii.eqb c "#" then
        match read_attr body, read_attrs r with
        | Some a, Some (l, r') => Some (a :: l, r')
        | _, _ => None
        end
      else None
    | _ => Some ([], ts)
    end.
  Definition rb : reader bound := read_bound n (fst (read n)).
  Definition after_colon {A} (f : reader A) (ts : list ttree) : option (list A * list ttree) :=
    match eat ":" ts with
    | Some r => chain f (eat "+") n r
    | None => Some ([], ts)
    end.

  (** ** Generic parameters *)
  Definition read_default {A} (f : reader A) (ts : list ttree) : option (option A * list ttree) :=
    match eat "=" ts with
    | Some r => match f r with Some (x, r') => Some (Some x, r') | None => None end
    | None => Some (None, ts)
    end.
  Definition read_param : reader gparam := fun ts =>
    match read_lt ts with
    | Some (lt, r) => match after_colon read_lt r with Some (bs, r') => Some (PLt lt bs, r') | None => None end
    | None =>
      match eat_word "const" ts with
      | Some r =>
        match read_name r with
        | Some (i, r1) =>
          match eat ":" r1 with
          | Some r2 =>
            match rt r2 with
            | Some (t, r3) =>
              match read_default (read_expr n) r3 with Some (d, r4) => Some (PConst i t d, r4) | None => None end
            | None => None
            end
          | None => None
          end
        | None => None
        end
      | None =>
        match read_name ts with
        | Some (i, r) =>
          match after_colon rb r with
          | Some (bs, r1) => match read_default rt r1 with Some (d, r2) => Some (PTy i bs d, r2) | None => None end
          | None => None
          end
        | None => None
        end
      end
    end.
  Definition read_params (ts : list ttree) : option (list gparam * list ttree) :=
    match eat "<" ts with Some r => list_to read_param n r | None => Some ([], ts) end.

  (** ** Where clauses *)
  (** The end of a list of bounds or of predicates. *)
  Definition ends (ts : list ttree) : bool :=
    match ts with
    | [] => true
    | TPunct c _ :: _ => existsb (Ascii.eqb c) [","; ";"]%char
    | TGroup Brace _ :: _ => true
    | _ => false
    end.
  Definition read_bounds {A} (f : reader A) (ts : list ttree) : option (list A * list ttree) :=
    if ends ts then Some ([], ts) else chain f (eat "+") n ts.
  Definition read_wpred : reader wpred := fun ts =>
    match read_lt ts with
    | Some (lt, r) =>
      match eat ":" r with
      | Some r' => match read_bounds read_lt r' with Some (bs, r2) => Some (WLt lt bs, r2) | None => None end
      | None => None
      end
    | None =>
      match read_for n ts with
      | Some (lts, r) =>
        match rt r with
        | Some (t, r1) =>
          match eat ":" r1 with
          | Some r2 => match read_bounds rb r2 with Some (bs, r3) => Some (WTy lts t bs, r3) | None => None end
          | None => None
          end
        | None => None
        end
      | None => None
      end
    end.
  Fixpoint wpreds (k : nat) (ts : list ttree) : option (list wpred * list ttree) :=
    if ends ts then Some ([], ts)
    else
      match k with
      | 0 => None
      | S k =>
        match read_wpred ts with
        | Some (w, r) =>
          match eat "," r with
          | Some r' => match wpreds k r' with Some (l, r2) => Some (w :: l, r2) | None => None end
          | None => Some ([w], r)
          end
        | None => None
        end
      end.
  Definition read_where (ts : list ttree) : option (list wpred * list ttree) :=
    match eat_word "where" ts with Some r => wpreds n r | None => Some ([], ts) end.
  (** A where clause without predicates is none. *)
  Definition generics_from (ps : list gparam) (ws : list wpred) : generics :=
    mkGenerics ps (match ws with [] => None | _ => Some ws end).

  (** ** Fields and variants *)
  Definition read_named : reader field := fun ts =>
    match read_vis ts with
    | Some (v, r) =>
      match read_name r with
      | Some (i, r1) =>
        match eat ":" r1 with
        | Some r2 => match rt r2 with Some (t, r3) => Some (mkField [] v (Some i) t, r3) | None => None end
        | None => None
        end
      | None => None
      end
    | None => None
    end.
  Definition read_unnamed : reader field := fun ts =>
    match read_vis ts with
    | Some (v, r) => match rt r with Some (t, r1) => Some (mkField [] v None t, r1) | None => None end
    | None => None
    end.
  Definition read_variant : reader variant := fun ts =>
    match read_name ts with
    | Some (i, r) =>
      match r with
      | TGroup Brace body :: r' =>
        match list_in read_named n body with Some (l, _) => Some (mkVariant [] i (FNamed l) false, r') | None => None end
      | TGroup Paren body :: r' =>
        match list_in read_unnamed n body with Some (l, _) => Some (mkVariant [] i (FUnnamed l) false, r') | None => None end
      | _ => Some (mkVariant [] i FUnit false, r)
      end
    | None => None
    end.

  (** ** Bodies of functions *)
  (** [x], [x.m()], [&mut *x], [f(x, ..)] or [a::b]. *)
  Definition path_atom (p : list ident) : atom := match p with [x] => AVar x | _ => APath p end.
  Definition read_atom : reader atom := fun ts =>
    match ts with
    | TPunct c _ :: TIdent m :: TPunct d _ :: TIdent x :: r =>
      if Ascii.eqb c "&" && ident_is m "mut" && Ascii.eqb d "*" && path_word x then Some (ARefMutDeref x, r) else None
    | _ =>
      match words ts with
      | None => None
      | Some (p, r) =>
        match r with
        | TGroup Paren body :: r' =>
          match list_in read_word n body with Some (l, _) => Some (ACall p l, r') | None => None end
        | TPunct c _ :: TIdent m :: TGroup Paren [] :: r' =>
          match p with
          | [x] => if Ascii.eqb c "." && name_ok m then Some (AMethod x m, r') else Some (AVar x, r)
          | _ => Some (APath p, r)
          end
        | _ => Some (path_atom p, r)
        end
      end
    end.
  (** A field in a struct expression: [f: a], or [a] alone. *)
  Definition read_init : reader (option ident * atom) := fun ts =>
    match ts with
    | TIdent i :: TPunct c false :: r =>
      if Ascii.eqb c ":" then
        if name_ok i then match read_atom r with Some (a, r') => Some ((Some i, a), r') | None => None end else None
      else match read_atom ts with Some (a, r') => Some ((None, a), r') | None => None end
    | _ => match read_atom ts with Some (a, r') => Some ((None, a), r') | None => None end
    end.
  Definition read_rhs : reader rhs := fun ts =>
    match words ts with
    | Some (p, TGroup Paren body :: r) =>
      match list_in read_atom n body with
      | Some (l, _) => Some (RLit p (Some Paren) (map (fun a => (None, a)) l), r)
      | None => None
      end
    | Some (p, TGroup Brace body :: r) =>
      match list_in read_init n body with Some (l, _) => Some (RLit p (Some Brace) l, r) | None => None end
    | _ => match read_atom ts with Some (a, r) => Some (RAtom a, r) | None => None end
    end.
  (** [x], [a::b], [a::b { x, .. }] or [a::b(x, ..)]. *)
  Definition read_pat : reader pat := fun ts =>
    match words ts with
    | Some (p, TGroup Paren body :: r) =>
      match list_in read_name n body with Some (l, _) => Some (PLit p (Some Paren) l, r) | None => None end
    | Some (p, TGroup Brace body :: r) =>
      match list_in read_name n body with Some (l, _) => Some (PLit p (Some Brace) l, r) | None => None end
    | Some ([x], r) => Some (PBind x, r)
    | Some (p, r) => Some (PLit p None [], r)
    | None => None
    end.
  Definition read_let (ts : list ttree) : option (stmt * list ttree) :=
    match read_pat ts with
    | Some (p, r) =>
      match
        match eat ":" r with
        | Some r1 => match rt r1 with Some (t, r2) => Some (Some t, r2) | None => None end
        | None => Some (None, r)
        end
      with
      | Some (t, r1) =>
        match eat "=" r1 with
        | Some r2 =>
          match read_rhs r2 with
          | Some (x, r3) => match eat ";" r3 with Some r4 => Some (SLet p t x, r4) | None => None end
          | None => None
          end
        | None => None
        end
      | None => None
      end
    | None => None
    end.
  (** The statements, and the tokens of the expression after them. *)
  Fixpoint read_stmts (k : nat) (ts : list ttree) : option (list stmt * list ttree) :=
    match k with
    | 0 => match ts with [] => Some ([], []) | _ => None end
    | S k =>
      let more (s : stmt) (r : list ttree) :=
        match read_stmts k r with Some (l, r') => Some (s :: l, r') | None => None end in
      match ts with
      | [] => Some ([], [])
      | TGroup Brace body :: r =>
        match read_stmts k body with Some (ss, []) => more (SBlock ss) r | _ => None end
      | _ =>
        match eat_word "let" ts with
        | Some r => match read_let r with Some (s, r1) => more s r1 | None => None end
        | None =>
          match read_atom ts with
          | Some (a, r) => match eat ";" r with Some r1 => more (SExpr a) r1 | None => Some ([], ts) end
          | None => Some ([], ts)
          end
        end
      end
    end.
  (** [pat => rhs,] or [pat => { .. }]. *)
  Definition read_arm : reader arm := fun ts =>
    match read_pat ts with
    | Some (p, r) =>
      match eat2 "=" ">" r with
      | Some (TGroup Brace body :: r2) =>
        match read_stmts n body with
        | Some (ss, r3) => match read_rhs r3 with Some (x, []) => Some (mkArm p ss x, r2) | _ => None end
        | None => None
        end
      | Some r1 =>
        match read_rhs r1 with
        | Some (x, r2) => match eat "," r2 with Some r3 => Some (mkArm p [] x, r3) | None => None end
        | None => None
        end
      | None => None
      end
    | None => None
    end.
  (** Nothing, or [unsafe { .. }]. *)
  Definition read_block (ts : list ttree) : option body :=
    match ts with
    | [] => Some (BTail [] None)
    | [TIdent u; TGroup Brace inner] =>
      if ident_is u "unsafe" then
        match read_stmts n inner with
        | Some (ss, []) => Some (BTail ss None)
        | Some (ss, r) =>
          match eat_word "match" r with
          | Some r1 =>
            match read_atom r1 with
            | Some (a, [TGroup Brace arms]) =>
              match read_all read_arm n arms with Some l => Some (BMatch ss a l) | None => None end
            | _ => None
            end
          | None => match read_rhs r with Some (x, []) => Some (BTail ss (Some x)) | _ => None end
          end
        | None => None
        end
      else None
    | _ => None
    end.
  (** [let _ = &this.f;] *)
  Definition read_member : reader (ident + string) := fun ts =>
    match ts with
    | TIdent l :: TIdent u :: TPunct e _ :: TPunct a _ :: TIdent t :: TPunct d _ :: f :: TPunct s _ :: r =>
      if ident_is l "let" && ident_is u "_" && Ascii.eqb e "=" && Ascii.eqb a "&" && ident_is t "this" &&
         Ascii.eqb d "." && Ascii.eqb s ";"
      then
        match f with
        | TIdent i => if name_ok i then Some (inl i, r) else None
        | TLit x => Some (inr x, r)
        | _ => None
        end
      else None
    | _ => None
    end.

  (** ** Functions *)
  Definition read_arg : reader rarg := fun ts =>
    match ts with
    | TPunct c false :: TIdent m :: TIdent s :: r =>
      if Ascii.eqb c "&" && ident_is m "mut" && ident_is s "self" then Some (RSelfRefMut, r) else None
    | TIdent i :: r =>
      match eat ":" r with
      | Some r1 =>
        match rt r1 with
        | Some (t, r2) =>
          if ident_is i "self" then Some (RSelfTyped t, r2)
          else if name_ok i then Some (RArg i t, r2) else None
        | None => None
        end
      | None => None
      end
    | _ => None
    end.
  Definition read_lts (ts : list ttree) : option (list string * list ttree) :=
    match eat "<" ts with Some r => list_to read_lt n r | None => Some ([], ts) end.
  Definition read_ret (ts : list ttree) : option (option ty * list ttree) :=
    match eat2 "-" ">" ts with
    | Some r => match rt r with Some (t, r') => Some (Some t, r') | None => None end
    | None => Some (None, ts)
    end.
  Definition read_method : reader rmethod := fun ts =>
    match read_attrs ts with
    | None => None
    | Some (as_, r0) =>
    match read_vis r0 with
    | Some (v, r1) =>
      let '(u, r2) := maybe (eat_word "unsafe") r1 in
      match eat_word "fn" r2 with
      | Some r3 =>
        match read_name r3 with
        | Some (i, r4) =>
          match read_lts r4 with
          | Some (lts, TGroup Paren args :: r5) =>
            match list_in read_arg n args, read_ret r5 with
            | Some (l, _), Some (o, TGroup Brace block :: r6) =>
              match read_block block with Some b => Some (mkRMethod as_ v u i lts l o b, r6) | None => None end
            | _, _ => None
            end
          | _ => None
          end
        | None => None
        end
      | None => None
      end
    | None => None
    end
    end.

  (** ** Items *)
  Definition read_struct (v : vis) (ts : list ttree) : option (ritem * list ttree) :=
    match read_name ts with
    | Some (i, r) =>
      match read_params r with
      | Some (ps, TGroup Paren body :: r1) =>
        match list_in read_unnamed n body, read_where r1 with
        | Some (l, _), Some (ws, r2) =>
          match eat ";" r2 with Some r3 => Some (SeenStruct v i (generics_from ps ws) (FUnnamed l), r3) | None => None end
        | _, _ => None
        end
      | Some (ps, r1) =>
        match read_where r1 with
        | Some (ws, TGroup Brace body :: r2) =>
          match list_in read_named n body with
          | Some (l, _) => Some (SeenStruct v i (generics_from ps ws) (FNamed l), r2)
          | None => None
          end
        | Some (ws, r2) =>
          match eat ";" r2 with Some r3 => Some (SeenStruct v i (generics_from ps ws) FUnit, r3) | None => None end
        | None => None
        end
      | None => None
      end
    | None => None
    end.
  Definition read_enum (v : vis) (ts : list ttree) : option (ritem * list ttree) :=
    match read_name ts with
    | Some (i, r) =>
      match read_params r with
      | Some (ps, r1) =>
        match read_where r1 with
        | Some (ws, TGroup Brace body :: r2) =>
          match list_in read_variant n body with
          | Some (l, _) => Some (SeenEnum v i (generics_from ps ws) l, r2)
          | None => None
          end
        | _ => None
        end
      | None => None
      end
    | None => None
    end.
  (** [impl<..> Trait for T where .. { .. }] or [impl<..> T where .. { .. }]. *)
  Definition read_impl (u : bool) (ts : list ttree) : option (ritem * list ttree) :=
    match read_params ts with
    | Some (ps, r) =>
      match rt r with
      | Some (t, r1) =>
        match
          match eat_word "for" r1, t with
          | Some r2, TyPath None p => match rt r2 with Some (t', r3) => Some (Some p, t', r3) | None => None end
          | Some _, _ => None
          | None, _ => Some (None, t, r1)
          end
        with
        | Some (tr, t', r2) =>
          match read_where r2 with
          | Some (ws, TGroup Brace body :: r3) =>
            match read_all read_method n body with
            | Some ms => Some (SeenImpl u (generics_from ps ws) tr t' ms, r3)
            | None => None
            end
          | _ => None
          end
        | None => None
        end
      | None => None
      end
    | None => None
    end.
  Definition read_trait (ts : list ttree) : option (ritem * list ttree) :=
    match read_name ts with
    | Some (i, TGroup Brace [] :: r) => Some (SeenTrait i, r)
    | _ => None
    end.
  Definition read_function (ts : list ttree) : option (ritem * list ttree) :=
    match read_name ts with
    | Some (i, r) =>
      match read_params r with
      | Some (ps, TGroup Paren args :: r1) =>
        match list_in read_arg n args, read_where r1 with
        | Some (l, _), Some (ws, TGroup Brace body :: r2) =>
          match read_all read_member n body with Some fs => Some (SeenFn i (generics_from ps ws) l fs, r2) | None => None end
        | _, _ => None
        end
      | _ => None
      end
    | None => None
    end.
  Definition read_extern (ts : list ttree) : option (ritem * list ttree) :=
    match eat_word "crate" ts with
    | Some r =>
      match read_name r with
      | Some (a, r1) =>
        match eat_word "as" r1 with
        | Some r2 =>
          match read_name r2 with
          | Some (b, r3) => match eat ";" r3 with Some r4 => Some (SeenExtern a b, r4) | None => None end
          | None => None
          end
        | None => None
        end
      | None => None
      end
    | None => None
    end.
  Definition read_kind (v : vis) (w : ident) (r : list ttree) : option (ritem * list ttree) :=
    if ident_is w "struct" then read_struct v r
    else if ident_is w "enum" then read_enum v r
    else
      match v with
      | VInherited =>
        if ident_is w "impl" then read_impl false r
        else if ident_is w "unsafe" then
          match eat_word "impl" r with Some r' => read_impl true r' | None => None end
        else if ident_is w "trait" then read_trait r
        else if ident_is w "fn" then read_function r
        else if ident_is w "extern" then read_extern r
        else None
      | _ => None
      end.
  Definition read_item : reader (list rattr * ritem) := fun ts =>
    match read_attrs ts with
    | None => None
    | Some (as_, r0) =>
      match read_vis r0 with
      | Some (v, TIdent w :: r) => match read_kind v w r with Some (x, r') => Some ((as_, x), r') | None => None end
      | _ => None
      end
    end.

  (** ** The output *)
  (** [const _: () = { .. };], which the attributes come before. *)
  Definition read_const (ts : list ttree) : option (list rattr * list ttree) :=
    match read_attrs ts with
    | None => None
    | Some (as_, r) =>
    match eat_word "const" r with
    | Some (TIdent u :: TPunct c _ :: TGroup Paren [] :: TPunct e _ :: TGroup Brace body :: TPunct s _ :: []) =>
      if ident_is u "_" && Ascii.eqb c ":" && Ascii.eqb e "=" && Ascii.eqb s ";" then Some (as_, body) else None
    | _ => None
    end
    end.
  Fixpoint read_output (k : nat) (ts : list ttree) : option routput :=
    match read_const ts with
    | Some (as_, body) => match read_all read_item n body with Some l => Some (mkROutput [] as_ l) | None => None end
    | None =>
      match k with
      | 0 => None
      | S k =>
        match read_item ts with
        | Some (x, r) =>
          match read_output k r with
          | Some o => Some (mkROutput (x :: ro_outer o) (ro_attrs o) (ro_inner o))
          | None => None
          end
        | None => None
        end
      end
    end.
End Items.

(** The tokens of the output are read, by a reader with enough fuel. *)
Definition gives_output (ts : list ttree) (o : routput) : Prop :=
  exists n, forall m, n <= m -> read_output m m ts = Some o.

(** ** Items that a source text can contain *)
Definition source_opt {A} (f : A -> bool) (o : option A) : bool := match o with Some x => f x | None => true end.
Definition source_vis (v : vis) : bool :=
  match v with
  | VInherited | VPub => true
  | VRestricted true p => some_in p && forallb path_word p
  | VRestricted false [i] => place i
  | VRestricted false _ => false
  end.
Definition source_param (p : gparam) : bool :=
  match p with
  | PLt lt bs => quoted lt && forallb quoted bs
  | PTy i bs d => name_ok i && forallb source_bound bs && source_opt source_ty d
  | PConst i t d => name_ok i && source_ty t && source_opt source_expr d
  end.
(** [for<'a> fn(..): B] is read as a predicate for all ['a]. *)
Definition binder_first (t : ty) : bool := match t with TyFn (_ :: _) _ _ => true | _ => false end.
Definition source_wpred (w : wpred) : bool :=
  match w with
  | WLt lt bs => quoted lt && forallb quoted bs
  | WTy lts t bs =>
    forallb quoted lts && source_ty t && forallb source_bound bs && negb (negb (some_in lts) && binder_first t)
  end.
Definition source_generics (g : generics) : bool :=
  forallb source_param (g_params g) && source_opt (forallb source_wpred) (g_where g).
(** [pub (crate)] is a visibility. *)
Definition like_vis (t : ty) : bool :=
  match t with TyParen (TyPath None (Path false [Seg i GNone])) => place i | _ => false end.
Definition is_vpub (v : vis) : bool := match v with VPub => true | _ => false end.
Definition source_field (named : bool) (f : field) : bool :=
  source_vis (f_vis f) && source_ty (f_ty f) &&
  match f_ident f with
  | Some i => named && name_ok i
  | None => negb named && negb (is_vpub (f_vis f) && like_vis (f_ty f))
  end.
Definition source_fields (fs : fields) : bool :=
  match fs with
  | FNamed l => forallb (source_field true) l
  | FUnnamed l => forallb (source_field false) l
  | FUnit => true
  end.
Definition source_item (it : item) : bool :=
  match it with
  | ItStruct s =>
    source_vis (s_vis s) && name_ok (s_ident s) && source_generics (s_generics s) && source_fields (s_fields s)
  | ItEnum e =>
    source_vis (e_vis e) && name_ok (e_ident e) && source_generics (e_generics e) &&
    forallb (fun v => name_ok (v_ident v) && source_fields (v_fields v)) (e_variants e)
  | ItOther => true
  end.
(** No visibility is written [pub(self)]. *)
Definition pub_self (v : vis) : bool :=
  match v with VRestricted false [i] => ident_is i "self" | _ => false end.
Definition without_pub_self (it : item) : bool :=
  let fields_ok fs := forallb (fun f => negb (pub_self (f_vis f))) (fields_list fs) in
  match it with
  | ItStruct s => negb (pub_self (s_vis s)) && fields_ok (s_fields s)
  | ItEnum e => negb (pub_self (e_vis e)) && forallb (fun v => fields_ok (v_fields v)) (e_variants e)
  | ItOther => true
  end.
