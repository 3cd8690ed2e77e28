(** A reader for Rust's types and for the expressions that occur in them, over
    token trees (the reference: Types, Paths, Trait and lifetime bounds).  It is
    what a macro does that takes a type ([$t:ty]). *)
From Coq Require Import String Ascii List Bool Arith.
From Verif Require Import Base Syntax SpecArgs.
Import ListNotations.
Open Scope string_scope.
Open Scope list_scope.

Definition reader (A : Type) : Type := list ttree -> option (A * list ttree).

(** ** Single tokens *)
Definition eat (c : ascii) (ts : list ttree) : option (list ttree) :=
  match ts with TPunct c' _ :: r => if Ascii.eqb c' c then Some r else None | _ => None end.
(** Punctuation of two characters, such as [::]. *)
Definition eat2 (c d : ascii) (ts : list ttree) : option (list ttree) :=
  match ts with
  | TPunct c' true :: TPunct d' _ :: r => if Ascii.eqb c' c && Ascii.eqb d' d then Some r else None
  | _ => None
  end.
Definition eat_word (s : string) (ts : list ttree) : option (list ttree) :=
  match ts with TIdent i :: r => if ident_is i s then Some r else None | _ => None end.
Definition maybe (f : list ttree -> option (list ttree)) (ts : list ttree) : bool * list ttree :=
  match f ts with Some r => (true, r) | None => (false, ts) end.
Definition read_lt : reader string := fun ts =>
  match ts with
  | TPunct c true :: TIdent i :: r => if Ascii.eqb c "'" && negb (raw i) then Some (String "'" (name i), r) else None
  | _ => None
  end.
(** A word of a path: an identifier, or one of the words that stand for a place. *)
Definition path_word (i : ident) : bool :=
  raw i || negb (existsb (String.eqb (name i)) (strict_keywords ++ reserved_keywords ++ ["_"])) ||
  existsb (String.eqb (name i)) ["self"; "Self"; "super"; "crate"].

(** ** Lists *)
Section Lists.
  Context {A : Type} (f : reader A).
  (** Separated by commas, up to the end; and whether a comma was last. *)
  Fixpoint list_in (n : nat) (ts : list ttree) : option (list A * bool) :=
    match ts, n with
    | [], _ => Some ([], false)
    | _, 0 => None
    | _, S n =>
      match f ts with
      | Some (x, []) => Some ([x], false)
      | Some (x, r) =>
        match eat "," r with
        | Some [] => Some ([x], true)
        | Some r' => match list_in n r' with Some (l, b) => Some (x :: l, b) | None => None end
        | None => None
        end
      | None => None
      end
    end.
  (** Separated by commas, up to [>]. *)
  Fixpoint list_to (n : nat) (ts : list ttree) : option (list A * list ttree) :=
    match eat ">" ts, n with
    | Some r, _ => Some ([], r)
    | None, 0 => None
    | None, S n =>
      match f ts with
      | Some (x, r) =>
        match eat "," r with
        | Some r' => match list_to n r' with Some (l, r2) => Some (x :: l, r2) | None => None end
        | None => match eat ">" r with Some r' => Some ([x], r') | None => None end
        end
      | None => None
      end
    end.
  (** Separated by what [sep] takes, as long as there is a separator. *)
  Fixpoint chain (sep : list ttree -> option (list ttree)) (n : nat) (ts : list ttree) : option (list A * list ttree) :=
    match n with
    | 0 => None
    | S n =>
      match f ts with
      | Some (x, r) =>
        match sep r with
        | Some r' => match chain sep n r' with Some (l, r2) => Some (x :: l, r2) | None => None end
        | None => Some ([x], r)
        end
      | None => None
      end
    end.
End Lists.

(** [m::n!(..)]: the words of a plain path. *)
Fixpoint plain_words (l : list seg) : option (list ident) :=
  match l with
  | [] => Some []
  | Seg i GNone :: r => match plain_words r with Some w => Some (i :: w) | None => None end
  | _ => None
  end.
Definition macro_after (p : path) (ts : list ttree) : option (list ident * list ttree * list ttree) :=
  match p, ts with
  | Path false l, TPunct c _ :: TGroup Paren body :: r =>
    if Ascii.eqb c "!" then match plain_words l with Some w => Some (w, body, r) | None => None end else None
  | _, _ => None
  end.

(** ** Paths, bounds, types and expressions, given a reader for the types (with
    [true]: [dyn A + B] is allowed) and expressions inside *)
Section Body.
  Variables (n : nat) (rt : bool -> reader ty) (re : reader expr).

  Definition read_out (ts : list ttree) : option (option ty * list ttree) :=
    match eat2 "-" ">" ts with
    | Some r => match rt false r with Some (t, r') => Some (Some t, r') | None => None end
    | None => Some (None, ts)
    end.
  Definition read_garg : reader garg := fun ts =>
    match read_lt ts with
    | Some (lt, r) => Some (ALt lt, r)
    | None =>
      match ts with
      | TLit s :: r => Some (AConst (ELit s), r)
      | _ =>
        match ts with
        | TIdent i :: TPunct c _ :: r =>
          if Ascii.eqb c "=" then match rt true r with Some (t, r') => Some (AAssoc i t, r') | None => None end
          else match rt true ts with Some (t, r') => Some (ATy t, r') | None => None end
        | _ => match rt true ts with Some (t, r') => Some (ATy t, r') | None => None end
        end
      end
    end.
  (** [value]: in an expression, arguments are written [::<..>] only. *)
  Definition read_args (value : bool) : reader gargs := fun ts =>
    match eat2 ":" ":" ts with
    | Some r =>
      match eat "<" r with
      | Some r' => match list_to read_garg n r' with Some (l, r2) => Some (GAngle true l, r2) | None => None end
      | None => Some (GNone, ts)
      end
    | None =>
      if value then Some (GNone, ts)
      else
      match eat "<" ts with
      | Some r' => match list_to read_garg n r' with Some (l, r2) => Some (GAngle false l, r2) | None => None end
      | None =>
        match ts with
        | TGroup Paren body :: r =>
          match list_in (rt true) n body, read_out r with
          | Some (l, _), Some (o, r') => Some (GParen l o, r')
          | _, _ => None
          end
        | _ => Some (GNone, ts)
        end
      end
    end.
  Definition read_seg (value : bool) : reader seg := fun ts =>
    match ts with
    | TIdent i :: r =>
      if path_word i then match read_args value r with Some (a, r') => Some (Seg i a, r') | None => None end else None
    | _ => None
    end.
  Definition read_segs (value : bool) : reader (list seg) := chain (read_seg value) (eat2 ":" ":") n.
  Definition read_path (value : bool) : reader path := fun ts =>
    let '(lead, r) := maybe (eat2 ":" ":") ts in
    match read_segs value r with Some (l, r') => Some (Path lead l, r') | None => None end.
  (** [<T>::a::b], [<T as a::b>::c], or a path. *)
  Definition read_qpath (value : bool) : reader (option (ty * nat) * path) := fun ts =>
    match eat "<" ts with
    | None => match read_path value ts with Some (p, r) => Some ((None, p), r) | None => None end
    | Some r =>
      match rt true r with
      | None => None
      | Some (t, r1) =>
        match eat ">" r1 with
        | Some r2 =>
          match eat2 ":" ":" r2 with
          | Some r3 => match read_segs value r3 with Some (l, r4) => Some ((Some (t, 0), Path true l), r4) | None => None end
          | None => None
          end
        | None =>
          match eat_word "as" r1 with
          | None => None
          | Some r2 =>
            match read_path false r2 with
            | None => None
            | Some (Path lead l, r3) =>
              match eat ">" r3 with
              | None => None
              | Some r4 =>
                match eat2 ":" ":" r4 with
                | None => None
                | Some r5 =>
                  match read_segs value r5 with
                  | Some (l', r6) => Some ((Some (t, length l), Path lead (l ++ l')), r6)
                  | None => None
                  end
                end
              end
            end
          end
        end
      end
    end.
  Definition read_for (ts : list ttree) : option (list string * list ttree) :=
    match eat_word "for" ts with
    | None => Some ([], ts)
    | Some r => match eat "<" r with Some r' => list_to read_lt n r' | None => None end
    end.
  Definition read_bound : reader bound := fun ts =>
    match read_lt ts with
    | Some (lt, r) => Some (BLt lt, r)
    | None =>
      let '(q, r) := maybe (eat "?") ts in
      match read_for r with
      | None => None
      | Some (lts, r1) => match read_path false r1 with Some (p, r2) => Some (BTrait q lts p, r2) | None => None end
      end
    end.

  Definition read_plain (ts : list ttree) : option (ty * list ttree) :=
    match read_qpath false ts with
    | None => None
    | Some ((None, p), r) =>
      match macro_after p r with
      | Some (w, body, r') => Some (TyMacro w body, r')
      | None => Some (TyPath None p, r)
      end
    | Some ((q, p), r) => Some (TyPath q p, r)
    end.
  Definition read_fn (ts : list ttree) : option (ty * list ttree) :=
    match read_for ts with
    | None => None
    | Some (lts, r) =>
      match eat_word "fn" r with
      | Some (TGroup Paren body :: r') =>
        match list_in (rt true) n body, read_out r' with
        | Some (l, _), Some (o, r2) => Some (TyFn lts l o, r2)
        | _, _ => None
        end
      | _ => None
      end
    end.
  Definition ty_body (plus : bool) : reader ty := fun ts =>
    match ts with
    | TGroup Paren body :: r =>
      match list_in (rt true) n body with
      | Some ([t], false) => Some (TyParen t, r)
      | Some (l, _) => Some (TyTuple l, r)
      | None => None
      end
    | TGroup Bracket body :: r =>
      match rt true body with
      | Some (t, []) => Some (TySlice t, r)
      | Some (t, r') =>
        match eat ";" r' with
        | Some r2 => match re r2 with Some (e, []) => Some (TyArray t e, r) | _ => None end
        | None => None
        end
      | None => None
      end
    | TPunct c _ :: r =>
      if Ascii.eqb c "&" then
        let '(lt, r1) := match read_lt r with Some (lt, r1) => (Some lt, r1) | None => (None, r) end in
        let '(m, r2) := maybe (eat_word "mut") r1 in
        match rt false r2 with Some (t, r3) => Some (TyRef lt m t, r3) | None => None end
      else if Ascii.eqb c "*" then
        match eat_word "mut" r, eat_word "const" r with
        | Some r1, _ => match rt false r1 with Some (t, r2) => Some (TyPtr true t, r2) | None => None end
        | None, Some r1 => match rt false r1 with Some (t, r2) => Some (TyPtr false t, r2) | None => None end
        | None, None => None
        end
      else if Ascii.eqb c "!" then Some (TyNever, r)
      else read_plain ts
    | TIdent i :: r =>
      if ident_is i "dyn" then
        if plus then match chain read_bound (eat "+") n r with Some (l, r') => Some (TyDyn l, r') | None => None end
        else match read_bound r with Some (b, r') => Some (TyDyn [b], r') | None => None end
      else if ident_is i "for" || ident_is i "fn" then read_fn ts
      else read_plain ts
    | _ => None
    end.

  Fixpoint calls (k : nat) (e : expr) (ts : list ttree) : option (expr * list ttree) :=
    match ts, k with
    | TGroup Paren body :: r, S k =>
      match list_in re n body with Some (l, _) => calls k (ECall e l) r | None => None end
    | TGroup Paren _ :: _, 0 => None
    | _, _ => Some (e, ts)
    end.
  (** An expression without the calls behind it. *)
  Definition read_prim : reader expr := fun ts =>
    match ts with
    | TLit s :: r => Some (ELit s, r)
    | _ =>
      match read_qpath true ts with
      | None => None
      | Some ((None, p), r) =>
        match macro_after p r with
        | Some (w, body, r') => Some (EMacro w body, r')
        | None => Some (EPath None p, r)
        end
      | Some ((q, p), r) => Some (EPath q p, r)
      end
    end.
  Definition expr_body : reader expr := fun ts =>
    match read_prim ts with Some (e, r) => calls n e r | None => None end.
End Body.

(** [read n] reads everything that is nested less than [n] deep and whose lists
    have at most [n] elements. *)
Fixpoint read (n : nat) : (bool -> reader ty) * reader expr :=
  match n with
  | 0 => (fun _ _ => None, fun _ => None)
  | S n => let r := read n in (ty_body n (fst r) (snd r), expr_body n (fst r) (snd r))
  end.
Definition read_ty (n : nat) (plus : bool) : reader ty := fst (read n) plus.
Definition read_expr (n : nat) : reader expr := snd (read n).

(** ** Types that a source text can contain: paths are not empty and made of
    words, lifetimes start with a quote, [dyn] has a bound, const arguments are
    literals, qualified paths are complete, and no segment follows [(..) -> t]
    (it would be read as a segment of [t]). *)
Definition quoted (lt : string) : bool :=
  match lt with String c _ => Ascii.eqb c "'" | EmptyString => false end.
Definition some_in {A} (l : list A) : bool := match l with [] => false | _ => true end.
Definition literal (e : expr) : bool := match e with ELit _ => true | _ => false end.
Definition arrow (s : seg) : bool := match s with Seg _ (GParen _ (Some _)) => true | _ => false end.
Definition arrows_last (l : list seg) : bool := forallb (fun s => negb (arrow s)) (removelast l).
Definition complete (k : nat) (lead : bool) (l : list seg) : bool :=
  Nat.ltb k (length l) && match k with 0 => lead | _ => true end &&
  arrows_last (firstn k l) && arrows_last (skipn k l).
Fixpoint source_ty (t : ty) : bool :=
  match t with
  | TyPath None p => source_path p
  | TyPath (Some (t', k)) (Path lead segs) =>
    source_ty t' && forallb source_seg segs && complete k lead segs
  | TyRef lt _ t' => match lt with Some lt => quoted lt | None => true end && source_ty t'
  | TyPtr _ t' | TySlice t' | TyParen t' => source_ty t'
  | TyTuple l => forallb source_ty l
  | TyArray t' e => source_ty t' && source_expr e
  | TyFn lts l o => forallb quoted lts && forallb source_ty l && match o with Some t' => source_ty t' | None => true end
  | TyDyn bs => some_in bs && forallb source_bound bs
  | TyNever => true
  | TyMacro m _ => some_in m && forallb path_word m
  end
with source_path (p : path) : bool :=
  match p with Path _ segs => some_in segs && forallb source_seg segs && arrows_last segs end
with source_seg (s : seg) : bool :=
  match s with Seg i a => path_word i && source_gargs a end
with source_gargs (a : gargs) : bool :=
  match a with
  | GNone => true
  | GAngle _ l => forallb source_garg l
  | GParen l o => forallb source_ty l && match o with Some t' => source_ty t' | None => true end
  end
with source_garg (a : garg) : bool :=
  match a with
  | ALt lt => quoted lt
  | ATy t | AAssoc _ t => source_ty t
  | AConst e => literal e
  end
with source_bound (b : bound) : bool :=
  match b with
  | BLt lt => quoted lt
  | BTrait _ lts p => forallb quoted lts && source_path p
  end
with source_expr (e : expr) : bool :=
  match e with
  | EPath None p => source_path p
  | EPath (Some (t', k)) (Path lead segs) =>
    source_ty t' && forallb source_seg segs && complete k lead segs
  | ELit _ => true
  | ECall f l => source_expr f && forallb source_expr l
  | EMacro m _ => some_in m && forallb path_word m
  end.

(** A type goes on if one of these follows: [::], [<], [!], [->], [(] or [+]. *)
Definition continues (ts : list ttree) : bool :=
  match ts with
  | TPunct c j :: _ => existsb (Ascii.eqb c) ["<"; "!"; "-"; "+"]%char || (Ascii.eqb c ":" && j)
  | TGroup Paren _ :: _ => true
  | _ => false
  end.
(** The stream begins with the word [s]. *)
Definition begins (s : string) (ts : list ttree) : bool :=
  match ts with TIdent i :: _ => ident_is i s | _ => false end.

(** A macro that reads a type (or an expression) gets [x] from the tokens [ts],
    and [rest] is what it reads next. *)
Definition gives_ty (ts : list ttree) (x : ty) (rest : list ttree) : Prop :=
  exists n, forall m, n <= m -> read_ty m true ts = Some (x, rest).
Definition gives_expr (ts : list ttree) (x : expr) (rest : list ttree) : Prop :=
  exists n, forall m, n <= m -> read_expr m ts = Some (x, rest).
