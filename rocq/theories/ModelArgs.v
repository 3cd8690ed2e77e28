(** Model of /repo/pin-project-internal/src/pin_project/args.rs: the parser for
    the arguments of [#[pin_project(..)]]. *)
From Coq Require Import String Ascii List Bool Arith.
From Verif Require Import Base Syntax.
Import ListNotations.
Open Scope string_scope.
Open Scope list_scope.

(** ** The [syn] parsing primitives that args.rs uses.
    A [ParseStream] is the list of remaining token trees.  Simplification:
    argument tokens contain no [None]-delimited groups (those only arise from
    [$x:ty]-like macro fragments, and [syn] would look through them). *)

(** Words that [syn::Ident::parse] does not accept as identifiers
    ([syn::ident::accept_as_ident]). *)
Definition reserved : list string :=
  [ "_"; "abstract"; "as"; "async"; "await"; "become"; "box"; "break"; "const";
    "continue"; "crate"; "do"; "dyn"; "else"; "enum"; "extern"; "false"; "final";
    "fn"; "for"; "if"; "impl"; "in"; "let"; "loop"; "macro"; "match"; "mod";
    "move"; "mut"; "override"; "priv"; "pub"; "ref"; "return"; "Self"; "self";
    "static"; "struct"; "super"; "trait"; "true"; "try"; "type"; "typeof";
    "unsafe"; "unsized"; "use"; "virtual"; "where"; "while"; "yield" ].
Definition accept_as_ident (i : ident) : bool :=
  raw i || negb (existsb (String.eqb (name i)) reserved).

(** [input.parse::<Ident>()?]. *)
Definition parse_ident (ts : list ttree) : res (ident * list ttree) :=
  match ts with
  | TIdent i :: r => if accept_as_ident i then Ok (i, r) else Err "expected identifier"
  | _ => Err "expected identifier"
  end.

(** [input.peek(Token![c])] and [input.parse::<Token![c]>()?] for a
    one-character punctuation; the spacing is not looked at. *)
Definition peek_punct (c : ascii) (ts : list ttree) : bool :=
  match ts with
  | TPunct c' _ :: _ => Ascii.eqb c c'
  | _ => false
  end.
Definition parse_punct (c : ascii) (ts : list ttree) : res (list ttree) :=
  match ts with
  | TPunct c' _ :: r =>
      if Ascii.eqb c c' then Ok r else Err ("expected `" ++ String c "`")
  | _ => Err ("expected `" ++ String c "`")
  end.

(** [input.parse::<kw::Unpin>()?] (args.rs:76-78). *)
Definition parse_kw (s : string) (ts : list ttree) : res (list ttree) :=
  match ts with
  | TIdent i :: r => if ident_is i s then Ok r else Err ("expected `" ++ s ++ "`")
  | _ => Err ("expected `" ++ s ++ "`")
  end.

(** ** Results: [Args], [UnpinImpl], [ProjReplace] (args.rs:61-72, 214-250).
    Spans are replaced by presence. *)
Inductive unpin_impl : Type := UDefault | UUnsafe | UNegative.
Inductive proj_replace : Type := PRNone | PRUnnamed | PRNamed (i : ident).

(** [ProjReplace::span(..).is_some()] (args.rs:240-245). *)
Definition pr_span (p : proj_replace) : bool :=
  match p with PRNone => false | PRUnnamed | PRNamed _ => true end.
(** [ProjReplace::ident] (args.rs:247-249). *)
Definition pr_ident (p : proj_replace) : option ident :=
  match p with PRNamed i => Some i | _ => None end.

Record args : Type := mkArgs {
  ar_pinned_drop : bool;
  ar_unpin : unpin_impl;
  ar_project : option ident;
  ar_project_ref : option ident;
  ar_project_replace : proj_replace
}.

(** The mutable locals of [Args::parse] (args.rs:102-108). *)
Record astate : Type := mkAState {
  st_pinned_drop : bool;
  st_unsafe_unpin : bool;
  st_not_unpin : bool;
  st_project : option ident;
  st_project_ref : option ident;
  st_replace_value : option ident;
  st_replace_span : bool
}.
Definition astate0 : astate := mkAState false false false None None None false.

(** [parse_value] (args.rs:81-100).  The duplicate check comes after the value
    has been parsed. *)
Definition parse_value (nm : string) (has_prev : bool) (ts : list ttree)
  : res (ident * list ttree) :=
  match ts with
  | [] => Err ("expected `" ++ nm ++ " = <identifier>`, found `" ++ nm ++ "`")
  | _ =>
    do ts1 <- parse_punct "=" ts;
    match ts1 with
    | [] => Err ("expected `" ++ nm ++ " = <identifier>`, found `" ++ nm ++ " =`")
    | _ =>
      do '(value, ts2) <- parse_ident ts1;
      if has_prev then Err ("duplicate `" ++ nm ++ "` argument")
      else Ok (value, ts2)
    end
  end.

(** One argument: the body of the loop up to the separator (args.rs:111-160). *)
Definition parse_arg (st : astate) (ts : list ttree) : res (astate * list ttree) :=
  let 'mkAState pd uu nu pr prf rv rs := st in
  if peek_punct "!" ts then
    do ts1 <- parse_punct "!" ts;
    match ts1 with
    | [] => Err "expected `!Unpin`, found `!`"
    | _ =>
      do ts2 <- parse_kw "Unpin" ts1;
      if nu then Err "duplicate `!Unpin` argument"
      else Ok (mkAState pd uu true pr prf rv rs, ts2)
    end
  else
    do '(token, ts1) <- parse_ident ts;
    let s := ident_str token in
    if String.eqb s "PinnedDrop" then
      if pd then Err "duplicate `PinnedDrop` argument"
      else Ok (mkAState true uu nu pr prf rv rs, ts1)
    else if String.eqb s "UnsafeUnpin" then
      if uu then Err "duplicate `UnsafeUnpin` argument"
      else Ok (mkAState pd true nu pr prf rv rs, ts1)
    else if String.eqb s "project" then
      do '(v, ts2) <- parse_value "project" (is_some pr) ts1;
      Ok (mkAState pd uu nu (Some v) prf rv rs, ts2)
    else if String.eqb s "project_ref" then
      do '(v, ts2) <- parse_value "project_ref" (is_some prf) ts1;
      Ok (mkAState pd uu nu pr (Some v) rv rs, ts2)
    else if String.eqb s "project_replace" then
      if peek_punct "=" ts1 then
        do '(v, ts2) <- parse_value "project_replace" rs ts1;
        Ok (mkAState pd uu nu pr prf (Some v) true, ts2)
      else if rs then Err "duplicate `project_replace` argument"
      else Ok (mkAState pd uu nu pr prf rv true, ts1)
    else if String.eqb s "Replace" then
      Err "`Replace` argument was removed, use `project_replace` argument instead"
    else Err ("unexpected argument: " ++ s).

(** The loop (args.rs:110-166).  [fuel] bounds the number of iterations; every
    iteration consumes a token, so [S (length ts)] never runs out
    (lemma [args_loop_fuel] in ProofsArgs.v). *)
Fixpoint args_loop (fuel : nat) (st : astate) (ts : list ttree) : res astate :=
  match fuel with
  | 0 => Panic "fuel"
  | S n =>
    match ts with
    | [] => Ok st
    | _ =>
      do '(st1, ts1) <- parse_arg st ts;
      match ts1 with
      | [] => Ok st1
      | _ => do ts2 <- parse_punct "," ts1; args_loop n st1 ts2
      end
    end
  end.

(** [Option<Ident> == Option<Ident>]. *)
Definition opt_ident_eqb (a b : option ident) : bool :=
  match a, b with
  | None, None => true
  | Some i, Some j => ident_eqb i j
  | _, _ => false
  end.

(** The checks after the loop (args.rs:168-210). *)
Definition args_finish (st : astate) : res args :=
  let 'mkAState pd uu nu pr prf rv rs := st in
  do _ <-
    (if is_some pr || is_some prf then
       if opt_ident_eqb pr prf then
         match prf with
         | Some i => Err ("name `" ++ ident_str i ++ "` is already specified by `project` argument")
         | None => Panic "unwrap"
         end
       else
         match rv with
         | Some i =>
           if opt_ident_eqb pr rv then
             Err ("name `" ++ ident_str i ++ "` is already specified by `project` argument")
           else if opt_ident_eqb prf rv then
             Err ("name `" ++ ident_str i ++ "` is already specified by `project_ref` argument")
           else Ok tt
         | None => Ok tt
         end
     else Ok tt);
  if pd && rs then
    Err "arguments `PinnedDrop` and `project_replace` are mutually exclusive"
  else
    let project_replace :=
      match rs, rv with
      | false, _ => PRNone
      | true, Some i => PRNamed i
      | true, None => PRUnnamed
      end in
    do u <-
      match uu, nu with
      | false, false => Ok UDefault
      | true, false => Ok UUnsafe
      | false, true => Ok UNegative
      | true, true => Err "arguments `UnsafeUnpin` and `!Unpin` are mutually exclusive"
      end;
    Ok (mkArgs pd u pr prf project_replace).

(** [impl Parse for Args] (args.rs:74-212). *)
Definition args_parse (ts : list ttree) : res args :=
  do st <- args_loop (S (length ts)) astate0 ts;
  args_finish st.

(** ** [parse_args] (args.rs:14-59) *)

(** [attrs.find(ident)] (utils.rs:135-137). *)
Definition attrs_find (l : list attr) (s : string) : option attr :=
  find (fun a => attr_is a s) l.

(** [attr.meta.require_list()?.tokens]. *)
Definition require_list (a : attr) : res (list ttree) :=
  match a_meta a with
  | MList _ ts => Ok ts
  | _ => Err "expected attribute arguments in parentheses"
  end.

(** [syn::parse2::<Input>(tokens)?.0] (args.rs:16-29): the argument tokens if
    [tokens] is exactly [__private(<args>)]; [None] when the leading part does
    not have that form; an error when tokens are left over ([parse2] insists on
    consuming everything). *)
Definition parse_input (ts : list ttree) : res (option (list ttree)) :=
  match ts with
  | TIdent i :: r =>
    if accept_as_ident i then
      if ident_is i "__private" then
        match r with
        | [TGroup Paren l] => Ok (Some l)
        | TGroup Paren _ :: _ => Err "unexpected token"
        | [] => Ok None
        | _ => Err "unexpected token"
        end
      else match r with [] => Ok None | _ => Err "unexpected token" end
    else Err "unexpected token"
  | [] => Ok None
  | _ => Err "unexpected token"
  end.

Definition parse_args (attrs : list attr) : res args :=
  match attrs_find attrs "pin_project" with
  | Some _ => Err "duplicate #[pin_project] attribute"
  | None =>
    match filter (fun a => attr_is a "pin") attrs with
    | [] => Err "#[pin_project] attribute has been removed"
    | a :: more =>
      do ts <- require_list a;
      do prev <- parse_input ts;
      match more with
      | a2 :: _ =>
        do ts2 <- require_list a2;
        do _ <- parse_input ts2;
        Err "duplicate #[pin] attribute"
      | [] =>
        match prev with
        | Some l => args_parse l
        | None => Panic "called `Option::unwrap()` on a `None` value"
        end
      end
    end
  end.
