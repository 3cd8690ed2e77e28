(** Model of /repo/pin-project-internal/src/pin_project/attribute.rs, and of the
    configuration stripping that rustc performs between the attribute macro and
    the derive macro. *)
From Coq Require Import String Ascii List Bool.
From Verif Require Import Base Syntax ModelArgs.
Import ListNotations.
Open Scope string_scope.
Open Scope list_scope.

(** ** Items before configuration

    At this stage attributes are still [#[cfg(p)]], [#[cfg_attr(p, ..)]] or
    ordinary.  A configuration predicate is a number; an oracle says which hold.
    Simplification: attributes on generic parameters only decide whether the
    parameter stays ([syn] would print the other ones again). *)
Inductive rattr : Type :=
| RAttr (a : attr)
| RCfg (p : nat)
| RCfgAttr (p : nat) (l : list rattr).

Record raw_field : Type := mkRField {
  rf_attrs : list rattr; rf_vis : vis; rf_ident : option ident; rf_ty : ty }.
Inductive raw_fields : Type :=
| RNamed (l : list raw_field)
| RUnnamed (l : list raw_field)
| RUnit.
Record raw_variant : Type := mkRVariant {
  rv_attrs : list rattr; rv_ident : ident; rv_fields : raw_fields; rv_disc : bool }.

(** Generic parameters with their attributes, and the where clause. *)
Record raw_generics : Type := mkRGenerics {
  rg_params : list (list rattr * gparam); rg_where : option (list wpred) }.

(** What follows the attributes: the part that [Input] keeps as [body] tokens
    (attribute.rs:42-45). *)
Inductive raw_body : Type :=
| RStruct (v : vis) (i : ident) (g : raw_generics) (fs : raw_fields)
| REnum (v : vis) (i : ident) (g : raw_generics) (vs : list raw_variant)
| ROther.
Record raw_item : Type := mkRItem { ri_attrs : list rattr; ri_body : raw_body }.

(** ** The attribute stage *)

(** [attrs.find(s)] on unconfigured attributes; [cfg] and [cfg_attr] have other
    names than the ones looked for. *)
Definition rattrs_find (l : list rattr) (s : string) : bool :=
  existsb (fun r => match r with RAttr a => attr_is a s | _ => false end) l.

(** The two attributes that are added (attribute.rs:30-39). *)
Definition derive_attr : attr :=
  mkAttr false [I "derive"]
    (MList Paren
       [TPunct ":" true; TPunct ":" false; TIdent (I "pin_project");
        TPunct ":" true; TPunct ":" false; TIdent (I "__private");
        TPunct ":" true; TPunct ":" false; TIdent (I "__PinProjectInternalDerive")]).
Definition pin_attr (args : list ttree) : attr :=
  mkAttr false [I "pin"] (MList Paren [TIdent (I "__private"); TGroup Paren args]).

(** [parse_attribute] with [Input::parse] (attribute.rs:27-66).  Parsing of the
    attributes and of the visibility by [syn] is not modelled: the item is given
    as attributes and body. *)
Definition parse_attribute (args : list ttree) (input : raw_item) : res raw_item :=
  match ri_body input with
  | ROther => Err "#[pin_project] attribute may only be used on structs or enums"
  | _ =>
    if rattrs_find (ri_attrs input) "pin" then
      Err "#[pin] attribute may only be used on fields of structs or variants"
    else if rattrs_find (ri_attrs input) "pin_project" then
      Err "duplicate #[pin_project] attribute"
    else
      Ok (mkRItem (ri_attrs input ++ [RAttr derive_attr; RAttr (pin_attr args)])
                  (ri_body input))
  end.

(** ** Configuration (rustc, not pin-project)

    [#[derive]] receives the item fully configured: [cfg_attr] expanded, [cfg]
    evaluated, disabled fields, variants and generic
    parameters removed.  [None]: removed. *)
Section Configure.
  Variable holds : nat -> bool.

  Fixpoint expand_attr (r : rattr) : list attr * bool :=
    match r with
    | RAttr a => ([a], true)
    | RCfg p => ([], holds p)
    | RCfgAttr p l =>
      if holds p then
        (flat_map (fun x => fst (expand_attr x)) l, forallb (fun x => snd (expand_attr x)) l)
      else ([], true)
    end.
  Definition expand_attrs (l : list rattr) : list attr * bool :=
    (flat_map (fun x => fst (expand_attr x)) l, forallb (fun x => snd (expand_attr x)) l).

  Definition strip_field (f : raw_field) : list field :=
    let '(attrs, keep) := expand_attrs (rf_attrs f) in
    if keep then [mkField attrs (rf_vis f) (rf_ident f) (rf_ty f)] else [].
  Definition strip_fields (fs : raw_fields) : fields :=
    match fs with
    | RNamed l => FNamed (flat_map strip_field l)
    | RUnnamed l => FUnnamed (flat_map strip_field l)
    | RUnit => FUnit
    end.
  Definition strip_variant (v : raw_variant) : list variant :=
    let '(attrs, keep) := expand_attrs (rv_attrs v) in
    if keep then [mkVariant attrs (rv_ident v) (strip_fields (rv_fields v)) (rv_disc v)] else [].
  Definition strip_generics (g : raw_generics) : generics :=
    mkGenerics (flat_map (fun p => if snd (expand_attrs (fst p)) then [snd p] else []) (rg_params g)) (rg_where g).
  Definition strip_item (r : raw_item) : option item :=
    let '(attrs, keep) := expand_attrs (ri_attrs r) in
    if keep then
      Some match ri_body r with
           | RStruct v i g fs => ItStruct (mkStruct attrs v i (strip_generics g) (strip_fields fs))
           | REnum v i g vs => ItEnum (mkEnum attrs v i (strip_generics g) (flat_map strip_variant vs))
           | ROther => ItOther
           end
    else None.
End Configure.
