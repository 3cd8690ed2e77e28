(** Vocabulary for the two macro stages and configuration. *)
From Coq Require Import String Ascii List Bool.
From Verif Require Import Base Syntax ModelArgs ModelAttribute SpecArgs SpecDerive.
Import ListNotations.
Open Scope string_scope.
Open Scope list_scope.

Definition item_attrs (it : item) : list attr :=
  match it with ItStruct s => s_attrs s | ItEnum e => e_attrs e | ItOther => [] end.
(** The tokens [::a::b::c]. *)
Definition rooted (l : list string) : list ttree :=
  flat_map (fun s => [TPunct ":" true; TPunct ":" false; TIdent (I s)]) l.
(** Attribute lists without [#[pin]] and [#[pin_project]]. *)
Definition unrelated (l : list attr) : Prop :=
  forall x, In x l -> ~ attr_named x "pin" /\ ~ attr_named x "pin_project".

(** A field or variant with a [#[cfg(p)]] whose predicate does not hold. *)
Definition disabled (holds : nat -> bool) (l : list rattr) : Prop := exists p, In (RCfg p) l /\ holds p = false.
(** Two lists that differ in one place. *)
Inductive at_one {A} (R : A -> A -> Prop) : list A -> list A -> Prop :=
| At_one l1 x y l2 : R x y -> at_one R (l1 ++ x :: l2) (l1 ++ y :: l2).
(** [drops R l l']: [l'] is [l] without one [x] such that [R x]. *)
Inductive drops {A} (R : A -> Prop) : list A -> list A -> Prop :=
| Drops l1 x l2 : R x -> drops R (l1 ++ x :: l2) (l1 ++ l2).
(** Changes to an item: in its list of generic parameters, fields or variants. *)
Record change : Type := mkChange {
  ch_params : list (list rattr * gparam) -> list (list rattr * gparam) -> Prop;
  ch_fields : list raw_field -> list raw_field -> Prop;
  ch_variants : list raw_variant -> list raw_variant -> Prop
}.
Inductive changed_fields (c : change) : raw_fields -> raw_fields -> Prop :=
| CF_named l l' : ch_fields c l l' -> changed_fields c (RNamed l) (RNamed l')
| CF_unnamed l l' : ch_fields c l l' -> changed_fields c (RUnnamed l) (RUnnamed l').
Inductive changed_variant (c : change) : raw_variant -> raw_variant -> Prop :=
| CV at_ i fs fs' d : changed_fields c fs fs' -> changed_variant c (mkRVariant at_ i fs d) (mkRVariant at_ i fs' d).
Inductive changed (c : change) : raw_body -> raw_body -> Prop :=
| Ch_struct_param v i l l' w fs : ch_params c l l' ->
    changed c (RStruct v i (mkRGenerics l w) fs) (RStruct v i (mkRGenerics l' w) fs)
| Ch_field v i g fs fs' : changed_fields c fs fs' -> changed c (RStruct v i g fs) (RStruct v i g fs')
| Ch_enum_param v i l l' w vs : ch_params c l l' ->
    changed c (REnum v i (mkRGenerics l w) vs) (REnum v i (mkRGenerics l' w) vs)
| Ch_variant v i g l l' : ch_variants c l l' -> changed c (REnum v i g l) (REnum v i g l')
| Ch_variant_field v i g l l' : at_one (changed_variant c) l l' -> changed c (REnum v i g l) (REnum v i g l').
(** One disabled field, variant or generic parameter is removed. *)
Definition without (holds : nat -> bool) : raw_body -> raw_body -> Prop := changed {|
  ch_params := drops (fun p => disabled holds (fst p));
  ch_fields := drops (fun f => disabled holds (rf_attrs f));
  ch_variants := drops (fun v => disabled holds (rv_attrs v))
|}.
(** One [#[cfg(p)]] or [#[cfg_attr(p, a, ..)]] is replaced by what it stands for:
    [#[cfg(p)]] by nothing if [p] holds, [cfg_attr] by the attributes [a, ..] if
    [p] holds and else by nothing. *)
Inductive resolved (holds : nat -> bool) : list rattr -> list rattr -> Prop :=
| Re_cfg p l1 l2 : holds p = true -> resolved holds (l1 ++ RCfg p :: l2) (l1 ++ l2)
| Re_on p l l1 l2 : holds p = true -> resolved holds (l1 ++ RCfgAttr p l :: l2) (l1 ++ l ++ l2)
| Re_off p l l1 l2 : holds p = false -> resolved holds (l1 ++ RCfgAttr p l :: l2) (l1 ++ l2).
(** ... on a field, variant or generic parameter. *)
Definition resolved_inside (holds : nat -> bool) : raw_body -> raw_body -> Prop := changed {|
  ch_params := at_one (fun p p' => resolved holds (fst p) (fst p') /\ snd p = snd p');
  ch_fields := at_one (fun f f' => resolved holds (rf_attrs f) (rf_attrs f') /\ f' = mkRField (rf_attrs f') (rf_vis f) (rf_ident f) (rf_ty f));
  ch_variants := at_one (fun v v' => resolved holds (rv_attrs v) (rv_attrs v') /\ v' = mkRVariant (rv_attrs v') (rv_ident v) (rv_fields v) (rv_disc v))
|}.
(** An item in which nothing is left to configure, as it is before the macro:
    with its attributes, but without those that [pin_project] adds. *)
Definition source_fields (fs : fields) : raw_fields :=
  let src f := mkRField (map RAttr (f_attrs f)) (f_vis f) (f_ident f) (f_ty f) in
  match fs with FNamed l => RNamed (map src l) | FUnnamed l => RUnnamed (map src l) | FUnit => RUnit end.
Definition source_generics (g : generics) : raw_generics := mkRGenerics (map (fun p => ([], p)) (g_params g)) (g_where g).
Definition source (it : item) : raw_item :=
  match it with
  | ItStruct s => mkRItem (map RAttr (s_attrs s)) (RStruct (s_vis s) (s_ident s) (source_generics (s_generics s)) (source_fields (s_fields s)))
  | ItEnum e => mkRItem (map RAttr (e_attrs e)) (REnum (e_vis e) (e_ident e) (source_generics (e_generics e))
      (map (fun v => mkRVariant (map RAttr (v_attrs v)) (v_ident v) (source_fields (v_fields v)) (v_disc v)) (e_variants e)))
  | ItOther => mkRItem [] ROther
  end.
(** The item with the two attributes that [#[pin_project(args)]] adds. *)
Definition with_attrs (it : item) (l : list attr) : item :=
  match it with
  | ItStruct s => ItStruct (mkStruct (s_attrs s ++ l) (s_vis s) (s_ident s) (s_generics s) (s_fields s))
  | ItEnum e => ItEnum (mkEnum (e_attrs e ++ l) (e_vis e) (e_ident e) (e_generics e) (e_variants e))
  | ItOther => ItOther
  end.
(** Another macro removed the marker and put its own [#[pin()]] or [#[pin(x)]] there. *)
Definition marker_replaced (l : list attr) : Prop :=
  (forall x, In x l -> ~ attr_named x "pin_project") /\
  exists l1 x d ts l2, l = l1 ++ x :: l2 /\ attr_named x "pin" /\ a_meta x = MList d ts /\
    (ts = [] \/ exists i, plain_ident i /\ ts = [TIdent i]) /\
    forall y, In y (l1 ++ l2) -> ~ attr_named y "pin".


(** [l] without its [#[repr(..)]] attributes. *)
Definition without_reprs (l : list attr) : list attr := filter (fun x => negb (attr_is x "repr")) l.
(** Some [#[repr(..)]] in [l] has an entry [packed], [packed(..)] or [packed = ..]. *)
Definition repr_packed (l : list attr) : Prop :=
  exists x d ts es, In x l /\ attr_named x "repr" /\ a_meta x = MList d ts /\
    entries_written es ts /\ In (false, [I "packed"]) es.
Definition struct_without_reprs (s : item_struct) : item_struct :=
  mkStruct (without_reprs (s_attrs s)) (s_vis s) (s_ident s) (s_generics s) (s_fields s).
Definition enum_without_reprs (e : item_enum) : item_enum :=
  mkEnum (without_reprs (e_attrs e)) (e_vis e) (e_ident e) (e_generics e) (e_variants e).
