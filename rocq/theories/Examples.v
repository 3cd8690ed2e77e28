(** Concrete items used to show that the hypotheses of the theorems can be met. *)
From Coq Require Import String Ascii List Bool.
From Verif Require Import Base Syntax ModelArgs ModelUtils ModelAttribute ModelDerive ModelPipeline SpecArgs SpecExpand.
Import ListNotations.
Open Scope string_scope.
Open Scope list_scope.

Definition tid (s : string) : ty := ty_ident (I s).
Definition bnd (s : string) : bound := BTrait false [] (Path false [seg1 s]).
Definition pin_mark : attr := mkAttr false [I "pin"] MPath.
Definition doc_attr : attr := mkAttr false [I "doc"] (MNameValue [TLit """text"""]).
Definition repr_c : attr := mkAttr false [I "repr"] (MList Paren [TIdent (I "C"); TPunct "," false; TIdent (I "align"); TGroup Paren [TLit "8"]]).

(** [project = Proj, project_replace = Own, !Unpin] *)
Definition args_struct : list ttree :=
  [TIdent (I "project"); TPunct "=" false; TIdent (I "Proj"); TPunct "," false;
   TIdent (I "project_replace"); TPunct "=" false; TIdent (I "Own"); TPunct "," false;
   TPunct "!" false; TIdent (I "Unpin")].
Definition opts_struct : args := mkArgs false UNegative (Some (I "Proj")) None (PRNamed (I "Own")).

(** [<'pin, T: Bound<Self>, U = u8, const N: usize> where T: Tr, for<'pin_> U: Fn(&'pin_ T)] *)
Definition generics_ex : generics :=
  mkGenerics
    [PLt "'pin" []; PTy (I "T") [BTrait false [] (Path false [Seg (I "Bound") (GAngle false [ATy ty_self])])] None;
     PTy (I "U") [] (Some (tid "u8")); PConst (I "N") (tid "usize") None]
    (Some [WTy [] (tid "T") [bnd "Tr"];
           WTy ["'pin_"] (tid "U") [BTrait false [] (Path false [Seg (I "Fn") (GParen [TyRef (Some "'pin_") false (tid "T")] None)])]]).

(** [#[repr(C, align(8))] pub struct Foo<..> { #[pin] pub a: T, b: Vec<Self>, #[pin] c: Self::Assoc, pub(crate) d: &'pin U }] *)
Definition fields_ex : list field :=
  [mkField [doc_attr; pin_mark] VPub (Some (I "a")) (tid "T");
   mkField [] VInherited (Some (I "b")) (TyPath None (Path false [Seg (I "Vec") (GAngle false [ATy ty_self])]));
   mkField [pin_mark] VInherited (Some (I "c")) (TyPath None (Path false [seg1 "Self"; seg1 "Assoc"]));
   mkField [] (VRestricted false [I "crate"]) (Some (I "d")) (TyRef (Some "'pin") false (tid "U"))].
Definition struct_ex (ts : list ttree) : item_struct :=
  mkStruct [doc_attr; repr_c; pin_attr ts] VPub (I "Foo") generics_ex (FNamed fields_ex).

(** [enum Bar<T> { A(#[pin] T, u8), B { #[pin] x: T }, C }] *)
Definition enum_ex (ts : list ttree) : item_enum :=
  mkEnum [pin_attr ts] (VRestricted false [I "super"]) (mkIdent true "Bar") (mkGenerics [PTy (I "T") [] None] None)
    [mkVariant [] (I "A") (FUnnamed [mkField [pin_mark] VInherited None (tid "T"); mkField [] VInherited None (tid "u8")]) false;
     mkVariant [doc_attr] (I "B") (FNamed [mkField [pin_mark] VInherited (Some (I "x")) (tid "T")]) false;
     mkVariant [] (I "C") FUnit false].
(** [project = Proj, project_ref = Ref, PinnedDrop] *)
Definition args_enum : list ttree :=
  [TIdent (I "project"); TPunct "=" false; TIdent (I "Proj"); TPunct "," false;
   TIdent (I "PinnedDrop"); TPunct "," false;
   TIdent (I "project_ref"); TPunct "=" false; TIdent (I "Ref")].
Definition opts_enum : args := mkArgs true UDefault (Some (I "Proj")) (Some (I "Ref")) PRNone.

(** [!Unpin, project = P, project_replace = r#fn,] with a raw identifier and a trailing comma *)
Definition example_list : list parg :=
  [GNotUnpin; GProject (I "P"); GReplaceNamed (mkIdent true "fn")].
Definition example_tokens : list ttree :=
  [TPunct "!" false; TIdent (I "Unpin"); TPunct "," false;
   TIdent (I "project"); TPunct "=" false; TIdent (I "P"); TPunct "," false;
   TIdent (I "project_replace"); TPunct "=" false; TIdent (mkIdent true "fn"); TPunct "," false].

(** [struct S { #[pin] a: T, .., #[cfg_attr(1, pin)] c: U }] *)
Definition raw_ex (b : list raw_field) : raw_item :=
  mkRItem [RAttr doc_attr; RCfgAttr 1 [RAttr repr_c]] (RStruct VPub (I "S") (mkRGenerics [] None) (RNamed
    ([mkRField [RAttr pin_mark] VInherited (Some (I "a")) (tid "T")] ++ b ++
     [mkRField [RCfgAttr 1 [RAttr pin_mark]] VInherited (Some (I "c")) (tid "U")]))).

(** [#[repr(C, packed(2))]] *)
Definition repr_c_packed : attr :=
  mkAttr false [I "repr"] (MList Paren [TIdent (I "C"); TPunct "," false; TIdent (I "packed"); TGroup Paren [TLit "2"]]).

(** The type of the example as the derive spells it. *)
Definition own_ex : type_path := own_type (I "Foo") generics_ex.
