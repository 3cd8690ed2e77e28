(** What replacing [self] and [Self] in the input of a macro means. *)
From Coq Require Import String Ascii List Bool.
From Verif Require Import Base.
Import ListNotations.
Open Scope string_scope.
Open Scope list_scope.

(** The identifier [i] occurs in a token stream, at any depth. *)
Inductive occurs (i : ident) : list ttree -> Prop :=
| Oc_here r : occurs i (TIdent i :: r)
| Oc_group d l r : occurs i l -> occurs i (TGroup d l :: r)
| Oc_later t r : occurs i r -> occurs i (t :: r).

(** The stream begins with [::]. *)
Definition colons (ts : list ttree) : Prop :=
  exists joint r, ts = TPunct ":" true :: TPunct ":" joint :: r.

(** [self] becomes [__self]; [Self] becomes the type, whose tokens are [ty], in
    angle brackets before [::]; groups are treated in the same way inside;
    everything else stays as it is. *)
Inductive respelled (ty : list ttree) : list ttree -> list ttree -> Prop :=
| Rs_nil : respelled ty [] []
| Rs_self r r' : respelled ty r r' -> respelled ty (TIdent (I "self") :: r) (TIdent (I "__self") :: r')
| Rs_Self_path r r' : colons r -> respelled ty r r' ->
    respelled ty (TIdent (I "Self") :: r) (TPunct "<" false :: ty ++ TPunct ">" false :: r')
| Rs_Self r r' : ~ colons r -> respelled ty r r' -> respelled ty (TIdent (I "Self") :: r) (ty ++ r')
| Rs_group d l l' r r' : respelled ty l l' -> respelled ty r r' -> respelled ty (TGroup d l :: r) (TGroup d l' :: r')
| Rs_ident i r r' : i <> I "self" -> i <> I "Self" -> respelled ty r r' -> respelled ty (TIdent i :: r) (TIdent i :: r')
| Rs_punct c j r r' : respelled ty r r' -> respelled ty (TPunct c j :: r) (TPunct c j :: r')
| Rs_lit s r r' : respelled ty r r' -> respelled ty (TLit s :: r) (TLit s :: r').
