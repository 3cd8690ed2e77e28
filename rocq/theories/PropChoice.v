(** C80: every sensible combination of options can be asked for, for every item. *)
From Coq Require Import String Ascii List Bool.
From Verif Require Import Base Syntax ModelArgs ModelUtils ModelDerive.
From Verif Require Import SpecArgs SpecDerive SpecExpand SpecChoice.
From Verif Require Import ProofsArgs ProofsChoice Examples.
Import ListNotations.
Open Scope string_scope.
Open Scope list_scope.

(** The options that some argument list stands for are exactly the allowed ones. *)
Theorem C80_options : forall a, (exists ts, args_parse ts = Ok a) <-> allowed a.
Proof. exact c80_options. Qed.
Print Assumptions C80_options.

(** A struct that is accepted with some options is accepted with any other
    allowed ones whose names are not the name of the struct. *)
Theorem C80_struct : forall l v i g fs x a,
  parse_derive (ItStruct (mkStruct l v i g fs)) = Ok x -> allowed a -> no_clash a i ->
  exists l' y, marker_changed l l' /\ options l' a /\ parse_derive (ItStruct (mkStruct l' v i g fs)) = Ok y.
Proof. exact c80_struct. Qed.
Print Assumptions C80_struct.

(** The same for enums; here [project_replace] needs a name. *)
Theorem C80_enum : forall l v i g vs x a,
  parse_derive (ItEnum (mkEnum l v i g vs)) = Ok x -> allowed a -> no_clash a i -> ar_project_replace a <> PRUnnamed ->
  exists l' y, marker_changed l l' /\ options l' a /\ parse_derive (ItEnum (mkEnum l' v i g vs)) = Ok y.
Proof. exact c80_enum. Qed.
Print Assumptions C80_enum.

(** Four options at once, in two ways; three combinations that are not allowed. *)
Example C80_example : allowed (mkArgs true UUnsafe (Some (I "P")) (Some (I "R")) PRNone) /\
  allowed (mkArgs false UNegative (Some (I "P")) (Some (I "R")) (PRNamed (mkIdent true "fn"))) /\
  ~ allowed (mkArgs true UDefault None None PRUnnamed) /\
  ~ allowed (mkArgs false UDefault (Some (I "P")) (Some (I "P")) PRNone) /\
  ~ allowed (mkArgs false UDefault (Some (I "fn")) None PRNone) /\
  (exists x, parse_derive (ItStruct (struct_ex args_struct)) = Ok x) /\
  (exists x, parse_derive (ItEnum (enum_ex args_enum)) = Ok x) /\
  no_clash (mkArgs true UUnsafe (Some (I "P")) (Some (I "R")) PRNone) (I "Foo").
Proof.
  assert (K : forall i, accept_as_ident i = true -> plain_ident i) by (intros i; apply accept_plain).
  split; [|split; [|split; [|split; [|split; [|split; [|split]]]]]].
  - split; [reflexivity| |]; [intros [] i H|intros [] [] i H H']; try discriminate H; try discriminate H'; try reflexivity;
      cbn in H; injection H as <-; try (apply K; reflexivity); discriminate H'.
  - split; [discriminate| |]; [intros [] i H|intros [] [] i H H']; try discriminate H; try discriminate H'; try reflexivity;
      cbn in H; injection H as <-; try (apply K; reflexivity); discriminate H'.
  - intros [D _ _]. discriminate (D eq_refl).
  - intros [_ _ D]. discriminate (D PMut PRef _ eq_refl eq_refl).
  - intros [_ P _]. destruct (P PMut _ eq_refl) as [Q|Q]; [discriminate Q|]. apply Q. left. cbn. tauto.
  - eexists. vm_compute. reflexivity.
  - eexists. vm_compute. reflexivity.
  - repeat split; discriminate.
Qed.
