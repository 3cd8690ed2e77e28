(** C01, C02 and the argument part of C03. *)
From Coq Require Import String Ascii List Bool Permutation.
From Verif Require Import Base ModelArgs SpecArgs ProofsArgs Examples.
Import ListNotations.
Open Scope string_scope.

(** C01: the argument parser accepts exactly the token sequences that write a
    sensible argument list, and the options are exactly the ones written. *)
Theorem C01_arguments_exact : forall ts a,
  args_parse ts = Ok a <-> exists l, written l ts /\ sensible l /\ options_are l a.
Proof. exact args_parse_iff. Qed.
Print Assumptions C01_arguments_exact.

(** Everything else is a proper error. *)
Theorem C01_arguments_error : forall ts,
  ~ (exists l, written l ts /\ sensible l) -> exists msg, args_parse ts = Err msg.
Proof. exact args_parse_error. Qed.
Print Assumptions C01_arguments_error.

(** Each token sequence writes at most one argument list. *)
Theorem C01_grammar_unambiguous : forall l l' ts, written l ts -> written l' ts -> l = l'.
Proof. exact (fun l l' ts H H' => written_unique l ts H l' H'). Qed.
Print Assumptions C01_grammar_unambiguous.

(** [!Unpin, project = P, project_replace = r#fn,] with a raw identifier and a trailing comma *)
Example C01_example :
  args_parse example_tokens =
    Ok (mkArgs false UNegative (Some (I "P")) None (PRNamed (mkIdent true "fn"))) /\
  written example_list example_tokens.
Proof.
  split; [vm_compute; reflexivity|].
  apply (W_more GNotUnpin [TPunct "!" false; TIdent (I "Unpin")] false); [constructor|].
  apply (W_more (GProject (I "P")) [TIdent (I "project"); TPunct "=" false; TIdent (I "P")] false).
  { constructor. right. vm_compute. intuition discriminate. }
  apply (W_more (GReplaceNamed (mkIdent true "fn"))
          [TIdent (I "project_replace"); TPunct "=" false; TIdent (mkIdent true "fn")] false).
  { constructor. left. reflexivity. }
  constructor.
Qed.

(** C02: writing the same arguments in another order gives the same options. *)
Theorem C02_order_irrelevant : forall l l' ts ts' a,
  written l ts -> written l' ts' -> Permutation l l' ->
  args_parse ts = Ok a -> args_parse ts' = Ok a.
Proof. exact args_parse_perm. Qed.
Print Assumptions C02_order_irrelevant.

Example C02_example :
  args_parse [TIdent (I "project_replace"); TPunct "=" false; TIdent (mkIdent true "fn"); TPunct "," false;
              TIdent (I "project"); TPunct "=" false; TIdent (I "P"); TPunct "," false;
              TPunct "!" false; TIdent (I "Unpin")]
  = args_parse example_tokens.
Proof. vm_compute; reflexivity. Qed.

(** C03, argument part: accepted options never combine [PinnedDrop] with
    [project_replace]. ([UnsafeUnpin] and [!Unpin] are alternatives of one
    type; that writing both is an error is part of C01.) *)
Theorem C03_options_exclusive : forall ts a,
  args_parse ts = Ok a -> ar_pinned_drop a = true -> ar_project_replace a = PRNone.
Proof. exact args_parse_exclusive. Qed.
Print Assumptions C03_options_exclusive.

(** Writing both [UnsafeUnpin] and [!Unpin], or [PinnedDrop] and
    [project_replace], is an error wherever they stand in the list. *)
Theorem C03_both_written_rejected : forall l ts,
  written l ts ->
  (In GUnsafeUnpin l /\ In GNotUnpin l) \/
  (In GPinnedDrop l /\ (In GReplace l \/ exists i, In (GReplaceNamed i) l)) ->
  exists msg, args_parse ts = Err msg.
Proof. exact args_parse_both. Qed.
Print Assumptions C03_both_written_rejected.

Example C03_example : exists msg,
  args_parse [TIdent (I "project_replace"); TPunct "," false; TIdent (I "UnsafeUnpin");
              TPunct "," false; TIdent (I "PinnedDrop")] = Err msg.
Proof. eexists; vm_compute; reflexivity. Qed.
