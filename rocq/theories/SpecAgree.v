(** Vocabulary: how the results of the three methods correspond. *)
From Coq Require Import String List Bool Arith.
From Verif Require Import Base Syntax ModelArgs ModelDerive ModelRun.
Import ListNotations.
Open Scope list_scope.

(** [project] and [project_ref], field by field: the same name, the same place,
    pinned in both or in none. *)
Inductive agree_ref : option ident * rv -> option ident * rv -> Prop :=
| AR_pinned n p : agree_ref (n, RPin true p) (n, RPin false p)
| AR_plain n p : agree_ref (n, RRef true p) (n, RRef false p).
(** [project] and [project_replace] on a value with the fields [ids]: what is
    pinned is not returned, and the others are returned from the place that
    [project] refers to. *)
Inductive agree_own (ids : list nat) : option ident * rv -> option ident * rv -> Prop :=
| AO_pinned n j : agree_own ids (n, RPin true (PlField j)) (n, RPhantom)
| AO_plain n j id : nth_error ids j = Some id -> agree_own ids (n, RRef true (PlField j)) (n, RVal id).
