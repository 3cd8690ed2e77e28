(** C79: names do not change what the generated methods do. *)
From Coq Require Import String Ascii List Bool Arith.
From Verif Require Import Base Syntax ModelArgs ModelUtils ModelDerive ModelRun.
From Verif Require Import SpecArgs SpecDerive SpecExpand SpecRun SpecShape SpecNames.
From Verif Require Import ProofsNames Examples ExamplesRun ExamplesNames.
Import ListNotations.
Open Scope string_scope.
Open Scope list_scope.

(** Two items, with their own options; one may be a struct and the other an enum. *)
Theorem C79_project : forall w w' a a' u u' vp vp' fs fs' t,
  program w a -> program w' a' -> has_proj PMut (w_item w) a = true -> has_proj PMut (w_item w') a' = true ->
  value_of (w_item w) u vp fs -> value_of (w_item w') u' vp' fs' -> pins fs = pins fs' ->
  exists v v',
    call_method w "project" (RPin true PlSelf) [] (holding u t Run) = Some (v, holding u t Run) /\
    call_method w' "project" (RPin true PlSelf) [] (holding u' t Run) = Some (v', holding u' t Run) /\ same_result v v'.
Proof. exact c79_project. Qed.
Print Assumptions C79_project.

Theorem C79_project_ref : forall w w' a a' u u' vp vp' fs fs' t,
  program w a -> program w' a' -> has_proj PRef (w_item w) a = true -> has_proj PRef (w_item w') a' = true ->
  value_of (w_item w) u vp fs -> value_of (w_item w') u' vp' fs' -> pins fs = pins fs' ->
  exists v v',
    call_method w "project_ref" (RPin false PlSelf) [] (holding u t Run) = Some (v, holding u t Run) /\
    call_method w' "project_ref" (RPin false PlSelf) [] (holding u' t Run) = Some (v', holding u' t Run) /\ same_result v v'.
Proof. exact c79_project_ref. Qed.
Print Assumptions C79_project_ref.

(** With the same contents and the same panics: the same parts are returned or
    none, the same happens in the same order, and the same is stored afterwards. *)
Theorem C79_replace : forall w w' a a' u u' vp vp' fs fs' t r r',
  program w a -> program w' a' -> has_proj POwn (w_item w) a = true -> has_proj POwn (w_item w') a' = true ->
  value_of (w_item w) u vp fs -> value_of (w_item w') u' vp' fs' -> replaceable fs -> replaceable fs' ->
  pins fs = pins fs' -> u_ids u = u_ids u' -> u_ids r = u_ids r' -> same_panics w w' ->
  exists v v' s s',
    call_method w "project_replace" (RPin true PlSelf) [RUser r] (holding u t Run) = Some (v, s) /\
    call_method w' "project_replace" (RPin true PlSelf) [RUser r'] (holding u' t Run) = Some (v', s') /\
    same_result v v' /\ map nameless (s_trace s) = map nameless (s_trace s') /\ s_stat s = s_stat s' /\
    (s_stat s <> Abort -> stored s = stored s').
Proof. exact c79_replace. Qed.
Print Assumptions C79_replace.

Theorem C79_drop : forall w w' a a' u u' t x,
  program w a -> program w' a' -> ar_pinned_drop a = ar_pinned_drop a' -> u_ids u = u_ids u' -> same_panics w w' ->
  x = Run \/ x = Unwind ->
  s_trace (drop_self w (holding u t x)) = s_trace (drop_self w' (holding u' t x)) /\
  s_stat (drop_self w (holding u t x)) = s_stat (drop_self w' (holding u' t x)).
Proof. exact c79_drop. Qed.
Print Assumptions C79_drop.

(** A struct with named fields and a variant of an enum with positional ones. *)
Example C79_example :
  program (world_pair [1]) opts_struct /\ program (world_own [1]) opts_own /\ program (world_enum [1] false) opts_enum /\
  (forall k, has_proj k (w_item (world_pair [1])) opts_struct = true) /\ has_proj POwn (w_item (world_own [1])) opts_own = true /\
  has_proj PMut (w_item (world_enum [1] false)) opts_enum = true /\ has_proj PRef (w_item (world_enum [1] false)) opts_enum = true /\
  value_of (w_item (world_pair [1])) value_pair [] (FNamed fields_pair) /\
  value_of (w_item (world_own [1])) value_a [I "A"] fields_a /\ value_of (w_item (world_enum [1] false)) value_a [I "A"] fields_a /\
  replaceable (FNamed fields_pair) /\ replaceable fields_a /\ pins (FNamed fields_pair) = pins fields_a /\
  u_ids value_pair = u_ids value_a /\ same_panics (world_pair [1]) (world_own [1]) /\
  ar_pinned_drop opts_struct = ar_pinned_drop opts_own.
Proof.
  split; [apply world_pair_program|]. split; [apply world_own_program|]. split; [apply world_enum_program|].
  split; [intros []; reflexivity|]. do 3 (split; [reflexivity|]). split; [apply value_pair_ok|]. split; [apply value_own_a|].
  split; [apply value_enum_a|]. split; [apply pair_replaceable|]. split; [apply a_replaceable|]. do 2 (split; [reflexivity|]).
  split; [split; reflexivity|reflexivity].
Qed.
(** The position of the pinned field makes a difference. *)
Example C79_pins_matter :
  map snd (references true fields_a) <> map snd (references true (FUnnamed (rev (fields_list fields_a)))) /\
  pins fields_a <> pins (FUnnamed (rev (fields_list fields_a))).
Proof. split; discriminate. Qed.
