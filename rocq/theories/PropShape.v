(** C78: what the generated methods do depends only on names and on which fields are pinned. *)
From Coq Require Import String Ascii List Bool Arith.
From Verif Require Import Base Syntax ModelArgs ModelUtils ModelDerive ModelRun.
From Verif Require Import SpecArgs SpecDerive SpecExpand SpecRun SpecShape.
From Verif Require Import ProofsShape Examples ExamplesRun ExamplesShape.
Import ListNotations.
Open Scope string_scope.
Open Scope list_scope.

Theorem C78_project : forall w w' a u vp fs fs' t,
  program w a -> program w' a -> name_of (w_item w) = name_of (w_item w') ->
  has_proj PMut (w_item w) a = true -> has_proj PMut (w_item w') a = true ->
  value_of (w_item w) u vp fs -> value_of (w_item w') u vp fs' -> shape fs = shape fs' ->
  call_method w "project" (RPin true PlSelf) [] (holding u t Run) =
  call_method w' "project" (RPin true PlSelf) [] (holding u t Run).
Proof. exact c78_project. Qed.
Print Assumptions C78_project.

Theorem C78_project_ref : forall w w' a u vp fs fs' t,
  program w a -> program w' a -> name_of (w_item w) = name_of (w_item w') ->
  has_proj PRef (w_item w) a = true -> has_proj PRef (w_item w') a = true ->
  value_of (w_item w) u vp fs -> value_of (w_item w') u vp fs' -> shape fs = shape fs' ->
  call_method w "project_ref" (RPin false PlSelf) [] (holding u t Run) =
  call_method w' "project_ref" (RPin false PlSelf) [] (holding u t Run).
Proof. exact c78_project_ref. Qed.
Print Assumptions C78_project_ref.

(** The result, everything that happens and how it ends; what is stored afterwards. *)
Theorem C78_replace : forall w w' a u vp fs fs' t r,
  program w a -> program w' a -> name_of (w_item w) = name_of (w_item w') ->
  has_proj POwn (w_item w) a = true -> has_proj POwn (w_item w') a = true ->
  value_of (w_item w) u vp fs -> value_of (w_item w') u vp fs' -> replaceable fs -> replaceable fs' ->
  shape fs = shape fs' -> same_panics w w' ->
  exists v s s',
    call_method w "project_replace" (RPin true PlSelf) [RUser r] (holding u t Run) = Some (v, s) /\
    call_method w' "project_replace" (RPin true PlSelf) [RUser r] (holding u t Run) = Some (v, s') /\
    s_trace s = s_trace s' /\ s_stat s = s_stat s' /\ (s_stat s <> Abort -> stored s = stored s').
Proof. exact c78_replace. Qed.
Print Assumptions C78_replace.

(** Dropping does not even depend on which fields are pinned. *)
Theorem C78_drop : forall w w' a u t x,
  program w a -> program w' a -> same_panics w w' -> x = Run \/ x = Unwind ->
  s_trace (drop_self w (holding u t x)) = s_trace (drop_self w' (holding u t x)) /\
  s_stat (drop_self w (holding u t x)) = s_stat (drop_self w' (holding u t x)).
Proof. exact c78_drop. Qed.
Print Assumptions C78_drop.

(** The code of the methods: for structs and enums that agree in names, in the
    form of their fields and in which of them are pinned, the same methods with
    the same parameters and the same bodies are generated. *)
Theorem C78_code : forall it it' a x x',
  parse_derive it = Ok x -> parse_derive it' = Ok x' -> options (attrs_of it) a -> options (attrs_of it') a ->
  outline it = outline it' -> map code (inherent_methods x) = map code (inherent_methods x').
Proof. exact c78_code. Qed.
Print Assumptions C78_code.

Example C78_code_example : exists x x',
  parse_derive (w_item (world_struct [] false)) = Ok x /\ parse_derive (w_item (world_other [])) = Ok x' /\
  options (attrs_of (w_item (world_struct [] false))) opts_struct /\ options (attrs_of (w_item (world_other []))) opts_struct /\
  outline (w_item (world_struct [] false)) = outline (w_item (world_other [])) /\
  inherent_methods x <> inherent_methods x' /\ length (inherent_methods x) = 3.
Proof.
  exists (w_exp (world_struct [] false)), (w_exp (world_other [])).
  split; [apply (pg_expansion _ _ (world_struct_program [] false))|]. split; [apply (pg_expansion _ _ (world_other_program []))|].
  split; [apply (pg_options _ _ (world_struct_program [] false))|]. split; [apply (pg_options _ _ (world_other_program []))|].
  split; [reflexivity|]. split; [vm_compute; discriminate|vm_compute; reflexivity].
Qed.

Example C78_example :
  program (world_struct [3] false) opts_struct /\ program (world_other [3]) opts_struct /\
  w_item (world_struct [3] false) <> w_item (world_other [3]) /\
  name_of (w_item (world_struct [3] false)) = name_of (w_item (world_other [3])) /\
  (forall k, has_proj k (w_item (world_struct [3] false)) opts_struct = true /\ has_proj k (w_item (world_other [3])) opts_struct = true) /\
  value_of (w_item (world_struct [3] false)) value_struct [] (FNamed fields_ex) /\
  value_of (w_item (world_other [3])) value_struct [] (FNamed fields_other) /\
  replaceable (FNamed fields_ex) /\ replaceable (FNamed fields_other) /\
  shape (FNamed fields_ex) = shape (FNamed fields_other) /\ same_panics (world_struct [3] false) (world_other [3]) /\
  s_trace (drop_self (world_other [3]) (holding value_struct [] Run)) =
    [EvDrop (PlField 0) 1; EvDrop (PlField 1) 2; EvDrop (PlField 2) 3; EvDrop (PlField 3) 4].
Proof.
  split; [apply world_struct_program|]. split; [apply world_other_program|]. split; [discriminate|]. split; [reflexivity|].
  split; [intros []; split; reflexivity|]. split; [apply value_struct_ok|]. split; [apply value_other_ok|].
  split; [apply struct_replaceable|]. split; [apply other_replaceable|]. split; [reflexivity|]. split; [split; reflexivity|].
  vm_compute. reflexivity.
Qed.
(** A field that is pinned in one and not in the other makes a difference. *)
Example C78_shape_matters :
  shape (FNamed fields_ex) <> shape (FNamed (map (fun f => mkField [] (f_vis f) (f_ident f) (f_ty f)) fields_ex)) /\
  references true (FNamed fields_ex) <> references true (FNamed (map (fun f => mkField [] (f_vis f) (f_ident f) (f_ty f)) fields_ex)).
Proof. split; discriminate. Qed.
