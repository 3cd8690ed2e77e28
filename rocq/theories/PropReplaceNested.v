(** C74: [project_replace] on a value whose fields are values of pin-projected types. *)
From Coq Require Import String List Bool Arith.
From Verif Require Import Base Syntax ModelArgs ModelUtils ModelDerive ModelRun ModelDestroy.
From Verif Require Import SpecArgs SpecDerive SpecExpand SpecRun SpecPanics SpecDestroy.
From Verif Require Import ProofsReplaceNested Examples ExamplesRun ExamplesDestroy.
Import ListNotations.
Open Scope string_scope.
Open Scope list_scope.

(** No destructor in the pinned fields panics: these destructors run, at every
    depth, where the values are; none in the other fields runs, their values are in
    the result; then the new value is stored. *)
Theorem C74_replace : forall opts w a v kids vp fs r,
  program w a -> has_proj POwn (w_item w) a = true ->
  value_of (w_item w) (mkUval v (seq 0 (length kids))) vp fs -> replaceable fs -> (forall k, In k kids -> declared opts k) ->
  filter snd (of_fields opts true fs kids) = [] ->
  replace_nested w v kids r =
  Some (Some (RProj (proj_name POwn a (name_of (w_item w)) :: vp) (taken fs (seq 0 (length kids)))),
        (map (fun x => Own (read_out x)) (select false fs (seq 0 (length kids))) ++
         map Inside (map fst (of_fields opts true fs kids)) ++ [Own (EvWrite r)], Run)).
Proof. exact c74. Qed.
Print Assumptions C74_replace.

(** One of them panics: there is no result, so the values that were moved out are
    destroyed too, up to the second panic; the new value is stored, unless the
    process aborts. *)
Theorem C74_panics : forall opts w a v kids vp fs r,
  program w a -> has_proj POwn (w_item w) a = true ->
  value_of (w_item w) (mkUval v (seq 0 (length kids))) vp fs -> replaceable fs -> (forall k, In k kids -> declared opts k) ->
  filter snd (of_fields opts true fs kids) <> [] ->
  let made := calls snd (map inside (of_fields opts true fs kids) ++ map moved_out (of_fields opts false fs kids)) Run in
  replace_nested w v kids r =
  Some (None,
        (map (fun x => Own (read_out x)) (select false fs (seq 0 (length kids))) ++ map fst (fst made) ++
         match snd made with Abort => [] | _ => [Own (EvWrite r)] end, snd made)).
Proof. exact c74_panics. Qed.
Print Assumptions C74_panics.

Example C74_example : program (world_struct [] false) opts_struct /\ replaceable (FNamed fields_ex) /\
  value_of (w_item (world_struct [] false)) (mkUval None (seq 0 (length (foo_kids false)))) [] (FNamed fields_ex) /\
  (forall k, In k (foo_kids false) -> declared opts_of k) /\
  filter snd (of_fields opts_of true (FNamed fields_ex) (foo_kids false)) = [] /\
  option_map snd (replace_nested (world_struct [] false) None (foo_kids false) other_struct) =
  Some ([Own (EvRead 1 1); Own (EvRead 3 3);
         Inside (VEvent [0] (EvBody PlSelf)); Inside (VPlain [0; 0]);
         Inside (VEvent [0; 1] (EvBody PlSelf)); Inside (VPlain [0; 1; 0]); Inside (VPlain [2]);
         Own (EvWrite other_struct)], Run).
Proof.
  split; [apply world_struct_program|]. split; [apply struct_replaceable|]. split; [apply foo_value|].
  split; [apply foo_kids_declared|]. split; vm_compute; reflexivity.
Qed.
Example C74_panics_example : program (world_struct [] false) opts_struct /\
  (forall k, In k (foo_kids true) -> declared opts_of k) /\
  filter snd (of_fields opts_of true (FNamed fields_ex) (foo_kids true)) <> [] /\
  replace_nested (world_struct [] false) None (foo_kids true) other_struct =
  Some (None,
        ([Own (EvRead 1 1); Own (EvRead 3 3);
          Inside (VEvent [0] (EvBody PlSelf)); Inside (VPlain [0; 0]);
          Inside (VEvent [0; 1] (EvBody PlSelf)); Inside (VPlain [0; 1; 0]); Inside (VPlain [2]);
          MovedOut (VEvent [1] (EvBody PlSelf)); MovedOut (VPlain [3]);
          Own (EvWrite other_struct)], Unwind)).
Proof.
  split; [apply world_struct_program|]. split; [apply foo_kids_declared|]. split; [vm_compute; discriminate|vm_compute; reflexivity].
Qed.
