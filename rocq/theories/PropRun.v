(** C14 to C20, C23, C25, C42: running the generated methods and destructors. *)
From Coq Require Import String Ascii List Bool Arith Permutation.
From Verif Require Import Base Syntax ModelArgs ModelUtils ModelDerive ModelRun.
From Verif Require Import SpecArgs SpecDerive SpecExpand SpecRun.
From Verif Require Import ProofsRunMain ProofsRunNames Examples ExamplesRun ExamplesNames.
Import ListNotations.
Open Scope string_scope.
Open Scope list_scope.

(** ** C14 *)
Theorem C14_project_in_place : forall w a u vp fs t,
  program w a -> has_proj PMut (w_item w) a = true -> value_of (w_item w) u vp fs ->
  call_method w "project" (RPin true PlSelf) [] (holding u t Run) =
  Some (Some (RProj (proj_name PMut a (name_of (w_item w)) :: vp) (references true fs)), holding u t Run).
Proof. exact c14. Qed.
Print Assumptions C14_project_in_place.
Example C14_struct :
  program (world_struct [] false) opts_struct /\
  call_method (world_struct [] false) "project" (RPin true PlSelf) [] (holding value_struct [] Run) =
  Some (Some (RProj [I "Proj"] [(Some (I "a"), RPin true (PlField 0)); (Some (I "b"), RRef true (PlField 1));
                                (Some (I "c"), RPin true (PlField 2)); (Some (I "d"), RRef true (PlField 3))]),
        holding value_struct [] Run).
Proof. split; [apply world_struct_program|vm_compute; reflexivity]. Qed.
Example C14_enum :
  program (world_enum [] false) opts_enum /\
  call_method (world_enum [] false) "project" (RPin true PlSelf) [] (holding value_a [] Run) =
  Some (Some (RProj [I "Proj"; I "A"] [(None, RPin true (PlField 0)); (None, RRef true (PlField 1))]), holding value_a [] Run).
Proof. split; [apply world_enum_program|vm_compute; reflexivity]. Qed.

(** ** C15 *)
Theorem C15_project_ref_in_place : forall w a u vp fs t,
  program w a -> has_proj PRef (w_item w) a = true -> value_of (w_item w) u vp fs ->
  call_method w "project_ref" (RPin false PlSelf) [] (holding u t Run) =
  Some (Some (RProj (proj_name PRef a (name_of (w_item w)) :: vp) (references false fs)), holding u t Run).
Proof. exact c15. Qed.
Print Assumptions C15_project_ref_in_place.
Theorem C15_only_shared : forall w a u vp fs t p l s x,
  program w a -> has_proj PRef (w_item w) a = true -> value_of (w_item w) u vp fs ->
  call_method w "project_ref" (RPin false PlSelf) [] (holding u t Run) = Some (Some (RProj p l), s) ->
  In x l -> exclusive (snd x) = false.
Proof. exact c15_result. Qed.
Print Assumptions C15_only_shared.
Example C15_enum :
  program (world_enum [] false) opts_enum /\
  call_method (world_enum [] false) "project_ref" (RPin false PlSelf) [] (holding value_a [] Run) =
  Some (Some (RProj [I "Ref"; I "A"] [(None, RPin false (PlField 0)); (None, RRef false (PlField 1))]), holding value_a [] Run).
Proof. split; [apply world_enum_program|vm_compute; reflexivity]. Qed.

(** ** C16 *)
Theorem C16_disjoint : forall w a k u vp fs t p l s,
  k <> POwn -> program w a -> has_proj k (w_item w) a = true -> value_of (w_item w) u vp fs ->
  call_method w (name (proj_method k)) (RPin (match k with PRef => false | _ => true end) PlSelf) [] (holding u t Run) =
    Some (Some (RProj p l), s) ->
  NoDup (map (fun x => place_of (snd x)) l) /\
  forall x, In x l -> exists i, place_of (snd x) = Some (PlField i) /\ i < length (u_ids u).
Proof. exact c16. Qed.
Print Assumptions C16_disjoint.
Example C16_example : exists p l s,
  call_method (world_struct [] false) "project" (RPin true PlSelf) [] (holding value_struct [] Run) = Some (Some (RProj p l), s) /\
  map (fun x => place_of (snd x)) l = [Some (PlField 0); Some (PlField 1); Some (PlField 2); Some (PlField 3)].
Proof. do 3 eexists. split; vm_compute; reflexivity. Qed.

(** ** C17: every value is taken apart by the arm of its own variant, and gives
    a value of the same-named variant, with the same field names. *)
Theorem C17_project : forall w a k u vp fs t,
  k <> POwn -> program w a -> has_proj k (w_item w) a = true -> value_of (w_item w) u vp fs ->
  exists l s, call_method w (name (proj_method k)) (RPin (match k with PRef => false | _ => true end) PlSelf) [] (holding u t Run) =
    Some (Some (RProj (proj_name k a (name_of (w_item w)) :: vp) l), s) /\
    map fst l = map f_ident (fields_list fs) /\ s_stat s = Run.
Proof. exact c17_project. Qed.
Print Assumptions C17_project.
Theorem C17_project_replace : forall w a u vp fs t r,
  program w a -> has_proj POwn (w_item w) a = true -> value_of (w_item w) u vp fs -> replaceable fs ->
  exists v s, call_method w "project_replace" (RPin true PlSelf) [RUser r] (holding u t Run) = Some (v, s) /\
    s_stat s <> Stuck /\
    (forall x, v = Some x -> exists l, x = RProj (proj_name POwn a (name_of (w_item w)) :: vp) l /\
                                       map fst l = map f_ident (fields_list fs)) /\
    (v = None -> s_stat s <> Run).
Proof. exact c17_replace. Qed.
Print Assumptions C17_project_replace.
Example C17_unit_variant :
  call_method (world_enum [] false) "project" (RPin true PlSelf) [] (holding value_c [] Run) =
  Some (Some (RProj [I "Proj"; I "C"] []), holding value_c [] Run).
Proof. vm_compute. reflexivity. Qed.
Example C17_own : program (world_own []) opts_own /\
  (exists fs, value_of (w_item (world_own [])) value_a [I "A"] fs /\ replaceable fs) /\
  call_method (world_own []) "project_replace" (RPin true PlSelf) [RUser value_c] (holding value_a [] Run) =
  Some (Some (RProj [I "Own"; I "A"] [(None, RPhantom); (None, RVal 2)]),
        holding value_c [EvRead 1 2; EvDrop (PlField 0) 1; EvWrite value_c] Run).
Proof.
  split; [apply world_own_program|]. split; [|vm_compute; reflexivity].
  destruct (value_a_own []) as (fs & H1 & H2 & _). exists fs. auto.
Qed.

(** ** C18: no destructor of a pinned field panics.  Events: the unpinned fields
    are copied out, the pinned ones are destroyed where they are, in declaration
    order, and then [*self] is overwritten; nothing else. *)
Theorem C18_replace : forall w a u vp fs t r,
  program w a -> has_proj POwn (w_item w) a = true -> value_of (w_item w) u vp fs -> replaceable fs ->
  panickers w (select true fs (u_ids u)) = 0 ->
  call_method w "project_replace" (RPin true PlSelf) [RUser r] (holding u t Run) =
  Some (Some (RProj (proj_name POwn a (name_of (w_item w)) :: vp) (taken fs (u_ids u))),
        holding r (t ++ map read_out (select false fs (u_ids u)) ++
                   map dropped_in_place (select true fs (u_ids u)) ++ [EvWrite r]) Run).
Proof. exact c18. Qed.
Print Assumptions C18_replace.
Example C18_example : program (world_struct [] false) opts_struct /\ replaceable (FNamed fields_ex) /\
  panickers (world_struct [] false) (select true (FNamed fields_ex) (u_ids value_struct)) = 0 /\
  call_method (world_struct [] false) "project_replace" (RPin true PlSelf) [RUser other_struct] (holding value_struct [] Run) =
  Some (Some (RProj [I "Own"] [(Some (I "a"), RPhantom); (Some (I "b"), RVal 2); (Some (I "c"), RPhantom); (Some (I "d"), RVal 4)]),
        holding other_struct [EvRead 1 2; EvRead 3 4; EvDrop (PlField 0) 1; EvDrop (PlField 2) 3; EvWrite other_struct] Run).
Proof. split; [apply world_struct_program|]. split; [apply struct_replaceable|]. split; vm_compute; reflexivity. Qed.

(** ** C19: destructors of pinned fields panic.  The destructors are called in
    the order: pinned fields where they are, then unpinned fields; with one
    panic all of them happen and the replacement is stored, with more the
    process aborts. *)
Theorem C19_replace_panics : forall w a u vp fs t r,
  program w a -> has_proj POwn (w_item w) a = true -> value_of (w_item w) u vp fs -> replaceable fs ->
  1 <= panickers w (select true fs (u_ids u)) ->
  let evs := map dropped_in_place (select true fs (u_ids u)) ++ map dropped_elsewhere (select false fs (u_ids u)) in
  let n := panickers w (select true fs (u_ids u)) + panickers w (select false fs (u_ids u)) in
  exists s evs' x,
    call_method w "project_replace" (RPin true PlSelf) [RUser r] (holding u t Run) = Some (None, s) /\
    happens evs n Run evs' x /\
    ((x = Unwind /\ s = holding r (t ++ map read_out (select false fs (u_ids u)) ++ evs' ++ [EvWrite r]) Unwind) \/
     (x = Abort /\ s_stat s = Abort /\ s_trace s = t ++ map read_out (select false fs (u_ids u)) ++ evs')).
Proof. exact c19. Qed.
Print Assumptions C19_replace_panics.
(** Every value that was there before is destroyed exactly once or returned, and
    [*self] owns the replacement. *)
Theorem C19_conservation : forall w a u vp fs t r v s,
  program w a -> has_proj POwn (w_item w) a = true -> value_of (w_item w) u vp fs ->
  call_method w "project_replace" (RPin true PlSelf) [RUser r] (holding u t Run) = Some (v, s) -> s_stat s <> Abort ->
  exists ev, s_trace s = t ++ ev /\ Permutation (destroyed ev ++ owned_opt v) (u_ids u) /\ stored s = u_ids r.
Proof. exact c19_conserved_all. Qed.
Print Assumptions C19_conservation.
Example C19_one_panic : program (world_struct [1] false) opts_struct /\
  call_method (world_struct [1] false) "project_replace" (RPin true PlSelf) [RUser other_struct] (holding value_struct [] Run) =
  Some (None, holding other_struct [EvRead 1 2; EvRead 3 4; EvDrop (PlField 0) 1; EvDrop (PlField 2) 3;
                                    EvDrop PlTemp 2; EvDrop PlTemp 4; EvWrite other_struct] Unwind).
Proof. split; [apply world_struct_program|vm_compute; reflexivity]. Qed.
Example C19_two_panics :
  option_map (fun r => (fst r, s_trace (snd r), s_stat (snd r)))
    (call_method (world_struct [3; 2] false) "project_replace" (RPin true PlSelf) [RUser other_struct] (holding value_struct [] Run)) =
  Some (None, [EvRead 1 2; EvRead 3 4; EvDrop (PlField 0) 1; EvDrop (PlField 2) 3; EvDrop PlTemp 2], Abort).
Proof. vm_compute. reflexivity. Qed.

(** ** C20 *)
Theorem C20_same_on_all_compilers : forall b w a u vp fs t r v s,
  program w a -> has_proj POwn (w_item w) a = true -> value_of (w_item w) u vp fs ->
  call_method w "project_replace" (RPin true PlSelf) [RUser r] (holding u t Run) = Some (v, s) ->
  exists s', call_method (with_leaky b w) "project_replace" (RPin true PlSelf) [RUser r] (holding u t Run) = Some (v, s') /\
    s_trace s' = s_trace s /\ s_stat s' = s_stat s /\ (s_stat s <> Abort -> s' = s).
Proof. exact c20_all. Qed.
Print Assumptions C20_same_on_all_compilers.
(** The two compilers do differ: with the tail expression built after the guards
    are made, the value 9 would be forgotten. *)
Example C20_difference :
  let e := [(I "__guard", Some (RDropGuard (PlField 0))); (I "x", Some (RVal 9))] in
  let run b := finish (world_struct [1] b) no_user (Some (RAtom (AVar (I "x")))) e (holding value_struct [] Run) in
  option_map (fun r => destroyed (s_trace (snd r))) (run false) = Some [1; 9] /\
  option_map (fun r => destroyed (s_trace (snd r))) (run true) = Some [1].
Proof. split; vm_compute; reflexivity. Qed.
Example C20_example :
  call_method (world_struct [1] true) "project_replace" (RPin true PlSelf) [RUser other_struct] (holding value_struct [] Run) =
  call_method (world_struct [1] false) "project_replace" (RPin true PlSelf) [RUser other_struct] (holding value_struct [] Run).
Proof. vm_compute. reflexivity. Qed.

(** ** C23: first the body, once, on the value where it is, then the fields. *)
Theorem C23_drop_in_place : forall w a u t x,
  program w a -> ar_pinned_drop a = true -> x = Run \/ x = Unwind ->
  exists ev y, s_trace (drop_self w (holding u t x)) = t ++ [EvBody PlSelf] ++ ev /\ s_stat (drop_self w (holding u t x)) = y /\
    happens (map dropped_in_place (all_fields u)) (panickers w (all_fields u))
      (if w_body_panics w t then after_panic x else x) ev y /\
    (y <> Abort -> drop_self w (holding u t x) = emptied u (t ++ [EvBody PlSelf] ++ ev) y).
Proof. exact c23. Qed.
Print Assumptions C23_drop_in_place.
Theorem C23_drop_elsewhere : forall w a u s,
  program w a -> ar_pinned_drop a = true -> s_stat s = Run \/ s_stat s = Unwind ->
  exists ev y, drop_user w u s = mkSt (s_var s) (s_slots s) (s_trace s ++ [EvBody PlTemp] ++ ev) y /\
    happens (map dropped_elsewhere (all_fields u)) (panickers w (all_fields u))
      (if w_body_panics w (s_trace s) then after_panic (s_stat s) else s_stat s) ev y.
Proof. exact c23_elsewhere. Qed.
Print Assumptions C23_drop_elsewhere.
Example C23_example : program (world_enum [] true) opts_enum /\ ar_pinned_drop opts_enum = true /\
  drop_self (world_enum [] true) (holding value_a [] Run) =
  emptied value_a [EvBody PlSelf; EvDrop (PlField 0) 1; EvDrop (PlField 1) 2] Unwind.
Proof. split; [apply world_enum_program|]. split; vm_compute; reflexivity. Qed.

(** ** C25 *)
Theorem C25_no_drop_impl : forall it e a,
  parse_derive it = Ok e -> options (attrs_of it) a -> ar_pinned_drop a = false ->
  forall x, In x (all_items e) -> ~ implements (support ["__private"; "Drop"]) x.
Proof. exact c25_no_impl. Qed.
Print Assumptions C25_no_drop_impl.
Theorem C25_only_fields : forall w a u t x,
  program w a -> ar_pinned_drop a = false -> x = Run \/ x = Unwind ->
  exists ev y, s_trace (drop_self w (holding u t x)) = t ++ ev /\ s_stat (drop_self w (holding u t x)) = y /\
    happens (map dropped_in_place (all_fields u)) (panickers w (all_fields u)) x ev y /\
    (y <> Abort -> drop_self w (holding u t x) = emptied u (t ++ ev) y).
Proof. exact c25. Qed.
Print Assumptions C25_only_fields.
Theorem C25_only_fields_elsewhere : forall w a u s,
  program w a -> ar_pinned_drop a = false -> s_stat s = Run \/ s_stat s = Unwind ->
  exists ev y, drop_user w u s = mkSt (s_var s) (s_slots s) (s_trace s ++ ev) y /\
    happens (map dropped_elsewhere (all_fields u)) (panickers w (all_fields u)) (s_stat s) ev y.
Proof. exact c25_elsewhere. Qed.
Print Assumptions C25_only_fields_elsewhere.
Example C25_example : program (world_struct [2] false) opts_struct /\ ar_pinned_drop opts_struct = false /\
  drop_self (world_struct [2] false) (holding value_struct [] Run) =
  emptied value_struct [EvDrop (PlField 0) 1; EvDrop (PlField 1) 2; EvDrop (PlField 2) 3; EvDrop (PlField 3) 4] Unwind.
Proof. split; [apply world_struct_program|]. split; vm_compute; reflexivity. Qed.

(** ** C42: the methods do what C14 to C25 say if the names that the user chose
    are different from those of the generated code. *)
Theorem C42_distinct_names_partial : forall w a,
  parse_derive (w_item w) = Ok (w_exp w) -> options (attrs_of (w_item w)) a ->
  (forall fs, In fs (fields_of (w_item w)) -> fields_legal fs) -> NoDup (map name (variant_names (w_item w))) ->
  NoDup (map name (name_of (w_item w) :: param_idents (params_of (w_item w)) ++ generated_names (w_item w) a)) ->
  (forall fs nf, In fs (fields_of (w_item w)) -> In nf (numbered (fields_list fs)) -> w_consts w (field_var nf) = false) ->
  (forall s, In s ["__self_ptr"; "__guard"; "__result"; "__pinned_self"] -> w_consts w (I s) = false) ->
  program w a.
Proof. exact c42_program. Qed.
Print Assumptions C42_distinct_names_partial.
Example C42_example : program (world_enum [] false) opts_enum.
Proof. apply world_enum_program. Qed.

(** The field names for which [project_replace] compiles. *)
Theorem C42_replace_exact_partial : forall w a u vp fs t r,
  program w a -> has_proj POwn (w_item w) a = true -> value_of (w_item w) u vp fs ->
  (call_method w "project_replace" (RPin true PlSelf) [RUser r] (holding u t Run) <> None <-> replaceable fs).
Proof. exact c42_replace. Qed.
Print Assumptions C42_replace_exact_partial.
Example C42_replaceable : replaceable (FNamed fields_ex).
Proof. apply struct_replaceable. Qed.

(** Names for which the generated method does not compile, although the item is
    accepted and there is nothing wrong with it. *)
Theorem C42_field_names_refuted : exists it consts,
  (exists e, parse_derive it = Ok e) /\ (forall fs, In fs (fields_of it) -> fields_legal fs) /\
  call_method (world_of it consts [] false false) "project_replace" (RPin true PlSelf) [RUser (mkUval None [2])]
    (holding (mkUval None [1]) [] Run) = None.
Proof.
  exists f4_item, []. split; [eexists; vm_compute; reflexivity|]. split; [|vm_compute; reflexivity].
  intros fs [<-|[]]. split; [intros f [<-|[]]; discriminate|]. repeat constructor; cbn; intuition discriminate.
Qed.
Print Assumptions C42_field_names_refuted.
Theorem C42_guard_refuted : exists it consts,
  (exists e, parse_derive it = Ok e) /\ (forall fs, In fs (fields_of it) -> fields_legal fs) /\
  call_method (world_of it consts [] false false) "project_replace" (RPin true PlSelf) [RUser (mkUval None [3; 4])]
    (holding (mkUval None [1; 2]) [] Run) = None.
Proof.
  exists f4_guard, []. split; [eexists; vm_compute; reflexivity|]. split; [|vm_compute; reflexivity].
  intros fs [<-|[]]. split; [intros f [<-|[<-|[]]]; discriminate|]. repeat constructor; cbn; intuition discriminate.
Qed.
Print Assumptions C42_guard_refuted.
Theorem C42_projection_name_refuted : exists it consts,
  (exists e, parse_derive it = Ok e) /\
  call_method (world_of it consts [] false false) "project" (RPin true PlSelf) [] (holding (mkUval None [1]) [] Run) = None.
Proof. exists f5_item, []. split; [eexists; vm_compute; reflexivity|vm_compute; reflexivity]. Qed.
Print Assumptions C42_projection_name_refuted.
(** Two spellings of the same name (finding F2). *)
Theorem C42_raw_name_refuted : exists it consts,
  (exists e, parse_derive it = Ok e) /\
  call_method (world_of it consts [] false false) "project" (RPin true PlSelf) [] (holding (mkUval None [1]) [] Run) = None.
Proof. exists f2_item, []. split; [eexists; vm_compute; reflexivity|vm_compute; reflexivity]. Qed.
Print Assumptions C42_raw_name_refuted.
Theorem C42_parameter_name_refuted : exists it consts,
  (exists e, parse_derive it = Ok e) /\
  call_method (world_of it consts [] false false) "project" (RPin true PlSelf) [] (holding (mkUval None [1]) [] Run) = None.
Proof. exists f13_item, []. split; [eexists; vm_compute; reflexivity|vm_compute; reflexivity]. Qed.
Print Assumptions C42_parameter_name_refuted.
Theorem C42_constant_refuted : exists it consts,
  (exists e, parse_derive it = Ok e) /\ name_of it <> I "_0" /\
  call_method (world_of it consts [] false false) "project" (RPin true PlSelf) [] (holding (mkUval None [1]) [] Run) = None.
Proof. exists f10_item, ["_0"]. split; [eexists; vm_compute; reflexivity|]. split; [discriminate|vm_compute; reflexivity]. Qed.
Print Assumptions C42_constant_refuted.
