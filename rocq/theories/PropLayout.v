(** C35: alignment. *)
From Coq Require Import String List Bool Arith.
From Verif Require Import Base Syntax ModelArgs ModelUtils ModelDerive ModelRun ModelLayout.
From Verif Require Import SpecArgs SpecDerive SpecExpand SpecRun SpecLayout.
From Verif Require Import ProofsLayout Examples ExamplesRun.
Import ListNotations.
Open Scope string_scope.
Open Scope list_scope.

(** Every field is aligned, in every instance and layout. *)
Theorem C35_aligned : forall s e inst aligns pack,
  parse_derive (ItStruct s) = Ok e -> fields_legal (s_fields s) -> check_compiles s e inst aligns pack ->
  forall a y i k, layout_legal pack (aligns a) y -> nth_error (aligns a) i = Some k -> Nat.divide (2 ^ k) (address y i).
Proof. exact c35. Qed.
Print Assumptions C35_aligned.

(** The references that [project] and [project_ref] return are aligned. *)
Theorem C35_references : forall w s a u t m k r i inst aligns pack st,
  program w a -> w_item w = ItStruct s -> has_proj k (w_item w) a = true -> value_of (w_item w) u [] (s_fields s) ->
  check_compiles s (w_exp w) inst aligns pack ->
  (m, k) = ("project", PMut) \/ (m, k) = ("project_ref", PRef) ->
  call_method w m (RPin (match k with PMut => true | _ => false end) PlSelf) [] (holding u t Run) = Some (Some r, st) ->
  refers r i -> forall b y, layout_legal pack (aligns b) y ->
  exists al, nth_error (aligns b) i = Some al /\ Nat.divide (2 ^ al) (address y i).
Proof. exact c35_references. Qed.
Print Assumptions C35_references.

(** No field is moved before its destructor runs. *)
Theorem C35_not_moved : forall s e inst aligns pack,
  parse_derive (ItStruct s) = Ok e -> fields_legal (s_fields s) -> check_compiles s e inst aligns pack ->
  forall a i, ~ moved_before_drop inst aligns pack a i.
Proof. exact c35_drop. Qed.
Print Assumptions C35_not_moved.

(** [repr(packed)] with fields of alignment 1 compiles, and any value of
    [struct_ex] without [packed]; with [packed(2)] and an alignment of 8 the
    check does not compile. *)
Example C35_example : let s := struct_ex args_struct in exists e, parse_derive (ItStruct s) = Ok e /\
  fields_legal (s_fields s) /\
  check_compiles s e unit (fun _ => [0; 0; 0; 0]) (Some 0) /\
  check_compiles s e nat (fun n => [n; 3; 0; n]) None /\
  layout_legal None [3; 3; 0; 2] (mkLayout 16 (fun i => nth i [0; 8; 20; 16] 0)) /\
  layout_legal (Some 1) [3; 3; 0; 2] (mkLayout 2 (fun i => nth i [0; 2; 4; 6] 0)) /\
  ~ check_compiles s e unit (fun _ => [0; 3; 0; 0]) (Some 1).
Proof.
  cbn zeta. let r := eval vm_compute in (parse_derive (ItStruct (struct_ex args_struct))) in
    match r with Ok ?e => exists e end.
  split; [vm_compute; reflexivity|]. split.
  { split; [intros f [<-|[<-|[<-|[<-|[]]]]]; discriminate|]. repeat constructor; cbn; intuition discriminate. }
  assert (OK : forall inst (aligns : inst -> list nat) pack l, (forall a, length (aligns a) = 4) -> (forall i, borrow_ok inst aligns pack i) ->
    forallb (fun it => match it with OAssert _ _ ms => forallb (fun m => match resolve (FNamed fields_ex) m with Some _ => true | None => false end) ms | _ => true end) l = true ->
    (forall a, length (aligns a) = length (fields_list (FNamed fields_ex))) /\
    (forall it, In it l -> assert_compiles inst aligns pack (tp_ty (own_type (I "Foo") generics_ex)) (FNamed fields_ex) it)).
  { intros inst aligns pack l Hn Hb Hl. split; [exact Hn|]. intros it Hit. rewrite forallb_forall in Hl. specialize (Hl it Hit).
    destruct it; try exact Logic.I. intros _ m Hm. rewrite forallb_forall in Hl. specialize (Hl m Hm).
    destruct (resolve (FNamed fields_ex) m); [apply Hb|discriminate]. }
  split; [|split; [|split; [|split]]].
  - apply OK; [reflexivity| |vm_compute; reflexivity]. intros i a k p Hi Hp. injection Hp as <-.
    do 5 (destruct i as [|i]; cbn in Hi; [try discriminate; injection Hi as <-; constructor|]). destruct i; discriminate.
  - apply OK; [reflexivity| |vm_compute; reflexivity]. intros i a k p Hi Hp. discriminate.
  - split; [exists 3; split; [repeat constructor|exists 2; reflexivity]|]. intros i k Hi.
    destruct i as [|[|[|[|[|i]]]]]; cbn in Hi; try discriminate; injection Hi as <-; cbn; [exists 0|exists 1|exists 20|exists 4]; reflexivity.
  - split; [exists 1; split; [repeat constructor|exists 1; reflexivity]|]. intros i k Hi.
    destruct i as [|[|[|[|[|i]]]]]; cbn in Hi; try discriminate; injection Hi as <-; cbn; [exists 0|exists 1|exists 4|exists 3]; reflexivity.
  - intros [_ H].
    assert (X : exists g t ms, In (OAssert g t (MNamed (I "a") :: MNamed (I "b") :: ms)) (scoped (match parse_derive (ItStruct (struct_ex args_struct)) with Ok e => e | _ => mkExpansion [] [] end)) /\ t = tp_ty (own_type (I "Foo") generics_ex)).
    { eexists _, _, _. split; [|reflexivity]. vm_compute. do 20 (try (left; reflexivity); right). }
    destruct X as (g & t & ms & Hin & Et).
    specialize (H (OAssert g t (MNamed (I "a") :: MNamed (I "b") :: ms)) ltac:(vm_compute in Hin |- *; exact Hin) Et (MNamed (I "b")) (or_intror (or_introl eq_refl))).
    specialize (H tt 3 1 eq_refl eq_refl). inversion H as [|? H']. inversion H'.
Qed.
Example C35_references_example :
  program (world_struct [] false) opts_struct /\ value_of (w_item (world_struct [] false)) value_struct [] (FNamed fields_ex) /\
  exists r st, call_method (world_struct [] false) "project" (RPin true PlSelf) [] (holding value_struct [] Run) = Some (Some r, st) /\
  refers r 0 /\ refers r 1.
Proof.
  split; [apply world_struct_program|]. split; [apply V_struct; reflexivity|].
  eexists _, _. split; [vm_compute; reflexivity|]. split; [eapply Ref_pinned; left; reflexivity|eapply Ref_plain; right; left; reflexivity].
Qed.
