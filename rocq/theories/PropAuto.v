(** C59: auto traits of what the projections return. *)
From Coq Require Import String List Bool.
From Verif Require Import Base Syntax ModelArgs ModelUtils ModelDerive.
From Verif Require Import SpecArgs SpecDerive SpecExpand SpecRun SpecTraits SpecSized SpecAuto.
From Verif Require Import ProofsAuto Examples ExamplesAuto.
Import ListNotations.
Open Scope string_scope.
Open Scope list_scope.

Theorem C59_send : forall it e h k m t,
  parse_derive it = Ok e -> ordered (g_params (generics_of it)) -> auto_rules h e ->
  In m (inherent_methods e) -> m_name m = proj_method k -> m_ret m = Some t ->
  (h Send t <-> fields_have it (match k with PRef => Sync | PMut | POwn => Send end) h).
Proof. exact c59_send. Qed.
Print Assumptions C59_send.

Theorem C59_sync : forall it e h k m t,
  parse_derive it = Ok e -> ordered (g_params (generics_of it)) -> auto_rules h e ->
  In m (inherent_methods e) -> m_name m = proj_method k -> m_ret m = Some t ->
  (h Sync t <-> fields_have it Sync h).
Proof. exact c59_sync. Qed.
Print Assumptions C59_sync.

Theorem C59_unpin : forall it e h k m t,
  parse_derive it = Ok e -> ordered (g_params (generics_of it)) -> auto_rules h e ->
  In m (inherent_methods e) -> m_name m = proj_method k -> m_ret m = Some t ->
  (h Unpin t <-> match k with PMut | PRef => True | POwn => fields_have it Unpin h end).
Proof. exact c59_unpin. Qed.
Print Assumptions C59_unpin.

(** [T] is [Send] but not [Sync] or [Unpin]: so is what [project_replace]
    returns, while the result of [project] is [Send] and [Unpin] and that of
    [project_ref] is only [Unpin]. *)
Example C59_example : let it := ItStruct (struct_ex args_struct) in
  exists e, parse_derive it = Ok e /\ ordered (g_params (generics_of it)) /\ auto_rules auto_ex e /\
  exists ms ts, inherent_methods e = ms /\ map m_name ms = map proj_method [PMut; PRef; POwn] /\ map m_ret ms = map Some ts /\
  map (fun t => map (fun x => auto_b x t) [Send; Sync; Unpin]) ts = [[true; false; true]; [false; false; true]; [true; false; false]].
Proof.
  intros it. destruct (parse_derive it) as [e| |] eqn:He; [|vm_compute in He; discriminate He|vm_compute in He; discriminate He].
  exists e. split; [reflexivity|]. split.
  { exists [PLt "'pin" []]. eexists. split; [reflexivity|]. split; [intros p [<-|[]]; reflexivity|].
    intros p [<-|[<-|[<-|[]]]]; reflexivity. }
  split; [apply auto_ex_rules; exact He|]. eexists. eexists. split; [reflexivity|].
  vm_compute in He. injection He as <-.
  split; [vm_compute; reflexivity|]. split; [vm_compute; instantiate (1 := [_; _; _]); reflexivity|]. vm_compute. reflexivity.
Qed.
