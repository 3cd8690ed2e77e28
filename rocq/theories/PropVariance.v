(** C61: variance of what the projections return. *)
From Coq Require Import String List Bool.
From Verif Require Import Base Syntax ModelArgs ModelUtils ModelDerive.
From Verif Require Import SpecArgs SpecDerive SpecExpand SpecRun SpecTraits SpecSized SpecVariance.
From Verif Require Import ProofsVariance Examples ExamplesSized ExamplesVariance.
Import ListNotations.
Open Scope string_scope.
Open Scope list_scope.

(** In the parameters of the item: what [project_ref] and [project_replace] return
    varies as the item does, what [project] returns is invariant. *)
Theorem C61_parameters : forall it e v k m t d p,
  parse_derive it = Ok e -> ordered (params_of it) -> variance_rules v it e ->
  In m (inherent_methods e) -> m_name m = proj_method k -> m_ret m = Some t -> param_of it p ->
  let here := declared_ty (name_of it) (params_of it) in
  (v d p t <-> match k with PMut => v Co p here /\ v Contra p here | PRef | POwn => v d p here end).
Proof. exact c61_params. Qed.
Print Assumptions C61_parameters.

(** In the lifetime that the method is generic in. *)
Theorem C61_lifetime : forall it e v k m t lt,
  parse_derive it = Ok e -> ordered (params_of it) -> variance_rules v it e ->
  In m (inherent_methods e) -> m_name m = proj_method k -> m_ret m = Some t -> In lt (m_lts m) ->
  v Co (Lifetime lt) t /\ ~ v Contra (Lifetime lt) t.
Proof. exact c61_lifetime. Qed.
Print Assumptions C61_lifetime.

(** [struct Foo<'a, T> { x: &'a u8, #[pin] y: T }] is covariant in ['a] and [T]. *)
Example C61_example :
  exists e, parse_derive varied = Ok e /\ ordered (params_of varied) /\ variance_rules var_ex varied e /\
  exists ms ts, inherent_methods e = ms /\ map m_name ms = map proj_method [PMut; PRef; POwn] /\ map m_ret ms = map Some ts /\
  map m_lts ms = [["'pin"]; ["'pin"]; []] /\
  map (fun t => map (fun p => map (fun d => varies (inner p) p d t) [Co; Contra]) [Lifetime "'pin"; Lifetime "'a"; Type_ (I "T")]) ts =
    [[[true; false]; [false; false]; [false; false]];
     [[true; false]; [true; false]; [true; false]];
     [[true; true]; [true; false]; [true; false]]].
Proof.
  destruct (parse_derive varied) as [e| |] eqn:He; [|vm_compute in He; discriminate He|vm_compute in He; discriminate He].
  exists e. split; [reflexivity|]. split.
  { exists [PLt "'a" []]. eexists. split; [reflexivity|]. split; [intros p [<-|[]]; reflexivity|]. intros p [<-|[]]; reflexivity. }
  split; [apply var_ex_rules; exact He|]. eexists. eexists. split; [reflexivity|].
  vm_compute in He. injection He as <-.
  split; [vm_compute; reflexivity|]. split; [vm_compute; instantiate (1 := [_; _; _]); reflexivity|].
  split; vm_compute; reflexivity.
Qed.
