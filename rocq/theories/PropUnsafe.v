(** C51: no code of the user gets into an unsafe context. *)
From Coq Require Import String List Bool.
From Verif Require Import Base Syntax ModelArgs ModelUtils ModelDerive ModelPinnedDrop.
From Verif Require Import SpecArgs SpecDerive SpecExpand SpecMeaning SpecUnsafe.
From Verif Require Import ProofsUnsafe Examples ExamplesPinnedDrop.
Import ListNotations.
Open Scope string_scope.
Open Scope list_scope.

(** The operations of the expanded [drop], in order, are those of the written one
    in the same contexts, safe or unsafe, and then the call that is generated, in
    the unsafe context of the outer method.  The written method is a safe one. *)
Theorem C51_destructor : forall args im im' m,
  pinned_drop_attribute args im = Ok (PdImpl im') -> im_items im = [IIFn m] ->
  exists m', im_items im' = [IIFn m'] /\ fs_unsafe (mt_sig m) = false /\
    contexts_method m' = contexts_method m ++ [("call", true); ("path", true); ("path", true)].
Proof. exact c51_destructor. Qed.
Print Assumptions C51_destructor.

Example C51_destructor_example :
  (exists im', pinned_drop_attribute [] unsafe_impl = Ok (PdImpl im')) /\
  im_items unsafe_impl = [IIFn (pd_method unsafe_body)] /\
  contexts_method (pd_method unsafe_body) =
    [("unsafe", false); ("block", true); ("call", true); ("path", true); ("closure", false); ("*", false); ("path", false)].
Proof. split; [eexists; vm_compute; reflexivity|]. split; reflexivity. Qed.

(** The bodies of the methods that the derive generates (which are [unsafe]
    blocks) contain no type of the user, so no macro call, array length or other
    code that the user wrote. *)
Theorem C51_derive : forall it e im m t,
  parse_derive it = Ok e -> In (OImpl im) (all_items e) -> In m (i_methods im) ->
  In t (types_body (m_body m)) -> t = TyPtr true (ty_ident (I "Self")).
Proof. exact c51_derive. Qed.
Print Assumptions C51_derive.

Example C51_derive_example : exists e im m,
  parse_derive (ItStruct (struct_ex args_struct)) = Ok e /\ In (OImpl im) (all_items e) /\ In m (i_methods im) /\
  types_body (m_body m) <> [].
Proof.
  eexists. eexists. eexists. split; [vm_compute; reflexivity|]. split; [do 4 right; left; reflexivity|].
  split; [do 2 right; left; reflexivity|]. discriminate.
Qed.
