(** C49: the destructor's body means the same after it is moved. *)
From Coq Require Import String Ascii List Bool.
From Verif Require Import Base Syntax ModelArgs ModelUtils ModelPinnedDrop ModelMeaning SpecLifetime SpecMeaning SpecPinnedDrop SpecBody.
From Verif Require Import ProofsBodyMeaning Examples ExamplesTraits ExamplesMeaning ExamplesPinnedDrop ExamplesBody.
Import ListNotations.
Open Scope string_scope.
Open Scope list_scope.

(** In every universe [U] of types, whatever the names ([n], [f]), the items of
    the body ([loc]) and macro calls ([call]) stand for: the body of the inner
    function is an empty function followed by the very code that was written,
    with every variable, item, path, type, pattern and generic argument resolved.
    [n'] are the names inside the inner function, where there is no [Self]. *)
Theorem C49_body : forall args im im' m p U n n' f loc call,
  pinned_drop_attribute args im = Ok (PdImpl im') -> im_items im = [IIFn m] -> im_self im = TyPath None p ->
  self_type_is U n f p -> moved_names U n n' -> movable U n call p (mt_block m) ->
  exists m' at' vis' sig' body' rest guard,
    im_items im' = [IIFn m'] /\ mt_block m' = YFn at' vis' sig' body' :: rest /\
    res_body loc call (mkEnv n' f) 1 (flat_map arg_vars (fs_inputs sig')) [(fs_ident sig', Item 0 (fs_ident sig'))] body' =
    guard :: res_body loc call (mkEnv n f) 1 [I "self"] [] (mt_block m) /\
    exists s, guard = MFn [] VInherited s [] [] /\ fs_ident s = fs_ident sig'.
Proof. exact pinned_drop_body. Qed.
Print Assumptions C49_body.
Example C49_body_example :
  (exists im', pinned_drop_attribute [] self_impl = Ok (PdImpl im')) /\ im_items self_impl = [IIFn (pd_method self_body)] /\
  im_self self_impl = TyPath None p_foo /\
  self_type_is terms in_impl (fun l => l) p_foo /\ moved_names terms in_impl in_fn /\
  movable terms in_impl call_ex p_foo (mt_block (pd_method self_body)) /\
  replace_block (mkTypePath None p_foo) self_body <> self_body /\ in_fn "Self" <> in_impl "Self".
Proof.
  split; [eexists; vm_compute; reflexivity|]. split; [reflexivity|]. split; [reflexivity|]. split; [apply in_impl_self|].
  split; [apply in_fn_moved|]. split; [apply self_body_movable|]. split; vm_compute; discriminate.
Qed.

(** The receiver, the result, and the generics of the inner function. *)
Theorem C49_signature : forall args im im' m p U n n' f at_ mu r t,
  pinned_drop_attribute args im = Ok (PdImpl im') -> im_items im = [IIFn m] -> im_self im = TyPath None p ->
  fs_inputs (mt_sig m) = [FRecv at_ r mu (Some t)] ->
  self_type_is U n f p -> moved_names U n n' -> movable_sig U n p (im_generics im) t ->
  exists m' at' vis' sig' body' rest ats t',
    im_items im' = [IIFn m'] /\ mt_block m' = YFn at' vis' sig' body' :: rest /\
    fs_inputs sig' = [FTyped ats (QBind mu (I "__self")) t'] /\
    den_ty (mkEnv n' f) t' = den_ty (mkEnv n f) t /\
    fs_out sig' = fs_out (mt_sig m) /\
    den_generics (mkEnv n' f) (fs_generics sig') = den_generics (mkEnv n f) (im_generics im).
Proof. exact pinned_drop_signature. Qed.
Print Assumptions C49_signature.
Example C49_signature_example :
  (exists im', pinned_drop_attribute [] self_where_impl = Ok (PdImpl im')) /\ im_self self_where_impl = TyPath None p_foo /\
  fs_inputs (mt_sig (pd_method self_body)) = [FRecv [] None true (Some pin_self_ty)] /\
  movable_sig terms in_impl p_foo (im_generics self_where_impl) pin_self_ty.
Proof.
  split; [eexists; vm_compute; reflexivity|]. split; [reflexivity|]. split; [reflexivity|]. apply self_where_movable.
Qed.

(** Without [mo_hidden] the claim is false (finding F15): an item of the body
    with the name of the type captures what was [Self]. *)
Theorem C49_hidden_type_refuted : exists im im' m p U n n' f loc call m' at' vis' sig' body' rest,
  pinned_drop_attribute [] im = Ok (PdImpl im') /\ im_items im = [IIFn m] /\ im_self im = TyPath None p /\
  self_type_is U n f p /\ moved_names U n n' /\
  respellable U n p (flat_map nodes_part (flat_map parts_stmt (mt_block m)))
    (fun x => exists t, In t (flat_map parts_stmt (mt_block m)) /\ binds_part x t) /\
  (forall x, In x (flat_map mentions_stmt (mt_block m)) -> x <> I "__self" /\ x <> I "__drop_inner") /\
  (forall x, In x (flat_map binders_stmt (mt_block m)) -> x <> I "self" /\ name x <> "Self") /\
  flat_map calls_stmt (mt_block m) = [] /\
  im_items im' = [IIFn m'] /\ mt_block m' = YFn at' vis' sig' body' :: rest /\
  forall guard, res_body (U := U) loc call (mkEnv n' f) 1 (flat_map arg_vars (fs_inputs sig')) [(fs_ident sig', Item 0 (fs_ident sig'))] body' <>
    guard :: res_body loc call (mkEnv n f) 1 [I "self"] [] (mt_block m).
Proof. exact hidden_type_differs. Qed.
Print Assumptions C49_hidden_type_refuted.
