(** C24, C36, C37, C40, C44 and the pinned_drop part of C41. *)
From Coq Require Import String Ascii List Bool.
From Verif Require Import Base Syntax ModelArgs ModelUtils ModelPinnedDrop SpecPinnedDrop.
From Verif Require Import ProofsPinnedDrop ProofsBody Examples ExamplesPinnedDrop.
Import ListNotations.
Open Scope string_scope.
Open Scope list_scope.

(** ** C24 *)

(** In the generated method, list every use of a name with the binding it
    refers to.  The inner function that holds the user's body is referred to
    exactly once: by the call at the very end of the method, on the method's own
    receiver.  So nothing in the body, at any depth, can name it. *)
Theorem C24_no_reentry : forall args im im' m',
  pinned_drop_attribute args im = Ok (PdImpl im') -> im_items im' = [IIFn m'] ->
  fs_unsafe (mt_sig m') = true /\
  exists l, body_uses 0 [I "self"] [] (mt_block m') =
    l ++ [Bound (Item 0 (I "__drop_inner")); Bound (Local 0)] /\
    ~ In (Bound (Item 0 (I "__drop_inner"))) l.
Proof. exact pinned_drop_no_reentry. Qed.
Print Assumptions C24_no_reentry.

(** A body that tries: [{ __drop_inner(self) }] calls the empty guard function. *)
Example C24_example : exists im' m',
  pinned_drop_attribute [] (pd_impl [IIFn (pd_method [YExpr (XCall (var (I "__drop_inner")) [var (I "self")])])]) =
    Ok (PdImpl im') /\ im_items im' = [IIFn m'] /\
  body_uses 0 [I "self"] [] (mt_block m') =
    [Bound (Item 1 (I "__drop_inner")); Bound (Local 0); Bound (Item 0 (I "__drop_inner")); Bound (Local 0)].
Proof. do 2 eexists. split; [vm_compute; reflexivity|]. split; [reflexivity|]. vm_compute. reflexivity. Qed.

(** ** C36 *)
Theorem C36_accepts_exactly : forall args im,
  (exists im', pinned_drop_attribute args im = Ok (PdImpl im')) <->
  args = [] /\ good_header im /\ exists m, im_items im = [IIFn m] /\ good_drop m /\ mt_default m = false.
Proof. exact pinned_drop_accepted. Qed.
Print Assumptions C36_accepts_exactly.

Example C36_example : (exists im', pinned_drop_attribute [] pd_ex = Ok (PdImpl im')) /\
  ~ (exists im', pinned_drop_attribute [TIdent (I "x")] pd_ex = Ok (PdImpl im')).
Proof. split; [eexists; vm_compute; reflexivity|]. intros [im' H]. vm_compute in H. discriminate. Qed.

(** A lifetime parameter of [drop] is accepted although the method cannot be
    moved then (finding F11): the function that gets the body takes a parameter
    whose type mentions the lifetime and does not declare it. *)
Theorem C36_undeclared_lifetime : exists im im' m' at' vis' sig' body' rest p t,
  pinned_drop_attribute [] im = Ok (PdImpl im') /\ im_items im' = [IIFn m'] /\ mt_block m' = YFn at' vis' sig' body' :: rest /\
  fs_inputs sig' = [FTyped [] p (TyPath None (Path false [Seg (I "Pin") (GAngle false [ATy (TyRef (Some "a") true t)])]))] /\
  forall bounds, ~ In (PLt "a" bounds) (g_params (fs_generics sig')).
Proof.
  exists pd_lifetime. do 9 eexists. split; [vm_compute; reflexivity|]. split; [reflexivity|]. split; [reflexivity|].
  split; [reflexivity|]. intros bounds [H|[]]. discriminate H.
Qed.
Print Assumptions C36_undeclared_lifetime.

(** ** C37 *)
Theorem C37_body_moved : forall args im im',
  pinned_drop_attribute args im = Ok (PdImpl im') ->
  exists m q p, im_items im = [IIFn m] /\ im_self im = TyPath q p /\ moved (mkTypePath q p) im m im'.
Proof. exact pinned_drop_moved. Qed.
Print Assumptions C37_body_moved.

(** ** C40 *)
Theorem C40_fails_loudly : forall args im r,
  pinned_drop_attribute args im = Ok r -> (forall im', r <> PdImpl im') ->
  exists m d, r = PdError m d /\
    ((exists q p, im_self im = TyPath q p) <-> d <> None) /\
    (forall im', d = Some im' -> empty_impl_for im im').
Proof. exact pinned_drop_fails. Qed.
Print Assumptions C40_fails_loudly.

Example C40_example : exists m d,
  pinned_drop_attribute [] (pd_impl [IIConst (I "X")]) = Ok (PdError m (Some d)) /\
  m = "const `X` is not a member of trait `PinnedDrop`".
Proof. do 2 eexists. split; [vm_compute; reflexivity|reflexivity]. Qed.

(** ** C41, [#[pinned_drop]] *)

(** The only inputs on which the macro panics: a macro call (or other verbatim
    item) as the first item or right after a correct [drop], and [default fn]. *)
Theorem C41_pinned_drop_panic_exact : forall args im, impl_wf im ->
  (exists m, pinned_drop_attribute args im = Panic m) <->
  args = [] /\ good_header im /\
  ((exists r, im_items im = IIOther :: r) \/
   (exists m r, im_items im = IIFn m :: IIOther :: r /\ good_drop m) \/
   (exists m, im_items im = [IIFn m] /\ good_drop m /\ mt_default m = true)).
Proof. exact pinned_drop_panic. Qed.
Print Assumptions C41_pinned_drop_panic_exact.

(** So "never panics" is false (finding F8). *)
Theorem C41_pinned_drop_never_panics_refuted :
  ~ (forall args im, impl_wf im -> forall m, pinned_drop_attribute args im <> Panic m).
Proof. exact pd_never_panics_false. Qed.
Print Assumptions C41_pinned_drop_never_panics_refuted.
Theorem C41_default_fn_panics_refuted : exists im m, impl_wf im /\ pinned_drop_attribute [] im = Panic m /\
  exists d, im_items im = [IIFn d].
Proof. exact pd_never_panics_false'. Qed.
Print Assumptions C41_default_fn_panics_refuted.

Example C41_pinned_drop_example : impl_wf pd_ex /\ exists im', pinned_drop_attribute [] pd_ex = Ok (PdImpl im').
Proof. split; [apply pd_ex_wf|]. eexists. vm_compute. reflexivity. Qed.

(** ** C44 *)

(** If the body avoids the names [__self] and [__drop_inner] and a bare [Self]
    value, then every name in the moved body refers to the same binding as in
    the body as written; the inner function's parameter stands for [self]. *)
Theorem C44_names_keep_meaning : forall args im im' m,
  pinned_drop_attribute args im = Ok (PdImpl im') -> im_items im = [IIFn m] ->
  (forall x, In x (flat_map mentions_stmt (mt_block m)) ->
     x <> I "__self" /\ x <> I "__drop_inner" /\ x <> I "Self") ->
  ~ In (I "self") (flat_map binders_stmt (mt_block m)) ->
  exists m' at' vis' sig' body' rest,
    im_items im' = [IIFn m'] /\ mt_block m' = YFn at' vis' sig' body' :: rest /\
    body_uses 1 (flat_map arg_vars (fs_inputs sig')) [(fs_ident sig', Item 0 (fs_ident sig'))] body' =
    body_uses 1 [I "self"] [] (mt_block m).
Proof. exact pinned_drop_names. Qed.
Print Assumptions C44_names_keep_meaning.

Example C44_example :
  (forall x, In x (flat_map mentions_stmt pd_body) -> x <> I "__self" /\ x <> I "__drop_inner" /\ x <> I "Self") /\
  ~ In (I "self") (flat_map binders_stmt pd_body) /\
  body_uses 1 [I "self"] [] pd_body =
    [Bound (Local 0); Bound (Local 0); Bound (Item 1 (I "helper")); Bound (Local 1); Bound (Local 1);
     Bound (Local 2); Free (I "__self_"); Bound (Local 3); Bound (Local 0)].
Proof.
  split; [|split].
  - intros x Hx. vm_compute in Hx.
    repeat (destruct Hx as [Hx|Hx]; [subst x; repeat split; discriminate|]). destruct Hx.
  - vm_compute. intuition discriminate.
  - vm_compute. reflexivity.
Qed.

(** Without the restriction the statement is false: a local variable [__self]
    captures the receiver (finding F12). *)
Theorem C44_capture_refuted : exists im im' m m' at' vis' sig' body' rest,
  pinned_drop_attribute [] im = Ok (PdImpl im') /\ im_items im = [IIFn m] /\
  ~ In (I "self") (flat_map binders_stmt (mt_block m)) /\
  im_items im' = [IIFn m'] /\ mt_block m' = YFn at' vis' sig' body' :: rest /\
  body_uses 1 [I "self"] [] (mt_block m) = [Free (I "use_it"); Bound (Local 0)] /\
  body_uses 1 (flat_map arg_vars (fs_inputs sig')) [(fs_ident sig', Item 0 (fs_ident sig'))] body' =
    [Free (I "use_it"); Bound (Local 1)].
Proof. exact pd_capture_breaks. Qed.
Print Assumptions C44_capture_refuted.
