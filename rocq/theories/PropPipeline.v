(** C04, C05, C06, C07, C34 and the pin_project part of C41. *)
From Coq Require Import String Ascii List Bool.
From Verif Require Import Base Syntax ModelArgs ModelUtils ModelAttribute ModelDerive ModelPipeline.
From Verif Require Import SpecArgs SpecDerive SpecPipeline ProofsArgs ProofsRepr ProofsDerive ProofsPipeline Examples.
Import ListNotations.
Open Scope string_scope.
Open Scope list_scope.

(** ** C04 *)

(** The attribute stage keeps the body and all attributes in order; it only
    appends the derive and the marker that carries the argument tokens. *)
Theorem C04_item_kept : forall args input r,
  parse_attribute args input = Ok r ->
  ri_body r = ri_body input /\
  exists d m, ri_attrs r = ri_attrs input ++ [RAttr d; RAttr m] /\
    attr_named d "derive" /\ a_meta d = MList Paren (rooted ["pin_project"; "__private"; "__PinProjectInternalDerive"]) /\
    attr_named m "pin" /\ a_meta m = MList Paren [TIdent (I "__private"); TGroup Paren args].
Proof. exact attribute_keeps. Qed.
Print Assumptions C04_item_kept.

(** The derive reads back exactly the argument tokens, after configuration. *)
Theorem C04_arguments_read_back : forall holds args input r it,
  parse_attribute args input = Ok r -> strip_item holds r = Some it ->
  unrelated (fst (expand_attrs holds (ri_attrs input))) ->
  parse_args (item_attrs it) = args_parse args.
Proof. exact handover_item. Qed.
Print Assumptions C04_arguments_read_back.

(** Unrelated attributes that other macros put before or after the marker make
    no difference. *)
Theorem C04_other_attributes : forall l1 l2 args,
  unrelated l1 -> unrelated l2 ->
  parse_args (l1 ++ pin_attr args :: l2) = args_parse args.
Proof. exact parse_args_handover. Qed.
Print Assumptions C04_other_attributes.

Example C04_example :
  parse_args ([doc_attr; repr_c] ++ pin_attr args_struct :: [doc_attr]) = Ok opts_struct /\
  unrelated [doc_attr; repr_c].
Proof.
  split; [vm_compute; reflexivity|].
  intros x [<-|[<-|[]]]; split; intros [_ H]; discriminate.
Qed.

(** ** C05 *)

(** [#[pin]] or a second [#[pin_project]] on the item. *)
Theorem C05_on_item_rejected : forall args input,
  (exists x, In (RAttr x) (ri_attrs input) /\ (attr_named x "pin" \/ attr_named x "pin_project")) ->
  exists m, parse_attribute args input = Err m.
Proof. exact attribute_rejects. Qed.
Print Assumptions C05_on_item_rejected.

(** Whatever happened to the attributes between the stages: unless there is
    exactly one [#[pin]] and it is the marker, and no [#[pin_project]], the
    derive fails.  (A macro panic is a compile error as well.) *)
Theorem C05_marker_damaged_rejected : forall it,
  ~ (exists ts, marked (item_attrs it) ts) ->
  (exists m, parse_derive it = Err m) \/
  (marker_replaced (item_attrs it) /\ exists m, parse_derive it = Panic m).
Proof. exact derive_unmarked. Qed.
Print Assumptions C05_marker_damaged_rejected.

Example C05_example :
  (* the marker was removed; it was doubled; another macro added [#[pin]] *)
  (exists m, parse_derive (ItEnum (mkEnum [doc_attr] VPub (I "E") (mkGenerics [] None) (e_variants (enum_ex [])))) = Err m) /\
  (exists m, parse_derive (ItEnum (mkEnum [pin_attr args_enum; pin_attr []] VPub (I "E") (mkGenerics [] None) (e_variants (enum_ex [])))) = Err m) /\
  (exists m, parse_derive (ItEnum (mkEnum [pin_attr args_enum; pin_mark] VPub (I "E") (mkGenerics [] None) (e_variants (enum_ex [])))) = Err m).
Proof. split; [|split]; eexists; vm_compute; reflexivity. Qed.

(** ** C06 *)

(** What is generated depends only on the configured item. *)
Theorem C06_only_configured_matters : forall holds args r r' e,
  strip_item holds r = strip_item holds r' ->
  pipeline holds (fun x => x) args r = Ok (Some e) -> pipeline holds (fun x => x) args r' = Ok (Some e).
Proof. exact pipeline_same. Qed.
Print Assumptions C06_only_configured_matters.

(** Removing a disabled field, variant or generic parameter from the source
    changes nothing, not even the error. *)
Theorem C06_disabled_irrelevant : forall holds args attrs b b',
  without holds b b' ->
  pipeline holds (fun x => x) args (mkRItem attrs b) = pipeline holds (fun x => x) args (mkRItem attrs b').
Proof. exact pipeline_without. Qed.
Print Assumptions C06_disabled_irrelevant.

(** Nor does writing out what a [cfg] or [cfg_attr] inside of the item stands for. *)
Theorem C06_resolved : forall holds args attrs b b',
  resolved_inside holds b b' ->
  pipeline holds (fun x => x) args (mkRItem attrs b) = pipeline holds (fun x => x) args (mkRItem attrs b').
Proof. exact pipeline_resolved. Qed.
Print Assumptions C06_resolved.
(** On the item itself it does not change what is accepted and generated. *)
Theorem C06_resolved_item : forall holds args attrs attrs' b e,
  resolved holds attrs attrs' ->
  (pipeline holds (fun x => x) args (mkRItem attrs b) = Ok (Some e) <->
   pipeline holds (fun x => x) args (mkRItem attrs' b) = Ok (Some e)).
Proof. exact pipeline_resolved_item. Qed.
Print Assumptions C06_resolved_item.
(** When nothing is left to resolve, the derive sees the item as it was written. *)
Theorem C06_plain : forall holds args it e,
  pipeline holds (fun x => x) args (source it) = Ok (Some e) <->
  parse_derive (with_attrs it [derive_attr; pin_attr args]) = Ok e.
Proof. exact pipeline_source. Qed.
Print Assumptions C06_plain.

(** [struct S { #[pin] a: T, #[cfg(0)] #[pin] #[pin] b: T, #[cfg_attr(1, pin)] c: U }] with 0 off and 1 on *)
Example C06_example :
  let off := mkRField [RCfg 0; RAttr pin_mark; RAttr pin_mark] VInherited (Some (I "b")) (tid "T") in
  without (Nat.eqb 1) (ri_body (raw_ex [off])) (ri_body (raw_ex [])) /\
  exists e, pipeline (Nat.eqb 1) (fun x => x) [] (raw_ex [off]) = Ok (Some e) /\
            pipeline (Nat.eqb 1) (fun x => x) [] (raw_ex []) = Ok (Some e).
Proof.
  cbn zeta. split.
  - apply Ch_field, CF_named. apply (Drops _
      [mkRField [RAttr pin_mark] VInherited (Some (I "a")) (tid "T")] _
      [mkRField [RCfgAttr 1 [RAttr pin_mark]] VInherited (Some (I "c")) (tid "U")]).
    exists 0. split; [left; reflexivity|reflexivity].
  - eexists. split; vm_compute; reflexivity.
Qed.
(** The same with [#[pin] c: U], and with [#[repr(..)]] instead of [#[cfg_attr(1, repr(..))]] on the item. *)
Example C06_resolved_example : exists fs it e,
  resolved_inside (Nat.eqb 1) (ri_body (raw_ex [])) (RStruct VPub (I "S") (mkRGenerics [] None) (RNamed fs)) /\
  resolved (Nat.eqb 1) (ri_attrs (raw_ex [])) [RAttr doc_attr; RAttr repr_c] /\
  source it = mkRItem [RAttr doc_attr; RAttr repr_c] (RStruct VPub (I "S") (mkRGenerics [] None) (RNamed fs)) /\
  pipeline (Nat.eqb 1) (fun x => x) [] (raw_ex []) = Ok (Some e) /\
  parse_derive (with_attrs it [derive_attr; pin_attr []]) = Ok e.
Proof.
  set (a := mkRField [RAttr pin_mark] VInherited (Some (I "a")) (tid "T")).
  set (c := mkRField [RAttr pin_mark] VInherited (Some (I "c")) (tid "U")).
  exists [a; c], (ItStruct (mkStruct [doc_attr; repr_c] VPub (I "S") (mkGenerics [] None)
    (FNamed [mkField [pin_mark] VInherited (Some (I "a")) (tid "T"); mkField [pin_mark] VInherited (Some (I "c")) (tid "U")]))).
  eexists. split.
  { apply Ch_field, CF_named. apply (At_one _ [a] (mkRField [RCfgAttr 1 [RAttr pin_mark]] VInherited (Some (I "c")) (tid "U")) c []).
    split; [|reflexivity]. apply (Re_on _ 1 [RAttr pin_mark] [] []). reflexivity. }
  split; [apply (Re_on _ 1 [RAttr repr_c] [RAttr doc_attr] []); reflexivity|].
  split; [reflexivity|]. split; vm_compute; reflexivity.
Qed.

(** ** C07 *)
Theorem C07_struct_accepted : forall s,
  is_ok (parse_derive (ItStruct s)) <-> exists a, accepts_struct s a.
Proof. exact struct_accepted. Qed.
Print Assumptions C07_struct_accepted.

Theorem C07_enum_accepted : forall e,
  is_ok (parse_derive (ItEnum e)) <-> exists a, accepts_enum e a.
Proof. exact enum_accepted. Qed.
Print Assumptions C07_enum_accepted.

(** Everything else is a proper error, unless another macro replaced the marker. *)
Theorem C07_others_rejected : forall it,
  (forall e, parse_derive it <> Ok e) -> ~ marker_replaced (item_attrs it) ->
  exists m, parse_derive it = Err m.
Proof. exact derive_not_accepted. Qed.
Print Assumptions C07_others_rejected.
Theorem C07_other_items_rejected : exists m, parse_derive ItOther = Err m.
Proof. exact (ex_intro _ _ eq_refl). Qed.
Print Assumptions C07_other_items_rejected.

Example C07_example :
  is_ok (parse_derive (ItStruct (struct_ex args_struct))) /\ is_ok (parse_derive (ItEnum (enum_ex args_enum))) /\
  (* [project_replace] without a name on an enum *)
  (exists m, parse_derive (ItEnum (enum_ex [TIdent (I "project_replace")])) = Err m) /\
  (* the name of the type itself *)
  (exists m, parse_derive (ItStruct (struct_ex [TIdent (I "project"); TPunct "=" false; TIdent (I "Foo")])) = Err m).
Proof. split; [|split; [|split]]; eexists; vm_compute; reflexivity. Qed.

(** ** C34 *)
Theorem C34_packed_struct_rejected : forall s, repr_packed (s_attrs s) -> ~ is_ok (parse_derive (ItStruct s)).
Proof. exact struct_packed. Qed.
Print Assumptions C34_packed_struct_rejected.
Theorem C34_packed_enum_rejected : forall e, repr_packed (e_attrs e) -> ~ is_ok (parse_derive (ItEnum e)).
Proof. exact enum_packed. Qed.
Print Assumptions C34_packed_enum_rejected.

(** Any other (well-formed) [repr] list has no influence on acceptance. *)
Theorem C34_other_reprs_irrelevant_struct : forall s,
  is_ok (parse_derive (ItStruct s)) <->
  reprs_ok (s_attrs s) /\ is_ok (parse_derive (ItStruct (struct_without_reprs s))).
Proof. exact struct_repr_iff. Qed.
Print Assumptions C34_other_reprs_irrelevant_struct.
Theorem C34_other_reprs_irrelevant_enum : forall e,
  is_ok (parse_derive (ItEnum e)) <->
  reprs_ok (e_attrs e) /\ is_ok (parse_derive (ItEnum (enum_without_reprs e))).
Proof. exact enum_repr_iff. Qed.
Print Assumptions C34_other_reprs_irrelevant_enum.

(** [#[repr(C, packed(2))]] in the second of two [repr] attributes *)
Example C34_example :
  repr_packed [repr_c; repr_c_packed; pin_attr []] /\
  is_ok (parse_derive (ItStruct (struct_ex args_struct))) /\
  In repr_c (s_attrs (struct_ex args_struct)).
Proof.
  split; [|split; [eexists; vm_compute; reflexivity|right; left; reflexivity]].
  exists repr_c_packed, Paren. do 2 eexists. split; [right; left; reflexivity|]. split; [split; reflexivity|].
  split; [reflexivity|]. split.
  - apply (ES_more (false, [I "C"]) [TIdent (I "C")]).
    + apply EW_path. apply MP_rel. apply PS_one. left. right. vm_compute. intuition discriminate.
    + apply ES_last. apply (EW_list false [I "packed"] [TIdent (I "packed")]); [|discriminate].
      apply MP_rel. apply PS_one. left. right. vm_compute. intuition discriminate.
  - right. left. reflexivity.
Qed.

(** ** C41, [#[pin_project]] *)

(** With nothing between the stages there is never a panic. *)
Theorem C41_pin_project_never_panics_partial : forall holds args input m,
  pipeline holds (fun r => r) args input <> Panic m.
Proof. exact pipeline_no_panic. Qed.
Print Assumptions C41_pin_project_never_panics_partial.

(** The derive on its own panics exactly when another macro replaced the marker. *)
Theorem C41_derive_panic_exact : forall it,
  (exists m, parse_derive it = Panic m) <-> marker_replaced (item_attrs it).
Proof. exact parse_derive_panic. Qed.
Print Assumptions C41_derive_panic_exact.

Example C41_example : marker_replaced [doc_attr; mkAttr false [I "pin"] (MList Paren [TIdent (I "foo")])].
Proof.
  split.
  - intros x [<-|[<-|[]]] [_ H]; discriminate.
  - exists [doc_attr], (mkAttr false [I "pin"] (MList Paren [TIdent (I "foo")])), Paren, [TIdent (I "foo")], [].
    split; [reflexivity|]. split; [split; reflexivity|]. split; [reflexivity|]. split.
    + right. exists (I "foo"). split; [right; vm_compute; intuition discriminate|reflexivity].
    + intros y [<-|[]] [_ H]; discriminate.
Qed.
