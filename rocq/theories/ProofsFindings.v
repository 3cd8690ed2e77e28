(** Concrete programs on which a stronger property fails. *)
From Coq Require Import String Ascii List Bool Arith Lia.
From Verif Require Import Base Syntax ModelArgs ModelUtils ModelAttribute ModelDerive ModelPipeline ModelPinnedDrop.
From Verif Require Import SpecArgs SpecDerive SpecLifetime SpecExpand SpecVis SpecParse.
From Verif Require Import ProofsUtils ProofsDerive ProofsExpand ProofsTypes ProofsVis Examples.
Import ListNotations.
Open Scope string_scope.
Open Scope list_scope.

(** F3: [#[pin_project] struct S { f: for<'pin> fn(&'pin u8) }] *)
Definition f3_struct : item_struct :=
  mkStruct [pin_attr []] VPub (I "S") (mkGenerics [] None)
    (FNamed [mkField [] VInherited (Some (I "f")) (TyFn ["'pin"] [TyRef (Some "'pin") false (tid "u8")] None)]).
Lemma field_binder : exists s e f lt,
  parse_derive (ItStruct s) = Ok e /\ pin_lifetime (s_generics s) lt /\
  In f (fields_list (s_fields s)) /\ binds_ty lt (f_ty f).
Proof.
  exists f3_struct. eexists. exists (mkField [] VInherited (Some (I "f")) (TyFn ["'pin"] [TyRef (Some "'pin") false (tid "u8")] None)).
  exists "'pin". split; [vm_compute; reflexivity|]. split.
  - exact (pin_lifetime_det (s_generics f3_struct)).
  - split; [left; reflexivity|]. apply DT_fn. left. reflexivity.
Qed.

(** F7: [#[pin_project] pub(self) struct S { f: u8 }] *)
Definition f7_struct : item_struct :=
  mkStruct [pin_attr []] (VRestricted false [I "self"]) (I "S") (mkGenerics [] None)
    (FNamed [mkField [] VInherited (Some (I "f")) (tid "u8")]).
Lemma pub_self_breaks : exists s e a v n g fs' m,
  parse_derive (ItStruct s) = Ok e /\ options (s_attrs s) a /\ legal Rust2018 m (s_vis s) /\
  In (OStruct v n g fs') (all_items e) /\ n <> helper_name (s_ident s) /\ ~ same_in_crate Rust2018 m (s_vis s) v.
Proof.
  exists f7_struct. eexists. exists (mkArgs false UDefault None None PRNone).
  exists (VRestricted false [I "__self"]), (I "__SProjection"). do 2 eexists. exists [I "m"].
  split; [vm_compute; reflexivity|]. split; [apply parse_args_iff; vm_compute; reflexivity|].
  split; [exists [I "m"]; split; [reflexivity|exists []; reflexivity]|].
  split; [right; left; vm_compute; reflexivity|]. split; [discriminate|].
  intros [(t & E & r & Hr) _]. vm_compute in E. discriminate.
Qed.
Definition f7_struct_in : item_struct :=
  mkStruct (s_attrs f7_struct) (VRestricted true [I "self"]) (s_ident f7_struct) (s_generics f7_struct) (s_fields f7_struct).
Lemma pub_self_grows : exists s e a v n g fs' m w,
  parse_derive (ItStruct s) = Ok e /\ options (s_attrs s) a /\ legal Rust2015 m (s_vis s) /\
  In (OStruct v n g fs') (all_items e) /\ n <> helper_name (s_ident s) /\ legal Rust2015 m v /\
  visible Rust2015 m v w /\ ~ visible Rust2015 m (s_vis s) w.
Proof.
  exists f7_struct_in. eexists. exists (mkArgs false UDefault None None PRNone).
  exists (VRestricted true [I "__self"]), (I "__SProjection"). do 2 eexists.
  exists [I "__self"; I "m"], (Inside [I "__self"]).
  split; [vm_compute; reflexivity|]. split; [apply parse_args_iff; vm_compute; reflexivity|].
  split; [exists [I "__self"; I "m"]; split; [reflexivity|exists []; reflexivity]|].
  split; [right; left; vm_compute; reflexivity|]. split; [discriminate|].
  split; [exists [I "__self"]; split; [reflexivity|exists [I "m"]; reflexivity]|].
  split; [exists [I "__self"], [I "__self"]; split; [reflexivity|]; split; [reflexivity|exists []; reflexivity]|].
  intros (t & x & E & Hx & r & Hr). vm_compute in E. injection E as <-. injection Hx as <-. discriminate.
Qed.

(** ** F16: [impl PinnedDrop for Foo<> { fn drop(self: Pin<&mut Self>) { Self; } }] *)
Lemma empty_brackets : exists im im' lead segs,
  pinned_drop_attribute [] im = Ok (PdImpl im') /\ parses_impl im = true /\ im_self im = TyPath None (Path lead segs) /\
  parses_impl im' = false.
Proof.
  exists (mkItemImpl [] false false (mkGenerics [] None) (Some (false, Path false [seg1 "PinnedDrop"]))
    (TyPath None (Path false [Seg (I "Foo") (GAngle false [])]))
    [IIFn (mkIMethod [] VInherited false
       (mkSig false false false false (I "drop") (mkGenerics [] None)
          [FRecv [] None false (Some (TyPath None (Path false [Seg (I "Pin") (GAngle false [ATy (TyRef None true ty_self)])])))]
          false None) [YExpr (var (I "Self"))])]).
  do 3 eexists. split; [vm_compute; reflexivity|]. split; [vm_compute; reflexivity|]. split; [reflexivity|]. vm_compute. reflexivity.
Qed.
