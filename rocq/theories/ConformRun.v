(** The model against the run-time test of the order of destructors.

    Each scope of /repo/tests/drop_order.rs makes values [D(&c, n)], whose
    destructors check that they run in the order 1, 2, ..  A scope is run in the
    model: the generated [project_replace] is called, its result is dropped, then
    the pinned value; the destructors must run in that order.
    This file is generated from the test (conform/gen_run.py); it checks the
    model, and no theorem depends on it. *)
From Coq Require Import String Ascii List Bool.
From Verif Require Import Base Syntax ModelArgs ModelUtils ModelAttribute ModelDerive ModelPipeline ModelRun SpecRun.
Import ListNotations.
Open Scope string_scope.
Open Scope list_scope.

Definition no_item : item := ItStruct (mkStruct [] VInherited (I "") (mkGenerics [] None) FUnit).
(** The item that the derive gets. *)
Definition derive_input (args : list ttree) (r : raw_item) : item :=
  match parse_attribute args r with
  | Ok r => match strip_item (fun _ => true) r with Some it => it | None => no_item end
  | _ => no_item
  end.
Definition world_for (args : list ttree) (r : raw_item) (leaky : bool) : world :=
  let it := derive_input args r in
  mkWorld it (match parse_derive it with Ok e => e | _ => mkExpansion [] [] end) (fun _ => false) (fun _ => false) (fun _ => false) leaky.
(** [{ let _x = u; }] *)
Definition scope_new (w : world) (u : uval) : list nat := destroyed (s_trace (drop_self w (start u))).
(** [{ let mut x = u; let y = Pin::new(&mut x); let _z = y.project_replace(r); }] *)
Definition scope_replace (w : world) (u r : uval) : list nat :=
  match call_method w "project_replace" (RPin true PlSelf) [RUser r] (start u) with
  | Some (Some z, s) => destroyed (s_trace (drop_self w (drop_rv w (drop_user w) z s)))
  | _ => []
  end.

(** /repo/tests/drop_order.rs:21 *)
Definition w_StructPinned (leaky : bool) : world := world_for [TIdent (I "project_replace")]
  (mkRItem [] (RStruct VInherited (I "StructPinned") (mkRGenerics [([], PLt "'a" [])] None) (RNamed [mkRField [RAttr (mkAttr false [(I "pin")] MPath)] VInherited (Some (I "f1")) (TyPath None (Path false [(Seg (I "D") (GAngle false [(ALt "'a")]))])); mkRField [RAttr (mkAttr false [(I "pin")] MPath)] VInherited (Some (I "f2")) (TyPath None (Path false [(Seg (I "D") (GAngle false [(ALt "'a")]))]))]))) leaky.
(** /repo/tests/drop_order.rs:29 *)
Definition w_StructUnpinned (leaky : bool) : world := world_for [TIdent (I "project_replace")]
  (mkRItem [] (RStruct VInherited (I "StructUnpinned") (mkRGenerics [([], PLt "'a" [])] None) (RNamed [mkRField [] VInherited (Some (I "f1")) (TyPath None (Path false [(Seg (I "D") (GAngle false [(ALt "'a")]))])); mkRField [] VInherited (Some (I "f2")) (TyPath None (Path false [(Seg (I "D") (GAngle false [(ALt "'a")]))]))]))) leaky.
(** /repo/tests/drop_order.rs:35 *)
Definition w_TuplePinned (leaky : bool) : world := world_for [TIdent (I "project_replace")]
  (mkRItem [] (RStruct VInherited (I "TuplePinned") (mkRGenerics [([], PLt "'a" [])] None) (RUnnamed [mkRField [RAttr (mkAttr false [(I "pin")] MPath)] VInherited None (TyPath None (Path false [(Seg (I "D") (GAngle false [(ALt "'a")]))])); mkRField [RAttr (mkAttr false [(I "pin")] MPath)] VInherited None (TyPath None (Path false [(Seg (I "D") (GAngle false [(ALt "'a")]))]))]))) leaky.
(** /repo/tests/drop_order.rs:38 *)
Definition w_TupleUnpinned (leaky : bool) : world := world_for [TIdent (I "project_replace")]
  (mkRItem [] (RStruct VInherited (I "TupleUnpinned") (mkRGenerics [([], PLt "'a" [])] None) (RUnnamed [mkRField [] VInherited None (TyPath None (Path false [(Seg (I "D") (GAngle false [(ALt "'a")]))])); mkRField [] VInherited None (TyPath None (Path false [(Seg (I "D") (GAngle false [(ALt "'a")]))]))]))) leaky.
(** /repo/tests/drop_order.rs:41 *)
Definition w_Enum (leaky : bool) : world := world_for [TIdent (I "project_replace"); TPunct "=" false; TIdent (I "EnumProj")]
  (mkRItem [] (REnum VInherited (I "Enum") (mkRGenerics [([], PLt "'a" [])] None) [mkRVariant [] (I "StructPinned") (RNamed [mkRField [RAttr (mkAttr false [(I "pin")] MPath)] VInherited (Some (I "f1")) (TyPath None (Path false [(Seg (I "D") (GAngle false [(ALt "'a")]))])); mkRField [RAttr (mkAttr false [(I "pin")] MPath)] VInherited (Some (I "f2")) (TyPath None (Path false [(Seg (I "D") (GAngle false [(ALt "'a")]))]))]) false; mkRVariant [] (I "StructUnpinned") (RNamed [mkRField [] VInherited (Some (I "f1")) (TyPath None (Path false [(Seg (I "D") (GAngle false [(ALt "'a")]))])); mkRField [] VInherited (Some (I "f2")) (TyPath None (Path false [(Seg (I "D") (GAngle false [(ALt "'a")]))]))]) false; mkRVariant [] (I "TuplePinned") (RUnnamed [mkRField [RAttr (mkAttr false [(I "pin")] MPath)] VInherited None (TyPath None (Path false [(Seg (I "D") (GAngle false [(ALt "'a")]))])); mkRField [RAttr (mkAttr false [(I "pin")] MPath)] VInherited None (TyPath None (Path false [(Seg (I "D") (GAngle false [(ALt "'a")]))]))]) false; mkRVariant [] (I "TupleUnpinned") (RUnnamed [mkRField [] VInherited None (TyPath None (Path false [(Seg (I "D") (GAngle false [(ALt "'a")]))])); mkRField [] VInherited None (TyPath None (Path false [(Seg (I "D") (GAngle false [(ALt "'a")]))]))]) false])) leaky.
(** /repo/tests/drop_order.rs:58 *)
Example drop_order_58 : forall leaky, scope_new (w_StructPinned leaky) (mkUval None [1; 2]) = [1; 2].
Proof. intros [|]; vm_compute; reflexivity. Qed.
(** /repo/tests/drop_order.rs:62 *)
Example drop_order_62 : forall leaky, scope_replace (w_StructPinned leaky) (mkUval None [1; 2]) (mkUval None [3; 4]) = [1; 2; 3; 4].
Proof. intros [|]; vm_compute; reflexivity. Qed.
(** /repo/tests/drop_order.rs:72 *)
Example drop_order_72 : forall leaky, scope_new (w_StructUnpinned leaky) (mkUval None [1; 2]) = [1; 2].
Proof. intros [|]; vm_compute; reflexivity. Qed.
(** /repo/tests/drop_order.rs:76 *)
Example drop_order_76 : forall leaky, scope_replace (w_StructUnpinned leaky) (mkUval None [1; 2]) (mkUval None [3; 4]) = [1; 2; 3; 4].
Proof. intros [|]; vm_compute; reflexivity. Qed.
(** /repo/tests/drop_order.rs:86 *)
Example drop_order_86 : forall leaky, scope_new (w_TuplePinned leaky) (mkUval None [1; 2]) = [1; 2].
Proof. intros [|]; vm_compute; reflexivity. Qed.
(** /repo/tests/drop_order.rs:90 *)
Example drop_order_90 : forall leaky, scope_replace (w_TuplePinned leaky) (mkUval None [1; 2]) (mkUval None [3; 4]) = [1; 2; 3; 4].
Proof. intros [|]; vm_compute; reflexivity. Qed.
(** /repo/tests/drop_order.rs:100 *)
Example drop_order_100 : forall leaky, scope_new (w_TupleUnpinned leaky) (mkUval None [1; 2]) = [1; 2].
Proof. intros [|]; vm_compute; reflexivity. Qed.
(** /repo/tests/drop_order.rs:104 *)
Example drop_order_104 : forall leaky, scope_replace (w_TupleUnpinned leaky) (mkUval None [1; 2]) (mkUval None [3; 4]) = [1; 2; 3; 4].
Proof. intros [|]; vm_compute; reflexivity. Qed.
(** /repo/tests/drop_order.rs:114 *)
Example drop_order_114 : forall leaky, scope_new (w_Enum leaky) (mkUval (Some (I "StructPinned")) [1; 2]) = [1; 2].
Proof. intros [|]; vm_compute; reflexivity. Qed.
(** /repo/tests/drop_order.rs:118 *)
Example drop_order_118 : forall leaky, scope_replace (w_Enum leaky) (mkUval (Some (I "StructPinned")) [1; 2]) (mkUval (Some (I "StructPinned")) [3; 4]) = [1; 2; 3; 4].
Proof. intros [|]; vm_compute; reflexivity. Qed.
(** /repo/tests/drop_order.rs:125 *)
Example drop_order_125 : forall leaky, scope_new (w_Enum leaky) (mkUval (Some (I "StructUnpinned")) [1; 2]) = [1; 2].
Proof. intros [|]; vm_compute; reflexivity. Qed.
(** /repo/tests/drop_order.rs:129 *)
Example drop_order_129 : forall leaky, scope_replace (w_Enum leaky) (mkUval (Some (I "StructUnpinned")) [1; 2]) (mkUval (Some (I "StructUnpinned")) [3; 4]) = [1; 2; 3; 4].
Proof. intros [|]; vm_compute; reflexivity. Qed.
(** /repo/tests/drop_order.rs:139 *)
Example drop_order_139 : forall leaky, scope_new (w_Enum leaky) (mkUval (Some (I "TuplePinned")) [1; 2]) = [1; 2].
Proof. intros [|]; vm_compute; reflexivity. Qed.
(** /repo/tests/drop_order.rs:143 *)
Example drop_order_143 : forall leaky, scope_replace (w_Enum leaky) (mkUval (Some (I "TuplePinned")) [1; 2]) (mkUval (Some (I "TuplePinned")) [3; 4]) = [1; 2; 3; 4].
Proof. intros [|]; vm_compute; reflexivity. Qed.
(** /repo/tests/drop_order.rs:150 *)
Example drop_order_150 : forall leaky, scope_new (w_Enum leaky) (mkUval (Some (I "TupleUnpinned")) [1; 2]) = [1; 2].
Proof. intros [|]; vm_compute; reflexivity. Qed.
(** /repo/tests/drop_order.rs:154 *)
Example drop_order_154 : forall leaky, scope_replace (w_Enum leaky) (mkUval (Some (I "TupleUnpinned")) [1; 2]) (mkUval (Some (I "TupleUnpinned")) [3; 4]) = [1; 2; 3; 4].
Proof. intros [|]; vm_compute; reflexivity. Qed.
