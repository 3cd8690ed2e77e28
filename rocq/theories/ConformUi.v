(** The model against the items of the test suite.

    The items of /repo/tests/ui are given to the model and its verdict is
    compared with the message recorded in the [.stderr] file; the items of the
    run-time tests must be accepted.  Bodies of [drop] methods are left out here.
    This file is generated from the tests (conform/gen_ui.py); it checks the
    model, and no theorem depends on it. *)
From Coq Require Import String Ascii List Bool.
From Verif Require Import Base Syntax ModelArgs ModelUtils ModelAttribute ModelDerive ModelPipeline ModelPinnedDrop.
Import ListNotations.
Open Scope string_scope.
Open Scope list_scope.

Definition verdict (args : list ttree) (r : raw_item) : option string :=
  match pipeline (fun _ => true) (fun r => r) args r with
  | Ok (Some _) => None
  | Ok None => Some "configured out"
  | Err m => Some m
  | Panic m => Some (String.append "panic: " m)
  end.
Definition verdict_impl (args : list ttree) (im : item_impl) : option string :=
  match pinned_drop_attribute args im with
  | Ok (PdImpl _) => None
  | Ok (PdError m _) => Some m
  | Err m => Some m
  | Panic m => Some (String.append "panic: " m)
  end.

(** /repo/tests/ui/pin_project/invalid.rs:6 *)
Example ui_pin_project_invalid_6 : verdict []
  (mkRItem [] (RStruct VInherited (I "Struct") (mkRGenerics [] None) (RNamed [mkRField [RAttr (mkAttr false [(I "pin")] (MList Paren []))] VInherited (Some (I "f")) (TyTuple [])])))
  = Some "unexpected token in attribute".
Proof. vm_compute. reflexivity. Qed.
(** /repo/tests/ui/pin_project/invalid.rs:12 *)
Example ui_pin_project_invalid_12 : verdict []
  (mkRItem [] (RStruct VInherited (I "TupleStruct") (mkRGenerics [] None) (RUnnamed [mkRField [RAttr (mkAttr false [(I "pin")] (MList Paren [TIdent (I "foo")]))] VInherited None (TyTuple [])])))
  = Some "unexpected token in attribute".
Proof. vm_compute. reflexivity. Qed.
(** /repo/tests/ui/pin_project/invalid.rs:15 *)
Example ui_pin_project_invalid_15 : verdict []
  (mkRItem [] (REnum VInherited (I "EnumTuple") (mkRGenerics [] None) [mkRVariant [] (I "V") (RUnnamed [mkRField [RAttr (mkAttr false [(I "pin")] (MList Paren [TIdent (I "foo")]))] VInherited None (TyTuple [])]) false]))
  = Some "unexpected token in attribute".
Proof. vm_compute. reflexivity. Qed.
(** /repo/tests/ui/pin_project/invalid.rs:20 *)
Example ui_pin_project_invalid_20 : verdict []
  (mkRItem [] (REnum VInherited (I "EnumStruct") (mkRGenerics [] None) [mkRVariant [] (I "V") (RNamed [mkRField [RAttr (mkAttr false [(I "pin")] (MList Paren [TIdent (I "foo")]))] VInherited (Some (I "f")) (TyTuple [])]) false]))
  = Some "unexpected token in attribute".
Proof. vm_compute. reflexivity. Qed.
(** /repo/tests/ui/pin_project/invalid.rs:32 *)
Example ui_pin_project_invalid_32 : verdict []
  (mkRItem [] (RStruct VInherited (I "DuplicateStruct") (mkRGenerics [] None) (RNamed [mkRField [RAttr (mkAttr false [(I "pin")] MPath); RAttr (mkAttr false [(I "pin")] MPath)] VInherited (Some (I "f")) (TyTuple [])])))
  = Some "duplicate #[pin] attribute".
Proof. vm_compute. reflexivity. Qed.
(** /repo/tests/ui/pin_project/invalid.rs:39 *)
Example ui_pin_project_invalid_39 : verdict []
  (mkRItem [] (RStruct VInherited (I "DuplicateTupleStruct") (mkRGenerics [] None) (RUnnamed [mkRField [RAttr (mkAttr false [(I "pin")] MPath); RAttr (mkAttr false [(I "pin")] MPath)] VInherited None (TyTuple [])])))
  = Some "duplicate #[pin] attribute".
Proof. vm_compute. reflexivity. Qed.
(** /repo/tests/ui/pin_project/invalid.rs:47 *)
Example ui_pin_project_invalid_47 : verdict []
  (mkRItem [] (REnum VInherited (I "DuplicateEnumTuple") (mkRGenerics [] None) [mkRVariant [] (I "V") (RUnnamed [mkRField [RAttr (mkAttr false [(I "pin")] MPath); RAttr (mkAttr false [(I "pin")] MPath)] VInherited None (TyTuple [])]) false]))
  = Some "duplicate #[pin] attribute".
Proof. vm_compute. reflexivity. Qed.
(** /repo/tests/ui/pin_project/invalid.rs:57 *)
Example ui_pin_project_invalid_57 : verdict []
  (mkRItem [] (REnum VInherited (I "DuplicateEnumStruct") (mkRGenerics [] None) [mkRVariant [] (I "V") (RNamed [mkRField [RAttr (mkAttr false [(I "pin")] MPath); RAttr (mkAttr false [(I "pin")] MPath)] VInherited (Some (I "f")) (TyTuple [])]) false]))
  = Some "duplicate #[pin] attribute".
Proof. vm_compute. reflexivity. Qed.
(** /repo/tests/ui/pin_project/invalid.rs:70 *)
Example ui_pin_project_invalid_70 : verdict []
  (mkRItem [RAttr (mkAttr false [(I "pin")] MPath)] (RStruct VInherited (I "Struct") (mkRGenerics [] None) (RNamed [mkRField [RAttr (mkAttr false [(I "pin")] MPath)] VInherited (Some (I "f")) (TyTuple [])])))
  = Some "#[pin] attribute may only be used on fields of structs or variants".
Proof. vm_compute. reflexivity. Qed.
(** /repo/tests/ui/pin_project/invalid.rs:77 *)
Example ui_pin_project_invalid_77 : verdict []
  (mkRItem [] (REnum VInherited (I "Variant") (mkRGenerics [] None) [mkRVariant [RAttr (mkAttr false [(I "pin")] MPath)] (I "V") (RUnnamed [mkRField [] VInherited None (TyTuple [])]) false]))
  = Some "#[pin] attribute may only be used on fields of structs or variants".
Proof. vm_compute. reflexivity. Qed.
(** /repo/tests/ui/pin_project/invalid.rs:83 *)
Example ui_pin_project_invalid_83 : verdict []
  (mkRItem [RAttr (mkAttr false [(I "pin")] MPath)] (REnum VInherited (I "Enum") (mkRGenerics [] None) [mkRVariant [] (I "V") (RUnnamed [mkRField [] VInherited None (TyTuple [])]) false]))
  = Some "#[pin] attribute may only be used on fields of structs or variants".
Proof. vm_compute. reflexivity. Qed.
(** /repo/tests/ui/pin_project/invalid.rs:93 *)
Example ui_pin_project_invalid_93 : verdict [TIdent (I "Replace")]
  (mkRItem [] (RStruct VInherited (I "RemovedReplace") (mkRGenerics [] None) (RUnnamed [mkRField [RAttr (mkAttr false [(I "pin")] MPath)] VInherited None (TyTuple [])])))
  = Some "`Replace` argument was removed, use `project_replace` argument instead".
Proof. vm_compute. reflexivity. Qed.
(** /repo/tests/ui/pin_project/invalid.rs:96 *)
Example ui_pin_project_invalid_96 : verdict [TIdent (I "UnsafeUnpin"); TPunct "," true; TPunct "," false]
  (mkRItem [] (RStruct VInherited (I "Unexpected1") (mkRGenerics [] None) (RUnnamed [mkRField [RAttr (mkAttr false [(I "pin")] MPath)] VInherited None (TyTuple [])])))
  = Some "expected identifier".
Proof. vm_compute. reflexivity. Qed.
(** /repo/tests/ui/pin_project/invalid.rs:99 *)
Example ui_pin_project_invalid_99 : verdict [TIdent (I "Foo")]
  (mkRItem [] (RStruct VInherited (I "Unexpected2") (mkRGenerics [] None) (RUnnamed [mkRField [RAttr (mkAttr false [(I "pin")] MPath)] VInherited None (TyTuple [])])))
  = Some "unexpected argument: Foo".
Proof. vm_compute. reflexivity. Qed.
(** /repo/tests/ui/pin_project/invalid.rs:102 *)
Example ui_pin_project_invalid_102 : verdict [TPunct "," false; TIdent (I "UnsafeUnpin")]
  (mkRItem [] (RStruct VInherited (I "Unexpected3") (mkRGenerics [] None) (RUnnamed [mkRField [RAttr (mkAttr false [(I "pin")] MPath)] VInherited None (TyTuple [])])))
  = Some "expected identifier".
Proof. vm_compute. reflexivity. Qed.
(** /repo/tests/ui/pin_project/invalid.rs:105 *)
Example ui_pin_project_invalid_105 : verdict []
  (mkRItem [] (RStruct VInherited (I "Unexpected4") (mkRGenerics [] None) (RUnnamed [mkRField [RAttr (mkAttr false [(I "pin")] MPath)] VInherited None (TyTuple [])])))
  = None.
Proof. vm_compute. reflexivity. Qed.
(** /repo/tests/ui/pin_project/invalid.rs:108 *)
Example ui_pin_project_invalid_108 : verdict [TIdent (I "PinnedDrop"); TIdent (I "PinnedDrop")]
  (mkRItem [] (RStruct VInherited (I "Unexpected5") (mkRGenerics [] None) (RUnnamed [mkRField [RAttr (mkAttr false [(I "pin")] MPath)] VInherited None (TyTuple [])])))
  = Some "expected `,`".
Proof. vm_compute. reflexivity. Qed.
(** /repo/tests/ui/pin_project/invalid.rs:111 *)
Example ui_pin_project_invalid_111 : verdict [TIdent (I "PinnedDrop"); TPunct "," false; TIdent (I "PinnedDrop")]
  (mkRItem [] (RStruct VInherited (I "DuplicatePinnedDrop") (mkRGenerics [] None) (RUnnamed [mkRField [RAttr (mkAttr false [(I "pin")] MPath)] VInherited None (TyTuple [])])))
  = Some "duplicate `PinnedDrop` argument".
Proof. vm_compute. reflexivity. Qed.
(** /repo/tests/ui/pin_project/invalid.rs:114 *)
Example ui_pin_project_invalid_114 : verdict [TIdent (I "UnsafeUnpin"); TPunct "," false; TIdent (I "UnsafeUnpin")]
  (mkRItem [] (RStruct VInherited (I "DuplicateUnsafeUnpin") (mkRGenerics [] None) (RUnnamed [mkRField [RAttr (mkAttr false [(I "pin")] MPath)] VInherited None (TyTuple [])])))
  = Some "duplicate `UnsafeUnpin` argument".
Proof. vm_compute. reflexivity. Qed.
(** /repo/tests/ui/pin_project/invalid.rs:117 *)
Example ui_pin_project_invalid_117 : verdict [TPunct "!" false; TIdent (I "Unpin"); TPunct "," false; TPunct "!" false; TIdent (I "Unpin")]
  (mkRItem [] (RStruct VInherited (I "DuplicateNotUnpin") (mkRGenerics [] None) (RUnnamed [mkRField [RAttr (mkAttr false [(I "pin")] MPath)] VInherited None (TyTuple [])])))
  = Some "duplicate `!Unpin` argument".
Proof. vm_compute. reflexivity. Qed.
(** /repo/tests/ui/pin_project/invalid.rs:120 *)
Example ui_pin_project_invalid_120 : verdict [TIdent (I "PinnedDrop"); TPunct "," false; TIdent (I "UnsafeUnpin"); TPunct "," false; TIdent (I "UnsafeUnpin")]
  (mkRItem [] (RStruct VInherited (I "Duplicate3") (mkRGenerics [] None) (RUnnamed [mkRField [RAttr (mkAttr false [(I "pin")] MPath)] VInherited None (TyTuple [])])))
  = Some "duplicate `UnsafeUnpin` argument".
Proof. vm_compute. reflexivity. Qed.
(** /repo/tests/ui/pin_project/invalid.rs:123 *)
Example ui_pin_project_invalid_123 : verdict [TIdent (I "PinnedDrop"); TPunct "," false; TIdent (I "UnsafeUnpin"); TPunct "," false; TIdent (I "PinnedDrop"); TPunct "," false; TIdent (I "UnsafeUnpin")]
  (mkRItem [] (RStruct VInherited (I "Duplicate4") (mkRGenerics [] None) (RUnnamed [mkRField [RAttr (mkAttr false [(I "pin")] MPath)] VInherited None (TyTuple [])])))
  = Some "duplicate `PinnedDrop` argument".
Proof. vm_compute. reflexivity. Qed.
(** /repo/tests/ui/pin_project/invalid.rs:126 *)
Example ui_pin_project_invalid_126 : verdict [TIdent (I "project"); TPunct "=" false; TIdent (I "A"); TPunct "," false; TIdent (I "project"); TPunct "=" false; TIdent (I "B")]
  (mkRItem [] (RStruct VInherited (I "DuplicateProject") (mkRGenerics [] None) (RUnnamed [mkRField [RAttr (mkAttr false [(I "pin")] MPath)] VInherited None (TyTuple [])])))
  = Some "duplicate `project` argument".
Proof. vm_compute. reflexivity. Qed.
(** /repo/tests/ui/pin_project/invalid.rs:129 *)
Example ui_pin_project_invalid_129 : verdict [TIdent (I "project"); TPunct "=" false; TIdent (I "A"); TPunct "," false; TIdent (I "project_ref"); TPunct "=" false; TIdent (I "A"); TPunct "," false; TIdent (I "project"); TPunct "=" false; TIdent (I "B")]
  (mkRItem [] (RStruct VInherited (I "DuplicateProject2") (mkRGenerics [] None) (RUnnamed [mkRField [RAttr (mkAttr false [(I "pin")] MPath)] VInherited None (TyTuple [])])))
  = Some "duplicate `project` argument".
Proof. vm_compute. reflexivity. Qed.
(** /repo/tests/ui/pin_project/invalid.rs:132 *)
Example ui_pin_project_invalid_132 : verdict [TIdent (I "project_ref"); TPunct "=" false; TIdent (I "A"); TPunct "," false; TIdent (I "project_ref"); TPunct "=" false; TIdent (I "B")]
  (mkRItem [] (RStruct VInherited (I "DuplicateProjectRef") (mkRGenerics [] None) (RUnnamed [mkRField [RAttr (mkAttr false [(I "pin")] MPath)] VInherited None (TyTuple [])])))
  = Some "duplicate `project_ref` argument".
Proof. vm_compute. reflexivity. Qed.
(** /repo/tests/ui/pin_project/invalid.rs:135 *)
Example ui_pin_project_invalid_135 : verdict [TIdent (I "project_replace"); TPunct "=" false; TIdent (I "A"); TPunct "," false; TIdent (I "project_replace"); TPunct "=" false; TIdent (I "B")]
  (mkRItem [] (RStruct VInherited (I "DuplicateProjectReplace1") (mkRGenerics [] None) (RUnnamed [mkRField [RAttr (mkAttr false [(I "pin")] MPath)] VInherited None (TyTuple [])])))
  = Some "duplicate `project_replace` argument".
Proof. vm_compute. reflexivity. Qed.
(** /repo/tests/ui/pin_project/invalid.rs:138 *)
Example ui_pin_project_invalid_138 : verdict [TIdent (I "project_replace"); TPunct "," false; TIdent (I "project_replace"); TPunct "=" false; TIdent (I "B")]
  (mkRItem [] (RStruct VInherited (I "DuplicateProjectReplace2") (mkRGenerics [] None) (RUnnamed [mkRField [RAttr (mkAttr false [(I "pin")] MPath)] VInherited None (TyTuple [])])))
  = Some "duplicate `project_replace` argument".
Proof. vm_compute. reflexivity. Qed.
(** /repo/tests/ui/pin_project/invalid.rs:141 *)
Example ui_pin_project_invalid_141 : verdict [TIdent (I "project_replace"); TPunct "=" false; TIdent (I "A"); TPunct "," false; TIdent (I "project_replace")]
  (mkRItem [] (RStruct VInherited (I "DuplicateProjectReplace3") (mkRGenerics [] None) (RUnnamed [mkRField [RAttr (mkAttr false [(I "pin")] MPath)] VInherited None (TyTuple [])])))
  = Some "duplicate `project_replace` argument".
Proof. vm_compute. reflexivity. Qed.
(** /repo/tests/ui/pin_project/invalid.rs:144 *)
Example ui_pin_project_invalid_144 : verdict [TIdent (I "project_replace"); TPunct "=" false; TIdent (I "A")]
  (mkRItem [] (RStruct VInherited (I "ProjectReplaceWithoutReplace") (mkRGenerics [] None) (RUnnamed [mkRField [RAttr (mkAttr false [(I "pin")] MPath)] VInherited None (TyTuple [])])))
  = None.
Proof. vm_compute. reflexivity. Qed.
(** /repo/tests/ui/pin_project/invalid.rs:147 *)
Example ui_pin_project_invalid_147 : verdict [TIdent (I "PinnedDrop"); TPunct "," false; TIdent (I "project_replace")]
  (mkRItem [] (RStruct VInherited (I "PinnedDropWithProjectReplace1") (mkRGenerics [] None) (RUnnamed [mkRField [RAttr (mkAttr false [(I "pin")] MPath)] VInherited None (TyTuple [])])))
  = Some "arguments `PinnedDrop` and `project_replace` are mutually exclusive".
Proof. vm_compute. reflexivity. Qed.
(** /repo/tests/ui/pin_project/invalid.rs:150 *)
Example ui_pin_project_invalid_150 : verdict [TIdent (I "project_replace"); TPunct "," false; TIdent (I "UnsafeUnpin"); TPunct "," false; TIdent (I "PinnedDrop")]
  (mkRItem [] (RStruct VInherited (I "PinnedDropWithProjectReplace2") (mkRGenerics [] None) (RUnnamed [mkRField [RAttr (mkAttr false [(I "pin")] MPath)] VInherited None (TyTuple [])])))
  = Some "arguments `PinnedDrop` and `project_replace` are mutually exclusive".
Proof. vm_compute. reflexivity. Qed.
(** /repo/tests/ui/pin_project/invalid.rs:153 *)
Example ui_pin_project_invalid_153 : verdict [TIdent (I "UnsafeUnpin"); TPunct "," false; TPunct "!" false; TIdent (I "Unpin")]
  (mkRItem [] (RStruct VInherited (I "UnsafeUnpinWithNotUnpin1") (mkRGenerics [] None) (RUnnamed [mkRField [RAttr (mkAttr false [(I "pin")] MPath)] VInherited None (TyTuple [])])))
  = Some "arguments `UnsafeUnpin` and `!Unpin` are mutually exclusive".
Proof. vm_compute. reflexivity. Qed.
(** /repo/tests/ui/pin_project/invalid.rs:156 *)
Example ui_pin_project_invalid_156 : verdict [TPunct "!" false; TIdent (I "Unpin"); TPunct "," false; TIdent (I "PinnedDrop"); TPunct "," false; TIdent (I "UnsafeUnpin")]
  (mkRItem [] (RStruct VInherited (I "UnsafeUnpinWithNotUnpin2") (mkRGenerics [] None) (RUnnamed [mkRField [RAttr (mkAttr false [(I "pin")] MPath)] VInherited None (TyTuple [])])))
  = Some "arguments `UnsafeUnpin` and `!Unpin` are mutually exclusive".
Proof. vm_compute. reflexivity. Qed.
(** /repo/tests/ui/pin_project/invalid.rs:159 *)
Example ui_pin_project_invalid_159 : verdict [TPunct "!" false]
  (mkRItem [] (RStruct VInherited (I "NotUnpin1") (mkRGenerics [] None) (RUnnamed [mkRField [RAttr (mkAttr false [(I "pin")] MPath)] VInherited None (TyTuple [])])))
  = Some "expected `!Unpin`, found `!`".
Proof. vm_compute. reflexivity. Qed.
(** /repo/tests/ui/pin_project/invalid.rs:162 *)
Example ui_pin_project_invalid_162 : verdict [TIdent (I "Unpin")]
  (mkRItem [] (RStruct VInherited (I "NotUnpin2") (mkRGenerics [] None) (RUnnamed [mkRField [RAttr (mkAttr false [(I "pin")] MPath)] VInherited None (TyTuple [])])))
  = Some "unexpected argument: Unpin".
Proof. vm_compute. reflexivity. Qed.
(** /repo/tests/ui/pin_project/invalid.rs:165 *)
Example ui_pin_project_invalid_165 : verdict [TIdent (I "project")]
  (mkRItem [] (RStruct VInherited (I "Project1") (mkRGenerics [] None) (RUnnamed [mkRField [RAttr (mkAttr false [(I "pin")] MPath)] VInherited None (TyTuple [])])))
  = Some "expected `project = <identifier>`, found `project`".
Proof. vm_compute. reflexivity. Qed.
(** /repo/tests/ui/pin_project/invalid.rs:168 *)
Example ui_pin_project_invalid_168 : verdict [TIdent (I "project"); TPunct "=" false]
  (mkRItem [] (RStruct VInherited (I "Project2") (mkRGenerics [] None) (RUnnamed [mkRField [RAttr (mkAttr false [(I "pin")] MPath)] VInherited None (TyTuple [])])))
  = Some "expected `project = <identifier>`, found `project =`".
Proof. vm_compute. reflexivity. Qed.
(** /repo/tests/ui/pin_project/invalid.rs:171 *)
Example ui_pin_project_invalid_171 : verdict [TIdent (I "project"); TPunct "=" false; TPunct "!" false]
  (mkRItem [] (RStruct VInherited (I "Project3") (mkRGenerics [] None) (RUnnamed [mkRField [RAttr (mkAttr false [(I "pin")] MPath)] VInherited None (TyTuple [])])))
  = Some "expected identifier".
Proof. vm_compute. reflexivity. Qed.
(** /repo/tests/ui/pin_project/invalid.rs:174 *)
Example ui_pin_project_invalid_174 : verdict [TIdent (I "project_ref")]
  (mkRItem [] (RStruct VInherited (I "ProjectRef1") (mkRGenerics [] None) (RUnnamed [mkRField [RAttr (mkAttr false [(I "pin")] MPath)] VInherited None (TyTuple [])])))
  = Some "expected `project_ref = <identifier>`, found `project_ref`".
Proof. vm_compute. reflexivity. Qed.
(** /repo/tests/ui/pin_project/invalid.rs:177 *)
Example ui_pin_project_invalid_177 : verdict [TIdent (I "project_ref"); TPunct "=" false]
  (mkRItem [] (RStruct VInherited (I "ProjectRef2") (mkRGenerics [] None) (RUnnamed [mkRField [RAttr (mkAttr false [(I "pin")] MPath)] VInherited None (TyTuple [])])))
  = Some "expected `project_ref = <identifier>`, found `project_ref =`".
Proof. vm_compute. reflexivity. Qed.
(** /repo/tests/ui/pin_project/invalid.rs:180 *)
Example ui_pin_project_invalid_180 : verdict [TIdent (I "project_ref"); TPunct "=" false; TPunct "!" false]
  (mkRItem [] (RStruct VInherited (I "ProjectRef3") (mkRGenerics [] None) (RUnnamed [mkRField [RAttr (mkAttr false [(I "pin")] MPath)] VInherited None (TyTuple [])])))
  = Some "expected identifier".
Proof. vm_compute. reflexivity. Qed.
(** /repo/tests/ui/pin_project/invalid.rs:183 *)
Example ui_pin_project_invalid_183 : verdict [TIdent (I "project_replace")]
  (mkRItem [] (RStruct VInherited (I "ProjectReplace1") (mkRGenerics [] None) (RUnnamed [mkRField [RAttr (mkAttr false [(I "pin")] MPath)] VInherited None (TyTuple [])])))
  = None.
Proof. vm_compute. reflexivity. Qed.
(** /repo/tests/ui/pin_project/invalid.rs:186 *)
Example ui_pin_project_invalid_186 : verdict [TIdent (I "project_replace"); TPunct "=" false]
  (mkRItem [] (RStruct VInherited (I "ProjectReplace2") (mkRGenerics [] None) (RUnnamed [mkRField [RAttr (mkAttr false [(I "pin")] MPath)] VInherited None (TyTuple [])])))
  = Some "expected `project_replace = <identifier>`, found `project_replace =`".
Proof. vm_compute. reflexivity. Qed.
(** /repo/tests/ui/pin_project/invalid.rs:189 *)
Example ui_pin_project_invalid_189 : verdict [TIdent (I "project_replace"); TPunct "=" false; TPunct "!" false]
  (mkRItem [] (RStruct VInherited (I "ProjectReplace3") (mkRGenerics [] None) (RUnnamed [mkRField [RAttr (mkAttr false [(I "pin")] MPath)] VInherited None (TyTuple [])])))
  = Some "expected identifier".
Proof. vm_compute. reflexivity. Qed.
(** /repo/tests/ui/pin_project/invalid.rs:192 *)
Example ui_pin_project_invalid_192 : verdict [TIdent (I "project_replace")]
  (mkRItem [] (REnum VInherited (I "ProjectReplaceEnum") (mkRGenerics [] None) [mkRVariant [] (I "V") (RUnnamed [mkRField [RAttr (mkAttr false [(I "pin")] MPath)] VInherited None (TyTuple [])]) false]))
  = Some "`project_replace` argument requires a value when used on enums".
Proof. vm_compute. reflexivity. Qed.
(** /repo/tests/ui/pin_project/invalid.rs:201 *)
Example ui_pin_project_invalid_201 : verdict [TIdent (I "project"); TPunct "=" false; TIdent (I "OrigAndProj")]
  (mkRItem [] (RStruct VInherited (I "OrigAndProj") (mkRGenerics [] None) (RUnnamed [mkRField [RAttr (mkAttr false [(I "pin")] MPath)] VInherited None (TyTuple [])])))
  = Some "name `OrigAndProj` is the same as the original type name".
Proof. vm_compute. reflexivity. Qed.
(** /repo/tests/ui/pin_project/invalid.rs:204 *)
Example ui_pin_project_invalid_204 : verdict [TIdent (I "project_ref"); TPunct "=" false; TIdent (I "OrigAndProjRef")]
  (mkRItem [] (RStruct VInherited (I "OrigAndProjRef") (mkRGenerics [] None) (RUnnamed [mkRField [RAttr (mkAttr false [(I "pin")] MPath)] VInherited None (TyTuple [])])))
  = Some "name `OrigAndProjRef` is the same as the original type name".
Proof. vm_compute. reflexivity. Qed.
(** /repo/tests/ui/pin_project/invalid.rs:207 *)
Example ui_pin_project_invalid_207 : verdict [TIdent (I "project_replace"); TPunct "=" false; TIdent (I "OrigAndProjOwn")]
  (mkRItem [] (RStruct VInherited (I "OrigAndProjOwn") (mkRGenerics [] None) (RUnnamed [mkRField [RAttr (mkAttr false [(I "pin")] MPath)] VInherited None (TyTuple [])])))
  = Some "name `OrigAndProjOwn` is the same as the original type name".
Proof. vm_compute. reflexivity. Qed.
(** /repo/tests/ui/pin_project/invalid.rs:210 *)
Example ui_pin_project_invalid_210 : verdict [TIdent (I "project"); TPunct "=" false; TIdent (I "A"); TPunct "," false; TIdent (I "project_ref"); TPunct "=" false; TIdent (I "A")]
  (mkRItem [] (RStruct VInherited (I "ProjAndProjRef") (mkRGenerics [] None) (RUnnamed [mkRField [RAttr (mkAttr false [(I "pin")] MPath)] VInherited None (TyTuple [])])))
  = Some "name `A` is already specified by `project` argument".
Proof. vm_compute. reflexivity. Qed.
(** /repo/tests/ui/pin_project/invalid.rs:213 *)
Example ui_pin_project_invalid_213 : verdict [TIdent (I "project"); TPunct "=" false; TIdent (I "A"); TPunct "," false; TIdent (I "project_replace"); TPunct "=" false; TIdent (I "A")]
  (mkRItem [] (RStruct VInherited (I "ProjAndProjOwn") (mkRGenerics [] None) (RUnnamed [mkRField [RAttr (mkAttr false [(I "pin")] MPath)] VInherited None (TyTuple [])])))
  = Some "name `A` is already specified by `project` argument".
Proof. vm_compute. reflexivity. Qed.
(** /repo/tests/ui/pin_project/invalid.rs:216 *)
Example ui_pin_project_invalid_216 : verdict [TIdent (I "project_ref"); TPunct "=" false; TIdent (I "A"); TPunct "," false; TIdent (I "project_replace"); TPunct "=" false; TIdent (I "A")]
  (mkRItem [] (RStruct VInherited (I "ProjRefAndProjOwn") (mkRGenerics [] None) (RUnnamed [mkRField [RAttr (mkAttr false [(I "pin")] MPath)] VInherited None (TyTuple [])])))
  = Some "name `A` is already specified by `project_ref` argument".
Proof. vm_compute. reflexivity. Qed.
(** /repo/tests/ui/pin_project/invalid.rs:223 *)
Example ui_pin_project_invalid_223 : verdict []
  (mkRItem [RAttr (mkAttr false [(I "pin_project")] MPath)] (RStruct VInherited (I "Duplicate") (mkRGenerics [] None) (RUnnamed [mkRField [RAttr (mkAttr false [(I "pin")] MPath)] VInherited None (TyTuple [])])))
  = Some "duplicate #[pin_project] attribute".
Proof. vm_compute. reflexivity. Qed.
(** /repo/tests/ui/pin_project/invalid.rs:231 *)
Example ui_pin_project_invalid_231 : verdict []
  (mkRItem [] (RStruct VInherited (I "Struct") (mkRGenerics [] None) (RNamed [])))
  = Some "#[pin_project] attribute may not be used on structs with zero fields".
Proof. vm_compute. reflexivity. Qed.
(** /repo/tests/ui/pin_project/invalid.rs:234 *)
Example ui_pin_project_invalid_234 : verdict []
  (mkRItem [] (RStruct VInherited (I "TupleStruct") (mkRGenerics [] None) (RUnnamed [])))
  = Some "#[pin_project] attribute may not be used on structs with zero fields".
Proof. vm_compute. reflexivity. Qed.
(** /repo/tests/ui/pin_project/invalid.rs:237 *)
Example ui_pin_project_invalid_237 : verdict []
  (mkRItem [] (RStruct VInherited (I "UnitStruct") (mkRGenerics [] None) RUnit))
  = Some "#[pin_project] attribute may not be used on structs with zero fields".
Proof. vm_compute. reflexivity. Qed.
(** /repo/tests/ui/pin_project/invalid.rs:240 *)
Example ui_pin_project_invalid_240 : verdict []
  (mkRItem [] (REnum VInherited (I "EnumEmpty") (mkRGenerics [] None) []))
  = Some "#[pin_project] attribute may not be used on enums without variants".
Proof. vm_compute. reflexivity. Qed.
(** /repo/tests/ui/pin_project/invalid.rs:243 *)
Example ui_pin_project_invalid_243 : verdict []
  (mkRItem [] (REnum VInherited (I "EnumDiscriminant") (mkRGenerics [] None) [mkRVariant [] (I "V") RUnit true]))
  = Some "#[pin_project] attribute may not be used on enums with discriminants".
Proof. vm_compute. reflexivity. Qed.
(** /repo/tests/ui/pin_project/invalid.rs:248 *)
Example ui_pin_project_invalid_248 : verdict []
  (mkRItem [] (REnum VInherited (I "EnumZeroFields") (mkRGenerics [] None) [mkRVariant [] (I "Unit") RUnit false; mkRVariant [] (I "Tuple") (RUnnamed []) false; mkRVariant [] (I "Struct") (RNamed []) false]))
  = Some "#[pin_project] attribute may not be used on enums with zero fields".
Proof. vm_compute. reflexivity. Qed.
(** /repo/tests/ui/pin_project/invalid.rs:255 *)
Example ui_pin_project_invalid_255 : verdict []
  (mkRItem [] ROther)
  = Some "#[pin_project] attribute may only be used on structs or enums".
Proof. vm_compute. reflexivity. Qed.
(** /repo/tests/ui/pin_project/invalid.rs:261 *)
Example ui_pin_project_invalid_261 : verdict []
  (mkRItem [] ROther)
  = Some "#[pin_project] attribute may only be used on structs or enums".
Proof. vm_compute. reflexivity. Qed.
(** /repo/tests/ui/pin_project/invalid.rs:269 *)
Example ui_pin_project_invalid_269 : verdict []
  (mkRItem [RAttr (mkAttr false [(I "repr")] (MList Paren [TIdent (I "packed")]))] (RStruct VInherited (I "Struct") (mkRGenerics [] None) (RNamed [])))
  = Some "#[pin_project] attribute may not be used on #[repr(packed)] types".
Proof. vm_compute. reflexivity. Qed.
(** /repo/tests/ui/pin_project/invalid.rs:273 *)
Example ui_pin_project_invalid_273 : verdict []
  (mkRItem [RAttr (mkAttr false [(I "repr")] (MList Paren [TIdent (I "packed")]))] (RStruct VInherited (I "TupleStruct") (mkRGenerics [] None) (RUnnamed [])))
  = Some "#[pin_project] attribute may not be used on #[repr(packed)] types".
Proof. vm_compute. reflexivity. Qed.
(** /repo/tests/ui/pin_project/invalid.rs:277 *)
Example ui_pin_project_invalid_277 : verdict []
  (mkRItem [RAttr (mkAttr false [(I "repr")] (MList Paren [TIdent (I "packed")]))] (RStruct VInherited (I "UnitStruct") (mkRGenerics [] None) RUnit))
  = Some "#[pin_project] attribute may not be used on #[repr(packed)] types".
Proof. vm_compute. reflexivity. Qed.
(** /repo/tests/ui/pin_project/packed.rs:5 *)
Example ui_pin_project_packed_5 : verdict []
  (mkRItem [RAttr (mkAttr false [(I "repr")] (MList Paren [TIdent (I "packed"); TPunct "," false; TIdent (I "C")]))] (RStruct VInherited (I "Packed1") (mkRGenerics [] None) (RNamed [mkRField [RAttr (mkAttr false [(I "pin")] MPath)] VInherited (Some (I "f")) (TyPath None (Path false [(Seg (I "u8") GNone)]))])))
  = Some "#[pin_project] attribute may not be used on #[repr(packed)] types".
Proof. vm_compute. reflexivity. Qed.
(** /repo/tests/ui/pin_project/packed.rs:13 *)
Example ui_pin_project_packed_13 : verdict []
  (mkRItem [RAttr (mkAttr false [(I "repr")] (MList Paren [TIdent (I "packed"); TPunct "," false; TIdent (I "C")]))] (RStruct VInherited (I "Packed2") (mkRGenerics [] None) (RNamed [mkRField [RAttr (mkAttr false [(I "pin")] MPath)] VInherited (Some (I "f")) (TyPath None (Path false [(Seg (I "u8") GNone)]))])))
  = Some "#[pin_project] attribute may not be used on #[repr(packed)] types".
Proof. vm_compute. reflexivity. Qed.
(** /repo/tests/ui/pin_project/packed.rs:20 *)
Example ui_pin_project_packed_20 : verdict []
  (mkRItem [RAttr (mkAttr false [(I "repr")] (MList Paren [TIdent (I "packed"); TGroup Paren [TLit "2"]]))] (RStruct VInherited (I "PackedN1") (mkRGenerics [] None) (RNamed [mkRField [RAttr (mkAttr false [(I "pin")] MPath)] VInherited (Some (I "f")) (TyPath None (Path false [(Seg (I "u32") GNone)]))])))
  = Some "#[pin_project] attribute may not be used on #[repr(packed)] types".
Proof. vm_compute. reflexivity. Qed.
(** /repo/tests/ui/pin_project/packed.rs:28 *)
Example ui_pin_project_packed_28 : verdict []
  (mkRItem [RAttr (mkAttr false [(I "repr")] (MList Paren [TIdent (I "packed"); TGroup Paren [TLit "2"]]))] (RStruct VInherited (I "PackedN2") (mkRGenerics [] None) (RNamed [mkRField [RAttr (mkAttr false [(I "pin")] MPath)] VInherited (Some (I "f")) (TyPath None (Path false [(Seg (I "u32") GNone)]))])))
  = Some "#[pin_project] attribute may not be used on #[repr(packed)] types".
Proof. vm_compute. reflexivity. Qed.
(** /repo/tests/ui/pin_project/packed-enum.rs:14 *)
Example ui_pin_project_packed_enum_14 : verdict []
  (mkRItem [RAttr (mkAttr false [(I "repr")] (MList Paren [TIdent (I "packed")]))] (REnum VInherited (I "E2") (mkRGenerics [] None) [mkRVariant [] (I "V") (RUnnamed [mkRField [] VInherited None (TyTuple [])]) false]))
  = Some "#[repr(packed)] attribute should be applied to a struct or union".
Proof. vm_compute. reflexivity. Qed.
(** /repo/tests/ui/pin_project/packed-enum.rs:20 *)
Example ui_pin_project_packed_enum_20 : verdict []
  (mkRItem [RAttr (mkAttr false [(I "repr")] (MList Paren [TIdent (I "packed")]))] (REnum VInherited (I "E3") (mkRGenerics [] None) [mkRVariant [] (I "V") (RUnnamed [mkRField [] VInherited None (TyTuple [])]) false]))
  = Some "#[repr(packed)] attribute should be applied to a struct or union".
Proof. vm_compute. reflexivity. Qed.
(** /repo/tests/ui/pin_project/packed-name-value.rs:17 *)
Example ui_pin_project_packed_name_value_17 : verdict []
  (mkRItem [RAttr (mkAttr false [(I "repr")] (MList Paren [TIdent (I "packed"); TPunct "=" false; TLit """"""]))] (RStruct VInherited (I "S2") (mkRGenerics [] None) (RNamed [mkRField [] VInherited (Some (I "f")) (TyTuple [])])))
  = Some "#[repr(packed)] attribute should not be name-value pair".
Proof. vm_compute. reflexivity. Qed.
(** /repo/tests/ui/pin_project/packed-name-value.rs:23 *)
Example ui_pin_project_packed_name_value_23 : verdict []
  (mkRItem [RAttr (mkAttr false [(I "repr")] (MList Paren [TIdent (I "packed"); TPunct "=" false; TLit """"""]))] (RStruct VInherited (I "S3") (mkRGenerics [] None) (RNamed [mkRField [] VInherited (Some (I "f")) (TyTuple [])])))
  = Some "#[repr(packed)] attribute should not be name-value pair".
Proof. vm_compute. reflexivity. Qed.
(** /repo/tests/ui/pinned_drop/invalid.rs:8 *)
Example ui_pinned_drop_invalid_8 : verdict [TIdent (I "PinnedDrop")]
  (mkRItem [] (RStruct VInherited (I "UnexpectedArg1") (mkRGenerics [] None) (RUnnamed [mkRField [] VInherited None (TyTuple [])])))
  = None.
Proof. vm_compute. reflexivity. Qed.
(** /repo/tests/ui/pinned_drop/invalid.rs:11 *)
Example ui_pinned_drop_invalid_11 : verdict_impl [TIdent (I "foo")]
  (mkItemImpl [] false false (mkGenerics [] None) (Some (false, (Path false [(Seg (I "PinnedDrop") GNone)]))) (TyPath None (Path false [(Seg (I "UnexpectedArg1") GNone)])) [IIFn (mkIMethod [] VInherited false (mkSig false false false false (I "drop") (mkGenerics [] None) [FRecv [] None false (Some (TyPath None (Path false [(Seg (I "Pin") (GAngle false [(ATy (TyRef None true (TyPath None (Path false [(Seg (I "Self") GNone)]))))]))])))] false None) [])])
  = Some "unexpected argument: `foo`".
Proof. vm_compute. reflexivity. Qed.
(** /repo/tests/ui/pinned_drop/invalid.rs:16 *)
Example ui_pinned_drop_invalid_16 : verdict [TIdent (I "PinnedDrop")]
  (mkRItem [] (RStruct VInherited (I "UnexpectedArg2") (mkRGenerics [] None) (RUnnamed [mkRField [] VInherited None (TyTuple [])])))
  = None.
Proof. vm_compute. reflexivity. Qed.
(** /repo/tests/ui/pinned_drop/invalid.rs:19 *)
Example ui_pinned_drop_invalid_19 : verdict_impl []
  (mkItemImpl [] false false (mkGenerics [] None) (Some (false, (Path false [(Seg (I "PinnedDrop") GNone)]))) (TyPath None (Path false [(Seg (I "UnexpectedArg2") GNone)])) [IIFn (mkIMethod [] VInherited false (mkSig false false false false (I "drop") (mkGenerics [] None) [FRecv [] None false (Some (TyPath None (Path false [(Seg (I "Pin") (GAngle false [(ATy (TyRef None true (TyPath None (Path false [(Seg (I "Self") GNone)]))))]))])))] false None) [])])
  = None.
Proof. vm_compute. reflexivity. Qed.
(** /repo/tests/ui/pinned_drop/invalid.rs:28 *)
Example ui_pinned_drop_invalid_28 : verdict [TIdent (I "PinnedDrop")]
  (mkRItem [] (RStruct VInherited (I "Duplicate") (mkRGenerics [] None) (RUnnamed [mkRField [] VInherited None (TyTuple [])])))
  = None.
Proof. vm_compute. reflexivity. Qed.
(** /repo/tests/ui/pinned_drop/invalid.rs:31 *)
Example ui_pinned_drop_invalid_31 : verdict_impl []
  (mkItemImpl [(mkAttr false [(I "pinned_drop")] MPath)] false false (mkGenerics [] None) (Some (false, (Path false [(Seg (I "PinnedDrop") GNone)]))) (TyPath None (Path false [(Seg (I "Duplicate") GNone)])) [IIFn (mkIMethod [] VInherited false (mkSig false false false false (I "drop") (mkGenerics [] None) [FRecv [] None false (Some (TyPath None (Path false [(Seg (I "Pin") (GAngle false [(ATy (TyRef None true (TyPath None (Path false [(Seg (I "Self") GNone)]))))]))])))] false None) [])])
  = Some "duplicate #[pinned_drop] attribute".
Proof. vm_compute. reflexivity. Qed.
(** /repo/tests/ui/pinned_drop/invalid.rs:41 *)
Example ui_pinned_drop_invalid_41 : verdict [TIdent (I "PinnedDrop")]
  (mkRItem [] (RStruct VInherited (I "TraitImpl") (mkRGenerics [] None) (RUnnamed [mkRField [] VInherited None (TyTuple [])])))
  = None.
Proof. vm_compute. reflexivity. Qed.
(** /repo/tests/ui/pinned_drop/invalid.rs:44 *)
Example ui_pinned_drop_invalid_44 : verdict_impl []
  (mkItemImpl [] false false (mkGenerics [] None) (Some (false, (Path false [(Seg (I "Drop") GNone)]))) (TyPath None (Path false [(Seg (I "TraitImpl") GNone)])) [])
  = Some "#[pinned_drop] may only be used on implementation for the `PinnedDrop` trait".
Proof. vm_compute. reflexivity. Qed.
(** /repo/tests/ui/pinned_drop/invalid.rs:47 *)
Example ui_pinned_drop_invalid_47 : verdict [TIdent (I "PinnedDrop")]
  (mkRItem [] (RStruct VInherited (I "InherentImpl") (mkRGenerics [] None) (RUnnamed [mkRField [] VInherited None (TyTuple [])])))
  = None.
Proof. vm_compute. reflexivity. Qed.
(** /repo/tests/ui/pinned_drop/invalid.rs:50 *)
Example ui_pinned_drop_invalid_50 : verdict_impl []
  (mkItemImpl [] false false (mkGenerics [] None) None (TyPath None (Path false [(Seg (I "InherentImpl") GNone)])) [])
  = Some "#[pinned_drop] may only be used on implementation for the `PinnedDrop` trait".
Proof. vm_compute. reflexivity. Qed.
(** /repo/tests/ui/pinned_drop/invalid.rs:60 *)
Example ui_pinned_drop_invalid_60 : verdict [TIdent (I "PinnedDrop")]
  (mkRItem [] (RStruct VInherited (I "Impl") (mkRGenerics [] None) (RUnnamed [mkRField [] VInherited None (TyTuple [])])))
  = None.
Proof. vm_compute. reflexivity. Qed.
(** /repo/tests/ui/pinned_drop/invalid.rs:63 *)
Example ui_pinned_drop_invalid_63 : verdict_impl []
  (mkItemImpl [] false true (mkGenerics [] None) (Some (false, (Path false [(Seg (I "PinnedDrop") GNone)]))) (TyPath None (Path false [(Seg (I "Impl") GNone)])) [IIFn (mkIMethod [] VInherited false (mkSig false false false false (I "drop") (mkGenerics [] None) [FRecv [] None false (Some (TyPath None (Path false [(Seg (I "Pin") (GAngle false [(ATy (TyRef None true (TyPath None (Path false [(Seg (I "Self") GNone)]))))]))])))] false None) [])])
  = Some "implementing the trait `PinnedDrop` is not unsafe".
Proof. vm_compute. reflexivity. Qed.
(** /repo/tests/ui/pinned_drop/invalid.rs:69 *)
Example ui_pinned_drop_invalid_69 : verdict [TIdent (I "PinnedDrop")]
  (mkRItem [] (RStruct VInherited (I "Method") (mkRGenerics [] None) (RUnnamed [mkRField [] VInherited None (TyTuple [])])))
  = None.
Proof. vm_compute. reflexivity. Qed.
(** /repo/tests/ui/pinned_drop/invalid.rs:72 *)
Example ui_pinned_drop_invalid_72 : verdict_impl []
  (mkItemImpl [] false false (mkGenerics [] None) (Some (false, (Path false [(Seg (I "PinnedDrop") GNone)]))) (TyPath None (Path false [(Seg (I "Method") GNone)])) [IIFn (mkIMethod [] VInherited false (mkSig false false true false (I "drop") (mkGenerics [] None) [FRecv [] None false (Some (TyPath None (Path false [(Seg (I "Pin") (GAngle false [(ATy (TyRef None true (TyPath None (Path false [(Seg (I "Self") GNone)]))))]))])))] false None) [])])
  = Some "implementing the method `drop` is not unsafe".
Proof. vm_compute. reflexivity. Qed.
(** /repo/tests/ui/pinned_drop/invalid.rs:81 *)
Example ui_pinned_drop_invalid_81 : verdict [TIdent (I "PinnedDrop")]
  (mkRItem [] (RStruct VInherited (I "Empty") (mkRGenerics [] None) (RUnnamed [mkRField [] VInherited None (TyTuple [])])))
  = None.
Proof. vm_compute. reflexivity. Qed.
(** /repo/tests/ui/pinned_drop/invalid.rs:84 *)
Example ui_pinned_drop_invalid_84 : verdict_impl []
  (mkItemImpl [] false false (mkGenerics [] None) (Some (false, (Path false [(Seg (I "PinnedDrop") GNone)]))) (TyPath None (Path false [(Seg (I "Empty") GNone)])) [])
  = Some "not all trait items implemented, missing: `drop`".
Proof. vm_compute. reflexivity. Qed.
(** /repo/tests/ui/pinned_drop/invalid.rs:87 *)
Example ui_pinned_drop_invalid_87 : verdict [TIdent (I "PinnedDrop")]
  (mkRItem [] (RStruct VInherited (I "Const1") (mkRGenerics [] None) (RUnnamed [mkRField [] VInherited None (TyTuple [])])))
  = None.
Proof. vm_compute. reflexivity. Qed.
(** /repo/tests/ui/pinned_drop/invalid.rs:90 *)
Example ui_pinned_drop_invalid_90 : verdict_impl []
  (mkItemImpl [] false false (mkGenerics [] None) (Some (false, (Path false [(Seg (I "PinnedDrop") GNone)]))) (TyPath None (Path false [(Seg (I "Const1") GNone)])) [IIConst (I "A"); IIFn (mkIMethod [] VInherited false (mkSig false false false false (I "drop") (mkGenerics [] None) [FRecv [] None false (Some (TyPath None (Path false [(Seg (I "Pin") (GAngle false [(ATy (TyRef None true (TyPath None (Path false [(Seg (I "Self") GNone)]))))]))])))] false None) [])])
  = Some "const `A` is not a member of trait `PinnedDrop`".
Proof. vm_compute. reflexivity. Qed.
(** /repo/tests/ui/pinned_drop/invalid.rs:96 *)
Example ui_pinned_drop_invalid_96 : verdict [TIdent (I "PinnedDrop")]
  (mkRItem [] (RStruct VInherited (I "Const2") (mkRGenerics [] None) (RUnnamed [mkRField [] VInherited None (TyTuple [])])))
  = None.
Proof. vm_compute. reflexivity. Qed.
(** /repo/tests/ui/pinned_drop/invalid.rs:99 *)
Example ui_pinned_drop_invalid_99 : verdict_impl []
  (mkItemImpl [] false false (mkGenerics [] None) (Some (false, (Path false [(Seg (I "PinnedDrop") GNone)]))) (TyPath None (Path false [(Seg (I "Const2") GNone)])) [IIFn (mkIMethod [] VInherited false (mkSig false false false false (I "drop") (mkGenerics [] None) [FRecv [] None false (Some (TyPath None (Path false [(Seg (I "Pin") (GAngle false [(ATy (TyRef None true (TyPath None (Path false [(Seg (I "Self") GNone)]))))]))])))] false None) []); IIConst (I "A")])
  = Some "const `A` is not a member of trait `PinnedDrop`".
Proof. vm_compute. reflexivity. Qed.
(** /repo/tests/ui/pinned_drop/invalid.rs:105 *)
Example ui_pinned_drop_invalid_105 : verdict [TIdent (I "PinnedDrop")]
  (mkRItem [] (RStruct VInherited (I "Type1") (mkRGenerics [] None) (RUnnamed [mkRField [] VInherited None (TyTuple [])])))
  = None.
Proof. vm_compute. reflexivity. Qed.
(** /repo/tests/ui/pinned_drop/invalid.rs:108 *)
Example ui_pinned_drop_invalid_108 : verdict_impl []
  (mkItemImpl [] false false (mkGenerics [] None) (Some (false, (Path false [(Seg (I "PinnedDrop") GNone)]))) (TyPath None (Path false [(Seg (I "Type1") GNone)])) [IIType (I "A"); IIFn (mkIMethod [] VInherited false (mkSig false false false false (I "drop") (mkGenerics [] None) [FRecv [] None false (Some (TyPath None (Path false [(Seg (I "Pin") (GAngle false [(ATy (TyRef None true (TyPath None (Path false [(Seg (I "Self") GNone)]))))]))])))] false None) [])])
  = Some "type `A` is not a member of trait `PinnedDrop`".
Proof. vm_compute. reflexivity. Qed.
(** /repo/tests/ui/pinned_drop/invalid.rs:114 *)
Example ui_pinned_drop_invalid_114 : verdict [TIdent (I "PinnedDrop")]
  (mkRItem [] (RStruct VInherited (I "Type2") (mkRGenerics [] None) (RUnnamed [mkRField [] VInherited None (TyTuple [])])))
  = None.
Proof. vm_compute. reflexivity. Qed.
(** /repo/tests/ui/pinned_drop/invalid.rs:117 *)
Example ui_pinned_drop_invalid_117 : verdict_impl []
  (mkItemImpl [] false false (mkGenerics [] None) (Some (false, (Path false [(Seg (I "PinnedDrop") GNone)]))) (TyPath None (Path false [(Seg (I "Type2") GNone)])) [IIFn (mkIMethod [] VInherited false (mkSig false false false false (I "drop") (mkGenerics [] None) [FRecv [] None false (Some (TyPath None (Path false [(Seg (I "Pin") (GAngle false [(ATy (TyRef None true (TyPath None (Path false [(Seg (I "Self") GNone)]))))]))])))] false None) []); IIType (I "A")])
  = Some "type `A` is not a member of trait `PinnedDrop`".
Proof. vm_compute. reflexivity. Qed.
(** /repo/tests/ui/pinned_drop/invalid.rs:123 *)
Example ui_pinned_drop_invalid_123 : verdict [TIdent (I "PinnedDrop")]
  (mkRItem [] (RStruct VInherited (I "Duplicate") (mkRGenerics [] None) (RUnnamed [mkRField [] VInherited None (TyTuple [])])))
  = None.
Proof. vm_compute. reflexivity. Qed.
(** /repo/tests/ui/pinned_drop/invalid.rs:126 *)
Example ui_pinned_drop_invalid_126 : verdict_impl []
  (mkItemImpl [] false false (mkGenerics [] None) (Some (false, (Path false [(Seg (I "PinnedDrop") GNone)]))) (TyPath None (Path false [(Seg (I "Duplicate") GNone)])) [IIFn (mkIMethod [] VInherited false (mkSig false false false false (I "drop") (mkGenerics [] None) [FRecv [] None false (Some (TyPath None (Path false [(Seg (I "Pin") (GAngle false [(ATy (TyRef None true (TyPath None (Path false [(Seg (I "Self") GNone)]))))]))])))] false None) []); IIFn (mkIMethod [] VInherited false (mkSig false false false false (I "drop") (mkGenerics [] None) [FRecv [] None false (Some (TyPath None (Path false [(Seg (I "Pin") (GAngle false [(ATy (TyRef None true (TyPath None (Path false [(Seg (I "Self") GNone)]))))]))])))] false None) [])])
  = Some "duplicate definitions with name `drop`".
Proof. vm_compute. reflexivity. Qed.
(** /repo/tests/ui/pinned_drop/invalid.rs:138 *)
Example ui_pinned_drop_invalid_138 : verdict [TIdent (I "PinnedDrop")]
  (mkRItem [] (RStruct VInherited (I "RetUnit") (mkRGenerics [] None) (RUnnamed [mkRField [] VInherited None (TyTuple [])])))
  = None.
Proof. vm_compute. reflexivity. Qed.
(** /repo/tests/ui/pinned_drop/invalid.rs:141 *)
Example ui_pinned_drop_invalid_141 : verdict_impl []
  (mkItemImpl [] false false (mkGenerics [] None) (Some (false, (Path false [(Seg (I "PinnedDrop") GNone)]))) (TyPath None (Path false [(Seg (I "RetUnit") GNone)])) [IIFn (mkIMethod [] VInherited false (mkSig false false false false (I "drop") (mkGenerics [] None) [FRecv [] None false (Some (TyPath None (Path false [(Seg (I "Pin") (GAngle false [(ATy (TyRef None true (TyPath None (Path false [(Seg (I "Self") GNone)]))))]))])))] false (Some (TyTuple []))) [])])
  = None.
Proof. vm_compute. reflexivity. Qed.
(** /repo/tests/ui/pinned_drop/invalid.rs:146 *)
Example ui_pinned_drop_invalid_146 : verdict [TIdent (I "PinnedDrop")]
  (mkRItem [] (RStruct VInherited (I "RetTy") (mkRGenerics [] None) (RUnnamed [mkRField [] VInherited None (TyTuple [])])))
  = None.
Proof. vm_compute. reflexivity. Qed.
(** /repo/tests/ui/pinned_drop/invalid.rs:149 *)
Example ui_pinned_drop_invalid_149 : verdict_impl []
  (mkItemImpl [] false false (mkGenerics [] None) (Some (false, (Path false [(Seg (I "PinnedDrop") GNone)]))) (TyPath None (Path false [(Seg (I "RetTy") GNone)])) [IIFn (mkIMethod [] VInherited false (mkSig false false false false (I "drop") (mkGenerics [] None) [FRecv [] None false (Some (TyPath None (Path false [(Seg (I "Pin") (GAngle false [(ATy (TyRef None true (TyPath None (Path false [(Seg (I "Self") GNone)]))))]))])))] false (Some (TyPath None (Path false [(Seg (I "Self") GNone)])))) [])])
  = Some "method `drop` must return the unit type".
Proof. vm_compute. reflexivity. Qed.
(** /repo/tests/ui/pinned_drop/invalid.rs:154 *)
Example ui_pinned_drop_invalid_154 : verdict [TIdent (I "PinnedDrop")]
  (mkRItem [] (RStruct VInherited (I "NoArg") (mkRGenerics [] None) (RUnnamed [mkRField [] VInherited None (TyTuple [])])))
  = None.
Proof. vm_compute. reflexivity. Qed.
(** /repo/tests/ui/pinned_drop/invalid.rs:157 *)
Example ui_pinned_drop_invalid_157 : verdict_impl []
  (mkItemImpl [] false false (mkGenerics [] None) (Some (false, (Path false [(Seg (I "PinnedDrop") GNone)]))) (TyPath None (Path false [(Seg (I "NoArg") GNone)])) [IIFn (mkIMethod [] VInherited false (mkSig false false false false (I "drop") (mkGenerics [] None) [] false None) [])])
  = Some "method `drop` must take an argument `self: Pin<&mut Self>`".
Proof. vm_compute. reflexivity. Qed.
(** /repo/tests/ui/pinned_drop/invalid.rs:162 *)
Example ui_pinned_drop_invalid_162 : verdict [TIdent (I "PinnedDrop")]
  (mkRItem [] (RStruct VInherited (I "MultiArg") (mkRGenerics [] None) (RUnnamed [mkRField [] VInherited None (TyTuple [])])))
  = None.
Proof. vm_compute. reflexivity. Qed.
(** /repo/tests/ui/pinned_drop/invalid.rs:165 *)
Example ui_pinned_drop_invalid_165 : verdict_impl []
  (mkItemImpl [] false false (mkGenerics [] None) (Some (false, (Path false [(Seg (I "PinnedDrop") GNone)]))) (TyPath None (Path false [(Seg (I "MultiArg") GNone)])) [IIFn (mkIMethod [] VInherited false (mkSig false false false false (I "drop") (mkGenerics [] None) [FRecv [] None false (Some (TyPath None (Path false [(Seg (I "Pin") (GAngle false [(ATy (TyRef None true (TyPath None (Path false [(Seg (I "Self") GNone)]))))]))]))); FTyped [] QWild (TyTuple [])] false None) [])])
  = Some "method `drop` must take an argument `self: Pin<&mut Self>`".
Proof. vm_compute. reflexivity. Qed.
(** /repo/tests/ui/pinned_drop/invalid.rs:170 *)
Example ui_pinned_drop_invalid_170 : verdict [TIdent (I "PinnedDrop")]
  (mkRItem [] (RStruct VInherited (I "InvalidArg1") (mkRGenerics [] None) (RUnnamed [mkRField [] VInherited None (TyTuple [])])))
  = None.
Proof. vm_compute. reflexivity. Qed.
(** /repo/tests/ui/pinned_drop/invalid.rs:173 *)
Example ui_pinned_drop_invalid_173 : verdict_impl []
  (mkItemImpl [] false false (mkGenerics [] None) (Some (false, (Path false [(Seg (I "PinnedDrop") GNone)]))) (TyPath None (Path false [(Seg (I "InvalidArg1") GNone)])) [IIFn (mkIMethod [] VInherited false (mkSig false false false false (I "drop") (mkGenerics [] None) [FRecv [] (Some None) true None] false None) [])])
  = Some "method `drop` must take an argument `self: Pin<&mut Self>`".
Proof. vm_compute. reflexivity. Qed.
(** /repo/tests/ui/pinned_drop/invalid.rs:178 *)
Example ui_pinned_drop_invalid_178 : verdict [TIdent (I "PinnedDrop")]
  (mkRItem [] (RStruct VInherited (I "InvalidArg2") (mkRGenerics [] None) (RUnnamed [mkRField [] VInherited None (TyTuple [])])))
  = None.
Proof. vm_compute. reflexivity. Qed.
(** /repo/tests/ui/pinned_drop/invalid.rs:181 *)
Example ui_pinned_drop_invalid_181 : verdict_impl []
  (mkItemImpl [] false false (mkGenerics [] None) (Some (false, (Path false [(Seg (I "PinnedDrop") GNone)]))) (TyPath None (Path false [(Seg (I "InvalidArg2") GNone)])) [IIFn (mkIMethod [] VInherited false (mkSig false false false false (I "drop") (mkGenerics [] None) [FTyped [] QWild (TyPath None (Path false [(Seg (I "Pin") (GAngle false [(ATy (TyRef None true (TyPath None (Path false [(Seg (I "Self") GNone)]))))]))]))] false None) [])])
  = Some "method `drop` must take an argument `self: Pin<&mut Self>`".
Proof. vm_compute. reflexivity. Qed.
(** /repo/tests/ui/pinned_drop/invalid.rs:186 *)
Example ui_pinned_drop_invalid_186 : verdict [TIdent (I "PinnedDrop")]
  (mkRItem [] (RStruct VInherited (I "InvalidArg3") (mkRGenerics [] None) (RUnnamed [mkRField [] VInherited None (TyTuple [])])))
  = None.
Proof. vm_compute. reflexivity. Qed.
(** /repo/tests/ui/pinned_drop/invalid.rs:189 *)
Example ui_pinned_drop_invalid_189 : verdict_impl []
  (mkItemImpl [] false false (mkGenerics [] None) (Some (false, (Path false [(Seg (I "PinnedDrop") GNone)]))) (TyPath None (Path false [(Seg (I "InvalidArg3") GNone)])) [IIFn (mkIMethod [] VInherited false (mkSig false false false false (I "drop") (mkGenerics [] None) [FRecv [] None false (Some (TyPath None (Path false [(Seg (I "Pin") (GAngle false [(ATy (TyRef None false (TyPath None (Path false [(Seg (I "Self") GNone)]))))]))])))] false None) [])])
  = Some "method `drop` must take an argument `self: Pin<&mut Self>`".
Proof. vm_compute. reflexivity. Qed.
(** /repo/tests/ui/pinned_drop/invalid.rs:194 *)
Example ui_pinned_drop_invalid_194 : verdict [TIdent (I "PinnedDrop")]
  (mkRItem [] (RStruct VInherited (I "InvalidArg4") (mkRGenerics [] None) (RUnnamed [mkRField [] VInherited None (TyTuple [])])))
  = None.
Proof. vm_compute. reflexivity. Qed.
(** /repo/tests/ui/pinned_drop/invalid.rs:197 *)
Example ui_pinned_drop_invalid_197 : verdict_impl []
  (mkItemImpl [] false false (mkGenerics [] None) (Some (false, (Path false [(Seg (I "PinnedDrop") GNone)]))) (TyPath None (Path false [(Seg (I "InvalidArg4") GNone)])) [IIFn (mkIMethod [] VInherited false (mkSig false false false false (I "drop") (mkGenerics [] None) [FRecv [] None false (Some (TyPath None (Path false [(Seg (I "Pin") (GAngle false [(ATy (TyRef None true (TyTuple [])))]))])))] false None) [])])
  = Some "method `drop` must take an argument `self: Pin<&mut Self>`".
Proof. vm_compute. reflexivity. Qed.
(** /repo/tests/ui/pinned_drop/invalid.rs:202 *)
Example ui_pinned_drop_invalid_202 : verdict [TIdent (I "PinnedDrop")]
  (mkRItem [] (RStruct VInherited (I "InvalidName") (mkRGenerics [] None) (RUnnamed [mkRField [] VInherited None (TyTuple [])])))
  = None.
Proof. vm_compute. reflexivity. Qed.
(** /repo/tests/ui/pinned_drop/invalid.rs:205 *)
Example ui_pinned_drop_invalid_205 : verdict_impl []
  (mkItemImpl [] false false (mkGenerics [] None) (Some (false, (Path false [(Seg (I "PinnedDrop") GNone)]))) (TyPath None (Path false [(Seg (I "InvalidName") GNone)])) [IIFn (mkIMethod [] VInherited false (mkSig false false false false (I "pinned_drop") (mkGenerics [] None) [FRecv [] None false (Some (TyPath None (Path false [(Seg (I "Pin") (GAngle false [(ATy (TyRef None true (TyPath None (Path false [(Seg (I "Self") GNone)]))))]))])))] false None) [])])
  = Some "method `pinned_drop` is not a member of trait `PinnedDrop`".
Proof. vm_compute. reflexivity. Qed.
(** /repo/tests/ui/pinned_drop/invalid.rs:214 *)
Example ui_pinned_drop_invalid_214 : verdict_impl []
  (mkItemImpl [] false false (mkGenerics [] None) (Some (false, (Path false [(Seg (I "PinnedDrop") GNone)]))) (TyTuple []) [IIFn (mkIMethod [] VInherited false (mkSig false false false false (I "drop") (mkGenerics [] None) [FRecv [] None false (Some (TyPath None (Path false [(Seg (I "Pin") (GAngle false [(ATy (TyRef None true (TyPath None (Path false [(Seg (I "Self") GNone)]))))]))])))] false None) [])])
  = Some "implementing the trait `PinnedDrop` on this type is unsupported".
Proof. vm_compute. reflexivity. Qed.
(** /repo/tests/ui/pinned_drop/invalid.rs:220 *)
Example ui_pinned_drop_invalid_220 : verdict_impl []
  (mkItemImpl [] false false (mkGenerics [] None) (Some (false, (Path false [(Seg (I "PinnedDrop") GNone)]))) (TyRef None true (TyPath None (Path false [(Seg (I "A") GNone)]))) [IIFn (mkIMethod [] VInherited false (mkSig false false false false (I "drop") (mkGenerics [] None) [FRecv [] None false (Some (TyPath None (Path false [(Seg (I "Pin") (GAngle false [(ATy (TyRef None true (TyPath None (Path false [(Seg (I "Self") GNone)]))))]))])))] false None) [])])
  = Some "implementing the trait `PinnedDrop` on this type is unsupported".
Proof. vm_compute. reflexivity. Qed.
(** /repo/tests/ui/pinned_drop/invalid.rs:226 *)
Example ui_pinned_drop_invalid_226 : verdict_impl []
  (mkItemImpl [] false false (mkGenerics [] None) (Some (false, (Path false [(Seg (I "PinnedDrop") GNone)]))) (TySlice (TyPath None (Path false [(Seg (I "A") GNone)]))) [IIFn (mkIMethod [] VInherited false (mkSig false false false false (I "drop") (mkGenerics [] None) [FRecv [] None false (Some (TyPath None (Path false [(Seg (I "Pin") (GAngle false [(ATy (TyRef None true (TyPath None (Path false [(Seg (I "Self") GNone)]))))]))])))] false None) [])])
  = Some "implementing the trait `PinnedDrop` on this type is unsupported".
Proof. vm_compute. reflexivity. Qed.
(** /repo/tests/pin_project.rs:24 *)
Example ui_pin_project_24 : verdict [TIdent (I "project"); TPunct "=" false; TIdent (I "StructProj"); TPunct "," false; TIdent (I "project_ref"); TPunct "=" false; TIdent (I "StructProjRef"); TPunct "," false; TIdent (I "project_replace"); TPunct "=" false; TIdent (I "StructProjOwn"); TPunct "," false]
  (mkRItem [] (RStruct VInherited (I "Struct") (mkRGenerics [([], PTy (I "T") [] None); ([], PTy (I "U") [] None)] None) (RNamed [mkRField [RAttr (mkAttr false [(I "pin")] MPath)] VInherited (Some (I "f1")) (TyPath None (Path false [(Seg (I "T") GNone)])); mkRField [] VInherited (Some (I "f2")) (TyPath None (Path false [(Seg (I "U") GNone)]))])))
  = None.
Proof. vm_compute. reflexivity. Qed.
(** /repo/tests/pin_project.rs:68 *)
Example ui_pin_project_68 : verdict [TIdent (I "project_replace")]
  (mkRItem [] (RStruct VInherited (I "TupleStruct") (mkRGenerics [([], PTy (I "T") [] None); ([], PTy (I "U") [] None)] None) (RUnnamed [mkRField [RAttr (mkAttr false [(I "pin")] MPath)] VInherited None (TyPath None (Path false [(Seg (I "T") GNone)])); mkRField [] VInherited None (TyPath None (Path false [(Seg (I "U") GNone)]))])))
  = None.
Proof. vm_compute. reflexivity. Qed.
(** /repo/tests/pin_project.rs:79 *)
Example ui_pin_project_79 : verdict [TIdent (I "project"); TPunct "=" false; TIdent (I "EnumProj"); TPunct "," false; TIdent (I "project_ref"); TPunct "=" false; TIdent (I "EnumProjRef"); TPunct "," false; TIdent (I "project_replace"); TPunct "=" false; TIdent (I "EnumProjOwn")]
  (mkRItem [RAttr (mkAttr false [(I "derive")] (MList Paren [TIdent (I "Eq"); TPunct "," false; TIdent (I "PartialEq"); TPunct "," false; TIdent (I "Debug")]))] (REnum VInherited (I "Enum") (mkRGenerics [([], PTy (I "A") [] None); ([], PTy (I "B") [] None); ([], PTy (I "C") [] None); ([], PTy (I "D") [] None)] None) [mkRVariant [] (I "Tuple") (RUnnamed [mkRField [RAttr (mkAttr false [(I "pin")] MPath)] VInherited None (TyPath None (Path false [(Seg (I "A") GNone)])); mkRField [] VInherited None (TyPath None (Path false [(Seg (I "B") GNone)]))]) false; mkRVariant [] (I "Struct") (RNamed [mkRField [RAttr (mkAttr false [(I "pin")] MPath)] VInherited (Some (I "f1")) (TyPath None (Path false [(Seg (I "C") GNone)])); mkRField [] VInherited (Some (I "f2")) (TyPath None (Path false [(Seg (I "D") GNone)]))]) false; mkRVariant [] (I "Unit") RUnit false]))
  = None.
Proof. vm_compute. reflexivity. Qed.
(** /repo/tests/pin_project.rs:139 *)
Example ui_pin_project_139 : verdict [TIdent (I "project"); TPunct "=" false; TIdent (I "EnumProj"); TPunct "," false; TIdent (I "project_ref"); TPunct "=" false; TIdent (I "EnumProjRef"); TPunct "," false; TIdent (I "project_replace"); TPunct "=" false; TIdent (I "EnumProjOwn")]
  (mkRItem [RAttr (mkAttr false [(I "derive")] (MList Paren [TIdent (I "Eq"); TPunct "," false; TIdent (I "PartialEq"); TPunct "," false; TIdent (I "Debug")]))] (REnum VInherited (I "Enum") (mkRGenerics [] None) [mkRVariant [] (I "V1") (RUnnamed [mkRField [RAttr (mkAttr false [(I "pin")] MPath)] VInherited None (TyPath None (Path false [(Seg (I "u8") GNone)]))]) false; mkRVariant [] (I "V2") (RUnnamed [mkRField [] VInherited None (TyPath None (Path false [(Seg (I "bool") GNone)]))]) false]))
  = None.
Proof. vm_compute. reflexivity. Qed.
(** /repo/tests/pin_project.rs:163 *)
Example ui_pin_project_163 : verdict []
  (mkRItem [] (RStruct VInherited (I "Struct") (mkRGenerics [([], PTy (I "T") [] None)] (Some [WTy [] (TyPath None (Path false [(Seg (I "T") GNone)])) [(BTrait false [] (Path false [(Seg (I "Copy") GNone)]))]])) (RNamed [mkRField [] VInherited (Some (I "f")) (TyPath None (Path false [(Seg (I "T") GNone)]))])))
  = None.
Proof. vm_compute. reflexivity. Qed.
(** /repo/tests/pin_project.rs:171 *)
Example ui_pin_project_171 : verdict []
  (mkRItem [] (RStruct VInherited (I "TupleStruct") (mkRGenerics [([], PTy (I "T") [] None)] (Some [WTy [] (TyPath None (Path false [(Seg (I "T") GNone)])) [(BTrait false [] (Path false [(Seg (I "Copy") GNone)]))]])) (RUnnamed [mkRField [] VInherited None (TyPath None (Path false [(Seg (I "T") GNone)]))])))
  = None.
Proof. vm_compute. reflexivity. Qed.
(** /repo/tests/pin_project.rs:176 *)
Example ui_pin_project_176 : verdict [TIdent (I "project"); TPunct "=" false; TIdent (I "EnumProj"); TPunct "," false; TIdent (I "project_ref"); TPunct "=" false; TIdent (I "EnumProjRef"); TPunct "," false; TIdent (I "project_replace"); TPunct "=" false; TIdent (I "EnumProjOwn")]
  (mkRItem [] (REnum VInherited (I "Enum") (mkRGenerics [([], PTy (I "T") [] None)] (Some [WTy [] (TyPath None (Path false [(Seg (I "T") GNone)])) [(BTrait false [] (Path false [(Seg (I "Copy") GNone)]))]])) [mkRVariant [] (I "V") (RUnnamed [mkRField [] VInherited None (TyPath None (Path false [(Seg (I "T") GNone)]))]) false]))
  = None.
Proof. vm_compute. reflexivity. Qed.
(** /repo/tests/pin_project.rs:187 *)
Example ui_pin_project_187 : verdict [TIdent (I "project_replace")]
  (mkRItem [] (RStruct VInherited (I "Struct1") (mkRGenerics [([], PTy (I "I") [] None)] (Some [WTy [] (TyPath None (Path false [(Seg (I "I") GNone)])) [(BTrait false [] (Path false [(Seg (I "Iterator") GNone)]))]])) (RNamed [mkRField [RAttr (mkAttr false [(I "pin")] MPath)] VInherited (Some (I "f1")) (TyPath None (Path false [(Seg (I "I") GNone)])); mkRField [] VInherited (Some (I "f2")) (TyPath None (Path false [(Seg (I "I") GNone); (Seg (I "Item") GNone)]))])))
  = None.
Proof. vm_compute. reflexivity. Qed.
(** /repo/tests/pin_project.rs:197 *)
Example ui_pin_project_197 : verdict [TIdent (I "project_replace")]
  (mkRItem [] (RStruct VInherited (I "Struct2") (mkRGenerics [([], PTy (I "I") [] None); ([], PTy (I "J") [] None)] (Some [WTy [] (TyPath None (Path false [(Seg (I "I") GNone)])) [(BTrait false [] (Path false [(Seg (I "Iterator") (GAngle false [(AAssoc (I "Item") (TyPath None (Path false [(Seg (I "J") GNone)])))]))]))]])) (RNamed [mkRField [RAttr (mkAttr false [(I "pin")] MPath)] VInherited (Some (I "f1")) (TyPath None (Path false [(Seg (I "I") GNone)])); mkRField [] VInherited (Some (I "f2")) (TyPath None (Path false [(Seg (I "J") GNone)]))])))
  = None.
Proof. vm_compute. reflexivity. Qed.
(** /repo/tests/pin_project.rs:207 *)
Example ui_pin_project_207 : verdict [TIdent (I "project_replace")]
  (mkRItem [] (RStruct VInherited (I "Struct3") (mkRGenerics [([], PTy (I "T") [] None)] (Some [WTy [] (TyPath None (Path false [(Seg (I "T") GNone)])) [(BLt "'static")]])) (RNamed [mkRField [] VInherited (Some (I "f")) (TyPath None (Path false [(Seg (I "T") GNone)]))])))
  = None.
Proof. vm_compute. reflexivity. Qed.
(** /repo/tests/pin_project.rs:219 *)
Example ui_pin_project_219 : verdict [TIdent (I "project_replace")]
  (mkRItem [] (RStruct VInherited (I "TupleStruct") (mkRGenerics [([], PTy (I "I") [] None)] (Some [WTy [] (TyPath None (Path false [(Seg (I "I") GNone)])) [(BTrait false [] (Path false [(Seg (I "Iterator") GNone)]))]])) (RUnnamed [mkRField [RAttr (mkAttr false [(I "pin")] MPath)] VInherited None (TyPath None (Path false [(Seg (I "I") GNone)])); mkRField [] VInherited None (TyPath None (Path false [(Seg (I "I") GNone); (Seg (I "Item") GNone)]))])))
  = None.
Proof. vm_compute. reflexivity. Qed.
(** /repo/tests/pin_project.rs:224 *)
Example ui_pin_project_224 : verdict [TIdent (I "project"); TPunct "=" false; TIdent (I "EnumProj"); TPunct "," false; TIdent (I "project_ref"); TPunct "=" false; TIdent (I "EnumProjRef"); TPunct "," false; TIdent (I "project_replace"); TPunct "=" false; TIdent (I "EnumProjOwn")]
  (mkRItem [] (REnum VInherited (I "Enum") (mkRGenerics [([], PTy (I "I") [] None)] (Some [WTy [] (TyPath None (Path false [(Seg (I "I") GNone)])) [(BTrait false [] (Path false [(Seg (I "Iterator") GNone)]))]])) [mkRVariant [] (I "V1") (RUnnamed [mkRField [RAttr (mkAttr false [(I "pin")] MPath)] VInherited None (TyPath None (Path false [(Seg (I "I") GNone)]))]) false; mkRVariant [] (I "V2") (RUnnamed [mkRField [] VInherited None (TyPath None (Path false [(Seg (I "I") GNone); (Seg (I "Item") GNone)]))]) false]))
  = None.
Proof. vm_compute. reflexivity. Qed.
(** /repo/tests/pin_project.rs:236 *)
Example ui_pin_project_236 : verdict [TIdent (I "project_replace")]
  (mkRItem [RAttr (mkAttr false [(I "derive")] (MList Paren [TIdent (I "Clone"); TPunct "," false; TIdent (I "Copy")]))] (RStruct VInherited (I "Struct") (mkRGenerics [([], PTy (I "T") [] None)] None) (RNamed [mkRField [] VInherited (Some (I "f")) (TyPath None (Path false [(Seg (I "T") GNone)]))])))
  = None.
Proof. vm_compute. reflexivity. Qed.
(** /repo/tests/pin_project.rs:251 *)
Example ui_pin_project_251 : verdict [TIdent (I "project_replace")]
  (mkRItem [] (RStruct VInherited (I "Struct") (mkRGenerics [] None) (RNamed [mkRField [] VInherited (Some (I "f")) (TyPath None (Path false [(Seg (I "NotCopy") GNone)]))])))
  = None.
Proof. vm_compute. reflexivity. Qed.
(** /repo/tests/pin_project.rs:259 *)
Example ui_pin_project_259 : verdict [TIdent (I "project"); TPunct "=" false; TIdent (I "EnumProj"); TPunct "," false; TIdent (I "project_ref"); TPunct "=" false; TIdent (I "EnumProjRef"); TPunct "," false; TIdent (I "project_replace"); TPunct "=" false; TIdent (I "EnumProjOwn")]
  (mkRItem [] (REnum VInherited (I "Enum") (mkRGenerics [] None) [mkRVariant [] (I "V") (RUnnamed [mkRField [] VInherited None (TyPath None (Path false [(Seg (I "NotCopy") GNone)]))]) false]))
  = None.
Proof. vm_compute. reflexivity. Qed.
(** /repo/tests/pin_project.rs:273 *)
Example ui_pin_project_273 : verdict [TIdent (I "project_replace")]
  (mkRItem [] (RStruct VPub (I "Struct1") (mkRGenerics [([], PLt "'a" []); ([], PTy (I "T") [(BTrait true [] (Path false [(Seg (I "Sized") GNone)]))] None)] None) (RNamed [mkRField [] VInherited (Some (I "f")) (TyRef (Some "'a") true (TyPath None (Path false [(Seg (I "T") GNone)])))])))
  = None.
Proof. vm_compute. reflexivity. Qed.
(** /repo/tests/pin_project.rs:278 *)
Example ui_pin_project_278 : verdict [TIdent (I "project_replace")]
  (mkRItem [] (RStruct VPub (I "Struct2") (mkRGenerics [([], PLt "'a" []); ([], PTy (I "T") [(BTrait false [] (Path true [(Seg (I "core") GNone); (Seg (I "fmt") GNone); (Seg (I "Debug") GNone)]))] None)] None) (RNamed [mkRField [] VInherited (Some (I "f")) (TyRef (Some "'a") true (TyPath None (Path false [(Seg (I "T") GNone)])))])))
  = None.
Proof. vm_compute. reflexivity. Qed.
(** /repo/tests/pin_project.rs:283 *)
Example ui_pin_project_283 : verdict [TIdent (I "project_replace")]
  (mkRItem [] (RStruct VPub (I "Struct3") (mkRGenerics [([], PLt "'a" []); ([], PTy (I "T") [(BTrait false [] (Path false [(Seg (I "core") GNone); (Seg (I "fmt") GNone); (Seg (I "Debug") GNone)]))] None)] None) (RNamed [mkRField [] VInherited (Some (I "f")) (TyRef (Some "'a") true (TyPath None (Path false [(Seg (I "T") GNone)])))])))
  = None.
Proof. vm_compute. reflexivity. Qed.
(** /repo/tests/pin_project.rs:288 *)
Example ui_pin_project_288 : verdict [TIdent (I "project_replace")]
  (mkRItem [] (RStruct VPub (I "Struct4") (mkRGenerics [([], PLt "'a" []); ([], PTy (I "T") [(BTrait false [] (Path false [(Seg (I "core") GNone); (Seg (I "fmt") GNone); (Seg (I "Debug") GNone)])); (BTrait false [] (Path false [(Seg (I "core") GNone); (Seg (I "fmt") GNone); (Seg (I "Display") GNone)]))] None)] None) (RNamed [mkRField [] VInherited (Some (I "f")) (TyRef (Some "'a") true (TyPath None (Path false [(Seg (I "T") GNone)])))])))
  = None.
Proof. vm_compute. reflexivity. Qed.
(** /repo/tests/pin_project.rs:293 *)
Example ui_pin_project_293 : verdict [TIdent (I "project_replace")]
  (mkRItem [] (RStruct VPub (I "Struct5") (mkRGenerics [([], PLt "'a" []); ([], PTy (I "T") [(BTrait false [] (Path false [(Seg (I "core") GNone); (Seg (I "fmt") GNone); (Seg (I "Debug") GNone)])); (BTrait true [] (Path false [(Seg (I "Sized") GNone)]))] None)] None) (RNamed [mkRField [] VInherited (Some (I "f")) (TyRef (Some "'a") true (TyPath None (Path false [(Seg (I "T") GNone)])))])))
  = None.
Proof. vm_compute. reflexivity. Qed.
(** /repo/tests/pin_project.rs:298 *)
Example ui_pin_project_298 : verdict [TIdent (I "project_replace")]
  (mkRItem [] (RStruct VPub (I "Struct6") (mkRGenerics [([], PLt "'a" []); ([], PTy (I "T") [(BTrait false [] (Path false [(Seg (I "core") GNone); (Seg (I "fmt") GNone); (Seg (I "Debug") GNone)]))] (Some (TyArray (TyPath None (Path false [(Seg (I "u8") GNone)])) (ELit "16"))))] None) (RNamed [mkRField [] VInherited (Some (I "f")) (TyRef (Some "'a") true (TyPath None (Path false [(Seg (I "T") GNone)])))])))
  = None.
Proof. vm_compute. reflexivity. Qed.
(** /repo/tests/pin_project.rs:305 *)
Example ui_pin_project_305 : verdict [TIdent (I "project_replace")]
  (mkRItem [] (RStruct VPub (I "Struct7") (mkRGenerics [([], PTy (I "T") [(BLt "'static")] None)] None) (RNamed [mkRField [] VInherited (Some (I "f")) (TyPath None (Path false [(Seg (I "T") GNone)]))])))
  = None.
Proof. vm_compute. reflexivity. Qed.
(** /repo/tests/pin_project.rs:314 *)
Example ui_pin_project_314 : verdict [TIdent (I "project_replace")]
  (mkRItem [] (RStruct VPub (I "Struct8") (mkRGenerics [([], PLt "'a" []); ([], PLt "'b" ["'a"])] None) (RNamed [mkRField [] VInherited (Some (I "f1")) (TyRef (Some "'a") false (TyPath None (Path false [(Seg (I "u8") GNone)]))); mkRField [] VInherited (Some (I "f2")) (TyRef (Some "'b") false (TyPath None (Path false [(Seg (I "u8") GNone)])))])))
  = None.
Proof. vm_compute. reflexivity. Qed.
(** /repo/tests/pin_project.rs:320 *)
Example ui_pin_project_320 : verdict [TIdent (I "project_replace")]
  (mkRItem [] (RStruct VPub (I "TupleStruct") (mkRGenerics [([], PLt "'a" []); ([], PTy (I "T") [(BTrait true [] (Path false [(Seg (I "Sized") GNone)]))] None)] None) (RUnnamed [mkRField [] VInherited None (TyRef (Some "'a") true (TyPath None (Path false [(Seg (I "T") GNone)])))])))
  = None.
Proof. vm_compute. reflexivity. Qed.
(** /repo/tests/pin_project.rs:323 *)
Example ui_pin_project_323 : verdict [TIdent (I "project"); TPunct "=" false; TIdent (I "EnumProj"); TPunct "," false; TIdent (I "project_ref"); TPunct "=" false; TIdent (I "EnumProjRef"); TPunct "," false; TIdent (I "project_replace"); TPunct "=" false; TIdent (I "EnumProjOwn")]
  (mkRItem [] (REnum VInherited (I "Enum") (mkRGenerics [([], PLt "'a" []); ([], PTy (I "T") [(BTrait true [] (Path false [(Seg (I "Sized") GNone)]))] None)] None) [mkRVariant [] (I "V") (RUnnamed [mkRField [] VInherited None (TyRef (Some "'a") true (TyPath None (Path false [(Seg (I "T") GNone)])))]) false]))
  = None.
Proof. vm_compute. reflexivity. Qed.
(** /repo/tests/pin_project.rs:331 *)
Example ui_pin_project_331 : verdict [TIdent (I "project_replace")]
  (mkRItem [] (RStruct VPub (I "Struct1") (mkRGenerics [([], PLt "'pin" []); ([], PTy (I "T") [] None)] None) (RNamed [mkRField [RAttr (mkAttr false [(I "pin")] MPath)] VInherited (Some (I "f")) (TyRef (Some "'pin") true (TyPath None (Path false [(Seg (I "T") GNone)])))])))
  = None.
Proof. vm_compute. reflexivity. Qed.
(** /repo/tests/pin_project.rs:337 *)
Example ui_pin_project_337 : verdict [TIdent (I "project_replace")]
  (mkRItem [] (RStruct VPub (I "Struct2") (mkRGenerics [([], PLt "'pin" []); ([], PLt "'pin_" []); ([], PLt "'pin__" [])] None) (RNamed [mkRField [RAttr (mkAttr false [(I "pin")] MPath)] VInherited (Some (I "f")) (TyRef (Some "'pin") false (TyRef (Some "'pin_") false (TyRef (Some "'pin__") false (TyTuple []))))])))
  = None.
Proof. vm_compute. reflexivity. Qed.
(** /repo/tests/pin_project.rs:345 *)
Example ui_pin_project_345 : verdict [TIdent (I "project_replace")]
  (mkRItem [] (RStruct VPub (I "Hrtb") (mkRGenerics [([], PLt "'pin___" []); ([], PTy (I "T") [] None)] (Some [WTy ["'pin"] (TyRef (Some "'pin") false (TyPath None (Path false [(Seg (I "T") GNone)]))) [(BTrait false [] (Path false [(Seg (I "Unpin") GNone)]))]; WTy [] (TyPath None (Path false [(Seg (I "T") GNone)])) [(BTrait false ["'pin"] (Path false [(Seg (I "Trait") (GAngle false [(ALt "'pin")]))]))]; WTy ["'pin"; "'pin_"; "'pin__"] (TyRef (Some "'pin") false (TyRef (Some "'pin_") false (TyRef (Some "'pin__") false (TyPath None (Path false [(Seg (I "T") GNone)]))))) [(BTrait false [] (Path false [(Seg (I "Unpin") GNone)]))]])) (RNamed [mkRField [RAttr (mkAttr false [(I "pin")] MPath)] VInherited (Some (I "f")) (TyRef (Some "'pin___") true (TyPath None (Path false [(Seg (I "T") GNone)])))])))
  = None.
Proof. vm_compute. reflexivity. Qed.
(** /repo/tests/pin_project.rs:356 *)
Example ui_pin_project_356 : verdict [TIdent (I "PinnedDrop")]
  (mkRItem [] (RStruct VPub (I "PinnedDropStruct") (mkRGenerics [([], PLt "'pin" [])] None) (RNamed [mkRField [RAttr (mkAttr false [(I "pin")] MPath)] VInherited (Some (I "f")) (TyRef (Some "'pin") false (TyTuple []))])))
  = None.
Proof. vm_compute. reflexivity. Qed.
(** /repo/tests/pin_project.rs:362 *)
Example ui_pin_project_362 : verdict_impl []
  (mkItemImpl [] false false (mkGenerics [] None) (Some (false, (Path false [(Seg (I "PinnedDrop") GNone)]))) (TyPath None (Path false [(Seg (I "PinnedDropStruct") (GAngle false [(ALt "'_")]))])) [IIFn (mkIMethod [] VInherited false (mkSig false false false false (I "drop") (mkGenerics [] None) [FRecv [] None false (Some (TyPath None (Path false [(Seg (I "Pin") (GAngle false [(ATy (TyRef None true (TyPath None (Path false [(Seg (I "Self") GNone)]))))]))])))] false None) [])])
  = None.
Proof. vm_compute. reflexivity. Qed.
(** /repo/tests/pin_project.rs:367 *)
Example ui_pin_project_367 : verdict [TIdent (I "UnsafeUnpin")]
  (mkRItem [] (RStruct VPub (I "UnsafeUnpinStruct") (mkRGenerics [([], PLt "'pin" [])] None) (RNamed [mkRField [RAttr (mkAttr false [(I "pin")] MPath)] VInherited (Some (I "f")) (TyRef (Some "'pin") false (TyTuple []))])))
  = None.
Proof. vm_compute. reflexivity. Qed.
(** /repo/tests/pin_project.rs:375 *)
Example ui_pin_project_375 : verdict [TPunct "!" false; TIdent (I "Unpin")]
  (mkRItem [] (RStruct VPub (I "NotUnpinStruct") (mkRGenerics [([], PLt "'pin" [])] None) (RNamed [mkRField [RAttr (mkAttr false [(I "pin")] MPath)] VInherited (Some (I "f")) (TyRef (Some "'pin") false (TyTuple []))])))
  = None.
Proof. vm_compute. reflexivity. Qed.
(** /repo/tests/pin_project.rs:384 *)
Example ui_pin_project_384 : verdict [TIdent (I "PinnedDrop"); TPunct "," false; TIdent (I "UnsafeUnpin")]
  (mkRItem [] (RStruct VPub (I "PinnedDropWithUnsafeUnpin") (mkRGenerics [([], PTy (I "T") [] None)] None) (RNamed [mkRField [RAttr (mkAttr false [(I "pin")] MPath)] VInherited (Some (I "f")) (TyPath None (Path false [(Seg (I "T") GNone)]))])))
  = None.
Proof. vm_compute. reflexivity. Qed.
(** /repo/tests/pin_project.rs:390 *)
Example ui_pin_project_390 : verdict_impl []
  (mkItemImpl [] false false (mkGenerics [PTy (I "T") [] None] None) (Some (false, (Path false [(Seg (I "PinnedDrop") GNone)]))) (TyPath None (Path false [(Seg (I "PinnedDropWithUnsafeUnpin") (GAngle false [(ATy (TyPath None (Path false [(Seg (I "T") GNone)])))]))])) [IIFn (mkIMethod [] VInherited false (mkSig false false false false (I "drop") (mkGenerics [] None) [FRecv [] None false (Some (TyPath None (Path false [(Seg (I "Pin") (GAngle false [(ATy (TyRef None true (TyPath None (Path false [(Seg (I "Self") GNone)]))))]))])))] false None) [])])
  = None.
Proof. vm_compute. reflexivity. Qed.
(** /repo/tests/pin_project.rs:397 *)
Example ui_pin_project_397 : verdict [TIdent (I "PinnedDrop"); TPunct "," false; TPunct "!" false; TIdent (I "Unpin")]
  (mkRItem [] (RStruct VPub (I "PinnedDropWithNotUnpin") (mkRGenerics [([], PTy (I "T") [] None)] None) (RNamed [mkRField [RAttr (mkAttr false [(I "pin")] MPath)] VInherited (Some (I "f")) (TyPath None (Path false [(Seg (I "T") GNone)]))])))
  = None.
Proof. vm_compute. reflexivity. Qed.
(** /repo/tests/pin_project.rs:403 *)
Example ui_pin_project_403 : verdict_impl []
  (mkItemImpl [] false false (mkGenerics [PTy (I "T") [] None] None) (Some (false, (Path false [(Seg (I "PinnedDrop") GNone)]))) (TyPath None (Path false [(Seg (I "PinnedDropWithNotUnpin") (GAngle false [(ATy (TyPath None (Path false [(Seg (I "T") GNone)])))]))])) [IIFn (mkIMethod [] VInherited false (mkSig false false false false (I "drop") (mkGenerics [] None) [FRecv [] None false (Some (TyPath None (Path false [(Seg (I "Pin") (GAngle false [(ATy (TyRef None true (TyPath None (Path false [(Seg (I "Self") GNone)]))))]))])))] false None) [])])
  = None.
Proof. vm_compute. reflexivity. Qed.
(** /repo/tests/pin_project.rs:408 *)
Example ui_pin_project_408 : verdict [TIdent (I "UnsafeUnpin"); TPunct "," false; TIdent (I "project_replace")]
  (mkRItem [] (RStruct VPub (I "UnsafeUnpinWithReplace") (mkRGenerics [([], PTy (I "T") [] None)] None) (RNamed [mkRField [RAttr (mkAttr false [(I "pin")] MPath)] VInherited (Some (I "f")) (TyPath None (Path false [(Seg (I "T") GNone)]))])))
  = None.
Proof. vm_compute. reflexivity. Qed.
(** /repo/tests/pin_project.rs:416 *)
Example ui_pin_project_416 : verdict [TPunct "!" false; TIdent (I "Unpin"); TPunct "," false; TIdent (I "project_replace")]
  (mkRItem [] (RStruct VPub (I "NotUnpinWithReplace") (mkRGenerics [([], PTy (I "T") [] None)] None) (RNamed [mkRField [RAttr (mkAttr false [(I "pin")] MPath)] VInherited (Some (I "f")) (TyPath None (Path false [(Seg (I "T") GNone)]))])))
  = None.
Proof. vm_compute. reflexivity. Qed.
(** /repo/tests/pin_project.rs:425 *)
Example ui_pin_project_425 : verdict [TIdent (I "project_replace")]
  (mkRItem [] (RStruct VPub (I "PublicStruct") (mkRGenerics [([], PTy (I "T") [] None)] None) (RNamed [mkRField [RAttr (mkAttr false [(I "pin")] MPath)] VInherited (Some (I "inner")) (TyPath None (Path false [(Seg (I "PrivateStruct") (GAngle false [(ATy (TyPath None (Path false [(Seg (I "T") GNone)])))]))]))])))
  = None.
Proof. vm_compute. reflexivity. Qed.
(** /repo/tests/pin_project.rs:437 *)
Example ui_pin_project_437 : verdict [TIdent (I "project_replace")]
  (mkRItem [] (RStruct VInherited (I "Struct1") (mkRGenerics [([], PTy (I "T") [] None); ([], PTy (I "U") [] None)] None) (RNamed [mkRField [RAttr (mkAttr false [(I "pin")] MPath)] VInherited (Some (I "pinned")) (TyPath None (Path false [(Seg (I "T") GNone)])); mkRField [] VInherited (Some (I "unpinned")) (TyPath None (Path false [(Seg (I "U") GNone)]))])))
  = None.
Proof. vm_compute. reflexivity. Qed.
(** /repo/tests/pin_project.rs:444 *)
Example ui_pin_project_444 : verdict [TIdent (I "project_replace")]
  (mkRItem [] (RStruct VInherited (I "Struct2") (mkRGenerics [([], PLt "'a" []); ([], PTy (I "T") [] None); ([], PTy (I "U") [] None)] None) (RNamed [mkRField [RAttr (mkAttr false [(I "pin")] MPath)] VInherited (Some (I "pinned")) (TyRef (Some "'a") false (TyPath None (Path false [(Seg (I "T") GNone)]))); mkRField [] VInherited (Some (I "unpinned")) (TyPath None (Path false [(Seg (I "U") GNone)]))])))
  = None.
Proof. vm_compute. reflexivity. Qed.
(** /repo/tests/pin_project.rs:451 *)
Example ui_pin_project_451 : verdict [TIdent (I "project"); TPunct "=" false; TIdent (I "EnumProj"); TPunct "," false; TIdent (I "project_ref"); TPunct "=" false; TIdent (I "EnumProjRef"); TPunct "," false; TIdent (I "project_replace"); TPunct "=" false; TIdent (I "EnumProjOwn")]
  (mkRItem [] (REnum VInherited (I "Enum") (mkRGenerics [([], PTy (I "T") [] None); ([], PTy (I "U") [] None)] None) [mkRVariant [] (I "V") (RNamed [mkRField [RAttr (mkAttr false [(I "pin")] MPath)] VInherited (Some (I "pinned")) (TyPath None (Path false [(Seg (I "T") GNone)])); mkRField [] VInherited (Some (I "unpinned")) (TyPath None (Path false [(Seg (I "U") GNone)]))]) false]))
  = None.
Proof. vm_compute. reflexivity. Qed.
(** /repo/tests/pin_project.rs:517 *)
Example ui_pin_project_517 : verdict [TIdent (I "project_replace")]
  (mkRItem [] (RStruct (VRestricted false [(I "crate")]) (I "S") (mkRGenerics [] None) (RNamed [mkRField [] VPub (Some (I "f")) (TyPath None (Path false [(Seg (I "u8") GNone)]))])))
  = None.
Proof. vm_compute. reflexivity. Qed.
(** /repo/tests/pin_project.rs:535 *)
Example ui_pin_project_535 : verdict [TIdent (I "project_replace")]
  (mkRItem [] (RStruct VPub (I "NoGenerics") (mkRGenerics [] None) (RNamed [mkRField [RAttr (mkAttr false [(I "pin")] MPath)] VInherited (Some (I "f")) (TyPath None (Path false [(Seg (I "PhantomPinned") GNone)]))])))
  = None.
Proof. vm_compute. reflexivity. Qed.
(** /repo/tests/pin_project.rs:546 *)
Example ui_pin_project_546 : verdict []
  (mkRItem [] (RStruct VInherited (I "Struct1") (mkRGenerics [([], PTy (I "T") [(BTrait true [] (Path false [(Seg (I "Sized") GNone)]))] None)] None) (RNamed [mkRField [] VInherited (Some (I "f")) (TyPath None (Path false [(Seg (I "T") GNone)]))])))
  = None.
Proof. vm_compute. reflexivity. Qed.
(** /repo/tests/pin_project.rs:555 *)
Example ui_pin_project_555 : verdict []
  (mkRItem [] (RStruct VInherited (I "Struct2") (mkRGenerics [([], PTy (I "T") [(BTrait true [] (Path false [(Seg (I "Sized") GNone)]))] None)] None) (RNamed [mkRField [RAttr (mkAttr false [(I "pin")] MPath)] VInherited (Some (I "f")) (TyPath None (Path false [(Seg (I "T") GNone)]))])))
  = None.
Proof. vm_compute. reflexivity. Qed.
(** /repo/tests/pin_project.rs:565 *)
Example ui_pin_project_565 : verdict []
  (mkRItem [RAttr (mkAttr false [(I "allow")] (MList Paren [TIdent (I "explicit_outlives_requirements")]))] (RStruct VInherited (I "Struct3") (mkRGenerics [([], PTy (I "T") [] None)] (Some [WTy [] (TyPath None (Path false [(Seg (I "T") GNone)])) [(BTrait true [] (Path false [(Seg (I "Sized") GNone)]))]])) (RNamed [mkRField [] VInherited (Some (I "f")) (TyPath None (Path false [(Seg (I "T") GNone)]))])))
  = None.
Proof. vm_compute. reflexivity. Qed.
(** /repo/tests/pin_project.rs:574 *)
Example ui_pin_project_574 : verdict []
  (mkRItem [RAttr (mkAttr false [(I "allow")] (MList Paren [TIdent (I "explicit_outlives_requirements")]))] (RStruct VInherited (I "Struct4") (mkRGenerics [([], PTy (I "T") [] None)] (Some [WTy [] (TyPath None (Path false [(Seg (I "T") GNone)])) [(BTrait true [] (Path false [(Seg (I "Sized") GNone)]))]])) (RNamed [mkRField [RAttr (mkAttr false [(I "pin")] MPath)] VInherited (Some (I "f")) (TyPath None (Path false [(Seg (I "T") GNone)]))])))
  = None.
Proof. vm_compute. reflexivity. Qed.
(** /repo/tests/pin_project.rs:584 *)
Example ui_pin_project_584 : verdict [TIdent (I "UnsafeUnpin")]
  (mkRItem [] (RStruct VInherited (I "Struct5") (mkRGenerics [([], PTy (I "T") [(BTrait true [] (Path false [(Seg (I "Sized") GNone)]))] None)] None) (RNamed [mkRField [] VInherited (Some (I "f")) (TyPath None (Path false [(Seg (I "T") GNone)]))])))
  = None.
Proof. vm_compute. reflexivity. Qed.
(** /repo/tests/pin_project.rs:589 *)
Example ui_pin_project_589 : verdict [TIdent (I "UnsafeUnpin")]
  (mkRItem [] (RStruct VInherited (I "Struct6") (mkRGenerics [([], PTy (I "T") [(BTrait true [] (Path false [(Seg (I "Sized") GNone)]))] None)] None) (RNamed [mkRField [RAttr (mkAttr false [(I "pin")] MPath)] VInherited (Some (I "f")) (TyPath None (Path false [(Seg (I "T") GNone)]))])))
  = None.
Proof. vm_compute. reflexivity. Qed.
(** /repo/tests/pin_project.rs:595 *)
Example ui_pin_project_595 : verdict [TIdent (I "PinnedDrop")]
  (mkRItem [] (RStruct VInherited (I "Struct7") (mkRGenerics [([], PTy (I "T") [(BTrait true [] (Path false [(Seg (I "Sized") GNone)]))] None)] None) (RNamed [mkRField [] VInherited (Some (I "f")) (TyPath None (Path false [(Seg (I "T") GNone)]))])))
  = None.
Proof. vm_compute. reflexivity. Qed.
(** /repo/tests/pin_project.rs:600 *)
Example ui_pin_project_600 : verdict_impl []
  (mkItemImpl [] false false (mkGenerics [PTy (I "T") [(BTrait true [] (Path false [(Seg (I "Sized") GNone)]))] None] None) (Some (false, (Path false [(Seg (I "PinnedDrop") GNone)]))) (TyPath None (Path false [(Seg (I "Struct7") (GAngle false [(ATy (TyPath None (Path false [(Seg (I "T") GNone)])))]))])) [IIFn (mkIMethod [] VInherited false (mkSig false false false false (I "drop") (mkGenerics [] None) [FRecv [] None false (Some (TyPath None (Path false [(Seg (I "Pin") (GAngle false [(ATy (TyRef None true (TyPath None (Path false [(Seg (I "Self") GNone)]))))]))])))] false None) [])])
  = None.
Proof. vm_compute. reflexivity. Qed.
(** /repo/tests/pin_project.rs:605 *)
Example ui_pin_project_605 : verdict [TIdent (I "PinnedDrop")]
  (mkRItem [] (RStruct VInherited (I "Struct8") (mkRGenerics [([], PTy (I "T") [(BTrait true [] (Path false [(Seg (I "Sized") GNone)]))] None)] None) (RNamed [mkRField [RAttr (mkAttr false [(I "pin")] MPath)] VInherited (Some (I "f")) (TyPath None (Path false [(Seg (I "T") GNone)]))])))
  = None.
Proof. vm_compute. reflexivity. Qed.
(** /repo/tests/pin_project.rs:611 *)
Example ui_pin_project_611 : verdict_impl []
  (mkItemImpl [] false false (mkGenerics [PTy (I "T") [(BTrait true [] (Path false [(Seg (I "Sized") GNone)]))] None] None) (Some (false, (Path false [(Seg (I "PinnedDrop") GNone)]))) (TyPath None (Path false [(Seg (I "Struct8") (GAngle false [(ATy (TyPath None (Path false [(Seg (I "T") GNone)])))]))])) [IIFn (mkIMethod [] VInherited false (mkSig false false false false (I "drop") (mkGenerics [] None) [FRecv [] None false (Some (TyPath None (Path false [(Seg (I "Pin") (GAngle false [(ATy (TyRef None true (TyPath None (Path false [(Seg (I "Self") GNone)]))))]))])))] false None) [])])
  = None.
Proof. vm_compute. reflexivity. Qed.
(** /repo/tests/pin_project.rs:616 *)
Example ui_pin_project_616 : verdict [TPunct "!" false; TIdent (I "Unpin")]
  (mkRItem [] (RStruct VInherited (I "Struct9") (mkRGenerics [([], PTy (I "T") [(BTrait true [] (Path false [(Seg (I "Sized") GNone)]))] None)] None) (RNamed [mkRField [] VInherited (Some (I "f")) (TyPath None (Path false [(Seg (I "T") GNone)]))])))
  = None.
Proof. vm_compute. reflexivity. Qed.
(** /repo/tests/pin_project.rs:621 *)
Example ui_pin_project_621 : verdict [TPunct "!" false; TIdent (I "Unpin")]
  (mkRItem [] (RStruct VInherited (I "Struct10") (mkRGenerics [([], PTy (I "T") [(BTrait true [] (Path false [(Seg (I "Sized") GNone)]))] None)] None) (RNamed [mkRField [RAttr (mkAttr false [(I "pin")] MPath)] VInherited (Some (I "f")) (TyPath None (Path false [(Seg (I "T") GNone)]))])))
  = None.
Proof. vm_compute. reflexivity. Qed.
(** /repo/tests/pin_project.rs:627 *)
Example ui_pin_project_627 : verdict []
  (mkRItem [] (RStruct VInherited (I "Struct11") (mkRGenerics [([], PLt "'a" []); ([], PTy (I "T") [(BTrait true [] (Path false [(Seg (I "Sized") GNone)]))] None); ([], PTy (I "U") [(BTrait true [] (Path false [(Seg (I "Sized") GNone)]))] None)] None) (RNamed [mkRField [] VInherited (Some (I "f1")) (TyRef (Some "'a") true (TyPath None (Path false [(Seg (I "T") GNone)]))); mkRField [] VInherited (Some (I "f2")) (TyPath None (Path false [(Seg (I "U") GNone)]))])))
  = None.
Proof. vm_compute. reflexivity. Qed.
(** /repo/tests/pin_project.rs:633 *)
Example ui_pin_project_633 : verdict []
  (mkRItem [] (RStruct VInherited (I "TupleStruct1") (mkRGenerics [([], PTy (I "T") [(BTrait true [] (Path false [(Seg (I "Sized") GNone)]))] None)] None) (RUnnamed [mkRField [] VInherited None (TyPath None (Path false [(Seg (I "T") GNone)]))])))
  = None.
Proof. vm_compute. reflexivity. Qed.
(** /repo/tests/pin_project.rs:636 *)
Example ui_pin_project_636 : verdict []
  (mkRItem [] (RStruct VInherited (I "TupleStruct2") (mkRGenerics [([], PTy (I "T") [(BTrait true [] (Path false [(Seg (I "Sized") GNone)]))] None)] None) (RUnnamed [mkRField [RAttr (mkAttr false [(I "pin")] MPath)] VInherited None (TyPath None (Path false [(Seg (I "T") GNone)]))])))
  = None.
Proof. vm_compute. reflexivity. Qed.
(** /repo/tests/pin_project.rs:639 *)
Example ui_pin_project_639 : verdict []
  (mkRItem [RAttr (mkAttr false [(I "allow")] (MList Paren [TIdent (I "explicit_outlives_requirements")]))] (RStruct VInherited (I "TupleStruct3") (mkRGenerics [([], PTy (I "T") [] None)] (Some [WTy [] (TyPath None (Path false [(Seg (I "T") GNone)])) [(BTrait true [] (Path false [(Seg (I "Sized") GNone)]))]])) (RUnnamed [mkRField [] VInherited None (TyPath None (Path false [(Seg (I "T") GNone)]))])))
  = None.
Proof. vm_compute. reflexivity. Qed.
(** /repo/tests/pin_project.rs:645 *)
Example ui_pin_project_645 : verdict []
  (mkRItem [RAttr (mkAttr false [(I "allow")] (MList Paren [TIdent (I "explicit_outlives_requirements")]))] (RStruct VInherited (I "TupleStruct4") (mkRGenerics [([], PTy (I "T") [] None)] (Some [WTy [] (TyPath None (Path false [(Seg (I "T") GNone)])) [(BTrait true [] (Path false [(Seg (I "Sized") GNone)]))]])) (RUnnamed [mkRField [RAttr (mkAttr false [(I "pin")] MPath)] VInherited None (TyPath None (Path false [(Seg (I "T") GNone)]))])))
  = None.
Proof. vm_compute. reflexivity. Qed.
(** /repo/tests/pin_project.rs:651 *)
Example ui_pin_project_651 : verdict [TIdent (I "UnsafeUnpin")]
  (mkRItem [] (RStruct VInherited (I "TupleStruct5") (mkRGenerics [([], PTy (I "T") [(BTrait true [] (Path false [(Seg (I "Sized") GNone)]))] None)] None) (RUnnamed [mkRField [] VInherited None (TyPath None (Path false [(Seg (I "T") GNone)]))])))
  = None.
Proof. vm_compute. reflexivity. Qed.
(** /repo/tests/pin_project.rs:654 *)
Example ui_pin_project_654 : verdict [TIdent (I "UnsafeUnpin")]
  (mkRItem [] (RStruct VInherited (I "TupleStruct6") (mkRGenerics [([], PTy (I "T") [(BTrait true [] (Path false [(Seg (I "Sized") GNone)]))] None)] None) (RUnnamed [mkRField [RAttr (mkAttr false [(I "pin")] MPath)] VInherited None (TyPath None (Path false [(Seg (I "T") GNone)]))])))
  = None.
Proof. vm_compute. reflexivity. Qed.
(** /repo/tests/pin_project.rs:657 *)
Example ui_pin_project_657 : verdict [TIdent (I "PinnedDrop")]
  (mkRItem [] (RStruct VInherited (I "TupleStruct7") (mkRGenerics [([], PTy (I "T") [(BTrait true [] (Path false [(Seg (I "Sized") GNone)]))] None)] None) (RUnnamed [mkRField [] VInherited None (TyPath None (Path false [(Seg (I "T") GNone)]))])))
  = None.
Proof. vm_compute. reflexivity. Qed.
(** /repo/tests/pin_project.rs:660 *)
Example ui_pin_project_660 : verdict_impl []
  (mkItemImpl [] false false (mkGenerics [PTy (I "T") [(BTrait true [] (Path false [(Seg (I "Sized") GNone)]))] None] None) (Some (false, (Path false [(Seg (I "PinnedDrop") GNone)]))) (TyPath None (Path false [(Seg (I "TupleStruct7") (GAngle false [(ATy (TyPath None (Path false [(Seg (I "T") GNone)])))]))])) [IIFn (mkIMethod [] VInherited false (mkSig false false false false (I "drop") (mkGenerics [] None) [FRecv [] None false (Some (TyPath None (Path false [(Seg (I "Pin") (GAngle false [(ATy (TyRef None true (TyPath None (Path false [(Seg (I "Self") GNone)]))))]))])))] false None) [])])
  = None.
Proof. vm_compute. reflexivity. Qed.
(** /repo/tests/pin_project.rs:665 *)
Example ui_pin_project_665 : verdict [TIdent (I "PinnedDrop")]
  (mkRItem [] (RStruct VInherited (I "TupleStruct8") (mkRGenerics [([], PTy (I "T") [(BTrait true [] (Path false [(Seg (I "Sized") GNone)]))] None)] None) (RUnnamed [mkRField [RAttr (mkAttr false [(I "pin")] MPath)] VInherited None (TyPath None (Path false [(Seg (I "T") GNone)]))])))
  = None.
Proof. vm_compute. reflexivity. Qed.
(** /repo/tests/pin_project.rs:668 *)
Example ui_pin_project_668 : verdict_impl []
  (mkItemImpl [] false false (mkGenerics [PTy (I "T") [(BTrait true [] (Path false [(Seg (I "Sized") GNone)]))] None] None) (Some (false, (Path false [(Seg (I "PinnedDrop") GNone)]))) (TyPath None (Path false [(Seg (I "TupleStruct8") (GAngle false [(ATy (TyPath None (Path false [(Seg (I "T") GNone)])))]))])) [IIFn (mkIMethod [] VInherited false (mkSig false false false false (I "drop") (mkGenerics [] None) [FRecv [] None false (Some (TyPath None (Path false [(Seg (I "Pin") (GAngle false [(ATy (TyRef None true (TyPath None (Path false [(Seg (I "Self") GNone)]))))]))])))] false None) [])])
  = None.
Proof. vm_compute. reflexivity. Qed.
(** /repo/tests/pin_project.rs:673 *)
Example ui_pin_project_673 : verdict [TPunct "!" false; TIdent (I "Unpin")]
  (mkRItem [] (RStruct VInherited (I "TupleStruct9") (mkRGenerics [([], PTy (I "T") [(BTrait true [] (Path false [(Seg (I "Sized") GNone)]))] None)] None) (RUnnamed [mkRField [] VInherited None (TyPath None (Path false [(Seg (I "T") GNone)]))])))
  = None.
Proof. vm_compute. reflexivity. Qed.
(** /repo/tests/pin_project.rs:676 *)
Example ui_pin_project_676 : verdict [TPunct "!" false; TIdent (I "Unpin")]
  (mkRItem [] (RStruct VInherited (I "TupleStruct10") (mkRGenerics [([], PTy (I "T") [(BTrait true [] (Path false [(Seg (I "Sized") GNone)]))] None)] None) (RUnnamed [mkRField [RAttr (mkAttr false [(I "pin")] MPath)] VInherited None (TyPath None (Path false [(Seg (I "T") GNone)]))])))
  = None.
Proof. vm_compute. reflexivity. Qed.
(** /repo/tests/pin_project.rs:679 *)
Example ui_pin_project_679 : verdict []
  (mkRItem [] (RStruct VInherited (I "TupleStruct11") (mkRGenerics [([], PLt "'a" []); ([], PTy (I "T") [(BTrait true [] (Path false [(Seg (I "Sized") GNone)]))] None); ([], PTy (I "U") [(BTrait true [] (Path false [(Seg (I "Sized") GNone)]))] None)] None) (RUnnamed [mkRField [] VInherited None (TyRef (Some "'a") true (TyPath None (Path false [(Seg (I "T") GNone)]))); mkRField [] VInherited None (TyPath None (Path false [(Seg (I "U") GNone)]))])))
  = None.
Proof. vm_compute. reflexivity. Qed.
(** /repo/tests/pin_project.rs:685 *)
Example ui_pin_project_685 : verdict []
  (mkRItem [] (RStruct VInherited (I "Struct1") (mkRGenerics [] None) (RNamed [mkRField [] VInherited (Some (I "f")) (TyDyn [(BTrait false [] (Path false [(Seg (I "core") GNone); (Seg (I "fmt") GNone); (Seg (I "Debug") GNone)]))])])))
  = None.
Proof. vm_compute. reflexivity. Qed.
(** /repo/tests/pin_project.rs:690 *)
Example ui_pin_project_690 : verdict []
  (mkRItem [] (RStruct VInherited (I "Struct2") (mkRGenerics [] None) (RNamed [mkRField [RAttr (mkAttr false [(I "pin")] MPath)] VInherited (Some (I "f")) (TyDyn [(BTrait false [] (Path false [(Seg (I "core") GNone); (Seg (I "fmt") GNone); (Seg (I "Debug") GNone)]))])])))
  = None.
Proof. vm_compute. reflexivity. Qed.
(** /repo/tests/pin_project.rs:696 *)
Example ui_pin_project_696 : verdict []
  (mkRItem [] (RStruct VInherited (I "Struct3") (mkRGenerics [] None) (RNamed [mkRField [] VInherited (Some (I "f")) (TyDyn [(BTrait false [] (Path false [(Seg (I "core") GNone); (Seg (I "fmt") GNone); (Seg (I "Debug") GNone)])); (BTrait false [] (Path false [(Seg (I "Send") GNone)]))])])))
  = None.
Proof. vm_compute. reflexivity. Qed.
(** /repo/tests/pin_project.rs:701 *)
Example ui_pin_project_701 : verdict []
  (mkRItem [] (RStruct VInherited (I "Struct4") (mkRGenerics [] None) (RNamed [mkRField [RAttr (mkAttr false [(I "pin")] MPath)] VInherited (Some (I "f")) (TyDyn [(BTrait false [] (Path false [(Seg (I "core") GNone); (Seg (I "fmt") GNone); (Seg (I "Debug") GNone)])); (BTrait false [] (Path false [(Seg (I "Send") GNone)]))])])))
  = None.
Proof. vm_compute. reflexivity. Qed.
(** /repo/tests/pin_project.rs:707 *)
Example ui_pin_project_707 : verdict []
  (mkRItem [] (RStruct VInherited (I "TupleStruct1") (mkRGenerics [] None) (RUnnamed [mkRField [] VInherited None (TyDyn [(BTrait false [] (Path false [(Seg (I "core") GNone); (Seg (I "fmt") GNone); (Seg (I "Debug") GNone)]))])])))
  = None.
Proof. vm_compute. reflexivity. Qed.
(** /repo/tests/pin_project.rs:710 *)
Example ui_pin_project_710 : verdict []
  (mkRItem [] (RStruct VInherited (I "TupleStruct2") (mkRGenerics [] None) (RUnnamed [mkRField [RAttr (mkAttr false [(I "pin")] MPath)] VInherited None (TyDyn [(BTrait false [] (Path false [(Seg (I "core") GNone); (Seg (I "fmt") GNone); (Seg (I "Debug") GNone)]))])])))
  = None.
Proof. vm_compute. reflexivity. Qed.
(** /repo/tests/pin_project.rs:713 *)
Example ui_pin_project_713 : verdict []
  (mkRItem [] (RStruct VInherited (I "TupleStruct3") (mkRGenerics [] None) (RUnnamed [mkRField [] VInherited None (TyDyn [(BTrait false [] (Path false [(Seg (I "core") GNone); (Seg (I "fmt") GNone); (Seg (I "Debug") GNone)])); (BTrait false [] (Path false [(Seg (I "Send") GNone)]))])])))
  = None.
Proof. vm_compute. reflexivity. Qed.
(** /repo/tests/pin_project.rs:716 *)
Example ui_pin_project_716 : verdict []
  (mkRItem [] (RStruct VInherited (I "TupleStruct4") (mkRGenerics [] None) (RUnnamed [mkRField [RAttr (mkAttr false [(I "pin")] MPath)] VInherited None (TyDyn [(BTrait false [] (Path false [(Seg (I "core") GNone); (Seg (I "fmt") GNone); (Seg (I "Debug") GNone)])); (BTrait false [] (Path false [(Seg (I "Send") GNone)]))])])))
  = None.
Proof. vm_compute. reflexivity. Qed.
(** /repo/tests/pin_project.rs:734 *)
Example ui_pin_project_734 : verdict [TIdent (I "project_replace")]
  (mkRItem [RAttr (mkAttr false [(I "allow")] (MList Paren [TIdent (I "clippy"); TPunct ":" true; TPunct ":" false; TIdent (I "type_repetition_in_bounds")]))] (RStruct VPub (I "Generics") (mkRGenerics [([], PTy (I "T") [(BTrait false [] (Path false [(Seg (I "Trait") (GAngle false [(AAssoc (I "Assoc") (TyPath None (Path false [(Seg (I "Self") GNone)])))]))]))] None)] (Some [WTy [] (TyPath None (Path false [(Seg (I "Self") GNone)])) [(BTrait false [] (Path false [(Seg (I "Trait") (GAngle false [(AAssoc (I "Assoc") (TyPath None (Path false [(Seg (I "Self") GNone)])))]))]))]; WTy [] (TyPath (Some ((TyPath None (Path false [(Seg (I "Self") GNone)])), 1)) (Path false [(Seg (I "Trait") GNone); (Seg (I "Assoc") GNone)])) [(BTrait false [] (Path false [(Seg (I "Sized") GNone)]))]; WTy [] (TyMacro [(I "mac")] [TIdent (I "Self")]) [(BTrait false [] (Path false [(Seg (I "Trait") (GAngle false [(AAssoc (I "Assoc") (TyMacro [(I "mac")] [TIdent (I "Self")]))]))]))]])) (RNamed [mkRField [] VInherited (Some (I "_f")) (TyPath None (Path false [(Seg (I "T") GNone)]))])))
  = None.
Proof. vm_compute. reflexivity. Qed.
(** /repo/tests/pin_project.rs:749 *)
Example ui_pin_project_749 : verdict [TIdent (I "project_replace")]
  (mkRItem [] (RStruct VPub (I "Struct") (mkRGenerics [] None) (RNamed [mkRField [] VInherited (Some (I "_f1")) (TyPath None (Path false [(Seg (I "Box") (GAngle false [(ATy (TyPath None (Path false [(Seg (I "Self") GNone)])))]))])); mkRField [] VInherited (Some (I "_f2")) (TyPath None (Path false [(Seg (I "Box") (GAngle false [(ATy (TyPath (Some ((TyPath None (Path false [(Seg (I "Self") GNone)])), 1)) (Path false [(Seg (I "Trait") GNone); (Seg (I "Assoc") GNone)])))]))])); mkRField [] VInherited (Some (I "_f3")) (TyPath None (Path false [(Seg (I "Box") (GAngle false [(ATy (TyMacro [(I "mac")] [TIdent (I "Self")]))]))])); mkRField [] VInherited (Some (I "_f4")) (TyArray (TyTuple []) (EPath None (Path false [(Seg (I "Self") GNone); (Seg (I "ASSOC") GNone)]))); mkRField [] VInherited (Some (I "_f5")) (TyArray (TyTuple []) (ECall (EPath None (Path false [(Seg (I "Self") GNone); (Seg (I "assoc") GNone)])) [])); mkRField [] VInherited (Some (I "_f6")) (TyArray (TyTuple []) (EPath None (Path false [(Seg (I "mac") GNone)])))])))
  = None.
Proof. vm_compute. reflexivity. Qed.
(** /repo/tests/pin_project.rs:770 *)
Example ui_pin_project_770 : verdict [TIdent (I "project_replace")]
  (mkRItem [] (RStruct VInherited (I "Tuple") (mkRGenerics [] None) (RUnnamed [mkRField [] VInherited None (TyPath None (Path false [(Seg (I "Box") (GAngle false [(ATy (TyPath None (Path false [(Seg (I "Self") GNone)])))]))])); mkRField [] VInherited None (TyPath None (Path false [(Seg (I "Box") (GAngle false [(ATy (TyPath (Some ((TyPath None (Path false [(Seg (I "Self") GNone)])), 1)) (Path false [(Seg (I "Trait") GNone); (Seg (I "Assoc") GNone)])))]))])); mkRField [] VInherited None (TyPath None (Path false [(Seg (I "Box") (GAngle false [(ATy (TyMacro [(I "mac")] [TIdent (I "Self")]))]))])); mkRField [] VInherited None (TyArray (TyTuple []) (EPath None (Path false [(Seg (I "Self") GNone); (Seg (I "ASSOC") GNone)]))); mkRField [] VInherited None (TyArray (TyTuple []) (ECall (EPath None (Path false [(Seg (I "Self") GNone); (Seg (I "assoc") GNone)])) [])); mkRField [] VInherited None (TyArray (TyTuple []) (EPath None (Path false [(Seg (I "mac") GNone)])))])))
  = None.
Proof. vm_compute. reflexivity. Qed.
(** /repo/tests/pin_project.rs:791 *)
Example ui_pin_project_791 : verdict [TIdent (I "project"); TPunct "=" false; TIdent (I "EnumProj"); TPunct "," false; TIdent (I "project_ref"); TPunct "=" false; TIdent (I "EnumProjRef"); TPunct "," false; TIdent (I "project_replace"); TPunct "=" false; TIdent (I "EnumProjOwn")]
  (mkRItem [] (REnum VInherited (I "Enum") (mkRGenerics [] None) [mkRVariant [] (I "Struct") (RNamed [mkRField [] VInherited (Some (I "_f1")) (TyPath None (Path false [(Seg (I "Box") (GAngle false [(ATy (TyPath None (Path false [(Seg (I "Self") GNone)])))]))])); mkRField [] VInherited (Some (I "_f2")) (TyPath None (Path false [(Seg (I "Box") (GAngle false [(ATy (TyPath (Some ((TyPath None (Path false [(Seg (I "Self") GNone)])), 1)) (Path false [(Seg (I "Trait") GNone); (Seg (I "Assoc") GNone)])))]))])); mkRField [] VInherited (Some (I "_f3")) (TyPath None (Path false [(Seg (I "Box") (GAngle false [(ATy (TyMacro [(I "mac")] [TIdent (I "Self")]))]))])); mkRField [] VInherited (Some (I "_f4")) (TyArray (TyTuple []) (EPath None (Path false [(Seg (I "Self") GNone); (Seg (I "ASSOC") GNone)]))); mkRField [] VInherited (Some (I "_f5")) (TyArray (TyTuple []) (ECall (EPath None (Path false [(Seg (I "Self") GNone); (Seg (I "assoc") GNone)])) [])); mkRField [] VInherited (Some (I "_f6")) (TyArray (TyTuple []) (EPath None (Path false [(Seg (I "mac") GNone)])))]) false; mkRVariant [] (I "Tuple") (RUnnamed [mkRField [] VInherited None (TyPath None (Path false [(Seg (I "Box") (GAngle false [(ATy (TyPath None (Path false [(Seg (I "Self") GNone)])))]))])); mkRField [] VInherited None (TyPath None (Path false [(Seg (I "Box") (GAngle false [(ATy (TyPath (Some ((TyPath None (Path false [(Seg (I "Self") GNone)])), 1)) (Path false [(Seg (I "Trait") GNone); (Seg (I "Assoc") GNone)])))]))])); mkRField [] VInherited None (TyPath None (Path false [(Seg (I "Box") (GAngle false [(ATy (TyMacro [(I "mac")] [TIdent (I "Self")]))]))])); mkRField [] VInherited None (TyArray (TyTuple []) (EPath None (Path false [(Seg (I "Self") GNone); (Seg (I "ASSOC") GNone)]))); mkRField [] VInherited None (TyArray (TyTuple []) (ECall (EPath None (Path false [(Seg (I "Self") GNone); (Seg (I "assoc") GNone)])) [])); mkRField [] VInherited None (TyArray (TyTuple []) (EPath None (Path false [(Seg (I "mac") GNone)])))]) false]))
  = None.
Proof. vm_compute. reflexivity. Qed.
(** /repo/tests/pin_project.rs:835 *)
Example ui_pin_project_835 : verdict [TIdent (I "project_replace")]
  (mkRItem [] (RStruct VInherited (I "Struct2") (mkRGenerics [([], PTy (I "A") [] None); ([], PTy (I "B") [] None)] None) (RNamed [mkRField [] VInherited (Some (I "_f")) (TyPath (Some ((TyPath None (Path false [(Seg (I "Struct1") (GAngle false [(ATy (TyPath None (Path false [(Seg (I "A") GNone)])))]))])), 1)) (Path false [(Seg (I "Trait") (GAngle false [(ATy (TyPath None (Path false [(Seg (I "B") GNone)])))])); (Seg (I "Y") GNone)]))])))
  = None.
Proof. vm_compute. reflexivity. Qed.
(** /repo/tests/pin_project.rs:846 *)
Example ui_pin_project_846 : verdict [TIdent (I "project_replace")]
  (mkRItem [] (RStruct VInherited (I "S") (mkRGenerics [([], PTy (I "T") [] None); ([], PTy (I "U") [] None)] None) (RNamed [mkRField [RAttr (mkAttr false [(I "pin")] MPath)] VInherited (Some (I "pinned")) (TyPath None (Path false [(Seg (I "T") GNone)])); mkRField [] VInherited (Some (I "unpinned")) (TyPath None (Path false [(Seg (I "U") GNone)]))])))
  = None.
Proof. vm_compute. reflexivity. Qed.
(** /repo/tests/pinned_drop.rs:9 *)
Example ui_pinned_drop_9 : verdict [TIdent (I "PinnedDrop")]
  (mkRItem [] (RStruct VInherited (I "Struct") (mkRGenerics [([], PLt "'a" [])] None) (RNamed [mkRField [] VInherited (Some (I "was_dropped")) (TyRef (Some "'a") true (TyPath None (Path false [(Seg (I "bool") GNone)]))); mkRField [RAttr (mkAttr false [(I "pin")] MPath)] VInherited (Some (I "field")) (TyPath None (Path false [(Seg (I "u8") GNone)]))])))
  = None.
Proof. vm_compute. reflexivity. Qed.
(** /repo/tests/pinned_drop.rs:16 *)
Example ui_pinned_drop_16 : verdict_impl []
  (mkItemImpl [] false false (mkGenerics [] None) (Some (false, (Path false [(Seg (I "PinnedDrop") GNone)]))) (TyPath None (Path false [(Seg (I "Struct") (GAngle false [(ALt "'_")]))])) [IIFn (mkIMethod [] VInherited false (mkSig false false false false (I "drop") (mkGenerics [] None) [FRecv [] None false (Some (TyPath None (Path false [(Seg (I "Pin") (GAngle false [(ATy (TyRef None true (TyPath None (Path false [(Seg (I "Self") GNone)]))))]))])))] false None) [])])
  = None.
Proof. vm_compute. reflexivity. Qed.
(** /repo/tests/pinned_drop.rs:30 *)
Example ui_pinned_drop_30 : verdict [TIdent (I "PinnedDrop")]
  (mkRItem [] (RStruct VInherited (I "S") (mkRGenerics [([], PTy (I "T") [] None)] None) (RUnnamed [mkRField [] VInherited None (TyPath None (Path false [(Seg (I "T") GNone)]))])))
  = None.
Proof. vm_compute. reflexivity. Qed.
(** /repo/tests/pinned_drop.rs:43 *)
Example ui_pinned_drop_43 : verdict_impl []
  (mkItemImpl [] false false (mkGenerics [PTy (I "T") [] None] None) (Some (false, (Path false [(Seg (I "PinnedDrop") GNone)]))) (TyPath None (Path false [(Seg (I "S") (GAngle false [(ATy (TyPath None (Path false [(Seg (I "T") GNone)])))]))])) [IIFn (mkIMethod [] VInherited false (mkSig false false false false (I "drop") (mkGenerics [] None) [FRecv [] None true (Some (TyPath None (Path false [(Seg (I "Pin") (GAngle false [(ATy (TyRef None true (TyPath None (Path false [(Seg (I "Self") GNone)]))))]))])))] false None) [])])
  = None.
Proof. vm_compute. reflexivity. Qed.
(** /repo/tests/pinned_drop.rs:58 *)
Example ui_pinned_drop_58 : verdict [TIdent (I "PinnedDrop")]
  (mkRItem [] (RStruct VInherited (I "Struct") (mkRGenerics [] None) (RNamed [mkRField [] VInherited (Some (I "f")) (TyTuple [])])))
  = None.
Proof. vm_compute. reflexivity. Qed.
(** /repo/tests/pinned_drop.rs:63 *)
Example ui_pinned_drop_63 : verdict_impl []
  (mkItemImpl [] false false (mkGenerics [] None) (Some (false, (Path false [(Seg (I "PinnedDrop") GNone)]))) (TyPath None (Path false [(Seg (I "Struct") GNone)])) [IIFn (mkIMethod [(mkAttr false [(I "allow")] (MList Paren [TIdent (I "irrefutable_let_patterns")])); (mkAttr false [(I "allow")] (MList Paren [TIdent (I "clippy"); TPunct ":" true; TPunct ":" false; TIdent (I "match_single_binding")]))] VInherited false (mkSig false false false false (I "drop") (mkGenerics [] None) [FRecv [] None true (Some (TyPath None (Path false [(Seg (I "Pin") (GAngle false [(ATy (TyRef None true (TyPath None (Path false [(Seg (I "Self") GNone)]))))]))])))] false None) [])])
  = None.
Proof. vm_compute. reflexivity. Qed.
(** /repo/tests/pinned_drop.rs:80 *)
Example ui_pinned_drop_80 : verdict [TIdent (I "PinnedDrop")]
  (mkRItem [] (RStruct VInherited (I "TupleStruct") (mkRGenerics [] None) (RUnnamed [mkRField [] VInherited None (TyTuple [])])))
  = None.
Proof. vm_compute. reflexivity. Qed.
(** /repo/tests/pinned_drop.rs:83 *)
Example ui_pinned_drop_83 : verdict_impl []
  (mkItemImpl [] false false (mkGenerics [] None) (Some (false, (Path false [(Seg (I "PinnedDrop") GNone)]))) (TyPath None (Path false [(Seg (I "TupleStruct") GNone)])) [IIFn (mkIMethod [(mkAttr false [(I "allow")] (MList Paren [TIdent (I "irrefutable_let_patterns")]))] VInherited false (mkSig false false false false (I "drop") (mkGenerics [] None) [FRecv [] None true (Some (TyPath None (Path false [(Seg (I "Pin") (GAngle false [(ATy (TyRef None true (TyPath None (Path false [(Seg (I "Self") GNone)]))))]))])))] false None) [])])
  = None.
Proof. vm_compute. reflexivity. Qed.
(** /repo/tests/pinned_drop.rs:99 *)
Example ui_pinned_drop_99 : verdict [TIdent (I "PinnedDrop"); TPunct "," false; TIdent (I "project"); TPunct "=" false; TIdent (I "EnumProj"); TPunct "," false; TIdent (I "project_ref"); TPunct "=" false; TIdent (I "EnumProjRef")]
  (mkRItem [] (REnum VInherited (I "Enum") (mkRGenerics [] None) [mkRVariant [] (I "Struct") (RNamed [mkRField [] VInherited (Some (I "f")) (TyTuple [])]) false; mkRVariant [] (I "Tuple") (RUnnamed [mkRField [] VInherited None (TyTuple [])]) false; mkRVariant [] (I "Unit") RUnit false]))
  = None.
Proof. vm_compute. reflexivity. Qed.
(** /repo/tests/pinned_drop.rs:106 *)
Example ui_pinned_drop_106 : verdict_impl []
  (mkItemImpl [] false false (mkGenerics [] None) (Some (false, (Path false [(Seg (I "PinnedDrop") GNone)]))) (TyPath None (Path false [(Seg (I "Enum") GNone)])) [IIFn (mkIMethod [] VInherited false (mkSig false false false false (I "drop") (mkGenerics [] None) [FRecv [] None true (Some (TyPath None (Path false [(Seg (I "Pin") (GAngle false [(ATy (TyRef None true (TyPath None (Path false [(Seg (I "Self") GNone)]))))]))])))] false None) [])])
  = None.
Proof. vm_compute. reflexivity. Qed.
(** /repo/tests/pinned_drop.rs:133 *)
Example ui_pinned_drop_133 : verdict [TIdent (I "PinnedDrop")]
  (mkRItem [] (RStruct VInherited (I "S") (mkRGenerics [] None) (RUnnamed [mkRField [] VInherited None (TyTuple [])])))
  = None.
Proof. vm_compute. reflexivity. Qed.
(** /repo/tests/pinned_drop.rs:136 *)
Example ui_pinned_drop_136 : verdict_impl []
  (mkItemImpl [] false false (mkGenerics [] None) (Some (false, (Path false [(Seg (I "PinnedDrop") GNone)]))) (TyPath None (Path false [(Seg (I "S") GNone)])) [IIFn (mkIMethod [] VInherited false (mkSig false false false false (I "drop") (mkGenerics [] None) [FRecv [] None false (Some (TyPath None (Path false [(Seg (I "Pin") (GAngle false [(ATy (TyRef None true (TyPath None (Path false [(Seg (I "Self") GNone)]))))]))])))] false None) [])])
  = None.
Proof. vm_compute. reflexivity. Qed.
(** /repo/tests/pinned_drop.rs:155 *)
Example ui_pinned_drop_155 : verdict [TIdent (I "PinnedDrop")]
  (mkRItem [] (RStruct VInherited (I "S") (mkRGenerics [] None) (RUnnamed [mkRField [] VInherited None (TyTuple [])])))
  = None.
Proof. vm_compute. reflexivity. Qed.
(** /repo/tests/pinned_drop.rs:158 *)
Example ui_pinned_drop_158 : verdict_impl []
  (mkItemImpl [] false false (mkGenerics [] None) (Some (false, (Path false [(Seg (I "PinnedDrop") GNone)]))) (TyPath None (Path false [(Seg (I "S") GNone)])) [IIFn (mkIMethod [] VInherited false (mkSig false false false false (I "drop") (mkGenerics [] None) [FRecv [] None false (Some (TyPath None (Path false [(Seg (I "Pin") (GAngle false [(ATy (TyRef None true (TyPath None (Path false [(Seg (I "Self") GNone)]))))]))])))] false None) [])])
  = None.
Proof. vm_compute. reflexivity. Qed.
(** /repo/tests/pinned_drop.rs:174 *)
Example ui_pinned_drop_174 : verdict [TIdent (I "PinnedDrop")]
  (mkRItem [] (RStruct VInherited (I "Struct") (mkRGenerics [] None) (RNamed [mkRField [] VInherited (Some (I "f")) (TyTuple [])])))
  = None.
Proof. vm_compute. reflexivity. Qed.
(** /repo/tests/pinned_drop.rs:179 *)
Example ui_pinned_drop_179 : verdict_impl []
  (mkItemImpl [] false false (mkGenerics [] None) (Some (false, (Path false [(Seg (I "PinnedDrop") GNone)]))) (TyPath None (Path false [(Seg (I "Struct") GNone)])) [IIFn (mkIMethod [] VInherited false (mkSig false false false false (I "drop") (mkGenerics [] None) [FRecv [] None false (Some (TyPath None (Path false [(Seg (I "Pin") (GAngle false [(ATy (TyRef None true (TyPath None (Path false [(Seg (I "Self") GNone)]))))]))])))] false None) [])])
  = None.
Proof. vm_compute. reflexivity. Qed.
(** /repo/tests/pinned_drop.rs:195 *)
Example ui_pinned_drop_195 : verdict [TIdent (I "PinnedDrop")]
  (mkRItem [] (RStruct VInherited (I "Struct") (mkRGenerics [([], PTy (I "T") [(BTrait false [] (Path false [(Seg (I "Send") GNone)]))] None)] (Some [WTy [] (TyMacro [(I "mac")] [TIdent (I "Self")]) [(BTrait false [] (Path false [(Seg (I "Send") GNone)]))]])) (RNamed [mkRField [] VInherited (Some (I "_f")) (TyPath None (Path false [(Seg (I "T") GNone)]))])))
  = None.
Proof. vm_compute. reflexivity. Qed.
(** /repo/tests/pinned_drop.rs:220 *)
Example ui_pinned_drop_220 : verdict_impl []
  (mkItemImpl [] false false (mkGenerics [PTy (I "T") [(BTrait false [] (Path false [(Seg (I "Send") GNone)]))] None] (Some [WTy [] (TyMacro [(I "mac")] [TIdent (I "Self")]) [(BTrait false [] (Path false [(Seg (I "Send") GNone)]))]])) (Some (false, (Path false [(Seg (I "PinnedDrop") GNone)]))) (TyPath None (Path false [(Seg (I "Struct") (GAngle false [(ATy (TyPath None (Path false [(Seg (I "T") GNone)])))]))])) [IIFn (mkIMethod [(mkAttr false [(I "allow")] (MList Paren [TIdent (I "path_statements")])); (mkAttr false [(I "allow")] (MList Paren [TIdent (I "clippy"); TPunct ":" true; TPunct ":" false; TIdent (I "no_effect")]))] VInherited false (mkSig false false false false (I "drop") (mkGenerics [] None) [FRecv [] None false (Some (TyPath None (Path false [(Seg (I "Pin") (GAngle false [(ATy (TyRef None true (TyPath None (Path false [(Seg (I "Self") GNone)]))))]))])))] false None) [])])
  = None.
Proof. vm_compute. reflexivity. Qed.
(** /repo/tests/pinned_drop.rs:248 *)
Example ui_pinned_drop_248 : verdict [TIdent (I "PinnedDrop")]
  (mkRItem [] (RStruct VInherited (I "S") (mkRGenerics [] None) (RUnnamed [mkRField [] VInherited None (TyTuple [])])))
  = None.
Proof. vm_compute. reflexivity. Qed.
(** /repo/tests/pinned_drop.rs:253 *)
Example ui_pinned_drop_253 : verdict_impl []
  (mkItemImpl [] false false (mkGenerics [] None) (Some (false, (Path false [(Seg (I "PinnedDrop") GNone)]))) (TyPath None (Path false [(Seg (I "S") GNone)])) [IIFn (mkIMethod [] VInherited false (mkSig false false false false (I "drop") (mkGenerics [] None) [FRecv [] None false (Some (TyPath None (Path false [(Seg (I "Pin") (GAngle false [(ATy (TyRef None true (TyPath None (Path false [(Seg (I "Self") GNone)]))))]))])))] false None) [])])
  = None.
Proof. vm_compute. reflexivity. Qed.
(** /repo/tests/pinned_drop.rs:268 *)
Example ui_pinned_drop_268 : verdict [TIdent (I "PinnedDrop")]
  (mkRItem [] (RStruct VInherited (I "S") (mkRGenerics [([], PTy (I "T") [(BTrait false [] (Path false [(Seg (I "Unpin") GNone)]))] None)] None) (RUnnamed [mkRField [] VInherited None (TyPath None (Path false [(Seg (I "T") GNone)]))])))
  = None.
Proof. vm_compute. reflexivity. Qed.
(** /repo/tests/pinned_drop.rs:273 *)
Example ui_pinned_drop_273 : verdict_impl []
  (mkItemImpl [] false false (mkGenerics [PTy (I "T") [(BTrait false [] (Path false [(Seg (I "Unpin") GNone)]))] None] None) (Some (false, (Path false [(Seg (I "PinnedDrop") GNone)]))) (TyPath None (Path false [(Seg (I "self") GNone); (Seg (I "S") (GAngle false [(ATy (TyPath None (Path false [(Seg (I "T") GNone)])))]))])) [IIFn (mkIMethod [] VInherited false (mkSig false false false false (I "drop") (mkGenerics [] None) [FRecv [] None true (Some (TyPath None (Path false [(Seg (I "Pin") (GAngle false [(ATy (TyRef None true (TyPath None (Path false [(Seg (I "Self") GNone)]))))]))])))] false None) [])])
  = None.
Proof. vm_compute. reflexivity. Qed.
(** /repo/tests/drop_order.rs:20 *)
Example ui_drop_order_20 : verdict [TIdent (I "project_replace")]
  (mkRItem [] (RStruct VInherited (I "StructPinned") (mkRGenerics [([], PLt "'a" [])] None) (RNamed [mkRField [RAttr (mkAttr false [(I "pin")] MPath)] VInherited (Some (I "f1")) (TyPath None (Path false [(Seg (I "D") (GAngle false [(ALt "'a")]))])); mkRField [RAttr (mkAttr false [(I "pin")] MPath)] VInherited (Some (I "f2")) (TyPath None (Path false [(Seg (I "D") (GAngle false [(ALt "'a")]))]))])))
  = None.
Proof. vm_compute. reflexivity. Qed.
(** /repo/tests/drop_order.rs:28 *)
Example ui_drop_order_28 : verdict [TIdent (I "project_replace")]
  (mkRItem [] (RStruct VInherited (I "StructUnpinned") (mkRGenerics [([], PLt "'a" [])] None) (RNamed [mkRField [] VInherited (Some (I "f1")) (TyPath None (Path false [(Seg (I "D") (GAngle false [(ALt "'a")]))])); mkRField [] VInherited (Some (I "f2")) (TyPath None (Path false [(Seg (I "D") (GAngle false [(ALt "'a")]))]))])))
  = None.
Proof. vm_compute. reflexivity. Qed.
(** /repo/tests/drop_order.rs:34 *)
Example ui_drop_order_34 : verdict [TIdent (I "project_replace")]
  (mkRItem [] (RStruct VInherited (I "TuplePinned") (mkRGenerics [([], PLt "'a" [])] None) (RUnnamed [mkRField [RAttr (mkAttr false [(I "pin")] MPath)] VInherited None (TyPath None (Path false [(Seg (I "D") (GAngle false [(ALt "'a")]))])); mkRField [RAttr (mkAttr false [(I "pin")] MPath)] VInherited None (TyPath None (Path false [(Seg (I "D") (GAngle false [(ALt "'a")]))]))])))
  = None.
Proof. vm_compute. reflexivity. Qed.
(** /repo/tests/drop_order.rs:37 *)
Example ui_drop_order_37 : verdict [TIdent (I "project_replace")]
  (mkRItem [] (RStruct VInherited (I "TupleUnpinned") (mkRGenerics [([], PLt "'a" [])] None) (RUnnamed [mkRField [] VInherited None (TyPath None (Path false [(Seg (I "D") (GAngle false [(ALt "'a")]))])); mkRField [] VInherited None (TyPath None (Path false [(Seg (I "D") (GAngle false [(ALt "'a")]))]))])))
  = None.
Proof. vm_compute. reflexivity. Qed.
(** /repo/tests/drop_order.rs:40 *)
Example ui_drop_order_40 : verdict [TIdent (I "project_replace"); TPunct "=" false; TIdent (I "EnumProj")]
  (mkRItem [] (REnum VInherited (I "Enum") (mkRGenerics [([], PLt "'a" [])] None) [mkRVariant [] (I "StructPinned") (RNamed [mkRField [RAttr (mkAttr false [(I "pin")] MPath)] VInherited (Some (I "f1")) (TyPath None (Path false [(Seg (I "D") (GAngle false [(ALt "'a")]))])); mkRField [RAttr (mkAttr false [(I "pin")] MPath)] VInherited (Some (I "f2")) (TyPath None (Path false [(Seg (I "D") (GAngle false [(ALt "'a")]))]))]) false; mkRVariant [] (I "StructUnpinned") (RNamed [mkRField [] VInherited (Some (I "f1")) (TyPath None (Path false [(Seg (I "D") (GAngle false [(ALt "'a")]))])); mkRField [] VInherited (Some (I "f2")) (TyPath None (Path false [(Seg (I "D") (GAngle false [(ALt "'a")]))]))]) false; mkRVariant [] (I "TuplePinned") (RUnnamed [mkRField [RAttr (mkAttr false [(I "pin")] MPath)] VInherited None (TyPath None (Path false [(Seg (I "D") (GAngle false [(ALt "'a")]))])); mkRField [RAttr (mkAttr false [(I "pin")] MPath)] VInherited None (TyPath None (Path false [(Seg (I "D") (GAngle false [(ALt "'a")]))]))]) false; mkRVariant [] (I "TupleUnpinned") (RUnnamed [mkRField [] VInherited None (TyPath None (Path false [(Seg (I "D") (GAngle false [(ALt "'a")]))])); mkRField [] VInherited None (TyPath None (Path false [(Seg (I "D") (GAngle false [(ALt "'a")]))]))]) false]))
  = None.
Proof. vm_compute. reflexivity. Qed.
(** /repo/tests/proper_unpin.rs:20 *)
Example ui_proper_unpin_20 : verdict []
  (mkRItem [] (RStruct VInherited (I "Struct") (mkRGenerics [([], PTy (I "T") [] None); ([], PTy (I "U") [] None)] None) (RNamed [mkRField [RAttr (mkAttr false [(I "pin")] MPath)] VInherited (Some (I "f1")) (TyPath None (Path false [(Seg (I "Inner") (GAngle false [(ATy (TyPath None (Path false [(Seg (I "T") GNone)])))]))])); mkRField [] VInherited (Some (I "f2")) (TyPath None (Path false [(Seg (I "U") GNone)]))])))
  = None.
Proof. vm_compute. reflexivity. Qed.
(** /repo/tests/proper_unpin.rs:32 *)
Example ui_proper_unpin_32 : verdict [TIdent (I "project"); TPunct "=" false; TIdent (I "EnumProj"); TPunct "," false; TIdent (I "project_ref"); TPunct "=" false; TIdent (I "EnumProjRef")]
  (mkRItem [] (REnum VInherited (I "Enum") (mkRGenerics [([], PTy (I "T") [] None); ([], PTy (I "U") [] None)] None) [mkRVariant [] (I "V1") (RNamed [mkRField [RAttr (mkAttr false [(I "pin")] MPath)] VInherited (Some (I "f1")) (TyPath None (Path false [(Seg (I "Inner") (GAngle false [(ATy (TyPath None (Path false [(Seg (I "T") GNone)])))]))])); mkRField [] VInherited (Some (I "f2")) (TyPath None (Path false [(Seg (I "U") GNone)]))]) false]))
  = None.
Proof. vm_compute. reflexivity. Qed.
(** /repo/tests/proper_unpin.rs:46 *)
Example ui_proper_unpin_46 : verdict []
  (mkRItem [] (RStruct VInherited (I "TrivialBounds") (mkRGenerics [] None) (RNamed [mkRField [RAttr (mkAttr false [(I "pin")] MPath)] VInherited (Some (I "f")) (TyPath None (Path false [(Seg (I "PhantomPinned") GNone)]))])))
  = None.
Proof. vm_compute. reflexivity. Qed.
(** /repo/tests/proper_unpin.rs:54 *)
Example ui_proper_unpin_54 : verdict []
  (mkRItem [] (RStruct VInherited (I "PinRef") (mkRGenerics [([], PLt "'a" []); ([], PTy (I "T") [] None); ([], PTy (I "U") [] None)] None) (RNamed [mkRField [RAttr (mkAttr false [(I "pin")] MPath)] VInherited (Some (I "f1")) (TyRef (Some "'a") true (TyPath None (Path false [(Seg (I "Inner") (GAngle false [(ATy (TyPath None (Path false [(Seg (I "T") GNone)])))]))]))); mkRField [] VInherited (Some (I "f2")) (TyPath None (Path false [(Seg (I "U") GNone)]))])))
  = None.
Proof. vm_compute. reflexivity. Qed.
(** /repo/tests/proper_unpin.rs:126 *)
Example ui_proper_unpin_126 : verdict [TPunct "!" false; TIdent (I "Unpin")]
  (mkRItem [] (RStruct VInherited (I "Struct") (mkRGenerics [([], PTy (I "T") [] None); ([], PTy (I "U") [] None)] None) (RNamed [mkRField [RAttr (mkAttr false [(I "pin")] MPath)] VInherited (Some (I "inner")) (TyPath None (Path false [(Seg (I "Inner") (GAngle false [(ATy (TyPath None (Path false [(Seg (I "T") GNone)])))]))])); mkRField [] VInherited (Some (I "other")) (TyPath None (Path false [(Seg (I "U") GNone)]))])))
  = None.
Proof. vm_compute. reflexivity. Qed.
(** /repo/tests/proper_unpin.rs:138 *)
Example ui_proper_unpin_138 : verdict [TPunct "!" false; TIdent (I "Unpin")]
  (mkRItem [] (RStruct VInherited (I "TrivialBounds") (mkRGenerics [] None) (RNamed [mkRField [RAttr (mkAttr false [(I "pin")] MPath)] VInherited (Some (I "f")) (TyPath None (Path false [(Seg (I "PhantomPinned") GNone)]))])))
  = None.
Proof. vm_compute. reflexivity. Qed.
(** /repo/tests/proper_unpin.rs:146 *)
Example ui_proper_unpin_146 : verdict [TPunct "!" false; TIdent (I "Unpin")]
  (mkRItem [] (RStruct VInherited (I "PinRef") (mkRGenerics [([], PLt "'a" []); ([], PTy (I "T") [] None); ([], PTy (I "U") [] None)] None) (RNamed [mkRField [RAttr (mkAttr false [(I "pin")] MPath)] VInherited (Some (I "inner")) (TyRef (Some "'a") true (TyPath None (Path false [(Seg (I "Inner") (GAngle false [(ATy (TyPath None (Path false [(Seg (I "T") GNone)])))]))]))); mkRField [] VInherited (Some (I "other")) (TyPath None (Path false [(Seg (I "U") GNone)]))])))
  = None.
Proof. vm_compute. reflexivity. Qed.
(** /repo/tests/unsafe_unpin.rs:12 *)
Example ui_unsafe_unpin_12 : verdict [TIdent (I "UnsafeUnpin")]
  (mkRItem [] (RStruct VInherited (I "Blah") (mkRGenerics [([], PTy (I "T") [] None); ([], PTy (I "U") [] None)] None) (RNamed [mkRField [] VInherited (Some (I "f1")) (TyPath None (Path false [(Seg (I "U") GNone)])); mkRField [RAttr (mkAttr false [(I "pin")] MPath)] VInherited (Some (I "f2")) (TyPath None (Path false [(Seg (I "T") GNone)]))])))
  = None.
Proof. vm_compute. reflexivity. Qed.
(** /repo/tests/unsafe_unpin.rs:26 *)
Example ui_unsafe_unpin_26 : verdict [TIdent (I "UnsafeUnpin")]
  (mkRItem [] (RStruct VInherited (I "OverlappingLifetimeNames") (mkRGenerics [([], PLt "'pin" []); ([], PTy (I "T") [] None); ([], PTy (I "U") [] None)] None) (RNamed [mkRField [RAttr (mkAttr false [(I "pin")] MPath)] VInherited (Some (I "f1")) (TyPath None (Path false [(Seg (I "U") GNone)])); mkRField [RAttr (mkAttr false [(I "pin")] MPath)] VInherited (Some (I "f2")) (TyPath None (Path false [(Seg (I "Option") (GAngle false [(ATy (TyPath None (Path false [(Seg (I "T") GNone)])))]))])); mkRField [] VInherited (Some (I "f3")) (TyRef (Some "'pin") false (TyTuple []))])))
  = None.
Proof. vm_compute. reflexivity. Qed.
(** /repo/tests/unsafe_unpin.rs:44 *)
Example ui_unsafe_unpin_44 : verdict [TIdent (I "UnsafeUnpin")]
  (mkRItem [] (RStruct VInherited (I "NotImplementUnsafeUnpin") (mkRGenerics [] None) (RNamed [mkRField [RAttr (mkAttr false [(I "pin")] MPath)] VInherited (Some (I "f")) (TyPath None (Path false [(Seg (I "PhantomPinned") GNone)]))])))
  = None.
Proof. vm_compute. reflexivity. Qed.
(** /repo/tests/include/basic-safe-part.rs:6 *)
Example ui_include_basic_safe_part_6 : verdict []
  (mkRItem [RAttr (mkAttr false [(I "allow")] (MList Paren [TIdent (I "clippy"); TPunct ":" true; TPunct ":" false; TIdent (I "exhaustive_structs")])); RAttr (mkAttr false [(I "derive")] (MList Paren [TIdent (I "Debug")]))] (RStruct VPub (I "DefaultStruct") (mkRGenerics [([], PTy (I "T") [] None); ([], PTy (I "U") [] None)] None) (RNamed [mkRField [RAttr (mkAttr false [(I "pin")] MPath)] VPub (Some (I "pinned")) (TyPath None (Path false [(Seg (I "T") GNone)])); mkRField [] VPub (Some (I "unpinned")) (TyPath None (Path false [(Seg (I "U") GNone)]))])))
  = None.
Proof. vm_compute. reflexivity. Qed.
(** /repo/tests/include/basic-safe-part.rs:18 *)
Example ui_include_basic_safe_part_18 : verdict [TIdent (I "project"); TPunct "=" false; TIdent (I "DefaultStructNamedProj"); TPunct "," false; TIdent (I "project_ref"); TPunct "=" false; TIdent (I "DefaultStructNamedProjRef"); TPunct "," false]
  (mkRItem [RAttr (mkAttr false [(I "derive")] (MList Paren [TIdent (I "Debug")])); RAttr (mkAttr false [(I "allow")] (MList Paren [TIdent (I "clippy"); TPunct ":" true; TPunct ":" false; TIdent (I "exhaustive_structs")]))] (RStruct VPub (I "DefaultStructNamed") (mkRGenerics [([], PTy (I "T") [] None); ([], PTy (I "U") [] None)] None) (RNamed [mkRField [RAttr (mkAttr false [(I "pin")] MPath)] VPub (Some (I "pinned")) (TyPath None (Path false [(Seg (I "T") GNone)])); mkRField [] VPub (Some (I "unpinned")) (TyPath None (Path false [(Seg (I "U") GNone)]))])))
  = None.
Proof. vm_compute. reflexivity. Qed.
(** /repo/tests/include/basic-safe-part.rs:33 *)
Example ui_include_basic_safe_part_33 : verdict []
  (mkRItem [RAttr (mkAttr false [(I "allow")] (MList Paren [TIdent (I "clippy"); TPunct ":" true; TPunct ":" false; TIdent (I "exhaustive_structs")])); RAttr (mkAttr false [(I "derive")] (MList Paren [TIdent (I "Debug")]))] (RStruct VPub (I "DefaultTupleStruct") (mkRGenerics [([], PTy (I "T") [] None); ([], PTy (I "U") [] None)] None) (RUnnamed [mkRField [RAttr (mkAttr false [(I "pin")] MPath)] VPub None (TyPath None (Path false [(Seg (I "T") GNone)])); mkRField [] VPub None (TyPath None (Path false [(Seg (I "U") GNone)]))])))
  = None.
Proof. vm_compute. reflexivity. Qed.
(** /repo/tests/include/basic-safe-part.rs:39 *)
Example ui_include_basic_safe_part_39 : verdict [TIdent (I "project"); TPunct "=" false; TIdent (I "DefaultTupleStructNamedProj"); TPunct "," false; TIdent (I "project_ref"); TPunct "=" false; TIdent (I "DefaultTupleStructNamedProjRef"); TPunct "," false]
  (mkRItem [RAttr (mkAttr false [(I "allow")] (MList Paren [TIdent (I "clippy"); TPunct ":" true; TPunct ":" false; TIdent (I "exhaustive_structs")])); RAttr (mkAttr false [(I "derive")] (MList Paren [TIdent (I "Debug")]))] (RStruct VPub (I "DefaultTupleStructNamed") (mkRGenerics [([], PTy (I "T") [] None); ([], PTy (I "U") [] None)] None) (RUnnamed [mkRField [RAttr (mkAttr false [(I "pin")] MPath)] VPub None (TyPath None (Path false [(Seg (I "T") GNone)])); mkRField [] VPub None (TyPath None (Path false [(Seg (I "U") GNone)]))])))
  = None.
Proof. vm_compute. reflexivity. Qed.
(** /repo/tests/include/basic-safe-part.rs:48 *)
Example ui_include_basic_safe_part_48 : verdict [TIdent (I "project"); TPunct "=" false; TIdent (I "DefaultEnumProj"); TPunct "," false; TIdent (I "project_ref"); TPunct "=" false; TIdent (I "DefaultEnumProjRef"); TPunct "," false]
  (mkRItem [RAttr (mkAttr false [(I "allow")] (MList Paren [TIdent (I "clippy"); TPunct ":" true; TPunct ":" false; TIdent (I "exhaustive_enums")])); RAttr (mkAttr false [(I "derive")] (MList Paren [TIdent (I "Debug")]))] (REnum VPub (I "DefaultEnum") (mkRGenerics [([], PTy (I "T") [] None); ([], PTy (I "U") [] None)] None) [mkRVariant [] (I "Struct") (RNamed [mkRField [RAttr (mkAttr false [(I "pin")] MPath)] VInherited (Some (I "pinned")) (TyPath None (Path false [(Seg (I "T") GNone)])); mkRField [] VInherited (Some (I "unpinned")) (TyPath None (Path false [(Seg (I "U") GNone)]))]) false; mkRVariant [] (I "Tuple") (RUnnamed [mkRField [RAttr (mkAttr false [(I "pin")] MPath)] VInherited None (TyPath None (Path false [(Seg (I "T") GNone)])); mkRField [] VInherited None (TyPath None (Path false [(Seg (I "U") GNone)]))]) false; mkRVariant [] (I "Unit") RUnit false]))
  = None.
Proof. vm_compute. reflexivity. Qed.
(** /repo/tests/include/basic-safe-part.rs:70 *)
Example ui_include_basic_safe_part_70 : verdict [TIdent (I "PinnedDrop")]
  (mkRItem [RAttr (mkAttr false [(I "allow")] (MList Paren [TIdent (I "clippy"); TPunct ":" true; TPunct ":" false; TIdent (I "exhaustive_structs")])); RAttr (mkAttr false [(I "derive")] (MList Paren [TIdent (I "Debug")]))] (RStruct VPub (I "PinnedDropStruct") (mkRGenerics [([], PTy (I "T") [] None); ([], PTy (I "U") [] None)] None) (RNamed [mkRField [RAttr (mkAttr false [(I "pin")] MPath)] VPub (Some (I "pinned")) (TyPath None (Path false [(Seg (I "T") GNone)])); mkRField [] VPub (Some (I "unpinned")) (TyPath None (Path false [(Seg (I "U") GNone)]))])))
  = None.
Proof. vm_compute. reflexivity. Qed.
(** /repo/tests/include/basic-safe-part.rs:81 *)
Example ui_include_basic_safe_part_81 : verdict_impl []
  (mkItemImpl [] false false (mkGenerics [PTy (I "T") [] None; PTy (I "U") [] None] None) (Some (false, (Path false [(Seg (I "PinnedDrop") GNone)]))) (TyPath None (Path false [(Seg (I "PinnedDropStruct") (GAngle false [(ATy (TyPath None (Path false [(Seg (I "T") GNone)]))); (ATy (TyPath None (Path false [(Seg (I "U") GNone)])))]))])) [IIFn (mkIMethod [(mkAttr false [(I "allow")] (MList Paren [TIdent (I "clippy"); TPunct ":" true; TPunct ":" false; TIdent (I "absolute_paths")]))] VInherited false (mkSig false false false false (I "drop") (mkGenerics [] None) [FRecv [] None false (Some (TyPath None (Path true [(Seg (I "pin_project") GNone); (Seg (I "__private") GNone); (Seg (I "Pin") (GAngle false [(ATy (TyRef None true (TyPath None (Path false [(Seg (I "Self") GNone)]))))]))])))] false None) [])])
  = None.
Proof. vm_compute. reflexivity. Qed.
(** /repo/tests/include/basic-safe-part.rs:88 *)
Example ui_include_basic_safe_part_88 : verdict [TIdent (I "PinnedDrop")]
  (mkRItem [RAttr (mkAttr false [(I "allow")] (MList Paren [TIdent (I "clippy"); TPunct ":" true; TPunct ":" false; TIdent (I "exhaustive_structs")])); RAttr (mkAttr false [(I "derive")] (MList Paren [TIdent (I "Debug")]))] (RStruct VPub (I "PinnedDropTupleStruct") (mkRGenerics [([], PTy (I "T") [] None); ([], PTy (I "U") [] None)] None) (RUnnamed [mkRField [RAttr (mkAttr false [(I "pin")] MPath)] VPub None (TyPath None (Path false [(Seg (I "T") GNone)])); mkRField [] VPub None (TyPath None (Path false [(Seg (I "U") GNone)]))])))
  = None.
Proof. vm_compute. reflexivity. Qed.
(** /repo/tests/include/basic-safe-part.rs:93 *)
Example ui_include_basic_safe_part_93 : verdict_impl []
  (mkItemImpl [] false false (mkGenerics [PTy (I "T") [] None; PTy (I "U") [] None] None) (Some (false, (Path false [(Seg (I "PinnedDrop") GNone)]))) (TyPath None (Path false [(Seg (I "PinnedDropTupleStruct") (GAngle false [(ATy (TyPath None (Path false [(Seg (I "T") GNone)]))); (ATy (TyPath None (Path false [(Seg (I "U") GNone)])))]))])) [IIFn (mkIMethod [(mkAttr false [(I "allow")] (MList Paren [TIdent (I "clippy"); TPunct ":" true; TPunct ":" false; TIdent (I "absolute_paths")]))] VInherited false (mkSig false false false false (I "drop") (mkGenerics [] None) [FRecv [] None false (Some (TyPath None (Path true [(Seg (I "pin_project") GNone); (Seg (I "__private") GNone); (Seg (I "Pin") (GAngle false [(ATy (TyRef None true (TyPath None (Path false [(Seg (I "Self") GNone)]))))]))])))] false None) [])])
  = None.
Proof. vm_compute. reflexivity. Qed.
(** /repo/tests/include/basic-safe-part.rs:100 *)
Example ui_include_basic_safe_part_100 : verdict [TIdent (I "PinnedDrop"); TPunct "," false; TIdent (I "project"); TPunct "=" false; TIdent (I "PinnedDropEnumProj"); TPunct "," false; TIdent (I "project_ref"); TPunct "=" false; TIdent (I "PinnedDropEnumProjRef"); TPunct "," false]
  (mkRItem [RAttr (mkAttr false [(I "allow")] (MList Paren [TIdent (I "clippy"); TPunct ":" true; TPunct ":" false; TIdent (I "absolute_paths"); TPunct "," false; TIdent (I "clippy"); TPunct ":" true; TPunct ":" false; TIdent (I "exhaustive_enums")])); RAttr (mkAttr false [(I "derive")] (MList Paren [TIdent (I "Debug")]))] (REnum VPub (I "PinnedDropEnum") (mkRGenerics [([], PTy (I "T") [(BTrait false [] (Path true [(Seg (I "pin_project") GNone); (Seg (I "__private") GNone); (Seg (I "Unpin") GNone)]))] None); ([], PTy (I "U") [] None)] None) [mkRVariant [] (I "Struct") (RNamed [mkRField [RAttr (mkAttr false [(I "pin")] MPath)] VInherited (Some (I "pinned")) (TyPath None (Path false [(Seg (I "T") GNone)])); mkRField [] VInherited (Some (I "unpinned")) (TyPath None (Path false [(Seg (I "U") GNone)]))]) false; mkRVariant [] (I "Tuple") (RUnnamed [mkRField [RAttr (mkAttr false [(I "pin")] MPath)] VInherited None (TyPath None (Path false [(Seg (I "T") GNone)])); mkRField [] VInherited None (TyPath None (Path false [(Seg (I "U") GNone)]))]) false; mkRVariant [] (I "Unit") RUnit false]))
  = None.
Proof. vm_compute. reflexivity. Qed.
(** /repo/tests/include/basic-safe-part.rs:122 *)
Example ui_include_basic_safe_part_122 : verdict_impl []
  (mkItemImpl [(mkAttr false [(I "allow")] (MList Paren [TIdent (I "clippy"); TPunct ":" true; TPunct ":" false; TIdent (I "absolute_paths")]))] false false (mkGenerics [PTy (I "T") [(BTrait false [] (Path true [(Seg (I "pin_project") GNone); (Seg (I "__private") GNone); (Seg (I "Unpin") GNone)]))] None; PTy (I "U") [] None] None) (Some (false, (Path false [(Seg (I "PinnedDrop") GNone)]))) (TyPath None (Path false [(Seg (I "PinnedDropEnum") (GAngle false [(ATy (TyPath None (Path false [(Seg (I "T") GNone)]))); (ATy (TyPath None (Path false [(Seg (I "U") GNone)])))]))])) [IIFn (mkIMethod [] VInherited false (mkSig false false false false (I "drop") (mkGenerics [] None) [FRecv [] None false (Some (TyPath None (Path true [(Seg (I "pin_project") GNone); (Seg (I "__private") GNone); (Seg (I "Pin") (GAngle false [(ATy (TyRef None true (TyPath None (Path false [(Seg (I "Self") GNone)]))))]))])))] false None) [])])
  = None.
Proof. vm_compute. reflexivity. Qed.
(** /repo/tests/include/basic-safe-part.rs:129 *)
Example ui_include_basic_safe_part_129 : verdict [TIdent (I "project_replace")]
  (mkRItem [RAttr (mkAttr false [(I "allow")] (MList Paren [TIdent (I "clippy"); TPunct ":" true; TPunct ":" false; TIdent (I "exhaustive_structs")])); RAttr (mkAttr false [(I "derive")] (MList Paren [TIdent (I "Debug")]))] (RStruct VPub (I "ReplaceStruct") (mkRGenerics [([], PTy (I "T") [] None); ([], PTy (I "U") [] None)] None) (RNamed [mkRField [RAttr (mkAttr false [(I "pin")] MPath)] VPub (Some (I "pinned")) (TyPath None (Path false [(Seg (I "T") GNone)])); mkRField [] VPub (Some (I "unpinned")) (TyPath None (Path false [(Seg (I "U") GNone)]))])))
  = None.
Proof. vm_compute. reflexivity. Qed.
(** /repo/tests/include/basic-safe-part.rs:141 *)
Example ui_include_basic_safe_part_141 : verdict [TIdent (I "project"); TPunct "=" false; TIdent (I "ReplaceStructNamedProj"); TPunct "," false; TIdent (I "project_ref"); TPunct "=" false; TIdent (I "ReplaceStructNamedProjRef"); TPunct "," false; TIdent (I "project_replace"); TPunct "=" false; TIdent (I "ReplaceStructNamedProjOwn"); TPunct "," false]
  (mkRItem [RAttr (mkAttr false [(I "allow")] (MList Paren [TIdent (I "clippy"); TPunct ":" true; TPunct ":" false; TIdent (I "exhaustive_structs")])); RAttr (mkAttr false [(I "derive")] (MList Paren [TIdent (I "Debug")]))] (RStruct VPub (I "ReplaceStructNamed") (mkRGenerics [([], PTy (I "T") [] None); ([], PTy (I "U") [] None)] None) (RNamed [mkRField [RAttr (mkAttr false [(I "pin")] MPath)] VPub (Some (I "pinned")) (TyPath None (Path false [(Seg (I "T") GNone)])); mkRField [] VPub (Some (I "unpinned")) (TyPath None (Path false [(Seg (I "U") GNone)]))])))
  = None.
Proof. vm_compute. reflexivity. Qed.
(** /repo/tests/include/basic-safe-part.rs:157 *)
Example ui_include_basic_safe_part_157 : verdict [TIdent (I "project_replace")]
  (mkRItem [RAttr (mkAttr false [(I "derive")] (MList Paren [TIdent (I "Debug")])); RAttr (mkAttr false [(I "allow")] (MList Paren [TIdent (I "clippy"); TPunct ":" true; TPunct ":" false; TIdent (I "exhaustive_structs")]))] (RStruct VPub (I "ReplaceTupleStruct") (mkRGenerics [([], PTy (I "T") [] None); ([], PTy (I "U") [] None)] None) (RUnnamed [mkRField [RAttr (mkAttr false [(I "pin")] MPath)] VPub None (TyPath None (Path false [(Seg (I "T") GNone)])); mkRField [] VPub None (TyPath None (Path false [(Seg (I "U") GNone)]))])))
  = None.
Proof. vm_compute. reflexivity. Qed.
(** /repo/tests/include/basic-safe-part.rs:163 *)
Example ui_include_basic_safe_part_163 : verdict [TIdent (I "project"); TPunct "=" false; TIdent (I "ReplaceTupleStructNamedProj"); TPunct "," false; TIdent (I "project_ref"); TPunct "=" false; TIdent (I "ReplaceTupleStructNamedProjRef"); TPunct "," false; TIdent (I "project_replace"); TPunct "=" false; TIdent (I "ReplaceTupleStructNamedProjOwn"); TPunct "," false]
  (mkRItem [RAttr (mkAttr false [(I "derive")] (MList Paren [TIdent (I "Debug")])); RAttr (mkAttr false [(I "allow")] (MList Paren [TIdent (I "clippy"); TPunct ":" true; TPunct ":" false; TIdent (I "exhaustive_structs")]))] (RStruct VPub (I "ReplaceTupleStructNamed") (mkRGenerics [([], PTy (I "T") [] None); ([], PTy (I "U") [] None)] None) (RUnnamed [mkRField [RAttr (mkAttr false [(I "pin")] MPath)] VPub None (TyPath None (Path false [(Seg (I "T") GNone)])); mkRField [] VPub None (TyPath None (Path false [(Seg (I "U") GNone)]))])))
  = None.
Proof. vm_compute. reflexivity. Qed.
(** /repo/tests/include/basic-safe-part.rs:173 *)
Example ui_include_basic_safe_part_173 : verdict [TIdent (I "project"); TPunct "=" false; TIdent (I "ReplaceEnumProj"); TPunct "," false; TIdent (I "project_ref"); TPunct "=" false; TIdent (I "ReplaceEnumProjRef"); TPunct "," false; TIdent (I "project_replace"); TPunct "=" false; TIdent (I "ReplaceEnumProjOwn"); TPunct "," false]
  (mkRItem [RAttr (mkAttr false [(I "allow")] (MList Paren [TIdent (I "clippy"); TPunct ":" true; TPunct ":" false; TIdent (I "exhaustive_enums")])); RAttr (mkAttr false [(I "derive")] (MList Paren [TIdent (I "Debug")]))] (REnum VPub (I "ReplaceEnum") (mkRGenerics [([], PTy (I "T") [] None); ([], PTy (I "U") [] None)] None) [mkRVariant [] (I "Struct") (RNamed [mkRField [RAttr (mkAttr false [(I "pin")] MPath)] VInherited (Some (I "pinned")) (TyPath None (Path false [(Seg (I "T") GNone)])); mkRField [] VInherited (Some (I "unpinned")) (TyPath None (Path false [(Seg (I "U") GNone)]))]) false; mkRVariant [] (I "Tuple") (RUnnamed [mkRField [RAttr (mkAttr false [(I "pin")] MPath)] VInherited None (TyPath None (Path false [(Seg (I "T") GNone)])); mkRField [] VInherited None (TyPath None (Path false [(Seg (I "U") GNone)]))]) false; mkRVariant [] (I "Unit") RUnit false]))
  = None.
Proof. vm_compute. reflexivity. Qed.
(** /repo/tests/include/basic-safe-part.rs:196 *)
Example ui_include_basic_safe_part_196 : verdict [TIdent (I "UnsafeUnpin")]
  (mkRItem [RAttr (mkAttr false [(I "allow")] (MList Paren [TIdent (I "clippy"); TPunct ":" true; TPunct ":" false; TIdent (I "exhaustive_structs")])); RAttr (mkAttr false [(I "derive")] (MList Paren [TIdent (I "Debug")]))] (RStruct VPub (I "UnsafeUnpinStruct") (mkRGenerics [([], PTy (I "T") [] None); ([], PTy (I "U") [] None)] None) (RNamed [mkRField [RAttr (mkAttr false [(I "pin")] MPath)] VPub (Some (I "pinned")) (TyPath None (Path false [(Seg (I "T") GNone)])); mkRField [] VPub (Some (I "unpinned")) (TyPath None (Path false [(Seg (I "U") GNone)]))])))
  = None.
Proof. vm_compute. reflexivity. Qed.
(** /repo/tests/include/basic-safe-part.rs:208 *)
Example ui_include_basic_safe_part_208 : verdict [TIdent (I "UnsafeUnpin")]
  (mkRItem [RAttr (mkAttr false [(I "allow")] (MList Paren [TIdent (I "clippy"); TPunct ":" true; TPunct ":" false; TIdent (I "exhaustive_structs")])); RAttr (mkAttr false [(I "derive")] (MList Paren [TIdent (I "Debug")]))] (RStruct VPub (I "UnsafeUnpinTupleStruct") (mkRGenerics [([], PTy (I "T") [] None); ([], PTy (I "U") [] None)] None) (RUnnamed [mkRField [RAttr (mkAttr false [(I "pin")] MPath)] VPub None (TyPath None (Path false [(Seg (I "T") GNone)])); mkRField [] VPub None (TyPath None (Path false [(Seg (I "U") GNone)]))])))
  = None.
Proof. vm_compute. reflexivity. Qed.
(** /repo/tests/include/basic-safe-part.rs:214 *)
Example ui_include_basic_safe_part_214 : verdict [TIdent (I "UnsafeUnpin"); TPunct "," false; TIdent (I "project"); TPunct "=" false; TIdent (I "UnsafeUnpinEnumProj"); TPunct "," false; TIdent (I "project_ref"); TPunct "=" false; TIdent (I "UnsafeUnpinEnumProjRef"); TPunct "," false]
  (mkRItem [RAttr (mkAttr false [(I "allow")] (MList Paren [TIdent (I "clippy"); TPunct ":" true; TPunct ":" false; TIdent (I "exhaustive_enums")])); RAttr (mkAttr false [(I "derive")] (MList Paren [TIdent (I "Debug")]))] (REnum VPub (I "UnsafeUnpinEnum") (mkRGenerics [([], PTy (I "T") [] None); ([], PTy (I "U") [] None)] None) [mkRVariant [] (I "Struct") (RNamed [mkRField [RAttr (mkAttr false [(I "pin")] MPath)] VInherited (Some (I "pinned")) (TyPath None (Path false [(Seg (I "T") GNone)])); mkRField [] VInherited (Some (I "unpinned")) (TyPath None (Path false [(Seg (I "U") GNone)]))]) false; mkRVariant [] (I "Tuple") (RUnnamed [mkRField [RAttr (mkAttr false [(I "pin")] MPath)] VInherited None (TyPath None (Path false [(Seg (I "T") GNone)])); mkRField [] VInherited None (TyPath None (Path false [(Seg (I "U") GNone)]))]) false; mkRVariant [] (I "Unit") RUnit false]))
  = None.
Proof. vm_compute. reflexivity. Qed.
(** /repo/tests/include/basic-safe-part.rs:237 *)
Example ui_include_basic_safe_part_237 : verdict [TPunct "!" false; TIdent (I "Unpin")]
  (mkRItem [RAttr (mkAttr false [(I "derive")] (MList Paren [TIdent (I "Debug")])); RAttr (mkAttr false [(I "allow")] (MList Paren [TIdent (I "clippy"); TPunct ":" true; TPunct ":" false; TIdent (I "exhaustive_structs")]))] (RStruct VPub (I "NotUnpinStruct") (mkRGenerics [([], PTy (I "T") [] None); ([], PTy (I "U") [] None)] None) (RNamed [mkRField [RAttr (mkAttr false [(I "pin")] MPath)] VPub (Some (I "pinned")) (TyPath None (Path false [(Seg (I "T") GNone)])); mkRField [] VPub (Some (I "unpinned")) (TyPath None (Path false [(Seg (I "U") GNone)]))])))
  = None.
Proof. vm_compute. reflexivity. Qed.
(** /repo/tests/include/basic-safe-part.rs:249 *)
Example ui_include_basic_safe_part_249 : verdict [TPunct "!" false; TIdent (I "Unpin")]
  (mkRItem [RAttr (mkAttr false [(I "allow")] (MList Paren [TIdent (I "clippy"); TPunct ":" true; TPunct ":" false; TIdent (I "exhaustive_structs")])); RAttr (mkAttr false [(I "derive")] (MList Paren [TIdent (I "Debug")]))] (RStruct VPub (I "NotUnpinTupleStruct") (mkRGenerics [([], PTy (I "T") [] None); ([], PTy (I "U") [] None)] None) (RUnnamed [mkRField [RAttr (mkAttr false [(I "pin")] MPath)] VPub None (TyPath None (Path false [(Seg (I "T") GNone)])); mkRField [] VPub None (TyPath None (Path false [(Seg (I "U") GNone)]))])))
  = None.
Proof. vm_compute. reflexivity. Qed.
(** /repo/tests/include/basic-safe-part.rs:255 *)
Example ui_include_basic_safe_part_255 : verdict [TPunct "!" false; TIdent (I "Unpin"); TPunct "," false; TIdent (I "project"); TPunct "=" false; TIdent (I "NotUnpinEnumProj"); TPunct "," false; TIdent (I "project_ref"); TPunct "=" false; TIdent (I "NotUnpinEnumProjRef"); TPunct "," false]
  (mkRItem [RAttr (mkAttr false [(I "allow")] (MList Paren [TIdent (I "clippy"); TPunct ":" true; TPunct ":" false; TIdent (I "exhaustive_enums")])); RAttr (mkAttr false [(I "derive")] (MList Paren [TIdent (I "Debug")]))] (REnum VPub (I "NotUnpinEnum") (mkRGenerics [([], PTy (I "T") [] None); ([], PTy (I "U") [] None)] None) [mkRVariant [] (I "Struct") (RNamed [mkRField [RAttr (mkAttr false [(I "pin")] MPath)] VInherited (Some (I "pinned")) (TyPath None (Path false [(Seg (I "T") GNone)])); mkRField [] VInherited (Some (I "unpinned")) (TyPath None (Path false [(Seg (I "U") GNone)]))]) false; mkRVariant [] (I "Tuple") (RUnnamed [mkRField [RAttr (mkAttr false [(I "pin")] MPath)] VInherited None (TyPath None (Path false [(Seg (I "T") GNone)])); mkRField [] VInherited None (TyPath None (Path false [(Seg (I "U") GNone)]))]) false; mkRVariant [] (I "Unit") RUnit false]))
  = None.
Proof. vm_compute. reflexivity. Qed.
