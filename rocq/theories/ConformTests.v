(** The items, impls and assertions of /repo/tests/proper_unpin.rs and
    /repo/tests/unsafe_unpin.rs, and the items of /repo/tests/ui that conflict with an
    impl of the user.  Generated from the tests (conform/gen_traits.py).
    [RCfg 0] is [any()], [RCfg 1] is [not(any())].  [Foo<'_>] in an impl header stands
    for a fresh lifetime parameter of the impl, written [PLt "'_"]. *)
From Coq Require Import String Ascii List Bool.
From Verif Require Import Base Syntax ModelArgs ModelUtils ModelAttribute ModelDerive ModelPinnedDrop.
Import ListNotations.
Open Scope string_scope.
Open Scope list_scope.

(** An item with its module and the arguments of [#[pin_project]]. *)
Record test_item : Type := mkTest { te_mod : string; te_args : list ttree; te_raw : raw_item }.
(** An assertion: the line, the module, the type, and whether it is [Unpin]. *)
Record test_assert : Type := mkAssert { ta_line : string; ta_mod : string; ta_ty : ty; ta_unpin : bool }.
(** An item of /repo/tests/ui for which the compiler reports E0119, with the impls that
    the user wrote for it; [true] marks those with [#[pinned_drop]]. *)
Record ui_case : Type := mkUi { ui_line : string; ui_args : list ttree; ui_raw : raw_item; ui_impls : list (bool * item_impl) }.

Definition test_items : list test_item :=
  [(* proper_unpin.rs:21 *) mkTest "default" []
  (mkRItem [] (RStruct VInherited (I "Struct") (mkRGenerics [([], PTy (I "T") [] None); ([], PTy (I "U") [] None)] None) (RNamed [mkRField [RAttr (mkAttr false [(I "pin")] MPath)] VInherited (Some (I "f1")) (TyPath None (Path false [(Seg (I "Inner") (GAngle false [(ATy (TyPath None (Path false [(Seg (I "T") GNone)])))]))])); mkRField [] VInherited (Some (I "f2")) (TyPath None (Path false [(Seg (I "U") GNone)]))])));
   (* proper_unpin.rs:33 *) mkTest "default" [TIdent (I "project"); TPunct "=" false; TIdent (I "EnumProj"); TPunct "," false; TIdent (I "project_ref"); TPunct "=" false; TIdent (I "EnumProjRef")]
  (mkRItem [] (REnum VInherited (I "Enum") (mkRGenerics [([], PTy (I "T") [] None); ([], PTy (I "U") [] None)] None) [mkRVariant [] (I "V1") (RNamed [mkRField [RAttr (mkAttr false [(I "pin")] MPath)] VInherited (Some (I "f1")) (TyPath None (Path false [(Seg (I "Inner") (GAngle false [(ATy (TyPath None (Path false [(Seg (I "T") GNone)])))]))])); mkRField [] VInherited (Some (I "f2")) (TyPath None (Path false [(Seg (I "U") GNone)]))]) false]));
   (* proper_unpin.rs:47 *) mkTest "default" []
  (mkRItem [] (RStruct VInherited (I "TrivialBounds") (mkRGenerics [] None) (RNamed [mkRField [RAttr (mkAttr false [(I "pin")] MPath)] VInherited (Some (I "f")) (TyPath None (Path false [(Seg (I "PhantomPinned") GNone)]))])));
   (* proper_unpin.rs:55 *) mkTest "default" []
  (mkRItem [] (RStruct VInherited (I "PinRef") (mkRGenerics [([], PLt "'a" []); ([], PTy (I "T") [] None); ([], PTy (I "U") [] None)] None) (RNamed [mkRField [RAttr (mkAttr false [(I "pin")] MPath)] VInherited (Some (I "f1")) (TyRef (Some "'a") true (TyPath None (Path false [(Seg (I "Inner") (GAngle false [(ATy (TyPath None (Path false [(Seg (I "T") GNone)])))]))]))); mkRField [] VInherited (Some (I "f2")) (TyPath None (Path false [(Seg (I "U") GNone)]))])));
   (* proper_unpin.rs:70 *) mkTest "cfg" []
  (mkRItem [] (RStruct VInherited (I "Foo") (mkRGenerics [([], PTy (I "T") [] None)] None) (RNamed [mkRField [RCfg 0; RAttr (mkAttr false [(I "pin")] MPath)] VInherited (Some (I "f")) (TyPath None (Path false [(Seg (I "T") GNone)])); mkRField [RCfg 1] VInherited (Some (I "f")) (TyPath None (Path false [(Seg (I "T") GNone)]))])));
   (* proper_unpin.rs:81 *) mkTest "cfg" []
  (mkRItem [] (RStruct VInherited (I "Bar") (mkRGenerics [([], PTy (I "T") [] None)] None) (RNamed [mkRField [RCfg 0] VInherited (Some (I "f")) (TyPath None (Path false [(Seg (I "T") GNone)])); mkRField [RCfg 1; RAttr (mkAttr false [(I "pin")] MPath)] VInherited (Some (I "f")) (TyPath None (Path false [(Seg (I "T") GNone)]))])));
   (* proper_unpin.rs:107 *) mkTest "cfg_attr" []
  (mkRItem [] (RStruct VInherited (I "Bar") (mkRGenerics [([], PTy (I "T") [] None)] None) (RNamed [mkRField [RCfgAttr 1 [RAttr (mkAttr false [(I "pin")] MPath)]] VInherited (Some (I "f")) (TyPath None (Path false [(Seg (I "T") GNone)]))])));
   (* proper_unpin.rs:127 *) mkTest "not_unpin" [TPunct "!" false; TIdent (I "Unpin")]
  (mkRItem [] (RStruct VInherited (I "Struct") (mkRGenerics [([], PTy (I "T") [] None); ([], PTy (I "U") [] None)] None) (RNamed [mkRField [RAttr (mkAttr false [(I "pin")] MPath)] VInherited (Some (I "inner")) (TyPath None (Path false [(Seg (I "Inner") (GAngle false [(ATy (TyPath None (Path false [(Seg (I "T") GNone)])))]))])); mkRField [] VInherited (Some (I "other")) (TyPath None (Path false [(Seg (I "U") GNone)]))])));
   (* proper_unpin.rs:139 *) mkTest "not_unpin" [TPunct "!" false; TIdent (I "Unpin")]
  (mkRItem [] (RStruct VInherited (I "TrivialBounds") (mkRGenerics [] None) (RNamed [mkRField [RAttr (mkAttr false [(I "pin")] MPath)] VInherited (Some (I "f")) (TyPath None (Path false [(Seg (I "PhantomPinned") GNone)]))])));
   (* proper_unpin.rs:147 *) mkTest "not_unpin" [TPunct "!" false; TIdent (I "Unpin")]
  (mkRItem [] (RStruct VInherited (I "PinRef") (mkRGenerics [([], PLt "'a" []); ([], PTy (I "T") [] None); ([], PTy (I "U") [] None)] None) (RNamed [mkRField [RAttr (mkAttr false [(I "pin")] MPath)] VInherited (Some (I "inner")) (TyRef (Some "'a") true (TyPath None (Path false [(Seg (I "Inner") (GAngle false [(ATy (TyPath None (Path false [(Seg (I "T") GNone)])))]))]))); mkRField [] VInherited (Some (I "other")) (TyPath None (Path false [(Seg (I "U") GNone)]))])));
   (* unsafe_unpin.rs:13 *) mkTest "unsafe_unpin" [TIdent (I "UnsafeUnpin")]
  (mkRItem [] (RStruct VInherited (I "Blah") (mkRGenerics [([], PTy (I "T") [] None); ([], PTy (I "U") [] None)] None) (RNamed [mkRField [] VInherited (Some (I "f1")) (TyPath None (Path false [(Seg (I "U") GNone)])); mkRField [RAttr (mkAttr false [(I "pin")] MPath)] VInherited (Some (I "f2")) (TyPath None (Path false [(Seg (I "T") GNone)]))])));
   (* unsafe_unpin.rs:27 *) mkTest "unsafe_unpin" [TIdent (I "UnsafeUnpin")]
  (mkRItem [] (RStruct VInherited (I "OverlappingLifetimeNames") (mkRGenerics [([], PLt "'pin" []); ([], PTy (I "T") [] None); ([], PTy (I "U") [] None)] None) (RNamed [mkRField [RAttr (mkAttr false [(I "pin")] MPath)] VInherited (Some (I "f1")) (TyPath None (Path false [(Seg (I "U") GNone)])); mkRField [RAttr (mkAttr false [(I "pin")] MPath)] VInherited (Some (I "f2")) (TyPath None (Path false [(Seg (I "Option") (GAngle false [(ATy (TyPath None (Path false [(Seg (I "T") GNone)])))]))])); mkRField [] VInherited (Some (I "f3")) (TyRef (Some "'pin") false (TyTuple []))])));
   (* unsafe_unpin.rs:45 *) mkTest "unsafe_unpin" [TIdent (I "UnsafeUnpin")]
  (mkRItem [] (RStruct VInherited (I "NotImplementUnsafeUnpin") (mkRGenerics [] None) (RNamed [mkRField [RAttr (mkAttr false [(I "pin")] MPath)] VInherited (Some (I "f")) (TyPath None (Path false [(Seg (I "PhantomPinned") GNone)]))])))].
Definition test_impls : list (string * impl) :=
  [(* unsafe_unpin.rs:19 *) ("unsafe_unpin", mkImpl true (mkGenerics [PTy (I "T") [(BTrait false [] (Path false [(Seg (I "Unpin") GNone)]))] None; PTy (I "U") [] None] None) (Some (Path false [(Seg (I "UnsafeUnpin") GNone)])) (TyPath None (Path false [(Seg (I "Blah") (GAngle false [(ATy (TyPath None (Path false [(Seg (I "T") GNone)]))); (ATy (TyPath None (Path false [(Seg (I "U") GNone)])))]))])) []);
   (* unsafe_unpin.rs:35 *) ("unsafe_unpin", mkImpl true (mkGenerics [PLt "'_" []; PTy (I "T") [(BTrait false [] (Path false [(Seg (I "Unpin") GNone)]))] None; PTy (I "U") [(BTrait false [] (Path false [(Seg (I "Unpin") GNone)]))] None] None) (Some (Path false [(Seg (I "UnsafeUnpin") GNone)])) (TyPath None (Path false [(Seg (I "OverlappingLifetimeNames") (GAngle false [(ALt "'_"); (ATy (TyPath None (Path false [(Seg (I "T") GNone)]))); (ATy (TyPath None (Path false [(Seg (I "U") GNone)])))]))])) [])].
(** Structs without [#[pin_project]]. *)
Definition test_plain : list string := ["default::Inner"; "cfg_attr::Foo"; "not_unpin::Inner"].
Definition test_asserts : list test_assert :=
  [mkAssert "proper_unpin.rs:17" "default" (TyPath None (Path false [(Seg (I "Inner") (GAngle false [(ATy (TyTuple []))]))])) true;
   mkAssert "proper_unpin.rs:18" "default" (TyPath None (Path false [(Seg (I "Inner") (GAngle false [(ATy (TyPath None (Path false [(Seg (I "PhantomPinned") GNone)])))]))])) false;
   mkAssert "proper_unpin.rs:27" "default" (TyPath None (Path false [(Seg (I "Struct") (GAngle false [(ATy (TyTuple [])); (ATy (TyTuple []))]))])) true;
   mkAssert "proper_unpin.rs:28" "default" (TyPath None (Path false [(Seg (I "Struct") (GAngle false [(ATy (TyTuple [])); (ATy (TyPath None (Path false [(Seg (I "PhantomPinned") GNone)])))]))])) true;
   mkAssert "proper_unpin.rs:29" "default" (TyPath None (Path false [(Seg (I "Struct") (GAngle false [(ATy (TyPath None (Path false [(Seg (I "PhantomPinned") GNone)]))); (ATy (TyTuple []))]))])) false;
   mkAssert "proper_unpin.rs:30" "default" (TyPath None (Path false [(Seg (I "Struct") (GAngle false [(ATy (TyPath None (Path false [(Seg (I "PhantomPinned") GNone)]))); (ATy (TyPath None (Path false [(Seg (I "PhantomPinned") GNone)])))]))])) false;
   mkAssert "proper_unpin.rs:41" "default" (TyPath None (Path false [(Seg (I "Enum") (GAngle false [(ATy (TyTuple [])); (ATy (TyTuple []))]))])) true;
   mkAssert "proper_unpin.rs:42" "default" (TyPath None (Path false [(Seg (I "Enum") (GAngle false [(ATy (TyTuple [])); (ATy (TyPath None (Path false [(Seg (I "PhantomPinned") GNone)])))]))])) true;
   mkAssert "proper_unpin.rs:43" "default" (TyPath None (Path false [(Seg (I "Enum") (GAngle false [(ATy (TyPath None (Path false [(Seg (I "PhantomPinned") GNone)]))); (ATy (TyTuple []))]))])) false;
   mkAssert "proper_unpin.rs:44" "default" (TyPath None (Path false [(Seg (I "Enum") (GAngle false [(ATy (TyPath None (Path false [(Seg (I "PhantomPinned") GNone)]))); (ATy (TyPath None (Path false [(Seg (I "PhantomPinned") GNone)])))]))])) false;
   mkAssert "proper_unpin.rs:52" "default" (TyPath None (Path false [(Seg (I "TrivialBounds") GNone)])) false;
   mkAssert "proper_unpin.rs:61" "default" (TyPath None (Path false [(Seg (I "PinRef") (GAngle false [(ALt "'_"); (ATy (TyPath None (Path false [(Seg (I "PhantomPinned") GNone)]))); (ATy (TyPath None (Path false [(Seg (I "PhantomPinned") GNone)])))]))])) true;
   mkAssert "proper_unpin.rs:78" "cfg" (TyPath None (Path false [(Seg (I "Foo") (GAngle false [(ATy (TyPath None (Path false [(Seg (I "PhantomPinned") GNone)])))]))])) true;
   mkAssert "proper_unpin.rs:89" "cfg" (TyPath None (Path false [(Seg (I "Bar") (GAngle false [(ATy (TyTuple []))]))])) true;
   mkAssert "proper_unpin.rs:90" "cfg" (TyPath None (Path false [(Seg (I "Bar") (GAngle false [(ATy (TyPath None (Path false [(Seg (I "PhantomPinned") GNone)])))]))])) false;
   mkAssert "proper_unpin.rs:103" "cfg_attr" (TyPath None (Path false [(Seg (I "Foo") (GAngle false [(ATy (TyTuple []))]))])) true;
   mkAssert "proper_unpin.rs:104" "cfg_attr" (TyPath None (Path false [(Seg (I "Foo") (GAngle false [(ATy (TyPath None (Path false [(Seg (I "PhantomPinned") GNone)])))]))])) false;
   mkAssert "proper_unpin.rs:112" "cfg_attr" (TyPath None (Path false [(Seg (I "Bar") (GAngle false [(ATy (TyTuple []))]))])) true;
   mkAssert "proper_unpin.rs:113" "cfg_attr" (TyPath None (Path false [(Seg (I "Bar") (GAngle false [(ATy (TyPath None (Path false [(Seg (I "PhantomPinned") GNone)])))]))])) false;
   mkAssert "proper_unpin.rs:133" "not_unpin" (TyPath None (Path false [(Seg (I "Struct") (GAngle false [(ATy (TyTuple [])); (ATy (TyTuple []))]))])) false;
   mkAssert "proper_unpin.rs:134" "not_unpin" (TyPath None (Path false [(Seg (I "Struct") (GAngle false [(ATy (TyTuple [])); (ATy (TyPath None (Path false [(Seg (I "PhantomPinned") GNone)])))]))])) false;
   mkAssert "proper_unpin.rs:135" "not_unpin" (TyPath None (Path false [(Seg (I "Struct") (GAngle false [(ATy (TyPath None (Path false [(Seg (I "PhantomPinned") GNone)]))); (ATy (TyTuple []))]))])) false;
   mkAssert "proper_unpin.rs:136" "not_unpin" (TyPath None (Path false [(Seg (I "Struct") (GAngle false [(ATy (TyPath None (Path false [(Seg (I "PhantomPinned") GNone)]))); (ATy (TyPath None (Path false [(Seg (I "PhantomPinned") GNone)])))]))])) false;
   mkAssert "proper_unpin.rs:144" "not_unpin" (TyPath None (Path false [(Seg (I "TrivialBounds") GNone)])) false;
   mkAssert "proper_unpin.rs:153" "not_unpin" (TyPath None (Path false [(Seg (I "PinRef") (GAngle false [(ALt "'_"); (ATy (TyTuple [])); (ATy (TyTuple []))]))])) false;
   mkAssert "unsafe_unpin.rs:21" "unsafe_unpin" (TyPath None (Path false [(Seg (I "Blah") (GAngle false [(ATy (TyTuple [])); (ATy (TyTuple []))]))])) true;
   mkAssert "unsafe_unpin.rs:22" "unsafe_unpin" (TyPath None (Path false [(Seg (I "Blah") (GAngle false [(ATy (TyTuple [])); (ATy (TyPath None (Path false [(Seg (I "PhantomPinned") GNone)])))]))])) true;
   mkAssert "unsafe_unpin.rs:23" "unsafe_unpin" (TyPath None (Path false [(Seg (I "Blah") (GAngle false [(ATy (TyPath None (Path false [(Seg (I "PhantomPinned") GNone)]))); (ATy (TyTuple []))]))])) false;
   mkAssert "unsafe_unpin.rs:24" "unsafe_unpin" (TyPath None (Path false [(Seg (I "Blah") (GAngle false [(ATy (TyPath None (Path false [(Seg (I "PhantomPinned") GNone)]))); (ATy (TyPath None (Path false [(Seg (I "PhantomPinned") GNone)])))]))])) false;
   mkAssert "unsafe_unpin.rs:37" "unsafe_unpin" (TyPath None (Path false [(Seg (I "OverlappingLifetimeNames") (GAngle false [(ALt "'_"); (ATy (TyTuple [])); (ATy (TyTuple []))]))])) true;
   mkAssert "unsafe_unpin.rs:38" "unsafe_unpin" (TyPath None (Path false [(Seg (I "OverlappingLifetimeNames") (GAngle false [(ALt "'_"); (ATy (TyPath None (Path false [(Seg (I "PhantomPinned") GNone)]))); (ATy (TyTuple []))]))])) false;
   mkAssert "unsafe_unpin.rs:39" "unsafe_unpin" (TyPath None (Path false [(Seg (I "OverlappingLifetimeNames") (GAngle false [(ALt "'_"); (ATy (TyTuple [])); (ATy (TyPath None (Path false [(Seg (I "PhantomPinned") GNone)])))]))])) false;
   mkAssert "unsafe_unpin.rs:40" "unsafe_unpin" (TyPath None (Path false [(Seg (I "OverlappingLifetimeNames") (GAngle false [(ALt "'_"); (ATy (TyPath None (Path false [(Seg (I "PhantomPinned") GNone)]))); (ATy (TyPath None (Path false [(Seg (I "PhantomPinned") GNone)])))]))])) false;
   mkAssert "unsafe_unpin.rs:50" "unsafe_unpin" (TyPath None (Path false [(Seg (I "NotImplementUnsafeUnpin") GNone)])) false].
Definition ui_cases : list ui_case :=
  [mkUi "ui/not_unpin/conflict-unpin.rs:6" [TPunct "!" false; TIdent (I "Unpin")]
  (mkRItem [] (RStruct VInherited (I "Foo") (mkRGenerics [([], PTy (I "T") [] None); ([], PTy (I "U") [] None)] None) (RNamed [mkRField [RAttr (mkAttr false [(I "pin")] MPath)] VInherited (Some (I "f1")) (TyPath None (Path false [(Seg (I "T") GNone)])); mkRField [] VInherited (Some (I "f2")) (TyPath None (Path false [(Seg (I "U") GNone)]))])))
  [(false, (mkItemImpl [] false false (mkGenerics [PTy (I "T") [] None; PTy (I "U") [] None] (Some [WTy [] (TyPath None (Path false [(Seg (I "T") GNone)])) [(BTrait false [] (Path false [(Seg (I "Unpin") GNone)]))]])) (Some (false, (Path false [(Seg (I "Unpin") GNone)]))) (TyPath None (Path false [(Seg (I "Foo") (GAngle false [(ATy (TyPath None (Path false [(Seg (I "T") GNone)]))); (ATy (TyPath None (Path false [(Seg (I "U") GNone)])))]))])) []))];
   mkUi "ui/not_unpin/conflict-unpin.rs:15" [TPunct "!" false; TIdent (I "Unpin")]
  (mkRItem [] (RStruct VInherited (I "Bar") (mkRGenerics [([], PTy (I "T") [] None); ([], PTy (I "U") [] None)] None) (RNamed [mkRField [RAttr (mkAttr false [(I "pin")] MPath)] VInherited (Some (I "f1")) (TyPath None (Path false [(Seg (I "T") GNone)])); mkRField [] VInherited (Some (I "f2")) (TyPath None (Path false [(Seg (I "U") GNone)]))])))
  [(false, (mkItemImpl [] false false (mkGenerics [PTy (I "T") [] None; PTy (I "U") [] None] None) (Some (false, (Path false [(Seg (I "Unpin") GNone)]))) (TyPath None (Path false [(Seg (I "Bar") (GAngle false [(ATy (TyPath None (Path false [(Seg (I "T") GNone)]))); (ATy (TyPath None (Path false [(Seg (I "U") GNone)])))]))])) []))];
   mkUi "ui/not_unpin/conflict-unpin.rs:24" [TPunct "!" false; TIdent (I "Unpin")]
  (mkRItem [] (RStruct VInherited (I "Baz") (mkRGenerics [([], PTy (I "T") [] None); ([], PTy (I "U") [] None)] None) (RNamed [mkRField [RAttr (mkAttr false [(I "pin")] MPath)] VInherited (Some (I "f1")) (TyPath None (Path false [(Seg (I "T") GNone)])); mkRField [] VInherited (Some (I "f2")) (TyPath None (Path false [(Seg (I "U") GNone)]))])))
  [(false, (mkItemImpl [] false false (mkGenerics [PTy (I "T") [(BTrait false [] (Path false [(Seg (I "Unpin") GNone)]))] None; PTy (I "U") [(BTrait false [] (Path false [(Seg (I "Unpin") GNone)]))] None] None) (Some (false, (Path false [(Seg (I "Unpin") GNone)]))) (TyPath None (Path false [(Seg (I "Baz") (GAngle false [(ATy (TyPath None (Path false [(Seg (I "T") GNone)]))); (ATy (TyPath None (Path false [(Seg (I "U") GNone)])))]))])) []))];
   mkUi "ui/not_unpin/impl-unsafe-unpin.rs:6" [TPunct "!" false; TIdent (I "Unpin")]
  (mkRItem [] (RStruct VInherited (I "Foo") (mkRGenerics [([], PTy (I "T") [] None); ([], PTy (I "U") [] None)] None) (RNamed [mkRField [RAttr (mkAttr false [(I "pin")] MPath)] VInherited (Some (I "f1")) (TyPath None (Path false [(Seg (I "T") GNone)])); mkRField [] VInherited (Some (I "f2")) (TyPath None (Path false [(Seg (I "U") GNone)]))])))
  [(false, (mkItemImpl [] false true (mkGenerics [PTy (I "T") [] None; PTy (I "U") [] None] (Some [WTy [] (TyPath None (Path false [(Seg (I "T") GNone)])) [(BTrait false [] (Path false [(Seg (I "Unpin") GNone)]))]])) (Some (false, (Path false [(Seg (I "UnsafeUnpin") GNone)]))) (TyPath None (Path false [(Seg (I "Foo") (GAngle false [(ATy (TyPath None (Path false [(Seg (I "T") GNone)]))); (ATy (TyPath None (Path false [(Seg (I "U") GNone)])))]))])) []))];
   mkUi "ui/not_unpin/impl-unsafe-unpin.rs:15" [TPunct "!" false; TIdent (I "Unpin")]
  (mkRItem [] (RStruct VInherited (I "Bar") (mkRGenerics [([], PTy (I "T") [] None); ([], PTy (I "U") [] None)] None) (RNamed [mkRField [RAttr (mkAttr false [(I "pin")] MPath)] VInherited (Some (I "f1")) (TyPath None (Path false [(Seg (I "T") GNone)])); mkRField [] VInherited (Some (I "f2")) (TyPath None (Path false [(Seg (I "U") GNone)]))])))
  [(false, (mkItemImpl [] false true (mkGenerics [PTy (I "T") [] None; PTy (I "U") [] None] None) (Some (false, (Path false [(Seg (I "UnsafeUnpin") GNone)]))) (TyPath None (Path false [(Seg (I "Bar") (GAngle false [(ATy (TyPath None (Path false [(Seg (I "T") GNone)]))); (ATy (TyPath None (Path false [(Seg (I "U") GNone)])))]))])) []))];
   mkUi "ui/not_unpin/impl-unsafe-unpin.rs:24" [TPunct "!" false; TIdent (I "Unpin")]
  (mkRItem [] (RStruct VInherited (I "Baz") (mkRGenerics [([], PTy (I "T") [] None); ([], PTy (I "U") [] None)] None) (RNamed [mkRField [RAttr (mkAttr false [(I "pin")] MPath)] VInherited (Some (I "f1")) (TyPath None (Path false [(Seg (I "T") GNone)])); mkRField [] VInherited (Some (I "f2")) (TyPath None (Path false [(Seg (I "U") GNone)]))])))
  [(false, (mkItemImpl [] false true (mkGenerics [PTy (I "T") [(BTrait false [] (Path false [(Seg (I "Unpin") GNone)]))] None; PTy (I "U") [(BTrait false [] (Path false [(Seg (I "Unpin") GNone)]))] None] None) (Some (false, (Path false [(Seg (I "UnsafeUnpin") GNone)]))) (TyPath None (Path false [(Seg (I "Baz") (GAngle false [(ATy (TyPath None (Path false [(Seg (I "T") GNone)]))); (ATy (TyPath None (Path false [(Seg (I "U") GNone)])))]))])) []))];
   mkUi "ui/pin_project/conflict-drop.rs:8" []
  (mkRItem [] (RStruct VInherited (I "Foo") (mkRGenerics [([], PTy (I "T") [] None); ([], PTy (I "U") [] None)] None) (RNamed [mkRField [RAttr (mkAttr false [(I "pin")] MPath)] VInherited (Some (I "f1")) (TyPath None (Path false [(Seg (I "T") GNone)])); mkRField [] VInherited (Some (I "f2")) (TyPath None (Path false [(Seg (I "U") GNone)]))])))
  [(false, (mkItemImpl [] false false (mkGenerics [PTy (I "T") [] None; PTy (I "U") [] None] None) (Some (false, (Path false [(Seg (I "Drop") GNone)]))) (TyPath None (Path false [(Seg (I "Foo") (GAngle false [(ATy (TyPath None (Path false [(Seg (I "T") GNone)]))); (ATy (TyPath None (Path false [(Seg (I "U") GNone)])))]))])) [IIFn (mkIMethod [] VInherited false (mkSig false false false false (I "drop") (mkGenerics [] None) [FRecv [] (Some None) true None] false None) [])]))];
   mkUi "ui/pin_project/conflict-drop.rs:19" [TIdent (I "PinnedDrop")]
  (mkRItem [] (RStruct VInherited (I "Bar") (mkRGenerics [([], PTy (I "T") [] None); ([], PTy (I "U") [] None)] None) (RNamed [mkRField [RAttr (mkAttr false [(I "pin")] MPath)] VInherited (Some (I "f1")) (TyPath None (Path false [(Seg (I "T") GNone)])); mkRField [] VInherited (Some (I "f2")) (TyPath None (Path false [(Seg (I "U") GNone)]))])))
  [(true, (mkItemImpl [] false false (mkGenerics [PTy (I "T") [] None; PTy (I "U") [] None] None) (Some (false, (Path false [(Seg (I "PinnedDrop") GNone)]))) (TyPath None (Path false [(Seg (I "Bar") (GAngle false [(ATy (TyPath None (Path false [(Seg (I "T") GNone)]))); (ATy (TyPath None (Path false [(Seg (I "U") GNone)])))]))])) [IIFn (mkIMethod [] VInherited false (mkSig false false false false (I "drop") (mkGenerics [] None) [FRecv [] None false (Some (TyPath None (Path false [(Seg (I "Pin") (GAngle false [(ATy (TyRef None true (TyPath None (Path false [(Seg (I "Self") GNone)]))))]))])))] false None) [])])); (false, (mkItemImpl [] false false (mkGenerics [PTy (I "T") [] None; PTy (I "U") [] None] None) (Some (false, (Path false [(Seg (I "Drop") GNone)]))) (TyPath None (Path false [(Seg (I "Bar") (GAngle false [(ATy (TyPath None (Path false [(Seg (I "T") GNone)]))); (ATy (TyPath None (Path false [(Seg (I "U") GNone)])))]))])) [IIFn (mkIMethod [] VInherited false (mkSig false false false false (I "drop") (mkGenerics [] None) [FRecv [] (Some None) true None] false None) [])]))];
   mkUi "ui/pin_project/conflict-unpin.rs:8" []
  (mkRItem [] (RStruct VInherited (I "Foo") (mkRGenerics [([], PTy (I "T") [] None); ([], PTy (I "U") [] None)] None) (RNamed [mkRField [RAttr (mkAttr false [(I "pin")] MPath)] VInherited (Some (I "f1")) (TyPath None (Path false [(Seg (I "T") GNone)])); mkRField [] VInherited (Some (I "f2")) (TyPath None (Path false [(Seg (I "U") GNone)]))])))
  [(false, (mkItemImpl [] false false (mkGenerics [PTy (I "T") [] None; PTy (I "U") [] None] (Some [WTy [] (TyPath None (Path false [(Seg (I "T") GNone)])) [(BTrait false [] (Path false [(Seg (I "Unpin") GNone)]))]])) (Some (false, (Path false [(Seg (I "Unpin") GNone)]))) (TyPath None (Path false [(Seg (I "Foo") (GAngle false [(ATy (TyPath None (Path false [(Seg (I "T") GNone)]))); (ATy (TyPath None (Path false [(Seg (I "U") GNone)])))]))])) []))];
   mkUi "ui/pin_project/conflict-unpin.rs:20" []
  (mkRItem [] (RStruct VInherited (I "Bar") (mkRGenerics [([], PTy (I "T") [] None); ([], PTy (I "U") [] None)] None) (RNamed [mkRField [RAttr (mkAttr false [(I "pin")] MPath)] VInherited (Some (I "f1")) (TyPath None (Path false [(Seg (I "T") GNone)])); mkRField [] VInherited (Some (I "f2")) (TyPath None (Path false [(Seg (I "U") GNone)]))])))
  [(false, (mkItemImpl [] false false (mkGenerics [PTy (I "T") [] None; PTy (I "U") [] None] None) (Some (false, (Path false [(Seg (I "Unpin") GNone)]))) (TyPath None (Path false [(Seg (I "Bar") (GAngle false [(ATy (TyPath None (Path false [(Seg (I "T") GNone)]))); (ATy (TyPath None (Path false [(Seg (I "U") GNone)])))]))])) []))];
   mkUi "ui/pin_project/conflict-unpin.rs:30" []
  (mkRItem [] (RStruct VInherited (I "Baz") (mkRGenerics [([], PTy (I "T") [] None); ([], PTy (I "U") [] None)] None) (RNamed [mkRField [RAttr (mkAttr false [(I "pin")] MPath)] VInherited (Some (I "f1")) (TyPath None (Path false [(Seg (I "T") GNone)])); mkRField [] VInherited (Some (I "f2")) (TyPath None (Path false [(Seg (I "U") GNone)]))])))
  [(false, (mkItemImpl [] false false (mkGenerics [PTy (I "T") [(BTrait false [] (Path false [(Seg (I "Unpin") GNone)]))] None; PTy (I "U") [(BTrait false [] (Path false [(Seg (I "Unpin") GNone)]))] None] None) (Some (false, (Path false [(Seg (I "Unpin") GNone)]))) (TyPath None (Path false [(Seg (I "Baz") (GAngle false [(ATy (TyPath None (Path false [(Seg (I "T") GNone)]))); (ATy (TyPath None (Path false [(Seg (I "U") GNone)])))]))])) []))];
   mkUi "ui/pin_project/impl-unsafe-unpin.rs:6" []
  (mkRItem [] (RStruct VInherited (I "Foo") (mkRGenerics [([], PTy (I "T") [] None); ([], PTy (I "U") [] None)] None) (RNamed [mkRField [RAttr (mkAttr false [(I "pin")] MPath)] VInherited (Some (I "f1")) (TyPath None (Path false [(Seg (I "T") GNone)])); mkRField [] VInherited (Some (I "f2")) (TyPath None (Path false [(Seg (I "U") GNone)]))])))
  [(false, (mkItemImpl [] false true (mkGenerics [PTy (I "T") [] None; PTy (I "U") [] None] (Some [WTy [] (TyPath None (Path false [(Seg (I "T") GNone)])) [(BTrait false [] (Path false [(Seg (I "Unpin") GNone)]))]])) (Some (false, (Path false [(Seg (I "UnsafeUnpin") GNone)]))) (TyPath None (Path false [(Seg (I "Foo") (GAngle false [(ATy (TyPath None (Path false [(Seg (I "T") GNone)]))); (ATy (TyPath None (Path false [(Seg (I "U") GNone)])))]))])) []))];
   mkUi "ui/pin_project/impl-unsafe-unpin.rs:15" []
  (mkRItem [] (RStruct VInherited (I "Bar") (mkRGenerics [([], PTy (I "T") [] None); ([], PTy (I "U") [] None)] None) (RNamed [mkRField [RAttr (mkAttr false [(I "pin")] MPath)] VInherited (Some (I "f1")) (TyPath None (Path false [(Seg (I "T") GNone)])); mkRField [] VInherited (Some (I "f2")) (TyPath None (Path false [(Seg (I "U") GNone)]))])))
  [(false, (mkItemImpl [] false true (mkGenerics [PTy (I "T") [] None; PTy (I "U") [] None] None) (Some (false, (Path false [(Seg (I "UnsafeUnpin") GNone)]))) (TyPath None (Path false [(Seg (I "Bar") (GAngle false [(ATy (TyPath None (Path false [(Seg (I "T") GNone)]))); (ATy (TyPath None (Path false [(Seg (I "U") GNone)])))]))])) []))];
   mkUi "ui/pin_project/impl-unsafe-unpin.rs:24" []
  (mkRItem [] (RStruct VInherited (I "Baz") (mkRGenerics [([], PTy (I "T") [] None); ([], PTy (I "U") [] None)] None) (RNamed [mkRField [RAttr (mkAttr false [(I "pin")] MPath)] VInherited (Some (I "f1")) (TyPath None (Path false [(Seg (I "T") GNone)])); mkRField [] VInherited (Some (I "f2")) (TyPath None (Path false [(Seg (I "U") GNone)]))])))
  [(false, (mkItemImpl [] false true (mkGenerics [PTy (I "T") [(BTrait false [] (Path false [(Seg (I "Unpin") GNone)]))] None; PTy (I "U") [(BTrait false [] (Path false [(Seg (I "Unpin") GNone)]))] None] None) (Some (false, (Path false [(Seg (I "UnsafeUnpin") GNone)]))) (TyPath None (Path false [(Seg (I "Baz") (GAngle false [(ATy (TyPath None (Path false [(Seg (I "T") GNone)]))); (ATy (TyPath None (Path false [(Seg (I "U") GNone)])))]))])) []))];
   mkUi "ui/pinned_drop/pinned-drop-no-attr-arg.rs:8" []
  (mkRItem [] (RStruct VInherited (I "S") (mkRGenerics [] None) (RNamed [mkRField [RAttr (mkAttr false [(I "pin")] MPath)] VInherited (Some (I "f")) (TyPath None (Path false [(Seg (I "u8") GNone)]))])))
  [(true, (mkItemImpl [] false false (mkGenerics [] None) (Some (false, (Path false [(Seg (I "PinnedDrop") GNone)]))) (TyPath None (Path false [(Seg (I "S") GNone)])) [IIFn (mkIMethod [] VInherited false (mkSig false false false false (I "drop") (mkGenerics [] None) [FRecv [] None false (Some (TyPath None (Path false [(Seg (I "Pin") (GAngle false [(ATy (TyRef None true (TyPath None (Path false [(Seg (I "Self") GNone)]))))]))])))] false None) [])]))];
   mkUi "ui/unsafe_unpin/conflict-unpin.rs:6" [TIdent (I "UnsafeUnpin")]
  (mkRItem [] (RStruct VInherited (I "Foo") (mkRGenerics [([], PTy (I "T") [] None); ([], PTy (I "U") [] None)] None) (RNamed [mkRField [RAttr (mkAttr false [(I "pin")] MPath)] VInherited (Some (I "f1")) (TyPath None (Path false [(Seg (I "T") GNone)])); mkRField [] VInherited (Some (I "f2")) (TyPath None (Path false [(Seg (I "U") GNone)]))])))
  [(false, (mkItemImpl [] false false (mkGenerics [PTy (I "T") [] None; PTy (I "U") [] None] (Some [WTy [] (TyPath None (Path false [(Seg (I "T") GNone)])) [(BTrait false [] (Path false [(Seg (I "Unpin") GNone)]))]])) (Some (false, (Path false [(Seg (I "Unpin") GNone)]))) (TyPath None (Path false [(Seg (I "Foo") (GAngle false [(ATy (TyPath None (Path false [(Seg (I "T") GNone)]))); (ATy (TyPath None (Path false [(Seg (I "U") GNone)])))]))])) []))];
   mkUi "ui/unsafe_unpin/conflict-unpin.rs:15" [TIdent (I "UnsafeUnpin")]
  (mkRItem [] (RStruct VInherited (I "Bar") (mkRGenerics [([], PTy (I "T") [] None); ([], PTy (I "U") [] None)] None) (RNamed [mkRField [RAttr (mkAttr false [(I "pin")] MPath)] VInherited (Some (I "f1")) (TyPath None (Path false [(Seg (I "T") GNone)])); mkRField [] VInherited (Some (I "f2")) (TyPath None (Path false [(Seg (I "U") GNone)]))])))
  [(false, (mkItemImpl [] false false (mkGenerics [PTy (I "T") [] None; PTy (I "U") [] None] None) (Some (false, (Path false [(Seg (I "Unpin") GNone)]))) (TyPath None (Path false [(Seg (I "Bar") (GAngle false [(ATy (TyPath None (Path false [(Seg (I "T") GNone)]))); (ATy (TyPath None (Path false [(Seg (I "U") GNone)])))]))])) []))];
   mkUi "ui/unsafe_unpin/conflict-unpin.rs:24" [TIdent (I "UnsafeUnpin")]
  (mkRItem [] (RStruct VInherited (I "Baz") (mkRGenerics [([], PTy (I "T") [] None); ([], PTy (I "U") [] None)] None) (RNamed [mkRField [RAttr (mkAttr false [(I "pin")] MPath)] VInherited (Some (I "f1")) (TyPath None (Path false [(Seg (I "T") GNone)])); mkRField [] VInherited (Some (I "f2")) (TyPath None (Path false [(Seg (I "U") GNone)]))])))
  [(false, (mkItemImpl [] false false (mkGenerics [PTy (I "T") [(BTrait false [] (Path false [(Seg (I "Unpin") GNone)]))] None; PTy (I "U") [(BTrait false [] (Path false [(Seg (I "Unpin") GNone)]))] None] None) (Some (false, (Path false [(Seg (I "Unpin") GNone)]))) (TyPath None (Path false [(Seg (I "Baz") (GAngle false [(ATy (TyPath None (Path false [(Seg (I "T") GNone)]))); (ATy (TyPath None (Path false [(Seg (I "U") GNone)])))]))])) []))]].
