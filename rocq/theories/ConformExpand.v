(** The model against the expansions recorded in /repo/tests/expand.

    For every test there the item is given to both macro stages of the model,
    and the printed output is compared with the recorded one, token by token
    (only trailing commas left out).  This file is generated from the tests; it checks the model,
    and no theorem depends on it. *)
From Coq Require Import String Ascii List Bool.
From Verif Require Import Base Syntax ModelArgs ModelUtils ModelAttribute ModelDerive ModelLints ModelPinnedDrop ModelPrint.
Import ListNotations.
Open Scope string_scope.
Open Scope list_scope.

Definition expanded (args : list ttree) (r : raw_item) : option string :=
  match parse_attribute args r with
  | Ok r => match strip_item (fun _ => true) r with
            | Some it => match parse_derive_marked it with Ok e => Some (text (print_expansion e)) | _ => None end
            | None => None
            end
  | _ => None
  end.
Definition expanded_impl (im : item_impl) : option string :=
  match pinned_drop_attribute [] im with
  | Ok (PdImpl im') => Some (text (print_item_impl im'))
  | _ => None
  end.

(** /repo/tests/expand/default/enum.rs *)
Example expand_default_enum : expanded [TIdent (I "project"); TPunct "=" false; TIdent (I "EnumProj"); TPunct "," false; TIdent (I "project_ref"); TPunct "=" false; TIdent (I "EnumProjRef")]
  (mkRItem [] (REnum VInherited (I "Enum") (mkRGenerics [([], PTy (I "T") [] None); ([], PTy (I "U") [] None)] None) [mkRVariant [] (I "Struct") (RNamed [mkRField [RAttr (mkAttr false [(I "pin")] MPath)] VInherited (Some (I "pinned")) (TyPath None (Path false [(Seg (I "T") GNone)])); mkRField [] VInherited (Some (I "unpinned")) (TyPath None (Path false [(Seg (I "U") GNone)]))]) false; mkRVariant [] (I "Tuple") (RUnnamed [mkRField [RAttr (mkAttr false [(I "pin")] MPath)] VInherited None (TyPath None (Path false [(Seg (I "T") GNone)])); mkRField [] VInherited None (TyPath None (Path false [(Seg (I "U") GNone)]))]) false; mkRVariant [] (I "Unit") RUnit false]))
  = Some "# [ allow ( dead_code , deprecated , explicit_outlives_requirements , single_use_lifetimes , unreachable_pub , unused_tuple_struct_fields , clippy : : unknown_clippy_lints , clippy : : absolute_paths , clippy : : min_ident_chars , clippy : : pattern_type_mismatch , clippy : : pub_with_shorthand , clippy : : redundant_pub_crate , clippy : : single_char_lifetime_names , clippy : : type_repetition_in_bounds , clippy : : missing_docs_in_private_items , clippy : : mut_mut ) ] enum EnumProj < ' pin , T , U > where Enum < T , U > : ' pin { Struct { pinned : : : pin_project : : __private : : Pin < & ' pin mut ( T ) > , unpinned : & ' pin mut ( U ) } , Tuple ( : : pin_project : : __private : : Pin < & ' pin mut ( T ) > , & ' pin mut ( U ) ) , Unit } # [ allow ( dead_code , deprecated , explicit_outlives_requirements , single_use_lifetimes , unreachable_pub , unused_tuple_struct_fields , clippy : : unknown_clippy_lints , clippy : : absolute_paths , clippy : : min_ident_chars , clippy : : pattern_type_mismatch , clippy : : pub_with_shorthand , clippy : : redundant_pub_crate , clippy : : single_char_lifetime_names , clippy : : type_repetition_in_bounds , clippy : : missing_docs_in_private_items , clippy : : ref_option_ref ) ] enum EnumProjRef < ' pin , T , U > where Enum < T , U > : ' pin { Struct { pinned : : : pin_project : : __private : : Pin < & ' pin ( T ) > , unpinned : & ' pin ( U ) } , Tuple ( : : pin_project : : __private : : Pin < & ' pin ( T ) > , & ' pin ( U ) ) , Unit } # [ allow ( unused_qualifications , deprecated , explicit_outlives_requirements , single_use_lifetimes , unreachable_pub , unused_tuple_struct_fields , clippy : : unknown_clippy_lints , clippy : : absolute_paths , clippy : : min_ident_chars , clippy : : pattern_type_mismatch , clippy : : pub_with_shorthand , clippy : : redundant_pub_crate , clippy : : single_char_lifetime_names , clippy : : type_repetition_in_bounds , clippy : : elidable_lifetime_names , clippy : : missing_const_for_fn , clippy : : needless_lifetimes , clippy : : semicolon_if_nothing_returned , clippy : : use_self , clippy : : used_underscore_binding ) ] const _ : ( ) = { # [ allow ( unused_extern_crates ) ] extern crate pin_project as _pin_project ; impl < T , U > Enum < T , U > { # [ allow ( dead_code ) ] # [ inline ] fn project < ' pin > ( self : _pin_project : : __private : : Pin < & ' pin mut Self > ) - > EnumProj < ' pin , T , U > { unsafe { match self . get_unchecked_mut ( ) { Self : : Struct { pinned , unpinned } = > EnumProj : : Struct { pinned : _pin_project : : __private : : Pin : : new_unchecked ( pinned ) , unpinned } , Self : : Tuple ( _0 , _1 ) = > EnumProj : : Tuple ( _pin_project : : __private : : Pin : : new_unchecked ( _0 ) , _1 ) , Self : : Unit = > EnumProj : : Unit , } } } # [ allow ( dead_code ) ] # [ inline ] fn project_ref < ' pin > ( self : _pin_project : : __private : : Pin < & ' pin Self > ) - > EnumProjRef < ' pin , T , U > { unsafe { match self . get_ref ( ) { Self : : Struct { pinned , unpinned } = > EnumProjRef : : Struct { pinned : _pin_project : : __private : : Pin : : new_unchecked ( pinned ) , unpinned } , Self : : Tuple ( _0 , _1 ) = > EnumProjRef : : Tuple ( _pin_project : : __private : : Pin : : new_unchecked ( _0 ) , _1 ) , Self : : Unit = > EnumProjRef : : Unit , } } } } # [ allow ( missing_debug_implementations , unnameable_types ) ] struct __Enum < ' pin , T , U > { __pin_project_use_generics : _pin_project : : __private : : AlwaysUnpin < ' pin , ( _pin_project : : __private : : PhantomData < T > , _pin_project : : __private : : PhantomData < U > ) > , __field0 : T , __field1 : T } impl < ' pin , T , U > _pin_project : : __private : : Unpin for Enum < T , U > where _pin_project : : __private : : PinnedFieldsOf < __Enum < ' pin , T , U > > : _pin_project : : __private : : Unpin { } # [ doc ( hidden ) ] unsafe impl < ' pin , T , U > _pin_project : : UnsafeUnpin for Enum < T , U > where _pin_project : : __private : : PinnedFieldsOf < __Enum < ' pin , T , U > > : _pin_project : : __private : : Unpin { } trait EnumMustNotImplDrop { } # [ allow ( clippy : : drop_bounds , drop_bounds ) ] impl < T : _pin_project : : __private : : Drop > EnumMustNotImplDrop for T { } impl < T , U > EnumMustNotImplDrop for Enum < T , U > { } # [ doc ( hidden ) ] impl < T , U > _pin_project : : __private : : PinnedDrop for Enum < T , U > { unsafe fn drop ( self : _pin_project : : __private : : Pin < & mut Self > ) { } } } ;".
Proof. vm_compute. reflexivity. Qed.
(** /repo/tests/expand/default/struct.rs *)
Example expand_default_struct : expanded []
  (mkRItem [] (RStruct VInherited (I "Struct") (mkRGenerics [([], PTy (I "T") [] None); ([], PTy (I "U") [] None)] None) (RNamed [mkRField [RAttr (mkAttr false [(I "pin")] MPath)] VInherited (Some (I "pinned")) (TyPath None (Path false [(Seg (I "T") GNone)])); mkRField [] VInherited (Some (I "unpinned")) (TyPath None (Path false [(Seg (I "U") GNone)]))])))
  = Some "# [ allow ( unused_qualifications , deprecated , explicit_outlives_requirements , single_use_lifetimes , unreachable_pub , unused_tuple_struct_fields , clippy : : unknown_clippy_lints , clippy : : absolute_paths , clippy : : min_ident_chars , clippy : : pattern_type_mismatch , clippy : : pub_with_shorthand , clippy : : redundant_pub_crate , clippy : : single_char_lifetime_names , clippy : : type_repetition_in_bounds , clippy : : elidable_lifetime_names , clippy : : missing_const_for_fn , clippy : : needless_lifetimes , clippy : : semicolon_if_nothing_returned , clippy : : use_self , clippy : : used_underscore_binding ) ] const _ : ( ) = { # [ allow ( unused_extern_crates ) ] extern crate pin_project as _pin_project ; # [ allow ( dead_code , clippy : : missing_docs_in_private_items , clippy : : mut_mut ) ] struct __StructProjection < ' pin , T , U > where Struct < T , U > : ' pin { pinned : : : pin_project : : __private : : Pin < & ' pin mut ( T ) > , unpinned : & ' pin mut ( U ) } # [ allow ( dead_code , clippy : : missing_docs_in_private_items , clippy : : ref_option_ref ) ] struct __StructProjectionRef < ' pin , T , U > where Struct < T , U > : ' pin { pinned : : : pin_project : : __private : : Pin < & ' pin ( T ) > , unpinned : & ' pin ( U ) } impl < T , U > Struct < T , U > { # [ allow ( dead_code ) ] # [ inline ] fn project < ' pin > ( self : _pin_project : : __private : : Pin < & ' pin mut Self > ) - > __StructProjection < ' pin , T , U > { unsafe { let Self { pinned , unpinned } = self . get_unchecked_mut ( ) ; __StructProjection { pinned : _pin_project : : __private : : Pin : : new_unchecked ( pinned ) , unpinned } } } # [ allow ( dead_code ) ] # [ inline ] fn project_ref < ' pin > ( self : _pin_project : : __private : : Pin < & ' pin Self > ) - > __StructProjectionRef < ' pin , T , U > { unsafe { let Self { pinned , unpinned } = self . get_ref ( ) ; __StructProjectionRef { pinned : _pin_project : : __private : : Pin : : new_unchecked ( pinned ) , unpinned } } } } # [ forbid ( unaligned_references , safe_packed_borrows ) ] fn __assert_not_repr_packed < T , U > ( this : & Struct < T , U > ) { let _ = & this . pinned ; let _ = & this . unpinned ; } # [ allow ( missing_debug_implementations , unnameable_types ) ] struct __Struct < ' pin , T , U > { __pin_project_use_generics : _pin_project : : __private : : AlwaysUnpin < ' pin , ( _pin_project : : __private : : PhantomData < T > , _pin_project : : __private : : PhantomData < U > ) > , __field0 : T } impl < ' pin , T , U > _pin_project : : __private : : Unpin for Struct < T , U > where _pin_project : : __private : : PinnedFieldsOf < __Struct < ' pin , T , U > > : _pin_project : : __private : : Unpin { } # [ doc ( hidden ) ] unsafe impl < ' pin , T , U > _pin_project : : UnsafeUnpin for Struct < T , U > where _pin_project : : __private : : PinnedFieldsOf < __Struct < ' pin , T , U > > : _pin_project : : __private : : Unpin { } trait StructMustNotImplDrop { } # [ allow ( clippy : : drop_bounds , drop_bounds ) ] impl < T : _pin_project : : __private : : Drop > StructMustNotImplDrop for T { } impl < T , U > StructMustNotImplDrop for Struct < T , U > { } # [ doc ( hidden ) ] impl < T , U > _pin_project : : __private : : PinnedDrop for Struct < T , U > { unsafe fn drop ( self : _pin_project : : __private : : Pin < & mut Self > ) { } } } ;".
Proof. vm_compute. reflexivity. Qed.
(** /repo/tests/expand/default/tuple_struct.rs *)
Example expand_default_tuple_struct : expanded []
  (mkRItem [] (RStruct VInherited (I "TupleStruct") (mkRGenerics [([], PTy (I "T") [] None); ([], PTy (I "U") [] None)] None) (RUnnamed [mkRField [RAttr (mkAttr false [(I "pin")] MPath)] VInherited None (TyPath None (Path false [(Seg (I "T") GNone)])); mkRField [] VInherited None (TyPath None (Path false [(Seg (I "U") GNone)]))])))
  = Some "# [ allow ( unused_qualifications , deprecated , explicit_outlives_requirements , single_use_lifetimes , unreachable_pub , unused_tuple_struct_fields , clippy : : unknown_clippy_lints , clippy : : absolute_paths , clippy : : min_ident_chars , clippy : : pattern_type_mismatch , clippy : : pub_with_shorthand , clippy : : redundant_pub_crate , clippy : : single_char_lifetime_names , clippy : : type_repetition_in_bounds , clippy : : elidable_lifetime_names , clippy : : missing_const_for_fn , clippy : : needless_lifetimes , clippy : : semicolon_if_nothing_returned , clippy : : use_self , clippy : : used_underscore_binding ) ] const _ : ( ) = { # [ allow ( unused_extern_crates ) ] extern crate pin_project as _pin_project ; # [ allow ( dead_code , clippy : : missing_docs_in_private_items , clippy : : mut_mut ) ] struct __TupleStructProjection < ' pin , T , U > ( : : pin_project : : __private : : Pin < & ' pin mut ( T ) > , & ' pin mut ( U ) ) where TupleStruct < T , U > : ' pin ; # [ allow ( dead_code , clippy : : missing_docs_in_private_items , clippy : : ref_option_ref ) ] struct __TupleStructProjectionRef < ' pin , T , U > ( : : pin_project : : __private : : Pin < & ' pin ( T ) > , & ' pin ( U ) ) where TupleStruct < T , U > : ' pin ; impl < T , U > TupleStruct < T , U > { # [ allow ( dead_code ) ] # [ inline ] fn project < ' pin > ( self : _pin_project : : __private : : Pin < & ' pin mut Self > ) - > __TupleStructProjection < ' pin , T , U > { unsafe { let Self ( _0 , _1 ) = self . get_unchecked_mut ( ) ; __TupleStructProjection ( _pin_project : : __private : : Pin : : new_unchecked ( _0 ) , _1 ) } } # [ allow ( dead_code ) ] # [ inline ] fn project_ref < ' pin > ( self : _pin_project : : __private : : Pin < & ' pin Self > ) - > __TupleStructProjectionRef < ' pin , T , U > { unsafe { let Self ( _0 , _1 ) = self . get_ref ( ) ; __TupleStructProjectionRef ( _pin_project : : __private : : Pin : : new_unchecked ( _0 ) , _1 ) } } } # [ forbid ( unaligned_references , safe_packed_borrows ) ] fn __assert_not_repr_packed < T , U > ( this : & TupleStruct < T , U > ) { let _ = & this . 0 ; let _ = & this . 1 ; } # [ allow ( missing_debug_implementations , unnameable_types ) ] struct __TupleStruct < ' pin , T , U > { __pin_project_use_generics : _pin_project : : __private : : AlwaysUnpin < ' pin , ( _pin_project : : __private : : PhantomData < T > , _pin_project : : __private : : PhantomData < U > ) > , __field0 : T } impl < ' pin , T , U > _pin_project : : __private : : Unpin for TupleStruct < T , U > where _pin_project : : __private : : PinnedFieldsOf < __TupleStruct < ' pin , T , U > > : _pin_project : : __private : : Unpin { } # [ doc ( hidden ) ] unsafe impl < ' pin , T , U > _pin_project : : UnsafeUnpin for TupleStruct < T , U > where _pin_project : : __private : : PinnedFieldsOf < __TupleStruct < ' pin , T , U > > : _pin_project : : __private : : Unpin { } trait TupleStructMustNotImplDrop { } # [ allow ( clippy : : drop_bounds , drop_bounds ) ] impl < T : _pin_project : : __private : : Drop > TupleStructMustNotImplDrop for T { } impl < T , U > TupleStructMustNotImplDrop for TupleStruct < T , U > { } # [ doc ( hidden ) ] impl < T , U > _pin_project : : __private : : PinnedDrop for TupleStruct < T , U > { unsafe fn drop ( self : _pin_project : : __private : : Pin < & mut Self > ) { } } } ;".
Proof. vm_compute. reflexivity. Qed.
(** /repo/tests/expand/multifields/enum.rs *)
Example expand_multifields_enum : expanded [TIdent (I "project"); TPunct "=" false; TIdent (I "EnumProj"); TPunct "," false; TIdent (I "project_ref"); TPunct "=" false; TIdent (I "EnumProjRef"); TPunct "," false; TIdent (I "project_replace"); TPunct "=" false; TIdent (I "EnumProjOwn")]
  (mkRItem [] (REnum VInherited (I "Enum") (mkRGenerics [([], PTy (I "T") [] None); ([], PTy (I "U") [] None)] None) [mkRVariant [] (I "Struct") (RNamed [mkRField [RAttr (mkAttr false [(I "pin")] MPath)] VInherited (Some (I "pinned1")) (TyPath None (Path false [(Seg (I "T") GNone)])); mkRField [RAttr (mkAttr false [(I "pin")] MPath)] VInherited (Some (I "pinned2")) (TyPath None (Path false [(Seg (I "T") GNone)])); mkRField [] VInherited (Some (I "unpinned1")) (TyPath None (Path false [(Seg (I "U") GNone)])); mkRField [] VInherited (Some (I "unpinned2")) (TyPath None (Path false [(Seg (I "U") GNone)]))]) false; mkRVariant [] (I "Tuple") (RUnnamed [mkRField [RAttr (mkAttr false [(I "pin")] MPath)] VInherited None (TyPath None (Path false [(Seg (I "T") GNone)])); mkRField [RAttr (mkAttr false [(I "pin")] MPath)] VInherited None (TyPath None (Path false [(Seg (I "T") GNone)])); mkRField [] VInherited None (TyPath None (Path false [(Seg (I "U") GNone)])); mkRField [] VInherited None (TyPath None (Path false [(Seg (I "U") GNone)]))]) false; mkRVariant [] (I "Unit") RUnit false]))
  = Some "# [ allow ( dead_code , deprecated , explicit_outlives_requirements , single_use_lifetimes , unreachable_pub , unused_tuple_struct_fields , clippy : : unknown_clippy_lints , clippy : : absolute_paths , clippy : : min_ident_chars , clippy : : pattern_type_mismatch , clippy : : pub_with_shorthand , clippy : : redundant_pub_crate , clippy : : single_char_lifetime_names , clippy : : type_repetition_in_bounds , clippy : : missing_docs_in_private_items , clippy : : mut_mut ) ] enum EnumProj < ' pin , T , U > where Enum < T , U > : ' pin { Struct { pinned1 : : : pin_project : : __private : : Pin < & ' pin mut ( T ) > , pinned2 : : : pin_project : : __private : : Pin < & ' pin mut ( T ) > , unpinned1 : & ' pin mut ( U ) , unpinned2 : & ' pin mut ( U ) } , Tuple ( : : pin_project : : __private : : Pin < & ' pin mut ( T ) > , : : pin_project : : __private : : Pin < & ' pin mut ( T ) > , & ' pin mut ( U ) , & ' pin mut ( U ) ) , Unit } # [ allow ( dead_code , deprecated , explicit_outlives_requirements , single_use_lifetimes , unreachable_pub , unused_tuple_struct_fields , clippy : : unknown_clippy_lints , clippy : : absolute_paths , clippy : : min_ident_chars , clippy : : pattern_type_mismatch , clippy : : pub_with_shorthand , clippy : : redundant_pub_crate , clippy : : single_char_lifetime_names , clippy : : type_repetition_in_bounds , clippy : : missing_docs_in_private_items , clippy : : ref_option_ref ) ] enum EnumProjRef < ' pin , T , U > where Enum < T , U > : ' pin { Struct { pinned1 : : : pin_project : : __private : : Pin < & ' pin ( T ) > , pinned2 : : : pin_project : : __private : : Pin < & ' pin ( T ) > , unpinned1 : & ' pin ( U ) , unpinned2 : & ' pin ( U ) } , Tuple ( : : pin_project : : __private : : Pin < & ' pin ( T ) > , : : pin_project : : __private : : Pin < & ' pin ( T ) > , & ' pin ( U ) , & ' pin ( U ) ) , Unit } # [ allow ( dead_code , deprecated , explicit_outlives_requirements , single_use_lifetimes , unreachable_pub , unused_tuple_struct_fields , clippy : : unknown_clippy_lints , clippy : : absolute_paths , clippy : : min_ident_chars , clippy : : pattern_type_mismatch , clippy : : pub_with_shorthand , clippy : : redundant_pub_crate , clippy : : single_char_lifetime_names , clippy : : type_repetition_in_bounds , variant_size_differences , clippy : : large_enum_variant , clippy : : missing_docs_in_private_items ) ] enum EnumProjOwn < T , U > { Struct { pinned1 : : : pin_project : : __private : : PhantomData < T > , pinned2 : : : pin_project : : __private : : PhantomData < T > , unpinned1 : U , unpinned2 : U } , Tuple ( : : pin_project : : __private : : PhantomData < T > , : : pin_project : : __private : : PhantomData < T > , U , U ) , Unit } # [ allow ( unused_qualifications , deprecated , explicit_outlives_requirements , single_use_lifetimes , unreachable_pub , unused_tuple_struct_fields , clippy : : unknown_clippy_lints , clippy : : absolute_paths , clippy : : min_ident_chars , clippy : : pattern_type_mismatch , clippy : : pub_with_shorthand , clippy : : redundant_pub_crate , clippy : : single_char_lifetime_names , clippy : : type_repetition_in_bounds , clippy : : elidable_lifetime_names , clippy : : missing_const_for_fn , clippy : : needless_lifetimes , clippy : : semicolon_if_nothing_returned , clippy : : use_self , clippy : : used_underscore_binding ) ] const _ : ( ) = { # [ allow ( unused_extern_crates ) ] extern crate pin_project as _pin_project ; impl < T , U > Enum < T , U > { # [ allow ( dead_code ) ] # [ inline ] fn project < ' pin > ( self : _pin_project : : __private : : Pin < & ' pin mut Self > ) - > EnumProj < ' pin , T , U > { unsafe { match self . get_unchecked_mut ( ) { Self : : Struct { pinned1 , pinned2 , unpinned1 , unpinned2 } = > EnumProj : : Struct { pinned1 : _pin_project : : __private : : Pin : : new_unchecked ( pinned1 ) , pinned2 : _pin_project : : __private : : Pin : : new_unchecked ( pinned2 ) , unpinned1 , unpinned2 } , Self : : Tuple ( _0 , _1 , _2 , _3 ) = > EnumProj : : Tuple ( _pin_project : : __private : : Pin : : new_unchecked ( _0 ) , _pin_project : : __private : : Pin : : new_unchecked ( _1 ) , _2 , _3 ) , Self : : Unit = > EnumProj : : Unit , } } } # [ allow ( dead_code ) ] # [ inline ] fn project_ref < ' pin > ( self : _pin_project : : __private : : Pin < & ' pin Self > ) - > EnumProjRef < ' pin , T , U > { unsafe { match self . get_ref ( ) { Self : : Struct { pinned1 , pinned2 , unpinned1 , unpinned2 } = > EnumProjRef : : Struct { pinned1 : _pin_project : : __private : : Pin : : new_unchecked ( pinned1 ) , pinned2 : _pin_project : : __private : : Pin : : new_unchecked ( pinned2 ) , unpinned1 , unpinned2 } , Self : : Tuple ( _0 , _1 , _2 , _3 ) = > EnumProjRef : : Tuple ( _pin_project : : __private : : Pin : : new_unchecked ( _0 ) , _pin_project : : __private : : Pin : : new_unchecked ( _1 ) , _2 , _3 ) , Self : : Unit = > EnumProjRef : : Unit , } } } # [ allow ( dead_code ) ] # [ inline ] fn project_replace ( self : _pin_project : : __private : : Pin < & mut Self > , __replacement : Self ) - > EnumProjOwn < T , U > { unsafe { let __self_ptr : * mut Self = self . get_unchecked_mut ( ) ; let __guard = _pin_project : : __private : : UnsafeOverwriteGuard : : new ( __self_ptr , __replacement ) ; match & mut * __self_ptr { Self : : Struct { pinned1 , pinned2 , unpinned1 , unpinned2 } = > { let __result = EnumProjOwn : : Struct { pinned1 : _pin_project : : __private : : PhantomData , pinned2 : _pin_project : : __private : : PhantomData , unpinned1 : _pin_project : : __private : : ptr : : read ( unpinned1 ) , unpinned2 : _pin_project : : __private : : ptr : : read ( unpinned2 ) } ; { let __guard = _pin_project : : __private : : UnsafeDropInPlaceGuard : : new ( pinned2 ) ; let __guard = _pin_project : : __private : : UnsafeDropInPlaceGuard : : new ( pinned1 ) ; } __result } Self : : Tuple ( _0 , _1 , _2 , _3 ) = > { let __result = EnumProjOwn : : Tuple ( _pin_project : : __private : : PhantomData , _pin_project : : __private : : PhantomData , _pin_project : : __private : : ptr : : read ( _2 ) , _pin_project : : __private : : ptr : : read ( _3 ) ) ; { let __guard = _pin_project : : __private : : UnsafeDropInPlaceGuard : : new ( _1 ) ; let __guard = _pin_project : : __private : : UnsafeDropInPlaceGuard : : new ( _0 ) ; } __result } Self : : Unit = > { let __result = EnumProjOwn : : Unit ; { } __result } } } } } # [ allow ( missing_debug_implementations , unnameable_types ) ] struct __Enum < ' pin , T , U > { __pin_project_use_generics : _pin_project : : __private : : AlwaysUnpin < ' pin , ( _pin_project : : __private : : PhantomData < T > , _pin_project : : __private : : PhantomData < U > ) > , __field0 : T , __field1 : T , __field2 : T , __field3 : T } impl < ' pin , T , U > _pin_project : : __private : : Unpin for Enum < T , U > where _pin_project : : __private : : PinnedFieldsOf < __Enum < ' pin , T , U > > : _pin_project : : __private : : Unpin { } # [ doc ( hidden ) ] unsafe impl < ' pin , T , U > _pin_project : : UnsafeUnpin for Enum < T , U > where _pin_project : : __private : : PinnedFieldsOf < __Enum < ' pin , T , U > > : _pin_project : : __private : : Unpin { } trait EnumMustNotImplDrop { } # [ allow ( clippy : : drop_bounds , drop_bounds ) ] impl < T : _pin_project : : __private : : Drop > EnumMustNotImplDrop for T { } impl < T , U > EnumMustNotImplDrop for Enum < T , U > { } # [ doc ( hidden ) ] impl < T , U > _pin_project : : __private : : PinnedDrop for Enum < T , U > { unsafe fn drop ( self : _pin_project : : __private : : Pin < & mut Self > ) { } } } ;".
Proof. vm_compute. reflexivity. Qed.
(** /repo/tests/expand/multifields/struct.rs *)
Example expand_multifields_struct : expanded [TIdent (I "project_replace")]
  (mkRItem [] (RStruct VInherited (I "Struct") (mkRGenerics [([], PTy (I "T") [] None); ([], PTy (I "U") [] None)] None) (RNamed [mkRField [RAttr (mkAttr false [(I "pin")] MPath)] VInherited (Some (I "pinned1")) (TyPath None (Path false [(Seg (I "T") GNone)])); mkRField [RAttr (mkAttr false [(I "pin")] MPath)] VInherited (Some (I "pinned2")) (TyPath None (Path false [(Seg (I "T") GNone)])); mkRField [] VInherited (Some (I "unpinned1")) (TyPath None (Path false [(Seg (I "U") GNone)])); mkRField [] VInherited (Some (I "unpinned2")) (TyPath None (Path false [(Seg (I "U") GNone)]))])))
  = Some "# [ allow ( unused_qualifications , deprecated , explicit_outlives_requirements , single_use_lifetimes , unreachable_pub , unused_tuple_struct_fields , clippy : : unknown_clippy_lints , clippy : : absolute_paths , clippy : : min_ident_chars , clippy : : pattern_type_mismatch , clippy : : pub_with_shorthand , clippy : : redundant_pub_crate , clippy : : single_char_lifetime_names , clippy : : type_repetition_in_bounds , clippy : : elidable_lifetime_names , clippy : : missing_const_for_fn , clippy : : needless_lifetimes , clippy : : semicolon_if_nothing_returned , clippy : : use_self , clippy : : used_underscore_binding ) ] const _ : ( ) = { # [ allow ( unused_extern_crates ) ] extern crate pin_project as _pin_project ; # [ allow ( dead_code , clippy : : missing_docs_in_private_items , clippy : : mut_mut ) ] struct __StructProjection < ' pin , T , U > where Struct < T , U > : ' pin { pinned1 : : : pin_project : : __private : : Pin < & ' pin mut ( T ) > , pinned2 : : : pin_project : : __private : : Pin < & ' pin mut ( T ) > , unpinned1 : & ' pin mut ( U ) , unpinned2 : & ' pin mut ( U ) } # [ allow ( dead_code , clippy : : missing_docs_in_private_items , clippy : : ref_option_ref ) ] struct __StructProjectionRef < ' pin , T , U > where Struct < T , U > : ' pin { pinned1 : : : pin_project : : __private : : Pin < & ' pin ( T ) > , pinned2 : : : pin_project : : __private : : Pin < & ' pin ( T ) > , unpinned1 : & ' pin ( U ) , unpinned2 : & ' pin ( U ) } # [ allow ( dead_code , clippy : : missing_docs_in_private_items ) ] struct __StructProjectionOwned < T , U > { pinned1 : : : pin_project : : __private : : PhantomData < T > , pinned2 : : : pin_project : : __private : : PhantomData < T > , unpinned1 : U , unpinned2 : U } impl < T , U > Struct < T , U > { # [ allow ( dead_code ) ] # [ inline ] fn project < ' pin > ( self : _pin_project : : __private : : Pin < & ' pin mut Self > ) - > __StructProjection < ' pin , T , U > { unsafe { let Self { pinned1 , pinned2 , unpinned1 , unpinned2 } = self . get_unchecked_mut ( ) ; __StructProjection { pinned1 : _pin_project : : __private : : Pin : : new_unchecked ( pinned1 ) , pinned2 : _pin_project : : __private : : Pin : : new_unchecked ( pinned2 ) , unpinned1 , unpinned2 } } } # [ allow ( dead_code ) ] # [ inline ] fn project_ref < ' pin > ( self : _pin_project : : __private : : Pin < & ' pin Self > ) - > __StructProjectionRef < ' pin , T , U > { unsafe { let Self { pinned1 , pinned2 , unpinned1 , unpinned2 } = self . get_ref ( ) ; __StructProjectionRef { pinned1 : _pin_project : : __private : : Pin : : new_unchecked ( pinned1 ) , pinned2 : _pin_project : : __private : : Pin : : new_unchecked ( pinned2 ) , unpinned1 , unpinned2 } } } # [ allow ( dead_code ) ] # [ inline ] fn project_replace ( self : _pin_project : : __private : : Pin < & mut Self > , __replacement : Self ) - > __StructProjectionOwned < T , U > { unsafe { let __self_ptr : * mut Self = self . get_unchecked_mut ( ) ; let __guard = _pin_project : : __private : : UnsafeOverwriteGuard : : new ( __self_ptr , __replacement ) ; let Self { pinned1 , pinned2 , unpinned1 , unpinned2 } = & mut * __self_ptr ; let __result = __StructProjectionOwned { pinned1 : _pin_project : : __private : : PhantomData , pinned2 : _pin_project : : __private : : PhantomData , unpinned1 : _pin_project : : __private : : ptr : : read ( unpinned1 ) , unpinned2 : _pin_project : : __private : : ptr : : read ( unpinned2 ) } ; { let __guard = _pin_project : : __private : : UnsafeDropInPlaceGuard : : new ( pinned2 ) ; let __guard = _pin_project : : __private : : UnsafeDropInPlaceGuard : : new ( pinned1 ) ; } __result } } } # [ forbid ( unaligned_references , safe_packed_borrows ) ] fn __assert_not_repr_packed < T , U > ( this : & Struct < T , U > ) { let _ = & this . pinned1 ; let _ = & this . pinned2 ; let _ = & this . unpinned1 ; let _ = & this . unpinned2 ; } # [ allow ( missing_debug_implementations , unnameable_types ) ] struct __Struct < ' pin , T , U > { __pin_project_use_generics : _pin_project : : __private : : AlwaysUnpin < ' pin , ( _pin_project : : __private : : PhantomData < T > , _pin_project : : __private : : PhantomData < U > ) > , __field0 : T , __field1 : T } impl < ' pin , T , U > _pin_project : : __private : : Unpin for Struct < T , U > where _pin_project : : __private : : PinnedFieldsOf < __Struct < ' pin , T , U > > : _pin_project : : __private : : Unpin { } # [ doc ( hidden ) ] unsafe impl < ' pin , T , U > _pin_project : : UnsafeUnpin for Struct < T , U > where _pin_project : : __private : : PinnedFieldsOf < __Struct < ' pin , T , U > > : _pin_project : : __private : : Unpin { } trait StructMustNotImplDrop { } # [ allow ( clippy : : drop_bounds , drop_bounds ) ] impl < T : _pin_project : : __private : : Drop > StructMustNotImplDrop for T { } impl < T , U > StructMustNotImplDrop for Struct < T , U > { } # [ doc ( hidden ) ] impl < T , U > _pin_project : : __private : : PinnedDrop for Struct < T , U > { unsafe fn drop ( self : _pin_project : : __private : : Pin < & mut Self > ) { } } } ;".
Proof. vm_compute. reflexivity. Qed.
(** /repo/tests/expand/multifields/tuple_struct.rs *)
Example expand_multifields_tuple_struct : expanded [TIdent (I "project_replace")]
  (mkRItem [] (RStruct VInherited (I "TupleStruct") (mkRGenerics [([], PTy (I "T") [] None); ([], PTy (I "U") [] None)] None) (RUnnamed [mkRField [RAttr (mkAttr false [(I "pin")] MPath)] VInherited None (TyPath None (Path false [(Seg (I "T") GNone)])); mkRField [RAttr (mkAttr false [(I "pin")] MPath)] VInherited None (TyPath None (Path false [(Seg (I "T") GNone)])); mkRField [] VInherited None (TyPath None (Path false [(Seg (I "U") GNone)])); mkRField [] VInherited None (TyPath None (Path false [(Seg (I "U") GNone)]))])))
  = Some "# [ allow ( unused_qualifications , deprecated , explicit_outlives_requirements , single_use_lifetimes , unreachable_pub , unused_tuple_struct_fields , clippy : : unknown_clippy_lints , clippy : : absolute_paths , clippy : : min_ident_chars , clippy : : pattern_type_mismatch , clippy : : pub_with_shorthand , clippy : : redundant_pub_crate , clippy : : single_char_lifetime_names , clippy : : type_repetition_in_bounds , clippy : : elidable_lifetime_names , clippy : : missing_const_for_fn , clippy : : needless_lifetimes , clippy : : semicolon_if_nothing_returned , clippy : : use_self , clippy : : used_underscore_binding ) ] const _ : ( ) = { # [ allow ( unused_extern_crates ) ] extern crate pin_project as _pin_project ; # [ allow ( dead_code , clippy : : missing_docs_in_private_items , clippy : : mut_mut ) ] struct __TupleStructProjection < ' pin , T , U > ( : : pin_project : : __private : : Pin < & ' pin mut ( T ) > , : : pin_project : : __private : : Pin < & ' pin mut ( T ) > , & ' pin mut ( U ) , & ' pin mut ( U ) ) where TupleStruct < T , U > : ' pin ; # [ allow ( dead_code , clippy : : missing_docs_in_private_items , clippy : : ref_option_ref ) ] struct __TupleStructProjectionRef < ' pin , T , U > ( : : pin_project : : __private : : Pin < & ' pin ( T ) > , : : pin_project : : __private : : Pin < & ' pin ( T ) > , & ' pin ( U ) , & ' pin ( U ) ) where TupleStruct < T , U > : ' pin ; # [ allow ( dead_code , clippy : : missing_docs_in_private_items ) ] struct __TupleStructProjectionOwned < T , U > ( : : pin_project : : __private : : PhantomData < T > , : : pin_project : : __private : : PhantomData < T > , U , U ) ; impl < T , U > TupleStruct < T , U > { # [ allow ( dead_code ) ] # [ inline ] fn project < ' pin > ( self : _pin_project : : __private : : Pin < & ' pin mut Self > ) - > __TupleStructProjection < ' pin , T , U > { unsafe { let Self ( _0 , _1 , _2 , _3 ) = self . get_unchecked_mut ( ) ; __TupleStructProjection ( _pin_project : : __private : : Pin : : new_unchecked ( _0 ) , _pin_project : : __private : : Pin : : new_unchecked ( _1 ) , _2 , _3 ) } } # [ allow ( dead_code ) ] # [ inline ] fn project_ref < ' pin > ( self : _pin_project : : __private : : Pin < & ' pin Self > ) - > __TupleStructProjectionRef < ' pin , T , U > { unsafe { let Self ( _0 , _1 , _2 , _3 ) = self . get_ref ( ) ; __TupleStructProjectionRef ( _pin_project : : __private : : Pin : : new_unchecked ( _0 ) , _pin_project : : __private : : Pin : : new_unchecked ( _1 ) , _2 , _3 ) } } # [ allow ( dead_code ) ] # [ inline ] fn project_replace ( self : _pin_project : : __private : : Pin < & mut Self > , __replacement : Self ) - > __TupleStructProjectionOwned < T , U > { unsafe { let __self_ptr : * mut Self = self . get_unchecked_mut ( ) ; let __guard = _pin_project : : __private : : UnsafeOverwriteGuard : : new ( __self_ptr , __replacement ) ; let Self ( _0 , _1 , _2 , _3 ) = & mut * __self_ptr ; let __result = __TupleStructProjectionOwned ( _pin_project : : __private : : PhantomData , _pin_project : : __private : : PhantomData , _pin_project : : __private : : ptr : : read ( _2 ) , _pin_project : : __private : : ptr : : read ( _3 ) ) ; { let __guard = _pin_project : : __private : : UnsafeDropInPlaceGuard : : new ( _1 ) ; let __guard = _pin_project : : __private : : UnsafeDropInPlaceGuard : : new ( _0 ) ; } __result } } } # [ forbid ( unaligned_references , safe_packed_borrows ) ] fn __assert_not_repr_packed < T , U > ( this : & TupleStruct < T , U > ) { let _ = & this . 0 ; let _ = & this . 1 ; let _ = & this . 2 ; let _ = & this . 3 ; } # [ allow ( missing_debug_implementations , unnameable_types ) ] struct __TupleStruct < ' pin , T , U > { __pin_project_use_generics : _pin_project : : __private : : AlwaysUnpin < ' pin , ( _pin_project : : __private : : PhantomData < T > , _pin_project : : __private : : PhantomData < U > ) > , __field0 : T , __field1 : T } impl < ' pin , T , U > _pin_project : : __private : : Unpin for TupleStruct < T , U > where _pin_project : : __private : : PinnedFieldsOf < __TupleStruct < ' pin , T , U > > : _pin_project : : __private : : Unpin { } # [ doc ( hidden ) ] unsafe impl < ' pin , T , U > _pin_project : : UnsafeUnpin for TupleStruct < T , U > where _pin_project : : __private : : PinnedFieldsOf < __TupleStruct < ' pin , T , U > > : _pin_project : : __private : : Unpin { } trait TupleStructMustNotImplDrop { } # [ allow ( clippy : : drop_bounds , drop_bounds ) ] impl < T : _pin_project : : __private : : Drop > TupleStructMustNotImplDrop for T { } impl < T , U > TupleStructMustNotImplDrop for TupleStruct < T , U > { } # [ doc ( hidden ) ] impl < T , U > _pin_project : : __private : : PinnedDrop for TupleStruct < T , U > { unsafe fn drop ( self : _pin_project : : __private : : Pin < & mut Self > ) { } } } ;".
Proof. vm_compute. reflexivity. Qed.
(** /repo/tests/expand/naming/enum-all.rs *)
Example expand_naming_enum_all : expanded [TIdent (I "project"); TPunct "=" false; TIdent (I "Proj"); TPunct "," false; TIdent (I "project_ref"); TPunct "=" false; TIdent (I "ProjRef"); TPunct "," false; TIdent (I "project_replace"); TPunct "=" false; TIdent (I "ProjOwn")]
  (mkRItem [] (REnum VInherited (I "Enum") (mkRGenerics [([], PTy (I "T") [] None); ([], PTy (I "U") [] None)] None) [mkRVariant [] (I "Struct") (RNamed [mkRField [RAttr (mkAttr false [(I "pin")] MPath)] VInherited (Some (I "pinned")) (TyPath None (Path false [(Seg (I "T") GNone)])); mkRField [] VInherited (Some (I "unpinned")) (TyPath None (Path false [(Seg (I "U") GNone)]))]) false; mkRVariant [] (I "Tuple") (RUnnamed [mkRField [RAttr (mkAttr false [(I "pin")] MPath)] VInherited None (TyPath None (Path false [(Seg (I "T") GNone)])); mkRField [] VInherited None (TyPath None (Path false [(Seg (I "U") GNone)]))]) false; mkRVariant [] (I "Unit") RUnit false]))
  = Some "# [ allow ( dead_code , deprecated , explicit_outlives_requirements , single_use_lifetimes , unreachable_pub , unused_tuple_struct_fields , clippy : : unknown_clippy_lints , clippy : : absolute_paths , clippy : : min_ident_chars , clippy : : pattern_type_mismatch , clippy : : pub_with_shorthand , clippy : : redundant_pub_crate , clippy : : single_char_lifetime_names , clippy : : type_repetition_in_bounds , clippy : : missing_docs_in_private_items , clippy : : mut_mut ) ] enum Proj < ' pin , T , U > where Enum < T , U > : ' pin { Struct { pinned : : : pin_project : : __private : : Pin < & ' pin mut ( T ) > , unpinned : & ' pin mut ( U ) } , Tuple ( : : pin_project : : __private : : Pin < & ' pin mut ( T ) > , & ' pin mut ( U ) ) , Unit } # [ allow ( dead_code , deprecated , explicit_outlives_requirements , single_use_lifetimes , unreachable_pub , unused_tuple_struct_fields , clippy : : unknown_clippy_lints , clippy : : absolute_paths , clippy : : min_ident_chars , clippy : : pattern_type_mismatch , clippy : : pub_with_shorthand , clippy : : redundant_pub_crate , clippy : : single_char_lifetime_names , clippy : : type_repetition_in_bounds , clippy : : missing_docs_in_private_items , clippy : : ref_option_ref ) ] enum ProjRef < ' pin , T , U > where Enum < T , U > : ' pin { Struct { pinned : : : pin_project : : __private : : Pin < & ' pin ( T ) > , unpinned : & ' pin ( U ) } , Tuple ( : : pin_project : : __private : : Pin < & ' pin ( T ) > , & ' pin ( U ) ) , Unit } # [ allow ( dead_code , deprecated , explicit_outlives_requirements , single_use_lifetimes , unreachable_pub , unused_tuple_struct_fields , clippy : : unknown_clippy_lints , clippy : : absolute_paths , clippy : : min_ident_chars , clippy : : pattern_type_mismatch , clippy : : pub_with_shorthand , clippy : : redundant_pub_crate , clippy : : single_char_lifetime_names , clippy : : type_repetition_in_bounds , variant_size_differences , clippy : : large_enum_variant , clippy : : missing_docs_in_private_items ) ] enum ProjOwn < T , U > { Struct { pinned : : : pin_project : : __private : : PhantomData < T > , unpinned : U } , Tuple ( : : pin_project : : __private : : PhantomData < T > , U ) , Unit } # [ allow ( unused_qualifications , deprecated , explicit_outlives_requirements , single_use_lifetimes , unreachable_pub , unused_tuple_struct_fields , clippy : : unknown_clippy_lints , clippy : : absolute_paths , clippy : : min_ident_chars , clippy : : pattern_type_mismatch , clippy : : pub_with_shorthand , clippy : : redundant_pub_crate , clippy : : single_char_lifetime_names , clippy : : type_repetition_in_bounds , clippy : : elidable_lifetime_names , clippy : : missing_const_for_fn , clippy : : needless_lifetimes , clippy : : semicolon_if_nothing_returned , clippy : : use_self , clippy : : used_underscore_binding ) ] const _ : ( ) = { # [ allow ( unused_extern_crates ) ] extern crate pin_project as _pin_project ; impl < T , U > Enum < T , U > { # [ allow ( dead_code ) ] # [ inline ] fn project < ' pin > ( self : _pin_project : : __private : : Pin < & ' pin mut Self > ) - > Proj < ' pin , T , U > { unsafe { match self . get_unchecked_mut ( ) { Self : : Struct { pinned , unpinned } = > Proj : : Struct { pinned : _pin_project : : __private : : Pin : : new_unchecked ( pinned ) , unpinned } , Self : : Tuple ( _0 , _1 ) = > Proj : : Tuple ( _pin_project : : __private : : Pin : : new_unchecked ( _0 ) , _1 ) , Self : : Unit = > Proj : : Unit , } } } # [ allow ( dead_code ) ] # [ inline ] fn project_ref < ' pin > ( self : _pin_project : : __private : : Pin < & ' pin Self > ) - > ProjRef < ' pin , T , U > { unsafe { match self . get_ref ( ) { Self : : Struct { pinned , unpinned } = > ProjRef : : Struct { pinned : _pin_project : : __private : : Pin : : new_unchecked ( pinned ) , unpinned } , Self : : Tuple ( _0 , _1 ) = > ProjRef : : Tuple ( _pin_project : : __private : : Pin : : new_unchecked ( _0 ) , _1 ) , Self : : Unit = > ProjRef : : Unit , } } } # [ allow ( dead_code ) ] # [ inline ] fn project_replace ( self : _pin_project : : __private : : Pin < & mut Self > , __replacement : Self ) - > ProjOwn < T , U > { unsafe { let __self_ptr : * mut Self = self . get_unchecked_mut ( ) ; let __guard = _pin_project : : __private : : UnsafeOverwriteGuard : : new ( __self_ptr , __replacement ) ; match & mut * __self_ptr { Self : : Struct { pinned , unpinned } = > { let __result = ProjOwn : : Struct { pinned : _pin_project : : __private : : PhantomData , unpinned : _pin_project : : __private : : ptr : : read ( unpinned ) } ; { let __guard = _pin_project : : __private : : UnsafeDropInPlaceGuard : : new ( pinned ) ; } __result } Self : : Tuple ( _0 , _1 ) = > { let __result = ProjOwn : : Tuple ( _pin_project : : __private : : PhantomData , _pin_project : : __private : : ptr : : read ( _1 ) ) ; { let __guard = _pin_project : : __private : : UnsafeDropInPlaceGuard : : new ( _0 ) ; } __result } Self : : Unit = > { let __result = ProjOwn : : Unit ; { } __result } } } } } # [ allow ( missing_debug_implementations , unnameable_types ) ] struct __Enum < ' pin , T , U > { __pin_project_use_generics : _pin_project : : __private : : AlwaysUnpin < ' pin , ( _pin_project : : __private : : PhantomData < T > , _pin_project : : __private : : PhantomData < U > ) > , __field0 : T , __field1 : T } impl < ' pin , T , U > _pin_project : : __private : : Unpin for Enum < T , U > where _pin_project : : __private : : PinnedFieldsOf < __Enum < ' pin , T , U > > : _pin_project : : __private : : Unpin { } # [ doc ( hidden ) ] unsafe impl < ' pin , T , U > _pin_project : : UnsafeUnpin for Enum < T , U > where _pin_project : : __private : : PinnedFieldsOf < __Enum < ' pin , T , U > > : _pin_project : : __private : : Unpin { } trait EnumMustNotImplDrop { } # [ allow ( clippy : : drop_bounds , drop_bounds ) ] impl < T : _pin_project : : __private : : Drop > EnumMustNotImplDrop for T { } impl < T , U > EnumMustNotImplDrop for Enum < T , U > { } # [ doc ( hidden ) ] impl < T , U > _pin_project : : __private : : PinnedDrop for Enum < T , U > { unsafe fn drop ( self : _pin_project : : __private : : Pin < & mut Self > ) { } } } ;".
Proof. vm_compute. reflexivity. Qed.
(** /repo/tests/expand/naming/enum-mut.rs *)
Example expand_naming_enum_mut : expanded [TIdent (I "project"); TPunct "=" false; TIdent (I "Proj")]
  (mkRItem [] (REnum VInherited (I "Enum") (mkRGenerics [([], PTy (I "T") [] None); ([], PTy (I "U") [] None)] None) [mkRVariant [] (I "Struct") (RNamed [mkRField [RAttr (mkAttr false [(I "pin")] MPath)] VInherited (Some (I "pinned")) (TyPath None (Path false [(Seg (I "T") GNone)])); mkRField [] VInherited (Some (I "unpinned")) (TyPath None (Path false [(Seg (I "U") GNone)]))]) false; mkRVariant [] (I "Tuple") (RUnnamed [mkRField [RAttr (mkAttr false [(I "pin")] MPath)] VInherited None (TyPath None (Path false [(Seg (I "T") GNone)])); mkRField [] VInherited None (TyPath None (Path false [(Seg (I "U") GNone)]))]) false; mkRVariant [] (I "Unit") RUnit false]))
  = Some "# [ allow ( dead_code , deprecated , explicit_outlives_requirements , single_use_lifetimes , unreachable_pub , unused_tuple_struct_fields , clippy : : unknown_clippy_lints , clippy : : absolute_paths , clippy : : min_ident_chars , clippy : : pattern_type_mismatch , clippy : : pub_with_shorthand , clippy : : redundant_pub_crate , clippy : : single_char_lifetime_names , clippy : : type_repetition_in_bounds , clippy : : missing_docs_in_private_items , clippy : : mut_mut ) ] enum Proj < ' pin , T , U > where Enum < T , U > : ' pin { Struct { pinned : : : pin_project : : __private : : Pin < & ' pin mut ( T ) > , unpinned : & ' pin mut ( U ) } , Tuple ( : : pin_project : : __private : : Pin < & ' pin mut ( T ) > , & ' pin mut ( U ) ) , Unit } # [ allow ( unused_qualifications , deprecated , explicit_outlives_requirements , single_use_lifetimes , unreachable_pub , unused_tuple_struct_fields , clippy : : unknown_clippy_lints , clippy : : absolute_paths , clippy : : min_ident_chars , clippy : : pattern_type_mismatch , clippy : : pub_with_shorthand , clippy : : redundant_pub_crate , clippy : : single_char_lifetime_names , clippy : : type_repetition_in_bounds , clippy : : elidable_lifetime_names , clippy : : missing_const_for_fn , clippy : : needless_lifetimes , clippy : : semicolon_if_nothing_returned , clippy : : use_self , clippy : : used_underscore_binding ) ] const _ : ( ) = { # [ allow ( unused_extern_crates ) ] extern crate pin_project as _pin_project ; impl < T , U > Enum < T , U > { # [ allow ( dead_code ) ] # [ inline ] fn project < ' pin > ( self : _pin_project : : __private : : Pin < & ' pin mut Self > ) - > Proj < ' pin , T , U > { unsafe { match self . get_unchecked_mut ( ) { Self : : Struct { pinned , unpinned } = > Proj : : Struct { pinned : _pin_project : : __private : : Pin : : new_unchecked ( pinned ) , unpinned } , Self : : Tuple ( _0 , _1 ) = > Proj : : Tuple ( _pin_project : : __private : : Pin : : new_unchecked ( _0 ) , _1 ) , Self : : Unit = > Proj : : Unit , } } } } # [ allow ( missing_debug_implementations , unnameable_types ) ] struct __Enum < ' pin , T , U > { __pin_project_use_generics : _pin_project : : __private : : AlwaysUnpin < ' pin , ( _pin_project : : __private : : PhantomData < T > , _pin_project : : __private : : PhantomData < U > ) > , __field0 : T , __field1 : T } impl < ' pin , T , U > _pin_project : : __private : : Unpin for Enum < T , U > where _pin_project : : __private : : PinnedFieldsOf < __Enum < ' pin , T , U > > : _pin_project : : __private : : Unpin { } # [ doc ( hidden ) ] unsafe impl < ' pin , T , U > _pin_project : : UnsafeUnpin for Enum < T , U > where _pin_project : : __private : : PinnedFieldsOf < __Enum < ' pin , T , U > > : _pin_project : : __private : : Unpin { } trait EnumMustNotImplDrop { } # [ allow ( clippy : : drop_bounds , drop_bounds ) ] impl < T : _pin_project : : __private : : Drop > EnumMustNotImplDrop for T { } impl < T , U > EnumMustNotImplDrop for Enum < T , U > { } # [ doc ( hidden ) ] impl < T , U > _pin_project : : __private : : PinnedDrop for Enum < T , U > { unsafe fn drop ( self : _pin_project : : __private : : Pin < & mut Self > ) { } } } ;".
Proof. vm_compute. reflexivity. Qed.
(** /repo/tests/expand/naming/enum-none.rs *)
Example expand_naming_enum_none : expanded []
  (mkRItem [] (REnum VInherited (I "Enum") (mkRGenerics [([], PTy (I "T") [] None); ([], PTy (I "U") [] None)] None) [mkRVariant [] (I "Struct") (RNamed [mkRField [RAttr (mkAttr false [(I "pin")] MPath)] VInherited (Some (I "pinned")) (TyPath None (Path false [(Seg (I "T") GNone)])); mkRField [] VInherited (Some (I "unpinned")) (TyPath None (Path false [(Seg (I "U") GNone)]))]) false; mkRVariant [] (I "Tuple") (RUnnamed [mkRField [RAttr (mkAttr false [(I "pin")] MPath)] VInherited None (TyPath None (Path false [(Seg (I "T") GNone)])); mkRField [] VInherited None (TyPath None (Path false [(Seg (I "U") GNone)]))]) false; mkRVariant [] (I "Unit") RUnit false]))
  = Some "# [ allow ( unused_qualifications , deprecated , explicit_outlives_requirements , single_use_lifetimes , unreachable_pub , unused_tuple_struct_fields , clippy : : unknown_clippy_lints , clippy : : absolute_paths , clippy : : min_ident_chars , clippy : : pattern_type_mismatch , clippy : : pub_with_shorthand , clippy : : redundant_pub_crate , clippy : : single_char_lifetime_names , clippy : : type_repetition_in_bounds , clippy : : elidable_lifetime_names , clippy : : missing_const_for_fn , clippy : : needless_lifetimes , clippy : : semicolon_if_nothing_returned , clippy : : use_self , clippy : : used_underscore_binding ) ] const _ : ( ) = { # [ allow ( unused_extern_crates ) ] extern crate pin_project as _pin_project ; impl < T , U > Enum < T , U > { } # [ allow ( missing_debug_implementations , unnameable_types ) ] struct __Enum < ' pin , T , U > { __pin_project_use_generics : _pin_project : : __private : : AlwaysUnpin < ' pin , ( _pin_project : : __private : : PhantomData < T > , _pin_project : : __private : : PhantomData < U > ) > , __field0 : T , __field1 : T } impl < ' pin , T , U > _pin_project : : __private : : Unpin for Enum < T , U > where _pin_project : : __private : : PinnedFieldsOf < __Enum < ' pin , T , U > > : _pin_project : : __private : : Unpin { } # [ doc ( hidden ) ] unsafe impl < ' pin , T , U > _pin_project : : UnsafeUnpin for Enum < T , U > where _pin_project : : __private : : PinnedFieldsOf < __Enum < ' pin , T , U > > : _pin_project : : __private : : Unpin { } trait EnumMustNotImplDrop { } # [ allow ( clippy : : drop_bounds , drop_bounds ) ] impl < T : _pin_project : : __private : : Drop > EnumMustNotImplDrop for T { } impl < T , U > EnumMustNotImplDrop for Enum < T , U > { } # [ doc ( hidden ) ] impl < T , U > _pin_project : : __private : : PinnedDrop for Enum < T , U > { unsafe fn drop ( self : _pin_project : : __private : : Pin < & mut Self > ) { } } } ;".
Proof. vm_compute. reflexivity. Qed.
(** /repo/tests/expand/naming/enum-own.rs *)
Example expand_naming_enum_own : expanded [TIdent (I "project_replace"); TPunct "=" false; TIdent (I "ProjOwn")]
  (mkRItem [] (REnum VInherited (I "Enum") (mkRGenerics [([], PTy (I "T") [] None); ([], PTy (I "U") [] None)] None) [mkRVariant [] (I "Struct") (RNamed [mkRField [RAttr (mkAttr false [(I "pin")] MPath)] VInherited (Some (I "pinned")) (TyPath None (Path false [(Seg (I "T") GNone)])); mkRField [] VInherited (Some (I "unpinned")) (TyPath None (Path false [(Seg (I "U") GNone)]))]) false; mkRVariant [] (I "Tuple") (RUnnamed [mkRField [RAttr (mkAttr false [(I "pin")] MPath)] VInherited None (TyPath None (Path false [(Seg (I "T") GNone)])); mkRField [] VInherited None (TyPath None (Path false [(Seg (I "U") GNone)]))]) false; mkRVariant [] (I "Unit") RUnit false]))
  = Some "# [ allow ( dead_code , deprecated , explicit_outlives_requirements , single_use_lifetimes , unreachable_pub , unused_tuple_struct_fields , clippy : : unknown_clippy_lints , clippy : : absolute_paths , clippy : : min_ident_chars , clippy : : pattern_type_mismatch , clippy : : pub_with_shorthand , clippy : : redundant_pub_crate , clippy : : single_char_lifetime_names , clippy : : type_repetition_in_bounds , variant_size_differences , clippy : : large_enum_variant , clippy : : missing_docs_in_private_items ) ] enum ProjOwn < T , U > { Struct { pinned : : : pin_project : : __private : : PhantomData < T > , unpinned : U } , Tuple ( : : pin_project : : __private : : PhantomData < T > , U ) , Unit } # [ allow ( unused_qualifications , deprecated , explicit_outlives_requirements , single_use_lifetimes , unreachable_pub , unused_tuple_struct_fields , clippy : : unknown_clippy_lints , clippy : : absolute_paths , clippy : : min_ident_chars , clippy : : pattern_type_mismatch , clippy : : pub_with_shorthand , clippy : : redundant_pub_crate , clippy : : single_char_lifetime_names , clippy : : type_repetition_in_bounds , clippy : : elidable_lifetime_names , clippy : : missing_const_for_fn , clippy : : needless_lifetimes , clippy : : semicolon_if_nothing_returned , clippy : : use_self , clippy : : used_underscore_binding ) ] const _ : ( ) = { # [ allow ( unused_extern_crates ) ] extern crate pin_project as _pin_project ; impl < T , U > Enum < T , U > { # [ allow ( dead_code ) ] # [ inline ] fn project_replace ( self : _pin_project : : __private : : Pin < & mut Self > , __replacement : Self ) - > ProjOwn < T , U > { unsafe { let __self_ptr : * mut Self = self . get_unchecked_mut ( ) ; let __guard = _pin_project : : __private : : UnsafeOverwriteGuard : : new ( __self_ptr , __replacement ) ; match & mut * __self_ptr { Self : : Struct { pinned , unpinned } = > { let __result = ProjOwn : : Struct { pinned : _pin_project : : __private : : PhantomData , unpinned : _pin_project : : __private : : ptr : : read ( unpinned ) } ; { let __guard = _pin_project : : __private : : UnsafeDropInPlaceGuard : : new ( pinned ) ; } __result } Self : : Tuple ( _0 , _1 ) = > { let __result = ProjOwn : : Tuple ( _pin_project : : __private : : PhantomData , _pin_project : : __private : : ptr : : read ( _1 ) ) ; { let __guard = _pin_project : : __private : : UnsafeDropInPlaceGuard : : new ( _0 ) ; } __result } Self : : Unit = > { let __result = ProjOwn : : Unit ; { } __result } } } } } # [ allow ( missing_debug_implementations , unnameable_types ) ] struct __Enum < ' pin , T , U > { __pin_project_use_generics : _pin_project : : __private : : AlwaysUnpin < ' pin , ( _pin_project : : __private : : PhantomData < T > , _pin_project : : __private : : PhantomData < U > ) > , __field0 : T , __field1 : T } impl < ' pin , T , U > _pin_project : : __private : : Unpin for Enum < T , U > where _pin_project : : __private : : PinnedFieldsOf < __Enum < ' pin , T , U > > : _pin_project : : __private : : Unpin { } # [ doc ( hidden ) ] unsafe impl < ' pin , T , U > _pin_project : : UnsafeUnpin for Enum < T , U > where _pin_project : : __private : : PinnedFieldsOf < __Enum < ' pin , T , U > > : _pin_project : : __private : : Unpin { } trait EnumMustNotImplDrop { } # [ allow ( clippy : : drop_bounds , drop_bounds ) ] impl < T : _pin_project : : __private : : Drop > EnumMustNotImplDrop for T { } impl < T , U > EnumMustNotImplDrop for Enum < T , U > { } # [ doc ( hidden ) ] impl < T , U > _pin_project : : __private : : PinnedDrop for Enum < T , U > { unsafe fn drop ( self : _pin_project : : __private : : Pin < & mut Self > ) { } } } ;".
Proof. vm_compute. reflexivity. Qed.
(** /repo/tests/expand/naming/enum-ref.rs *)
Example expand_naming_enum_ref : expanded [TIdent (I "project_ref"); TPunct "=" false; TIdent (I "ProjRef")]
  (mkRItem [] (REnum VInherited (I "Enum") (mkRGenerics [([], PTy (I "T") [] None); ([], PTy (I "U") [] None)] None) [mkRVariant [] (I "Struct") (RNamed [mkRField [RAttr (mkAttr false [(I "pin")] MPath)] VInherited (Some (I "pinned")) (TyPath None (Path false [(Seg (I "T") GNone)])); mkRField [] VInherited (Some (I "unpinned")) (TyPath None (Path false [(Seg (I "U") GNone)]))]) false; mkRVariant [] (I "Tuple") (RUnnamed [mkRField [RAttr (mkAttr false [(I "pin")] MPath)] VInherited None (TyPath None (Path false [(Seg (I "T") GNone)])); mkRField [] VInherited None (TyPath None (Path false [(Seg (I "U") GNone)]))]) false; mkRVariant [] (I "Unit") RUnit false]))
  = Some "# [ allow ( dead_code , deprecated , explicit_outlives_requirements , single_use_lifetimes , unreachable_pub , unused_tuple_struct_fields , clippy : : unknown_clippy_lints , clippy : : absolute_paths , clippy : : min_ident_chars , clippy : : pattern_type_mismatch , clippy : : pub_with_shorthand , clippy : : redundant_pub_crate , clippy : : single_char_lifetime_names , clippy : : type_repetition_in_bounds , clippy : : missing_docs_in_private_items , clippy : : ref_option_ref ) ] enum ProjRef < ' pin , T , U > where Enum < T , U > : ' pin { Struct { pinned : : : pin_project : : __private : : Pin < & ' pin ( T ) > , unpinned : & ' pin ( U ) } , Tuple ( : : pin_project : : __private : : Pin < & ' pin ( T ) > , & ' pin ( U ) ) , Unit } # [ allow ( unused_qualifications , deprecated , explicit_outlives_requirements , single_use_lifetimes , unreachable_pub , unused_tuple_struct_fields , clippy : : unknown_clippy_lints , clippy : : absolute_paths , clippy : : min_ident_chars , clippy : : pattern_type_mismatch , clippy : : pub_with_shorthand , clippy : : redundant_pub_crate , clippy : : single_char_lifetime_names , clippy : : type_repetition_in_bounds , clippy : : elidable_lifetime_names , clippy : : missing_const_for_fn , clippy : : needless_lifetimes , clippy : : semicolon_if_nothing_returned , clippy : : use_self , clippy : : used_underscore_binding ) ] const _ : ( ) = { # [ allow ( unused_extern_crates ) ] extern crate pin_project as _pin_project ; impl < T , U > Enum < T , U > { # [ allow ( dead_code ) ] # [ inline ] fn project_ref < ' pin > ( self : _pin_project : : __private : : Pin < & ' pin Self > ) - > ProjRef < ' pin , T , U > { unsafe { match self . get_ref ( ) { Self : : Struct { pinned , unpinned } = > ProjRef : : Struct { pinned : _pin_project : : __private : : Pin : : new_unchecked ( pinned ) , unpinned } , Self : : Tuple ( _0 , _1 ) = > ProjRef : : Tuple ( _pin_project : : __private : : Pin : : new_unchecked ( _0 ) , _1 ) , Self : : Unit = > ProjRef : : Unit , } } } } # [ allow ( missing_debug_implementations , unnameable_types ) ] struct __Enum < ' pin , T , U > { __pin_project_use_generics : _pin_project : : __private : : AlwaysUnpin < ' pin , ( _pin_project : : __private : : PhantomData < T > , _pin_project : : __private : : PhantomData < U > ) > , __field0 : T , __field1 : T } impl < ' pin , T , U > _pin_project : : __private : : Unpin for Enum < T , U > where _pin_project : : __private : : PinnedFieldsOf < __Enum < ' pin , T , U > > : _pin_project : : __private : : Unpin { } # [ doc ( hidden ) ] unsafe impl < ' pin , T , U > _pin_project : : UnsafeUnpin for Enum < T , U > where _pin_project : : __private : : PinnedFieldsOf < __Enum < ' pin , T , U > > : _pin_project : : __private : : Unpin { } trait EnumMustNotImplDrop { } # [ allow ( clippy : : drop_bounds , drop_bounds ) ] impl < T : _pin_project : : __private : : Drop > EnumMustNotImplDrop for T { } impl < T , U > EnumMustNotImplDrop for Enum < T , U > { } # [ doc ( hidden ) ] impl < T , U > _pin_project : : __private : : PinnedDrop for Enum < T , U > { unsafe fn drop ( self : _pin_project : : __private : : Pin < & mut Self > ) { } } } ;".
Proof. vm_compute. reflexivity. Qed.
(** /repo/tests/expand/naming/struct-all.rs *)
Example expand_naming_struct_all : expanded [TIdent (I "project"); TPunct "=" false; TIdent (I "Proj"); TPunct "," false; TIdent (I "project_ref"); TPunct "=" false; TIdent (I "ProjRef"); TPunct "," false; TIdent (I "project_replace"); TPunct "=" false; TIdent (I "ProjOwn")]
  (mkRItem [] (RStruct VInherited (I "Struct") (mkRGenerics [([], PTy (I "T") [] None); ([], PTy (I "U") [] None)] None) (RNamed [mkRField [RAttr (mkAttr false [(I "pin")] MPath)] VInherited (Some (I "pinned")) (TyPath None (Path false [(Seg (I "T") GNone)])); mkRField [] VInherited (Some (I "unpinned")) (TyPath None (Path false [(Seg (I "U") GNone)]))])))
  = Some "# [ allow ( dead_code , deprecated , explicit_outlives_requirements , single_use_lifetimes , unreachable_pub , unused_tuple_struct_fields , clippy : : unknown_clippy_lints , clippy : : absolute_paths , clippy : : min_ident_chars , clippy : : pattern_type_mismatch , clippy : : pub_with_shorthand , clippy : : redundant_pub_crate , clippy : : single_char_lifetime_names , clippy : : type_repetition_in_bounds , clippy : : missing_docs_in_private_items , clippy : : mut_mut ) ] struct Proj < ' pin , T , U > where Struct < T , U > : ' pin { pinned : : : pin_project : : __private : : Pin < & ' pin mut ( T ) > , unpinned : & ' pin mut ( U ) } # [ allow ( dead_code , deprecated , explicit_outlives_requirements , single_use_lifetimes , unreachable_pub , unused_tuple_struct_fields , clippy : : unknown_clippy_lints , clippy : : absolute_paths , clippy : : min_ident_chars , clippy : : pattern_type_mismatch , clippy : : pub_with_shorthand , clippy : : redundant_pub_crate , clippy : : single_char_lifetime_names , clippy : : type_repetition_in_bounds , clippy : : missing_docs_in_private_items , clippy : : ref_option_ref ) ] struct ProjRef < ' pin , T , U > where Struct < T , U > : ' pin { pinned : : : pin_project : : __private : : Pin < & ' pin ( T ) > , unpinned : & ' pin ( U ) } # [ allow ( dead_code , deprecated , explicit_outlives_requirements , single_use_lifetimes , unreachable_pub , unused_tuple_struct_fields , clippy : : unknown_clippy_lints , clippy : : absolute_paths , clippy : : min_ident_chars , clippy : : pattern_type_mismatch , clippy : : pub_with_shorthand , clippy : : redundant_pub_crate , clippy : : single_char_lifetime_names , clippy : : type_repetition_in_bounds , clippy : : missing_docs_in_private_items ) ] struct ProjOwn < T , U > { pinned : : : pin_project : : __private : : PhantomData < T > , unpinned : U } # [ allow ( unused_qualifications , deprecated , explicit_outlives_requirements , single_use_lifetimes , unreachable_pub , unused_tuple_struct_fields , clippy : : unknown_clippy_lints , clippy : : absolute_paths , clippy : : min_ident_chars , clippy : : pattern_type_mismatch , clippy : : pub_with_shorthand , clippy : : redundant_pub_crate , clippy : : single_char_lifetime_names , clippy : : type_repetition_in_bounds , clippy : : elidable_lifetime_names , clippy : : missing_const_for_fn , clippy : : needless_lifetimes , clippy : : semicolon_if_nothing_returned , clippy : : use_self , clippy : : used_underscore_binding ) ] const _ : ( ) = { # [ allow ( unused_extern_crates ) ] extern crate pin_project as _pin_project ; impl < T , U > Struct < T , U > { # [ allow ( dead_code ) ] # [ inline ] fn project < ' pin > ( self : _pin_project : : __private : : Pin < & ' pin mut Self > ) - > Proj < ' pin , T , U > { unsafe { let Self { pinned , unpinned } = self . get_unchecked_mut ( ) ; Proj { pinned : _pin_project : : __private : : Pin : : new_unchecked ( pinned ) , unpinned } } } # [ allow ( dead_code ) ] # [ inline ] fn project_ref < ' pin > ( self : _pin_project : : __private : : Pin < & ' pin Self > ) - > ProjRef < ' pin , T , U > { unsafe { let Self { pinned , unpinned } = self . get_ref ( ) ; ProjRef { pinned : _pin_project : : __private : : Pin : : new_unchecked ( pinned ) , unpinned } } } # [ allow ( dead_code ) ] # [ inline ] fn project_replace ( self : _pin_project : : __private : : Pin < & mut Self > , __replacement : Self ) - > ProjOwn < T , U > { unsafe { let __self_ptr : * mut Self = self . get_unchecked_mut ( ) ; let __guard = _pin_project : : __private : : UnsafeOverwriteGuard : : new ( __self_ptr , __replacement ) ; let Self { pinned , unpinned } = & mut * __self_ptr ; let __result = ProjOwn { pinned : _pin_project : : __private : : PhantomData , unpinned : _pin_project : : __private : : ptr : : read ( unpinned ) } ; { let __guard = _pin_project : : __private : : UnsafeDropInPlaceGuard : : new ( pinned ) ; } __result } } } # [ forbid ( unaligned_references , safe_packed_borrows ) ] fn __assert_not_repr_packed < T , U > ( this : & Struct < T , U > ) { let _ = & this . pinned ; let _ = & this . unpinned ; } # [ allow ( missing_debug_implementations , unnameable_types ) ] struct __Struct < ' pin , T , U > { __pin_project_use_generics : _pin_project : : __private : : AlwaysUnpin < ' pin , ( _pin_project : : __private : : PhantomData < T > , _pin_project : : __private : : PhantomData < U > ) > , __field0 : T } impl < ' pin , T , U > _pin_project : : __private : : Unpin for Struct < T , U > where _pin_project : : __private : : PinnedFieldsOf < __Struct < ' pin , T , U > > : _pin_project : : __private : : Unpin { } # [ doc ( hidden ) ] unsafe impl < ' pin , T , U > _pin_project : : UnsafeUnpin for Struct < T , U > where _pin_project : : __private : : PinnedFieldsOf < __Struct < ' pin , T , U > > : _pin_project : : __private : : Unpin { } trait StructMustNotImplDrop { } # [ allow ( clippy : : drop_bounds , drop_bounds ) ] impl < T : _pin_project : : __private : : Drop > StructMustNotImplDrop for T { } impl < T , U > StructMustNotImplDrop for Struct < T , U > { } # [ doc ( hidden ) ] impl < T , U > _pin_project : : __private : : PinnedDrop for Struct < T , U > { unsafe fn drop ( self : _pin_project : : __private : : Pin < & mut Self > ) { } } } ;".
Proof. vm_compute. reflexivity. Qed.
(** /repo/tests/expand/naming/struct-mut.rs *)
Example expand_naming_struct_mut : expanded [TIdent (I "project"); TPunct "=" false; TIdent (I "Proj")]
  (mkRItem [] (RStruct VInherited (I "Struct") (mkRGenerics [([], PTy (I "T") [] None); ([], PTy (I "U") [] None)] None) (RNamed [mkRField [RAttr (mkAttr false [(I "pin")] MPath)] VInherited (Some (I "pinned")) (TyPath None (Path false [(Seg (I "T") GNone)])); mkRField [] VInherited (Some (I "unpinned")) (TyPath None (Path false [(Seg (I "U") GNone)]))])))
  = Some "# [ allow ( dead_code , deprecated , explicit_outlives_requirements , single_use_lifetimes , unreachable_pub , unused_tuple_struct_fields , clippy : : unknown_clippy_lints , clippy : : absolute_paths , clippy : : min_ident_chars , clippy : : pattern_type_mismatch , clippy : : pub_with_shorthand , clippy : : redundant_pub_crate , clippy : : single_char_lifetime_names , clippy : : type_repetition_in_bounds , clippy : : missing_docs_in_private_items , clippy : : mut_mut ) ] struct Proj < ' pin , T , U > where Struct < T , U > : ' pin { pinned : : : pin_project : : __private : : Pin < & ' pin mut ( T ) > , unpinned : & ' pin mut ( U ) } # [ allow ( unused_qualifications , deprecated , explicit_outlives_requirements , single_use_lifetimes , unreachable_pub , unused_tuple_struct_fields , clippy : : unknown_clippy_lints , clippy : : absolute_paths , clippy : : min_ident_chars , clippy : : pattern_type_mismatch , clippy : : pub_with_shorthand , clippy : : redundant_pub_crate , clippy : : single_char_lifetime_names , clippy : : type_repetition_in_bounds , clippy : : elidable_lifetime_names , clippy : : missing_const_for_fn , clippy : : needless_lifetimes , clippy : : semicolon_if_nothing_returned , clippy : : use_self , clippy : : used_underscore_binding ) ] const _ : ( ) = { # [ allow ( unused_extern_crates ) ] extern crate pin_project as _pin_project ; # [ allow ( dead_code , clippy : : missing_docs_in_private_items , clippy : : ref_option_ref ) ] struct __StructProjectionRef < ' pin , T , U > where Struct < T , U > : ' pin { pinned : : : pin_project : : __private : : Pin < & ' pin ( T ) > , unpinned : & ' pin ( U ) } impl < T , U > Struct < T , U > { # [ allow ( dead_code ) ] # [ inline ] fn project < ' pin > ( self : _pin_project : : __private : : Pin < & ' pin mut Self > ) - > Proj < ' pin , T , U > { unsafe { let Self { pinned , unpinned } = self . get_unchecked_mut ( ) ; Proj { pinned : _pin_project : : __private : : Pin : : new_unchecked ( pinned ) , unpinned } } } # [ allow ( dead_code ) ] # [ inline ] fn project_ref < ' pin > ( self : _pin_project : : __private : : Pin < & ' pin Self > ) - > __StructProjectionRef < ' pin , T , U > { unsafe { let Self { pinned , unpinned } = self . get_ref ( ) ; __StructProjectionRef { pinned : _pin_project : : __private : : Pin : : new_unchecked ( pinned ) , unpinned } } } } # [ forbid ( unaligned_references , safe_packed_borrows ) ] fn __assert_not_repr_packed < T , U > ( this : & Struct < T , U > ) { let _ = & this . pinned ; let _ = & this . unpinned ; } # [ allow ( missing_debug_implementations , unnameable_types ) ] struct __Struct < ' pin , T , U > { __pin_project_use_generics : _pin_project : : __private : : AlwaysUnpin < ' pin , ( _pin_project : : __private : : PhantomData < T > , _pin_project : : __private : : PhantomData < U > ) > , __field0 : T } impl < ' pin , T , U > _pin_project : : __private : : Unpin for Struct < T , U > where _pin_project : : __private : : PinnedFieldsOf < __Struct < ' pin , T , U > > : _pin_project : : __private : : Unpin { } # [ doc ( hidden ) ] unsafe impl < ' pin , T , U > _pin_project : : UnsafeUnpin for Struct < T , U > where _pin_project : : __private : : PinnedFieldsOf < __Struct < ' pin , T , U > > : _pin_project : : __private : : Unpin { } trait StructMustNotImplDrop { } # [ allow ( clippy : : drop_bounds , drop_bounds ) ] impl < T : _pin_project : : __private : : Drop > StructMustNotImplDrop for T { } impl < T , U > StructMustNotImplDrop for Struct < T , U > { } # [ doc ( hidden ) ] impl < T , U > _pin_project : : __private : : PinnedDrop for Struct < T , U > { unsafe fn drop ( self : _pin_project : : __private : : Pin < & mut Self > ) { } } } ;".
Proof. vm_compute. reflexivity. Qed.
(** /repo/tests/expand/naming/struct-none.rs *)
Example expand_naming_struct_none : expanded []
  (mkRItem [] (RStruct VInherited (I "Struct") (mkRGenerics [([], PTy (I "T") [] None); ([], PTy (I "U") [] None)] None) (RNamed [mkRField [RAttr (mkAttr false [(I "pin")] MPath)] VInherited (Some (I "pinned")) (TyPath None (Path false [(Seg (I "T") GNone)])); mkRField [] VInherited (Some (I "unpinned")) (TyPath None (Path false [(Seg (I "U") GNone)]))])))
  = Some "# [ allow ( unused_qualifications , deprecated , explicit_outlives_requirements , single_use_lifetimes , unreachable_pub , unused_tuple_struct_fields , clippy : : unknown_clippy_lints , clippy : : absolute_paths , clippy : : min_ident_chars , clippy : : pattern_type_mismatch , clippy : : pub_with_shorthand , clippy : : redundant_pub_crate , clippy : : single_char_lifetime_names , clippy : : type_repetition_in_bounds , clippy : : elidable_lifetime_names , clippy : : missing_const_for_fn , clippy : : needless_lifetimes , clippy : : semicolon_if_nothing_returned , clippy : : use_self , clippy : : used_underscore_binding ) ] const _ : ( ) = { # [ allow ( unused_extern_crates ) ] extern crate pin_project as _pin_project ; # [ allow ( dead_code , clippy : : missing_docs_in_private_items , clippy : : mut_mut ) ] struct __StructProjection < ' pin , T , U > where Struct < T , U > : ' pin { pinned : : : pin_project : : __private : : Pin < & ' pin mut ( T ) > , unpinned : & ' pin mut ( U ) } # [ allow ( dead_code , clippy : : missing_docs_in_private_items , clippy : : ref_option_ref ) ] struct __StructProjectionRef < ' pin , T , U > where Struct < T , U > : ' pin { pinned : : : pin_project : : __private : : Pin < & ' pin ( T ) > , unpinned : & ' pin ( U ) } impl < T , U > Struct < T , U > { # [ allow ( dead_code ) ] # [ inline ] fn project < ' pin > ( self : _pin_project : : __private : : Pin < & ' pin mut Self > ) - > __StructProjection < ' pin , T , U > { unsafe { let Self { pinned , unpinned } = self . get_unchecked_mut ( ) ; __StructProjection { pinned : _pin_project : : __private : : Pin : : new_unchecked ( pinned ) , unpinned } } } # [ allow ( dead_code ) ] # [ inline ] fn project_ref < ' pin > ( self : _pin_project : : __private : : Pin < & ' pin Self > ) - > __StructProjectionRef < ' pin , T , U > { unsafe { let Self { pinned , unpinned } = self . get_ref ( ) ; __StructProjectionRef { pinned : _pin_project : : __private : : Pin : : new_unchecked ( pinned ) , unpinned } } } } # [ forbid ( unaligned_references , safe_packed_borrows ) ] fn __assert_not_repr_packed < T , U > ( this : & Struct < T , U > ) { let _ = & this . pinned ; let _ = & this . unpinned ; } # [ allow ( missing_debug_implementations , unnameable_types ) ] struct __Struct < ' pin , T , U > { __pin_project_use_generics : _pin_project : : __private : : AlwaysUnpin < ' pin , ( _pin_project : : __private : : PhantomData < T > , _pin_project : : __private : : PhantomData < U > ) > , __field0 : T } impl < ' pin , T , U > _pin_project : : __private : : Unpin for Struct < T , U > where _pin_project : : __private : : PinnedFieldsOf < __Struct < ' pin , T , U > > : _pin_project : : __private : : Unpin { } # [ doc ( hidden ) ] unsafe impl < ' pin , T , U > _pin_project : : UnsafeUnpin for Struct < T , U > where _pin_project : : __private : : PinnedFieldsOf < __Struct < ' pin , T , U > > : _pin_project : : __private : : Unpin { } trait StructMustNotImplDrop { } # [ allow ( clippy : : drop_bounds , drop_bounds ) ] impl < T : _pin_project : : __private : : Drop > StructMustNotImplDrop for T { } impl < T , U > StructMustNotImplDrop for Struct < T , U > { } # [ doc ( hidden ) ] impl < T , U > _pin_project : : __private : : PinnedDrop for Struct < T , U > { unsafe fn drop ( self : _pin_project : : __private : : Pin < & mut Self > ) { } } } ;".
Proof. vm_compute. reflexivity. Qed.
(** /repo/tests/expand/naming/struct-own.rs *)
Example expand_naming_struct_own : expanded [TIdent (I "project_replace"); TPunct "=" false; TIdent (I "ProjOwn")]
  (mkRItem [] (RStruct VInherited (I "Struct") (mkRGenerics [([], PTy (I "T") [] None); ([], PTy (I "U") [] None)] None) (RNamed [mkRField [RAttr (mkAttr false [(I "pin")] MPath)] VInherited (Some (I "pinned")) (TyPath None (Path false [(Seg (I "T") GNone)])); mkRField [] VInherited (Some (I "unpinned")) (TyPath None (Path false [(Seg (I "U") GNone)]))])))
  = Some "# [ allow ( dead_code , deprecated , explicit_outlives_requirements , single_use_lifetimes , unreachable_pub , unused_tuple_struct_fields , clippy : : unknown_clippy_lints , clippy : : absolute_paths , clippy : : min_ident_chars , clippy : : pattern_type_mismatch , clippy : : pub_with_shorthand , clippy : : redundant_pub_crate , clippy : : single_char_lifetime_names , clippy : : type_repetition_in_bounds , clippy : : missing_docs_in_private_items ) ] struct ProjOwn < T , U > { pinned : : : pin_project : : __private : : PhantomData < T > , unpinned : U } # [ allow ( unused_qualifications , deprecated , explicit_outlives_requirements , single_use_lifetimes , unreachable_pub , unused_tuple_struct_fields , clippy : : unknown_clippy_lints , clippy : : absolute_paths , clippy : : min_ident_chars , clippy : : pattern_type_mismatch , clippy : : pub_with_shorthand , clippy : : redundant_pub_crate , clippy : : single_char_lifetime_names , clippy : : type_repetition_in_bounds , clippy : : elidable_lifetime_names , clippy : : missing_const_for_fn , clippy : : needless_lifetimes , clippy : : semicolon_if_nothing_returned , clippy : : use_self , clippy : : used_underscore_binding ) ] const _ : ( ) = { # [ allow ( unused_extern_crates ) ] extern crate pin_project as _pin_project ; # [ allow ( dead_code , clippy : : missing_docs_in_private_items , clippy : : mut_mut ) ] struct __StructProjection < ' pin , T , U > where Struct < T , U > : ' pin { pinned : : : pin_project : : __private : : Pin < & ' pin mut ( T ) > , unpinned : & ' pin mut ( U ) } # [ allow ( dead_code , clippy : : missing_docs_in_private_items , clippy : : ref_option_ref ) ] struct __StructProjectionRef < ' pin , T , U > where Struct < T , U > : ' pin { pinned : : : pin_project : : __private : : Pin < & ' pin ( T ) > , unpinned : & ' pin ( U ) } impl < T , U > Struct < T , U > { # [ allow ( dead_code ) ] # [ inline ] fn project < ' pin > ( self : _pin_project : : __private : : Pin < & ' pin mut Self > ) - > __StructProjection < ' pin , T , U > { unsafe { let Self { pinned , unpinned } = self . get_unchecked_mut ( ) ; __StructProjection { pinned : _pin_project : : __private : : Pin : : new_unchecked ( pinned ) , unpinned } } } # [ allow ( dead_code ) ] # [ inline ] fn project_ref < ' pin > ( self : _pin_project : : __private : : Pin < & ' pin Self > ) - > __StructProjectionRef < ' pin , T , U > { unsafe { let Self { pinned , unpinned } = self . get_ref ( ) ; __StructProjectionRef { pinned : _pin_project : : __private : : Pin : : new_unchecked ( pinned ) , unpinned } } } # [ allow ( dead_code ) ] # [ inline ] fn project_replace ( self : _pin_project : : __private : : Pin < & mut Self > , __replacement : Self ) - > ProjOwn < T , U > { unsafe { let __self_ptr : * mut Self = self . get_unchecked_mut ( ) ; let __guard = _pin_project : : __private : : UnsafeOverwriteGuard : : new ( __self_ptr , __replacement ) ; let Self { pinned , unpinned } = & mut * __self_ptr ; let __result = ProjOwn { pinned : _pin_project : : __private : : PhantomData , unpinned : _pin_project : : __private : : ptr : : read ( unpinned ) } ; { let __guard = _pin_project : : __private : : UnsafeDropInPlaceGuard : : new ( pinned ) ; } __result } } } # [ forbid ( unaligned_references , safe_packed_borrows ) ] fn __assert_not_repr_packed < T , U > ( this : & Struct < T , U > ) { let _ = & this . pinned ; let _ = & this . unpinned ; } # [ allow ( missing_debug_implementations , unnameable_types ) ] struct __Struct < ' pin , T , U > { __pin_project_use_generics : _pin_project : : __private : : AlwaysUnpin < ' pin , ( _pin_project : : __private : : PhantomData < T > , _pin_project : : __private : : PhantomData < U > ) > , __field0 : T } impl < ' pin , T , U > _pin_project : : __private : : Unpin for Struct < T , U > where _pin_project : : __private : : PinnedFieldsOf < __Struct < ' pin , T , U > > : _pin_project : : __private : : Unpin { } # [ doc ( hidden ) ] unsafe impl < ' pin , T , U > _pin_project : : UnsafeUnpin for Struct < T , U > where _pin_project : : __private : : PinnedFieldsOf < __Struct < ' pin , T , U > > : _pin_project : : __private : : Unpin { } trait StructMustNotImplDrop { } # [ allow ( clippy : : drop_bounds , drop_bounds ) ] impl < T : _pin_project : : __private : : Drop > StructMustNotImplDrop for T { } impl < T , U > StructMustNotImplDrop for Struct < T , U > { } # [ doc ( hidden ) ] impl < T , U > _pin_project : : __private : : PinnedDrop for Struct < T , U > { unsafe fn drop ( self : _pin_project : : __private : : Pin < & mut Self > ) { } } } ;".
Proof. vm_compute. reflexivity. Qed.
(** /repo/tests/expand/naming/struct-ref.rs *)
Example expand_naming_struct_ref : expanded [TIdent (I "project_ref"); TPunct "=" false; TIdent (I "ProjRef")]
  (mkRItem [] (RStruct VInherited (I "Struct") (mkRGenerics [([], PTy (I "T") [] None); ([], PTy (I "U") [] None)] None) (RNamed [mkRField [RAttr (mkAttr false [(I "pin")] MPath)] VInherited (Some (I "pinned")) (TyPath None (Path false [(Seg (I "T") GNone)])); mkRField [] VInherited (Some (I "unpinned")) (TyPath None (Path false [(Seg (I "U") GNone)]))])))
  = Some "# [ allow ( dead_code , deprecated , explicit_outlives_requirements , single_use_lifetimes , unreachable_pub , unused_tuple_struct_fields , clippy : : unknown_clippy_lints , clippy : : absolute_paths , clippy : : min_ident_chars , clippy : : pattern_type_mismatch , clippy : : pub_with_shorthand , clippy : : redundant_pub_crate , clippy : : single_char_lifetime_names , clippy : : type_repetition_in_bounds , clippy : : missing_docs_in_private_items , clippy : : ref_option_ref ) ] struct ProjRef < ' pin , T , U > where Struct < T , U > : ' pin { pinned : : : pin_project : : __private : : Pin < & ' pin ( T ) > , unpinned : & ' pin ( U ) } # [ allow ( unused_qualifications , deprecated , explicit_outlives_requirements , single_use_lifetimes , unreachable_pub , unused_tuple_struct_fields , clippy : : unknown_clippy_lints , clippy : : absolute_paths , clippy : : min_ident_chars , clippy : : pattern_type_mismatch , clippy : : pub_with_shorthand , clippy : : redundant_pub_crate , clippy : : single_char_lifetime_names , clippy : : type_repetition_in_bounds , clippy : : elidable_lifetime_names , clippy : : missing_const_for_fn , clippy : : needless_lifetimes , clippy : : semicolon_if_nothing_returned , clippy : : use_self , clippy : : used_underscore_binding ) ] const _ : ( ) = { # [ allow ( unused_extern_crates ) ] extern crate pin_project as _pin_project ; # [ allow ( dead_code , clippy : : missing_docs_in_private_items , clippy : : mut_mut ) ] struct __StructProjection < ' pin , T , U > where Struct < T , U > : ' pin { pinned : : : pin_project : : __private : : Pin < & ' pin mut ( T ) > , unpinned : & ' pin mut ( U ) } impl < T , U > Struct < T , U > { # [ allow ( dead_code ) ] # [ inline ] fn project < ' pin > ( self : _pin_project : : __private : : Pin < & ' pin mut Self > ) - > __StructProjection < ' pin , T , U > { unsafe { let Self { pinned , unpinned } = self . get_unchecked_mut ( ) ; __StructProjection { pinned : _pin_project : : __private : : Pin : : new_unchecked ( pinned ) , unpinned } } } # [ allow ( dead_code ) ] # [ inline ] fn project_ref < ' pin > ( self : _pin_project : : __private : : Pin < & ' pin Self > ) - > ProjRef < ' pin , T , U > { unsafe { let Self { pinned , unpinned } = self . get_ref ( ) ; ProjRef { pinned : _pin_project : : __private : : Pin : : new_unchecked ( pinned ) , unpinned } } } } # [ forbid ( unaligned_references , safe_packed_borrows ) ] fn __assert_not_repr_packed < T , U > ( this : & Struct < T , U > ) { let _ = & this . pinned ; let _ = & this . unpinned ; } # [ allow ( missing_debug_implementations , unnameable_types ) ] struct __Struct < ' pin , T , U > { __pin_project_use_generics : _pin_project : : __private : : AlwaysUnpin < ' pin , ( _pin_project : : __private : : PhantomData < T > , _pin_project : : __private : : PhantomData < U > ) > , __field0 : T } impl < ' pin , T , U > _pin_project : : __private : : Unpin for Struct < T , U > where _pin_project : : __private : : PinnedFieldsOf < __Struct < ' pin , T , U > > : _pin_project : : __private : : Unpin { } # [ doc ( hidden ) ] unsafe impl < ' pin , T , U > _pin_project : : UnsafeUnpin for Struct < T , U > where _pin_project : : __private : : PinnedFieldsOf < __Struct < ' pin , T , U > > : _pin_project : : __private : : Unpin { } trait StructMustNotImplDrop { } # [ allow ( clippy : : drop_bounds , drop_bounds ) ] impl < T : _pin_project : : __private : : Drop > StructMustNotImplDrop for T { } impl < T , U > StructMustNotImplDrop for Struct < T , U > { } # [ doc ( hidden ) ] impl < T , U > _pin_project : : __private : : PinnedDrop for Struct < T , U > { unsafe fn drop ( self : _pin_project : : __private : : Pin < & mut Self > ) { } } } ;".
Proof. vm_compute. reflexivity. Qed.
(** /repo/tests/expand/naming/tuple_struct-all.rs *)
Example expand_naming_tuple_struct_all : expanded [TIdent (I "project"); TPunct "=" false; TIdent (I "Proj"); TPunct "," false; TIdent (I "project_ref"); TPunct "=" false; TIdent (I "ProjRef"); TPunct "," false; TIdent (I "project_replace"); TPunct "=" false; TIdent (I "ProjOwn")]
  (mkRItem [] (RStruct VInherited (I "TupleStruct") (mkRGenerics [([], PTy (I "T") [] None); ([], PTy (I "U") [] None)] None) (RUnnamed [mkRField [RAttr (mkAttr false [(I "pin")] MPath)] VInherited None (TyPath None (Path false [(Seg (I "T") GNone)])); mkRField [] VInherited None (TyPath None (Path false [(Seg (I "U") GNone)]))])))
  = Some "# [ allow ( dead_code , deprecated , explicit_outlives_requirements , single_use_lifetimes , unreachable_pub , unused_tuple_struct_fields , clippy : : unknown_clippy_lints , clippy : : absolute_paths , clippy : : min_ident_chars , clippy : : pattern_type_mismatch , clippy : : pub_with_shorthand , clippy : : redundant_pub_crate , clippy : : single_char_lifetime_names , clippy : : type_repetition_in_bounds , clippy : : missing_docs_in_private_items , clippy : : mut_mut ) ] struct Proj < ' pin , T , U > ( : : pin_project : : __private : : Pin < & ' pin mut ( T ) > , & ' pin mut ( U ) ) where TupleStruct < T , U > : ' pin ; # [ allow ( dead_code , deprecated , explicit_outlives_requirements , single_use_lifetimes , unreachable_pub , unused_tuple_struct_fields , clippy : : unknown_clippy_lints , clippy : : absolute_paths , clippy : : min_ident_chars , clippy : : pattern_type_mismatch , clippy : : pub_with_shorthand , clippy : : redundant_pub_crate , clippy : : single_char_lifetime_names , clippy : : type_repetition_in_bounds , clippy : : missing_docs_in_private_items , clippy : : ref_option_ref ) ] struct ProjRef < ' pin , T , U > ( : : pin_project : : __private : : Pin < & ' pin ( T ) > , & ' pin ( U ) ) where TupleStruct < T , U > : ' pin ; # [ allow ( dead_code , deprecated , explicit_outlives_requirements , single_use_lifetimes , unreachable_pub , unused_tuple_struct_fields , clippy : : unknown_clippy_lints , clippy : : absolute_paths , clippy : : min_ident_chars , clippy : : pattern_type_mismatch , clippy : : pub_with_shorthand , clippy : : redundant_pub_crate , clippy : : single_char_lifetime_names , clippy : : type_repetition_in_bounds , clippy : : missing_docs_in_private_items ) ] struct ProjOwn < T , U > ( : : pin_project : : __private : : PhantomData < T > , U ) ; # [ allow ( unused_qualifications , deprecated , explicit_outlives_requirements , single_use_lifetimes , unreachable_pub , unused_tuple_struct_fields , clippy : : unknown_clippy_lints , clippy : : absolute_paths , clippy : : min_ident_chars , clippy : : pattern_type_mismatch , clippy : : pub_with_shorthand , clippy : : redundant_pub_crate , clippy : : single_char_lifetime_names , clippy : : type_repetition_in_bounds , clippy : : elidable_lifetime_names , clippy : : missing_const_for_fn , clippy : : needless_lifetimes , clippy : : semicolon_if_nothing_returned , clippy : : use_self , clippy : : used_underscore_binding ) ] const _ : ( ) = { # [ allow ( unused_extern_crates ) ] extern crate pin_project as _pin_project ; impl < T , U > TupleStruct < T , U > { # [ allow ( dead_code ) ] # [ inline ] fn project < ' pin > ( self : _pin_project : : __private : : Pin < & ' pin mut Self > ) - > Proj < ' pin , T , U > { unsafe { let Self ( _0 , _1 ) = self . get_unchecked_mut ( ) ; Proj ( _pin_project : : __private : : Pin : : new_unchecked ( _0 ) , _1 ) } } # [ allow ( dead_code ) ] # [ inline ] fn project_ref < ' pin > ( self : _pin_project : : __private : : Pin < & ' pin Self > ) - > ProjRef < ' pin , T , U > { unsafe { let Self ( _0 , _1 ) = self . get_ref ( ) ; ProjRef ( _pin_project : : __private : : Pin : : new_unchecked ( _0 ) , _1 ) } } # [ allow ( dead_code ) ] # [ inline ] fn project_replace ( self : _pin_project : : __private : : Pin < & mut Self > , __replacement : Self ) - > ProjOwn < T , U > { unsafe { let __self_ptr : * mut Self = self . get_unchecked_mut ( ) ; let __guard = _pin_project : : __private : : UnsafeOverwriteGuard : : new ( __self_ptr , __replacement ) ; let Self ( _0 , _1 ) = & mut * __self_ptr ; let __result = ProjOwn ( _pin_project : : __private : : PhantomData , _pin_project : : __private : : ptr : : read ( _1 ) ) ; { let __guard = _pin_project : : __private : : UnsafeDropInPlaceGuard : : new ( _0 ) ; } __result } } } # [ forbid ( unaligned_references , safe_packed_borrows ) ] fn __assert_not_repr_packed < T , U > ( this : & TupleStruct < T , U > ) { let _ = & this . 0 ; let _ = & this . 1 ; } # [ allow ( missing_debug_implementations , unnameable_types ) ] struct __TupleStruct < ' pin , T , U > { __pin_project_use_generics : _pin_project : : __private : : AlwaysUnpin < ' pin , ( _pin_project : : __private : : PhantomData < T > , _pin_project : : __private : : PhantomData < U > ) > , __field0 : T } impl < ' pin , T , U > _pin_project : : __private : : Unpin for TupleStruct < T , U > where _pin_project : : __private : : PinnedFieldsOf < __TupleStruct < ' pin , T , U > > : _pin_project : : __private : : Unpin { } # [ doc ( hidden ) ] unsafe impl < ' pin , T , U > _pin_project : : UnsafeUnpin for TupleStruct < T , U > where _pin_project : : __private : : PinnedFieldsOf < __TupleStruct < ' pin , T , U > > : _pin_project : : __private : : Unpin { } trait TupleStructMustNotImplDrop { } # [ allow ( clippy : : drop_bounds , drop_bounds ) ] impl < T : _pin_project : : __private : : Drop > TupleStructMustNotImplDrop for T { } impl < T , U > TupleStructMustNotImplDrop for TupleStruct < T , U > { } # [ doc ( hidden ) ] impl < T , U > _pin_project : : __private : : PinnedDrop for TupleStruct < T , U > { unsafe fn drop ( self : _pin_project : : __private : : Pin < & mut Self > ) { } } } ;".
Proof. vm_compute. reflexivity. Qed.
(** /repo/tests/expand/naming/tuple_struct-mut.rs *)
Example expand_naming_tuple_struct_mut : expanded [TIdent (I "project"); TPunct "=" false; TIdent (I "Proj")]
  (mkRItem [] (RStruct VInherited (I "TupleStruct") (mkRGenerics [([], PTy (I "T") [] None); ([], PTy (I "U") [] None)] None) (RUnnamed [mkRField [RAttr (mkAttr false [(I "pin")] MPath)] VInherited None (TyPath None (Path false [(Seg (I "T") GNone)])); mkRField [] VInherited None (TyPath None (Path false [(Seg (I "U") GNone)]))])))
  = Some "# [ allow ( dead_code , deprecated , explicit_outlives_requirements , single_use_lifetimes , unreachable_pub , unused_tuple_struct_fields , clippy : : unknown_clippy_lints , clippy : : absolute_paths , clippy : : min_ident_chars , clippy : : pattern_type_mismatch , clippy : : pub_with_shorthand , clippy : : redundant_pub_crate , clippy : : single_char_lifetime_names , clippy : : type_repetition_in_bounds , clippy : : missing_docs_in_private_items , clippy : : mut_mut ) ] struct Proj < ' pin , T , U > ( : : pin_project : : __private : : Pin < & ' pin mut ( T ) > , & ' pin mut ( U ) ) where TupleStruct < T , U > : ' pin ; # [ allow ( unused_qualifications , deprecated , explicit_outlives_requirements , single_use_lifetimes , unreachable_pub , unused_tuple_struct_fields , clippy : : unknown_clippy_lints , clippy : : absolute_paths , clippy : : min_ident_chars , clippy : : pattern_type_mismatch , clippy : : pub_with_shorthand , clippy : : redundant_pub_crate , clippy : : single_char_lifetime_names , clippy : : type_repetition_in_bounds , clippy : : elidable_lifetime_names , clippy : : missing_const_for_fn , clippy : : needless_lifetimes , clippy : : semicolon_if_nothing_returned , clippy : : use_self , clippy : : used_underscore_binding ) ] const _ : ( ) = { # [ allow ( unused_extern_crates ) ] extern crate pin_project as _pin_project ; # [ allow ( dead_code , clippy : : missing_docs_in_private_items , clippy : : ref_option_ref ) ] struct __TupleStructProjectionRef < ' pin , T , U > ( : : pin_project : : __private : : Pin < & ' pin ( T ) > , & ' pin ( U ) ) where TupleStruct < T , U > : ' pin ; impl < T , U > TupleStruct < T , U > { # [ allow ( dead_code ) ] # [ inline ] fn project < ' pin > ( self : _pin_project : : __private : : Pin < & ' pin mut Self > ) - > Proj < ' pin , T , U > { unsafe { let Self ( _0 , _1 ) = self . get_unchecked_mut ( ) ; Proj ( _pin_project : : __private : : Pin : : new_unchecked ( _0 ) , _1 ) } } # [ allow ( dead_code ) ] # [ inline ] fn project_ref < ' pin > ( self : _pin_project : : __private : : Pin < & ' pin Self > ) - > __TupleStructProjectionRef < ' pin , T , U > { unsafe { let Self ( _0 , _1 ) = self . get_ref ( ) ; __TupleStructProjectionRef ( _pin_project : : __private : : Pin : : new_unchecked ( _0 ) , _1 ) } } } # [ forbid ( unaligned_references , safe_packed_borrows ) ] fn __assert_not_repr_packed < T , U > ( this : & TupleStruct < T , U > ) { let _ = & this . 0 ; let _ = & this . 1 ; } # [ allow ( missing_debug_implementations , unnameable_types ) ] struct __TupleStruct < ' pin , T , U > { __pin_project_use_generics : _pin_project : : __private : : AlwaysUnpin < ' pin , ( _pin_project : : __private : : PhantomData < T > , _pin_project : : __private : : PhantomData < U > ) > , __field0 : T } impl < ' pin , T , U > _pin_project : : __private : : Unpin for TupleStruct < T , U > where _pin_project : : __private : : PinnedFieldsOf < __TupleStruct < ' pin , T , U > > : _pin_project : : __private : : Unpin { } # [ doc ( hidden ) ] unsafe impl < ' pin , T , U > _pin_project : : UnsafeUnpin for TupleStruct < T , U > where _pin_project : : __private : : PinnedFieldsOf < __TupleStruct < ' pin , T , U > > : _pin_project : : __private : : Unpin { } trait TupleStructMustNotImplDrop { } # [ allow ( clippy : : drop_bounds , drop_bounds ) ] impl < T : _pin_project : : __private : : Drop > TupleStructMustNotImplDrop for T { } impl < T , U > TupleStructMustNotImplDrop for TupleStruct < T , U > { } # [ doc ( hidden ) ] impl < T , U > _pin_project : : __private : : PinnedDrop for TupleStruct < T , U > { unsafe fn drop ( self : _pin_project : : __private : : Pin < & mut Self > ) { } } } ;".
Proof. vm_compute. reflexivity. Qed.
(** /repo/tests/expand/naming/tuple_struct-none.rs *)
Example expand_naming_tuple_struct_none : expanded []
  (mkRItem [] (RStruct VInherited (I "TupleStruct") (mkRGenerics [([], PTy (I "T") [] None); ([], PTy (I "U") [] None)] None) (RUnnamed [mkRField [RAttr (mkAttr false [(I "pin")] MPath)] VInherited None (TyPath None (Path false [(Seg (I "T") GNone)])); mkRField [] VInherited None (TyPath None (Path false [(Seg (I "U") GNone)]))])))
  = Some "# [ allow ( unused_qualifications , deprecated , explicit_outlives_requirements , single_use_lifetimes , unreachable_pub , unused_tuple_struct_fields , clippy : : unknown_clippy_lints , clippy : : absolute_paths , clippy : : min_ident_chars , clippy : : pattern_type_mismatch , clippy : : pub_with_shorthand , clippy : : redundant_pub_crate , clippy : : single_char_lifetime_names , clippy : : type_repetition_in_bounds , clippy : : elidable_lifetime_names , clippy : : missing_const_for_fn , clippy : : needless_lifetimes , clippy : : semicolon_if_nothing_returned , clippy : : use_self , clippy : : used_underscore_binding ) ] const _ : ( ) = { # [ allow ( unused_extern_crates ) ] extern crate pin_project as _pin_project ; # [ allow ( dead_code , clippy : : missing_docs_in_private_items , clippy : : mut_mut ) ] struct __TupleStructProjection < ' pin , T , U > ( : : pin_project : : __private : : Pin < & ' pin mut ( T ) > , & ' pin mut ( U ) ) where TupleStruct < T , U > : ' pin ; # [ allow ( dead_code , clippy : : missing_docs_in_private_items , clippy : : ref_option_ref ) ] struct __TupleStructProjectionRef < ' pin , T , U > ( : : pin_project : : __private : : Pin < & ' pin ( T ) > , & ' pin ( U ) ) where TupleStruct < T , U > : ' pin ; impl < T , U > TupleStruct < T , U > { # [ allow ( dead_code ) ] # [ inline ] fn project < ' pin > ( self : _pin_project : : __private : : Pin < & ' pin mut Self > ) - > __TupleStructProjection < ' pin , T , U > { unsafe { let Self ( _0 , _1 ) = self . get_unchecked_mut ( ) ; __TupleStructProjection ( _pin_project : : __private : : Pin : : new_unchecked ( _0 ) , _1 ) } } # [ allow ( dead_code ) ] # [ inline ] fn project_ref < ' pin > ( self : _pin_project : : __private : : Pin < & ' pin Self > ) - > __TupleStructProjectionRef < ' pin , T , U > { unsafe { let Self ( _0 , _1 ) = self . get_ref ( ) ; __TupleStructProjectionRef ( _pin_project : : __private : : Pin : : new_unchecked ( _0 ) , _1 ) } } } # [ forbid ( unaligned_references , safe_packed_borrows ) ] fn __assert_not_repr_packed < T , U > ( this : & TupleStruct < T , U > ) { let _ = & this . 0 ; let _ = & this . 1 ; } # [ allow ( missing_debug_implementations , unnameable_types ) ] struct __TupleStruct < ' pin , T , U > { __pin_project_use_generics : _pin_project : : __private : : AlwaysUnpin < ' pin , ( _pin_project : : __private : : PhantomData < T > , _pin_project : : __private : : PhantomData < U > ) > , __field0 : T } impl < ' pin , T , U > _pin_project : : __private : : Unpin for TupleStruct < T , U > where _pin_project : : __private : : PinnedFieldsOf < __TupleStruct < ' pin , T , U > > : _pin_project : : __private : : Unpin { } # [ doc ( hidden ) ] unsafe impl < ' pin , T , U > _pin_project : : UnsafeUnpin for TupleStruct < T , U > where _pin_project : : __private : : PinnedFieldsOf < __TupleStruct < ' pin , T , U > > : _pin_project : : __private : : Unpin { } trait TupleStructMustNotImplDrop { } # [ allow ( clippy : : drop_bounds , drop_bounds ) ] impl < T : _pin_project : : __private : : Drop > TupleStructMustNotImplDrop for T { } impl < T , U > TupleStructMustNotImplDrop for TupleStruct < T , U > { } # [ doc ( hidden ) ] impl < T , U > _pin_project : : __private : : PinnedDrop for TupleStruct < T , U > { unsafe fn drop ( self : _pin_project : : __private : : Pin < & mut Self > ) { } } } ;".
Proof. vm_compute. reflexivity. Qed.
(** /repo/tests/expand/naming/tuple_struct-own.rs *)
Example expand_naming_tuple_struct_own : expanded [TIdent (I "project_replace"); TPunct "=" false; TIdent (I "ProjOwn")]
  (mkRItem [] (RStruct VInherited (I "TupleStruct") (mkRGenerics [([], PTy (I "T") [] None); ([], PTy (I "U") [] None)] None) (RUnnamed [mkRField [RAttr (mkAttr false [(I "pin")] MPath)] VInherited None (TyPath None (Path false [(Seg (I "T") GNone)])); mkRField [] VInherited None (TyPath None (Path false [(Seg (I "U") GNone)]))])))
  = Some "# [ allow ( dead_code , deprecated , explicit_outlives_requirements , single_use_lifetimes , unreachable_pub , unused_tuple_struct_fields , clippy : : unknown_clippy_lints , clippy : : absolute_paths , clippy : : min_ident_chars , clippy : : pattern_type_mismatch , clippy : : pub_with_shorthand , clippy : : redundant_pub_crate , clippy : : single_char_lifetime_names , clippy : : type_repetition_in_bounds , clippy : : missing_docs_in_private_items ) ] struct ProjOwn < T , U > ( : : pin_project : : __private : : PhantomData < T > , U ) ; # [ allow ( unused_qualifications , deprecated , explicit_outlives_requirements , single_use_lifetimes , unreachable_pub , unused_tuple_struct_fields , clippy : : unknown_clippy_lints , clippy : : absolute_paths , clippy : : min_ident_chars , clippy : : pattern_type_mismatch , clippy : : pub_with_shorthand , clippy : : redundant_pub_crate , clippy : : single_char_lifetime_names , clippy : : type_repetition_in_bounds , clippy : : elidable_lifetime_names , clippy : : missing_const_for_fn , clippy : : needless_lifetimes , clippy : : semicolon_if_nothing_returned , clippy : : use_self , clippy : : used_underscore_binding ) ] const _ : ( ) = { # [ allow ( unused_extern_crates ) ] extern crate pin_project as _pin_project ; # [ allow ( dead_code , clippy : : missing_docs_in_private_items , clippy : : mut_mut ) ] struct __TupleStructProjection < ' pin , T , U > ( : : pin_project : : __private : : Pin < & ' pin mut ( T ) > , & ' pin mut ( U ) ) where TupleStruct < T , U > : ' pin ; # [ allow ( dead_code , clippy : : missing_docs_in_private_items , clippy : : ref_option_ref ) ] struct __TupleStructProjectionRef < ' pin , T , U > ( : : pin_project : : __private : : Pin < & ' pin ( T ) > , & ' pin ( U ) ) where TupleStruct < T , U > : ' pin ; impl < T , U > TupleStruct < T , U > { # [ allow ( dead_code ) ] # [ inline ] fn project < ' pin > ( self : _pin_project : : __private : : Pin < & ' pin mut Self > ) - > __TupleStructProjection < ' pin , T , U > { unsafe { let Self ( _0 , _1 ) = self . get_unchecked_mut ( ) ; __TupleStructProjection ( _pin_project : : __private : : Pin : : new_unchecked ( _0 ) , _1 ) } } # [ allow ( dead_code ) ] # [ inline ] fn project_ref < ' pin > ( self : _pin_project : : __private : : Pin < & ' pin Self > ) - > __TupleStructProjectionRef < ' pin , T , U > { unsafe { let Self ( _0 , _1 ) = self . get_ref ( ) ; __TupleStructProjectionRef ( _pin_project : : __private : : Pin : : new_unchecked ( _0 ) , _1 ) } } # [ allow ( dead_code ) ] # [ inline ] fn project_replace ( self : _pin_project : : __private : : Pin < & mut Self > , __replacement : Self ) - > ProjOwn < T , U > { unsafe { let __self_ptr : * mut Self = self . get_unchecked_mut ( ) ; let __guard = _pin_project : : __private : : UnsafeOverwriteGuard : : new ( __self_ptr , __replacement ) ; let Self ( _0 , _1 ) = & mut * __self_ptr ; let __result = ProjOwn ( _pin_project : : __private : : PhantomData , _pin_project : : __private : : ptr : : read ( _1 ) ) ; { let __guard = _pin_project : : __private : : UnsafeDropInPlaceGuard : : new ( _0 ) ; } __result } } } # [ forbid ( unaligned_references , safe_packed_borrows ) ] fn __assert_not_repr_packed < T , U > ( this : & TupleStruct < T , U > ) { let _ = & this . 0 ; let _ = & this . 1 ; } # [ allow ( missing_debug_implementations , unnameable_types ) ] struct __TupleStruct < ' pin , T , U > { __pin_project_use_generics : _pin_project : : __private : : AlwaysUnpin < ' pin , ( _pin_project : : __private : : PhantomData < T > , _pin_project : : __private : : PhantomData < U > ) > , __field0 : T } impl < ' pin , T , U > _pin_project : : __private : : Unpin for TupleStruct < T , U > where _pin_project : : __private : : PinnedFieldsOf < __TupleStruct < ' pin , T , U > > : _pin_project : : __private : : Unpin { } # [ doc ( hidden ) ] unsafe impl < ' pin , T , U > _pin_project : : UnsafeUnpin for TupleStruct < T , U > where _pin_project : : __private : : PinnedFieldsOf < __TupleStruct < ' pin , T , U > > : _pin_project : : __private : : Unpin { } trait TupleStructMustNotImplDrop { } # [ allow ( clippy : : drop_bounds , drop_bounds ) ] impl < T : _pin_project : : __private : : Drop > TupleStructMustNotImplDrop for T { } impl < T , U > TupleStructMustNotImplDrop for TupleStruct < T , U > { } # [ doc ( hidden ) ] impl < T , U > _pin_project : : __private : : PinnedDrop for TupleStruct < T , U > { unsafe fn drop ( self : _pin_project : : __private : : Pin < & mut Self > ) { } } } ;".
Proof. vm_compute. reflexivity. Qed.
(** /repo/tests/expand/naming/tuple_struct-ref.rs *)
Example expand_naming_tuple_struct_ref : expanded [TIdent (I "project_ref"); TPunct "=" false; TIdent (I "ProjRef")]
  (mkRItem [] (RStruct VInherited (I "TupleStruct") (mkRGenerics [([], PTy (I "T") [] None); ([], PTy (I "U") [] None)] None) (RUnnamed [mkRField [RAttr (mkAttr false [(I "pin")] MPath)] VInherited None (TyPath None (Path false [(Seg (I "T") GNone)])); mkRField [] VInherited None (TyPath None (Path false [(Seg (I "U") GNone)]))])))
  = Some "# [ allow ( dead_code , deprecated , explicit_outlives_requirements , single_use_lifetimes , unreachable_pub , unused_tuple_struct_fields , clippy : : unknown_clippy_lints , clippy : : absolute_paths , clippy : : min_ident_chars , clippy : : pattern_type_mismatch , clippy : : pub_with_shorthand , clippy : : redundant_pub_crate , clippy : : single_char_lifetime_names , clippy : : type_repetition_in_bounds , clippy : : missing_docs_in_private_items , clippy : : ref_option_ref ) ] struct ProjRef < ' pin , T , U > ( : : pin_project : : __private : : Pin < & ' pin ( T ) > , & ' pin ( U ) ) where TupleStruct < T , U > : ' pin ; # [ allow ( unused_qualifications , deprecated , explicit_outlives_requirements , single_use_lifetimes , unreachable_pub , unused_tuple_struct_fields , clippy : : unknown_clippy_lints , clippy : : absolute_paths , clippy : : min_ident_chars , clippy : : pattern_type_mismatch , clippy : : pub_with_shorthand , clippy : : redundant_pub_crate , clippy : : single_char_lifetime_names , clippy : : type_repetition_in_bounds , clippy : : elidable_lifetime_names , clippy : : missing_const_for_fn , clippy : : needless_lifetimes , clippy : : semicolon_if_nothing_returned , clippy : : use_self , clippy : : used_underscore_binding ) ] const _ : ( ) = { # [ allow ( unused_extern_crates ) ] extern crate pin_project as _pin_project ; # [ allow ( dead_code , clippy : : missing_docs_in_private_items , clippy : : mut_mut ) ] struct __TupleStructProjection < ' pin , T , U > ( : : pin_project : : __private : : Pin < & ' pin mut ( T ) > , & ' pin mut ( U ) ) where TupleStruct < T , U > : ' pin ; impl < T , U > TupleStruct < T , U > { # [ allow ( dead_code ) ] # [ inline ] fn project < ' pin > ( self : _pin_project : : __private : : Pin < & ' pin mut Self > ) - > __TupleStructProjection < ' pin , T , U > { unsafe { let Self ( _0 , _1 ) = self . get_unchecked_mut ( ) ; __TupleStructProjection ( _pin_project : : __private : : Pin : : new_unchecked ( _0 ) , _1 ) } } # [ allow ( dead_code ) ] # [ inline ] fn project_ref < ' pin > ( self : _pin_project : : __private : : Pin < & ' pin Self > ) - > ProjRef < ' pin , T , U > { unsafe { let Self ( _0 , _1 ) = self . get_ref ( ) ; ProjRef ( _pin_project : : __private : : Pin : : new_unchecked ( _0 ) , _1 ) } } } # [ forbid ( unaligned_references , safe_packed_borrows ) ] fn __assert_not_repr_packed < T , U > ( this : & TupleStruct < T , U > ) { let _ = & this . 0 ; let _ = & this . 1 ; } # [ allow ( missing_debug_implementations , unnameable_types ) ] struct __TupleStruct < ' pin , T , U > { __pin_project_use_generics : _pin_project : : __private : : AlwaysUnpin < ' pin , ( _pin_project : : __private : : PhantomData < T > , _pin_project : : __private : : PhantomData < U > ) > , __field0 : T } impl < ' pin , T , U > _pin_project : : __private : : Unpin for TupleStruct < T , U > where _pin_project : : __private : : PinnedFieldsOf < __TupleStruct < ' pin , T , U > > : _pin_project : : __private : : Unpin { } # [ doc ( hidden ) ] unsafe impl < ' pin , T , U > _pin_project : : UnsafeUnpin for TupleStruct < T , U > where _pin_project : : __private : : PinnedFieldsOf < __TupleStruct < ' pin , T , U > > : _pin_project : : __private : : Unpin { } trait TupleStructMustNotImplDrop { } # [ allow ( clippy : : drop_bounds , drop_bounds ) ] impl < T : _pin_project : : __private : : Drop > TupleStructMustNotImplDrop for T { } impl < T , U > TupleStructMustNotImplDrop for TupleStruct < T , U > { } # [ doc ( hidden ) ] impl < T , U > _pin_project : : __private : : PinnedDrop for TupleStruct < T , U > { unsafe fn drop ( self : _pin_project : : __private : : Pin < & mut Self > ) { } } } ;".
Proof. vm_compute. reflexivity. Qed.
(** /repo/tests/expand/not_unpin/enum.rs *)
Example expand_not_unpin_enum : expanded [TPunct "!" false; TIdent (I "Unpin"); TPunct "," false; TIdent (I "project"); TPunct "=" false; TIdent (I "EnumProj"); TPunct "," false; TIdent (I "project_ref"); TPunct "=" false; TIdent (I "EnumProjRef")]
  (mkRItem [] (REnum VInherited (I "Enum") (mkRGenerics [([], PTy (I "T") [] None); ([], PTy (I "U") [] None)] None) [mkRVariant [] (I "Struct") (RNamed [mkRField [RAttr (mkAttr false [(I "pin")] MPath)] VInherited (Some (I "pinned")) (TyPath None (Path false [(Seg (I "T") GNone)])); mkRField [] VInherited (Some (I "unpinned")) (TyPath None (Path false [(Seg (I "U") GNone)]))]) false; mkRVariant [] (I "Tuple") (RUnnamed [mkRField [RAttr (mkAttr false [(I "pin")] MPath)] VInherited None (TyPath None (Path false [(Seg (I "T") GNone)])); mkRField [] VInherited None (TyPath None (Path false [(Seg (I "U") GNone)]))]) false; mkRVariant [] (I "Unit") RUnit false]))
  = Some "# [ allow ( dead_code , deprecated , explicit_outlives_requirements , single_use_lifetimes , unreachable_pub , unused_tuple_struct_fields , clippy : : unknown_clippy_lints , clippy : : absolute_paths , clippy : : min_ident_chars , clippy : : pattern_type_mismatch , clippy : : pub_with_shorthand , clippy : : redundant_pub_crate , clippy : : single_char_lifetime_names , clippy : : type_repetition_in_bounds , clippy : : missing_docs_in_private_items , clippy : : mut_mut ) ] enum EnumProj < ' pin , T , U > where Enum < T , U > : ' pin { Struct { pinned : : : pin_project : : __private : : Pin < & ' pin mut ( T ) > , unpinned : & ' pin mut ( U ) } , Tuple ( : : pin_project : : __private : : Pin < & ' pin mut ( T ) > , & ' pin mut ( U ) ) , Unit } # [ allow ( dead_code , deprecated , explicit_outlives_requirements , single_use_lifetimes , unreachable_pub , unused_tuple_struct_fields , clippy : : unknown_clippy_lints , clippy : : absolute_paths , clippy : : min_ident_chars , clippy : : pattern_type_mismatch , clippy : : pub_with_shorthand , clippy : : redundant_pub_crate , clippy : : single_char_lifetime_names , clippy : : type_repetition_in_bounds , clippy : : missing_docs_in_private_items , clippy : : ref_option_ref ) ] enum EnumProjRef < ' pin , T , U > where Enum < T , U > : ' pin { Struct { pinned : : : pin_project : : __private : : Pin < & ' pin ( T ) > , unpinned : & ' pin ( U ) } , Tuple ( : : pin_project : : __private : : Pin < & ' pin ( T ) > , & ' pin ( U ) ) , Unit } # [ allow ( unused_qualifications , deprecated , explicit_outlives_requirements , single_use_lifetimes , unreachable_pub , unused_tuple_struct_fields , clippy : : unknown_clippy_lints , clippy : : absolute_paths , clippy : : min_ident_chars , clippy : : pattern_type_mismatch , clippy : : pub_with_shorthand , clippy : : redundant_pub_crate , clippy : : single_char_lifetime_names , clippy : : type_repetition_in_bounds , clippy : : elidable_lifetime_names , clippy : : missing_const_for_fn , clippy : : needless_lifetimes , clippy : : semicolon_if_nothing_returned , clippy : : use_self , clippy : : used_underscore_binding ) ] const _ : ( ) = { # [ allow ( unused_extern_crates ) ] extern crate pin_project as _pin_project ; impl < T , U > Enum < T , U > { # [ allow ( dead_code ) ] # [ inline ] fn project < ' pin > ( self : _pin_project : : __private : : Pin < & ' pin mut Self > ) - > EnumProj < ' pin , T , U > { unsafe { match self . get_unchecked_mut ( ) { Self : : Struct { pinned , unpinned } = > EnumProj : : Struct { pinned : _pin_project : : __private : : Pin : : new_unchecked ( pinned ) , unpinned } , Self : : Tuple ( _0 , _1 ) = > EnumProj : : Tuple ( _pin_project : : __private : : Pin : : new_unchecked ( _0 ) , _1 ) , Self : : Unit = > EnumProj : : Unit , } } } # [ allow ( dead_code ) ] # [ inline ] fn project_ref < ' pin > ( self : _pin_project : : __private : : Pin < & ' pin Self > ) - > EnumProjRef < ' pin , T , U > { unsafe { match self . get_ref ( ) { Self : : Struct { pinned , unpinned } = > EnumProjRef : : Struct { pinned : _pin_project : : __private : : Pin : : new_unchecked ( pinned ) , unpinned } , Self : : Tuple ( _0 , _1 ) = > EnumProjRef : : Tuple ( _pin_project : : __private : : Pin : : new_unchecked ( _0 ) , _1 ) , Self : : Unit = > EnumProjRef : : Unit , } } } } # [ doc ( hidden ) ] impl < ' pin , T , U > _pin_project : : __private : : Unpin for Enum < T , U > where _pin_project : : __private : : PinnedFieldsOf < _pin_project : : __private : : Wrapper < ' pin , _pin_project : : __private : : PhantomPinned > > : _pin_project : : __private : : Unpin { } # [ doc ( hidden ) ] unsafe impl < ' pin , T , U > _pin_project : : UnsafeUnpin for Enum < T , U > where _pin_project : : __private : : PinnedFieldsOf < _pin_project : : __private : : Wrapper < ' pin , _pin_project : : __private : : PhantomPinned > > : _pin_project : : __private : : Unpin { } trait EnumMustNotImplDrop { } # [ allow ( clippy : : drop_bounds , drop_bounds ) ] impl < T : _pin_project : : __private : : Drop > EnumMustNotImplDrop for T { } impl < T , U > EnumMustNotImplDrop for Enum < T , U > { } # [ doc ( hidden ) ] impl < T , U > _pin_project : : __private : : PinnedDrop for Enum < T , U > { unsafe fn drop ( self : _pin_project : : __private : : Pin < & mut Self > ) { } } } ;".
Proof. vm_compute. reflexivity. Qed.
(** /repo/tests/expand/not_unpin/struct.rs *)
Example expand_not_unpin_struct : expanded [TPunct "!" false; TIdent (I "Unpin")]
  (mkRItem [] (RStruct VInherited (I "Struct") (mkRGenerics [([], PTy (I "T") [] None); ([], PTy (I "U") [] None)] None) (RNamed [mkRField [RAttr (mkAttr false [(I "pin")] MPath)] VInherited (Some (I "pinned")) (TyPath None (Path false [(Seg (I "T") GNone)])); mkRField [] VInherited (Some (I "unpinned")) (TyPath None (Path false [(Seg (I "U") GNone)]))])))
  = Some "# [ allow ( unused_qualifications , deprecated , explicit_outlives_requirements , single_use_lifetimes , unreachable_pub , unused_tuple_struct_fields , clippy : : unknown_clippy_lints , clippy : : absolute_paths , clippy : : min_ident_chars , clippy : : pattern_type_mismatch , clippy : : pub_with_shorthand , clippy : : redundant_pub_crate , clippy : : single_char_lifetime_names , clippy : : type_repetition_in_bounds , clippy : : elidable_lifetime_names , clippy : : missing_const_for_fn , clippy : : needless_lifetimes , clippy : : semicolon_if_nothing_returned , clippy : : use_self , clippy : : used_underscore_binding ) ] const _ : ( ) = { # [ allow ( unused_extern_crates ) ] extern crate pin_project as _pin_project ; # [ allow ( dead_code , clippy : : missing_docs_in_private_items , clippy : : mut_mut ) ] struct __StructProjection < ' pin , T , U > where Struct < T , U > : ' pin { pinned : : : pin_project : : __private : : Pin < & ' pin mut ( T ) > , unpinned : & ' pin mut ( U ) } # [ allow ( dead_code , clippy : : missing_docs_in_private_items , clippy : : ref_option_ref ) ] struct __StructProjectionRef < ' pin , T , U > where Struct < T , U > : ' pin { pinned : : : pin_project : : __private : : Pin < & ' pin ( T ) > , unpinned : & ' pin ( U ) } impl < T , U > Struct < T , U > { # [ allow ( dead_code ) ] # [ inline ] fn project < ' pin > ( self : _pin_project : : __private : : Pin < & ' pin mut Self > ) - > __StructProjection < ' pin , T , U > { unsafe { let Self { pinned , unpinned } = self . get_unchecked_mut ( ) ; __StructProjection { pinned : _pin_project : : __private : : Pin : : new_unchecked ( pinned ) , unpinned } } } # [ allow ( dead_code ) ] # [ inline ] fn project_ref < ' pin > ( self : _pin_project : : __private : : Pin < & ' pin Self > ) - > __StructProjectionRef < ' pin , T , U > { unsafe { let Self { pinned , unpinned } = self . get_ref ( ) ; __StructProjectionRef { pinned : _pin_project : : __private : : Pin : : new_unchecked ( pinned ) , unpinned } } } } # [ forbid ( unaligned_references , safe_packed_borrows ) ] fn __assert_not_repr_packed < T , U > ( this : & Struct < T , U > ) { let _ = & this . pinned ; let _ = & this . unpinned ; } # [ doc ( hidden ) ] impl < ' pin , T , U > _pin_project : : __private : : Unpin for Struct < T , U > where _pin_project : : __private : : PinnedFieldsOf < _pin_project : : __private : : Wrapper < ' pin , _pin_project : : __private : : PhantomPinned > > : _pin_project : : __private : : Unpin { } # [ doc ( hidden ) ] unsafe impl < ' pin , T , U > _pin_project : : UnsafeUnpin for Struct < T , U > where _pin_project : : __private : : PinnedFieldsOf < _pin_project : : __private : : Wrapper < ' pin , _pin_project : : __private : : PhantomPinned > > : _pin_project : : __private : : Unpin { } trait StructMustNotImplDrop { } # [ allow ( clippy : : drop_bounds , drop_bounds ) ] impl < T : _pin_project : : __private : : Drop > StructMustNotImplDrop for T { } impl < T , U > StructMustNotImplDrop for Struct < T , U > { } # [ doc ( hidden ) ] impl < T , U > _pin_project : : __private : : PinnedDrop for Struct < T , U > { unsafe fn drop ( self : _pin_project : : __private : : Pin < & mut Self > ) { } } } ;".
Proof. vm_compute. reflexivity. Qed.
(** /repo/tests/expand/not_unpin/tuple_struct.rs *)
Example expand_not_unpin_tuple_struct : expanded [TPunct "!" false; TIdent (I "Unpin")]
  (mkRItem [] (RStruct VInherited (I "TupleStruct") (mkRGenerics [([], PTy (I "T") [] None); ([], PTy (I "U") [] None)] None) (RUnnamed [mkRField [RAttr (mkAttr false [(I "pin")] MPath)] VInherited None (TyPath None (Path false [(Seg (I "T") GNone)])); mkRField [] VInherited None (TyPath None (Path false [(Seg (I "U") GNone)]))])))
  = Some "# [ allow ( unused_qualifications , deprecated , explicit_outlives_requirements , single_use_lifetimes , unreachable_pub , unused_tuple_struct_fields , clippy : : unknown_clippy_lints , clippy : : absolute_paths , clippy : : min_ident_chars , clippy : : pattern_type_mismatch , clippy : : pub_with_shorthand , clippy : : redundant_pub_crate , clippy : : single_char_lifetime_names , clippy : : type_repetition_in_bounds , clippy : : elidable_lifetime_names , clippy : : missing_const_for_fn , clippy : : needless_lifetimes , clippy : : semicolon_if_nothing_returned , clippy : : use_self , clippy : : used_underscore_binding ) ] const _ : ( ) = { # [ allow ( unused_extern_crates ) ] extern crate pin_project as _pin_project ; # [ allow ( dead_code , clippy : : missing_docs_in_private_items , clippy : : mut_mut ) ] struct __TupleStructProjection < ' pin , T , U > ( : : pin_project : : __private : : Pin < & ' pin mut ( T ) > , & ' pin mut ( U ) ) where TupleStruct < T , U > : ' pin ; # [ allow ( dead_code , clippy : : missing_docs_in_private_items , clippy : : ref_option_ref ) ] struct __TupleStructProjectionRef < ' pin , T , U > ( : : pin_project : : __private : : Pin < & ' pin ( T ) > , & ' pin ( U ) ) where TupleStruct < T , U > : ' pin ; impl < T , U > TupleStruct < T , U > { # [ allow ( dead_code ) ] # [ inline ] fn project < ' pin > ( self : _pin_project : : __private : : Pin < & ' pin mut Self > ) - > __TupleStructProjection < ' pin , T , U > { unsafe { let Self ( _0 , _1 ) = self . get_unchecked_mut ( ) ; __TupleStructProjection ( _pin_project : : __private : : Pin : : new_unchecked ( _0 ) , _1 ) } } # [ allow ( dead_code ) ] # [ inline ] fn project_ref < ' pin > ( self : _pin_project : : __private : : Pin < & ' pin Self > ) - > __TupleStructProjectionRef < ' pin , T , U > { unsafe { let Self ( _0 , _1 ) = self . get_ref ( ) ; __TupleStructProjectionRef ( _pin_project : : __private : : Pin : : new_unchecked ( _0 ) , _1 ) } } } # [ forbid ( unaligned_references , safe_packed_borrows ) ] fn __assert_not_repr_packed < T , U > ( this : & TupleStruct < T , U > ) { let _ = & this . 0 ; let _ = & this . 1 ; } # [ doc ( hidden ) ] impl < ' pin , T , U > _pin_project : : __private : : Unpin for TupleStruct < T , U > where _pin_project : : __private : : PinnedFieldsOf < _pin_project : : __private : : Wrapper < ' pin , _pin_project : : __private : : PhantomPinned > > : _pin_project : : __private : : Unpin { } # [ doc ( hidden ) ] unsafe impl < ' pin , T , U > _pin_project : : UnsafeUnpin for TupleStruct < T , U > where _pin_project : : __private : : PinnedFieldsOf < _pin_project : : __private : : Wrapper < ' pin , _pin_project : : __private : : PhantomPinned > > : _pin_project : : __private : : Unpin { } trait TupleStructMustNotImplDrop { } # [ allow ( clippy : : drop_bounds , drop_bounds ) ] impl < T : _pin_project : : __private : : Drop > TupleStructMustNotImplDrop for T { } impl < T , U > TupleStructMustNotImplDrop for TupleStruct < T , U > { } # [ doc ( hidden ) ] impl < T , U > _pin_project : : __private : : PinnedDrop for TupleStruct < T , U > { unsafe fn drop ( self : _pin_project : : __private : : Pin < & mut Self > ) { } } } ;".
Proof. vm_compute. reflexivity. Qed.
(** /repo/tests/expand/pinned_drop/enum.rs *)
Example expand_pinned_drop_enum : expanded [TIdent (I "PinnedDrop"); TPunct "," false; TIdent (I "project"); TPunct "=" false; TIdent (I "EnumProj"); TPunct "," false; TIdent (I "project_ref"); TPunct "=" false; TIdent (I "EnumProjRef")]
  (mkRItem [] (REnum VInherited (I "Enum") (mkRGenerics [([], PTy (I "T") [] None); ([], PTy (I "U") [] None)] None) [mkRVariant [] (I "Struct") (RNamed [mkRField [RAttr (mkAttr false [(I "pin")] MPath)] VInherited (Some (I "pinned")) (TyPath None (Path false [(Seg (I "T") GNone)])); mkRField [] VInherited (Some (I "unpinned")) (TyPath None (Path false [(Seg (I "U") GNone)]))]) false; mkRVariant [] (I "Tuple") (RUnnamed [mkRField [RAttr (mkAttr false [(I "pin")] MPath)] VInherited None (TyPath None (Path false [(Seg (I "T") GNone)])); mkRField [] VInherited None (TyPath None (Path false [(Seg (I "U") GNone)]))]) false; mkRVariant [] (I "Unit") RUnit false]))
  = Some "# [ allow ( dead_code , deprecated , explicit_outlives_requirements , single_use_lifetimes , unreachable_pub , unused_tuple_struct_fields , clippy : : unknown_clippy_lints , clippy : : absolute_paths , clippy : : min_ident_chars , clippy : : pattern_type_mismatch , clippy : : pub_with_shorthand , clippy : : redundant_pub_crate , clippy : : single_char_lifetime_names , clippy : : type_repetition_in_bounds , clippy : : missing_docs_in_private_items , clippy : : mut_mut ) ] enum EnumProj < ' pin , T , U > where Enum < T , U > : ' pin { Struct { pinned : : : pin_project : : __private : : Pin < & ' pin mut ( T ) > , unpinned : & ' pin mut ( U ) } , Tuple ( : : pin_project : : __private : : Pin < & ' pin mut ( T ) > , & ' pin mut ( U ) ) , Unit } # [ allow ( dead_code , deprecated , explicit_outlives_requirements , single_use_lifetimes , unreachable_pub , unused_tuple_struct_fields , clippy : : unknown_clippy_lints , clippy : : absolute_paths , clippy : : min_ident_chars , clippy : : pattern_type_mismatch , clippy : : pub_with_shorthand , clippy : : redundant_pub_crate , clippy : : single_char_lifetime_names , clippy : : type_repetition_in_bounds , clippy : : missing_docs_in_private_items , clippy : : ref_option_ref ) ] enum EnumProjRef < ' pin , T , U > where Enum < T , U > : ' pin { Struct { pinned : : : pin_project : : __private : : Pin < & ' pin ( T ) > , unpinned : & ' pin ( U ) } , Tuple ( : : pin_project : : __private : : Pin < & ' pin ( T ) > , & ' pin ( U ) ) , Unit } # [ allow ( unused_qualifications , deprecated , explicit_outlives_requirements , single_use_lifetimes , unreachable_pub , unused_tuple_struct_fields , clippy : : unknown_clippy_lints , clippy : : absolute_paths , clippy : : min_ident_chars , clippy : : pattern_type_mismatch , clippy : : pub_with_shorthand , clippy : : redundant_pub_crate , clippy : : single_char_lifetime_names , clippy : : type_repetition_in_bounds , clippy : : elidable_lifetime_names , clippy : : missing_const_for_fn , clippy : : needless_lifetimes , clippy : : semicolon_if_nothing_returned , clippy : : use_self , clippy : : used_underscore_binding ) ] const _ : ( ) = { # [ allow ( unused_extern_crates ) ] extern crate pin_project as _pin_project ; impl < T , U > Enum < T , U > { # [ allow ( dead_code ) ] # [ inline ] fn project < ' pin > ( self : _pin_project : : __private : : Pin < & ' pin mut Self > ) - > EnumProj < ' pin , T , U > { unsafe { match self . get_unchecked_mut ( ) { Self : : Struct { pinned , unpinned } = > EnumProj : : Struct { pinned : _pin_project : : __private : : Pin : : new_unchecked ( pinned ) , unpinned } , Self : : Tuple ( _0 , _1 ) = > EnumProj : : Tuple ( _pin_project : : __private : : Pin : : new_unchecked ( _0 ) , _1 ) , Self : : Unit = > EnumProj : : Unit , } } } # [ allow ( dead_code ) ] # [ inline ] fn project_ref < ' pin > ( self : _pin_project : : __private : : Pin < & ' pin Self > ) - > EnumProjRef < ' pin , T , U > { unsafe { match self . get_ref ( ) { Self : : Struct { pinned , unpinned } = > EnumProjRef : : Struct { pinned : _pin_project : : __private : : Pin : : new_unchecked ( pinned ) , unpinned } , Self : : Tuple ( _0 , _1 ) = > EnumProjRef : : Tuple ( _pin_project : : __private : : Pin : : new_unchecked ( _0 ) , _1 ) , Self : : Unit = > EnumProjRef : : Unit , } } } } # [ allow ( missing_debug_implementations , unnameable_types ) ] struct __Enum < ' pin , T , U > { __pin_project_use_generics : _pin_project : : __private : : AlwaysUnpin < ' pin , ( _pin_project : : __private : : PhantomData < T > , _pin_project : : __private : : PhantomData < U > ) > , __field0 : T , __field1 : T } impl < ' pin , T , U > _pin_project : : __private : : Unpin for Enum < T , U > where _pin_project : : __private : : PinnedFieldsOf < __Enum < ' pin , T , U > > : _pin_project : : __private : : Unpin { } # [ doc ( hidden ) ] unsafe impl < ' pin , T , U > _pin_project : : UnsafeUnpin for Enum < T , U > where _pin_project : : __private : : PinnedFieldsOf < __Enum < ' pin , T , U > > : _pin_project : : __private : : Unpin { } impl < T , U > _pin_project : : __private : : Drop for Enum < T , U > { # [ allow ( clippy : : missing_inline_in_public_items ) ] fn drop ( & mut self ) { unsafe { let __pinned_self = _pin_project : : __private : : Pin : : new_unchecked ( self ) ; _pin_project : : __private : : PinnedDrop : : drop ( __pinned_self ) ; } } } } ;".
Proof. vm_compute. reflexivity. Qed.
Example expand_pinned_drop_enum_impl : expanded_impl
  (mkItemImpl [] false false (mkGenerics [PTy (I "T") [] None; PTy (I "U") [] None] None) (Some (false, (Path false [(Seg (I "PinnedDrop") GNone)]))) (TyPath None (Path false [(Seg (I "Enum") (GAngle false [(ATy (TyPath None (Path false [(Seg (I "T") GNone)]))); (ATy (TyPath None (Path false [(Seg (I "U") GNone)])))]))])) [IIFn (mkIMethod [] VInherited false (mkSig false false false false (I "drop") (mkGenerics [] None) [FRecv [] None false (Some (TyPath None (Path false [(Seg (I "Pin") (GAngle false [(ATy (TyRef None true (TyPath None (Path false [(Seg (I "Self") GNone)]))))]))])))] false None) [YLet QWild None (Some (XPath None (Path false [(Seg (I "self") GNone)])))])])
  = Some "# [ doc ( hidden ) ] impl < T , U > : : pin_project : : __private : : PinnedDrop for Enum < T , U > { unsafe fn drop ( self : Pin < & mut Self > ) { # [ allow ( clippy : : missing_const_for_fn , clippy : : needless_pass_by_value , clippy : : single_call_fn ) ] fn __drop_inner < T , U > ( __self : Pin < & mut Enum < T , U > > ) { fn __drop_inner ( ) { } let _ = __self ; } __drop_inner ( self ) ; } }".
Proof. vm_compute. reflexivity. Qed.
(** /repo/tests/expand/pinned_drop/struct.rs *)
Example expand_pinned_drop_struct : expanded [TIdent (I "PinnedDrop")]
  (mkRItem [] (RStruct VInherited (I "Struct") (mkRGenerics [([], PTy (I "T") [] None); ([], PTy (I "U") [] None)] None) (RNamed [mkRField [RAttr (mkAttr false [(I "pin")] MPath)] VInherited (Some (I "pinned")) (TyPath None (Path false [(Seg (I "T") GNone)])); mkRField [] VInherited (Some (I "unpinned")) (TyPath None (Path false [(Seg (I "U") GNone)]))])))
  = Some "# [ allow ( unused_qualifications , deprecated , explicit_outlives_requirements , single_use_lifetimes , unreachable_pub , unused_tuple_struct_fields , clippy : : unknown_clippy_lints , clippy : : absolute_paths , clippy : : min_ident_chars , clippy : : pattern_type_mismatch , clippy : : pub_with_shorthand , clippy : : redundant_pub_crate , clippy : : single_char_lifetime_names , clippy : : type_repetition_in_bounds , clippy : : elidable_lifetime_names , clippy : : missing_const_for_fn , clippy : : needless_lifetimes , clippy : : semicolon_if_nothing_returned , clippy : : use_self , clippy : : used_underscore_binding ) ] const _ : ( ) = { # [ allow ( unused_extern_crates ) ] extern crate pin_project as _pin_project ; # [ allow ( dead_code , clippy : : missing_docs_in_private_items , clippy : : mut_mut ) ] struct __StructProjection < ' pin , T , U > where Struct < T , U > : ' pin { pinned : : : pin_project : : __private : : Pin < & ' pin mut ( T ) > , unpinned : & ' pin mut ( U ) } # [ allow ( dead_code , clippy : : missing_docs_in_private_items , clippy : : ref_option_ref ) ] struct __StructProjectionRef < ' pin , T , U > where Struct < T , U > : ' pin { pinned : : : pin_project : : __private : : Pin < & ' pin ( T ) > , unpinned : & ' pin ( U ) } impl < T , U > Struct < T , U > { # [ allow ( dead_code ) ] # [ inline ] fn project < ' pin > ( self : _pin_project : : __private : : Pin < & ' pin mut Self > ) - > __StructProjection < ' pin , T , U > { unsafe { let Self { pinned , unpinned } = self . get_unchecked_mut ( ) ; __StructProjection { pinned : _pin_project : : __private : : Pin : : new_unchecked ( pinned ) , unpinned } } } # [ allow ( dead_code ) ] # [ inline ] fn project_ref < ' pin > ( self : _pin_project : : __private : : Pin < & ' pin Self > ) - > __StructProjectionRef < ' pin , T , U > { unsafe { let Self { pinned , unpinned } = self . get_ref ( ) ; __StructProjectionRef { pinned : _pin_project : : __private : : Pin : : new_unchecked ( pinned ) , unpinned } } } } # [ forbid ( unaligned_references , safe_packed_borrows ) ] fn __assert_not_repr_packed < T , U > ( this : & Struct < T , U > ) { let _ = & this . pinned ; let _ = & this . unpinned ; } # [ allow ( missing_debug_implementations , unnameable_types ) ] struct __Struct < ' pin , T , U > { __pin_project_use_generics : _pin_project : : __private : : AlwaysUnpin < ' pin , ( _pin_project : : __private : : PhantomData < T > , _pin_project : : __private : : PhantomData < U > ) > , __field0 : T } impl < ' pin , T , U > _pin_project : : __private : : Unpin for Struct < T , U > where _pin_project : : __private : : PinnedFieldsOf < __Struct < ' pin , T , U > > : _pin_project : : __private : : Unpin { } # [ doc ( hidden ) ] unsafe impl < ' pin , T , U > _pin_project : : UnsafeUnpin for Struct < T , U > where _pin_project : : __private : : PinnedFieldsOf < __Struct < ' pin , T , U > > : _pin_project : : __private : : Unpin { } impl < T , U > _pin_project : : __private : : Drop for Struct < T , U > { # [ allow ( clippy : : missing_inline_in_public_items ) ] fn drop ( & mut self ) { unsafe { let __pinned_self = _pin_project : : __private : : Pin : : new_unchecked ( self ) ; _pin_project : : __private : : PinnedDrop : : drop ( __pinned_self ) ; } } } } ;".
Proof. vm_compute. reflexivity. Qed.
Example expand_pinned_drop_struct_impl : expanded_impl
  (mkItemImpl [] false false (mkGenerics [PTy (I "T") [] None; PTy (I "U") [] None] None) (Some (false, (Path false [(Seg (I "PinnedDrop") GNone)]))) (TyPath None (Path false [(Seg (I "Struct") (GAngle false [(ATy (TyPath None (Path false [(Seg (I "T") GNone)]))); (ATy (TyPath None (Path false [(Seg (I "U") GNone)])))]))])) [IIFn (mkIMethod [] VInherited false (mkSig false false false false (I "drop") (mkGenerics [] None) [FRecv [] None false (Some (TyPath None (Path false [(Seg (I "Pin") (GAngle false [(ATy (TyRef None true (TyPath None (Path false [(Seg (I "Self") GNone)]))))]))])))] false None) [YLet QWild None (Some (XPath None (Path false [(Seg (I "self") GNone)])))])])
  = Some "# [ doc ( hidden ) ] impl < T , U > : : pin_project : : __private : : PinnedDrop for Struct < T , U > { unsafe fn drop ( self : Pin < & mut Self > ) { # [ allow ( clippy : : missing_const_for_fn , clippy : : needless_pass_by_value , clippy : : single_call_fn ) ] fn __drop_inner < T , U > ( __self : Pin < & mut Struct < T , U > > ) { fn __drop_inner ( ) { } let _ = __self ; } __drop_inner ( self ) ; } }".
Proof. vm_compute. reflexivity. Qed.
(** /repo/tests/expand/pinned_drop/tuple_struct.rs *)
Example expand_pinned_drop_tuple_struct : expanded [TIdent (I "PinnedDrop")]
  (mkRItem [] (RStruct VInherited (I "TupleStruct") (mkRGenerics [([], PTy (I "T") [] None); ([], PTy (I "U") [] None)] None) (RUnnamed [mkRField [RAttr (mkAttr false [(I "pin")] MPath)] VInherited None (TyPath None (Path false [(Seg (I "T") GNone)])); mkRField [] VInherited None (TyPath None (Path false [(Seg (I "U") GNone)]))])))
  = Some "# [ allow ( unused_qualifications , deprecated , explicit_outlives_requirements , single_use_lifetimes , unreachable_pub , unused_tuple_struct_fields , clippy : : unknown_clippy_lints , clippy : : absolute_paths , clippy : : min_ident_chars , clippy : : pattern_type_mismatch , clippy : : pub_with_shorthand , clippy : : redundant_pub_crate , clippy : : single_char_lifetime_names , clippy : : type_repetition_in_bounds , clippy : : elidable_lifetime_names , clippy : : missing_const_for_fn , clippy : : needless_lifetimes , clippy : : semicolon_if_nothing_returned , clippy : : use_self , clippy : : used_underscore_binding ) ] const _ : ( ) = { # [ allow ( unused_extern_crates ) ] extern crate pin_project as _pin_project ; # [ allow ( dead_code , clippy : : missing_docs_in_private_items , clippy : : mut_mut ) ] struct __TupleStructProjection < ' pin , T , U > ( : : pin_project : : __private : : Pin < & ' pin mut ( T ) > , & ' pin mut ( U ) ) where TupleStruct < T , U > : ' pin ; # [ allow ( dead_code , clippy : : missing_docs_in_private_items , clippy : : ref_option_ref ) ] struct __TupleStructProjectionRef < ' pin , T , U > ( : : pin_project : : __private : : Pin < & ' pin ( T ) > , & ' pin ( U ) ) where TupleStruct < T , U > : ' pin ; impl < T , U > TupleStruct < T , U > { # [ allow ( dead_code ) ] # [ inline ] fn project < ' pin > ( self : _pin_project : : __private : : Pin < & ' pin mut Self > ) - > __TupleStructProjection < ' pin , T , U > { unsafe { let Self ( _0 , _1 ) = self . get_unchecked_mut ( ) ; __TupleStructProjection ( _pin_project : : __private : : Pin : : new_unchecked ( _0 ) , _1 ) } } # [ allow ( dead_code ) ] # [ inline ] fn project_ref < ' pin > ( self : _pin_project : : __private : : Pin < & ' pin Self > ) - > __TupleStructProjectionRef < ' pin , T , U > { unsafe { let Self ( _0 , _1 ) = self . get_ref ( ) ; __TupleStructProjectionRef ( _pin_project : : __private : : Pin : : new_unchecked ( _0 ) , _1 ) } } } # [ forbid ( unaligned_references , safe_packed_borrows ) ] fn __assert_not_repr_packed < T , U > ( this : & TupleStruct < T , U > ) { let _ = & this . 0 ; let _ = & this . 1 ; } # [ allow ( missing_debug_implementations , unnameable_types ) ] struct __TupleStruct < ' pin , T , U > { __pin_project_use_generics : _pin_project : : __private : : AlwaysUnpin < ' pin , ( _pin_project : : __private : : PhantomData < T > , _pin_project : : __private : : PhantomData < U > ) > , __field0 : T } impl < ' pin , T , U > _pin_project : : __private : : Unpin for TupleStruct < T , U > where _pin_project : : __private : : PinnedFieldsOf < __TupleStruct < ' pin , T , U > > : _pin_project : : __private : : Unpin { } # [ doc ( hidden ) ] unsafe impl < ' pin , T , U > _pin_project : : UnsafeUnpin for TupleStruct < T , U > where _pin_project : : __private : : PinnedFieldsOf < __TupleStruct < ' pin , T , U > > : _pin_project : : __private : : Unpin { } impl < T , U > _pin_project : : __private : : Drop for TupleStruct < T , U > { # [ allow ( clippy : : missing_inline_in_public_items ) ] fn drop ( & mut self ) { unsafe { let __pinned_self = _pin_project : : __private : : Pin : : new_unchecked ( self ) ; _pin_project : : __private : : PinnedDrop : : drop ( __pinned_self ) ; } } } } ;".
Proof. vm_compute. reflexivity. Qed.
Example expand_pinned_drop_tuple_struct_impl : expanded_impl
  (mkItemImpl [] false false (mkGenerics [PTy (I "T") [] None; PTy (I "U") [] None] None) (Some (false, (Path false [(Seg (I "PinnedDrop") GNone)]))) (TyPath None (Path false [(Seg (I "TupleStruct") (GAngle false [(ATy (TyPath None (Path false [(Seg (I "T") GNone)]))); (ATy (TyPath None (Path false [(Seg (I "U") GNone)])))]))])) [IIFn (mkIMethod [] VInherited false (mkSig false false false false (I "drop") (mkGenerics [] None) [FRecv [] None false (Some (TyPath None (Path false [(Seg (I "Pin") (GAngle false [(ATy (TyRef None true (TyPath None (Path false [(Seg (I "Self") GNone)]))))]))])))] false None) [YLet QWild None (Some (XPath None (Path false [(Seg (I "self") GNone)])))])])
  = Some "# [ doc ( hidden ) ] impl < T , U > : : pin_project : : __private : : PinnedDrop for TupleStruct < T , U > { unsafe fn drop ( self : Pin < & mut Self > ) { # [ allow ( clippy : : missing_const_for_fn , clippy : : needless_pass_by_value , clippy : : single_call_fn ) ] fn __drop_inner < T , U > ( __self : Pin < & mut TupleStruct < T , U > > ) { fn __drop_inner ( ) { } let _ = __self ; } __drop_inner ( self ) ; } }".
Proof. vm_compute. reflexivity. Qed.
(** /repo/tests/expand/project_replace/enum.rs *)
Example expand_project_replace_enum : expanded [TIdent (I "project_replace"); TPunct "=" false; TIdent (I "EnumProjOwn")]
  (mkRItem [] (REnum VInherited (I "Enum") (mkRGenerics [([], PTy (I "T") [] None); ([], PTy (I "U") [] None)] None) [mkRVariant [] (I "Struct") (RNamed [mkRField [RAttr (mkAttr false [(I "pin")] MPath)] VInherited (Some (I "pinned")) (TyPath None (Path false [(Seg (I "T") GNone)])); mkRField [] VInherited (Some (I "unpinned")) (TyPath None (Path false [(Seg (I "U") GNone)]))]) false; mkRVariant [] (I "Tuple") (RUnnamed [mkRField [RAttr (mkAttr false [(I "pin")] MPath)] VInherited None (TyPath None (Path false [(Seg (I "T") GNone)])); mkRField [] VInherited None (TyPath None (Path false [(Seg (I "U") GNone)]))]) false; mkRVariant [] (I "Unit") RUnit false]))
  = Some "# [ allow ( dead_code , deprecated , explicit_outlives_requirements , single_use_lifetimes , unreachable_pub , unused_tuple_struct_fields , clippy : : unknown_clippy_lints , clippy : : absolute_paths , clippy : : min_ident_chars , clippy : : pattern_type_mismatch , clippy : : pub_with_shorthand , clippy : : redundant_pub_crate , clippy : : single_char_lifetime_names , clippy : : type_repetition_in_bounds , variant_size_differences , clippy : : large_enum_variant , clippy : : missing_docs_in_private_items ) ] enum EnumProjOwn < T , U > { Struct { pinned : : : pin_project : : __private : : PhantomData < T > , unpinned : U } , Tuple ( : : pin_project : : __private : : PhantomData < T > , U ) , Unit } # [ allow ( unused_qualifications , deprecated , explicit_outlives_requirements , single_use_lifetimes , unreachable_pub , unused_tuple_struct_fields , clippy : : unknown_clippy_lints , clippy : : absolute_paths , clippy : : min_ident_chars , clippy : : pattern_type_mismatch , clippy : : pub_with_shorthand , clippy : : redundant_pub_crate , clippy : : single_char_lifetime_names , clippy : : type_repetition_in_bounds , clippy : : elidable_lifetime_names , clippy : : missing_const_for_fn , clippy : : needless_lifetimes , clippy : : semicolon_if_nothing_returned , clippy : : use_self , clippy : : used_underscore_binding ) ] const _ : ( ) = { # [ allow ( unused_extern_crates ) ] extern crate pin_project as _pin_project ; impl < T , U > Enum < T , U > { # [ allow ( dead_code ) ] # [ inline ] fn project_replace ( self : _pin_project : : __private : : Pin < & mut Self > , __replacement : Self ) - > EnumProjOwn < T , U > { unsafe { let __self_ptr : * mut Self = self . get_unchecked_mut ( ) ; let __guard = _pin_project : : __private : : UnsafeOverwriteGuard : : new ( __self_ptr , __replacement ) ; match & mut * __self_ptr { Self : : Struct { pinned , unpinned } = > { let __result = EnumProjOwn : : Struct { pinned : _pin_project : : __private : : PhantomData , unpinned : _pin_project : : __private : : ptr : : read ( unpinned ) } ; { let __guard = _pin_project : : __private : : UnsafeDropInPlaceGuard : : new ( pinned ) ; } __result } Self : : Tuple ( _0 , _1 ) = > { let __result = EnumProjOwn : : Tuple ( _pin_project : : __private : : PhantomData , _pin_project : : __private : : ptr : : read ( _1 ) ) ; { let __guard = _pin_project : : __private : : UnsafeDropInPlaceGuard : : new ( _0 ) ; } __result } Self : : Unit = > { let __result = EnumProjOwn : : Unit ; { } __result } } } } } # [ allow ( missing_debug_implementations , unnameable_types ) ] struct __Enum < ' pin , T , U > { __pin_project_use_generics : _pin_project : : __private : : AlwaysUnpin < ' pin , ( _pin_project : : __private : : PhantomData < T > , _pin_project : : __private : : PhantomData < U > ) > , __field0 : T , __field1 : T } impl < ' pin , T , U > _pin_project : : __private : : Unpin for Enum < T , U > where _pin_project : : __private : : PinnedFieldsOf < __Enum < ' pin , T , U > > : _pin_project : : __private : : Unpin { } # [ doc ( hidden ) ] unsafe impl < ' pin , T , U > _pin_project : : UnsafeUnpin for Enum < T , U > where _pin_project : : __private : : PinnedFieldsOf < __Enum < ' pin , T , U > > : _pin_project : : __private : : Unpin { } trait EnumMustNotImplDrop { } # [ allow ( clippy : : drop_bounds , drop_bounds ) ] impl < T : _pin_project : : __private : : Drop > EnumMustNotImplDrop for T { } impl < T , U > EnumMustNotImplDrop for Enum < T , U > { } # [ doc ( hidden ) ] impl < T , U > _pin_project : : __private : : PinnedDrop for Enum < T , U > { unsafe fn drop ( self : _pin_project : : __private : : Pin < & mut Self > ) { } } } ;".
Proof. vm_compute. reflexivity. Qed.
(** /repo/tests/expand/project_replace/struct.rs *)
Example expand_project_replace_struct : expanded [TIdent (I "project_replace")]
  (mkRItem [] (RStruct VInherited (I "Struct") (mkRGenerics [([], PTy (I "T") [] None); ([], PTy (I "U") [] None)] None) (RNamed [mkRField [RAttr (mkAttr false [(I "pin")] MPath)] VInherited (Some (I "pinned")) (TyPath None (Path false [(Seg (I "T") GNone)])); mkRField [] VInherited (Some (I "unpinned")) (TyPath None (Path false [(Seg (I "U") GNone)]))])))
  = Some "# [ allow ( unused_qualifications , deprecated , explicit_outlives_requirements , single_use_lifetimes , unreachable_pub , unused_tuple_struct_fields , clippy : : unknown_clippy_lints , clippy : : absolute_paths , clippy : : min_ident_chars , clippy : : pattern_type_mismatch , clippy : : pub_with_shorthand , clippy : : redundant_pub_crate , clippy : : single_char_lifetime_names , clippy : : type_repetition_in_bounds , clippy : : elidable_lifetime_names , clippy : : missing_const_for_fn , clippy : : needless_lifetimes , clippy : : semicolon_if_nothing_returned , clippy : : use_self , clippy : : used_underscore_binding ) ] const _ : ( ) = { # [ allow ( unused_extern_crates ) ] extern crate pin_project as _pin_project ; # [ allow ( dead_code , clippy : : missing_docs_in_private_items , clippy : : mut_mut ) ] struct __StructProjection < ' pin , T , U > where Struct < T , U > : ' pin { pinned : : : pin_project : : __private : : Pin < & ' pin mut ( T ) > , unpinned : & ' pin mut ( U ) } # [ allow ( dead_code , clippy : : missing_docs_in_private_items , clippy : : ref_option_ref ) ] struct __StructProjectionRef < ' pin , T , U > where Struct < T , U > : ' pin { pinned : : : pin_project : : __private : : Pin < & ' pin ( T ) > , unpinned : & ' pin ( U ) } # [ allow ( dead_code , clippy : : missing_docs_in_private_items ) ] struct __StructProjectionOwned < T , U > { pinned : : : pin_project : : __private : : PhantomData < T > , unpinned : U } impl < T , U > Struct < T , U > { # [ allow ( dead_code ) ] # [ inline ] fn project < ' pin > ( self : _pin_project : : __private : : Pin < & ' pin mut Self > ) - > __StructProjection < ' pin , T , U > { unsafe { let Self { pinned , unpinned } = self . get_unchecked_mut ( ) ; __StructProjection { pinned : _pin_project : : __private : : Pin : : new_unchecked ( pinned ) , unpinned } } } # [ allow ( dead_code ) ] # [ inline ] fn project_ref < ' pin > ( self : _pin_project : : __private : : Pin < & ' pin Self > ) - > __StructProjectionRef < ' pin , T , U > { unsafe { let Self { pinned , unpinned } = self . get_ref ( ) ; __StructProjectionRef { pinned : _pin_project : : __private : : Pin : : new_unchecked ( pinned ) , unpinned } } } # [ allow ( dead_code ) ] # [ inline ] fn project_replace ( self : _pin_project : : __private : : Pin < & mut Self > , __replacement : Self ) - > __StructProjectionOwned < T , U > { unsafe { let __self_ptr : * mut Self = self . get_unchecked_mut ( ) ; let __guard = _pin_project : : __private : : UnsafeOverwriteGuard : : new ( __self_ptr , __replacement ) ; let Self { pinned , unpinned } = & mut * __self_ptr ; let __result = __StructProjectionOwned { pinned : _pin_project : : __private : : PhantomData , unpinned : _pin_project : : __private : : ptr : : read ( unpinned ) } ; { let __guard = _pin_project : : __private : : UnsafeDropInPlaceGuard : : new ( pinned ) ; } __result } } } # [ forbid ( unaligned_references , safe_packed_borrows ) ] fn __assert_not_repr_packed < T , U > ( this : & Struct < T , U > ) { let _ = & this . pinned ; let _ = & this . unpinned ; } # [ allow ( missing_debug_implementations , unnameable_types ) ] struct __Struct < ' pin , T , U > { __pin_project_use_generics : _pin_project : : __private : : AlwaysUnpin < ' pin , ( _pin_project : : __private : : PhantomData < T > , _pin_project : : __private : : PhantomData < U > ) > , __field0 : T } impl < ' pin , T , U > _pin_project : : __private : : Unpin for Struct < T , U > where _pin_project : : __private : : PinnedFieldsOf < __Struct < ' pin , T , U > > : _pin_project : : __private : : Unpin { } # [ doc ( hidden ) ] unsafe impl < ' pin , T , U > _pin_project : : UnsafeUnpin for Struct < T , U > where _pin_project : : __private : : PinnedFieldsOf < __Struct < ' pin , T , U > > : _pin_project : : __private : : Unpin { } trait StructMustNotImplDrop { } # [ allow ( clippy : : drop_bounds , drop_bounds ) ] impl < T : _pin_project : : __private : : Drop > StructMustNotImplDrop for T { } impl < T , U > StructMustNotImplDrop for Struct < T , U > { } # [ doc ( hidden ) ] impl < T , U > _pin_project : : __private : : PinnedDrop for Struct < T , U > { unsafe fn drop ( self : _pin_project : : __private : : Pin < & mut Self > ) { } } } ;".
Proof. vm_compute. reflexivity. Qed.
(** /repo/tests/expand/project_replace/tuple_struct.rs *)
Example expand_project_replace_tuple_struct : expanded [TIdent (I "project_replace")]
  (mkRItem [] (RStruct VInherited (I "TupleStruct") (mkRGenerics [([], PTy (I "T") [] None); ([], PTy (I "U") [] None)] None) (RUnnamed [mkRField [RAttr (mkAttr false [(I "pin")] MPath)] VInherited None (TyPath None (Path false [(Seg (I "T") GNone)])); mkRField [] VInherited None (TyPath None (Path false [(Seg (I "U") GNone)]))])))
  = Some "# [ allow ( unused_qualifications , deprecated , explicit_outlives_requirements , single_use_lifetimes , unreachable_pub , unused_tuple_struct_fields , clippy : : unknown_clippy_lints , clippy : : absolute_paths , clippy : : min_ident_chars , clippy : : pattern_type_mismatch , clippy : : pub_with_shorthand , clippy : : redundant_pub_crate , clippy : : single_char_lifetime_names , clippy : : type_repetition_in_bounds , clippy : : elidable_lifetime_names , clippy : : missing_const_for_fn , clippy : : needless_lifetimes , clippy : : semicolon_if_nothing_returned , clippy : : use_self , clippy : : used_underscore_binding ) ] const _ : ( ) = { # [ allow ( unused_extern_crates ) ] extern crate pin_project as _pin_project ; # [ allow ( dead_code , clippy : : missing_docs_in_private_items , clippy : : mut_mut ) ] struct __TupleStructProjection < ' pin , T , U > ( : : pin_project : : __private : : Pin < & ' pin mut ( T ) > , & ' pin mut ( U ) ) where TupleStruct < T , U > : ' pin ; # [ allow ( dead_code , clippy : : missing_docs_in_private_items , clippy : : ref_option_ref ) ] struct __TupleStructProjectionRef < ' pin , T , U > ( : : pin_project : : __private : : Pin < & ' pin ( T ) > , & ' pin ( U ) ) where TupleStruct < T , U > : ' pin ; # [ allow ( dead_code , clippy : : missing_docs_in_private_items ) ] struct __TupleStructProjectionOwned < T , U > ( : : pin_project : : __private : : PhantomData < T > , U ) ; impl < T , U > TupleStruct < T , U > { # [ allow ( dead_code ) ] # [ inline ] fn project < ' pin > ( self : _pin_project : : __private : : Pin < & ' pin mut Self > ) - > __TupleStructProjection < ' pin , T , U > { unsafe { let Self ( _0 , _1 ) = self . get_unchecked_mut ( ) ; __TupleStructProjection ( _pin_project : : __private : : Pin : : new_unchecked ( _0 ) , _1 ) } } # [ allow ( dead_code ) ] # [ inline ] fn project_ref < ' pin > ( self : _pin_project : : __private : : Pin < & ' pin Self > ) - > __TupleStructProjectionRef < ' pin , T , U > { unsafe { let Self ( _0 , _1 ) = self . get_ref ( ) ; __TupleStructProjectionRef ( _pin_project : : __private : : Pin : : new_unchecked ( _0 ) , _1 ) } } # [ allow ( dead_code ) ] # [ inline ] fn project_replace ( self : _pin_project : : __private : : Pin < & mut Self > , __replacement : Self ) - > __TupleStructProjectionOwned < T , U > { unsafe { let __self_ptr : * mut Self = self . get_unchecked_mut ( ) ; let __guard = _pin_project : : __private : : UnsafeOverwriteGuard : : new ( __self_ptr , __replacement ) ; let Self ( _0 , _1 ) = & mut * __self_ptr ; let __result = __TupleStructProjectionOwned ( _pin_project : : __private : : PhantomData , _pin_project : : __private : : ptr : : read ( _1 ) ) ; { let __guard = _pin_project : : __private : : UnsafeDropInPlaceGuard : : new ( _0 ) ; } __result } } } # [ forbid ( unaligned_references , safe_packed_borrows ) ] fn __assert_not_repr_packed < T , U > ( this : & TupleStruct < T , U > ) { let _ = & this . 0 ; let _ = & this . 1 ; } # [ allow ( missing_debug_implementations , unnameable_types ) ] struct __TupleStruct < ' pin , T , U > { __pin_project_use_generics : _pin_project : : __private : : AlwaysUnpin < ' pin , ( _pin_project : : __private : : PhantomData < T > , _pin_project : : __private : : PhantomData < U > ) > , __field0 : T } impl < ' pin , T , U > _pin_project : : __private : : Unpin for TupleStruct < T , U > where _pin_project : : __private : : PinnedFieldsOf < __TupleStruct < ' pin , T , U > > : _pin_project : : __private : : Unpin { } # [ doc ( hidden ) ] unsafe impl < ' pin , T , U > _pin_project : : UnsafeUnpin for TupleStruct < T , U > where _pin_project : : __private : : PinnedFieldsOf < __TupleStruct < ' pin , T , U > > : _pin_project : : __private : : Unpin { } trait TupleStructMustNotImplDrop { } # [ allow ( clippy : : drop_bounds , drop_bounds ) ] impl < T : _pin_project : : __private : : Drop > TupleStructMustNotImplDrop for T { } impl < T , U > TupleStructMustNotImplDrop for TupleStruct < T , U > { } # [ doc ( hidden ) ] impl < T , U > _pin_project : : __private : : PinnedDrop for TupleStruct < T , U > { unsafe fn drop ( self : _pin_project : : __private : : Pin < & mut Self > ) { } } } ;".
Proof. vm_compute. reflexivity. Qed.
(** /repo/tests/expand/pub/enum.rs *)
Example expand_pub_enum : expanded [TIdent (I "project"); TPunct "=" false; TIdent (I "EnumProj"); TPunct "," false; TIdent (I "project_ref"); TPunct "=" false; TIdent (I "EnumProjRef")]
  (mkRItem [] (REnum VPub (I "Enum") (mkRGenerics [([], PTy (I "T") [] None); ([], PTy (I "U") [] None)] None) [mkRVariant [] (I "Struct") (RNamed [mkRField [RAttr (mkAttr false [(I "pin")] MPath)] VInherited (Some (I "pinned")) (TyPath None (Path false [(Seg (I "T") GNone)])); mkRField [] VInherited (Some (I "unpinned")) (TyPath None (Path false [(Seg (I "U") GNone)]))]) false; mkRVariant [] (I "Tuple") (RUnnamed [mkRField [RAttr (mkAttr false [(I "pin")] MPath)] VInherited None (TyPath None (Path false [(Seg (I "T") GNone)])); mkRField [] VInherited None (TyPath None (Path false [(Seg (I "U") GNone)]))]) false; mkRVariant [] (I "Unit") RUnit false]))
  = Some "# [ allow ( dead_code , deprecated , explicit_outlives_requirements , single_use_lifetimes , unreachable_pub , unused_tuple_struct_fields , clippy : : unknown_clippy_lints , clippy : : absolute_paths , clippy : : min_ident_chars , clippy : : pattern_type_mismatch , clippy : : pub_with_shorthand , clippy : : redundant_pub_crate , clippy : : single_char_lifetime_names , clippy : : type_repetition_in_bounds , clippy : : missing_docs_in_private_items , clippy : : mut_mut ) ] pub ( crate ) enum EnumProj < ' pin , T , U > where Enum < T , U > : ' pin { Struct { pinned : : : pin_project : : __private : : Pin < & ' pin mut ( T ) > , unpinned : & ' pin mut ( U ) } , Tuple ( : : pin_project : : __private : : Pin < & ' pin mut ( T ) > , & ' pin mut ( U ) ) , Unit } # [ allow ( dead_code , deprecated , explicit_outlives_requirements , single_use_lifetimes , unreachable_pub , unused_tuple_struct_fields , clippy : : unknown_clippy_lints , clippy : : absolute_paths , clippy : : min_ident_chars , clippy : : pattern_type_mismatch , clippy : : pub_with_shorthand , clippy : : redundant_pub_crate , clippy : : single_char_lifetime_names , clippy : : type_repetition_in_bounds , clippy : : missing_docs_in_private_items , clippy : : ref_option_ref ) ] pub ( crate ) enum EnumProjRef < ' pin , T , U > where Enum < T , U > : ' pin { Struct { pinned : : : pin_project : : __private : : Pin < & ' pin ( T ) > , unpinned : & ' pin ( U ) } , Tuple ( : : pin_project : : __private : : Pin < & ' pin ( T ) > , & ' pin ( U ) ) , Unit } # [ allow ( unused_qualifications , deprecated , explicit_outlives_requirements , single_use_lifetimes , unreachable_pub , unused_tuple_struct_fields , clippy : : unknown_clippy_lints , clippy : : absolute_paths , clippy : : min_ident_chars , clippy : : pattern_type_mismatch , clippy : : pub_with_shorthand , clippy : : redundant_pub_crate , clippy : : single_char_lifetime_names , clippy : : type_repetition_in_bounds , clippy : : elidable_lifetime_names , clippy : : missing_const_for_fn , clippy : : needless_lifetimes , clippy : : semicolon_if_nothing_returned , clippy : : use_self , clippy : : used_underscore_binding ) ] const _ : ( ) = { # [ allow ( unused_extern_crates ) ] extern crate pin_project as _pin_project ; impl < T , U > Enum < T , U > { # [ allow ( dead_code ) ] # [ inline ] pub ( crate ) fn project < ' pin > ( self : _pin_project : : __private : : Pin < & ' pin mut Self > ) - > EnumProj < ' pin , T , U > { unsafe { match self . get_unchecked_mut ( ) { Self : : Struct { pinned , unpinned } = > EnumProj : : Struct { pinned : _pin_project : : __private : : Pin : : new_unchecked ( pinned ) , unpinned } , Self : : Tuple ( _0 , _1 ) = > EnumProj : : Tuple ( _pin_project : : __private : : Pin : : new_unchecked ( _0 ) , _1 ) , Self : : Unit = > EnumProj : : Unit , } } } # [ allow ( dead_code ) ] # [ inline ] pub ( crate ) fn project_ref < ' pin > ( self : _pin_project : : __private : : Pin < & ' pin Self > ) - > EnumProjRef < ' pin , T , U > { unsafe { match self . get_ref ( ) { Self : : Struct { pinned , unpinned } = > EnumProjRef : : Struct { pinned : _pin_project : : __private : : Pin : : new_unchecked ( pinned ) , unpinned } , Self : : Tuple ( _0 , _1 ) = > EnumProjRef : : Tuple ( _pin_project : : __private : : Pin : : new_unchecked ( _0 ) , _1 ) , Self : : Unit = > EnumProjRef : : Unit , } } } } # [ allow ( missing_debug_implementations , unnameable_types ) ] pub struct __Enum < ' pin , T , U > { __pin_project_use_generics : _pin_project : : __private : : AlwaysUnpin < ' pin , ( _pin_project : : __private : : PhantomData < T > , _pin_project : : __private : : PhantomData < U > ) > , __field0 : T , __field1 : T } impl < ' pin , T , U > _pin_project : : __private : : Unpin for Enum < T , U > where _pin_project : : __private : : PinnedFieldsOf < __Enum < ' pin , T , U > > : _pin_project : : __private : : Unpin { } # [ doc ( hidden ) ] unsafe impl < ' pin , T , U > _pin_project : : UnsafeUnpin for Enum < T , U > where _pin_project : : __private : : PinnedFieldsOf < __Enum < ' pin , T , U > > : _pin_project : : __private : : Unpin { } trait EnumMustNotImplDrop { } # [ allow ( clippy : : drop_bounds , drop_bounds ) ] impl < T : _pin_project : : __private : : Drop > EnumMustNotImplDrop for T { } impl < T , U > EnumMustNotImplDrop for Enum < T , U > { } # [ doc ( hidden ) ] impl < T , U > _pin_project : : __private : : PinnedDrop for Enum < T , U > { unsafe fn drop ( self : _pin_project : : __private : : Pin < & mut Self > ) { } } } ;".
Proof. vm_compute. reflexivity. Qed.
(** /repo/tests/expand/pub/struct.rs *)
Example expand_pub_struct : expanded []
  (mkRItem [] (RStruct VPub (I "Struct") (mkRGenerics [([], PTy (I "T") [] None); ([], PTy (I "U") [] None)] None) (RNamed [mkRField [RAttr (mkAttr false [(I "pin")] MPath)] VPub (Some (I "pinned")) (TyPath None (Path false [(Seg (I "T") GNone)])); mkRField [] VPub (Some (I "unpinned")) (TyPath None (Path false [(Seg (I "U") GNone)]))])))
  = Some "# [ allow ( unused_qualifications , deprecated , explicit_outlives_requirements , single_use_lifetimes , unreachable_pub , unused_tuple_struct_fields , clippy : : unknown_clippy_lints , clippy : : absolute_paths , clippy : : min_ident_chars , clippy : : pattern_type_mismatch , clippy : : pub_with_shorthand , clippy : : redundant_pub_crate , clippy : : single_char_lifetime_names , clippy : : type_repetition_in_bounds , clippy : : elidable_lifetime_names , clippy : : missing_const_for_fn , clippy : : needless_lifetimes , clippy : : semicolon_if_nothing_returned , clippy : : use_self , clippy : : used_underscore_binding ) ] const _ : ( ) = { # [ allow ( unused_extern_crates ) ] extern crate pin_project as _pin_project ; # [ allow ( dead_code , clippy : : missing_docs_in_private_items , clippy : : mut_mut ) ] pub ( crate ) struct __StructProjection < ' pin , T , U > where Struct < T , U > : ' pin { pub pinned : : : pin_project : : __private : : Pin < & ' pin mut ( T ) > , pub unpinned : & ' pin mut ( U ) } # [ allow ( dead_code , clippy : : missing_docs_in_private_items , clippy : : ref_option_ref ) ] pub ( crate ) struct __StructProjectionRef < ' pin , T , U > where Struct < T , U > : ' pin { pub pinned : : : pin_project : : __private : : Pin < & ' pin ( T ) > , pub unpinned : & ' pin ( U ) } impl < T , U > Struct < T , U > { # [ allow ( dead_code ) ] # [ inline ] pub ( crate ) fn project < ' pin > ( self : _pin_project : : __private : : Pin < & ' pin mut Self > ) - > __StructProjection < ' pin , T , U > { unsafe { let Self { pinned , unpinned } = self . get_unchecked_mut ( ) ; __StructProjection { pinned : _pin_project : : __private : : Pin : : new_unchecked ( pinned ) , unpinned } } } # [ allow ( dead_code ) ] # [ inline ] pub ( crate ) fn project_ref < ' pin > ( self : _pin_project : : __private : : Pin < & ' pin Self > ) - > __StructProjectionRef < ' pin , T , U > { unsafe { let Self { pinned , unpinned } = self . get_ref ( ) ; __StructProjectionRef { pinned : _pin_project : : __private : : Pin : : new_unchecked ( pinned ) , unpinned } } } } # [ forbid ( unaligned_references , safe_packed_borrows ) ] fn __assert_not_repr_packed < T , U > ( this : & Struct < T , U > ) { let _ = & this . pinned ; let _ = & this . unpinned ; } # [ allow ( missing_debug_implementations , unnameable_types ) ] pub struct __Struct < ' pin , T , U > { __pin_project_use_generics : _pin_project : : __private : : AlwaysUnpin < ' pin , ( _pin_project : : __private : : PhantomData < T > , _pin_project : : __private : : PhantomData < U > ) > , __field0 : T } impl < ' pin , T , U > _pin_project : : __private : : Unpin for Struct < T , U > where _pin_project : : __private : : PinnedFieldsOf < __Struct < ' pin , T , U > > : _pin_project : : __private : : Unpin { } # [ doc ( hidden ) ] unsafe impl < ' pin , T , U > _pin_project : : UnsafeUnpin for Struct < T , U > where _pin_project : : __private : : PinnedFieldsOf < __Struct < ' pin , T , U > > : _pin_project : : __private : : Unpin { } trait StructMustNotImplDrop { } # [ allow ( clippy : : drop_bounds , drop_bounds ) ] impl < T : _pin_project : : __private : : Drop > StructMustNotImplDrop for T { } impl < T , U > StructMustNotImplDrop for Struct < T , U > { } # [ doc ( hidden ) ] impl < T , U > _pin_project : : __private : : PinnedDrop for Struct < T , U > { unsafe fn drop ( self : _pin_project : : __private : : Pin < & mut Self > ) { } } } ;".
Proof. vm_compute. reflexivity. Qed.
(** /repo/tests/expand/pub/tuple_struct.rs *)
Example expand_pub_tuple_struct : expanded []
  (mkRItem [] (RStruct VPub (I "TupleStruct") (mkRGenerics [([], PTy (I "T") [] None); ([], PTy (I "U") [] None)] None) (RUnnamed [mkRField [RAttr (mkAttr false [(I "pin")] MPath)] VPub None (TyPath None (Path false [(Seg (I "T") GNone)])); mkRField [] VPub None (TyPath None (Path false [(Seg (I "U") GNone)]))])))
  = Some "# [ allow ( unused_qualifications , deprecated , explicit_outlives_requirements , single_use_lifetimes , unreachable_pub , unused_tuple_struct_fields , clippy : : unknown_clippy_lints , clippy : : absolute_paths , clippy : : min_ident_chars , clippy : : pattern_type_mismatch , clippy : : pub_with_shorthand , clippy : : redundant_pub_crate , clippy : : single_char_lifetime_names , clippy : : type_repetition_in_bounds , clippy : : elidable_lifetime_names , clippy : : missing_const_for_fn , clippy : : needless_lifetimes , clippy : : semicolon_if_nothing_returned , clippy : : use_self , clippy : : used_underscore_binding ) ] const _ : ( ) = { # [ allow ( unused_extern_crates ) ] extern crate pin_project as _pin_project ; # [ allow ( dead_code , clippy : : missing_docs_in_private_items , clippy : : mut_mut ) ] pub ( crate ) struct __TupleStructProjection < ' pin , T , U > ( pub : : pin_project : : __private : : Pin < & ' pin mut ( T ) > , pub & ' pin mut ( U ) ) where TupleStruct < T , U > : ' pin ; # [ allow ( dead_code , clippy : : missing_docs_in_private_items , clippy : : ref_option_ref ) ] pub ( crate ) struct __TupleStructProjectionRef < ' pin , T , U > ( pub : : pin_project : : __private : : Pin < & ' pin ( T ) > , pub & ' pin ( U ) ) where TupleStruct < T , U > : ' pin ; impl < T , U > TupleStruct < T , U > { # [ allow ( dead_code ) ] # [ inline ] pub ( crate ) fn project < ' pin > ( self : _pin_project : : __private : : Pin < & ' pin mut Self > ) - > __TupleStructProjection < ' pin , T , U > { unsafe { let Self ( _0 , _1 ) = self . get_unchecked_mut ( ) ; __TupleStructProjection ( _pin_project : : __private : : Pin : : new_unchecked ( _0 ) , _1 ) } } # [ allow ( dead_code ) ] # [ inline ] pub ( crate ) fn project_ref < ' pin > ( self : _pin_project : : __private : : Pin < & ' pin Self > ) - > __TupleStructProjectionRef < ' pin , T , U > { unsafe { let Self ( _0 , _1 ) = self . get_ref ( ) ; __TupleStructProjectionRef ( _pin_project : : __private : : Pin : : new_unchecked ( _0 ) , _1 ) } } } # [ forbid ( unaligned_references , safe_packed_borrows ) ] fn __assert_not_repr_packed < T , U > ( this : & TupleStruct < T , U > ) { let _ = & this . 0 ; let _ = & this . 1 ; } # [ allow ( missing_debug_implementations , unnameable_types ) ] pub struct __TupleStruct < ' pin , T , U > { __pin_project_use_generics : _pin_project : : __private : : AlwaysUnpin < ' pin , ( _pin_project : : __private : : PhantomData < T > , _pin_project : : __private : : PhantomData < U > ) > , __field0 : T } impl < ' pin , T , U > _pin_project : : __private : : Unpin for TupleStruct < T , U > where _pin_project : : __private : : PinnedFieldsOf < __TupleStruct < ' pin , T , U > > : _pin_project : : __private : : Unpin { } # [ doc ( hidden ) ] unsafe impl < ' pin , T , U > _pin_project : : UnsafeUnpin for TupleStruct < T , U > where _pin_project : : __private : : PinnedFieldsOf < __TupleStruct < ' pin , T , U > > : _pin_project : : __private : : Unpin { } trait TupleStructMustNotImplDrop { } # [ allow ( clippy : : drop_bounds , drop_bounds ) ] impl < T : _pin_project : : __private : : Drop > TupleStructMustNotImplDrop for T { } impl < T , U > TupleStructMustNotImplDrop for TupleStruct < T , U > { } # [ doc ( hidden ) ] impl < T , U > _pin_project : : __private : : PinnedDrop for TupleStruct < T , U > { unsafe fn drop ( self : _pin_project : : __private : : Pin < & mut Self > ) { } } } ;".
Proof. vm_compute. reflexivity. Qed.
(** /repo/tests/expand/unsafe_unpin/enum.rs *)
Example expand_unsafe_unpin_enum : expanded [TIdent (I "UnsafeUnpin"); TPunct "," false; TIdent (I "project"); TPunct "=" false; TIdent (I "EnumProj"); TPunct "," false; TIdent (I "project_ref"); TPunct "=" false; TIdent (I "EnumProjRef")]
  (mkRItem [] (REnum VInherited (I "Enum") (mkRGenerics [([], PTy (I "T") [] None); ([], PTy (I "U") [] None)] None) [mkRVariant [] (I "Struct") (RNamed [mkRField [RAttr (mkAttr false [(I "pin")] MPath)] VInherited (Some (I "pinned")) (TyPath None (Path false [(Seg (I "T") GNone)])); mkRField [] VInherited (Some (I "unpinned")) (TyPath None (Path false [(Seg (I "U") GNone)]))]) false; mkRVariant [] (I "Tuple") (RUnnamed [mkRField [RAttr (mkAttr false [(I "pin")] MPath)] VInherited None (TyPath None (Path false [(Seg (I "T") GNone)])); mkRField [] VInherited None (TyPath None (Path false [(Seg (I "U") GNone)]))]) false; mkRVariant [] (I "Unit") RUnit false]))
  = Some "# [ allow ( dead_code , deprecated , explicit_outlives_requirements , single_use_lifetimes , unreachable_pub , unused_tuple_struct_fields , clippy : : unknown_clippy_lints , clippy : : absolute_paths , clippy : : min_ident_chars , clippy : : pattern_type_mismatch , clippy : : pub_with_shorthand , clippy : : redundant_pub_crate , clippy : : single_char_lifetime_names , clippy : : type_repetition_in_bounds , clippy : : missing_docs_in_private_items , clippy : : mut_mut ) ] enum EnumProj < ' pin , T , U > where Enum < T , U > : ' pin { Struct { pinned : : : pin_project : : __private : : Pin < & ' pin mut ( T ) > , unpinned : & ' pin mut ( U ) } , Tuple ( : : pin_project : : __private : : Pin < & ' pin mut ( T ) > , & ' pin mut ( U ) ) , Unit } # [ allow ( dead_code , deprecated , explicit_outlives_requirements , single_use_lifetimes , unreachable_pub , unused_tuple_struct_fields , clippy : : unknown_clippy_lints , clippy : : absolute_paths , clippy : : min_ident_chars , clippy : : pattern_type_mismatch , clippy : : pub_with_shorthand , clippy : : redundant_pub_crate , clippy : : single_char_lifetime_names , clippy : : type_repetition_in_bounds , clippy : : missing_docs_in_private_items , clippy : : ref_option_ref ) ] enum EnumProjRef < ' pin , T , U > where Enum < T , U > : ' pin { Struct { pinned : : : pin_project : : __private : : Pin < & ' pin ( T ) > , unpinned : & ' pin ( U ) } , Tuple ( : : pin_project : : __private : : Pin < & ' pin ( T ) > , & ' pin ( U ) ) , Unit } # [ allow ( unused_qualifications , deprecated , explicit_outlives_requirements , single_use_lifetimes , unreachable_pub , unused_tuple_struct_fields , clippy : : unknown_clippy_lints , clippy : : absolute_paths , clippy : : min_ident_chars , clippy : : pattern_type_mismatch , clippy : : pub_with_shorthand , clippy : : redundant_pub_crate , clippy : : single_char_lifetime_names , clippy : : type_repetition_in_bounds , clippy : : elidable_lifetime_names , clippy : : missing_const_for_fn , clippy : : needless_lifetimes , clippy : : semicolon_if_nothing_returned , clippy : : use_self , clippy : : used_underscore_binding ) ] const _ : ( ) = { # [ allow ( unused_extern_crates ) ] extern crate pin_project as _pin_project ; impl < T , U > Enum < T , U > { # [ allow ( dead_code ) ] # [ inline ] fn project < ' pin > ( self : _pin_project : : __private : : Pin < & ' pin mut Self > ) - > EnumProj < ' pin , T , U > { unsafe { match self . get_unchecked_mut ( ) { Self : : Struct { pinned , unpinned } = > EnumProj : : Struct { pinned : _pin_project : : __private : : Pin : : new_unchecked ( pinned ) , unpinned } , Self : : Tuple ( _0 , _1 ) = > EnumProj : : Tuple ( _pin_project : : __private : : Pin : : new_unchecked ( _0 ) , _1 ) , Self : : Unit = > EnumProj : : Unit , } } } # [ allow ( dead_code ) ] # [ inline ] fn project_ref < ' pin > ( self : _pin_project : : __private : : Pin < & ' pin Self > ) - > EnumProjRef < ' pin , T , U > { unsafe { match self . get_ref ( ) { Self : : Struct { pinned , unpinned } = > EnumProjRef : : Struct { pinned : _pin_project : : __private : : Pin : : new_unchecked ( pinned ) , unpinned } , Self : : Tuple ( _0 , _1 ) = > EnumProjRef : : Tuple ( _pin_project : : __private : : Pin : : new_unchecked ( _0 ) , _1 ) , Self : : Unit = > EnumProjRef : : Unit , } } } } impl < ' pin , T , U > _pin_project : : __private : : Unpin for Enum < T , U > where _pin_project : : __private : : PinnedFieldsOf < _pin_project : : __private : : Wrapper < ' pin , Self > > : _pin_project : : UnsafeUnpin { } trait EnumMustNotImplDrop { } # [ allow ( clippy : : drop_bounds , drop_bounds ) ] impl < T : _pin_project : : __private : : Drop > EnumMustNotImplDrop for T { } impl < T , U > EnumMustNotImplDrop for Enum < T , U > { } # [ doc ( hidden ) ] impl < T , U > _pin_project : : __private : : PinnedDrop for Enum < T , U > { unsafe fn drop ( self : _pin_project : : __private : : Pin < & mut Self > ) { } } } ;".
Proof. vm_compute. reflexivity. Qed.
(** /repo/tests/expand/unsafe_unpin/struct.rs *)
Example expand_unsafe_unpin_struct : expanded [TIdent (I "UnsafeUnpin")]
  (mkRItem [] (RStruct VInherited (I "Struct") (mkRGenerics [([], PTy (I "T") [] None); ([], PTy (I "U") [] None)] None) (RNamed [mkRField [RAttr (mkAttr false [(I "pin")] MPath)] VInherited (Some (I "pinned")) (TyPath None (Path false [(Seg (I "T") GNone)])); mkRField [] VInherited (Some (I "unpinned")) (TyPath None (Path false [(Seg (I "U") GNone)]))])))
  = Some "# [ allow ( unused_qualifications , deprecated , explicit_outlives_requirements , single_use_lifetimes , unreachable_pub , unused_tuple_struct_fields , clippy : : unknown_clippy_lints , clippy : : absolute_paths , clippy : : min_ident_chars , clippy : : pattern_type_mismatch , clippy : : pub_with_shorthand , clippy : : redundant_pub_crate , clippy : : single_char_lifetime_names , clippy : : type_repetition_in_bounds , clippy : : elidable_lifetime_names , clippy : : missing_const_for_fn , clippy : : needless_lifetimes , clippy : : semicolon_if_nothing_returned , clippy : : use_self , clippy : : used_underscore_binding ) ] const _ : ( ) = { # [ allow ( unused_extern_crates ) ] extern crate pin_project as _pin_project ; # [ allow ( dead_code , clippy : : missing_docs_in_private_items , clippy : : mut_mut ) ] struct __StructProjection < ' pin , T , U > where Struct < T , U > : ' pin { pinned : : : pin_project : : __private : : Pin < & ' pin mut ( T ) > , unpinned : & ' pin mut ( U ) } # [ allow ( dead_code , clippy : : missing_docs_in_private_items , clippy : : ref_option_ref ) ] struct __StructProjectionRef < ' pin , T , U > where Struct < T , U > : ' pin { pinned : : : pin_project : : __private : : Pin < & ' pin ( T ) > , unpinned : & ' pin ( U ) } impl < T , U > Struct < T , U > { # [ allow ( dead_code ) ] # [ inline ] fn project < ' pin > ( self : _pin_project : : __private : : Pin < & ' pin mut Self > ) - > __StructProjection < ' pin , T , U > { unsafe { let Self { pinned , unpinned } = self . get_unchecked_mut ( ) ; __StructProjection { pinned : _pin_project : : __private : : Pin : : new_unchecked ( pinned ) , unpinned } } } # [ allow ( dead_code ) ] # [ inline ] fn project_ref < ' pin > ( self : _pin_project : : __private : : Pin < & ' pin Self > ) - > __StructProjectionRef < ' pin , T , U > { unsafe { let Self { pinned , unpinned } = self . get_ref ( ) ; __StructProjectionRef { pinned : _pin_project : : __private : : Pin : : new_unchecked ( pinned ) , unpinned } } } } # [ forbid ( unaligned_references , safe_packed_borrows ) ] fn __assert_not_repr_packed < T , U > ( this : & Struct < T , U > ) { let _ = & this . pinned ; let _ = & this . unpinned ; } impl < ' pin , T , U > _pin_project : : __private : : Unpin for Struct < T , U > where _pin_project : : __private : : PinnedFieldsOf < _pin_project : : __private : : Wrapper < ' pin , Self > > : _pin_project : : UnsafeUnpin { } trait StructMustNotImplDrop { } # [ allow ( clippy : : drop_bounds , drop_bounds ) ] impl < T : _pin_project : : __private : : Drop > StructMustNotImplDrop for T { } impl < T , U > StructMustNotImplDrop for Struct < T , U > { } # [ doc ( hidden ) ] impl < T , U > _pin_project : : __private : : PinnedDrop for Struct < T , U > { unsafe fn drop ( self : _pin_project : : __private : : Pin < & mut Self > ) { } } } ;".
Proof. vm_compute. reflexivity. Qed.
(** /repo/tests/expand/unsafe_unpin/tuple_struct.rs *)
Example expand_unsafe_unpin_tuple_struct : expanded [TIdent (I "UnsafeUnpin")]
  (mkRItem [] (RStruct VInherited (I "TupleStruct") (mkRGenerics [([], PTy (I "T") [] None); ([], PTy (I "U") [] None)] None) (RUnnamed [mkRField [RAttr (mkAttr false [(I "pin")] MPath)] VInherited None (TyPath None (Path false [(Seg (I "T") GNone)])); mkRField [] VInherited None (TyPath None (Path false [(Seg (I "U") GNone)]))])))
  = Some "# [ allow ( unused_qualifications , deprecated , explicit_outlives_requirements , single_use_lifetimes , unreachable_pub , unused_tuple_struct_fields , clippy : : unknown_clippy_lints , clippy : : absolute_paths , clippy : : min_ident_chars , clippy : : pattern_type_mismatch , clippy : : pub_with_shorthand , clippy : : redundant_pub_crate , clippy : : single_char_lifetime_names , clippy : : type_repetition_in_bounds , clippy : : elidable_lifetime_names , clippy : : missing_const_for_fn , clippy : : needless_lifetimes , clippy : : semicolon_if_nothing_returned , clippy : : use_self , clippy : : used_underscore_binding ) ] const _ : ( ) = { # [ allow ( unused_extern_crates ) ] extern crate pin_project as _pin_project ; # [ allow ( dead_code , clippy : : missing_docs_in_private_items , clippy : : mut_mut ) ] struct __TupleStructProjection < ' pin , T , U > ( : : pin_project : : __private : : Pin < & ' pin mut ( T ) > , & ' pin mut ( U ) ) where TupleStruct < T , U > : ' pin ; # [ allow ( dead_code , clippy : : missing_docs_in_private_items , clippy : : ref_option_ref ) ] struct __TupleStructProjectionRef < ' pin , T , U > ( : : pin_project : : __private : : Pin < & ' pin ( T ) > , & ' pin ( U ) ) where TupleStruct < T , U > : ' pin ; impl < T , U > TupleStruct < T , U > { # [ allow ( dead_code ) ] # [ inline ] fn project < ' pin > ( self : _pin_project : : __private : : Pin < & ' pin mut Self > ) - > __TupleStructProjection < ' pin , T , U > { unsafe { let Self ( _0 , _1 ) = self . get_unchecked_mut ( ) ; __TupleStructProjection ( _pin_project : : __private : : Pin : : new_unchecked ( _0 ) , _1 ) } } # [ allow ( dead_code ) ] # [ inline ] fn project_ref < ' pin > ( self : _pin_project : : __private : : Pin < & ' pin Self > ) - > __TupleStructProjectionRef < ' pin , T , U > { unsafe { let Self ( _0 , _1 ) = self . get_ref ( ) ; __TupleStructProjectionRef ( _pin_project : : __private : : Pin : : new_unchecked ( _0 ) , _1 ) } } } # [ forbid ( unaligned_references , safe_packed_borrows ) ] fn __assert_not_repr_packed < T , U > ( this : & TupleStruct < T , U > ) { let _ = & this . 0 ; let _ = & this . 1 ; } impl < ' pin , T , U > _pin_project : : __private : : Unpin for TupleStruct < T , U > where _pin_project : : __private : : PinnedFieldsOf < _pin_project : : __private : : Wrapper < ' pin , Self > > : _pin_project : : UnsafeUnpin { } trait TupleStructMustNotImplDrop { } # [ allow ( clippy : : drop_bounds , drop_bounds ) ] impl < T : _pin_project : : __private : : Drop > TupleStructMustNotImplDrop for T { } impl < T , U > TupleStructMustNotImplDrop for TupleStruct < T , U > { } # [ doc ( hidden ) ] impl < T , U > _pin_project : : __private : : PinnedDrop for TupleStruct < T , U > { unsafe fn drop ( self : _pin_project : : __private : : Pin < & mut Self > ) { } } } ;".
Proof. vm_compute. reflexivity. Qed.
