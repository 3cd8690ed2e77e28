(** [struct Foo { #[pin] x: u8, y: u16 }]: two fields, the first one pinned, like
    the variant [A] of [enum_ex]. *)
From Coq Require Import String Ascii List Bool Arith.
From Verif Require Import Base Syntax ModelArgs ModelUtils ModelAttribute ModelDerive ModelPipeline ModelRun.
From Verif Require Import SpecArgs SpecDerive SpecExpand SpecRun ProofsUtils ProofsDerive ProofsRunMain Examples ExamplesRun.
Import ListNotations.
Open Scope string_scope.
Open Scope list_scope.

Definition fields_pair : list field :=
  [mkField [pin_mark] VInherited (Some (I "x")) (tid "u8"); mkField [] VPub (Some (I "y")) (tid "u16")].
Definition struct_pair : item_struct :=
  mkStruct [pin_attr args_struct] VInherited (I "Foo") (mkGenerics [] None) (FNamed fields_pair).
Definition world_pair (panicking : list nat) : world := world_of (ItStruct struct_pair) [] panicking false false.
Definition value_pair : uval := mkUval None [1; 2].
Definition fields_a : fields := FUnnamed [mkField [pin_mark] VInherited None (tid "T"); mkField [] VInherited None (tid "u8")].
Lemma world_pair_program p : program (world_pair p) opts_struct.
Proof.
  apply c42_program.
  - vm_compute. reflexivity.
  - apply parse_args_iff. vm_compute. reflexivity.
  - intros fs [<-|[]]. split.
    + intros f [<-|[<-|[]]]; discriminate.
    + repeat constructor; cbn; intuition discriminate.
  - constructor.
  - apply nodup_dec. vm_compute. reflexivity.
  - intros fs nf [<-|[]] [<-|[<-|[]]]; reflexivity.
  - intros s [<-|[<-|[<-|[<-|[]]]]]; reflexivity.
Qed.
Lemma value_pair_ok p : value_of (w_item (world_pair p)) value_pair [] (FNamed fields_pair).
Proof. exact (V_struct struct_pair [1; 2] eq_refl). Qed.
Lemma pair_replaceable : replaceable (FNamed fields_pair).
Proof.
  split.
  - intros f i [<-|[<-|[]]] _ E; injection E as <-; discriminate.
  - intros l1 f l2 g l3 i E _ _ Hi.
    assert (Hin : In f fields_pair) by (cbn [fields_list] in E; rewrite E; apply in_or_app; right; left; reflexivity).
    destruct Hin as [<-|[<-|[]]]; injection Hi as <-; discriminate.
Qed.
Lemma value_own_a p : value_of (w_item (world_own p)) value_a [I "A"] fields_a.
Proof. exact (V_enum (enum_ex args_own) (mkVariant [] (I "A") fields_a false) [1; 2] (or_introl eq_refl) eq_refl). Qed.
Lemma value_enum_a p b : value_of (w_item (world_enum p b)) value_a [I "A"] fields_a.
Proof. exact (V_enum (enum_ex args_enum) (mkVariant [] (I "A") fields_a false) [1; 2] (or_introl eq_refl) eq_refl). Qed.
Lemma a_replaceable : replaceable fields_a.
Proof.
  split.
  - intros f i [<-|[<-|[]]] _ E; discriminate.
  - intros l1 f l2 g l3 i E _ _ Hi.
    assert (Hin : In f (fields_list fields_a)) by (rewrite E; apply in_or_app; right; left; reflexivity).
    destruct Hin as [<-|[<-|[]]]; discriminate.
Qed.

(** F2: [#[pin_project(project = r#A, project_ref = A)] struct S { #[pin] a: u8 }] *)
Definition f2_item : item :=
  simple [TIdent (I "project"); TPunct "=" false; TIdent (mkIdent true "A"); TPunct "," false;
          TIdent (I "project_ref"); TPunct "=" false; TIdent (I "A")] "S" [] (FNamed [one_field "a" true]).
