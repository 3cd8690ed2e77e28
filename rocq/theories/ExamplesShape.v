(** A struct with the names and the pinned fields of [struct_ex], and other types,
    visibilities, attributes and generics. *)
From Coq Require Import String Ascii List Bool Arith.
From Verif Require Import Base Syntax ModelArgs ModelUtils ModelAttribute ModelDerive ModelPipeline ModelRun.
From Verif Require Import SpecArgs SpecDerive SpecExpand SpecRun ProofsUtils ProofsDerive ProofsRunMain Examples ExamplesRun.
Import ListNotations.
Open Scope string_scope.
Open Scope list_scope.

(** [struct Foo { #[pin] a: u8, pub b: u16, #[pin] pub c: u32, d: u64 }] *)
Definition fields_other : list field :=
  [mkField [pin_mark] VInherited (Some (I "a")) (tid "u8");
   mkField [] VPub (Some (I "b")) (tid "u16");
   mkField [pin_mark; doc_attr] VPub (Some (I "c")) (tid "u32");
   mkField [doc_attr] VInherited (Some (I "d")) (tid "u64")].
Definition struct_other : item_struct :=
  mkStruct [pin_attr args_struct] VInherited (I "Foo") (mkGenerics [] None) (FNamed fields_other).
Definition world_other (panicking : list nat) : world := world_of (ItStruct struct_other) [] panicking false true.
Lemma world_other_program p : program (world_other p) opts_struct.
Proof.
  apply c42_program.
  - vm_compute. reflexivity.
  - apply parse_args_iff. vm_compute. reflexivity.
  - intros fs [<-|[]]. split.
    + intros f [<-|[<-|[<-|[<-|[]]]]]; discriminate.
    + repeat constructor; cbn; intuition discriminate.
  - constructor.
  - apply nodup_dec. vm_compute. reflexivity.
  - intros fs nf [<-|[]] [<-|[<-|[<-|[<-|[]]]]]; reflexivity.
  - intros s [<-|[<-|[<-|[<-|[]]]]]; reflexivity.
Qed.
Lemma value_other_ok p : value_of (w_item (world_other p)) value_struct [] (FNamed fields_other).
Proof. exact (V_struct struct_other [1; 2; 3; 4] eq_refl). Qed.
Lemma other_replaceable : replaceable (FNamed fields_other).
Proof.
  split.
  - intros f i [<-|[<-|[<-|[<-|[]]]]] _ E; injection E as <-; discriminate.
  - intros l1 f l2 g l3 i E _ _ Hi.
    assert (Hin : In f fields_other) by (cbn [fields_list] in E; rewrite E; apply in_or_app; right; left; reflexivity).
    destruct Hin as [<-|[<-|[<-|[<-|[]]]]]; injection Hi as <-; discriminate.
Qed.
