(** A nested value for C73. *)
From Coq Require Import String List Bool Arith.
From Verif Require Import Base Syntax ModelArgs ModelRun ModelDestroy.
From Verif Require Import SpecRun SpecDestroy Examples ExamplesRun.
Import ListNotations.
Open Scope list_scope.

Definition opts_of (w : world) : args := match w_item w with ItStruct _ => opts_struct | _ => opts_enum end.
(** [Foo { a: Bar::A(x, Bar::B { x }), b, c: Bar::C, d }]: [Foo] has no
    [PinnedDrop], [Bar] has one. *)
Definition nested (outer inner d : bool) : tree :=
  Projected (world_struct [] false) None
    [Projected (world_enum [] outer) (Some (I "A"))
       [Plain false; Projected (world_enum [] inner) (Some (I "B")) [Plain false]];
     Plain false;
     Projected (world_enum [] false) (Some (I "C")) [];
     Plain d].
Lemma nested_declared b1 b2 d : declared opts_of (nested b1 b2 d).
Proof.
  constructor; [apply world_struct_program|].
  intros k [<-|[<-|[<-|[<-|[]]]]]; constructor; try apply world_enum_program; [|intros k []].
  intros k [<-|[<-|[]]]; constructor; [apply world_enum_program|]. intros k [<-|[]]. constructor.
Qed.

(** [Foo { #[pin] a: Bar::A(x, Bar::B { x }), b: Bar::C, #[pin] c, d }] *)
Definition foo_kids (inner : bool) : list tree :=
  [Projected (world_enum [] false) (Some (I "A"))
     [Plain false; Projected (world_enum [] inner) (Some (I "B")) [Plain false]];
   Projected (world_enum [] false) (Some (I "C")) [];
   Plain false;
   Plain false].
Lemma foo_kids_declared b k : In k (foo_kids b) -> declared opts_of k.
Proof.
  intros [<-|[<-|[<-|[<-|[]]]]]; constructor; try apply world_enum_program; [|intros k []].
  intros k [<-|[<-|[]]]; constructor; [apply world_enum_program|]. intros k [<-|[]]. constructor.
Qed.
Lemma foo_value b : value_of (w_item (world_struct [] false)) (mkUval None (seq 0 (length (foo_kids b)))) [] (FNamed fields_ex).
Proof. exact (V_struct (struct_ex args_struct) [0; 1; 2; 3] eq_refl). Qed.
