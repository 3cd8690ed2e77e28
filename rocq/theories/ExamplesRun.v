(** Concrete programs, values and panics for the properties of the generated methods. *)
From Coq Require Import String Ascii List Bool Arith.
From Verif Require Import Base Syntax ModelArgs ModelUtils ModelAttribute ModelDerive ModelPipeline ModelRun.
From Verif Require Import SpecArgs SpecDerive SpecExpand SpecRun ProofsUtils ProofsDerive ProofsRunMain Examples.
Import ListNotations.
Open Scope string_scope.
Open Scope list_scope.

Definition expand (it : item) : expansion := match parse_derive it with Ok e => e | _ => mkExpansion [] [] end.
Definition world_of (it : item) (consts : list string) (panicking : list nat) (body : bool) (leaky : bool) : world :=
  mkWorld it (expand it) (fun i => existsb (String.eqb (name i)) consts)
    (fun id => existsb (Nat.eqb id) panicking) (fun _ => body) leaky.

(** The struct [Foo<..> { #[pin] a, b, #[pin] c, d }] with [project_replace];
    the destructor of the value 3 panics. *)
Definition world_struct (panicking : list nat) (leaky : bool) : world :=
  world_of (ItStruct (struct_ex args_struct)) ["MAX"] panicking false leaky.
Definition value_struct : uval := mkUval None [1; 2; 3; 4].
Definition other_struct : uval := mkUval None [5; 6; 7; 8].

(** The enum [r#Bar<T> { A(#[pin] T, u8), B { #[pin] x: T }, C }] with
    [PinnedDrop]; and one with [project_replace = Own]. *)
Definition world_enum (panicking : list nat) (body : bool) : world :=
  world_of (ItEnum (enum_ex args_enum)) ["MAX"] panicking body false.
Definition args_own : list ttree := [TIdent (I "project_replace"); TPunct "=" false; TIdent (I "Own")].
Definition opts_own : args := mkArgs false UDefault None None (PRNamed (I "Own")).
Definition world_own (panicking : list nat) : world :=
  world_of (ItEnum (enum_ex args_own)) [] panicking false false.
Definition value_a : uval := mkUval (Some (I "A")) [1; 2].
Definition value_c : uval := mkUval (Some (I "C")) [].

Lemma nodup_dec (l : list string) : nodup string_dec l = l -> NoDup l.
Proof. intros <-. apply NoDup_nodup. Qed.

Lemma world_struct_program p b : program (world_struct p b) opts_struct.
Proof.
  apply c42_program.
  - vm_compute. reflexivity.
  - apply parse_args_iff. vm_compute. reflexivity.
  - intros fs [<-|[]]. split.
    + intros f [<-|[<-|[<-|[<-|[]]]]]; discriminate.
    + repeat constructor; cbn; intuition discriminate.
  - constructor.
  - apply nodup_dec. vm_compute. reflexivity.
  - intros fs nf [<-|[]] [<-|[<-|[<-|[<-|[]]]]]; reflexivity.
  - intros s [<-|[<-|[<-|[<-|[]]]]]; reflexivity.
Qed.
Lemma enum_fields_legal ts fs : In fs (map v_fields (e_variants (enum_ex ts))) -> fields_legal fs.
Proof.
  intros [<-|[<-|[<-|[]]]].
  - intros f [<-|[<-|[]]]; reflexivity.
  - split; [intros f [<-|[]]; discriminate|]. repeat constructor; cbn; intuition discriminate.
  - exact Coq.Init.Logic.I.
Qed.
Lemma world_enum_program p b : program (world_enum p b) opts_enum.
Proof.
  apply c42_program.
  - vm_compute. reflexivity.
  - apply parse_args_iff. vm_compute. reflexivity.
  - apply enum_fields_legal.
  - apply nodup_dec. vm_compute. reflexivity.
  - apply nodup_dec. vm_compute. reflexivity.
  - intros fs nf [<-|[<-|[<-|[]]]]; [intros [<-|[<-|[]]]|intros [<-|[]]|intros []]; reflexivity.
  - intros s [<-|[<-|[<-|[<-|[]]]]]; reflexivity.
Qed.
Lemma world_own_program p : program (world_own p) opts_own.
Proof.
  apply c42_program.
  - vm_compute. reflexivity.
  - apply parse_args_iff. vm_compute. reflexivity.
  - apply enum_fields_legal.
  - apply nodup_dec. vm_compute. reflexivity.
  - apply nodup_dec. vm_compute. reflexivity.
  - intros fs nf [<-|[<-|[<-|[]]]]; [intros [<-|[<-|[]]]|intros [<-|[]]|intros []]; reflexivity.
  - intros s [<-|[<-|[<-|[<-|[]]]]]; reflexivity.
Qed.
Lemma value_struct_ok p b : value_of (w_item (world_struct p b)) value_struct [] (FNamed fields_ex).
Proof. exact (V_struct (struct_ex args_struct) [1; 2; 3; 4] eq_refl). Qed.
Lemma value_a_ok p b : exists fs, value_of (w_item (world_enum p b)) value_a [I "A"] fs /\ length (fields_list fs) = 2.
Proof.
  eexists. split; [refine (V_enum (enum_ex args_enum) _ [1; 2] (or_introl eq_refl) eq_refl)|reflexivity].
Qed.
Lemma value_a_own p : exists fs, value_of (w_item (world_own p)) value_a [I "A"] fs /\ replaceable fs /\
  select true fs (u_ids value_a) = [(0, 1)] /\ select false fs (u_ids value_a) = [(1, 2)].
Proof.
  eexists. split; [refine (V_enum (enum_ex args_own) _ [1; 2] (or_introl eq_refl) eq_refl)|]. split; [|split; reflexivity].
  split.
  - intros f i [<-|[<-|[]]] _; discriminate.
  - intros l1 f l2 g l3 i E _ _ Hi. cbn [fields_list v_fields] in E.
    assert (Hin : In f [mkField [pin_mark] VInherited None (tid "T"); mkField [] VInherited None (tid "u8")]).
    { rewrite E. apply in_or_app. right. left. reflexivity. }
    destruct Hin as [<-|[<-|[]]]; discriminate.
Qed.
Lemma struct_replaceable : replaceable (FNamed fields_ex).
Proof.
  split.
  - intros f i [<-|[<-|[<-|[<-|[]]]]] _ E; injection E as <-; discriminate.
  - intros l1 f l2 g l3 i E _ _ Hi.
    assert (Hin : In f fields_ex) by (cbn [fields_list] in E; rewrite E; apply in_or_app; right; left; reflexivity).
    destruct Hin as [<-|[<-|[<-|[<-|[]]]]]; injection Hi as <-; discriminate.
Qed.

(** ** Names that break the generated methods *)
Definition one_field (n : string) (pinned : bool) : field :=
  mkField (if pinned then [pin_mark] else []) VInherited (Some (I n)) (tid "u8").
Definition args_replace : list ttree := [TIdent (I "project_replace")].
Definition simple (ts : list ttree) (n : string) (g : list gparam) (fs : fields) : item :=
  ItStruct (mkStruct [pin_attr ts] VPub (I n) (mkGenerics g None) fs).
(** F4: [#[pin_project(project_replace)] struct S { #[pin] __result: u8 }] *)
Definition f4_item : item := simple args_replace "S" [] (FNamed [one_field "__result" true]).
(** F4: [#[pin_project(project_replace)] struct S { #[pin] __guard: u8, #[pin] b: u8 }] *)
Definition f4_guard : item := simple args_replace "S" [] (FNamed [one_field "__guard" true; one_field "b" true]).
(** F5: [#[pin_project(project = __SProjectionRef)] struct S { #[pin] a: u8 }] *)
Definition f5_item : item :=
  simple [TIdent (I "project"); TPunct "=" false; TIdent (I "__SProjectionRef")] "S" [] (FNamed [one_field "a" true]).
(** F13: [#[pin_project] struct S<_pin_project> { #[pin] a: u8 }] *)
Definition f13_item : item := simple [] "S" [PTy (I "_pin_project") [] None] (FNamed [one_field "a" true]).
(** F10: [const _0: u8 = 0; #[pin_project] struct S(u8);] *)
Definition f10_item : item := simple [] "S" [] (FUnnamed [mkField [] VInherited None (tid "u8")]).
