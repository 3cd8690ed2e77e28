(** For C61: [struct Foo<'a, T> { x: &'a u8, #[pin] y: T }] with [project_replace]. *)
From Coq Require Import String List Bool.
From Verif Require Import Base Syntax ModelArgs ModelUtils ModelAttribute ModelPipeline ModelDerive.
From Verif Require Import SpecArgs SpecDerive SpecExpand SpecRun SpecTraits SpecSized SpecVariance Examples ExamplesSized.
Import ListNotations.
Open Scope string_scope.
Open Scope list_scope.

Definition varied : item := ItStruct
  (mkStruct [pin_attr replace_args] VInherited (I "Foo") (mkGenerics [PLt "'a" []; PTy (I "T") [] None] None)
    (FNamed [mkField [] VInherited (Some (I "x")) (TyRef (Some "'a") false (tid "u8"));
             mkField [pin_mark] VInherited (Some (I "y")) (tid "T")])).
Definition co_only (d : direction) : bool := match d with Co => true | Contra => false end.
Definition is_lt (p : param) (lt : string) : bool := match p with Lifetime l => String.eqb l lt | Type_ _ => false end.
Definition is_t (p : param) : bool := match p with Type_ i => String.eqb (name i) "T" | Lifetime _ => false end.
(** The variance of a type, given that of the names in it. *)
Fixpoint varies (leaf : string -> direction -> bool) (p : param) (d : direction) (t : ty) {struct t} : bool :=
  match t with
  | TyRef o m u =>
    (if m then varies leaf p Co u && varies leaf p Contra u else varies leaf p d u) &&
    match o with Some lt => co_only d || negb (is_lt p lt) | None => true end
  | TyParen u => varies leaf p d u
  | TyPath None (Path _ [_; _; Seg _ (GAngle false [ATy u])]) => varies leaf p d u
  | TyPath None (Path _ [Seg i _]) => leaf (name i) d
  | _ => true
  end.
Definition outer (p : param) (s : string) (d : direction) : bool :=
  if String.eqb s "T" then co_only d || negb (is_t p) else true.
(** The fields of the item and of the generated structs. *)
Definition fields_of_struct (s : string) : option (list ty) :=
  if String.eqb s "Foo" then Some (map (spelled_ty varied) (flat_map fields_list (fields_of varied)))
  else match find (fun o => match o with OStruct _ i _ _ => String.eqb (name i) s | _ => false end) (all_items (expanded varied)) with
       | Some (OStruct _ _ _ fs) => Some (map f_ty (fields_list fs))
       | _ => None
       end.
Definition inner (p : param) (s : string) (d : direction) : bool :=
  match fields_of_struct s with
  | Some l => forallb (varies (outer p) p d) l
  | None => outer p s d
  end.
Definition var_ex (d : direction) (p : param) (t : ty) : Prop := varies (inner p) p d t = true.

Lemma var_ex_rules e : parse_derive varied = Ok e -> variance_rules var_ex varied e.
Proof.
  intros He. assert (Ee : expanded varied = e) by (unfold expanded; rewrite He; reflexivity). clear He. subst e.
  constructor.
  - intros d p lt t. unfold var_ex. cbn [varies]. rewrite andb_true_iff, orb_true_iff, negb_true_iff.
    destruct d; cbn [co_only]; [intuition discriminate|]. destruct p as [l|i]; cbn [is_lt].
    + rewrite String.eqb_neq. intuition congruence.
    + intuition discriminate.
  - intros d p lt t. unfold var_ex. cbn [varies]. rewrite !andb_true_iff, orb_true_iff, negb_true_iff.
    destruct d; cbn [co_only]; [intuition discriminate|]. destruct p as [l|i]; cbn [is_lt].
    + rewrite String.eqb_neq. intuition congruence.
    + intuition discriminate.
  - intros. reflexivity.
  - intros d p u t []; reflexivity.
  - intros d p u t []; reflexivity.
  - intros d p. unfold var_ex.
    assert (E : varies (inner p) p d (declared_ty (name_of varied) (params_of varied)) =
      forallb (fun f => varies (inner p) p d (spelled_ty varied f)) (flat_map fields_list (fields_of varied))) by (vm_compute; reflexivity).
    rewrite E, forallb_forall. split.
    + intros H fs f Hfs Hf. apply H. apply in_flat_map. eauto.
    + intros H f Hf. apply in_flat_map in Hf. destruct Hf as (fs & Hfs & Hf). apply (H fs); assumption.
  - intros d p w i g fs Hin. unfold var_ex.
    assert (E : varies (inner p) p d (declared_ty i (g_params g)) = forallb (fun f => varies (inner p) p d (f_ty f)) (fields_list fs)).
    { vm_compute in Hin.
      repeat match type of Hin with
      | _ \/ _ => destruct Hin as [Hin|Hin]
      | False => destruct Hin
      | _ = _ => try discriminate Hin; injection Hin as <- <- <- <-
      end; vm_compute; reflexivity. }
    rewrite E. apply forallb_forall.
  - intros d p w i g vs Hin. exfalso. vm_compute in Hin.
    repeat match type of Hin with _ \/ _ => destruct Hin as [Hin|Hin] | False => destruct Hin | _ = _ => discriminate Hin end.
  - intros d lt fs f Hlt [<-|[]] Hf. unfold var_ex.
    assert (Ne : String.eqb lt "'a" = false) by (apply String.eqb_neq; intros ->; apply (Hlt []); left; reflexivity).
    destruct Hf as [<-|[<-|[]]]; destruct d; try reflexivity.
    + change (negb (String.eqb lt "'a") = true). rewrite Ne. reflexivity.
Qed.
