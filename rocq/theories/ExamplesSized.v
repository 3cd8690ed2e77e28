(** Concrete structs with an unsized last field for C56. *)
From Coq Require Import String Ascii List Bool.
From Verif Require Import Base Syntax ModelArgs ModelUtils ModelAttribute ModelDerive ModelPipeline.
From Verif Require Import SpecArgs SpecDerive SpecExpand SpecRun SpecDecl SpecSized ProofsDerive ProofsSized Examples.
Import ListNotations.
Open Scope string_scope.
Open Scope list_scope.

(** [struct Foo<T: ?Sized> { x: u8, #[pin] y: T }] and
    [struct Foo<'a, T: ?Sized> { x: &'a u8, #[pin] y: T }]. *)
Definition maybe_sized : bound := BTrait true [] (Path false [seg1 "Sized"]).
Definition tailed (lt : bool) (ts : list ttree) : item_struct :=
  mkStruct [pin_attr ts] VInherited (I "Foo")
    (mkGenerics ((if lt then [PLt "'a" []] else []) ++ [PTy (I "T") [maybe_sized] None]) None)
    (FNamed [mkField [] VInherited (Some (I "x")) (if lt then TyRef (Some "'a") false (tid "u8") else tid "u8");
             mkField [pin_mark] VInherited (Some (I "y")) (tid "T")]).
Definition replace_args : list ttree := [TIdent (I "project_replace")].
Definition not_unpin_args : list ttree := [TPunct "!" false; TIdent (I "Unpin")].

(** Sizes when [T] has none: then [Foo] and its helper have none. *)
Fixpoint size_b (t : ty) : bool :=
  match t with
  | TyPath None (Path _ [_; _; Seg i (GAngle false [ATy u])]) => if ident_is i "Pin" then size_b u else true
  | TyPath None (Path false [Seg i _]) => negb (existsb (String.eqb (name i)) ["T"; "Foo"; "__Foo"])
  | TyParen u => size_b u
  | TyTuple l => forallb size_b l
  | TySlice _ | TyDyn _ => false
  | _ => true
  end.
Definition sz_ex (t : ty) : Prop := size_b t = true.

Definition expanded (it : item) : expansion := match parse_derive it with Ok e => e | _ => mkExpansion [] [] end.
Definition sizes_ok (it : item) (e : expansion) : bool :=
  Bool.eqb (size_b (declared_ty (name_of it) (params_of it)))
    (forallb (fun fs => forallb (fun f => size_b (spelled_ty it f)) (fields_list fs)) (fields_of it)) &&
  forallb (fun o => match o with
                    | OStruct _ i g fs => Bool.eqb (size_b (declared_ty i (g_params g))) (forallb (fun f => size_b (f_ty f)) (fields_list fs))
                    | OEnum _ i g _ => size_b (declared_ty i (g_params g))
                    | _ => true
                    end) (all_items e).
Lemma sizes_rules it e : sizes_ok it e = true -> size_rules sz_ex it e.
Proof.
  intros H. apply andb_true_iff in H. destruct H as [H1 H2]. apply eqb_prop in H1. rewrite forallb_forall in H2.
  constructor; try (intros; reflexivity).
  - intros l H. unfold sz_ex. cbn [size_b]. apply forallb_forall. exact H.
  - intros u t []; reflexivity.
  - intros u t []; reflexivity.
  - intros lt' u t []; reflexivity.
  - unfold sz_ex at 1. rewrite H1, forallb_forall. split.
    + intros H fs f Hfs Hf. specialize (H fs Hfs). rewrite forallb_forall in H. apply (H f Hf).
    + intros H fs Hfs. apply forallb_forall. intros f Hf. apply (H fs f Hfs Hf).
  - intros v i g fs Hin. specialize (H2 _ Hin). cbn beta iota in H2. apply eqb_prop in H2. unfold sz_ex at 1. rewrite H2. apply forallb_forall.
  - intros v i g vs Hin. exact (H2 _ Hin).
Qed.

(** The hypotheses of C56 for the struct [tailed]; [T] has no size. *)
Lemma tailed_hyps lt ts a : In (ts, a) [([], mkArgs false UDefault None None PRNone);
    (replace_args, mkArgs false UDefault None None PRUnnamed); (not_unpin_args, mkArgs false UNegative None None PRNone)] ->
  let s := tailed lt ts in
  exists e before last,
  parse_derive (ItStruct s) = Ok e /\ options (s_attrs s) a /\ ordered (g_params (s_generics s)) /\
  size_rules sz_ex (ItStruct s) e /\ fields_list (s_fields s) = before ++ [last] /\
  (forall f, In f before -> sz_ex (spelled_ty (ItStruct s) f)) /\
  (forall f, In f (before ++ [last]) -> args_sized sz_ex (spelled_ty (ItStruct s) f)) /\
  ~ sz_ex (spelled_ty (ItStruct s) last) /\ pinned last /\
  lt_params (g_params (s_generics s)) = if lt then ["'a"] else [].
Proof.
  intros Hin s.
  assert (Hd : parse_derive (ItStruct s) = Ok (expanded (ItStruct s)) /\ options (s_attrs s) a /\
               sizes_ok (ItStruct s) (expanded (ItStruct s)) = true).
  { destruct Hin as [X|[X|[X|[]]]]; injection X as <- <-; destruct lt;
      (split; [vm_compute; reflexivity|]); (split; [apply parse_args_iff; vm_compute; reflexivity|vm_compute; reflexivity]). }
  destruct Hd as (Hd & Ho & Hs).
  exists (expanded (ItStruct s)), [mkField [] VInherited (Some (I "x")) (if lt then TyRef (Some "'a") false (tid "u8") else tid "u8")],
    (mkField [pin_mark] VInherited (Some (I "y")) (tid "T")).
  split; [exact Hd|]. split; [exact Ho|]. split.
  { exists (if lt then [PLt "'a" []] else []), [PTy (I "T") [maybe_sized] None]. split; [reflexivity|].
    split; intros p Hp; [destruct lt; [destruct Hp as [<-|[]]; reflexivity|destruct Hp]|destruct Hp as [<-|[]]; reflexivity]. }
  split; [apply sizes_rules; exact Hs|]. split; [reflexivity|].
  split; [intros f [<-|[]]; destruct lt; reflexivity|].
  split; [intros f [<-|[<-|[]]] u Hn; destruct lt; destruct (needs_inv _ _ Hn) as [H'|(? & H')]; inversion H'|].
  split; [destruct lt; discriminate|]. split; [|destruct lt; reflexivity].
  apply pin_b_iff. reflexivity.
Qed.
Lemma c56_refuted : exists s e a sz before last,
  parse_derive (ItStruct s) = Ok e /\ options (s_attrs s) a /\ ordered (g_params (s_generics s)) /\
  size_rules sz (ItStruct s) e /\ fields_list (s_fields s) = before ++ [last] /\
  (forall f, In f before -> sz (spelled_ty (ItStruct s) f)) /\
  (forall f, In f (before ++ [last]) -> args_sized sz (spelled_ty (ItStruct s) f)) /\
  struct_has POwn a = false /\ ~ all_sized sz e.
Proof.
  exists (tailed true []).
  destruct (tailed_hyps true [] (mkArgs false UDefault None None PRNone)) as (e & before & last & H1 & H2 & H3 & H4 & H5 & H6 & H7 & H8 & H9 & H10);
    [left; reflexivity|].
  exists e, (mkArgs false UDefault None None PRNone), sz_ex, before, last. do 7 (split; [assumption|]). split; [reflexivity|].
  rewrite (c56_struct _ _ _ _ _ _ H1 H2 H3 H4 H5 H6 H7). intros [X|[_ X]]; [exact (H8 X)|].
  specialize (X eq_refl H9). rewrite H10 in X. discriminate.
Qed.

(** A program in which all types are [Sized]. *)
Definition all_types (t : ty) : Prop := True.
