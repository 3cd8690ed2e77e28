(** A program that redefines [pin_project]: /repo/tests/ui/pin_project/override-priv-mod.rs.

    extern crate pin_project as pin_project_orig;
    extern crate self as pin_project;
    pub use ::pin_project_orig::*;
    mod __private { pub use ::pin_project_orig::__private::*;  pub trait Drop {} }

    #[pin_project] struct S { #[pin] f: (u8, PhantomPinned) }
    impl Drop for S { .. } *)
From Coq Require Import String Ascii List Bool.
From Verif Require Import Base Syntax ModelArgs ModelAttribute ModelUtils ModelDerive ModelMeaning ModelTraits.
From Verif Require Import SpecArgs SpecDerive SpecLifetime SpecExpand SpecRun SpecMeaning SpecTraits.
From Verif Require Import ProofsArgs ProofsDerive ProofsRun ProofsTraits.
From Verif Require Import Examples ExamplesTraits.
Import ListNotations.
Open Scope string_scope.
Open Scope list_scope.

(** [::pin_project] is the user's crate, whose [__private::Drop] is the user's trait. *)
Definition own_crate : dt := XUsr "crate".
Definition own_private : dt := XUsr "crate::__private".
Definition own_drop : dt := XInst (XUsr "crate::__private::Drop") [].
Definition own_sel (d : dt) (x : string) (a : list (darg dt string)) : dt :=
  match d with
  | XUsr c =>
    if String.eqb c "crate" then if String.eqb x "__private" then own_private else x_sel (XAbs "pin_project" []) x a
    else if String.eqb c "crate::__private" then
      if String.eqb x "Drop" then XInst (XUsr "crate::__private::Drop") a else x_inst (XLib x) a
    else XSel d x a
  | _ => x_sel d x a
  end.
Definition own_abs (x : string) (a : list (darg dt string)) : dt := if String.eqb x "pin_project" then own_crate else XAbs x a.
Definition own_terms : univ :=
  mkUniv dt string x_inst own_sel own_abs (fun x => XAbs x []) x_proj XRef XPtr XTuple XSlice XArray XFn XDyn XNever XLit XCall
    (fun _ m ts => XMacro m ts) "'_" (fun x => x).

Definition own_names (x : string) : head dt :=
  if String.eqb x "S" then HDef XItem
  else if existsb (String.eqb x) lib_names then HDef (XLib x) else HDef (XUsr x).
Definition own_env : env dt string := mkEnv own_names (fun x => x).
Definition own_item : item :=
  ItStruct (mkStruct [pin_attr []] VInherited (I "S") (mkGenerics [] None)
    (FNamed [mkField [pin_mark] VInherited (Some (I "f")) (TyTuple [tid "u8"; tid "PhantomPinned"])])).
Definition own_impl : impl := mkImpl false (mkGenerics [] None) (Some (Path false [seg1 "Drop"])) (tid "S") [].
Definition own_prog : setting :=
  mkSetting own_terms own_env own_item (match parse_derive own_item with Ok e => e | _ => mkExpansion [] [] end)
    XItem XGen XLib [(own_env, own_impl)] (fun tr _ => tr = core_sized) (fun _ _ => True) (fun _ _ => True).

Lemma own_options : options (attrs_of own_item) (o_of []).
Proof. apply parse_args_iff. reflexivity. Qed.
Lemma own_entity e a : known e -> x_inst (entity_def own_prog e) a = XInst (entity_def own_prog e) a.
Proof.
  destruct e as [|x|x]; cbn; try reflexivity. intros H. destruct (String.eqb_spec x "PinnedFieldsOf") as [->|_]; [|reflexivity].
  exfalso. intuition discriminate.
Qed.
Lemma own_rust : rust own_prog.
Proof.
  constructor.
  - vm_compute. reflexivity.
  - reflexivity.
  - exists [], []. split; [reflexivity|]. split; intros q [].
  - intros e e' a a' K K' E. cbn [se_univ own_prog u_inst own_terms] in E. rewrite (own_entity e a K), (own_entity e' a' K') in E.
    injection E as E ->. split; [|reflexivity]. destruct e, e'; cbn in E; congruence.
  - intros e l m d a K. cbn [se_univ own_prog u_inst u_ref own_terms]. rewrite (own_entity e a K). discriminate.
  - reflexivity.
  - reflexivity.
  - reflexivity.
  - reflexivity.
  - intros tr e a Htr _ H. cbn [own_prog se_other] in H. subst tr. cbn in Htr. unfold core_sized in Htr. intuition discriminate.
  - intros E im s l tr e a [X|[]] _ K [Hm _]. injection X as <- <-. cbn [se_univ own_prog u_inst own_terms] in Hm.
    rewrite (own_entity e a K) in Hm. vm_compute in Hm. injection Hm as Hm _. destruct e; cbn in Hm; congruence.
  - intros s l. split; [intros _ fs f _ _; reflexivity|reflexivity].
  - reflexivity.
  - reflexivity.
Qed.
Lemma own_legal : legal own_prog.
Proof.
  apply check_legal.
  - reflexivity.
  - discriminate.
  - cbn. intuition discriminate.
  - cbn. intuition.
Qed.
Lemma own_uncaptured : uncaptured own_prog.
Proof.
  apply check_uncaptured.
  - apply check_visible. vm_compute. reflexivity.
  - reflexivity.
  - vm_compute. reflexivity.
Qed.
Lemma own_headers holds : headers_ok own_prog holds.
Proof.
  intros E im s l tr a [X|[]] [Hm _] _. injection X as <- <-. vm_compute in Hm. injection Hm as <-. exists s, l.
  split; [reflexivity|]. intros w [].
Qed.
Lemma own_applies holds s l : applies own_prog holds (own_env, own_impl) (drop_trait own_prog) (item_at own_prog s l).
Proof. exists s, l. split; [split; [reflexivity|eexists; split; reflexivity]|]. intros w []. Qed.
