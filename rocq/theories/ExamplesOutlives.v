(** A universe where a type is the list of the lifetimes in it. *)
From Coq Require Import String List Bool.
From Verif Require Import Base Syntax ModelUtils ModelDerive ModelMeaning SpecOutlives Examples.
Import ListNotations.
Open Scope string_scope.
Open Scope list_scope.

Definition lt_arg (a : darg (list string) string) : list string :=
  match a with
  | DLt l => [l]
  | DTy d => d
  | DAssoc _ d => d
  | DParen l o => concat l ++ match o with Some d => d | None => [] end
  end.
Definition lt_bound (b : dbound (list string) string) : list string := match b with DBLt l => [l] | DBTrait _ _ d => d end.
Definition lifetimes : univ :=
  mkUniv (list string) string (fun d l => d ++ flat_map lt_arg l) (fun d _ l => d ++ flat_map lt_arg l)
    (fun _ l => flat_map lt_arg l) (fun _ => []) (fun d tr _ l => d ++ tr ++ flat_map lt_arg l) (fun l _ d => l :: d) (fun _ d => d)
    (@concat string) (fun d => d) (fun d e => d ++ e) (fun _ l o => concat l ++ match o with Some d => d | None => [] end)
    (flat_map lt_bound) [] (fun _ => []) (fun d l => d ++ concat l) (fun _ _ _ => []) "'static" (fun _ => "'static").
Definition lt_out (l r : string) : Prop := l = r \/ l = "'static".
Definition ty_out (d : list string) (r : string) : Prop := forall l, In l d -> lt_out l r.

Lemma args_out l r : args_outlive (U := lifetimes) ty_out lt_out l r -> forall x, In x (flat_map lt_arg l) -> lt_out x r.
Proof.
  intros H x Hx. apply in_flat_map in Hx. destruct Hx as (a & Ha & Hx). specialize (H a Ha).
  destruct a as [y|d|y d|ds o]; cbn in *.
  - destruct Hx as [<-|[]]. exact H.
  - exact (H x Hx).
  - exact (H x Hx).
  - destruct H as [H1 H2]. apply in_app_or in Hx. destruct Hx as [Hx|Hx].
    + apply in_concat in Hx. destruct Hx as (d & Hd & Hx). exact (H1 d Hd x Hx).
    + destruct o as [d|]; [exact (H2 d eq_refl x Hx)|destruct Hx].
Qed.
Lemma out_args l r : (forall x, In x (flat_map lt_arg l) -> lt_out x r) -> args_outlive (U := lifetimes) ty_out lt_out l r.
Proof.
  intros H a Ha. assert (Hx : forall x, In x (lt_arg a) -> lt_out x r) by (intros x Hx; apply H; apply in_flat_map; eauto).
  destruct a as [y|d|y d|ds o]; cbn in *.
  - apply Hx. left. reflexivity.
  - exact Hx.
  - exact Hx.
  - split.
    + intros d Hd x Hi. apply Hx. apply in_or_app. left. apply in_concat. eauto.
    + intros d -> x Hi. apply Hx. apply in_or_app. right. exact Hi.
Qed.

Lemma lifetimes_rules : outlives_rules (U := lifetimes) ty_out lt_out.
Proof.
  constructor; unfold ty_out; cbn [u_inst u_sel u_abs u_proj u_ref u_ptr u_tuple u_slice u_array u_fn u_dyn u_never u_lit u_call u_macro
    u_elided u_bound lifetimes D LT]; intros.
  - left. reflexivity.
  - right. reflexivity.
  - right. reflexivity.
  - apply in_app_or in H1. destruct H1; [apply H; assumption|eapply args_out; eassumption].
  - apply in_app_or in H1. destruct H1; [apply H; assumption|eapply args_out; eassumption].
  - eapply args_out; eassumption.
  - apply in_app_or in H2. destruct H2 as [H2|H2]; [apply H; assumption|]. apply in_app_or in H2.
    destruct H2 as [H2|H2]; [apply H0; assumption|eapply args_out; eassumption].
  - destruct H1 as [<-|H1]; [assumption|apply H0; assumption].
  - apply H. assumption.
  - apply in_concat in H0. destruct H0 as (d & Hd & H0). exact (H d Hd _ H0).
  - apply H. assumption.
  - apply in_app_or in H1. destruct H1; [apply H|apply H0]; assumption.
  - apply in_app_or in H1. destruct H1 as [H1|H1].
    + apply in_concat in H1. destruct H1 as (d & Hd & H1). exact (H d Hd _ H1).
    + destruct o as [d|]; [exact (H0 d eq_refl _ H1)|destruct H1].
  - apply in_flat_map in H0. destruct H0 as (b & Hb & H0). specialize (H b Hb). destruct b as [y|m lts d]; cbn in *.
    + destruct H0 as [<-|[]]. exact H.
    + exact (H _ H0).
  - destruct H.
  - destruct H.
  - apply in_app_or in H1. destruct H1 as [H1|H1]; [apply H; assumption|]. apply in_concat in H1. destruct H1 as (d' & Hd & H1). exact (H0 d' Hd _ H1).
  - destruct H0.
Qed.

(** Nothing outside of the item has a lifetime but ['static]. *)
Definition lt_env : env (list string) string := mkEnv (fun _ => HDef []) (fun _ => "'static").
Lemma lt_env_level : module_level (U := lifetimes) ty_out lt_out lt_env.
Proof. intros r. constructor; [intros x l []|intros x; right; reflexivity]. Qed.
Lemma lt_nominal : nominal (U := lifetimes) ty_out lt_out [].
Proof. intros l r H. apply out_args. exact H. Qed.
