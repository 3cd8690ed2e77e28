(** Every allowed combination of options can be written. *)
From Coq Require Import String Ascii List Bool.
From Verif Require Import Base Syntax ModelArgs ModelUtils ModelDerive.
From Verif Require Import SpecArgs SpecDerive SpecExpand SpecChoice.
From Verif Require Import ProofsArgs ProofsDerive.
Import ListNotations.
Open Scope string_scope.
Open Scope list_scope.

Definition chosen (a : args) : list parg :=
  (if ar_pinned_drop a then [GPinnedDrop] else []) ++
  match ar_unpin a with UDefault => [] | UUnsafe => [GUnsafeUnpin] | UNegative => [GNotUnpin] end ++
  match ar_project a with Some i => [GProject i] | None => [] end ++
  match ar_project_ref a with Some i => [GProjectRef i] | None => [] end ++
  match ar_project_replace a with PRNone => [] | PRUnnamed => [GReplace] | PRNamed i => [GReplaceNamed i] end.

Lemma can_write l : (forall i, In i (flat_map given l) -> plain_ident i) -> exists ts, written l ts.
Proof.
  induction l as [|g l IH]; intros H; [exists []; constructor|]. cbn [flat_map] in H.
  destruct IH as [ts W]; [intros i Hi; apply H, in_or_app; auto|].
  assert (E : exists t, written1 g t).
  { assert (P : forall i, In i (given g) -> plain_ident i) by (intros i Hi; apply H, in_or_app; auto).
    destruct g as [| | |i|i| |i]; eexists;
      [apply W_pinned_drop|apply W_unsafe_unpin|apply (W_not_unpin false)|apply (W_project false)|apply (W_project_ref false)|
       apply W_replace|apply (W_replace_named false)]; apply P; left; reflexivity. }
  destruct E as [t E]. eexists. eapply (W_more _ _ false); eassumption.
Qed.
Lemma chosen_given a i : In i (flat_map given (chosen a)) <-> exists k, given_name k a = Some i.
Proof.
  unfold chosen. rewrite !flat_map_app, !in_app_iff. destruct a as [[] [] [p|] [r|] [| |o]]; cbn; split;
    try (intros H; repeat destruct H as [H|H]; try contradiction; subst;
         first [exists PMut; reflexivity|exists PRef; reflexivity|exists POwn; reflexivity]);
    intros [[] H]; cbn in H; try discriminate H; injection H as ->; tauto.
Qed.
Lemma chosen_sensible a : allowed a -> sensible (chosen a).
Proof.
  intros [D _ N].
  pose proof (N PMut PRef) as N1. pose proof (N PMut POwn) as N2. pose proof (N PRef POwn) as N3. clear N.
  destruct a as [pd u p r o]. cbn [given_name ar_project ar_project_ref ar_project_replace ar_pinned_drop] in *.
  split.
  - destruct pd, u, p, r, o; cbn; repeat constructor; cbn; intuition discriminate.
  - assert (X : forall (x y : ident), (forall i, Some x = Some i -> Some y = Some i -> False) -> y <> x).
    { intros x y H ->. apply (H x); reflexivity. }
    destruct p as [p|], r as [r|], o as [| |o];
    try (assert (r <> p) by (apply X; intros i A B; discriminate (N1 i A B)));
    try (assert (o <> p) by (apply X; intros i A B; discriminate (N2 i A B)));
    try (assert (o <> r) by (apply X; intros i A B; discriminate (N3 i A B)));
    destruct pd, u; cbn; repeat constructor; cbn; intuition congruence.
  - destruct pd; [rewrite (D eq_refl)|]; destruct u, p, r, o; cbn; intuition discriminate.
  - destruct pd, u, p, r, o; cbn; intuition discriminate.
Qed.
Lemma chosen_options a : options_are (chosen a) a.
Proof.
  destruct a as [pd u p r o]. split; unfold chosen; cbn [ar_pinned_drop ar_unpin ar_project ar_project_ref ar_project_replace];
    destruct pd, u, p, r, o; cbn; intuition congruence.
Qed.
Lemma allowed_parsed a : allowed a -> exists ts, args_parse ts = Ok a /\ written (chosen a) ts.
Proof.
  intros A. destruct (can_write (chosen a)) as [ts W].
  { intros i H. apply chosen_given in H. destruct H as [k H]. apply (al_plain _ A k i H). }
  exists ts. split; [|exact W]. apply args_parse_iff. exists (chosen a). split; [exact W|]. split; [apply chosen_sensible, A|apply chosen_options].
Qed.
Lemma written_plain l ts : written l ts -> forall i, In i (flat_map given l) -> plain_ident i.
Proof.
  intros W. assert (P1 : forall g t, written1 g t -> forall i, In i (given g) -> plain_ident i).
  { intros g t [] j Hj; cbn in Hj; try contradiction; destruct Hj as [<-|[]]; assumption. }
  induction W as [|g t H|g t s l ts H W IH]; cbn [flat_map]; intros i Hi.
  - destruct Hi.
  - rewrite app_nil_r in Hi. eapply P1; eassumption.
  - apply in_app_or in Hi. destruct Hi as [Hi|Hi]; [eapply P1; eassumption|auto].
Qed.
Definition arg_of (k : proj) (i : ident) : parg := match k with PMut => GProject i | PRef => GProjectRef i | POwn => GReplaceNamed i end.
Lemma options_given l a k i : options_are l a -> given_name k a = Some i -> In (arg_of k i) l.
Proof.
  intros O H. destruct k; cbn in *; [apply (o_project _ _ O), H|apply (o_project_ref _ _ O), H|].
  destruct (ar_project_replace a) eqn:E; try discriminate. injection H as ->. apply (o_replace_named _ _ O), E.
Qed.
Lemma flat_twice {A B} (f : A -> list B) l x y n : NoDup (flat_map f l) -> In x l -> In y l -> In n (f x) -> In n (f y) -> ~ x <> y.
Proof.
  induction l as [|z l IH]; cbn [flat_map]; [intros _ []|]. intros N Hx Hy Nx Ny D.
  assert (Q : forall b r, NoDup (b ++ r) -> In n b -> In n r -> False).
  { intros b r. induction b as [|c b IHb]; cbn [app]; intros M I1 I2; [destruct I1|]. inversion M; subst.
    destruct I1 as [->|I1]; [apply H1, in_or_app; auto|auto]. }
  destruct Hx as [->|Hx], Hy as [->|Hy].
  - apply D. reflexivity.
  - eapply Q; [exact N|exact Nx|apply in_flat_map; eauto].
  - eapply Q; [exact N|exact Ny|apply in_flat_map; eauto].
  - revert D. eapply IH; try eassumption. clear - N. induction (f z) as [|c b IHb]; [exact N|]. inversion N; auto.
Qed.
Lemma parsed_allowed ts a : args_parse ts = Ok a -> allowed a.
Proof.
  intros H. pose proof H as H0. apply args_parse_iff in H. destruct H as (l & W & S & O). split.
  - apply (args_parse_exclusive _ _ H0).
  - intros k i Hk. apply (written_plain _ _ W). apply in_flat_map. exists (arg_of k i).
    split; [apply (options_given l a); assumption|destruct k; left; reflexivity].
  - intros k k' i Hk Hk'.
    assert (X : ~ arg_of k i <> arg_of k' i).
    { apply (flat_twice given l _ _ i (names_distinct _ S)); try (apply (options_given l a); assumption);
        [destruct k|destruct k']; left; reflexivity. }
    destruct k, k'; try reflexivity; exfalso; apply X; discriminate.
Qed.
Lemma c80_options a : (exists ts, args_parse ts = Ok a) <-> allowed a.
Proof.
  split; [intros [ts H]; eapply parsed_allowed; exact H|]. intros A. destruct (allowed_parsed a A) as (ts & H & _). eauto.
Qed.

Lemma remark l b a : options l b -> allowed a -> exists l', marker_changed l l' /\ options l' a /\ (reprs_ok l -> reprs_ok l').
Proof.
  intros (ts & pl & (M & l1 & x & d & l2 & E & Hx & Hm & U) & _) A. destruct (allowed_parsed a A) as (ts' & _ & W).
  set (x' := mkAttr false [I "pin"] (MList Paren [TIdent (I "__private"); TGroup Paren ts'])).
  exists (l1 ++ x' :: l2). split; [|split].
  - exists l1, x, x', l2. repeat split; try assumption; apply Hx.
  - exists ts', (chosen a). split; [|split; [exact W|split; [apply chosen_sensible, A|apply chosen_options]]].
    split.
    + intros y Hy. apply in_app_or in Hy. destruct Hy as [Hy|[<-|Hy]].
      * apply M. rewrite E. apply in_or_app. auto.
      * intros [_ Q]. discriminate Q.
      * apply M. rewrite E. apply in_or_app. right. right. exact Hy.
    + exists l1, x', Paren, l2. repeat split. exact U.
  - intros R y d' ts0 Hy Hn Hm'. apply in_app_or in Hy. destruct Hy as [Hy|[<-|Hy]].
    + apply (R y d' ts0); try assumption. rewrite E. apply in_or_app. auto.
    + destruct Hn as [_ Q]. discriminate Q.
    + apply (R y d' ts0); try assumption. rewrite E. apply in_or_app. right. right. exact Hy.
Qed.
Lemma c80_struct l v i g fs x a : parse_derive (ItStruct (mkStruct l v i g fs)) = Ok x -> allowed a -> no_clash a i ->
  exists l' y, marker_changed l l' /\ options l' a /\ parse_derive (ItStruct (mkStruct l' v i g fs)) = Ok y.
Proof.
  intros H A N. apply parse_derive_struct in H. destruct H as (b & [O _ R E P] & _). cbn in O, R, E, P.
  destruct (remark l b a O A) as (l' & M & O' & R'). exists l'. eexists. split; [exact M|]. split; [exact O'|].
  apply parse_derive_struct. exists a. split; [|reflexivity]. constructor; cbn [s_attrs s_ident s_fields]; auto.
Qed.
Lemma c80_enum l v i g vs x a : parse_derive (ItEnum (mkEnum l v i g vs)) = Ok x -> allowed a -> no_clash a i ->
  ar_project_replace a <> PRUnnamed ->
  exists l' y, marker_changed l l' /\ options l' a /\ parse_derive (ItEnum (mkEnum l' v i g vs)) = Ok y.
Proof.
  intros H A N U. apply parse_derive_enum in H. destruct H as (b & [O _ _ R E D V P] & _). cbn in O, R, E, D, V, P.
  destruct (remark l b a O A) as (l' & M & O' & R'). exists l'. eexists. split; [exact M|]. split; [exact O'|].
  apply parse_derive_enum. exists a. split; [|reflexivity]. constructor; cbn [e_attrs e_ident e_variants]; auto.
Qed.
