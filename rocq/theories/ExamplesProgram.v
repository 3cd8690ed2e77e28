(** Concrete items for C71: a program with
    [#[pin_project] struct Foo<T> { #[pin] a: T }],
    [#[pin_project(project = BarProj)] struct Bar<T> { #[pin] a: Foo<T>, b: PhantomPinned }] and
    [#[pin_project(!Unpin)] struct Baz<T> { #[pin] a: Bar<T> }]. *)
From Coq Require Import String Ascii List Bool.
From Verif Require Import Base Syntax ModelArgs ModelAttribute ModelUtils ModelDerive ModelMeaning ModelTraits.
From Verif Require Import SpecArgs SpecDerive SpecLifetime SpecExpand SpecRun SpecMeaning SpecTraits SpecProgram.
From Verif Require Import ProofsArgs ProofsDerive ProofsTraits ProofsTraitsMain ProofsTraitsProps ProofsProgram ProofsProgramView ProofsPhantom Examples ExamplesTraits.
Import ListNotations.
Open Scope string_scope.
Open Scope list_scope.

Definition tapp (x y : string) : ty := TyPath None (Path false [Seg (I x) (GAngle false [ATy (tid y)])]).
Definition mo_item (n : string) (ts : list ttree) (l : list field) : item :=
  ItStruct (mkStruct [pin_attr ts] VPub (I n) (mkGenerics [PTy (I "T") [] None] None) (FNamed l)).
Definition mo_field (marks : list attr) (n : string) (t : ty) : field := mkField marks VInherited (Some (I n)) t.
Definition mo_foo : item := mo_item "Foo" [] [mo_field [pin_mark] "a" (tid "T")].
Definition mo_bar : item := mo_item "Bar" [TIdent (I "project"); TPunct "="%char false; TIdent (I "BarProj")]
  [mo_field [pin_mark] "a" (tapp "Foo" "T"); mo_field [] "b" (tid "PhantomPinned")].
Definition mo_baz : item := mo_item "Baz" t_negative [mo_field [pin_mark] "a" (tapp "Bar" "T")].

Definition mo_outer : env dt string :=
  mkEnv (fun x => if existsb (String.eqb x) lib_names then HDef (XLib x) else HDef (XUsr x)) (fun x => x).
Definition mo_entry (it : item) : entry terms :=
  mkEntry (U := terms) mo_outer it (match parse_derive it with Ok e => e | _ => mkExpansion [] [] end)
    (XUsr (name (name_of it))) (fun x => XGen (String.append (name (name_of it)) (String.append "/" x))).
(** All types are [Sized], and [u8] is [Unpin]. *)
Definition mo_prog : program :=
  mkProgram terms (map mo_entry [mo_foo; mo_bar; mo_baz]) XLib []
    (fun tr t => tr = core_sized \/ (tr = XInst (XLib "Unpin") [] /\ t = usr "u8")) (fun _ _ => True) (fun _ _ => True).
Definition mo_args (it : item) : args := match parse_args (attrs_of it) with Ok a => a | _ => mkArgs false UDefault None None PRNone end.

Lemma mo_in x : In x (pr_items mo_prog) -> x = mo_entry mo_foo \/ x = mo_entry mo_bar \/ x = mo_entry mo_baz.
Proof. intros [<-|[<-|[<-|[]]]]; auto. Qed.
Ltac each_item H := apply mo_in in H; destruct H as [->|[->| ->]].

Lemma mo_options x : In x (pr_items mo_prog) -> options (attrs_of (en_item x)) (mo_args (en_item x)).
Proof. intros H. each_item H; apply parse_args_iff; vm_compute; reflexivity. Qed.
Lemma mo_names : program_names mo_prog.
Proof.
  intros x H. split; [|split; [|exists (mo_args (en_item x)); exact (mo_options x H)]].
  - apply check_legal.
    + each_item H; vm_compute; reflexivity.
    + each_item H; discriminate.
    + each_item H; cbn; intuition discriminate.
    + each_item H; intros y [].
  - apply check_uncaptured.
    + apply check_visible. each_item H; vm_compute; reflexivity.
    + each_item H; vm_compute; reflexivity.
    + each_item H; vm_compute; reflexivity.
Qed.

Lemma mo_defined e d : defines mo_prog e d ->
  (exists it, In it [mo_foo; mo_bar; mo_baz] /\ d = XUsr (name (name_of it)) /\
     forall k, e = DfItem k -> nth_error [mo_foo; mo_bar; mo_baz] k = Some it) /\ (exists k, e = DfItem k) \/
  (exists k y it, e = DfGen k y /\ nth_error [mo_foo; mo_bar; mo_baz] k = Some it /\
     d = XGen (String.append (name (name_of it)) (String.append "/" y))) \/
  (exists y, e = DfLib y /\ In y lib_names /\ d = XLib y).
Proof.
  destruct e as [k|k y|y]; cbn [defines].
  - intros (x & Hx & ->). left. cbn [pr_items mo_prog] in Hx. rewrite nth_error_map in Hx.
    destruct (nth_error [mo_foo; mo_bar; mo_baz] k) as [it|] eqn:E; [|discriminate]. injection Hx as <-.
    split; [|eauto]. exists it. split; [exact (nth_error_In _ _ E)|]. split; [reflexivity|]. intros k' H. injection H as <-. exact E.
  - intros (x & Hx & ->). right. left. cbn [pr_items mo_prog] in Hx. rewrite nth_error_map in Hx.
    destruct (nth_error [mo_foo; mo_bar; mo_baz] k) as [it|] eqn:E; [|discriminate]. injection Hx as <-.
    exists k, y, it. auto.
  - intros [Hy ->]. right. right. exists y. auto.
Qed.
Lemma mo_inst e d a : defines mo_prog e d -> x_inst d a = XInst d a.
Proof.
  intros H. apply mo_defined in H. destruct H as [[(it & _ & -> & _) _]|[(k & y & it & _ & _ & ->)|(y & _ & Hy & ->)]]; try reflexivity.
  cbn. destruct (String.eqb_spec y "PinnedFieldsOf") as [->|_]; [|reflexivity]. exfalso. cbn in Hy. intuition discriminate.
Qed.
Lemma mo_index k it k' it' : nth_error [mo_foo; mo_bar; mo_baz] k = Some it -> nth_error [mo_foo; mo_bar; mo_baz] k' = Some it' ->
  name (name_of it) = name (name_of it') -> k = k'.
Proof.
  intros H H' E. destruct k as [|[|[|k]]], k' as [|[|[|k']]]; try reflexivity; cbn in H, H';
    try (destruct k; discriminate); try (destruct k'; discriminate); injection H as <-; injection H' as <-; discriminate.
Qed.
Lemma mo_gen k it k' it' y y' : nth_error [mo_foo; mo_bar; mo_baz] k = Some it -> nth_error [mo_foo; mo_bar; mo_baz] k' = Some it' ->
  String.append (name (name_of it)) (String.append "/" y) = String.append (name (name_of it')) (String.append "/" y') -> k = k' /\ y = y'.
Proof.
  intros H H' E. destruct k as [|[|[|k]]], k' as [|[|[|k']]]; cbn in H, H';
    try (destruct k; discriminate); try (destruct k'; discriminate); injection H as <-; injection H' as <-; cbn in E;
    try discriminate; injection E as <-; auto.
Qed.
Lemma mo_nominal e e' d d' a a' : defines mo_prog e d -> defines mo_prog e' d' ->
  x_inst d a = x_inst d' a' -> e = e' /\ a = a'.
Proof.
  intros H H' E. rewrite (mo_inst e d a H), (mo_inst e' d' a' H') in E. injection E as E ->. split; [|reflexivity].
  apply mo_defined in H, H'.
  destruct H as [[(it & Hi & -> & Hk) (k & ->)]|[(k & y & it & -> & Hk & ->)|(y & -> & Hy & ->)]];
  destruct H' as [[(it' & Hi' & -> & Hk') (k' & ->)]|[(k' & y' & it' & -> & Hk' & ->)|(y' & -> & Hy' & ->)]]; try discriminate.
  - injection E as E. f_equal. exact (mo_index k it k' it' (Hk k eq_refl) (Hk' k' eq_refl) E).
  - injection E as E. destruct (mo_gen k it k' it' y y' Hk Hk' E) as [-> ->]. reflexivity.
  - injection E as ->. reflexivity.
Qed.

Lemma mo_rust : program_rust mo_prog.
Proof.
  constructor.
  - intros x H. each_item H; vm_compute; reflexivity.
  - intros x H. each_item H; reflexivity.
  - intros x H. exists [], [PTy (I "T") [] None]. split; [each_item H; reflexivity|]. split; [intros q []|intros q [<-|[]]; reflexivity].
  - exact mo_nominal.
  - intros e d l m d' a H. cbn. rewrite (mo_inst e d a H). discriminate.
  - reflexivity.
  - reflexivity.
  - reflexivity.
  - reflexivity.
  - intros tr e d a Htr H. cbn. rewrite (mo_inst e d a H). intros [->|[-> X]].
    + cbn in Htr. unfold core_sized in Htr. intuition discriminate.
    + apply mo_defined in H. destruct H as [[(it & Hi & -> & _) _]|[(k & y & it & _ & _ & ->)|(y & _ & _ & ->)]]; try discriminate.
      destruct Hi as [<-|[<-|[<-|[]]]]; discriminate.
  - intros E im s l tr e d a [].
  - intros x s l H. split; [intros _ fs f _ _; left; reflexivity|intros _; left; reflexivity].
  - intros l _. left. reflexivity.
  - intros d. left. reflexivity.
Qed.

(** ** The least solution *)
Section Least.
  Variable p : program.
  Notation T := (D (pr_univ p)).
  Definition program_least (tr t : T) : Prop :=
    forall h : T -> T -> Prop, (forall tr t, program_selected p h tr t -> h tr t) -> h tr t.
  Lemma program_mono (h h' : T -> T -> Prop) tr t :
    (forall tr t, h tr t -> h' tr t) -> program_selected p h tr t -> program_selected p h' tr t.
  Proof.
    intros Hh [H|[[-> H]|[[-> H]|[H|H]]]].
    - left. destruct H as (x & Hin & s & l & Hm & Hs). exists x. split; [exact Hin|]. exists s, l. split; [exact Hm|].
      exact (sat_mono (bare_program p) h h' _ _ Hh Hs).
    - right. left. split; [reflexivity|]. destruct H as (E & c & g & fs & s & l & Hin & -> & Hn & Hf).
      exists E, c, g, fs, s, l. split; [exact Hin|]. split; [reflexivity|]. split; [exact Hn|]. intros f Hi. apply Hh. exact (Hf f Hi).
    - right. right. left. split; [reflexivity|]. destruct H as (d & -> & H). exists d. split; [reflexivity|]. apply Hh. exact H.
    - right. right. right. left. exact H.
    - right. right. right. right. exact H.
  Qed.
  Lemma program_least_solution tr t : program_least tr t <-> program_selected p program_least tr t.
  Proof.
    assert (A : forall tr t, program_selected p program_least tr t -> program_least tr t).
    { intros tr' t' H h Hh. apply Hh. apply (program_mono program_least h tr' t'); [|exact H]. intros tr2 t2 H'. exact (H' h Hh). }
    split; [|apply A]. intros H. apply (H (program_selected p program_least)). intros tr' t' H'.
    apply (program_mono (program_selected p program_least) program_least tr' t'); [exact A|exact H'].
  Qed.
End Least.
Definition mo_holds : dt -> dt -> Prop := program_least mo_prog.
Definition mo_fails : env dt string -> wpred -> Prop := can_tell (bare_program mo_prog) mo_holds.

Lemma no_drop p x0 t : program_rust p -> program_names p -> pr_impls p = [] -> In x0 (pr_items p) ->
  (forall x, In x (pr_items p) -> exists a, options (attrs_of (en_item x)) a /\ ar_pinned_drop a = false) ->
  (forall t, ~ pr_other p (drop_trait (bare_program p)) t) -> ~ program_least p (drop_trait (bare_program p)) t.
Proof.
  intros Hr Hn Hi H0 Ha Ho H. apply (H (fun tr _ => tr <> drop_trait (bare_program p))); [|reflexivity]. clear H t.
  pose proof (only_rust p Hr x0 H0) as Hx0.
  assert (N : forall y, In y lib_names -> y <> "Drop" -> drop_trait (only p x0) <> u_inst (pr_univ p) (pr_lib p y) []).
  { intros y Hy Hne X. apply (ru_nominal _ Hx0 (ELib "Drop") (ELib y)) in X; [|cbn; auto 12|exact Hy]. destruct X as [X _]. congruence. }
  assert (NU := N "Unpin" ltac:(cbn; auto 12) ltac:(discriminate)).
  intros tr t H ->. destruct H as [([E im] & Hin & s & l & Hm & _)|[[X _]|[[X _]|[[X _]|X]]]];
    try exact (NU X); [|exact (Ho t X)].
  cbn [fst snd] in Hm. unfold program_impls in Hin. rewrite Hi in Hin. cbn [app] in Hin.
  apply in_app_or in Hin. destruct Hin as [Hin|Hin].
  - apply in_flat_map in Hin. destruct Hin as (x & Hx & Hin). destruct (Ha x Hx) as (a & Hopt & Hd).
    pose proof (drop_mode p x E im s l t a Hr Hn Hx Hin Hm Hopt) as D. congruence.
  - destruct (lib_impl_cases (only p x0) E im s l _ _ Hin Hm) as [(X & _)|(X & _)]; [|exact (NU X)].
    exact (N "UnsafeUnpin" ltac:(cbn; auto 12) ltac:(discriminate) X).
Qed.
Lemma mo_no_drop t : ~ mo_holds (drop_trait (bare_program mo_prog)) t.
Proof.
  apply (no_drop mo_prog (mo_entry mo_foo) t mo_rust mo_names eq_refl (or_introl eq_refl)).
  - intros x Hx. exists (mo_args (en_item x)). split; [exact (mo_options x Hx)|]. each_item Hx; vm_compute; reflexivity.
  - intros t' [X|[X _]]; discriminate.
Qed.

Lemma bodies_ok se holds x :
  forallb (fun o => match o with
    | OImpl im => forallb (fun m => match body_obligations (m_body m) with [] => true | _ => false end) (i_methods im)
    | _ => true end) (scoped (se_exp se)) = true ->
  In x (generated_impls se) -> typechecks se holds x.
Proof.
  intros H Hin s l m q Hm Hq _. apply in_flat_map in Hin. destruct Hin as (o & Ho & Hin). destruct o as [| |im| | |]; try (destruct Hin; fail).
  destruct Hin as [<-|[]]. rewrite forallb_forall in H. specialize (H _ Ho). cbn in H. rewrite forallb_forall in H. specialize (H _ Hm).
  cbn [snd] in Hq. destruct (body_obligations (m_body m)); [destruct Hq|discriminate].
Qed.

Lemma mo_alone x : In x (pr_items mo_prog) -> coherent (only mo_prog x) mo_fails.
Proof.
  intros Hx. destruct (mo_names x Hx) as (_ & Hu & _). intros i j u w Hij.
  apply (c26_alone (only mo_prog x) (least (only mo_prog x)) mo_fails _ (mo_options x Hx) (only_rust mo_prog mo_rust x Hx)
    (un_visible _ Hu) (least_solution _)); [| |exact Hij].
  - intros E n q s l Hn Hq _. split.
    + intros H. specialize (H (lts_of E) (fun y _ => eq_refl) _ (or_introl eq_refl)). cbn in H.
      specialize (H (lts_of E) (fun y _ => eq_refl)). rewrite Hq in H. exact (mo_no_drop _ H).
    + intros (lts & t & bs & H & _). discriminate.
  - intros z s l [].
Qed.

Lemma mo_compiles : program_compiles mo_prog mo_holds mo_fails.
Proof.
  constructor.
  - exact mo_rust.
  - exact (program_least_solution mo_prog).
  - intros x Hx E im s l tr a [].
  - apply can_tell_refuter.
  - apply (coherent_iff mo_prog mo_rust mo_names mo_fails); [discriminate|]. exact mo_alone.
  - intros x y Hx Hy. refine (bodies_ok (only mo_prog x) mo_holds y _ Hy). each_item Hx; vm_compute; reflexivity.
Qed.

(** ** What is [Unpin] in it *)
Lemma mo_sized t : mo_holds core_sized t.
Proof. apply program_least_solution. do 4 right. left. reflexivity. Qed.
Lemma mo_where x s l : In x (pr_items mo_prog) -> where_holds (only mo_prog x) mo_holds s l.
Proof.
  intros H w Hw. each_item H; cbn in Hw; destruct Hw as [<-|[<-|[]]]; try (intros f Hf b []; fail);
    intros f Hf b [<-|[]] f' Hf'; apply mo_sized.
Qed.
Definition mo_unpin (n : string) (d : dt) : Prop := mo_holds (XInst (XLib "Unpin") []) (XInst (XUsr n) [DTy d]).
Lemma mo_foo_iff d : mo_unpin "Foo" d <-> mo_holds (XInst (XLib "Unpin") []) d.
Proof.
  assert (Hx : In (mo_entry mo_foo) (pr_items mo_prog)) by (left; reflexivity).
  pose proof (c71_default mo_prog mo_holds mo_fails _ _ (fun _ => d) lt_ mo_compiles mo_names Hx (mo_options _ Hx) eq_refl) as H.
  refine (iff_trans H _). split.
  - intros [_ X]. refine (X (mo_field [pin_mark] "a" (tid "T")) _). eexists. split; [left; reflexivity|].
    split; [left; reflexivity|]. exists pin_mark. split; [left; reflexivity|]. repeat split.
  - intros X. split; [exact (mo_where _ _ _ Hx)|]. intros f (fs & [<-|[]] & Hf & _). destruct Hf as [<-|[]]. exact X.
Qed.
Lemma mo_bar_iff d : mo_unpin "Bar" d <-> mo_unpin "Foo" d.
Proof.
  assert (Hx : In (mo_entry mo_bar) (pr_items mo_prog)) by (right; left; reflexivity).
  pose proof (c71_default mo_prog mo_holds mo_fails _ _ (fun _ => d) lt_ mo_compiles mo_names Hx (mo_options _ Hx) eq_refl) as H.
  refine (iff_trans H _). split.
  - intros [_ X]. refine (X (mo_field [pin_mark] "a" (tapp "Foo" "T")) _). eexists. split; [left; reflexivity|].
    split; [left; reflexivity|]. exists pin_mark. split; [left; reflexivity|]. repeat split.
  - intros X. split; [exact (mo_where _ _ _ Hx)|]. intros f (fs & [<-|[]] & Hf & Hp).
    destruct Hf as [<-|[<-|[]]]; [exact X|destruct Hp as (a & [] & _)].
Qed.
Lemma mo_bar_unpin : mo_unpin "Bar" (usr "u8").
Proof. apply (proj2 (mo_bar_iff _)), (proj2 (mo_foo_iff _)). apply program_least_solution. do 5 right. split; reflexivity. Qed.
Lemma mo_bar_not : ~ mo_unpin "Bar" phantom_pinned_.
Proof.
  intros H. apply (proj1 (mo_bar_iff _)) in H. apply (proj1 (mo_foo_iff _)) in H. revert H.
  assert (Hx : In (mo_entry mo_foo) (pr_items mo_prog)) by (left; reflexivity).
  pose proof (c71_view mo_prog mo_holds mo_fails [] (mo_entry mo_foo) (map mo_entry [mo_bar; mo_baz]) mo_compiles mo_names eq_refl) as C.
  destruct (view_names mo_prog mo_holds (mo_entry mo_foo) ([] ++ map mo_entry [mo_bar; mo_baz]) Hx mo_names) as [_ Hu].
  exact (phantom_not_unpin (view mo_prog mo_holds (mo_entry mo_foo) ([] ++ map mo_entry [mo_bar; mo_baz])) _ _ _ (mo_options _ Hx) Hu C).
Qed.
Lemma mo_baz_not : ~ mo_unpin "Baz" (usr "u8").
Proof.
  assert (Hx : In (mo_entry mo_baz) (pr_items mo_prog)) by (right; right; left; reflexivity).
  exact (c71_negative mo_prog mo_holds mo_fails _ _ (fun _ => usr "u8") lt_ mo_compiles mo_names Hx (mo_options _ Hx) eq_refl).
Qed.
