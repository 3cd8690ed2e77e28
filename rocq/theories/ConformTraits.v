(** The model of traits against /repo/tests/proper_unpin.rs and
    /repo/tests/unsafe_unpin.rs.

    All items of the two tests, each in its module, are one program.  The program
    compiles, and each of the 34 [assert_unpin!] and [assert_not_unpin!] holds in it.
    This checks the model, and no theorem depends on it. *)
From Coq Require Import String Ascii List Bool Arith.
From Verif Require Import Base Syntax ModelArgs ModelAttribute ModelUtils ModelDerive ModelMeaning ModelTraits.
From Verif Require Import SpecArgs SpecDerive SpecLifetime SpecExpand SpecRun SpecMeaning SpecTraits SpecProgram.
From Verif Require Import ProofsArgs ProofsDerive ProofsRun ProofsTraits ProofsTraitsMain ProofsTraitsProps ProofsProgram ProofsProgramView ProofsPhantom.
From Verif Require Import Examples ExamplesTraits ExamplesProgram ConformTests.
Import ListNotations.
Open Scope string_scope.
Open Scope list_scope.

(** What the derive gets: [#[pin_project]] has run and [cfg] is evaluated. *)
Definition te_item (t : test_item) : item :=
  match parse_attribute (te_args t) (te_raw t) with
  | Ok r => match strip_item (Nat.eqb 1) r with Some it => it | None => ItOther end
  | _ => ItOther
  end.
Definition within (m x : string) : string := String.append m (String.append "::" x).
Definition te_full (t : test_item) : string := within (te_mod t) (name (name_of (te_item t))).
(** [PhantomPinned], [Unpin] and [UnsafeUnpin] are imported.  Names of the prelude
    ([Option]) are taken for names of the module. *)
Definition te_outer (m : string) : env dt string :=
  mkEnv (fun x => if existsb (String.eqb x) lib_names then HDef (XLib x) else HDef (XUsr (within m x))) (fun x => x).
Definition te_entry (t : test_item) : entry terms :=
  mkEntry (U := terms) (te_outer (te_mod t)) (te_item t)
    (match parse_derive (te_item t) with Ok e => e | _ => mkExpansion [] [] end)
    (XUsr (te_full t)) (fun y => XSel (XGen (te_full t)) y []).
(** Types without [#[pin_project]]: [()], [Option] and the other structs, which have
    one field, of the type of the parameter. *)
Fixpoint plain (t : dt) : bool :=
  match t with
  | XTuple [] => true
  | XInst (XUsr n) [DTy d] => existsb (String.eqb n) ("unsafe_unpin::Option" :: test_plain) && plain d
  | _ => false
  end.
Definition te_other (tr t : dt) : Prop := tr = core_sized \/ (tr = XInst (XLib "Unpin") [] /\ plain t = true).
Definition te_prog : program :=
  mkProgram terms (map te_entry test_items) XLib (map (fun x => (te_outer (fst x), snd x)) test_impls)
    te_other (fun _ _ => True) (fun _ _ => True).
Definition te_opts (t : test_item) : args :=
  match parse_args (attrs_of (te_item t)) with Ok a => a | _ => mkArgs true UDefault None None PRNone end.

Lemma te_in x : In x (pr_items te_prog) -> exists t, In t test_items /\ x = te_entry t.
Proof. intros H. apply in_map_iff in H. destruct H as (t & <- & H). eauto. Qed.
Lemma te_check (f : test_item -> bool) t : forallb f test_items = true -> In t test_items -> f t = true.
Proof. intros H. rewrite forallb_forall in H. exact (H t). Qed.

Lemma te_options t : In t test_items -> options (attrs_of (te_item t)) (te_opts t).
Proof.
  intros H. apply parse_args_iff. unfold te_opts.
  assert (X := te_check (fun t => match parse_args (attrs_of (te_item t)) with Ok _ => true | _ => false end) t ltac:(vm_compute; reflexivity) H).
  cbv beta in X. destruct (parse_args (attrs_of (te_item t))); try discriminate; reflexivity.
Qed.
Lemma not_in_b x l : negb (existsb (String.eqb x) l) = true -> ~ In x l.
Proof.
  intros H Hin. apply negb_true_iff in H. rewrite <- not_true_iff_false in H. apply H. apply existsb_exists. exists x.
  split; [exact Hin|apply String.eqb_refl].
Qed.
Definition te_only (t : test_item) : setting := only te_prog (te_entry t).
Lemma te_names : program_names te_prog.
Proof.
  intros x H. destruct (te_in x H) as (t & Ht & ->). split; [|split; [|exists (te_opts t); exact (te_options t Ht)]].
  - apply check_legal.
    + exact (te_check (fun t => forallb node_legal (written (te_only t))) t ltac:(vm_compute; reflexivity) Ht).
    + assert (X := te_check (fun t => negb (String.eqb (item_name (te_only t)) "Self")) t ltac:(vm_compute; reflexivity) Ht).
      intros E. cbv beta in X. unfold te_only in X. rewrite E in X. discriminate.
    + apply not_in_b.
      exact (te_check (fun t => negb (existsb (String.eqb "Self") (param_names (item_params (te_only t))))) t ltac:(vm_compute; reflexivity) Ht).
    + assert (X := te_check (fun t => match binders_of (te_item t) with [] => true | _ => false end) t ltac:(vm_compute; reflexivity) Ht).
      cbv beta in X. intros y _ B. cbn [se_item only en_item te_entry] in B. destruct (binders_of (te_item t)); [destruct B|discriminate].
  - apply check_uncaptured.
    + apply check_visible.
      exact (te_check (fun t => let h := map name (flat_map introduces (scoped (se_exp (te_only t)))) in
        negb (existsb (String.eqb (item_name (te_only t))) (h ++ param_names (item_params (te_only t)))) &&
        forallb (fun x => negb (existsb (String.eqb x) h)) (param_names (item_params (te_only t))))%bool t ltac:(vm_compute; reflexivity) Ht).
    + exact (te_check (fun t => forallb node_legal (written (te_only t))) t ltac:(vm_compute; reflexivity) Ht).
    + exact (te_check (fun t => forallb (node_free (map name (flat_map introduces (scoped (se_exp (te_only t)))))
        (determine_lifetime_name "'pin" (generics_of (se_item (te_only t))))) (written (te_only t))) t ltac:(vm_compute; reflexivity) Ht).
Qed.

(** ** The laws *)
Lemma te_defined e d : defines te_prog e d ->
  (exists k t, e = DfItem k /\ nth_error test_items k = Some t /\ d = XUsr (te_full t)) \/
  (exists k y t, e = DfGen k y /\ nth_error test_items k = Some t /\ d = XSel (XGen (te_full t)) y []) \/
  (exists y, e = DfLib y /\ In y lib_names /\ d = XLib y).
Proof.
  assert (A : forall k x, nth_error (pr_items te_prog) k = Some x -> exists t, nth_error test_items k = Some t /\ x = te_entry t).
  { intros k x Hx. cbn [pr_items te_prog] in Hx. rewrite nth_error_map in Hx. destruct (nth_error test_items k) as [t|]; [|discriminate].
    injection Hx as <-. eauto. }
  destruct e as [k|k y|y]; cbn [defines].
  - intros (x & Hx & ->). destruct (A k x Hx) as (t & Ht & ->). left. exists k, t. auto.
  - intros (x & Hx & ->). destruct (A k x Hx) as (t & Ht & ->). right. left. exists k, y, t. auto.
  - intros [Hy ->]. right. right. exists y. auto.
Qed.
Lemma te_inst e d a : defines te_prog e d -> x_inst d a = XInst d a.
Proof.
  intros H. apply te_defined in H. destruct H as [(k & t & _ & _ & ->)|[(k & y & t & _ & _ & ->)|(y & _ & Hy & ->)]]; try reflexivity.
  cbn. destruct (String.eqb_spec y "PinnedFieldsOf") as [->|_]; [|reflexivity]. exfalso. cbn in Hy. intuition discriminate.
Qed.
Lemma te_index k t k' t' : nth_error test_items k = Some t -> nth_error test_items k' = Some t' -> te_full t = te_full t' -> k = k'.
Proof.
  intros H H' E. assert (N : NoDup (map te_full test_items)).
  { vm_compute. repeat (constructor; [cbn; intuition discriminate|]). constructor. }
  apply (proj1 (NoDup_nth_error _) N).
  - rewrite map_length. apply nth_error_Some. congruence.
  - rewrite !nth_error_map, H, H'. cbn. congruence.
Qed.
Lemma te_nominal e e' d d' a a' : defines te_prog e d -> defines te_prog e' d' -> x_inst d a = x_inst d' a' -> e = e' /\ a = a'.
Proof.
  intros H H' E. rewrite (te_inst e d a H), (te_inst e' d' a' H') in E. injection E as E ->. split; [|reflexivity].
  apply te_defined in H, H'.
  destruct H as [(k & t & -> & Hk & ->)|[(k & y & t & -> & Hk & ->)|(y & -> & Hy & ->)]];
  destruct H' as [(k' & t' & -> & Hk' & ->)|[(k' & y' & t' & -> & Hk' & ->)|(y' & -> & Hy' & ->)]]; try discriminate.
  - injection E as E. f_equal. exact (te_index k t k' t' Hk Hk' E).
  - injection E as E ->. f_equal. exact (te_index k t k' t' Hk Hk' E).
  - injection E as ->. reflexivity.
Qed.

(** The users' impls, for [Blah] and [OverlappingLifetimeNames]. *)
Definition full_blah : string := "unsafe_unpin::Blah".
Definition full_over : string := "unsafe_unpin::OverlappingLifetimeNames".
Lemma te_impl E im s l tr t : In (E, im) (pr_impls te_prog) -> matches (bare_program te_prog) E im s l tr t ->
  tr = unsafe_unpin (bare_program te_prog) /\
  ((t = XInst (XUsr full_blah) [DTy (s "T"); DTy (s "U")] /\
    (forall h : dt -> dt -> Prop, (forall d, h core_sized d) -> generics_sat (bare_program te_prog) h (impl_env (bare_program te_prog) E im s l) (i_generics im) <->
       h (XInst (XLib "Unpin") []) (s "T"))) \/
   (t = XInst (XUsr full_over) [DLt (l "'_"); DTy (s "T"); DTy (s "U")] /\
    (forall h : dt -> dt -> Prop, (forall d, h core_sized d) -> generics_sat (bare_program te_prog) h (impl_env (bare_program te_prog) E im s l) (i_generics im) <->
       h (XInst (XLib "Unpin") []) (s "T") /\ h (XInst (XLib "Unpin") []) (s "U")))).
Proof.
  intros H [Ht (q & Hq & Htr)]. cbn [pr_impls te_prog map test_impls fst snd] in H.
  destruct H as [H|[H|[]]]; injection H as <- <-; cbn [i_trait] in Hq; injection Hq as <-; cbn in Htr, Ht; subst tr t; (split; [reflexivity|]).
  - left. split; [reflexivity|]. intros h Hz. split.
    + intros X. exact (X _ (or_introl eq_refl) (fun x => x) (fun x _ => eq_refl) _ (or_introl eq_refl) (fun x => x) (fun x _ => eq_refl)).
    + intros X w Hw. cbn in Hw. destruct Hw as [<-|[<-|[<-|[<-|[]]]]]; intros f Hf b Hb; cbn in Hb; try contradiction; destruct Hb as [<-|[]];
        intros f' Hf'; try apply Hz; exact X.
  - right. split; [reflexivity|]. intros h Hz. split.
    + intros X. split.
      * exact (X _ (or_intror (or_introl eq_refl)) _ (fun x _ => eq_refl) _ (or_introl eq_refl) _ (fun x _ => eq_refl)).
      * exact (X _ (or_intror (or_intror (or_introl eq_refl))) _ (fun x _ => eq_refl) _ (or_introl eq_refl) _ (fun x _ => eq_refl)).
    + intros [X Y] w Hw. cbn in Hw. destruct Hw as [<-|[<-|[<-|[<-|[<-|[]]]]]]; try (intros b []; fail);
        intros f Hf b Hb; cbn in Hb; try contradiction; destruct Hb as [<-|[]]; intros f' Hf'; try apply Hz; first [exact X|exact Y].
Qed.
Lemma te_rust : program_rust te_prog.
Proof.
  constructor.
  - intros x H. destruct (te_in x H) as (t & Ht & ->). cbn [en_item en_exp te_entry].
    assert (X := te_check (fun t => match parse_derive (te_item t) with Ok _ => true | _ => false end) t ltac:(vm_compute; reflexivity) Ht).
    cbv beta in X. destruct (parse_derive (te_item t)); try discriminate. reflexivity.
  - intros x H. destruct (te_in x H) as (t & Ht & ->).
    assert (X := te_check (fun t => negb (existsb (String.eqb (name (name_of (te_item t)))) lib_names)) t ltac:(vm_compute; reflexivity) Ht).
    cbv beta in X. apply negb_true_iff in X. unfold item_name. cbn [only se_item en_item te_entry en_outer te_outer names en_def]. rewrite X. reflexivity.
  - intros x H. destruct (te_in x H) as (t & Ht & ->).
    assert (X := te_check (fun t => match g_params (generics_of (te_item t)) with
      | PLt _ _ :: r | r => forallb (fun p => match p with PLt _ _ => false | _ => true end) r end) t ltac:(vm_compute; reflexivity) Ht).
    cbv beta in X. change (item_params (only te_prog (te_entry t))) with (g_params (generics_of (te_item t))).
    destruct (g_params (generics_of (te_item t))) as [|[lt bs|i bs d|i y d] r].
    + exists [], []. split; [reflexivity|]. split; intros q [].
    + exists [PLt lt bs], r. split; [reflexivity|]. rewrite forallb_forall in X. split; [intros q [<-|[]]; reflexivity|].
      intros q Hq. specialize (X q Hq). destruct q; [discriminate|reflexivity|reflexivity].
    + exists [], (PTy i bs d :: r). split; [reflexivity|]. rewrite forallb_forall in X. split; [intros q []|].
      intros q Hq. specialize (X q Hq). destruct q; [discriminate|reflexivity|reflexivity].
    + exists [], (PConst i y d :: r). split; [reflexivity|]. rewrite forallb_forall in X. split; [intros q []|].
      intros q Hq. specialize (X q Hq). destruct q; [discriminate|reflexivity|reflexivity].
  - exact te_nominal.
  - intros e d l m d' a H. cbn. rewrite (te_inst e d a H). discriminate.
  - reflexivity.
  - reflexivity.
  - reflexivity.
  - reflexivity.
  - intros tr e d a Htr H. cbn [pr_univ te_prog u_inst terms pr_other]. rewrite (te_inst e d a H). intros [->|[-> X]].
    + cbn in Htr. unfold core_sized in Htr. intuition discriminate.
    + apply te_defined in H. destruct H as [(k & t & _ & Hk & ->)|[(k & y & t & _ & _ & ->)|(y & _ & _ & ->)]]; try discriminate.
      assert (Y := te_check (fun t => negb (existsb (String.eqb (te_full t)) ("unsafe_unpin::Option" :: test_plain))) t ltac:(vm_compute; reflexivity) (nth_error_In _ _ Hk)).
      cbv beta in Y. apply negb_true_iff in Y. cbn [plain] in X. destruct a as [|b r]; [discriminate|]. destruct b; try discriminate. destruct r; [|discriminate]. rewrite Y in X. discriminate.
  - intros E im s l tr e d a Him _ Hd Hm. destruct (te_impl E im s l tr _ Him Hm) as [_ X]. cbn [pr_univ te_prog u_inst terms] in X.
    rewrite (te_inst e d a Hd) in X. apply te_defined in Hd.
    destruct Hd as [(k & t & -> & _ & ->)|[(k & y & t & _ & _ & ->)|(y & _ & _ & ->)]]; [eauto| |]; destruct X as [[X _]|[X _]]; discriminate.
  - intros x s l H. split; [intros _ fs f _ _; left; reflexivity|intros _; left; reflexivity].
  - intros l _. left. reflexivity.
  - intros d. left. reflexivity.
Qed.

(** ** The program compiles *)
Definition te_holds : dt -> dt -> Prop := program_least te_prog.
Definition te_fails : env dt string -> wpred -> Prop := can_tell (bare_program te_prog) te_holds.
Lemma te_sized t : te_holds core_sized t.
Proof. apply program_least_solution. do 4 right. left. reflexivity. Qed.
Lemma te_no_pinned_drop t : In t test_items -> ar_pinned_drop (te_opts t) = false.
Proof.
  intros H. apply negb_true_iff. exact (te_check (fun t => negb (ar_pinned_drop (te_opts t))) t ltac:(vm_compute; reflexivity) H).
Qed.
Lemma te_no_drop t : ~ te_holds (drop_trait (bare_program te_prog)) t.
Proof.
  intros H. apply (H (fun tr _ => tr <> drop_trait (bare_program te_prog))); [|reflexivity]. clear H t.
  intros tr t [([E im] & Hin & s & l & Hm & _)|[[-> _]|[[-> _]|[[-> _]|[->|[-> _]]]]]]; try discriminate. intros ->.
  cbn [fst snd] in Hm. unfold program_impls in Hin. apply in_app_or in Hin. destruct Hin as [Hin|Hin].
  { destruct (te_impl E im s l _ t Hin Hm) as [X _]. discriminate. }
  apply in_app_or in Hin. destruct Hin as [Hin|Hin].
  - apply in_flat_map in Hin. destruct Hin as (x & Hx & Hin). destruct (te_in x Hx) as (u & Hu & ->).
    pose proof (drop_mode te_prog (te_entry u) E im s l t _ te_rust te_names Hx Hin Hm (te_options u Hu)) as D.
    rewrite (te_no_pinned_drop u Hu) in D. discriminate.
  - destruct (lib_impl_cases (bare_program te_prog) E im s l _ _ Hin Hm) as [(X & _)|(X & _)]; discriminate.
Qed.
Lemma te_where x s l : In x (pr_items te_prog) -> where_holds (only te_prog x) te_holds s l.
Proof.
  intros H. destruct (te_in x H) as (t & Ht & ->). intros w Hw.
  assert (X := te_check (fun t => forallb (fun w => match w with
      | WTy _ _ bs => forallb (fun b => match b with BTrait false _ (Path true [Seg a GNone; Seg b GNone; Seg c GNone]) =>
          (String.eqb (name a) "core" && String.eqb (name b) "marker" && String.eqb (name c) "Sized")%bool | _ => false end) bs
      | WLt _ _ => true end) (all_preds (generics_of (te_item t)))) t ltac:(vm_compute; reflexivity) Ht).
  cbv beta in X. rewrite forallb_forall in X. specialize (X w Hw). destruct w as [lt bs|lts ty bs]; [intros b _; exact Logic.I|].
  intros f Hf b Hb. rewrite forallb_forall in X. specialize (X b Hb).
  destruct b as [lt|[] lts' [[] [|[a []] [|[b' []] [|[c []] [|]]]]]]; try discriminate. intros f' Hf'.
  apply andb_true_iff in X. destruct X as [X X3]. apply andb_true_iff in X. destruct X as [X1 X2].
  apply String.eqb_eq in X1, X2, X3. cbn. rewrite X1, X2, X3. apply te_sized.
Qed.
Lemma te_unsafe t : In t test_items -> te_full t = full_blah \/ te_full t = full_over -> ar_unpin (te_opts t) = UUnsafe.
Proof.
  intros Ht H. assert (X := te_check (fun t => (match ar_unpin (te_opts t) with UUnsafe => true | _ => false end ||
    negb (String.eqb (te_full t) full_blah || String.eqb (te_full t) full_over))%bool) t ltac:(vm_compute; reflexivity) Ht).
  cbv beta in X. destruct (ar_unpin (te_opts t)); try reflexivity; cbn [orb] in X; destruct H as [-> | ->] in X; discriminate.
Qed.
Lemma te_coherent t : In t test_items -> coherent (te_only t) te_fails.
Proof.
  intros Ht. assert (Hx : In (te_entry t) (pr_items te_prog)) by exact (in_map te_entry _ _ Ht).
  destruct (te_names _ Hx) as (_ & Hu & _).
  apply (c48 (te_only t) (least (te_only t)) te_fails (te_opts t) (te_options t Ht) (only_rust te_prog te_rust _ Hx) (un_visible _ Hu)).
  - intros E im s l x b u Him Hm. destruct (te_impl E im s l _ u Him Hm) as [X _]. discriminate.
  - apply least_solution.
  - intros E n q s l Hn Hq _. split.
    + intros H. specialize (H (lts_of E) (fun y _ => eq_refl) _ (or_introl eq_refl)). cbn in H.
      specialize (H (lts_of E) (fun y _ => eq_refl)). rewrite Hq in H. exact (te_no_drop _ H).
    + intros (lts & u & bs & H & _). discriminate.
  - intros [E im] s l Him (s' & l' & Hm & _). destruct (te_impl E im s' l' _ _ Him Hm) as [X _]. discriminate.
  - intros [E im] s l tr b Him Htr Hm. destruct (te_impl E im s l tr _ Him Hm) as [-> X].
    assert (Y : te_full t = full_blah \/ te_full t = full_over).
    { destruct X as [[X _]|[X _]]; injection X as X _; [left|right]; exact X. }
    unfold implemented in Htr. rewrite (te_unsafe t Ht Y), (te_no_pinned_drop t Ht) in Htr. cbn in Htr.
    destruct Htr as [H|[H|[]]]; discriminate.
  - intros i j x y Hij Hi Hj (s1 & l1 & s2 & l2 & tr & u & M1 & M2 & _). destruct x as [E1 i1], y as [E2 i2]. cbn [fst snd] in M1, M2.
    cbn [te_only only se_impls] in Hi, Hj.
    destruct i as [|[|i]], j as [|[|j]]; try congruence; cbn in Hi, Hj; try (destruct i; discriminate); try (destruct j; discriminate);
      injection Hi as <- <-; injection Hj as <- <-; destruct M1 as [M1 _], M2 as [M2 _]; cbn in M1, M2; rewrite <- M1 in M2; discriminate.
Qed.
(** The parameters of the two types. *)
Lemma te_params t : In t test_items ->
  (te_full t = full_blah -> exists b1 b2 d1 d2, g_params (generics_of (te_item t)) = [PTy (I "T") b1 d1; PTy (I "U") b2 d2]) /\
  (te_full t = full_over -> exists b0 b1 b2 d1 d2,
     g_params (generics_of (te_item t)) = [PLt "'pin" b0; PTy (I "T") b1 d1; PTy (I "U") b2 d2]).
Proof.
  intros Ht. apply In_nth_error in Ht. destruct Ht as (k & Hk). split; intros E.
  - assert (k = 10) as -> by (apply (te_index k t 10 (nth 10 test_items t)); [exact Hk|reflexivity|rewrite E; vm_compute; reflexivity]).
    injection Hk as <-. do 4 eexists. vm_compute. reflexivity.
  - assert (k = 11) as -> by (apply (te_index k t 11 (nth 11 test_items t)); [exact Hk|reflexivity|rewrite E; vm_compute; reflexivity]).
    injection Hk as <-. do 5 eexists. vm_compute. reflexivity.
Qed.
Lemma te_headers t : In t test_items -> headers_ok (te_only t) te_holds.
Proof.
  intros Ht E im s l tr a Him Hm _. assert (Hx : In (te_entry t) (pr_items te_prog)) by exact (in_map te_entry _ _ Ht).
  destruct (te_impl E im s l tr _ Him Hm) as [_ X]. destruct (te_params t Ht) as [P1 P2].
  change (exists s0 l0, a = param_args (U := terms) (g_params (generics_of (te_item t))) s0 l0 /\ where_holds (te_only t) te_holds s0 l0).
  destruct X as [[X _]|[X _]]; injection X as X ->.
  - destruct (P1 X) as (b1 & b2 & d1 & d2 & ->). exists s, l. split; [reflexivity|exact (te_where _ s l Hx)].
  - destruct (P2 X) as (b0 & b1 & b2 & d1 & d2 & ->). exists s, (fun _ => l "'_"). split; [reflexivity|exact (te_where _ s _ Hx)].
Qed.
Lemma te_compiles : program_compiles te_prog te_holds te_fails.
Proof.
  constructor.
  - exact te_rust.
  - exact (program_least_solution te_prog).
  - intros x Hx. destruct (te_in x Hx) as (t & Ht & ->). exact (te_headers t Ht).
  - apply can_tell_refuter.
  - apply (coherent_iff te_prog te_rust te_names te_fails); [discriminate|]. intros x Hx. destruct (te_in x Hx) as (t & Ht & ->). exact (te_coherent t Ht).
  - intros x y Hx Hy. destruct (te_in x Hx) as (t & Ht & ->). refine (bodies_ok (te_only t) te_holds y _ Hy).
    exact (te_check (fun t => forallb (fun o => match o with
      | OImpl im => forallb (fun m => match body_obligations (m_body m) with [] => true | _ => false end) (i_methods im)
      | _ => true end) (scoped (se_exp (te_only t)))) t ltac:(vm_compute; reflexivity) Ht).
Qed.

(** ** What is [Unpin] *)
Definition te_unpin (t : dt) : Prop := te_holds (XInst (XLib "Unpin") []) t.
Lemma te_phantom : ~ te_unpin phantom_pinned_.
Proof.
  assert (A : forall t, In t test_items -> ~ te_unpin phantom_pinned_).
  { intros t Ht. assert (Hx : In (te_entry t) (pr_items te_prog)) by exact (in_map te_entry _ _ Ht).
    destruct (split_in te_prog _ Hx) as (l1 & l2 & Hi).
    destruct (view_names te_prog te_holds _ (l1 ++ l2) Hx te_names) as [_ Hu].
    exact (phantom_not_unpin (view te_prog te_holds (te_entry t) (l1 ++ l2)) _ _ _ (te_options t Ht) Hu
      (c71_view te_prog te_holds te_fails l1 _ l2 te_compiles te_names Hi)). }
  exact (A _ (or_introl eq_refl)).
Qed.
Lemma te_ref l m d : te_unpin (XRef l m d).
Proof. apply program_least_solution. do 3 right. left. split; [reflexivity|eauto]. Qed.
Lemma te_plain t : plain t = true -> te_unpin t.
Proof. intros H. apply program_least_solution. do 4 right. right. split; [reflexivity|exact H]. Qed.
(** A struct without [#[pin_project]] is [Unpin] by the fixed rules only. *)
Lemma te_plain_only n a : existsb (String.eqb n) (map te_full test_items) = false -> te_unpin (XInst (XUsr n) a) -> plain (XInst (XUsr n) a) = true.
Proof.
  intros Hn H. assert (N : forall t b, In t test_items -> XInst (XUsr n) a <> XInst (XUsr (te_full t)) b).
  { intros t b Ht E. injection E as E _. apply not_true_iff_false in Hn. apply Hn. apply existsb_exists. exists (te_full t).
    split; [exact (in_map te_full _ _ Ht)|]. rewrite E. apply String.eqb_refl. }
  apply program_least_solution in H. destruct H as [([E im] & Hin & s & l & Hm & _)|[[_ H]|[[_ (d & X & _)]|[[_ (l & m & d & X)]|[X|[_ X]]]]]];
    try discriminate; [| |exact X].
  - exfalso. cbn [fst snd] in Hm. unfold program_impls in Hin. apply in_app_or in Hin. destruct Hin as [Hin|Hin].
    { destruct (te_impl E im s l _ _ Hin Hm) as [X _]. discriminate. }
    apply in_app_or in Hin. destruct Hin as [Hin|Hin].
    + apply in_flat_map in Hin. destruct Hin as (x & Hx & Hin). pose proof (te_in x Hx) as (u & Hu & ->).
      destruct (gen_is te_prog te_rust te_names _ E im s l _ _ Hx Hin Hm) as [(y & b & X & _)|(_ & X & _)]; [discriminate|].
      exact (N u _ Hu X).
    + destruct (lib_impl_cases (bare_program te_prog) E im s l _ _ Hin Hm) as [(X & _)|(_ & X)]; discriminate.
  - exfalso. destruct H as (E & c & g & fs & s & l & Hin & Ht & _). unfold program_defs in Hin. apply in_app_or in Hin. destruct Hin as [Hin|Hin].
    + apply in_flat_map in Hin. destruct Hin as (x & Hx & Hin). destruct (In_nth_error _ _ Hx) as (k & Hk).
      assert (D : defines te_prog (DfItem k) c \/ exists z, defines te_prog (DfGen k z) c) by exact (entry_defines te_prog k x E c g fs Hk Hin).
      destruct D as [D|(z & D)]; rewrite (te_inst _ _ _ D) in Ht; apply te_defined in D;
        destruct D as [(j & u & X & Hj & ->)|[(j & y & u & X & _ & ->)|(y & X & _)]]; try discriminate.
      exact (N u _ (nth_error_In _ _ Hj) Ht).
    + destruct (lib_defines te_prog E c g fs Hin) as (y & D). rewrite (te_inst _ _ _ D) in Ht. apply te_defined in D.
      destruct D as [(j & u & X & _)|[(j & z & u & X & _)|(z & _ & _ & ->)]]; discriminate.
Qed.

(** The types of the pinned fields of an item, when its parameters are instantiated. *)
Definition te_pinned (t : test_item) (s : string -> dt) (l : string -> string) : list dt :=
  map (den_ty (U := terms) (place (te_only t) s l)) (pinned_tys_of (te_item t)).
Definition te_at (t : test_item) (s : string -> dt) (l : string -> string) : dt := item_at (te_only t) s l.
Lemma te_default t s l : In t test_items -> ar_unpin (te_opts t) = UDefault -> (te_unpin (te_at t s l) <-> Forall te_unpin (te_pinned t s l)).
Proof.
  intros Ht Ea. assert (Hx : In (te_entry t) (pr_items te_prog)) by exact (in_map te_entry _ _ Ht).
  refine (iff_trans (c71_default te_prog te_holds te_fails _ _ s l te_compiles te_names Hx (te_options t Ht) Ea) _).
  unfold te_pinned. rewrite Forall_map, Forall_forall. split.
  - intros [_ H] y Hy. apply in_flat_map in Hy. destruct Hy as (fs & Hfs & Hy). apply in_map_iff in Hy. destruct Hy as (f & <- & Hf).
    apply filter_In in Hf. destruct Hf as [Hf Hp]. apply H. exists fs. split; [exact Hfs|]. split; [exact Hf|].
    apply pin_b_iff. rewrite <- is_pinned_pin_b. exact Hp.
  - intros H. split; [exact (te_where _ s l Hx)|]. intros f (fs & Hfs & Hf & Hp). apply H. apply in_flat_map. exists fs. split; [exact Hfs|].
    apply in_map. apply filter_In. split; [exact Hf|]. rewrite is_pinned_pin_b. apply pin_b_iff. exact Hp.
Qed.
Lemma te_negative t s l : In t test_items -> ar_unpin (te_opts t) = UNegative -> ~ te_unpin (te_at t s l).
Proof.
  intros Ht Ea. assert (Hx : In (te_entry t) (pr_items te_prog)) by exact (in_map te_entry _ _ Ht).
  exact (c71_negative te_prog te_holds te_fails _ _ s l te_compiles te_names Hx (te_options t Ht) Ea).
Qed.
(** With [UnsafeUnpin] what the users' impls say. *)
Lemma te_by_user t s l : In t test_items -> ar_unpin (te_opts t) = UUnsafe -> (te_unpin (te_at t s l) <->
  (te_full t = full_blah /\ te_unpin (s "T")) \/ (te_full t = full_over /\ te_unpin (s "T") /\ te_unpin (s "U"))).
Proof.
  intros Ht Ea. assert (Hx : In (te_entry t) (pr_items te_prog)) by exact (in_map te_entry _ _ Ht).
  refine (iff_trans (c71_unsafe te_prog te_holds te_fails _ _ s l te_compiles te_names Hx (te_options t Ht) Ea) _).
  destruct (te_params t Ht) as [P1 P2]. split.
  - intros [_ ([E im] & Him & s' & l' & Hm & Hs)]. cbn [fst snd] in Hm, Hs. destruct (te_impl E im s' l' _ _ Him Hm) as [_ X].
    destruct X as [[X Y]|[X Y]]; apply (proj1 (Y te_holds te_sized)) in Hs; injection X as X Xa;
      change (se_item (only te_prog (te_entry t))) with (te_item t) in Xa; unfold item_params in Xa; cbn [se_item only en_item te_entry] in Xa.
    + left. destruct (P1 X) as (b1 & b2 & d1 & d2 & Ep). rewrite Ep in Xa. injection Xa as Xa _. cbn in Xa. rewrite Xa. split; [exact X|exact Hs].
    + right. destruct (P2 X) as (b0 & b1 & b2 & d1 & d2 & Ep). rewrite Ep in Xa. injection Xa as _ Xa Xb. cbn in Xa, Xb. rewrite Xa, Xb. split; [exact X|exact Hs].
  - intros H. split; [exact (te_where _ s l Hx)|].
    assert (I1 : forall k x, nth_error test_impls k = Some x -> In (te_outer (fst x), snd x) (pr_impls te_prog)).
    { intros k x Hk. exact (in_map (fun x => (te_outer (fst x), snd x)) _ _ (nth_error_In _ _ Hk)). }
    destruct H as [[X H]|[X H]].
    + pose proof (I1 0 _ eq_refl) as Him. destruct (P1 X) as (b1 & b2 & d1 & d2 & Ep).
      eexists. split; [exact Him|]. exists s, l. cbn [fst snd].
      assert (Hm : matches (bare_program te_prog) (te_outer "unsafe_unpin") (snd (nth 0 test_impls ("", mkImpl false (mkGenerics [] None) None TyNever []))) s l
        (unsafe_unpin (bare_program te_prog)) (te_at t s l)).
      { split; [|eexists; split; reflexivity]. unfold te_at, item_at, item_params. cbn [te_only only se_item en_item te_entry se_def en_def]. rewrite Ep, X. reflexivity. }
      split; [exact Hm|]. destruct (te_impl _ _ s l _ _ Him Hm) as [_ [[_ Y]|[Y _]]].
      * apply (proj2 (Y te_holds te_sized)). exact H.
      * unfold te_at, item_at in Y. cbn [te_only only se_def en_def te_entry] in Y. rewrite X in Y. discriminate.
    + pose proof (I1 1 _ eq_refl) as Him. destruct (P2 X) as (b0 & b1 & b2 & d1 & d2 & Ep).
      eexists. split; [exact Him|]. exists s, (fun _ => l "'pin"). cbn [fst snd].
      assert (Hm : matches (bare_program te_prog) (te_outer "unsafe_unpin") (snd (nth 1 test_impls ("", mkImpl false (mkGenerics [] None) None TyNever []))) s (fun _ => l "'pin")
        (unsafe_unpin (bare_program te_prog)) (te_at t s l)).
      { split; [|eexists; split; reflexivity]. unfold te_at, item_at, item_params. cbn [te_only only se_item en_item te_entry se_def en_def]. rewrite Ep, X. reflexivity. }
      split; [exact Hm|]. destruct (te_impl _ _ s _ _ _ Him Hm) as [_ [[Y _]|[_ Y]]].
      * unfold te_at, item_at in Y. cbn [te_only only se_def en_def te_entry] in Y. rewrite X in Y. discriminate.
      * apply (proj2 (Y te_holds te_sized)). exact H.
Qed.

(** ** The assertions *)
Definition simple (d : dt) : bool := match d with XRef _ _ _ => true | _ => plain d end.
Definition askable (d : dt) : bool :=
  match d with
  | XRef _ _ _ | XTuple [] => true
  | XInst (XUsr n) _ => negb (existsb (String.eqb n) (map te_full test_items))
  | XInst (XLib x) [] => String.eqb x "PhantomPinned"
  | _ => false
  end.
Lemma ask_simple d : askable d = true -> (te_unpin d <-> simple d = true).
Proof.
  intros H. split; [|intros S; destruct d; try (apply te_plain; exact S); apply te_ref].
  destruct d as [| | | | |c a| | | |l m d| |ds| | | | | | | |]; try discriminate; cbn [askable] in H.
  - intros U. destruct c; try discriminate.
    + destruct a; [|discriminate]. apply String.eqb_eq in H. subst x. destruct (te_phantom U).
    + apply negb_true_iff in H. exact (te_plain_only _ _ H U).
  - reflexivity.
  - destruct ds; [reflexivity|discriminate].
Qed.
Lemma ask_all l : forallb askable l = true -> (Forall te_unpin l <-> forallb simple l = true).
Proof.
  intros H. rewrite Forall_forall, forallb_forall. rewrite forallb_forall in H.
  split; intros X d Hd; apply (ask_simple d (H d Hd)); exact (X d Hd).
Qed.
(** The instantiation of the parameters, from the arguments. *)
Fixpoint te_s (ps : list gparam) (a : list (darg dt string)) (x : string) : dt :=
  match ps, a with
  | PTy i _ _ :: ps, DTy d :: a => if String.eqb (name i) x then d else te_s ps a x
  | _ :: ps, _ :: a => te_s ps a x
  | _, _ => XNever
  end.
Fixpoint te_l (ps : list gparam) (a : list (darg dt string)) (x : string) : string :=
  match ps, a with
  | PLt lt _ :: ps, DLt d :: a => if String.eqb lt x then d else te_l ps a x
  | _ :: ps, _ :: a => te_l ps a x
  | _, _ => x
  end.
Definition te_verdict (t : test_item) (s : string -> dt) (l : string -> string) : option bool :=
  match ar_unpin (te_opts t) with
  | UDefault => if forallb askable (te_pinned t s l) then Some (forallb simple (te_pinned t s l)) else None
  | UNegative => Some false
  | UUnsafe =>
    if forallb askable [s "T"; s "U"] then
      Some ((String.eqb (te_full t) full_blah && simple (s "T")) || (String.eqb (te_full t) full_over && (simple (s "T") && simple (s "U"))))
    else if (String.eqb (te_full t) full_blah || String.eqb (te_full t) full_over)%bool then None else Some false
  end%bool.
Lemma ask_verdict t s l b : In t test_items -> te_verdict t s l = Some b -> (te_unpin (te_at t s l) <-> b = true).
Proof.
  intros Ht H. unfold te_verdict in H. destruct (ar_unpin (te_opts t)) eqn:Ea.
  - destruct (forallb askable (te_pinned t s l)) eqn:A; [|discriminate]. injection H as <-.
    refine (iff_trans (te_default t s l Ht Ea) _). apply ask_all. exact A.
  - refine (iff_trans (te_by_user t s l Ht Ea) _). destruct (forallb askable [s "T"; s "U"]) eqn:A.
    + injection H as <-. cbn [forallb] in A. rewrite andb_true_r in A. apply andb_true_iff in A. destruct A as [A1 A2].
      rewrite orb_true_iff, !andb_true_iff, !String.eqb_eq, (ask_simple _ A1), (ask_simple _ A2). reflexivity.
    + destruct (String.eqb_spec (te_full t) full_blah) as [|N1]; [discriminate|].
      destruct (String.eqb_spec (te_full t) full_over) as [|N2]; [discriminate|]. injection H as <-. split; [|discriminate].
      intros [[X _]|[X _]]; contradiction.
  - injection H as <-. split; [|discriminate]. intros X. destruct (te_negative t s l Ht Ea X).
Qed.
Definition te_find (d : dt) : option (test_item * list (darg dt string)) :=
  match d with
  | XInst (XUsr n) a => match find (fun t => String.eqb (te_full t) n) test_items with Some t => Some (t, a) | None => None end
  | _ => None
  end.
Lemma ask_item d t a b : te_find d = Some (t, a) ->
  (let ps := g_params (generics_of (te_item t)) in te_at t (te_s ps a) (te_l ps a) = d /\ te_verdict t (te_s ps a) (te_l ps a) = Some b) ->
  (te_unpin d <-> b = true).
Proof.
  intros Hf [E V]. rewrite <- E. apply ask_verdict; [|exact V]. destruct d; try discriminate. destruct d; try discriminate. cbn [te_find] in Hf.
  destruct (find (fun t => String.eqb (te_full t) x) test_items) as [u|] eqn:F; [|discriminate]. injection Hf as <- _.
  exact (proj1 (find_some _ _ F)).
Qed.

Definition asserted (a : test_assert) : dt := den_ty (U := terms) (te_outer (ta_mod a)) (ta_ty a).
Theorem conform_unpin : forall a, In a test_asserts -> (te_unpin (asserted a) <-> ta_unpin a = true).
Proof.
  intros a Ha. unfold test_asserts in Ha.
  repeat (destruct Ha as [<-|Ha];
    [first [eapply ask_item; [vm_compute; reflexivity|vm_compute; split; reflexivity]
           |refine (iff_trans (ask_simple _ _) _); [vm_compute; reflexivity|vm_compute; split; trivial]]|]).
  destruct Ha.
Qed.
Print Assumptions conform_unpin.
