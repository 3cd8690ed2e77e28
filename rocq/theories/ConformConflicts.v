(** The model of the overlap check against /repo/tests/ui.

    For 18 items of the tests the compiler reports E0119: an impl of the user conflicts
    with a generated one.  In the model each of them is well formed, conflicts with no
    impl as long as the user writes none, and is rejected with those of the test.
    This checks the model, and no theorem depends on it. *)
From Coq Require Import String Ascii List Bool Arith.
From Verif Require Import Base Syntax ModelArgs ModelAttribute ModelUtils ModelDerive ModelMeaning ModelPinnedDrop ModelTraits.
From Verif Require Import SpecArgs SpecDerive SpecLifetime SpecExpand SpecRun SpecMeaning SpecTraits.
From Verif Require Import ProofsArgs ProofsDerive ProofsRun ProofsTraits ProofsTraitsMain ProofsTraitsProps.
From Verif Require Import Examples ExamplesTraits ConformTests ConformTraits.
Import ListNotations.
Open Scope string_scope.
Open Scope list_scope.

Definition ui_test (c : ui_case) : test_item := mkTest "ui" (ui_args c) (ui_raw c).
Definition ui_item (c : ui_case) : item := te_item (ui_test c).
(** What the compiler sees of an impl; [#[pinned_drop]] has run. *)
Definition header_of (x : bool * item_impl) : impl :=
  let im := if fst x then match pinned_drop_attribute [] (snd x) with Ok (PdImpl y) => y | _ => snd x end else snd x in
  mkImpl (im_unsafe im) (im_generics im) (match im_trait im with Some (_, p) => Some p | None => None end) (im_self im) [].
Definition ui_set (c : ui_case) (impls : list impl) : setting :=
  mkSetting terms (te_outer "ui") (ui_item c) (match parse_derive (ui_item c) with Ok e => e | _ => mkExpansion [] [] end)
    (XUsr (te_full (ui_test c))) (fun y => XSel (XGen (te_full (ui_test c))) y []) XLib
    (map (fun im => (te_outer "ui", im)) impls)
    te_other (fun _ _ => True) (fun _ _ => True).
Definition ui_user (c : ui_case) : list impl := map header_of (ui_impls c).
Definition ui_opts (c : ui_case) : args := te_opts (ui_test c).

Lemma ui_check (f : ui_case -> bool) c : forallb f ui_cases = true -> In c ui_cases -> f c = true.
Proof. intros H. rewrite forallb_forall in H. exact (H c). Qed.
Lemma ui_options c : In c ui_cases -> options (attrs_of (ui_item c)) (ui_opts c).
Proof.
  intros H. apply parse_args_iff. unfold ui_opts, te_opts, ui_item.
  assert (X := ui_check (fun c => match parse_args (attrs_of (ui_item c)) with Ok _ => true | _ => false end) c ltac:(vm_compute; reflexivity) H).
  cbv beta in X. unfold ui_item in X. destruct (parse_args (attrs_of (te_item (ui_test c)))); try discriminate; reflexivity.
Qed.
Lemma ui_legal c l : In c ui_cases -> legal (ui_set c l).
Proof.
  intros H. apply check_legal.
  - exact (ui_check (fun c => forallb node_legal (written (ui_set c []))) c ltac:(vm_compute; reflexivity) H).
  - assert (X := ui_check (fun c => negb (String.eqb (item_name (ui_set c [])) "Self")) c ltac:(vm_compute; reflexivity) H).
    intros E. cbv beta in X. change (item_name (ui_set c l)) with (item_name (ui_set c [])) in E. rewrite E in X. discriminate.
  - apply not_in_b.
    exact (ui_check (fun c => negb (existsb (String.eqb "Self") (param_names (item_params (ui_set c []))))) c ltac:(vm_compute; reflexivity) H).
  - assert (X := ui_check (fun c => match binders_of (ui_item c) with [] => true | _ => false end) c ltac:(vm_compute; reflexivity) H).
    cbv beta in X. intros y _ B. cbn [se_item ui_set] in B. destruct (binders_of (ui_item c)); [destruct B|discriminate].
Qed.
Lemma ui_uncaptured c l : In c ui_cases -> uncaptured (ui_set c l).
Proof.
  intros H. apply check_uncaptured.
  - apply check_visible.
    exact (ui_check (fun c => let h := map name (flat_map introduces (scoped (se_exp (ui_set c [])))) in
      negb (existsb (String.eqb (item_name (ui_set c []))) (h ++ param_names (item_params (ui_set c [])))) &&
      forallb (fun x => negb (existsb (String.eqb x) h)) (param_names (item_params (ui_set c []))))%bool c ltac:(vm_compute; reflexivity) H).
  - exact (ui_check (fun c => forallb node_legal (written (ui_set c []))) c ltac:(vm_compute; reflexivity) H).
  - exact (ui_check (fun c => forallb (node_free (map name (flat_map introduces (scoped (se_exp (ui_set c [])))))
      (determine_lifetime_name "'pin" (generics_of (se_item (ui_set c []))))) (written (ui_set c []))) c ltac:(vm_compute; reflexivity) H).
Qed.

(** All impls are for the item with its own parameters. *)
Definition unit_ : dt := XTuple [].
Definition lib_trait (n : string) : dt := XInst (XLib n) [].
Lemma ui_impl c ims im s l tr t : In c ui_cases -> In im (ui_user c) ->
  matches (ui_set c ims) (te_outer "ui") im s l tr t ->
  In tr (map lib_trait ["Unpin"; "UnsafeUnpin"; "Drop"; "PinnedDrop"]) /\ t = item_at (ui_set c ims) s l.
Proof.
  intros Hc Him [Ht (q & Hq & Htr)]. unfold ui_cases in Hc.
  repeat (destruct Hc as [<-|Hc];
    [repeat (destruct Him as [<-|Him];
       [cbv [ui_user ui_impls map header_of fst snd pinned_drop_attribute] in Hq; vm_compute in Hq; injection Hq as <-;
        vm_compute in Htr, Ht; subst tr t; (split; [vm_compute; tauto|vm_compute; reflexivity])|]); destruct Him|]).
  destruct Hc.
Qed.

(** ** The laws *)
Lemma ui_inst c ims e a : known e -> x_inst (entity_def (ui_set c ims) e) a = XInst (entity_def (ui_set c ims) e) a.
Proof.
  destruct e as [|y|y]; try reflexivity. intros Hy. cbn.
  destruct (String.eqb_spec y "PinnedFieldsOf") as [->|_]; [|reflexivity]. exfalso. cbn in Hy. intuition discriminate.
Qed.
Lemma ui_rust c ims : In c ui_cases -> incl ims (ui_user c) -> rust (ui_set c ims).
Proof.
  intros Hc Hi. constructor.
  - assert (X := ui_check (fun c => match parse_derive (ui_item c) with Ok _ => true | _ => false end) c ltac:(vm_compute; reflexivity) Hc).
    cbv beta in X. cbn [se_item se_exp ui_set]. destruct (parse_derive (ui_item c)); try discriminate. reflexivity.
  - assert (X := ui_check (fun c => negb (existsb (String.eqb (name (name_of (ui_item c)))) lib_names)) c ltac:(vm_compute; reflexivity) Hc).
    cbv beta in X. apply negb_true_iff in X. unfold item_name. cbn [se_item se_outer ui_set te_outer names se_def]. rewrite X. reflexivity.
  - assert (X := ui_check (fun c => forallb (fun p => match p with PLt _ _ => false | _ => true end) (g_params (generics_of (ui_item c)))) c ltac:(vm_compute; reflexivity) Hc).
    cbv beta in X. change (item_params (ui_set c ims)) with (g_params (generics_of (ui_item c))).
    rewrite forallb_forall in X. exists [], (g_params (generics_of (ui_item c))). split; [reflexivity|]. split; [intros q []|].
    intros q Hq. specialize (X q Hq). destruct q; [discriminate|reflexivity|reflexivity].
  - intros e e' a a' K K' E. cbn [se_univ ui_set u_inst terms] in E. rewrite (ui_inst c ims e a K), (ui_inst c ims e' a' K') in E.
    injection E as E ->. split; [|reflexivity]. destruct e, e'; cbn in E; try discriminate; [reflexivity| |]; injection E as ->; reflexivity.
  - intros e l m d a K. cbn [se_univ ui_set u_inst u_ref terms]. rewrite (ui_inst c ims e a K). discriminate.
  - reflexivity.
  - reflexivity.
  - reflexivity.
  - reflexivity.
  - intros tr e a Htr K. cbn [se_univ ui_set u_inst terms se_other]. rewrite (ui_inst c ims e a K). intros [->|[-> X]].
    + cbn in Htr. unfold core_sized in Htr. intuition discriminate.
    + destruct e; try discriminate.
      assert (Y := ui_check (fun c => negb (existsb (String.eqb (te_full (ui_test c))) ("unsafe_unpin::Option" :: test_plain))) c ltac:(vm_compute; reflexivity) Hc).
      cbv beta in Y. apply negb_true_iff in Y. cbn [entity_def ui_set se_def plain] in X.
      destruct a as [|b r]; [discriminate|]. destruct b; try discriminate. destruct r; [|discriminate]. rewrite Y in X. discriminate.
  - intros E im s l tr e a Him _ K Hm. apply in_map_iff in Him. destruct Him as (im' & X & Him). injection X as <- ->.
    destruct (ui_impl c ims im s l tr _ Hc (Hi im Him) Hm) as [_ X]. cbn [se_univ ui_set u_inst terms] in X.
    rewrite (ui_inst c ims e a K) in X. unfold item_at in X. destruct e; [reflexivity|discriminate|discriminate].
  - intros s l. split; [intros _ fs f _ _; left; reflexivity|intros _; left; reflexivity].
  - intros l _. left. reflexivity.
  - intros d. left. reflexivity.
Qed.
Lemma ui_sized c ims (h : dt -> dt -> Prop) t : solution (ui_set c ims) h -> h core_sized t.
Proof. intros H. apply H. do 4 right. left. reflexivity. Qed.
Lemma ui_where c ims h s l : In c ui_cases -> solution (ui_set c ims) h -> where_holds (ui_set c ims) h s l.
Proof.
  intros Hc Hs w Hw.
  assert (X := ui_check (fun c => forallb (fun w => match w with
      | WTy _ _ bs => forallb (fun b => match b with BTrait false _ (Path true [Seg a GNone; Seg b GNone; Seg c GNone]) =>
          (String.eqb (name a) "core" && String.eqb (name b) "marker" && String.eqb (name c) "Sized")%bool | _ => false end) bs
      | WLt _ _ => true end) (all_preds (generics_of (ui_item c)))) c ltac:(vm_compute; reflexivity) Hc).
  cbv beta in X. rewrite forallb_forall in X. specialize (X w Hw). destruct w as [lt bs|lts ty bs]; [intros b _; exact Logic.I|].
  intros f Hf b Hb. rewrite forallb_forall in X. specialize (X b Hb).
  destruct b as [lt|[] lts' [[] [|[a []] [|[b' []] [|[d []] [|]]]]]]; try discriminate. intros f' Hf'.
  apply andb_true_iff in X. destruct X as [X X3]. apply andb_true_iff in X. destruct X as [X1 X2].
  apply String.eqb_eq in X1, X2, X3. cbn. rewrite X1, X2, X3. exact (ui_sized c ims h _ Hs).
Qed.
Lemma ui_headers c ims h : In c ui_cases -> incl ims (ui_user c) -> solution (ui_set c ims) h -> headers_ok (ui_set c ims) h.
Proof.
  intros Hc Hi Hs E im s l tr a Him Hm _. apply in_map_iff in Him. destruct Him as (im' & X & Him). injection X as <- ->.
  destruct (ui_impl c ims im s l tr _ Hc (Hi im Him) Hm) as [_ X]. exists s, l. split; [|exact (ui_where c ims h s l Hc Hs)].
  injection X as X. exact X.
Qed.

(** ** Without the last impl *)
Definition ui_rest (c : ui_case) : list impl := removelast (ui_user c).
Lemma ui_removed {A} (l : list A) : incl (removelast l) l.
Proof.
  induction l as [|x l IH]; [intros y []|]. destruct l as [|z l]; [intros y []|]. intros y [<-|Hy]; [left; reflexivity|right; exact (IH y Hy)].
Qed.
Lemma ui_rest_impl c im s l tr t : In c ui_cases -> In im (ui_rest c) -> matches (ui_set c (ui_rest c)) (te_outer "ui") im s l tr t ->
  tr = lib_trait "PinnedDrop" /\ ar_pinned_drop (ui_opts c) = true /\ List.length (ui_rest c) = 1.
Proof.
  intros Hc Him [Ht (q & Hq & Htr)]. unfold ui_cases in Hc.
  repeat (destruct Hc as [<-|Hc];
    [repeat (destruct Him as [<-|Him];
       [vm_compute in Hq; injection Hq as <-; vm_compute in Htr; subst tr; (split; [reflexivity|split; vm_compute; reflexivity])|]); destruct Him|]).
  destruct Hc.
Qed.
Lemma ui_alone c : In c ui_cases -> let se := ui_set c (ui_rest c) in coherent se (can_tell se (least se)).
Proof.
  intros Hc. cbn zeta.
  apply (c48 (ui_set c (ui_rest c)) (least (ui_set c (ui_rest c))) _ (ui_opts c) (ui_options c Hc) (ui_rust c _ Hc (ui_removed _)) (un_visible _ (ui_uncaptured c _ Hc))).
  - intros E im s l x b u Him Hm. apply in_map_iff in Him. destruct Him as (im' & X & Him). injection X as <- ->.
    destruct (ui_rest_impl c im s l _ _ Hc Him Hm) as [X _]. discriminate.
  - apply least_solution.
  - apply can_tell_drop.
  - intros [E im] s l Him (s' & l' & Hm & _). apply in_map_iff in Him. destruct Him as (im' & X & Him). injection X as <- ->.
    destruct (ui_rest_impl c im s' l' _ _ Hc Him Hm) as [X _]. discriminate.
  - intros [E im] s l tr b Him Htr Hm. apply in_map_iff in Him. destruct Him as (im' & X & Him). injection X as <- ->.
    destruct (ui_rest_impl c im s l tr _ Hc Him Hm) as (-> & Y & _). unfold implemented in Htr. rewrite Y in Htr.
    destruct (ar_unpin (ui_opts c)) in Htr; cbn in Htr; intuition discriminate.
  - intros i j x y Hij Hi Hj (s1 & l1 & s2 & l2 & tr & u & M1 & _). destruct x as [E im]. cbn [fst snd] in M1.
    pose proof (nth_error_In _ _ Hi) as Him. apply in_map_iff in Him. destruct Him as (im' & X & Him). injection X as <- ->.
    destruct (ui_rest_impl c im s1 l1 tr _ Hc Him M1) as (_ & _ & N).
    assert (i < 1) by (assert (Z : nth_error (se_impls (ui_set c (ui_rest c))) i <> None) by congruence; apply nth_error_Some in Z; cbn [se_impls ui_set] in Z; rewrite map_length, N in Z; exact Z).
    assert (j < 1) by (assert (Z : nth_error (se_impls (ui_set c (ui_rest c))) j <> None) by congruence; apply nth_error_Some in Z; cbn [se_impls ui_set] in Z; rewrite map_length, N in Z; exact Z).
    destruct i as [|i], j as [|j]; [congruence| | |]; exfalso; eapply Nat.nlt_0_r; apply Nat.succ_lt_mono; eassumption.
Qed.

(** ** With it *)
(** The impl that conflicts, at the item with [()] for all parameters. *)
Definition at_unit (c : ui_case) : dt := item_at (ui_set c (ui_user c)) (fun _ => unit_) (fun x => x).
Definition culprit (c : ui_case) : string :=
  match rev (ui_user c) with
  | im :: _ => match i_trait im with Some (Path _ p) => match rev p with Seg x _ :: _ => name x | [] => "" end | None => "" end
  | [] => ""
  end.
Definition ui_last (c : ui_case) : impl := last (ui_user c) (mkImpl false (mkGenerics [] None) None TyNever []).
Definition ui_env (c : ui_case) : env dt string := impl_env (ui_set c (ui_user c)) (te_outer "ui") (ui_last c) (fun _ => unit_) (fun x => x).
(** It asks at most for [Sized] and [Unpin] of the parameters. *)
Definition easy_bound (b : bound) : bool :=
  match b with
  | BTrait false [] (Path false [Seg u GNone]) => String.eqb (name u) "Unpin"
  | BTrait false [] (Path true [Seg a GNone; Seg b GNone; Seg c GNone]) =>
      (String.eqb (name a) "core" && String.eqb (name b) "marker" && String.eqb (name c) "Sized")%bool
  | _ => false
  end.
Definition easy_pred (E : env dt string) (w : wpred) : bool :=
  match w with
  | WTy [] (TyPath None (Path false [Seg x GNone])) bs =>
      match names E (name x) with HDone (XTuple []) => forallb easy_bound bs | _ => false end
  | _ => false
  end.
Lemma easy_sat c (h : dt -> dt -> Prop) E w : (forall t, h core_sized t) -> h (lib_trait "Unpin") unit_ ->
  names E "Unpin" = HDef (XLib "Unpin") -> easy_pred E w = true -> pred_sat (ui_set c (ui_user c)) h E w.
Proof.
  intros Hz Hu En Hw. destruct w as [lt bs|[|] [q p| | | | | | | | | |] bs]; try discriminate.
  destruct q; [discriminate|]. destruct p as [[] [|[x []] [|]]]; try discriminate. cbn [easy_pred] in Hw.
  destruct (names E (name x)) as [d|d] eqn:Ex; try discriminate. destruct d as [| | | | | | | | | | |ds| | | | | | | |]; try discriminate. destruct ds; [|discriminate].
  intros f Hf b Hb. rewrite forallb_forall in Hw. specialize (Hw b Hb).
  assert (D : den_ty (U := terms) (mkEnv (names E) f) (TyPath None (Path false [Seg x GNone])) = unit_) by (cbn; rewrite Ex; reflexivity).
  change (bound_sat (ui_set c (ui_user c)) h (mkEnv (names E) f) (den_ty (U := terms) (mkEnv (names E) f) (TyPath None (Path false [Seg x GNone]))) b).
  rewrite D. destruct b as [lt|[] [|] [[] [|[a []] [|[b' []] [|[d []] [|]]]]]]; try discriminate; intros f' Hf'; cbn [easy_bound] in Hw.
  - apply andb_true_iff in Hw. destruct Hw as [Hw X3]. apply andb_true_iff in Hw. destruct Hw as [X1 X2].
    apply String.eqb_eq in X1, X2, X3. cbn. rewrite X1, X2, X3. apply Hz.
  - apply String.eqb_eq in Hw. cbn. rewrite Hw, En. exact Hu.
Qed.
Lemma ui_last_in c : In c ui_cases -> In (ui_last c) (ui_user c).
Proof.
  intros Hc. assert (X := ui_check (fun c => match ui_impls c with [] => false | _ => true end) c ltac:(vm_compute; reflexivity) Hc).
  cbv beta in X. unfold ui_last, ui_user. destruct (ui_impls c) as [|x l]; [discriminate|]. clear X. revert x.
  induction l as [|y l IH]; intros x; [left; reflexivity|]. right. exact (IH y).
Qed.
Lemma ui_last_trait c : In c ui_cases -> exists p, i_trait (ui_last c) = Some p /\ den_path (U := terms) (ui_env c) p = lib_trait (culprit c).
Proof.
  intros Hc.
  assert (X := ui_check (fun c => match i_trait (ui_last c) with
    | Some p => match den_path (U := terms) (ui_env c) p with XInst (XLib y) [] => String.eqb y (culprit c) | _ => false end
    | None => false end) c ltac:(vm_compute; reflexivity) Hc).
  cbv beta in X. destruct (i_trait (ui_last c)) as [p|]; [|discriminate]. exists p. split; [reflexivity|].
  destruct (den_path (U := terms) (ui_env c) p) as [| | | | |d a| | | | | | | | | | | | | |]; try discriminate. destruct d; try discriminate. destruct a; [|discriminate].
  apply String.eqb_eq in X. rewrite X. reflexivity.
Qed.
Lemma ui_applies c h : In c ui_cases -> solution (ui_set c (ui_user c)) h ->
  exists x, In x (se_impls (ui_set c (ui_user c))) /\ applies (ui_set c (ui_user c)) h x (lib_trait (culprit c)) (at_unit c).
Proof.
  intros Hc Hs. exists (te_outer "ui", ui_last c).
  split; [exact (in_map (fun im => (te_outer "ui", im)) _ _ (ui_last_in c Hc))|].
  exists (fun _ => unit_), (fun x => x). cbn [fst snd].
  pose proof (ui_last_trait c Hc) as Hp.
  split.
  - destruct Hp as (p & Hp & Ep).
    assert (M : matches (ui_set c (ui_user c)) (te_outer "ui") (ui_last c) (fun _ => unit_) (fun x => x) (lib_trait (culprit c))
      (den_ty (U := terms) (header_env (ui_set c (ui_user c)) (te_outer "ui") (i_generics (ui_last c)) (fun _ => unit_) (fun x => x)) (i_self (ui_last c)))).
    { split; [reflexivity|]. exists p. split; [exact Hp|exact Ep]. }
    destruct (ui_impl c _ _ _ _ _ _ Hc (ui_last_in c Hc) M) as [_ E]. rewrite E in M. exact M.
  - intros w Hw.
    assert (X := ui_check (fun c => (match names (ui_env c) "Unpin" with HDef (XLib y) => String.eqb y "Unpin" | _ => false end &&
      forallb (easy_pred (ui_env c)) (all_preds (i_generics (ui_last c))))%bool) c ltac:(vm_compute; reflexivity) Hc).
    cbv beta in X. apply andb_true_iff in X. destruct X as [X Y]. rewrite forallb_forall in Y.
    apply easy_sat; [exact (fun t => ui_sized c _ h t Hs)|apply Hs; do 4 right; right; split; reflexivity| |exact (Y w Hw)].
    fold (ui_env c). destruct (names (ui_env c) "Unpin") as [d|d]; try discriminate. destruct d; try discriminate. apply String.eqb_eq in X. rewrite X. reflexivity.
Qed.
Lemma ui_culprit c : In c ui_cases ->
  culprit c = "Unpin" \/ (culprit c = "UnsafeUnpin" /\ ar_unpin (ui_opts c) <> UUnsafe) \/ culprit c = "Drop" \/
  (culprit c = "PinnedDrop" /\ ar_pinned_drop (ui_opts c) = false).
Proof.
  intros Hc.
  assert (X := ui_check (fun c => let x := culprit c in
    (String.eqb x "Unpin" || (String.eqb x "UnsafeUnpin" && match ar_unpin (ui_opts c) with UUnsafe => false | _ => true end) ||
     String.eqb x "Drop" || (String.eqb x "PinnedDrop" && negb (ar_pinned_drop (ui_opts c))))%bool) c ltac:(vm_compute; reflexivity) Hc).
  cbv beta zeta in X. rewrite !orb_true_iff, !andb_true_iff, !String.eqb_eq, negb_true_iff in X.
  destruct X as [[[X|[X Y]]|X]|X]; auto. right. left. split; [exact X|]. intros E. rewrite E in Y. discriminate.
Qed.

Theorem conform_conflicts : forall c, In c ui_cases ->
  (let se := ui_set c (ui_rest c) in coherent se (can_tell se (least se))) /\
  let se := ui_set c (ui_user c) in
  rust se /\ legal se /\ uncaptured se /\
  (forall holds fails, solution se holds -> refuter se holds fails -> headers_ok se holds /\ ~ coherent se fails).
Proof.
  intros c Hc. split; [exact (ui_alone c Hc)|]. cbn zeta.
  pose proof (ui_rust c _ Hc (incl_refl _)) as Hr. pose proof (ui_legal c (ui_user c) Hc) as Hl. pose proof (ui_uncaptured c (ui_user c) Hc) as Hu.
  split; [exact Hr|]. split; [exact Hl|]. split; [exact Hu|]. intros h fails Hs Hf.
  pose proof (ui_headers c _ h Hc (incl_refl _) Hs) as Hh. split; [exact Hh|].
  destruct (ui_applies c h Hc Hs) as (x & Hx & Ha).
  destruct (ui_culprit c Hc) as [E|[[E N]|[E|[E N]]]]; rewrite E in Ha.
  - exact (c32_unpin _ h fails _ x _ (ui_options c Hc) Hr Hl Hu Hh Hf Hx Ha).
  - exact (c32_unsafe _ h fails _ x _ (ui_options c Hc) Hr Hl Hu Hh Hf N Hx Ha).
  - refine (c26 _ h fails _ x _ _ (ui_options c Hc) Hr Hl Hu Hs Hh Hf _ Hx Ha). right. intros fs f _ _. left. reflexivity.
  - exact (c27_not_given _ h fails _ x _ (ui_options c Hc) Hr Hl Hu Hs Hh Hf N Hx Ha).
Qed.
Print Assumptions conform_conflicts.
