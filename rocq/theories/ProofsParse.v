(** Rewritten and generated code parses. *)
From Coq Require Import String Ascii List Bool Arith Lia.
From Verif Require Import Base Syntax SyntaxInd BodyInd ModelArgs ModelUtils ModelDerive ModelPinnedDrop.
From Verif Require Import SpecArgs SpecDerive SpecExpand SpecRun SpecTraits SpecPinnedDrop SpecParse.
From Verif Require Import ProofsArgs ProofsUtils ProofsDerive ProofsExpand ProofsTypes ProofsVis ProofsTraitsForm ProofsPinnedDrop ProofsOutlives ProofsDecl.
Import ListNotations.
Open Scope string_scope.
Open Scope list_scope.

(** ** Booleans over lists *)
Lemma fa_map {A B} (p : B -> bool) (q : A -> bool) (r : A -> B) l :
  (forall x, In x l -> q x = true -> p (r x) = true) -> forallb q l = true -> forallb p (map r l) = true.
Proof.
  intros H. rewrite !forallb_forall. intros Hl y Hy. apply in_map_iff in Hy. destruct Hy as (x & <- & Hx). auto.
Qed.
Lemma fa_Forall {A} (p : A -> bool) (r : A -> A) l :
  Forall (fun x => p x = true -> p (r x) = true) l -> forallb p l = true -> forallb p (map r l) = true.
Proof. intros H. rewrite Forall_forall in H. apply fa_map. exact H. Qed.
Lemma ok_map {A B} (p : B -> bool) (q : A -> bool) (r : A -> B) o :
  (forall x, q x = true -> p (r x) = true) -> opt_ok q o = true -> opt_ok p (option_map r o) = true.
Proof. destruct o; cbn; auto. Qed.
Ltac bandh := repeat match goal with H : _ && _ = true |- _ => apply andb_true_iff in H; destruct H end.
Ltac band := repeat match goal with
  | H : _ && _ = true |- _ => apply andb_true_iff in H; destruct H
  | |- _ && _ = true => apply andb_true_iff; split
  end.

Lemma value_underscore l : forallb value_args (underscore_path l) = forallb value_args l.
Proof. destruct l as [|[i a] [|]]; reflexivity. Qed.
Lemma parses_underscore l : forallb parses_seg (underscore_path l) = forallb parses_seg l.
Proof. destruct l as [|[i a] [|]]; reflexivity. Qed.
Lemma behind_underscore q l : forallb value_args (behind q (underscore_path l)) = forallb value_args (behind q l).
Proof.
  destruct l as [|[i a] [|s r]]; [reflexivity| |reflexivity]. destruct q as [[t [|n]]|]; cbn; try reflexivity.
Qed.

Lemma length_underscore l : length (underscore_path l) = length l.
Proof. destruct l as [|[i a] [|]]; reflexivity. Qed.

Section Replace.
  Variables (lead : bool) (segs : list seg).
  Let own : type_path := mkTypePath None (Path lead segs).
  Hypothesis Hp : parses_path (Path lead segs) = true.
  Hypothesis Ha : forallb angle_args segs = true.

  Lemma own_ty : parses_ty (tp_ty own) = true.
  Proof. unfold own, tp_ty. cbn -[parses_path]. rewrite Hp. reflexivity. Qed.

  Lemma value_replace s : value_args (replace_seg own s) = value_args s.
  Proof. destruct s as [i []]; reflexivity. Qed.
  Lemma values_replace l : forallb value_args (map (replace_seg own) l) = forallb value_args l.
  Proof. induction l as [|s l IH]; [reflexivity|]. cbn [map forallb]. rewrite value_replace, IH. reflexivity. Qed.
  Lemma behind_replace q q' l : behind q' (map (replace_seg own) l) = map (replace_seg own) (behind q' l) ->
    option_map snd q = option_map snd q' ->
    forallb value_args (behind q' (map (replace_seg own) l)) = forallb value_args (behind q l).
  Proof.
    intros E Eq. rewrite E, values_replace. destruct q as [[? ?]|], q' as [[? ?]|]; cbn in Eq; try discriminate; [injection Eq as ->|]; reflexivity.
  Qed.
  Lemma behind_map q l : behind q (map (replace_seg own) l) = map (replace_seg own) (behind q l).
  Proof. destruct q as [[t n]|]; cbn; [apply skipn_map|reflexivity]. Qed.

  Lemma qualified_replace q l s : qualified q (Path l s) = true ->
    qualified (match q with Some (t', n) => Some (replace_ty own t', n) | None => None end)
      (Path l (underscore_path (map (replace_seg own) s))) = true.
  Proof.
    destruct q as [[t [|n]]|]; cbn [qualified]; [|rewrite length_underscore, map_length; auto|reflexivity].
    destruct s as [|s r]; [auto|]. cbn [map]. generalize (replace_seg own s) (map (replace_seg own) r). intros [i a] [|]; auto.
  Qed.
  Lemma qualified_rest t s r : qualified (Some (t, 0)) (Path true (underscore_path (s :: r))) = true.
  Proof. destruct s, r; reflexivity. Qed.

  (** The type of the impl as a value. *)
  Lemma turbofish_value : forallb value_args (map add_turbofish segs) = true.
  Proof.
    clear Hp own. induction segs as [|[i a] l IH]; [reflexivity|]. cbn [map forallb] in *. band; [|apply IH; assumption].
    destruct a as [|[] [|x r]|]; cbn in *; try reflexivity; discriminate.
  Qed.
  Lemma turbofish_parses : forallb parses_seg (map add_turbofish segs) = true.
  Proof.
    cbn [parses_path] in Hp. revert Hp. clear Ha own. apply fa_map. intros [i [|[] [|x r]|]] _ H; exact H.
  Qed.

  Lemma self_value p : parses_value None p = true -> parses_value None (self_to_expr_path own p) = true.
  Proof.
    intros H. destruct p as [[] [|[i []] rest]]; try exact H. cbn [self_to_expr_path].
    destruct (ident_is i "Self"); [|exact H]. cbn [tp_path own].
    unfold parses_value in *. cbn [opt_ok parses_path value_path behind forallb andb parses_seg parses_gargs value_args] in *.
    rewrite !forallb_app, turbofish_value, turbofish_parses. cbn [qualified] in *. exact H.
  Qed.

  (** A path, as a type or a value. *)
  Definition kept {A} (p : A -> bool) (r : A -> A) (x : A) : Prop := p x = true -> p (r x) = true.

  Lemma start_rest q p : path_starts_Self q p = true ->
    exists i s r, q = None /\ p = Path false (Seg i GNone :: s :: r).
  Proof.
    destruct q; [discriminate|]. destruct p as [[] [|[i []] [|s r]]]; try discriminate. eauto 10.
  Qed.

  Lemma no_plus_replace t : no_plus t = true -> no_plus (replace_ty own t) = true.
  Proof.
    destruct t as [q [l s]| | | | | | |[|b [|b' bs]]| | |]; try reflexivity; [|discriminate].
    intros _. rewrite r_path. destruct (path_is_Self _ _); [reflexivity|]. destruct (path_starts_Self _ _); reflexivity.
  Qed.

  Lemma parses_replace :
    (forall t, kept parses_ty (replace_ty own) t) /\
    (forall p, kept parses_path (replace_path own) p) /\
    (forall s, kept parses_seg (replace_seg own) s) /\
    (forall a, kept parses_gargs (replace_gargs own) a) /\
    (forall a, kept parses_garg (replace_garg own) a) /\
    (forall b, kept parses_bound (replace_bound own) b) /\
    (forall e, kept parses_expr (replace_expr own) e).
  Proof.
    assert (Hopt : forall o, Po (kept parses_ty (replace_ty own)) o ->
      match o with Some t' => parses_ty t' && no_plus t' | None => true end = true ->
      match match o with Some t' => Some (replace_ty own t') | None => None end with
      | Some t' => parses_ty t' && no_plus t' | None => true end = true).
    { intros [t|] H; cbn; [|auto]. intros X. band; [apply H; assumption|apply no_plus_replace; assumption]. }
    assert (Hq : forall q, Pq (kept parses_ty (replace_ty own)) q ->
      match q with Some (t', _) => parses_ty t' | None => true end = true ->
      match match q with Some (t', n) => Some (replace_ty own t', n) | None => None end with
      | Some (t', _) => parses_ty t' | None => true end = true).
    { intros [[t n]|] H; cbn; auto. }
    assert (Hv : forall q l, forallb value_args
      (behind (match q with Some (t', n) => Some (replace_ty own t', n) | None => None end) (map (replace_seg own) l)) =
      forallb value_args (behind q l)).
    { intros q l. apply behind_replace; [apply behind_map|]. destruct q as [[]|]; reflexivity. }
    apply syntax_ind; unfold kept.
    - intros q p Hq' Hp' H. rewrite r_path. cbn [parses_ty] in H. band.
      destruct (path_is_Self q p); [apply own_ty|]. destruct (path_starts_Self q p) eqn:E.
      + apply start_rest in E. destruct E as (i & s & r & -> & ->). match goal with X : parses_path (Path false _) = true |- _ => specialize (Hp' X) end.
        rewrite r_pathc in Hp'. cbn [parses_path] in Hp'. rewrite parses_underscore in Hp'. cbn [map forallb] in Hp'. band.
        cbn [parses_ty parses_path]. rewrite parses_underscore. cbn [map skipn forallb]. band; first [apply own_ty|apply qualified_rest|assumption].
      + destruct p as [l s]. cbn [parses_ty]. band; [apply Hq; assumption|apply Hp'; assumption|].
        rewrite r_pathc. apply qualified_replace. assumption.
    - intros lt m t IH H. rewrite r_ref. cbn [parses_ty] in *. band; [auto|apply no_plus_replace; assumption].
    - intros m t IH H. rewrite r_ptr. cbn [parses_ty] in *. band; [auto|apply no_plus_replace; assumption].
    - intros l IH H. rewrite r_tuple. exact (fa_Forall parses_ty _ l IH H).
    - intros t IH H. rewrite r_slice. apply IH, H.
    - intros t e IH IH' H. rewrite r_array. cbn [parses_ty] in *. band; auto.
    - intros lts l o IH IH' H. rewrite r_fn. cbn [parses_ty] in *. band; [apply fa_Forall; assumption|apply Hopt; assumption].
    - intros l IH H. rewrite r_dyn. exact (fa_Forall parses_bound _ l IH H).
    - intros t IH H. rewrite r_paren. apply IH, H.
    - auto.
    - auto.
    - intros l s IH H. rewrite r_pathc. cbn [parses_path] in *. rewrite parses_underscore. apply fa_Forall; assumption.
    - intros i a IH H. rewrite r_seg. apply IH, H.
    - auto.
    - intros b l IH H. rewrite r_gangle. exact (fa_Forall parses_garg _ l IH H).
    - intros l o IH IH' H. rewrite r_gparen. cbn [parses_gargs] in *. band; [apply fa_Forall; assumption|apply Hopt; assumption].
    - auto.
    - intros t IH H. rewrite r_aty. apply IH, H.
    - intros t IH H. rewrite r_aconst. apply IH, H.
    - intros i t IH H. rewrite r_aassoc. apply IH, H.
    - auto.
    - intros m lts p IH H. rewrite r_btrait. apply IH, H.
    - intros q p Hq' Hp' H. rewrite r_epath. cbn [parses_expr] in H. band.
      destruct (path_is_Self q p) eqn:E1.
      { apply path_is_Self_true in E1. destruct E1 as [-> ->].
        assert (X : parses_value None (self_to_expr_path own (Path false [Seg (I "Self") GNone])) = true) by (apply self_value; reflexivity).
        unfold parses_value in X. cbn [parses_expr]. exact X. }
      destruct (path_starts_Self q p) eqn:E.
      + apply start_rest in E. destruct E as (i & s & r & -> & ->). match goal with X : parses_path (Path false _) = true |- _ => specialize (Hp' X) end.
        rewrite r_pathc in Hp'. cbn [parses_path] in Hp'. rewrite parses_underscore in Hp'. cbn [map forallb] in Hp'. band.
        match goal with X : value_path _ _ = true |- _ => cbn [value_path behind forallb value_args] in X end. band.
        cbn [parses_expr parses_path value_path]. rewrite parses_underscore, behind_underscore. cbn [map skipn forallb behind].
        rewrite value_replace, values_replace. band; first [apply own_ty|apply qualified_rest|assumption].
      + destruct p as [l s]. cbn [parses_expr]. band; [apply Hq; assumption|apply Hp'; assumption| |].
        * rewrite r_pathc. cbn [value_path]. rewrite behind_underscore, Hv. assumption.
        * rewrite r_pathc. apply qualified_replace. assumption.
    - auto.
    - intros f l IH IH' H. rewrite r_ecall. cbn [parses_expr] in *. band; [apply IH; assumption|apply fa_Forall; assumption].
    - auto.
  Qed.
  Definition pr_ty := proj1 parses_replace.
  Lemma pr_path p : kept parses_path (replace_path own) p. Proof. apply parses_replace. Qed.
  Lemma pr_garg a : kept parses_garg (replace_garg own) a. Proof. apply parses_replace. Qed.
  Lemma pr_bound b : kept parses_bound (replace_bound own) b. Proof. apply parses_replace. Qed.
  Lemma pr_expr e : kept parses_expr (replace_expr own) e. Proof. apply parses_replace. Qed.

  Lemma pr_param p : kept parses_param (replace_param own) p.
  Proof.
    destruct p as [| |]; unfold kept; cbn [replace_param parses_param]; intros H; [reflexivity| |]; band.
    - eapply fa_map; [|eassumption]. intros b _. apply pr_bound.
    - eapply ok_map; [|eassumption]. apply pr_ty.
    - apply pr_ty. assumption.
    - eapply ok_map; [|eassumption]. apply pr_expr.
  Qed.
  Lemma pr_wpred w : kept parses_wpred (replace_wpred own) w.
  Proof.
    destruct w; unfold kept; cbn [replace_wpred parses_wpred]; intros H; [reflexivity|]; band; [apply pr_ty; assumption|].
    eapply fa_map; [|eassumption]. intros b _. apply pr_bound.
  Qed.
  Lemma pr_generics g : kept parses_generics (replace_generics own) g.
  Proof.
    unfold kept, parses_generics. cbn [replace_generics g_params g_where]. intros H. band.
    - eapply fa_map; [|eassumption]. intros b _. apply pr_param.
    - eapply ok_map; [|eassumption]. intros l. apply fa_map. intros b _. apply pr_wpred.
  Qed.

  (** ** Bodies *)
  Lemma pr_qpath q p : parses_value q p = true -> parses_value (fst (replace_qpath own q p)) (snd (replace_qpath own q p)) = true.
  Proof.
    intros H. assert (X : parses_expr (EPath q p) = true).
    { cbn [parses_expr]. unfold parses_value in H. destruct q as [[]|]; exact H. }
    apply pr_expr in X. unfold replace_qpath. revert X. rewrite r_epath.
    assert (Y : forall q' p', parses_expr (EPath q' p') = true -> parses_value q' p' = true).
    { intros q' p'. cbn [parses_expr]. unfold parses_value. destruct q' as [[]|]; auto. }
    destruct (path_is_Self q p); [intros X; apply Y; exact X|].
    destruct (path_starts_Self q p); [destruct p|]; intros X; apply Y; exact X.
  Qed.
  Lemma pr_value p : parses_value None p = true -> parses_value None (replace_path own p) = true.
  Proof.
    destruct p as [l s]. unfold parses_value. cbn [opt_ok andb value_path behind]. intros H. band.
    - apply pr_path. assumption.
    - rewrite r_pathc. cbn [value_path behind]. rewrite value_underscore, values_replace. assumption.
    - rewrite r_pathc. reflexivity.
  Qed.
  Lemma pr_struct_path p : parses_value None p = true -> parses_value None (replace_struct_path own p) = true.
  Proof. intros H. apply pr_value, self_value, H. Qed.

  Fixpoint pr_pat (p : bpat) : kept parses_pat (replace_pat own) p.
  Proof.
    destruct p; unfold kept in *; cbn [replace_pat parses_pat]; intros H; try reflexivity.
    - apply pr_qpath in H. destruct (replace_qpath own q p). exact H.
    - band; [apply pr_struct_path; assumption|]. revert H0. clear H. induction fs as [|f l IH]; [reflexivity|].
      cbn [map forallb snd]. intros H. band; [apply pr_pat; assumption|apply IH; assumption].
    - band; [apply pr_struct_path; assumption|]. revert H0. clear H. induction l as [|f l IH]; [reflexivity|].
      cbn [map forallb snd]. intros H. band; [apply pr_pat; assumption|apply IH; assumption].
    - revert H. induction l as [|f l IH]; [reflexivity|].
      cbn [map forallb snd]. intros H. band; [apply pr_pat; assumption|apply IH; assumption].
  Qed.
  Lemma pr_fnarg a : kept parses_fnarg (replace_fnarg own) a.
  Proof.
    destruct a; unfold kept; cbn [replace_fnarg parses_fnarg]; intros H.
    - eapply ok_map; [|eassumption]. apply pr_ty.
    - band; [apply pr_pat; assumption|apply pr_ty; assumption].
  Qed.
  Lemma pr_sig s : kept parses_sig (replace_sig own) s.
  Proof.
    unfold kept, parses_sig. cbn [replace_sig fs_generics fs_inputs fs_out]. intros H. band.
    - apply pr_generics. assumption.
    - eapply fa_map; [|eassumption]. intros a _. apply pr_fnarg.
    - eapply ok_map; [|eassumption]. apply pr_ty.
  Qed.

  Lemma pr_body : (forall e, kept parses_bexpr (replace_bexpr own) e) /\ (forall s, kept parses_bstmt (replace_bstmt own) s).
  Proof.
    apply body_ind; unfold kept; cbn [replace_bexpr replace_bstmt parses_bexpr parses_bstmt]; intros; band;
      repeat match goal with H : Forall (fun f => _) _ |- _ => rewrite Forall_forall in H end; try reflexivity; try (auto; fail).
    - apply pr_qpath in H. destruct (replace_qpath own q p). exact H.
    - eapply fa_map; [|eassumption]. auto.
    - eapply fa_map; [|eassumption]. intros a _. apply pr_garg.
    - eapply fa_map; [|eassumption]. auto.
    - apply pr_struct_path. assumption.
    - eapply fa_map; [|eassumption]. cbn [snd]. intros f Hf. apply H; exact Hf.
    - destruct b; [|reflexivity]. cbn in H0. auto.
    - apply pr_ty. assumption.
    - apply no_plus_replace. assumption.
    - eapply fa_map; [|eassumption]. auto.
    - eapply fa_map; [|eassumption]. cbn [fst snd]. intros a Hin X. band; [apply pr_pat; assumption|]. apply H0; assumption.
    - eapply fa_map; [|eassumption]. cbn [fst snd]. intros a Hin X. band; [apply pr_pat; assumption|].
      eapply ok_map; [|eassumption]. apply pr_ty.
    - apply pr_pat. assumption.
    - eapply ok_map; [|eassumption]. apply pr_ty.
    - destruct e; [|reflexivity]. cbn in H. auto.
  Qed.
End Replace.

(** ** [#[pinned_drop]] *)
Lemma pinned_drop_parses args im im' :
  pinned_drop_attribute args im = Ok (PdImpl im') -> parses_impl im = true -> named_by_path (im_self im) ->
  parses_impl im' = true.
Proof.
  intros H Hi (lead & segs & Hs & Ha). apply pinned_drop_ok in H.
  destruct H as (m & q & p & neg & (_ & _ & Him & Hg & _) & Hself & _ & ->).
  rewrite Hs in Hself. injection Hself as <- <-. unfold parses_impl in *. rewrite Him, Hs in Hi.
  cbn [im_generics im_trait im_self im_items] in *. rewrite ?Hs in *. cbn [forallb parses_impl_item] in Hi. bandh.
  assert (Hp : parses_path (Path lead segs) = true).
  { match goal with X : parses_ty (TyPath None (Path lead segs)) = true |- _ => cbn [parses_ty] in X; bandh end. assumption. }
  destruct (gd_self _ Hg) as (at_ & mu & t & r & Hin & _).
  match goal with X : parses_sig (mt_sig m) = true |- _ => rename X into Hsig end.
  unfold parses_sig in Hsig. rewrite Hin in Hsig. cbn [forallb parses_fnarg opt_ok] in Hsig.
  unfold pd_result. cbn [im_generics im_trait im_self im_items forallb parses_impl_item outer_method mt_sig mt_block].
  rewrite ?Hs. band; try assumption; try reflexivity.
  - unfold parses_sig. cbn [outer_sig fs_generics fs_inputs fs_out]. rewrite Hin. cbn [forallb parses_fnarg opt_ok]. band; try assumption; reflexivity.
  - unfold drop_inner. cbn [parses_bstmt]. band.
    + apply pr_sig; [exact Hp|exact Ha|]. unfold parses_sig. cbn [inner_sig fs_generics fs_inputs fs_out]. rewrite Hin.
      cbn [forallb parses_fnarg parses_pat recv_ty opt_ok]. band; try reflexivity; try assumption.
    + eapply fa_map; [intros s _; apply (proj2 (pr_body lead segs Hp Ha) s)|]. cbn [forallb]. band; [reflexivity|assumption].
Qed.

(** The impl that stands in after an error. *)
Lemma impl_params_parse g : forallb parses_param (g_params g) = true -> forallb parses_param (impl_params g) = true.
Proof.
  intros H. apply (fa_map _ parses_param); [intros [] _; cbn; intros X; bandh; band; auto|].
  rewrite forallb_forall in *. intros p Hp. apply H. unfold lts_first in Hp. apply in_app_or in Hp.
  destruct Hp as [Hp|Hp]; apply filter_In in Hp; apply Hp.
Qed.
Lemma pinned_drop_dummy_parses args im msg d :
  pinned_drop_attribute args im = Ok (PdError msg (Some d)) -> parses_impl im = true -> parses_impl d = true.
Proof.
  intros H Hi. assert (d = dummy_impl im) as ->.
  { unfold pinned_drop_attribute in H. destruct (match args with [] => _ | _ => _ end); try discriminate.
    injection H as _ H. destruct (im_self im); try discriminate. injection H as <-. reflexivity. }
  unfold parses_impl in *. bandh. cbn [dummy_impl im_generics im_trait im_self im_items]. band; try assumption; try reflexivity.
  unfold parses_generics in *. bandh. cbn [g_params g_where]. band; [apply impl_params_parse|]; assumption.
Qed.

(** ** The expansion *)
Lemma own_parses i g : exists segs, own_type i g = mkTypePath None (Path false segs) /\
  parses_path (Path false segs) = true /\ forallb angle_args segs = true.
Proof.
  eexists. split; [reflexivity|]. cbn [parses_path forallb parses_seg angle_args]. destruct (g_params g) as [|p ps].
  - split; reflexivity.
  - split.
    + cbn [parses_gargs]. rewrite andb_true_r. apply forallb_forall. intros a Ha. apply in_map_iff in Ha. destruct Ha as ([] & <- & _); reflexivity.
    + rewrite andb_true_r. cbn [filter]. destruct (is_lt_param p); [reflexivity|]. destruct (filter is_lt_param ps); reflexivity.
Qed.
Lemma args_parse l : forallb parses_garg (map as_arg l) = true.
Proof. apply forallb_forall. intros a Ha. apply in_map_iff in Ha. destruct Ha as ([] & <- & _); reflexivity. Qed.
Lemma applied_parses i l : forallb parses_garg l = true -> parses_ty (applied i l) = true.
Proof. intros H. unfold applied. cbn [parses_ty parses_path forallb parses_seg andb]. destruct l; [reflexivity|]. cbn [parses_gargs]. rewrite H. reflexivity. Qed.
Lemma spelled_parses i g : parses_generics g = true -> parses_generics (spelled i g) = true.
Proof.
  intros H. unfold spelled. destruct (own_parses i g) as (segs & -> & Hp & Ha). apply pr_generics; assumption.
Qed.
Lemma preds_parse g : parses_generics g = true -> forallb parses_wpred (preds g) = true.
Proof. unfold parses_generics, preds. intros H. bandh. destruct (g_where g); [assumption|reflexivity]. Qed.
Lemma params_parse g : parses_generics g = true -> forallb parses_param (g_params g) = true.
Proof. unfold parses_generics. intros H. bandh. assumption. Qed.
Lemma generics_parse ps w : forallb parses_param ps = true -> opt_ok (forallb parses_wpred) w = true -> parses_generics (mkGenerics ps w) = true.
Proof. intros. unfold parses_generics. cbn [g_params g_where]. band; assumption. Qed.
Lemma without_parse l : forallb parses_param l = true -> forallb parses_param (map without_default l) = true.
Proof. apply fa_map. intros [] _; cbn; intros H; bandh; band; auto. Qed.
Lemma pgen_parses k lt i g : parses_generics g = true -> parses_generics (pgen k lt i g) = true.
Proof.
  intros H. apply (spelled_parses i) in H. pose proof (preds_parse _ H). pose proof (params_parse _ H). unfold pgen. apply generics_parse.
  - unfold projected_params. destruct k; assumption.
  - unfold projected_preds. cbn [opt_ok]. destruct k; [| |assumption]; rewrite forallb_app; band; try assumption;
      cbn [forallb parses_wpred parses_bound]; rewrite applied_parses by apply args_parse; reflexivity.
Qed.

Lemma field_parses k lt self f f' : field_projected k lt self f f' -> parses_ty (replace_ty self (f_ty f)) = true -> parses_ty (f_ty f') = true.
Proof.
  intros [_ _ _ _ F1 F2] H. destruct (pinned_dec f) as [X|X]; [rewrite (F1 X)|rewrite (F2 X)]; destruct k;
    cbn [pinned_ty unpinned_ty priv parses_ty parses_path forallb parses_seg seg1 parses_gargs parses_garg no_plus andb]; rewrite ?H; reflexivity.
Qed.
Lemma fields_parse i g k lt fs fs' : fields_projected k lt (own_type i g) fs fs' -> parses_fields fs = true -> parses_fields fs' = true.
Proof.
  destruct (own_parses i g) as (segs & E & Hp & Ha).
  assert (HL : forall l l', Forall2 (field_projected k lt (own_type i g)) l l' ->
    forallb (fun f => parses_ty (f_ty f)) l = true -> forallb (fun f => parses_ty (f_ty f)) l' = true).
  { induction 1 as [|f f' l l' Hf _ IH]; [reflexivity|]. cbn [forallb]. intros H. band; [|auto]. eapply field_parses; [exact Hf|].
    rewrite E. apply pr_ty; assumption. }
  intros [l l' H|l l' H|] HF; [apply (HL _ _ H HF)|apply (HL _ _ H HF)|reflexivity].
Qed.

Lemma phantom_parses l : parses_ty (phantom_tuple l) = true.
Proof.
  unfold phantom_tuple. assert (H : forallb parses_ty (map (fun i => pp_priv_ty "PhantomData" (targ (ty_ident i))) l) = true).
  { apply forallb_forall. intros t Ht. apply in_map_iff in Ht. destruct Ht as (i & <- & _). reflexivity. }
  destruct (map _ l) as [|t [|t' l']]; [reflexivity| |exact H]. cbn [forallb] in H. bandh. assumption.
Qed.
Lemma fa_app {A} (p : A -> bool) l l' : forallb p l = true -> forallb p l' = true -> forallb p (l ++ l') = true.
Proof. intros. rewrite forallb_app. band; assumption. Qed.
Lemma enum_from_in {A} (l : list A) n x : In x (enum_from n l) -> In (snd x) l.
Proof. revert n. induction l as [|y l IH]; cbn; intros n H; [destruct H|]. destruct H as [<-|H]; [left; reflexivity|right; eapply IH; exact H]. Qed.

Lemma pin_generics_parse gs pin w : parses_generics gs = true -> parses_wpred w = true -> parses_generics (pin_generics gs pin w) = true.
Proof.
  intros H Hw. unfold pin_generics. apply generics_parse; cbn [opt_ok].
  - cbn [forallb parses_param]. apply without_parse, params_parse, H.
  - apply fa_app; [apply preds_parse; exact H|]. cbn [forallb]. rewrite Hw. reflexivity.
Qed.
Lemma plain_generics_parse gs : parses_generics gs = true -> parses_generics (plain_generics gs) = true.
Proof. intros H. apply generics_parse; cbn [opt_ok]; [apply without_parse, params_parse, H|apply preds_parse, H]. Qed.
Lemma empty_impl_parses u g tr i l : parses_generics g = true -> parses_path tr = true -> forallb parses_garg l = true ->
  parses_oitem (empty_impl u g tr (applied i l)) = true.
Proof.
  intros. unfold empty_impl. cbn [parses_oitem i_generics i_trait i_self i_methods opt_ok forallb]. band; try reflexivity; try assumption.
  apply applied_parses. assumption.
Qed.

Lemma unpin_parses a v i g pin tys o : parses_generics g = true -> forallb parses_ty tys = true ->
  In o (unpin_items a v i g pin tys) -> parses_oitem o = true.
Proof.
  intros Hg Ht. apply (spelled_parses i) in Hg. unfold unpin_items.
  assert (Hd : parses_wpred (default_pred i g pin) = true).
  { unfold default_pred. cbn [parses_wpred pinned_fields_of parses_ty parses_path forallb parses_seg seg1 parses_gargs parses_garg andb].
    unfold helper_ty. rewrite applied_parses; [reflexivity|]. cbn [forallb parses_garg]. apply args_parse. }
  destruct (ar_unpin a); cbn [In]; intros H; repeat destruct H as [<-|H]; try destruct H;
    try (apply empty_impl_parses; [apply pin_generics_parse; [exact Hg|first [exact Hd|reflexivity]]|reflexivity|apply args_parse]).
  cbn [parses_oitem]. band.
  - apply generics_parse; cbn [opt_ok]; [cbn [forallb parses_param]; apply params_parse, Hg|apply preds_parse, Hg].
  - unfold parses_fields, helper_fs. cbn [fields_list forallb f_ty]. band.
    + cbn [parses_ty parses_path pp_priv_ty pp_path]. pose proof (phantom_parses (type_params g)) as X.
      unfold pp_priv_ty, pp_path in *. cbn. rewrite X. reflexivity.
    + apply fa_app; apply forallb_forall; intros f Hf; apply in_map_iff in Hf; destruct Hf as (x & <- & Hx); cbn [f_ty].
      * rewrite forallb_forall in Ht. apply Ht. eapply enum_from_in. exact Hx.
      * reflexivity.
Qed.
Lemma drop_parses a i g o : parses_generics g = true -> In o (drop_items a i g) -> parses_oitem o = true.
Proof.
  intros Hg. apply (spelled_parses i) in Hg. pose proof (plain_generics_parse _ Hg) as Hp.
  assert (HA : parses_ty (applied i (map as_arg (g_params g))) = true) by (apply applied_parses, args_parse).
  unfold drop_items. destruct (ar_pinned_drop a); cbn [In]; intros H; repeat destruct H as [<-|H]; try destruct H; try reflexivity;
    cbn [parses_oitem i_generics i_trait i_self i_methods opt_ok]; rewrite Hp, HA; reflexivity.
Qed.

(** Types in the bodies of the projection methods. *)
Lemma guards_parse l : forallb parses_stmt (map guard_stmt l) = true.
Proof. induction l; [reflexivity|exact IHl]. Qed.
Lemma struct_methods_parse a s m im : In im (inherent_impls (all_items (struct_out (struct_cx a s) (s_fields s)))) ->
  In m (i_methods im) -> parses_body (m_body m) = true.
Proof.
  intros H. rewrite (struct_impls a) in H by reflexivity. destruct H as [<-|[]]. cbn [i_methods]. intros H.
  apply in_map_iff in H. destruct H as (k & <- & _). destruct k; cbn [method_project method_project_ref method_project_replace m_body]; try reflexivity.
  unfold struct_body_own. cbn. rewrite guards_parse. reflexivity.
Qed.
Lemma enum_methods_parse a e m im : ar_project_replace a <> PRUnnamed ->
  In im (inherent_impls (all_items (enum_out (enum_cx a e) (e_variants e)))) ->
  In m (i_methods im) -> parses_body (m_body m) = true.
Proof.
  intros N H. rewrite (enum_impls a) in H by (reflexivity || exact N). destruct H as [<-|[]]. cbn [i_methods]. intros H.
  apply in_map_iff in H. destruct H as (k & <- & _).
  destruct k; cbn [method_project method_project_ref method_project_replace m_body].
  - unfold enum_body. cbn [parses_body forallb andb]. apply forallb_forall. intros x Hx. apply in_map_iff in Hx. destruct Hx as (v & <- & _). reflexivity.
  - unfold enum_body. cbn [parses_body forallb andb]. apply forallb_forall. intros x Hx. apply in_map_iff in Hx. destruct Hx as (v & <- & _). reflexivity.
  - unfold enum_body_own. cbn [add_prologue parses_body app forallb replace_prologue]. band; try reflexivity.
    apply forallb_forall. intros x Hx. apply in_map_iff in Hx. destruct Hx as (v & <- & _).
    cbn. rewrite guards_parse. reflexivity.
Qed.

Lemma assert_parses it e g t ms : parse_derive it = Ok e -> In (OAssert g t ms) (all_items e) ->
  parses_ty t = true /\ no_plus t = true.
Proof.
  intros H. destruct (derive_form _ _ H) as [(s & a & -> & _ & Ho & _)|(en & a & -> & _ & Ho & _)]; clear -H Ho.
  - destruct (struct_form _ _ _ H Ho) as [_ ->]. intros Hin. apply struct_items in Hin.
    destruct Hin as [(k & _ & E)|[(x & y & E)|[(im & E & _)|[E|[Hin|Hin]]]]].
    + destruct k; discriminate.
    + discriminate.
    + discriminate.
    + unfold assert_item in E. injection E as _ -> _. split; [|reflexivity].
      unfold ty_applied, self_path, ty_generics. cbn [parses_ty parses_path forallb parses_seg andb qualified]. rewrite !andb_true_r.
      destruct (g_params _); [reflexivity|]. cbn [parses_gargs]. apply forallb_forall. intros x Hx. apply in_map_iff in Hx.
      destruct Hx as ([] & <- & _); reflexivity.
    + exfalso. revert Hin. unfold make_unpin_impl. destruct (ar_unpin _); cbn; intuition discriminate.
    + exfalso. revert Hin. unfold make_drop_impl. destruct (ar_pinned_drop _); cbn; intuition discriminate.
  - destruct (enum_form _ _ _ H Ho) as [Ha ->]. intros Hin. apply enum_items in Hin; [|apply (ae_replace_named _ _ Ha)].
    exfalso. destruct Hin as [(k & _ & E)|[(x & y & E)|[(im & E & _)|[Hin|Hin]]]].
    + destruct k; discriminate.
    + discriminate.
    + discriminate.
    + revert Hin. unfold make_unpin_impl. destruct (ar_unpin _); cbn; intuition discriminate.
    + revert Hin. unfold make_drop_impl. destruct (ar_pinned_drop _); cbn; intuition discriminate.
Qed.
Lemma bodies_parse it e im m : parse_derive it = Ok e -> In im (inherent_impls (all_items e)) -> In m (i_methods im) ->
  parses_body (m_body m) = true.
Proof.
  intros H. destruct (derive_form _ _ H) as [(s & a & -> & _ & Ho & _)|(en & a & -> & _ & Ho & _)]; clear -H Ho.
  - destruct (struct_form _ _ _ H Ho) as [_ ->]. apply struct_methods_parse.
  - destruct (enum_form _ _ _ H Ho) as [Ha ->]. apply enum_methods_parse. apply (ae_replace_named _ _ Ha).
Qed.
Lemma pinned_types_parse it : parses_item it = true -> forallb parses_ty (pinned_types it) = true.
Proof.
  intros H. assert (HF : forall fs, In fs (fields_of it) -> parses_fields fs = true).
  { destruct it as [s|en|]; cbn [fields_of parses_item] in *; bandh; intros fs Hfs.
    - destruct Hfs as [<-|[]]. assumption.
    - apply in_map_iff in Hfs. destruct Hfs as (v & <- & Hv).
      match goal with X : forallb _ (e_variants en) = true |- _ => rewrite forallb_forall in X; apply X; exact Hv end.
    - destruct Hfs. }
  apply forallb_forall. intros t Ht. unfold pinned_types in Ht. apply in_flat_map in Ht. destruct Ht as (fs & Hfs & Ht).
  apply in_map_iff in Ht. destruct Ht as (f & <- & Hf). apply filter_In in Hf. apply HF in Hfs.
  unfold parses_fields in Hfs. rewrite forallb_forall in Hfs.
  destruct (own_parses (name_of it) (generics_of it)) as (segs & -> & Hp & Ha). apply pr_ty; [exact Hp|exact Ha|]. apply Hfs, Hf.
Qed.

Lemma expansion_parses it e o : parse_derive it = Ok e -> ordered (params_of it) -> parses_item it = true ->
  In o (all_items e) -> parses_oitem o = true.
Proof.
  intros H Hord Hit Hin.
  assert (Ho : exists a, options (attrs_of it) a).
  { destruct (derive_form _ _ H) as [(s & a & -> & _ & Ho & _)|(en & a & -> & _ & Ho & _)]; exists a; exact Ho. }
  destruct Ho as (a & Ho). rewrite params_of_generics in Hord.
  assert (Hg : parses_generics (generics_of it) = true) by (destruct it; cbn [parses_item] in Hit; bandh; try assumption; reflexivity).
  pose proof (plain_generics_parse _ (spelled_parses (name_of it) _ Hg)) as Hplain.
  destruct (item_forms _ _ _ H Ho Hord) as (pin & Hpin & HF). specialize (HF o Hin).
  destruct HF as [HF|[HF|[HF|[HF|[HF|[HF|HF]]]]]].
  - destruct HF as (s & k & v & n & fs' & -> & Hk & -> & HP). cbn [parses_oitem parses_item name_of generics_of] in *. bandh. band.
    + apply pgen_parses. assumption.
    + eapply fields_parse; [exact HP|assumption].
  - destruct HF as (en & k & v & n & vs' & -> & Hk & -> & HP). cbn [parses_oitem parses_item name_of generics_of] in *. bandh. band.
    + apply pgen_parses. assumption.
    + match goal with X : forallb _ (e_variants en) = true |- _ => revert X end. clear -HP.
      induction HP as [|x y l l' Hxy _ IH]; [reflexivity|]. cbn [forallb]. intros X. band; [|auto].
      eapply fields_parse; [apply (vp_fields _ _ _ _ _ Hxy)|assumption].
  - destruct HF as (x & y & ->). reflexivity.
  - destruct HF as (im & -> & Hi). pose proof (in_inherent_impls _ _ Hin Hi) as Hii. pose proof (fun m => bodies_parse _ _ _ m H Hii) as HB.
    destruct (inherent_impl _ _ _ H Ho Hord) as (im' & lt & E & Hlt & HP). rewrite E in Hii. destruct Hii as [->|[]].
    destruct im as [u [ps w] tr t ms]. destruct HP as [_ Hs Hps Hw Hm]. cbn [i_self i_generics g_params i_methods i_trait] in *. subst t tr.
    cbn [parses_oitem i_generics i_trait i_self i_methods opt_ok]. band; try reflexivity.
    + apply generics_parse; [rewrite Hps; apply (params_parse _ Hplain)|].
      unfold preds at 1 in Hw. cbn [g_where] in Hw. destruct w as [w|]; [|reflexivity]. cbn [opt_ok]. rewrite Hw.
      apply preds_parse, spelled_parses, Hg.
    + apply applied_parses, args_parse.
    + apply forallb_forall. intros m Hm'. specialize (HB m Hm'). destruct (Forall2_in_r _ _ _ Hm _ Hm') as (k & _ & Hk).
      destruct Hk as [_ _ _ Q1 Q2 Q3]. unfold parses_method. rewrite Q1, Q2, Q3, HB. cbn [opt_ok].
      rewrite applied_parses; [destruct k; reflexivity|]. apply fa_app; [destruct k; reflexivity|apply args_parse].
  - destruct HF as (t & ms & ->). destruct (assert_parses _ _ _ _ _ H Hin) as [X Y]. cbn [parses_oitem]. rewrite Hplain, X, Y. reflexivity.
  - eapply unpin_parses; [exact Hg|apply pinned_types_parse; exact Hit|exact HF].
  - eapply drop_parses; [exact Hg|exact HF].
Qed.
