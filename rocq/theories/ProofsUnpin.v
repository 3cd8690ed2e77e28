(** Histories where types are [Unpin]. *)
From Coq Require Import String Ascii List Bool Arith Lia Permutation.
From Verif Require Import Base Syntax ModelArgs ModelUtils ModelDerive ModelRun ModelHistory ModelUnpin ModelMeaning ModelTraits.
From Verif Require Import SpecArgs SpecDerive SpecExpand SpecRun SpecHistory SpecMeaning SpecTraits SpecUnpin.
From Verif Require Import ProofsArgs ProofsDerive ProofsRun ProofsRunProj ProofsRunReplace ProofsRunMain ProofsHistory ProofsTraitsProps.
Import ListNotations.
Open Scope string_scope.
Open Scope list_scope.

Section Steps.
  Variables (w : world) (a : args) (iu : Prop) (fu Sel : field -> Prop).
  Hypothesis Hprog : program w a.
  (** The selected fields are not [Unpin]; if the type is, none is selected. *)
  Hypothesis Hsel : forall f, Sel f -> ~ fu f.
  Hypothesis Hall : iu -> forall u vp fs f, value_of (w_item w) u vp fs -> In f (fields_list fs) -> is_pinned f = true -> ~ Sel f.

  Lemma iu_none h i id : iu -> ~ pin_at Sel w h i id.
  Proof.
    intros Hi (f & Hf & u & vp & fs & _ & _ & Hv & Hn & Hp & _). apply (Hall Hi u vp fs f Hv); auto. eapply nth_error_In. exact Hn.
  Qed.
  Lemma pin_declared h u t vp fs i id g : h_st h = holding u t Run -> value_of (w_item w) u vp fs ->
    nth_error (fields_list fs) i = Some g -> pin_at Sel w h i id -> Sel g.
  Proof.
    intros E Hv Hg (f & Hf & u' & vp' & fs' & _ & E' & Hv' & Hn & _ & _). rewrite E in E'. apply holding_inj in E'. subst u'.
    rewrite (value_unique w a u vp' fs' vp fs Hprog Hv' Hv) in Hn. congruence.
  Qed.
  (** No selected field can be reached with [&mut]. *)
  Lemma no_mut h u t vp fs n v i id : h_st h = holding u t Run -> value_of (w_item w) u vp fs ->
    In (n, v) (references true fs) -> gives_mut w fu h v i -> ~ pin_at Sel w h i id.
  Proof.
    intros E Hv Hin Hg Hp. destruct Hg as [->|[-> (g & (u' & t' & vp' & fs' & E' & Hv' & Hn) & Hu)]].
    - destruct (refs_in fs n true i _ Hin eq_refl) as (g & Hg & Hpg). 
      assert (is_pinned g = true) as Hpin.
      { destruct Hp as (f & Hf & u' & vp' & fs' & _ & E' & Hv' & Hn & Hpf & _). rewrite E in E'. apply holding_inj in E'. subst u'.
        rewrite (value_unique w a u vp' fs' vp fs Hprog Hv' Hv) in Hn. congruence. }
      specialize (Hpg Hpin). discriminate.
    - apply (Hsel g); [|exact Hu]. apply (pin_declared h u' t' vp' fs' i id g); assumption.
  Qed.

  Lemma take_good h u i old id rest : inv w h -> s_stat (h_st h) = Run -> h_alive h = true -> h_st h = holding u (trace h) Run ->
    nth_error (u_ids u) i = Some old -> Permutation (h_owned h) (id :: rest) -> (forall x, ~ pin_at Sel w h i x) ->
    good Sel w h (mkHist (take_field i old id (h_st h)) (h_alive h) (h_stack h) (old :: rest) (h_created h)).
  Proof.
    intros Hi Hr Ha E Hold Hperm Hno.
    assert (take_field i old id (h_st h) =
      holding (mkUval (u_var u) (set_nth i id (u_ids u))) (trace h ++ [EvRead i old; EvStore i id]) Run) as ->.
    { rewrite E. unfold take_field, store_field, holding, live, add_event. cbn [s_stat s_var s_slots s_trace u_var u_ids].
      rewrite set_nth_map, <- app_assoc. reflexivity. }
    apply (good_fields Sel w h u); auto; cbn [u_ids].
    - apply set_nth_length.
    - pose proof (set_nth_perm i id old (u_ids u) Hold). cbn [destroyed flat_map app]. perm.
    - intros j x Hj. assert (i <> j) as Hij by (intros ->; apply (Hno x Hj)).
      destruct Hj as (f & _ & u' & vp' & fs' & _ & E' & _ & _ & _ & Hx). rewrite E in E'. apply holding_inj in E'. subst u'.
      left. split; [rewrite set_nth_other by exact Hij; exact Hx|]. repeat constructor; exact Hij.
  Qed.
  Lemma swap_good h u i j x y : inv w h -> s_stat (h_st h) = Run -> h_alive h = true -> h_st h = holding u (trace h) Run -> i <> j ->
    nth_error (u_ids u) i = Some x -> nth_error (u_ids u) j = Some y ->
    (forall z, ~ pin_at Sel w h i z) -> (forall z, ~ pin_at Sel w h j z) ->
    good Sel w h (with_st h (take_field j y x (take_field i x y (h_st h)))).
  Proof.
    intros Hi Hr Ha E Hij Hx Hy Hni Hnj.
    assert (take_field j y x (take_field i x y (h_st h)) =
      holding (mkUval (u_var u) (set_nth j x (set_nth i y (u_ids u)))) (trace h ++ [EvRead i x; EvStore i y; EvRead j y; EvStore j x]) Run) as ->.
    { rewrite E. unfold take_field, store_field, holding, live, add_event. cbn [s_stat s_var s_slots s_trace u_var u_ids].
      rewrite !set_nth_map, <- !app_assoc. reflexivity. }
    apply (good_fields Sel w h u); auto; cbn [u_ids].
    - rewrite !set_nth_length. reflexivity.
    - pose proof (set_nth_perm i y x (u_ids u) Hx).
      assert (nth_error (set_nth i y (u_ids u)) j = Some y) as Hy' by (rewrite set_nth_other by exact Hij; exact Hy).
      pose proof (set_nth_perm j x y (set_nth i y (u_ids u)) Hy'). cbn [destroyed flat_map app]. perm.
    - intros k z Hk. assert (i <> k) as Hik by (intros ->; apply (Hni z Hk)). assert (j <> k) as Hjk by (intros ->; apply (Hnj z Hk)).
      destruct Hk as (f & _ & u' & vp' & fs' & _ & E' & _ & _ & _ & Hz). rewrite E in E'. apply holding_inj in E'. subst u'.
      left. split; [rewrite !set_nth_other by assumption; exact Hz|]. repeat constructor; assumption.
  Qed.
  Lemma assign_good h u i old id rest : inv w h -> s_stat (h_st h) = Run -> h_alive h = true -> h_st h = holding u (trace h) Run ->
    nth_error (u_ids u) i = Some old -> Permutation (h_owned h) (id :: rest) -> (forall x, ~ pin_at Sel w h i x) ->
    good Sel w h (mkHist (caught (assign_field w i id (h_st h))) (h_alive h) (h_stack h) rest (h_created h)).
  Proof.
    intros Hi Hr Ha E Hold Hperm Hno.
    assert (caught (assign_field w i id (h_st h)) =
      holding (mkUval (u_var u) (set_nth i id (u_ids u))) (trace h ++ [EvDrop (PlField i) old; EvStore i id]) Run) as ->.
    { rewrite E. unfold assign_field, drop_slot. cbn [holding live s_stat s_slots]. rewrite nth_error_map, Hold. cbn [option_map].
      rewrite drop_id_eq by reflexivity. cbn [s_var s_slots s_trace s_stat]. unfold store_field, live. cbn [s_stat s_var s_slots s_trace].
      destruct (w_panics w old); cbn [bump]; cbn [caught s_stat set_stat s_var s_slots s_trace]; unfold holding; cbn [u_var u_ids];
        rewrite set_nth_twice, set_nth_map, <- app_assoc; reflexivity. }
    apply (good_fields Sel w h u); auto; cbn [u_ids].
    - apply set_nth_length.
    - pose proof (set_nth_perm i id old (u_ids u) Hold). cbn [destroyed flat_map app]. perm.
    - intros j x Hj. assert (i <> j) as Hij by (intros ->; apply (Hno x Hj)).
      destruct Hj as (f & _ & u' & vp' & fs' & _ & E' & _ & _ & _ & Hx). rewrite E in E'. apply holding_inj in E'. subst u'.
      left. split; [rewrite set_nth_other by exact Hij; exact Hx|].
      constructor; [|constructor; [exact Hij|constructor]]. split; [congruence|]. apply (pinned_other w h u i j old x Hi Hr E Hold Hx Hij).
  Qed.
  Lemma replace_good h old u vp fs rest : iu -> inv w h -> h_alive h = true -> h_st h = holding old (trace h) Run ->
    value_of (w_item w) u vp fs -> Permutation (h_owned h) (u_ids u ++ rest) ->
    good Sel w h (mkHist (take_all old u (h_st h)) (h_alive h) (h_stack h) (u_ids old ++ rest) (h_created h)).
  Proof.
    intros Hiu Hi Ha E Hv Hperm. assert (Hr : s_stat (h_st h) = Run) by (rewrite E; reflexivity).
    assert (take_all old u (h_st h) = holding u (trace h ++ map read_out (all_fields old) ++ [EvWrite u]) Run) as ->.
    { rewrite E. unfold take_all, overwrite, live. cbn [holding s_stat s_var s_slots s_trace]. rewrite <- app_assoc. reflexivity. }
    rewrite Ha. apply (good_over Sel w h u vp fs); auto.
    - apply (inv_stack w h Hi Hr).
    - intros s c. rewrite E, stored_holding. change (incoming (mkHist s true (h_stack h) (u_ids old ++ rest) c)) with (incoming h).
      rewrite destroyed_reads. cbn [app]. perm.
    - intros i id Hp. elim (iu_none h i id Hiu Hp).
  Qed.

  Lemma ustep_good h h' : inv w h -> step_unpin w iu fu h h' -> good Sel w h h'.
  Proof.
    intros Hi Hs.
    destruct Hs as [h' H|p l s n v i old id rest Hr Ha H Hin Hg Hold Hperm|p l s n m v v' i j x y Hr Ha H Hin Hin' Hg Hg' Hij Hx Hy
      |i old id rest Hu Hr Ha Hold Hperm|i old id rest Hu Hr Ha Hold Hperm|i j x y Hu Hr Ha Hij Hx Hy|old t u vp fs rest Hu Ha E Hv Hperm].
    - apply (step_good Sel w a); assumption.
    - destruct (project_refs (fun _ => True) w a h p l s Hprog Hi Hr Ha H) as (u & vp & fs & E & Hval & -> & -> & _).
      apply (take_good h u); auto.
      + rewrite E in Hold. apply slot_id in Hold. exact Hold.
      + intros x. apply (no_mut h u (trace h) vp fs n v i x E Hval Hin Hg).
    - destruct (project_refs (fun _ => True) w a h p l s Hprog Hi Hr Ha H) as (u & vp & fs & E & Hval & -> & -> & _).
      rewrite E in Hx, Hy. apply slot_id in Hx, Hy. apply (swap_good h u); auto.
      + intros z. apply (no_mut h u (trace h) vp fs n v i z E Hval Hin Hg).
      + intros z. apply (no_mut h u (trace h) vp fs m v' j z E Hval Hin' Hg').
    - destruct (i_alive _ _ Hi Hr Ha) as (u & vp & fs & E & _). rewrite E in Hold. apply slot_id in Hold.
      apply (assign_good h u i old); auto. intros z. apply iu_none. exact Hu.
    - destruct (i_alive _ _ Hi Hr Ha) as (u & vp & fs & E & _). rewrite E in Hold. apply slot_id in Hold.
      apply (take_good h u i old); auto. intros z. apply iu_none. exact Hu.
    - destruct (i_alive _ _ Hi Hr Ha) as (u & vp & fs & E & _). rewrite E in Hx, Hy. apply slot_id in Hx, Hy.
      apply (swap_good h u); auto; intros z; apply iu_none; exact Hu.
    - assert (Hr : s_stat (h_st h) = Run) by (rewrite E; reflexivity).
      destruct (i_alive _ _ Hi Hr Ha) as (o & _ & _ & E' & _). pose proof E' as E2. rewrite E in E2. apply holding_inj in E2. subst o.
      eapply replace_good; eassumption.
  Qed.
  Lemma ustep_run h h' : step_unpin w iu fu h h' -> s_stat (h_st h) = Run.
  Proof.
    intros H. destruct H as [h' H|p l s n v i old id rest H|p l s n m v v' i j x y H|i old id rest Hu H|i old id rest Hu H|i j x y Hu H
      |old t u vp fs rest Hu Ha E Hv Hperm]; try exact H.
    - apply (step_run w h h' H).
    - rewrite E. reflexivity.
  Qed.
End Steps.

(** The invariant needs no assumption about [Unpin]. *)
Lemma ustep_inv w a iu fu h h' : program w a -> inv w h -> step_unpin w iu fu h h' -> inv w h'.
Proof.
  intros Hp Hi Hs. destruct (ustep_good w a iu fu (fun _ => False) Hp ltac:(tauto) ltac:(tauto) h h' Hi Hs) as (_ & _ & H & _). exact H.
Qed.
Lemma usteps_inv w a iu fu h h' : program w a -> inv w h -> steps_unpin w iu fu h h' -> inv w h'.
Proof. intros Hp Hi H. induction H as [|h1 h2 h3 _ IH Hs]; [exact Hi|]. apply (ustep_inv w a iu fu h2 h3 Hp (IH Hi) Hs). Qed.

Lemma c54_gen w a (iu : Prop) (fu : field -> Prop) f h h' i id : program w a -> ~ fu f ->
  (iu -> forall u vp fs f, value_of (w_item w) u vp fs -> In f (fields_list fs) -> is_pinned f = true -> fu f) ->
  inv w h -> pinned_as w h i id f -> steps_unpin w iu fu h h' ->
  exists evs, trace h' = trace h ++ evs /\
    ((Forall (untouched i id) evs /\ (pinned_as w h' i id f \/ aborted h')) \/
     (exists e1 e2, evs = e1 ++ EvDrop (PlField i) id :: e2 /\ Forall (untouched i id) e1)).
Proof.
  intros Hp Hn Hall Hh Hpin Hs. induction Hs as [|h1 h2 h3 Hs IH Hst].
  - exists []. rewrite app_nil_r. split; [reflexivity|]. left. split; [constructor|]. left. exact Hpin.
  - destruct (IH Hh Hpin) as (evs & Ht & Ho). pose proof (usteps_inv w a iu fu h1 h2 Hp Hh Hs) as Hi2.
    destruct (ustep_good w a iu fu (fun g => g = f) Hp) with (h := h2) (h' := h3) as (ev2 & Ht2 & _ & Ho2); auto.
    { intros g ->. exact Hn. }
    { intros Hiu u vp fs g Hv Hin Hpg ->. apply Hn. apply (Hall Hiu u vp fs f Hv Hin Hpg). }
    exists (evs ++ ev2). rewrite Ht2, Ht, <- app_assoc. split; [reflexivity|].
    destruct Ho as [[Hu [Hp2|Hab]]|(e1 & e2 & -> & Hu)].
    + destruct (Ho2 i id (ex_intro _ f (conj eq_refl Hp2))) as [[Hu2 H2]|(e1 & e2 & -> & Hu2)].
      * left. split; [apply Forall_app; auto|]. destruct H2 as [(g & -> & H2)|H2]; auto.
      * right. exists (evs ++ e1), e2. rewrite <- app_assoc. split; [reflexivity|]. apply Forall_app. auto.
    + apply ustep_run in Hst. unfold aborted in Hab. congruence.
    + right. exists e1, (e2 ++ ev2). rewrite <- app_assoc. auto.
Qed.

Lemma value_pinned se w u vp fs f : w_item w = se_item se -> value_of (w_item w) u vp fs -> In f (fields_list fs) -> is_pinned f = true ->
  pinned_field se f.
Proof.
  intros E Hv Hin Hp. exists fs. rewrite <- E. split; [|split; [exact Hin|apply pin_b_iff; rewrite <- is_pinned_pin_b; exact Hp]].
  destruct Hv as [s ids _|e v ids Hv _]; cbn; [left; reflexivity|apply in_map; exact Hv].
Qed.
Lemma unpin_pinned se holds fails a s l f : options (attrs_of (se_item se)) a -> legal se -> uncaptured se -> compiles se holds fails ->
  promise_kept se holds -> holds (unpin se) (item_at se s l) -> pinned_field se f -> holds (unpin se) (type_at se s l f).
Proof.
  intros Ho Hl Hu Hc Hpr H Hf. destruct (ar_unpin a) eqn:E.
  - apply (c28 se holds fails a s l Ho Hl Hu Hc E) in H. destruct H as [_ H]. apply H. exact Hf.
  - apply (c30 se holds fails a s l Ho Hl Hu Hc E) in H. destruct H as (_ & x & Hx & Hap). apply (Hpr x s l Hx Hap f Hf).
  - elim (c29 se holds fails a s l Ho Hl Hu Hc E H).
Qed.
Lemma safe_inv se holds s l w a h : program w a -> safe_history se holds s l w h -> inv w h.
Proof.
  intros Hp (u & vp & fs & Hv & Hn & Hs). eapply usteps_inv; [exact Hp| |exact Hs]. apply (begin_inv w u vp fs); assumption.
Qed.
Lemma c54 se holds fails a s l w h h' i id f : legal se -> uncaptured se -> compiles se holds fails ->
  promise_kept se holds -> w_item w = se_item se -> program w a ->
  safe_history se holds s l w h -> pinned_as w h i id f -> ~ holds (unpin se) (type_at se s l f) ->
  safe_steps se holds s l w h h' ->
  exists evs, trace h' = trace h ++ evs /\
    ((Forall (untouched i id) evs /\ (pinned_as w h' i id f \/ aborted h')) \/
     (exists e1 e2, evs = e1 ++ EvDrop (PlField i) id :: e2 /\ Forall (untouched i id) e1)).
Proof.
  intros Hl Hu Hc Hpr E Hp Hh Hpin Hn Hs.
  apply (c54_gen w a (holds (unpin se) (item_at se s l)) (fun f => holds (unpin se) (type_at se s l f)) f h h' i id); auto.
  - intros Hiu u vp fs g Hv Hin Hpg. apply (unpin_pinned se holds fails a s l g); auto.
    + rewrite <- E. apply (pg_options _ _ Hp).
    + apply (value_pinned se w u vp fs); assumption.
  - apply (safe_inv se holds s l w a); assumption.
Qed.
Lemma c54_once se holds s l w a h : program w a -> safe_history se holds s l w h ->
  NoDup (destroyed (trace h)) /\ incl (destroyed (trace h)) (h_created h).
Proof.
  intros Hp Hh. apply (safe_inv se holds s l w a h Hp) in Hh. destruct (i_once _ _ Hh) as (rest & P). split.
  - pose proof (i_nodup _ _ Hh) as N. apply (Permutation_NoDup P) in N. apply nodup_app_l in N. exact N.
  - intros x Hx. apply (Permutation_in _ (Permutation_sym P)). apply in_or_app. auto.
Qed.
Lemma c54_all se holds s l w a h : program w a -> safe_history se holds s l w h -> aborted h \/
  (s_stat (h_st h) = Run /\ NoDup (h_created h) /\
   Permutation (h_created h) (stored (h_st h) ++ incoming h ++ h_owned h ++ destroyed (trace h)) /\
   (h_alive h = true -> forall o, In o (s_slots (h_st h)) -> o <> None) /\ (h_alive h = false -> stored (h_st h) = [])).
Proof. intros Hp Hh. apply (inv_all w). apply (safe_inv se holds s l w a h Hp Hh). Qed.
