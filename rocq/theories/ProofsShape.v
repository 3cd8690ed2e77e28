(** What the generated methods do depends on names and on pinned fields only. *)
From Coq Require Import String List Bool Arith Lia.
From Verif Require Import Base Syntax ModelArgs ModelUtils ModelDerive ModelRun.
From Verif Require Import SpecArgs SpecDerive SpecExpand SpecRun SpecPanics SpecShape.
From Verif Require Import ProofsUtils ProofsDerive ProofsExpand ProofsTypes ProofsRun ProofsRunMain ProofsPanics ProofsInterfere.
Import ListNotations.
Open Scope string_scope.
Open Scope list_scope.

Lemma shape_references b fs fs' : shape fs = shape fs' -> references b fs = references b fs'.
Proof.
  unfold shape, references, numbered. generalize 0. generalize (fields_list fs), (fields_list fs'). intros l.
  induction l as [|f l IH]; intros [|g l'] k H; try discriminate; [reflexivity|]. cbn [map] in H. injection H as H1 H2 H3.
  cbn [length seq combine map snd fst]. rewrite H1, H2, (IH l' (S k) H3). reflexivity.
Qed.
Lemma shape_taken fs fs' ids : shape fs = shape fs' -> taken fs ids = taken fs' ids.
Proof.
  unfold shape, taken. generalize (fields_list fs), (fields_list fs'). intros l. revert ids.
  induction l as [|f l IH]; intros ids [|g l'] H; try discriminate; [reflexivity|]. cbn [map] in H. injection H as H1 H2 H3.
  destruct ids as [|i ids]; [reflexivity|]. cbn [combine map fst snd]. rewrite H1, H2, (IH ids l' H3). reflexivity.
Qed.
Lemma shape_select b fs fs' ids : shape fs = shape fs' -> select b fs ids = select b fs' ids.
Proof.
  unfold shape, select, numbered. generalize 0. generalize (fields_list fs), (fields_list fs'). intros l. revert ids.
  induction l as [|f l IH]; intros ids [|g l'] k H; try discriminate; [reflexivity|]. cbn [map] in H. injection H as H1 H2 H3.
  destruct ids as [|i ids]; [reflexivity|]. cbn [combine length seq flat_map fst snd]. rewrite H2, (IH ids l' (S k) H3). reflexivity.
Qed.
Lemma same_bad w w' t : same_panics w w' -> forall e, bad_call w t e = bad_call w' t e.
Proof. intros [H1 H2] [| | | |]; cbn [bad_call]; auto. Qed.
Lemma calls_ext {A} (b b' : A -> bool) l : (forall e, b e = b' e) -> forall x, calls b l x = calls b' l x.
Proof.
  intros H. induction l as [|c l IH]; intros x; cbn [calls]; [reflexivity|]. destruct x; try reflexivity; rewrite H, IH; reflexivity.
Qed.
Lemma same_panickers w w' l : same_panics w w' -> panickers w l = panickers w' l.
Proof.
  intros [H _]. unfold panickers. f_equal. apply filter_ext. intros x. apply H.
Qed.

Lemma c78_project w w' a u vp fs fs' t :
  program w a -> program w' a -> name_of (w_item w) = name_of (w_item w') ->
  has_proj PMut (w_item w) a = true -> has_proj PMut (w_item w') a = true ->
  value_of (w_item w) u vp fs -> value_of (w_item w') u vp fs' -> shape fs = shape fs' ->
  call_method w "project" (RPin true PlSelf) [] (holding u t Run) = call_method w' "project" (RPin true PlSelf) [] (holding u t Run).
Proof.
  intros P P' N H H' V V' S. rewrite (c14 w a u vp fs t P H V), (c14 w' a u vp fs' t P' H' V'), N, (shape_references true fs fs' S). reflexivity.
Qed.
Lemma c78_project_ref w w' a u vp fs fs' t :
  program w a -> program w' a -> name_of (w_item w) = name_of (w_item w') ->
  has_proj PRef (w_item w) a = true -> has_proj PRef (w_item w') a = true ->
  value_of (w_item w) u vp fs -> value_of (w_item w') u vp fs' -> shape fs = shape fs' ->
  call_method w "project_ref" (RPin false PlSelf) [] (holding u t Run) = call_method w' "project_ref" (RPin false PlSelf) [] (holding u t Run).
Proof.
  intros P P' N H H' V V' S. rewrite (c15 w a u vp fs t P H V), (c15 w' a u vp fs' t P' H' V'), N, (shape_references false fs fs' S). reflexivity.
Qed.
Lemma c78_replace w w' a u vp fs fs' t r :
  program w a -> program w' a -> name_of (w_item w) = name_of (w_item w') ->
  has_proj POwn (w_item w) a = true -> has_proj POwn (w_item w') a = true ->
  value_of (w_item w) u vp fs -> value_of (w_item w') u vp fs' -> replaceable fs -> replaceable fs' ->
  shape fs = shape fs' -> same_panics w w' ->
  exists v s s',
    call_method w "project_replace" (RPin true PlSelf) [RUser r] (holding u t Run) = Some (v, s) /\
    call_method w' "project_replace" (RPin true PlSelf) [RUser r] (holding u t Run) = Some (v, s') /\
    s_trace s = s_trace s' /\ s_stat s = s_stat s' /\ (s_stat s <> Abort -> stored s = stored s').
Proof.
  intros P P' N H H' V V' R R' S B.
  assert (Hst : forall s x v, call_method x "project_replace" (RPin true PlSelf) [RUser r] (holding u t Run) = Some (v, s) ->
    (x = w \/ x = w') -> s_stat s <> Abort -> stored s = u_ids r).
  { intros s x v E [->| ->] A.
    - destruct (c19_conserved w a u vp fs t r v s P H V R E A) as (ev & _ & _ & Q). exact Q.
    - destruct (c19_conserved w' a u vp fs' t r v s P' H' V' R' E A) as (ev & _ & _ & Q). exact Q. }
  pose proof (shape_select true fs fs' (u_ids u) S) as S1. pose proof (shape_select false fs fs' (u_ids u) S) as S2.
  destruct (Nat.eq_dec (panickers w (select true fs (u_ids u))) 0) as [Z|Z].
  - pose proof Z as Z'. rewrite (same_panickers w w' _ B), S1 in Z'.
    pose proof (c18 w a u vp fs t r P H V R Z) as E. pose proof (c18 w' a u vp fs' t r P' H' V' R' Z') as E'.
    rewrite <- N, <- (shape_taken fs fs' (u_ids u) S), <- S1, <- S2 in E'.
    eexists _, _, _. split; [exact E|]. split; [exact E'|]. auto.
  - destruct (c19_exact w a u vp fs t r P H V R) as (s & E & X & T); [lia|].
    destruct (c19_exact w' a u vp fs' t r P' H' V' R') as (s' & E' & X' & T'); [rewrite <- (same_panickers w w' _ B), <- S1; lia|].
    rewrite <- S1, <- S2, <- (calls_ext _ _ _ (same_bad w w' t B)) in X', T'.
    exists None, s, s'. split; [exact E|]. split; [exact E'|]. split; [congruence|]. split; [congruence|].
    intros A. rewrite (Hst s w None E (or_introl eq_refl) A). symmetry. apply (Hst s' w' None E' (or_intror eq_refl)). congruence.
Qed.
Lemma c78_drop w w' a u t x :
  program w a -> program w' a -> same_panics w w' -> x = Run \/ x = Unwind ->
  s_trace (drop_self w (holding u t x)) = s_trace (drop_self w' (holding u t x)) /\
  s_stat (drop_self w (holding u t x)) = s_stat (drop_self w' (holding u t x)).
Proof.
  intros P P' B X. destruct (ar_pinned_drop a) eqn:Ha.
  - destruct (c23_exact w a u t x P Ha X) as [-> ->]. destruct (c23_exact w' a u t x P' Ha X) as [-> ->].
    rewrite (calls_ext _ _ _ (same_bad w w' t B)). auto.
  - destruct (c25_exact w a u t x P Ha X) as [-> ->]. destruct (c25_exact w' a u t x P' Ha X) as [-> ->].
    rewrite (calls_ext _ _ _ (same_bad w w' t B)). auto.
Qed.

(** ** The code of the methods *)
Lemma form_delim fs fs' : form_of fs = form_of fs' -> fields_delim fs = fields_delim fs'.
Proof. destruct fs, fs'; cbn; intros H; try discriminate H; reflexivity. Qed.
Lemma form_spelled self fs : form_of (replace_fields self fs) = form_of fs.
Proof. destruct fs; reflexivity. Qed.
Lemma shape_spelled self fs : shape (replace_fields self fs) = shape fs.
Proof.
  unfold shape. rewrite fields_list_replace, map_map. apply map_ext. intros f. rewrite !is_pinned_pin_b, pin_b_replace. reflexivity.
Qed.
Lemma shape_parts l : forall l' k, map (fun f => (f_ident f, is_pinned f)) l = map (fun f => (f_ident f, is_pinned f)) l' ->
  map binding (enum_from k l) = map binding (enum_from k l') /\ map body_of (enum_from k l) = map body_of (enum_from k l') /\
  map move_of (enum_from k l) = map move_of (enum_from k l') /\
  map binding (filter (fun nf => pin_b (snd nf)) (enum_from k l)) = map binding (filter (fun nf => pin_b (snd nf)) (enum_from k l')).
Proof.
  induction l as [|f l IH]; intros [|g l'] k H; try discriminate; [repeat split|]. cbn [map] in H. injection H as H1 H2 H3.
  rewrite !is_pinned_pin_b in H2. destruct (IH l' (S k) H3) as (A & B & C & D).
  cbn [enum_from map filter snd]. rewrite A, B, C. unfold body_of, move_of, binding in *. cbn [fst snd] in *. rewrite H1, H2.
  destruct (pin_b g); cbn [map fst snd]; rewrite ?H1, D; repeat split.
Qed.
Lemma sbody_shape k fs fs' n : form_of fs = form_of fs' -> shape fs = shape fs' -> sbody k fs n = sbody k fs' n.
Proof.
  intros F S. destruct (shape_parts _ _ 0 S) as (A & B & C & D). pose proof (form_delim _ _ F) as E.
  destruct k; cbn [sbody]; unfold struct_body, struct_body_own, struct_pat, own_stmts, pinned_bindings; rewrite E, A, ?B, ?C, ?D; reflexivity.
Qed.
Lemma arms_shape vs : forall vs' n,
  map (fun v => (v_ident v, form_of (v_fields v), shape (v_fields v))) vs =
  map (fun v => (v_ident v, form_of (v_fields v), shape (v_fields v))) vs' ->
  map (variant_arm n) vs = map (variant_arm n) vs' /\ map (variant_arm_own n) vs = map (variant_arm_own n) vs'.
Proof.
  induction vs as [|v vs IH]; intros [|v' vs'] n H; try discriminate; [split; reflexivity|]. cbn [map] in H. injection H as H1 F S H2.
  destruct (IH vs' n H2) as [P Q]. cbn [map]. rewrite P, Q.
  destruct (shape_parts _ _ 0 S) as (A & B & C & D). pose proof (form_delim _ _ F) as E.
  unfold variant_arm, variant_arm_own, variant_pat, own_stmts, pinned_bindings. rewrite H1, E, A, B, C, D. split; reflexivity.
Qed.
Lemma ebody_shape k vs vs' n :
  map (fun v => (v_ident v, form_of (v_fields v), shape (v_fields v))) vs =
  map (fun v => (v_ident v, form_of (v_fields v), shape (v_fields v))) vs' -> ebody k vs n = ebody k vs' n.
Proof.
  intros H. destruct (arms_shape vs vs' n H) as [P Q]. destruct k; cbn [ebody]; unfold enum_body, enum_body_own; rewrite ?P, ?Q; reflexivity.
Qed.
Lemma kmeth_code k n cx cx' b b' : b n = b' n -> code (kmeth k n cx b) = code (kmeth k n cx' b').
Proof. intros H. destruct k; unfold code; cbn; rewrite H; reflexivity. Qed.
Lemma variants_spelled self vs :
  map (fun v => (v_ident v, form_of (v_fields v), shape (v_fields v))) (map (replace_variant self) vs) =
  map (fun v => (v_ident v, form_of (v_fields v), shape (v_fields v))) vs.
Proof. rewrite map_map. apply map_ext. intros v. cbn. rewrite form_spelled, shape_spelled. reflexivity. Qed.

Lemma c78_code it it' a x x' :
  parse_derive it = Ok x -> parse_derive it' = Ok x' -> options (attrs_of it) a -> options (attrs_of it') a ->
  outline it = outline it' -> map code (inherent_methods x) = map code (inherent_methods x').
Proof.
  intros H H' O O' E. destruct it as [s|e|], it' as [s'|e'|]; try discriminate.
  - destruct (struct_form _ _ _ H O) as [_ ->], (struct_form _ _ _ H' O') as [_ ->]. cbn [outline] in E. injection E as N F S.
    rewrite !struct_methods_are, !map_map. apply map_ext. intros k. cbn [spelled_struct replace_struct s_ident s_fields]. rewrite N.
    apply kmeth_code. apply sbody_shape; rewrite ?form_spelled, ?shape_spelled; assumption.
  - destruct (enum_form _ _ _ H O) as [A ->], (enum_form _ _ _ H' O') as [A' ->]. cbn [outline] in E. injection E as N V.
    rewrite !enum_methods_are by (eapply ae_replace_named; eassumption). rewrite !map_map. apply map_ext. intros k.
    cbn [spelled_enum replace_enum e_ident e_variants]. rewrite N. apply kmeth_code. apply ebody_shape. rewrite !variants_spelled. exact V.
Qed.
