(** Histories: nothing pinned moves, nothing is destroyed twice or lost. *)
From Coq Require Import String Ascii List Bool Arith Lia Permutation.
From Verif Require Import Base Syntax ModelArgs ModelUtils ModelDerive ModelRun ModelHistory.
From Verif Require Import SpecArgs SpecDerive SpecExpand SpecRun SpecHistory.
From Verif Require Import ProofsArgs ProofsUtils ProofsDerive ProofsExpand ProofsTypes ProofsRun ProofsRunProj ProofsRunReplace ProofsRunDrop
  ProofsRunMain ProofsRunNames.
Import ListNotations.
Open Scope string_scope.
Open Scope list_scope.

(** ** The methods exist only if they are generated *)
Lemma no_method w a k recv args s r : program w a ->
  call_method w (mname k) recv args s = Some r -> has_proj k (w_item w) a = true.
Proof.
  intros Hp H. destruct (has_proj k (w_item w) a) eqn:E; [reflexivity|exfalso].
  unfold call_method in H. assert (find_method w (mname k) = None) as N; [|rewrite N in H; discriminate].
  pose proof (pg_expansion _ _ Hp) as He. pose proof (pg_options _ _ Hp) as Ho. destruct (w_item w) as [x|x|]; [| |discriminate].
  - destruct (struct_form _ _ _ He Ho) as [_ E']. unfold find_method. rewrite E'. cbn [has_proj] in E.
    clear - E. cases_options a; destruct k; try discriminate E; reflexivity.
  - destruct (enum_form _ _ _ He Ho) as [Ha E']. pose proof (ae_replace_named _ _ Ha) as N. unfold find_method. rewrite E'. cbn [has_proj] in E.
    clear - E N. cases_options a; destruct k; try discriminate E; try (elim N; reflexivity); reflexivity.
Qed.

(** ** Lists and states *)
Lemma map_some_inj (l m : list nat) : map Some l = map Some m -> l = m.
Proof. revert m. induction l as [|x l IH]; intros [|y m] H; try discriminate; [reflexivity|]. cbn in H. injection H as -> H. f_equal; auto. Qed.
Lemma holding_inj u1 u2 t1 t2 x y : holding u1 t1 x = holding u2 t2 y -> u1 = u2.
Proof.
  unfold holding. intros H. injection H as H1 H2 _ _. apply map_some_inj in H2. destruct u1, u2. cbn in *. congruence.
Qed.
Lemma destroyed_app l m : destroyed (l ++ m) = destroyed l ++ destroyed m.
Proof. apply flat_map_app. Qed.
Lemma destroyed_drops l : destroyed (map ev_drop l) = map snd l.
Proof. induction l as [|[p i] l IH]; cbn; [reflexivity|]. f_equal. exact IH. Qed.
Lemma drops_prefix w l : forall x, exists l1 l2, l = l1 ++ l2 /\ fst (drops w l x) = map ev_drop l1 /\
  (alive (snd (drops w l x)) = true -> l2 = []).
Proof.
  induction l as [|[p id] l IH]; intros x; cbn [drops].
  - exists [], []. auto.
  - destruct (alive x) eqn:E.
    + destruct (IH (if w_panics w id then bump x else x)) as (l1 & l2 & -> & H2 & H3).
      destruct (drops w (l1 ++ l2) _) as [ev y]. cbn [fst snd] in *. exists ((p, id) :: l1), l2. subst ev. auto.
    + exists [], ((p, id) :: l). cbn [fst snd]. rewrite E. split; [reflexivity|]. split; [reflexivity|discriminate].
Qed.
Lemma drops_stat w l : forall x, x <> Stuck -> snd (drops w l x) <> Stuck.
Proof.
  induction l as [|[p id] l IH]; intros x H; cbn [drops]; [exact H|].
  destruct (alive x) eqn:E; [|exact H]. specialize (IH (if w_panics w id then bump x else x)).
  destruct (drops w l _) as [ev y]. cbn [snd] in *. apply IH. destruct (w_panics w id); [|exact H]. destruct x; discriminate.
Qed.
Lemma alive_or x : x <> Stuck -> alive x = true \/ x = Abort.
Proof. destruct x; cbn; auto; congruence. Qed.

(** [caught] *)
Lemma caught_trace s : s_trace (caught s) = s_trace s.
Proof. unfold caught. destruct (s_stat s); reflexivity. Qed.
Lemma caught_stat s : s_stat (caught s) = match s_stat s with Unwind => Run | x => x end.
Proof. unfold caught. destruct (s_stat s) eqn:E; cbn; auto. Qed.
Lemma caught_stored s : stored (caught s) = stored s.
Proof. unfold caught. destruct (s_stat s); reflexivity. Qed.
Lemma caught_holding u t x : alive x = true -> caught (holding u t x) = holding u t Run.
Proof. destruct x; try discriminate; reflexivity. Qed.
Lemma caught_eq v sl t x : alive x = true -> caught (mkSt v sl t x) = mkSt v sl t Run.
Proof. destruct x; try discriminate; reflexivity. Qed.
Lemma caught_ok v sl t x : x <> Stuck -> s_stat (caught (mkSt v sl t x)) = Run \/ s_stat (caught (mkSt v sl t x)) = Abort.
Proof. rewrite caught_stat. cbn. destruct x; auto; congruence. Qed.

(** Permutations by counting. *)
Definition cnt (z : nat) (l : list nat) : nat := count_occ Nat.eq_dec l z.
Lemma cnt_app z l m : cnt z (l ++ m) = cnt z l + cnt z m.
Proof. apply count_occ_app. Qed.
Lemma cnt_cons z x l : cnt z (x :: l) = cnt z [x] + cnt z l.
Proof. exact (cnt_app z [x] l). Qed.
Lemma perm_cnt l m : Permutation l m -> forall z, cnt z l = cnt z m.
Proof. intros H z. apply (Permutation_count_occ Nat.eq_dec) with (x := z) in H. exact H. Qed.
Lemma cnt_perm l m : (forall z, cnt z l = cnt z m) -> Permutation l m.
Proof. intros H. apply (Permutation_count_occ Nat.eq_dec). exact H. Qed.
Ltac count z := repeat match goal with H : Permutation _ _ |- _ => pose proof (perm_cnt _ _ H z); clear H end;
  rewrite ?cnt_app in *;
  repeat match goal with
         | |- context [cnt z (?x :: ?l)] => lazymatch l with [] => fail | _ => rewrite (cnt_cons z x l) in *; rewrite ?cnt_app in * end
         | H : context [cnt z (?x :: ?l)] |- _ => lazymatch l with [] => fail | _ => rewrite (cnt_cons z x l) in *; rewrite ?cnt_app in * end
         end.
Ltac perm := apply cnt_perm; let z := fresh "z" in intros z; count z; try lia.

(** ** Invariant *)
Record inv (w : world) (h : hist) : Prop := {
  i_stat : s_stat (h_st h) = Run \/ s_stat (h_st h) = Abort;
  i_alive : s_stat (h_st h) = Run -> h_alive h = true ->
    exists u vp fs, h_st h = holding u (trace h) Run /\ value_of (w_item w) u vp fs;
  i_dead : s_stat (h_st h) = Run -> h_alive h = false -> stored (h_st h) = [] /\ h_stack h = [];
  i_stack : s_stat (h_st h) = Run ->
    Forall (fun k => (snd k = Run \/ snd k = Unwind) /\
                     match fst k with Some u => exists vp fs, value_of (w_item w) u vp fs | None => True end) (h_stack h);
  i_nodup : NoDup (h_created h);
  i_once : exists rest, Permutation (h_created h) (destroyed (trace h) ++ rest);
  i_all : s_stat (h_st h) = Run ->
    Permutation (h_created h) (destroyed (trace h) ++ stored (h_st h) ++ incoming h ++ h_owned h)
}.

(** ** What a step does to the pinned fields

    [Sel] selects the fields that are of interest. *)
Section Pinned.
Variable Sel : field -> Prop.
Definition pin_at (w : world) (h : hist) (i id : nat) : Prop := exists f, Sel f /\ pinned_as w h i id f.
Definition outcome (w : world) (h' : hist) (i id : nat) (evs : list event) : Prop :=
  (Forall (untouched i id) evs /\ (pin_at w h' i id \/ aborted h')) \/
  exists e1 e2, evs = e1 ++ EvDrop (PlField i) id :: e2 /\ Forall (untouched i id) e1.
Definition good (w : world) (h h' : hist) : Prop :=
  exists evs, trace h' = trace h ++ evs /\ inv w h' /\ forall i id, pin_at w h i id -> outcome w h' i id evs.

(** What is in the place cannot be owned by somebody else. *)
Lemma pinned_stored w h i id : pin_at w h i id -> In id (stored (h_st h)).
Proof.
  intros (f & _ & u & vp & fs & _ & E & _ & _ & _ & H). rewrite E, stored_holding. apply nth_error_In in H. exact H.
Qed.
Lemma inv_disjoint w h x y : inv w h -> s_stat (h_st h) = Run -> In x (stored (h_st h)) -> In y (h_owned h) -> x <> y.
Proof.
  intros Hi Hr Hx Hy <-. pose proof (i_nodup _ _ Hi) as N. apply (Permutation_NoDup (i_all _ _ Hi Hr)) in N.
  apply nodup_app_r in N. apply (nodup_app_disj _ _ x N Hx). apply in_or_app. auto.
Qed.
Lemma inv_stored_nodup w h : inv w h -> s_stat (h_st h) = Run -> NoDup (stored (h_st h)).
Proof.
  intros Hi Hr. pose proof (i_nodup _ _ Hi) as N. apply (Permutation_NoDup (i_all _ _ Hi Hr)) in N.
  apply nodup_app_r in N. apply nodup_app_l in N. exact N.
Qed.

(** ** Events of destructors elsewhere *)
Lemma temp_untouched i id l : ~ In id (map snd l) -> Forall (fun x => fst x = PlTemp) l ->
  Forall (untouched i id) (map ev_drop l).
Proof.
  intros Hn Ht. induction l as [|[p x] l IH]; cbn; constructor.
  - cbn. inversion Ht as [|? ? E]; subst. cbn in E. subst p. split; [discriminate|]. intros ->. apply Hn. cbn. auto.
  - apply IH; [intros H; apply Hn; cbn; auto|inversion Ht; auto].
Qed.

(** Destroying the fields in place, up to some point. *)
Lemma place_outcome i id l : In (i, id) l -> NoDup (map fst l) -> NoDup (map snd l) -> forall l1 l2, l = l1 ++ l2 ->
  (Forall (untouched i id) (map dropped_in_place l1) /\ In (i, id) l2) \/
  exists e1 e2, map dropped_in_place l1 = e1 ++ EvDrop (PlField i) id :: e2 /\ Forall (untouched i id) e1.
Proof.
  intros Hin N1 N2 l1 l2 ->. apply in_app_or in Hin. destruct Hin as [Hin|Hin].
  - right. apply in_split in Hin. destruct Hin as (a & b & ->). exists (map dropped_in_place a), (map dropped_in_place b).
    split; [rewrite map_app; reflexivity|]. apply Forall_forall. intros e He. apply in_map_iff in He. destruct He as ([j x] & <- & Hj).
    cbn. rewrite <- app_assoc in N1, N2. rewrite !map_app in N1, N2. split.
    + intros E. injection E as ->. apply (nodup_app_disj _ _ i N1); [apply in_map_iff; exists (i, x); auto|left; reflexivity].
    + intros ->. apply (nodup_app_disj _ _ id N2); [apply in_map_iff; exists (j, id); auto|left; reflexivity].
  - left. split; [|exact Hin]. apply Forall_forall. intros e He. apply in_map_iff in He. destruct He as ([j x] & <- & Hj).
    cbn. rewrite !map_app in N1, N2. split.
    + intros E. injection E as ->. apply (nodup_app_disj _ _ i N1); [apply in_map_iff; exists (i, x); auto|apply in_map_iff; exists (i, id); auto].
    + intros ->. apply (nodup_app_disj _ _ id N2); [apply in_map_iff; exists (j, id); auto|apply in_map_iff; exists (i, id); auto].
Qed.
Lemma all_fields_in u i id : nth_error (u_ids u) i = Some id -> In (i, id) (all_fields u).
Proof.
  unfold all_fields, numbered. intros H. assert (forall (l : list nat) k, nth_error l i = Some id -> In (k + i, id) (combine (seq k (length l)) l)) as G.
  { clear. revert i. induction i as [|i IH]; intros [|x l] k H; try discriminate; cbn in *.
    - injection H as ->. left. rewrite Nat.add_0_r. reflexivity.
    - right. specialize (IH l (S k) H). rewrite Nat.add_succ_comm in IH. exact IH. }
  exact (G _ 0 H).
Qed.
Lemma all_fields_fst u : map fst (all_fields u) = seq 0 (length (u_ids u)).
Proof.
  unfold all_fields, numbered. generalize 0. induction (u_ids u) as [|x l IH]; intros k; cbn; [reflexivity|]. f_equal. apply IH.
Qed.

(** ** The steps *)
Lemma incoming_same h s o c : incoming (mkHist s (h_alive h) (h_stack h) o c) = incoming h.
Proof. reflexivity. Qed.

(** Only the trace grows, by events that do not concern the place; values owned
    by the caller are destroyed. *)
Lemma good_elsewhere w h x evs gone gone' rest : inv w h -> s_stat (h_st h) = Run ->
  Permutation (h_owned h) (gone ++ rest) -> x <> Stuck ->
  destroyed evs ++ gone' = gone -> (alive x = true -> gone' = []) ->
  (forall i id, ~ In id gone -> Forall (untouched i id) evs) ->
  good w h (mkHist (caught (mkSt (s_var (h_st h)) (s_slots (h_st h)) (trace h ++ evs) x)) (h_alive h) (h_stack h) rest (h_created h)).
Proof.
  intros Hi Hr Hp Hx Hd Hg Hu. exists evs. unfold trace. cbn [h_st]. rewrite caught_trace. cbn [s_trace]. split; [reflexivity|].
  split.
  - constructor; cbn [h_st h_alive h_stack h_created h_owned]; unfold trace; cbn [h_st]; rewrite ?caught_trace; cbn [s_trace].
    + apply caught_ok. exact Hx.
    + intros H1 Ha. destruct (i_alive _ _ Hi Hr Ha) as (u & vp & fs & E & Hv). exists u, vp, fs. split; [|exact Hv].
      rewrite E in *. cbn [holding s_var s_slots trace h_st s_trace] in *. 
      rewrite caught_stat in H1. cbn in H1. rewrite caught_eq by (destruct x; try discriminate; reflexivity). reflexivity.
    + intros _ Ha. destruct (i_dead _ _ Hi Hr Ha) as [E1 E2]. rewrite caught_stored. split; [exact E1|exact E2].
    + intros _. apply (i_stack _ _ Hi Hr).
    + apply (i_nodup _ _ Hi).
    + exists (gone' ++ stored (h_st h) ++ incoming h ++ rest). pose proof (i_all _ _ Hi Hr) as P. subst gone. rewrite destroyed_app. fold (trace h).
      perm.
    + intros H1. rewrite caught_stat in H1. cbn in H1. rewrite caught_stored.
      pose proof (i_all _ _ Hi Hr) as P. subst gone. rewrite destroyed_app. fold (trace h).
      rewrite (Hg ltac:(destruct x; try discriminate; reflexivity)), app_nil_r in Hp.
      change (stored (mkSt (s_var (h_st h)) (s_slots (h_st h)) (trace h ++ evs) x)) with (stored (h_st h)).
      rewrite incoming_same. perm.
  - intros i id Hpin. left. split.
    + apply Hu. intros Hin. apply (inv_disjoint w h id id Hi Hr); [apply (pinned_stored w h i id Hpin)| |reflexivity].
      apply (Permutation_in _ (Permutation_sym Hp)). apply in_or_app. auto.
    + destruct Hpin as (f & HP & u & vp & fs & Ha & E & Hv & Hf). destruct (alive_or x Hx) as [A| ->].
      * left. exists f. split; [exact HP|]. exists u, vp, fs. cbn [h_alive h_st]. split; [exact Ha|]. split; [|auto].
        unfold trace. cbn [h_st]. rewrite E. cbn [holding s_var s_slots]. rewrite caught_eq by exact A. reflexivity.
      * right. reflexivity.
Qed.
Lemma good_drop w h id rest : inv w h -> s_stat (h_st h) = Run -> Permutation (h_owned h) (id :: rest) ->
  good w h (mkHist (caught (drop_id w PlTemp id (h_st h))) (h_alive h) (h_stack h) rest (h_created h)).
Proof.
  intros Hi Hr Hp. rewrite drop_id_eq by (rewrite Hr; reflexivity). fold (trace h).
  apply (good_elsewhere w h _ [EvDrop PlTemp id] [id] []); auto.
  - rewrite Hr. destruct (w_panics w id); discriminate.
  - intros i x Hx. constructor; [|constructor]. cbn. split; [discriminate|]. intros ->. apply Hx. left. reflexivity.
Qed.
Lemma good_drop_user w a h u rest : program w a -> inv w h -> s_stat (h_st h) = Run -> Permutation (h_owned h) (u_ids u ++ rest) ->
  good w h (mkHist (caught (drop_user w u (h_st h))) (h_alive h) (h_stack h) rest (h_created h)).
Proof.
  intros Hpr Hi Hr Hp. rewrite (drop_user_run w a u (h_st h) Hpr). fold (trace h). rewrite Hr.
  set (l := map (fun id => (PlTemp, id)) (u_ids u)).
  assert (Hl : map snd l = u_ids u) by (unfold l; rewrite map_map; apply map_id).
  assert (exists x pre, x <> Stuck /\ glue w a PlTemp l (trace h) Run = (pre ++ fst (drops w l x), snd (drops w l x)) /\
            destroyed pre = [] /\ forall i id, Forall (untouched i id) pre) as (x & pre & Hx & -> & Hd & Hu).
  { unfold glue. destruct (ar_pinned_drop a).
    - exists (bumped (w_body_panics w (trace h)) Run), [EvBody PlTemp]. cbn [alive]. split; [destruct (w_body_panics w (trace h)); discriminate|].
      split; [reflexivity|]. split; [reflexivity|]. intros i id. repeat constructor.
    - exists Run, []. split; [discriminate|]. split; [apply surjective_pairing|]. split; [reflexivity|constructor]. }
  cbn [fst snd]. destruct (drops_prefix w l x) as (l1 & l2 & El & E1 & E2). 
  apply (good_elsewhere w h (snd (drops w l x)) (pre ++ fst (drops w l x)) (u_ids u) (map snd l2)); auto.
  - apply drops_stat. exact Hx.
  - rewrite destroyed_app, Hd, E1, destroyed_drops, <- Hl, El, map_app. reflexivity.
  - intros A. rewrite (E2 A). reflexivity.
  - intros i id Hn. apply Forall_app. split; [apply Hu|]. rewrite E1. apply temp_untouched.
    + intros H. apply Hn. rewrite <- Hl, El, map_app. apply in_or_app. auto.
    + apply Forall_forall. intros y Hy. assert (In y l) as H by (rewrite El; apply in_or_app; auto).
      apply in_map_iff in H. destruct H as (z & <- & _). reflexivity.
Qed.
Lemma good_new w h id : inv w h -> s_stat (h_st h) = Run -> ~ In id (h_created h) ->
  good w h (mkHist (h_st h) (h_alive h) (h_stack h) (id :: h_owned h) (id :: h_created h)).
Proof.
  intros Hi Hr Hn. exists []. unfold trace. cbn [h_st]. rewrite app_nil_r. split; [reflexivity|]. split.
  - constructor; cbn [h_st h_alive h_stack h_created h_owned]; unfold trace; cbn [h_st]; try apply Hi.
    + constructor; [exact Hn|apply (i_nodup _ _ Hi)].
    + destruct (i_once _ _ Hi) as (rest & P). exists (id :: rest). fold (trace h). perm.
    + intros _. pose proof (i_all _ _ Hi Hr) as P. fold (trace h). rewrite incoming_same. perm.
  - intros i x (f & HP & u & vp & fs & Hf). left. split; [constructor|]. left. exists f. split; [exact HP|]. exists u, vp, fs. exact Hf.
Qed.
Lemma good_project_ref w a h r s : program w a -> inv w h -> s_stat (h_st h) = Run -> h_alive h = true ->
  call_method w "project_ref" (RPin false PlSelf) [] (h_st h) = Some (r, s) -> good w h (with_st h s).
Proof.
  intros Hp Hi Hr Ha H. destruct (i_alive _ _ Hi Hr Ha) as (u & vp & fs & E & Hv). rewrite E in H.
  assert (Hh : has_proj PRef (w_item w) a = true) by (eapply (no_method w a PRef); [exact Hp|exact H]).
  rewrite (c15 w a u vp fs (trace h) Hp Hh Hv) in H. injection H as _ <-. rewrite <- E. 
  assert (with_st h (h_st h) = h) as -> by (destruct h; reflexivity).
  exists []. rewrite app_nil_r. split; [reflexivity|]. split; [exact Hi|]. intros i id Hpin. left. split; [constructor|]. left. exact Hpin.
Qed.

(** ** Single fields *)
Lemma set_nth_map {A B} (g : A -> B) i x l : set_nth i (g x) (map g l) = map g (set_nth i x l).
Proof. revert i. induction l as [|y l IH]; intros [|i]; cbn; try reflexivity. f_equal. apply IH. Qed.
Lemma set_nth_twice {A} i (x y : A) l : set_nth i x (set_nth i y l) = set_nth i x l.
Proof. revert i. induction l as [|z l IH]; intros [|i]; cbn; try reflexivity. f_equal. apply IH. Qed.
Lemma set_nth_length {A} i (x : A) l : length (set_nth i x l) = length l.
Proof. revert i. induction l as [|z l IH]; intros [|i]; cbn; try reflexivity. f_equal. apply IH. Qed.
Lemma set_nth_same {A} i (x y : A) l : nth_error l i = Some y -> nth_error (set_nth i x l) i = Some x.
Proof. revert i. induction l as [|z l IH]; intros [|i] H; try discriminate; cbn in *; [reflexivity|]. apply IH. exact H. Qed.
Lemma set_nth_other {A} i j (x : A) l : i <> j -> nth_error (set_nth i x l) j = nth_error l j.
Proof. revert i j. induction l as [|z l IH]; intros [|i] [|j] H; cbn; try reflexivity; [lia|]. apply IH. lia. Qed.
Lemma set_nth_perm i (x y : nat) l : nth_error l i = Some y -> Permutation (y :: set_nth i x l) (x :: l).
Proof.
  revert i. induction l as [|z l IH]; intros [|i] H; try discriminate; cbn in *.
  - injection H as ->. apply perm_swap.
  - specialize (IH i H). perm.
Qed.
Lemma value_set it u vp fs i x : value_of it u vp fs -> value_of it (mkUval (u_var u) (set_nth i x (u_ids u))) vp fs.
Proof. intros H. destruct H; cbn [u_var u_ids]; constructor; rewrite ?set_nth_length; assumption. Qed.
Lemma slot_id u i old : nth_error (map Some (u_ids u)) i = Some (Some old) -> nth_error (u_ids u) i = Some old.
Proof. rewrite nth_error_map. destruct (nth_error (u_ids u) i); cbn; congruence. Qed.
Lemma refs_in fs n m i v : In (n, v) (references m fs) -> place_of v = Some (PlField i) ->
  exists f, nth_error (fields_list fs) i = Some f /\ (is_pinned f = true -> v = RPin m (PlField i)).
Proof.
  unfold references. intros H E. apply in_map_iff in H. destruct H as ([j f] & E' & H). injection E' as _ <-.
  cbn [fst snd] in *. assert (j = i) as -> by (destruct (is_pinned f); cbn in E; congruence).
  exists f. split.
  - unfold numbered in H. assert (forall (l : list field) k, In (i, f) (combine (seq k (length l)) l) -> nth_error l (i - k) = Some f /\ k <= i) as G.
    { clear. induction l as [|x l IH]; intros k H; cbn in H; [destruct H|]. destruct H as [H|H].
      - injection H as -> ->. rewrite Nat.sub_diag. auto.
      - destruct (IH _ H) as [H1 H2]. split; [|lia]. destruct (i - k) as [|m] eqn:E; [lia|]. cbn. replace m with (i - S k) by lia. exact H1. }
    apply G in H. rewrite Nat.sub_0_r in H. apply H.
  - intros ->. reflexivity.
Qed.

(** Fields of the place change their values. *)
Lemma value_same it u u' vp fs : value_of it u vp fs -> u_var u' = u_var u -> length (u_ids u') = length (u_ids u) -> value_of it u' vp fs.
Proof.
  intros H E1 E2. destruct u' as [v' ids']. destruct H; cbn [u_var u_ids] in *; subst v'; constructor; congruence.
Qed.
Lemma good_fields w h u u' evs owned' : inv w h -> s_stat (h_st h) = Run -> h_alive h = true ->
  h_st h = holding u (trace h) Run -> u_var u' = u_var u -> length (u_ids u') = length (u_ids u) ->
  Permutation (u_ids u' ++ destroyed evs ++ owned') (u_ids u ++ h_owned h) ->
  (forall j x, pin_at w h j x -> (nth_error (u_ids u') j = Some x /\ Forall (untouched j x) evs) \/
     exists e1 e2, evs = e1 ++ EvDrop (PlField j) x :: e2 /\ Forall (untouched j x) e1) ->
  good w h (mkHist (holding u' (trace h ++ evs) Run) (h_alive h) (h_stack h) owned' (h_created h)).
Proof.
  intros Hi Hr Ha E Ev El Hp Hpin. exists evs. split; [reflexivity|].
  pose proof (i_all _ _ Hi Hr) as P. rewrite E, stored_holding in P. split.
  - constructor; cbn [h_st h_alive h_stack h_created h_owned]; unfold trace; cbn [h_st]; fold (trace h).
    + auto.
    + intros _ _. destruct (i_alive _ _ Hi Hr Ha) as (v & vp & fs & E' & Hv). rewrite E in E'. apply holding_inj in E'. subst v.
      exists u', vp, fs. split; [reflexivity|]. apply (value_same _ u); assumption.
    + congruence.
    + intros _. apply (i_stack _ _ Hi Hr).
    + apply (i_nodup _ _ Hi).
    + exists (u_ids u' ++ incoming h ++ owned'). cbn [holding s_trace]. rewrite destroyed_app. perm.
    + intros _. rewrite stored_holding. cbn [holding s_trace]. rewrite destroyed_app, incoming_same. perm.
  - intros j x Hj. destruct (Hpin j x Hj) as [[Hn Hu]|Hd]; [|right; exact Hd]. left. split; [exact Hu|]. left.
    destruct Hj as (f & HP & v & vp' & fs' & _ & E' & Hv' & Hf & Hpf & Hx). rewrite E in E'. apply holding_inj in E'. subst v.
    exists f. split; [exact HP|]. exists u', vp', fs'. cbn [h_alive h_st]. split; [exact Ha|]. split; [reflexivity|]. split; [apply (value_same _ u); assumption|].
    auto.
Qed.

Lemma project_refs w a h p l s : program w a -> inv w h -> s_stat (h_st h) = Run -> h_alive h = true ->
  call_method w "project" (RPin true PlSelf) [] (h_st h) = Some (Some (RProj p l), s) ->
  exists u vp fs, h_st h = holding u (trace h) Run /\ value_of (w_item w) u vp fs /\ s = h_st h /\ l = references true fs /\
    forall j x, pin_at w h j x -> nth_error (u_ids u) j = Some x /\
      forall n, ~ In (n, RRef true (PlField j)) l.
Proof.
  intros Hp Hi Hr Ha H. destruct (i_alive _ _ Hi Hr Ha) as (u & vp & fs & E & Hv). exists u, vp, fs. rewrite E in H.
  assert (Hh : has_proj PMut (w_item w) a = true) by (eapply (no_method w a PMut); [exact Hp|exact H]).
  rewrite (c14 w a u vp fs (trace h) Hp Hh Hv) in H. injection H as <- <- <-. split; [exact E|]. split; [exact Hv|].
  split; [symmetry; exact E|]. split; [reflexivity|].
  intros j x (f & _ & v & vp' & fs' & _ & E' & Hv' & Hf & Hpf & Hx). rewrite E in E'. apply holding_inj in E'. subst v.
  split; [exact Hx|]. intros n Hin.
  (* the same call, seen with the other description of the value *)
  pose proof (c14 w a u vp fs (trace h) Hp Hh Hv) as C1. rewrite (c14 w a u vp' fs' (trace h) Hp Hh Hv') in C1.
  injection C1 as _ C1. rewrite <- C1 in Hin. destruct (refs_in fs' n true j _ Hin eq_refl) as (g & Hg & Hpg).
  rewrite Hf in Hg. injection Hg as <-. specialize (Hpg Hpf). discriminate.
Qed.
Lemma pinned_other w h u i j x y : inv w h -> s_stat (h_st h) = Run -> h_st h = holding u (trace h) Run ->
  nth_error (u_ids u) i = Some x -> nth_error (u_ids u) j = Some y -> i <> j -> x <> y.
Proof.
  intros Hi Hr E Hx Hy Hij <-. apply Hij. pose proof (inv_stored_nodup w h Hi Hr) as N. rewrite E, stored_holding in N.
  apply (proj1 (NoDup_nth_error _) N); [apply nth_error_Some; congruence|congruence].
Qed.

Lemma good_assign w a h p l s n v i id rest : program w a -> inv w h -> s_stat (h_st h) = Run -> h_alive h = true ->
  call_method w "project" (RPin true PlSelf) [] (h_st h) = Some (Some (RProj p l), s) ->
  In (n, v) l -> v = RRef true (PlField i) \/ v = RPin true (PlField i) -> Permutation (h_owned h) (id :: rest) ->
  good w h (mkHist (caught (assign_field w i id s)) (h_alive h) (h_stack h) rest (h_created h)).
Proof.
  intros Hp Hi Hr Ha H Hin Hv Hperm. destruct (project_refs w a h p l s Hp Hi Hr Ha H) as (u & vp & fs & E & Hval & -> & -> & Hpin).
  destruct (refs_in fs n true i v Hin) as (f & Hf & _); [destruct Hv as [-> | ->]; reflexivity|].
  assert (exists old, nth_error (u_ids u) i = Some old) as (old & Hold).
  { destruct (nth_error (u_ids u) i) eqn:N; [eauto|]. apply nth_error_None in N. rewrite (value_length _ _ _ _ Hval) in N.
    apply nth_error_None in N. congruence. }
  assert (caught (assign_field w i id (h_st h)) =
    holding (mkUval (u_var u) (set_nth i id (u_ids u))) (trace h ++ [EvDrop (PlField i) old; EvStore i id]) Run) as ->.
  { rewrite E. unfold assign_field, drop_slot. cbn [holding live s_stat s_slots]. rewrite nth_error_map, Hold. cbn [option_map].
    rewrite drop_id_eq by reflexivity. cbn [s_var s_slots s_trace s_stat]. unfold store_field, live. cbn [s_stat s_var s_slots s_trace].
    destruct (w_panics w old); cbn [bump]; cbn [caught s_stat set_stat s_var s_slots s_trace]; unfold holding; cbn [u_var u_ids];
      rewrite set_nth_twice, set_nth_map, <- app_assoc; reflexivity. }
  apply (good_fields w h u); auto; cbn [u_ids].
  - apply set_nth_length.
  - pose proof (set_nth_perm i id old (u_ids u) Hold). cbn [destroyed flat_map app]. perm.
  - intros j x Hj. destruct (Hpin j x Hj) as [Hx _]. destruct (Nat.eq_dec i j) as [<-|Hij].
    + right. assert (x = old) as -> by congruence. exists [], [EvStore i id]. split; [reflexivity|constructor].
    + left. split; [rewrite set_nth_other by exact Hij; exact Hx|]. constructor; [|constructor; [|constructor]]; cbn.
      * split; [congruence|]. exact (pinned_other w h u i j old x Hi Hr E Hold Hx Hij).
      * exact Hij.
Qed.
Lemma good_take w a h p l s n i old id rest : program w a -> inv w h -> s_stat (h_st h) = Run -> h_alive h = true ->
  call_method w "project" (RPin true PlSelf) [] (h_st h) = Some (Some (RProj p l), s) ->
  In (n, RRef true (PlField i)) l -> nth_error (s_slots s) i = Some (Some old) -> Permutation (h_owned h) (id :: rest) ->
  good w h (mkHist (take_field i old id s) (h_alive h) (h_stack h) (old :: rest) (h_created h)).
Proof.
  intros Hp Hi Hr Ha H Hin Hold Hperm. destruct (project_refs w a h p l s Hp Hi Hr Ha H) as (u & vp & fs & E & Hval & -> & -> & Hpin).
  rewrite E in Hold. apply slot_id in Hold.
  assert (take_field i old id (h_st h) =
    holding (mkUval (u_var u) (set_nth i id (u_ids u))) (trace h ++ [EvRead i old; EvStore i id]) Run) as ->.
  { rewrite E. unfold take_field, store_field, holding, live, add_event. cbn [s_stat s_var s_slots s_trace u_var u_ids].
    rewrite set_nth_map, <- app_assoc. reflexivity. }
  apply (good_fields w h u); auto; cbn [u_ids].
  - apply set_nth_length.
  - pose proof (set_nth_perm i id old (u_ids u) Hold). cbn [destroyed flat_map app]. perm.
  - intros j x Hj. destruct (Hpin j x Hj) as [Hx Hno]. assert (i <> j) as Hij by (intros ->; apply (Hno n Hin)).
    left. split; [rewrite set_nth_other by exact Hij; exact Hx|]. repeat constructor; exact Hij.
Qed.
Lemma good_swap w a h p l s n m i j x y : program w a -> inv w h -> s_stat (h_st h) = Run -> h_alive h = true ->
  call_method w "project" (RPin true PlSelf) [] (h_st h) = Some (Some (RProj p l), s) ->
  In (n, RRef true (PlField i)) l -> In (m, RRef true (PlField j)) l -> i <> j ->
  nth_error (s_slots s) i = Some (Some x) -> nth_error (s_slots s) j = Some (Some y) ->
  good w h (with_st h (take_field j y x (take_field i x y s))).
Proof.
  intros Hp Hi Hr Ha H Hin Hjn Hij Hx Hy. destruct (project_refs w a h p l s Hp Hi Hr Ha H) as (u & vp & fs & E & Hval & -> & -> & Hpin).
  rewrite E in Hx, Hy. apply slot_id in Hx, Hy.
  assert (take_field j y x (take_field i x y (h_st h)) =
    holding (mkUval (u_var u) (set_nth j x (set_nth i y (u_ids u)))) (trace h ++ [EvRead i x; EvStore i y; EvRead j y; EvStore j x]) Run) as ->.
  { rewrite E. unfold take_field, store_field, holding, live, add_event. cbn [s_stat s_var s_slots s_trace u_var u_ids].
    rewrite !set_nth_map, <- !app_assoc. reflexivity. }
  apply (good_fields w h u); auto; cbn [u_ids].
  - rewrite !set_nth_length. reflexivity.
  - pose proof (set_nth_perm i y x (u_ids u) Hx).
    assert (nth_error (set_nth i y (u_ids u)) j = Some y) as Hy' by (rewrite set_nth_other by exact Hij; exact Hy).
    pose proof (set_nth_perm j x y (set_nth i y (u_ids u)) Hy'). cbn [destroyed flat_map app]. perm.
  - intros k z Hk. destruct (Hpin k z Hk) as [Hz Hno]. assert (i <> k) as Hik by (intros ->; apply (Hno n Hin)).
    assert (j <> k) as Hjk by (intros ->; apply (Hno m Hjn)).
    left. split; [rewrite !set_nth_other by assumption; exact Hz|]. repeat constructor; assumption.
Qed.

(** ** The whole place *)
Definition ends (i id : nat) (evs : list event) : Prop :=
  exists e1 e2, evs = e1 ++ EvDrop (PlField i) id :: e2 /\ Forall (untouched i id) e1.
Lemma ends_app i id a b : ends i id a -> ends i id (a ++ b).
Proof. intros (e1 & e2 & -> & H). exists e1, (e2 ++ b). rewrite <- app_assoc. auto. Qed.
Lemma ends_pre i id a b : Forall (untouched i id) a -> ends i id b -> ends i id (a ++ b).
Proof. intros Ha (e1 & e2 & -> & H). exists (a ++ e1), e2. rewrite <- app_assoc. split; [reflexivity|]. apply Forall_app. auto. Qed.

Lemma good_abort w h s al stack' owned' evs rest : inv w h -> s_stat (h_st h) = Run -> s_stat s = Abort -> s_trace s = trace h ++ evs ->
  Permutation (destroyed evs ++ rest) (stored (h_st h) ++ incoming h ++ h_owned h) ->
  (forall i id, pin_at w h i id -> Forall (untouched i id) evs \/ ends i id evs) ->
  good w h (mkHist s al stack' owned' (h_created h)).
Proof.
  intros Hi Hr Hs Ht Hp Ho. exists evs. unfold trace at 1. cbn [h_st]. split; [exact Ht|]. split.
  - constructor; unfold trace; cbn [h_st h_alive h_stack h_created h_owned]; rewrite ?Hs; try discriminate.
    + auto.
    + apply (i_nodup _ _ Hi).
    + exists rest. rewrite Ht, destroyed_app. pose proof (i_all _ _ Hi Hr) as P. perm.
  - intros i id Hpin. destruct (Ho i id Hpin) as [H|H]; [left|right; exact H]. split; [exact H|]. right. exact Hs.
Qed.
Definition stack_ok (w : world) (l : list (option uval * stat)) : Prop :=
  Forall (fun k => (snd k = Run \/ snd k = Unwind) /\
                   match fst k with Some u => exists vp fs, value_of (w_item w) u vp fs | None => True end) l.
Lemma good_over w h r vp fs stack' owned' evs : inv w h -> s_stat (h_st h) = Run -> value_of (w_item w) r vp fs -> stack_ok w stack' ->
  (forall s c, Permutation (destroyed evs ++ u_ids r ++ incoming (mkHist s true stack' owned' c) ++ owned')
                 (stored (h_st h) ++ incoming h ++ h_owned h)) ->
  (forall i id, pin_at w h i id -> ends i id evs) ->
  good w h (mkHist (holding r (trace h ++ evs ++ [EvWrite r]) Run) true stack' owned' (h_created h)).
Proof.
  intros Hi Hr Hv Hst Hp Ho. exists (evs ++ [EvWrite r]). split; [reflexivity|]. pose proof (i_all _ _ Hi Hr) as P. split.
  - constructor; unfold trace; cbn [h_st h_alive h_stack h_created h_owned]; fold (trace h).
    + auto.
    + intros _ _. exists r, vp, fs. split; [reflexivity|exact Hv].
    + discriminate.
    + intros _. exact Hst.
    + apply (i_nodup _ _ Hi).
    + exists (u_ids r ++ incoming (mkHist (h_st h) true stack' owned' []) ++ owned'). specialize (Hp (h_st h) []).
      cbn [holding s_trace]. rewrite !destroyed_app. cbn [destroyed flat_map]. rewrite app_nil_r. perm.
    + intros _. rewrite stored_holding. match goal with |- Permutation _ (_ ++ _ ++ incoming (mkHist ?s _ _ _ ?c) ++ _) => specialize (Hp s c) end.
      cbn [holding s_trace]. rewrite !destroyed_app. cbn [destroyed flat_map]. rewrite app_nil_r. perm.
  - intros i id Hpin. right. apply (ends_app i id evs [EvWrite r]). apply Ho. exact Hpin.
Qed.
Lemma inv_stack w h : inv w h -> s_stat (h_st h) = Run -> stack_ok w (h_stack h).
Proof. intros Hi Hr. apply (i_stack _ _ Hi Hr). Qed.

(** ** [project_replace] *)
Lemma name_inj (l : list variant) v v' : NoDup (map name (map v_ident l)) -> In v l -> In v' l -> v_ident v = v_ident v' -> v = v'.
Proof.
  induction l as [|x l IH]; intros N H1 H2 E; [destruct H1|]. cbn in N. inversion N as [|? ? Hn N']; subst.
  assert (forall y, In y l -> v_ident y = v_ident x -> False) as K.
  { intros y Hy Ey. apply Hn. rewrite <- Ey. apply in_map. apply in_map. exact Hy. }
  destruct H1 as [->|H1], H2 as [->|H2]; auto.
  - elim (K v' H2). congruence.
  - elim (K v H1). congruence.
Qed.
Lemma value_unique w a u vp fs vp' fs' : program w a -> value_of (w_item w) u vp fs -> value_of (w_item w) u vp' fs' -> fs = fs'.
Proof.
  intros Hp H1 H2. pose proof (pg_variants _ _ Hp) as N. remember (w_item w) as it eqn:Eit. destruct H1 as [s ids H|e v ids Hin H].
  - inversion H2; reflexivity.
  - inversion H2 as [|e' v' ids' Hin' H' E1 E2 E3]; subst. cbn [variant_names] in N.
    rewrite (name_inj _ _ _ N Hin Hin'); [reflexivity|]. congruence.
Qed.
Lemma select_in b fs ids i f id : nth_error (fields_list fs) i = Some f -> is_pinned f = b -> nth_error ids i = Some id ->
  In (i, id) (select b fs ids).
Proof.
  intros Hf Hb Hid. unfold select. apply in_flat_map. exists (i, (f, id)). split.
  - rewrite numbered_enum. apply enum_from_in. split; [lia|]. rewrite Nat.sub_0_r.
    clear Hb b. revert i ids Hf Hid. induction (fields_list fs) as [|g l IH]; intros [|i] [|x ids] Hf Hid; try discriminate; cbn in *.
    + congruence.
    + apply IH; assumption.
  - cbn [fst snd]. rewrite Hb, Bool.eqb_reflx. left. reflexivity.
Qed.
Lemma select_from b fs ids i id : In (i, id) (select b fs ids) ->
  exists f, nth_error (fields_list fs) i = Some f /\ is_pinned f = b /\ nth_error ids i = Some id.
Proof.
  unfold select. intros H. apply in_flat_map in H. destruct H as ([j [f x]] & Hin & H). cbn [fst snd] in H.
  destruct (Bool.eqb (is_pinned f) b) eqn:E; [|destruct H]. destruct H as [H|[]]. injection H as -> ->.
  rewrite numbered_enum in Hin. apply enum_from_in in Hin. destruct Hin as [_ Hin]. rewrite Nat.sub_0_r in Hin. cbn [fst snd] in Hin.
  exists f. apply Bool.eqb_prop in E. 
  assert (nth_error (fields_list fs) i = Some f /\ nth_error ids i = Some id) as [H1 H2].
  { clear E b. revert i ids Hin. induction (fields_list fs) as [|g l IH]; intros [|i] [|y ids] Hin; try discriminate; cbn in *.
    - injection Hin as -> ->. auto.
    - apply IH. exact Hin. }
  auto.
Qed.
Lemma select_fst b fs ids : NoDup (map fst (select b fs ids)).
Proof.
  unfold select. rewrite numbered_enum. 
  assert (forall l k, NoDup (map fst (flat_map (fun x : nat * (field * nat) => if Bool.eqb (is_pinned (fst (snd x))) b then [(fst x, snd (snd x))] else []) (enum_from k l))) /\
    forall j, In j (map fst (flat_map (fun x : nat * (field * nat) => if Bool.eqb (is_pinned (fst (snd x))) b then [(fst x, snd (snd x))] else []) (enum_from k l))) -> k <= j) as G.
  { induction l as [|[f x] l IH]; intros k; cbn [enum_from flat_map map].
    - split; [constructor|intros j []].
    - destruct (IH (S k)) as [N B]. cbn [fst snd]. rewrite map_app. destruct (Bool.eqb (is_pinned f) b); cbn [map app fst].
      + split; [constructor; [intros H; apply B in H; lia|exact N]|]. intros j [<-|H]; [lia|]. apply B in H. lia.
      + split; [exact N|]. intros j H. apply B in H. lia. }
  apply G.
Qed.
Lemma good_replace w a h u vp fs v s rest : program w a -> inv w h -> s_stat (h_st h) = Run -> h_alive h = true ->
  value_of (w_item w) u vp fs -> Permutation (h_owned h) (u_ids u ++ rest) ->
  call_method w "project_replace" (RPin true PlSelf) [RUser u] (h_st h) = Some (v, s) ->
  good w h (mkHist (caught s) (h_alive h) (h_stack h) (owned_opt v ++ rest) (h_created h)).
Proof.
  intros Hp Hi Hr Ha Hv Hperm H. destruct (i_alive _ _ Hi Hr Ha) as (o & ovp & ofs & E & Hov). rewrite E in H.
  assert (Hh : has_proj POwn (w_item w) a = true) by (eapply (no_method w a POwn); [exact Hp|exact H]).
  assert (Hre : replaceable ofs) by (apply (replace_compiles w a o ovp ofs (trace h) u Hp Hh Hov); congruence).
  pose proof (value_length _ _ _ _ Hov) as Hlen. pose proof (select_perm ofs (u_ids o) Hlen) as Hsel.
  assert (Hpl : forall i id, pin_at w h i id -> In (i, id) (select true ofs (u_ids o)) /\
            Forall (untouched i id) (map read_out (select false ofs (u_ids o)))).
  { intros i id (f & _ & o' & vp' & fs' & _ & E' & Hv' & Hf & Hpf & Hid). rewrite E in E'. apply holding_inj in E'. subst o'.
    rewrite (value_unique w a o vp' fs' ovp ofs Hp Hv' Hov) in Hf. split; [apply (select_in true ofs _ i f id); assumption|].
    apply Forall_forall. intros e He. apply in_map_iff in He. destruct He as ([j x] & <- & Hj). cbn. intros ->.
    apply select_from in Hj. destruct Hj as (g & Hg & Hpg & _). congruence. }
  assert (Nid : NoDup (u_ids o)) by (pose proof (inv_stored_nodup w h Hi Hr) as N; rewrite E, stored_holding in N; exact N).
  assert (N2 : NoDup (map snd (select true ofs (u_ids o)))).
  { apply (Permutation_NoDup (Permutation_sym Hsel)) in Nid. apply nodup_app_l in Nid. exact Nid. }
  assert (Hend : forall i id, pin_at w h i id -> forall evs, ends i id (map read_out (select false ofs (u_ids o)) ++ map dropped_in_place (select true ofs (u_ids o)) ++ evs)).
  { intros i id Hpin evs. destruct (Hpl i id Hpin) as [Hin Hrd]. apply ends_pre; [exact Hrd|]. apply ends_app.
    destruct (place_outcome i id _ Hin (select_fst _ _ _) N2 _ [] (eq_sym (app_nil_r _))) as [[_ []]|Hd]. exact Hd. }
  destruct (Nat.eq_dec (panickers w (select true ofs (u_ids o))) 0) as [Z|Z].
  - rewrite (c18 w a o ovp ofs (trace h) u Hp Hh Hov Hre Z) in H. injection H as <- <-.
    cbn [owned_opt owned]. rewrite owned_taken by exact Hlen. rewrite caught_holding by reflexivity.
    replace (map read_out (select false ofs (u_ids o)) ++ map dropped_in_place (select true ofs (u_ids o)) ++ [EvWrite u])
      with ((map read_out (select false ofs (u_ids o)) ++ map dropped_in_place (select true ofs (u_ids o)) ++ []) ++ [EvWrite u])
      by (rewrite app_nil_r, <- app_assoc; reflexivity).
    rewrite Ha. apply (good_over w h u vp fs); auto.
    + apply (inv_stack w h Hi Hr).
    + intros s c. rewrite E, stored_holding. change (incoming (mkHist s true (h_stack h) (map snd (select false ofs (u_ids o)) ++ rest) c)) with (incoming h).
      rewrite app_nil_r, destroyed_app, destroyed_reads, destroyed_place. cbn [app]. perm.
  - destruct (c19 w a o ovp ofs (trace h) u Hp Hh Hov Hre ltac:(lia)) as (s' & evs' & x & E' & Hhap & Hs). rewrite E' in H. injection H as <- <-.
    cbn [owned_opt app].
    assert (Hd : forall evs rest', evs ++ rest' = map dropped_in_place (select true ofs (u_ids o)) ++ map dropped_elsewhere (select false ofs (u_ids o)) ->
      Permutation (destroyed evs ++ destroyed rest') (u_ids o)).
    { intros evs rest' Ee. rewrite <- destroyed_app, Ee, destroyed_app, destroyed_place, destroyed_else. exact Hsel. }
    destruct Hs as [[-> ->]|[-> [Hs Ht]]].
    + inversion Hhap; subst; try lia.
      rewrite caught_holding by reflexivity. rewrite Ha.
      replace (map read_out (select false ofs (u_ids o)) ++ (map dropped_in_place (select true ofs (u_ids o)) ++ map dropped_elsewhere (select false ofs (u_ids o))) ++ [EvWrite u])
        with ((map read_out (select false ofs (u_ids o)) ++ map dropped_in_place (select true ofs (u_ids o)) ++ map dropped_elsewhere (select false ofs (u_ids o))) ++ [EvWrite u])
        by (rewrite <- !app_assoc; reflexivity).
      apply (good_over w h u vp fs); auto.
      * apply (inv_stack w h Hi Hr).
      * intros s c. rewrite E, stored_holding. change (incoming (mkHist s true (h_stack h) rest c)) with (incoming h).
        rewrite !destroyed_app, destroyed_reads, destroyed_place, destroyed_else. cbn [app]. perm.
    + assert (exists rest', evs' ++ rest' = map dropped_in_place (select true ofs (u_ids o)) ++ map dropped_elsewhere (select false ofs (u_ids o))) as (rest' & Ee).
      { inversion Hhap; subst; eauto; lia. }
      apply (good_abort w h _ _ _ _ (map read_out (select false ofs (u_ids o)) ++ evs') (destroyed rest' ++ incoming h ++ h_owned h) Hi Hr).
      * rewrite caught_stat, Hs. reflexivity.
      * rewrite caught_trace. exact Ht.
      * rewrite E, stored_holding, destroyed_app, destroyed_reads. cbn [app]. specialize (Hd _ _ Ee). perm.
      * intros i id Hpin. destruct (Hpl i id Hpin) as [Hin Hrd]. 
        apply app_eq_app in Ee. destruct Ee as (z & [[Ez _]|[Ez _]]).
        -- right. subst evs'. apply Hend. exact Hpin.
        -- apply map_eq_app in Ez. destruct Ez as (l1 & l2 & El & <- & <-).
           destruct (place_outcome i id _ Hin (select_fst _ _ _) N2 l1 l2 El) as [[Hun _]|Hd'].
           ++ left. apply Forall_app. auto.
           ++ right. apply ends_pre; [exact Hrd|exact Hd'].
Qed.

(** ** [Pin::set] and the final drop *)
Lemma call_drop_self w a u t x : program w a -> x = Run \/ x = Unwind ->
  exists evs y, call_drop w PlSelf (holding u t x) = holding u (t ++ evs) y /\ y <> Stuck /\ destroyed evs = [] /\
    forall i id, Forall (untouched i id) evs.
Proof.
  intros Hp Hx. assert (A : alive x = true) by (destruct Hx; subst; reflexivity). destruct (ar_pinned_drop a) eqn:Ea.
  - rewrite (call_drop_yes w a PlSelf (holding u t x) Hp Ea A). exists [EvBody PlSelf], (bumped (w_body_panics w t) x).
    split; [reflexivity|]. split; [destruct Hx; subst; destruct (w_body_panics w t); discriminate|]. split; [reflexivity|].
    intros i id. repeat constructor.
  - rewrite (call_drop_no w a _ _ Hp Ea). exists [], x. rewrite app_nil_r. split; [reflexivity|].
    split; [destruct Hx; subst; discriminate|]. split; [reflexivity|constructor].
Qed.
Lemma good_begin w a h k rest x : program w a -> inv w h -> s_stat (h_st h) = Run -> h_alive h = true -> x = Run \/ x = Unwind ->
  match k with Some u => exists vp fs, value_of (w_item w) u vp fs | None => True end ->
  Permutation (h_owned h) (match k with Some u => u_ids u | None => [] end ++ rest) ->
  let s := call_drop w PlSelf (set_stat (h_st h) x) in
  good w h (mkHist (caught s) true ((k, s_stat s) :: h_stack h) rest (h_created h)).
Proof.
  intros Hp Hi Hr Ha Hx Hk Hperm s. subst s. destruct (i_alive _ _ Hi Hr Ha) as (o & vp & fs & E & Hv). rewrite E.
  change (set_stat (holding o (trace h) Run) x) with (holding o (trace h) x).
  destruct (call_drop_self w a o (trace h) x Hp Hx) as (evs & y & -> & Hy & Hd & Hu). cbn [holding s_stat].
  fold (holding o (trace h ++ evs) y). pose proof (i_all _ _ Hi Hr) as P. rewrite E, stored_holding in P.
  destruct (alive_or y Hy) as [A| ->].
  - rewrite caught_holding by exact A. exists evs. split; [reflexivity|]. split.
    + constructor; unfold trace; cbn [h_st h_alive h_stack h_created h_owned]; fold (trace h).
      * auto.
      * intros _ _. exists o, vp, fs. split; [reflexivity|exact Hv].
      * discriminate.
      * intros _. constructor; [|apply (inv_stack w h Hi Hr)]. cbn [fst snd]. split; [destruct y; try discriminate; auto|exact Hk].
      * apply (i_nodup _ _ Hi).
      * exists (u_ids o ++ incoming h ++ h_owned h). cbn [holding s_trace]. rewrite destroyed_app, Hd, app_nil_r. exact P.
      * intros _. rewrite stored_holding. cbn [holding s_trace]. rewrite destroyed_app, Hd, app_nil_r.
        unfold incoming at 1. cbn [h_stack flat_map fst]. fold (incoming h). destruct k; perm.
    + intros i id (f & HP & o' & vp' & fs' & _ & E' & Hf). rewrite E in E'. apply holding_inj in E'. subst o'. left. split; [apply Hu|].
      left. exists f. split; [exact HP|]. exists o, vp', fs'. split; [reflexivity|]. split; [reflexivity|exact Hf].
  - apply (good_abort w h _ _ _ _ evs (u_ids o ++ incoming h ++ h_owned h) Hi Hr); auto.
    rewrite Hd, E, stored_holding. reflexivity.
Qed.

Lemma drop_all w h u x : inv w h -> s_stat (h_st h) = Run -> h_st h = holding u (trace h) Run -> x = Run \/ x = Unwind ->
  exists sl evs y rest, drop_slots w 0 (length (s_slots (h_st h))) (set_stat (h_st h) x) = mkSt (u_var u) sl (trace h ++ evs) y /\
    y <> Stuck /\ destroyed evs ++ rest = u_ids u /\ (alive y = true -> rest = [] /\ sl = map (fun _ => None) (u_ids u)) /\
    (forall i id, pin_at w h i id -> (alive y = false /\ Forall (untouched i id) evs) \/ ends i id evs).
Proof.
  intros Hi Hr E Hx. assert (Hxs : x <> Stuck) by (destruct Hx; subst; discriminate). 
  assert (length (s_slots (h_st h)) = length (u_ids u)) as -> by (rewrite E; apply map_length).
  assert (set_stat (h_st h) x = holding u (trace h) x) as -> by (rewrite E; reflexivity).
  destruct (drop_slots_run w (u_ids u) [] (holding u (trace h) x) eq_refl) as (sl & Hd & Hsl). cbn [length] in Hd. rewrite Hd.
  cbn [holding s_var s_trace s_stat length] in *. rewrite in_place_all in *.
  destruct (drops_prefix w (map in_place (all_fields u)) x) as (l1 & l2 & El & E1 & E2).
  exists sl, (fst (drops w (map in_place (all_fields u)) x)), (snd (drops w (map in_place (all_fields u)) x)), (map snd l2).
  split; [reflexivity|]. split; [apply drops_stat; exact Hxs|]. split.
  { rewrite E1, destroyed_drops, <- map_app, <- El, map_map. apply numbered_snd. }
  split; [intros A; rewrite (E2 A), (Hsl A); auto|].
  intros i id Hpin. destruct Hpin as (f & _ & o' & vp' & fs' & _ & E' & Hv' & Hf & Hpf & Hid). rewrite E in E'. apply holding_inj in E'. subst o'.
  apply map_eq_app in El. destruct El as (m1 & m2 & Em & <- & <-). 
  assert (Nid : NoDup (u_ids u)) by (pose proof (inv_stored_nodup w h Hi Hr) as N; rewrite E, stored_holding in N; exact N).
  assert (N1 : NoDup (map fst (all_fields u))) by (rewrite all_fields_fst; apply seq_NoDup).
  assert (N2 : NoDup (map snd (all_fields u))) by (unfold all_fields; rewrite numbered_snd; exact Nid).
  rewrite E1. rewrite map_map. change (map (fun x0 => ev_drop (in_place x0)) m1) with (map dropped_in_place m1).
  destruct (place_outcome i id _ (all_fields_in u i id Hid) N1 N2 m1 m2 Em) as [[Hun Hin2]|Hend]; [left|right; exact Hend].
  split; [|exact Hun]. destruct (alive (snd (drops w (map in_place (all_fields u)) x))) eqn:A; [|reflexivity].
  specialize (E2 eq_refl). apply map_eq_nil in E2. subst m2. destruct Hin2.
Qed.
Lemma stack_alive w h : inv w h -> s_stat (h_st h) = Run -> h_stack h <> [] -> h_alive h = true.
Proof. intros Hi Hr Hs. destruct (h_alive h) eqn:E; [reflexivity|]. destruct (i_dead _ _ Hi Hr E). contradiction. Qed.
Lemma good_set_end w h u x rest : inv w h -> s_stat (h_st h) = Run -> h_stack h = (Some u, x) :: rest ->
  let s := drop_slots w 0 (length (s_slots (h_st h))) (set_stat (h_st h) x) in
  good w h (mkHist (caught (overwrite PlSelf u s)) true rest (h_owned h) (h_created h)).
Proof.
  intros Hi Hr Hs s. subst s. assert (Ha : h_alive h = true) by (apply (stack_alive w h Hi Hr); rewrite Hs; discriminate).
  destruct (i_alive _ _ Hi Hr Ha) as (o & vp & fs & E & Hv).
  pose proof (i_stack _ _ Hi Hr) as Hst. rewrite Hs in Hst. inversion Hst as [|? ? [Hx Hu] Hst']; subst. cbn [fst snd] in Hx, Hu.
  destruct Hu as (uvp & ufs & Huv).
  destruct (drop_all w h o x Hi Hr E Hx) as (sl & evs & y & rest' & -> & Hy & Hd & Hal & Hpin).
  unfold overwrite. rewrite live_alive. cbn [s_stat s_trace].
  assert (Einc : incoming h = u_ids u ++ flat_map (fun k => match fst k with Some u => u_ids u | None => [] end) rest).
  { unfold incoming. rewrite Hs. reflexivity. }
  destruct (alive_or y Hy) as [A| ->].
  - rewrite A. destruct (Hal A) as [-> _]. rewrite app_nil_r in Hd. 
    change (mkSt (u_var u) (map Some (u_ids u)) ((trace h ++ evs) ++ [EvWrite u]) y) with (holding u ((trace h ++ evs) ++ [EvWrite u]) y).
    rewrite caught_holding by exact A. rewrite <- app_assoc. apply (good_over w h u uvp ufs); auto.
    + intros s c. rewrite E, stored_holding, Hd, Einc. unfold incoming. cbn [h_stack]. perm.
    + intros i id Hp. destruct (Hpin i id Hp) as [[A' _]|H]; [congruence|exact H].
  - cbn [alive]. apply (good_abort w h _ _ _ _ evs (rest' ++ incoming h ++ h_owned h) Hi Hr); auto.
    + rewrite E, stored_holding, <- Hd. rewrite <- !app_assoc. reflexivity.
    + intros i id Hp. destruct (Hpin i id Hp) as [[_ H]|H]; auto.
Qed.
Lemma stored_none {A} v (l : list A) t x : stored (mkSt v (map (fun _ => None) l) t x) = [].
Proof. unfold stored. cbn [s_slots]. induction l; cbn; auto. Qed.
Lemma good_final_end w h x : inv w h -> s_stat (h_st h) = Run -> h_stack h = [(None, x)] ->
  let s := drop_slots w 0 (length (s_slots (h_st h))) (set_stat (h_st h) x) in
  good w h (mkHist (caught s) false [] (h_owned h) (h_created h)).
Proof.
  intros Hi Hr Hs s. subst s. assert (Ha : h_alive h = true) by (apply (stack_alive w h Hi Hr); rewrite Hs; discriminate).
  destruct (i_alive _ _ Hi Hr Ha) as (o & vp & fs & E & Hv).
  pose proof (i_stack _ _ Hi Hr) as Hst. rewrite Hs in Hst. inversion Hst as [|? ? [Hx _] _]; subst. cbn [fst snd] in Hx.
  destruct (drop_all w h o x Hi Hr E Hx) as (sl & evs & y & rest' & -> & Hy & Hd & Hal & Hpin).
  assert (Einc : incoming h = []) by (unfold incoming; rewrite Hs; reflexivity).
  pose proof (i_all _ _ Hi Hr) as P. rewrite E, stored_holding, Einc in P. cbn [app] in P.
  destruct (alive_or y Hy) as [A| ->].
  - destruct (Hal A) as [-> ->]. rewrite app_nil_r in Hd. rewrite caught_eq by exact A. exists evs. split; [reflexivity|]. split.
    + constructor; unfold trace; cbn [h_st h_alive h_stack h_created h_owned s_stat s_trace]; fold (trace h); try discriminate.
      * auto.
      * intros _ _. rewrite stored_none. auto.
      * intros _. constructor.
      * apply (i_nodup _ _ Hi).
      * exists (h_owned h). rewrite destroyed_app, Hd. perm.
      * intros _. rewrite stored_none, destroyed_app, Hd. cbn [incoming h_stack flat_map app]. perm.
    + intros i id Hp. right. destruct (Hpin i id Hp) as [[A' _]|H]; [congruence|exact H].
  - apply (good_abort w h _ _ _ _ evs (rest' ++ incoming h ++ h_owned h) Hi Hr); auto.
    + rewrite E, stored_holding, <- Hd. rewrite <- !app_assoc. reflexivity.
    + intros i id Hp. destruct (Hpin i id Hp) as [[_ H]|H]; auto.
Qed.

(** ** Histories *)
Lemma step_good w a h h' : program w a -> inv w h -> step w h h' -> good w h h'.
Proof.
  intros Hp Hi Hs. destruct Hs.
  - apply good_new; assumption.
  - apply good_drop; assumption.
  - eapply good_drop_user; eassumption.
  - eapply good_project_ref; eassumption.
  - eapply good_assign; eassumption.
  - eapply good_take; eassumption.
  - eapply good_swap; eassumption.
  - eapply good_replace; eassumption.
  - eapply (good_begin w a h (Some u)); eauto.
  - subst s. pose proof (good_begin w a h None (h_owned h) x Hp Hi H H0 H2 Coq.Init.Logic.I (Permutation_refl _)) as G. cbn zeta in G. rewrite H1 in G. exact G.
  - apply good_set_end; assumption.
  - apply good_final_end; assumption.
Qed.
End Pinned.
Lemma begin_inv w u vp fs : value_of (w_item w) u vp fs -> NoDup (u_ids u) -> inv w (begin u).
Proof.
  intros Hv Hn. constructor; unfold trace; cbn [begin h_st h_alive h_stack h_created h_owned start s_stat s_trace]; try discriminate.
  - auto.
  - intros _ _. exists u, vp, fs. split; [reflexivity|exact Hv].
  - intros _. constructor.
  - exact Hn.
  - exists (u_ids u). reflexivity.
  - intros _. match goal with |- context [stored ?s] => change s with (holding u [] Run) end. rewrite stored_holding. cbn [destroyed flat_map app]. rewrite app_nil_r. reflexivity.
Qed.
Lemma steps_inv w a h h' : program w a -> inv w h -> steps w h h' -> inv w h'.
Proof.
  intros Hp Hi H. induction H as [|h1 h2 h3 _ IH Hs]; [exact Hi|]. destruct (step_good (fun _ => True) w a h2 h3 Hp (IH Hi) Hs) as (_ & _ & H & _). exact H.
Qed.
Lemma history_inv w a h : program w a -> history w h -> inv w h.
Proof. intros Hp (u & vp & fs & Hv & Hn & Hs). apply (steps_inv w a (begin u) h Hp); [|exact Hs]. apply (begin_inv w u vp fs); assumption. Qed.
Lemma step_run w h h' : step w h h' -> s_stat (h_st h) = Run.
Proof. intros H. destruct H; assumption. Qed.

Lemma c21_as w a h h' i id f : program w a -> history w h -> pinned_as w h i id f -> steps w h h' ->
  exists evs, trace h' = trace h ++ evs /\
    ((Forall (untouched i id) evs /\ (pinned_as w h' i id f \/ aborted h')) \/
     (exists e1 e2, evs = e1 ++ EvDrop (PlField i) id :: e2 /\ Forall (untouched i id) e1)).
Proof.
  intros Hp Hh Hpin Hs. apply (history_inv w a h Hp) in Hh. induction Hs as [|h1 h2 h3 Hs IH Hst].
  - exists []. rewrite app_nil_r. split; [reflexivity|]. left. split; [constructor|]. left. exact Hpin.
  - destruct (IH Hh Hpin) as (evs & Ht & Ho). pose proof (steps_inv w a h1 h2 Hp Hh Hs) as Hi2.
    destruct (step_good (fun g => g = f) w a h2 h3 Hp Hi2 Hst) as (ev2 & Ht2 & _ & Ho2).
    exists (evs ++ ev2). rewrite Ht2, Ht, <- app_assoc. split; [reflexivity|].
    destruct Ho as [[Hu [Hp2|Hab]]|(e1 & e2 & -> & Hu)].
    + destruct (Ho2 i id (ex_intro _ f (conj eq_refl Hp2))) as [[Hu2 H2]|(e1 & e2 & -> & Hu2)].
      * left. split; [apply Forall_app; auto|]. destruct H2 as [(g & -> & H2)|H2]; auto.
      * right. exists (evs ++ e1), e2. rewrite <- app_assoc. split; [reflexivity|]. apply Forall_app. auto.
    + apply step_run in Hst. unfold aborted in Hab. congruence.
    + right. exists e1, (e2 ++ ev2). rewrite <- app_assoc. auto.
Qed.
Lemma c21 w a h h' i id : program w a -> history w h -> pinned_at w h i id -> steps w h h' ->
  exists evs, trace h' = trace h ++ evs /\
    ((Forall (untouched i id) evs /\ (pinned_at w h' i id \/ aborted h')) \/
     (exists e1 e2, evs = e1 ++ EvDrop (PlField i) id :: e2 /\ Forall (untouched i id) e1)).
Proof.
  intros Hp Hh (f & Hpin) Hs. destruct (c21_as w a h h' i id f Hp Hh Hpin Hs) as (evs & Ht & [[Hu H]|H]).
  - exists evs. split; [exact Ht|]. left. split; [exact Hu|]. destruct H as [H|H]; [left; exists f; exact H|right; exact H].
  - exists evs. split; [exact Ht|]. right. exact H.
Qed.
Lemma c22_once w a h : program w a -> history w h -> NoDup (destroyed (trace h)) /\ incl (destroyed (trace h)) (h_created h).
Proof.
  intros Hp Hh. apply (history_inv w a h Hp) in Hh. destruct (i_once _ _ Hh) as (rest & P). split.
  - pose proof (i_nodup _ _ Hh) as N. apply (Permutation_NoDup P) in N. apply nodup_app_l in N. exact N.
  - intros x Hx. apply (Permutation_in _ (Permutation_sym P)). apply in_or_app. auto.
Qed.
Lemma inv_all w h : inv w h -> aborted h \/
  (s_stat (h_st h) = Run /\ NoDup (h_created h) /\
   Permutation (h_created h) (stored (h_st h) ++ incoming h ++ h_owned h ++ destroyed (trace h)) /\
   (h_alive h = true -> forall o, In o (s_slots (h_st h)) -> o <> None) /\ (h_alive h = false -> stored (h_st h) = [])).
Proof.
  intros Hh. destruct (i_stat _ _ Hh) as [Hr|Ha]; [right|left; exact Ha].
  split; [exact Hr|]. split; [apply (i_nodup _ _ Hh)|]. split; [|split].
  - pose proof (i_all _ _ Hh Hr) as P. perm.
  - intros Ha o Ho. destruct (i_alive _ _ Hh Hr Ha) as (u & vp & fs & E & _). rewrite E in Ho. cbn in Ho. apply in_map_iff in Ho.
    destruct Ho as (x & <- & _). discriminate.
  - intros Ha. apply (i_dead _ _ Hh Hr Ha).
Qed.
Lemma c22_all w a h : program w a -> history w h -> aborted h \/
  (s_stat (h_st h) = Run /\ NoDup (h_created h) /\
   Permutation (h_created h) (stored (h_st h) ++ incoming h ++ h_owned h ++ destroyed (trace h)) /\
   (h_alive h = true -> forall o, In o (s_slots (h_st h)) -> o <> None) /\ (h_alive h = false -> stored (h_st h) = [])).
Proof. intros Hp Hh. apply (inv_all w). apply (history_inv w a h Hp Hh). Qed.
