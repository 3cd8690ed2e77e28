(** [project_replace] compared with [Pin::set]. *)
From Coq Require Import String Ascii List Bool Arith Lia Permutation.
From Verif Require Import Base Syntax ModelArgs ModelUtils ModelDerive ModelRun.
From Verif Require Import SpecArgs SpecDerive SpecExpand SpecRun SpecSet.
From Verif Require Import ProofsArgs ProofsUtils ProofsDerive ProofsExpand ProofsTypes ProofsRun ProofsRunProj ProofsRunReplace ProofsRunDrop ProofsRunMain.
Import ListNotations.
Open Scope string_scope.
Open Scope list_scope.

Lemma replace_no_drop it a : options (attrs_of it) a -> has_proj POwn it a = true -> ar_pinned_drop a = false.
Proof.
  intros Ho Hh. destruct (ar_pinned_drop a) eqn:E; [|reflexivity].
  pose proof (options_exclusive _ _ Ho E) as Hr. exfalso.
  destruct it; unfold has_proj, struct_has, enum_has, given_name in Hh; try rewrite Hr in Hh; discriminate.
Qed.

(** Counting panics. *)
Lemma count_app w l1 l2 : count w (l1 ++ l2) = count w l1 + count w l2.
Proof. unfold count. rewrite filter_app, app_length. reflexivity. Qed.
Definition final (x : stat) (n : nat) : stat :=
  match x, n with
  | Run, 0 => Run | Run, 1 => Unwind | Run, _ => Abort
  | Unwind, 0 => Unwind | Unwind, _ => Abort
  | y, _ => y
  end.
Lemma drops_final w l : forall x, snd (drops w l x) = final x (count w l).
Proof.
  induction l as [|[p id] l IH]; intros x; cbn [drops]; [destruct x; reflexivity|].
  unfold count in *. cbn [filter snd]. destruct (alive x) eqn:A.
  - specialize (IH (if w_panics w id then bump x else x)). destruct (drops w l _) as [ev y]. cbn [snd] in *. rewrite IH.
    destruct (w_panics w id); [|reflexivity]. destruct x; try discriminate; cbn; destruct (length _) as [|[|?]]; reflexivity.
  - destruct x; try discriminate; reflexivity.
Qed.
Lemma count_all w fs ids : length ids = length (fields_list fs) ->
  panickers w (numbered ids) = panickers w (select true fs ids) + panickers w (select false fs ids).
Proof.
  unfold select, panickers. rewrite !numbered_enum. generalize 0. revert ids.
  induction (fields_list fs) as [|f l IH]; intros [|i ids] k H; try discriminate; [reflexivity|].
  specialize (IH ids (S k) (eq_add_S _ _ H)). cbn [enum_from combine flat_map filter snd fst].
  destruct (is_pinned f); cbn [Bool.eqb app filter snd]; destruct (w_panics w i); cbn [length]; lia.
Qed.
Lemma select_filter b fs ids : length ids = length (fields_list fs) ->
  select b fs ids = filter (fun x => Bool.eqb (pinned_at fs x) b) (numbered ids).
Proof.
  intros H. unfold select, pinned_at. rewrite !numbered_enum. 
  assert (G : forall pre l ids, length ids = length l ->
    flat_map (fun x : nat * (field * nat) => if Bool.eqb (is_pinned (fst (snd x))) b then [(fst x, snd (snd x))] else [])
      (enum_from (length pre) (combine l ids)) =
    filter (fun x : nat * nat => Bool.eqb (match nth_error (pre ++ l) (fst x) with Some f => is_pinned f | None => false end) b)
      (enum_from (length pre) ids)).
  { clear. intros pre l. revert pre. induction l as [|f l IH]; intros pre [|i ids] H; try discriminate; [reflexivity|].
    cbn [enum_from combine flat_map filter snd fst]. rewrite nth_error_app2, Nat.sub_diag by lia. cbn [nth_error].
    specialize (IH (pre ++ [f]) ids (eq_add_S _ _ H)). rewrite app_length, Nat.add_1_r, <- app_assoc in IH. cbn [app] in IH.
    rewrite IH. destruct (Bool.eqb (is_pinned f) b); reflexivity. }
  exact (G [] _ _ H).
Qed.
Lemma in_place_app a b : destroyed_in_place (a ++ b) = destroyed_in_place a ++ destroyed_in_place b. Proof. apply flat_map_app. Qed.
Lemma in_place_reads l : destroyed_in_place (map read_out l) = [].
Proof. induction l; cbn; auto. Qed.
Lemma in_place_place l : destroyed_in_place (map dropped_in_place l) = l.
Proof. induction l as [|[n i] l IH]; cbn; [reflexivity|]. f_equal. exact IH. Qed.
Lemma in_place_else l : destroyed_in_place (map dropped_elsewhere l) = [].
Proof. induction l; cbn; auto. Qed.

Section Set_.
  Variables (w : world) (a : args) (u : uval) (vp : list ident) (fs : fields) (t : list event) (r : uval).
  Hypothesis (Hp : program w a) (Hh : has_proj POwn (w_item w) a = true) (Hv : value_of (w_item w) u vp fs) (Hre : replaceable fs).
  Let pins := select true fs (u_ids u).
  Let rest := select false fs (u_ids u).

  Lemma set_run : s_stat (pin_set w r (holding u t Run)) = final Run (panickers w pins + panickers w rest) /\
    (final Run (panickers w pins + panickers w rest) <> Abort ->
     pin_set w r (holding u t Run) = holding r (t ++ map dropped_in_place (all_fields u) ++ [EvWrite r])
       (final Run (panickers w pins + panickers w rest))).
  Proof.
    pose proof (replace_no_drop _ _ (pg_options _ _ Hp) Hh) as Hd.
    destruct (drop_self_run w a u t Run Hp) as (sl & E & E2). unfold glue in E, E2. rewrite Hd, in_place_all in E, E2. cbn zeta in E, E2.
    assert (F : snd (drops w (map in_place (all_fields u)) Run) = final Run (panickers w pins + panickers w rest)).
    { rewrite drops_final, count_in_place. unfold all_fields, pins, rest. rewrite (count_all w fs); [reflexivity|]. apply (value_length _ _ _ _ Hv). }
    unfold pin_set. destruct (alive (final Run (panickers w pins + panickers w rest))) eqn:A.
    - rewrite F in E2. rewrite (E2 A). unfold overwrite. rewrite live_alive. cbn [emptied s_stat]. rewrite A. cbn [s_stat s_trace].
      split; [reflexivity|]. intros _. rewrite drops_alive_prefix by (rewrite F; exact A). rewrite map_map. unfold holding, emptied. cbn [s_trace s_stat s_var s_slots]. rewrite <- app_assoc. reflexivity.
    - rewrite E. unfold overwrite. rewrite live_alive. cbn [s_stat]. rewrite F, A. cbn [s_stat]. split; [reflexivity|].
      destruct (_ + _) as [|[|?]]; try discriminate. intros X. elim X. reflexivity.
  Qed.

  Lemma drop_taken path : forall s, drop_rv w (drop_user w) (RProj path (taken fs (u_ids u))) s =
    mkSt (s_var s) (s_slots s) (s_trace s ++ fst (drops w (map moved rest) (s_stat s))) (snd (drops w (map moved rest) (s_stat s))).
  Proof.
    intros s. pose proof (value_length _ _ _ _ Hv) as Hl.
    rewrite <- (own_taken0 (mkTypePath None (Path false [])) fs (u_ids u) Hl), drop_own, (sel_select0 false (mkTypePath None (Path false [])) fs _ Hl). reflexivity.
  Qed.

  Lemma replace_run : exists s, replace_and_drop w r (holding u t Run) = Some s /\
    s_stat s = final Run (panickers w pins + panickers w rest) /\
    (s_stat s <> Abort -> s_var s = u_var r /\ s_slots s = map Some (u_ids r) /\
       exists ev, s_trace s = t ++ ev /\ destroyed ev = map snd pins ++ map snd rest /\ destroyed_in_place ev = pins).
  Proof.
    unfold replace_and_drop. destruct (Nat.eq_dec (panickers w pins) 0) as [Z|Z].
    - rewrite (c18 w a u vp fs t r Hp Hh Hv Hre Z). rewrite drop_taken. eexists. split; [reflexivity|].
      cbn [holding s_stat s_var s_slots s_trace]. rewrite drops_final, count_moved, Z. split; [reflexivity|]. intros Hn.
      split; [reflexivity|]. split; [reflexivity|].
      assert (A : alive (snd (drops w (map moved rest) Run)) = true).
      { rewrite drops_final, count_moved. destruct (panickers w rest) as [|[|?]]; try reflexivity. elim Hn. reflexivity. }
      rewrite (drops_alive_prefix _ _ _ A). exists (map read_out rest ++ map dropped_in_place pins ++ [EvWrite r] ++ map dropped_elsewhere rest).
      split; [rewrite map_map, <- !app_assoc; reflexivity|]. split.
      + rewrite !destroyed_app, destroyed_reads, destroyed_place, destroyed_else. reflexivity.
      + rewrite !in_place_app, in_place_reads, in_place_place, in_place_else. cbn. apply app_nil_r.
    - assert (Z1 : 1 <= panickers w (select true fs (u_ids u))) by (fold pins; destruct (panickers w pins); [elim Z; reflexivity|lia]).
      destruct (c19 w a u vp fs t r Hp Hh Hv Hre Z1) as (s & ev & x & E & Hh' & Hc). rewrite E. exists s. split; [reflexivity|].
      fold pins rest in Hh', Hc. destruct Hc as [[-> ->]|(-> & Hs & _)].
      + inversion Hh' as [|N| | |]; subst. cbn [s_stat holding]. rewrite N. split; [reflexivity|]. intros _.
        split; [reflexivity|]. split; [reflexivity|]. eexists. split; [reflexivity|].
        rewrite !destroyed_app, destroyed_reads, destroyed_place, destroyed_else, !in_place_app, in_place_reads, in_place_place, in_place_else.
        cbn. rewrite !app_nil_r. split; reflexivity.
      + rewrite Hs. inversion Hh'; subst. split.
        * destruct (_ + _) as [|[|?]]; cbn; try lia; reflexivity.
        * intros X. elim X. reflexivity.
  Qed.
End Set_.

Lemma c67_equivalent w a u vp fs t r :
  program w a -> has_proj POwn (w_item w) a = true -> value_of (w_item w) u vp fs -> replaceable fs ->
  let set := pin_set w r (holding u t Run) in
  exists s, replace_and_drop w r (holding u t Run) = Some s /\ s_stat s = s_stat set /\ s_stat s <> Stuck /\
    (s_stat s <> Abort -> s_var s = s_var set /\ s_slots s = s_slots set /\
       exists ev1 ev2, s_trace s = t ++ ev1 /\ s_trace set = t ++ ev2 /\ Permutation (destroyed ev1) (destroyed ev2) /\
         destroyed_in_place ev1 = filter (pinned_at fs) (destroyed_in_place ev2)).
Proof.
  intros Hp Hh Hv Hre set. destruct (replace_run w a u vp fs t r Hp Hh Hv Hre) as (s & E & Es & H).
  destruct (set_run w a u vp fs t r Hp Hh Hv) as [Et Ht]. exists s. split; [exact E|]. split; [unfold set; rewrite Es, Et; reflexivity|].
  split; [rewrite Es; destruct (_ + _) as [|[|?]]; discriminate|]. intros Ha. destruct (H Ha) as (H1 & H2 & ev & H3 & H4 & H5).
  rewrite Es in Ha. unfold set. rewrite (Ht Ha). cbn [holding s_var s_slots s_trace]. split; [exact H1|]. split; [exact H2|].
  exists ev. eexists. split; [exact H3|]. split; [reflexivity|]. pose proof (value_length _ _ _ _ Hv) as Hl. split.
  - rewrite H4, destroyed_app, destroyed_place. cbn. rewrite app_nil_r. unfold all_fields. rewrite numbered_snd. apply select_perm. exact Hl.
  - rewrite H5, in_place_app, in_place_place. cbn. rewrite app_nil_r, (select_filter true _ _ Hl). apply filter_ext. intros x.
    destruct (pinned_at fs x); reflexivity.
Qed.

(** The result: what [Pin::set] would have dropped as well. *)
Lemma c67_returned w a u vp fs t r v s :
  program w a -> has_proj POwn (w_item w) a = true -> value_of (w_item w) u vp fs -> replaceable fs ->
  call_method w "project_replace" (RPin true PlSelf) [RUser r] (holding u t Run) = Some (Some v, s) ->
  let set := pin_set w r (holding u t Run) in
  s_stat set <> Abort -> s_var s = s_var set /\ s_slots s = s_slots set /\
    exists ev1 ev2, s_trace s = t ++ ev1 /\ s_trace set = t ++ ev2 /\
      destroyed ev1 = map snd (filter (pinned_at fs) (destroyed_in_place ev2)) /\
      destroyed_in_place ev1 = filter (pinned_at fs) (destroyed_in_place ev2) /\
      owned v = map snd (filter (fun x => negb (pinned_at fs x)) (destroyed_in_place ev2)).
Proof.
  intros Hp Hh Hv Hre E set Ha. pose proof (value_length _ _ _ _ Hv) as Hl.
  destruct (Nat.eq_dec (panickers w (select true fs (u_ids u))) 0) as [Z|Z].
  - rewrite (c18 w a u vp fs t r Hp Hh Hv Hre Z) in E. injection E as <- <-.
    destruct (set_run w a u vp fs t r Hp Hh Hv) as [Et Ht]. unfold set in Ha |- *. rewrite Et in Ha. rewrite (Ht Ha).
    split; [reflexivity|]. split; [reflexivity|]. eexists. eexists. split; [reflexivity|]. split; [reflexivity|].
    rewrite !destroyed_app, destroyed_reads, destroyed_place, !in_place_app, in_place_reads, !in_place_place. cbn. rewrite !app_nil_r.
    rewrite (owned_taken fs _ Hl), !(select_filter _ _ _ Hl).
    assert (X : filter (fun x => Bool.eqb (pinned_at fs x) true) (numbered (u_ids u)) = filter (pinned_at fs) (all_fields u)).
    { apply filter_ext. intros x. destruct (pinned_at fs x); reflexivity. }
    rewrite X. split; [reflexivity|]. split; reflexivity.
  - destruct (c19 w a u vp fs t r Hp Hh Hv Hre ltac:(lia)) as (s' & ev & x & E' & _). rewrite E' in E. discriminate.
Qed.
