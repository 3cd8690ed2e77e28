(** The properties of running the generated methods. *)
From Coq Require Import String Ascii List Bool Arith Lia Permutation.
From Verif Require Import Base Syntax ModelArgs ModelUtils ModelDerive ModelRun.
From Verif Require Import SpecArgs SpecDerive SpecExpand SpecRun.
From Verif Require Import ProofsArgs ProofsUtils ProofsDerive ProofsExpand ProofsTypes ProofsRun ProofsRunProj ProofsRunReplace ProofsRunDrop.
Import ListNotations.
Open Scope string_scope.
Open Scope list_scope.

(** ** C14, C15, C16, C17 *)
Lemma c14 w a u vp fs t : program w a -> has_proj PMut (w_item w) a = true -> value_of (w_item w) u vp fs ->
  call_method w "project" (RPin true PlSelf) [] (holding u t Run) =
  Some (Some (RProj (proj_name PMut a (name_of (w_item w)) :: vp) (references true fs)), holding u t Run).
Proof. intros Hp Hh Hv. apply (run_project w a PMut u vp fs t); auto. discriminate. Qed.
Lemma c15 w a u vp fs t : program w a -> has_proj PRef (w_item w) a = true -> value_of (w_item w) u vp fs ->
  call_method w "project_ref" (RPin false PlSelf) [] (holding u t Run) =
  Some (Some (RProj (proj_name PRef a (name_of (w_item w)) :: vp) (references false fs)), holding u t Run).
Proof. intros Hp Hh Hv. apply (run_project w a PRef u vp fs t); auto. discriminate. Qed.
Lemma c15_shared fs x : In x (references false fs) -> exclusive (snd x) = false.
Proof.
  unfold references. intros H. apply in_map_iff in H. destruct H as (nf & <- & _). cbn [snd].
  destruct (is_pinned (snd nf)); reflexivity.
Qed.
Lemma c15_result w a u vp fs t p l s x : program w a -> has_proj PRef (w_item w) a = true -> value_of (w_item w) u vp fs ->
  call_method w "project_ref" (RPin false PlSelf) [] (holding u t Run) = Some (Some (RProj p l), s) ->
  In x l -> exclusive (snd x) = false.
Proof.
  intros Hp Hh Hv E. rewrite (c15 w a u vp fs t Hp Hh Hv) in E. injection E as _ <- _. apply c15_shared.
Qed.

Lemma references_places m fs : map (fun x => place_of (snd x)) (references m fs) =
  map (fun i => Some (PlField i)) (seq 0 (length (fields_list fs))).
Proof.
  unfold references, numbered. rewrite map_map. generalize 0. induction (fields_list fs) as [|f l IH]; intros k; cbn; [reflexivity|].
  rewrite IH. destruct (is_pinned f); reflexivity.
Qed.
Lemma value_length it u vp fs : value_of it u vp fs -> length (u_ids u) = length (fields_list fs).
Proof. intros [s ids H|e v ids _ H]; exact H. Qed.
Lemma c16 w a k u vp fs t p l s : k <> POwn -> program w a -> has_proj k (w_item w) a = true ->
  value_of (w_item w) u vp fs ->
  call_method w (name (proj_method k)) (RPin (match k with PRef => false | _ => true end) PlSelf) [] (holding u t Run) =
    Some (Some (RProj p l), s) ->
  NoDup (map (fun x => place_of (snd x)) l) /\
  forall x, In x l -> exists i, place_of (snd x) = Some (PlField i) /\ i < length (u_ids u).
Proof.
  intros Hk Hp Hh Hv E.
  pose proof (run_project w a k u vp fs t Hk Hp Hh Hv) as R. unfold mname, kmut in R. rewrite R in E. clear R.
  injection E as _ <- _. split.
  - rewrite references_places. apply FinFun.Injective_map_NoDup; [|apply seq_NoDup]. intros i j H. congruence.
  - intros x Hin. apply (in_map (fun x => place_of (snd x))) in Hin. rewrite references_places in Hin.
    apply in_map_iff in Hin. destruct Hin as (i & E & Hi). exists i. split; [symmetry; exact E|].
    apply in_seq in Hi. rewrite (value_length _ _ _ _ Hv). lia.
Qed.
(** Each field is there, under its own name. *)
Lemma references_names m fs : map fst (references m fs) = map f_ident (fields_list fs).
Proof.
  unfold references, numbered. rewrite map_map. cbn [fst]. generalize 0.
  induction (fields_list fs) as [|f l IH]; intros k; cbn; [reflexivity|]. rewrite IH. reflexivity.
Qed.
Lemma taken_names fs ids : length ids = length (fields_list fs) -> map fst (taken fs ids) = map f_ident (fields_list fs).
Proof.
  unfold taken. rewrite map_map. cbn [fst]. revert ids.
  induction (fields_list fs) as [|f l IH]; intros [|i ids] H; try discriminate; cbn; [reflexivity|]. rewrite IH; auto.
Qed.

(** ** Destructors *)
Lemma happens_count {X} w (g : X -> place * nat) (l : list X) x : alive x = true \/ x = Abort ->
  happens (map (fun y => EvDrop (fst (g y)) (snd (g y))) l) (count w (map g l)) x
    (fst (drops w (map g l) x)) (snd (drops w (map g l) x)).
Proof.
  intros Hx. assert (Em : map (fun y => EvDrop (fst (g y)) (snd (g y))) l = map ev_drop (map g l)) by (rewrite map_map; reflexivity).
  rewrite Em. clear Em. generalize (map g l) as m. intros m.
  destruct (Nat.eq_dec (count w m) 0) as [E|E]; [|destruct (Nat.eq_dec (count w m) 1) as [E1|E1]].
  - destruct (alive x) eqn:A; [rewrite drops_clean by assumption; apply H_none; exact E|].
    destruct Hx as [Hx| ->]; [congruence|]. rewrite drops_dead by reflexivity. apply H_dead.
  - destruct x; [| |destruct Hx; discriminate || idtac|destruct Hx; discriminate].
    + rewrite drops_one by exact E1. apply H_one. exact E1.
    + destruct (drops_unwind w m) as (l1 & l2 & -> & ->); [lia|]. cbn [fst snd].
      apply (H_again _ _ _ (map ev_drop l2)); [lia|]. apply map_app.
    + rewrite drops_dead by reflexivity. apply H_dead.
  - destruct x; [| |destruct Hx; discriminate || idtac|destruct Hx; discriminate].
    + destruct (drops_abort w m) as (l1 & l2 & -> & ->); [lia|]. cbn [fst snd].
      apply (H_two _ _ _ (map ev_drop l2)); [lia|]. apply map_app.
    + destruct (drops_unwind w m) as (l1 & l2 & -> & ->); [lia|]. cbn [fst snd].
      apply (H_again _ _ _ (map ev_drop l2)); [lia|]. apply map_app.
    + rewrite drops_dead by reflexivity. apply H_dead.
Qed.
Lemma count_map {X} w (g : X -> place * nat) (l : list X) (h : X -> nat * nat) :
  (forall y, snd (g y) = snd (h y)) -> count w (map g l) = panickers w (map h l).
Proof.
  intros H. unfold count, panickers. induction l as [|y l IH]; cbn; [reflexivity|].
  rewrite H. destruct (w_panics w (snd (h y))); cbn; rewrite IH; reflexivity.
Qed.
Lemma count_in_place w l : count w (map in_place l) = panickers w l.
Proof. rewrite (count_map w in_place l (fun x => x)) by reflexivity. rewrite map_id. reflexivity. Qed.
Lemma count_moved w l : count w (map moved l) = panickers w l.
Proof. rewrite (count_map w moved l (fun x => x)) by reflexivity. rewrite map_id. reflexivity. Qed.

(** ** C18, C19 *)
Lemma c18 w a u vp fs t r : program w a -> has_proj POwn (w_item w) a = true -> value_of (w_item w) u vp fs -> replaceable fs ->
  panickers w (select true fs (u_ids u)) = 0 ->
  call_method w "project_replace" (RPin true PlSelf) [RUser r] (holding u t Run) =
  Some (Some (RProj (proj_name POwn a (name_of (w_item w)) :: vp) (taken fs (u_ids u))),
        holding r (t ++ map read_out (select false fs (u_ids u)) ++ map dropped_in_place (select true fs (u_ids u)) ++ [EvWrite r]) Run).
Proof.
  intros Hp Hh Hv Hre Hz. pose proof (run_replace w a u vp fs t r Hp Hh Hv Hre) as R. unfold replaced_spec in R. cbn zeta in R.
  rewrite <- (count_in_place w) in Hz. rewrite (drops_clean w _ Run eq_refl Hz) in R. cbn [fst snd] in R. rewrite R.
  rewrite map_map. cbn. rewrite <- !app_assoc. reflexivity.
Qed.
Lemma c19 w a u vp fs t r : program w a -> has_proj POwn (w_item w) a = true -> value_of (w_item w) u vp fs -> replaceable fs ->
  1 <= panickers w (select true fs (u_ids u)) ->
  let evs := map dropped_in_place (select true fs (u_ids u)) ++ map dropped_elsewhere (select false fs (u_ids u)) in
  let n := panickers w (select true fs (u_ids u)) + panickers w (select false fs (u_ids u)) in
  exists s evs' x,
    call_method w "project_replace" (RPin true PlSelf) [RUser r] (holding u t Run) = Some (None, s) /\
    happens evs n Run evs' x /\
    ((x = Unwind /\ s = holding r (t ++ map read_out (select false fs (u_ids u)) ++ evs' ++ [EvWrite r]) Unwind) \/
     (x = Abort /\ s_stat s = Abort /\ s_trace s = t ++ map read_out (select false fs (u_ids u)) ++ evs')).
Proof.
  intros Hp Hh Hv Hre Hz evs n. pose proof (run_replace w a u vp fs t r Hp Hh Hv Hre) as R. unfold replaced_spec in R. cbn zeta in R.
  set (pins := select true fs (u_ids u)) in *. set (rest := select false fs (u_ids u)) in *.
  set (res := call_method w _ _ _ _) in *. clearbody res.
  assert (E1 : map dropped_in_place pins = map ev_drop (map in_place pins)) by (rewrite map_map; reflexivity).
  assert (E2 : map dropped_elsewhere rest = map ev_drop (map moved rest)) by (rewrite map_map; reflexivity).
  destruct (Nat.eq_dec (panickers w pins) 1) as [P1|P1].
  - pose proof P1 as P. rewrite <- count_in_place in P. rewrite (drops_one w _ P) in R. cbn [fst snd] in R.
    destruct (Nat.eq_dec (panickers w rest) 0) as [P2|P2].
    + pose proof P2 as Q. rewrite <- count_moved in Q. rewrite (drops_clean w _ Unwind eq_refl Q) in R. cbn [fst snd alive] in R.
      exists (holding r (t ++ map read_out rest ++ evs ++ [EvWrite r]) Unwind), evs, Unwind.
      split; [|split].
      * rewrite R. unfold evs. rewrite E1, E2, <- !app_assoc. reflexivity.
      * apply H_one. unfold n. lia.
      * left. split; reflexivity.
    + destruct (drops_unwind w (map moved rest)) as (l1 & l2 & El & D); [rewrite count_moved; lia|].
      rewrite D in R. cbn [fst snd alive] in R. destruct R as (sl & ->).
      eexists. exists (map dropped_in_place pins ++ map ev_drop l1), Abort.
      split; [reflexivity|]. split.
      * apply (H_two _ _ _ (map ev_drop l2)); [unfold n; lia|]. unfold evs. rewrite E2, El, map_app, app_assoc. reflexivity.
      * right. split; [reflexivity|]. split; [reflexivity|]. cbn [s_trace]. rewrite E1, <- !app_assoc. reflexivity.
  - destruct (drops_abort w (map in_place pins)) as (l1 & l2 & El & D); [rewrite count_in_place; lia|].
    rewrite D in R. cbn [fst snd] in R. rewrite (drops_dead w (map moved rest) Abort eq_refl) in R. cbn [fst snd alive] in R. destruct R as (sl & ->).
    eexists. exists (map ev_drop l1), Abort. split; [reflexivity|]. split.
    + apply (H_two _ _ _ (map ev_drop l2 ++ map dropped_elsewhere rest)); [unfold n; lia|].
      unfold evs. rewrite E1, El, map_app, app_assoc. reflexivity.
    + right. split; [reflexivity|]. split; [reflexivity|]. cbn [s_trace]. rewrite app_nil_r, <- !app_assoc. reflexivity.
Qed.

(** What happens to the values. *)
Lemma destroyed_app a b : destroyed (a ++ b) = destroyed a ++ destroyed b. Proof. apply flat_map_app. Qed.
Lemma destroyed_reads l : destroyed (map read_out l) = [].
Proof. induction l; cbn; auto. Qed.
Lemma destroyed_place l : destroyed (map dropped_in_place l) = map snd l.
Proof. induction l as [|x l IH]; cbn; [reflexivity|]. f_equal. exact IH. Qed.
Lemma destroyed_else l : destroyed (map dropped_elsewhere l) = map snd l.
Proof. induction l as [|x l IH]; cbn; [reflexivity|]. f_equal. exact IH. Qed.
Lemma stored_holding u t x : stored (holding u t x) = u_ids u.
Proof. unfold stored, holding. cbn [s_slots]. induction (u_ids u) as [|i l IH]; cbn; [reflexivity|]. f_equal. exact IH. Qed.
Lemma select_perm fs ids : length ids = length (fields_list fs) ->
  Permutation (map snd (select true fs ids) ++ map snd (select false fs ids)) ids.
Proof.
  unfold select. rewrite numbered_enum. generalize 0. revert ids. induction (fields_list fs) as [|f l IH]; intros [|i ids] k H; try discriminate; cbn; [constructor|].
  specialize (IH ids (S k) (eq_add_S _ _ H)). destruct (is_pinned f); cbn [Bool.eqb app map snd].
  - apply perm_skip. exact IH.
  - rewrite <- Permutation_middle. apply perm_skip. exact IH.
Qed.
Lemma owned_taken fs ids : length ids = length (fields_list fs) ->
  flat_map (fun f => owned (snd f)) (taken fs ids) = map snd (select false fs ids).
Proof.
  unfold select, taken. rewrite numbered_enum. generalize 0. revert ids. induction (fields_list fs) as [|f l IH]; intros [|i ids] k H; try discriminate; cbn; [reflexivity|].
  rewrite (IH ids (S k)) by (injection H; auto). destruct (is_pinned f); reflexivity.
Qed.
Lemma c19_conserved w a u vp fs t r v s : program w a -> has_proj POwn (w_item w) a = true -> value_of (w_item w) u vp fs -> replaceable fs ->
  call_method w "project_replace" (RPin true PlSelf) [RUser r] (holding u t Run) = Some (v, s) -> s_stat s <> Abort ->
  exists ev, s_trace s = t ++ ev /\
    Permutation (destroyed ev ++ owned_opt v) (u_ids u) /\ stored s = u_ids r.
Proof.
  intros Hp Hh Hv Hre E Ha. pose proof (value_length _ _ _ _ Hv) as Hl.
  destruct (Nat.eq_dec (panickers w (select true fs (u_ids u))) 0) as [Z|Z].
  - rewrite (c18 w a u vp fs t r Hp Hh Hv Hre Z) in E. injection E as <- <-. eexists. split; [reflexivity|].
    split; [|apply stored_holding]. rewrite !destroyed_app, destroyed_reads, destroyed_place. cbn [destroyed flat_map app].
    rewrite app_nil_r. cbn [owned_opt owned]. rewrite (owned_taken fs _ Hl). apply select_perm. exact Hl.
  - destruct (c19 w a u vp fs t r Hp Hh Hv Hre ltac:(lia)) as (s' & ev & x & E' & Hh' & [[-> ->]|(-> & Hs & _)]).
    + rewrite E' in E. injection E as <- <-. eexists. split; [reflexivity|]. split; [|apply stored_holding].
      rewrite !destroyed_app, destroyed_reads. cbn [destroyed flat_map app owned_opt]. rewrite !app_nil_r.
      inversion Hh'; subst. rewrite destroyed_app, destroyed_place, destroyed_else. apply select_perm. exact Hl.
    + rewrite E' in E. injection E as <- <-. congruence.
Qed.
(** ** C17 for [project_replace] *)
Lemma c17_replace w a u vp fs t r : program w a -> has_proj POwn (w_item w) a = true -> value_of (w_item w) u vp fs -> replaceable fs ->
  exists v s, call_method w "project_replace" (RPin true PlSelf) [RUser r] (holding u t Run) = Some (v, s) /\ s_stat s <> Stuck /\
    (forall x, v = Some x -> exists l, x = RProj (proj_name POwn a (name_of (w_item w)) :: vp) l /\ map fst l = map f_ident (fields_list fs)) /\
    (v = None -> s_stat s <> Run).
Proof.
  intros Hp Hh Hv Hre.
  destruct (Nat.eq_dec (panickers w (select true fs (u_ids u))) 0) as [Z|Z].
  - rewrite (c18 w a u vp fs t r Hp Hh Hv Hre Z). eexists. eexists. split; [reflexivity|]. split; [discriminate|]. split; [|discriminate].
    intros x E. injection E as <-. eexists. split; [reflexivity|]. apply taken_names. apply (value_length _ _ _ _ Hv).
  - destruct (c19 w a u vp fs t r Hp Hh Hv Hre ltac:(lia)) as (s' & ev & x & E' & Hh' & Hc). rewrite E'.
    eexists. eexists. split; [reflexivity|]. destruct Hc as [[-> ->]|(-> & Hs & _)].
    + split; [discriminate|]. split; [discriminate|]. intros _. discriminate.
    + rewrite Hs. split; [discriminate|]. split; [discriminate|]. intros _. discriminate.
Qed.
Lemma c17_project w a k u vp fs t : k <> POwn -> program w a -> has_proj k (w_item w) a = true -> value_of (w_item w) u vp fs ->
  exists l s, call_method w (name (proj_method k)) (RPin (match k with PRef => false | _ => true end) PlSelf) [] (holding u t Run) =
    Some (Some (RProj (proj_name k a (name_of (w_item w)) :: vp) l), s) /\ map fst l = map f_ident (fields_list fs) /\ s_stat s = Run.
Proof.
  intros Hk Hp Hh Hv. pose proof (run_project w a k u vp fs t Hk Hp Hh Hv) as R. unfold mname, kmut in R. rewrite R.
  eexists. eexists. split; [reflexivity|]. split; [apply references_names|reflexivity].
Qed.

(** ** C20 *)
Lemma program_leaky b w a : program w a -> program (with_leaky b w) a.
Proof. intros [H1 H2 H3 H4 H5 H6 H7]. constructor; assumption. Qed.
Lemma drops_leaky b w l : forall x, drops (with_leaky b w) l x = drops w l x.
Proof. induction l as [|[p i] l IH]; intros x; cbn; [reflexivity|]. rewrite IH. reflexivity. Qed.
Lemma c20 b w a u vp fs t r v s : program w a -> has_proj POwn (w_item w) a = true -> value_of (w_item w) u vp fs -> replaceable fs ->
  call_method w "project_replace" (RPin true PlSelf) [RUser r] (holding u t Run) = Some (v, s) ->
  exists s', call_method (with_leaky b w) "project_replace" (RPin true PlSelf) [RUser r] (holding u t Run) = Some (v, s') /\
    s_trace s' = s_trace s /\ s_stat s' = s_stat s /\ (s_stat s <> Abort -> s' = s).
Proof.
  intros Hp Hh Hv Hre E. pose proof (run_replace w a u vp fs t r Hp Hh Hv Hre) as R. rewrite E in R.
  pose proof (run_replace (with_leaky b w) a u vp fs t r (program_leaky b w a Hp) Hh Hv Hre) as R'.
  unfold replaced_spec in R, R'. cbn zeta in R, R'. rewrite !drops_leaky in R'.
  destruct (snd (drops w (map in_place (select true fs (u_ids u))) Run)).
  - injection R as -> ->. rewrite R'. eexists. split; [reflexivity|]. auto.
  - destruct (drops w (map moved (select false fs (u_ids u))) Unwind) as [ev y]. cbn [fst snd] in *.
    destruct (alive y) eqn:A.
    + injection R as -> ->. rewrite R'. eexists. split; [reflexivity|]. auto.
    + destruct R as (sl & R). injection R as -> ->. destruct R' as (sl' & ->). eexists. split; [reflexivity|]. cbn. destruct y; try discriminate.
      * split; [reflexivity|]. split; [reflexivity|]. intros X. elim X. reflexivity.
      * exfalso. clear -E Hp Hh Hv Hre. destruct (c17_replace w a u vp fs t r Hp Hh Hv Hre) as (v' & s' & E' & Hs & _).
        rewrite E' in E. injection E as _ ->. apply Hs. reflexivity.
  - destruct (drops w (map moved (select false fs (u_ids u))) Abort) as [ev y]. cbn [fst snd] in *.
    destruct (alive y) eqn:A.
    + injection R as -> ->. rewrite R'. eexists. split; [reflexivity|]. auto.
    + destruct R as (sl & R). injection R as -> ->. destruct R' as (sl' & ->). eexists. split; [reflexivity|]. cbn. destruct y; try discriminate.
      * split; [reflexivity|]. split; [reflexivity|]. intros X. elim X. reflexivity.
      * exfalso. clear -E Hp Hh Hv Hre. destruct (c17_replace w a u vp fs t r Hp Hh Hv Hre) as (v' & s' & E' & Hs & _).
        rewrite E' in E. injection E as _ ->. apply Hs. reflexivity.
  - rewrite drops_dead in R by reflexivity. cbn [alive snd fst] in R. destruct R as (sl & R). injection R as _ ->.
    exfalso. destruct (c17_replace w a u vp fs t r Hp Hh Hv Hre) as (v' & s' & E' & Hs & _).
    rewrite E' in E. injection E as _ ->. apply Hs. reflexivity.
Qed.

(** ** C23, C25 *)
Lemma in_place_all u : map in_place (enum_from 0 (u_ids u)) = map in_place (all_fields u).
Proof. unfold all_fields. rewrite numbered_enum. reflexivity. Qed.
Lemma numbered_snd {A} (l : list A) : map snd (numbered l) = l.
Proof. rewrite numbered_enum. apply enum_from_snd. Qed.
Lemma temp_all u : map (fun id => (PlTemp, id)) (u_ids u) = map moved (all_fields u).
Proof.
  unfold all_fields. rewrite <- (numbered_snd (u_ids u)) at 1. rewrite map_map. apply map_ext. reflexivity.
Qed.
Lemma happens_in_place w u x : alive x = true \/ x = Abort ->
  happens (map dropped_in_place (all_fields u)) (panickers w (all_fields u)) x
    (fst (drops w (map in_place (all_fields u)) x)) (snd (drops w (map in_place (all_fields u)) x)).
Proof. intros H. rewrite <- count_in_place. apply (happens_count w in_place). exact H. Qed.
Lemma happens_elsewhere w u x : alive x = true \/ x = Abort ->
  happens (map dropped_elsewhere (all_fields u)) (panickers w (all_fields u)) x
    (fst (drops w (map moved (all_fields u)) x)) (snd (drops w (map moved (all_fields u)) x)).
Proof. intros H. rewrite <- count_moved. apply (happens_count w moved). exact H. Qed.
Lemma bumped_eq b x : bumped b x = if b then after_panic x else x. Proof. destruct b, x; reflexivity. Qed.
Lemma bumped_ok b x : alive x = true -> alive (bumped b x) = true \/ bumped b x = Abort.
Proof. destruct b, x; cbn; auto; discriminate. Qed.

Lemma c23 w a u t x : program w a -> ar_pinned_drop a = true -> x = Run \/ x = Unwind ->
  exists ev y, s_trace (drop_self w (holding u t x)) = t ++ [EvBody PlSelf] ++ ev /\ s_stat (drop_self w (holding u t x)) = y /\
    happens (map dropped_in_place (all_fields u)) (panickers w (all_fields u))
      (if w_body_panics w t then after_panic x else x) ev y /\
    (y <> Abort -> drop_self w (holding u t x) = emptied u (t ++ [EvBody PlSelf] ++ ev) y).
Proof.
  intros Hp Ha Hx. assert (A : alive x = true) by (destruct Hx; subst; reflexivity).
  destruct (drop_self_run w a u t x Hp) as (sl & E & E2). unfold glue in E, E2. rewrite Ha, A, in_place_all in E, E2. cbn zeta in E, E2.
  cbn [fst snd] in E, E2. eexists. eexists. rewrite E. cbn [s_trace s_stat]. split; [reflexivity|]. split; [reflexivity|].
  pose proof (happens_in_place w u (bumped (w_body_panics w t) x) (bumped_ok _ _ A)) as Hh.
  rewrite <- (bumped_eq (w_body_panics w t) x).
  split; [exact Hh|]. intros Hn. rewrite E in E2. apply E2.
  destruct (snd (drops w _ _)) eqn:D; try reflexivity; [exfalso; apply Hn; reflexivity|].
  exfalso. inversion Hh as [? ? Ex| | | |]; subst.
  destruct (w_body_panics w t), x; discriminate.
Qed.
Lemma c23_elsewhere w a u s : program w a -> ar_pinned_drop a = true -> s_stat s = Run \/ s_stat s = Unwind ->
  exists ev y, drop_user w u s = mkSt (s_var s) (s_slots s) (s_trace s ++ [EvBody PlTemp] ++ ev) y /\
    happens (map dropped_elsewhere (all_fields u)) (panickers w (all_fields u))
      (if w_body_panics w (s_trace s) then after_panic (s_stat s) else s_stat s) ev y.
Proof.
  intros Hp Ha Hx. assert (A : alive (s_stat s) = true) by (destruct Hx as [-> | ->]; reflexivity).
  rewrite (drop_user_run w a u s Hp). unfold glue. rewrite Ha, A, temp_all. cbn zeta. cbn [fst snd].
  eexists. eexists. split; [reflexivity|].
  rewrite <- (bumped_eq (w_body_panics w (s_trace s)) (s_stat s)).
  apply happens_elsewhere. apply bumped_ok. exact A.
Qed.
Lemma c25 w a u t x : program w a -> ar_pinned_drop a = false -> x = Run \/ x = Unwind ->
  exists ev y, s_trace (drop_self w (holding u t x)) = t ++ ev /\ s_stat (drop_self w (holding u t x)) = y /\
    happens (map dropped_in_place (all_fields u)) (panickers w (all_fields u)) x ev y /\
    (y <> Abort -> drop_self w (holding u t x) = emptied u (t ++ ev) y).
Proof.
  intros Hp Ha Hx. assert (A : alive x = true) by (destruct Hx; subst; reflexivity).
  destruct (drop_self_run w a u t x Hp) as (sl & E & E2). unfold glue in E, E2. rewrite Ha, in_place_all in E, E2. cbn zeta in E, E2.
  eexists. eexists. rewrite E. cbn [s_trace s_stat]. split; [reflexivity|]. split; [reflexivity|].
  pose proof (happens_in_place w u x (or_introl A)) as Hh.
  split; [exact Hh|]. intros Hn. rewrite E in E2. apply E2.
  destruct (snd (drops w _ _)) eqn:D; try reflexivity; [exfalso; apply Hn; reflexivity|].
  exfalso. inversion Hh; subst; discriminate.
Qed.
Lemma c25_elsewhere w a u s : program w a -> ar_pinned_drop a = false -> s_stat s = Run \/ s_stat s = Unwind ->
  exists ev y, drop_user w u s = mkSt (s_var s) (s_slots s) (s_trace s ++ ev) y /\
    happens (map dropped_elsewhere (all_fields u)) (panickers w (all_fields u)) (s_stat s) ev y.
Proof.
  intros Hp Ha Hx. assert (A : alive (s_stat s) = true) by (destruct Hx as [-> | ->]; reflexivity).
  rewrite (drop_user_run w a u s Hp). unfold glue. rewrite Ha, temp_all. cbn zeta.
  eexists. eexists. split; [reflexivity|]. apply happens_elsewhere. left. exact A.
Qed.
Lemma c25_no_impl it e a : parse_derive it = Ok e -> options (attrs_of it) a -> ar_pinned_drop a = false ->
  forall x, In x (all_items e) -> ~ implements (support ["__private"; "Drop"]) x.
Proof.
  intros H Ho Ha x Hx (im & -> & Hi). apply derive_form in H.
  destruct H as [(s & b & -> & _ & Ho' & ->)|(s & b & -> & _ & Ho' & ->)].
  - rewrite (options_unique _ _ _ Ho Ho') in Ha. revert Hx Ha. unfold all_items.
    cases_options b; cbn [ar_pinned_drop]; intros Hx Ha; try discriminate; cbn in Hx;
      repeat (destruct Hx as [Hx|Hx]; [try discriminate Hx; injection Hx as <-; discriminate Hi|]); destruct Hx.
  - rewrite (options_unique _ _ _ Ho Ho') in Ha. revert Hx Ha. unfold all_items.
    cases_options b; cbn [ar_pinned_drop]; intros Hx Ha; try discriminate; cbn in Hx;
      repeat (destruct Hx as [Hx|Hx]; [try discriminate Hx; injection Hx as <-; discriminate Hi|]); destruct Hx.
Qed.

(** ** C42 *)
Lemma generated_introduced it e a : parse_derive it = Ok e -> options (attrs_of it) a ->
  flat_map introduces (all_items e) = generated_names it a.
Proof.
  intros H Ho. unfold all_items, generated_names. rewrite flat_map_app. destruct it as [s|en|]; [| |discriminate].
  - destruct (c12_struct _ _ _ H Ho) as [-> ->]. rewrite <- !app_assoc. reflexivity.
  - destruct (c12_enum _ _ _ H Ho) as [-> ->]. reflexivity.
Qed.
Lemma c42_program w a : parse_derive (w_item w) = Ok (w_exp w) -> options (attrs_of (w_item w)) a ->
  (forall fs, In fs (fields_of (w_item w)) -> fields_legal fs) -> NoDup (map name (variant_names (w_item w))) ->
  NoDup (map name (name_of (w_item w) :: param_idents (params_of (w_item w)) ++ generated_names (w_item w) a)) ->
  (forall fs nf, In fs (fields_of (w_item w)) -> In nf (numbered (fields_list fs)) -> w_consts w (field_var nf) = false) ->
  (forall s, In s ["__self_ptr"; "__guard"; "__result"; "__pinned_self"] -> w_consts w (I s) = false) ->
  program w a.
Proof.
  intros H Ho Hf Hv Hn Hc Hl. constructor; auto. rewrite (generated_introduced _ _ _ H Ho). exact Hn.
Qed.
