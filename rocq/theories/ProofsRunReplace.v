(** Running [project_replace]. *)
From Coq Require Import String Ascii List Bool Arith Lia.
From Verif Require Import Base Syntax ModelArgs ModelUtils ModelDerive ModelRun.
From Verif Require Import SpecArgs SpecDerive SpecExpand SpecRun.
From Verif Require Import ProofsArgs ProofsUtils ProofsDerive ProofsExpand ProofsTypes ProofsRun ProofsRunProj.
Import ListNotations.
Open Scope string_scope.
Open Scope list_scope.

(** ** Sequences of destructors *)
Definition bump (x : stat) : stat := match x with Run => Unwind | Unwind => Abort | y => y end.
Definition alive (x : stat) : bool := match x with Run | Unwind => true | _ => false end.
Fixpoint drops (w : world) (l : list (place * nat)) (x : stat) : list event * stat :=
  match l with
  | [] => ([], x)
  | (p, id) :: r =>
    if alive x then
      let '(ev, y) := drops w r (if w_panics w id then bump x else x) in (EvDrop p id :: ev, y)
    else ([], x)
  end.
Definition count (w : world) (l : list (place * nat)) : nat := length (filter (fun x => w_panics w (snd x)) l).
Definition ev_drop (x : place * nat) : event := EvDrop (fst x) (snd x).

Lemma drops_dead w l x : alive x = false -> drops w l x = ([], x).
Proof. intros H. destruct l as [|[p id] l]; cbn; [reflexivity|]. rewrite H. reflexivity. Qed.
Lemma drops_clean w l x : alive x = true -> count w l = 0 -> drops w l x = (map ev_drop l, x).
Proof.
  intros Hx. induction l as [|[p id] l IH]; intros H; cbn [drops map]; [reflexivity|].
  rewrite Hx. unfold count in *. cbn [filter snd] in H. destruct (w_panics w id); [discriminate|].
  rewrite IH by exact H. reflexivity.
Qed.
Lemma drops_one w l : count w l = 1 -> drops w l Run = (map ev_drop l, Unwind).
Proof.
  induction l as [|[p id] l IH]; intros H; [discriminate|]. cbn [drops map alive].
  unfold count in *. cbn [filter snd] in H. destruct (w_panics w id); cbn [bump].
  - rewrite drops_clean; [reflexivity|reflexivity|]. injection H as H. exact H.
  - rewrite IH by exact H. reflexivity.
Qed.
Lemma drops_unwind w l : 1 <= count w l -> exists l1 l2, l = l1 ++ l2 /\ drops w l Unwind = (map ev_drop l1, Abort).
Proof.
  induction l as [|[p id] l IH]; intros H; [unfold count in H; cbn in H; lia|]. cbn [drops alive].
  unfold count in *. cbn [filter snd] in H. destruct (w_panics w id); cbn [bump].
  - exists [(p, id)], l. split; [reflexivity|]. rewrite drops_dead; reflexivity.
  - destruct (IH H) as (l1 & l2 & -> & E). exists ((p, id) :: l1), l2. split; [reflexivity|]. rewrite E. reflexivity.
Qed.
Lemma drops_abort w l : 2 <= count w l -> exists l1 l2, l = l1 ++ l2 /\ drops w l Run = (map ev_drop l1, Abort).
Proof.
  induction l as [|[p id] l IH]; intros H; [unfold count in H; cbn in H; lia|]. cbn [drops alive].
  unfold count in *. cbn [filter snd] in H. destruct (w_panics w id); cbn [bump].
  - destruct (drops_unwind w l) as (l1 & l2 & -> & E); [unfold count; cbn in H; lia|].
    exists ((p, id) :: l1), l2. split; [reflexivity|]. rewrite E. reflexivity.
  - destruct (IH H) as (l1 & l2 & -> & E). exists ((p, id) :: l1), l2. split; [reflexivity|]. rewrite E. reflexivity.
Qed.

Lemma live_alive s : live s = alive (s_stat s). Proof. reflexivity. Qed.
Lemma mkSt_eta s : mkSt (s_var s) (s_slots s) (s_trace s) (s_stat s) = s. Proof. destruct s; reflexivity. Qed.
Lemma nth_set_other {A} n (x : A) l m : n <> m -> nth_error (set_nth n x l) m = nth_error l m.
Proof.
  revert n m. induction l as [|y l IH]; intros [|n] [|m] H; cbn; try reflexivity; [elim H; reflexivity|].
  apply IH. lia.
Qed.

(** One destructor. *)
Lemma drop_id_eq w p id s : alive (s_stat s) = true ->
  drop_id w p id s = mkSt (s_var s) (s_slots s) (s_trace s ++ [EvDrop p id]) (if w_panics w id then bump (s_stat s) else s_stat s).
Proof.
  intros H. unfold drop_id. rewrite live_alive, H. unfold add_event, panic, set_stat. cbn.
  destruct (w_panics w id); [|reflexivity]. destruct (s_stat s) eqn:E; cbn; reflexivity.
Qed.
Lemma drop_id_dead w p id s : alive (s_stat s) = false -> drop_id w p id s = s.
Proof. intros H. unfold drop_id. rewrite live_alive, H. reflexivity. Qed.

(** ** Guards for the pinned fields *)
Definition guard_of (x : nat * nat) : ident * option rv := (I "__guard", Some (RDropGuard (PlField (fst x)))).
Definition in_place (x : nat * nat) : place * nat := (PlField (fst x), snd x).
Definition moved (x : nat * nat) : place * nat := (PlTemp, snd x).

Lemma drop_guards w ud js : forall s,
  (forall x, In x js -> nth_error (s_slots s) (fst x) = Some (Some (snd x))) -> NoDup (map fst js) ->
  exists slots', drop_env w ud (map guard_of js) s =
    mkSt (s_var s) slots' (s_trace s ++ fst (drops w (map in_place js) (s_stat s))) (snd (drops w (map in_place js) (s_stat s))).
Proof.
  induction js as [|[i id] js IH]; intros s Hs Hn.
  - exists (s_slots s). cbn. rewrite app_nil_r, mkSt_eta. reflexivity.
  - cbn [map guard_of drop_env drop_rv drop_in_place fst in_place snd drops] in *.
    inversion Hn as [|x y Hx Hy]; subst. unfold drop_slot. rewrite live_alive.
    destruct (alive (s_stat s)) eqn:E.
    + pose proof (Hs (i, id) (or_introl eq_refl)) as Hi. cbn [fst snd] in Hi. rewrite Hi.
      rewrite drop_id_eq by exact E. cbn [s_var s_slots s_trace s_stat].
      destruct (IH (mkSt (s_var s) (set_nth i None (s_slots s)) (s_trace s ++ [EvDrop (PlField i) id])
                     (if w_panics w id then bump (s_stat s) else s_stat s))) as (sl & Hsl).
      * intros z Hz. cbn [s_slots]. rewrite nth_set_other; [apply Hs; right; exact Hz|].
        intros E2. apply Hx. rewrite E2. apply in_map. exact Hz.
      * exact Hy.
      * exists sl. rewrite Hsl. cbn [s_var s_slots s_trace s_stat].
        destruct (drops w (map in_place js) _) as [ev y]. cbn [fst snd]. rewrite <- app_assoc. reflexivity.
    + destruct (IH s) as (sl & Hsl); [intros z Hz; apply Hs; right; exact Hz|exact Hy|].
      exists sl. rewrite Hsl, drops_dead by exact E. reflexivity.
Qed.

Lemma block_stmts w ud ss e s : run_stmt w ud (SBlock ss) e s = option_map (leave w ud (length e)) (run_stmts w ud ss e s).
Proof.
  cbn [run_stmt]. f_equal. revert e s. induction ss as [|x ss IH]; intros e s; cbn [run_stmts]; [reflexivity|].
  destruct (running s); [|reflexivity]. destruct (run_stmt w ud x e s) as [[e1 s1]|]; [apply IH|reflexivity].
Qed.

Definition guard_rev (bs : list (ident * nat)) : env :=
  rev (map (fun b => (I "__guard", Some (RDropGuard (PlField (snd b))))) bs).
Lemma run_guards w ud bs : scope_ok w -> w_consts w (I "__guard") = false -> forall e s, s_stat s = Run ->
  (forall b, In b bs -> get_var (fst b) e = Some (RRef true (PlField (snd b)))) ->
  (forall b, In b (tl bs) -> name (fst b) <> "__guard") ->
  run_stmts w ud (map guard_stmt (map fst bs)) e s = Some (guard_rev bs ++ e, s).
Proof.
  intros Hw Hc. induction bs as [|[b j] bs IH]; intros e s Hr Hg Hn; cbn [map run_stmts fst]; [reflexivity|].
  unfold running. rewrite Hr. cbn [guard_stmt run_stmt eval_rhs eval_atom]. change (is_wild (PBind (I "__guard"))) with false. unfold eval_call.
  rewrite (support_pp w Hw). pose proof (Hg (b, j) (or_introl eq_refl)) as Hb. cbn [fst snd] in Hb. rewrite Hb.
  cbn [coerce bind_pat]. rewrite Hc. cbn [app]. rewrite IH.
  - unfold guard_rev. cbn [map rev snd]. rewrite <- app_assoc. reflexivity.
  - exact Hr.
  - intros [c k] Hin. cbn [get_var fst snd].
    assert (same_name c (I "__guard") = false) as -> by (apply same_name_false; apply (Hn (c, k)); exact Hin).
    apply (Hg (c, k)). right; exact Hin.
  - intros c Hin. apply Hn. destruct bs; [destruct Hin|right; exact Hin].
Qed.

(** ** Taking the unpinned fields out *)
Definition slot_id (slots : list (option nat)) (i : nat) : nat :=
  match nth_error slots i with Some (Some id) => id | _ => 0 end.
Definition own_val (slots : list (option nat)) (nf : nat * field) : rv :=
  if pin_b (snd nf) then RPhantom else RVal (slot_id slots (fst nf)).
Definition sel (b : bool) (slots : list (option nat)) (nl : list (nat * field)) : list (nat * nat) :=
  map (fun nf => (fst nf, slot_id slots (fst nf))) (filter (fun nf => Bool.eqb (pin_b (snd nf)) b) nl).

Lemma eval_move_fields w d l : scope_ok w -> forall k e s,
  (forall nf, In nf (enum_from k l) -> get_var (binding nf) e = Some (RRef true (PlField (fst nf)))) ->
  (forall nf, In nf (enum_from k l) -> exists id, nth_error (s_slots s) (fst nf) = Some (Some id)) ->
  eval_fields w (map move_of (enum_from k l)) d e s =
    Some (map (fun nf => (f_ident (snd nf), own_val (s_slots s) nf)) (enum_from k l), e,
          mkSt (s_var s) (s_slots s) (s_trace s ++ map read_out (sel false (s_slots s) (enum_from k l))) (s_stat s)).
Proof.
  intros Hw. induction l as [|f l IH]; intros k e s Hg Hs; cbn [enum_from map eval_fields].
  - unfold sel. cbn. rewrite app_nil_r, mkSt_eta. reflexivity.
  - unfold move_of at 1. cbn [snd]. unfold own_val at 1. unfold sel. cbn [snd filter].
    destruct (Hs (k, f) (or_introl eq_refl)) as (id & Hid). cbn [fst] in Hid.
    pose proof (Hg (k, f) (or_introl eq_refl)) as Hb. cbn [fst] in Hb.
    destruct (pin_b f); cbn [Bool.eqb eval_atom].
    + unfold pp_priv. rewrite (support_pp w Hw). rewrite IH.
      * destruct d as [[]|]; try reflexivity; destruct (f_ident f); reflexivity.
      * intros nf Hin. apply Hg. right; exact Hin.
      * intros nf Hin. apply Hs. right; exact Hin.
    + unfold eval_call. rewrite (support_pp w Hw), Hb, Hid. rewrite IH.
      * unfold add_event. cbn [s_var s_slots s_trace s_stat map fst].
        assert (slot_id (s_slots s) k = id) as E by (unfold slot_id; rewrite Hid; reflexivity).
        rewrite E. unfold sel. rewrite <- app_assoc.
        destruct d as [[]|]; try reflexivity; destruct (f_ident f); reflexivity.
      * intros nf Hin. apply Hg. right; exact Hin.
      * intros nf Hin. apply Hs. right; exact Hin.
Qed.

Lemma drop_own w ud path slots nl : forall s,
  drop_rv w ud (RProj path (map (fun nf => (f_ident (snd nf), own_val slots nf)) nl)) s =
  mkSt (s_var s) (s_slots s) (s_trace s ++ fst (drops w (map moved (sel false slots nl)) (s_stat s)))
       (snd (drops w (map moved (sel false slots nl)) (s_stat s))).
Proof.
  cbn [drop_rv]. induction nl as [|[n f] nl IH]; intros s.
  - cbn. rewrite app_nil_r, mkSt_eta. reflexivity.
  - cbn [map].
    assert (own_val slots (n, f) = if pin_b f then RPhantom else RVal (slot_id slots n)) as -> by reflexivity.
    unfold sel. cbn [snd fst filter]. destruct (pin_b f); cbn [Bool.eqb drop_rv].
    + apply IH.
    + rewrite IH. cbn [map moved snd drops]. fold (sel false slots nl). destruct (alive (s_stat s)) eqn:E.
      * rewrite drop_id_eq by exact E. cbn [s_var s_slots s_trace s_stat].
        destruct (drops w (map moved (sel false slots nl)) _) as [ev y]. cbn [fst snd]. rewrite <- app_assoc. reflexivity.
      * rewrite drop_id_dead by exact E. rewrite drops_dead by exact E. reflexivity.
Qed.

Lemma fits_own slots nf : fits (own_ty (snd nf)) (own_val slots nf) = true.
Proof. unfold own_ty, own_val. destruct (pin_b (snd nf)); reflexivity. Qed.

(** ** The statements that [proj_own_body] makes, and the end of the function *)

(** Variables of a [project_replace] call after the pattern. *)
Definition rep_env (l : list field) (r : uval) : env :=
  binds true 0 l ++ [(I "__guard", Some (ROverGuard PlSelf r)); (I "__self_ptr", Some (RPtr PlSelf));
                     (I "__replacement", None); (I "self", None)].
Definition pinned_js (slots : list (option nat)) (l : list field) : list (nat * nat) := sel true slots (enum_from 0 l).
Definition unpinned_js (slots : list (option nat)) (l : list field) : list (nat * nat) := sel false slots (enum_from 0 l).

Definition not_result (l : list field) : Prop := forall nf, In nf (enum_from 0 l) -> pin_b (snd nf) = true -> name (binding nf) <> "__result".
Definition not_guard (l : list field) : Prop := forall l1 x l2 y l3, enum_from 0 l = l1 ++ x :: l2 ++ y :: l3 ->
  pin_b (snd x) = true -> pin_b (snd y) = true -> name (binding x) <> "__guard".

Lemma pinned_guards l : map (fun nf : nat * field => (binding nf, fst nf)) (filter (fun nf => pin_b (snd nf)) (enum_from 0 l)) =
  map (fun nf => (binding nf, fst nf)) (filter (fun nf => Bool.eqb (pin_b (snd nf)) true) (enum_from 0 l)).
Proof. f_equal. apply filter_ext. intros nf. destruct (pin_b (snd nf)); reflexivity. Qed.

Lemma filter_app_inv {A} (f : A -> bool) l : forall p x q, filter f l = p ++ x :: q ->
  exists l1 l2, l = l1 ++ x :: l2 /\ filter f l1 = p /\ filter f l2 = q /\ f x = true.
Proof.
  induction l as [|z l IH]; intros p x q H; cbn [filter] in H.
  - destruct p; discriminate.
  - destruct (f z) eqn:E.
    + destruct p as [|y p].
      * injection H as -> H. exists [], l. auto.
      * injection H as -> H. destruct (IH _ _ _ H) as (l1 & l2 & -> & H1 & H2 & H3).
        exists (y :: l1), l2. cbn [filter]. rewrite E, H1. auto.
    + destruct (IH _ _ _ H) as (l1 & l2 & -> & H1 & H2 & H3). exists (z :: l1), l2. cbn [filter]. rewrite E. auto.
Qed.

(** What the call does, up to the contents of [*self] when the process is aborted. *)
Definition replaced (w : world) (path : list ident) (l : list field) (s : st) (r : uval) (res : option (option rv * st)) : Prop :=
  let slots := s_slots s in
  let t := s_trace s ++ map read_out (unpinned_js slots l) in
  let d1 := drops w (map in_place (pinned_js slots l)) Run in
  match snd d1 with
  | Run => res = Some (Some (RProj path (map (fun nf => (f_ident (snd nf), own_val slots nf)) (enum_from 0 l))),
                       holding r ((t ++ fst d1) ++ [EvWrite r]) Run)
  | x =>
    let d2 := drops w (map moved (unpinned_js slots l)) x in
    if alive (snd d2) then res = Some (None, holding r (((t ++ fst d1) ++ fst d2) ++ [EvWrite r]) (snd d2))
    else exists sl, res = Some (None, mkSt (s_var s) sl ((t ++ fst d1) ++ fst d2) (snd d2))
  end.

Lemma own_stmts_run w ud path fs r s : scope_ok w -> fields_legal fs ->
  w_consts w (I "__guard") = false -> w_consts w (I "__result") = false ->
  lit_fields w path = Some (rebuild_fields fs (map (retype own_ty) (fields_list fs))) ->
  not_result (fields_list fs) -> not_guard (fields_list fs) -> s_stat s = Run ->
  (forall nf, In nf (enum_from 0 (fields_list fs)) -> exists id, nth_error (s_slots s) (fst nf) = Some (Some id)) ->
  replaced w path (fields_list fs) s r
    match run_stmts w ud (own_stmts path fs) (rep_env (fields_list fs) r) s with
    | Some (e1, s1) => finish w ud (Some (RAtom (AVar (I "__result")))) e1 s1
    | None => None
    end.
Proof.
  intros Hw Hl Hcg Hcr Hlit Hnr Hng Hr Hs. unfold own_stmts. cbn [run_stmts]. unfold running at 1. rewrite Hr.
  set (l := fields_list fs) in *. set (slots := s_slots s) in *.
  pose proof (legal_vars fs Hl) as Hv. fold l in Hv.
  assert (Hg : forall nf, In nf (enum_from 0 l) -> get_var (binding nf) (rep_env l r) = Some (RRef true (PlField (fst nf)))).
  { intros nf Hin. apply get_binds; assumption. }
  change (run_stmt w ud (SLet (PBind (I "__result")) None (RLit path (fields_delim fs) (map move_of (enum_from 0 l))))
            (rep_env l r) s) with
    (match eval_rhs w (RLit path (fields_delim fs) (map move_of (enum_from 0 l))) (rep_env l r) s with
     | Some (v, e1, s1) =>
       match coerce None v with
       | Some v' => match bind_pat w (PBind (I "__result")) v' s1 with Some bs => Some (bs ++ e1, s1) | None => None end
       | None => None
       end
     | None => None
     end).
  cbn [eval_rhs]. rewrite Hlit. rewrite (eval_move_fields w (fields_delim fs) l Hw 0 (rep_env l r) s Hg Hs).
  fold slots. pose proof (build_ok fs own_ty (own_val slots) Hl (fun nf _ => fits_own slots nf)) as Hb. fold l in Hb. rewrite Hb.
  cbn [coerce bind_pat]. rewrite Hcr. cbn [app].
  set (v := RProj path (map (fun nf => (f_ident (snd nf), own_val slots nf)) (enum_from 0 l))).
  set (e1 := (I "__result", Some v) :: rep_env l r).
  set (s1 := mkSt (s_var s) slots (s_trace s ++ map read_out (sel false slots (enum_from 0 l))) (s_stat s)).
  unfold running. cbn [s1 s_stat]. rewrite Hr. rewrite block_stmts.
  set (pl := filter (fun nf => pin_b (snd nf)) (enum_from 0 l)).
  assert (Epb : rev (pinned_bindings l) = map fst (rev (map (fun nf : nat * field => (binding nf, fst nf)) pl))).
  { unfold pinned_bindings. rewrite map_rev. f_equal. rewrite map_map. reflexivity. }
  rewrite Epb. rewrite (run_guards w ud (rev (map (fun nf : nat * field => (binding nf, fst nf)) pl)) Hw Hcg e1 s1).
  2: exact Hr.
  2:{ intros b Hb'. apply in_rev in Hb'. apply in_map_iff in Hb'. destruct Hb' as (nf & <- & Hin).
      apply filter_In in Hin. destruct Hin as [Hin Hp]. cbn [fst snd]. unfold e1. cbn [get_var].
      assert (same_name (binding nf) (I "__result") = false) as -> by (apply same_name_false; apply Hnr; assumption).
      apply Hg. exact Hin. }
  2:{ intros b Hb'.
      assert (exists q y, map (fun nf : nat * field => (binding nf, fst nf)) pl = q ++ [y] /\ In b q) as (q & y & Eq & Hq).
      { destruct (rev (map (fun nf : nat * field => (binding nf, fst nf)) pl)) as [|y q] eqn:E; [destruct Hb'|].
        exists (rev q), y. split.
        - rewrite <- (rev_involutive (map _ pl)), E. reflexivity.
        - apply in_rev in Hb'. exact Hb'. }
      apply map_eq_app in Eq. destruct Eq as (p1 & p2 & Epl & <- & Ey).
      destruct p2 as [|y0 [|]]; try discriminate. apply in_map_iff in Hq. destruct Hq as (x & <- & Hx).
      apply in_split in Hx. destruct Hx as (q1 & q2 & ->). cbn [fst].
      unfold pl in Epl. rewrite <- app_assoc in Epl. cbn [app] in Epl.
      apply filter_app_inv in Epl. destruct Epl as (a1 & a2 & E1 & _ & E2 & Hpx).
      apply filter_app_inv in E2. destruct E2 as (b1 & b2 & -> & _ & _ & Hpy).
      exact (Hng a1 x b1 y0 b2 E1 Hpx Hpy). }
  cbn [option_map]. unfold leave.
  assert (Elen : forall g : env, length (g ++ e1) - length e1 = length g) by (intros g; rewrite app_length; lia).
  rewrite Elen.
  assert (Esk : forall g : env, skipn (length g) (g ++ e1) = e1) by (intros g; rewrite skipn_app, skipn_all, Nat.sub_diag; reflexivity).
  assert (Efs : forall g : env, firstn (length g) (g ++ e1) = g)
    by (intros g; rewrite firstn_app, firstn_all, Nat.sub_diag; cbn; apply app_nil_r).
  rewrite Esk, Efs.
  assert (Egr : guard_rev (rev (map (fun nf : nat * field => (binding nf, fst nf)) pl)) = map guard_of (pinned_js slots l)).
  { unfold guard_rev, pinned_js, sel. rewrite map_rev, rev_involutive, !map_map.
    unfold pl. f_equal. apply filter_ext. intros nf. destruct (pin_b (snd nf)); reflexivity. }
  rewrite Egr.
  assert (Hjs : forall b x, In x (sel b slots (enum_from 0 l)) -> nth_error slots (fst x) = Some (Some (snd x))).
  { intros b x Hx. unfold sel in Hx. apply in_map_iff in Hx. destruct Hx as (nf & <- & Hx). apply filter_In in Hx.
    destruct (Hs nf (proj1 Hx)) as (id & Hid). cbn [fst snd]. unfold slot_id. fold slots in Hid. rewrite Hid. reflexivity. }
  assert (Hnd : NoDup (map fst (pinned_js slots l))).
  { unfold pinned_js, sel. rewrite map_map. cbn [fst]. clear. 
    assert (H : NoDup (map fst (enum_from 0 l))).
    { rewrite enum_from_combine. 
      assert (forall k, map fst (combine (seq k (length l)) l) = seq k (length l)) as ->.
      { induction l as [|x l IH]; intros k; cbn; [reflexivity|f_equal; apply IH]. }
      apply seq_NoDup. }
    induction (enum_from 0 l) as [|x q IH]; cbn [filter map]; [constructor|].
    cbn [map] in H. inversion H; subst. destruct (Bool.eqb _ _); cbn [map]; [|auto]. constructor; [|auto].
    intros E. apply H2. apply in_map_iff in E. destruct E as (y & E & Hy). apply filter_In in Hy.
    apply in_map_iff. exists y. split; [exact E|apply Hy]. }
  destruct (drop_guards w ud (pinned_js slots l) s1) as (sl & Hsl); [intros x Hx; apply (Hjs true); exact Hx|exact Hnd|].
  rewrite Hsl. cbn [s1 s_var s_trace s_stat] in *. rewrite Hr in *.
  unfold replaced. fold slots. fold (unpinned_js slots l). 
  destruct (drops w (map in_place (pinned_js slots l)) Run) as [ev1 x1]. cbn [fst snd].
  set (T := s_trace s ++ map read_out (unpinned_js slots l)).
  unfold finish, running. cbn [s_stat].
  assert (Hdrop : forall x, drop_env w ud e1 (mkSt (s_var s) sl (T ++ ev1) x) =
    drop_env w ud (rep_env l r) (drop_rv w ud v (mkSt (s_var s) sl (T ++ ev1) x))) by reflexivity.
  assert (Hover : forall y sl' tr, drop_env w ud (rep_env l r) (mkSt y sl' tr Run) = holding r (tr ++ [EvWrite r]) Run /\
    (forall x, alive x = true -> drop_env w ud (rep_env l r) (mkSt y sl' tr x) = holding r (tr ++ [EvWrite r]) x) /\
    (forall x, alive x = false -> drop_env w ud (rep_env l r) (mkSt y sl' tr x) = mkSt y sl' tr x)).
  { intros y sl' tr.
    assert (forall x, alive x = true -> drop_env w ud (rep_env l r) (mkSt y sl' tr x) = holding r (tr ++ [EvWrite r]) x) as H1.
    { intros x Hx. unfold rep_env. rewrite drop_env_app, (drop_inert w ud (binds true 0 l)) by apply binds_inert.
      cbn [drop_env drop_rv overwrite]. unfold overwrite. rewrite live_alive. cbn [s_stat]. rewrite Hx. reflexivity. }
    split; [apply H1; reflexivity|]. split; [exact H1|].
    intros x Hx. unfold rep_env. rewrite drop_env_app, (drop_inert w ud (binds true 0 l)) by apply binds_inert.
    cbn [drop_env drop_rv overwrite]. unfold overwrite. rewrite live_alive. cbn [s_stat]. rewrite Hx. reflexivity. }
  destruct x1.
  - (* no panic: the result is returned *)
    cbn [eval_rhs eval_atom]. unfold e1. cbn [get_var move_var]. rewrite same_name_refl. cbn [drop_env].
    rewrite (proj1 (Hover _ _ _)). cbn [holding s_stat]. fold v. reflexivity.
  - rewrite Hdrop. unfold v. rewrite drop_own. cbn [s_var s_slots s_trace s_stat]. fold (unpinned_js slots l).
    destruct (drops w (map moved (unpinned_js slots l)) Unwind) as [ev2 x2]. cbn [fst snd].
    destruct (alive x2) eqn:Ea.
    + rewrite (proj1 (proj2 (Hover _ _ _)) x2 Ea). reflexivity.
    + exists sl. rewrite (proj2 (proj2 (Hover _ _ _)) x2 Ea). reflexivity.
  - rewrite Hdrop. unfold v. rewrite drop_own. cbn [s_var s_slots s_trace s_stat]. fold (unpinned_js slots l).
    destruct (drops w (map moved (unpinned_js slots l)) Abort) as [ev2 x2]. cbn [fst snd].
    destruct (alive x2) eqn:Ea.
    + rewrite (proj1 (proj2 (Hover _ _ _)) x2 Ea). reflexivity.
    + exists sl. rewrite (proj2 (proj2 (Hover _ _ _)) x2 Ea). reflexivity.
  - rewrite Hdrop. unfold v. rewrite drop_own. cbn [s_var s_slots s_trace s_stat]. fold (unpinned_js slots l).
    destruct (drops w (map moved (unpinned_js slots l)) Stuck) as [ev2 x2]. cbn [fst snd].
    destruct (alive x2) eqn:Ea.
    + rewrite (proj1 (proj2 (Hover _ _ _)) x2 Ea). reflexivity.
    + exists sl. rewrite (proj2 (proj2 (Hover _ _ _)) x2 Ea). reflexivity.
Qed.

(** ** The whole call *)
Lemma slot_id_nth pre id ids : slot_id (map Some (pre ++ id :: ids)) (length pre) = id.
Proof.
  unfold slot_id. rewrite map_app, nth_error_app2; rewrite map_length; [|lia]. rewrite Nat.sub_diag. reflexivity.
Qed.
Lemma sel_select b self l : forall pre ids, length ids = length l ->
  sel b (map Some (pre ++ ids)) (enum_from (length pre) (map (replace_field self) l)) =
  flat_map (fun x => if Bool.eqb (is_pinned (fst (snd x))) b then [(fst x, snd (snd x))] else [])
    (enum_from (length pre) (combine l ids)).
Proof.
  induction l as [|f l IH]; intros pre [|id ids] H; try discriminate; [reflexivity|].
  unfold sel in *. cbn [map enum_from combine filter flat_map snd fst]. rewrite pin_b_replace, <- is_pinned_pin_b.
  injection H as H. specialize (IH (pre ++ [id]) ids H). rewrite app_length in IH. cbn [length] in IH.
  rewrite <- plus_n_Sm, Nat.add_0_r, <- app_assoc in IH. cbn [app] in IH.
  destruct (Bool.eqb (is_pinned f) b); cbn [map app fst]; rewrite IH; [|reflexivity].
  f_equal. f_equal. apply slot_id_nth.
Qed.
Lemma sel_select0 b self fs ids : length ids = length (fields_list fs) ->
  sel b (map Some ids) (enum_from 0 (fields_list (replace_fields self fs))) = select b fs ids.
Proof.
  intros H. rewrite fields_list_replace. unfold select. rewrite numbered_enum. exact (sel_select b self _ [] ids H).
Qed.
Lemma own_taken self l : forall pre ids, length ids = length l ->
  map (fun nf => (f_ident (snd nf), own_val (map Some (pre ++ ids)) nf)) (enum_from (length pre) (map (replace_field self) l)) =
  map (fun fi => (f_ident (fst fi), if is_pinned (fst fi) then RPhantom else RVal (snd fi))) (combine l ids).
Proof.
  induction l as [|f l IH]; intros pre [|id ids] H; try discriminate; [reflexivity|].
  cbn [map enum_from combine fst snd replace_field f_ident]. injection H as H. specialize (IH (pre ++ [id]) ids H).
  rewrite app_length in IH. cbn [length] in IH. rewrite <- plus_n_Sm, Nat.add_0_r, <- app_assoc in IH. cbn [app] in IH.
  rewrite IH. f_equal. f_equal. unfold own_val. cbn [snd fst]. rewrite slot_id_nth.
  rewrite pin_b_replace, is_pinned_pin_b. reflexivity.
Qed.
Lemma own_taken0 self fs ids : length ids = length (fields_list fs) ->
  map (fun nf => (f_ident (snd nf), own_val (map Some ids) nf)) (enum_from 0 (fields_list (replace_fields self fs))) = taken fs ids.
Proof. intros H. rewrite fields_list_replace. exact (own_taken self _ [] ids H). Qed.

(** The same in the vocabulary of SpecRun. *)
Definition replaced_spec (w : world) (path : list ident) (fs : fields) (u : uval) (t0 : list event) (r : uval)
    (res : option (option rv * st)) : Prop :=
  let pins := select true fs (u_ids u) in
  let rest := select false fs (u_ids u) in
  let t := t0 ++ map read_out rest in
  let d1 := drops w (map in_place pins) Run in
  match snd d1 with
  | Run => res = Some (Some (RProj path (taken fs (u_ids u))), holding r ((t ++ fst d1) ++ [EvWrite r]) Run)
  | x =>
    let d2 := drops w (map moved rest) x in
    if alive (snd d2) then res = Some (None, holding r (((t ++ fst d1) ++ fst d2) ++ [EvWrite r]) (snd d2))
    else exists sl, res = Some (None, mkSt (u_var u) sl ((t ++ fst d1) ++ fst d2) (snd d2))
  end.
Lemma replaced_to_spec w path self fs u t r res : length (u_ids u) = length (fields_list fs) ->
  replaced w path (fields_list (replace_fields self fs)) (holding u t Run) r res ->
  replaced_spec w path fs u t r res.
Proof.
  intros H. unfold replaced, replaced_spec, pinned_js, unpinned_js. cbn [holding s_slots s_trace s_var].
  rewrite !sel_select0, own_taken0 by exact H. auto.
Qed.

Lemma replaceable_result self fs : replaceable fs -> fields_legal fs -> not_result (fields_list (replace_fields self fs)).
Proof.
  intros [H _] Hl nf Hin Hp. rewrite fields_list_replace, enum_from_map in Hin. apply in_map_iff in Hin.
  destruct Hin as ([n f] & <- & Hin). cbn [snd fst] in *. rewrite pin_b_replace, <- is_pinned_pin_b in Hp.
  unfold binding. cbn [snd fst replace_field f_ident]. destruct (f_ident f) as [i|] eqn:E; cbn [opt_or].
  - apply (H f i); auto. rewrite <- (enum_from_snd (fields_list fs) 0). apply (in_map snd) in Hin. exact Hin.
  - cbn. intros X. injection X as X. destruct (string_of_nat n) as [|c q] eqn:En; [discriminate|].
    injection X as -> _. clear -En. assert (H : forall c q, string_of_nat n = String c q -> c <> "_"%char).
    { intros c q' Hc Hx. subst c. unfold string_of_nat in Hc. destruct (Nat.to_uint n); cbn in Hc; discriminate. }
    exact (H _ _ En eq_refl).
Qed.
Lemma map_enum_split (g : field -> field) l l1 x l2 y l3 :
  enum_from 0 (map g l) = l1 ++ x :: l2 ++ y :: l3 ->
  exists a f b h c, l = a ++ f :: b ++ h :: c /\ snd x = g f /\ snd y = g h /\ fst x = length a.
Proof.
  intros H. assert (E : map g l = map snd l1 ++ snd x :: map snd l2 ++ snd y :: map snd l3).
  { rewrite <- (enum_from_snd (map g l) 0), H, map_app. cbn [map]. rewrite map_app. reflexivity. }
  apply map_eq_app in E. destruct E as (a & q & -> & Ea & E). destruct q as [|f q]; [discriminate|].
  cbn [map] in E. injection E as Ef E. apply map_eq_app in E. destruct E as (b & q' & -> & Eb & E).
  destruct q' as [|h c]; [discriminate|]. cbn [map] in E. injection E as Eh E.
  exists a, f, b, h, c. repeat split; auto.
  assert (nth_error (enum_from 0 (map g (a ++ f :: b ++ h :: c))) (length a) = Some x).
  { rewrite H, nth_error_app2; [|rewrite <- (map_length g a), Ea, map_length; lia].
    assert (length l1 = length a) as -> by (rewrite <- (map_length g a), Ea, map_length; reflexivity).
    rewrite Nat.sub_diag. reflexivity. }
  rewrite enum_from_nth in H0. destruct (nth_error _ (length a)); [|discriminate]. injection H0 as <-. reflexivity.
Qed.
Lemma replaceable_guard self fs : replaceable fs -> fields_legal fs -> not_guard (fields_list (replace_fields self fs)).
Proof.
  intros [_ H] Hl l1 x l2 y l3 E Hx Hy. rewrite fields_list_replace in E. apply map_enum_split in E.
  destruct E as (a & f & b & h & c & E & Ef & Eh & En). rewrite Ef, pin_b_replace, <- is_pinned_pin_b in Hx.
  rewrite Eh, pin_b_replace, <- is_pinned_pin_b in Hy.
  unfold binding. rewrite Ef. cbn [replace_field f_ident]. destruct (f_ident f) as [i|] eqn:Ei; cbn [opt_or].
  - exact (H _ _ _ _ _ i E Hx Hy Ei).
  - cbn. intros X. injection X as X. destruct (string_of_nat (fst x)) as [|c' q] eqn:Es; [discriminate|].
    injection X as -> _. unfold string_of_nat in Es. destruct (Nat.to_uint (fst x)); cbn in Es; discriminate.
Qed.

Lemma slots_ids self fs (ids : list nat) : length ids = length (fields_list fs) ->
  forall nf, In nf (enum_from 0 (fields_list (replace_fields self fs))) -> exists id, nth_error (map Some ids) (fst nf) = Some (Some id).
Proof.
  intros H [n f] Hin. apply enum_from_in in Hin. destruct Hin as [_ Hin]. rewrite Nat.sub_0_r in Hin. cbn [fst].
  assert (n < length (fields_list (replace_fields self fs))) as Hn by (apply nth_error_Some; congruence).
  rewrite fields_list_replace, map_length, <- H in Hn. apply nth_error_Some in Hn.
  destruct (nth_error ids n) as [id|] eqn:E; [|elim Hn; reflexivity]. exists id. apply map_nth_error. exact E.
Qed.

Lemma call_own w m fs u t r s n g rest : m_params m = [(I "__replacement", ty_self)] ->
  m_ret m = Some (TyPath None (Path false [Seg n g])) ->
  replaced_spec w (n :: rest) fs u t r
    (run_body w (drop_user w) (m_body m) [(I "__replacement", Some (RUser r)); (I "self", Some (RPin true PlSelf))] s) ->
  replaced_spec w (n :: rest) fs u t r (call w (drop_user w) m (RPin true PlSelf) [RUser r] s).
Proof.
  intros Hpar Hm H. unfold call. rewrite Hpar. cbn [length Nat.eqb combine map rev app fst snd].
  set (res := run_body w (drop_user w) (m_body m) _ s) in *. clearbody res.
  match goal with |- replaced_spec _ _ _ _ _ _ ?X => assert (X = res) as ->; [|exact H] end.
  unfold replaced_spec in H.
  destruct (snd (drops w (map in_place (select true fs (u_ids u))) Run)) in H.
  - subst res. unfold ret_ok. rewrite Hm, same_name_refl. reflexivity.
  - destruct (alive _) in H; [subst res; reflexivity|]. destruct H as (sl & ->). reflexivity.
  - destruct (alive _) in H; [subst res; reflexivity|]. destruct H as (sl & ->). reflexivity.
  - destruct (alive _) in H; [subst res; reflexivity|]. destruct H as (sl & ->). reflexivity.
Qed.

Lemma run_stmts_app w ud ss1 ss2 e s :
  run_stmts w ud (ss1 ++ ss2) e s =
  match run_stmts w ud ss1 e s with
  | Some (e1, s1) => run_stmts w ud ss2 e1 s1
  | None => None
  end.
Proof.
  revert e s. induction ss1 as [|x ss1 IH]; intros e s; cbn [app run_stmts]; [reflexivity|].
  destruct (running s) eqn:Er.
  - destruct (run_stmt w ud x e s) as [[e1 s1]|]; [apply IH|reflexivity].
  - destruct ss2; cbn [run_stmts]; [reflexivity|]. rewrite Er. reflexivity.
Qed.

(** The prologue. *)
Definition rep_env0 (r : uval) : env :=
  [(I "__guard", Some (ROverGuard PlSelf r)); (I "__self_ptr", Some (RPtr PlSelf)); (I "__replacement", None); (I "self", None)].
Lemma prologue_run w a ud r s : program w a -> s_stat s = Run ->
  run_stmts w ud replace_prologue [(I "__replacement", Some (RUser r)); (I "self", Some (RPin true PlSelf))] s = Some (rep_env0 r, s).
Proof.
  intros Hp Hr. unfold replace_prologue. cbn [run_stmts]. unfold running. rewrite Hr. cbn [run_stmt eval_rhs eval_atom].
  change (is_wild (PBind (I "__self_ptr"))) with false. change (is_wild (PBind (I "__guard"))) with false. cbv iota.
  assert (same_name (I "self") (I "__replacement") = false) as E1 by reflexivity.
  assert (same_name (I "self") (I "self") = true) as E2 by reflexivity.
  cbn [get_var]. rewrite E1, E2. assert (ident_is (I "get_unchecked_mut") "get_unchecked_mut" = true) as -> by reflexivity.
  cbn [move_var]. rewrite E1, E2. cbn [coerce bind_pat].
  rewrite (pg_locals _ _ Hp "__self_ptr") by (cbn; auto). cbn [app]. rewrite Hr.
  unfold eval_call. rewrite (support_pp w (program_scope _ _ Hp)). cbn [get_var].
  assert (same_name (I "__self_ptr") (I "__self_ptr") = true) as -> by reflexivity.
  assert (same_name (I "__replacement") (I "__self_ptr") = false) as E3 by reflexivity.
  assert (same_name (I "__replacement") (I "__replacement") = true) as E4 by reflexivity.
  rewrite E3, E4. cbn [move_var]. rewrite E3, E4. cbn [coerce bind_pat].
  rewrite (pg_locals _ _ Hp "__guard") by (cbn; auto). reflexivity.
Qed.
Lemma deref_ptr w r s : eval_atom w (ARefMutDeref (I "__self_ptr")) (rep_env0 r) s = Some (RRef true PlSelf, rep_env0 r, s).
Proof. reflexivity. Qed.

Lemma run_replace_struct w a s ids t r : program w a -> w_item w = ItStruct s -> struct_has POwn a = true ->
  length ids = length (fields_list (s_fields s)) -> replaceable (s_fields s) ->
  replaced_spec w [proj_name POwn a (s_ident s)] (s_fields s) (mkUval None ids) t r
    (call_method w "project_replace" (RPin true PlSelf) [RUser r] (holding (mkUval None ids) t Run)).
Proof.
  intros Hp Hi Hh Hlen Hre. unfold call_method.
  pose proof (struct_method w a s POwn Hp Hi Hh) as Hm. change (mname POwn) with "project_replace" in Hm. rewrite Hm.
  set (cx := struct_cx a (spelled_struct s)). set (self := self_type (s_ident s) (s_generics s)).
  set (fs := s_fields (spelled_struct s)). set (st0 := holding (mkUval None ids) t Run).
  assert (Hfs : In (s_fields s) (fields_of (w_item w))) by (rewrite Hi; left; reflexivity).
  assert (Hl0 : fields_legal (s_fields s)) by apply (pg_fields _ _ Hp _ Hfs).
  assert (Hl : fields_legal fs) by (apply legal_replace; exact Hl0).
  pose proof (program_bind w a (s_fields s) self true Hp Hfs) as Hb. cbn zeta in Hb.
  change (replace_fields self (s_fields s)) with fs in Hb.
  pose proof (struct_lit w a s POwn Hp Hi Hh) as Hlit. fold fs in Hlit.
  pose proof (self_struct w a s Hp Hi) as Hself.
  assert (Hbody : replaced_spec w [proj_name POwn a (s_ident s)] (s_fields s) (mkUval None ids) t r
    (run_body w (drop_user w) (add_prologue replace_prologue (struct_body_own (cx_own_ident cx) fs))
       [(I "__replacement", Some (RUser r)); (I "self", Some (RPin true PlSelf))] st0)).
  { apply (replaced_to_spec w _ self); [exact Hlen|]. unfold struct_body_own. cbn [add_prologue run_body].
    rewrite run_stmts_app, (prologue_run w a); [|exact Hp|reflexivity].
    cbn [run_stmts]. unfold running at 1. cbn [st0 holding s_stat]. fold st0.
    cbn [run_stmt eval_rhs]. rewrite deref_ptr. cbn [coerce]. unfold struct_pat. cbn [bind_pat].
    rewrite Hself. cbn [variant_matches st0 holding s_var u_var]. fold st0. rewrite Hb.
    change (replace_fields self (s_fields s)) with fs.
    apply (own_stmts_run w (drop_user w) [proj_name POwn a (s_ident s)] fs r st0); auto.
    - apply (program_scope _ _ Hp).
    - apply (pg_locals _ _ Hp). cbn; auto.
    - apply (pg_locals _ _ Hp). cbn; auto.
    - apply (replaceable_result self); assumption.
    - apply (replaceable_guard self); assumption.
    - exact (slots_ids self (s_fields s) ids Hlen). }
  eapply call_own; [reflexivity|reflexivity|exact Hbody].
Qed.

Lemma run_replace_enum w a e v ids t r : program w a -> w_item w = ItEnum e -> enum_has POwn a = true ->
  In v (e_variants e) -> length ids = length (fields_list (v_fields v)) -> replaceable (v_fields v) ->
  replaced_spec w [proj_name POwn a (e_ident e); v_ident v] (v_fields v) (mkUval (Some (v_ident v)) ids) t r
    (call_method w "project_replace" (RPin true PlSelf) [RUser r] (holding (mkUval (Some (v_ident v)) ids) t Run)).
Proof.
  intros Hp Hi Hh Hv Hlen Hre. unfold call_method.
  pose proof (enum_method w a e POwn Hp Hi Hh) as Hm. change (mname POwn) with "project_replace" in Hm. rewrite Hm.
  set (cx := enum_cx a (spelled_enum e)). set (self := self_type (e_ident e) (e_generics e)).
  set (fs := replace_fields self (v_fields v)). set (st0 := holding (mkUval (Some (v_ident v)) ids) t Run).
  set (vs := e_variants (spelled_enum e)).
  assert (Hfs : In (v_fields v) (fields_of (w_item w))) by (rewrite Hi; apply in_map; exact Hv).
  assert (Hl0 : fields_legal (v_fields v)) by apply (pg_fields _ _ Hp _ Hfs).
  assert (Hl : fields_legal fs) by (apply legal_replace; exact Hl0).
  pose proof (program_bind w a (v_fields v) self true Hp Hfs) as Hb. cbn zeta in Hb. fold fs in Hb.
  pose proof (enum_lit w a e POwn v Hp Hi Hh Hv) as Hlit. cbn zeta in Hlit. fold self fs in Hlit.
  pose proof (self_enum w a e v Hp Hi Hv) as Hself.
  assert (Hbody : replaced_spec w [proj_name POwn a (e_ident e); v_ident v] (v_fields v) (mkUval (Some (v_ident v)) ids) t r
    (run_body w (drop_user w) (add_prologue replace_prologue (enum_body_own (cx_own_ident cx) vs))
       [(I "__replacement", Some (RUser r)); (I "self", Some (RPin true PlSelf))] st0)).
  { apply (replaced_to_spec w _ self); [exact Hlen|]. unfold enum_body_own. cbn [add_prologue run_body].
    rewrite run_stmts_app, (prologue_run w a); [|exact Hp|reflexivity].
    cbn [run_stmts]. rewrite deref_ptr.
    rewrite (find_arm_variant (variant_arm_own (cx_own_ident cx)) vs (replace_variant self v)).
    - cbn [variant_arm_own arm_pat arm_stmts arm_tail]. unfold variant_pat. cbn [bind_pat].
      cbn [replace_variant v_ident v_fields]. fold fs.
      rewrite Hself. cbn [variant_matches st0 holding s_var u_var]. fold st0. rewrite same_name_refl, Hb.
      apply (own_stmts_run w (drop_user w) [proj_name POwn a (e_ident e); v_ident v] fs r st0); auto.
      + apply (program_scope _ _ Hp).
      + apply (pg_locals _ _ Hp). cbn; auto.
      + apply (pg_locals _ _ Hp). cbn; auto.
      + apply (replaceable_result self); assumption.
      + apply (replaceable_guard self); assumption.
      + exact (slots_ids self (v_fields v) ids Hlen).
    - unfold vs. cbn [spelled_enum replace_enum e_variants]. rewrite !map_map.
      pose proof (pg_variants _ _ Hp) as N. rewrite Hi in N. cbn [variant_names] in N. rewrite map_map in N. exact N.
    - apply in_map. exact Hv.
    - reflexivity.
    - reflexivity. }
  eapply call_own; [reflexivity|reflexivity|exact Hbody].
Qed.

Lemma run_replace w a u vp fs t r : program w a -> has_proj POwn (w_item w) a = true ->
  value_of (w_item w) u vp fs -> replaceable fs ->
  replaced_spec w (proj_name POwn a (name_of (w_item w)) :: vp) fs u t r
    (call_method w "project_replace" (RPin true PlSelf) [RUser r] (holding u t Run)).
Proof.
  intros Hp Hh Hv. remember (w_item w) as it eqn:Eit. destruct Hv as [s ids H|e v ids Hin H]; intros Hre.
  - apply run_replace_struct; auto.
  - apply run_replace_enum; auto.
Qed.
