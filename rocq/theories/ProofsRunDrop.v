(** Dropping values of the user's type. *)
From Coq Require Import String Ascii List Bool Arith Lia.
From Verif Require Import Base Syntax ModelArgs ModelUtils ModelDerive ModelRun.
From Verif Require Import SpecArgs SpecDerive SpecExpand SpecRun.
From Verif Require Import ProofsArgs ProofsUtils ProofsDerive ProofsExpand ProofsTypes ProofsRun ProofsRunProj ProofsRunReplace.
Import ListNotations.
Open Scope string_scope.
Open Scope list_scope.

(** ** Which destructor there is *)
Lemma drop_impl_pp w l un g self ms : scope_ok w ->
  forall tr, tr = Path false (map (fun i => Seg i GNone) (pp l)) ->
  is_drop_impl w (OImpl (mkImpl un g (Some tr) self ms)) =
  match Some l with Some ["__private"; "Drop"] => ms | _ => [] end.
Proof.
  intros Hw tr ->. cbn [is_drop_impl i_trait i_methods]. rewrite map_map, map_id, (support_pp w Hw). reflexivity.
Qed.
Lemma drop_impl_short w un g i self ms : is_drop_impl w (OImpl (mkImpl un g (Some (Path false [Seg i GNone])) self ms)) = [].
Proof.
  cbn [is_drop_impl i_trait i_methods map support_path]. destruct (ident_is i "_pin_project"); [|reflexivity].
  destruct (resolve w i) as [[]|]; try reflexivity. destruct (ident_is _ _); reflexivity.
Qed.
Lemma drop_unpin w cx tys : scope_ok w -> flat_map (is_drop_impl w) (make_unpin_impl cx tys) = [].
Proof.
  intros Hw. unfold make_unpin_impl, empty_impl. destruct (ar_unpin (cx_args cx)); cbn [flat_map app];
    rewrite ?(drop_impl_pp w ["__private"; "Unpin"] _ _ _ _ Hw _ eq_refl), ?(drop_impl_pp w ["UnsafeUnpin"] _ _ _ _ Hw _ eq_refl); reflexivity.
Qed.
Definition drop_method : method := mkMethod VInherited false (I "drop") [] RecvRefMut [] None drop_body.
Lemma drop_drop w cx : scope_ok w -> flat_map (is_drop_impl w) (make_drop_impl cx) =
  if ar_pinned_drop (cx_args cx) then [drop_method] else [].
Proof.
  intros Hw. unfold make_drop_impl. destruct (ar_pinned_drop (cx_args cx)); cbn [flat_map].
  - rewrite (drop_impl_pp w ["__private"; "Drop"] _ _ _ _ Hw _ eq_refl). reflexivity.
  - rewrite !drop_impl_short, (drop_impl_pp w ["__private"; "PinnedDrop"] _ _ _ _ Hw _ eq_refl). reflexivity.
Qed.
Lemma program_drop w a : program w a ->
  flat_map (is_drop_impl w) (scoped (w_exp w)) = if ar_pinned_drop a then [drop_method] else [].
Proof.
  intros Hp. pose proof (program_scope _ _ Hp) as Hw. pose proof (pg_expansion _ _ Hp) as He.
  pose proof (pg_options _ _ Hp) as Ho. destruct (w_item w) as [s|e|]; [| |discriminate He].
  - destruct (struct_form _ _ _ He Ho) as [_ E]. rewrite E. unfold struct_out. cbn [scoped flat_map]. rewrite !flat_map_app.
    rewrite (drop_unpin w _ _ Hw), (drop_drop w _ Hw).
    cases_options a; reflexivity.
  - destruct (enum_form _ _ _ He Ho) as [_ E]. rewrite E. unfold enum_out. cbn [scoped flat_map]. rewrite !flat_map_app.
    rewrite (drop_unpin w _ _ Hw), (drop_drop w _ Hw). reflexivity.
Qed.

(** The empty [PinnedDrop] impl is only there without the argument. *)
Lemma program_dummy w a : program w a -> existsb is_dummy_impl (scoped (w_exp w)) = negb (ar_pinned_drop a).
Proof.
  intros Hp. pose proof (pg_expansion _ _ Hp) as He. pose proof (pg_options _ _ Hp) as Ho.
  destruct (w_item w) as [s|e|]; [| |discriminate He].
  - destruct (struct_form _ _ _ He Ho) as [_ E]. rewrite E. 
    cases_options a; cbn - [String.append ident_is last]; unfold is_dummy_impl; cbn; rewrite ?orb_true_r, ?orb_false_r; reflexivity.
  - destruct (enum_form _ _ _ He Ho) as [_ E]. rewrite E.
    cases_options a; cbn; rewrite ?orb_true_r, ?orb_false_r; reflexivity.
Qed.

(** ** The generated [Drop] impl *)
Definition bumped (b : bool) (x : stat) : stat := if b then bump x else x.
Lemma call_drop_body w a p s : program w a -> ar_pinned_drop a = true -> s_stat s = Run ->
  exists o, call w no_user drop_method (RRef true p) [] s =
    Some (o, mkSt (s_var s) (s_slots s) (s_trace s ++ [EvBody p]) (bumped (w_body_panics w (s_trace s)) Run)).
Proof.
  intros Hp Ha Hr. pose proof (program_scope _ _ Hp) as Hw. unfold call. cbn [drop_method m_params m_body length Nat.eqb combine map rev app].
  unfold drop_body. cbn [run_body run_stmts]. unfold running at 1. rewrite Hr. cbn [run_stmt eval_rhs eval_atom].
  change (is_wild (PBind (I "__pinned_self"))) with false. cbv iota.
  unfold eval_call at 1. rewrite (support_pp w Hw). cbn [get_var].
  assert (same_name (I "self") (I "self") = true) as E by reflexivity. rewrite E.
  cbn [coerce bind_pat move_var]. rewrite E, (pg_locals _ _ Hp "__pinned_self") by (cbn; auto). cbn [app].
  unfold running at 1. rewrite Hr. unfold eval_call. rewrite (support_pp w Hw). cbn [get_var].
  assert (same_name (I "__pinned_self") (I "__pinned_self") = true) as E2 by reflexivity. rewrite E2.
  rewrite (program_dummy w a Hp), Ha. cbn [negb move_var]. rewrite E2.
  destruct (w_body_panics w (s_trace s)); cbn [bumped bump].
  - unfold panic, add_event. cbn [s_stat]. rewrite Hr. cbn [drop_rv set_stat s_var s_slots s_trace].
    unfold finish, running. cbn [s_stat drop_env]. eexists. reflexivity.
  - unfold add_event. cbn [drop_rv]. unfold finish, running. cbn [s_stat]. rewrite Hr. cbn [drop_env s_stat].
    eexists. unfold ret_ok. cbn [m_ret]. reflexivity.
Qed.

Lemma call_drop_yes w a p s : program w a -> ar_pinned_drop a = true -> alive (s_stat s) = true ->
  call_drop w p s = mkSt (s_var s) (s_slots s) (s_trace s ++ [EvBody p]) (bumped (w_body_panics w (s_trace s)) (s_stat s)).
Proof.
  intros Hp Ha Hal. unfold call_drop. rewrite (program_drop w a Hp), Ha. unfold running, live.
  destruct (s_stat s) eqn:E; try discriminate.
  - destruct (call_drop_body w a p s Hp Ha E) as (o & ->). reflexivity.
  - destruct (call_drop_body w a p (set_stat s Run) Hp Ha eq_refl) as (o & ->). cbn [set_stat s_var s_slots s_trace s_stat].
    destruct (w_body_panics w (s_trace s)); reflexivity.
Qed.
Lemma call_drop_no w a p s : program w a -> ar_pinned_drop a = false -> call_drop w p s = s.
Proof.
  intros Hp Ha. unfold call_drop. rewrite (program_drop w a Hp), Ha. destruct (running s), (live s); reflexivity.
Qed.
Lemma call_drop_dead w p s : alive (s_stat s) = false -> call_drop w p s = s.
Proof. unfold call_drop, running, live. destruct (s_stat s); try discriminate; reflexivity. Qed.

(** ** Fields, in order *)
Lemma drops_alive_prefix w l : forall x, alive (snd (drops w l x)) = true -> fst (drops w l x) = map ev_drop l.
Proof.
  induction l as [|[p id] l IH]; intros x; cbn [drops map]; [reflexivity|].
  destruct (alive x) eqn:E; [|cbn; congruence].
  specialize (IH (if w_panics w id then bump x else x)).
  destruct (drops w l _) as [ev y]. cbn [fst snd] in *. intros H. rewrite (IH H). reflexivity.
Qed.
Lemma drop_slots_run w ids : forall pre s, s_slots s = pre ++ map Some ids ->
  exists sl, drop_slots w (length pre) (length ids) s =
    mkSt (s_var s) sl (s_trace s ++ fst (drops w (map in_place (enum_from (length pre) ids)) (s_stat s)))
      (snd (drops w (map in_place (enum_from (length pre) ids)) (s_stat s))) /\
    (alive (snd (drops w (map in_place (enum_from (length pre) ids)) (s_stat s))) = true -> sl = pre ++ map (fun _ => None) ids).
Proof.
  induction ids as [|id ids IH]; intros pre s Hs; cbn [length drop_slots enum_from map drops in_place fst snd].
  - exists (s_slots s). rewrite app_nil_r, mkSt_eta. split; [reflexivity|]. intros _. exact Hs.
  - unfold drop_slot at 1. rewrite live_alive. destruct (alive (s_stat s)) eqn:E.
    + assert (nth_error (s_slots s) (length pre) = Some (Some id)) as ->.
      { rewrite Hs, nth_error_app2, Nat.sub_diag by lia. reflexivity. }
      rewrite drop_id_eq by exact E. cbn [s_var s_slots s_trace s_stat].
      assert (Hset : set_nth (length pre) None (s_slots s) = (pre ++ [None]) ++ map Some ids).
      { rewrite Hs. clear. induction pre as [|x pre IH]; cbn; [reflexivity|]. f_equal. exact IH. }
      rewrite Hset. specialize (IH (pre ++ [None]) (mkSt (s_var s) ((pre ++ [None]) ++ map Some ids)
        (s_trace s ++ [EvDrop (PlField (length pre)) id]) (if w_panics w id then bump (s_stat s) else s_stat s)) eq_refl).
      rewrite app_length in IH. cbn [length] in IH. rewrite Nat.add_1_r in IH. destruct IH as (sl & -> & IH).
      cbn [s_var s_slots s_trace s_stat] in *. exists sl.
      destruct (drops w (map in_place (enum_from (S (length pre)) ids)) _) as [ev y]. cbn [fst snd] in *.
      split; [rewrite <- app_assoc; reflexivity|]. intros H. rewrite (IH H), <- app_assoc. reflexivity.
    + assert (forall n k s', alive (s_stat s') = false -> drop_slots w k n s' = s') as Hd.
      { induction n as [|n IHn]; intros k s' H'; cbn [drop_slots]; [reflexivity|].
        unfold drop_slot. rewrite live_alive, H'. apply IHn. exact H'. }
      rewrite (Hd _ _ _ E). exists (s_slots s). cbn [fst snd]. rewrite app_nil_r, E, mkSt_eta. split; [reflexivity|discriminate].
Qed.
Lemma drop_ids_run w ids : forall s, drop_ids w ids s =
  mkSt (s_var s) (s_slots s) (s_trace s ++ fst (drops w (map (fun id => (PlTemp, id)) ids) (s_stat s)))
    (snd (drops w (map (fun id => (PlTemp, id)) ids) (s_stat s))).
Proof.
  induction ids as [|id ids IH]; intros s; cbn [drop_ids map drops].
  - cbn. rewrite app_nil_r, mkSt_eta. reflexivity.
  - rewrite IH. destruct (alive (s_stat s)) eqn:E.
    + rewrite drop_id_eq by exact E. cbn [s_var s_slots s_trace s_stat].
      destruct (drops w _ _) as [ev y]. cbn [fst snd]. rewrite <- app_assoc. reflexivity.
    + rewrite drop_id_dead by exact E. rewrite drops_dead by exact E. reflexivity.
Qed.

(** ** Dropping a whole value *)
(** The destructor calls of a value: the body, if any, then the fields. *)
Definition glue (w : world) (a : args) (p : place) (fields : list (place * nat)) (t : list event) (x : stat) : list event * stat :=
  if ar_pinned_drop a then
    if alive x then
      let d := drops w fields (bumped (w_body_panics w t) x) in (EvBody p :: fst d, snd d)
    else ([], x)
  else drops w fields x.

Lemma drop_self_run w a u t x : program w a ->
  let g := glue w a PlSelf (map in_place (enum_from 0 (u_ids u))) t x in
  exists sl, drop_self w (holding u t x) = mkSt (u_var u) sl (t ++ fst g) (snd g) /\
    (alive (snd g) = true -> drop_self w (holding u t x) = emptied u (t ++ fst g) (snd g)).
Proof.
  intros Hp g. unfold drop_self. cbn [holding s_slots]. rewrite map_length.
  assert (exists s1 x1 t1, call_drop w PlSelf (holding u t x) = s1 /\ s1 = holding u t1 x1 /\
    fst g = (skipn (length t) t1) ++ fst (drops w (map in_place (enum_from 0 (u_ids u))) x1) /\ t1 = t ++ skipn (length t) t1 /\
    snd g = snd (drops w (map in_place (enum_from 0 (u_ids u))) x1)) as (s1 & x1 & t1 & E1 & E2 & E3 & E4 & E5).
  { unfold g, glue. destruct (ar_pinned_drop a) eqn:Ea.
    - destruct (alive x) eqn:Ex.
      + exists (holding u (t ++ [EvBody PlSelf]) (bumped (w_body_panics w t) x)), (bumped (w_body_panics w t) x), (t ++ [EvBody PlSelf]).
        rewrite (call_drop_yes w a PlSelf (holding u t x) Hp Ea Ex).
        assert (skipn (length t) (t ++ [EvBody PlSelf]) = [EvBody PlSelf]) as ->.
        { rewrite skipn_app, skipn_all, Nat.sub_diag. reflexivity. }
        repeat split; reflexivity.
      + exists (holding u t x), x, t. rewrite call_drop_dead by exact Ex. rewrite skipn_all, app_nil_r, drops_dead by exact Ex.
        repeat split; reflexivity.
    - exists (holding u t x), x, t. rewrite (call_drop_no w a _ _ Hp Ea), skipn_all, app_nil_r. repeat split; reflexivity. }
  rewrite E1, E2.
  destruct (drop_slots_run w (u_ids u) [] (holding u t1 x1) eq_refl) as (sl & Hd & Hsl). cbn [length] in Hd.
  cbn [holding s_slots s_var s_trace s_stat] in *. rewrite Hd, E3, E5.
  exists sl. rewrite app_assoc, <- E4. split; [reflexivity|]. intros H. rewrite (Hsl H). reflexivity.
Qed.
Lemma drop_user_run w a u s : program w a ->
  let g := glue w a PlTemp (map (fun id => (PlTemp, id)) (u_ids u)) (s_trace s) (s_stat s) in
  drop_user w u s = mkSt (s_var s) (s_slots s) (s_trace s ++ fst g) (snd g).
Proof.
  intros Hp g. unfold drop_user, g, glue. destruct (ar_pinned_drop a) eqn:Ea.
  - destruct (alive (s_stat s)) eqn:Ex.
    + rewrite (call_drop_yes w a PlTemp s Hp Ea Ex), drop_ids_run. cbn [s_var s_slots s_trace s_stat fst snd].
      rewrite <- app_assoc. reflexivity.
    + rewrite call_drop_dead by exact Ex. rewrite drop_ids_run, drops_dead by exact Ex. reflexivity.
  - rewrite (call_drop_no w a _ _ Hp Ea), drop_ids_run. reflexivity.
Qed.
