(** [project_replace] compiles only for field names it can cope with. *)
From Coq Require Import String Ascii List Bool Arith Lia Permutation.
From Verif Require Import Base Syntax ModelArgs ModelUtils ModelDerive ModelRun.
From Verif Require Import SpecArgs SpecDerive SpecExpand SpecRun.
From Verif Require Import ProofsArgs ProofsUtils ProofsDerive ProofsExpand ProofsTypes ProofsRun ProofsRunProj ProofsRunReplace ProofsRunMain.
Import ListNotations.
Open Scope string_scope.
Open Scope list_scope.

Lemma get_var_name b c e : name b = name c -> get_var b e = get_var c e.
Proof.
  intros H. induction e as [|[y v] e IH]; cbn; [reflexivity|]. unfold same_name. rewrite H. destruct (String.eqb _ _); auto.
Qed.
Lemma get_same i e v : get_var i ((i, v) :: e) = v.
Proof. cbn. rewrite same_name_refl. reflexivity. Qed.
Lemma guards_compile w ud bs : scope_ok w -> forall e s p x, s_stat s = Run ->
  get_var (I "__result") e = Some (RProj p x) ->
  run_stmts w ud (map guard_stmt bs) e s <> None ->
  (forall b, In b bs -> name b <> "__result") /\
  (forall b, In b (tl bs) -> name b <> "__guard") /\
  ((exists q, get_var (I "__guard") e = Some (RDropGuard q)) -> forall b, In b bs -> name b <> "__guard").
Proof.
  intros Hw. induction bs as [|b bs IH]; intros e s p x Hr Hres H.
  - split; [intros b []|]. split; [intros b []|]. intros _ b [].
  - cbn [map run_stmts] in H. unfold running in H. rewrite Hr in H.
    assert (exists q, (get_var b e = Some (RRef true q) \/ get_var b e = Some (RPtr q)) /\
      run_stmts w ud (map guard_stmt bs) ((I "__guard", Some (RDropGuard q)) :: e) s <> None) as (q & Hb & H').
    { cbn [guard_stmt run_stmt eval_rhs eval_atom] in H. change (is_wild (PBind (I "__guard"))) with false in H. cbv iota in H. unfold eval_call in H. rewrite (support_pp w Hw) in H.
      destruct (get_var b e) as [[ |u|m q|m q|q| | | |q|q u]|] eqn:E; try (elim H; reflexivity).
      - destruct m; [|elim H; reflexivity]. exists q. split; [auto|].
        cbn [coerce bind_pat] in H. destruct (w_consts w (I "__guard")); [elim H; reflexivity|]. exact H.
      - exists q. split; [auto|]. cbn [coerce bind_pat] in H. destruct (w_consts w (I "__guard")); [elim H; reflexivity|]. exact H. }
    destruct (IH _ _ p x Hr (eq_trans (eq_refl : get_var (I "__result") ((I "__guard", Some (RDropGuard q)) :: e) = _) Hres) H') as (H1 & _ & H3).
    specialize (H3 (ex_intro _ q (get_same _ _ _))).
    split; [|split].
    + intros c [<-|Hc]; [|auto]. intros E. rewrite (get_var_name b (I "__result") e E), Hres in Hb. destruct Hb; discriminate.
    + exact H3.
    + intros (q' & Hq) c [<-|Hc]; [|auto]. intros E. rewrite (get_var_name b (I "__guard") e E), Hq in Hb. destruct Hb; discriminate.
Qed.

Lemma own_stmts_compile w ud path fs r s : scope_ok w -> fields_legal fs ->
  w_consts w (I "__result") = false ->
  lit_fields w path = Some (rebuild_fields fs (map (retype own_ty) (fields_list fs))) ->
  s_stat s = Run ->
  (forall nf, In nf (enum_from 0 (fields_list fs)) -> exists id, nth_error (s_slots s) (fst nf) = Some (Some id)) ->
  run_stmts w ud (own_stmts path fs) (rep_env (fields_list fs) r) s <> None ->
  not_result (fields_list fs) /\ not_guard (fields_list fs).
Proof.
  intros Hw Hl Hcr Hlit Hr Hs H. unfold own_stmts in H. cbn [run_stmts] in H. unfold running at 1 in H. rewrite Hr in H.
  set (l := fields_list fs) in *. set (slots := s_slots s) in *.
  pose proof (legal_vars fs Hl) as Hv. fold l in Hv.
  assert (Hg : forall nf, In nf (enum_from 0 l) -> get_var (binding nf) (rep_env l r) = Some (RRef true (PlField (fst nf)))).
  { intros nf Hin. apply get_binds; assumption. }
  change (run_stmt w ud (SLet (PBind (I "__result")) None (RLit path (fields_delim fs) (map move_of (enum_from 0 l))))
            (rep_env l r) s) with
    (match eval_rhs w (RLit path (fields_delim fs) (map move_of (enum_from 0 l))) (rep_env l r) s with
     | Some (v, e1, s1) =>
       match coerce None v with
       | Some v' => match bind_pat w (PBind (I "__result")) v' s1 with Some bs => Some (bs ++ e1, s1) | None => None end
       | None => None
       end
     | None => None
     end) in H.
  cbn [eval_rhs] in H. rewrite Hlit in H. rewrite (eval_move_fields w (fields_delim fs) l Hw 0 (rep_env l r) s Hg Hs) in H.
  fold slots in H. pose proof (build_ok fs own_ty (own_val slots) Hl (fun nf _ => fits_own slots nf)) as Hb. fold l in Hb. rewrite Hb in H.
  cbn [coerce bind_pat] in H. rewrite Hcr in H. cbn [app] in H. unfold running in H. cbn [s_stat] in H. rewrite Hr in H.
  rewrite block_stmts in H.
  match type of H with context [option_map _ (run_stmts w ud ?ss ?e ?s1)] =>
    assert (Hn : run_stmts w ud ss e s1 <> None) by (intros E; rewrite E in H; apply H; reflexivity) end.
  clear H. apply (guards_compile w ud (rev (pinned_bindings l)) Hw) with (p := path) (x := map (fun nf => (f_ident (snd nf), own_val slots nf)) (enum_from 0 l)) in Hn;
    [|reflexivity|apply get_same].
  destruct Hn as (H1 & H2 & _). unfold pinned_bindings in *. split.
  - intros nf Hin Hp. apply H1. rewrite <- in_rev. apply in_map. apply filter_In. auto.
  - intros l1 x l2 y l3 E Hx Hy. rewrite E in H2. rewrite filter_app in H2. cbn [filter] in H2. rewrite Hx, filter_app in H2.
    cbn [filter] in H2. rewrite Hy in H2. rewrite map_app in H2. cbn [map] in H2. rewrite map_app in H2. cbn [map] in H2.
    apply H2. rewrite rev_app_distr. cbn [rev]. rewrite rev_app_distr. cbn [rev].
    set (A := rev (map binding (filter _ l3))). set (B := rev (map binding (filter _ l2))). 
    assert (forall (q : list ident) z, In z q -> forall h, In z (tl (h :: q))) as Htl by (intros; assumption).
    destruct A as [|a A]; cbn [app tl].
    + apply in_or_app. left. apply in_or_app. right. left. reflexivity.
    + rewrite <- !app_assoc. apply in_or_app. right. apply in_or_app. right. apply in_or_app. right. left. reflexivity.
Qed.

Lemma not_result_replaceable self fs : not_result (fields_list (replace_fields self fs)) -> not_guard (fields_list (replace_fields self fs)) ->
  replaceable fs.
Proof.
  intros H1 H2. rewrite fields_list_replace in H1, H2. split.
  - intros f i Hin Hp Hi. apply In_nth_error in Hin. destruct Hin as (n & Hn).
    specialize (H1 (n, replace_field self f)). unfold binding in H1. cbn [snd fst replace_field f_ident] in H1. rewrite Hi in H1.
    cbn [opt_or] in H1. apply H1; [|rewrite <- Hp, is_pinned_pin_b; apply (pin_b_replace self f)].
    apply enum_from_in. split; [lia|]. rewrite Nat.sub_0_r. apply map_nth_error. exact Hn.
  - intros l1 f l2 g l3 i E Hf Hg Hi.
    assert (Esp : forall a x b y c k, enum_from k (map (replace_field self) (a ++ x :: b ++ y :: c)) =
      enum_from k (map (replace_field self) a) ++ (k + length a, replace_field self x) ::
      enum_from (S (k + length a)) (map (replace_field self) b) ++ (S (k + length a) + length b, replace_field self y) ::
      enum_from (S (S (k + length a) + length b)) (map (replace_field self) c)).
    { assert (Eapp : forall p q k, enum_from k (map (replace_field self) (p ++ q)) =
        enum_from k (map (replace_field self) p) ++ enum_from (k + length p) (map (replace_field self) q)).
      { induction p as [|z p IH]; intros q k; cbn [app map enum_from length]; [rewrite Nat.add_0_r; reflexivity|].
        rewrite IH. cbn [app]. do 3 f_equal. lia. }
      intros. rewrite Eapp. cbn [map enum_from]. rewrite Eapp. cbn [map enum_from]. reflexivity. }
    rewrite E in H2. specialize (H2 _ _ _ _ _ (Esp l1 f l2 g l3 0)). unfold binding in H2. cbn [snd fst replace_field f_ident] in H2.
    rewrite Hi in H2. cbn [opt_or] in H2. apply H2.
    + rewrite <- Hf, is_pinned_pin_b. apply (pin_b_replace self f).
    + rewrite <- Hg, is_pinned_pin_b. apply (pin_b_replace self g).
Qed.

Lemma call_none w m recv args s : call w (drop_user w) m recv args s <> None ->
  run_body w (drop_user w) (m_body m)
    (rev (map (fun pv => (fst (fst pv), Some (snd pv))) (combine (m_params m) args)) ++ [(I "self", Some recv)]) s <> None.
Proof. unfold call. destruct (Nat.eqb _ _); [|intros H; elim H; reflexivity]. destruct (run_body _ _ _ _ _); [discriminate|auto]. Qed.

Lemma compile_struct w a s ids t r : program w a -> w_item w = ItStruct s -> struct_has POwn a = true ->
  length ids = length (fields_list (s_fields s)) ->
  call_method w "project_replace" (RPin true PlSelf) [RUser r] (holding (mkUval None ids) t Run) <> None -> replaceable (s_fields s).
Proof.
  intros Hp Hi Hh Hlen Hc. unfold call_method in Hc.
  pose proof (struct_method w a s POwn Hp Hi Hh) as Hm. change (mname POwn) with "project_replace" in Hm. rewrite Hm in Hc.
  set (self := self_type (s_ident s) (s_generics s)). set (st0 := holding (mkUval None ids) t Run) in *.
  assert (Hfs : In (s_fields s) (fields_of (w_item w))) by (rewrite Hi; left; reflexivity).
  assert (Hl0 : fields_legal (s_fields s)) by apply (pg_fields _ _ Hp _ Hfs).
  assert (Hl : fields_legal (replace_fields self (s_fields s))) by (apply legal_replace; exact Hl0).
  pose proof (program_bind w a (s_fields s) self true Hp Hfs) as Hb. cbn zeta in Hb.
  pose proof (struct_lit w a s POwn Hp Hi Hh) as Hlit.
  pose proof (self_struct w a s Hp Hi) as Hself.
  apply call_none in Hc. change (rev _ ++ _) with [(I "__replacement", Some (RUser r)); (I "self", Some (RPin true PlSelf))] in Hc.
  match type of Hc with run_body _ _ ?B _ _ <> _ =>
    change B with (add_prologue replace_prologue (struct_body_own (proj_name POwn a (s_ident s)) (replace_fields self (s_fields s)))) in Hc end.
  unfold struct_body_own in Hc. cbn [add_prologue run_body] in Hc.
  rewrite run_stmts_app, (prologue_run w a) in Hc; [|exact Hp|reflexivity].
  cbn [run_stmts] in Hc. unfold running at 1 in Hc. cbn [st0 holding s_stat] in Hc. fold st0 in Hc.
  cbn [run_stmt eval_rhs] in Hc. rewrite deref_ptr in Hc. cbn [coerce] in Hc. unfold struct_pat in Hc. cbn [bind_pat is_wild] in Hc.
  rewrite Hself in Hc. cbn [variant_matches st0 holding s_var u_var] in Hc. fold st0 in Hc. rewrite Hb in Hc.
  destruct (own_stmts_compile w (drop_user w) [proj_name POwn a (s_ident s)] (replace_fields self (s_fields s)) r st0) as [H1 H2]; auto.
  - apply (program_scope _ _ Hp).
  - apply (pg_locals _ _ Hp). cbn; auto.
  - exact (slots_ids self (s_fields s) ids Hlen).
  - intros E. apply Hc. unfold rep_env, rep_env0 in *. rewrite E. reflexivity.
  - apply (not_result_replaceable self); assumption.
Qed.

Lemma compile_enum w a e v ids t r : program w a -> w_item w = ItEnum e -> enum_has POwn a = true ->
  In v (e_variants e) -> length ids = length (fields_list (v_fields v)) ->
  call_method w "project_replace" (RPin true PlSelf) [RUser r] (holding (mkUval (Some (v_ident v)) ids) t Run) <> None ->
  replaceable (v_fields v).
Proof.
  intros Hp Hi Hh Hv Hlen Hc. unfold call_method in Hc.
  pose proof (enum_method w a e POwn Hp Hi Hh) as Hm. change (mname POwn) with "project_replace" in Hm. rewrite Hm in Hc.
  set (self := self_type (e_ident e) (e_generics e)).
  set (fs := replace_fields self (v_fields v)). set (st0 := holding (mkUval (Some (v_ident v)) ids) t Run) in *.
  set (vs := e_variants (spelled_enum e)).
  assert (Hfs : In (v_fields v) (fields_of (w_item w))) by (rewrite Hi; apply in_map; exact Hv).
  assert (Hl0 : fields_legal (v_fields v)) by apply (pg_fields _ _ Hp _ Hfs).
  assert (Hl : fields_legal fs) by (apply legal_replace; exact Hl0).
  pose proof (program_bind w a (v_fields v) self true Hp Hfs) as Hb. cbn zeta in Hb. fold fs in Hb.
  pose proof (enum_lit w a e POwn v Hp Hi Hh Hv) as Hlit. cbn zeta in Hlit. fold self fs in Hlit.
  pose proof (self_enum w a e v Hp Hi Hv) as Hself.
  apply call_none in Hc. change (rev _ ++ _) with [(I "__replacement", Some (RUser r)); (I "self", Some (RPin true PlSelf))] in Hc.
  match type of Hc with run_body _ _ ?B _ _ <> _ =>
    change B with (add_prologue replace_prologue (enum_body_own (proj_name POwn a (e_ident e)) vs)) in Hc end.
  unfold enum_body_own in Hc. cbn [add_prologue run_body] in Hc.
  rewrite run_stmts_app, (prologue_run w a) in Hc; [|exact Hp|reflexivity].
  cbn [run_stmts] in Hc. rewrite deref_ptr in Hc.
  rewrite (find_arm_variant (variant_arm_own (proj_name POwn a (e_ident e))) vs (replace_variant self v)) in Hc.
  - cbn [variant_arm_own arm_pat arm_stmts arm_tail] in Hc. unfold variant_pat in Hc. cbn [bind_pat] in Hc.
    cbn [replace_variant v_ident v_fields] in Hc. fold fs in Hc.
    rewrite Hself in Hc. cbn [variant_matches st0 holding s_var u_var] in Hc. fold st0 in Hc. rewrite same_name_refl, Hb in Hc.
    destruct (own_stmts_compile w (drop_user w) [proj_name POwn a (e_ident e); v_ident v] fs r st0) as [H1 H2]; auto.
    + apply (program_scope _ _ Hp).
    + apply (pg_locals _ _ Hp). cbn; auto.
    + exact (slots_ids self (v_fields v) ids Hlen).
    + intros E. apply Hc. unfold rep_env, rep_env0 in *. rewrite E. reflexivity.
    + apply (not_result_replaceable self); assumption.
  - unfold vs. cbn [spelled_enum replace_enum e_variants]. rewrite !map_map.
    pose proof (pg_variants _ _ Hp) as N. rewrite Hi in N. cbn [variant_names] in N. rewrite map_map in N. exact N.
  - apply in_map. exact Hv.
  - reflexivity.
  - reflexivity.
Qed.

Lemma replace_compiles w a u vp fs t r : program w a -> has_proj POwn (w_item w) a = true -> value_of (w_item w) u vp fs ->
  call_method w "project_replace" (RPin true PlSelf) [RUser r] (holding u t Run) <> None -> replaceable fs.
Proof.
  intros Hp Hh Hv. remember (w_item w) as it eqn:Eit. destruct Hv as [s ids H|e v ids Hin H]; intros Hc.
  - apply (compile_struct w a s ids t r); auto.
  - apply (compile_enum w a e v ids t r); auto.
Qed.

(** ** Without the assumption on names *)
Lemma c42_replace w a u vp fs t r : program w a -> has_proj POwn (w_item w) a = true -> value_of (w_item w) u vp fs ->
  (call_method w "project_replace" (RPin true PlSelf) [RUser r] (holding u t Run) <> None <-> replaceable fs).
Proof.
  intros Hp Hh Hv. split.
  - apply (replace_compiles w a u vp fs t r Hp Hh Hv).
  - intros Hre. destruct (c17_replace w a u vp fs t r Hp Hh Hv Hre) as (v & s & -> & _). discriminate.
Qed.
Lemma c19_conserved_all w a u vp fs t r v s : program w a -> has_proj POwn (w_item w) a = true -> value_of (w_item w) u vp fs ->
  call_method w "project_replace" (RPin true PlSelf) [RUser r] (holding u t Run) = Some (v, s) -> s_stat s <> Abort ->
  exists ev, s_trace s = t ++ ev /\ Permutation (destroyed ev ++ owned_opt v) (u_ids u) /\ stored s = u_ids r.
Proof.
  intros Hp Hh Hv E. apply (c19_conserved w a u vp fs t r v s Hp Hh Hv); [|exact E].
  apply (replace_compiles w a u vp fs t r Hp Hh Hv). congruence.
Qed.
Lemma c20_all b w a u vp fs t r v s : program w a -> has_proj POwn (w_item w) a = true -> value_of (w_item w) u vp fs ->
  call_method w "project_replace" (RPin true PlSelf) [RUser r] (holding u t Run) = Some (v, s) ->
  exists s', call_method (with_leaky b w) "project_replace" (RPin true PlSelf) [RUser r] (holding u t Run) = Some (v, s') /\
    s_trace s' = s_trace s /\ s_stat s' = s_stat s /\ (s_stat s <> Abort -> s' = s).
Proof.
  intros Hp Hh Hv E. apply (c20 b w a u vp fs t r v s Hp Hh Hv); [|exact E].
  apply (replace_compiles w a u vp fs t r Hp Hh Hv). congruence.
Qed.
