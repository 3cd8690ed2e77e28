(** The two descriptions of the generated code do the same to the value. *)
From Coq Require Import String Ascii List Bool Arith Lia.
From Verif Require Import Base Syntax ModelArgs ModelUtils ModelDerive ModelRun ModelAlias.
From Verif Require Import SpecArgs SpecDerive SpecExpand SpecRun SpecPanics SpecAlias SpecDeeds ModelTree SpecTree.
From Verif Require Import ProofsArgs ProofsUtils ProofsDerive ProofsExpand ProofsTypes ProofsRun ProofsRunProj ProofsRunReplace.
From Verif Require Import ProofsRunDrop ProofsRunMain ProofsPanics ProofsAlias ProofsAliasRun ProofsAliasCall ProofsAliasMain ProofsTreeMain.
Import ListNotations.
Open Scope string_scope.
Open Scope list_scope.

Definition did (a a' : ast) (ds : list deed) : Prop :=
  exists os, a_ops a' = a_ops a ++ os /\ forall rest, deeds false (os ++ rest) = ds ++ deeds false rest.
Lemma did_refl a : did a a [].
Proof. exists []. split; [symmetry; apply app_nil_r|reflexivity]. Qed.
Lemma did_trans a b c d1 d2 : did a b d1 -> did b c d2 -> did a c (d1 ++ d2).
Proof.
  intros (o1 & E1 & H1) (o2 & E2 & H2). exists (o1 ++ o2). split.
  - rewrite E2, E1, app_assoc. reflexivity.
  - intros rest. rewrite <- !app_assoc, H1, H2. reflexivity.
Qed.
Lemma did_ptr k p t a : did a (snd (derive_ptr k p t a)) [].
Proof. exists [ORetag k false p t (a_next a)]. split; [reflexivity|]. intros rest. reflexivity. Qed.
Lemma did_user uses p t a : did a (user_code uses p t a) [DUser p].
Proof.
  eexists. split; [reflexivity|]. intros rest. cbn [app deeds]. f_equal. rewrite <- app_assoc. cbn [app].
  induction (uses p) as [|[b q] us IH]; cbn [flat_map app fst snd]; [reflexivity|].
  destruct (inside q p); [|exact IH]. cbn [app deeds]. exact IH.
Qed.

Lemma tag_binds_did b t l : forall k a,
  exists tg a', tag_binds b t (binds b k l) a = Some (tagged b tg (enum_from k l), a') /\ did a a' [].
Proof.
  induction l as [|f l IH]; intros k a.
  - exists (fun x => x), a. split; [reflexivity|apply did_refl].
  - unfold binds. cbn [enum_from map fst snd tag_binds derive_ptr].
    pose proof (did_ptr (ref_kind b) (PlField k) t a) as G1. cbn [derive_ptr snd] in G1.
    set (a1 := mkA (S (a_next a)) _) in *.
    destruct (IH (S k) a1) as (tg & a2 & E & G2).
    exists (fun j => if Nat.eqb j k then a_next a else tg j), a2.
    assert (Et : tagged b (fun j => if Nat.eqb j k then a_next a else tg j) (enum_from (S k) l) = tagged b tg (enum_from (S k) l)).
    { unfold tagged. apply map_ext_in. intros [j g] Hin. apply ProofsRun.enum_from_in in Hin. cbn [fst].
      assert (Nat.eqb j k = false) as -> by (apply Nat.eqb_neq; lia). reflexivity. }
    split; [|exact (did_trans _ _ _ _ _ G1 G2)].
    fold (binds b (S k) l). rewrite E. unfold tagged at 2. cbn [map fst]. rewrite Nat.eqb_refl.
    fold (tagged b (fun j => if Nat.eqb j k then a_next a else tg j) (enum_from (S k) l)). rewrite Et. reflexivity.
Qed.
Definition copied (nl : list (nat * field)) : list deed :=
  map (fun nf => DCopied (fst nf)) (filter (fun nf => negb (pin_b (snd nf))) nl).
Definition dropped (nl : list (nat * field)) : list deed :=
  map (fun nf => DUser (PlField (fst nf))) (filter (fun nf => pin_b (snd nf)) nl).
Lemma move_fields_did w uses tg d l : scope_ok w -> forall k e a,
  (forall nf, In nf (enum_from k l) -> lookup (binding nf) e = Some (AvPtr PkMut (PlField (fst nf)) (tg (fst nf)))) ->
  exists vs a', alias_fields w uses (map move_of (enum_from k l)) d e a = Some (vs, e, a') /\ did a a' (copied (enum_from k l)).
Proof.
  intros Hw. induction l as [|f l IH]; intros k e a Hg; cbn [enum_from map alias_fields].
  - exists [], a. split; [reflexivity|apply did_refl].
  - pose proof (Hg (k, f) (or_introl eq_refl)) as Hb. cbn [fst] in Hb.
    assert (Hev : exists a1,
      alias_atom w uses (snd (move_of (k, f))) e a = Some (AvOwned, e, a1) /\ did a a1 (if pin_b f then [] else [DCopied k])).
    { unfold move_of. cbn [snd fst]. destruct (pin_b f); cbn [snd alias_atom].
      - unfold pp_priv. rewrite (support_pp w Hw). exists a. split; [reflexivity|apply did_refl].
      - unfold alias_call. rewrite (support_pp w Hw), Hb. cbn [derive_ptr]. eexists. split; [reflexivity|].
        eexists. split; [cbn [emit a_ops]; rewrite <- app_assoc; reflexivity|]. intros rest. reflexivity. }
    destruct Hev as (a1 & Hev & G1).
    destruct (IH (S k) e a1) as (vs & a2 & E2 & G2).
    { intros nf Hin. apply Hg. right; exact Hin. }
    destruct (move_of (k, f)) as [n at0] eqn:Eb. cbn [snd] in Hev. rewrite Hev, E2.
    eexists _, a2. split; [reflexivity|]. pose proof (did_trans _ _ _ _ _ G1 G2) as G.
    unfold copied in *. cbn [filter snd]. destruct (pin_b f); exact G.
Qed.
Lemma guards_did w var uses tg bs : scope_ok w -> w_consts w (I "__guard") = false -> forall e a,
  (forall b, In b bs -> lookup (fst b) e = Some (AvPtr PkMut (PlField (snd b)) (tg (snd b)))) -> NoDup (map snd bs) ->
  (forall b, In b (tl bs) -> name (fst b) <> "__guard") ->
  exists cg a', alias_stmts w var uses (map guard_stmt (map fst bs)) e a = Some (guard_env cg (rev (map snd bs)) ++ e, a') /\ did a a' [].
Proof.
  intros Hw Hc. induction bs as [|[b j] bs IH]; intros e a Hg Hd Hn; cbn [map alias_stmts fst].
  - exists (fun x => x), a. split; [reflexivity|apply did_refl].
  - cbn [guard_stmt alias_stmt alias_rhs alias_atom]. change (is_wild (PBind (I "__guard"))) with false. unfold alias_call.
    rewrite (support_pp w Hw). pose proof (Hg (b, j) (or_introl eq_refl)) as Hb. cbn [fst snd] in Hb. rewrite Hb.
    cbn [derive_ptr alias_coerce alias_pat]. rewrite Hc. cbn [app].
    pose proof (did_ptr PkRaw (PlField j) (tg j) a) as G1. cbn [derive_ptr snd] in G1.
    set (a1 := mkA (S (a_next a)) _) in *.
    cbn [map snd] in Hd. inversion Hd as [|x y Hx Hy]; subst.
    destruct (IH ((I "__guard", Some (AvDropGuard (PlField j) (a_next a))) :: e) a1) as (cg & a2 & E2 & G2); auto.
    + intros [c k] Hin. cbn [lookup fst snd].
      assert (same_name c (I "__guard") = false) as -> by (apply same_name_false; apply (Hn (c, k)); exact Hin).
      apply (Hg (c, k)). right; exact Hin.
    + intros c Hin. apply Hn. destruct bs; [destruct Hin|right; exact Hin].
    + exists (fun i => if Nat.eqb i j then a_next a else cg i), a2. split; [|exact (did_trans _ _ _ _ _ G1 G2)].
      rewrite E2. unfold guard_env. cbn [snd rev]. rewrite map_app. cbn [map]. rewrite Nat.eqb_refl, <- app_assoc. cbn [app].
      f_equal. f_equal. f_equal. apply map_ext_in. intros i Hin. apply in_rev in Hin.
      assert (Nat.eqb i j = false) as ->; [|reflexivity]. apply Nat.eqb_neq. intros ->. exact (Hx Hin).
Qed.
Lemma drop_guards_did uses cg js : forall a,
  did a (alias_drops uses (guard_env cg js) a) (map (fun j => DUser (PlField j)) js).
Proof.
  induction js as [|j js IH]; intros a; [apply did_refl|].
  cbn [guard_env map alias_drops alias_drop].
  exact (did_trans _ _ _ _ _ (did_user uses (PlField j) (cg j) a) (IH _)).
Qed.

Lemma own_did w var uses path fs tg tr a : scope_ok w -> fields_legal fs ->
  w_consts w (I "__guard") = false -> w_consts w (I "__result") = false ->
  not_result (fields_list fs) -> not_guard (fields_list fs) ->
  exists vs a',
    match alias_stmts w var uses (own_stmts path fs) (tagged true tg (enum_from 0 (fields_list fs)) ++ rep_left tr) a with
    | Some (e1, a1) => alias_finish w uses (Some (RAtom (AVar (I "__result")))) e1 a1
    | None => None
    end = Some (AvProj vs, a') /\
    did a a' (copied (enum_from 0 (fields_list fs)) ++ dropped (enum_from 0 (fields_list fs)) ++ [DWritten]).
Proof.
  intros Hw Hl Hcg Hcr Hnr Hng. unfold own_stmts. cbn [alias_stmts].
  set (l := fields_list fs) in *. pose proof (legal_vars fs Hl) as Hv. fold l in Hv.
  set (e0 := tagged true tg (enum_from 0 l) ++ rep_left tr).
  assert (Hg : forall nf, In nf (enum_from 0 l) -> lookup (binding nf) e0 = Some (AvPtr PkMut (PlField (fst nf)) (tg (fst nf)))).
  { intros nf Hin. apply (lookup_tagged true); assumption. }
  destruct (move_fields_did w uses tg (fields_delim fs) l Hw 0 e0 a Hg) as (vs & a1 & E1 & G1).
  change (alias_stmt w var uses (SLet (PBind (I "__result")) None (RLit path (fields_delim fs) (map move_of (enum_from 0 l)))) e0 a) with
    (match alias_rhs w uses (RLit path (fields_delim fs) (map move_of (enum_from 0 l))) e0 a with
     | Some (v, e1, a1) =>
       match alias_coerce None v a1 with
       | Some (v', a2) => match alias_pat w var (PBind (I "__result")) v' a2 with Some (bs, a3) => Some (bs ++ e1, a3) | None => None end
       | None => None
       end
     | None => None
     end).
  cbn [alias_rhs]. rewrite E1. cbn [alias_coerce alias_pat]. rewrite Hcr. cbn [app]. rewrite alias_block.
  set (e1 := (I "__result", Some (AvProj vs)) :: e0).
  set (pl := filter (fun nf => pin_b (snd nf)) (enum_from 0 l)).
  set (bs := rev (map (fun nf : nat * field => (binding nf, fst nf)) pl)).
  assert (Epb : rev (pinned_bindings l) = map fst bs).
  { unfold pinned_bindings, bs. rewrite map_rev. f_equal. rewrite map_map. reflexivity. }
  rewrite Epb.
  assert (Hbs : forall b, In b bs -> exists nf, b = (binding nf, fst nf) /\ In nf (enum_from 0 l) /\ pin_b (snd nf) = true).
  { intros b Hb. unfold bs in Hb. apply in_rev in Hb. apply in_map_iff in Hb. destruct Hb as (nf & <- & Hin).
    apply filter_In in Hin. exists nf. split; [reflexivity|exact Hin]. }
  assert (Hnd : NoDup (map snd bs)).
  { unfold bs. rewrite map_rev. apply NoDup_rev. rewrite map_map. cbn [snd]. unfold pl.
    assert (H : NoDup (map fst (enum_from 0 l))).
    { rewrite enum_from_combine.
      assert (forall k, map fst (combine (seq k (length l)) l) = seq k (length l)) as ->.
      { clear. induction l as [|x l IH]; intros k; cbn; [reflexivity|f_equal; apply IH]. }
      apply seq_NoDup. }
    clear - H. induction (enum_from 0 l) as [|x q IH]; cbn [filter map]; [constructor|].
    cbn [map] in H. inversion H; subst. destruct (pin_b (snd x)); cbn [map]; [|auto]. constructor; [|auto].
    intros E. apply H2. apply in_map_iff in E. destruct E as (y & E & Hy). apply filter_In in Hy.
    apply in_map_iff. exists y. split; [exact E|apply Hy]. }
  destruct (guards_did w var uses tg bs Hw Hcg e1 a1) as (cg & a2 & E2 & G2); auto.
  { intros b Hb. destruct (Hbs b Hb) as (nf & -> & Hin & Hp). cbn [fst snd]. unfold e1. cbn [lookup].
    assert (same_name (binding nf) (I "__result") = false) as -> by (apply same_name_false; apply Hnr; assumption).
    apply Hg. exact Hin. }
  { intros b Hb'.
    assert (exists q y, map (fun nf : nat * field => (binding nf, fst nf)) pl = q ++ [y] /\ In b q) as (q & y & Eq & Hq).
    { unfold bs in Hb'. destruct (rev (map (fun nf : nat * field => (binding nf, fst nf)) pl)) as [|y q] eqn:E; [destruct Hb'|].
      exists (rev q), y. split.
      - rewrite <- (rev_involutive (map _ pl)), E. reflexivity.
      - apply in_rev in Hb'. exact Hb'. }
    apply map_eq_app in Eq. destruct Eq as (p1 & p2 & Epl & <- & Ey).
    destruct p2 as [|y0 [|]]; try discriminate. apply in_map_iff in Hq. destruct Hq as (x & <- & Hx).
    apply in_split in Hx. destruct Hx as (q1 & q2 & ->). cbn [fst].
    unfold pl in Epl. rewrite <- app_assoc in Epl. cbn [app] in Epl.
    apply filter_app_inv in Epl. destruct Epl as (b1 & b2 & Ee & _ & Eb & Hpx).
    apply filter_app_inv in Eb. destruct Eb as (c1 & c2 & -> & _ & _ & Hpy).
    exact (Hng b1 x c1 y0 c2 Ee Hpx Hpy). }
  rewrite E2. cbn [option_map]. unfold alias_leave. cbn [fst snd].
  assert (Elen : forall g : aenv, length (g ++ e1) - length e1 = length g) by (intros g; rewrite app_length; lia).
  rewrite Elen.
  assert (Esk : forall g : aenv, skipn (length g) (g ++ e1) = e1) by (intros g; rewrite skipn_app, skipn_all, Nat.sub_diag; reflexivity).
  assert (Efs : forall g : aenv, firstn (length g) (g ++ e1) = g)
    by (intros g; rewrite firstn_app, firstn_all, Nat.sub_diag; cbn; apply app_nil_r).
  rewrite Esk, Efs.
  pose proof (drop_guards_did uses cg (rev (map snd bs)) a2) as G3.
  set (a3 := alias_drops uses (guard_env cg (rev (map snd bs))) a2) in *.
  exists vs, (emit [OUse true PlSelf tr] a3). split.
  - unfold alias_finish. cbn [alias_rhs alias_atom]. unfold e1. cbn [lookup take]. rewrite same_name_refl. cbn [alias_drops].
    unfold e0. rewrite drops_app, (drops_quiet uses (tagged true tg (enum_from 0 l))) by apply tagged_quiet. reflexivity.
  - assert (G4 : did a3 (emit [OUse true PlSelf tr] a3) [DWritten]).
    { eexists. split; [reflexivity|]. intros rest. reflexivity. }
    assert (Ed : dropped (enum_from 0 l) = map (fun j => DUser (PlField j)) (rev (map snd bs))).
    { unfold bs, dropped. rewrite !map_rev, rev_involutive, !map_map. reflexivity. }
    rewrite Ed. exact (did_trans _ _ _ _ _ G1 (did_trans _ _ _ _ _ G2 (did_trans _ _ _ _ _ G3 G4))).
Qed.
Lemma prologue_did n ops : did (mkA (S n) ops) (rep_ast n ops) [].
Proof.
  exists ([ORetag PkMut false PlSelf n (S n)] ++ [ORetag PkRaw false PlSelf (S n) (S (S n))]). split; [|intros rest; reflexivity].
  cbn [rep_ast a_ops]. rewrite <- app_assoc. reflexivity.
Qed.
Lemma replace_struct_did w a s n ops uses nm : program w a -> w_item w = ItStruct s -> replaceable (s_fields s) ->
  let nl := enum_from 0 (fields_list (s_fields (spelled_struct s))) in
  exists vs a',
    alias_body w None uses (add_prologue replace_prologue (struct_body_own nm (s_fields (spelled_struct s)))) (rep_start n) (mkA (S n) ops) = Some (AvProj vs, a') /\
    did (mkA (S n) ops) a' (copied nl ++ dropped nl ++ [DWritten]).
Proof.
  intros Hp Hi Hre nl. set (fs := s_fields (spelled_struct s)) in *. set (self := self_type (s_ident s) (s_generics s)).
  assert (Hfs : In (s_fields s) (fields_of (w_item w))) by (rewrite Hi; left; reflexivity).
  assert (Hl0 : fields_legal (s_fields s)) by apply (pg_fields _ _ Hp _ Hfs).
  assert (Hl : fields_legal fs) by (apply legal_replace; exact Hl0).
  pose proof (program_bind w a (s_fields s) self true Hp Hfs) as Hb. cbn zeta in Hb.
  change (replace_fields self (s_fields s)) with fs in Hb.
  unfold struct_body_own. cbn [add_prologue alias_body]. rewrite alias_stmts_app, (alias_prologue w a) by exact Hp.
  pose proof (prologue_did n ops) as G1. set (ar := rep_ast n ops) in *.
  cbn [alias_stmts].
  change (alias_stmt w None uses (SLet (struct_pat fs 0) None (RAtom (ARefMutDeref (I "__self_ptr")))) (rep_left (S (S n))) ar) with
    (match alias_atom w uses (ARefMutDeref (I "__self_ptr")) (rep_left (S (S n))) ar with
     | Some (v, e1, a1) =>
       match alias_pat w None (struct_pat fs 0) v a1 with Some (bs, a3) => Some (bs ++ e1, a3) | None => None end
     | None => None
     end).
  rewrite alias_deref. unfold struct_pat. cbn [alias_pat]. rewrite (self_struct w a s Hp Hi). cbn [variant_matches s_var]. rewrite Hb.
  pose proof (did_ptr PkMut PlSelf (S (S n)) ar) as G2.
  set (a2 := snd (derive_ptr PkMut PlSelf (S (S n)) ar)) in *.
  destruct (tag_binds_did true (a_next ar) (fields_list fs) 0 a2) as (tg & a3 & E3 & G3).
  rewrite E3.
  destruct (own_did w None uses [nm] fs tg (S (S n)) a3 (program_scope _ _ Hp) Hl) as (vs & a4 & E4 & G4).
  - apply (pg_locals _ _ Hp). cbn; auto.
  - apply (pg_locals _ _ Hp). cbn; auto.
  - apply (replaceable_result self); assumption.
  - apply (replaceable_guard self); assumption.
  - exists vs, a4. split; [exact E4|].
    exact (did_trans _ _ _ _ _ G1 (did_trans _ _ _ _ _ G2 (did_trans _ _ _ _ _ G3 G4))).
Qed.
Lemma replace_enum_did w a e v n ops uses nm : program w a -> w_item w = ItEnum e -> In v (e_variants e) -> replaceable (v_fields v) ->
  let nl := enum_from 0 (fields_list (replace_fields (self_type (e_ident e) (e_generics e)) (v_fields v))) in
  exists vs a',
    alias_body w (Some (v_ident v)) uses (add_prologue replace_prologue (enum_body_own nm (e_variants (spelled_enum e))))
      (rep_start n) (mkA (S n) ops) = Some (AvProj vs, a') /\
    did (mkA (S n) ops) a' (copied nl ++ dropped nl ++ [DWritten]).
Proof.
  intros Hp Hi Hv Hre nl. set (self := self_type (e_ident e) (e_generics e)) in *. set (fs := replace_fields self (v_fields v)) in *.
  assert (Hfs : In (v_fields v) (fields_of (w_item w))) by (rewrite Hi; apply in_map; exact Hv).
  assert (Hl0 : fields_legal (v_fields v)) by apply (pg_fields _ _ Hp _ Hfs).
  assert (Hl : fields_legal fs) by (apply legal_replace; exact Hl0).
  pose proof (program_bind w a (v_fields v) self true Hp Hfs) as Hb. cbn zeta in Hb. fold fs in Hb.
  unfold enum_body_own. cbn [add_prologue alias_body]. rewrite alias_stmts_app, (alias_prologue w a) by exact Hp.
  pose proof (prologue_did n ops) as G1. set (ar := rep_ast n ops) in *.
  cbn [alias_stmts]. rewrite alias_deref.
  rewrite (find_arm_variant (variant_arm_own nm) (e_variants (spelled_enum e)) (replace_variant self v)).
  2:{ cbn [spelled_enum replace_enum e_variants]. rewrite !map_map.
      pose proof (pg_variants _ _ Hp) as N. rewrite Hi in N. cbn [variant_names] in N. rewrite map_map in N. exact N. }
  2:{ apply in_map. exact Hv. }
  2: reflexivity. 2: reflexivity.
  cbn [variant_arm_own arm_pat arm_stmts arm_tail]. unfold variant_pat. cbn [alias_pat replace_variant v_ident v_fields]. fold fs.
  rewrite (self_enum w a e v Hp Hi Hv). cbn [variant_matches s_var]. rewrite same_name_refl, Hb.
  pose proof (did_ptr PkMut PlSelf (S (S n)) ar) as G2.
  set (a2 := snd (derive_ptr PkMut PlSelf (S (S n)) ar)) in *.
  assert (Gu : did a2 (emit [OUse false PlSelf (a_next ar)] a2) []).
  { eexists. split; [reflexivity|]. intros rest. reflexivity. }
  set (au := emit [OUse false PlSelf (a_next ar)] a2) in *.
  destruct (tag_binds_did true (a_next ar) (fields_list fs) 0 au) as (tg & a3 & E3 & G3).
  rewrite E3.
  match goal with |- context [alias_stmts w (Some (v_ident v)) uses (own_stmts ?p fs)] =>
    destruct (own_did w (Some (v_ident v)) uses p fs tg (S (S n)) a3 (program_scope _ _ Hp) Hl) as (vs & a4 & E4 & G4) end.
  - apply (pg_locals _ _ Hp). cbn; auto.
  - apply (pg_locals _ _ Hp). cbn; auto.
  - apply (replaceable_result self); assumption.
  - apply (replaceable_guard self); assumption.
  - exists vs, a4. split; [exact E4|].
    exact (did_trans _ _ _ _ _ G1 (did_trans _ _ _ _ _ G2 (did_trans _ _ _ _ _ Gu (did_trans _ _ _ _ _ G3 G4)))).
Qed.

Lemma select_copied self fs ids : length ids = length (fields_list fs) ->
  copied (enum_from 0 (fields_list (replace_fields self fs))) = flat_map deed_of (map read_out (select false fs ids)).
Proof.
  intros H. rewrite fields_list_replace. unfold select. rewrite numbered_enum. generalize 0. revert ids H. unfold copied.
  induction (fields_list fs) as [|f l IH]; intros [|i ids] H k; try discriminate; [reflexivity|].
  cbn [map enum_from combine filter flat_map snd fst]. rewrite pin_b_replace, <- is_pinned_pin_b.
  injection H as H. specialize (IH ids H (S k)). destruct (is_pinned f); cbn [negb Bool.eqb app map flat_map deed_of read_out fst snd]; rewrite IH; reflexivity.
Qed.
Lemma select_dropped self fs ids : length ids = length (fields_list fs) ->
  dropped (enum_from 0 (fields_list (replace_fields self fs))) = flat_map deed_of (map dropped_in_place (select true fs ids)).
Proof.
  intros H. rewrite fields_list_replace. unfold select. rewrite numbered_enum. generalize 0. revert ids H. unfold dropped.
  induction (fields_list fs) as [|f l IH]; intros [|i ids] H k; try discriminate; [reflexivity|].
  cbn [map enum_from combine filter flat_map snd fst]. rewrite pin_b_replace, <- is_pinned_pin_b.
  injection H as H. specialize (IH ids H (S k)). destruct (is_pinned f); cbn [negb Bool.eqb app map flat_map deed_of dropped_in_place fst snd]; rewrite IH; reflexivity.
Qed.
Lemma elsewhere_deeds l : flat_map deed_of (map dropped_elsewhere l) = [].
Proof. induction l as [|x l IH]; [reflexivity|exact IH]. Qed.

Lemma replace_deeds w a u vp fs uses t n : program w a -> has_proj POwn (w_item w) a = true ->
  value_of (w_item w) u vp fs -> replaceable fs ->
  exists r ops n', alias_project w (u_var u) uses "project_replace" true t n = Some (r, ops, n') /\
    deeds false (tl ops) = flat_map deed_of (map read_out (select false fs (u_ids u))) ++
      flat_map deed_of (map dropped_in_place (select true fs (u_ids u))) ++ [DWritten].
Proof.
  intros Hp Hh Hv Hre. remember (w_item w) as it eqn:Eit. symmetry in Eit.
  change "project_replace" with (mname POwn). destruct Hv as [s ids H|e v ids Hin H]; cbn [u_var u_ids].
  - unfold alias_project. rewrite (struct_method w a s POwn Hp Eit Hh).
    destruct (replace_struct_did w a s n [ORetag PkMut true PlSelf t n] uses
                (cx_own_ident (struct_cx a (spelled_struct s))) Hp Eit Hre) as (vs & a' & E & os & Eo & Hd).
    unfold alias_method. cbn [kmethod method_project_replace m_params m_body map rev app struct_kbody ref_kind]. unfold rep_start in E.
    cbn [fst]. rewrite E. eexists _, _, _. split; [reflexivity|]. rewrite Eo. cbn [a_ops app tl]. rewrite Hd. cbn [deeds].
    rewrite app_nil_r. change (s_fields (spelled_struct s)) with (replace_fields (self_type (s_ident s) (s_generics s)) (s_fields s)).
    rewrite (select_copied _ _ ids H), (select_dropped _ _ ids H). reflexivity.
  - unfold alias_project. rewrite (enum_method w a e POwn Hp Eit Hh).
    destruct (replace_enum_did w a e v n [ORetag PkMut true PlSelf t n] uses
                (cx_own_ident (enum_cx a (spelled_enum e))) Hp Eit Hin Hre) as (vs & a' & E & os & Eo & Hd).
    unfold alias_method. cbn [kmethod method_project_replace m_params m_body map rev app enum_kbody ref_kind]. unfold rep_start in E.
    cbn [fst]. rewrite E. eexists _, _, _. split; [reflexivity|]. rewrite Eo. cbn [a_ops app tl]. rewrite Hd. cbn [deeds].
    rewrite app_nil_r, (select_copied _ _ ids H), (select_dropped _ _ ids H). reflexivity.
Qed.

Lemma c77_replace w a u vp fs uses t n tr r : program w a -> has_proj POwn (w_item w) a = true ->
  value_of (w_item w) u vp fs -> replaceable fs ->
  exists v s ev x ops n' rest,
    call_method w "project_replace" (RPin true PlSelf) [RUser r] (holding u tr Run) = Some (v, s) /\ s_trace s = tr ++ ev /\
    alias_project w (u_var u) uses "project_replace" true t n = Some (x, ops, n') /\
    deeds false (tl ops) = flat_map deed_of ev ++ rest /\ (s_stat s <> Abort -> rest = []).
Proof.
  intros Hp Hh Hv Hre. destruct (replace_deeds w a u vp fs uses t n Hp Hh Hv Hre) as (x & ops & n' & E & D).
  destruct (Nat.eq_dec (panickers w (select true fs (u_ids u))) 0) as [Z|Z].
  - rewrite (c18 w a u vp fs tr r Hp Hh Hv Hre Z). eexists _, _, _, x, ops, n', []. split; [reflexivity|].
    split; [unfold holding; cbn [s_trace]; reflexivity|]. split; [exact E|]. split; [|reflexivity].
    rewrite D, app_nil_r, !flat_map_app. reflexivity.
  - destruct (c19_exact w a u vp fs tr r Hp Hh Hv Hre) as (s & Es & Hs & Ht); [lia|].
    set (todo := map dropped_in_place _ ++ _) in *.
    destruct (calls_prefix (bad_call w tr) todo Run) as (left & El & Hl).
    set (made := calls (bad_call w tr) todo Run) in *.
    assert (Hd : flat_map deed_of (map dropped_in_place (select true fs (u_ids u))) = flat_map deed_of (fst made) ++ flat_map deed_of left).
    { rewrite <- flat_map_app, <- El. unfold todo. rewrite flat_map_app, elsewhere_deeds, app_nil_r. reflexivity. }
    rewrite Hd in D.
    eexists _, s, _, x, ops, n', (match snd made with Abort => flat_map deed_of left ++ [DWritten] | _ => [] end).
    split; [exact Es|]. split; [exact Ht|]. split; [exact E|]. split.
    + rewrite D, !flat_map_app, <- !app_assoc. do 2 f_equal.
      destruct (snd made); cbn [flat_map deed_of app]; try reflexivity; rewrite Hl by (auto; discriminate); reflexivity.
    + intros Ha. rewrite <- Hs. destruct (s_stat s); congruence.
Qed.

(** ** [project] and [project_ref] *)
Lemma body_fields_did w uses b tg d l : scope_ok w -> forall k e a,
  (forall nf, In nf (enum_from k l) -> lookup (binding nf) e = Some (AvPtr (ref_kind b) (PlField (fst nf)) (tg (fst nf)))) ->
  NoDup (map name (map binding (enum_from k l))) -> quiet e ->
  exists vs e' a', alias_fields w uses (map body_of (enum_from k l)) d e a = Some (vs, e', a') /\ quiet e' /\ did a a' [].
Proof.
  intros Hw. induction l as [|f l IH]; intros k e a Hg Hn Hq; cbn [enum_from map alias_fields].
  - exists [], e, a. split; [reflexivity|]. split; [exact Hq|apply did_refl].
  - cbn [enum_from map] in Hn. inversion Hn as [|x y Hx Hy]; subst.
    pose proof (Hg (k, f) (or_introl eq_refl)) as Hb. cbn [fst] in Hb.
    set (e1 := take (binding (k, f)) e).
    assert (He1 : quiet e1) by (apply quiet_take; exact Hq).
    assert (Hg1 : forall nf, In nf (enum_from (S k) l) -> lookup (binding nf) e1 = Some (AvPtr (ref_kind b) (PlField (fst nf)) (tg (fst nf)))).
    { intros nf Hin. unfold e1. rewrite lookup_take.
      - apply Hg. right. exact Hin.
      - apply same_name_false. intros E. apply Hx. rewrite <- E. apply in_map. apply in_map. exact Hin. }
    assert (Hev : exists c a1, alias_atom w uses (snd (body_of (k, f))) e a = Some (c, e1, a1) /\ did a a1 []).
    { unfold body_of. cbn [snd fst]. destruct (pin_b f); cbn [snd alias_atom].
      - unfold alias_call. rewrite (support_pp w Hw), Hb.
        pose proof (did_ptr (ref_kind b) (PlField k) (tg k) a) as G.
        exists (AvPin b (PlField k) (a_next a)), (snd (derive_ptr (ref_kind b) (PlField k) (tg k) a)).
        split; [destruct b; reflexivity|exact G].
      - rewrite Hb. eexists _, a. split; [reflexivity|apply did_refl]. }
    destruct Hev as (c & a1 & Hev & G1).
    destruct (IH (S k) e1 a1) as (vs & e2 & a2 & E2 & Q2 & G2); auto.
    destruct (body_of (k, f)) as [n at0] eqn:Eb. cbn [snd] in Hev. rewrite Hev, E2.
    eexists _, e2, a2. split; [reflexivity|]. split; [exact Q2|]. exact (did_trans _ _ _ _ _ G1 G2).
Qed.
Lemma finish_project_did w uses b path fs tg e0 a : scope_ok w -> fields_legal fs -> quiet e0 ->
  exists vs a',
    alias_finish w uses (Some (RLit path (fields_delim fs) (map body_of (enum_from 0 (fields_list fs)))))
      (tagged b tg (enum_from 0 (fields_list fs)) ++ e0) a = Some (AvProj vs, a') /\ did a a' [].
Proof.
  intros Hw Hl Hq. unfold alias_finish. cbn [alias_rhs].
  pose proof (legal_vars _ Hl) as Hv.
  destruct (body_fields_did w uses b tg (fields_delim fs) (fields_list fs) Hw 0
              (tagged b tg (enum_from 0 (fields_list fs)) ++ e0) a) as (vs & e' & a' & E & Q & G); auto.
  - intros nf Hin. apply lookup_tagged; [exact Hv|exact Hin].
  - apply quiet_app; [apply tagged_quiet|exact Hq].
  - rewrite E. exists vs, a'. rewrite (drops_quiet uses e' a' Q). auto.
Qed.
Lemma body_struct_did w a s b n ops uses nm : program w a -> w_item w = ItStruct s ->
  let fs := s_fields (spelled_struct s) in
  exists vs a',
    alias_body w None uses (struct_body (getter b) nm fs) [(I "self", Some (AvPin b PlSelf n))] (mkA (S n) ops) = Some (AvProj vs, a') /\
    did (mkA (S n) ops) a' [].
Proof.
  intros Hp Hi fs. set (self := self_type (s_ident s) (s_generics s)).
  assert (Hfs : In (s_fields s) (fields_of (w_item w))) by (rewrite Hi; left; reflexivity).
  assert (Hl : fields_legal fs) by (apply legal_replace; apply (pg_fields _ _ Hp _ Hfs)).
  pose proof (program_bind w a (s_fields s) self b Hp Hfs) as Hb. cbn zeta in Hb.
  change (replace_fields self (s_fields s)) with fs in Hb.
  unfold struct_body. cbn [alias_body alias_stmts alias_stmt alias_rhs]. rewrite alias_getter. cbn [alias_coerce].
  unfold struct_pat. cbn [is_wild alias_pat]. rewrite (self_struct w a s Hp Hi). cbn [variant_matches s_var].
  set (a0 := mkA (S n) ops).
  pose proof (did_ptr (ref_kind b) PlSelf n a0) as G1.
  set (a1 := snd (derive_ptr (ref_kind b) PlSelf n a0)) in *.
  destruct (tag_binds_did b (a_next a0) (fields_list fs) 0 a1) as (tg & a2 & E2 & G2).
  destruct (finish_project_did w uses b [nm] fs tg (self_left b n) a2 (program_scope _ _ Hp) Hl (self_left_quiet b n))
    as (vs & a3 & E3 & G3).
  exists vs, a3.
  assert (Hpat : match AvPtr (ref_kind b) PlSelf (a_next a0) with
     | AvPtr PkMut PlSelf t => match bind_fields w (s_fields s) (fields_delim fs) (map binding (enum_from 0 (fields_list fs))) true with
                               | Some l => tag_binds true t l a1 | None => None end
     | AvPtr PkShared PlSelf t => match bind_fields w (s_fields s) (fields_delim fs) (map binding (enum_from 0 (fields_list fs))) false with
                               | Some l => tag_binds false t l a1 | None => None end
     | _ => None end = Some (tagged b tg (enum_from 0 (fields_list fs)), a2)).
  { destruct b; cbn [ref_kind]; rewrite Hb; exact E2. }
  rewrite Hpat. split; [exact E3|].
  exact (did_trans _ _ _ _ _ G1 (did_trans _ _ _ _ _ G2 G3)).
Qed.
Lemma body_enum_did w a e v b n ops uses nm : program w a -> w_item w = ItEnum e -> In v (e_variants e) ->
  exists vs a',
    alias_body w (Some (v_ident v)) uses (enum_body (getter b) nm (e_variants (spelled_enum e)))
      [(I "self", Some (AvPin b PlSelf n))] (mkA (S n) ops) = Some (AvProj vs, a') /\
    did (mkA (S n) ops) a' [].
Proof.
  intros Hp Hi Hv. set (self := self_type (e_ident e) (e_generics e)). set (fs := replace_fields self (v_fields v)).
  assert (Hfs : In (v_fields v) (fields_of (w_item w))) by (rewrite Hi; apply in_map; exact Hv).
  assert (Hl : fields_legal fs) by (apply legal_replace; apply (pg_fields _ _ Hp _ Hfs)).
  pose proof (program_bind w a (v_fields v) self b Hp Hfs) as Hb. cbn zeta in Hb. fold fs in Hb.
  unfold enum_body. cbn [alias_body alias_stmts]. rewrite alias_getter.
  rewrite (find_arm_variant (variant_arm nm) (e_variants (spelled_enum e)) (replace_variant self v)).
  2:{ cbn [spelled_enum replace_enum e_variants]. rewrite !map_map.
      pose proof (pg_variants _ _ Hp) as N. rewrite Hi in N. cbn [variant_names] in N. rewrite map_map in N. exact N. }
  2:{ apply in_map. exact Hv. }
  2: reflexivity. 2: reflexivity.
  cbn [variant_arm arm_pat arm_stmts arm_tail alias_stmts]. unfold variant_pat. cbn [alias_pat replace_variant v_ident v_fields]. fold fs.
  rewrite (self_enum w a e v Hp Hi Hv). cbn [variant_matches s_var]. rewrite same_name_refl.
  set (a0 := mkA (S n) ops).
  pose proof (did_ptr (ref_kind b) PlSelf n a0) as G1.
  set (a1 := snd (derive_ptr (ref_kind b) PlSelf n a0)) in *.
  assert (Gu : did a1 (emit [OUse false PlSelf (a_next a0)] a1) []).
  { eexists. split; [reflexivity|]. intros rest. reflexivity. }
  destruct (tag_binds_did b (a_next a0) (fields_list fs) 0 (emit [OUse false PlSelf (a_next a0)] a1)) as (tg & a2 & E2 & G2).
  destruct (finish_project_did w uses b [nm; v_ident v] fs tg (self_left b n) a2 (program_scope _ _ Hp) Hl (self_left_quiet b n))
    as (vs & a3 & E3 & G3).
  exists vs, a3.
  assert (Hpat : match AvPtr (ref_kind b) PlSelf (a_next a0) with
     | AvPtr PkMut PlSelf t => match bind_fields w (v_fields v) (fields_delim fs) (map binding (enum_from 0 (fields_list fs))) true with
                               | Some l => tag_binds true t l (emit [OUse false PlSelf (a_next a0)] a1) | None => None end
     | AvPtr PkShared PlSelf t => match bind_fields w (v_fields v) (fields_delim fs) (map binding (enum_from 0 (fields_list fs))) false with
                               | Some l => tag_binds false t l (emit [OUse false PlSelf (a_next a0)] a1) | None => None end
     | _ => None end = Some (tagged b tg (enum_from 0 (fields_list fs)), a2)).
  { destruct b; cbn [ref_kind]; rewrite Hb; exact E2. }
  rewrite Hpat. split; [exact E3|].
  exact (did_trans _ _ _ _ _ G1 (did_trans _ _ _ _ _ Gu (did_trans _ _ _ _ _ G2 G3))).
Qed.
Lemma project_deeds w a k u vp fs uses t n : k <> POwn -> program w a -> has_proj k (w_item w) a = true ->
  value_of (w_item w) u vp fs ->
  exists x ops n', alias_project w (u_var u) uses (mname k) (kbool k) t n = Some (x, ops, n') /\ deeds false (tl ops) = [].
Proof.
  intros Hk Hp Hh Hv. remember (w_item w) as it eqn:Eit. symmetry in Eit. destruct Hv as [s ids H|e v ids Hin H]; cbn [u_var].
  - unfold alias_project. rewrite (struct_method w a s k Hp Eit Hh).
    destruct (body_struct_did w a s (kbool k) n [ORetag (ref_kind (kbool k)) true PlSelf t n] uses
                (match k with PRef => cx_ref_ident (struct_cx a (spelled_struct s)) | _ => cx_mut_ident (struct_cx a (spelled_struct s)) end)
                Hp Eit) as (vs & a' & E & os & Eo & Hd).
    exists (AvProj vs), (a_ops a' ++ [ORelease n]), (a_next a'). split.
    + unfold alias_method. destruct k; [| |elim Hk; reflexivity]; cbn [kbool getter] in E;
        cbn [kmethod method_project method_project_ref m_params m_body map rev app struct_kbody kbool]; rewrite E; reflexivity.
    + rewrite Eo. cbn [a_ops app tl]. rewrite Hd. reflexivity.
  - unfold alias_project. rewrite (enum_method w a e k Hp Eit Hh).
    destruct (body_enum_did w a e v (kbool k) n [ORetag (ref_kind (kbool k)) true PlSelf t n] uses
                (match k with PRef => cx_ref_ident (enum_cx a (spelled_enum e)) | _ => cx_mut_ident (enum_cx a (spelled_enum e)) end)
                Hp Eit Hin) as (vs & a' & E & os & Eo & Hd).
    exists (AvProj vs), (a_ops a' ++ [ORelease n]), (a_next a'). split.
    + unfold alias_method. destruct k; [| |elim Hk; reflexivity]; cbn [kbool getter] in E;
        cbn [kmethod method_project method_project_ref m_params m_body map rev app enum_kbody kbool]; rewrite E; reflexivity.
    + rewrite Eo. cbn [a_ops app tl]. rewrite Hd. reflexivity.
Qed.
Lemma c77_project w a u vp fs uses t n tr : program w a -> has_proj PMut (w_item w) a = true -> value_of (w_item w) u vp fs ->
  exists v s x ops n',
    call_method w "project" (RPin true PlSelf) [] (holding u tr Run) = Some (v, s) /\ s_trace s = tr /\
    alias_project w (u_var u) uses "project" true t n = Some (x, ops, n') /\ deeds false (tl ops) = [].
Proof.
  intros Hp Hh Hv. destruct (project_deeds w a PMut u vp fs uses t n ltac:(discriminate) Hp Hh Hv) as (x & ops & n' & E & D).
  rewrite (c14 w a u vp fs tr Hp Hh Hv). eexists _, _, x, ops, n'. split; [reflexivity|]. split; [reflexivity|]. split; [exact E|exact D].
Qed.
Lemma c77_project_ref w a u vp fs uses t n tr : program w a -> has_proj PRef (w_item w) a = true -> value_of (w_item w) u vp fs ->
  exists v s x ops n',
    call_method w "project_ref" (RPin false PlSelf) [] (holding u tr Run) = Some (v, s) /\ s_trace s = tr /\
    alias_project w (u_var u) uses "project_ref" false t n = Some (x, ops, n') /\ deeds false (tl ops) = [].
Proof.
  intros Hp Hh Hv. destruct (project_deeds w a PRef u vp fs uses t n ltac:(discriminate) Hp Hh Hv) as (x & ops & n' & E & D).
  rewrite (c15 w a u vp fs tr Hp Hh Hv). eexists _, _, x, ops, n'. split; [reflexivity|]. split; [reflexivity|]. split; [exact E|exact D].
Qed.

(** ** The destructor *)
Lemma destroy_deeds w a v uses t n : program w a ->
  exists x ops n', alias_destroy w v uses t n = Some (x, ops, n') /\
    deeds false (tl ops) = if ar_pinned_drop a then [DUser PlSelf] else [].
Proof.
  intros Hp. pose proof (program_scope _ _ Hp) as Hw. unfold alias_destroy. rewrite (program_drop w a Hp). destruct (ar_pinned_drop a).
  2:{ eexists _, _, _. split; reflexivity. }
  set (a0 := mkA (S n) [ORetag PkMut true PlSelf t n]).
  assert (H : exists a', alias_body w v uses drop_body [(I "self", Some (AvPtr PkMut PlSelf n))] a0 = Some (AvOwned, a') /\ did a0 a' [DUser PlSelf]).
  { unfold drop_body. cbn [alias_body alias_stmts alias_stmt alias_rhs alias_atom].
    change (is_wild (PBind (I "__pinned_self"))) with false. cbv iota.
    unfold alias_call at 1. rewrite (support_pp w Hw). cbn [lookup].
    assert (same_name (I "self") (I "self") = true) as E by reflexivity. rewrite E.
    cbn [derive_ptr alias_coerce alias_pat take]. rewrite E, (pg_locals _ _ Hp "__pinned_self") by (cbn; auto). cbn [app].
    unfold alias_call. rewrite (support_pp w Hw). cbn [lookup].
    assert (same_name (I "__pinned_self") (I "__pinned_self") = true) as E2 by reflexivity. rewrite E2.
    cbn [take]. rewrite E2. cbn [alias_drop alias_finish alias_drops].
    eexists. split; [reflexivity|]. exact (did_trans _ _ _ _ _ (did_ptr PkMut PlSelf n a0) (did_user uses PlSelf _ _)). }
  destruct H as (a' & E & os & Eo & Hd). unfold alias_method. cbn [drop_method m_params m_body map rev app]. fold a0. rewrite E.
  eexists _, _, _. split; [reflexivity|]. rewrite Eo. cbn [a0 a_ops app tl]. rewrite Hd. reflexivity.
Qed.
Lemma c77_drop w a u uses t n tr x : program w a -> x = Run \/ x = Unwind ->
  exists ev y ops n' rest,
    s_trace (drop_self w (holding u tr x)) = tr ++ ev /\
    alias_destroy w (u_var u) uses t n = Some (y, ops, n') /\
    deeds false (tl ops) ++ map (fun f => DUser (PlField (fst f))) (all_fields u) = flat_map deed_of ev ++ rest /\
    (s_stat (drop_self w (holding u tr x)) <> Abort -> rest = []).
Proof.
  intros Hp Hx. destruct (destroy_deeds w a (u_var u) uses t n Hp) as (y & ops & n' & E & D).
  assert (Hm : flat_map deed_of (map dropped_in_place (all_fields u)) = map (fun f => DUser (PlField (fst f))) (all_fields u)).
  { induction (all_fields u) as [|f l IH]; [reflexivity|]. cbn [map flat_map dropped_in_place deed_of app]. rewrite IH. reflexivity. }
  destruct (ar_pinned_drop a) eqn:Ha.
  - destruct (c23_exact w a u tr x Hp Ha Hx) as [Ht Hs].
    destruct (calls_prefix (bad_call w tr) (EvBody PlSelf :: map dropped_in_place (all_fields u)) x) as (rest & El & Hr).
    eexists _, y, ops, n', (flat_map deed_of rest). split; [exact Ht|]. split; [exact E|]. split.
    + rewrite D, <- flat_map_app, <- El, <- Hm. reflexivity.
    + intros H. rewrite Hs in H. rewrite (Hr Hx H). reflexivity.
  - destruct (c25_exact w a u tr x Hp Ha Hx) as [Ht Hs].
    destruct (calls_prefix (bad_call w tr) (map dropped_in_place (all_fields u)) x) as (rest & El & Hr).
    eexists _, y, ops, n', (flat_map deed_of rest). split; [exact Ht|]. split; [exact E|]. split.
    + rewrite D, <- flat_map_app, <- El, <- Hm. reflexivity.
    + intros H. rewrite Hs in H. rewrite (Hr Hx H). reflexivity.
Qed.

(** ** An abort in the middle *)
Lemma runs_prefix os1 os2 m m' : runs (os1 ++ os2) m m' -> exists m1, runs os1 m m1.
Proof.
  intros R. exists (fun l => match steps l os1 (m l) with Some s => s | None => [] end). intros l. specialize (R l).
  revert R. generalize (m l). induction os1 as [|o os1 IH]; intros s R; cbn [app steps] in *; [reflexivity|].
  destruct (step l o s) as [s'|]; [exact (IH s' R)|discriminate].
Qed.
Lemma c77_replace_aborted w a u vp fs uses t n mem x ops n' before after :
  program w a -> has_proj POwn (w_item w) a = true -> value_of (w_item w) u vp fs -> replaceable fs ->
  usable true t mem -> fresh n mem ->
  alias_project w (u_var u) uses "project_replace" true t n = Some (x, ops, n') -> ops = before ++ after ->
  exists mem', runs before mem mem'.
Proof.
  intros Hp Hh Hv Hre Hu Hf E Eo.
  destruct (c63_project_replace w a u vp fs uses t n mem Hp Hh Hv Hre Hu Hf) as (ops2 & n2 & mem2 & E2 & R & _).
  rewrite E in E2. injection E2 as -> -> ->. subst ops2. exact (runs_prefix _ _ _ _ R).
Qed.
Lemma c77_drop_aborted w a v uses t n mem x ops n' before after :
  program w a -> usable true t mem -> fresh n mem ->
  alias_destroy w v uses t n = Some (x, ops, n') -> ops = before ++ after -> exists mem', runs before mem mem'.
Proof.
  intros Hp Hu Hf E Eo.
  destruct (c63_drop w a v uses t n mem Hp Hu Hf) as (ops2 & n2 & mem2 & E2 & R & _).
  rewrite E in E2. injection E2 as -> -> ->. subst ops2. exact (runs_prefix _ _ _ _ R).
Qed.
Lemma grows_prefix os1 os2 m m' : grows (os1 ++ os2) m m' -> exists m1, grows os1 m m1.
Proof.
  intros R. exists (fun l => match tree_steps l os1 (m l) with Some s => s | None => m l end). intros l. specialize (R l).
  cut (tree_steps l os1 (m l) <> None); [destruct (tree_steps l os1 (m l)); [reflexivity|congruence]|].
  revert R. generalize (m l). induction os1 as [|o os1 IH]; intros s R; cbn [app tree_steps] in *; [discriminate|].
  destruct (tree_step l o s) as [s'|]; [exact (IH s' R)|discriminate].
Qed.
Lemma c77_replace_aborted_tree w a u vp fs uses t n mem x ops n' before after :
  program w a -> has_proj POwn (w_item w) a = true -> value_of (w_item w) u vp fs -> replaceable fs ->
  tree_usable true t mem -> unused n mem ->
  alias_project w (u_var u) uses "project_replace" true t n = Some (x, ops, n') -> ops = before ++ after ->
  exists mem', grows before mem mem'.
Proof.
  intros Hp Hh Hv Hre Hu Hf E Eo.
  destruct (c72_project_replace w a u vp fs uses t n mem Hp Hh Hv Hre Hu Hf) as (ops2 & n2 & mem2 & E2 & R & _).
  rewrite E in E2. injection E2 as -> -> ->. subst ops2. exact (grows_prefix _ _ _ _ R).
Qed.
Lemma c77_drop_aborted_tree w a v uses t n mem x ops n' before after :
  program w a -> tree_usable true t mem -> unused n mem ->
  alias_destroy w v uses t n = Some (x, ops, n') -> ops = before ++ after -> exists mem', grows before mem mem'.
Proof.
  intros Hp Hu Hf E Eo.
  destruct (c72_drop w a v uses t n mem Hp Hu Hf) as (ops2 & n2 & mem2 & E2 & R & _).
  rewrite E in E2. injection E2 as -> -> ->. subst ops2. exact (grows_prefix _ _ _ _ R).
Qed.
