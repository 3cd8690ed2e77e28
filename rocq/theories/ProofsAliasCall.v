(** The aliasing rules: whole calls. *)
From Coq Require Import String Ascii List Bool Arith Lia.
From Verif Require Import Base Syntax ModelArgs ModelUtils ModelDerive ModelRun ModelAlias.
From Verif Require Import SpecArgs SpecDerive SpecExpand SpecRun SpecAlias.
From Verif Require Import ProofsArgs ProofsUtils ProofsDerive ProofsExpand ProofsTypes ProofsRun ProofsRunProj ProofsRunReplace.
From Verif Require Import ProofsRunDrop ProofsAlias ProofsAliasRun.
Import ListNotations.
Open Scope string_scope.
Open Scope list_scope.

(** ** [project] and [project_ref] *)
Lemma alias_finish_project w uses b path fs tg e0 a m : scope_ok w -> fields_legal fs -> quiet e0 -> fresh (a_next a) m ->
  (forall nf, In nf (enum_from 0 (fields_list fs)) -> top (kperm b) (tg (fst nf)) (PlField (fst nf)) m) ->
  exists vs a' m',
    alias_finish w uses (Some (RLit path (fields_delim fs) (map body_of (enum_from 0 (fields_list fs)))))
      (tagged b tg (enum_from 0 (fields_list fs)) ++ e0) a = Some (AvProj vs, a') /\
    go b a a' m m' /\ Forall2 (is_ref b m') (enum_from 0 (fields_list fs)) vs.
Proof.
  intros Hw Hl Hq Hf Ht. unfold alias_finish. cbn [alias_rhs].
  pose proof (legal_vars _ Hl) as Hv.
  destruct (alias_body_fields w uses b tg (fields_delim fs) (fields_list fs) Hw (legal_shaped _ Hl) 0
              (tagged b tg (enum_from 0 (fields_list fs)) ++ e0) a m Hf) as (vs & e' & a' & m' & E & Q & G & R & _); auto.
  - intros nf Hin. apply lookup_tagged; [exact Hv|exact Hin].
  - apply quiet_app; [apply tagged_quiet|exact Hq].
  - rewrite E. exists vs, a', m'. rewrite (drops_quiet uses e' a' Q). auto.
Qed.

Definition getter (b : bool) : string := if b then "get_unchecked_mut" else "get_ref".
Definition self_left (b : bool) (n : nat) : aenv := [(I "self", if b then None else Some (AvPin false PlSelf n))].
Lemma self_left_quiet b n : quiet (self_left b n).
Proof. intros x v [H|[]]. destruct b; [discriminate|]. injection H as _ <-. exact Coq.Init.Logic.I. Qed.
Lemma alias_getter w uses b n a :
  alias_atom w uses (AMethod (I "self") (I (getter b))) [(I "self", Some (AvPin b PlSelf n))] a =
  Some (AvPtr (ref_kind b) PlSelf (a_next a), self_left b n, snd (derive_ptr (ref_kind b) PlSelf n a)).
Proof. destruct b; reflexivity. Qed.

Lemma alias_body_struct w a s b n ops m uses nm : program w a -> w_item w = ItStruct s ->
  fresh (S n) m -> top (kperm b) n PlSelf m ->
  let fs := s_fields (spelled_struct s) in
  exists vs a' m',
    alias_body w None uses (struct_body (getter b) nm fs) [(I "self", Some (AvPin b PlSelf n))] (mkA (S n) ops) = Some (AvProj vs, a') /\
    go b (mkA (S n) ops) a' m m' /\ Forall2 (is_ref b m') (enum_from 0 (fields_list fs)) vs.
Proof.
  intros Hp Hi Hf Ht fs. set (self := self_type (s_ident s) (s_generics s)).
  assert (Hfs : In (s_fields s) (fields_of (w_item w))) by (rewrite Hi; left; reflexivity).
  assert (Hl : fields_legal fs) by (apply legal_replace; apply (pg_fields _ _ Hp _ Hfs)).
  pose proof (program_bind w a (s_fields s) self b Hp Hfs) as Hb. cbn zeta in Hb.
  change (replace_fields self (s_fields s)) with fs in Hb.
  unfold struct_body. cbn [alias_body alias_stmts alias_stmt alias_rhs]. rewrite alias_getter. cbn [alias_coerce].
  unfold struct_pat. cbn [is_wild alias_pat]. rewrite (self_struct w a s Hp Hi). cbn [variant_matches s_var].
  set (a0 := mkA (S n) ops).
  assert (Hs : held b n PlSelf m) by (apply (top_held (kperm b)); [destruct b; reflexivity|exact Ht]).
  pose proof (go_ref b PlSelf n a0 m Hf Hs) as G1.
  set (a1 := snd (derive_ptr (ref_kind b) PlSelf n a0)) in *. set (m1 := push PlSelf _ m) in *.
  destruct (tag_binds_go b (a_next a0) (fields_list fs) 0 a1 m1) as (tg & a2 & m2 & E2 & G2 & T2 & _).
  { apply (go_fresh _ _ _ _ _ G1). }
  { intros nf _. apply (held_part b _ _ PlSelf); [reflexivity|].
    apply (top_held (kperm b)); [destruct b; reflexivity|apply top_push]. }
  destruct (alias_finish_project w uses b [nm] fs tg (self_left b n) a2 m2 (program_scope _ _ Hp) Hl (self_left_quiet b n)
              (go_fresh _ _ _ _ _ G2) T2) as (vs & a3 & m3 & E3 & G3 & R3).
  exists vs, a3, m3.
  assert (Hpat : match AvPtr (ref_kind b) PlSelf (a_next a0) with
     | AvPtr PkMut PlSelf t => match bind_fields w (s_fields s) (fields_delim fs) (map binding (enum_from 0 (fields_list fs))) true with
                               | Some l => tag_binds true t l a1 | None => None end
     | AvPtr PkShared PlSelf t => match bind_fields w (s_fields s) (fields_delim fs) (map binding (enum_from 0 (fields_list fs))) false with
                               | Some l => tag_binds false t l a1 | None => None end
     | _ => None end = Some (tagged b tg (enum_from 0 (fields_list fs)), a2)).
  { destruct b; cbn [ref_kind]; rewrite Hb; exact E2. }
  rewrite Hpat. split; [exact E3|]. split; [|exact R3].
  eapply go_trans; [exact G1|]. eapply go_trans; eassumption.
Qed.

Lemma alias_body_enum w a e v b n ops m uses nm : program w a -> w_item w = ItEnum e -> In v (e_variants e) ->
  fresh (S n) m -> top (kperm b) n PlSelf m ->
  let fs := replace_fields (self_type (e_ident e) (e_generics e)) (v_fields v) in
  exists vs a' m',
    alias_body w (Some (v_ident v)) uses (enum_body (getter b) nm (e_variants (spelled_enum e)))
      [(I "self", Some (AvPin b PlSelf n))] (mkA (S n) ops) = Some (AvProj vs, a') /\
    go b (mkA (S n) ops) a' m m' /\ Forall2 (is_ref b m') (enum_from 0 (fields_list fs)) vs.
Proof.
  intros Hp Hi Hv Hf Ht fs. set (self := self_type (e_ident e) (e_generics e)). fold self in fs.
  assert (Hfs : In (v_fields v) (fields_of (w_item w))) by (rewrite Hi; apply in_map; exact Hv).
  assert (Hl : fields_legal fs) by (apply legal_replace; apply (pg_fields _ _ Hp _ Hfs)).
  pose proof (program_bind w a (v_fields v) self b Hp Hfs) as Hb. cbn zeta in Hb. fold fs in Hb.
  unfold enum_body. cbn [alias_body alias_stmts]. rewrite alias_getter.
  rewrite (find_arm_variant (variant_arm nm) (e_variants (spelled_enum e)) (replace_variant self v)).
  2:{ cbn [spelled_enum replace_enum e_variants]. rewrite !map_map.
      pose proof (pg_variants _ _ Hp) as N. rewrite Hi in N. cbn [variant_names] in N. rewrite map_map in N. exact N. }
  2:{ apply in_map. exact Hv. }
  2: reflexivity. 2: reflexivity.
  cbn [variant_arm arm_pat arm_stmts arm_tail alias_stmts]. unfold variant_pat. cbn [alias_pat replace_variant v_ident v_fields]. fold fs.
  rewrite (self_enum w a e v Hp Hi Hv). cbn [variant_matches s_var]. rewrite same_name_refl.
  set (a0 := mkA (S n) ops).
  assert (Hs : held b n PlSelf m) by (apply (top_held (kperm b)); [destruct b; reflexivity|exact Ht]).
  pose proof (go_ref b PlSelf n a0 m Hf Hs) as G1.
  set (a1 := snd (derive_ptr (ref_kind b) PlSelf n a0)) in *. set (m1 := push PlSelf _ m) in *.
  assert (T1 : top (kperm b) (a_next a0) PlSelf m1) by apply top_push.
  pose proof (go_use b false PlSelf (a_next a0) a1 m1 (go_fresh _ _ _ _ _ G1)
                (top_held (kperm b) false _ _ _ ltac:(destruct b; reflexivity) T1)) as Gu.
  destruct (tag_binds_go b (a_next a0) (fields_list fs) 0 (emit [OUse false PlSelf (a_next a0)] a1) m1) as (tg & a2 & m2 & E2 & G2 & T2 & _).
  { apply (go_fresh _ _ _ _ _ Gu). }
  { intros nf _. apply (held_part b _ _ PlSelf); [reflexivity|].
    apply (top_held (kperm b)); [destruct b; reflexivity|exact T1]. }
  destruct (alias_finish_project w uses b [nm; v_ident v] fs tg (self_left b n) a2 m2 (program_scope _ _ Hp) Hl (self_left_quiet b n)
              (go_fresh _ _ _ _ _ G2) T2) as (vs & a3 & m3 & E3 & G3 & R3).
  exists vs, a3, m3.
  assert (Hpat : match AvPtr (ref_kind b) PlSelf (a_next a0) with
     | AvPtr PkMut PlSelf t => match bind_fields w (v_fields v) (fields_delim fs) (map binding (enum_from 0 (fields_list fs))) true with
                               | Some l => tag_binds true t l (emit [OUse false PlSelf (a_next a0)] a1) | None => None end
     | AvPtr PkShared PlSelf t => match bind_fields w (v_fields v) (fields_delim fs) (map binding (enum_from 0 (fields_list fs))) false with
                               | Some l => tag_binds false t l (emit [OUse false PlSelf (a_next a0)] a1) | None => None end
     | _ => None end = Some (tagged b tg (enum_from 0 (fields_list fs)), a2)).
  { destruct b; cbn [ref_kind]; rewrite Hb; exact E2. }
  rewrite Hpat. split; [exact E3|]. split; [|exact R3].
  eapply go_trans; [exact G1|]. eapply go_trans; [exact Gu|]. eapply go_trans; eassumption.
Qed.

(** ** [project_replace] *)
Definition guard_env (cg : nat -> nat) (js : list nat) : aenv :=
  map (fun j => (I "__guard", Some (AvDropGuard (PlField j) (cg j)))) js.
Lemma alias_guards w var uses tg bs : scope_ok w -> w_consts w (I "__guard") = false -> forall e a m, fresh (a_next a) m ->
  (forall b, In b bs -> lookup (fst b) e = Some (AvPtr PkMut (PlField (snd b)) (tg (snd b)))) ->
  (forall b, In b bs -> top Unique (tg (snd b)) (PlField (snd b)) m) -> NoDup (map snd bs) ->
  (forall b, In b (tl bs) -> name (fst b) <> "__guard") ->
  exists cg a' m', alias_stmts w var uses (map guard_stmt (map fst bs)) e a = Some (guard_env cg (rev (map snd bs)) ++ e, a') /\
    go true a a' m m' /\ (forall b, In b bs -> top SharedRW (cg (snd b)) (PlField (snd b)) m') /\
    (forall l, (forall b, In b bs -> covers (PlField (snd b)) l = false) -> m' l = m l).
Proof.
  intros Hw Hc. induction bs as [|[b j] bs IH]; intros e a m Hf Hg Ht Hd Hn; cbn [map alias_stmts fst].
  - exists (fun x => x), a, m. split; [reflexivity|]. split; [apply go_refl; exact Hf|]. split; [intros b []|]. reflexivity.
  - cbn [guard_stmt alias_stmt alias_rhs alias_atom]. change (is_wild (PBind (I "__guard"))) with false. unfold alias_call.
    rewrite (support_pp w Hw). pose proof (Hg (b, j) (or_introl eq_refl)) as Hb. cbn [fst snd] in Hb. rewrite Hb.
    cbn [derive_ptr alias_coerce alias_pat]. rewrite Hc. cbn [app].
    pose proof (go_raw Unique (PlField j) (tg j) a m Hf eq_refl (Ht (b, j) (or_introl eq_refl))) as G1. cbn [derive_ptr snd] in G1.
    set (a1 := mkA (S (a_next a)) _) in *. set (m1 := push (PlField j) _ m) in *.
    cbn [map snd] in Hd. inversion Hd as [|x y Hx Hy]; subst.
    assert (Hj : forall c, In c bs -> snd c <> j) by (intros c Hc' E; apply Hx; rewrite <- E; apply in_map; exact Hc').
    destruct (IH ((I "__guard", Some (AvDropGuard (PlField j) (a_next a))) :: e) a1 m1) as (cg & a2 & m2 & E2 & G2 & T2 & O2); auto.
    + apply (go_fresh _ _ _ _ _ G1).
    + intros [c k] Hin. cbn [lookup fst snd].
      assert (same_name c (I "__guard") = false) as -> by (apply same_name_false; apply (Hn (c, k)); exact Hin).
      apply (Hg (c, k)). right; exact Hin.
    + intros c Hin. apply top_other; [|apply Ht; right; exact Hin]. intros l. apply covers_field. apply Hj. exact Hin.
    + intros c Hin. apply Hn. destruct bs; [destruct Hin|right; exact Hin].
    + exists (fun i => if Nat.eqb i j then a_next a else cg i), a2, m2. split; [|split; [eapply go_trans; eassumption|split]].
      * rewrite E2. unfold guard_env. cbn [snd rev]. rewrite map_app. cbn [map]. rewrite Nat.eqb_refl, <- app_assoc. cbn [app].
        f_equal. f_equal. f_equal. apply map_ext_in. intros i Hin. apply in_rev in Hin.
        assert (Nat.eqb i j = false) as ->; [|reflexivity]. apply Nat.eqb_neq. intros ->. exact (Hx Hin).
      * intros c [<-|Hin]; cbn [snd].
        -- rewrite Nat.eqb_refl. intros l Hl. rewrite (O2 l); [apply (top_push SharedRW (a_next a) false (PlField j) m l Hl)|].
           intros c Hc'. apply (covers_field j); [|exact Hl]. intros E. apply (Hj c Hc'). auto.
        -- assert (Nat.eqb (snd c) j = false) as -> by (apply Nat.eqb_neq; apply Hj; exact Hin). apply T2. exact Hin.
      * intros l Hl. rewrite (O2 l) by (intros c Hin; apply Hl; right; exact Hin). unfold m1, push.
        pose proof (Hl (b, j) (or_introl eq_refl)) as El. cbn [snd] in El. rewrite El. reflexivity.
Qed.
Lemma alias_drop_guards uses cg js : forall a m, fresh (a_next a) m -> NoDup js ->
  (forall j, In j js -> top SharedRW (cg j) (PlField j) m) ->
  exists m', go true a (alias_drops uses (guard_env cg js) a) m m'.
Proof.
  induction js as [|j js IH]; intros a m Hf Hd Ht.
  - exists m. apply go_refl. exact Hf.
  - cbn [guard_env map alias_drops alias_drop]. inversion Hd; subst.
    pose proof (go_user uses (PlField j) (cg j) a m Hf (top_held SharedRW true _ _ _ eq_refl (Ht j (or_introl eq_refl)))) as G1.
    destruct (IH (user_code uses (PlField j) (cg j) a) _ (go_fresh _ _ _ _ _ G1)) as (m2 & G2); [assumption| |].
    + intros i Hin. apply top_other; [|apply Ht; right; exact Hin]. intros l. apply covers_field. intros ->. contradiction.
    + exists m2. eapply go_trans; eassumption.
Qed.
Lemma alias_block w var uses ss e a : alias_stmt w var uses (SBlock ss) e a =
  option_map (alias_leave uses (length e)) (alias_stmts w var uses ss e a).
Proof. reflexivity. Qed.

(** The variables after the prologue. *)
Definition rep_left (tr : nat) : aenv :=
  [(I "__guard", Some (AvOverGuard PlSelf tr)); (I "__self_ptr", Some (AvPtr PkRaw PlSelf tr)); (I "__replacement", None); (I "self", None)].
Lemma alias_own w var uses path fs tg tr a m : scope_ok w -> fields_legal fs ->
  w_consts w (I "__guard") = false -> w_consts w (I "__result") = false ->
  not_result (fields_list fs) -> not_guard (fields_list fs) -> fresh (a_next a) m ->
  (forall nf, In nf (enum_from 0 (fields_list fs)) -> top Unique (tg (fst nf)) (PlField (fst nf)) m) ->
  exists vs a' m',
    match alias_stmts w var uses (own_stmts path fs) (tagged true tg (enum_from 0 (fields_list fs)) ++ rep_left tr) a with
    | Some (e1, a1) => alias_finish w uses (Some (RAtom (AVar (I "__result")))) e1 a1
    | None => None
    end = Some (AvProj vs, emit [OUse true PlSelf tr] a') /\
    go true a a' m m' /\ Forall2 is_owned (enum_from 0 (fields_list fs)) vs.
Proof.
  intros Hw Hl Hcg Hcr Hnr Hng Hf Ht. unfold own_stmts. cbn [alias_stmts].
  set (l := fields_list fs) in *. pose proof (legal_vars fs Hl) as Hv. fold l in Hv.
  set (e0 := tagged true tg (enum_from 0 l) ++ rep_left tr).
  assert (Hg : forall nf, In nf (enum_from 0 l) -> lookup (binding nf) e0 = Some (AvPtr PkMut (PlField (fst nf)) (tg (fst nf)))).
  { intros nf Hin. apply (lookup_tagged true); assumption. }
  destruct (alias_move_fields w uses tg (fields_delim fs) l Hw 0 e0 a m Hf Hg Ht) as (vs & a1 & m1 & E1 & G1 & R1 & _ & P1).
  change (alias_stmt w var uses (SLet (PBind (I "__result")) None (RLit path (fields_delim fs) (map move_of (enum_from 0 l)))) e0 a) with
    (match alias_rhs w uses (RLit path (fields_delim fs) (map move_of (enum_from 0 l))) e0 a with
     | Some (v, e1, a1) =>
       match alias_coerce None v a1 with
       | Some (v', a2) => match alias_pat w var (PBind (I "__result")) v' a2 with Some (bs, a3) => Some (bs ++ e1, a3) | None => None end
       | None => None
       end
     | None => None
     end).
  cbn [alias_rhs]. rewrite E1. cbn [alias_coerce alias_pat]. rewrite Hcr. cbn [app]. rewrite alias_block.
  set (e1 := (I "__result", Some (AvProj vs)) :: e0).
  set (pl := filter (fun nf => pin_b (snd nf)) (enum_from 0 l)).
  set (bs := rev (map (fun nf : nat * field => (binding nf, fst nf)) pl)).
  assert (Epb : rev (pinned_bindings l) = map fst bs).
  { unfold pinned_bindings, bs. rewrite map_rev. f_equal. rewrite map_map. reflexivity. }
  rewrite Epb.
  assert (Hbs : forall b, In b bs -> exists nf, b = (binding nf, fst nf) /\ In nf (enum_from 0 l) /\ pin_b (snd nf) = true).
  { intros b Hb. unfold bs in Hb. apply in_rev in Hb. apply in_map_iff in Hb. destruct Hb as (nf & <- & Hin).
    apply filter_In in Hin. exists nf. split; [reflexivity|exact Hin]. }
  assert (Hnd : NoDup (map snd bs)).
  { unfold bs. rewrite map_rev. apply NoDup_rev. rewrite map_map. cbn [snd]. unfold pl.
    assert (H : NoDup (map fst (enum_from 0 l))).
    { rewrite enum_from_combine.
      assert (forall k, map fst (combine (seq k (length l)) l) = seq k (length l)) as ->.
      { clear. induction l as [|x l IH]; intros k; cbn; [reflexivity|f_equal; apply IH]. }
      apply seq_NoDup. }
    clear - H. induction (enum_from 0 l) as [|x q IH]; cbn [filter map]; [constructor|].
    cbn [map] in H. inversion H; subst. destruct (pin_b (snd x)); cbn [map]; [|auto]. constructor; [|auto].
    intros E. apply H2. apply in_map_iff in E. destruct E as (y & E & Hy). apply filter_In in Hy.
    apply in_map_iff. exists y. split; [exact E|apply Hy]. }
  destruct (alias_guards w var uses tg bs Hw Hcg e1 a1 m1 (go_fresh _ _ _ _ _ G1)) as (cg & a2 & m2 & E2 & G2 & T2 & _); auto.
  { intros b Hb. destruct (Hbs b Hb) as (nf & -> & Hin & Hp). cbn [fst snd]. unfold e1. cbn [lookup].
    assert (same_name (binding nf) (I "__result") = false) as -> by (apply same_name_false; apply Hnr; assumption).
    apply Hg. exact Hin. }
  { intros b Hb. destruct (Hbs b Hb) as (nf & -> & Hin & Hp). cbn [snd]. apply P1; assumption. }
  { intros b Hb'.
    assert (exists q y, map (fun nf : nat * field => (binding nf, fst nf)) pl = q ++ [y] /\ In b q) as (q & y & Eq & Hq).
    { unfold bs in Hb'. destruct (rev (map (fun nf : nat * field => (binding nf, fst nf)) pl)) as [|y q] eqn:E; [destruct Hb'|].
      exists (rev q), y. split.
      - rewrite <- (rev_involutive (map _ pl)), E. reflexivity.
      - apply in_rev in Hb'. exact Hb'. }
    apply map_eq_app in Eq. destruct Eq as (p1 & p2 & Epl & <- & Ey).
    destruct p2 as [|y0 [|]]; try discriminate. apply in_map_iff in Hq. destruct Hq as (x & <- & Hx).
    apply in_split in Hx. destruct Hx as (q1 & q2 & ->). cbn [fst].
    unfold pl in Epl. rewrite <- app_assoc in Epl. cbn [app] in Epl.
    apply filter_app_inv in Epl. destruct Epl as (b1 & b2 & Ee & _ & Eb & Hpx).
    apply filter_app_inv in Eb. destruct Eb as (c1 & c2 & -> & _ & _ & Hpy).
    exact (Hng b1 x c1 y0 c2 Ee Hpx Hpy). }
  rewrite E2. cbn [option_map]. unfold alias_leave. cbn [fst snd].
  assert (Elen : forall g : aenv, length (g ++ e1) - length e1 = length g) by (intros g; rewrite app_length; lia).
  rewrite Elen.
  assert (Esk : forall g : aenv, skipn (length g) (g ++ e1) = e1) by (intros g; rewrite skipn_app, skipn_all, Nat.sub_diag; reflexivity).
  assert (Efs : forall g : aenv, firstn (length g) (g ++ e1) = g)
    by (intros g; rewrite firstn_app, firstn_all, Nat.sub_diag; cbn; apply app_nil_r).
  rewrite Esk, Efs.
  destruct (alias_drop_guards uses cg (rev (map snd bs)) a2 m2 (go_fresh _ _ _ _ _ G2)) as (m3 & G3).
  { apply NoDup_rev. exact Hnd. }
  { intros j Hj. apply in_rev in Hj. apply in_map_iff in Hj. destruct Hj as (b & <- & Hb). apply T2. exact Hb. }
  exists vs, (alias_drops uses (guard_env cg (rev (map snd bs))) a2), m3. split; [|split; [|exact R1]].
  - unfold alias_finish. cbn [alias_rhs alias_atom]. unfold e1. cbn [lookup take]. rewrite same_name_refl. cbn [alias_drops].
    unfold e0. rewrite drops_app, (drops_quiet uses (tagged true tg (enum_from 0 l))) by apply tagged_quiet. reflexivity.
  - eapply go_trans; [exact G1|]. eapply go_trans; eassumption.
Qed.

(** The final write through the raw pointer ends everything that was made from it. *)
Lemma go_pop tr ar a4 mr m4 : fresh (a_next ar) mr -> top SharedRW tr PlSelf mr ->
  go true (snd (derive_ptr PkMut PlSelf tr ar)) a4 (push PlSelf (mkEntry (a_next ar) Unique false) mr) m4 ->
  go true ar (emit [OUse true PlSelf tr] a4) mr mr.
Proof.
  intros Hf Ht G4.
  pose proof (go_ref true PlSelf tr ar mr Hf (top_held SharedRW true _ _ _ eq_refl Ht)) as G3. cbn [ref_kind kperm] in G3.
  pose proof (go_trans _ _ _ _ _ _ _ G3 G4) as G. destruct G as [(os & E & R & L) X N F C].
  assert (Hpop : forall l, exists x, m4 l = x ++ mr l /\ Forall (fun e => en_prot e = false) x /\ access true tr (m4 l) = Some (mr l)).
  { intros l. destruct (go_ext _ _ _ _ _ G4 l) as (x & Ex & Hx). cbn [derive_ptr snd a_next] in Hx.
    unfold push in Ex. rewrite covers_self in Ex.
    assert (Htr : tr < a_next ar).
    { destruct (Ht l (covers_self l)) as (pr & r & El). apply (Hf l (mkEntry tr SharedRW pr)). rewrite El. left. reflexivity. }
    change (x ++ mkEntry (a_next ar) Unique false :: mr l) with (x ++ [mkEntry (a_next ar) Unique false] ++ mr l) in Ex.
    rewrite Ex, app_assoc. exists (x ++ [mkEntry (a_next ar) Unique false]). split; [reflexivity|]. split.
    - apply Forall_app. split; [|constructor; [reflexivity|constructor]]. eapply Forall_impl; [|exact Hx]. intros e (_ & He & _). exact He.
    - apply (access_write_new tr (mr l) (mr l) x (mkEntry (a_next ar) Unique false)); [|reflexivity| |].
      * apply (top_settled SharedRW true _ _ _ eq_refl Ht l (covers_self l)).
      * apply Forall_app. split; [|constructor; [cbn; lia|constructor]]. eapply Forall_impl; [|exact Hx]. intros e (? & ? & ?). lia.
      * rewrite existsb_app. cbn [existsb en_prot orb]. rewrite orb_false_r. clear - Hx.
        induction Hx as [|e x (_ & He & _) Hx IH]; cbn [existsb]; [reflexivity|]. rewrite He, IH. reflexivity. }
  constructor; cbn [emit a_ops a_next]; [| |exact N| |].
  - exists (os ++ [OUse true PlSelf tr]). rewrite E, <- app_assoc. split; [reflexivity|]. split.
    + apply (runs_app _ _ mr m4); [exact R|]. intros l. cbn [steps step]. rewrite covers_self.
      destruct (Hpop l) as (x & _ & _ & ->). reflexivity.
    + intros t Ht'. apply in_app_or in Ht'. destruct Ht' as [Ht'|[Ht'|[]]]; [apply L; exact Ht'|discriminate].
  - intros l. exists []. auto.
  - intros l x Hx. pose proof (Hf l x Hx). lia.
  - intros os' E' l. rewrite E, <- app_assoc in E'. apply app_inv_head in E'. subst os'.
    apply (calm_app l os _ _ _ (m4 l) (a_next a4)); [exact (C os E l)|exact (R l)|].
    intros k0 Hk. cbn [calm]. exists k0. split; [|intros; exact Hk]. split; [reflexivity|]. intros _. right. split; [reflexivity|].
    destruct (Hpop l) as (x & Ex & Hx & Ha). destruct (Ht l (covers_self l)) as (pr & r & Er).
    exists x, pr, r. rewrite <- Er. auto.
Qed.

Definition rep_start (n : nat) : aenv := [(I "__replacement", Some AvOwned); (I "self", Some (AvPin true PlSelf n))].
Definition rep_mem (n : nat) (m : memory) : memory :=
  push PlSelf (mkEntry (S (S n)) SharedRW false) (push PlSelf (mkEntry (S n) Unique false) m).
Definition rep_ast (n : nat) (ops : list op) : ast :=
  mkA (S (S (S n))) ((ops ++ [ORetag PkMut false PlSelf n (S n)]) ++ [ORetag PkRaw false PlSelf (S n) (S (S n))]).
Lemma alias_prologue w a var uses n ops : program w a ->
  alias_stmts w var uses replace_prologue (rep_start n) (mkA (S n) ops) = Some (rep_left (S (S n)), rep_ast n ops).
Proof.
  intros Hp. unfold replace_prologue, rep_start. cbn [alias_stmts alias_stmt alias_rhs alias_atom].
  change (is_wild (PBind (I "__self_ptr"))) with false. change (is_wild (PBind (I "__guard"))) with false. cbv iota.
  assert (same_name (I "self") (I "__replacement") = false) as E1 by reflexivity.
  assert (same_name (I "self") (I "self") = true) as E2 by reflexivity.
  cbn [lookup]. rewrite E1, E2. assert (ident_is (I "get_unchecked_mut") "get_unchecked_mut" = true) as -> by reflexivity.
  cbn [take derive_ptr]. rewrite E1, E2. cbn [alias_coerce derive_ptr alias_pat].
  rewrite (pg_locals _ _ Hp "__self_ptr") by (cbn; auto). cbn [app].
  unfold alias_call. rewrite (support_pp w (program_scope _ _ Hp)). cbn [lookup].
  assert (same_name (I "__self_ptr") (I "__self_ptr") = true) as -> by reflexivity.
  assert (same_name (I "__replacement") (I "__self_ptr") = false) as E3 by reflexivity.
  assert (same_name (I "__replacement") (I "__replacement") = true) as E4 by reflexivity.
  rewrite E3, E4. cbn [take]. rewrite E3, E4. cbn [alias_coerce alias_pat].
  rewrite (pg_locals _ _ Hp "__guard") by (cbn; auto). reflexivity.
Qed.
Lemma go_prologue n ops m : fresh (S n) m -> top Unique n PlSelf m -> go true (mkA (S n) ops) (rep_ast n ops) m (rep_mem n m).
Proof.
  intros Hf Ht.
  pose proof (go_ref true PlSelf n (mkA (S n) ops) m Hf (top_held Unique true _ _ _ eq_refl Ht)) as G1.
  cbn [derive_ptr snd a_next a_ops ref_kind kperm] in G1.
  eapply go_trans; [exact G1|].
  exact (go_raw Unique PlSelf (S n) _ _ (go_fresh _ _ _ _ _ G1) eq_refl (top_push Unique (S n) false PlSelf m)).
Qed.
Lemma alias_deref w uses tr a :
  alias_atom w uses (ARefMutDeref (I "__self_ptr")) (rep_left tr) a =
  Some (AvPtr PkMut PlSelf (a_next a), rep_left tr, snd (derive_ptr PkMut PlSelf tr a)).
Proof. reflexivity. Qed.
Lemma alias_stmts_app w var uses ss1 ss2 e a : alias_stmts w var uses (ss1 ++ ss2) e a =
  match alias_stmts w var uses ss1 e a with Some (e1, a1) => alias_stmts w var uses ss2 e1 a1 | None => None end.
Proof.
  revert e a. induction ss1 as [|x ss1 IH]; intros e a; cbn [app alias_stmts]; [reflexivity|].
  destruct (alias_stmt w var uses x e a) as [[e1 a1]|]; [apply IH|reflexivity].
Qed.

Lemma alias_replace_struct w a s n ops m uses nm : program w a -> w_item w = ItStruct s -> replaceable (s_fields s) ->
  fresh (S n) m -> top Unique n PlSelf m ->
  let fs := s_fields (spelled_struct s) in
  exists vs a',
    alias_body w None uses (add_prologue replace_prologue (struct_body_own nm fs)) (rep_start n) (mkA (S n) ops) = Some (AvProj vs, a') /\
    go true (mkA (S n) ops) a' m (rep_mem n m) /\ Forall2 is_owned (enum_from 0 (fields_list fs)) vs.
Proof.
  intros Hp Hi Hre Hf Ht fs. set (self := self_type (s_ident s) (s_generics s)).
  assert (Hfs : In (s_fields s) (fields_of (w_item w))) by (rewrite Hi; left; reflexivity).
  assert (Hl0 : fields_legal (s_fields s)) by apply (pg_fields _ _ Hp _ Hfs).
  assert (Hl : fields_legal fs) by (apply legal_replace; exact Hl0).
  pose proof (program_bind w a (s_fields s) self true Hp Hfs) as Hb. cbn zeta in Hb.
  change (replace_fields self (s_fields s)) with fs in Hb.
  unfold struct_body_own. cbn [add_prologue alias_body]. rewrite alias_stmts_app, (alias_prologue w a) by exact Hp.
  pose proof (go_prologue n ops m Hf Ht) as G1. set (ar := rep_ast n ops) in *. set (mr := rep_mem n m) in *.
  assert (Tr : top SharedRW (S (S n)) PlSelf mr) by apply top_push.
  cbn [alias_stmts]. 
  change (alias_stmt w None uses (SLet (struct_pat fs 0) None (RAtom (ARefMutDeref (I "__self_ptr")))) (rep_left (S (S n))) ar) with
    (match alias_atom w uses (ARefMutDeref (I "__self_ptr")) (rep_left (S (S n))) ar with
     | Some (v, e1, a1) =>
       match alias_pat w None (struct_pat fs 0) v a1 with Some (bs, a3) => Some (bs ++ e1, a3) | None => None end
     | None => None
     end).
  rewrite alias_deref. unfold struct_pat. cbn [alias_pat]. rewrite (self_struct w a s Hp Hi). cbn [variant_matches s_var]. rewrite Hb.
  pose proof (go_ref true PlSelf (S (S n)) ar mr (go_fresh _ _ _ _ _ G1) (top_held SharedRW true _ _ _ eq_refl Tr)) as G2.
  cbn [ref_kind kperm] in G2.
  set (a2 := snd (derive_ptr PkMut PlSelf (S (S n)) ar)) in *. set (m2 := push PlSelf _ mr) in *.
  destruct (tag_binds_go true (a_next ar) (fields_list fs) 0 a2 m2) as (tg & a3 & m3 & E3 & G3 & T3 & _).
  { apply (go_fresh _ _ _ _ _ G2). }
  { intros nf _. apply (held_part true _ _ PlSelf); [reflexivity|]. apply (top_held Unique); [reflexivity|apply top_push]. }
  rewrite E3.
  destruct (alias_own w None uses [nm] fs tg (S (S n)) a3 m3 (program_scope _ _ Hp) Hl) as (vs & a4 & m4 & E4 & G4 & R4).
  - apply (pg_locals _ _ Hp). cbn; auto.
  - apply (pg_locals _ _ Hp). cbn; auto.
  - apply (replaceable_result self); assumption.
  - apply (replaceable_guard self); assumption.
  - apply (go_fresh _ _ _ _ _ G3).
  - exact T3.
  - exists vs, (emit [OUse true PlSelf (S (S n))] a4). split; [exact E4|]. split; [|exact R4].
    eapply go_trans; [exact G1|]. apply (go_pop _ _ _ _ m4 (go_fresh _ _ _ _ _ G1) Tr). eapply go_trans; eassumption.
Qed.
Lemma alias_replace_enum w a e v n ops m uses nm : program w a -> w_item w = ItEnum e -> In v (e_variants e) ->
  replaceable (v_fields v) -> fresh (S n) m -> top Unique n PlSelf m ->
  let fs := replace_fields (self_type (e_ident e) (e_generics e)) (v_fields v) in
  exists vs a',
    alias_body w (Some (v_ident v)) uses (add_prologue replace_prologue (enum_body_own nm (e_variants (spelled_enum e))))
      (rep_start n) (mkA (S n) ops) = Some (AvProj vs, a') /\
    go true (mkA (S n) ops) a' m (rep_mem n m) /\ Forall2 is_owned (enum_from 0 (fields_list fs)) vs.
Proof.
  intros Hp Hi Hv Hre Hf Ht fs. set (self := self_type (e_ident e) (e_generics e)). fold self in fs.
  assert (Hfs : In (v_fields v) (fields_of (w_item w))) by (rewrite Hi; apply in_map; exact Hv).
  assert (Hl0 : fields_legal (v_fields v)) by apply (pg_fields _ _ Hp _ Hfs).
  assert (Hl : fields_legal fs) by (apply legal_replace; exact Hl0).
  pose proof (program_bind w a (v_fields v) self true Hp Hfs) as Hb. cbn zeta in Hb. fold fs in Hb.
  unfold enum_body_own. cbn [add_prologue alias_body]. rewrite alias_stmts_app, (alias_prologue w a) by exact Hp.
  pose proof (go_prologue n ops m Hf Ht) as G1. set (ar := rep_ast n ops) in *. set (mr := rep_mem n m) in *.
  assert (Tr : top SharedRW (S (S n)) PlSelf mr) by apply top_push.
  cbn [alias_stmts]. rewrite alias_deref.
  rewrite (find_arm_variant (variant_arm_own nm) (e_variants (spelled_enum e)) (replace_variant self v)).
  2:{ cbn [spelled_enum replace_enum e_variants]. rewrite !map_map.
      pose proof (pg_variants _ _ Hp) as N. rewrite Hi in N. cbn [variant_names] in N. rewrite map_map in N. exact N. }
  2:{ apply in_map. exact Hv. }
  2: reflexivity. 2: reflexivity.
  cbn [variant_arm_own arm_pat arm_stmts arm_tail]. unfold variant_pat. cbn [alias_pat replace_variant v_ident v_fields]. fold fs.
  rewrite (self_enum w a e v Hp Hi Hv). cbn [variant_matches s_var]. rewrite same_name_refl, Hb.
  pose proof (go_ref true PlSelf (S (S n)) ar mr (go_fresh _ _ _ _ _ G1) (top_held SharedRW true _ _ _ eq_refl Tr)) as G2.
  cbn [ref_kind kperm] in G2.
  set (a2 := snd (derive_ptr PkMut PlSelf (S (S n)) ar)) in *. set (m2 := push PlSelf _ mr) in *.
  pose proof (go_use true false PlSelf (a_next ar) a2 m2 (go_fresh _ _ _ _ _ G2)
                (top_held Unique false _ _ _ eq_refl (top_push Unique (a_next ar) false PlSelf mr))) as Gu.
  destruct (tag_binds_go true (a_next ar) (fields_list fs) 0 (emit [OUse false PlSelf (a_next ar)] a2) m2) as (tg & a3 & m3 & E3 & G3 & T3 & _).
  { apply (go_fresh _ _ _ _ _ Gu). }
  { intros nf _. apply (held_part true _ _ PlSelf); [reflexivity|]. apply (top_held Unique); [reflexivity|apply top_push]. }
  rewrite E3.
  destruct (alias_own w (Some (v_ident v)) uses [nm; v_ident v] fs tg (S (S n)) a3 m3 (program_scope _ _ Hp) Hl) as (vs & a4 & m4 & E4 & G4 & R4).
  - apply (pg_locals _ _ Hp). cbn; auto.
  - apply (pg_locals _ _ Hp). cbn; auto.
  - apply (replaceable_result self); assumption.
  - apply (replaceable_guard self); assumption.
  - apply (go_fresh _ _ _ _ _ G3).
  - exact T3.
  - exists vs, (emit [OUse true PlSelf (S (S n))] a4). split; [exact E4|]. split; [|exact R4].
    eapply go_trans; [exact G1|]. apply (go_pop _ _ _ _ m4 (go_fresh _ _ _ _ _ G1) Tr).
    eapply go_trans; [exact Gu|]. eapply go_trans; eassumption.
Qed.

(** ** The destructor *)
Lemma alias_drop_body w a var uses n ops m : program w a -> fresh (S n) m -> top Unique n PlSelf m ->
  exists a' m', alias_body w var uses drop_body [(I "self", Some (AvPtr PkMut PlSelf n))] (mkA (S n) ops) = Some (AvOwned, a') /\
    go true (mkA (S n) ops) a' m m'.
Proof.
  intros Hp Hf Ht. pose proof (program_scope _ _ Hp) as Hw.
  unfold drop_body. cbn [alias_body alias_stmts alias_stmt alias_rhs alias_atom].
  change (is_wild (PBind (I "__pinned_self"))) with false. cbv iota.
  unfold alias_call at 1. rewrite (support_pp w Hw). cbn [lookup].
  assert (same_name (I "self") (I "self") = true) as E by reflexivity. rewrite E.
  cbn [derive_ptr alias_coerce alias_pat take]. rewrite E, (pg_locals _ _ Hp "__pinned_self") by (cbn; auto). cbn [app].
  unfold alias_call. rewrite (support_pp w Hw). cbn [lookup].
  assert (same_name (I "__pinned_self") (I "__pinned_self") = true) as E2 by reflexivity. rewrite E2.
  cbn [take]. rewrite E2. cbn [alias_drop alias_finish alias_drops].
  pose proof (go_ref true PlSelf n (mkA (S n) ops) m Hf (top_held Unique true _ _ _ eq_refl Ht)) as G1.
  cbn [derive_ptr snd a_next a_ops ref_kind kperm] in G1.
  eexists _, _. split; [reflexivity|]. eapply go_trans; [exact G1|].
  apply go_user; [apply (go_fresh _ _ _ _ _ G1)|]. apply (top_held Unique); [reflexivity|apply top_push].
Qed.
