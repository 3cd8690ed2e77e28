(** Several threads: schedules. *)
From Coq Require Import String Ascii List Bool Arith Lia.
From Verif Require Import Base Syntax ModelArgs ModelUtils ModelDerive ModelRun ModelAlias.
From Verif Require Import SpecArgs SpecDerive SpecExpand SpecRun SpecAlias SpecThreads.
From Verif Require Import ProofsRunReplace ProofsRunMain ProofsAlias ProofsAliasRun ProofsAliasMain ProofsThreads.
Import ListNotations.
Open Scope string_scope.
Open Scope list_scope.

Lemma session_code w a uses v live n ops n' : shared_session w a uses v live n ops n' -> real live -> shared_code live [] n ops n'.
Proof.
  induction 1 as [|live n p q t rest n' Hin Hi _ IH|live n p t rest n' Hin _ IH|live n t l ops n1 rest n' Hin Hh E _ IH]; intros Hr.
  - constructor.
  - eapply C_read; eauto.
  - apply (C_tag _ _ _ false p); [exact Hin|apply inside_refl, (Hr _ _ Hin)|]. apply IH.
    intros p' t' [E|Hx]; [injection E as <- _; exact (Hr _ _ Hin)|exact (Hr _ _ Hx)].
  - unfold alias_project in E. destruct (find_method w "project_ref") as [m|]; [|discriminate]. cbn [ref_kind] in E.
    apply shared_method in E. destruct E as (os & live' & -> & P & V). cbn [app]. rewrite <- app_assoc. cbn [app].
    assert (Hr' : real live').
    { apply (plain_real _ _ _ _ _ P). intros p' t' [E|[]]. injection E as <- _. discriminate. }
    pose proof (targets_shared _ _ V) as Ht.
    apply (C_tag _ _ _ true PlSelf); [exact Hin|reflexivity|].
    apply (plain_code _ _ _ (live' ++ live) n1 [n]).
    + exact (plain_live _ _ _ _ _ P live).
    + apply C_release. apply (code_incl (targets l ++ live)).
      * apply IH. intros p' t' Hx. apply in_app_or in Hx. destruct Hx as [Hx|Hx]; [exact (Hr' _ _ (Ht _ Hx))|exact (Hr _ _ Hx)].
      * apply incl_app; [|apply incl_appr, incl_refl]. apply incl_appl. exact Ht.
Qed.

(** ** What the operations do to the stacks *)
Definition readable_in (r : nat) (s : stack) : Prop := access false r s = Some s.
Lemma granting_release b r n s : granting b r (map (release n) s) =
  match granting b r s with Some (x, g, y) => Some (map (release n) x, release n g, map (release n) y) | None => None end.
Proof.
  induction s as [|e s IH]; [reflexivity|]. cbn [map granting].
  assert (grants b r (release n e) = grants b r e) as ->.
  { unfold grants, release. destruct (Nat.eqb (en_tag e) n); reflexivity. }
  destruct (grants b r e); [reflexivity|]. rewrite IH. destruct (granting b r s) as [[[x g] y]|]; reflexivity.
Qed.
Lemma disable_release n e : disable (release n e) = release n (disable e).
Proof. unfold disable, release, is_unique. destruct e as [t q pr], q; cbn; destruct (Nat.eqb t n) eqn:E; cbn; rewrite ?E; reflexivity. Qed.
Lemma readable_release r n s : readable_in r s -> readable_in r (map (release n) s).
Proof.
  unfold readable_in, access. rewrite granting_release. destruct (granting false r s) as [[[x g] y]|]; [|discriminate].
  destruct (existsb _ x) eqn:E; [discriminate|]. intros H. injection H as H.
  assert (existsb (fun e => is_unique e && en_prot e) (map (release n) x) = false) as ->.
  { clear H. induction x as [|e x IH]; [reflexivity|]. cbn [existsb map] in *. apply orb_false_iff in E. destruct E as [E1 E2].
    rewrite (IH E2), orb_false_r. unfold release. destruct (Nat.eqb _ _); [|exact E1]. cbn. apply andb_false_r. }
  f_equal. rewrite map_map. rewrite <- H. rewrite map_app, map_map. cbn [map].
  rewrite (map_ext _ _ (disable_release n)). reflexivity.
Qed.
Lemma readable_push r e s : en_perm e = SharedRO -> readable_in r s -> readable_in r (e :: s).
Proof.
  intros He. unfold readable_in, access. cbn [granting]. destruct (grants false r e) eqn:G; [reflexivity|].
  destruct (granting false r s) as [[[x g] y]|]; [|discriminate]. cbn [existsb map].
  assert (is_unique e = false) as U by (unfold is_unique; rewrite He; reflexivity).
  assert (disable e = e) as D by (unfold disable; rewrite U; reflexivity). rewrite D, U. cbn [andb orb app].
  destruct (existsb _ x); [discriminate|]. intros H. injection H as ->. reflexivity.
Qed.
Lemma readable_new n p s : readable_in n (mkEntry n SharedRO p :: s).
Proof. unfold readable_in, access. cbn [granting grants en_tag en_perm]. unfold grants. cbn. rewrite Nat.eqb_refl. reflexivity. Qed.
Lemma write_over extra r s : Forall (fun e => en_perm e = SharedRO /\ en_prot e = false) extra ->
  access true r (extra ++ s) = access true r s.
Proof.
  intros H. unfold access.
  assert (G : granting true r (extra ++ s) = match granting true r s with Some (x, g, y) => Some (extra ++ x, g, y) | None => None end).
  { induction H as [|e extra [He _] _ IH]; cbn [app granting]; [destruct (granting true r s) as [[[x g] y]|]; reflexivity|].
    assert (grants true r e = false) as -> by (unfold grants; rewrite He; apply andb_false_r).
    rewrite IH. destruct (granting true r s) as [[[x g] y]|]; reflexivity. }
  rewrite G. destruct (granting true r s) as [[[x g] y]|]; [|reflexivity].
  assert (P : existsb en_prot extra = false).
  { clear G. induction H as [|e extra [_ He] _ IH]; [reflexivity|]. cbn. rewrite He, IH. reflexivity. }
  unfold incompatible. destruct (is_raw g).
  - assert (Hs : split_raw (extra ++ x) = (extra ++ fst (split_raw x), snd (split_raw x))).
    { clear G P. induction H as [|e extra [He _] _ IH]; cbn [app]; [destruct (split_raw x); reflexivity|].
      cbn [split_raw]. rewrite IH. assert (is_raw e = false) as Hr by (unfold is_raw; rewrite He; reflexivity).
      destruct (extra ++ fst (split_raw x)); [rewrite Hr|]; reflexivity. }
    rewrite Hs. destruct (split_raw x) as [gone kept]. cbn [fst snd]. rewrite existsb_app, P. reflexivity.
  - rewrite existsb_app, P. reflexivity.
Qed.

(** ** All threads together *)
Record thread : Type := mkThread { th_live : ptrs; th_pend : list nat; th_next : nat; th_end : nat }.
Definition extra_ok (lo hi : nat) (pend : list nat) (e : entry) : Prop :=
  lo <= en_tag e < hi /\ en_perm e = SharedRO /\ (en_prot e = true -> In (en_tag e) pend).
Definition over (lo hi : nat) (pend : list nat) (mem m : memory) : Prop :=
  forall l, exists x, m l = x ++ mem l /\ Forall (extra_ok lo hi pend) x.
Definition thread_ok (lo hi : nat) (m : memory) (th : thread) (os : list op) : Prop :=
  shared_code (th_live th) (th_pend th) (th_next th) os (th_end th) /\ lo <= th_next th /\ th_end th <= hi /\
  (forall r, In r (th_pend th) -> lo <= r) /\ (forall p t, In (p, t) (th_live th) -> readable t p m).
Lemma inside_covers q p l : inside q p = true -> covers q l = true -> covers p l = true.
Proof. destruct q, p, l; cbn; try discriminate; auto. intros H. apply Nat.eqb_eq in H. subst. auto. Qed.
Lemma Forall2_middle {A B} (R : A -> B -> Prop) l1 x l2 ys : Forall2 R (l1 ++ x :: l2) ys ->
  exists y1 y y2, ys = y1 ++ y :: y2 /\ Forall2 R l1 y1 /\ R x y /\ Forall2 R l2 y2.
Proof.
  intros H. apply Forall2_app_inv_l in H. destruct H as (y1 & r & H1 & H2 & ->). inversion H2 as [|? y ? y2 Hx Hr]; subst.
  exists y1, y, y2. auto.
Qed.
Lemma all_run lo hi mem : fresh lo mem -> forall ths os, interleaved ths os -> forall sts m,
  Forall2 (fun os th => thread_ok lo hi m th os) ths sts -> over lo hi (flat_map th_pend sts) mem m ->
  exists m', runs os m m' /\ over lo hi [] mem m' /\ Forall (fun o => writes o = false) os /\
    (forall r p, readable r p m -> readable r p m').
Proof.
  intros Hf ths os H. induction H as [ths Hd|ths1 o th ths2 os H IH]; intros sts m Hs Ho.
  - exists m. split; [apply runs_nil|]. split; [|split; [constructor|auto]].
    assert (E : flat_map th_pend sts = []).
    { clear Ho. revert Hd. induction Hs as [|os th ths sts Hx Hs IH]; intros Hd; [reflexivity|]. cbn.
      rewrite IH by (intros y Hy; apply Hd; right; exact Hy). destruct Hx as [Hc _].
      rewrite (Hd os (or_introl eq_refl)) in Hc. inversion Hc. reflexivity. }
    rewrite E in Ho. exact Ho.
  - apply Forall2_middle in Hs. destruct Hs as (y1 & y & y2 & -> & Hs1 & (Hc & Hlo & Hhi & Hp & Hl) & Hs2).
    rewrite flat_map_app in Ho. cbn [flat_map] in Ho. destruct y as [live pend n n']. cbn [th_live th_pend th_next th_end] in *.
    (* one operation, then the rest *)
    assert (Step : exists m1 y', runs [o] m m1 /\ (forall r p, readable r p m -> readable r p m1) /\ writes o = false /\
      thread_ok lo hi m1 y' th /\ over lo hi (flat_map th_pend y1 ++ th_pend y' ++ flat_map th_pend y2) mem m1).
    { inversion Hc as [|? ? ? p q t ? ? Hin Hi Hc'|? ? ? prot p q t ? ? Hin Hi Hc'|? r pend' ? ? ? Hc']; subst.
      - exists m, (mkThread live pend n n'). split; [|split; [auto|split; [reflexivity|split; [|exact Ho]]]].
        + intros l. cbn. destruct (covers q l) eqn:C; [|reflexivity]. rewrite (Hl p t Hin l (inside_covers _ _ _ Hi C)). reflexivity.
        + repeat split; cbn; auto.
      - set (m1 := push q (mkEntry n SharedRO prot) m).
        assert (R1 : forall r p, readable r p m -> readable r p m1).
        { intros r p0 Hrd l C. unfold m1, push. destruct (covers q l); [|exact (Hrd l C)]. apply readable_push; [reflexivity|exact (Hrd l C)]. }
        pose proof (code_order _ _ _ _ _ Hc') as On.
        exists m1, (mkThread ((q, n) :: live) (if prot then n :: pend else pend) (S n) n').
        split; [|split; [exact R1|split; [reflexivity|split]]].
        + intros l. cbn. unfold m1, push. destruct (covers q l) eqn:C; [|reflexivity].
          rewrite (Hl p t Hin l (inside_covers _ _ _ Hi C)). reflexivity.
        + split; [exact Hc'|]. cbn. split; [lia|]. split; [exact Hhi|]. split.
          * intros r Hr. destruct prot; [destruct Hr as [<-|Hr]; [exact Hlo|]|]; exact (Hp r Hr).
          * intros p0 t0 [E|Hx]; [|exact (R1 _ _ (Hl _ _ Hx))]. injection E as <- <-. intros l C. unfold m1, push. rewrite C.
            apply readable_new.
        + cbn [th_pend]. intros l. destruct (Ho l) as (x & Ex & Hx).
          assert (Hx' : Forall (extra_ok lo hi (flat_map th_pend y1 ++ (if prot then n :: pend else pend) ++ flat_map th_pend y2)) x).
          { eapply Forall_impl; [|exact Hx]. intros e (E1 & E2 & E3). split; [exact E1|]. split; [exact E2|].
            intros Ep. specialize (E3 Ep). apply in_app_or in E3. apply in_or_app. destruct E3 as [E3|E3]; [left; exact E3|right].
            apply in_app_or in E3. apply in_or_app. destruct E3 as [E3|E3]; [left|right; exact E3]. destruct prot; [right|]; exact E3. }
          unfold m1, push. destruct (covers q l).
          * exists (mkEntry n SharedRO prot :: x). split; [rewrite Ex; reflexivity|]. constructor; [|exact Hx'].
            split; [cbn; lia|]. split; [reflexivity|]. cbn. intros ->. apply in_or_app. right. left. reflexivity.
          * exists x. split; assumption.
      - exists (fun l => map (release r) (m l)), (mkThread live pend' n n').
        assert (R1 : forall r0 p, readable r0 p m -> readable r0 p (fun l => map (release r) (m l))).
        { intros r0 p Hrd l C. apply readable_release. exact (Hrd l C). }
        split; [intros l; reflexivity|]. split; [exact R1|]. split; [reflexivity|]. split.
        + split; [exact Hc'|]. cbn. split; [exact Hlo|]. split; [exact Hhi|]. split; [intros x Hx; apply Hp; right; exact Hx|].
          intros p t Hx. exact (R1 _ _ (Hl _ _ Hx)).
        + cbn [th_pend]. intros l. destruct (Ho l) as (x & Ex & Hx). exists (map (release r) x). split.
          * rewrite Ex, map_app. f_equal. apply release_other. apply Forall_forall. intros e He.
            pose proof (Hf l e He). pose proof (Hp r (or_introl eq_refl)). lia.
          * apply Forall_map. eapply Forall_impl; [|exact Hx]. intros e (E1 & E2 & E3). unfold release.
            destruct (Nat.eqb (en_tag e) r) eqn:Er; (split; [exact E1|split; [exact E2|]]); [discriminate|].
            intros Ep. specialize (E3 Ep). apply Nat.eqb_neq in Er. apply in_app_or in E3. apply in_or_app.
            destruct E3 as [E3|[E3|E3]]; [left; exact E3|congruence|right; exact E3]. }
    destruct Step as (m1 & y' & Hr1 & Hrd & Hw & Hy' & Ho1).
    destruct (IH (y1 ++ y' :: y2) m1) as (m' & Hr2 & Ho2 & Hw2 & Hrd2).
    + assert (K : forall ts ss, Forall2 (fun os th => thread_ok lo hi m th os) ts ss -> Forall2 (fun os th => thread_ok lo hi m1 th os) ts ss).
      { intros ts ss. induction 1 as [|os0 th0 ts ss (K1 & K2 & K3 & K4 & K5) _ IHs]; constructor; [|exact IHs].
        split; [exact K1|]. split; [exact K2|]. split; [exact K3|]. split; [exact K4|].
        intros p t Hx. apply Hrd. exact (K5 p t Hx). }
      apply Forall2_app; [apply K; exact Hs1|]. constructor; [exact Hy'|apply K; exact Hs2].
    + rewrite flat_map_app. exact Ho1.
    + exists m'. split; [exact (runs_app [o] os m m1 m' Hr1 Hr2)|]. split; [exact Ho2|]. split; [constructor; assumption|].
      intros r p Hr. apply Hrd2, Hrd, Hr.
Qed.
Lemma sharing_threads w a v t n ths n' m lo hi : sharing w a v t n ths n' -> lo <= n -> n' <= hi -> readable t PlSelf m ->
  n <= n' /\ exists sts, Forall2 (fun os th => thread_ok lo hi m th os) ths sts /\ flat_map th_pend sts = [].
Proof.
  intros H. induction H as [n|n uses th n1 ths n2 Hs _ IH]; intros Hlo Hhi Ht.
  - split; [lia|]. exists []. split; constructor.
  - assert (Hc : shared_code [(PlSelf, t)] [] n th n1).
    { apply (session_code _ _ _ _ _ _ _ _ Hs). intros p r [E|[]]. injection E as <- _. discriminate. }
    pose proof (code_order _ _ _ _ _ Hc) as On. destruct IH as (On2 & sts & Hf & Hp); [lia|exact Hhi|exact Ht|]. split; [lia|].
    exists (mkThread [(PlSelf, t)] [] n n1 :: sts). split; [|exact Hp]. constructor; [|exact Hf].
    split; [exact Hc|]. cbn. split; [exact Hlo|]. split; [lia|]. split; [intros r []|].
    intros p r [E|[]]. injection E as <- <-. exact Ht.
Qed.

Lemma c68_shared w a v t n ths n' ops mem :
  readable t PlSelf mem -> fresh n mem -> sharing w a v t n ths n' -> interleaved ths ops ->
  exists mem', runs ops mem mem' /\ fresh n' mem' /\ (forall r p, readable r p mem -> readable r p mem') /\
    (forall r l, access true r (mem' l) = access true r (mem l)) /\ race_free ths.
Proof.
  intros Ht Hf Hs Hi. destruct (sharing_threads w a v t n ths n' mem n n' Hs (le_n _) (le_n _) Ht) as (On & sts & H2 & Hp).
  destruct (all_run n n' mem Hf ths ops Hi sts mem H2) as (m' & Hr & Ho & Hw & Hrd).
  { intros l. exists []. split; [reflexivity|constructor]. }
  exists m'. split; [exact Hr|]. split; [|split; [exact Hrd|split]].
  - intros l x Hx. destruct (Ho l) as (y & E & Hy). rewrite E in Hx. apply in_app_or in Hx. destruct Hx as [Hx|Hx].
    + rewrite Forall_forall in Hy. destruct (Hy x Hx) as ((_ & H) & _). exact H.
    + pose proof (Hf l x Hx). lia.
  - intros r l. destruct (Ho l) as (y & E & Hy). rewrite E. apply write_over. eapply Forall_impl; [|exact Hy].
    intros e (_ & E2 & E3). split; [exact E2|]. destruct (en_prot e) eqn:P; [destruct (E3 eq_refl)|reflexivity].
  - assert (Hin : forall th o, In th ths -> In o th -> In o ops).
    { clear -Hi. induction Hi as [ths Hd|ths1 o th ths2 os H IH]; intros th' o' Hth Ho.
      - rewrite (Hd th' Hth) in Ho. destruct Ho.
      - apply in_app_or in Hth. destruct Hth as [Hth|[<-|Hth]].
        + right. apply (IH th'); [apply in_or_app; left; exact Hth|exact Ho].
        + destruct Ho as [<-|Ho]; [left; reflexivity|right]. apply (IH th); [apply in_or_app; right; left; reflexivity|exact Ho].
        + right. apply (IH th'); [apply in_or_app; right; right; exact Hth|exact Ho]. }
    rewrite Forall_forall in Hw. intros i j th1 th2 o1 o2 _ E1 E2 H1 H2' [[W|W] _].
    + rewrite (Hw o1 (Hin th1 o1 (nth_error_In _ _ E1) H1)) in W. discriminate.
    + rewrite (Hw o2 (Hin th2 o2 (nth_error_In _ _ E2) H2')) in W. discriminate.
Qed.

(** ** Each thread with a part of its own *)
Lemma interleaved_forall (P : op -> Prop) ths ops : interleaved ths ops -> (forall th o, In th ths -> In o th -> P o) -> Forall P ops.
Proof.
  induction 1 as [ths Hd|ths1 o th ths2 os H IH]; intros Hp; constructor.
  - apply (Hp (o :: th)); [apply in_or_app; right; left; reflexivity|left; reflexivity].
  - apply IH. intros th' o' Hth Ho. apply in_app_or in Hth. destruct Hth as [Hth|[<-|Hth]].
    + apply (Hp th'); [apply in_or_app; left; exact Hth|exact Ho].
    + apply (Hp (o :: th)); [apply in_or_app; right; left; reflexivity|right; exact Ho].
    + apply (Hp th'); [apply in_or_app; right; right; exact Hth|exact Ho].
Qed.
Lemma numbered_nth {A} (l : list A) i nf : nth_error (numbered l) i = Some nf -> fst nf = i.
Proof.
  unfold numbered. change (fst nf = i) with (fst nf = 0 + i). generalize 0 as k. revert i.
  induction l as [|x l IH]; intros [|i] k; cbn; try discriminate; [intros E; injection E as <-; cbn; lia|].
  intros E. rewrite (IH i (S k) E). lia.
Qed.
Lemma numbered_length {A} (l : list A) : length (numbered l) = length l.
Proof. unfold numbered. rewrite combine_length, seq_length. apply Nat.min_id. Qed.
Lemma part_place fs ptrs i x p t :
  map (fun x => (fst x, forget (snd x))) ptrs = map (fun x => (fst x, Some (snd x))) (references true fs) ->
  nth_error ptrs i = Some x -> target (snd x) = Some (p, t) -> p = PlField i.
Proof.
  intros E Hx Hp. pose proof (f_equal (fun l => nth_error l i) E) as En. cbn beta in En.
  rewrite !nth_error_map, Hx in En. unfold references in En. rewrite nth_error_map in En. cbn [option_map] in En.
  destruct (nth_error (numbered (fields_list fs)) i) as [nf|] eqn:N; [|discriminate]. cbn [option_map] in En.
  assert (fst nf = i) as Hn by (apply (numbered_nth _ _ _ N)).
  destruct x as [o [k q c|m q c| | | |]]; cbn in Hp; try discriminate; injection Hp as -> ->.
  - destruct k; cbn in En; try discriminate; destruct (is_pinned (snd nf)); cbn in En; try discriminate; injection En as _ ->; congruence.
  - cbn in En. destruct (is_pinned (snd nf)); cbn in En; try discriminate; injection En as _ _ ->; congruence.
Qed.
Lemma Forall2_nth {A B} (R : A -> B -> Prop) l l' i y : Forall2 R l l' -> nth_error l' i = Some y ->
  exists x, nth_error l i = Some x /\ R x y.
Proof. intros H. revert i. induction H as [|a b l l' Hab _ IH]; intros [|i] E; try discriminate; [injection E as <-; exists a; auto|exact (IH i E)]. Qed.
Lemma c68_parts w a u vp fs uses t n mem :
  program w a -> has_proj PMut (w_item w) a = true -> value_of (w_item w) u vp fs -> usable true t mem -> fresh n mem ->
  exists ptrs ops n' mem',
    alias_project w (u_var u) uses "project" true t n = Some (AvProj ptrs, ops, n') /\ length ptrs = length (fields_list fs) /\
    runs ops mem mem' /\
    forall ths os, Forall2 (fun x th => Forall (through true [x]) th) ptrs ths -> interleaved ths os ->
      runs os mem' mem' /\ race_free ths /\ forall l, access true t (mem' l) = access true t (mem l).
Proof.
  intros P Hp V U F. destruct (c63_project w a u vp fs uses t n mem P Hp V U F) as (ptrs & ops & n' & mem' & E & Em & R & _ & _ & Ru & Rt).
  exists ptrs, ops, n', mem'. split; [exact E|]. split.
  { pose proof (f_equal (@length _) Em) as El. rewrite !map_length in El. unfold references in El. rewrite map_length in El. rewrite El.
    apply numbered_length. }
  split; [exact R|]. intros ths os H2 Hi.
  assert (Thr : forall i th o, nth_error ths i = Some th -> In o th -> exists x p c b, nth_error ptrs i = Some x /\ In x ptrs /\
            target (snd x) = Some (p, c) /\ o = OUse b p c).
  { intros i th o Eth Ho. destruct (Forall2_nth _ _ _ _ _ H2 Eth) as (x & Ex & Fx). rewrite Forall_forall in Fx.
    destruct (Fx o Ho) as (x' & p & c & b & [<-|[]] & Tx & _ & ->). exists x, p, c, b. split; [exact Ex|]. split; [exact (nth_error_In _ _ Ex)|auto]. }
  split; [|split; [|exact Rt]].
  - apply Ru. apply (interleaved_forall _ _ _ Hi). intros th o Hth Ho. destruct (In_nth_error _ _ Hth) as (i & Ei).
    destruct (Thr i th o Ei Ho) as (x & p & c & b & _ & Hx & Tx & ->). exists x, p, c, b. auto.
  - intros i j th1 th2 o1 o2 Hij E1 E2 H1 H2' [_ (l & T1 & T2)].
    destruct (Thr i th1 o1 E1 H1) as (x1 & p1 & c1 & b1 & N1 & _ & Tx1 & ->).
    destruct (Thr j th2 o2 E2 H2') as (x2 & p2 & c2 & b2 & N2 & _ & Tx2 & ->).
    rewrite (part_place fs ptrs i x1 p1 c1 Em N1 Tx1) in T1. rewrite (part_place fs ptrs j x2 p2 c2 Em N2 Tx2) in T2.
    cbn in T1, T2. destruct l as [|k]; [discriminate|]. apply Nat.eqb_eq in T1, T2. congruence.
Qed.
