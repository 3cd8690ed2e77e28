From Coq Require Import String Ascii List Bool Arith Lia Permutation.
From Verif Require Import Base ModelArgs SpecArgs.
Import ListNotations.
Open Scope string_scope.
Open Scope list_scope.

(** ** Generic facts *)
Lemma bind_ok {A B} (r : res A) (f : A -> res B) b :
  bind r f = Ok b <-> exists a, r = Ok a /\ f a = Ok b.
Proof.
  destruct r as [a|m|m]; simpl; split; try discriminate.
  - intros H; exists a; auto.
  - intros (a' & Ha & Hf); injection Ha as <-; exact Hf.
  - intros (a' & Ha & _); discriminate.
  - intros (a' & Ha & _); discriminate.
Qed.

Lemma bind_not_panic {A B} (r : res A) (f : A -> res B) :
  (forall m, r <> Panic m) -> (forall a, r = Ok a -> forall m, f a <> Panic m) ->
  forall m, bind r f <> Panic m.
Proof.
  intros Hr Hf m; destruct r as [a|e|e]; simpl.
  - apply Hf; reflexivity.
  - discriminate.
  - exfalso; exact (Hr e eq_refl).
Qed.

Lemma ident_eqb_eq i j : ident_eqb i j = true <-> i = j.
Proof.
  unfold ident_eqb; destruct i as [r1 n1], j as [r2 n2]; simpl.
  rewrite andb_true_iff, Bool.eqb_true_iff, String.eqb_eq.
  split; [intros [-> ->]; reflexivity | intros H; injection H as -> ->; auto].
Qed.
Lemma ident_eqb_refl i : ident_eqb i i = true.
Proof. apply ident_eqb_eq; reflexivity. Qed.
Lemma ident_eqb_neq i j : ident_eqb i j = false <-> i <> j.
Proof.
  rewrite <- ident_eqb_eq; destruct (ident_eqb i j); split; congruence.
Qed.
Lemma ident_dec (i j : ident) : {i = j} + {i <> j}.
Proof.
  destruct (ident_eqb i j) eqn:E; [left; apply ident_eqb_eq; exact E|right].
  apply ident_eqb_neq; exact E.
Qed.

Lemma ident_is_eq i s : ident_is i s = true <-> i = I s.
Proof.
  unfold ident_is, I. destruct i as [r n]; destruct r; simpl; split; try discriminate.
  - rewrite String.eqb_eq; intros ->; reflexivity.
  - intros H; injection H as ->; apply String.eqb_refl.
Qed.

(** The text of an identifier equals a word that does not begin with [r#] only
    for that very identifier. *)
Lemma ident_str_plain i s :
  prefix "r#" s = false -> (String.eqb (ident_str i) s = true <-> i = I s).
Proof.
  intros Hs. rewrite String.eqb_eq. unfold ident_str, I. destruct i as [[] n]; simpl raw; simpl name; cbv iota.
  - split; [|discriminate]. intros <-. exfalso. simpl in Hs. destruct n; discriminate.
  - split; [intros ->; reflexivity | intros H; injection H as ->; reflexivity].
Qed.

Lemma keyword_reserved s : keyword s <-> In s reserved.
Proof.
  assert (K : keyword s <-> In s (strict_keywords ++ reserved_keywords ++ ["_"])).
  { unfold keyword. rewrite !in_app_iff. cbn [In]. intuition. }
  rewrite K. clear K. split.
  - assert (G : forallb (fun x => existsb (String.eqb x) reserved) (strict_keywords ++ reserved_keywords ++ ["_"]) = true) by reflexivity.
    intros H. rewrite forallb_forall in G. apply G in H. apply existsb_exists in H. destruct H as (x & Hx & E).
    apply String.eqb_eq in E. subst x. exact Hx.
  - assert (G : forallb (fun x => existsb (String.eqb x) (strict_keywords ++ reserved_keywords ++ ["_"])) reserved = true) by reflexivity.
    intros H. rewrite forallb_forall in G. apply G in H. apply existsb_exists in H. destruct H as (x & Hx & E).
    apply String.eqb_eq in E. subst x. exact Hx.
Qed.
Lemma accept_plain i : accept_as_ident i = true <-> plain_ident i.
Proof.
  unfold accept_as_ident, plain_ident. rewrite keyword_reserved, orb_true_iff, negb_true_iff.
  split; (intros [H|H]; [left; exact H|right]).
  - intros Hin. assert (existsb (String.eqb (name i)) reserved = true) as E.
    { apply existsb_exists. exists (name i). split; [exact Hin|apply String.eqb_refl]. }
    congruence.
  - destruct (existsb (String.eqb (name i)) reserved) eqn:E; [|reflexivity].
    apply existsb_exists in E. destruct E as (x & Hx & Heq).
    apply String.eqb_eq in Heq. subst x. contradiction.
Qed.

(** ** One argument *)

(** What an argument does to the parser's state; [None] for a duplicate. *)
Definition absorb (st : astate) (a : parg) : option astate :=
  let 'mkAState pd uu nu pr prf rv rs := st in
  match a with
  | GPinnedDrop => if pd then None else Some (mkAState true uu nu pr prf rv rs)
  | GUnsafeUnpin => if uu then None else Some (mkAState pd true nu pr prf rv rs)
  | GNotUnpin => if nu then None else Some (mkAState pd uu true pr prf rv rs)
  | GProject i => if is_some pr then None else Some (mkAState pd uu nu (Some i) prf rv rs)
  | GProjectRef i => if is_some prf then None else Some (mkAState pd uu nu pr (Some i) rv rs)
  | GReplace => if rs then None else Some (mkAState pd uu nu pr prf rv true)
  | GReplaceNamed i => if rs then None else Some (mkAState pd uu nu pr prf (Some i) true)
  end.

Lemma parse_ident_ok ts i r :
  parse_ident ts = Ok (i, r) <-> ts = TIdent i :: r /\ plain_ident i.
Proof.
  unfold parse_ident. split.
  - destruct ts as [|[j| | |] ts']; try discriminate.
    destruct (accept_as_ident j) eqn:E; [|discriminate].
    intros H; injection H as -> ->. split; [reflexivity|apply accept_plain; exact E].
  - intros [-> H]. apply accept_plain in H. rewrite H. reflexivity.
Qed.

Lemma parse_punct_ok c ts r :
  parse_punct c ts = Ok r <-> exists s, ts = TPunct c s :: r.
Proof.
  unfold parse_punct. split.
  - destruct ts as [|[|c' s'| |] ts']; try discriminate.
    destruct (Ascii.eqb c c') eqn:E; [|discriminate].
    apply Ascii.eqb_eq in E; subst c'. intros H; injection H as ->. exists s'; reflexivity.
  - intros [s ->]. rewrite Ascii.eqb_refl. reflexivity.
Qed.

Lemma parse_kw_ok w ts r :
  parse_kw w ts = Ok r <-> ts = TIdent (I w) :: r.
Proof.
  unfold parse_kw. split.
  - destruct ts as [|[j| | |] ts']; try discriminate.
    destruct (ident_is j w) eqn:E; [|discriminate].
    apply ident_is_eq in E. intros H; injection H as ->. subst j; reflexivity.
  - intros ->. destruct (ident_is (I w) w) eqn:E; [reflexivity|].
    assert (ident_is (I w) w = true) by (apply ident_is_eq; reflexivity). congruence.
Qed.

Lemma parse_value_ok nm prev ts i r :
  parse_value nm prev ts = Ok (i, r) <->
  prev = false /\ plain_ident i /\ exists s, ts = TPunct "=" s :: TIdent i :: r.
Proof.
  unfold parse_value. split.
  - destruct ts as [|t ts']; [discriminate|].
    rewrite bind_ok. intros (ts1 & H1 & H2).
    apply parse_punct_ok in H1. destruct H1 as [s Hs]. injection Hs as -> ->.
    destruct ts1 as [|t1 ts2]; [discriminate|].
    apply bind_ok in H2. destruct H2 as ([v ts3] & H3 & H4).
    apply parse_ident_ok in H3. destruct H3 as [H3 Hp].
    destruct prev; [discriminate|]. injection H4 as -> ->. injection H3 as -> ->.
    repeat split; [exact Hp|]. exists s; reflexivity.
  - intros (-> & Hp & s & ->).
    assert (parse_punct "=" (TPunct "=" s :: TIdent i :: r) = Ok (TIdent i :: r)) as E
      by (apply parse_punct_ok; exists s; reflexivity).
    rewrite E. cbn [bind].
    assert (parse_ident (TIdent i :: r) = Ok (i, r)) as E2
      by (apply parse_ident_ok; auto).
    rewrite E2. reflexivity.
Qed.

Lemma peek_punct_true c ts : peek_punct c ts = true <-> exists s r, ts = TPunct c s :: r.
Proof.
  unfold peek_punct. split.
  - destruct ts as [|[|c' s'| |] ts']; try discriminate.
    intros E; apply Ascii.eqb_eq in E; subst c'. eauto.
  - intros (s & r & ->). apply Ascii.eqb_refl.
Qed.

Lemma parse_arg_sound st ts st' r :
  parse_arg st ts = Ok (st', r) ->
  exists a t, written1 a t /\ ts = t ++ r /\ absorb st a = Some st'.
Proof.
  destruct st as [pd uu nu pr prf rv rs]. unfold parse_arg.
  destruct (peek_punct "!" ts) eqn:Epk.
  - rewrite bind_ok. intros (ts1 & H1 & H2).
    apply parse_punct_ok in H1. destruct H1 as [s ->].
    destruct ts1 as [|t1 ts1']; [discriminate|].
    apply bind_ok in H2. destruct H2 as (ts2 & H3 & H4).
    apply parse_kw_ok in H3. injection H3 as -> ->.
    destruct nu; [discriminate|]. injection H4 as <- <-.
    exists GNotUnpin, [TPunct "!" s; TIdent (I "Unpin")].
    split; [constructor|split; reflexivity].
  - rewrite bind_ok. intros ([tok ts1] & H1 & H2).
    apply parse_ident_ok in H1. destruct H1 as [-> Hp].
    destruct (String.eqb (ident_str tok) "PinnedDrop") eqn:E1.
    { apply ident_str_plain in E1; [|reflexivity]. subst tok.
      destruct pd; [discriminate|]. injection H2 as <- <-.
      exists GPinnedDrop, [TIdent (I "PinnedDrop")]. split; [constructor|split; reflexivity]. }
    destruct (String.eqb (ident_str tok) "UnsafeUnpin") eqn:E2.
    { apply ident_str_plain in E2; [|reflexivity]. subst tok.
      destruct uu; [discriminate|]. injection H2 as <- <-.
      exists GUnsafeUnpin, [TIdent (I "UnsafeUnpin")]. split; [constructor|split; reflexivity]. }
    destruct (String.eqb (ident_str tok) "project") eqn:E3.
    { apply ident_str_plain in E3; [|reflexivity]. subst tok.
      apply bind_ok in H2. destruct H2 as ([v ts2] & H3 & H4). injection H4 as <- <-.
      apply parse_value_ok in H3. destruct H3 as (Hpr & Hv & s & ->).
      exists (GProject v), [TIdent (I "project"); TPunct "=" s; TIdent v].
      split; [constructor; exact Hv|split; [reflexivity|]]. simpl. rewrite Hpr; reflexivity. }
    destruct (String.eqb (ident_str tok) "project_ref") eqn:E4.
    { apply ident_str_plain in E4; [|reflexivity]. subst tok.
      apply bind_ok in H2. destruct H2 as ([v ts2] & H3 & H4). injection H4 as <- <-.
      apply parse_value_ok in H3. destruct H3 as (Hpr & Hv & s & ->).
      exists (GProjectRef v), [TIdent (I "project_ref"); TPunct "=" s; TIdent v].
      split; [constructor; exact Hv|split; [reflexivity|]]. simpl. rewrite Hpr; reflexivity. }
    destruct (String.eqb (ident_str tok) "project_replace") eqn:E5.
    { apply ident_str_plain in E5; [|reflexivity]. subst tok.
      destruct (peek_punct "=" ts1).
      - apply bind_ok in H2. destruct H2 as ([v ts2] & H3 & H4). injection H4 as <- <-.
        apply parse_value_ok in H3. destruct H3 as (-> & Hv & s & ->).
        exists (GReplaceNamed v), [TIdent (I "project_replace"); TPunct "=" s; TIdent v].
        split; [constructor; exact Hv|split; reflexivity].
      - destruct rs; [discriminate|]. injection H2 as <- <-.
        exists GReplace, [TIdent (I "project_replace")]. split; [constructor|split; reflexivity]. }
    destruct (String.eqb (ident_str tok) "Replace"); discriminate.
Qed.

(** What may follow an argument. *)
Definition at_sep (r : list ttree) : Prop := r = [] \/ exists s r', r = TPunct "," s :: r'.

Lemma parse_arg_complete st a t r st' :
  written1 a t -> absorb st a = Some st' -> at_sep r ->
  parse_arg st (t ++ r) = Ok (st', r).
Proof.
  intros Hw Ha Hr. destruct st as [pd uu nu pr prf rv rs].
  assert (Hnoeq : peek_punct "=" r = false).
  { destruct Hr as [-> | (s & r' & ->)]; reflexivity. }
  assert (HK : forall w, accept_as_ident (I w) = true ->
               parse_ident (TIdent (I w) :: r) = Ok (I w, r)).
  { intros w Hw'. unfold parse_ident. rewrite Hw'. reflexivity. }
  destruct Hw as [ | |s|s i Hi|s i Hi| |s i Hi]; simpl in Ha.
  - destruct pd; [discriminate|]. injection Ha as <-. reflexivity.
  - destruct uu; [discriminate|]. injection Ha as <-. reflexivity.
  - destruct nu; [discriminate|]. injection Ha as <-. reflexivity.
  - destruct (is_some pr) eqn:E; [discriminate|]. injection Ha as <-.
    cbn -[parse_value]. rewrite E.
    assert (parse_value "project" false (TPunct "=" s :: TIdent i :: r) = Ok (i, r)) as ->
      by (apply parse_value_ok; repeat split; [exact Hi|exists s; reflexivity]).
    reflexivity.
  - destruct (is_some prf) eqn:E; [discriminate|]. injection Ha as <-.
    cbn -[parse_value]. rewrite E.
    assert (parse_value "project_ref" false (TPunct "=" s :: TIdent i :: r) = Ok (i, r)) as ->
      by (apply parse_value_ok; repeat split; [exact Hi|exists s; reflexivity]).
    reflexivity.
  - destruct rs; [discriminate|]. injection Ha as <-.
    cbn -[parse_value peek_punct]. cbn [peek_punct Ascii.eqb]. rewrite Hnoeq. reflexivity.
  - destruct rs; [discriminate|]. injection Ha as <-.
    cbn -[parse_value].
    assert (parse_value "project_replace" false (TPunct "=" s :: TIdent i :: r) = Ok (i, r)) as ->
      by (apply parse_value_ok; repeat split; [exact Hi|exists s; reflexivity]).
    reflexivity.
Qed.

Lemma written1_nonempty a t : written1 a t -> t <> [].
Proof. destruct 1; discriminate. Qed.

(** ** The loop *)
Fixpoint absorbs (st : astate) (l : list parg) : option astate :=
  match l with
  | [] => Some st
  | a :: l' => match absorb st a with Some st' => absorbs st' l' | None => None end
  end.

Lemma absorbs_app st l1 l2 :
  absorbs st (l1 ++ l2) =
  match absorbs st l1 with Some st' => absorbs st' l2 | None => None end.
Proof.
  revert st. induction l1 as [|a l1 IH]; intros st; simpl; [reflexivity|].
  destruct (absorb st a); [apply IH|reflexivity].
Qed.

Lemma args_loop_sound fuel : forall st ts st',
  args_loop fuel st ts = Ok st' ->
  exists l, written l ts /\ absorbs st l = Some st'.
Proof.
  induction fuel as [|fuel IH]; intros st ts st' H; [discriminate|].
  cbn [args_loop] in H. destruct ts as [|t0 ts0].
  { injection H as <-. exists []. split; [constructor|reflexivity]. }
  apply bind_ok in H. destruct H as ([st1 ts1] & H1 & H2).
  apply parse_arg_sound in H1. destruct H1 as (a & t & Hw & Ht & Ha).
  destruct ts1 as [|t1 ts1'].
  - injection H2 as <-. rewrite app_nil_r in Ht. rewrite Ht.
    exists [a]. split; [constructor; exact Hw|]. simpl. rewrite Ha; reflexivity.
  - apply bind_ok in H2. destruct H2 as (ts2 & H3 & H4).
    apply parse_punct_ok in H3. destruct H3 as [s Hs]. rewrite Hs in Ht.
    apply IH in H4. destruct H4 as (l & Hl & Habs).
    exists (a :: l). split; [rewrite Ht; constructor; assumption|].
    simpl. rewrite Ha. exact Habs.
Qed.

Lemma args_loop_complete l ts : written l ts ->
  forall fuel st st', absorbs st l = Some st' -> length ts < fuel ->
  args_loop fuel st ts = Ok st'.
Proof.
  induction 1 as [|a t Hw|a t s l ts Hw Hl IH]; intros fuel st st' Ha Hf;
    (destruct fuel as [|fuel]; [lia|]); cbn [args_loop].
  - simpl in Ha. injection Ha as ->. reflexivity.
  - pose proof (written1_nonempty _ _ Hw) as Hne.
    simpl in Ha. destruct (absorb st a) as [st1|] eqn:E; [|discriminate].
    injection Ha as ->.
    pose proof (parse_arg_complete _ _ _ [] _ Hw E (or_introl eq_refl)) as Hp.
    rewrite app_nil_r in Hp. rewrite Hp.
    destruct t; [contradiction|reflexivity].
  - pose proof (written1_nonempty _ _ Hw) as Hne.
    simpl in Ha. destruct (absorb st a) as [st1|] eqn:E; [|discriminate].
    rewrite (parse_arg_complete _ _ _ (TPunct "," s :: ts) _ Hw E);
      [|right; exists s, ts; reflexivity].
    assert (exists x y, t ++ TPunct "," s :: ts = x :: y) as (x & y & Hxy).
    { destruct t as [|x t']; [contradiction|]. exists x; eexists; reflexivity. }
    rewrite Hxy. cbn [bind].
    assert (parse_punct "," (TPunct "," s :: ts) = Ok ts) as ->
      by (apply parse_punct_ok; exists s; reflexivity).
    cbn [bind]. apply IH; [exact Ha|].
    rewrite app_length in Hf. simpl in Hf. lia.
Qed.

Lemma parse_arg_not_panic st ts m : parse_arg st ts <> Panic m.
Proof.
  destruct st as [pd uu nu pr prf rv rs]. unfold parse_arg.
  assert (Hid : forall ts m, parse_ident ts <> Panic m).
  { intros l m'; unfold parse_ident. destruct l as [|[]]; try discriminate.
    destruct (accept_as_ident _); discriminate. }
  assert (Hpu : forall c ts m, parse_punct c ts <> Panic m).
  { intros c l m'; unfold parse_punct. destruct l as [|[]]; try discriminate.
    destruct (Ascii.eqb _ _); discriminate. }
  assert (Hpv : forall nm p ts m, parse_value nm p ts <> Panic m).
  { intros nm p l m'; unfold parse_value. destruct l; [discriminate|].
    apply bind_not_panic; [apply Hpu|]. intros l1 _ m1. destruct l1; [discriminate|].
    apply bind_not_panic; [apply Hid|]. intros [v l2] _ m2. destruct p; discriminate. }
  destruct (peek_punct "!" ts).
  - apply bind_not_panic; [apply Hpu|]. intros ts1 _ m1. destruct ts1; [discriminate|].
    apply bind_not_panic.
    + intros m2; unfold parse_kw. destruct t; try discriminate. destruct (ident_is _ _); discriminate.
    + intros ts2 _ m2. destruct nu; discriminate.
  - apply bind_not_panic; [apply Hid|]. intros [tok ts1] _ m1.
    destruct (String.eqb _ _); [destruct pd; discriminate|].
    destruct (String.eqb _ _); [destruct uu; discriminate|].
    destruct (String.eqb _ _).
    { apply bind_not_panic; [apply Hpv|]. intros [v l2] _ m2; discriminate. }
    destruct (String.eqb _ _).
    { apply bind_not_panic; [apply Hpv|]. intros [v l2] _ m2; discriminate. }
    destruct (String.eqb _ _).
    { destruct (peek_punct "=" ts1).
      - apply bind_not_panic; [apply Hpv|]. intros [v l2] _ m2; discriminate.
      - destruct rs; discriminate. }
    destruct (String.eqb _ _); discriminate.
Qed.

(** The fuel given by [args_parse] never runs out. *)
Lemma args_loop_fuel fuel : forall st ts m,
  length ts < fuel -> args_loop fuel st ts <> Panic m.
Proof.
  induction fuel as [|fuel IH]; intros st ts m Hf; [lia|].
  cbn [args_loop]. destruct ts as [|t0 ts0]; [discriminate|].
  apply bind_not_panic; [intros m'; apply parse_arg_not_panic|].
  intros [st1 ts1] H1 m1. apply parse_arg_sound in H1.
  destruct H1 as (a & t & Hw & Ht & _). pose proof (written1_nonempty _ _ Hw) as Hne.
  destruct ts1 as [|t1 ts1']; [discriminate|].
  apply bind_not_panic.
  - intros m2; unfold parse_punct. destruct t1; try discriminate.
    destruct (Ascii.eqb _ _); discriminate.
  - intros ts2 H2 m2. apply parse_punct_ok in H2. destruct H2 as [s Hs].
    apply IH. apply (f_equal (@length _)) in Ht. rewrite Hs, app_length in Ht. simpl in Ht, Hf.
    assert (length t <> 0) by (destruct t; [contradiction|discriminate]). lia.
Qed.

(** ** What the final state says about the list *)
Record sees (st : astate) (l : list parg) : Prop := {
  se_pd : st_pinned_drop st = true <-> In GPinnedDrop l;
  se_uu : st_unsafe_unpin st = true <-> In GUnsafeUnpin l;
  se_nu : st_not_unpin st = true <-> In GNotUnpin l;
  se_pr : forall i, st_project st = Some i <-> In (GProject i) l;
  se_prf : forall i, st_project_ref st = Some i <-> In (GProjectRef i) l;
  se_rv : forall i, st_replace_value st = Some i <-> In (GReplaceNamed i) l;
  se_rs : st_replace_span st = true <-> In GReplace l \/ exists i, In (GReplaceNamed i) l;
  se_rs1 : st_replace_value st <> None -> ~ In GReplace l
}.

Lemma kind_in k l : In k (map kind l) <-> exists a, In a l /\ kind a = k.
Proof. rewrite in_map_iff. split; intros (a & H1 & H2); exists a; auto. Qed.

Lemma sees_kinds st l : sees st l ->
  (In KPinnedDrop (map kind l) <-> st_pinned_drop st = true) /\
  (In KUnsafeUnpin (map kind l) <-> st_unsafe_unpin st = true) /\
  (In KNotUnpin (map kind l) <-> st_not_unpin st = true) /\
  (In KProject (map kind l) <-> is_some (st_project st) = true) /\
  (In KProjectRef (map kind l) <-> is_some (st_project_ref st) = true) /\
  (In KReplace (map kind l) <-> st_replace_span st = true).
Proof.
  intros [Hpd Huu Hnu Hpr Hprf Hrv Hrs _].
  repeat match goal with |- _ /\ _ => split end; rewrite kind_in.
  - rewrite Hpd. split; [intros ([] & Hin & Hk); try discriminate; exact Hin|].
    intros H; exists GPinnedDrop; auto.
  - rewrite Huu. split; [intros ([] & Hin & Hk); try discriminate; exact Hin|].
    intros H; exists GUnsafeUnpin; auto.
  - rewrite Hnu. split; [intros ([] & Hin & Hk); try discriminate; exact Hin|].
    intros H; exists GNotUnpin; auto.
  - split.
    + intros ([] & Hin & Hk); try discriminate. apply Hpr in Hin. rewrite Hin; reflexivity.
    + destruct (st_project st) as [i|] eqn:E; [|discriminate]. intros _.
      exists (GProject i). split; [apply Hpr; reflexivity|reflexivity].
  - split.
    + intros ([] & Hin & Hk); try discriminate. apply Hprf in Hin. rewrite Hin; reflexivity.
    + destruct (st_project_ref st) as [i|] eqn:E; [|discriminate]. intros _.
      exists (GProjectRef i). split; [apply Hprf; reflexivity|reflexivity].
  - rewrite Hrs. split.
    + intros ([] & Hin & Hk); try discriminate; [left; exact Hin|right; eauto].
    + intros [H|[i H]]; [exists GReplace; auto|exists (GReplaceNamed i); auto].
Qed.

Lemma in_snoc {A} (x a : A) l : In x (l ++ [a]) <-> In x l \/ x = a.
Proof.
  rewrite in_app_iff; simpl. intuition congruence.
Qed.

Lemma in_snoc_neq {A} (x a : A) l : x <> a -> (In x (l ++ [a]) <-> In x l).
Proof. intros H. rewrite in_snoc. tauto. Qed.

(** Solves the goals about arguments other than the last one. *)
Ltac oth :=
  repeat match goal with
  | |- context [In ?x (?l ++ [?a])] =>
    let H := fresh in assert (H : x <> a) by discriminate; rewrite (in_snoc_neq x a l H); clear H
  end;
  repeat match goal with
  | |- context [exists i, In (GReplaceNamed i) (?l ++ [?a])] =>
    setoid_rewrite (fun i => in_snoc_neq (GReplaceNamed i) a l ltac:(discriminate))
  end;
  try solve [auto].

Lemma absorb_step st l a st' :
  sees st l -> absorb st a = Some st' ->
  sees st' (l ++ [a]) /\ ~ In (kind a) (map kind l).
Proof.
  intros Hs Ha. pose proof (sees_kinds _ _ Hs) as (K1 & K2 & K3 & K4 & K5 & K6).
  destruct Hs as [Hpd Huu Hnu Hpr Hprf Hrv Hrs Hrs1].
  destruct st as [pd uu nu pr prf rv rs]. simpl in *.
  destruct a as [| | |i|i| |i]; simpl in Ha;
    (match type of Ha with (if ?b then _ else _) = _ => destruct b eqn:Eb; [discriminate|] end);
    injection Ha as <-; (split; [|rewrite ?K1, ?K2, ?K3, ?K4, ?K5, ?K6; congruence]).
  - constructor; simpl; intros; oth. split; [intros _; apply in_snoc; auto|reflexivity].
  - constructor; simpl; intros; oth. split; [intros _; apply in_snoc; auto|reflexivity].
  - constructor; simpl; intros; oth. split; [intros _; apply in_snoc; auto|reflexivity].
  - (* project *)
    assert (Hno : forall j, ~ In (GProject j) l).
    { intros j Hj. apply Hpr in Hj. rewrite Hj in Eb. discriminate. }
    constructor; simpl; intros; oth. rewrite in_snoc.
    split; [intros Hj; injection Hj as <-; right; reflexivity|].
    intros [Hj|Hj]; [elim (Hno _ Hj)|congruence].
  - assert (Hno : forall j, ~ In (GProjectRef j) l).
    { intros j Hj. apply Hprf in Hj. rewrite Hj in Eb. discriminate. }
    constructor; simpl; intros; oth. rewrite in_snoc.
    split; [intros Hj; injection Hj as <-; right; reflexivity|].
    intros [Hj|Hj]; [elim (Hno _ Hj)|congruence].
  - (* project_replace *)
    assert (Hno : forall j, ~ In (GReplaceNamed j) l).
    { intros j Hj. assert (false = true) by (apply Hrs; right; eauto). discriminate. }
    constructor; simpl; intros; oth.
    + split; [intros _; left; apply in_snoc; auto|reflexivity].
    + destruct rv as [v|]; [|congruence]. exfalso. apply (Hno v), Hrv. reflexivity.
  - assert (Hno : forall j, ~ In (GReplaceNamed j) l).
    { intros j Hj. assert (false = true) by (apply Hrs; right; eauto). discriminate. }
    assert (Hno0 : ~ In GReplace l).
    { intros Hj. assert (false = true) by (apply Hrs; left; exact Hj). discriminate. }
    constructor; simpl; intros; oth.
    + rewrite in_snoc. split; [intros Hj; injection Hj as <-; right; reflexivity|].
      intros [Hj|Hj]; [elim (Hno _ Hj)|congruence].
    + split; [intros _; right; exists i; apply in_snoc; right; reflexivity|reflexivity].
Qed.

Lemma absorb_total st l a :
  sees st l -> ~ In (kind a) (map kind l) -> exists st', absorb st a = Some st'.
Proof.
  intros Hs Hn. pose proof (sees_kinds _ _ Hs) as (K1 & K2 & K3 & K4 & K5 & K6).
  destruct st as [pd uu nu pr prf rv rs]. simpl in *.
  destruct a; simpl in *;
    (match goal with |- exists _, (if ?b then _ else _) = _ => destruct b; [|eexists; reflexivity] end);
    exfalso; apply Hn; try (apply K1); try (apply K2); try (apply K3);
    try (apply K4); try (apply K5); try (apply K6); reflexivity.
Qed.

Lemma sees0 : sees astate0 [].
Proof. constructor; simpl; try intro; firstorder congruence. Qed.

Lemma NoDup_snoc {A} (l : list A) a : NoDup (l ++ [a]) <-> NoDup l /\ ~ In a l.
Proof.
  split.
  - intros H. apply NoDup_remove in H. rewrite app_nil_r in H. exact H.
  - intros [H1 H2]. apply NoDup_Add with (a := a) (l := l); [|split; assumption].
    replace l with (l ++ []) at 1 by apply app_nil_r. apply Add_app.
Qed.

Lemma absorbs_sees l : forall st,
  absorbs astate0 l = Some st -> sees st l /\ NoDup (map kind l).
Proof.
  induction l as [|a l IH] using rev_ind; intros st H.
  - simpl in H. injection H as <-. split; [exact sees0|constructor].
  - rewrite absorbs_app in H. destruct (absorbs astate0 l) as [st1|]; [|discriminate].
    destruct (IH _ eq_refl) as [Hs Hn]. simpl in H.
    destruct (absorb st1 a) as [st2|] eqn:E; [|discriminate]. injection H as ->.
    destruct (absorb_step _ _ _ _ Hs E) as [Hs' Hk].
    split; [exact Hs'|]. rewrite map_app. simpl. apply NoDup_snoc; auto.
Qed.

Lemma absorbs_total l : NoDup (map kind l) -> exists st, absorbs astate0 l = Some st.
Proof.
  induction l as [|a l IH] using rev_ind; intros H; [eexists; reflexivity|].
  rewrite map_app in H. simpl in H. apply NoDup_snoc in H. destruct H as [H1 H2].
  destruct (IH H1) as [st1 E]. destruct (absorbs_sees _ _ E) as [Hs _].
  destruct (absorb_total _ _ _ Hs H2) as [st2 E2].
  exists st2. rewrite absorbs_app, E. simpl. rewrite E2. reflexivity.
Qed.

(** ** The names *)
Lemma in_given i l : In i (flat_map given l) <->
  In (GProject i) l \/ In (GProjectRef i) l \/ In (GReplaceNamed i) l.
Proof.
  rewrite in_flat_map. split.
  - intros ([] & Hin & Hi); simpl in Hi; try contradiction;
      destruct Hi as [->|[]]; auto.
  - intros [H|[H|H]]; eexists; (split; [exact H|left; reflexivity]).
Qed.

Lemma names_distinct_iff l : NoDup (map kind l) ->
  (NoDup (flat_map given l) <->
   (forall i, ~ (In (GProject i) l /\ In (GProjectRef i) l)) /\
   (forall i, ~ (In (GProject i) l /\ In (GReplaceNamed i) l)) /\
   (forall i, ~ (In (GProjectRef i) l /\ In (GReplaceNamed i) l))).
Proof.
  induction l as [|a l IH]; intros Hk.
  - simpl. split; [intros _; repeat split; intros i [[] _] | intros _; constructor].
  - simpl in Hk. inversion Hk as [|? ? Hnk Hk']; subst. specialize (IH Hk').
    assert (Hnot : forall b, In b l -> kind b = kind a -> False).
    { intros b Hb E. apply Hnk. rewrite <- E. apply in_map. exact Hb. }
    simpl. destruct a as [| | |i|i| |i]; simpl in *;
      try (rewrite IH; clear - Hnot; split;
           (intros (A & B & C); repeat split; intros j [X Y];
            repeat match goal with
                   | H : _ = _ \/ _ |- _ => destruct H; [discriminate|]
                   end;
            first [solve [apply (A j); tauto] | solve [apply (B j); tauto] | solve [apply (C j); tauto]])).
    + rewrite NoDup_cons_iff, IH, in_given. split.
      * intros (N & A & B & C); repeat split; intros j [X Y].
        -- destruct Y as [Y|Y]; [discriminate|]. destruct X as [X|X]; [injection X as ->; tauto|apply (A j); auto].
        -- destruct Y as [Y|Y]; [discriminate|]. destruct X as [X|X]; [injection X as ->; tauto|apply (B j); auto].
        -- destruct Y as [Y|Y]; [discriminate|]. destruct X as [X|X]; [discriminate|apply (C j); auto].
      * intros (A & B & C). split.
        -- intros [H|[H|H]]; [exact (Hnot _ H eq_refl)|apply (A i); auto|apply (B i); auto].
        -- repeat split; intros j [X Y]; [apply (A j)|apply (B j)|apply (C j)]; auto.
    + rewrite NoDup_cons_iff, IH, in_given. split.
      * intros (N & A & B & C); repeat split; intros j [X Y].
        -- destruct X as [X|X]; [discriminate|]. destruct Y as [Y|Y]; [injection Y as ->; tauto|apply (A j); auto].
        -- destruct Y as [Y|Y]; [discriminate|]. destruct X as [X|X]; [discriminate|apply (B j); auto].
        -- destruct Y as [Y|Y]; [discriminate|]. destruct X as [X|X]; [injection X as ->; tauto|apply (C j); auto].
      * intros (A & B & C). split.
        -- intros [H|[H|H]]; [apply (A i); auto|exact (Hnot _ H eq_refl)|apply (C i); auto].
        -- repeat split; intros j [X Y]; [apply (A j)|apply (B j)|apply (C j)]; auto.
    + rewrite NoDup_cons_iff, IH, in_given. split.
      * intros (N & A & B & C); repeat split; intros j [X Y].
        -- destruct X as [X|X]; [discriminate|]. destruct Y as [Y|Y]; [discriminate|apply (A j); auto].
        -- destruct X as [X|X]; [discriminate|]. destruct Y as [Y|Y]; [injection Y as ->; tauto|apply (B j); auto].
        -- destruct X as [X|X]; [discriminate|]. destruct Y as [Y|Y]; [injection Y as ->; tauto|apply (C j); auto].
      * intros (A & B & C). split.
        -- intros [H|[H|H]]; [apply (B i); auto|apply (C i); auto|exact (Hnot _ H eq_refl)].
        -- repeat split; intros j [X Y]; [apply (A j)|apply (B j)|apply (C j)]; auto.
Qed.

(** ** The checks after the loop *)
Lemma opt_ident_eqb_some i b : opt_ident_eqb (Some i) b = true <-> b = Some i.
Proof.
  destruct b as [j|]; simpl; [|split; discriminate].
  rewrite ident_eqb_eq. split; [intros ->; reflexivity|intros H; injection H as ->; reflexivity].
Qed.

Lemma args_finish_iff st l a :
  sees st l -> NoDup (map kind l) ->
  (args_finish st = Ok a <-> sensible l /\ options_are l a).
Proof.
  intros Hs Hk. pose proof (sees_kinds _ _ Hs) as (K1 & K2 & K3 & K4 & K5 & K6).
  pose proof (names_distinct_iff _ Hk) as HN.
  destruct Hs as [Hpd Huu Hnu Hpr Hprf Hrv Hrs Hrs1].
  destruct st as [pd uu nu pr prf rv rs]. cbn [st_pinned_drop st_unsafe_unpin st_not_unpin
    st_project st_project_ref st_replace_value st_replace_span] in *.
  (* the options, if they exist, are determined *)
  set (repl := match rs, rv with
               | false, _ => PRNone | true, Some i => PRNamed i | true, None => PRUnnamed end).
  set (up := if uu then UUnsafe else if nu then UNegative else UDefault).
  assert (Hrvrs : forall i, rv = Some i -> rs = true).
  { intros i E. apply Hrs. right. exists i. apply Hrv. exact E. }
  assert (HrepU : repl = PRUnnamed <-> In GReplace l).
  { unfold repl. destruct rs, rv as [v|]; split; try discriminate; intros H.
    - exfalso. apply Hrs1; [discriminate|exact H].
    - destruct (proj1 Hrs eq_refl) as [X|[i X]]; [exact X|]. apply Hrv in X; discriminate.
    - reflexivity.
    - exfalso. assert (false = true) by (apply Hrs; auto). discriminate.
    - exfalso. assert (false = true) by (apply Hrs; auto). discriminate. }
  assert (HrepN : forall i, repl = PRNamed i <-> In (GReplaceNamed i) l).
  { intros i. rewrite <- Hrv. unfold repl. destruct rs, rv as [v|]; split; try congruence.
    intros E; injection E as ->. specialize (Hrvrs i eq_refl). discriminate. }
  assert (Hchk : forall k : res args,
    (do _ <-
      (if is_some pr || is_some prf then
         if opt_ident_eqb pr prf then
           match prf with
           | Some i => Err ("name `" ++ ident_str i ++ "` is already specified by `project` argument")
           | None => Panic "unwrap"
           end
         else
           match rv with
           | Some i =>
             if opt_ident_eqb pr rv then
               Err ("name `" ++ ident_str i ++ "` is already specified by `project` argument")
             else if opt_ident_eqb prf rv then
               Err ("name `" ++ ident_str i ++ "` is already specified by `project_ref` argument")
             else Ok tt
           | None => Ok tt
           end
       else Ok tt); k) = Ok a <-> NoDup (flat_map given l) /\ k = Ok a).
  { intros k. rewrite HN. setoid_rewrite <- Hpr. setoid_rewrite <- Hprf. setoid_rewrite <- Hrv.
    destruct pr as [p|], prf as [q|]; cbn [is_some orb].
    - cbn [opt_ident_eqb]. destruct (ident_eqb p q) eqn:E.
      + apply ident_eqb_eq in E. subst q. cbn [bind]. split; [discriminate|].
        intros ((A & _) & _). exfalso. apply (A p); auto.
      + apply ident_eqb_neq in E. destruct rv as [r|].
        * destruct (ident_eqb p r) eqn:E1.
          { apply ident_eqb_eq in E1. subst r. cbn [bind]. split; [discriminate|].
            intros ((_ & B & _) & _). exfalso. apply (B p); auto. }
          destruct (ident_eqb q r) eqn:E2.
          { apply ident_eqb_eq in E2. subst r. cbn [bind]. split; [discriminate|].
            intros ((_ & _ & C) & _). exfalso. apply (C q); auto. }
          apply ident_eqb_neq in E1, E2. cbn [bind]. split; [|tauto].
          intros H; split; [|exact H]. repeat split; intros i [X Y]; congruence.
        * cbn [bind]. split; [|tauto]. intros H; split; [|exact H].
          repeat split; intros i [X Y]; congruence.
    - cbn [opt_ident_eqb]. destruct rv as [r|].
      + destruct (ident_eqb p r) eqn:E1.
        { apply ident_eqb_eq in E1. subst r. cbn [bind]. split; [discriminate|].
          intros ((_ & B & _) & _). exfalso. apply (B p); auto. }
        apply ident_eqb_neq in E1. cbn [bind]. split; [|tauto].
        intros H; split; [|exact H]. repeat split; intros i [X Y]; congruence.
      + cbn [bind]. split; [|tauto]. intros H; split; [|exact H].
        repeat split; intros i [X Y]; congruence.
    - cbn [opt_ident_eqb]. destruct rv as [r|].
      + destruct (ident_eqb q r) eqn:E1.
        { apply ident_eqb_eq in E1. subst r. cbn [bind]. split; [discriminate|].
          intros ((_ & _ & C) & _). exfalso. apply (C q); auto. }
        apply ident_eqb_neq in E1. cbn [bind]. split; [|tauto].
        intros H; split; [|exact H]. repeat split; intros i [X Y]; congruence.
      + cbn [bind]. split; [|tauto]. intros H; split; [|exact H].
        repeat split; intros i [X Y]; congruence.
    - cbn [bind]. split; [|tauto]. intros H; split; [|exact H].
      repeat split; intros i [X Y]; congruence. }
  unfold args_finish. rewrite Hchk. clear Hchk. fold repl.
  assert (Hopt : uu && nu = false -> (options_are l a <-> a = mkArgs pd up pr prf repl)).
  { intros Hx. split.
    - intros Ho. destruct a as [a1 a2 a3 a4 a5], Ho as [O1 O2 O3 O4 O5 O6 O7]; simpl in *. f_equal.
      + apply eq_true_iff_eq. rewrite O1, Hpd. tauto.
      + unfold up. destruct uu; [apply O2, Huu; reflexivity|].
        destruct nu; [apply O3, Hnu; reflexivity|].
        destruct a2; [reflexivity| |]; exfalso.
        * assert (false = true) by (apply Huu, O2; reflexivity). discriminate.
        * assert (false = true) by (apply Hnu, O3; reflexivity). discriminate.
      + destruct a3 as [i|]; [symmetry; apply Hpr, O4; reflexivity|].
        destruct pr as [i|]; [|reflexivity]. apply O4, Hpr. reflexivity.
      + destruct a4 as [i|]; [symmetry; apply Hprf, O5; reflexivity|].
        destruct prf as [i|]; [|reflexivity]. apply O5, Hprf. reflexivity.
      + destruct a5 as [| |i]; [|symmetry; apply HrepU, O6; reflexivity|symmetry; apply HrepN, O7; reflexivity].
        clearbody repl. destruct repl as [| |i]; [reflexivity| |].
        * apply O6, HrepU. reflexivity.
        * apply O7, HrepN. reflexivity.
    - intros ->. constructor; cbn [ar_pinned_drop ar_unpin ar_project ar_project_ref ar_project_replace]; auto.
      + rewrite <- Huu. unfold up. destruct uu, nu; split; congruence.
      + rewrite <- Hnu. unfold up. destruct uu, nu; simpl in Hx; split; congruence. }
  assert (Hsens : sensible l <-> NoDup (flat_map given l) /\ pd && rs = false /\ uu && nu = false).
  { split.
    - intros [_ S2 S3 S4]. split; [exact S2|]. split.
      + destruct pd, rs; try reflexivity. elim S3. split; [apply K1|apply K6]; reflexivity.
      + destruct uu, nu; try reflexivity. elim S4. split; [apply K2|apply K3]; reflexivity.
    - intros (S2 & S3 & S4). constructor; [exact Hk|exact S2| |].
      + rewrite K1, K6. intros [-> ->]. discriminate.
      + rewrite K2, K3. intros [-> ->]. discriminate. }
  rewrite Hsens.
  destruct (pd && rs); [split; [intros [_ H]; discriminate|intros ((_ & H & _) & _); discriminate]|].
  destruct (uu && nu) eqn:Eun.
  - destruct uu, nu; try discriminate. cbn [bind].
    split; [intros [_ H]; discriminate|intros ((_ & _ & H) & _); discriminate].
  - rewrite (Hopt eq_refl). unfold up.
    split.
    + intros [H1 H2]. split; [auto|]. destruct uu, nu; try discriminate; cbn [bind] in H2; congruence.
    + intros [(H1 & _) H2]. split; [exact H1|]. destruct uu, nu; try discriminate; cbn [bind]; congruence.
Qed.

Theorem args_parse_iff ts a :
  args_parse ts = Ok a <-> exists l, written l ts /\ sensible l /\ options_are l a.
Proof.
  unfold args_parse. rewrite bind_ok. split.
  - intros (st & H1 & H2). apply args_loop_sound in H1. destruct H1 as (l & Hw & Ha).
    destruct (absorbs_sees _ _ Ha) as [Hs Hn]. exists l. split; [exact Hw|].
    apply (args_finish_iff _ _ _ Hs Hn). exact H2.
  - intros (l & Hw & Hse & Ho). destruct (absorbs_total l (each_once _ Hse)) as [st Ha].
    destruct (absorbs_sees _ _ Ha) as [Hs Hn]. exists st. split.
    + apply (args_loop_complete l); [exact Hw|exact Ha|lia].
    + apply (args_finish_iff _ _ _ Hs Hn). auto.
Qed.

Lemma args_finish_not_panic st m : args_finish st <> Panic m.
Proof.
  destruct st as [pd uu nu pr prf rv rs]. unfold args_finish.
  apply bind_not_panic.
  - intros m'. destruct pr as [p|], prf as [q|]; cbn [is_some orb opt_ident_eqb].
    + destruct (ident_eqb p q); [discriminate|]. destruct rv as [r|]; [|discriminate].
      destruct (ident_eqb p r); [discriminate|]. destruct (ident_eqb q r); discriminate.
    + destruct rv as [r|]; [|discriminate]. destruct (ident_eqb p r); discriminate.
    + destruct rv as [r|]; [|discriminate]. destruct (ident_eqb q r); discriminate.
    + discriminate.
  - intros _ _ m1. destruct (pd && rs); [discriminate|].
    apply bind_not_panic; [intros m2; destruct uu, nu; discriminate|discriminate].
Qed.

Lemma args_parse_not_panic ts m : args_parse ts <> Panic m.
Proof.
  unfold args_parse. apply bind_not_panic; [intros m'; apply args_loop_fuel; lia|].
  intros st _ m1. apply args_finish_not_panic.
Qed.

(** ** Order *)
Lemma sensible_perm l l' : Permutation l l' -> sensible l -> sensible l'.
Proof.
  intros Hp [A B C D]. pose proof (Permutation_map kind Hp) as Hk.
  pose proof (Permutation_flat_map given Hp) as Hg. constructor.
  - apply (Permutation_NoDup Hk A).
  - apply (Permutation_NoDup Hg B).
  - intros [X Y]. apply C. split; apply (Permutation_in _ (Permutation_sym Hk)); assumption.
  - intros [X Y]. apply D. split; apply (Permutation_in _ (Permutation_sym Hk)); assumption.
Qed.
Lemma options_perm l l' a : Permutation l l' -> options_are l a -> options_are l' a.
Proof.
  intros Hp [A B C D E F G].
  assert (H : forall x, In x l <-> In x l').
  { intros x; split; apply Permutation_in; [exact Hp|apply Permutation_sym; exact Hp]. }
  constructor; try intro; rewrite <- H; auto.
Qed.

(** The grammar is unambiguous. *)
Lemma written1_prefix a t b u r s :
  written1 a t -> written1 b u -> at_sep r -> at_sep s -> t ++ r = u ++ s -> a = b /\ r = s.
Proof.
  assert (Hc : forall x i, ~ at_sep (TPunct "=" x :: i)).
  { intros x i [H|(y & z & H)]; discriminate. }
  intros Ha Hb Hr Hs. destruct Ha, Hb; cbn [app]; intros E; try discriminate; injection E as E; subst;
    try (split; reflexivity); try (exfalso; eapply Hc; eassumption).
Qed.

Lemma written_unique l ts : written l ts -> forall l', written l' ts -> l = l'.
Proof.
  assert (Hsep : forall s (r : list ttree), at_sep (TPunct "," s :: r)) by (right; eauto).
  assert (Hnil : at_sep []) by (left; reflexivity).
  induction 1 as [|a t Hw|a t s l ts Hw Hl IH]; intros l' H'.
  - inversion H' as [|? ? H1 E|? ? ? ? ? H1 _ E]; [reflexivity| |].
    + subst. elim (written1_nonempty _ _ H1). reflexivity.
    + destruct t; discriminate.
  - inversion H' as [E|b u H1 E|b u x m us H1 H2 E]; subst.
    + elim (written1_nonempty _ _ Hw). reflexivity.
    + destruct (written1_prefix a t b t [] []) as [-> _]; auto.
    + destruct (written1_prefix a (u ++ TPunct "," x :: us) b u [] (TPunct "," x :: us)) as [_ E2]; auto.
      { apply app_nil_r. } discriminate.
  - inversion H' as [E|b u H1 E|b u x m us H1 H2 E]; subst.
    + destruct t; discriminate.
    + destruct (written1_prefix a t b (t ++ TPunct "," s :: ts) (TPunct "," s :: ts) []) as [_ E2]; auto.
      { symmetry; apply app_nil_r. } discriminate.
    + destruct (written1_prefix a t b u (TPunct "," s :: ts) (TPunct "," x :: us)) as [-> E2]; auto.
      injection E2 as -> ->. f_equal. apply IH. exact H2.
Qed.

Theorem args_parse_perm l l' ts ts' a :
  written l ts -> written l' ts' -> Permutation l l' ->
  args_parse ts = Ok a -> args_parse ts' = Ok a.
Proof.
  intros Hw Hw' Hp H. apply args_parse_iff in H. destruct H as (m & Hm & Hs & Ho).
  rewrite <- (written_unique _ _ Hw _ Hm) in Hs, Ho.
  apply args_parse_iff. exists l'. split; [exact Hw'|].
  split; [apply (sensible_perm l)|apply (options_perm l)]; assumption.
Qed.

Theorem args_parse_exclusive ts a :
  args_parse ts = Ok a -> ar_pinned_drop a = true -> ar_project_replace a = PRNone.
Proof.
  intros H Hp. apply args_parse_iff in H. destruct H as (l & _ & [_ _ S _] & [A _ _ _ _ F G]).
  apply A in Hp.
  assert (HK : In KPinnedDrop (map kind l)) by (apply (in_map kind) in Hp; exact Hp).
  destruct (ar_project_replace a) as [| |i]; [reflexivity| |]; elim S; split; auto.
  - apply (in_map kind l GReplace), F. reflexivity.
  - apply (in_map kind l (GReplaceNamed i)), G. reflexivity.
Qed.

Lemma args_parse_error ts :
  ~ (exists l, written l ts /\ sensible l) -> exists msg, args_parse ts = Err msg.
Proof.
  intros H. destruct (args_parse ts) as [a|m|m] eqn:E.
  - elim H. apply args_parse_iff in E. destruct E as (l & A & B & _). eauto.
  - eauto.
  - elim (args_parse_not_panic _ _ E).
Qed.

Lemma args_parse_both l ts :
  written l ts ->
  (In GUnsafeUnpin l /\ In GNotUnpin l) \/
  (In GPinnedDrop l /\ (In GReplace l \/ exists i, In (GReplaceNamed i) l)) ->
  exists msg, args_parse ts = Err msg.
Proof.
  intros Hw Hb. apply args_parse_error. intros (l' & Hw' & [_ _ S1 S2]).
  rewrite <- (written_unique _ _ Hw _ Hw') in S1, S2.
  destruct Hb as [[A B]|[A B]].
  - apply S2. split; [apply (in_map kind l GUnsafeUnpin A)|apply (in_map kind l GNotUnpin B)].
  - apply S1. split; [apply (in_map kind l GPinnedDrop A)|].
    destruct B as [B|[i B]]; [apply (in_map kind l GReplace B)|apply (in_map kind l (GReplaceNamed i) B)].
Qed.
