(** The parser for [repr] lists accepts exactly the written lists. *)
From Coq Require Import String Ascii List Bool Arith Lia.
From Verif Require Import Base Syntax ModelArgs ModelUtils ModelDerive SpecArgs SpecDerive ProofsArgs.
Import ListNotations.
Open Scope string_scope.
Open Scope list_scope.

Lemma accept_mod_seg_iff i : accept_mod_seg i = true <-> seg_word i.
Proof.
  unfold accept_mod_seg, seg_word. rewrite orb_true_iff, accept_plain.
  split; (intros [H|H]; [left; exact H|right]).
  - apply existsb_exists in H. destruct H as (s & Hs & E). apply ident_is_eq in E. subst i.
    simpl in *. intuition congruence.
  - apply existsb_exists. simpl in H.
    destruct H as [H|[H|[H|[H|[]]]]]; subst i; eexists; (split; [|apply ident_is_eq; reflexivity]);
      simpl; auto.
Qed.

(** What may follow a path. *)
Definition no_colon2 (r : list ttree) : Prop :=
  forall s r', r <> TPunct ":" true :: TPunct ":" s :: r'.

Lemma parse_mod_segs_complete l t : segs_written l t ->
  forall r, no_colon2 r -> parse_mod_segs (t ++ r) = Ok (l, r).
Proof.
  induction 1 as [i Hi|i l s ts Hi Hl IH]; intros r Hr.
  - cbn [app parse_mod_segs]. apply accept_mod_seg_iff in Hi. rewrite Hi.
    destruct r as [|[|c [|]| |] [|[|c' s'| |] r']]; try reflexivity.
    destruct (Ascii.eqb c ":") eqn:E1; [|reflexivity].
    destruct (Ascii.eqb c' ":") eqn:E2; [|reflexivity].
    apply Ascii.eqb_eq in E1, E2. subst. elim (Hr _ _ eq_refl).
  - cbn [app parse_mod_segs]. apply accept_mod_seg_iff in Hi. rewrite Hi.
    cbn [Ascii.eqb Bool.eqb andb]. rewrite (IH r Hr). reflexivity.
Qed.

Lemma list_len_ind {A} (P : list A -> Prop) :
  (forall l, (forall l', length l' < length l -> P l') -> P l) -> forall l, P l.
Proof.
  intros H l. remember (length l) as n eqn:E. revert l E.
  induction n as [n IH] using lt_wf_ind. intros l ->. apply H. intros l' Hl.
  apply (IH (length l') Hl l' eq_refl).
Qed.

Lemma parse_mod_segs_sound : forall ts l r,
  parse_mod_segs ts = Ok (l, r) -> exists t, segs_written l t /\ ts = t ++ r.
Proof.
  induction ts as [ts IH] using list_len_ind. intros l r H.
  destruct ts as [|[i| | |] ts']; try discriminate. cbn [parse_mod_segs] in H.
  destruct (accept_mod_seg i) eqn:Ei; [|discriminate]. apply accept_mod_seg_iff in Ei.
  assert (Hone : Ok ([i], ts') = Ok (l, r) ->
    exists t, segs_written l t /\ TIdent i :: ts' = t ++ r).
  { intros E. injection E as <- <-. exists [TIdent i]. split; [constructor; exact Ei|reflexivity]. }
  destruct ts' as [|[j|c [|]|w|d x] [|[j'|c' s'|w'|d' x'] r']]; try (apply Hone; exact H).
  destruct (Ascii.eqb c ":" && Ascii.eqb c' ":") eqn:Ec; [|apply Hone; exact H].
  apply andb_true_iff in Ec. destruct Ec as [E1 E2]. apply Ascii.eqb_eq in E1, E2. subst c c'.
  apply bind_ok in H. destruct H as ([l2 r2] & H1 & H2). injection H2 as <- <-.
  apply IH in H1; [|simpl; lia]. destruct H1 as (t & Ht & ->).
  exists (TIdent i :: TPunct ":" true :: TPunct ":" s' :: t). split; [constructor; assumption|reflexivity].
Qed.

Lemma parse_mod_path_sound ts lead l r :
  parse_mod_path ts = Ok ((lead, l), r) -> exists t, mpath_written lead l t /\ ts = t ++ r.
Proof.
  intros H. unfold parse_mod_path in H.
  assert (Hone : bind (parse_mod_segs ts) (fun x => match x with (l0, r2) => Ok ((false, l0), r2) end) = Ok ((lead, l), r) ->
    exists t, mpath_written lead l t /\ ts = t ++ r).
  { intros E. apply bind_ok in E. destruct E as ([l2 r2] & H1 & H2). injection H2 as <- <- <-.
    apply parse_mod_segs_sound in H1. destruct H1 as (t & Ht & E). exists t. split; [constructor; exact Ht|exact E]. }
  destruct ts as [|[j|c [|]|w|d x] [|[j'|c' s'|w'|d' x'] r']]; try (apply Hone; exact H).
  destruct (Ascii.eqb c ":" && Ascii.eqb c' ":") eqn:Ec; [|discriminate].
  apply andb_true_iff in Ec. destruct Ec as [E1 E2]. apply Ascii.eqb_eq in E1, E2. subst c c'.
  apply bind_ok in H. destruct H as ([l2 r2] & H1 & H2). injection H2 as <- <- <-.
  apply parse_mod_segs_sound in H1. destruct H1 as (t & Ht & ->).
  eexists. split; [apply MP_abs; exact Ht|reflexivity].
Qed.

Lemma segs_written_head l t : segs_written l t -> exists i t', t = TIdent i :: t'.
Proof. destruct 1; eauto. Qed.

Lemma parse_mod_path_complete lead l t r :
  mpath_written lead l t -> no_colon2 r -> parse_mod_path (t ++ r) = Ok ((lead, l), r).
Proof.
  intros H Hr. destruct H as [l ts H|s l ts H].
  - destruct (segs_written_head _ _ H) as (i & t' & E).
    pose proof (parse_mod_segs_complete _ _ H _ Hr) as Hp. subst ts.
    cbn [app] in *. unfold parse_mod_path. rewrite Hp. reflexivity.
  - cbn [app]. unfold parse_mod_path. cbn [Ascii.eqb Bool.eqb andb].
    rewrite (parse_mod_segs_complete _ _ H _ Hr). reflexivity.
Qed.

Lemma take_until_comma_sound ts a b :
  take_until_comma ts = (a, b) -> ts = a ++ b /\ no_comma a /\ (b = [] \/ exists s b', b = TPunct "," s :: b').
Proof.
  revert a b. induction ts as [|t ts IH]; intros a b H.
  - simpl in H. injection H as <- <-. split; [reflexivity|]. split; [intros s []|left; reflexivity].
  - assert (Hgen : (forall s, t <> TPunct "," s) ->
        (let '(a, b) := take_until_comma ts in (t :: a, b)) = (a, b) ->
        t :: ts = a ++ b /\ no_comma a /\ (b = [] \/ exists s b', b = TPunct "," s :: b')).
    { intros Hn E. destruct (take_until_comma ts) as [a' b']. injection E as <- <-.
      destruct (IH _ _ eq_refl) as (-> & H1 & H2). split; [reflexivity|]. split; [|exact H2].
      intros s [X|X]; [apply (Hn s X)|apply (H1 s X)]. }
    destruct t as [i|c s|w|d x]; cbn [take_until_comma] in H; try (apply Hgen; [discriminate|exact H]).
    destruct (Ascii.eqb c ",") eqn:E.
    + injection H as <- <-. apply Ascii.eqb_eq in E. subst c. split; [reflexivity|].
      split; [intros s' []|right; eauto].
    + apply Hgen; [|exact H]. intros s' X. injection X as -> ->. discriminate.
Qed.

Lemma take_until_comma_complete v r :
  no_comma v -> at_sep r -> take_until_comma (v ++ r) = (v, r).
Proof.
  intros Hv Hr. induction v as [|t v IH].
  - cbn [app]. destruct Hr as [->|(s & r' & ->)]; reflexivity.
  - assert (no_comma v) as Hv' by (intros s X; apply (Hv s); right; exact X).
    cbn [app take_until_comma]. rewrite (IH Hv').
    destruct t as [i|c s|w|d x]; try reflexivity.
    destruct (Ascii.eqb c ",") eqn:E; [|reflexivity].
    apply Ascii.eqb_eq in E. subst c. elim (Hv s). left; reflexivity.
Qed.

Definition rm_key (m : rmeta) : bool * list ident := (rm_lead m, rm_path m).

Lemma parse_meta_sound ts m r :
  parse_meta ts = Ok (m, r) -> exists t, entry_written (rm_key m) t /\ ts = t ++ r.
Proof.
  unfold parse_meta. rewrite bind_ok. intros ([[lead p] r1] & H1 & H2).
  apply parse_mod_path_sound in H1. destruct H1 as (t & Ht & ->).
  assert (Hpath : Ok (mkRMeta lead p MkPath, r1) = Ok (m, r) ->
    exists t', entry_written (rm_key m) t' /\ t ++ r1 = t' ++ r).
  { intros E. injection E as <- <-. exists t. split; [constructor; exact Ht|reflexivity]. }
  destruct r1 as [|[i|c s|w|d x] r1']; try (apply Hpath; exact H2).
  - destruct (Ascii.eqb c "=") eqn:E; [|apply Hpath; exact H2].
    apply Ascii.eqb_eq in E. subst c.
    destruct (take_until_comma r1') as [[|v0 v] r2] eqn:Et; [discriminate|]. injection H2 as <- <-.
    apply take_until_comma_sound in Et. destruct Et as (-> & Hv & _).
    exists (t ++ TPunct "=" s :: v0 :: v). split; [|rewrite <- app_assoc; reflexivity].
    apply EW_value; [exact Ht|discriminate|exact Hv].
  - destruct d; try (apply Hpath; exact H2);
      match type of H2 with Ok (mkRMeta _ _ MkList, _) = _ => idtac end;
      injection H2 as <- <-;
      match goal with |- context [TGroup ?d x] => exists (t ++ [TGroup d x]) end;
      (split; [apply EW_list; [exact Ht|discriminate]|rewrite <- app_assoc; reflexivity]).
Qed.

Lemma at_sep_no_colon2 r : at_sep r -> no_colon2 r.
Proof. intros [->|(s & r' & ->)] x y; discriminate. Qed.

Lemma parse_meta_complete e t r :
  entry_written e t -> at_sep r -> exists m, parse_meta (t ++ r) = Ok (m, r) /\ rm_key m = e.
Proof.
  intros H Hr. destruct H as [lead p t Ht|lead p t d x Ht Hd|lead p t s v Ht Hv Hc]; unfold parse_meta.
  - rewrite (parse_mod_path_complete _ _ _ _ Ht (at_sep_no_colon2 _ Hr)). cbn [bind].
    destruct Hr as [->|(s & r' & ->)]; eexists; split; reflexivity.
  - rewrite <- app_assoc. rewrite (parse_mod_path_complete _ _ _ _ Ht); [|intros a b; discriminate].
    cbn [bind app]. destruct d; try contradiction; eexists; (split; reflexivity).
  - rewrite <- app_assoc. rewrite (parse_mod_path_complete _ _ _ _ Ht); [|intros a b; discriminate].
    cbn [bind app Ascii.eqb Bool.eqb]. rewrite (take_until_comma_complete _ _ Hc Hr).
    destruct v; [contradiction|]. eexists; split; reflexivity.
Qed.

Lemma entry_nonempty e t : entry_written e t -> t <> [].
Proof.
  assert (Hp : forall a b t, mpath_written a b t -> t <> []).
  { intros a b t0 [l ts H|s l ts H]; [|discriminate]. destruct H; discriminate. }
  destruct 1 as [lead p t Ht|lead p t d x Ht Hd|lead p t s v Ht Hv Hc];
    specialize (Hp _ _ _ Ht); destruct t; try contradiction; discriminate.
Qed.

Lemma parse_metas_sound fuel : forall ts ms,
  parse_metas fuel ts = Ok ms -> entries_written (map rm_key ms) ts.
Proof.
  induction fuel as [|fuel IH]; intros ts ms H; [discriminate|].
  cbn [parse_metas] in H. destruct ts as [|t0 ts0].
  { injection H as <-. constructor. }
  apply bind_ok in H. destruct H as ([m r] & H1 & H2).
  apply parse_meta_sound in H1. destruct H1 as (t & Ht & E). rewrite E. clear E.
  destruct r as [|r0 r'].
  - injection H2 as <-. rewrite app_nil_r. constructor; exact Ht.
  - apply bind_ok in H2. destruct H2 as (r2 & H3 & H4).
    apply parse_punct_ok in H3. destruct H3 as [s ->].
    apply bind_ok in H4. destruct H4 as (l & H5 & H6). injection H6 as <-.
    cbn [map]. apply ES_more; [exact Ht|apply IH; exact H5].
Qed.

Lemma parse_metas_complete es ts : entries_written es ts ->
  forall fuel, length ts < fuel -> exists ms, parse_metas fuel ts = Ok ms /\ map rm_key ms = es.
Proof.
  induction 1 as [|e t He|e t s l ts He Hl IH]; intros fuel Hf;
    (destruct fuel as [|fuel]; [lia|]); cbn [parse_metas].
  - exists []; split; reflexivity.
  - destruct (parse_meta_complete _ _ [] He (or_introl eq_refl)) as (m & Hm & Hk).
    rewrite app_nil_r in Hm. pose proof (entry_nonempty _ _ He) as Hne.
    destruct t; [contradiction|]. rewrite Hm. cbn [bind]. exists [m]. split; [reflexivity|simpl; rewrite Hk; reflexivity].
  - destruct (parse_meta_complete _ _ (TPunct "," s :: ts) He) as (m & Hm & Hk); [right; eauto|].
    pose proof (entry_nonempty _ _ He) as Hne.
    destruct (IH fuel) as (ms & H1 & H2).
    { rewrite app_length in Hf. simpl in Hf. lia. }
    assert (exists x y, t ++ TPunct "," s :: ts = x :: y) as (x & y & Hxy).
    { destruct t as [|x t']; [contradiction|]. exists x; eexists; reflexivity. }
    rewrite Hm, Hxy. cbn [bind].
    assert (parse_punct "," (TPunct "," s :: ts) = Ok ts) as -> by (apply parse_punct_ok; eauto).
    cbn [bind]. rewrite H1. cbn [bind]. exists (m :: ms). split; [reflexivity|simpl; rewrite Hk, H2; reflexivity].
Qed.

Lemma rmeta_is_iff m s : rmeta_is m s = true <-> rm_key m = (false, [I s]).
Proof.
  unfold rmeta_is, rm_key, path_is_ident. destruct m as [[] [|i [|j p]] k]; simpl; split; try discriminate;
    try (intros H; injection H as E; congruence).
  - intros H. apply ident_is_eq in H. subst i. reflexivity.
  - intros H. injection H as ->. apply ident_is_eq. reflexivity.
Qed.

Lemma check_repr_metas_ok b ms :
  check_repr_metas b ms = Ok tt <-> ~ In (false, [I "packed"]) (map rm_key ms).
Proof.
  induction ms as [|m ms IH]; cbn [check_repr_metas map In].
  - split; [intros _ []|reflexivity].
  - destruct (rmeta_is m "packed") eqn:E.
    + apply rmeta_is_iff in E. split; [discriminate|]. intros H. elim H. left; exact E.
    + rewrite IH. split.
      * intros H [X|X]; [|exact (H X)]. apply rmeta_is_iff in X. congruence.
      * intros H X. apply H. right; exact X.
Qed.

Lemma check_repr_metas_total b ms : (exists m, check_repr_metas b ms = Err m) \/ check_repr_metas b ms = Ok tt.
Proof.
  induction ms as [|m ms IH]; cbn [check_repr_metas]; [right; reflexivity|].
  destruct (rmeta_is m "packed"); [left; eauto|exact IH].
Qed.

Lemma parse_metas_not_panic fuel : forall ts m, length ts < fuel -> parse_metas fuel ts <> Panic m.
Proof.
  assert (Hsegs : forall ts m, parse_mod_segs ts <> Panic m).
  { induction ts as [ts IH] using list_len_ind. intros m.
    destruct ts as [|[i| | |] ts']; try discriminate. cbn [parse_mod_segs].
    destruct (accept_mod_seg i); [|discriminate].
    destruct ts' as [|[j|c [|]|w|d x] [|[j'|c' s'|w'|d' x'] r']]; try discriminate.
    destruct (Ascii.eqb c ":" && Ascii.eqb c' ":"); [|discriminate].
    apply bind_not_panic; [intros m'; apply IH; simpl; lia|]. intros [a b] _ m'. discriminate. }
  assert (Hpath : forall ts m, parse_mod_path ts <> Panic m).
  { intros ts m. unfold parse_mod_path.
    assert (forall ts m, bind (parse_mod_segs ts) (fun x => match x with (l0, r2) => Ok ((false, l0), r2) end) <> Panic m).
    { intros ts' m'. apply bind_not_panic; [apply Hsegs|]. intros [a b] _ m2. discriminate. }
    destruct ts as [|[j|c [|]|w|d x] [|[j'|c' s'|w'|d' x'] r']]; auto.
    destruct (Ascii.eqb c ":" && Ascii.eqb c' ":"); [|discriminate].
    apply bind_not_panic; [apply Hsegs|]. intros [a b] _ m2. discriminate. }
  assert (Hmeta : forall ts m, parse_meta ts <> Panic m).
  { intros ts m. unfold parse_meta. apply bind_not_panic; [apply Hpath|].
    intros [[lead p] r] _ m'. destruct r as [|[i|c s|w|d x] r']; try discriminate.
    - destruct (Ascii.eqb c "="); [|discriminate]. destruct (take_until_comma r') as [[|] ?]; discriminate.
    - destruct d; discriminate. }
  induction fuel as [|fuel IH]; intros ts m Hf; [lia|]. cbn [parse_metas].
  destruct ts as [|t0 ts0]; [discriminate|].
  apply bind_not_panic; [apply Hmeta|]. intros [x r] H1 m1.
  apply parse_meta_sound in H1. destruct H1 as (t & Ht & E). apply entry_nonempty in Ht.
  destruct r as [|r0 r']; [discriminate|].
  apply bind_not_panic.
  { intros m2. unfold parse_punct. destruct r0; try discriminate. destruct (Ascii.eqb _ _); discriminate. }
  intros r2 H2 m2. apply parse_punct_ok in H2. destruct H2 as [s Hs]. rewrite Hs in E.
  apply bind_not_panic; [|discriminate]. intros m3. apply IH.
  apply (f_equal (@length _)) in E. rewrite app_length in E. simpl in E, Hf.
  assert (length t <> 0) by (destruct t; [contradiction|discriminate]). lia.
Qed.

Lemma attr_is_iff x s : attr_is x s = true <-> attr_named x s.
Proof.
  unfold attr_is, attr_named, path_is_ident. destruct x as [[] [|i [|j p]] m]; simpl;
    (split; [|intros [A B]]); try discriminate; try congruence.
  - intros H. apply ident_is_eq in H. subst i. auto.
  - injection B as ->. apply ident_is_eq. reflexivity.
Qed.
Lemma attr_is_false x s : attr_is x s = false <-> ~ attr_named x s.
Proof. rewrite <- attr_is_iff. destruct (attr_is x s); split; congruence. Qed.

(** [check_reprs] accepts exactly [reprs_ok]. *)
Lemma check_reprs_ok b l : check_reprs b l = Ok tt <-> reprs_ok l.
Proof.
  induction l as [|x l IH]; cbn [check_reprs].
  - split; [intros _ y d ts []|reflexivity].
  - assert (Hx : forall k : res unit, k = Ok tt ->
      (bind k (fun _ => check_reprs b l) = Ok tt <-> reprs_ok l)).
    { intros k ->. exact IH. }
    assert (Hskip : ~ (attr_named x "repr" /\ exists d ts, a_meta x = MList d ts) ->
      (reprs_ok (x :: l) <-> reprs_ok l)).
    { intros Hn. split; intros H y d ts Hy Hr Hm.
      - apply (H y d ts); [right|..]; assumption.
      - destruct Hy as [<-|Hy]; [elim Hn; split; eauto|apply (H y d ts); assumption]. }
    destruct (a_meta x) as [|d ts|v] eqn:Em.
    + rewrite Hx by reflexivity. rewrite Hskip; [reflexivity|]. intros [_ (d & ts & E)]; discriminate.
    + destruct (attr_is x "repr") eqn:En.
      * apply attr_is_iff in En. rewrite bind_ok. split.
        -- intros ([] & H1 & H2). apply bind_ok in H1. destruct H1 as (ms & H3 & H4).
           apply check_repr_metas_ok in H4. apply parse_metas_sound in H3. apply IH in H2.
           intros y d' ts' Hy Hr Hm. destruct Hy as [<-|Hy]; [|apply (H2 y d' ts'); assumption].
           rewrite Em in Hm. injection Hm as <- <-. eauto.
        -- intros H. destruct (H x d ts (or_introl eq_refl) En Em) as (es & He & Hn).
           destruct (parse_metas_complete _ _ He (S (length ts))) as (ms & Hp & Hk); [lia|].
           exists tt. rewrite Hp. cbn [bind]. split.
           ++ apply check_repr_metas_ok. rewrite Hk. exact Hn.
           ++ apply IH. intros y d' ts' Hy. apply H. right; exact Hy.
      * rewrite Hx by reflexivity. rewrite Hskip; [reflexivity|].
        intros [Hr _]. apply attr_is_iff in Hr. congruence.
    + rewrite Hx by reflexivity. rewrite Hskip; [reflexivity|]. intros [_ (d & ts & E)]; discriminate.
Qed.

Lemma check_reprs_not_panic b l m : check_reprs b l <> Panic m.
Proof.
  revert m. induction l as [|x l IH]; intros m; cbn [check_reprs]; [discriminate|].
  apply bind_not_panic; [|intros _ _; exact IH].
  intros m'. destruct (a_meta x) as [|d ts|v]; try discriminate.
  destruct (attr_is x "repr"); [|discriminate].
  apply bind_not_panic; [intros m2; apply parse_metas_not_panic; lia|].
  intros ms _ m2. destruct (check_repr_metas_total b ms) as [[e ->]| ->]; discriminate.
Qed.

(** Entry lists are unambiguous, so an entry [packed] in one reading is there in
    every reading. *)
Lemma entries_unique es ts es' : entries_written es ts -> entries_written es' ts -> es = es'.
Proof.
  intros H H'.
  destruct (parse_metas_complete _ _ H (S (length ts))) as (ms & E & <-); [lia|].
  destruct (parse_metas_complete _ _ H' (S (length ts))) as (ms' & E' & <-); [lia|].
  congruence.
Qed.
