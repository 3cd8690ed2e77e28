(** The aliasing rules: stacks. *)
From Coq Require Import String Ascii List Bool Arith Lia.
From Verif Require Import Base Syntax ModelArgs ModelUtils ModelDerive ModelRun ModelAlias.
From Verif Require Import SpecArgs SpecDerive SpecExpand SpecRun SpecAlias.
Import ListNotations.
Open Scope string_scope.
Open Scope list_scope.

(** ** Single stacks *)
Lemma granting_split b t s x g y : granting b t s = Some (x, g, y) ->
  s = x ++ g :: y /\ grants b t g = true /\ Forall (fun e => grants b t e = false) x.
Proof.
  revert x. induction s as [|e s IH]; intros x; cbn [granting]; [discriminate|].
  destruct (grants b t e) eqn:E.
  - intros H. injection H as <- <- <-. repeat split; auto.
  - destruct (granting b t s) as [[[x' g'] y']|]; [|discriminate]. intros H. injection H as <- <- <-.
    destruct (IH x' eq_refl) as (-> & H1 & H2). repeat split; auto.
Qed.
Lemma granting_found b t x g y : grants b t g = true -> Forall (fun e => grants b t e = false) x ->
  granting b t (x ++ g :: y) = Some (x, g, y).
Proof.
  intros Hg Hx. induction Hx as [|e x He Hx IH]; cbn [app granting]; [rewrite Hg; reflexivity|].
  rewrite He, IH. reflexivity.
Qed.
Lemma split_raw_eq l : l = fst (split_raw l) ++ snd (split_raw l).
Proof.
  induction l as [|x l IH]; cbn [split_raw]; [reflexivity|]. destruct (split_raw l) as [p k]. cbn [fst snd] in IH.
  subst l. destruct p; [destruct (is_raw x)|]; reflexivity.
Qed.
Lemma split_raw_kept l : forallb is_raw (snd (split_raw l)) = true.
Proof.
  induction l as [|x l IH]; cbn [split_raw]; [reflexivity|]. destruct (split_raw l) as [p k]. cbn [snd] in *.
  destruct p; [destruct (is_raw x) eqn:E|]; cbn [snd forallb]; rewrite ?E, ?IH; reflexivity.
Qed.
Lemma split_raw_all k : forallb is_raw k = true -> split_raw k = ([], k).
Proof.
  induction k as [|x k IH]; cbn [forallb split_raw]; [reflexivity|]. intros H. apply andb_true_iff in H. destruct H as [H1 H2].
  rewrite (IH H2), H1. reflexivity.
Qed.
Lemma split_raw_new new x k : is_raw x = false -> forallb is_raw k = true -> split_raw ((new ++ [x]) ++ k) = (new ++ [x], k).
Proof.
  intros Hx Hk. induction new as [|y new IH]; cbn [app split_raw].
  - rewrite (split_raw_all k Hk), Hx. reflexivity.
  - rewrite IH. destruct new; reflexivity.
Qed.
Lemma split_raw_idem l : split_raw (snd (split_raw l)) = ([], snd (split_raw l)).
Proof. apply split_raw_all. apply split_raw_kept. Qed.

Lemma raw_not_unique x : is_raw x = true -> disable x = x.
Proof. destruct x as [t [] p]; cbn; auto; discriminate. Qed.
Lemma disable_raw x : is_raw (disable x) = is_raw x.
Proof. destruct x as [t [] p]; reflexivity. Qed.
Lemma disable_prot x : en_prot (disable x) = en_prot x.
Proof. destruct x as [t [] p]; reflexivity. Qed.
Lemma disable_tag x : en_tag (disable x) = en_tag x.
Proof. destruct x as [t [] p]; reflexivity. Qed.
Lemma disable_grants b t x : grants b t x = false -> grants b t (disable x) = false.
Proof. unfold grants. destruct x as [u [] p]; cbn; auto. intros _. apply andb_false_r. Qed.
Lemma disable_twice x : disable (disable x) = disable x.
Proof. destruct x as [t [] p]; reflexivity. Qed.
Lemma grants_write_read b t x : grants b t x = true -> grants false t x = true.
Proof. unfold grants. destruct x as [u [] p]; cbn; auto. destruct b; [|auto]. cbn. rewrite andb_false_r. discriminate. Qed.
Lemma grants_tag b t x : en_tag x <> t -> grants b t x = false.
Proof. intros H. unfold grants. apply Nat.eqb_neq in H. rewrite H. reflexivity. Qed.

Lemma access_write_form t s s1 : access true t s = Some s1 ->
  exists gone kept g below, s = gone ++ kept ++ g :: below /\ s1 = kept ++ g :: below /\
    grants true t g = true /\ Forall (fun e => grants true t e = false) gone /\ Forall (fun e => grants true t e = false) kept /\
    existsb en_prot gone = false /\ forallb is_raw kept = true /\ (is_raw g = false -> kept = []) /\
    (is_raw g = true -> split_raw (gone ++ kept) = (gone, kept)).
Proof.
  unfold access. destruct (granting true t s) as [[[x g] y]|] eqn:E; [|discriminate]. apply granting_split in E.
  destruct E as (-> & Hg & Hx). unfold incompatible. destruct (is_raw g) eqn:Er.
  - pose proof (split_raw_eq x) as Ex. pose proof (split_raw_kept x) as Ek. pose proof (eq_refl (split_raw x)) as Es.
    destruct (split_raw x) as [p k] eqn:Ep. cbn [fst snd] in *.
    destruct (existsb en_prot p) eqn:Epr; [discriminate|]. intros H. injection H as <-.
    rewrite Ex in Hx. apply Forall_app in Hx. destruct Hx as [H1 H2].
    exists p, k, g, y. rewrite Ex, <- app_assoc. split; [reflexivity|]. split; [reflexivity|]. repeat split; auto.
    + intros H; rewrite H in Er; discriminate.
    + intros _. rewrite <- Ex. exact Ep.
  - destruct (existsb en_prot x) eqn:Epr; [discriminate|]. intros H. injection H as <-.
    exists x, [], g, y. cbn [app]. repeat split; auto. rewrite Er; discriminate.
Qed.
Lemma access_write_of t gone kept g below : grants true t g = true ->
  Forall (fun e => grants true t e = false) gone -> Forall (fun e => grants true t e = false) kept ->
  existsb en_prot gone = false -> (is_raw g = false -> kept = []) ->
  (is_raw g = true -> split_raw (gone ++ kept) = (gone, kept)) ->
  access true t (gone ++ kept ++ g :: below) = Some (kept ++ g :: below).
Proof.
  intros Hg H1 H2 H3 H4 H5. unfold access. rewrite app_assoc, (granting_found true t (gone ++ kept) g below Hg) by (apply Forall_app; auto).
  unfold incompatible. destruct (is_raw g) eqn:E.
  - rewrite (H5 eq_refl), H3. reflexivity.
  - rewrite (H4 eq_refl), app_nil_r, H3. reflexivity.
Qed.

(** A pointer under new ones: they go, everything else stays. *)
Lemma access_write_new t s s1 new x : access true t s = Some s1 -> is_raw x = false ->
  Forall (fun e => en_tag e <> t) (new ++ [x]) -> existsb en_prot (new ++ [x]) = false ->
  access true t ((new ++ [x]) ++ s1) = Some s1.
Proof.
  intros H Hx Ht Hp. apply access_write_form in H.
  destruct H as (gone & kept & g & below & -> & -> & Hg & H1 & H2 & H3 & H4 & H5 & H6).
  apply access_write_of; auto.
  - eapply Forall_impl; [|exact Ht]. intros e He. apply grants_tag. exact He.
  - intros _. apply split_raw_new; assumption.
Qed.
Lemma access_write_idem t s s1 : access true t s = Some s1 -> access true t s1 = Some s1.
Proof.
  intros H. apply access_write_form in H.
  destruct H as (gone & kept & g & below & -> & -> & Hg & H1 & H2 & H3 & H4 & H5 & H6).
  apply (access_write_of t [] kept g below); auto. intros _. apply split_raw_all. exact H4.
Qed.
(** Reading through a pointer leaves it usable for writing. *)
Lemma split_raw_disable l : split_raw (map disable l) = (map disable (fst (split_raw l)), map disable (snd (split_raw l))).
Proof.
  induction l as [|x l IH]; cbn [map split_raw]; [reflexivity|]. rewrite IH. destruct (split_raw l) as [p k]. cbn [fst snd].
  rewrite disable_raw. destruct p as [|y p]; cbn [map]; [|reflexivity]. destruct (is_raw x); reflexivity.
Qed.
Lemma map_disable_raw k : forallb is_raw k = true -> map disable k = k.
Proof.
  induction k as [|x k IH]; cbn [forallb map]; [reflexivity|]. intros H. apply andb_true_iff in H. destruct H as [H1 H2].
  rewrite (raw_not_unique x H1), (IH H2). reflexivity.
Qed.
(** The entries above can be disabled in part. *)
Lemma split_raw_partly l1 l2 : split_raw (map disable l1 ++ l2) =
  (map (fun x => x) (firstn (length (fst (split_raw (l1 ++ l2)))) (map disable l1 ++ l2)), snd (split_raw (l1 ++ l2))) .
Proof.
  induction l1 as [|x l1 IH]; cbn [map app split_raw].
  - pose proof (split_raw_eq l2) as E. destruct (split_raw l2) as [p k]. cbn [fst snd] in *. subst l2.
    rewrite firstn_app, firstn_all, Nat.sub_diag, firstn_O, app_nil_r, map_id. reflexivity.
  - rewrite IH. destruct (split_raw (l1 ++ l2)) as [p k] eqn:E. cbn [fst snd]. rewrite disable_raw, map_id.
    assert (El : l1 ++ l2 = p ++ k) by (pose proof (split_raw_eq (l1 ++ l2)) as X; rewrite E in X; exact X).
    assert (Ek : forallb is_raw k = true) by (pose proof (split_raw_kept (l1 ++ l2)) as X; rewrite E in X; exact X).
    destruct p as [|y p].
    + cbn [length firstn]. destruct (is_raw x) eqn:Ex; cbn [fst snd length firstn map]; [|reflexivity].
      rewrite (raw_not_unique x Ex). reflexivity.
    + destruct (firstn (length (y :: p)) (map disable l1 ++ l2)) eqn:Ef.
      * exfalso. apply (f_equal (@length entry)) in Ef. rewrite firstn_length, app_length, map_length, <- app_length, El, app_length in Ef.
        cbn [length] in Ef. lia.
      * cbn [length firstn fst snd]. cbn [length] in Ef. cbn [map]. rewrite map_id. cbn [firstn] in *. rewrite Ef. reflexivity.
Qed.
Lemma read_then_write t s s1 s' : access true t s = Some s1 -> access false t s = Some s' -> access true t s' = Some s1.
Proof.
  unfold access. destruct (granting true t s) as [[[x g] y]|] eqn:E1; [|discriminate].
  destruct (granting false t s) as [[[x2 g2] y2]|] eqn:E2; [|discriminate].
  apply granting_split in E1, E2. destruct E1 as (-> & Hg & Hx), E2 as (E & Hg2 & Hx2).
  intros H1 H2. destruct (existsb _ x2) in H2; [discriminate|]. injection H2 as <-.
  assert (exists z, x ++ g :: y = x2 ++ z ++ g :: y /\ g2 :: y2 = z ++ g :: y /\ x = x2 ++ z) as (z & _ & Ez & ->).
  { assert (length x2 <= length x) as Hlen.
    { destruct (le_lt_dec (length x2) (length x)) as [H|H]; [exact H|exfalso].
      assert (In g x2) as Hin.
      { assert (nth_error x2 (length x) = Some g) as Hn.
        { rewrite <- (nth_error_app1 x2 (g2 :: y2) H), <- E, nth_error_app2, Nat.sub_diag by lia. reflexivity. }
        eapply nth_error_In; exact Hn. }
      rewrite Forall_forall in Hx2. specialize (Hx2 g Hin). apply grants_write_read in Hg. congruence. }
    exists (skipn (length x2) x).
    assert (Exx : x = x2 ++ skipn (length x2) x).
    { rewrite <- (firstn_skipn (length x2) x) at 1. f_equal.
      assert (firstn (length x2) (x ++ g :: y) = firstn (length x2) (x2 ++ g2 :: y2)) as F by (rewrite E; reflexivity).
      rewrite !firstn_app, Nat.sub_diag, firstn_O, app_nil_r, firstn_all in F.
      replace (length x2 - length x) with 0 in F by lia. rewrite firstn_O, app_nil_r in F. exact F. }
    rewrite Exx in E at 1. rewrite <- app_assoc in E. pose proof E as E'. apply app_inv_head in E'.
    repeat split; auto. rewrite Exx at 1. rewrite <- app_assoc. reflexivity. }
  rewrite Ez, app_assoc, granting_found; [| exact Hg |].
  2:{ apply Forall_app in Hx. destruct Hx as [Hxa Hxb]. apply Forall_app. split; [|exact Hxb].
      apply Forall_map. eapply Forall_impl; [|exact Hxa]. intros e He. apply disable_grants. exact He. }
  unfold incompatible in *. destruct (is_raw g) eqn:Eg.
  - rewrite split_raw_partly, map_id. pose proof (split_raw_eq (x2 ++ z)) as Es.
    destruct (split_raw (x2 ++ z)) as [p k]. cbn [fst snd] in *. destruct (existsb en_prot p) eqn:Ep; [discriminate|].
    assert (existsb en_prot (firstn (length p) (map disable x2 ++ z)) = false) as ->; [|exact H1].
    rewrite <- Ep. assert (p = firstn (length p) (x2 ++ z)) as -> by (rewrite Es, firstn_app, firstn_all, Nat.sub_diag, firstn_O, app_nil_r; reflexivity).
    rewrite firstn_length. 
    assert (forall n l1 l2, existsb en_prot (firstn n (map disable l1 ++ l2)) = existsb en_prot (firstn n (l1 ++ l2))) as G.
    { clear. intros n l1. revert n. induction l1 as [|e l1 IH]; intros [|n] l2; cbn [map app firstn existsb]; auto.
      rewrite disable_prot, IH. reflexivity. }
    rewrite G. f_equal. rewrite Es, app_length. f_equal. lia.
  - destruct (existsb en_prot (x2 ++ z)) eqn:Ep; [discriminate|].
    assert (existsb en_prot (map disable x2 ++ z) = false) as ->; [|exact H1].
    rewrite existsb_app in *. apply orb_false_iff in Ep. destruct Ep as [Ep1 Ep2]. rewrite Ep2, orb_false_r.
    rewrite <- Ep1. clear. induction x2 as [|e x2 IH]; cbn [map existsb]; [reflexivity|]. rewrite disable_prot, IH. reflexivity.
Qed.
Lemma write_usable_read t s : access true t s <> None -> access false t s <> None.
Proof.
  unfold access. destruct (granting true t s) as [[[x g] y]|] eqn:E1; [|intros H; elim H; reflexivity].
  apply granting_split in E1. destruct E1 as (-> & Hg & Hx).
  destruct (granting false t (x ++ g :: y)) as [[[x2 g2] y2]|] eqn:E2.
  - apply granting_split in E2. destruct E2 as (E & Hg2 & Hx2). intros H.
    destruct (existsb (fun e => is_unique e && en_prot e) x2) eqn:Eu; [|discriminate].
    exfalso. apply H. apply existsb_exists in Eu. destruct Eu as (e & He & Hu). apply andb_true_iff in Hu. destruct Hu as [Hu1 Hu2].
    assert (Hin : In e x).
    { assert (length x2 <= length x) as Hlen.
      { destruct (le_lt_dec (length x2) (length x)) as [L|L]; [exact L|exfalso].
        assert (nth_error x2 (length x) = Some g) as Hn.
        { rewrite <- (nth_error_app1 x2 (g2 :: y2) L), <- E, nth_error_app2, Nat.sub_diag by lia. reflexivity. }
        rewrite Forall_forall in Hx2. specialize (Hx2 g (nth_error_In _ _ Hn)). apply grants_write_read in Hg. congruence. }
      apply In_nth_error in He. destruct He as (k & Hk). assert (k < length x2) by (apply nth_error_Some; congruence).
      apply (nth_error_In _ k). rewrite <- (nth_error_app1 x (g :: y)) by lia. rewrite E, nth_error_app1 by lia. exact Hk. }
    unfold incompatible. destruct (is_raw g).
    + pose proof (split_raw_eq x) as Es. pose proof (split_raw_kept x) as Ek. destruct (split_raw x) as [p k]. cbn [fst snd] in *.
      assert (existsb en_prot p = true) as ->; [|reflexivity].
      apply existsb_exists. exists e. split; [|exact Hu2]. rewrite Es in Hin. apply in_app_or in Hin. destruct Hin as [Hin|Hin]; [exact Hin|].
      rewrite forallb_forall in Ek. specialize (Ek e Hin). exfalso. clear - Ek Hu1. destruct e as [u [] p']; discriminate.
    + assert (existsb en_prot x = true) as ->; [|reflexivity]. apply existsb_exists. exists e. auto.
  - intros _ _. clear - Hg E2. apply grants_write_read in Hg.
    induction x as [|e x IH]; cbn [app granting] in E2; [rewrite Hg in E2; discriminate|].
    destruct (grants false t e); [discriminate|]. destruct (granting false t (x ++ g :: y)) as [[[]]|]; [discriminate|auto].
Qed.
Lemma access_tags b t s s' x : access b t s = Some s' -> In x s' -> exists y, In y s /\ en_tag y = en_tag x.
Proof.
  unfold access. destruct (granting b t s) as [[[u g] v]|] eqn:E; [|discriminate]. apply granting_split in E.
  destruct E as (-> & _ & _). destruct b.
  - unfold incompatible. destruct (is_raw g).
    + pose proof (split_raw_eq u) as Eu. destruct (split_raw u) as [p k]. cbn [fst snd] in Eu. subst u.
      destruct (existsb en_prot p); [discriminate|]. intros H Hin. injection H as <-. exists x. split; [|reflexivity].
      rewrite <- app_assoc. apply in_or_app. right. exact Hin.
    + destruct (existsb en_prot u); [discriminate|]. intros H Hin. injection H as <-. exists x. split; [|reflexivity].
      apply in_or_app. right. exact Hin.
  - destruct (existsb _ u); [discriminate|]. intros H Hin. injection H as <-. apply in_app_or in Hin. destruct Hin as [Hin|Hin].
    + apply in_map_iff in Hin. destruct Hin as (y & <- & Hy). exists y. split; [apply in_or_app; auto|]. symmetry. apply disable_tag.
    + exists x. split; [apply in_or_app; auto|reflexivity].
Qed.

(** ** Frames: what happens above [s1] *)
Lemma granting_frame b t s s1 x g y : granting b t s = Some (x, g, y) -> granting b t (s ++ s1) = Some (x, g, y ++ s1).
Proof.
  intros H. apply granting_split in H. destruct H as (-> & H1 & H2). rewrite <- app_assoc. cbn [app].
  apply granting_found; assumption.
Qed.
Lemma access_frame b t s s1 s' : access b t s = Some s' -> access b t (s ++ s1) = Some (s' ++ s1).
Proof.
  unfold access. destruct (granting b t s) as [[[x g] y]|] eqn:E; [|discriminate].
  rewrite (granting_frame _ _ _ s1 _ _ _ E). destruct b.
  - destruct (incompatible g x) as [gone kept]. destruct (existsb en_prot gone); [discriminate|].
    intros H. injection H as <-. rewrite <- app_assoc. reflexivity.
  - destruct (existsb _ x); [discriminate|]. intros H. injection H as <-. rewrite <- app_assoc. reflexivity.
Qed.
Lemma retag_frame k p f t s s1 s' : retag k p f t s = Some s' -> retag k p f t (s ++ s1) = Some (s' ++ s1).
Proof.
  destruct k; cbn [retag].
  - destruct (access true f s) eqn:E; [|discriminate]. cbn [option_map]. intros H. injection H as <-.
    rewrite (access_frame _ _ _ s1 _ E). reflexivity.
  - destruct (access false f s) eqn:E; [|discriminate]. cbn [option_map]. intros H. injection H as <-.
    rewrite (access_frame _ _ _ s1 _ E). reflexivity.
  - destruct (granting true f s) as [[[x g] y]|] eqn:E; [|discriminate]. rewrite (granting_frame _ _ _ s1 _ _ _ E).
    destruct (incompatible g x) as [gone kept]. intros H. injection H as <-. rewrite <- !app_assoc. cbn [app].
    rewrite <- app_assoc. reflexivity.
Qed.
(** The tags that are released are not below. *)
Definition releases (os : list op) (t : nat) : Prop := In (ORelease t) os.
Lemma steps_frame l os : forall s s1 s', steps l os s = Some s' ->
  (forall t x, releases os t -> In x s1 -> en_tag x <> t) -> steps l os (s ++ s1) = Some (s' ++ s1).
Proof.
  induction os as [|o os IH]; intros s s1 s' H Hr; cbn [steps] in *; [injection H as <-; reflexivity|].
  destruct (step l o s) as [s2|] eqn:E; [|discriminate].
  assert (step l o (s ++ s1) = Some (s2 ++ s1)) as ->.
  { destruct o as [k p pl f t|b pl t|t]; cbn [step] in *.
    - destruct (covers pl l); [apply retag_frame; exact E|injection E as <-; reflexivity].
    - destruct (covers pl l); [apply access_frame; exact E|injection E as <-; reflexivity].
    - injection E as <-. rewrite map_app. f_equal. f_equal. 
      rewrite <- (map_id s1) at 2. apply map_ext_in. intros x Hx. unfold release.
      assert (en_tag x <> t) as Hn by (apply Hr; [left; reflexivity|exact Hx]). apply Nat.eqb_neq in Hn. rewrite Hn. reflexivity. }
  apply IH; [exact H|]. intros t x Ht. apply Hr. right. exact Ht.
Qed.
Lemma steps_app l os1 os2 s : steps l (os1 ++ os2) s =
  match steps l os1 s with Some s' => steps l os2 s' | None => None end.
Proof.
  revert s. induction os1 as [|o os1 IH]; intros s; cbn [app steps]; [reflexivity|].
  destruct (step l o s); [apply IH|reflexivity].
Qed.
Lemma runs_app os1 os2 m1 m2 m3 : runs os1 m1 m2 -> runs os2 m2 m3 -> runs (os1 ++ os2) m1 m3.
Proof. intros H1 H2 l. rewrite steps_app, (H1 l). apply H2. Qed.
Lemma runs_nil m : runs [] m m. Proof. intros l. reflexivity. Qed.
