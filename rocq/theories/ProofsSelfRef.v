(** Pointers from a pinned field to itself: the stacks. *)
From Coq Require Import String Ascii List Bool Arith Lia.
From Verif Require Import Base Syntax ModelArgs ModelUtils ModelDerive ModelRun ModelAlias.
From Verif Require Import SpecArgs SpecDerive SpecExpand SpecRun SpecAlias SpecSelfRef.
From Verif Require Import ProofsAlias ProofsAliasRun.
Import ListNotations.
Open Scope string_scope.
Open Scope list_scope.

(** The same with as many entries in the group as possible. *)
Definition held (ts : list nat) (s : stack) : Prop :=
  exists junk raws rest, s = junk ++ raws ++ rest /\ forallb is_raw raws = true /\ split_raw junk = (junk, []) /\
    existsb en_prot junk = false /\ (forall x, In x ts -> ~ In x (map en_tag junk)) /\ incl ts (map en_tag raws).
Lemma raws_perm l : forallb is_raw l = true <-> Forall (fun x => en_perm x = SharedRW) l.
Proof.
  rewrite forallb_forall, Forall_forall. split; intros H x Hx; specialize (H x Hx); unfold is_raw in *; destruct (en_perm x); congruence.
Qed.
Lemma split_raw_top l : split_raw (fst (split_raw l)) = (fst (split_raw l), []).
Proof.
  induction l as [|x l IH]; [reflexivity|]. cbn [split_raw]. destruct (split_raw l) as [p k] eqn:E. cbn [fst] in IH.
  destruct p as [|y p].
  - destruct (is_raw x) eqn:R; cbn [fst]; [reflexivity|]. cbn [split_raw]. rewrite R. reflexivity.
  - cbn [fst]. change (split_raw (x :: y :: p)) with (let '(p', k') := split_raw (y :: p) in
      match p' with [] => if is_raw x then ([], x :: k') else ([x], k') | _ => (x :: p', k') end). rewrite IH. reflexivity.
Qed.
Lemma split_raw_app junk k : split_raw junk = (junk, []) -> forallb is_raw k = true -> split_raw (junk ++ k) = (junk, k).
Proof.
  intros H Hk. assert (G : forall j, (j = [] \/ fst (split_raw j) <> []) -> split_raw (j ++ k) = (fst (split_raw j), snd (split_raw j) ++ k)).
  { induction j as [|x j IH]; intros Hj; [cbn; apply split_raw_all; exact Hk|].
    cbn [app split_raw] in *. destruct (split_raw j) as [p q] eqn:E. cbn [fst snd] in *.
    assert (Hs : split_raw (j ++ k) = (p, q ++ k)).
    { destruct p as [|y p].
      - destruct (is_raw x) eqn:R.
        + destruct Hj as [Hj|Hj]; [discriminate|elim Hj; reflexivity].
        + (* everything below is raw *)
          assert (forallb is_raw j = true) as Hr.
          { pose proof (split_raw_eq j) as Ej. pose proof (split_raw_kept j) as Kj. rewrite E in Ej, Kj. cbn [fst snd] in Ej, Kj. rewrite Ej. exact Kj. }
          pose proof (split_raw_eq j) as Ej. rewrite E in Ej. cbn [fst snd app] in Ej. rewrite <- Ej.
          apply split_raw_all. rewrite forallb_app, Hr, Hk. reflexivity.
      - apply IH. right. discriminate. }
    rewrite Hs. destruct p; [destruct (is_raw x)|]; reflexivity. }
  rewrite G; rewrite H; [reflexivity|]. destruct junk; [left; reflexivity|right; discriminate].
Qed.
Lemma together_held ts s : together ts s -> held ts s.
Proof.
  intros (above & group & below & -> & Hg & Ha & Hi).
  exists (fst (split_raw above)), (snd (split_raw above) ++ group), below.
  pose proof (split_raw_eq above) as E. apply raws_perm in Hg.
  split; [rewrite E at 1; rewrite <- !app_assoc; reflexivity|].
  split; [rewrite forallb_app, split_raw_kept, Hg; reflexivity|]. split; [apply split_raw_top|].
  rewrite Forall_forall in Ha.
  assert (Hin : forall x, In x (fst (split_raw above)) -> In x above) by (intros x Hx; rewrite E; apply in_or_app; left; exact Hx).
  split; [|split].
  - destruct (existsb en_prot _) eqn:X; [|reflexivity]. apply existsb_exists in X. destruct X as (x & Hx & Hp).
    destruct (Ha x (Hin x Hx)) as [Hq _]. congruence.
  - intros x Hx Hj. apply in_map_iff in Hj. destruct Hj as (e & <- & He). destruct (Ha e (Hin e He)) as [_ Hn]. exact (Hn Hx).
  - intros x Hx. rewrite map_app. apply in_or_app. right. exact (Hi x Hx).
Qed.
Lemma held_together ts s : held ts s -> together ts s.
Proof.
  intros (junk & raws & rest & -> & Hr & _ & Hp & Hn & Hi). exists junk, raws, rest. split; [reflexivity|].
  split; [apply raws_perm; exact Hr|]. split; [|exact Hi]. apply Forall_forall. intros x Hx. split.
  - destruct (en_prot x) eqn:E; [|reflexivity]. assert (existsb en_prot junk = true) by (apply existsb_exists; eauto). congruence.
  - intros Hx'. apply (Hn _ Hx'). apply in_map. exact Hx.
Qed.
Lemma held_incl ts ts' s : held ts s -> incl ts' ts -> held ts' s.
Proof.
  intros (junk & raws & rest & E & Hr & Hs & Hp & Hn & Hi) H. exists junk, raws, rest. repeat (split; [assumption|]).
  split; [|intros x Hx; apply Hi, H, Hx]. intros x Hx. apply Hn, H, Hx.
Qed.

(** ** One operation *)
Lemma not_tagged b x l : ~ In x (map en_tag l) -> Forall (fun e => grants b x e = false) l.
Proof. intros H. apply Forall_forall. intros e He. apply grants_tag. intros <-. apply H. apply in_map. exact He. Qed.
Lemma find_raw b x raws rest : forallb is_raw raws = true -> In x (map en_tag raws) ->
  exists ra g rb, raws = ra ++ g :: rb /\ granting b x (raws ++ rest) = Some (ra, g, rb ++ rest) /\ is_raw g = true.
Proof.
  induction raws as [|e raws IH]; intros Hr Hx; [destruct Hx|]. cbn [forallb] in Hr. apply andb_true_iff in Hr. destruct Hr as [He Hr].
  cbn [app granting]. destruct (grants b x e) eqn:G.
  - exists [], e, raws. auto.
  - destruct Hx as [Hx|Hx].
    + exfalso. unfold grants in G. rewrite Hx, Nat.eqb_refl in G. unfold is_raw in He. destruct (en_perm e); discriminate.
    + destruct (IH Hr Hx) as (ra & g & rb & -> & E & Hg). rewrite E. exists (e :: ra), g, rb. auto.
Qed.
Lemma granting_junk b x junk s ra g r : ~ In x (map en_tag junk) -> granting b x s = Some (ra, g, r) ->
  granting b x (junk ++ s) = Some (junk ++ ra, g, r).
Proof.
  intros Hn E. pose proof (not_tagged b x junk Hn) as H. clear Hn. induction H as [|e junk He H IH]; [exact E|].
  cbn [app granting]. rewrite He, IH. reflexivity.
Qed.
Section One.
  Variables (ts : list nat) (s : stack) (x : nat).
  Hypothesis (H : held ts s) (Hx : In x ts).
  Lemma held_write : exists s', access true x s = Some s' /\ held ts s' /\ exists raws rest, s' = raws ++ rest /\ forallb is_raw raws = true /\ incl ts (map en_tag raws).
  Proof.
    destruct H as (junk & raws & rest & -> & Hr & Hs & Hp & Hn & Hi).
    destruct (find_raw true x raws rest Hr (Hi x Hx)) as (ra & g & rb & E & Eg & Hg).
    exists (raws ++ rest). split; [|split; [exists [], raws, rest; repeat split; auto|exists raws, rest; auto]].
    unfold access. rewrite (granting_junk true x junk _ _ _ _ (Hn x Hx) Eg). unfold incompatible. rewrite Hg.
    assert (forallb is_raw ra = true) as Hra by (rewrite E, forallb_app in Hr; apply andb_true_iff in Hr; exact (proj1 Hr)).
    rewrite (split_raw_app junk ra Hs Hra), Hp. f_equal. rewrite E, <- app_assoc. reflexivity.
  Qed.
  Lemma held_read : exists s', access false x s = Some s' /\ held ts s'.
  Proof.
    destruct H as (junk & raws & rest & -> & Hr & Hs & Hp & Hn & Hi).
    destruct (find_raw false x raws rest Hr (Hi x Hx)) as (ra & g & rb & E & Eg & Hg).
    assert (forallb is_raw ra = true) as Hra by (rewrite E, forallb_app in Hr; apply andb_true_iff in Hr; exact (proj1 Hr)).
    exists (map disable junk ++ raws ++ rest). split.
    - unfold access. rewrite (granting_junk false x junk _ _ _ _ (Hn x Hx) Eg).
      assert (existsb (fun e => is_unique e && en_prot e) (junk ++ ra) = false) as ->.
      { rewrite existsb_app. apply orb_false_iff. split.
        - clear - Hp. induction junk as [|e junk IH]; [reflexivity|]. cbn in *. apply orb_false_iff in Hp. destruct Hp as [Hp1 Hp2].
          rewrite (IH Hp2), Hp1, andb_false_r. reflexivity.
        - clear - Hra. induction ra as [|e ra IH]; [reflexivity|]. cbn in *. apply andb_true_iff in Hra. destruct Hra as [H1 H2].
          rewrite (IH H2). unfold is_raw, is_unique in *. destruct (en_perm e); try discriminate. reflexivity. }
      rewrite map_app, (map_disable_raw ra Hra). rewrite E, <- !app_assoc. reflexivity.
    - exists (map disable junk), raws, rest. split; [reflexivity|]. split; [exact Hr|]. split.
      + rewrite split_raw_disable, Hs. reflexivity.
      + assert (map en_tag (map disable junk) = map en_tag junk) as Et by (rewrite map_map; apply map_ext; apply disable_tag).
        split; [|split; [intros y Hy; rewrite Et; exact (Hn y Hy)|exact Hi]].
        clear - Hp. induction junk as [|e junk IH]; [reflexivity|]. cbn in *. rewrite disable_prot. apply orb_false_iff in Hp.
        destruct Hp as [-> Hp]. exact (IH Hp).
  Qed.
  Lemma held_raw new : Forall (fun e => en_tag e <> new) s -> exists s', retag PkRaw false x new s = Some s' /\ held (new :: ts) s'.
  Proof.
    destruct H as (junk & raws & rest & -> & Hr & Hs & Hp & Hn & Hi). intros Hf.
    destruct (find_raw true x raws rest Hr (Hi x Hx)) as (ra & g & rb & E & Eg & Hg).
    assert (forallb is_raw ra = true) as Hra by (rewrite E, forallb_app in Hr; apply andb_true_iff in Hr; exact (proj1 Hr)).
    exists (junk ++ (mkEntry new SharedRW false :: raws) ++ rest). split.
    - unfold retag. rewrite (granting_junk true x junk _ _ _ _ (Hn x Hx) Eg). unfold incompatible. rewrite Hg, (split_raw_app junk ra Hs Hra).
      f_equal. f_equal. cbn [app]. f_equal. rewrite E, <- app_assoc. reflexivity.
    - exists junk, (mkEntry new SharedRW false :: raws), rest. split; [reflexivity|]. split; [exact Hr|]. split; [exact Hs|]. split; [exact Hp|].
      split.
      + intros y [<-|Hy]; [|exact (Hn y Hy)]. intros Hin. apply in_map_iff in Hin. destruct Hin as (e & Ee & He).
        rewrite Forall_forall in Hf. apply (Hf e); [apply in_or_app; left; exact He|exact Ee].
      + intros y [<-|Hy]; [left; reflexivity|right; exact (Hi y Hy)].
  Qed.
  Lemma held_mut new : ~ In new ts -> exists s1, retag PkMut false x new s = Some (mkEntry new Unique false :: s1) /\
    held ts (mkEntry new Unique false :: s1) /\ held ts s1.
  Proof.
    intros Hnew. destruct held_write as (s1 & E & H1 & raws & rest & -> & Hr & Hi). exists (raws ++ rest).
    unfold retag. rewrite E. split; [reflexivity|]. split; [|exact H1]. exists [mkEntry new Unique false], raws, rest. split; [reflexivity|].
    split; [exact Hr|]. split; [reflexivity|]. split; [reflexivity|]. split; [|exact Hi]. intros y Hy [<-|[]]. exact (Hnew Hy).
  Qed.
End One.
(** A child of a pointer that lies on top. *)
Lemma held_child ts s c pr new : held ts (mkEntry c Unique pr :: s) -> ~ In new ts ->
  retag PkMut false c new (mkEntry c Unique pr :: s) = Some (mkEntry new Unique false :: mkEntry c Unique pr :: s) /\
  held ts (mkEntry new Unique false :: mkEntry c Unique pr :: s).
Proof.
  intros (junk & raws & rest & E & Hr & Hs & Hp & Hn & Hi) Hnew. split.
  - cbn [retag]. unfold access. cbn [granting]. unfold grants. cbn [en_tag en_perm]. rewrite Nat.eqb_refl. reflexivity.
  - exists (mkEntry new Unique false :: junk), raws, rest. split; [rewrite E; reflexivity|]. split; [exact Hr|]. split.
    + cbn [split_raw]. rewrite Hs. destruct junk; reflexivity.
    + split; [exact Hp|]. split; [|exact Hi]. intros y Hy [<-|Hj]; [exact (Hnew Hy)|exact (Hn y Hy Hj)].
Qed.
Lemma top_use b c pr s : access b c (mkEntry c Unique pr :: s) = Some (mkEntry c Unique pr :: s).
Proof. unfold access. cbn [granting]. unfold grants. cbn [en_tag en_perm]. rewrite Nat.eqb_refl. destruct b; reflexivity. Qed.

Lemma c69_use ts s t b : together ts s -> In t ts -> exists s', access b t s = Some s' /\ together ts s'.
Proof.
  intros H Ht. apply together_held in H. destruct b.
  - destruct (held_write ts s t H Ht) as (s' & E & H' & _). exists s'. split; [exact E|apply held_together; exact H'].
  - destruct (held_read ts s t H Ht) as (s' & E & H'). exists s'. split; [exact E|apply held_together; exact H'].
Qed.
