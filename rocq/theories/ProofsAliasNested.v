(** The aliasing rules: fields that are projected in their turn. *)
From Coq Require Import String Ascii List Bool Arith Lia.
From Verif Require Import Base Syntax ModelArgs ModelUtils ModelDerive ModelRun ModelAlias.
From Verif Require Import SpecArgs SpecDerive SpecExpand SpecRun SpecAlias.
From Verif Require Import ProofsDerive ProofsExpand ProofsTypes ProofsRun ProofsRunProj ProofsAlias ProofsAliasRun ProofsAliasCall ProofsAliasMain.
Import ListNotations.
Open Scope string_scope.
Open Scope list_scope.

Lemma runs_same os m m1 m2 : runs os m m1 -> runs os m m2 -> forall l, m1 l = m2 l.
Proof. intros H1 H2 l. specialize (H1 l). specialize (H2 l). rewrite H1 in H2. injection H2. auto. Qed.

(** Entries that vanish when [t] is written through. *)
Definition over (t : nat) (e : entry) : Prop := en_tag e <> t /\ en_prot e = false.
Lemma over_unprot t x : Forall (over t) x -> existsb en_prot x = false.
Proof. intros H. induction H as [|e x (_ & He) H IH]; cbn [existsb]; [reflexivity|]. rewrite He. exact IH. Qed.
Lemma over_tags t x : Forall (over t) x -> Forall (fun e => en_tag e <> t) x.
Proof. apply Forall_impl. intros e (H & _). exact H. Qed.
Lemma over_new t n x : t < n -> Forall (new_entry true n) x -> Forall (over t) x.
Proof. intros Ht. apply Forall_impl. intros e (H1 & H2 & _). split; [lia|exact H2]. Qed.

(** What is on the stack of a part of an inner field. *)
Record deep (t : nat) (mem : memory) (c : nat) (s : stack) : Prop := {
  dp_form : exists above low y e s1 l0, s = above ++ mkEntry c Unique false :: low /\ mkEntry c Unique false :: low = (y ++ [e]) ++ s1 /\
    access true t (mem l0) = Some s1 /\ is_raw e = false /\ Forall (over t) above /\ Forall (over t) (y ++ [e]) /\
    Forall (fun x => grants true c x = false) above;
  dp_tag : t < c
}.
Definition inv (t n : nat) (mem : memory) (c n' : nat) (mem' : memory) : Prop :=
  n <= n' /\ fresh n' mem' /\ usable true c mem' /\
  ((c = t /\ forall l, access true t (mem' l) = access true t (mem l)) \/ forall l, deep t mem c (mem' l)).

Lemma deep_access t mem c s : deep t mem c s -> exists l0, access true t s = access true t (mem l0).
Proof.
  intros [(above & low & y & e & s1 & l0 & -> & -> & Ha & He & H1 & H2 & _) Ht]. exists l0. rewrite Ha.
  rewrite app_assoc, app_assoc.
  assert (Ho : Forall (over t) ((above ++ y) ++ [e])) by (rewrite <- app_assoc; apply Forall_app; split; assumption).
  apply (access_write_new t (mem l0)); [exact Ha|exact He|exact (over_tags _ _ Ho)|exact (over_unprot _ _ Ho)].
Qed.
Lemma unique_write above c low : Forall (fun x => grants true c x = false) above -> existsb en_prot above = false ->
  access true c (above ++ mkEntry c Unique false :: low) = Some (mkEntry c Unique false :: low).
Proof.
  intros H1 H2. assert (Hg : grants true c (mkEntry c Unique false) = true) by (unfold grants; cbn; rewrite Nat.eqb_refl; reflexivity).
  unfold access. rewrite granting_found; [|exact Hg|exact H1]. unfold incompatible. cbn [is_raw en_perm]. rewrite H2. reflexivity.
Qed.
Lemma unique_form c low s : access true c s = Some (mkEntry c Unique false :: low) ->
  exists gone, s = gone ++ mkEntry c Unique false :: low /\ existsb en_prot gone = false /\ Forall (fun x => grants true c x = false) gone.
Proof.
  intros H. apply access_write_form in H. destruct H as (gone & kept & g & below & Em & E1 & Hg & Hng & _ & Hpr & Hr & Hk & _).
  destruct kept as [|k kept].
  - cbn [app] in *. injection E1 as <- <-. eauto.
  - cbn [app] in E1. injection E1 as <- E1. cbn in Hr. discriminate.
Qed.
Lemma unprot_in x e : existsb en_prot x = false -> In e x -> en_prot e = false.
Proof.
  intros H Hin. destruct (en_prot e) eqn:E; [|reflexivity].
  assert (existsb en_prot x = true) by (apply existsb_exists; eauto). congruence.
Qed.

Lemma inv_session t n mem c n1 mem1 w a uses v ops v' n2 mem2 : inv t n mem c n1 mem1 ->
  program w a -> (forall fs, In fs (fields_of (w_item w)) -> replaceable fs) -> variant_of_item (w_item w) v ->
  session w a uses c v n1 ops v' n2 -> runs ops mem1 mem2 -> inv t n mem c n2 mem2.
Proof.
  intros (In1 & If & Iu & Id) Hp Hre Hv Hs Hr.
  destruct (session_fine w a uses c v n1 ops v' n2 Hp Hre Hs Hv mem1 Iu If) as (_ & m2 & F).
  pose proof (runs_same _ _ _ _ Hr (fn_runs _ _ _ _ _ _ F)) as Em. pose proof (fn_next _ _ _ _ _ _ F) as Hn.
  assert (Ha : forall l, access true c (mem2 l) = access true c (mem1 l)) by (intros l; rewrite Em; apply (fn_same _ _ _ _ _ _ F)).
  split; [lia|]. split; [intros l x; rewrite Em; apply (fn_fresh _ _ _ _ _ _ F)|]. split; [intros l; rewrite Ha; apply Iu|].
  destruct Id as [(-> & Id)|Id]; [left; split; [reflexivity|]; intros l; rewrite Ha; apply Id|right].
  intros l. destruct (Id l) as [(above & low & y & e & s1 & l0 & E & Ey & H1 & H2 & H3 & H4 & H5) Ht].
  split; [|exact Ht].
  assert (Hc : c < n1) by (apply (If l (mkEntry c Unique false)); rewrite E; apply in_or_app; right; left; reflexivity).
  pose proof (over_unprot _ _ H3) as H6.
  destruct (session_fine w a uses c v n1 ops v' n2 Hp Hre Hs Hv (fun _ => above ++ [mkEntry c Unique false])) as (_ & mi & Fi).
  { intros k. rewrite (unique_write above c []); auto. discriminate. }
  { intros k x Hx. apply (If l x). rewrite E. apply in_app_or in Hx. apply in_or_app. destruct Hx as [Hx|[<-|[]]]; [left; exact Hx|right; left; reflexivity]. }
  assert (Es : mem2 l = mi l ++ low).
  { assert (steps l ops (mem1 l) = Some (mi l ++ low)) as Hl.
    { rewrite E. replace (above ++ mkEntry c Unique false :: low) with ((above ++ [mkEntry c Unique false]) ++ low) by (rewrite <- app_assoc; reflexivity).
      apply steps_frame; [exact (fn_runs _ _ _ _ _ _ Fi l)|].
      intros r x Hx Hin. pose proof (fn_rel _ _ _ _ _ _ Fi r Hx). 
      assert (en_tag x < n1); [|lia]. apply (If l x). rewrite E. apply in_or_app. right. right. exact Hin. }
    rewrite (Hr l) in Hl. injection Hl. auto. }
  destruct (unique_form c [] (mi l)) as (gone & Eg & G1 & G2).
  { rewrite (fn_same _ _ _ _ _ _ Fi). apply unique_write; assumption. }
  exists gone, low, y, e, s1, l0. split; [rewrite Es, Eg, <- app_assoc; reflexivity|]. split; [exact Ey|]. split; [exact H1|]. split; [exact H2|].
  split; [|split; [exact H4|exact G2]].
  apply Forall_forall. intros x Hx. split; [|exact (unprot_in _ _ G1 Hx)].
  destruct (fn_tags _ _ _ _ _ _ Fi l x) as [(z & Hz & <-)|Hx2]; [rewrite Eg; apply in_or_app; left; exact Hx| |lia].
  apply in_app_or in Hz. destruct Hz as [Hz|[<-|[]]]; [|cbn; lia]. rewrite Forall_forall in H3. exact (proj1 (H3 z Hz)).
Qed.

Lemma inv_field t n mem c n1 mem1 w a uses v ptrs ops n2 mem2 x k d : inv t n mem c n1 mem1 ->
  program w a -> has_proj PMut (w_item w) a = true -> variant_of_item (w_item w) v ->
  alias_project w v uses "project" true c n1 = Some (AvProj ptrs, ops, n2) -> runs ops mem1 mem2 ->
  In x ptrs -> snd x = AvPin true (PlField k) d -> inv t n mem d n2 (fun _ => mem2 (LField k)).
Proof.
  intros (In1 & If & Iu & Id) Hp Hh (u & vp & fs & Hv & <-) E Hr Hin Hx.
  destruct (alias_project_go w a PMut u vp fs uses c n1 ltac:(discriminate) Hp Hh Hv) as (vs & a' & m' & self & E2 & G & R).
  change (mname PMut) with "project" in E2. cbn [kbool] in E2. rewrite E in E2. injection E2 as -> -> ->.
  destruct (call_outer true c n1 mem1 a' m' If Iu G) as (H1 & H2 & H3 & _ & H4).
  pose proof (runs_same _ _ _ _ Hr H1) as Em.
  assert (Htop : top Unique d (PlField k) m').
  { clear - R Hin Hx. induction R as [|nf z nl vs (_ & c' & Hd & Hy) R IH]; [destruct Hin|].
    destruct Hin as [->|Hin]; [|apply IH; exact Hin]. rewrite Hx in Hy.
    destruct (pin_b (snd nf)); [|discriminate]. injection Hy as -> ->. exact Hd. }
  apply (top_outer true c n1 m' mem1) in Htop. destruct (Htop (LField k)) as (pr & r & Et); [cbn; apply Nat.eqb_refl|].
  destruct (H4 (LField k)) as (z & s1 & Ea & Eo & Hz).
  assert (Hlow : pr = false /\ n1 <= d).
  { rewrite Et in Eo. destruct z as [|z0 z]; cbn [app] in Eo.
    - injection Eo as -> -> _. auto.
    - injection Eo as <- _. inversion Hz as [|? ? (A & B & _) _]. cbn in A, B. split; [exact B|lia]. }
  destruct Hlow as (-> & Hd). rewrite <- Em in Et, Eo.
  assert (Ht : t < n1).
  { destruct Id as [(-> & _)|Id]; [exact (usable_tag true t n1 mem1 If Iu)|].
    destruct (Id LRest) as [_ Ht]. pose proof (usable_tag true c n1 mem1 If Iu). lia. }
  split; [lia|]. split; [intros l e; rewrite Em; apply H2|]. split.
  { intros l. rewrite Et. pose proof (unique_write [] d r (Forall_nil _) eq_refl) as Hw. cbn [app] in Hw. rewrite Hw. discriminate. }
  right. intros l. split; [|lia].
  assert (Hnew : Forall (over t) (z ++ [mkEntry n1 Unique false])).
  { apply Forall_app. split; [apply (over_new t (S n1)); [lia|exact Hz]|]. constructor; [split; cbn; [lia|reflexivity]|constructor]. }
  destruct Id as [(-> & Id)|Id].
  - exists [], r, z, (mkEntry n1 Unique false), s1, (LField k). split; [exact Et|]. split; [rewrite <- Et; exact Eo|].
    split; [rewrite <- Id; exact Ea|]. split; [reflexivity|]. split; [constructor|]. split; [exact Hnew|constructor].
  - destruct (Id (LField k)) as [(above & low & y & e & s2 & l0 & F1 & F2 & F3 & F4 & F5 & F6 & F7) _].
    rewrite F1, (unique_write above c low F7 (over_unprot _ _ F5)) in Ea. injection Ea as <-.
    exists [], r, ((z ++ [mkEntry n1 Unique false]) ++ y), e, s2, l0. split; [exact Et|]. split.
    { rewrite <- Et, Eo, F2, <- !app_assoc. reflexivity. }
    split; [exact F3|]. split; [exact F4|]. split; [constructor|]. split; [|constructor].
    rewrite <- app_assoc. apply Forall_app. split; [exact Hnew|exact F6].
Qed.

Lemma c63_nested t n mem c n' mem' : usable true t mem -> fresh n mem -> within t n mem c n' mem' ->
  usable true c mem' /\ fresh n' mem' /\ forall l, exists l0, access true t (mem' l) = access true t (mem l0).
Proof.
  intros Hu Hf H. assert (I : inv t n mem c n' mem').
  { induction H; [|eapply inv_session; eassumption|eapply inv_field; eassumption].
    split; [lia|]. split; [exact Hf|]. split; [exact Hu|]. left. auto. }
  destruct I as (_ & I1 & I2 & I3). split; [exact I2|]. split; [exact I1|]. intros l.
  destruct I3 as [(-> & I3)|I3]; [exists l; apply I3|exact (deep_access _ _ _ _ (I3 l))].
Qed.
