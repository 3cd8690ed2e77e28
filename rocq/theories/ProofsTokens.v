(** Lemmas about the treatment of macro input. *)
From Coq Require Import String Ascii List Bool Lia Arith.
From Verif Require Import Base Syntax ModelUtils SpecTokens ProofsArgs.
Import ListNotations.
Open Scope string_scope.
Open Scope list_scope.

Lemma ident_is_eq i s : ident_is i s = true <-> i = I s.
Proof.
  unfold ident_is. destruct i as [[] x]; cbn.
  - split; discriminate.
  - rewrite String.eqb_eq. split; [intros ->; reflexivity|intros [=]; assumption].
Qed.

(** Induction on token streams. *)
Section Ind.
  Variable P : list ttree -> Prop.
  Hypothesis Hnil : P [].
  Hypothesis Hident : forall i r, P r -> P (TIdent i :: r).
  Hypothesis Hpunct : forall c j r, P r -> P (TPunct c j :: r).
  Hypothesis Hlit : forall s r, P r -> P (TLit s :: r).
  Hypothesis Hgroup : forall d l r, P l -> P r -> P (TGroup d l :: r).
  Fixpoint tt_size (t : ttree) : nat :=
    match t with TGroup _ l => S (fold_right (fun t n => tt_size t + n) 0 l) | _ => 1 end.
  Lemma stream_ind ts : P ts.
  Proof.
    remember (fold_right (fun t n => tt_size t + n) 0 ts) as n eqn:E.
    assert (H : fold_right (fun t n => tt_size t + n) 0 ts <= n) by lia. clear E. revert ts H.
    induction n as [n IH] using lt_wf_ind. intros ts H.
    destruct ts as [|t r]; [exact Hnil|]. cbn [fold_right] in H.
    assert (P r).
    { apply (IH (fold_right (fun t n => tt_size t + n) 0 r)); [|lia]. destruct t; cbn in H; lia. }
    destruct t as [i|c j|s|d l].
    - auto.
    - auto.
    - auto.
    - apply Hgroup; [|assumption]. apply (IH (fold_right (fun t n => tt_size t + n) 0 l)); [|lia]. cbn [tt_size] in H. lia.
  Qed.
End Ind.

Section Visit.
  Variable ty : list ttree.

  Lemma visit_group d l : visit_tt ty (TGroup d l) = (TGroup d (fst (visit_token_stream ty l)), snd (visit_token_stream ty l)).
  Proof.
    unfold visit_token_stream. cbn [visit_tt].
    assert (E : (fix go (ts : list ttree) : list ttree * bool :=
           match ts with
           | [] => ([], false)
           | TIdent i :: rest =>
             let '(i', m1) := prepend_underscore_to_self i in
             if ident_is i' "Self" then
               match rest with
               | TPunct c true as next :: rest' =>
                 if Ascii.eqb c ":" then
                   let '(o, _) := go rest' in
                   ((if starts_colon rest'
                     then [TPunct "<" false] ++ ty ++ [TPunct ">" false]
                     else ty) ++ next :: o, true)
                 else let '(o, _) := go rest in (ty ++ o, true)
               | _ => let '(o, _) := go rest in (ty ++ o, true)
               end
             else let '(o, m) := go rest in (TIdent i' :: o, m1 || m)
           | t' :: rest =>
             let '(t2, m1) := visit_tt ty t' in
             let '(o, m) := go rest in (t2 :: o, m1 || m)
           end) l = visit_stream ty l) by reflexivity.
    rewrite E. destruct (visit_stream ty l) as [o m]. reflexivity.
  Qed.

  Lemma respelled_unmodified ts : ~ occurs (I "self") ts -> ~ occurs (I "Self") ts -> respelled ty ts ts.
  Proof.
    induction ts using stream_ind; intros H1 H2.
    - constructor.
    - apply Rs_ident.
      + intros ->. apply H1. constructor.
      + intros ->. apply H2. constructor.
      + apply IHts; intros X; [apply H1|apply H2]; apply Oc_later; exact X.
    - constructor. apply IHts; intros X; [apply H1|apply H2]; apply Oc_later; exact X.
    - constructor. apply IHts; intros X; [apply H1|apply H2]; apply Oc_later; exact X.
    - constructor.
      + apply IHts1; intros X; [apply H1|apply H2]; apply Oc_group; exact X.
      + apply IHts2; intros X; [apply H1|apply H2]; apply Oc_later; exact X.
  Qed.

  Lemma respelled_fun ts a : respelled ty ts a -> forall b, respelled ty ts b -> a = b.
  Proof.
    induction 1; intros b Hb; inversion Hb; subst; try congruence; try contradiction; f_equal; auto.
    - f_equal. f_equal. auto.
    - f_equal. auto.
  Qed.

  (** The loop, and whether it found something. *)
  Lemma visit_stream_ok ts :
    respelled ty ts (fst (visit_stream ty ts)) /\
    (snd (visit_stream ty ts) = false -> ~ occurs (I "self") ts /\ ~ occurs (I "Self") ts).
  Proof.
    induction ts using stream_ind.
    - split; [constructor|]. intros _. split; intros H; inversion H.
    - cbn [visit_stream]. unfold prepend_underscore_to_self. destruct (ident_is i "self") eqn:E1.
      + apply ident_is_eq in E1. subst i. change (ident_is (I "__self") "Self") with false. cbn iota.
        destruct (visit_stream ty ts) as [o m]. cbn [fst snd] in *. split; [constructor; apply IHts|discriminate].
      + destruct (ident_is i "Self") eqn:E2.
        * apply ident_is_eq in E2. subst i.
          assert (A : forall o m, visit_stream ty ts = (o, m) -> respelled ty ts o).
          { intros o m Eq. rewrite Eq in IHts. apply IHts. }
          destruct ts as [|[i|c [|]|s|d l] rest].
          -- split; [|discriminate]. cbn. apply (Rs_Self ty [] []); [intros (j & r & X); discriminate|constructor].
          -- destruct (visit_stream ty (TIdent i :: rest)) as [o m] eqn:Eq. split; [|discriminate].
             cbn [fst]. apply Rs_Self; [intros (j & r & X); discriminate|eapply A; reflexivity].
          -- destruct (Ascii.eqb_spec c ":") as [->|Hc].
             ++ cbn [visit_stream visit_tt] in A. destruct (visit_stream ty rest) as [o m] eqn:Eq. split; [|discriminate].
                cbn [fst]. specialize (A _ _ eq_refl). destruct (starts_colon rest) eqn:Es.
                ** rewrite <- !app_assoc. cbn [app]. apply Rs_Self_path; [|exact A].
                   unfold starts_colon in Es. destruct rest as [|[i|c j|s|d l] r]; try discriminate. apply Ascii.eqb_eq in Es. subst c.
                   exists j, r. reflexivity.
                ** apply Rs_Self; [|exact A]. intros (j & r & X). injection X as ->. discriminate.
             ++ destruct (visit_stream ty (TPunct c true :: rest)) as [o m] eqn:Eq. split; [|discriminate].
                cbn [fst]. apply Rs_Self; [intros (j & r & X); congruence|eapply A; reflexivity].
          -- destruct (visit_stream ty (TPunct c false :: rest)) as [o m] eqn:Eq. split; [|discriminate].
             cbn [fst]. apply Rs_Self; [intros (j & r & X); congruence|eapply A; reflexivity].
          -- destruct (visit_stream ty (TLit s :: rest)) as [o m] eqn:Eq. split; [|discriminate].
             cbn [fst]. apply Rs_Self; [intros (j & r & X); congruence|eapply A; reflexivity].
          -- destruct (visit_stream ty (TGroup d l :: rest)) as [o m] eqn:Eq. split; [|discriminate].
             cbn [fst]. apply Rs_Self; [intros (j & r & X); congruence|eapply A; reflexivity].
        * destruct (visit_stream ty ts) as [o m]. cbn [fst snd] in *.
          assert (N1 : i <> I "self") by (intros ->; discriminate).
          assert (N2 : i <> I "Self") by (intros ->; discriminate).
          split; [apply Rs_ident; tauto|]. cbn. intros Hm. destruct IHts as [_ IH]. destruct (IH Hm) as [X Y].
          split; intros H; inversion H; subst; contradiction.
    - cbn [visit_stream visit_tt]. destruct (visit_stream ty ts) as [o m]. cbn [fst snd orb] in *. split; [constructor; apply IHts|].
      intros Hm. destruct IHts as [_ IH]. destruct (IH Hm) as [X Y]. split; intros H; inversion H; subst; contradiction.
    - cbn [visit_stream visit_tt]. destruct (visit_stream ty ts) as [o m]. cbn [fst snd orb] in *. split; [constructor; apply IHts|].
      intros Hm. destruct IHts as [_ IH]. destruct (IH Hm) as [X Y]. split; intros H; inversion H; subst; contradiction.
    - cbn [visit_stream]. rewrite visit_group. destruct (visit_stream ty ts2) as [o m]. cbn [fst snd] in *.
      unfold visit_token_stream. destruct (visit_stream ty ts1) as [o1 m1]. cbn [fst snd] in *. destruct IHts1 as [R1 U1], IHts2 as [R2 U2].
      split.
      + constructor; [|exact R2]. destruct m1; [exact R1|]. destruct (U1 eq_refl). apply respelled_unmodified; assumption.
      + destruct m1; [discriminate|]. cbn [orb]. intros Hm. destruct (U1 eq_refl) as [A1 A2], (U2 Hm) as [B1 B2].
        split; intros H; inversion H; subst; contradiction.
  Qed.
  Lemma visit_token_stream_ok ts : respelled ty ts (fst (visit_token_stream ty ts)).
  Proof.
    unfold visit_token_stream. destruct (visit_stream_ok ts) as [R U]. destruct (visit_stream ty ts) as [o m]. cbn [fst snd] in *.
    destruct m; [exact R|]. destruct (U eq_refl). apply respelled_unmodified; assumption.
  Qed.

  Lemma contains_fn_iff ts : contains_fn ts = true <-> occurs (I "fn") ts.
  Proof.
    unfold contains_fn. induction ts using stream_ind; cbn [existsb tt_contains_fn].
    - split; [discriminate|intros H; inversion H].
    - rewrite orb_true_iff, IHts, ident_is_eq. split.
      + intros [->|H]; [apply Oc_here|apply Oc_later; exact H].
      + intros H. inversion H; auto.
    - rewrite IHts. split; [apply Oc_later|]. intros H. inversion H; assumption.
    - rewrite IHts. split; [apply Oc_later|]. intros H. inversion H; assumption.
    - rewrite orb_true_iff, IHts1, IHts2. split.
      + intros [H|H]; [apply Oc_group; exact H|apply Oc_later; exact H].
      + intros H. inversion H; auto.
  Qed.

  Lemma c39_respelled ts out : ~ occurs (I "fn") ts -> (visit_macro ty ts = out <-> respelled ty ts out).
  Proof.
    intros H. rewrite <- contains_fn_iff in H. unfold visit_macro. destruct (contains_fn ts); [congruence|]. split.
    - intros <-. apply visit_token_stream_ok.
    - intros Hr. exact (respelled_fun _ _ (visit_token_stream_ok ts) _ Hr).
  Qed.
  Lemma c39_fn ts : occurs (I "fn") ts -> visit_macro ty ts = ts.
  Proof. intros H. apply contains_fn_iff in H. unfold visit_macro. rewrite H. reflexivity. Qed.
End Visit.
