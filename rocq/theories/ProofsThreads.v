(** Several threads. *)
From Coq Require Import String Ascii List Bool Arith Lia.
From Verif Require Import Base Syntax ModelArgs ModelUtils ModelDerive ModelRun ModelAlias.
From Verif Require Import SpecArgs SpecDerive SpecExpand SpecRun SpecAlias SpecThreads.
From Verif Require Import ProofsRunReplace ProofsRunMain ProofsAlias ProofsAliasRun ProofsAliasMain.
Import ListNotations.
Open Scope string_scope.
Open Scope list_scope.

(** ** Code that has only shared pointers *)
Notation ptrs := (list (place * nat)).
Inductive plain : ptrs -> nat -> list op -> ptrs -> nat -> Prop :=
| P_end live n : plain live n [] live n
| P_read live n p q t os live' n' : In (p, t) live -> inside q p = true ->
    plain live n os live' n' -> plain live n (OUse false q t :: os) live' n'
| P_tag live n p q t os live' n' : In (p, t) live -> inside q p = true ->
    plain ((q, n) :: live) (S n) os live' n' -> plain live n (ORetag PkShared false q t n :: os) live' n'.
Lemma plain_app live n os live1 n1 os2 live2 n2 : plain live n os live1 n1 -> plain live1 n1 os2 live2 n2 ->
  plain live n (os ++ os2) live2 n2.
Proof. induction 1; intros H2; cbn [app]; [exact H2| |]; econstructor; eauto. Qed.
Lemma plain_incl live n os live1 n1 : plain live n os live1 n1 -> incl live live1.
Proof. induction 1; [apply incl_refl|assumption|]. intros x Hx. apply IHplain. right. exact Hx. Qed.
Lemma inside_refl p : p <> PlTemp -> inside p p = true.
Proof. destruct p; intros H; cbn; [reflexivity|apply Nat.eqb_refl|elim H; reflexivity]. Qed.

Inductive shared_av (live : ptrs) : av -> Prop :=
| SA_ptr p t : In (p, t) live -> shared_av live (AvPtr PkShared p t)
| SA_pin p t : In (p, t) live -> shared_av live (AvPin false p t)
| SA_owned : shared_av live AvOwned
| SA_proj fs : (forall x, In x fs -> shared_av live (snd x)) -> shared_av live (AvProj fs).
Lemma shared_ptr live k p t : shared_av live (AvPtr k p t) -> In (p, t) live.
Proof. inversion 1; assumption. Qed.
Definition shared_env (live : ptrs) (e : aenv) : Prop := forall x v, In (x, Some v) e -> shared_av live v.
Lemma shared_av_incl l1 l2 v : incl l1 l2 -> shared_av l1 v -> shared_av l2 v.
Proof.
  intros Hi. revert v. fix IH 2. intros v H. destruct H as [p t H|p t H| |fs H].
  - constructor. auto.
  - constructor. auto.
  - constructor.
  - constructor. intros x Hx. apply IH. apply H. exact Hx.
Qed.
Lemma shared_env_incl l1 l2 e : incl l1 l2 -> shared_env l1 e -> shared_env l2 e.
Proof. intros Hi H x v Hx. apply (shared_av_incl l1); [exact Hi|apply (H x v Hx)]. Qed.
Lemma lookup_in x e v : lookup x e = Some v -> exists y, In (y, Some v) e.
Proof.
  induction e as [|[y o] e IH]; cbn; [discriminate|]. destruct (same_name x y).
  - intros ->. exists y. left. reflexivity.
  - intros H. destruct (IH H) as (z & Hz). exists z. right. exact Hz.
Qed.
Lemma lookup_shared live x e v : shared_env live e -> lookup x e = Some v -> shared_av live v.
Proof. intros H E. destruct (lookup_in _ _ _ E) as (y & Hy). apply (H y v Hy). Qed.
Lemma take_shared live x e : shared_env live e -> shared_env live (take x e).
Proof.
  induction e as [|[y o] e IH]; intros H; cbn; [exact H|]. destruct (same_name x y).
  - intros z v [E|Hz]; [discriminate|]. apply (H z v). right. exact Hz.
  - intros z v [E|Hz]; [apply (H z v); left; exact E|]. assert (Hs : shared_env live e) by (intros z' v' Hz'; apply (H z' v'); right; exact Hz').
    exact (IH Hs z v Hz).
Qed.

(** The pointers are to [*self] or to its parts. *)
Definition real (live : ptrs) : Prop := forall p t, In (p, t) live -> p <> PlTemp.
(** From [a] to [a'] only plain operations are added. *)
Definition adding (live : ptrs) (a : ast) (live' : ptrs) (a' : ast) : Prop :=
  exists os, a_ops a' = a_ops a ++ os /\ plain live (a_next a) os live' (a_next a').
Lemma adding_refl live a : adding live a live a.
Proof. exists []. split; [rewrite app_nil_r; reflexivity|constructor]. Qed.
Lemma adding_trans l1 a1 l2 a2 l3 a3 : adding l1 a1 l2 a2 -> adding l2 a2 l3 a3 -> adding l1 a1 l3 a3.
Proof.
  intros (o1 & E1 & P1) (o2 & E2 & P2). exists (o1 ++ o2). split; [rewrite E2, E1, app_assoc; reflexivity|].
  exact (plain_app _ _ _ _ _ _ _ _ P1 P2).
Qed.
Lemma adding_incl l1 a1 l2 a2 : adding l1 a1 l2 a2 -> incl l1 l2.
Proof. intros (o & _ & P). exact (plain_incl _ _ _ _ _ P). Qed.
Lemma plain_real live n os live1 n1 : plain live n os live1 n1 -> real live -> real live1.
Proof.
  induction 1 as [| |live n p q t os live' n' Hin Hi H IH]; intros Hr; auto.
  apply IH. intros p' t' [E|Hx]; [|exact (Hr p' t' Hx)]. injection E as <- _. intros ->. destruct p; discriminate.
Qed.
Lemma adding_real l1 a1 l2 a2 : adding l1 a1 l2 a2 -> real l1 -> real l2.
Proof. intros (o & _ & P). exact (plain_real _ _ _ _ _ P). Qed.
Lemma adding_tag live a p q t : In (p, t) live -> inside q p = true ->
  adding live a ((q, a_next a) :: live) (snd (derive_ptr PkShared q t a)).
Proof.
  intros H Hi. exists [ORetag PkShared false q t (a_next a)]. split; [reflexivity|]. cbn.
  apply (P_tag _ _ p); [exact H|exact Hi|]. constructor.
Qed.
Lemma adding_read live a p q t : In (p, t) live -> inside q p = true -> adding live a live (emit [OUse false q t] a).
Proof. intros H Hi. exists [OUse false q t]. split; [reflexivity|]. cbn. apply (P_read _ _ p); [exact H|exact Hi|]. constructor. Qed.

Section Shared.
  Variables (w : world) (var : option ident) (uses : place -> list (bool * place)).

  (** A step of the interpreter: value, variables. *)
  Definition good (live : ptrs) (a : ast) (r : option (av * aenv * ast)) : Prop :=
    match r with
    | None => True
    | Some (v, e, a') => exists live', adding live a live' a' /\ shared_av live' v /\ shared_env live' e
    end.
  Lemma good_call f args live e a : real live -> shared_env live e -> good live a (alias_call w uses f args e a).
  Proof.
    intros Hr He. unfold alias_call.
    destruct (support_path w f) as [l|]; [|exact Logic.I].
    repeat match goal with
    | |- good _ _ (match lookup ?x ?y with _ => _ end) => let E := fresh "E" in destruct (lookup x y) eqn:E; try exact Logic.I
    | |- good _ _ (match derive_ptr ?k ?p ?t ?a with _ => _ end) => unfold derive_ptr at 1
    | |- good _ _ (match ?x with _ => _ end) => destruct x; try exact Logic.I
    end.
    all: try match goal with H : lookup _ _ = Some (AvPtr PkMut _ _) |- _ => pose proof (lookup_shared _ _ _ _ He H) as X; inversion X end.
    all: try match goal with H : lookup _ _ = Some (AvPtr PkRaw _ _) |- _ => pose proof (lookup_shared _ _ _ _ He H) as X; inversion X end.
    all: try match goal with H : lookup _ _ = Some (AvPin true _ _) |- _ => pose proof (lookup_shared _ _ _ _ He H) as X; inversion X end.
    all: match goal with H : lookup _ _ = Some (AvPtr ?k ?p ?t) |- _ =>
      pose proof (shared_ptr _ _ _ _ (lookup_shared _ _ _ _ He H)) as Hin;
      pose proof (adding_tag live a p p t Hin (inside_refl p (Hr _ _ Hin))) as G; exists ((p, a_next a) :: live) end.
    - split; [|split; [constructor|apply (shared_env_incl live); [apply incl_tl, incl_refl|exact He]]].
      apply (adding_trans _ _ _ _ _ _ G). apply (adding_read _ _ p); [left; reflexivity|apply inside_refl, (Hr _ _ Hin)].
    - split; [exact G|]. split; [constructor; left; reflexivity|].
      apply (shared_env_incl live); [apply incl_tl, incl_refl|apply take_shared; exact He].
  Qed.
  Lemma good_atom x live e a : real live -> shared_env live e -> good live a (alias_atom w uses x e a).
  Proof.
    intros Hr He. destruct x as [x|x m|x|f args|p]; cbn [alias_atom].
    - destruct (lookup x e) as [v|] eqn:E; [|exact Logic.I]. exists live. split; [apply adding_refl|].
      split; [exact (lookup_shared _ _ _ _ He E)|apply take_shared; exact He].
    - destruct (lookup x e) as [v|] eqn:E; [|exact Logic.I]. pose proof (lookup_shared _ _ _ _ He E) as X.
      destruct X as [p t Hin|p t Hin| |fs H]; try exact Logic.I. destruct (ident_is m "get_ref"); [|exact Logic.I].
      cbn. exists ((p, a_next a) :: live). split; [exact (adding_tag live a p p t Hin (inside_refl p (Hr _ _ Hin)))|].
      split; [constructor; left; reflexivity|]. apply (shared_env_incl live); [apply incl_tl, incl_refl|exact He].
    - destruct (lookup x e) as [v|] eqn:E; [|exact Logic.I]. pose proof (lookup_shared _ _ _ _ He E) as X.
      destruct X as [p t Hin|p t Hin| |fs H]; exact Logic.I.
    - apply good_call; assumption.
    - destruct (support_path w p) as [l|]; [|exact Logic.I].
      repeat match goal with |- good _ _ (match ?x with _ => _ end) => destruct x; try exact Logic.I end.
      exists live. split; [apply adding_refl|]. split; [constructor|exact He].
  Qed.
  Lemma good_fields d fs : forall live e a, real live -> shared_env live e ->
    match alias_fields w uses fs d e a with
    | None => True
    | Some (vs, e', a') => exists live', adding live a live' a' /\ (forall x, In x vs -> shared_av live' (snd x)) /\ shared_env live' e'
    end.
  Proof.
    induction fs as [|[n x] fs IH]; intros live e a Hr He; cbn [alias_fields].
    - exists live. split; [apply adding_refl|]. split; [intros x []|exact He].
    - pose proof (good_atom x live e a Hr He) as G. destruct (alias_atom w uses x e a) as [[[v e1] a1]|]; [|exact Logic.I].
      destruct G as (l1 & A1 & V1 & E1). specialize (IH l1 e1 a1 (adding_real _ _ _ _ A1 Hr) E1).
      destruct (alias_fields w uses fs d e1 a1) as [[[vs e2] a2]|]; [|exact Logic.I]. destruct IH as (l2 & A2 & V2 & E2).
      exists l2. split; [exact (adding_trans _ _ _ _ _ _ A1 A2)|]. split; [|exact E2].
      intros y [<-|Hy]; [|exact (V2 y Hy)]. cbn [snd]. exact (shared_av_incl _ _ _ (adding_incl _ _ _ _ A2) V1).
  Qed.
  Lemma good_rhs r live e a : real live -> shared_env live e -> good live a (alias_rhs w uses r e a).
  Proof.
    intros Hr He. destruct r as [x|p d fs]; cbn [alias_rhs]; [apply good_atom; assumption|].
    pose proof (good_fields d fs live e a Hr He) as G. destruct (alias_fields w uses fs d e a) as [[[vs e1] a1]|]; [|exact Logic.I].
    destruct G as (l & A & V & E). exists l. split; [exact A|]. split; [constructor; exact V|exact E].
  Qed.

  Definition good_env (live : ptrs) (a : ast) (r : option (aenv * ast)) : Prop :=
    match r with None => True | Some (e, a') => exists live', adding live a live' a' /\ shared_env live' e end.
  Lemma good_binds t bs : forall live a, In (PlSelf, t) live ->
    (forall x, In x bs -> exists y i m, x = (y, Some (RRef m (PlField i)))) -> good_env live a (tag_binds false t bs a).
  Proof.
    induction bs as [|b bs IH]; intros live a Hin Hb; cbn [tag_binds].
    - exists live. split; [apply adding_refl|intros x v []].
    - destruct (Hb b (or_introl eq_refl)) as (y & i & m & ->). cbn [ref_kind derive_ptr].
      set (a1 := mkA (S (a_next a)) (a_ops a ++ [ORetag PkShared false (PlField i) t (a_next a)])).
      pose proof (adding_tag live a PlSelf (PlField i) t Hin eq_refl) as G. change (snd (derive_ptr PkShared (PlField i) t a)) with a1 in G.
      specialize (IH ((PlField i, a_next a) :: live) a1 (or_intror Hin) (fun x Hx => Hb x (or_intror Hx))).
      destruct (tag_binds false t bs a1) as [[e a2]|]; [|exact Logic.I]. destruct IH as (l & A & E). exists l.
      split; [exact (adding_trans _ _ _ _ _ _ G A)|]. intros x v [Ex|Hx]; [|exact (E x v Hx)].
      injection Ex as <- <-. constructor. apply (adding_incl _ _ _ _ A). left. reflexivity.
  Qed.
  Lemma all_some_in {A} (l : list (option A)) r x : all_some l = Some r -> In x r -> In (Some x) l.
  Proof.
    revert r. induction l as [|[y|] l IH]; intros r E Hx; cbn in E; [injection E as <-; destruct Hx| |discriminate].
    destruct (all_some l) as [r'|]; [|discriminate]. injection E as <-. destruct Hx as [->|Hx]; [left; reflexivity|right].
    exact (IH r' eq_refl Hx).
  Qed.
  Lemma binds_places fs d bs m l x : bind_fields w fs d bs m = Some l -> In x l -> exists y i m', x = (y, Some (RRef m' (PlField i))).
  Proof.
    unfold bind_fields. destruct (_ || _); [discriminate|]. destruct d as [[]|]; try discriminate; destruct fs; try discriminate; intros E Hx.
    - injection E as <-. apply in_map_iff in Hx. destruct Hx as (z & <- & _). eauto.
    - apply (all_some_in _ _ _ E) in Hx. apply in_map_iff in Hx. destruct Hx as (b & Eb & _).
      destruct (index_of b 0 l0); [|discriminate]. injection Eb as <-. eauto.
    - injection E as <-. destruct Hx.
  Qed.
  Lemma good_pat p v live a : shared_av live v -> good_env live a (alias_pat w var p v a).
  Proof.
    intros Hv. destruct p as [x|path d bs]; cbn [alias_pat].
    - destruct (w_consts w x); [exact Logic.I|]. exists live. split; [apply adding_refl|]. intros y u [E|[]]. injection E as _ <-. exact Hv.
    - destruct (self_fields w path) as [fs|]; [|exact Logic.I]. destruct (variant_matches path _); [|exact Logic.I].
      destruct Hv as [p t Hin|p t Hin| |fs' H]; try exact Logic.I. destruct p; try exact Logic.I.
      destruct (bind_fields w fs d bs false) as [l|] eqn:E; [|exact Logic.I].
      apply good_binds; [exact Hin|]. intros x Hx. exact (binds_places _ _ _ _ _ _ E Hx).
  Qed.
  Lemma drop_shared live v : shared_av live v -> forall a, alias_drop uses v a = a.
  Proof.
    revert v. fix IH 2. intros v H a. destruct H as [p t H|p t H| |fs H]; try reflexivity.
    assert (Hd : forall x, In x fs -> forall a, alias_drop uses (snd x) a = a) by (intros x Hx b; apply IH; apply H; exact Hx).
    clear H IH. cbn [alias_drop]. induction fs as [|[y x] fs IHfs]; [reflexivity|].
    rewrite (Hd (y, x) (or_introl eq_refl) a : alias_drop uses x a = a). apply IHfs. intros z Hz. apply Hd. right. exact Hz.
  Qed.
  Lemma drops_shared live e : shared_env live e -> forall a, alias_drops uses e a = a.
  Proof.
    induction e as [|[x [v|]] e IH]; intros He a; cbn [alias_drops]; [reflexivity| |].
    - rewrite (drop_shared live v (He x v (or_introl eq_refl))). apply IH. intros y u Hy. apply (He y u). right. exact Hy.
    - apply IH. intros y u Hy. apply (He y u). right. exact Hy.
  Qed.
  Lemma shared_env_app live e1 e2 : shared_env live e1 -> shared_env live e2 -> shared_env live (e1 ++ e2).
  Proof. intros H1 H2 x v Hx. apply in_app_or in Hx. destruct Hx; [exact (H1 x v H)|exact (H2 x v H)]. Qed.
  Lemma shared_env_part live e e' : incl e' e -> shared_env live e -> shared_env live e'.
  Proof. intros Hi H x v Hx. apply (H x v), Hi, Hx. Qed.
  Lemma firstn_incl {A} k (l : list A) : incl (firstn k l) l.
  Proof. intros x Hx. rewrite <- (firstn_skipn k l). apply in_or_app. left. exact Hx. Qed.
  Lemma skipn_incl {A} k (l : list A) : incl (skipn k l) l.
  Proof. intros x Hx. rewrite <- (firstn_skipn k l). apply in_or_app. right. exact Hx. Qed.

  Lemma good_stmt x : forall live e a, real live -> shared_env live e -> good_env live a (alias_stmt w var uses x e a).
  Proof.
    revert x. fix IH 1. intros x live e a Hr He. destruct x as [p t r|y|ss]; cbn [alias_stmt].
    - pose proof (good_rhs r live e a Hr He) as G. destruct (alias_rhs w uses r e a) as [[[v e1] a1]|]; [|exact Logic.I].
      destruct G as (l1 & A1 & V1 & E1).
      assert (C : match alias_coerce t v a1 with None => True | Some (v', a') => v' = v /\ a' = a1 end).
      { unfold alias_coerce. destruct t as [t|]; [|auto]. destruct t; auto. destruct m; auto. destruct V1; auto. }
      destruct (alias_coerce t v a1) as [[v' a1']|]; [|exact Logic.I]. destruct C as [-> ->].
      destruct (is_wild p).
      + rewrite (drop_shared _ _ V1). exists l1. split; assumption.
      + pose proof (good_pat p v l1 a1 V1) as G. destruct (alias_pat w var p v a1) as [[bs a3]|]; [|exact Logic.I].
        destruct G as (l2 & A2 & E2). exists l2. split; [exact (adding_trans _ _ _ _ _ _ A1 A2)|].
        apply shared_env_app; [exact E2|]. exact (shared_env_incl _ _ _ (adding_incl _ _ _ _ A2) E1).
    - pose proof (good_atom y live e a Hr He) as G. destruct (alias_atom w uses y e a) as [[[v e1] a1]|]; [|exact Logic.I].
      destruct G as (l1 & A1 & V1 & E1). rewrite (drop_shared _ _ V1). exists l1. split; assumption.
    - match goal with |- good_env _ _ (option_map _ (?f ss e a)) => set (go := f) end.
      assert (G : forall ss live e a, real live -> shared_env live e -> good_env live a (go ss e a)).
      { clear ss live e a Hr He. induction ss as [|y ss IHss]; intros live e a Hr He.
        - exists live. split; [apply adding_refl|exact He].
        - cbn. pose proof (IH y live e a Hr He) as G. destruct (alias_stmt w var uses y e a) as [[e1 a1]|]; [|exact Logic.I].
          destruct G as (l1 & A1 & E1). pose proof (IHss l1 e1 a1 (adding_real _ _ _ _ A1 Hr) E1) as G2.
          destruct (go ss e1 a1) as [[e2 a2]|]; [|exact Logic.I]. destruct G2 as (l2 & A2 & E2). exists l2.
          split; [exact (adding_trans _ _ _ _ _ _ A1 A2)|exact E2]. }
      specialize (G ss live e a Hr He). destruct (go ss e a) as [[e1 a1]|]; [|exact Logic.I]. destruct G as (l1 & A1 & E1).
      cbn [option_map]. unfold alias_leave. cbn [fst snd good_env].
      rewrite (drops_shared l1) by (eapply shared_env_part; [apply firstn_incl|exact E1]).
      exists l1. split; [exact A1|]. eapply shared_env_part; [apply skipn_incl|exact E1].
  Qed.
  Lemma good_stmts ss : forall live e a, real live -> shared_env live e -> good_env live a (alias_stmts w var uses ss e a).
  Proof.
    induction ss as [|y ss IH]; intros live e a Hr He; cbn [alias_stmts].
    - exists live. split; [apply adding_refl|exact He].
    - pose proof (good_stmt y live e a Hr He) as G. destruct (alias_stmt w var uses y e a) as [[e1 a1]|]; [|exact Logic.I].
      destruct G as (l1 & A1 & E1). pose proof (IH l1 e1 a1 (adding_real _ _ _ _ A1 Hr) E1) as G2.
      destruct (alias_stmts w var uses ss e1 a1) as [[e2 a2]|]; [|exact Logic.I]. destruct G2 as (l2 & A2 & E2). exists l2.
      split; [exact (adding_trans _ _ _ _ _ _ A1 A2)|exact E2].
  Qed.
  Definition good_val (live : ptrs) (a : ast) (r : option (av * ast)) : Prop :=
    match r with None => True | Some (v, a') => exists live', adding live a live' a' /\ shared_av live' v end.
  Lemma good_finish t live e a : real live -> shared_env live e -> good_val live a (alias_finish w uses t e a).
  Proof.
    intros Hr He. unfold alias_finish. destruct t as [r|].
    - pose proof (good_rhs r live e a Hr He) as G. destruct (alias_rhs w uses r e a) as [[[v e1] a1]|]; [|exact Logic.I].
      destruct G as (l1 & A1 & V1 & E1). rewrite (drops_shared _ _ E1). exists l1. split; assumption.
    - rewrite (drops_shared _ _ He). exists live. split; [apply adding_refl|constructor].
  Qed.
  Lemma good_body b live e a : real live -> shared_env live e -> good_val live a (alias_body w var uses b e a).
  Proof.
    intros Hr He. destruct b as [ss t|ss scrut arms]; cbn [alias_body].
    - pose proof (good_stmts ss live e a Hr He) as G. destruct (alias_stmts w var uses ss e a) as [[e1 a1]|]; [|exact Logic.I].
      destruct G as (l1 & A1 & E1). pose proof (good_finish t l1 e1 a1 (adding_real _ _ _ _ A1 Hr) E1) as G.
      destruct (alias_finish w uses t e1 a1) as [[v a2]|]; [|exact Logic.I]. destruct G as (l2 & A2 & V2). exists l2.
      split; [exact (adding_trans _ _ _ _ _ _ A1 A2)|exact V2].
    - pose proof (good_stmts ss live e a Hr He) as G. destruct (alias_stmts w var uses ss e a) as [[e1 a1]|]; [|exact Logic.I].
      destruct G as (l1 & A1 & E1). pose proof (adding_real _ _ _ _ A1 Hr) as R1.
      pose proof (good_atom scrut l1 e1 a1 R1 E1) as G. destruct (alias_atom w uses scrut e1 a1) as [[[v e2] a2]|]; [|exact Logic.I].
      destruct G as (l2 & A2 & V2 & E2). pose proof (adding_real _ _ _ _ A2 R1) as R2.
      destruct V2 as [p t Hin| | |]; try exact Logic.I.
      destruct (find_arm _ arms) as [x|]; [|exact Logic.I].
      pose proof (adding_read l2 a2 p p t Hin (inside_refl p (R2 _ _ Hin))) as A3.
      pose proof (good_pat (arm_pat x) (AvPtr PkShared p t) l2 (emit [OUse false p t] a2) (SA_ptr _ _ _ Hin)) as G.
      destruct (alias_pat w var (arm_pat x) (AvPtr PkShared p t) (emit [OUse false p t] a2)) as [[bs a4]|]; [|exact Logic.I].
      destruct G as (l4 & A4 & E4). pose proof (adding_real _ _ _ _ A4 R2) as R4.
      assert (E5 : shared_env l4 (bs ++ e2)).
      { apply shared_env_app; [exact E4|]. exact (shared_env_incl _ _ _ (adding_incl _ _ _ _ A4) E2). }
      pose proof (good_stmts (arm_stmts x) l4 (bs ++ e2) a4 R4 E5) as G.
      destruct (alias_stmts w var uses (arm_stmts x) (bs ++ e2) a4) as [[e5 a5]|]; [|exact Logic.I].
      destruct G as (l5 & A5 & E6). pose proof (good_finish (Some (arm_tail x)) l5 e5 a5 (adding_real _ _ _ _ A5 R4) E6) as G.
      destruct (alias_finish w uses (Some (arm_tail x)) e5 a5) as [[u a6]|]; [|exact Logic.I]. destruct G as (l6 & A6 & V6). exists l6.
      split; [|exact V6]. eapply adding_trans; [exact A1|]. eapply adding_trans; [exact A2|]. eapply adding_trans; [exact A3|].
      eapply adding_trans; [exact A4|]. eapply adding_trans; [exact A5|exact A6].
  Qed.
End Shared.
(** Whatever a method does that gets [Pin<&Self>]. *)
Lemma shared_method w var uses m t n v ops n' : alias_method w var uses m (AvPin false PlSelf) PkShared t n = Some (v, ops, n') ->
  exists os live', ops = ORetag PkShared true PlSelf t n :: os ++ [ORelease n] /\ plain [(PlSelf, n)] (S n) os live' n' /\ shared_av live' v.
Proof.
  unfold alias_method. set (e := rev _ ++ _). set (a := mkA (S n) _). intros H.
  assert (He : shared_env [(PlSelf, n)] e).
  { intros x u Hx. unfold e in Hx. apply in_app_or in Hx. destruct Hx as [Hx|[Hx|[]]].
    - apply in_rev in Hx. apply in_map_iff in Hx. destruct Hx as (p & E & _). injection E as _ <-. constructor.
    - injection Hx as _ <-. constructor. left. reflexivity. }
  assert (Hr : real [(PlSelf, n)]) by (intros p u [E|[]]; injection E as <- _; discriminate).
  pose proof (good_body w var uses (m_body m) _ e a Hr He) as G.
  destruct (alias_body w var uses (m_body m) e a) as [[u a']|]; [|discriminate]. injection H as -> <- <-.
  destruct G as (l & (os & Eo & P) & V). exists os, l. split; [|split; [exact P|exact V]]. rewrite Eo. reflexivity.
Qed.

(** ** Threads as lists of such operations *)
Inductive shared_code : ptrs -> list nat -> nat -> list op -> nat -> Prop :=
| C_end live n : shared_code live [] n [] n
| C_read live pend n p q t os n' : In (p, t) live -> inside q p = true ->
    shared_code live pend n os n' -> shared_code live pend n (OUse false q t :: os) n'
| C_tag live pend n (prot : bool) p q t os n' : In (p, t) live -> inside q p = true ->
    shared_code ((q, n) :: live) (if prot then n :: pend else pend) (S n) os n' ->
    shared_code live pend n (ORetag PkShared prot q t n :: os) n'
| C_release live r pend n os n' :
    shared_code live pend n os n' -> shared_code live (r :: pend) n (ORelease r :: os) n'.
Lemma plain_code live n os live1 n1 pend os2 n2 : plain live n os live1 n1 -> shared_code live1 pend n1 os2 n2 ->
  shared_code live pend n (os ++ os2) n2.
Proof.
  induction 1; intros H2; cbn [app]; [exact H2| |].
  - eapply C_read; eauto.
  - eapply C_tag; eauto.
Qed.
Lemma code_incl live pend n os n' : shared_code live pend n os n' -> forall live2, incl live live2 -> shared_code live2 pend n os n'.
Proof.
  induction 1 as [| | |]; intros live2 Hi.
  - constructor.
  - eapply C_read; eauto.
  - eapply C_tag; eauto. apply IHshared_code. apply incl_cons; [left; reflexivity|apply incl_tl; exact Hi].
  - constructor. auto.
Qed.
Lemma plain_live live n os live1 n1 : plain live n os live1 n1 -> forall more, plain (live ++ more) n os (live1 ++ more) n1.
Proof.
  induction 1; intros more; [constructor| |].
  - eapply P_read; [apply in_or_app; left; eassumption|assumption|auto].
  - eapply P_tag; [apply in_or_app; left; eassumption|assumption|]. apply IHplain.
Qed.
Lemma code_order live pend n os n' : shared_code live pend n os n' -> n <= n'.
Proof. induction 1; lia. Qed.
Lemma targets_shared live l : shared_av live (AvProj l) -> incl (targets l) live.
Proof.
  intros H x Hx. inversion H as [| | |fs Hf]; subst. unfold targets in Hx. apply in_flat_map in Hx. destruct Hx as (y & Hy & Hx).
  specialize (Hf y Hy). destruct Hf as [p t Hin|p t Hin| |]; cbn in Hx; destruct Hx as [<-|[]] || destruct Hx; exact Hin.
Qed.
