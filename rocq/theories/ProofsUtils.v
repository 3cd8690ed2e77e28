From Coq Require Import String Ascii List Bool Arith Lia.
From Verif Require Import Base Syntax SyntaxInd ModelArgs ModelUtils SpecLifetime ProofsArgs.
Import ListNotations.
Open Scope string_scope.
Open Scope list_scope.

(** ** Strings *)
Lemma sapp_assoc a b c : String.append (String.append a b) c = String.append a (String.append b c).
Proof. induction a as [|x a IH]; simpl; [reflexivity|rewrite IH; reflexivity]. Qed.
Lemma sapp_nil a : String.append a EmptyString = a.
Proof. induction a as [|x a IH]; simpl; [reflexivity|rewrite IH; reflexivity]. Qed.
Lemma sapp_len a b : String.length (String.append a b) = String.length a + String.length b.
Proof. induction a as [|x a IH]; simpl; [reflexivity|rewrite IH; reflexivity]. Qed.

Lemma prefix_begins p s : prefix p s = true <-> begins_with p s.
Proof.
  revert s. induction p as [|c p IH]; intros s.
  - split; [intros _; exists s; reflexivity|destruct s; reflexivity].
  - destruct s as [|d s]; cbn [prefix].
    + split; [discriminate|]. intros [r Hr]; discriminate.
    + destruct (ascii_dec c d) as [->|Hn].
      * rewrite IH. split; intros [r Hr]; exists r; [simpl; rewrite Hr; reflexivity|].
        simpl in Hr. injection Hr as ->. reflexivity.
      * split; [discriminate|]. intros [r Hr]. simpl in Hr. congruence.
Qed.

Lemma underscores_S n : String.append (underscores n) "_" = underscores (S n).
Proof. induction n as [|n IH]; [reflexivity|]. simpl. rewrite IH. reflexivity. Qed.
Lemma underscores_len n : String.length (underscores n) = n.
Proof. induction n as [|n IH]; simpl; auto. Qed.

(** ** Collected lifetimes are the declared ones *)
Lemma in_flat_map_iff {A B} (f : A -> list B) (P : B -> A -> Prop) l y :
  Forall (fun x => In y (f x) <-> P y x) l ->
  (In y (flat_map f l) <-> exists x, In x l /\ P y x).
Proof.
  intros H. rewrite in_flat_map. rewrite Forall_forall in H.
  split; intros (x & Hx & Hy); exists x; (split; [exact Hx|apply (H x Hx); exact Hy]).
Qed.

Definition binds_garg (lt : string) (a : garg) : Prop :=
  match a with
  | ALt _ => False
  | ATy t => binds_ty lt t
  | AConst e => binds_expr lt e
  | AAssoc _ t => binds_ty lt t
  end.

Lemma lts_binds lt :
  (forall t, In lt (lts_ty t) <-> binds_ty lt t) /\
  (forall p, In lt (lts_path p) <-> binds_path lt p) /\
  (forall s, In lt (lts_seg s) <-> match s with Seg _ a => binds_gargs lt a end) /\
  (forall a, In lt (lts_gargs a) <-> binds_gargs lt a) /\
  (forall a, In lt (lts_garg a) <-> binds_garg lt a) /\
  (forall b, In lt (lts_bound b) <-> binds_bound lt b) /\
  (forall e, In lt (lts_expr e) <-> binds_expr lt e).
Proof.
  apply syntax_ind; unfold Pq, Po; cbn [lts_ty lts_path lts_seg lts_gargs lts_garg lts_bound lts_expr binds_garg].
  - intros q p Hq Hp. rewrite in_app_iff, Hp. split.
    + intros [H|H]; [|apply DT_path; exact H].
      destruct q as [[t n]|]; [|contradiction]. apply DT_qself, Hq, H.
    + intros H. inversion H; subst; [left; apply Hq; assumption|right; assumption].
  - intros l m t H. rewrite H. split; [apply DT_ref|intros X; inversion X; assumption].
  - intros m t H. rewrite H. split; [apply DT_ptr|intros X; inversion X; assumption].
  - intros l H. rewrite (in_flat_map_iff _ binds_ty _ _ H). split.
    + intros (x & Hx & Hb). eapply DT_tuple; eassumption.
    + intros X; inversion X; subst. eauto.
  - intros t H. rewrite H. split; [apply DT_slice|intros X; inversion X; assumption].
  - intros t e Ht He. rewrite in_app_iff, Ht, He. split.
    + intros [X|X]; [apply DT_array|apply DT_array_len]; exact X.
    + intros X; inversion X; subst; auto.
  - intros lts l o Hl Ho. rewrite !in_app_iff, (in_flat_map_iff _ binds_ty _ _ Hl). split.
    + intros [X|[(x & Hx & Hb)|X]]; [apply DT_fn; exact X|eapply DT_fn_arg; eassumption|].
      destruct o as [t|]; [apply DT_fn_ret, Ho, X|contradiction].
    + intros X; inversion X; subst; [left; assumption|right; left; eauto|right; right; apply Ho; assumption].
  - intros bs H. rewrite (in_flat_map_iff _ binds_bound _ _ H). split.
    + intros (x & Hx & Hb). eapply DT_dyn; eassumption.
    + intros X; inversion X; subst. eauto.
  - intros t H. rewrite H. split; [apply DT_paren|intros X; inversion X; assumption].
  - split; [intros []|intros X; inversion X].
  - intros m ts. split; [intros []|intros X; inversion X].
  - intros lead segs H. rewrite (in_flat_map_iff _ (fun lt s => match s with Seg _ a => binds_gargs lt a end) _ _ H).
    split.
    + intros ([i a] & Hx & Hb). eapply DP; eassumption.
    + intros X; inversion X; subst. eexists; split; [eassumption|assumption].
  - intros i a H. exact H.
  - split; [intros []|intros X; inversion X].
  - intros b l H. rewrite (in_flat_map_iff _ binds_garg _ _ H). split.
    + intros ([] & Hx & Hb); cbn in Hb; [contradiction|eapply DG_ty|eapply DG_const|eapply DG_assoc]; eassumption.
    + intros X; inversion X; subst; eexists; (split; [eassumption|assumption]).
  - intros l o Hl Ho. rewrite in_app_iff, (in_flat_map_iff _ binds_ty _ _ Hl). split.
    + intros [(x & Hx & Hb)|X]; [eapply DG_paren; eassumption|].
      destruct o as [t|]; [apply DG_paren_ret, Ho, X|contradiction].
    + intros X; inversion X; subst; [left; eauto|right; apply Ho; assumption].
  - intros l. split; intros [].
  - intros t H; exact H.
  - intros e H; exact H.
  - intros i t H; exact H.
  - intros l. split; [intros []|intros X; inversion X].
  - intros m lts p H. rewrite in_app_iff, H. split.
    + intros [X|X]; [apply DB|apply DB_path]; exact X.
    + intros X; inversion X; auto.
  - intros q p Hq Hp. rewrite in_app_iff, Hp. split.
    + intros [H|H]; [|apply DE_path; exact H].
      destruct q as [[t n]|]; [|contradiction]. apply DE_qself, Hq, H.
    + intros H. inversion H; subst; [left; apply Hq; assumption|right; assumption].
  - intros s. split; [intros []|intros X; inversion X].
  - intros f l Hf Hl. rewrite in_app_iff, Hf, (in_flat_map_iff _ binds_expr _ _ Hl). split.
    + intros [X|(x & Hx & Hb)]; [apply DE_fun; exact X|eapply DE_arg; eassumption].
    + intros X; inversion X; subst; [left; assumption|right; eauto].
  - intros m ts. split; [intros []|intros X; inversion X].
Qed.

Lemma collect_declared g lt : In lt (collect_lifetimes g) <-> declared g lt.
Proof.
  destruct (lts_binds lt) as (Ht & _ & _ & _ & _ & Hb & He).
  unfold collect_lifetimes. rewrite in_app_iff, !in_flat_map. split.
  - intros [(p & Hp & H)|(w & Hw & H)].
    + destruct p as [l bs|i bs d|i t d]; simpl in H.
      * destruct H as [->|[]]. eapply D_param; exact Hp.
      * rewrite in_app_iff, in_flat_map in H. destruct H as [(b & Hin & H)|H].
        -- eapply D_bound; [exact Hp|exact Hin|apply Hb; exact H].
        -- destruct d as [t|]; [|contradiction]. eapply D_default; [exact Hp|apply Ht; exact H].
      * rewrite in_app_iff in H. destruct H as [H|H].
        -- eapply D_const; [exact Hp|apply Ht; exact H].
        -- destruct d as [e|]; [|contradiction]. eapply D_const_default; [exact Hp|apply He; exact H].
    + destruct (g_where g) as [ws|] eqn:E; [|contradiction]. simpl in Hw.
      destruct w as [l bs|lts t bs]; simpl in H; [contradiction|].
      rewrite !in_app_iff, in_flat_map in H. destruct H as [H|[H|(b & Hin & H)]].
      * eapply D_where_for; eassumption.
      * eapply D_where_ty; [eassumption|exact Hw|apply Ht; exact H].
      * eapply D_where_bound; [eassumption|exact Hw|exact Hin|apply Hb; exact H].
  - intros H. destruct H as [bs H|i bs d b H Hin HB|i bs t H HB|i t d H HB|i t e H HB|w lts t bs E H HB|w lts t bs E H HB|w lts t bs b E H Hin HB].
    + left. eexists; split; [exact H|left; reflexivity].
    + left. eexists; split; [exact H|]. simpl. apply in_app_iff; left. apply in_flat_map.
      exists b; split; [exact Hin|apply Hb; exact HB].
    + left. eexists; split; [exact H|]. simpl. apply in_app_iff; right. apply Ht; exact HB.
    + left. eexists; split; [exact H|]. simpl. apply in_app_iff; left. apply Ht; exact HB.
    + left. eexists; split; [exact H|]. simpl. apply in_app_iff; right. apply He; exact HB.
    + right. exists (WTy lts t bs). rewrite E. split; [exact H|]. simpl. apply in_app_iff; left; exact HB.
    + right. exists (WTy lts t bs). rewrite E. split; [exact H|]. simpl. rewrite !in_app_iff; right; left. apply Ht; exact HB.
    + right. exists (WTy lts t bs). rewrite E. split; [exact H|]. simpl. rewrite !in_app_iff; right; right.
      apply in_flat_map. exists b; split; [exact Hin|apply Hb; exact HB].
Qed.

(** ** The lifetime search *)
Lemma max_len_in n names : In n names -> String.length n <= max_len names.
Proof.
  unfold max_len. induction names as [|m r IH]; cbn [fold_right In]; [intros []|].
  intros [->|H]; [|specialize (IH H)]; lia.
Qed.

Lemma lifetime_loop_spec names : forall fuel start k,
  (forall m, m < k -> exists n, In n names /\ begins_with (String.append start (underscores m)) n) ->
  max_len names < fuel + String.length start + k ->
  exists n, k <= n /\
    lifetime_loop fuel names (String.append start (underscores k)) = String.append start (underscores n) /\
    (forall x, In x names -> ~ begins_with (String.append start (underscores n)) x) /\
    (forall m, m < n -> exists x, In x names /\ begins_with (String.append start (underscores m)) x).
Proof.
  induction fuel as [|fuel IH]; intros start k Hprev Hfuel;
    cbn [lifetime_loop];
    destruct (existsb (fun n => prefix (String.append start (underscores k)) n) names) eqn:E.
  - exfalso. apply existsb_exists in E. destruct E as (x & Hx & Hp).
    apply prefix_begins in Hp. destruct Hp as [r ->].
    apply max_len_in in Hx. rewrite !sapp_len, underscores_len in Hx. lia.
  - exists k. split; [lia|split; [reflexivity|split; [|exact Hprev]]].
    intros x Hx Hb. apply prefix_begins in Hb.
    assert (existsb (fun n => prefix (String.append start (underscores k)) n) names = true).
    { apply existsb_exists. exists x; auto. } congruence.
  - rewrite sapp_assoc, underscores_S.
    destruct (IH start (S k)) as (n & Hn & H1 & H2 & H3).
    + intros m Hm. destruct (Nat.eq_dec m k) as [->|Hne].
      * apply existsb_exists in E. destruct E as (x & Hx & Hp). exists x. split; [exact Hx|].
        apply prefix_begins; exact Hp.
      * apply Hprev. lia.
    + lia.
    + exists n. split; [lia|split; [exact H1|split; [exact H2|exact H3]]].
  - exists k. split; [lia|split; [reflexivity|split; [|exact Hprev]]].
    intros x Hx Hb. apply prefix_begins in Hb.
    assert (existsb (fun n => prefix (String.append start (underscores k)) n) names = true).
    { apply existsb_exists. exists x; auto. } congruence.
Qed.

Theorem determine_lifetime_name_spec start g :
  exists n,
    determine_lifetime_name start g = String.append start (underscores n) /\
    (forall lt, declared g lt -> ~ begins_with (String.append start (underscores n)) lt) /\
    (forall m, m < n -> exists lt, declared g lt /\ begins_with (String.append start (underscores m)) lt).
Proof.
  unfold determine_lifetime_name.
  destruct (lifetime_loop_spec (collect_lifetimes g) (S (max_len (collect_lifetimes g))) start 0)
    as (n & _ & H1 & H2 & H3).
  - intros m Hm; lia.
  - lia.
  - exists n. simpl underscores in H1. rewrite sapp_nil in H1. split; [exact H1|split].
    + intros lt H. apply H2, collect_declared, H.
    + intros m Hm. destruct (H3 m Hm) as (x & Hx & Hb). exists x. split; [apply collect_declared; exact Hx|exact Hb].
Qed.

(** The fuel never runs out: the result is never one that still clashes. *)
Corollary determine_lifetime_name_fuel start g :
  existsb (fun n => prefix (determine_lifetime_name start g) n) (collect_lifetimes g) = false.
Proof.
  destruct (determine_lifetime_name_spec start g) as (n & E & H & _). rewrite E.
  destruct (existsb _ _) eqn:X; [|reflexivity].
  apply existsb_exists in X. destruct X as (x & Hx & Hp).
  elim (H x); [apply collect_declared; exact Hx|apply prefix_begins; exact Hp].
Qed.

Corollary determine_lifetime_name_fresh start g :
  ~ declared g (determine_lifetime_name start g).
Proof.
  destruct (determine_lifetime_name_spec start g) as (n & E & H & _). rewrite E.
  intros Hd. apply (H _ Hd). exists EmptyString. symmetry; apply sapp_nil.
Qed.
