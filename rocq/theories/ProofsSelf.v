(** Lemmas about replacing [Self] in type expressions. *)
From Coq Require Import String List Bool.
From Verif Require Import Base Syntax SyntaxInd ModelUtils ModelDerive ModelMeaning SpecMeaning SpecLifetime SpecExpand SpecDerive SpecArgs ModelArgs.
From Verif Require Import SpecRun ProofsArgs ProofsUtils ProofsExpand ProofsTypes ProofsMeaning.
Import ListNotations.
Open Scope string_scope.
Open Scope list_scope.

Section Spell.
  Variable U : univ.
  Variable n : string -> head (D U).
  Variable f : string -> LT U.
  Variable q : option (ty * nat).
  Variable p : path.
  Hypothesis Hself : self_is U n f q p.
  Let self := mkTypePath q p.

  Lemma good_self : good_lts U self f f.
  Proof. intros x _. reflexivity. Qed.
  Lemma to_replaceable l (b : string -> Prop) lts : (forall x, In x lts -> b x) -> spellable U n q p l b -> replaceable U self n l lts.
  Proof. intros Hb [H1 H2 H3 H4]. constructor; auto. Qed.

  Lemma c38_ty t : spellable U n q p (nodes_ty t) (fun x => binds_ty x t) ->
    den_ty (mkEnv n f) (replace_ty self t) = den_ty (mkEnv n f) t.
  Proof.
    intros H. destruct Hself as [H1 H2].
    refine (proj1 (den_replace U self n f H1 H2) t f good_self _). revert H. apply to_replaceable. intros x Hx. apply lts_binds. exact Hx.
  Qed.
  Lemma c38_bound t : spellable U n q p (nodes_bound t) (fun x => binds_bound x t) ->
    den_bound (mkEnv n f) (replace_bound self t) = den_bound (mkEnv n f) t.
  Proof.
    intros H. destruct Hself as [H1 H2].
    refine (proj1 (proj2 (proj2 (proj2 (proj2 (proj2 (den_replace U self n f H1 H2)))))) t f good_self _). revert H. apply to_replaceable. intros x Hx.
    apply lts_binds. exact Hx.
  Qed.
  Lemma c38_expr t : spellable U n q p (nodes_expr t) (fun x => binds_expr x t) ->
    den_expr (mkEnv n f) (replace_expr self t) = den_expr (mkEnv n f) t.
  Proof.
    intros H. destruct Hself as [H1 H2].
    refine (proj2 (proj2 (proj2 (proj2 (proj2 (proj2 (den_replace U self n f H1 H2)))))) t f good_self _). revert H. apply to_replaceable. intros x Hx.
    apply lts_binds. exact Hx.
  Qed.
  Lemma c38_generics g : spellable U n q p (nodes_generics g) (fun x => binds_generics x g) ->
    den_generics (mkEnv n f) (replace_generics self g) = den_generics (mkEnv n f) g.
  Proof.
    intros H. destruct Hself as [H1 H2]. destruct (den_replace U self n f H1 H2) as (Dt & _ & _ & _ & _ & Db & _).
    destruct g as [ps w]. unfold den_generics, nodes_generics, binds_generics in *. cbn [g_params g_where replace_generics] in *. f_equal.
    - rewrite map_map. apply map_ext_in. intros [lt bs|i bs d|i t d] Hin; [reflexivity| |]; cbn [replace_param den_param]; f_equal.
      + rewrite map_map. apply map_ext_in. intros b Hb. apply (Db b f good_self). destruct H as [A B Cv Db']. constructor.
        * intros q0 lead l Hx. apply (A q0 lead l). apply in_or_app. left. apply in_flat_map. exists (PTy i bs d). split; [exact Hin|]. apply in_flat_map. eauto.
        * intros m ts lf Hx. apply B. apply in_or_app. left. apply in_flat_map. exists (PTy i bs d). split; [exact Hin|]. apply in_flat_map. eauto.
        * destruct Cv as [Cv|Cv]; [left; exact Cv|right]. intros Hx. apply Cv. apply in_or_app. left. apply in_flat_map. exists (PTy i bs d). split; [exact Hin|]. apply in_flat_map. eauto.
        * intros x Hx. apply Db'. left. exists i, bs, d, b. split; [exact Hin|]. split; [exact Hb|]. apply lts_binds. exact Hx.
      + apply (Dt t f good_self). destruct H as [A B Cv Db']. constructor.
        * intros q0 lead l Hx. apply (A q0 lead l). apply in_or_app. left. apply in_flat_map. exists (PConst i t d). split; [exact Hin|exact Hx].
        * intros m ts lf Hx. apply B. apply in_or_app. left. apply in_flat_map. exists (PConst i t d). split; [exact Hin|exact Hx].
        * destruct Cv as [Cv|Cv]; [left; exact Cv|right]. intros Hx. apply Cv. apply in_or_app. left. apply in_flat_map. exists (PConst i t d). split; [exact Hin|exact Hx].
        * intros x Hx. apply Db'. right. left. exists i, t, d. split; [exact Hin|]. apply lts_binds. exact Hx.
    - destruct w as [w|]; [|reflexivity]. cbn [option_map]. rewrite map_map. apply map_ext_in. intros [lt bs|lts t bs] Hin; [reflexivity|].
      cbn [replace_wpred den_wpred]. cbn [under names lts_of]. destruct H as [A B Cv Db'].
      assert (HL : forall x, In x lts \/ binds_ty x t \/ (exists b, In b bs /\ binds_bound x b) -> ~ In (NLt x) (nodes_ty (TyPath q p))).
      { intros x Hx. apply Db'. right. right. exists w, lts, t, bs. auto. }
      assert (HN : forall x, In x (nodes_ty t) \/ In x (flat_map nodes_bound bs) ->
        In x (flat_map nodes_param ps ++ flat_map nodes_wpred w)).
      { intros x Hx. apply in_or_app. right. apply in_flat_map. exists (WTy lts t bs). split; [exact Hin|]. apply in_or_app. exact Hx. }
      assert (Hg : good_lts U self f (bind_lts (U := U) lts f)).
      { intros x Hx. unfold bind_lts. destruct (existsb (String.eqb x) lts) eqn:E; [|reflexivity].
        apply existsb_exists in E. destruct E as (y & Hy & E). apply String.eqb_eq in E. subst y.
        elim (HL x (or_introl Hy) Hx). }
      assert (Hr : forall nl ls, (forall x, In x nl -> In x (nodes_ty t) \/ In x (flat_map nodes_bound bs)) ->
        (forall x, In x ls -> binds_ty x t \/ (exists b, In b bs /\ binds_bound x b)) -> replaceable U self n nl ls).
      { intros nl ls Hnl Hls. constructor.
        - intros q0 lead l Hx. apply (A q0 lead l). auto.
        - intros m ts lf Hx. apply B. auto.
        - destruct Cv as [Cv|Cv]; [left; exact Cv|right]. intros Hx. apply Cv. auto.
        - intros x Hx. apply HL. auto. }
      f_equal.
      + apply (Dt t _ Hg). apply Hr; [auto|]. intros x Hx. left. apply lts_binds. exact Hx.
      + rewrite map_map. apply map_ext_in. intros b Hb. apply (Db b _ Hg). apply Hr.
        * intros x Hx. right. apply in_flat_map. eauto.
        * intros x Hx. right. exists b. split; [exact Hb|]. apply lts_binds. exact Hx.
  Qed.
End Spell.

(** Nothing refers to [Self] any more. *)
Section Left.
  Variable p : path.
  Let self := mkTypePath None p.
  Hypothesis Hself : ~ looks_up (nodes_ty (TyPath None p)) "Self".

  Lemma no_self_origin l y : ~ In NOddSelf l -> origin self l y -> forall q i r, y = NPath q false (i :: r) -> q <> Some 0 -> name i <> "Self".
  Proof.
    intros Ho [H|H] q i r -> Hq E.
    - apply Hself. exists q, i, r. auto.
    - destruct H as [H|(p' & _ & _ & H)]; [contradiction|]. apply Ho. eapply H; [reflexivity|reflexivity|exact E].
  Qed.
  Lemma c38_left_ty t : ~ In NOddSelf (nodes_ty t) -> ~ looks_up (nodes_ty (replace_ty self t)) "Self".
  Proof.
    intros Ho (q & i & r & Hin & Hq & E).
    exact (no_self_origin _ _ Ho (proj1 (nodes_replace self eq_refl) t _ Hin) q i r eq_refl Hq E).
  Qed.
  Lemma c38_left_bound t : ~ In NOddSelf (nodes_bound t) -> ~ looks_up (nodes_bound (replace_bound self t)) "Self".
  Proof.
    intros Ho (q & i & r & Hin & Hq & E).
    exact (no_self_origin _ _ Ho (proj1 (proj2 (proj2 (proj2 (proj2 (proj2 (nodes_replace self eq_refl)))))) t _ Hin) q i r eq_refl Hq E).
  Qed.
  Lemma c38_left_expr t : ~ In NOddSelf (nodes_expr t) -> ~ looks_up (nodes_expr (replace_expr self t)) "Self".
  Proof.
    intros Ho (q & i & r & Hin & Hq & E).
    exact (no_self_origin _ _ Ho (proj2 (proj2 (proj2 (proj2 (proj2 (proj2 (nodes_replace self eq_refl)))))) t _ Hin) q i r eq_refl Hq E).
  Qed.
End Left.

(** ** Where there is no [Self] nothing changes *)
Section Id.
  Variable self : type_path.
  Definition self_free (l : list node) : Prop :=
    (forall m ts, ~ In (NMacro m ts) l) /\
    (forall r, ~ In (NPath None false (I "Self" :: r)) l) /\
    (forall q lead, ~ In (NPath q lead [I "self"]) l).
  Definition unchanged {A} (h : A -> list node) (r : A -> A) (x : A) : Prop := self_free (h x) -> r x = x.

  Lemma sf_sub l l' : (forall x, In x l' -> In x l) -> self_free l -> self_free l'.
  Proof. intros H (A & B & C). repeat split; intros; intros X; apply H in X; eapply A + eapply B + eapply C; exact X. Qed.
  Lemma sf_app l l' : self_free (l ++ l') -> self_free l /\ self_free l'.
  Proof. intros H. split; revert H; apply sf_sub; intros x Hx; apply in_or_app; auto. Qed.
  Lemma unchanged_list {A} (h : A -> list node) (r : A -> A) l : Forall (unchanged h r) l -> unchanged (flat_map h) (map r) l.
  Proof.
    intros H Hs. induction H as [|x l Hx _ IH]; [reflexivity|]. cbn [flat_map] in Hs. apply sf_app in Hs. cbn. rewrite Hx, IH by apply Hs. reflexivity.
  Qed.
  Lemma underscore_free q lead segs l : In (NPath q lead (map seg_ident segs)) l -> self_free l -> underscore_path segs = segs.
  Proof.
    intros Hin (_ & _ & H). destruct segs as [|[i a] [|s r]]; try reflexivity. cbn. unfold prepend_underscore_to_self.
    destruct (ident_is i "self") eqn:E; [|reflexivity]. apply ident_is_eq in E. subst i. destruct (H _ _ Hin).
  Qed.
  Lemma not_Self_free lead segs l : In (NPath None lead (map seg_ident segs)) l -> self_free l ->
    path_is_Self None (Path lead segs) = false /\ path_starts_Self None (Path lead segs) = false.
  Proof.
    intros Hin (_ & H & _). unfold path_is_Self, path_starts_Self. destruct lead; [auto|]. destruct segs as [|[i a] r]; [auto|].
    assert (E : ident_is i "Self" = false).
    { destruct (ident_is i "Self") eqn:E; [|reflexivity]. apply ident_is_eq in E. subst i. destruct (H _ Hin). }
    rewrite E. destruct a, r; auto.
  Qed.

  Lemma replace_unchanged :
    (forall t, unchanged nodes_ty (replace_ty self) t) /\
    (forall p, match p with Path _ segs => unchanged (flat_map nodes_seg) (map (replace_seg self)) segs end) /\
    (forall s, unchanged nodes_seg (replace_seg self) s) /\
    (forall a, unchanged nodes_gargs (replace_gargs self) a) /\
    (forall a, unchanged nodes_garg (replace_garg self) a) /\
    (forall b, unchanged nodes_bound (replace_bound self) b) /\
    (forall e, unchanged nodes_expr (replace_expr self) e).
  Proof.
    assert (Ho : forall o, Po (unchanged nodes_ty (replace_ty self)) o ->
      unchanged (fun o => match o with Some t => nodes_ty t | None => [] end)
           (fun o => match o with Some t => Some (replace_ty self t) | None => None end) o).
    { intros [t|] H Hs; [rewrite H by exact Hs|]; reflexivity. }
    assert (Hpp : forall q lead segs, Pq (unchanged nodes_ty (replace_ty self)) q -> unchanged (flat_map nodes_seg) (map (replace_seg self)) segs ->
      self_free (nodes_ty (TyPath q (Path lead segs))) ->
      path_is_Self q (Path lead segs) = false /\ path_starts_Self q (Path lead segs) = false /\
      match q with Some (t', n) => Some (replace_ty self t', n) | None => None end = q /\
      underscore_path (map (replace_seg self) segs) = segs).
    { intros q lead segs Hq Hp Hs. cbn [nodes_ty] in Hs.
      assert (Hs' : self_free (match q with Some (t', _) => nodes_ty t' | None => [] end ++ flat_map nodes_seg segs ++ odd_self false q lead segs))
        by (revert Hs; apply sf_sub; intros; right; assumption).
      apply sf_app in Hs'. destruct Hs' as [Hs1 Hs2]. apply sf_app in Hs2. destruct Hs2 as [Hs2 _].
      rewrite (Hp Hs2).
      assert (underscore_path segs = segs) by (eapply underscore_free; [|exact Hs]; left; reflexivity).
      destruct q as [[t k]|].
      - cbn in Hq. rewrite (Hq Hs1). auto.
      - edestruct not_Self_free as [X Y]; [|exact Hs|]; [left; reflexivity|]. auto. }
    apply syntax_ind.
    - intros q [lead segs] Hq Hp Hs. rewrite r_path. destruct (Hpp q lead segs Hq Hp Hs) as (-> & -> & -> & E). rewrite r_pathc, E. reflexivity.
    - intros lt m t H Hs. rewrite r_ref. cbn [nodes_ty] in Hs. apply sf_app in Hs. rewrite H by apply Hs. reflexivity.
    - intros m t H Hs. rewrite r_ptr. rewrite H by exact Hs. reflexivity.
    - intros l H Hs. rewrite r_tuple. rewrite (unchanged_list _ _ l H Hs). reflexivity.
    - intros t H Hs. rewrite r_slice. rewrite H by exact Hs. reflexivity.
    - intros t e H H' Hs. rewrite r_array. cbn [nodes_ty] in Hs. apply sf_app in Hs. rewrite H, H' by apply Hs. reflexivity.
    - intros lts l o H H' Hs. rewrite r_fn. cbn [nodes_ty] in Hs. apply sf_app in Hs.
      rewrite (unchanged_list _ _ l H (proj1 Hs)), (Ho o H' (proj2 Hs)). reflexivity.
    - intros l H Hs. rewrite r_dyn. rewrite (unchanged_list _ _ l H Hs). reflexivity.
    - intros t H Hs. rewrite r_paren. rewrite H by exact Hs. reflexivity.
    - intros _. reflexivity.
    - intros m ts (Hs & _). destruct (Hs m ts). left. reflexivity.
    - intros lead segs H. apply unchanged_list. exact H.
    - intros i a H Hs. rewrite r_seg. rewrite H by exact Hs. reflexivity.
    - intros _. reflexivity.
    - intros b l H Hs. rewrite r_gangle. rewrite (unchanged_list _ _ l H Hs). reflexivity.
    - intros l o H H' Hs. rewrite r_gparen. cbn [nodes_gargs] in Hs. apply sf_app in Hs.
      rewrite (unchanged_list _ _ l H (proj1 Hs)), (Ho o H' (proj2 Hs)). reflexivity.
    - intros lt _. reflexivity.
    - intros t H Hs. rewrite r_aty. rewrite H by exact Hs. reflexivity.
    - intros t H Hs. rewrite r_aconst. rewrite H by exact Hs. reflexivity.
    - intros i t H Hs. rewrite r_aassoc. rewrite H by exact Hs. reflexivity.
    - intros lt _. reflexivity.
    - intros m lts [lead segs] H Hs. rewrite r_btrait, r_pathc. cbn [nodes_bound] in Hs.
      rewrite H by (revert Hs; apply sf_sub; intros x Hx; right; apply in_or_app; auto).
      erewrite underscore_free; [reflexivity| |exact Hs]. left. reflexivity.
    - intros q [lead segs] Hq Hp Hs. rewrite r_epath.
      destruct (Hpp q lead segs Hq Hp) as (-> & -> & -> & E).
      { revert Hs. apply sf_sub. apply nodes_epath. }
      rewrite r_pathc, E. reflexivity.
    - intros s _. reflexivity.
    - intros g l H H' Hs. rewrite r_ecall. cbn [nodes_expr] in Hs. apply sf_app in Hs.
      rewrite H by apply Hs. rewrite (unchanged_list _ _ l H' (proj2 Hs)). reflexivity.
    - intros m ts (Hs & _). destruct (Hs m ts). left. reflexivity.
  Qed.
End Id.

(** The item's own type. *)
Lemma own_nodes i g x : In x (nodes_ty (tp_ty (self_type i g))) ->
  x = NPath None false [i] \/ x = NOddSelf \/
  (exists lt bs, In (PLt lt bs) (g_params g) /\ x = NLt lt) \/
  (exists j, In j (param_idents (g_params g)) /\ (x = NPath None false [j])).
Proof.
  unfold self_type, tp_ty, self_path. cbn [tp_q tp_path nodes_ty map seg_ident app flat_map nodes_seg]. rewrite app_nil_r.
  intros [<-|H]; [left; reflexivity|]. apply in_app_or in H. destruct H as [H|H].
  - unfold ty_generics in H. destruct (g_params g) as [|p0 ps] eqn:E; [destruct H|]. rewrite <- E in *. clear E.
    cbn [nodes_gargs] in H. apply in_flat_map in H. destruct H as (a & Ha & H). apply in_map_iff in Ha. destruct Ha as (p & <- & Hp).
    assert (Hin : In p (g_params g)).
    { unfold lts_first in Hp. apply in_app_or in Hp. destruct Hp as [Hp|Hp]; apply filter_In in Hp; apply Hp. }
    destruct p as [lt bs|j bs d|j t d].
    + destruct H as [<-|[]]. right. right. left. eauto.
    + cbn [param_arg nodes_garg ty_ident] in H. destruct H as [<-|H].
      * right. right. right. exists j. split; [|reflexivity]. unfold param_idents. apply in_flat_map. eexists. split; [exact Hin|left; reflexivity].
      * right. left. eapply odd_self_only. exact H.
    + cbn [param_arg nodes_garg ty_ident] in H. destruct H as [<-|H].
      * right. right. right. exists j. split; [|reflexivity]. unfold param_idents. apply in_flat_map. eexists. split; [exact Hin|left; reflexivity].
      * right. left. eapply odd_self_only. exact H.
  - right. left. eapply odd_self_only. exact H.
Qed.

Lemma own_self_free i g : ~ named_self i -> (forall j, In j (param_idents (g_params g)) -> ~ named_self j) ->
  self_free (nodes_ty (tp_ty (self_type i g))).
Proof.
  intros Hi Hj. repeat split; intros; intros H; apply own_nodes in H;
    destruct H as [H|[H|[(lt & bs & _ & H)|(j & Hin & H)]]]; try discriminate; injection H; intros; subst;
      [apply Hi|apply (Hj _ Hin)|apply Hi|apply (Hj _ Hin)]; unfold named_self; auto.
Qed.
Lemma c38_visited_again i g : ~ named_self i -> (forall j, In j (param_idents (g_params g)) -> ~ named_self j) ->
  forall self, replace_ty self (tp_ty (own_type i g)) = tp_ty (own_type i g).
Proof.
  intros Hi Hj self. rewrite <- self_type_own. apply (proj1 (replace_unchanged self)). apply own_self_free; assumption.
Qed.

Lemma c38_item U n f i g t : n "Self" = HDone (den_ty (U := U) (mkEnv n f) (tp_ty (own_type i g))) ->
  self_legal (nodes_ty t) -> macros_spelled U n (tp_ty (own_type i g)) (nodes_ty t) ->
  (forall lt bs, In (PLt lt bs) (g_params g) -> ~ binds_ty lt t) ->
  den_ty (mkEnv n f) (replace_ty (own_type i g) t) = den_ty (mkEnv n f) t.
Proof.
  rewrite <- self_type_own. intros H1 H2 H3 H4. apply (c38_ty U n f None (self_path i g)).
  - split; [exact H1|]. intros m ts H. change (TyPath None (self_path i g)) with (tp_ty (self_type i g)) in H. apply own_nodes in H.
    destruct H as [H|[H|[(lt & bs & _ & H)|(j & _ & H)]]]; discriminate.
  - constructor; auto. intros x Hx H. change (TyPath None (self_path i g)) with (tp_ty (self_type i g)) in H. apply own_nodes in H.
    destruct H as [H|[H|[(lt & bs & Hin & H)|(j & _ & H)]]]; try discriminate. injection H as ->. exact (H4 _ _ Hin Hx).
Qed.

(** ** Copies in other places *)
Section Copied.
  Variable U : univ.
  Variables (pin : string) (n n' : string -> head (D U)) (f f' : string -> LT U).
  Variables (i : ident) (g : generics).
  Notation own := (own_type i g).
  Notation self := (tp_ty own).
  Hypothesis Hname : name i <> "Self".
  Hypothesis Hparams : ~ In "Self" (map name (param_idents (g_params g))).
  Hypothesis Hself : n "Self" = HDone (den_ty (mkEnv n f) self).
  Hypothesis Hlts : same_but pin f' f.

  Lemma own_not_Self : ~ looks_up (nodes_ty self) "Self".
  Proof.
    rewrite <- self_type_own. intros (q & j & r & Hin & _ & E). apply own_nodes in Hin.
    destruct Hin as [H|[H|[(lt & bs & _ & H)|(k & Hk & H)]]]; try discriminate; injection H; intros; subst; [contradiction|].
    apply Hparams. rewrite <- E. apply in_map. exact Hk.
  Qed.
  Lemma own_no_macros : macro_free (nodes_ty self).
  Proof.
    rewrite <- self_type_own. intros m ts H. apply own_nodes in H.
    destruct H as [H|[H|[(lt & bs & _ & H)|(j & _ & H)]]]; discriminate.
  Qed.

  Lemma copied_den t : well_written self t -> copied U pin n n' self t ->
    den_ty (mkEnv n' f') (replace_ty own t) = den_ty (mkEnv n f) t.
  Proof.
    intros [W1 W2 W3] [C1 [C2 C2'] C3 C4].
    pose proof (proj1 (nodes_replace own eq_refl) t) as Ho.
    transitivity (den_ty (mkEnv n f) (replace_ty own t)).
    - apply (proj1 (den_agree U (fun x => x = pin) n' n)); [exact Hlts|]. constructor.
      + intros x Hx. apply C1.
        * destruct Hx as (q & j & r & Hin & Hq & <-). apply Ho in Hin. destruct Hin as [Hin|[Hin|(p' & Hin & Ep & _)]].
          -- right. exists q, j, r. auto.
          -- contradiction.
          -- left. destruct p' as [|j' r']; [discriminate|]. assert (name j' = name j).
             { destruct r'; cbn in Ep.
               - injection Ep as -> _. unfold prepend_underscore_to_self. destruct (ident_is j' "self") eqn:E; [|reflexivity].
                 apply ident_is_eq in E. subst j'. destruct (W1 _ _ _ Hin [] [] eq_refl) as (_ & _ & X). congruence.
               - injection Ep as -> _. reflexivity. }
             exists q, j', r'. auto.
        * intros ->. exact (c38_left_ty (tp_path own) own_not_Self t W2 Hx).
      + intros m ts h h' Hin Hh. apply Ho in Hin. destruct Hin as [Hin|(ts' & Hin & ->)]; [destruct (own_no_macros m ts Hin)|].
        apply C4; assumption.
      + intros ? -> Hin. apply Ho in Hin. destruct Hin as [Hin|Hin]; contradiction.
    - apply (c38_ty U n f None (tp_path own)); [split; [exact Hself|exact own_no_macros]|]. constructor; auto.
  Qed.

  Lemma den_private s t : den_ty (mkEnv n' f') (priv s t) = private U s (den_ty (mkEnv n' f') t).
  Proof. reflexivity. Qed.
  Lemma projected_den k fld fld' : field_projected k pin own fld fld' ->
    well_written self (f_ty fld) -> copied U pin n n' self (f_ty fld) ->
    (pinned fld -> den_ty (mkEnv n' f') (f_ty fld') = projected_meaning U k true (f' pin) (den_ty (mkEnv n f) (f_ty fld))) /\
    (~ pinned fld -> den_ty (mkEnv n' f') (f_ty fld') = projected_meaning U k false (f' pin) (den_ty (mkEnv n f) (f_ty fld))).
  Proof.
    intros Hp Hw Hc. split; intros H.
    - rewrite (fp_pinned _ _ _ _ _ Hp H), <- (copied_den _ Hw Hc).
      destruct k; reflexivity.
    - rewrite (fp_unpinned _ _ _ _ _ Hp H), <- (copied_den _ Hw Hc).
      destruct k; reflexivity.
  Qed.
End Copied.

Lemma projected_list U pin n n' f f' i g k l l' :
  name i <> "Self" -> ~ In "Self" (map name (param_idents (g_params g))) ->
  n "Self" = HDone (den_ty (U := U) (mkEnv n f) (tp_ty (own_type i g))) -> same_but pin f' f ->
  (forall fld, In fld l -> well_written (tp_ty (own_type i g)) (f_ty fld) /\ copied U pin n n' (tp_ty (own_type i g)) (f_ty fld)) ->
  Forall2 (field_projected k pin (own_type i g)) l l' ->
  Forall2 (means_projected U k (f' pin) (mkEnv n f) (mkEnv n' f')) l l'.
Proof.
  intros H1 H2 H3 H4 H5 H. induction H as [|x y l l' Hx H IH]; constructor.
  - destruct (H5 x (or_introl eq_refl)) as [Hw Hc].
    destruct (projected_den U pin n n' f f' i g H1 H2 H3 H4 k x y Hx Hw Hc). constructor; [apply Hx|assumption|assumption].
  - apply IH. intros fld Hin. apply H5. right. exact Hin.
Qed.

Lemma c38_struct s e a k : parse_derive (ItStruct s) = Ok e -> options (s_attrs s) a -> struct_has k a = true ->
  name (s_ident s) <> "Self" -> ~ In "Self" (map name (param_idents (g_params (s_generics s)))) ->
  exists pin v gg fs', pin_lifetime (s_generics s) pin /\ In (OStruct v (proj_name k a (s_ident s)) gg fs') (all_items e) /\
  forall U n n' f f',
    let self := tp_ty (own_type (s_ident s) (s_generics s)) in
    n "Self" = HDone (den_ty (U := U) (mkEnv n f) self) -> same_but pin f' f ->
    (forall fld, In fld (fields_list (s_fields s)) -> well_written self (f_ty fld) /\ copied U pin n n' self (f_ty fld)) ->
    Forall2 (means_projected U k (f' pin) (mkEnv n f) (mkEnv n' f')) (fields_list (s_fields s)) (fields_list fs').
Proof.
  intros H1 H2 H3 H4 H5. destruct (c09_struct s e a k H1 H2 H3) as (pin & v & gg & fs' & Hp & Hin & Hf).
  exists pin, v, gg, fs'. split; [exact Hp|]. split; [exact Hin|]. intros U n n' f f' self G1 G2 G3.
  eapply projected_list; try eassumption. inversion Hf; subst; [assumption|assumption|constructor].
Qed.

Lemma c38_enum e x a k : parse_derive (ItEnum e) = Ok x -> options (e_attrs e) a -> enum_has k a = true ->
  name (e_ident e) <> "Self" -> ~ In "Self" (map name (param_idents (g_params (e_generics e)))) ->
  exists pin v gg vs', pin_lifetime (e_generics e) pin /\ In (OEnum v (proj_name k a (e_ident e)) gg vs') (all_items x) /\
  forall U n n' f f',
    let self := tp_ty (own_type (e_ident e) (e_generics e)) in
    n "Self" = HDone (den_ty (U := U) (mkEnv n f) self) -> same_but pin f' f ->
    (forall v fld, In v (e_variants e) -> In fld (fields_list (v_fields v)) ->
       well_written self (f_ty fld) /\ copied U pin n n' self (f_ty fld)) ->
    Forall2 (fun v v' => v_ident v' = v_ident v /\
      Forall2 (means_projected U k (f' pin) (mkEnv n f) (mkEnv n' f')) (fields_list (v_fields v)) (fields_list (v_fields v')))
      (e_variants e) vs'.
Proof.
  intros H1 H2 H3 H4 H5. destruct (c09_enum e x a k H1 H2 H3) as (pin & v & gg & fs' & Hp & Hin & Hf).
  exists pin, v, gg, fs'. split; [exact Hp|]. split; [exact Hin|]. intros U n n' f f' self G1 G2 G3.
  clear Hin. induction Hf as [|y y' l l' Hy Hf IH]; constructor.
  - split; [apply Hy|]. eapply projected_list; try eassumption; [intros fld Hin; apply (G3 y fld (or_introl eq_refl) Hin)|].
    pose proof (vp_fields _ _ _ _ _ Hy) as HF. inversion HF; subst; [assumption|assumption|constructor].
  - apply IH. intros w fld Hw. apply G3. right. exact Hw.
Qed.

(** As in the properties. *)
Lemma c38_ty' U n f q p t : self_is U n f q p -> spellable U n q p (nodes_ty t) (fun x => binds_ty x t) ->
  den_ty (mkEnv n f) (replace_ty (mkTypePath q p) t) = den_ty (mkEnv n f) t.
Proof. intros H. apply c38_ty. exact H. Qed.
Lemma c38_bound' U n f q p b : self_is U n f q p -> spellable U n q p (nodes_bound b) (fun x => binds_bound x b) ->
  den_bound (mkEnv n f) (replace_bound (mkTypePath q p) b) = den_bound (mkEnv n f) b.
Proof. intros H. apply c38_bound. exact H. Qed.
Lemma c38_expr' U n f q p e : self_is U n f q p -> spellable U n q p (nodes_expr e) (fun x => binds_expr x e) ->
  den_expr (mkEnv n f) (replace_expr (mkTypePath q p) e) = den_expr (mkEnv n f) e.
Proof. intros H. apply c38_expr. exact H. Qed.
Lemma c38_generics' U n f q p g : self_is U n f q p -> spellable U n q p (nodes_generics g) (fun x => binds_generics x g) ->
  den_generics (mkEnv n f) (replace_generics (mkTypePath q p) g) = den_generics (mkEnv n f) g.
Proof. intros H. apply c38_generics. exact H. Qed.
Lemma c38_left p : ~ looks_up (nodes_ty (TyPath None p)) "Self" ->
  (forall t, ~ In NOddSelf (nodes_ty t) -> ~ looks_up (nodes_ty (replace_ty (mkTypePath None p) t)) "Self") /\
  (forall b, ~ In NOddSelf (nodes_bound b) -> ~ looks_up (nodes_bound (replace_bound (mkTypePath None p) b)) "Self") /\
  (forall e, ~ In NOddSelf (nodes_expr e) -> ~ looks_up (nodes_expr (replace_expr (mkTypePath None p) e)) "Self").
Proof.
  intros H. split; [apply c38_left_ty; exact H|]. split; [apply c38_left_bound; exact H|apply c38_left_expr; exact H].
Qed.
Lemma c38_unchanged self t :
  (forall m ts, ~ In (NMacro m ts) (nodes_ty t)) -> (forall r, ~ In (NPath None false (I "Self" :: r)) (nodes_ty t)) ->
  (forall q lead, ~ In (NPath q lead [I "self"]) (nodes_ty t)) -> replace_ty self t = t.
Proof. intros H1 H2 H3. apply (proj1 (replace_unchanged self)). repeat split; assumption. Qed.
Lemma c38_own_unchanged i g self : ~ named_self i -> (forall j, In j (param_idents (g_params g)) -> ~ named_self j) ->
  replace_ty self (tp_ty (own_type i g)) = tp_ty (own_type i g).
Proof. intros H1 H2. apply c38_visited_again; assumption. Qed.
