(** C44: moving a destructor body into the inner function keeps what its names
    refer to. *)
From Coq Require Import String Ascii List Bool Arith Lia.
From Verif Require Import Base Syntax ModelArgs ModelUtils ModelPinnedDrop SpecPinnedDrop BodyInd.
From Verif Require Import ProofsArgs ProofsUtils ProofsPinnedDrop.
Import ListNotations.
Open Scope string_scope.
Open Scope list_scope.

Lemma flat_map_Forall_eq {A B} (P : A -> Prop) (f g : A -> list B) l :
  Forall P l -> (forall x, P x -> In x l -> f x = g x) -> flat_map f l = flat_map g l.
Proof.
  induction 1 as [|x l Hx _ IH]; intros H; [reflexivity|]. cbn [flat_map]. rewrite (H x Hx (or_introl eq_refl)), IH; [reflexivity|].
  intros y Hy Hin. apply H; [exact Hy|right; exact Hin].
Qed.

(** ** The same body in scopes that agree on the names it mentions *)
Section Ext.
  Variable P : ident -> Prop.
  Definition agree (e1 e2 : scope) : Prop :=
    forall x, P x -> lookup x e1 = lookup x e2 /\ lookup x (items_only e1) = lookup x (items_only e2).
  Definition allP (l : list ident) : Prop := forall x, In x l -> P x.

  Lemma allP_app a b : allP (a ++ b) -> allP a /\ allP b.
  Proof. intros H. split; intros x Hx; apply H; apply in_or_app; auto. Qed.
  Lemma allP_flat {A} (f : A -> list ident) l : allP (flat_map f l) -> forall a, In a l -> allP (f a).
  Proof. intros H a Ha x Hx. apply H. apply in_flat_map. eauto. Qed.

  Lemma lookup_bind_vars x e1 e2 : lookup x e1 = lookup x e2 ->
    forall xs n, lookup x (bind_vars n xs e1) = lookup x (bind_vars n xs e2).
  Proof.
    intros H xs. revert e1 e2 H. induction xs as [|y xs IH]; intros e1 e2 H n; [exact H|]. cbn [bind_vars]. apply IH.
    cbn [lookup]. rewrite H. reflexivity.
  Qed.
  Lemma agree_bind n xs e1 e2 : agree e1 e2 -> agree (bind_vars n xs e1) (bind_vars n xs e2).
  Proof.
    intros H x Hx. rewrite !bind_vars_items. split; [|apply H; exact Hx]. apply lookup_bind_vars. apply H. exact Hx.
  Qed.
  Lemma agree_app b e1 e2 : agree e1 e2 -> agree (b ++ e1) (b ++ e2).
  Proof.
    intros H x Hx. rewrite !items_only_app, !lookup_app. destruct (H x Hx) as [-> ->]. split; reflexivity.
  Qed.
  Lemma agree_items e1 e2 : agree e1 e2 -> agree (items_only e1) (items_only e2).
  Proof. intros H x Hx. rewrite !items_only_idem. split; apply H; exact Hx. Qed.

  Lemma ext_stmts l : Forall (fun s => allP (mentions_stmt s) ->
      forall n d e1 e2, agree e1 e2 -> uses_stmt n d e1 s = uses_stmt n d e2 s) l ->
    allP (flat_map mentions_stmt l) ->
    forall n d e1 e2, agree e1 e2 -> uses_stmts d n e1 l = uses_stmts d n e2 l.
  Proof.
    induction 1 as [|s l Hs _ IH]; intros Hm n d e1 e2 He; [reflexivity|]. cbn [uses_stmts flat_map] in *.
    apply allP_app in Hm. destruct Hm as [H1 H2].
    rewrite (Hs H1 _ _ _ _ He). f_equal. apply IH; [exact H2|]. apply agree_bind. exact He.
  Qed.

  Lemma uses_ext :
    (forall x, allP (mentions x) -> forall n d e1 e2, agree e1 e2 -> uses n d e1 x = uses n d e2 x) /\
    (forall s, allP (mentions_stmt s) -> forall n d e1 e2, agree e1 e2 -> uses_stmt n d e1 s = uses_stmt n d e2 s).
  Proof.
    apply (body_ind
      (fun x => allP (mentions x) -> forall n d e1 e2, agree e1 e2 -> uses n d e1 x = uses n d e2 x)
      (fun s => allP (mentions_stmt s) -> forall n d e1 e2, agree e1 e2 -> uses_stmt n d e1 s = uses_stmt n d e2 s));
      cbn [uses uses_stmt mentions mentions_stmt].
    - intros q p Hm n d e1 e2 He. destruct q; [reflexivity|]. destruct p as [[|] [|[i a] [|]]]; try reflexivity.
      cbn [path_use]. unfold use_of. destruct (He i) as [-> _]; [|reflexivity]. apply Hm. left. reflexivity.
    - reflexivity.
    - intros f l Hf Hl Hm n d e1 e2 He. apply allP_app in Hm. destruct Hm as [H1 H2]. rewrite (Hf H1 _ _ _ _ He).
      f_equal. apply (flat_map_Forall_eq _ _ _ _ Hl). intros x Hx Hin. apply Hx; [|exact He]. exact (allP_flat _ _ H2 x Hin).
    - intros f m t l Hf Hl Hm n d e1 e2 He. apply allP_app in Hm. destruct Hm as [H1 H2]. rewrite (Hf H1 _ _ _ _ He).
      f_equal. apply (flat_map_Forall_eq _ _ _ _ Hl). intros x Hx Hin. apply Hx; [|exact He]. exact (allP_flat _ _ H2 x Hin).
    - auto.
    - intros p fs b Hfs Hb Hm n d e1 e2 He. apply allP_app in Hm. destruct Hm as [H1 H2]. f_equal.
      + apply (flat_map_Forall_eq _ _ _ _ Hfs). intros x Hx Hin. apply Hx; [|exact He]. exact (allP_flat _ _ H1 x Hin).
      + destruct b as [b|]; [|reflexivity]. apply Hb; assumption.
    - auto.
    - intros o a b Ha Hb Hm n d e1 e2 He. apply allP_app in Hm. destruct Hm as [H1 H2].
      rewrite (Ha H1 _ _ _ _ He), (Hb H2 _ _ _ _ He). reflexivity.
    - auto.
    - intros l Hl Hm n d e1 e2 He. apply (ext_stmts l Hl Hm n (S d)). apply agree_app. exact He.
    - intros f arms Hf Ha Hm n d e1 e2 He. apply allP_app in Hm. destruct Hm as [H1 H2].
      rewrite (Hf H1 _ _ _ _ He). f_equal. apply (flat_map_Forall_eq _ _ _ _ Ha). intros a Hx Hin. apply Hx.
      + pose proof (allP_flat _ _ H2 a Hin) as H3. apply allP_app in H3. apply H3.
      + apply agree_bind. exact He.
    - intros ps f Hf Hm n d e1 e2 He. apply allP_app in Hm. apply Hf; [apply Hm|]. apply agree_bind. exact He.
    - reflexivity.
    - intros p t [x|] Hx Hm n d e1 e2 He; [|reflexivity]. apply allP_app in Hm. apply Hx; [apply Hm|exact He].
    - auto.
    - intros a v sg b Hb Hm n d e1 e2 He.
      apply (ext_stmts b Hb) with (d := S d).
      + intros x Hx. apply Hm. right. apply in_or_app. right. exact Hx.
      + apply agree_app. apply agree_bind. apply agree_items. exact He.
    - reflexivity.
    - reflexivity.
  Qed.
End Ext.

(** ** Replacing the receiver *)

Lemma pat_ind' (P : bpat -> Prop) : P QWild -> (forall m x, P (QBind m x)) -> (forall q p, P (QPath q p)) ->
  (forall p fs, Forall (fun f => P (snd f)) fs -> P (QStruct p fs)) ->
  (forall p l, Forall P l -> P (QTupleStruct p l)) -> (forall l, Forall P l -> P (QTuple l)) ->
  (forall m ts, P (QMacro m ts)) -> forall p, P p.
Proof.
  intros H1 H2 H3 H4 H5 H6 H7. fix IH 1. intros [|m x|q p|p fs|p l|l|m ts].
  - exact H1.
  - apply H2.
  - apply H3.
  - apply H4. induction fs as [|[i f] fs IHf]; constructor; [apply IH|exact IHf].
  - apply H5. induction l as [|f fs IHf]; constructor; [apply IH|exact IHf].
  - apply H6. induction l as [|f fs IHf]; constructor; [apply IH|exact IHf].
  - apply H7.
Qed.

Section Moved.
  Variable self : type_path.

  Lemma flat_map_map {A B C} (f : B -> list C) (g : A -> B) l : flat_map f (map g l) = flat_map (fun x => f (g x)) l.
  Proof. induction l as [|x l IH]; [reflexivity|]. cbn. rewrite IH. reflexivity. Qed.

  Lemma pat_vars_replace p : pat_vars (replace_pat self p) = pat_vars p.
  Proof.
    induction p as [|m x|q p|p fs Hfs|p l Hl|l Hl|m ts] using pat_ind'; try reflexivity; cbn [replace_pat pat_vars].
    - destruct (replace_qpath self q p). reflexivity.
    - rewrite flat_map_map. apply (flat_map_Forall_eq _ _ _ _ Hfs). intros x Hx _. exact Hx.
    - rewrite flat_map_map. apply (flat_map_Forall_eq _ _ _ _ Hl). intros x Hx _. exact Hx.
    - rewrite flat_map_map. apply (flat_map_Forall_eq _ _ _ _ Hl). intros x Hx _. exact Hx.
  Qed.
  Lemma stmt_vars_replace s : stmt_vars (replace_bstmt self s) = stmt_vars s.
  Proof. destruct s; try reflexivity. apply pat_vars_replace. Qed.
  Lemma block_items_replace d l : block_items d (map (replace_bstmt self) l) = block_items d l.
  Proof.
    unfold block_items. rewrite flat_map_map. apply flat_map_ext. intros s. destruct s; reflexivity.
  Qed.

  Definition slf := I "self".
  Definition slf' := I "__self".
  (** Names the user's body has to avoid. *)
  Definition plain (x : ident) : Prop := x <> slf' /\ x <> drop_inner_id /\ x <> I "Self".
  Definition bindable (x : ident) : Prop := x <> slf.

  Definition rel (e1 e2 : scope) : Prop :=
    (forall x, plain x -> bindable x -> lookup x e1 = lookup x e2) /\
    (exists l, lookup slf e1 = Some l /\ lookup slf' e2 = Some l) /\
    (forall x, plain x -> lookup x (items_only e1) = lookup x (items_only e2)).

  Lemma rel_bind xs : (forall x, In x xs -> plain x /\ bindable x) ->
    forall n e1 e2, rel e1 e2 -> rel (bind_vars n xs e1) (bind_vars n xs e2).
  Proof.
    induction xs as [|y xs IH]; intros H n e1 e2 He; [exact He|]. cbn [bind_vars].
    apply IH; [intros x Hx; apply H; right; exact Hx|].
    destruct (H y (or_introl eq_refl)) as [[Hy1 [Hy2 Hy3]] Hy4]. destruct He as (Ha & (l & Hl1 & Hl2) & Hc).
    split; [|split].
    - intros x Hp Hx. cbn [lookup]. rewrite (Ha x Hp Hx). reflexivity.
    - exists l. cbn [lookup]. destruct (ident_eqb y slf) eqn:E1; [apply ident_eqb_eq in E1; contradiction|].
      destruct (ident_eqb y slf') eqn:E2; [apply ident_eqb_eq in E2; contradiction|]. split; assumption.
    - exact Hc.
  Qed.
  Lemma lookup_block_none y d l : (forall s, In s l -> forall x, In x (binders_stmt s) -> x <> y) ->
    lookup y (block_items d l) = None.
  Proof.
    intros H. unfold block_items. induction l as [|s l IH]; [reflexivity|]. cbn [flat_map]. rewrite lookup_app.
    assert (IH' := IH (fun s' Hs' => H s' (or_intror Hs'))). clear IH.
    pose proof (H s (or_introl eq_refl)) as Hs.
    destruct s as [p t e|e|a v sg b|x ts|x ts]; try exact IH'; cbn [lookup binders_stmt] in *.
    - destruct (ident_eqb (fs_ident sg) y) eqn:E; [|exact IH']. apply ident_eqb_eq in E. elim (Hs _ (or_introl eq_refl) E).
    - destruct (ident_eqb x y) eqn:E; [|exact IH']. apply ident_eqb_eq in E. elim (Hs _ (or_introl eq_refl) E).
  Qed.
  Lemma binders_mentions : (forall x i, In i (binders x) -> In i (mentions x)) /\
    (forall s i, In i (binders_stmt s) -> In i (mentions_stmt s)).
  Proof.
    assert (FM : forall A (P : A -> Prop) (f g : A -> list ident) l i, Forall P l ->
       (forall a, P a -> In i (f a) -> In i (g a)) -> In i (flat_map f l) -> In i (flat_map g l)).
    { intros A P f g l i F H Hin. apply in_flat_map in Hin. destruct Hin as (a & Ha & Hi). apply in_flat_map. exists a.
      split; [exact Ha|]. apply H; [|exact Hi]. rewrite Forall_forall in F. apply F. exact Ha. }
    apply (body_ind (fun x => forall i, In i (binders x) -> In i (mentions x))
                    (fun s => forall i, In i (binders_stmt s) -> In i (mentions_stmt s)));
      cbn [binders binders_stmt mentions mentions_stmt].
    - intros q p i [].
    - intros s i [].
    - intros f l Hf Hl i H. apply in_app_or in H. apply in_or_app. destruct H as [H|H]; [left; auto|right].
      apply (FM _ _ _ _ _ _ Hl) with (2 := H). auto.
    - intros f m t l Hf Hl i H. apply in_app_or in H. apply in_or_app. destruct H as [H|H]; [left; auto|right].
      apply (FM _ _ _ _ _ _ Hl) with (2 := H). auto.
    - auto.
    - intros p fs b Hfs Hb i H. apply in_app_or in H. apply in_or_app. destruct H as [H|H].
      + left. apply (FM _ _ _ _ _ _ Hfs) with (2 := H). auto.
      + right. destruct b as [b|]; [apply Hb; exact H|exact H].
    - auto.
    - intros o a b Ha Hb i H. apply in_app_or in H. apply in_or_app. destruct H as [H|H]; [left|right]; auto.
    - auto.
    - intros l Hl i H. apply (FM _ _ _ _ _ _ Hl) with (2 := H). auto.
    - intros f arms Hf Ha i H. apply in_app_or in H. apply in_or_app. destruct H as [H|H]; [left; auto|right].
      apply (FM _ _ _ _ _ _ Ha) with (2 := H). intros a Hx Hi.
      apply in_app_or in Hi. apply in_or_app. destruct Hi as [Hi|Hi]; [left|right]; auto.
    - intros ps f Hf i H. apply in_app_or in H. apply in_or_app. destruct H as [H|H]; [left|right]; auto.
    - intros m ts i [].
    - intros p t e He i H. apply in_app_or in H. apply in_or_app. destruct H as [H|H]; [left; exact H|right].
      destruct e as [x|]; [apply He; exact H|exact H].
    - auto.
    - intros a v sg b _ i [<-|[]]. left. reflexivity.
    - intros x ts i [].
    - intros x ts i [<-|[]]. left. reflexivity.
  Qed.

  Lemma rel_block d l e1 e2 :
    (forall x, In x (flat_map mentions_stmt l) -> plain x) ->
    (forall x, In x (flat_map binders_stmt l) -> bindable x) ->
    rel e1 e2 -> rel (block_items d l ++ e1) (block_items d l ++ e2).
  Proof.
    intros Hm Hb (Ha & (lb & Hl1 & Hl2) & Hc). split; [|split].
    - intros x Hp Hx. rewrite !lookup_app, (Ha x Hp Hx). reflexivity.
    - exists lb. rewrite !lookup_app. rewrite !lookup_block_none; [split; assumption| |].
      + intros s Hs x Hx ->. assert (Hin : In slf' (flat_map mentions_stmt l)).
        { apply in_flat_map. exists s. split; [exact Hs|]. apply binders_mentions. exact Hx. }
        exact (proj1 (Hm _ Hin) eq_refl).
      + intros s Hs x Hx E. subst x. apply (Hb slf); [|reflexivity]. apply in_flat_map. eauto.
    - intros x Hp. rewrite !items_only_app, !lookup_app, (Hc x Hp). reflexivity.
  Qed.

  Definition good (m b : list ident) : Prop := (forall x, In x m -> plain x) /\ (forall x, In x b -> bindable x).
  Lemma good_app m1 m2 b1 b2 : good (m1 ++ m2) (b1 ++ b2) -> good m1 b1 /\ good m2 b2.
  Proof.
    intros [Hm Hb]. split; (split; intros x Hx; [apply Hm|apply Hb]; apply in_or_app; auto).
  Qed.
  Lemma good_flat {A} (f g : A -> list ident) l : good (flat_map f l) (flat_map g l) ->
    forall a, In a l -> good (f a) (g a).
  Proof. intros [Hm Hb] a Ha. split; intros x Hx; [apply Hm|apply Hb]; apply in_flat_map; eauto. Qed.
  Lemma good_vars v m b : good (v ++ m) (v ++ b) -> (forall x, In x v -> plain x /\ bindable x) /\ good m b.
  Proof.
    intros H. apply good_app in H. destruct H as [[H1 H2] H3]. split; [|exact H3]. intros x Hx. auto.
  Qed.

  Lemma path_use_replace q p e1 e2 :
    good (match q, p with None, Path false [Seg i _] => [i] | _, _ => [] end) [] -> rel e1 e2 ->
    let '(q', p') := replace_qpath self q p in path_use q' p' e2 = path_use q p e1.
  Proof.
    intros [Hm _] (Ha & (l & Hl1 & Hl2) & Hc). unfold replace_qpath. cbn [replace_expr].
    destruct (path_is_Self q p) eqn:E1.
    { destruct q; [discriminate|]. destruct p as [[|] [|[i [| |]] [|]]]; try discriminate. cbn in E1.
      elim (proj2 (proj2 (Hm i (or_introl eq_refl)))). apply ident_is_eq in E1. exact E1. }
    destruct (path_starts_Self q p) eqn:E2.
    { destruct q; [discriminate|]. destruct p as [[|] [|[i [| |]] [|s2 r]]]; try discriminate. reflexivity. }
    destruct q as [[t n]|]; [reflexivity|]. destruct p as [[|] segs]; [reflexivity|]. cbn [replace_path].
    destruct segs as [|[i a] [|s2 r]]; [reflexivity| |].
    2:{ cbn [map underscore_path replace_seg path_use]. destruct (replace_seg self s2). reflexivity. }
    cbn [map underscore_path replace_seg path_use].
    unfold prepend_underscore_to_self. destruct (ident_is i "self") eqn:E3; cbn [fst]; unfold use_of.
    - apply ident_is_eq in E3. subst i. fold slf. rewrite Hl1.
      match goal with |- context [lookup ?x e2] => change x with slf' end. rewrite Hl2. reflexivity.
    - rewrite <- (Ha i); [reflexivity| |].
      + apply Hm. left. reflexivity.
      + intros ->. discriminate.
  Qed.

  Lemma moved_stmts l : Forall (fun s => good (mentions_stmt s) (binders_stmt s) ->
      forall n d e1 e2, rel e1 e2 -> uses_stmt n d e2 (replace_bstmt self s) = uses_stmt n d e1 s) l ->
    good (flat_map mentions_stmt l) (flat_map binders_stmt l) ->
    forall n d e1 e2, rel e1 e2 -> uses_stmts d n e2 (map (replace_bstmt self) l) = uses_stmts d n e1 l.
  Proof.
    induction 1 as [|s l Hs _ IH]; intros Hg n d e1 e2 He; [reflexivity|]. cbn [uses_stmts flat_map map] in *.
    apply good_app in Hg. destruct Hg as [H1 H2].
    rewrite (Hs H1 _ _ _ _ He), !stmt_vars_replace. f_equal. apply IH; [exact H2|]. apply rel_bind; [|exact He].
    intros x Hx. destruct s as [p t e|e|a v sg b|y ts|y ts]; try contradiction. cbn [stmt_vars mentions_stmt binders_stmt] in *.
    apply good_vars in H1. apply H1. exact Hx.
  Qed.

  Lemma moved_uses :
    (forall x, good (mentions x) (binders x) ->
       forall n d e1 e2, rel e1 e2 -> uses n d e2 (replace_bexpr self x) = uses n d e1 x) /\
    (forall s, good (mentions_stmt s) (binders_stmt s) ->
       forall n d e1 e2, rel e1 e2 -> uses_stmt n d e2 (replace_bstmt self s) = uses_stmt n d e1 s).
  Proof.
    apply (body_ind
      (fun x => good (mentions x) (binders x) ->
         forall n d e1 e2, rel e1 e2 -> uses n d e2 (replace_bexpr self x) = uses n d e1 x)
      (fun s => good (mentions_stmt s) (binders_stmt s) ->
         forall n d e1 e2, rel e1 e2 -> uses_stmt n d e2 (replace_bstmt self s) = uses_stmt n d e1 s));
      cbn [uses uses_stmt mentions mentions_stmt binders binders_stmt replace_bexpr replace_bstmt].
    - intros q p Hg n d e1 e2 He. pose proof (path_use_replace q p e1 e2 Hg He) as H.
      destruct (replace_qpath self q p) as [q' p']. exact H.
    - reflexivity.
    - intros f l Hf Hl Hg n d e1 e2 He. apply good_app in Hg. destruct Hg as [H1 H2]. rewrite (Hf H1 _ _ _ _ He).
      f_equal. rewrite flat_map_map. apply (flat_map_Forall_eq _ _ _ _ Hl). intros x Hx Hin. apply Hx; [|exact He]. exact (good_flat _ _ _ H2 x Hin).
    - intros f m t l Hf Hl Hg n d e1 e2 He. apply good_app in Hg. destruct Hg as [H1 H2]. rewrite (Hf H1 _ _ _ _ He).
      f_equal. rewrite flat_map_map. apply (flat_map_Forall_eq _ _ _ _ Hl). intros x Hx Hin. apply Hx; [|exact He]. exact (good_flat _ _ _ H2 x Hin).
    - auto.
    - intros p fs b Hfs Hb Hg n d e1 e2 He. apply good_app in Hg. destruct Hg as [H1 H2]. f_equal.
      + rewrite flat_map_map. apply (flat_map_Forall_eq _ _ _ _ Hfs). intros x Hx Hin. apply Hx; [|exact He]. exact (good_flat _ _ _ H1 x Hin).
      + destruct b as [b|]; [|reflexivity]. apply Hb; assumption.
    - auto.
    - intros o a b Ha Hb Hg n d e1 e2 He. apply good_app in Hg. destruct Hg as [H1 H2].
      rewrite (Ha H1 _ _ _ _ He), (Hb H2 _ _ _ _ He). reflexivity.
    - auto.
    - intros l Hl Hg n d e1 e2 He. apply (moved_stmts l Hl Hg n (S d)).
      rewrite block_items_replace. apply rel_block; [apply Hg|apply Hg|exact He].
    - intros f arms Hf Ha Hg n d e1 e2 He. apply good_app in Hg. destruct Hg as [H1 H2].
      rewrite (Hf H1 _ _ _ _ He). f_equal. rewrite flat_map_map. apply (flat_map_Forall_eq _ _ _ _ Ha). intros a Hx Hin.
      cbn [fst snd]. rewrite pat_vars_replace. pose proof (good_flat _ _ _ H2 a Hin) as H3. apply good_vars in H3.
      apply Hx; [apply H3|]. apply rel_bind; [apply H3|exact He].
    - intros ps f Hf Hg n d e1 e2 He. apply good_vars in Hg.
      replace (flat_map (fun p : bpat * option ty => pat_vars (fst p))
        (map (fun p : bpat * option ty => (replace_pat self (fst p), option_map (replace_ty self) (snd p))) ps))
        with (flat_map (fun p : bpat * option ty => pat_vars (fst p)) ps).
      2:{ rewrite flat_map_map. apply flat_map_ext. intros p. symmetry. apply pat_vars_replace. }
      apply Hf; [apply Hg|]. apply rel_bind; [apply Hg|exact He].
    - reflexivity.
    - intros p t [x|] Hx Hg n d e1 e2 He; [|reflexivity]. apply good_vars in Hg. apply Hx; [apply Hg|exact He].
    - auto.
    - intros a v sg b Hb Hg n d e1 e2 He. symmetry.
      assert (F : forall l, Forall (fun s => allP plain (mentions_stmt s) ->
        forall n d e1 e2, agree plain e1 e2 -> uses_stmt n d e1 s = uses_stmt n d e2 s) l)
        by (intros l; apply Forall_forall; intros s _; apply (proj2 (uses_ext plain))).
      apply (ext_stmts plain b (F b)) with (d := S d).
      + intros x Hx. apply (proj1 Hg). right. apply in_or_app. right. exact Hx.
      + apply agree_app. apply agree_bind. intros x Hx. rewrite !items_only_idem. split; apply He; exact Hx.
    - reflexivity.
    - reflexivity.
  Qed.

  (** The moved body, with the guard item in front. *)
  Lemma moved_body l :
    good (flat_map mentions_stmt l) (flat_map binders_stmt l) ->
    body_uses 1 [I "__self"] [(I "__drop_inner", Item 0 (I "__drop_inner"))] (dummy_fn :: replace_block self l) =
    body_uses 1 [I "self"] [] l.
  Proof.
    intros Hg. unfold body_uses. cbn [length bind_vars items_only filter snd].
    assert (F : Forall (fun s => good (mentions_stmt s) (binders_stmt s) ->
      forall n d e1 e2, rel e1 e2 -> uses_stmt n d e2 (replace_bstmt self s) = uses_stmt n d e1 s) l)
      by (apply Forall_forall; intros s _; apply moved_uses).
    change (uses_stmts 1 1 ?e (dummy_fn :: ?r)) with (uses_stmts 1 1 e r).
    apply (moved_stmts l F Hg).
    change (block_items 1 (dummy_fn :: replace_block self l)) with
      ((drop_inner_id, Item 1 drop_inner_id) :: block_items 1 (map (replace_bstmt self) l)).
    rewrite block_items_replace.
    assert (R : rel (block_items 1 l ++ [(I "self", Local 0)])
                    (block_items 1 l ++ [(I "__self", Local 0); (I "__drop_inner", Item 0 (I "__drop_inner"))])).
    { apply rel_block; [apply Hg|apply Hg|]. split; [|split].
      - intros x (H1 & H2 & _) H3. cbn [lookup].
        destruct (ident_eqb (I "self") x) eqn:E1; [apply ident_eqb_eq in E1; elim H3; symmetry; exact E1|].
        destruct (ident_eqb (I "__self") x) eqn:E2; [apply ident_eqb_eq in E2; elim H1; symmetry; exact E2|].
        destruct (ident_eqb (I "__drop_inner") x) eqn:E3; [apply ident_eqb_eq in E3; elim H2; symmetry; exact E3|]. reflexivity.
      - exists (Local 0). split; reflexivity.
      - intros x (H1 & H2 & _). cbn [items_only filter snd lookup].
        destruct (ident_eqb (I "__drop_inner") x) eqn:E3; [apply ident_eqb_eq in E3; elim H2; symmetry; exact E3|]. reflexivity. }
    destruct R as (Ra & (lb & Rb1 & Rb2) & Rc). split; [|split].
    - intros x Hp Hx. rewrite (Ra x Hp Hx). cbn [app lookup].
      destruct (ident_eqb drop_inner_id x) eqn:E3; [apply ident_eqb_eq in E3; elim (proj1 (proj2 Hp)); symmetry; exact E3|]. reflexivity.
    - exists lb. split; [exact Rb1|]. cbn [app lookup]. exact Rb2.
    - intros x Hp. rewrite (Rc x Hp). cbn [app].
      match goal with |- _ = lookup _ (items_only (?h :: ?r)) => change (items_only (h :: r)) with (h :: items_only r) end.
      cbn [lookup].
      destruct (ident_eqb drop_inner_id x) eqn:E3; [apply ident_eqb_eq in E3; elim (proj1 (proj2 Hp)); symmetry; exact E3|]. reflexivity.
  Qed.
End Moved.

Lemma pinned_drop_names args im im' m :
  pinned_drop_attribute args im = Ok (PdImpl im') -> im_items im = [IIFn m] ->
  (forall x, In x (flat_map mentions_stmt (mt_block m)) -> x <> I "__self" /\ x <> I "__drop_inner" /\ x <> I "Self") ->
  ~ In (I "self") (flat_map binders_stmt (mt_block m)) ->
  exists m' at' vis' sig' body' rest,
    im_items im' = [IIFn m'] /\ mt_block m' = YFn at' vis' sig' body' :: rest /\
    body_uses 1 (flat_map arg_vars (fs_inputs sig')) [(fs_ident sig', Item 0 (fs_ident sig'))] body' =
    body_uses 1 [I "self"] [] (mt_block m).
Proof.
  intros H Hi Hm Hb. apply pinned_drop_ok in H. destruct H as (m0 & q & p & neg & (_ & _ & Hi' & Hg & _) & _ & _ & ->).
  rewrite Hi in Hi'. injection Hi' as <-.
  do 6 eexists. split; [reflexivity|]. split; [reflexivity|]. cbn [fs_ident replace_sig inner_sig fs_inputs].
  destruct (gd_self _ Hg) as (at_ & mu & t & r & -> & _). cbn [map flat_map replace_fnarg replace_pat arg_vars pat_vars app].
  apply moved_body. split; [exact Hm|]. intros x Hx ->. exact (Hb Hx).
Qed.
