(** The meaning of a type depends only on the names it looks up, and replacing
    [Self] keeps it. *)
From Coq Require Import String List Bool.
From Verif Require Import Base Syntax SyntaxInd ModelUtils ModelMeaning SpecMeaning SpecLifetime ProofsUtils ProofsExpand.
Import ListNotations.
Open Scope string_scope.
Open Scope list_scope.

Section P.
  Variable U : univ.
  Notation E_ := (env (D U) (LT U)).

  (** ** Equations *)
  Lemma d_path E q lead segs : den_ty (U := U) E (TyPath q (Path lead segs)) =
    match q with
    | None => path_of E lead (map (den_seg E) segs)
    | Some (t', n) => qpath_of E (den_ty E t') n lead (map (den_seg E) segs)
    end.
  Proof. reflexivity. Qed.
  Lemma d_epath E q lead segs : den_expr (U := U) E (EPath q (Path lead segs)) =
    match q with
    | None => path_of E lead (map (den_seg E) segs)
    | Some (t', n) => qpath_of E (den_ty E t') n lead (map (den_seg E) segs)
    end.
  Proof. reflexivity. Qed.

  Section Eqs.
    Variable E : E_.
    Lemma d_ref lt m t : den_ty (U := U) E (TyRef lt m t) =
      u_ref U (match lt with Some x => lts_of E x | None => u_elided U end) m (den_ty E t). Proof. reflexivity. Qed.
    Lemma d_ptr m t : den_ty (U := U) E (TyPtr m t) = u_ptr U m (den_ty E t). Proof. reflexivity. Qed.
    Lemma d_tuple l : den_ty (U := U) E (TyTuple l) = u_tuple U (map (den_ty E) l). Proof. reflexivity. Qed.
    Lemma d_slice t : den_ty (U := U) E (TySlice t) = u_slice U (den_ty E t). Proof. reflexivity. Qed.
    Lemma d_array t e : den_ty (U := U) E (TyArray t e) = u_array U (den_ty E t) (den_expr E e). Proof. reflexivity. Qed.
    Lemma d_fn lts l o : den_ty (U := U) E (TyFn lts l o) =
      u_fn U lts (map (den_ty (under lts E)) l) (match o with Some t' => Some (den_ty (under lts E) t') | None => None end).
    Proof. reflexivity. Qed.
    Lemma d_dyn bs : den_ty (U := U) E (TyDyn bs) = u_dyn U (map (den_bound E) bs). Proof. reflexivity. Qed.
    Lemma d_paren t : den_ty (U := U) E (TyParen t) = den_ty E t. Proof. reflexivity. Qed.
    Lemma d_macro m ts : den_ty (U := U) E (TyMacro m ts) = u_macro U E m ts. Proof. reflexivity. Qed.
    Lemma d_seg i a : den_seg (U := U) E (Seg i a) = (name i, den_gargs E a). Proof. reflexivity. Qed.
    Lemma d_gnone : den_gargs (U := U) E GNone = []. Proof. reflexivity. Qed.
    Lemma d_gangle b l : den_gargs (U := U) E (GAngle b l) = map (den_garg E) l. Proof. reflexivity. Qed.
    Lemma d_gparen l o : den_gargs (U := U) E (GParen l o) =
      [DParen (map (den_ty E) l) (match o with Some t => Some (den_ty E t) | None => None end)]. Proof. reflexivity. Qed.
    Lemma d_alt lt : den_garg (U := U) E (ALt lt) = DLt (lts_of E lt). Proof. reflexivity. Qed.
    Lemma d_aty t : den_garg (U := U) E (ATy t) = DTy (den_ty E t). Proof. reflexivity. Qed.
    Lemma d_aconst e : den_garg (U := U) E (AConst e) = DTy (den_expr E e). Proof. reflexivity. Qed.
    Lemma d_aassoc i t : den_garg (U := U) E (AAssoc i t) = DAssoc (name i) (den_ty E t). Proof. reflexivity. Qed.
    Lemma d_blt lt : den_bound (U := U) E (BLt lt) = DBLt (lts_of E lt). Proof. reflexivity. Qed.
    Lemma d_btrait m lts lead segs : den_bound (U := U) E (BTrait m lts (Path lead segs)) =
      DBTrait m lts (path_of (under lts E) lead (map (den_seg (under lts E)) segs)). Proof. reflexivity. Qed.
    Lemma d_ecall f l : den_expr (U := U) E (ECall f l) = u_call U (den_expr E f) (map (den_expr E) l). Proof. reflexivity. Qed.
    Lemma d_emacro m ts : den_expr (U := U) E (EMacro m ts) = u_macro U E m ts. Proof. reflexivity. Qed.
  End Eqs.

  Ltac dd := rewrite ?d_path, ?d_epath, ?d_ref, ?d_ptr, ?d_tuple, ?d_slice, ?d_array, ?d_fn, ?d_dyn, ?d_paren, ?d_macro,
    ?d_seg, ?d_gnone, ?d_gangle, ?d_gparen, ?d_alt, ?d_aty, ?d_aconst, ?d_aassoc, ?d_blt, ?d_btrait, ?d_ecall, ?d_emacro.

  Lemma nodes_epath q lead segs x :
    In x (nodes_ty (TyPath q (Path lead segs))) -> In x (nodes_expr (EPath q (Path lead segs))).
  Proof.
    cbn [nodes_ty nodes_expr]. intros [H|H]; [left; exact H|right]. rewrite !in_app_iff in *. tauto.
  Qed.

  Lemma map_ext_Forall {A B} (f g : A -> B) l : Forall (fun x => f x = g x) l -> map f l = map g l.
  Proof. induction 1; cbn; f_equal; auto. Qed.

  (** ** Agreement *)
  Section Agree.
    Variable hid : string -> Prop.   (* lifetimes that may differ *)
    Definition same_out {A} (f g : string -> A) : Prop := forall x, ~ hid x -> f x = g x.
    Variables n1 n2 : string -> head (D U).
    Record agree_on (l : list node) : Prop := {
      ag_names : forall x, looks_up l x -> n1 x = n2 x;
      ag_macros : forall m ts f g, In (NMacro m ts) l -> same_out f g ->
        u_macro U (mkEnv n1 f) m ts = u_macro U (mkEnv n2 g) m ts;
      ag_pin : forall x, hid x -> ~ In (NLt x) l
    }.

    Lemma agree_sub l l' : (forall x, In x l' -> In x l) -> agree_on l -> agree_on l'.
    Proof.
      intros H [H1 H2 H3]. constructor.
      - intros x (q & i & r & Hin & Hq & Hx). apply H1. exists q, i, r. auto.
      - intros m ts f g Hin. apply H2. auto.
      - intros x Hx Hin. apply (H3 x Hx). auto.
    Qed.
    Lemma agree_app l l' : agree_on (l ++ l') -> agree_on l /\ agree_on l'.
    Proof. intros H. split; revert H; apply agree_sub; intros x Hx; apply in_or_app; auto. Qed.
    Lemma agree_cons x l : agree_on (x :: l) -> agree_on [x] /\ agree_on l.
    Proof. intros H. apply (agree_app [x] l). exact H. Qed.
    Lemma agree_flat {A} (f : A -> list node) l x : agree_on (flat_map f l) -> In x l -> agree_on (f x).
    Proof. intros H Hx. revert H. apply agree_sub. intros y Hy. apply in_flat_map. eauto. Qed.
    Lemma same_bind lts f g : same_out f g -> same_out (bind_lts (U := U) lts f) (bind_lts lts g).
    Proof. intros H x Hx. unfold bind_lts. rewrite (H x Hx). reflexivity. Qed.

    Lemma agree_path lead ss (f g : string -> LT U) l : agree_on [NPath None lead l] ->
      map name l = map fst ss ->
      path_of (mkEnv n1 f) lead ss = path_of (U := U) (mkEnv n2 g) lead ss.
    Proof.
      intros [H _ _] Hl. destruct ss as [|[x a] ss]; [reflexivity|]. cbn.
      destruct l as [|i l]; [discriminate|]. cbn in Hl. injection Hl as <- _.
      destruct lead; [reflexivity|]. rewrite H; [reflexivity|].
      exists None, i, l. split; [left; reflexivity|]. split; [discriminate|reflexivity].
    Qed.
    Lemma agree_qpath d n lead ss (f g : string -> LT U) l : agree_on [NPath (Some n) lead l] ->
      map name l = map fst ss ->
      qpath_of (mkEnv n1 f) d n lead ss = qpath_of (U := U) (mkEnv n2 g) d n lead ss.
    Proof.
      intros [H _ _] Hl. destruct n as [|n]; [reflexivity|]. cbn [qpath_of].
      destruct (skipn (S n) ss) as [|[x a] r]; [reflexivity|]. f_equal. f_equal.
      destruct ss as [|[y b] ss]; [reflexivity|]. cbn.
      destruct l as [|i l]; [discriminate|]. cbn in Hl. injection Hl as <- _.
      destruct lead; [reflexivity|]. rewrite H; [reflexivity|].
      exists (Some (S n)), i, l. split; [left; reflexivity|]. split; [discriminate|reflexivity].
    Qed.
    Lemma seg_names (E : E_) segs : map name (map seg_ident segs) = map fst (map (den_seg E) segs).
    Proof. induction segs as [|[i a] l IH]; cbn; f_equal; auto. Qed.

    Definition same_den {A B} (h : A -> list node) (d : E_ -> A -> B) (x : A) : Prop :=
      forall f g, same_out f g -> agree_on (h x) -> d (mkEnv n1 f) x = d (mkEnv n2 g) x.

    Lemma den_agree :
      (forall t, same_den nodes_ty den_ty t) /\
      (forall p, match p with Path _ segs => same_den (flat_map nodes_seg) (fun E => map (den_seg E)) segs end) /\
      (forall s, same_den nodes_seg den_seg s) /\
      (forall a, same_den nodes_gargs den_gargs a) /\
      (forall a, same_den nodes_garg den_garg a) /\
      (forall b, same_den nodes_bound den_bound b) /\
      (forall e, same_den nodes_expr den_expr e).
    Proof.
      assert (Hl : forall A B (h : A -> list node) (d : E_ -> A -> B) l, Forall (same_den h d) l ->
        same_den (flat_map h) (fun E => map (d E)) l).
      { intros A B h d l HF f g Hs Ha. cbn beta. apply map_ext_Forall. rewrite Forall_forall in *.
        intros x Hx. apply HF; [exact Hx|exact Hs|]. eapply agree_flat; eassumption. }
      assert (Ho : forall o, Po (same_den nodes_ty den_ty) o ->
        same_den (fun o => match o with Some t => nodes_ty t | None => [] end)
                 (fun E o => match o with Some t => Some (den_ty E t) | None => None end) o).
      { intros [t|] H f g Hs Ha; [|reflexivity]. f_equal. apply H; assumption. }
      assert (Hpp : forall q lead segs, Pq (same_den nodes_ty den_ty) q ->
        same_den (flat_map nodes_seg) (fun E => map (den_seg E)) segs ->
        same_den nodes_ty den_ty (TyPath q (Path lead segs))).
      { intros q lead segs Hq Hp f g Hs Ha. cbn [nodes_ty] in Ha. apply agree_cons in Ha. destruct Ha as [Ha Hb].
        apply agree_app in Hb. destruct Hb as [Hb Hc]. apply agree_app in Hc. destruct Hc as [Hc _]. rewrite !d_path.
        specialize (Hp f g Hs Hc). cbn beta in Hp. rewrite Hp. destruct q as [[t n]|].
        - cbn in Hq. rewrite (Hq f g) by assumption. eapply agree_qpath; [exact Ha|apply seg_names].
        - eapply agree_path; [exact Ha|apply seg_names]. }
      assert (Hlt : forall f g x l, same_out f g -> agree_on (NLt x :: l) -> f x = g x :> LT U).
      { intros f g x l Hs [_ _ Hp]. apply Hs. intros Hx. apply (Hp x Hx). left. reflexivity. }
      apply syntax_ind.
      - intros q [lead segs] Hq Hp. apply Hpp; assumption.
      - intros lt m t H f g Hs Ha. cbn [nodes_ty] in Ha. apply agree_app in Ha. dd. cbn [lts_of].
        rewrite (H f g) by (assumption || apply Ha).
        destruct lt as [x|]; [|reflexivity]. rewrite (Hlt f g x [] Hs) by apply Ha. reflexivity.
      - intros m t H f g Hs Ha. dd. rewrite (H f g) by assumption. reflexivity.
      - intros l H f g Hs Ha. dd. pose proof (Hl _ _ _ _ l H f g Hs Ha) as X. cbn beta in X. rewrite X. reflexivity.
      - intros t H f g Hs Ha. dd. rewrite (H f g) by assumption. reflexivity.
      - intros t e H H' f g Hs Ha. cbn [nodes_ty] in Ha. apply agree_app in Ha. dd.
        rewrite (H f g), (H' f g) by (assumption || apply Ha). reflexivity.
      - intros lts l o H H' f g Hs Ha. cbn [nodes_ty] in Ha. apply agree_app in Ha. dd.
        unfold under. cbn [names lts_of].
        pose proof (Hl _ _ _ _ l H _ _ (same_bind lts f g Hs) (proj1 Ha)) as X. cbn beta in X. rewrite X.
        pose proof (Ho o H' _ _ (same_bind lts f g Hs) (proj2 Ha)) as Y. cbn beta in Y. rewrite Y. reflexivity.
      - intros l H f g Hs Ha. dd. pose proof (Hl _ _ _ _ l H f g Hs Ha) as X. cbn beta in X. rewrite X. reflexivity.
      - intros t H f g Hs Ha. dd. apply H; assumption.
      - intros f g Hs Ha. reflexivity.
      - intros m ts f g Hs Ha. dd. apply (ag_macros _ Ha); [left; reflexivity|exact Hs].
      - intros lead segs H. apply (Hl _ _ _ _ segs H).
      - intros i a H f g Hs Ha. dd. rewrite (H f g) by assumption. reflexivity.
      - intros f g Hs Ha. reflexivity.
      - intros b l H f g Hs Ha. dd. apply (Hl _ _ _ _ l H f g Hs Ha).
      - intros l o H H' f g Hs Ha. cbn [nodes_gargs] in Ha. apply agree_app in Ha. dd.
        pose proof (Hl _ _ _ _ l H _ _ Hs (proj1 Ha)) as X. cbn beta in X. rewrite X.
        pose proof (Ho o H' _ _ Hs (proj2 Ha)) as Y. cbn beta in Y. rewrite Y. reflexivity.
      - intros lt f g Hs Ha. dd. cbn [lts_of]. rewrite (Hlt f g lt [] Hs Ha). reflexivity.
      - intros t H f g Hs Ha. dd. rewrite (H f g) by assumption. reflexivity.
      - intros t H f g Hs Ha. dd. rewrite (H f g) by assumption. reflexivity.
      - intros i t H f g Hs Ha. dd. rewrite (H f g) by assumption. reflexivity.
      - intros lt f g Hs Ha. dd. cbn [lts_of]. rewrite (Hlt f g lt [] Hs Ha). reflexivity.
      - intros m lts [lead segs] H f g Hs Ha. cbn [nodes_bound] in Ha. apply agree_cons in Ha. destruct Ha as [Ha Hb].
        apply agree_app in Hb. destruct Hb as [Hb _].
        dd. unfold under. cbn [names lts_of].
        pose proof (H _ _ (same_bind lts f g Hs) Hb) as X. cbn beta in X. rewrite X. f_equal.
        eapply agree_path; [exact Ha|apply seg_names].
      - intros q [lead segs] Hq Hp f g Hs Ha. apply (Hpp q lead segs Hq Hp f g Hs). revert Ha. apply agree_sub.
        apply nodes_epath.
      - intros s f g Hs Ha. reflexivity.
      - intros f0 l H H' f g Hs Ha. cbn [nodes_expr] in Ha. apply agree_app in Ha. dd.
        rewrite (H f g) by (assumption || apply Ha).
        pose proof (Hl _ _ _ _ l H' _ _ Hs (proj2 Ha)) as X. cbn beta in X. rewrite X. reflexivity.
      - intros m ts f g Hs Ha. dd. apply (ag_macros _ Ha); [left; reflexivity|exact Hs].
    Qed.
  End Agree.
  (** ** Lifetimes that are not used do not matter *)
  Section Lts.
    Variable n : string -> head (D U).
    Definition macro_free (l : list node) : Prop := forall m ts, ~ In (NMacro m ts) l.
    Definition lts_agree (l : list node) (f g : string -> LT U) : Prop := forall x, In (NLt x) l -> f x = g x.
    Lemma la_app l l' f g : lts_agree (l ++ l') f g -> lts_agree l f g /\ lts_agree l' f g.
    Proof. intros H. split; intros x Hx; apply H, in_or_app; auto. Qed.
    Lemma la_flat {A} (h : A -> list node) l x f g : lts_agree (flat_map h l) f g -> In x l -> lts_agree (h x) f g.
    Proof. intros H Hx y Hy. apply H. apply in_flat_map. eauto. Qed.
    Lemma la_bind l f g lts : lts_agree l f g -> lts_agree l (bind_lts (U := U) lts f) (bind_lts lts g).
    Proof. intros H x Hx. unfold bind_lts. rewrite (H x Hx). reflexivity. Qed.
    Lemma mf_app l l' : macro_free (l ++ l') -> macro_free l /\ macro_free l'.
    Proof. intros H. split; intros m ts Hx; apply (H m ts), in_or_app; auto. Qed.
    Lemma mf_flat {A} (h : A -> list node) l x : macro_free (flat_map h l) -> In x l -> macro_free (h x).
    Proof. intros H Hx m ts Hy. apply (H m ts). apply in_flat_map. eauto. Qed.
    Lemma mf_cons x l : macro_free (x :: l) -> macro_free l.
    Proof. intros H m ts Hy. apply (H m ts). right. exact Hy. Qed.
    Lemma la_cons x l f g : lts_agree (x :: l) f g -> lts_agree l f g.
    Proof. intros H y Hy. apply H. right. exact Hy. Qed.

    Definition same_lts {A B} (h : A -> list node) (d : E_ -> A -> B) (x : A) : Prop :=
      forall f g, macro_free (h x) -> lts_agree (h x) f g -> d (mkEnv n f) x = d (mkEnv n g) x.

    Lemma path_of_lts f g lead ss : path_of (U := U) (mkEnv n f) lead ss = path_of (mkEnv n g) lead ss.
    Proof. destruct ss as [|[x a] r]; reflexivity. Qed.
    Lemma qpath_of_lts f g d k lead ss : qpath_of (U := U) (mkEnv n f) d k lead ss = qpath_of (mkEnv n g) d k lead ss.
    Proof. destruct k; [reflexivity|]. cbn [qpath_of]. destruct (skipn (S k) ss) as [|[]]; [reflexivity|]. rewrite (path_of_lts f g). reflexivity. Qed.

    Lemma den_lts :
      (forall t, same_lts nodes_ty den_ty t) /\
      (forall p, match p with Path _ segs => same_lts (flat_map nodes_seg) (fun E => map (den_seg E)) segs end) /\
      (forall s, same_lts nodes_seg den_seg s) /\
      (forall a, same_lts nodes_gargs den_gargs a) /\
      (forall a, same_lts nodes_garg den_garg a) /\
      (forall b, same_lts nodes_bound den_bound b) /\
      (forall e, same_lts nodes_expr den_expr e).
    Proof.
      assert (Hl : forall A B (h : A -> list node) (d : E_ -> A -> B) l, Forall (same_lts h d) l ->
        same_lts (flat_map h) (fun E => map (d E)) l).
      { intros A B h d l HF f g Hm Ha. apply map_ext_Forall. rewrite Forall_forall in *. intros x Hx.
        apply HF; [exact Hx|eapply mf_flat; eassumption|eapply la_flat; eassumption]. }
      assert (Ho : forall o, Po (same_lts nodes_ty den_ty) o ->
        same_lts (fun o => match o with Some t => nodes_ty t | None => [] end)
                 (fun E o => match o with Some t => Some (den_ty E t) | None => None end) o).
      { intros [t|] H f g Hm Ha; [|reflexivity]. f_equal. apply H; assumption. }
      assert (Hpp : forall q lead segs, Pq (same_lts nodes_ty den_ty) q ->
        same_lts (flat_map nodes_seg) (fun E => map (den_seg E)) segs ->
        same_lts nodes_ty den_ty (TyPath q (Path lead segs))).
      { intros q lead segs Hq Hp f g Hm Ha. cbn [nodes_ty] in *. apply mf_cons in Hm. apply la_cons in Ha.
        apply mf_app in Hm. apply la_app in Ha. destruct Hm as [Hm0 Hm], Ha as [Ha0 Ha].
        apply mf_app in Hm. apply la_app in Ha. rewrite !d_path. rewrite (Hp f g) by (apply Hm || apply Ha).
        destruct q as [[t k]|]; [|apply path_of_lts].
        cbn in Hq. rewrite (Hq f g) by assumption. apply qpath_of_lts. }
      apply syntax_ind.
      - intros q [lead segs] Hq Hp. apply Hpp; assumption.
      - intros lt m t H f g Hm Ha. cbn [nodes_ty] in *. apply mf_app in Hm. apply la_app in Ha. dd. cbn [lts_of].
        rewrite (H f g) by (apply Hm || apply Ha). destruct lt as [x|]; [|reflexivity].
        rewrite (proj1 Ha x) by (left; reflexivity). reflexivity.
      - intros m t H f g Hm Ha. dd. rewrite (H f g) by assumption. reflexivity.
      - intros l H f g Hm Ha. dd. rewrite (Hl _ _ _ _ l H f g Hm Ha). reflexivity.
      - intros t H f g Hm Ha. dd. rewrite (H f g) by assumption. reflexivity.
      - intros t e H H' f g Hm Ha. cbn [nodes_ty] in *. apply mf_app in Hm. apply la_app in Ha. dd.
        rewrite (H f g) by (apply Hm || apply Ha). rewrite (H' f g) by (apply Hm || apply Ha). reflexivity.
      - intros lts l o H H' f g Hm Ha. cbn [nodes_ty] in *. apply mf_app in Hm. apply la_app in Ha. dd.
        unfold under. cbn [names lts_of].
        rewrite (Hl _ _ _ _ l H (bind_lts lts f) (bind_lts lts g)) by (apply Hm || (apply la_bind; apply Ha)).
        pose proof (Ho o H' (bind_lts lts f) (bind_lts lts g)) as X. cbn beta in X.
        rewrite X by (apply Hm || (apply la_bind; apply Ha)). reflexivity.
      - intros l H f g Hm Ha. dd. rewrite (Hl _ _ _ _ l H f g Hm Ha). reflexivity.
      - intros t H f g Hm Ha. dd. apply H; assumption.
      - intros f g Hm Ha. reflexivity.
      - intros m ts f g Hm Ha. destruct (Hm m ts). left. reflexivity.
      - intros lead segs H. apply (Hl _ _ _ _ segs H).
      - intros i a H f g Hm Ha. dd. rewrite (H f g) by assumption. reflexivity.
      - intros f g Hm Ha. reflexivity.
      - intros b l H f g Hm Ha. dd. apply (Hl _ _ _ _ l H f g Hm Ha).
      - intros l o H H' f g Hm Ha. cbn [nodes_gargs] in *. apply mf_app in Hm. apply la_app in Ha. dd.
        rewrite (Hl _ _ _ _ l H f g) by (apply Hm || apply Ha).
        pose proof (Ho o H' f g) as X. cbn beta in X. rewrite X by (apply Hm || apply Ha). reflexivity.
      - intros lt f g Hm Ha. dd. cbn [lts_of]. rewrite (Ha lt) by (left; reflexivity). reflexivity.
      - intros t H f g Hm Ha. dd. rewrite (H f g) by assumption. reflexivity.
      - intros t H f g Hm Ha. dd. rewrite (H f g) by assumption. reflexivity.
      - intros i t H f g Hm Ha. dd. rewrite (H f g) by assumption. reflexivity.
      - intros lt f g Hm Ha. dd. cbn [lts_of]. rewrite (Ha lt) by (left; reflexivity). reflexivity.
      - intros m lts [lead segs] H f g Hm Ha. cbn [nodes_bound] in *. apply mf_cons in Hm. apply la_cons in Ha.
        apply mf_app in Hm. apply la_app in Ha. destruct Hm as [Hm _], Ha as [Ha _]. dd. unfold under. cbn [names lts_of].
        rewrite (H (bind_lts lts f) (bind_lts lts g) Hm (la_bind _ _ _ _ Ha)).
        rewrite (path_of_lts (bind_lts lts f) (bind_lts lts g)). reflexivity.
      - intros q [lead segs] Hq Hp f g Hm Ha. apply (Hpp q lead segs Hq Hp f g).
        + intros m ts Hx. apply (Hm m ts). apply nodes_epath. exact Hx.
        + intros x Hx. apply Ha. apply nodes_epath. exact Hx.
      - intros s f g Hm Ha. reflexivity.
      - intros f0 l H H' f g Hm Ha. cbn [nodes_expr] in *. apply mf_app in Hm. apply la_app in Ha. dd.
        rewrite (H f g) by (apply Hm || apply Ha). rewrite (Hl _ _ _ _ l H' f g) by (apply Hm || apply Ha). reflexivity.
      - intros m ts f g Hm Ha. destruct (Hm m ts). left. reflexivity.
    Qed.
  End Lts.

  (** ** Replacing [Self] *)
  Section Replace.
    Variable self : type_path.
    Variable n : string -> head (D U).
    Variable f0 : string -> LT U.
    Hypothesis Hself : n "Self" = HDone (den_ty (mkEnv n f0) (tp_ty self)).
    Hypothesis Hmf : macro_free (nodes_ty (tp_ty self)).
    Notation R := (replace_ty self).

    Definition good_lts (f : string -> LT U) : Prop := lts_agree (nodes_ty (tp_ty self)) f f0.
    Lemma self_den f : good_lts f -> den_ty (mkEnv n f) (tp_ty self) = den_ty (U := U) (mkEnv n f0) (tp_ty self).
    Proof. intros H. apply (proj1 (den_lts n)); assumption. Qed.

    Record replaceable (l : list node) (binders : list string) : Prop := {
      rp_self : self_legal l;
      rp_macros : macros_spelled U n (tp_ty self) l;
      rp_value : tp_q self = None \/ ~ In NSelfValue l;
      rp_binders : forall x, In x binders -> ~ In (NLt x) (nodes_ty (tp_ty self))
    }.
    Lemma rp_sub l l' b b' : (forall x, In x l' -> In x l) -> (forall x, In x b' -> In x b) -> replaceable l b -> replaceable l' b'.
    Proof.
      intros H Hb [H1 H2 H3 H4]. constructor.
      - intros q lead p Hin. apply (H1 q lead p). auto.
      - intros m ts lf Hin. apply H2. auto.
      - destruct H3; auto.
      - auto.
    Qed.
    Lemma rp_app l l' b b' : replaceable (l ++ l') (b ++ b') -> replaceable l b /\ replaceable l' b'.
    Proof. intros H. split; revert H; apply rp_sub; intros x Hx; apply in_or_app; auto. Qed.
    Lemma rp_flat {A} (h : A -> list node) (k : A -> list string) l x :
      replaceable (flat_map h l) (flat_map k l) -> In x l -> replaceable (h x) (k x).
    Proof. intros H Hx. revert H. apply rp_sub; intros y Hy; apply in_flat_map; eauto. Qed.
    Lemma good_bind f lts : good_lts f -> (forall x, In x lts -> ~ In (NLt x) (nodes_ty (tp_ty self))) ->
      good_lts (bind_lts (U := U) lts f).
    Proof.
      intros H Hl x Hx. unfold bind_lts. destruct (existsb (String.eqb x) lts) eqn:E; [|apply H; exact Hx].
      apply existsb_exists in E. destruct E as (y & Hy & E). apply String.eqb_eq in E. subst y.
      destruct (Hl x Hy Hx).
    Qed.

    Definition kept {A B} (h : A -> list node) (k : A -> list string) (r : A -> A) (d : E_ -> A -> B) (x : A) : Prop :=
      forall f, good_lts f -> replaceable (h x) (k x) -> d (mkEnv n f) (r x) = d (mkEnv n f) x.

    Lemma underscore_id l q lead : self_legal [NPath q lead (map seg_ident l)] ->
      underscore_path (map (replace_seg self) l) = map (replace_seg self) l.
    Proof.
      destruct l as [|[i a] [|s r]]; try reflexivity. intros H. rewrite map_cons, r_seg. cbn [map underscore_path].
      unfold prepend_underscore_to_self. destruct (ident_is i "self") eqn:E; [|reflexivity].
      unfold ident_is in E. destruct i as [[] x]; [discriminate|]. cbn in E. apply String.eqb_eq in E. subst x.
      destruct (H q lead [I "self"] (or_introl eq_refl) [] [] eq_refl) as (_ & _ & X). congruence.
    Qed.
    Lemma underscore_tl i a s r : self_legal [NPath None false (map seg_ident (Seg i a :: s :: r))] ->
      underscore_path (map (replace_seg self) (s :: r)) = map (replace_seg self) (s :: r).
    Proof.
      destruct s as [j b], r as [|s r]; try reflexivity. intros H. rewrite map_cons, r_seg. cbn [map underscore_path].
      unfold prepend_underscore_to_self. destruct (ident_is j "self") eqn:E; [|reflexivity].
      unfold ident_is in E. destruct j as [[] x]; [discriminate|]. cbn in E. apply String.eqb_eq in E. subst x.
      destruct (H None false [i; I "self"] (or_introl eq_refl) [i] [] eq_refl) as (_ & X & _). discriminate.
    Qed.

    Lemma den_replace :
      (forall t, kept nodes_ty lts_ty R den_ty t) /\
      (forall p, match p with Path _ segs =>
         kept (flat_map nodes_seg) (flat_map lts_seg) (map (replace_seg self)) (fun E => map (den_seg E)) segs end) /\
      (forall s, kept nodes_seg lts_seg (replace_seg self) den_seg s) /\
      (forall a, kept nodes_gargs lts_gargs (replace_gargs self) den_gargs a) /\
      (forall a, kept nodes_garg lts_garg (replace_garg self) den_garg a) /\
      (forall b, kept nodes_bound lts_bound (replace_bound self) den_bound b) /\
      (forall e, kept nodes_expr lts_expr (replace_expr self) den_expr e).
    Proof.
      assert (Hl : forall A B (h : A -> list node) (k : A -> list string) (r : A -> A) (d : E_ -> A -> B) l,
        Forall (kept h k r d) l -> kept (flat_map h) (flat_map k) (map r) (fun E => map (d E)) l).
      { intros A B h k r d l HF f Hf Hr. cbn beta. rewrite map_map. apply map_ext_Forall. rewrite Forall_forall in *.
        intros x Hx. apply HF; [exact Hx|exact Hf|eapply rp_flat; eassumption]. }
      assert (Ho : forall o, Po (kept nodes_ty lts_ty R den_ty) o ->
        kept (fun o => match o with Some t => nodes_ty t | None => [] end)
             (fun o => match o with Some t => lts_ty t | None => [] end)
             (fun o => match o with Some t => Some (R t) | None => None end)
             (fun E o => match o with Some t => Some (den_ty E t) | None => None end) o).
      { intros [t|] H f Hf Hr; [|reflexivity]. f_equal. apply H; assumption. }
      assert (Hsels : forall f s r, good_lts f -> self_legal [NPath None false (map seg_ident (Seg (I "Self") GNone :: s :: r))] ->
        map (den_seg (mkEnv n f)) (map (replace_seg self) (Seg (I "Self") GNone :: s :: r)) =
        map (den_seg (mkEnv n f)) (Seg (I "Self") GNone :: s :: r) ->
        sels (den_ty (mkEnv n f) (tp_ty self))
          (map (den_seg (mkEnv n f)) (underscore_path (skipn 1 (map (replace_seg self) (Seg (I "Self") GNone :: s :: r))))) =
        path_of (U := U) (mkEnv n f) false (map (den_seg (mkEnv n f)) (Seg (I "Self") GNone :: s :: r))).
      { intros f s r Hf Hsl Hm. cbn [skipn]. rewrite map_cons. cbn [skipn].
        rewrite (underscore_tl (I "Self") GNone s r Hsl).
        rewrite !map_cons in Hm. injection Hm as Hs Hr.
        rewrite !map_cons, Hs, Hr. cbn [path_of den_seg name I den_gargs].
        change (names (mkEnv n f) "Self") with (n "Self"). rewrite Hself. cbn [use_head]. rewrite (self_den f Hf). reflexivity. }
      assert (Hpp : forall q lead segs f, Pq (kept nodes_ty lts_ty R den_ty) q ->
        kept (flat_map nodes_seg) (flat_map lts_seg) (map (replace_seg self)) (fun E => map (den_seg E)) segs ->
        good_lts f -> replaceable (nodes_ty (TyPath q (Path lead segs))) (lts_ty (TyPath q (Path lead segs))) ->
        path_is_Self q (Path lead segs) = false ->
        (if path_starts_Self q (Path lead segs) then
           qpath_of (mkEnv n f) (den_ty (mkEnv n f) (tp_ty self)) 0 true
             (map (den_seg (mkEnv n f)) (underscore_path (skipn 1 (map (replace_seg self) segs))))
         else
           match q with
           | Some (t', k) => qpath_of (mkEnv n f) (den_ty (mkEnv n f) (R t')) k lead
               (map (den_seg (mkEnv n f)) (underscore_path (map (replace_seg self) segs)))
           | None => path_of (mkEnv n f) lead (map (den_seg (mkEnv n f)) (underscore_path (map (replace_seg self) segs)))
           end) = den_ty (U := U) (mkEnv n f) (TyPath q (Path lead segs))).
      { intros q lead segs f Hq Hp Hf Hr Hs. cbn [nodes_ty lts_ty lts_path] in Hr.
        assert (Hsl : self_legal [NPath (match q with Some (_, k) => Some k | None => None end) lead (map seg_ident segs)]).
        { intros q' lead' p Hin. apply (rp_self _ _ Hr q' lead' p). destruct Hin as [<-|[]]. left. reflexivity. }
        assert (Hr' : replaceable (flat_map nodes_seg segs) (flat_map lts_seg segs)).
        { revert Hr. apply rp_sub; intros x Hx; [right|]; rewrite !in_app_iff; auto. }
        specialize (Hp f Hf Hr'). cbn beta in Hp. rewrite d_path.
        destruct (path_starts_Self q (Path lead segs)) eqn:E.
        - apply path_starts_Self_true in E. destruct E as (-> & s & r & X). injection X as -> ->.
          cbn [qpath_of]. apply Hsels; assumption.
        - rewrite (underscore_id _ _ _ Hsl), Hp. destruct q as [[t k]|]; [|reflexivity].
          cbn in Hq. rewrite (Hq f Hf); [reflexivity|].
          revert Hr. apply rp_sub; intros x Hx; [right|]; apply in_or_app; left; exact Hx. }
      apply syntax_ind.
      - intros q [lead segs] Hq Hp f Hf Hr. rewrite r_path.
        destruct (path_is_Self q (Path lead segs)) eqn:E.
        { apply path_is_Self_true in E. destruct E as [-> X]. injection X as -> ->.
          rewrite (self_den f Hf), d_path. cbn [map path_of den_seg den_gargs name I sels].
          change (names (mkEnv n f) "Self") with (n "Self"). rewrite Hself. reflexivity. }
        rewrite <- (Hpp q lead segs f Hq Hp Hf Hr E).
        destruct (path_starts_Self q (Path lead segs)); [rewrite d_path; reflexivity|].
        rewrite r_pathc, d_path. destruct q as [[t k]|]; reflexivity.
      - intros lt m t H f Hf Hr. rr; dd. rewrite H; [reflexivity|exact Hf|].
        revert Hr. apply rp_sub; auto. intros x Hx. cbn [nodes_ty]. apply in_or_app. auto.
      - intros m t H f Hf Hr. rr; dd. rewrite H by assumption. reflexivity.
      - intros l H f Hf Hr. rr; dd. pose proof (Hl _ _ _ _ _ _ l H f Hf Hr) as X. cbn beta in X. rewrite X. reflexivity.
      - intros t H f Hf Hr. rr; dd. rewrite H by assumption. reflexivity.
      - intros t e H H' f Hf Hr. rr; dd. cbn [nodes_ty lts_ty] in Hr. apply rp_app in Hr.
        rewrite H, H' by (assumption || apply Hr). reflexivity.
      - intros lts l o H H' f Hf Hr. rr; dd. cbn [nodes_ty lts_ty] in Hr.
        assert (Hb : good_lts (bind_lts lts f)).
        { apply good_bind; [exact Hf|]. intros x Hx. apply (rp_binders _ _ Hr). apply in_or_app. auto. }
        assert (Hr' : replaceable (flat_map nodes_ty l ++ match o with Some t' => nodes_ty t' | None => [] end)
                       (flat_map lts_ty l ++ match o with Some t' => lts_ty t' | None => [] end)).
        { revert Hr. apply rp_sub; auto. intros x Hx. apply in_or_app. auto. }
        apply rp_app in Hr'. unfold under. cbn [names lts_of].
        pose proof (Hl _ _ _ _ _ _ l H _ Hb (proj1 Hr')) as X. cbn beta in X. rewrite X.
        pose proof (Ho o H' _ Hb (proj2 Hr')) as Y. cbn beta in Y. rewrite Y. reflexivity.
      - intros l H f Hf Hr. rr; dd. pose proof (Hl _ _ _ _ _ _ l H f Hf Hr) as X. cbn beta in X. rewrite X. reflexivity.
      - intros t H f Hf Hr. rr; dd. apply H; assumption.
      - intros f Hf Hr. reflexivity.
      - intros m ts f Hf Hr. rr; dd. apply (rp_macros _ _ Hr). left. reflexivity.
      - intros lead segs H. apply (Hl _ _ _ _ _ _ segs H).
      - intros i a H f Hf Hr. rr; dd. rewrite H by assumption. reflexivity.
      - intros f Hf Hr. reflexivity.
      - intros b l H f Hf Hr. rr; dd. apply (Hl _ _ _ _ _ _ l H f Hf Hr).
      - intros l o H H' f Hf Hr. rr; dd. cbn [nodes_gargs lts_gargs] in Hr. apply rp_app in Hr.
        pose proof (Hl _ _ _ _ _ _ l H _ Hf (proj1 Hr)) as X. cbn beta in X. rewrite X.
        pose proof (Ho o H' _ Hf (proj2 Hr)) as Y. cbn beta in Y. rewrite Y. reflexivity.
      - intros lt f Hf Hr. reflexivity.
      - intros t H f Hf Hr. rr; dd. rewrite H by assumption. reflexivity.
      - intros t H f Hf Hr. rr; dd. rewrite H by assumption. reflexivity.
      - intros i t H f Hf Hr. rr; dd. rewrite H by assumption. reflexivity.
      - intros lt f Hf Hr. reflexivity.
      - intros m lts [lead segs] H f Hf Hr. rewrite r_btrait, r_pathc, !d_btrait. cbn [nodes_bound lts_bound lts_path] in Hr.
        rewrite (underscore_id segs None lead).
        + unfold under. cbn [names lts_of]. rewrite H; [reflexivity| |].
          * apply good_bind; [exact Hf|]. intros x Hx. apply (rp_binders _ _ Hr). apply in_or_app. auto.
          * revert Hr. apply rp_sub; intros x Hx; [right; apply in_or_app; auto|apply in_or_app; auto].
        + intros q' lead' p Hin. apply (rp_self _ _ Hr q' lead' p). destruct Hin as [<-|[]]. left. reflexivity.
      - intros q [lead segs] Hq Hp f Hf Hr. rewrite r_epath.
        destruct (path_is_Self q (Path lead segs)) eqn:E.
        { apply path_is_Self_true in E. destruct E as [-> X]. injection X as -> ->.
          destruct (rp_value _ _ Hr) as [Hv|Hv]; [|destruct Hv; cbn; auto].
          assert (den_expr (mkEnv n f) (EPath None (Path false [Seg (I "Self") GNone])) = den_ty (mkEnv n f) (tp_ty self)) as ->.
          { rewrite (self_den f Hf), d_epath. cbn [map path_of den_seg den_gargs name I sels].
            change (names (mkEnv n f) "Self") with (n "Self"). rewrite Hself. reflexivity. }
          unfold self_to_expr_path, tp_ty. rewrite Hv.
          change (ident_is (I "Self") "Self") with true. cbn iota. destruct (tp_path self) as [lead segs].
          rewrite d_epath, d_path, app_nil_r. f_equal. rewrite map_map. apply map_ext.
          intros [i [|[] [|x y]|]]; reflexivity. }
        transitivity (den_ty (mkEnv n f) (TyPath q (Path lead segs))); [|reflexivity].
        rewrite <- (Hpp q lead segs f Hq Hp Hf); [|revert Hr; apply rp_sub; [apply nodes_epath|intros x Hx; exact Hx]|exact E].
        destruct (path_starts_Self q (Path lead segs)); [rewrite d_epath; reflexivity|].
        rewrite r_pathc, d_epath. destruct q as [[t k]|]; reflexivity.
      - intros s f Hf Hr. reflexivity.
      - intros f0' l H H' f Hf Hr. rr; dd. cbn [nodes_expr lts_expr] in Hr. apply rp_app in Hr.
        rewrite H by (assumption || apply Hr). pose proof (Hl _ _ _ _ _ _ l H' _ Hf (proj2 Hr)) as X. cbn beta in X. rewrite X.
        reflexivity.
      - intros m ts f Hf Hr. rr; dd. apply (rp_macros _ _ Hr). left. reflexivity.
    Qed.
  End Replace.
End P.

(** ** What is left of a type after replacing [Self] *)
Section Origin.
  Variable self : type_path.
  Hypothesis Hq : tp_q self = None.

  Definition origin (l : list node) (x : node) : Prop :=
    In x (nodes_ty (tp_ty self)) \/
    match x with
    | NPath q lead p => q = Some 0 \/
        exists p', In (NPath q lead p') l /\ p = replace_ids p' /\
          (lead = false -> forall i r, p = i :: r -> name i = "Self" -> In NOddSelf l)
    | NLt lt => In (NLt lt) l
    | NMacro m ts => exists ts', In (NMacro m ts') l /\ ts = visit_macro (print_ty (tp_ty self)) ts'
    | NSelfValue | NOddSelf => True
    end.
  Lemma origin_sub l l' x : (forall y, In y l -> In y l') -> origin l x -> origin l' x.
  Proof.
    intros H [Hx|Hx]; [left; exact Hx|right]. destruct x as [q lead p|lt|m ts| |]; auto.
    - destruct Hx as [Hx|(p' & A & B & C)]; [left; exact Hx|right]. exists p'. split; [auto|]. split; [exact B|].
      intros D i r F G. apply H. eapply C; eassumption.
    - destruct Hx as (ts' & A & B). eauto.
  Qed.

  Definition from {A} (h : A -> list node) (r : A -> A) (x : A) : Prop := forall y, In y (h (r x)) -> origin (h x) y.

  Lemma from_list {A} (h : A -> list node) (r : A -> A) l : Forall (from h r) l -> from (flat_map h) (map r) l.
  Proof.
    intros H y Hy. apply in_flat_map in Hy. destruct Hy as (z & Hz & Hy). apply in_map_iff in Hz.
    destruct Hz as (x & <- & Hx). rewrite Forall_forall in H. apply (H x Hx) in Hy. revert Hy. apply origin_sub.
    intros w Hw. apply in_flat_map. eauto.
  Qed.
  Lemma seg_ident_replace segs : map seg_ident (map (replace_seg self) segs) = map seg_ident segs.
  Proof. rewrite map_map. apply map_ext. intros [i a]. reflexivity. Qed.
  Lemma seg_ident_underscore segs : map seg_ident (underscore_path segs) = replace_ids (map seg_ident segs).
  Proof. destruct segs as [|[i a] [|]]; reflexivity. Qed.
  Lemma nodes_underscore segs : flat_map nodes_seg (underscore_path segs) = flat_map nodes_seg segs.
  Proof. destruct segs as [|[i a] [|]]; reflexivity. Qed.
  Lemma odd_self_only tr q lead segs x : In x (odd_self tr q lead segs) -> x = NOddSelf.
  Proof.
    unfold odd_self. destruct lead; [intros []|]. destruct segs as [|[i a] r]; [intros []|].
    destruct (String.eqb (name i) "Self"); [|intros []].
    destruct tr, q, a; try (intros [<-|[]]; reflexivity). destruct (ident_eqb i (I "Self")); [intros []|intros [<-|[]]; reflexivity].
  Qed.
  Lemma odd_origin tr q lead segs l x : In x (odd_self tr q lead segs) -> origin l x.
  Proof. intros H. apply odd_self_only in H. subst x. right. exact Logic.I. Qed.
  (** A path that is kept does not start with [Self], unless oddly. *)
  Lemma kept_path q lead segs l :
    In (NPath (match q with Some (_, k) => Some k | None => None end) lead (map seg_ident segs)) l ->
    path_is_Self q (Path lead segs) = false -> path_starts_Self q (Path lead segs) = false ->
    (forall x, In x (odd_self false q lead segs) -> In x l) ->
    origin l (NPath (match q with Some (_, k) => Some k | None => None end) lead
                (map seg_ident (underscore_path (map (replace_seg self) segs)))).
  Proof.
    intros Hin H1 H2 Ho. right. right. exists (map seg_ident segs). split; [exact Hin|].
    rewrite seg_ident_underscore, seg_ident_replace. split; [reflexivity|].
    intros -> i r E En. apply Ho. destruct segs as [|[j a] rest]; [discriminate|].
    assert (name j = "Self") as Hj.
    { destruct rest; cbn in E.
      - unfold prepend_underscore_to_self in E. destruct (ident_is j "self"); cbn in E; injection E as <- _; [discriminate|exact En].
      - injection E as <- _. exact En. }
    cbn [odd_self]. rewrite Hj. cbn [String.eqb Ascii.eqb Bool.eqb].
    destruct q as [[t k]|]; [left; reflexivity|]. destruct a; try (left; reflexivity).
    destruct (ident_eqb j (I "Self")) eqn:F; [|left; reflexivity]. exfalso.
    destruct rest; cbn in H1, H2; unfold ident_is in *; destruct j as [[] x]; cbn in *; congruence.
  Qed.
  Lemma kept_bound lead segs l : In (NPath None lead (map seg_ident segs)) l ->
    (forall x, In x (odd_self true None lead segs) -> In x l) ->
    origin l (NPath None lead (map seg_ident (underscore_path (map (replace_seg self) segs)))).
  Proof.
    intros Hin Ho. right. right. exists (map seg_ident segs). split; [exact Hin|].
    rewrite seg_ident_underscore, seg_ident_replace. split; [reflexivity|].
    intros -> i r E En. apply Ho. destruct segs as [|[j a] rest]; [discriminate|].
    assert (name j = "Self") as Hj.
    { destruct rest; cbn in E.
      - unfold prepend_underscore_to_self in E. destruct (ident_is j "self"); cbn in E; injection E as <- _; [discriminate|exact En].
      - injection E as <- _. exact En. }
    cbn [odd_self]. rewrite Hj. cbn. left. reflexivity.
  Qed.

  Lemma nodes_replace :
    (forall t, from nodes_ty (replace_ty self) t) /\
    (forall p, match p with Path _ segs => from (flat_map nodes_seg) (map (replace_seg self)) segs end) /\
    (forall s, from nodes_seg (replace_seg self) s) /\
    (forall a, from nodes_gargs (replace_gargs self) a) /\
    (forall a, from nodes_garg (replace_garg self) a) /\
    (forall b, from nodes_bound (replace_bound self) b) /\
    (forall e, from nodes_expr (replace_expr self) e).
  Proof.
    assert (Ho : forall o, Po (from nodes_ty (replace_ty self)) o ->
      from (fun o => match o with Some t => nodes_ty t | None => [] end)
           (fun o => match o with Some t => Some (replace_ty self t) | None => None end) o).
    { intros [t|] H; [exact H|intros y []]. }
    assert (Hpp : forall q lead segs y l, Pq (from nodes_ty (replace_ty self)) q ->
      from (flat_map nodes_seg) (map (replace_seg self)) segs ->
      path_is_Self q (Path lead segs) = false ->
      (forall z, In z (nodes_ty (TyPath q (Path lead segs))) -> In z l) ->
      In y (nodes_ty (if path_starts_Self q (Path lead segs) then
                        TyPath (Some (tp_ty self, 0)) (Path true (underscore_path (skipn 1 (map (replace_seg self) segs))))
                      else TyPath (match q with Some (t', n) => Some (replace_ty self t', n) | None => None end)
                             (Path lead (underscore_path (map (replace_seg self) segs))))) ->
      origin l y).
    { intros q lead segs y l Hq' Hp E Hl Hy. cbn [nodes_ty] in Hl.
      assert (Hseg : forall z, In z (flat_map nodes_seg (map (replace_seg self) segs)) -> origin l z).
      { intros z Hz. apply Hp in Hz. revert Hz. apply origin_sub. intros w Hw. apply Hl. right.
        rewrite !in_app_iff. auto. }
      destruct (path_starts_Self q (Path lead segs)) eqn:Es.
      - rewrite (eq_refl : nodes_ty (TyPath (Some (tp_ty self, 0)) (Path true (underscore_path (skipn 1 (map (replace_seg self) segs))))) =
          NPath (Some 0) true (map seg_ident (underscore_path (skipn 1 (map (replace_seg self) segs)))) ::
          nodes_ty (tp_ty self) ++ flat_map nodes_seg (underscore_path (skipn 1 (map (replace_seg self) segs))) ++ []) in Hy.
        destruct Hy as [<-|Hy]; [right; left; reflexivity|]. apply in_app_or in Hy. destruct Hy as [Hy|Hy]; [left; exact Hy|].
        rewrite app_nil_r, nodes_underscore in Hy. apply Hseg. apply in_flat_map in Hy. destruct Hy as (z & Hz & Hy).
        apply in_flat_map. exists z. split; [|exact Hy]. destruct (map (replace_seg self) segs); [destruct Hz|right; exact Hz].
      - cbn [nodes_ty] in Hy. destruct Hy as [<-|Hy].
        + replace (match match q with Some (t', n) => Some (replace_ty self t', n) | None => None end with
                   | Some (_, n) => Some n | None => None end)
            with (match q with Some (_, n) => Some n | None => None end) by (destruct q as [[]|]; reflexivity).
          apply kept_path; [apply Hl; left; reflexivity|exact E|exact Es|].
          intros x Hx. apply Hl. right. rewrite !in_app_iff. auto.
        + apply in_app_or in Hy. destruct Hy as [Hy|Hy].
          * destruct q as [[t n]|]; [|destruct Hy]. cbn in Hq'. apply Hq' in Hy. revert Hy. apply origin_sub.
            intros w Hw. apply Hl. right. rewrite !in_app_iff. auto.
          * apply in_app_or in Hy. destruct Hy as [Hy|Hy]; [|eapply odd_origin; exact Hy].
            rewrite nodes_underscore in Hy. apply Hseg. exact Hy. }
    apply syntax_ind.
    - intros q [lead segs] Hq' Hp y Hy. rewrite r_path in Hy.
      destruct (path_is_Self q (Path lead segs)) eqn:E; [left; exact Hy|].
      eapply (Hpp q lead segs y _ Hq' Hp E); [intros z Hz; exact Hz|].
      destruct (path_starts_Self q (Path lead segs)); [exact Hy|]. rewrite r_pathc in Hy. exact Hy.
    - intros lt m t H y Hy. rewrite r_ref in Hy. cbn [nodes_ty] in *. apply in_app_or in Hy. destruct Hy as [Hy|Hy].
      + destruct lt as [x|]; [|destruct Hy]. destruct Hy as [<-|[]]. right. left. reflexivity.
      + apply H in Hy. revert Hy. apply origin_sub. intros w Hw. apply in_or_app. auto.
    - intros m t H y Hy. rewrite r_ptr in Hy. apply H. exact Hy.
    - intros l H y Hy. rewrite r_tuple in Hy. exact (from_list _ _ l H y Hy).
    - intros t H y Hy. rewrite r_slice in Hy. apply H. exact Hy.
    - intros t e H H' y Hy. rewrite r_array in Hy. cbn [nodes_ty] in *. apply in_app_or in Hy. destruct Hy as [Hy|Hy].
      + apply H in Hy. revert Hy. apply origin_sub. intros w Hw. apply in_or_app. auto.
      + apply H' in Hy. revert Hy. apply origin_sub. intros w Hw. apply in_or_app. auto.
    - intros lts l o H H' y Hy. rewrite r_fn in Hy. cbn [nodes_ty] in *. apply in_app_or in Hy. destruct Hy as [Hy|Hy].
      + apply (from_list _ _ l H) in Hy. revert Hy. apply origin_sub. intros w Hw. apply in_or_app. auto.
      + apply (Ho o H') in Hy. revert Hy. apply origin_sub. intros w Hw. apply in_or_app. auto.
    - intros l H y Hy. rewrite r_dyn in Hy. exact (from_list _ _ l H y Hy).
    - intros t H y Hy. rewrite r_paren in Hy. apply H. exact Hy.
    - intros y [].
    - intros m ts y Hy. rewrite r_macro in Hy. destruct Hy as [<-|[]]. right. exists ts. split; [left; reflexivity|reflexivity].
    - intros lead segs H. apply from_list. exact H.
    - intros i a H y Hy. rewrite r_seg in Hy. apply H. exact Hy.
    - intros y [].
    - intros b l H y Hy. rewrite r_gangle in Hy. exact (from_list _ _ l H y Hy).
    - intros l o H H' y Hy. rewrite r_gparen in Hy. cbn [nodes_gargs] in *. apply in_app_or in Hy. destruct Hy as [Hy|Hy].
      + apply (from_list _ _ l H) in Hy. revert Hy. apply origin_sub. intros w Hw. apply in_or_app. auto.
      + apply (Ho o H') in Hy. revert Hy. apply origin_sub. intros w Hw. apply in_or_app. auto.
    - intros lt y Hy. destruct Hy as [<-|[]]. right. left. reflexivity.
    - intros t H y Hy. rewrite r_aty in Hy. apply H. exact Hy.
    - intros t H y Hy. rewrite r_aconst in Hy. apply H. exact Hy.
    - intros i t H y Hy. rewrite r_aassoc in Hy. apply H. exact Hy.
    - intros lt y Hy. destruct Hy as [<-|[]]. right. left. reflexivity.
    - intros m lts [lead segs] H y Hy. rewrite r_btrait, r_pathc in Hy. cbn [nodes_bound] in *.
      destruct Hy as [<-|Hy].
      + apply kept_bound; [left; reflexivity|]. intros x Hx. right. apply in_or_app. auto.
      + apply in_app_or in Hy. destruct Hy as [Hy|Hy]; [|eapply odd_origin; exact Hy].
        rewrite nodes_underscore in Hy. apply H in Hy. revert Hy. apply origin_sub. intros w Hw. right. apply in_or_app. auto.
    - intros q [lead segs] Hq' Hp y Hy. rewrite r_epath in Hy.
      destruct (path_is_Self q (Path lead segs)) eqn:E.
      { apply path_is_Self_true in E. destruct E as [-> X]. injection X as -> ->.
        unfold self_to_expr_path in Hy. change (ident_is (I "Self") "Self") with true in Hy. cbn iota in Hy.
        assert (Hp1 : forall l', flat_map nodes_seg (map add_turbofish l') = flat_map nodes_seg l').
        { induction l' as [|[i [|[] [|]|]] l' IH]; cbn in *; rewrite ?IH; reflexivity. }
        assert (Hp2 : forall l', map seg_ident (map add_turbofish l') = map seg_ident l').
        { intros l'. rewrite map_map. apply map_ext. intros [i [|[] [|]|]]; reflexivity. }
        unfold origin, tp_ty. rewrite Hq. destruct (tp_path self) as [lead segs]. rewrite app_nil_r in Hy.
        cbn [nodes_expr nodes_ty] in *. rewrite Hp1, Hp2 in Hy.
        destruct Hy as [<-|Hy]; [left; left; reflexivity|]. cbn [app] in *.
        apply in_app_or in Hy. destruct Hy as [Hy|Hy]; [left; right; apply in_or_app; left; exact Hy|].
        apply in_app_or in Hy. destruct Hy as [Hy|Hy]; [apply odd_self_only in Hy; subst y; right; exact Logic.I|].
        right. destruct lead; [destruct Hy|].
        destruct (map add_turbofish segs) as [|[i []] [|]]; try destruct Hy.
        destruct (ident_eqb i (I "Self")); [|destruct Hy]. destruct Hy as [<-|[]]. exact Logic.I. }
      assert (Hsub : forall t y, (exists q' p', t = TyPath q' p' /\ In y (nodes_expr (EPath q' p'))) ->
        In y (nodes_ty t) \/ y = NSelfValue).
      { intros t y' (q' & [lead' segs'] & -> & Hy'). cbn [nodes_expr nodes_ty] in *. destruct Hy' as [Hy'|Hy']; [left; left; exact Hy'|].
        rewrite !in_app_iff in Hy'. destruct Hy' as [Hy'|[Hy'|[Hy'|Hy']]];
          [left; apply in_cons; apply in_or_app; auto|left; apply in_cons; apply in_or_app; right; apply in_or_app; auto
          |left; apply in_cons; apply in_or_app; right; apply in_or_app; auto|right].
        destruct q'; [destruct Hy'|]. destruct lead'; [destruct Hy'|].
        destruct segs' as [|[i []] [|]]; try destruct Hy'.
        destruct (ident_eqb i (I "Self")); [|destruct Hy']. destruct Hy' as [<-|[]]. reflexivity. }
      assert (Hy' : In y (nodes_ty (if path_starts_Self q (Path lead segs) then
                        TyPath (Some (tp_ty self, 0)) (Path true (underscore_path (skipn 1 (map (replace_seg self) segs))))
                      else TyPath (match q with Some (t', n) => Some (replace_ty self t', n) | None => None end)
                             (Path lead (underscore_path (map (replace_seg self) segs))))) \/ y = NSelfValue).
      { apply Hsub. destruct (path_starts_Self q (Path lead segs)); [eauto|]. rewrite r_pathc in Hy. eauto. }
      destruct Hy' as [Hy'| ->]; [|right; exact Logic.I].
      eapply (Hpp q lead segs y _ Hq' Hp E); [intros z Hz; apply nodes_epath; exact Hz|exact Hy'].
    - intros s y [].
    - intros f l H H' y Hy. rewrite r_ecall in Hy. cbn [nodes_expr] in *. apply in_app_or in Hy. destruct Hy as [Hy|Hy].
      + apply H in Hy. revert Hy. apply origin_sub. intros w Hw. apply in_or_app. auto.
      + apply (from_list _ _ l H') in Hy. revert Hy. apply origin_sub. intros w Hw. apply in_or_app. auto.
    - intros m ts y Hy. rewrite r_emacro in Hy. destruct Hy as [<-|[]]. right. exists ts. split; [left; reflexivity|reflexivity].
  Qed.
End Origin.
