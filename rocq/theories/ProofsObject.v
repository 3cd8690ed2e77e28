(** Default lifetimes of trait objects and the replacement of [Self]. *)
From Coq Require Import String Ascii List Bool.
From Verif Require Import Base Syntax SyntaxInd ModelUtils ModelDerive ModelMeaning ModelObject.
From Verif Require Import SpecArgs SpecDerive SpecLifetime SpecExpand SpecRun SpecMeaning SpecObject.
From Verif Require Import ProofsUtils ProofsExpand ProofsTypes ProofsMeaning ProofsSelf.
Import ListNotations.
Open Scope string_scope.
Open Scope list_scope.

Definition opt_map {A} (f : A -> A) (o : option A) : option A := match o with Some a => Some (f a) | None => None end.
Definition q_map (f : ty -> ty) (q : option (ty * nat)) : option (ty * nat) :=
  match q with Some (t', n) => Some (f t', n) | None => None end.

(** ** Equations *)
Lemma o_path d q p : objects_ty d (TyPath q p) = TyPath (q_map (objects_ty d) q) (objects_path d p). Proof. reflexivity. Qed.
Lemma o_ref d lt m t : objects_ty d (TyRef lt m t) = TyRef lt m (objects_ty (match lt with Some x => x | None => lt_elided end) t).
Proof. reflexivity. Qed.
Lemma o_ptr d m t : objects_ty d (TyPtr m t) = TyPtr m (objects_ty d t). Proof. reflexivity. Qed.
Lemma o_tuple d l : objects_ty d (TyTuple l) = TyTuple (map (objects_ty d) l). Proof. reflexivity. Qed.
Lemma o_slice d t : objects_ty d (TySlice t) = TySlice (objects_ty d t). Proof. reflexivity. Qed.
Lemma o_array d t e : objects_ty d (TyArray t e) = TyArray (objects_ty d t) e. Proof. reflexivity. Qed.
Lemma o_fn d lts l o : objects_ty d (TyFn lts l o) = TyFn lts (map (objects_ty d) l) (opt_map (objects_ty d) o). Proof. reflexivity. Qed.
Lemma o_dyn d bs : objects_ty d (TyDyn bs) = TyDyn (map (objects_bound d) bs ++ (if existsb is_lt_bound bs then [] else [BLt d])).
Proof. reflexivity. Qed.
Lemma o_paren d t : objects_ty d (TyParen t) = TyParen (objects_ty d t). Proof. reflexivity. Qed.
Lemma o_pathc d lead segs : objects_path d (Path lead segs) = Path lead (map (objects_seg d) segs). Proof. reflexivity. Qed.
Lemma o_seg d i a : objects_seg d (Seg i a) = Seg i (objects_gargs d a). Proof. reflexivity. Qed.
Lemma o_gangle d b l : objects_gargs d (GAngle b l) = GAngle b (map objects_garg l). Proof. reflexivity. Qed.
Lemma o_gparen d l o : objects_gargs d (GParen l o) = GParen (map (objects_ty d) l) (opt_map (objects_ty d) o). Proof. reflexivity. Qed.
Lemma o_aty t : objects_garg (ATy t) = ATy (objects_ty lt_of_argument t). Proof. reflexivity. Qed.
Lemma o_aassoc i t : objects_garg (AAssoc i t) = AAssoc i (objects_ty lt_of_argument t). Proof. reflexivity. Qed.
Lemma o_btrait d m lts p : objects_bound d (BTrait m lts p) = BTrait m lts (objects_path d p). Proof. reflexivity. Qed.

Lemma map_comm {A B C D} (f : A -> B) (g : B -> D) (f' : A -> C) (g' : C -> D) l :
  Forall (fun x => g (f x) = g' (f' x)) l -> map g (map f l) = map g' (map f' l).
Proof. intros H. rewrite !map_map. apply map_ext_in. rewrite Forall_forall in H. exact H. Qed.

(** ** Shapes are kept *)
Lemma objects_is_Self d q p : path_is_Self (q_map (objects_ty d) q) (objects_path d p) = path_is_Self q p.
Proof. destruct q as [[t n]|], p as [[] [|[i [|b l|l o]] [|y r]]]; reflexivity. Qed.
Lemma objects_starts_Self d q p : path_starts_Self (q_map (objects_ty d) q) (objects_path d p) = path_starts_Self q p.
Proof. destruct q as [[t n]|], p as [[] [|[i [|b l|l o]] [|y r]]]; reflexivity. Qed.
Lemma objects_underscore d l : map (objects_seg d) (underscore_path l) = underscore_path (map (objects_seg d) l).
Proof. destruct l as [|[i a] [|y r]]; reflexivity. Qed.

Section Replace.
  Variable self : type_path.
  Hypothesis Hself : forall d, objects_ty d (tp_ty self) = tp_ty self.
  Notation R := (replace_ty self).

  Lemma existsb_replace bs : existsb is_lt_bound (map (replace_bound self) bs) = existsb is_lt_bound bs.
  Proof. induction bs as [|[x|m lts p] bs IH]; cbn [map existsb]; rewrite ?IH; reflexivity. Qed.

  Lemma objects_replace :
    (forall t d, objects_ty d (R t) = R (objects_ty d t)) /\
    (forall p, match p with Path _ segs => forall d, map (objects_seg d) (map (replace_seg self) segs) = map (replace_seg self) (map (objects_seg d) segs) end) /\
    (forall s d, objects_seg d (replace_seg self s) = replace_seg self (objects_seg d s)) /\
    (forall a d, objects_gargs d (replace_gargs self a) = replace_gargs self (objects_gargs d a)) /\
    (forall a, objects_garg (replace_garg self a) = replace_garg self (objects_garg a)) /\
    (forall b d, objects_bound d (replace_bound self b) = replace_bound self (objects_bound d b)) /\
    (forall e : expr, True).
  Proof.
    assert (Hl : forall d l, Forall (fun t => forall d, objects_ty d (R t) = R (objects_ty d t)) l ->
      map (objects_ty d) (map R l) = map R (map (objects_ty d) l)).
    { intros d l H. apply map_comm. eapply Forall_impl; [|exact H]. intros t Ht. apply Ht. }
    assert (Ho : forall d o, Po (fun t => forall d, objects_ty d (R t) = R (objects_ty d t)) o ->
      opt_map (objects_ty d) (opt_map R o) = opt_map R (opt_map (objects_ty d) o)).
    { intros d [t|] H; [|reflexivity]. cbn. f_equal. apply H. }
    apply syntax_ind; try (intros; exact Logic.I).
    - intros q [lead segs] Hq Hp d. rewrite o_path, !r_path, objects_is_Self, objects_starts_Self.
      destruct (path_is_Self q _); [apply Hself|]. destruct (path_starts_Self q _).
      + rewrite o_path, !o_pathc. cbn [q_map]. rewrite Hself, objects_underscore.
        do 3 f_equal. rewrite <- Hp. destruct segs; reflexivity.
      + rewrite o_path, o_pathc, !r_pathc, o_pathc, objects_underscore, Hp. f_equal.
        destruct q as [[t n]|]; [|reflexivity]. cbn. do 2 f_equal. apply Hq.
    - intros lt m t H d. rewrite r_ref, !o_ref, r_ref, H. reflexivity.
    - intros m t H d. rewrite r_ptr, !o_ptr, r_ptr, H. reflexivity.
    - intros l H d. rewrite r_tuple, !o_tuple, r_tuple, Hl by exact H. reflexivity.
    - intros t H d. rewrite r_slice, !o_slice, r_slice, H. reflexivity.
    - intros t e H _ d. rewrite r_array, !o_array, r_array, H. reflexivity.
    - intros lts l o H H' d. rewrite r_fn, !o_fn, r_fn, Hl by exact H. f_equal. apply (Ho d o H').
    - intros bs H d. rewrite r_dyn, !o_dyn, r_dyn, map_app, existsb_replace. f_equal. f_equal.
      + apply map_comm. eapply Forall_impl; [|exact H]. intros b Hb. apply Hb.
      + destruct (existsb is_lt_bound bs); reflexivity.
    - intros t H d. rewrite r_paren, !o_paren, r_paren, H. reflexivity.
    - reflexivity.
    - reflexivity.
    - intros lead segs H d. apply map_comm. eapply Forall_impl; [|exact H]. intros s Hs. apply Hs.
    - intros i a H d. rewrite r_seg, !o_seg, r_seg, H. reflexivity.
    - reflexivity.
    - intros b l H d. rewrite r_gangle, !o_gangle, r_gangle. f_equal. apply map_comm. exact H.
    - intros l o H H' d. rewrite r_gparen, !o_gparen, r_gparen, Hl by exact H. f_equal. apply (Ho d o H').
    - reflexivity.
    - intros t H. rewrite r_aty, !o_aty, r_aty, H. reflexivity.
    - intros e _. reflexivity.
    - intros i t H. rewrite r_aassoc, !o_aassoc, r_aassoc, H. reflexivity.
    - reflexivity.
    - intros m lts [lead segs] H d. rewrite r_btrait, !o_btrait, r_btrait, r_pathc, !o_pathc, r_pathc, objects_underscore, H. reflexivity.
  Qed.
End Replace.

Lemma objects_own i g d : objects_ty d (tp_ty (own_type i g)) = tp_ty (own_type i g).
Proof.
  rewrite <- self_type_own. unfold self_type, tp_ty, self_path. cbn [tp_q tp_path]. rewrite o_path, o_pathc. cbn [q_map map]. rewrite o_seg.
  do 4 f_equal. unfold ty_generics. destruct (g_params g) as [|p0 ps] eqn:E; [reflexivity|]. rewrite <- E. clear E.
  rewrite o_gangle. f_equal. rewrite map_map. apply map_ext_in. intros [lt bs|j bs dd|j t dd] _; reflexivity.
Qed.

(** ** Nothing new but lifetimes *)
Definition new_lt (d : string) (x : node) : Prop := x = NLt d \/ x = NLt lt_of_argument \/ x = NLt lt_elided.

Lemma objects_ident d segs : map seg_ident (map (objects_seg d) segs) = map seg_ident segs.
Proof. rewrite map_map. apply map_ext. intros [i a]. reflexivity. Qed.
Lemma objects_odd d tr q lead segs :
  odd_self tr (q_map (objects_ty d) q) lead (map (objects_seg d) segs) = odd_self tr q lead segs.
Proof. destruct lead; [reflexivity|]. destruct segs as [|[i [|b l|l o]] r]; [reflexivity| | |]; destruct q as [[t n]|]; reflexivity. Qed.

Lemma objects_nodes :
  (forall t d x, In x (nodes_ty (objects_ty d t)) -> In x (nodes_ty t) \/ new_lt d x) /\
  (forall p, match p with Path _ segs => forall d x, In x (flat_map nodes_seg (map (objects_seg d) segs)) -> In x (flat_map nodes_seg segs) \/ new_lt d x end) /\
  (forall s d x, In x (nodes_seg (objects_seg d s)) -> In x (nodes_seg s) \/ new_lt d x) /\
  (forall a d x, In x (nodes_gargs (objects_gargs d a)) -> In x (nodes_gargs a) \/ new_lt d x) /\
  (forall a x, In x (nodes_garg (objects_garg a)) -> In x (nodes_garg a) \/ new_lt lt_of_argument x) /\
  (forall b d x, In x (nodes_bound (objects_bound d b)) -> In x (nodes_bound b) \/ new_lt d x) /\
  (forall e : expr, True).
Proof.
  assert (Hlist : forall (A : Type) (nd : A -> list node) (ob : string -> A -> A) d l x,
    Forall (fun a => forall d x, In x (nd (ob d a)) -> In x (nd a) \/ new_lt d x) l ->
    In x (flat_map nd (map (ob d) l)) -> In x (flat_map nd l) \/ new_lt d x).
  { intros A nd ob d l x H Hin. apply in_flat_map in Hin. destruct Hin as (y & Hy & Hin). apply in_map_iff in Hy.
    destruct Hy as (a & <- & Ha). rewrite Forall_forall in H. apply (H a Ha) in Hin. destruct Hin as [Hin|Hin]; [left|auto].
    apply in_flat_map. exists a. auto. }
  assert (Hopt : forall o d x, Po (fun t => forall d x, In x (nodes_ty (objects_ty d t)) -> In x (nodes_ty t) \/ new_lt d x) o ->
    In x (match opt_map (objects_ty d) o with Some t => nodes_ty t | None => [] end) ->
    In x (match o with Some t => nodes_ty t | None => [] end) \/ new_lt d x).
  { intros [t|] d x H Hin; [|destruct Hin]. apply H. exact Hin. }
  apply syntax_ind; try (intros; exact Logic.I).
  - intros q [lead segs] Hq Hp d x. rewrite o_path, o_pathc. cbn [nodes_ty]. rewrite objects_ident, objects_odd.
    intros [H|H].
    + left. left. rewrite <- H. destruct q as [[t n]|]; reflexivity.
    + rewrite !in_app_iff in H. destruct H as [H|[H|H]].
      * destruct q as [[t n]|]; [|destruct H]. apply Hq in H. destruct H as [H|H]; [left; right; apply in_or_app; left; exact H|auto].
      * apply Hp in H. destruct H as [H|H]; [left; right|auto]. rewrite !in_app_iff. auto.
      * left. right. rewrite !in_app_iff. auto.
  - intros lt m t H d x. rewrite o_ref. cbn [nodes_ty]. rewrite !in_app_iff. intros [Hx|Hx]; [auto|].
    apply H in Hx. destruct Hx as [Hx|[Hx|[Hx|Hx]]]; [auto| |right; right; auto|right; right; auto].
    subst x. destruct lt as [x|]; [left; left; left; reflexivity|right; right; right; reflexivity].
  - intros m t H d x. rewrite o_ptr. apply H.
  - intros l H d x. rewrite o_tuple. cbn [nodes_ty]. apply Hlist. exact H.
  - intros t H d x. rewrite o_slice. apply H.
  - intros t e H _ d x. rewrite o_array. cbn [nodes_ty]. rewrite !in_app_iff. intros [Hx|Hx]; [|auto]. apply H in Hx. destruct Hx; auto.
  - intros lts l o H H' d x. rewrite o_fn. cbn [nodes_ty]. rewrite !in_app_iff. intros [Hx|Hx].
    + apply Hlist in Hx; [destruct Hx; auto|exact H].
    + apply (Hopt o d x H') in Hx. destruct Hx; auto.
  - intros bs H d x. rewrite o_dyn. cbn [nodes_ty]. rewrite flat_map_app, in_app_iff. intros [Hx|Hx].
    + apply (Hlist _ nodes_bound objects_bound) in Hx; assumption.
    + destruct (existsb is_lt_bound bs); [destruct Hx|]. destruct Hx as [<-|[]]. right. left. reflexivity.
  - intros t H d x. rewrite o_paren. apply H.
  - auto.
  - auto.
  - intros lead segs H d x. apply (Hlist _ nodes_seg objects_seg). exact H.
  - intros i a H d x. rewrite o_seg. apply H.
  - auto.
  - intros b l H d x. rewrite o_gangle. cbn [nodes_gargs]. intros Hx.
    apply (Hlist _ nodes_garg (fun _ => objects_garg) lt_of_argument) in Hx.
    + destruct Hx as [Hx|[Hx|Hx]]; unfold new_lt; auto.
    + eapply Forall_impl; [|exact H]. intros a Ha d' y Hy. apply Ha in Hy. destruct Hy as [Hy|[Hy|Hy]]; unfold new_lt; auto.
  - intros l o H H' d x. rewrite o_gparen. cbn [nodes_gargs]. rewrite !in_app_iff. intros [Hx|Hx].
    + apply Hlist in Hx; [destruct Hx; auto|exact H].
    + apply (Hopt o d x H') in Hx. destruct Hx; auto.
  - auto.
  - intros t H x. rewrite o_aty. apply H.
  - auto.
  - intros i t H x. rewrite o_aassoc. apply H.
  - auto.
  - intros m lts [lead segs] H d x. rewrite o_btrait, o_pathc. cbn [nodes_bound]. rewrite objects_ident.
    rewrite (objects_odd d true None). intros [Hx|Hx]; [left; left; exact Hx|]. rewrite in_app_iff in Hx. destruct Hx as [Hx|Hx].
    + apply H in Hx. destruct Hx as [Hx|Hx]; [left; right; apply in_or_app; auto|auto].
    + left. right. apply in_or_app. auto.
Qed.

Lemma objects_lts :
  (forall t d, lts_ty (objects_ty d t) = lts_ty t) /\
  (forall p d, lts_path (objects_path d p) = lts_path p) /\
  (forall s d, lts_seg (objects_seg d s) = lts_seg s) /\
  (forall a d, lts_gargs (objects_gargs d a) = lts_gargs a) /\
  (forall a, lts_garg (objects_garg a) = lts_garg a) /\
  (forall b d, lts_bound (objects_bound d b) = lts_bound b) /\
  (forall e : expr, True).
Proof.
  assert (Hlist : forall (A : Type) (nd : A -> list string) (ob : A -> A) l,
    Forall (fun a => nd (ob a) = nd a) l -> flat_map nd (map ob l) = flat_map nd l).
  { intros A nd ob l H. induction H as [|a l Ha H IH]; [reflexivity|]. cbn. rewrite Ha, IH. reflexivity. }
  assert (Hl : forall d l, Forall (fun t => forall d, lts_ty (objects_ty d t) = lts_ty t) l -> flat_map lts_ty (map (objects_ty d) l) = flat_map lts_ty l).
  { intros d l H. apply Hlist. eapply Forall_impl; [|exact H]. intros t Ht. apply Ht. }
  assert (Hopt : forall o d, Po (fun t => forall d, lts_ty (objects_ty d t) = lts_ty t) o ->
    match opt_map (objects_ty d) o with Some t => lts_ty t | None => [] end = match o with Some t => lts_ty t | None => [] end).
  { intros [t|] d H; [|reflexivity]. apply H. }
  apply syntax_ind; try (intros; exact Logic.I); try reflexivity.
  - intros q p Hq Hp d. rewrite o_path. cbn [lts_ty]. rewrite Hp. f_equal. destruct q as [[t n]|]; [apply Hq|reflexivity].
  - intros lt m t H d. rewrite o_ref. apply H.
  - intros m t H d. rewrite o_ptr. apply H.
  - intros l H d. rewrite o_tuple. apply Hl. exact H.
  - intros t H d. rewrite o_slice. apply H.
  - intros t e H _ d. rewrite o_array. cbn [lts_ty]. rewrite H. reflexivity.
  - intros lts l o H H' d. rewrite o_fn. cbn [lts_ty]. rewrite Hl by exact H. do 2 f_equal. apply Hopt. exact H'.
  - intros bs H d. rewrite o_dyn. cbn [lts_ty]. rewrite flat_map_app, Hlist.
    + destruct (existsb is_lt_bound bs); cbn; apply app_nil_r.
    + eapply Forall_impl; [|exact H]. intros b Hb. apply Hb.
  - intros t H d. rewrite o_paren. apply H.
  - intros lead segs H d. rewrite o_pathc. apply Hlist. eapply Forall_impl; [|exact H]. intros s Hs. apply Hs.
  - intros i a H d. rewrite o_seg. apply H.
  - intros b l H d. rewrite o_gangle. apply Hlist. exact H.
  - intros l o H H' d. rewrite o_gparen. cbn [lts_gargs]. rewrite Hl by exact H. f_equal. apply Hopt. exact H'.
  - intros t H. rewrite o_aty. apply H.
  - intros i t H. rewrite o_aassoc. apply H.
  - intros m lts p H d. rewrite o_btrait. cbn [lts_bound]. rewrite H. reflexivity.
Qed.

(** ** Where the default does not matter *)
Lemma bare_or_not_here bs : existsb is_lt_bound bs = true \/ bare_object (TyDyn bs).
Proof.
  destruct (existsb is_lt_bound bs) eqn:E; [auto|]. right. apply BO_here. intros b Hb.
  destruct (is_lt_bound b) eqn:Eb; [|reflexivity]. assert (existsb is_lt_bound bs = true) by (apply existsb_exists; eauto). congruence.
Qed.

Definition bare_gargs (a : gargs) : Prop :=
  match a with GParen l o => (exists t, In t l /\ bare_object t) \/ (exists t, o = Some t /\ bare_object t) | _ => False end.
Definition bare_seg (s : seg) : Prop := match s with Seg _ a => bare_gargs a end.
Lemma bare_segs lead segs s : In s segs -> bare_seg s -> bare_path (Path lead segs).
Proof.
  destruct s as [i [|b l|l o]]; cbn; intros Hs; try contradiction. intros [(t & Hin & H)|(t & -> & H)].
  - eapply BP_arg; eassumption.
  - eapply BP_ret; eassumption.
Qed.

Lemma objects_default d d' :
  (forall t, ~ bare_object t -> objects_ty d t = objects_ty d' t) /\
  (forall p, ~ bare_path p -> objects_path d p = objects_path d' p) /\
  (forall s, ~ bare_seg s -> objects_seg d s = objects_seg d' s) /\
  (forall a, ~ bare_gargs a -> objects_gargs d a = objects_gargs d' a) /\
  (forall a : garg, True) /\
  (forall b, match b with BTrait _ _ p => ~ bare_path p -> objects_path d p = objects_path d' p | BLt _ => True end) /\
  (forall e : expr, True).
Proof.
  assert (Hl : forall l, Forall (fun t => ~ bare_object t -> objects_ty d t = objects_ty d' t) l ->
    (forall t, In t l -> ~ bare_object t) -> map (objects_ty d) l = map (objects_ty d') l).
  { intros l H Hb. apply map_ext_in. intros t Ht. rewrite Forall_forall in H. apply H; [exact Ht|]. apply Hb. exact Ht. }
  apply syntax_ind; try (intros; exact Logic.I); try reflexivity.
  - intros q p Hq Hp Hb. rewrite !o_path. rewrite Hp by (intros X; apply Hb; apply BO_path; exact X). f_equal.
    destruct q as [[t n]|]; [|reflexivity]. cbn. do 2 f_equal. apply Hq. intros X. apply Hb. apply BO_qself. exact X.
  - intros m t H Hb. rewrite !o_ptr, H; [reflexivity|]. intros X. apply Hb. constructor. exact X.
  - intros l H Hb. rewrite !o_tuple. f_equal. apply Hl; [exact H|]. intros t Ht X. apply Hb. eapply BO_tuple; eassumption.
  - intros t H Hb. rewrite !o_slice, H; [reflexivity|]. intros X. apply Hb. constructor. exact X.
  - intros t e H _ Hb. rewrite !o_array, H; [reflexivity|]. intros X. apply Hb. constructor. exact X.
  - intros lts l o H H' Hb. rewrite !o_fn. f_equal.
    + apply Hl; [exact H|]. intros t Ht X. apply Hb. eapply BO_fn; eassumption.
    + destruct o as [t|]; [|reflexivity]. cbn. f_equal. apply H'. intros X. apply Hb. apply BO_fn_ret. exact X.
  - intros bs H Hb. rewrite !o_dyn. destruct (bare_or_not_here bs) as [->|X]; [|contradiction]. rewrite !app_nil_r. f_equal.
    apply map_ext_in. intros [lt|m lts p] Hin; [reflexivity|]. rewrite Forall_forall in H. rewrite !o_btrait. f_equal.
    apply (H _ Hin). intros X. apply Hb. eapply BO_bound; eassumption.
  - intros t H Hb. rewrite !o_paren, H; [reflexivity|]. intros X. apply Hb. constructor. exact X.
  - intros lead segs H Hb. rewrite !o_pathc. f_equal. apply map_ext_in. intros s Hs. rewrite Forall_forall in H. apply H; [exact Hs|].
    intros X. apply Hb. eapply bare_segs; eassumption.
  - intros i a H Hb. rewrite !o_seg, H; [reflexivity|exact Hb].
  - intros l o H H' Hb. rewrite !o_gparen. f_equal.
    + apply Hl; [exact H|]. intros t Ht X. apply Hb. left. eauto.
    + destruct o as [t|]; [|reflexivity]. cbn. f_equal. apply H'. intros X. apply Hb. right. eauto.
  - intros m lts p H. exact H.
Qed.

(** ** Copies with the defaults spelled out *)
Section Copied.
  Variable U : univ.
  Variables (pin : string) (n n' : string -> head (D U)) (f f' : string -> LT U).
  Variables (i : ident) (g : generics).
  Notation own := (own_type i g).
  Notation self := (tp_ty own).
  Hypothesis Hname : name i <> "Self".
  Hypothesis Hparams : ~ In "Self" (map name (param_idents (g_params g))).
  Hypothesis Hself : n "Self" = HDone (den_ty (mkEnv n f) self).
  Hypothesis Hlts : same_but pin f' f.
  Hypothesis Hpin : pin_lifetime g pin.

  Lemma pin_not : NLt pin <> NLt lt_static /\ NLt pin <> NLt lt_of_argument /\ NLt pin <> NLt lt_elided.
  Proof. destruct Hpin as (k & -> & _). repeat split; discriminate. Qed.

  Lemma objects_copied d t : NLt pin <> NLt d -> well_written self t -> copied U pin n n' self t ->
    well_written self (objects_ty d t) /\ copied U pin n n' self (objects_ty d t).
  Proof.
    destruct pin_not as (_ & P2 & P3). intros P1 [W1 W2 W3] [C1 [C2 C2'] C3 C4].
    pose proof (fun x => proj1 objects_nodes t d x) as Hn.
    assert (Hold : forall x, In x (nodes_ty (objects_ty d t)) -> (forall lt, x <> NLt lt) -> In x (nodes_ty t)).
    { intros x Hx Hne. apply Hn in Hx. destruct Hx as [Hx|[Hx|[Hx|Hx]]]; [exact Hx| | |]; destruct (Hne _ Hx). }
    split; constructor.
    - intros q lead p Hin. apply W1 with lead. apply Hold; [exact Hin|discriminate].
    - intros Hin. apply W2. apply Hold; [exact Hin|discriminate].
    - intros x Hx. apply W3. apply (lts_binds x). apply (lts_binds x) in Hx. rewrite (proj1 objects_lts) in Hx. exact Hx.
    - intros x [Hx|Hx] Hs; apply C1; auto. left. destruct Hx as (q & j & r & Hin & Hx). exists q, j, r. split; [|exact Hx].
      apply Hold; [exact Hin|discriminate].
    - split; [|exact C2']. intros Hin. apply Hn in Hin. destruct Hin as [Hin|[Hin|[Hin|Hin]]]; contradiction.
    - intros m ts lf Hin. apply C3. apply Hold; [exact Hin|discriminate].
    - intros m ts h h' Hin. apply C4. apply Hold; [exact Hin|discriminate].
  Qed.

  Lemma objects_den t d : ~ bare_object t -> well_written self t -> copied U pin n n' self t ->
    den_ty (mkEnv n' f') (objects_ty d (replace_ty own t)) = den_ty (mkEnv n f) (field_type t).
  Proof.
    intros Hb Hw Hc. rewrite (proj1 (objects_replace own (fun d => objects_own i g d))).
    rewrite (proj1 (objects_default d lt_static) t Hb).
    destruct (objects_copied lt_static t (proj1 pin_not) Hw Hc) as [Hw' Hc'].
    apply (copied_den U pin n n' f f' i g Hname Hparams Hself Hlts); assumption.
  Qed.

  Lemma projected_objects_den k fld fld' : field_projected k pin own fld fld' -> ~ bare_object (f_ty fld) ->
    well_written self (f_ty fld) -> copied U pin n n' self (f_ty fld) ->
    means_projected_objects U k (f' pin) (mkEnv n f) (mkEnv n' f') fld fld'.
  Proof.
    intros Hp Hb Hw Hc. pose proof (fun d => objects_den _ d Hb Hw Hc) as HD. constructor; [apply Hp| |]; intros H.
    - rewrite (fp_pinned _ _ _ _ _ Hp H). destruct k; cbn [projected_meaning].
      + rewrite <- (HD pin). reflexivity.
      + rewrite <- (HD pin). reflexivity.
      + rewrite <- (HD lt_of_argument). reflexivity.
    - rewrite (fp_unpinned _ _ _ _ _ Hp H). destruct k; cbn [projected_meaning].
      + rewrite <- (HD pin). reflexivity.
      + rewrite <- (HD pin). reflexivity.
      + apply HD.
  Qed.
End Copied.

Lemma projected_objects_list U pin n n' f f' i g k l l' :
  name i <> "Self" -> ~ In "Self" (map name (param_idents (g_params g))) ->
  n "Self" = HDone (den_ty (U := U) (mkEnv n f) (tp_ty (own_type i g))) -> same_but pin f' f -> pin_lifetime g pin ->
  (forall fld, In fld l -> ~ bare_object (f_ty fld) /\
     well_written (tp_ty (own_type i g)) (f_ty fld) /\ copied U pin n n' (tp_ty (own_type i g)) (f_ty fld)) ->
  Forall2 (field_projected k pin (own_type i g)) l l' ->
  Forall2 (means_projected_objects U k (f' pin) (mkEnv n f) (mkEnv n' f')) l l'.
Proof.
  intros H1 H2 H3 H4 H4' H5 H. induction H as [|x y l l' Hx H IH]; constructor.
  - destruct (H5 x (or_introl eq_refl)) as (Hb & Hw & Hc).
    exact (projected_objects_den U pin n n' f f' i g H1 H2 H3 H4 H4' k x y Hx Hb Hw Hc).
  - apply IH. intros fld Hin. apply H5. right. exact Hin.
Qed.

Lemma c45_struct s e a k : parse_derive (ItStruct s) = Ok e -> options (s_attrs s) a -> struct_has k a = true ->
  name (s_ident s) <> "Self" -> ~ In "Self" (map name (param_idents (g_params (s_generics s)))) ->
  exists pin v gg fs', pin_lifetime (s_generics s) pin /\ In (OStruct v (proj_name k a (s_ident s)) gg fs') (all_items e) /\
  forall U n n' f f',
    let self := tp_ty (own_type (s_ident s) (s_generics s)) in
    n "Self" = HDone (den_ty (U := U) (mkEnv n f) self) -> same_but pin f' f ->
    (forall fld, In fld (fields_list (s_fields s)) -> ~ bare_object (f_ty fld) /\
       well_written self (f_ty fld) /\ copied U pin n n' self (f_ty fld)) ->
    Forall2 (means_projected_objects U k (f' pin) (mkEnv n f) (mkEnv n' f')) (fields_list (s_fields s)) (fields_list fs').
Proof.
  intros H1 H2 H3 H4 H5. destruct (c09_struct s e a k H1 H2 H3) as (pin & v & gg & fs' & Hp & Hin & Hf).
  exists pin, v, gg, fs'. split; [exact Hp|]. split; [exact Hin|]. intros U n n' f f' self G1 G2 G3.
  eapply projected_objects_list; try eassumption. inversion Hf; subst; [assumption|assumption|constructor].
Qed.

Lemma c45_enum e x a k : parse_derive (ItEnum e) = Ok x -> options (e_attrs e) a -> enum_has k a = true ->
  name (e_ident e) <> "Self" -> ~ In "Self" (map name (param_idents (g_params (e_generics e)))) ->
  exists pin v gg vs', pin_lifetime (e_generics e) pin /\ In (OEnum v (proj_name k a (e_ident e)) gg vs') (all_items x) /\
  forall U n n' f f',
    let self := tp_ty (own_type (e_ident e) (e_generics e)) in
    n "Self" = HDone (den_ty (U := U) (mkEnv n f) self) -> same_but pin f' f ->
    (forall v fld, In v (e_variants e) -> In fld (fields_list (v_fields v)) -> ~ bare_object (f_ty fld) /\
       well_written self (f_ty fld) /\ copied U pin n n' self (f_ty fld)) ->
    Forall2 (fun v v' => v_ident v' = v_ident v /\
      Forall2 (means_projected_objects U k (f' pin) (mkEnv n f) (mkEnv n' f')) (fields_list (v_fields v)) (fields_list (v_fields v')))
      (e_variants e) vs'.
Proof.
  intros H1 H2 H3 H4 H5. destruct (c09_enum e x a k H1 H2 H3) as (pin & v & gg & fs' & Hp & Hin & Hf).
  exists pin, v, gg, fs'. split; [exact Hp|]. split; [exact Hin|]. intros U n n' f f' self G1 G2 G3.
  clear Hin. induction Hf as [|y y' l l' Hy Hf IH]; constructor.
  - split; [apply Hy|]. eapply projected_objects_list; try eassumption; [intros fld Hin; apply (G3 y fld (or_introl eq_refl) Hin)|].
    pose proof (vp_fields _ _ _ _ _ Hy) as HF. inversion HF; subst; [assumption|assumption|constructor].
  - apply IH. intros w fld Hw. apply G3. right. exact Hw.
Qed.
