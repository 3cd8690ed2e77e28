(** Lemmas about [#[pinned_drop]]. *)
From Coq Require Import String Ascii List Bool Arith Lia.
From Verif Require Import Base Syntax BodyInd ModelArgs ModelUtils ModelPinnedDrop.
From Verif Require Import SpecArgs SpecDerive SpecExpand SpecPinnedDrop ProofsArgs ProofsRepr ProofsDerive.
Import ListNotations.
Open Scope string_scope.
Open Scope list_scope.

(** ** C36 *)
Lemma tpath_is_ident_iff p s : tpath_is_ident p s = true <-> p = Path false [Seg (I s) GNone].
Proof.
  split.
  - destruct p as [[|] [|[i a] [|]]]; cbn; try discriminate; destruct a; try discriminate.
    intros H. apply ident_is_eq in H. subst i. reflexivity.
  - intros ->. cbn. unfold ident_is. cbn. apply String.eqb_refl.
Qed.
Lemma last_snoc {A} (l : list A) x d : last (l ++ [x]) d = x.
Proof.
  induction l as [|y l IH]; [reflexivity|]. cbn [app last].
  destruct (l ++ [x]) eqn:E; [destruct l; discriminate|]. exact IH.
Qed.

Lemma is_pin_mut_self_iff t : is_pin_mut_self t = true <-> pin_mut_self t.
Proof.
  split.
  - unfold is_pin_mut_self. destruct t as [q [lead segs]| | | | | | | | | |]; cbn [get_ty_path]; try discriminate.
    destruct q as [|]; [discriminate|]. cbn [path_segs].
    destruct segs as [|s0 segs0]; [discriminate|].
    destruct (@exists_last _ (s0 :: segs0)) as (l & s & E); [discriminate|]. rewrite E, last_snoc.
    destruct s as [i [|tf args|]]; try discriminate.
    destruct args as [|[|[| lt [|] elem| | | | | | | | |]| |] [|]]; try discriminate.
    all: try (rewrite andb_false_l; discriminate).
    intros H. apply andb_true_iff in H. destruct H as [H1 H2]. cbn in H1. apply ident_is_eq in H1. subst i.
    destruct (get_ty_path elem) as [p'|] eqn:G; [|discriminate].
    destruct elem as [[|] p0| | | | | | | | | |]; try discriminate. cbn in G. injection G as <-.
    apply tpath_is_ident_iff in H2. subst p0. constructor.
  - intros [lead segs tf lt]. unfold is_pin_mut_self. cbn [get_ty_path path_segs]. rewrite last_snoc. reflexivity.
Qed.

Lemma validate_sig_ok s : validate_sig s = Ok tt <->
  fs_ident s = I "drop" /\ fs_unsafe s = false /\
  (exists at_ mu t r, fs_inputs s = [FRecv at_ r mu (Some t)] /\ pin_mut_self t) /\
  (fs_out s = None \/ fs_out s = Some (TyTuple [])).
Proof.
  unfold validate_sig. destruct (ident_is (fs_ident s) "drop") eqn:Ei; cbn [negb].
  2:{ split; [discriminate|]. intros (E & _). apply ident_is_eq in E. congruence. }
  apply ident_is_eq in Ei.
  assert (Ho : (exists m, match fs_out s with
                | None | Some (TyTuple []) => Ok tt
                | Some _ => Err "method `drop` must return the unit type"
                end = @Err unit m) /\ ~ (fs_out s = None \/ fs_out s = Some (TyTuple [])) \/
               match fs_out s with
                | None | Some (TyTuple []) => Ok tt
                | Some _ => Err "method `drop` must return the unit type"
                end = Ok tt /\ (fs_out s = None \/ fs_out s = Some (TyTuple []))).
  { destruct (fs_out s) as [[| | |[|]| | | | | | |]|];
      solve [right; split; [reflexivity|tauto]|left; split; [eexists; reflexivity|intros [H|H]; discriminate]]. }
  destruct Ho as [[[m ->] Hn]|[-> Ho]].
  { cbn [bind]. split; [discriminate|]. intros (_ & _ & _ & H). contradiction. }
  cbn [bind]. split.
  - destruct (fs_inputs s) as [|[at_ r mu c|] [|]]; try discriminate.
    destruct (is_pin_mut_self (recv_ty r mu c)) eqn:E.
    + intros H. assert (Hu : fs_unsafe s = false).
      { destruct (get_ty_path (recv_ty r mu c)) as [[lead [|]]|]; try discriminate; destruct (fs_unsafe s); try discriminate; reflexivity. }
      repeat split; try assumption. apply is_pin_mut_self_iff in E.
      destruct c as [t|]; cbn [recv_ty] in E.
      * exists at_, mu, t, r. auto.
      * exfalso. destruct r; inversion E. destruct segs as [|? [|]]; discriminate.
    + destruct (get_ty_path (recv_ty r mu c)) as [[lead [|]]|]; discriminate.
  - intros (_ & Hu & (at_ & mu & t & r & -> & Hp) & _). cbn [recv_ty].
    pose proof (proj2 (is_pin_mut_self_iff t) Hp) as Hb. rewrite Hb, Hu.
    destruct Hp as [lead segs tf lt]. cbn [get_ty_path]. destruct segs; reflexivity.
Qed.
Lemma validate_sig_good m : validate_sig (mt_sig m) = Ok tt <-> good_drop m.
Proof.
  rewrite validate_sig_ok. split.
  - intros (H1 & H2 & H3 & H4). constructor; assumption.
  - intros [H1 H2 H3 H4]. auto.
Qed.
Lemma validate_sig_panic s m : validate_sig s = Panic m ->
  exists at_ r mu c q lead, fs_inputs s = [FRecv at_ r mu c] /\ c = Some (TyPath q (Path lead [])).
Proof.
  unfold validate_sig. destruct (negb _); [discriminate|].
  destruct (fs_out s) as [[| | |[|]| | | | | | |]|]; cbn [bind]; try discriminate.
  all: destruct (fs_inputs s) as [|[at_ r mu c|] [|]]; try discriminate.
  all: destruct (get_ty_path (recv_ty r mu c)) as [[lead [|]]|] eqn:E;
       [|destruct (is_pin_mut_self _); [destruct (fs_unsafe s)|]; discriminate..].
  all: intros _; destruct c as [t|]; cbn [recv_ty] in E;
       [destruct t as [[|]| | | | | | | | | |]; cbn in E; try discriminate; injection E as ->; do 6 eexists; split; reflexivity
       |destruct r; discriminate].
Qed.

Lemma validate_items_ok l : l <> [] -> (validate_items 0 l = Ok tt <-> exists m, l = [IIFn m] /\ good_drop m).
Proof.
  intros Hn. destruct l as [|it r]; [contradiction|]. cbn [validate_items]. split.
  - destruct it as [n|n|m|]; cbn [bind]; try discriminate.
    destruct (validate_sig (mt_sig m)) as [[]| |] eqn:E; try discriminate. cbn [bind].
    destruct r as [|it2 r2]; [intros _; exists m; split; [reflexivity|apply validate_sig_good; exact E]|].
    cbn [validate_items]. destruct it2 as [n|n|m2|]; cbn [bind]; try discriminate.
    destruct (validate_sig (mt_sig m2)); discriminate.
  - intros (m & E & Hm). injection E as -> ->. apply validate_sig_good in Hm. rewrite Hm. reflexivity.
Qed.

(** The checks before the items. *)
Lemma validate_impl_header im : good_header im ->
  validate_impl im = validate_items 0 (im_items im).
Proof.
  intros [H1 (neg & H2) H3 (q & p & H4) H5]. unfold validate_impl.
  destruct (attrs_find (im_attrs im) "pinned_drop") as [x|] eqn:E.
  { apply find_some in E. destruct E as [Hx E]. apply attr_is_iff in E. elim (H1 x Hx E). }
  rewrite H2, H3, H4. cbn [tpath_is_ident]. destruct (im_items im); [contradiction|reflexivity].
Qed.
Lemma validate_impl_bad im : ~ good_header im -> exists m, validate_impl im = Err m.
Proof.
  intros H. unfold validate_impl. destruct (attrs_find (im_attrs im) "pinned_drop") as [x|] eqn:E; [eauto|].
  destruct (im_trait im) as [[neg p]|] eqn:Et; [|eauto].
  destruct (tpath_is_ident p "PinnedDrop") eqn:Ep; cbn [negb]; [|eauto].
  destruct (im_unsafe im) eqn:Eu; [eauto|]. destruct (im_items im) as [|it r] eqn:Ei; [eauto|].
  destruct (im_self im) as [q sp| | | | | | | | | |] eqn:Es; eauto.
  elim H. constructor.
  - intros x Hx Hn. apply attr_is_iff in Hn. pose proof (find_none _ _ E x Hx) as Hf. cbn in Hf. congruence.
  - exists neg. apply tpath_is_ident_iff in Ep. subst p. exact Et.
  - exact Eu.
  - eauto.
  - congruence.
Qed.
Lemma good_header_dec im : good_header im \/ ~ good_header im.
Proof.
  destruct (attrs_find (im_attrs im) "pinned_drop") as [x|] eqn:E.
  { right. intros [H _ _ _ _]. apply find_some in E. destruct E as [Hx E]. apply attr_is_iff in E. elim (H x Hx E). }
  destruct (im_trait im) as [[neg p]|] eqn:Et; [|right; intros [_ [n H] _ _ _]; congruence].
  destruct (tpath_is_ident p "PinnedDrop") eqn:Ep.
  2:{ right. intros [_ [n H] _ _ _]. rewrite Et in H. injection H as -> ->. discriminate. }
  destruct (im_unsafe im) eqn:Eu; [right; intros [_ _ H _ _]; congruence|].
  destruct (im_items im) as [|it r] eqn:Ei; [right; intros [_ _ _ _ H]; contradiction|].
  destruct (im_self im) as [q sp| | | | | | | | | |] eqn:Es;
    try (right; intros [_ _ _ (q' & p' & H) _]; congruence).
  left. constructor; try eauto.
  - intros x Hx Hn. apply attr_is_iff in Hn. pose proof (find_none _ _ E x Hx) as Hf. cbn in Hf. congruence.
  - exists neg. apply tpath_is_ident_iff in Ep. subst p. exact Et.
  - congruence.
Qed.

Definition pd_accepts (args : list ttree) (im : item_impl) (m : imethod) : Prop :=
  args = [] /\ good_header im /\ im_items im = [IIFn m] /\ good_drop m /\ mt_default m = false.
(** The expansion in closed form. *)
Definition pd_result (q : option (ty * nat)) (p : path) (neg : bool) (im : item_impl) (m : imethod) : item_impl :=
  mkItemImpl (im_attrs im ++ [doc_hidden]) (im_default im) (im_unsafe im) (im_generics im)
    (Some (neg, pinned_drop_trait)) (im_self im)
    [IIFn (outer_method (mkTypePath q p) (im_generics im) m)].

Lemma pinned_drop_ok args im im' : pinned_drop_attribute args im = Ok (PdImpl im') <->
  exists m q p neg, pd_accepts args im m /\ im_self im = TyPath q p /\
    (exists tp, im_trait im = Some (neg, tp)) /\ im' = pd_result q p neg im m.
Proof.
  unfold pinned_drop_attribute, pd_accepts. destruct args as [|t ts].
  2:{ split; [discriminate|]. intros (m & q & p & neg & (E & _) & _). discriminate. }
  destruct (good_header_dec im) as [Hh|Hh].
  2:{ destruct (validate_impl_bad _ Hh) as [e ->]. cbn [bind]. split; [discriminate|].
      intros (m & q & p & neg & (_ & H & _) & _). contradiction. }
  rewrite validate_impl_header by exact Hh. pose proof Hh as [_ (neg & Ht) _ (q & p & Hs) Hi].
  split.
  - destruct (validate_items 0 (im_items im)) as [[]| |] eqn:E; cbn [bind]; try discriminate.
    apply validate_items_ok in E; [|exact Hi]. destruct E as (m & Em & Hm).
    unfold expand_impl. rewrite Em, Hs, Ht. destruct (mt_default m) eqn:Ed; [discriminate|].
    intros H. injection H as <-. exists m, q, p, neg.
    repeat split; try assumption; try apply Hh; try apply Hm; eauto. unfold pd_result. rewrite Hs. reflexivity.
  - intros (m & q' & p' & neg' & (_ & _ & Em & Hm & Hd) & Hs' & (tp & Ht') & ->).
    rewrite (proj2 (validate_items_ok _ Hi)) by (exists m; auto). cbn [bind].
    unfold expand_impl, pd_result. rewrite Em, Hs', Ht', Hd. reflexivity.
Qed.
Lemma pinned_drop_accepted args im :
  (exists im', pinned_drop_attribute args im = Ok (PdImpl im')) <->
  args = [] /\ good_header im /\ exists m, im_items im = [IIFn m] /\ good_drop m /\ mt_default m = false.
Proof.
  split.
  - intros [im' H]. apply pinned_drop_ok in H. destruct H as (m & q & p & neg & (H1 & H2 & H3) & _). eauto.
  - intros (H1 & H2 & m & H3). destruct H2 as [Ha [neg Ht] Hu (q & p & Hs) Hi] eqn:E.
    eexists. apply pinned_drop_ok. exists m, q, p, neg. unfold pd_accepts. split; [auto|]. split; [exact Hs|]. eauto.
Qed.

(** ** C41 *)
Lemma pinned_drop_panic args im : impl_wf im ->
  (exists m, pinned_drop_attribute args im = Panic m) <->
  args = [] /\ good_header im /\
  ((exists r, im_items im = IIOther :: r) \/
   (exists m r, im_items im = IIFn m :: IIOther :: r /\ good_drop m) \/
   (exists m, im_items im = [IIFn m] /\ good_drop m /\ mt_default m = true)).
Proof.
  intros Hwf. unfold pinned_drop_attribute. destruct args as [|t ts].
  2:{ split; [intros [m H]; discriminate|intros (E & _); discriminate]. }
  destruct (good_header_dec im) as [Hh|Hh].
  2:{ destruct (validate_impl_bad _ Hh) as [e ->]. cbn [bind]. split; [intros [m H]; discriminate|].
      intros (_ & H & _). contradiction. }
  rewrite validate_impl_header by exact Hh. pose proof Hh as [_ (neg & Ht) _ (q & p & Hs) Hi].
  assert (Hsig : forall m e, In (IIFn m) (im_items im) -> validate_sig (mt_sig m) <> Panic e).
  { intros m e Hm E. apply validate_sig_panic in E. destruct E as (at_ & r & mu & c & q' & lead & E1 & E2).
    assert (Hr : receiver_wf (FRecv at_ r mu c)) by (apply (Hwf m Hm); rewrite E1; left; reflexivity).
    destruct Hr as [Hr _]. elim (Hr q' lead E2). }
  split.
  - intros [e H]. split; [reflexivity|]. split; [exact Hh|].
    destruct (im_items im) as [|it r] eqn:Ei; [contradiction|].
    destruct it as [n|n|m|]; cbn [validate_items bind] in H; try discriminate.
    2:{ left. eauto. }
    destruct (validate_sig (mt_sig m)) as [[]|e1|e1] eqn:Es; cbn [bind] in H; try discriminate.
    2:{ elim (Hsig m e1); [left; reflexivity|exact Es]. }
    apply validate_sig_good in Es. right.
    destruct r as [|it2 r2].
    + right. cbn [validate_items bind] in H. unfold expand_impl in H. rewrite Ei, Hs, Ht in H.
      destruct (mt_default m) eqn:Ed; [|discriminate]. exists m. auto.
    + left. cbn [validate_items bind] in H. destruct it2 as [n|n|m2|]; cbn [bind] in H; try discriminate.
      * destruct (validate_sig (mt_sig m2)) as [[]|e1|e1] eqn:Es2; cbn [bind] in H; try discriminate.
        elim (Hsig m2 e1); [right; left; reflexivity|exact Es2].
      * eauto.
  - intros (_ & _ & [(r & Ei)|[(m & r & Ei & Hm)|(m & Ei & Hm & Hd)]]); rewrite Ei; cbn [validate_items bind].
    + eauto.
    + apply validate_sig_good in Hm. rewrite Hm. cbn [bind]. eauto.
    + apply validate_sig_good in Hm. rewrite Hm. cbn [bind]. unfold expand_impl. rewrite Ei, Hs, Ht, Hd. eauto.
Qed.

(** ** C40 *)
Lemma pinned_drop_outcomes args im r : pinned_drop_attribute args im = Ok r ->
  (exists im', r = PdImpl im') \/
  (exists m, r = PdError m (match im_self im with TyPath _ _ => Some (dummy_impl im) | _ => None end)).
Proof.
  unfold pinned_drop_attribute. destruct (match args with [] => _ | _ => _ end) as [im'|m|m]; intros H; try discriminate;
    injection H as <-; eauto.
Qed.

(** ** C37 *)
Lemma pinned_drop_moved args im im' : pinned_drop_attribute args im = Ok (PdImpl im') ->
  exists m q p, im_items im = [IIFn m] /\ im_self im = TyPath q p /\ moved (mkTypePath q p) im m im'.
Proof.
  intros H. apply pinned_drop_ok in H. destruct H as (m & q & p & neg & (_ & Hh & Hi & Hm & Hd) & Hs & (tp & Ht) & ->).
  exists m, q, p. split; [exact Hi|]. split; [exact Hs|].
  destruct Hm as [Hn Hu (at_ & mu & t & r & Hin & Hp) Ho].
  constructor; try reflexivity.
  - apply (gh_safe _ Hh).
  - exists neg, tp. split; [exact Ht|reflexivity].
  - exists (outer_method (mkTypePath q p) (im_generics im) m), at_, r, mu, t. split; [exact Hin|].
    do 3 (split; [reflexivity|]). cbn [mt_sig outer_method]. unfold outer_sig at 1. cbn [fs_ident]. split; [exact Hn|].
    split; [reflexivity|]. split; [unfold outer_sig; cbn [fs_inputs]; rewrite Hin; reflexivity|].
    split; [reflexivity|]. split; [reflexivity|].
    do 4 eexists. split; [reflexivity|]. split; [reflexivity|]. split; [exact Hu|]. split; [reflexivity|].
    split.
    + eexists. unfold inner_sig, replace_sig. cbn [fs_inputs]. rewrite Hin. reflexivity.
    + eexists. split; [reflexivity|]. eexists. split; [reflexivity|]. split; reflexivity.
Qed.

(** ** C24 *)

(** No name in scope refers to the inner function. *)
Definition bad : label := Item 0 drop_inner_id.
Definition safe (e : scope) : Prop :=
  forall y, lookup y e <> Some bad /\ lookup y (items_only e) <> Some bad.

Lemma items_only_app a b : items_only (a ++ b) = items_only a ++ items_only b.
Proof. apply filter_app. Qed.
Lemma lookup_app y a b : lookup y (a ++ b) = match lookup y a with Some l => Some l | None => lookup y b end.
Proof. induction a as [|[z l] a IH]; [reflexivity|]. cbn [lookup app]. destruct (ident_eqb z y); [reflexivity|exact IH]. Qed.
Lemma items_only_idem a : items_only (items_only a) = items_only a.
Proof.
  unfold items_only. induction a as [|[z l] a IH]; [reflexivity|]. cbn [filter snd]. destruct l; cbn [filter snd]; [rewrite IH; reflexivity|exact IH].
Qed.
Lemma bind_vars_items n xs e : items_only (bind_vars n xs e) = items_only e.
Proof. revert n e. induction xs as [|x xs IH]; intros n e; [reflexivity|]. cbn [bind_vars]. rewrite IH. reflexivity. Qed.
Lemma safe_bind n xs e : safe e -> safe (bind_vars n xs e).
Proof.
  intros H y. rewrite bind_vars_items. split; [|apply H].
  revert n e H. induction xs as [|x xs IH]; intros n e H; [apply H|]. cbn [bind_vars]. apply IH.
  intros z. split; [|apply H]. cbn [lookup]. destruct (ident_eqb x z); [discriminate|apply H].
Qed.
Lemma items_only_block d l : items_only (block_items d l) = block_items d l.
Proof.
  unfold block_items, items_only. induction l as [|s l IH]; [reflexivity|]. cbn [flat_map]. rewrite filter_app, IH.
  f_equal. destruct s; reflexivity.
Qed.
Lemma lookup_block y d l lb : lookup y (block_items d l) = Some lb -> exists x, lb = Item d x.
Proof.
  unfold block_items. induction l as [|s l IH]; [discriminate|]. cbn [flat_map]. rewrite lookup_app.
  destruct s as [p t e|e|a v sg b|x ts|x ts]; try exact IH; cbn [lookup].
  - destruct (ident_eqb (fs_ident sg) y); [|exact IH]. intros E. injection E as <-. eauto.
  - destruct (ident_eqb x y); [|exact IH]. intros E. injection E as <-. eauto.
Qed.
Lemma safe_block d l e : safe e -> safe (block_items (S d) l ++ e).
Proof.
  intros H y. rewrite items_only_app, items_only_block, !lookup_app.
  destruct (lookup y (block_items (S d) l)) as [lb|] eqn:E; [|apply H].
  apply lookup_block in E. destruct E as [x ->]. split; discriminate.
Qed.
Lemma safe_items e : safe e -> safe (items_only e).
Proof. intros H y. rewrite items_only_idem. split; apply H. Qed.

Lemma in_flat_map_Forall {A B} (P : A -> Prop) (f : A -> list B) l (b : B) :
  Forall P l -> (forall x, P x -> ~ In b (f x)) -> ~ In b (flat_map f l).
Proof.
  intros F H Hin. apply in_flat_map in Hin. destruct Hin as (x & Hx & Hb). rewrite Forall_forall in F. exact (H x (F x Hx) Hb).
Qed.

Lemma safe_stmts l : Forall (fun s => forall n d e, safe e -> ~ In (Bound bad) (uses_stmt n d e s)) l ->
  forall n d e, safe e -> ~ In (Bound bad) (uses_stmts d n e l).
Proof.
  induction 1 as [|s l Hs _ IH]; intros n d e He Hin; [exact Hin|]. cbn [uses_stmts] in Hin.
  apply in_app_or in Hin. destruct Hin as [Hin|Hin]; [exact (Hs _ _ _ He Hin)|].
  exact (IH _ _ _ (safe_bind _ _ _ He) Hin).
Qed.
Lemma safe_uses : (forall x n d e, safe e -> ~ In (Bound bad) (uses n d e x)) /\
  (forall s n d e, safe e -> ~ In (Bound bad) (uses_stmt n d e s)).
Proof.
  apply (body_ind (fun x => forall n d e, safe e -> ~ In (Bound bad) (uses n d e x))
                  (fun s => forall n d e, safe e -> ~ In (Bound bad) (uses_stmt n d e s))); cbn [uses uses_stmt].
  - intros q p n d e He Hin. destruct q; [exact Hin|]. destruct p as [[|] [|[i a] [|]]]; try exact Hin.
    destruct Hin as [Hin|[]]. unfold use_of in Hin. destruct (lookup i e) eqn:E; [|discriminate].
    injection Hin as ->. elim (proj1 (He i) E).
  - intros s n d e He [].
  - intros f l Hf Hl n d e He Hin. apply in_app_or in Hin. destruct Hin as [Hin|Hin]; [exact (Hf _ _ _ He Hin)|].
    revert Hin. apply (in_flat_map_Forall _ _ _ _ Hl). intros x Hx. apply Hx. exact He.
  - intros f m t l Hf Hl n d e He Hin. apply in_app_or in Hin. destruct Hin as [Hin|Hin]; [exact (Hf _ _ _ He Hin)|].
    revert Hin. apply (in_flat_map_Forall _ _ _ _ Hl). intros x Hx. apply Hx. exact He.
  - auto.
  - intros p fs b Hfs Hb n d e He Hin. apply in_app_or in Hin. destruct Hin as [Hin|Hin].
    + revert Hin. apply (in_flat_map_Forall _ _ _ _ Hfs). intros x Hx. apply Hx. exact He.
    + destruct b as [b|]; [exact (Hb _ _ _ He Hin)|exact Hin].
  - auto.
  - intros o a b Ha Hb n d e He Hin. apply in_app_or in Hin. destruct Hin as [Hin|Hin]; [exact (Ha _ _ _ He Hin)|exact (Hb _ _ _ He Hin)].
  - auto.
  - intros l Hl n d e He. apply (safe_stmts l Hl n (S d)). apply safe_block. exact He.
  - intros f arms Hf Ha n d e He Hin. apply in_app_or in Hin. destruct Hin as [Hin|Hin]; [exact (Hf _ _ _ He Hin)|].
    revert Hin. apply (in_flat_map_Forall _ _ _ _ Ha). intros a Hx. apply Hx. apply safe_bind. exact He.
  - intros ps f Hf n d e He. apply Hf. apply safe_bind. exact He.
  - intros m ts n d e He [].
  - intros p t [x|] Hx n d e He; [apply Hx; exact He|intros []].
  - auto.
  - intros a v sg b Hb n d e He. apply (safe_stmts b Hb _ (S d)). apply safe_block. apply safe_bind. apply safe_items. exact He.
  - intros x ts n d e He [].
  - intros x ts n d e He [].
Qed.

(** In the expanded method the only thing that refers to the inner function is
    the call at the end. *)
Lemma no_reentry q p g m :
  exists l, body_uses 0 [I "self"] [] (mt_block (outer_method (mkTypePath q p) g m)) =
    l ++ [Bound (Item 0 (I "__drop_inner")); Bound (Local 0)] /\
    ~ In (Bound (Item 0 (I "__drop_inner"))) l.
Proof.
  unfold body_uses, outer_method. cbn [mt_block]. unfold drop_inner. cbn [replace_block map dummy_fn replace_bstmt].
  cbn [block_items flat_map app items_only filter bind_vars length].
  cbn [uses_stmts].
  eexists. split; [reflexivity|]. fold bad.
  assert (F : forall l, Forall (fun s => forall n d e, safe e -> ~ In (Bound bad) (uses_stmt n d e s)) l)
    by (intros l; apply Forall_forall; intros s _; apply safe_uses).
  apply (safe_stmts _ (F (dummy_fn :: replace_block (mkTypePath q p) (mt_block m))) _ 1).
  cbn [replace_block map block_items flat_map app dummy_fn fs_ident].
  match goal with |- safe ((?i, ?lb) :: ?r ++ ?tl) => intros y end.
  assert (Hkey : forall tl, (forall z, lookup z tl = Some bad -> z = drop_inner_id) ->
     forall bl, (forall z lb, lookup z bl = Some lb -> exists x, lb = Item 1 x) ->
     lookup y ((drop_inner_id, Item 1 drop_inner_id) :: bl ++ tl) <> Some bad).
  { intros tl Htl bl Hbl. cbn [lookup]. destruct (ident_eqb drop_inner_id y) eqn:E; [discriminate|].
    rewrite lookup_app. destruct (lookup y bl) as [lb|] eqn:Eb.
    - destruct (Hbl _ _ Eb) as [x ->]. discriminate.
    - intros H. apply Htl in H. subst y. rewrite ident_eqb_refl in E. discriminate. }
  assert (Htl : forall n xs e, (forall z, lookup z e = Some bad -> z = drop_inner_id) ->
     forall z, lookup z (bind_vars n xs e) = Some bad -> z = drop_inner_id).
  { clear. intros n xs. revert n. induction xs as [|x xs IH]; intros n e He; [exact He|]. cbn [bind_vars]. apply IH.
    intros z. cbn [lookup]. destruct (ident_eqb x z); [discriminate|apply He]. }
  assert (H0 : forall z, lookup z [(drop_inner_id, Item 0 drop_inner_id)] = Some bad -> z = drop_inner_id).
  { intros z. cbn [lookup]. destruct (ident_eqb drop_inner_id z) eqn:E; [|discriminate].
    intros _. symmetry. apply ident_eqb_eq. exact E. }
  split.
  - apply (Hkey _ (Htl _ _ _ H0)). intros z lb. apply lookup_block.
  - match goal with |- lookup _ (items_only (?h :: ?r)) <> _ =>
      change (items_only (h :: r)) with (h :: items_only r) end.
    rewrite items_only_app, bind_vars_items. apply Hkey; [exact H0|]. intros z lb.
    match goal with |- lookup _ (items_only ?b) = _ -> _ => change (items_only b) with (items_only (block_items 1 (replace_block (mkTypePath q p) (mt_block m)))) end.
    rewrite items_only_block. apply lookup_block.
Qed.

(** ** C40 *)
Lemma dummy_impl_empty im : empty_impl_for im (dummy_impl im).
Proof.
  constructor; try reflexivity.
  - repeat split.
  - eexists. split; [reflexivity|]. repeat split.
Qed.
Lemma pinned_drop_fails args im r : pinned_drop_attribute args im = Ok r ->
  (forall im', r <> PdImpl im') ->
  exists m d, r = PdError m d /\
    ((exists q p, im_self im = TyPath q p) <-> d <> None) /\
    (forall im', d = Some im' -> empty_impl_for im im').
Proof.
  intros H Hn. apply pinned_drop_outcomes in H. destruct H as [(im' & ->)|(m & ->)]; [elim (Hn im' eq_refl)|].
  do 2 eexists. split; [reflexivity|]. destruct (im_self im) eqn:E; split;
    try (split; [intros (q' & p' & E'); discriminate|intros H; elim H; reflexivity]);
    try (intros im' E'; discriminate).
  - split; [discriminate|eauto].
  - intros im' E'. injection E' as <-. apply dummy_impl_empty.
Qed.

Lemma pinned_drop_no_reentry args im im' m' :
  pinned_drop_attribute args im = Ok (PdImpl im') -> im_items im' = [IIFn m'] ->
  fs_unsafe (mt_sig m') = true /\
  exists l, body_uses 0 [I "self"] [] (mt_block m') =
    l ++ [Bound (Item 0 (I "__drop_inner")); Bound (Local 0)] /\
    ~ In (Bound (Item 0 (I "__drop_inner"))) l.
Proof.
  intros H Hi. apply pinned_drop_ok in H. destruct H as (m & q & p & neg & _ & _ & _ & ->).
  cbn [pd_result im_items] in Hi. injection Hi as <-. split; [reflexivity|]. apply no_reentry.
Qed.
