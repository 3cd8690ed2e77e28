(** Proofs for C56. *)
From Coq Require Import String List Bool Lia.
From Verif Require Import Base Syntax ModelArgs ModelUtils ModelDerive.
From Verif Require Import SpecArgs SpecDerive SpecLifetime SpecExpand SpecRun ModelTraits SpecTraits SpecDecl SpecSized.
From Verif Require Import ProofsDerive ProofsExpand ProofsTypes ProofsTraitsForm ProofsOutlives ProofsDecl.
Import ListNotations.
Open Scope string_scope.
Open Scope list_scope.

Lemma lib_abs s t : lib_ty s [ATy t] (priv s t).
Proof. constructor. Qed.
Lemma lib_in s l : lib_ty s l (pp_priv_ty s (GAngle false l)).
Proof. constructor. Qed.
Lemma lib_inj s l s' l' t : lib_ty s l t -> lib_ty s' l' t -> s = s' /\ l = l'.
Proof. intros [] H; inversion H; auto. Qed.
Lemma as_arg_spelled i g : map as_arg (g_params (spelled i g)) = map as_arg (g_params g).
Proof.
  unfold spelled. destruct g as [ps w]. cbn [replace_generics g_params]. rewrite map_map. apply map_ext. intros []; reflexivity.
Qed.
Lemma last_split {A} (l l' : list A) x y : l ++ [x] = l' ++ [y] -> l = l' /\ x = y.
Proof. apply app_inj_tail. Qed.

Lemma enumerate_snd {A} (l : list A) : map snd (enumerate l) = l.
Proof. unfold enumerate. generalize 0. induction l as [|x l IH]; intros n; cbn; [reflexivity|]. rewrite IH. reflexivity. Qed.
Lemma enumerate_last {A} (l l0 : list A) y : l = l0 ++ [y] -> exists l1 z, enumerate l = l1 ++ [z].
Proof.
  intros E. destruct (exists_last (l := enumerate l)) as (l1 & z & E1); [|eauto].
  intros X. pose proof (enumerate_snd l) as Y. rewrite X in Y. subst l. destruct l0; discriminate.
Qed.
Lemma in_but_last {A} (L l : list A) x : L = l ++ [x] -> l = removelast L.
Proof. intros ->. symmetry. apply removelast_last. Qed.
Lemma list_eq_nil {A} (l : list A) : l = [] \/ l <> [].
Proof. destruct l; [left; reflexivity|right; discriminate]. Qed.
Lemma removelast_cons {A} (x : A) l : l <> [] -> removelast (x :: l) = x :: removelast l.
Proof. destruct l; [congruence|reflexivity]. Qed.
Lemma in_removelast {A} (x : A) l : In x (removelast l) -> In x l.
Proof.
  induction l as [|y l IH]; [intros []|]. destruct l as [|z l]; [intros []|]. rewrite removelast_cons by discriminate.
  intros [->|H]; [left; reflexivity|right; apply IH; exact H].
Qed.
Lemma removelast_map {A B} (f : A -> B) x l : In x (removelast l) -> In (f x) (removelast (map f l)).
Proof.
  induction l as [|y l IH]; [intros []|]. destruct l as [|z l]; [intros []|]. cbn [map]. rewrite !removelast_cons by discriminate.
  intros [->|H]; [left; reflexivity|right; apply IH; exact H].
Qed.

Lemma plain_not_self n : plain_ident n -> ident_is n "Self" = false.
Proof.
  intros H. destruct (ident_is n "Self") eqn:E; [|reflexivity]. exfalso. destruct n as [r s]. unfold ident_is in E. cbn [raw name] in *.
  destruct r; [discriminate|]. apply String.eqb_eq in E. subst s. destruct H as [H|H]; [discriminate|].
  apply H. left. cbn. tauto.
Qed.
Lemma written_plain pl ts i : SpecArgs.written pl ts -> In i (flat_map given pl) -> plain_ident i.
Proof.
  assert (H1 : forall x t, written1 x t -> In i (given x) -> plain_ident i).
  { intros x t H Hi. destruct H; cbn [given] in Hi; first [destruct Hi as [<-|[]]; assumption|destruct Hi]. }
  induction 1 as [|x t Hx|x t s l ts Hx Hl IH]; cbn [flat_map]; [intros []| |].
  - rewrite app_nil_r. eapply H1; exact Hx.
  - intros Hi. apply in_app_or in Hi. destruct Hi as [Hi|Hi]; [eapply H1; [exact Hx|exact Hi]|apply IH; exact Hi].
Qed.
Lemma proj_name_not_self l a k i : options l a -> ident_is (proj_name k a i) "Self" = false.
Proof.
  intros (ts & pl & _ & Hw & _ & Ho). unfold proj_name. destruct (given_name k a) as [n|] eqn:E; [|reflexivity].
  apply plain_not_self. eapply written_plain; [exact Hw|]. apply in_flat_map.
  destruct k; cbn [given_name] in E.
  - apply (o_project _ _ Ho) in E. exists (GProject n). split; [exact E|left; reflexivity].
  - apply (o_project_ref _ _ Ho) in E. exists (GProjectRef n). split; [exact E|left; reflexivity].
  - assert (X : ar_project_replace a = PRNamed n) by (destruct (ar_project_replace a); congruence).
    apply (o_replace_named _ _ Ho) in X. exists (GReplaceNamed n). split; [exact X|left; reflexivity].
Qed.

(** What asks for sizes: of the library's own types only [AlwaysUnpin]. *)
Lemma lib_params_inv s ps : lib_params s ps ->
  (s = "AlwaysUnpin" /\ exists p q, ps = [p; q]) \/
  (forall i bs d, In (PTy i bs d) ps -> existsb is_maybe bs = true).
Proof.
  induction 1 as [v s g fs H|l H IH].
  - unfold lib_items in H. repeat (destruct H as [H|H]; [try discriminate H; injection H as <- <- <- <-|]); try destruct H.
    + right. cbn. intros i bs d [E|[E|[]]]; [discriminate|]. injection E as <- <- <-. reflexivity.
    + right. cbn. intros i bs d [E|[]]. injection E as <- <- <-. reflexivity.
    + left. split; [reflexivity|]. do 2 eexists. reflexivity.
  - destruct IH as [[E _]|IH]; [discriminate|right; exact IH].
Qed.
Lemma needs_inv t u : needs t u -> lib_ty "Pin" [ATy u] t \/ exists x, lib_ty "AlwaysUnpin" [x; ATy u] t.
Proof.
  intros [u' t' H|s ps i bs d l u' t' Hp Hl Hc Hb H]; [auto|right].
  destruct (lib_params_inv _ _ Hp) as [(-> & p & q & ->)|X]; [|rewrite (X i bs d) in Hb; [discriminate|eapply in_combine_l; exact Hc]].
  inversion Hp as [v s g fs Hin|]; subst. unfold lib_items in Hin.
  repeat (destruct Hin as [Hin|Hin]; [try discriminate Hin|]); try contradiction Hin. injection Hin as <- <- _. 
  match goal with E : g_params _ = _ |- _ => cbn [g_params] in E; injection E as <- <- end.
  destruct l as [|x [|y [|]]]; try discriminate. cbn [combine In] in Hc.
  destruct Hc as [E|[E|[]]]; [discriminate|]. injection E as <- <- <- <-. exists x. exact H.
Qed.

Section Sized.
  Variable it : item.
  Variable e : expansion.
  Variable a : args.
  Variable sz : ty -> Prop.
  Hypothesis Hd : parse_derive it = Ok e.
  Hypothesis Ho : options (attrs_of it) a.
  Hypothesis Hord : ordered (g_params (generics_of it)).
  Hypothesis Hr : size_rules sz it e.
  Hypothesis Hargs : forall fs f, In fs (fields_of it) -> In f (fields_list fs) -> args_sized sz (spelled_ty it f).

  Lemma ref_args lt m t : args_sized sz (TyRef lt m t).
  Proof. intros u H. destruct (needs_inv _ _ H) as [X|(? & X)]; inversion X. Qed.
  Lemma pinref_args t lt m u : lib_ty "Pin" [ATy (TyRef lt m u)] t -> args_sized sz t.
  Proof.
    intros H v Hn. destruct (needs_inv _ _ Hn) as [H'|(? & H')]; destruct (lib_inj _ _ _ _ _ H H') as [X Y]; [|discriminate].
    injection Y as <-. apply (sr_ref _ _ _ Hr).
  Qed.
  Lemma phantom_args t u : lib_ty "PhantomData" [ATy u] t -> args_sized sz t.
  Proof. intros H v Hn. destruct (needs_inv _ _ Hn) as [H'|(? & H')]; destruct (lib_inj _ _ _ _ _ H H') as [X Y]; discriminate. Qed.
  Lemma applied_args i l : args_sized sz (applied i l).
  Proof. intros v Hn. destruct (needs_inv _ _ Hn) as [H'|(? & H')]; inversion H'. Qed.

  (** The types of projected fields. *)
  Lemma proj_field_args k lt f f' fs : In fs (fields_of it) -> In f (fields_list fs) ->
    field_projected k lt (own_type (name_of it) (generics_of it)) f f' -> args_sized sz (f_ty f').
  Proof.
    intros H1 H2 HP. destruct (pinned_dec f) as [Hp|Hp].
    - rewrite (fp_pinned _ _ _ _ _ HP Hp). destruct k; cbn [pinned_ty].
      + eapply pinref_args, lib_abs.
      + eapply pinref_args, lib_abs.
      + eapply phantom_args, lib_abs.
    - rewrite (fp_unpinned _ _ _ _ _ HP Hp). destruct k; cbn [unpinned_ty]; [apply ref_args|apply ref_args|].
      apply (Hargs _ _ H1 H2).
  Qed.
  Lemma proj_field_sized k lt f f' : field_projected k lt (own_type (name_of it) (generics_of it)) f f' ->
    k <> POwn \/ sz (spelled_ty it f) -> sz (f_ty f').
  Proof.
    intros HP Hs. destruct (pinned_dec f) as [Hp|Hp].
    - rewrite (fp_pinned _ _ _ _ _ HP Hp). destruct k; cbn [pinned_ty].
      + apply (sr_pin _ _ _ Hr _ _ (lib_abs _ _)), (sr_ref _ _ _ Hr).
      + apply (sr_pin _ _ _ Hr _ _ (lib_abs _ _)), (sr_ref _ _ _ Hr).
      + apply (sr_phantom _ _ _ Hr _ _ (lib_abs _ _)).
    - rewrite (fp_unpinned _ _ _ _ _ HP Hp). destruct k; cbn [unpinned_ty]; [apply (sr_ref _ _ _ Hr)|apply (sr_ref _ _ _ Hr)|].
      destruct Hs as [Hs|Hs]; [elim Hs; reflexivity|exact Hs].
  Qed.

  Lemma ret_eq k lt i : applied (proj_name k a i) (match k with PMut | PRef => [ALt lt] | POwn => [] end ++ map as_arg (g_params (generics_of it))) =
    declared_ty (proj_name k a i) (g_params (pgen k lt (name_of it) (generics_of it))).
  Proof. unfold declared_ty. cbn [pgen g_params]. destruct k; cbn [projected_params map app as_arg]; rewrite as_arg_spelled; reflexivity. Qed.

  (** The items that are not projected types nor projection methods. *)
  Lemma helper_sized pin tys : (forall t, In t tys -> args_sized sz t) ->
    (forall t, In t (removelast tys) -> sz t) ->
    (lifetimes (generics_of it) <> [] -> forall t, In t tys -> sz t) ->
    forall v n g, well_sized sz (OStruct v n g (FNamed (helper_fs (generics_of it) pin tys))).
  Proof.
    intros Ha Hl Hlast v n g. cbn [well_sized fields_list]. unfold helper_fs.
    assert (Hh1 : args_sized sz (pp_priv_ty "AlwaysUnpin" (GAngle false [ALt pin; ATy (phantom_tuple (type_params (generics_of it)))]))).
    { intros u Hn. destruct (needs_inv _ _ Hn) as [H'|(? & H')]; destruct (lib_inj _ _ _ _ _ (lib_in _ _) H') as [X Y]; [discriminate|].
      injection Y as <- <-. unfold phantom_tuple.
      assert (Hq : forall t, In t (map (fun i => pp_priv_ty "PhantomData" (targ (ty_ident i))) (type_params (generics_of it))) -> sz t).
      { intros t Ht. apply in_map_iff in Ht. destruct Ht as (i & <- & _). apply (sr_phantom _ _ _ Hr _ _ (lib_in _ _)). }
      destruct (map _ _) as [|t0 [|t1 r]]; [apply (sr_tuple _ _ _ Hr); exact Hq|apply (sr_paren _ _ _ Hr), Hq; left; reflexivity|].
      apply (sr_tuple _ _ _ Hr). exact Hq. }
    assert (Hh2 : sz (pp_priv_ty "AlwaysUnpin" (GAngle false [ALt pin; ATy (phantom_tuple (type_params (generics_of it)))])))
      by apply (sr_always _ _ _ Hr _ _ _ (lib_in _ _)).
    set (hl := map (fun nl : nat * string => mkField [] VInherited (Some (id_lifetime (fst nl))) (TyRef (Some (snd nl)) false (TyTuple [])))
      (enumerate (lifetimes (generics_of it)))).
    set (ht := map (fun nt : nat * ty => mkField [] VInherited (Some (id_field (fst nt))) (snd nt)) (enumerate tys)).
    assert (Et : map f_ty ht = tys).
    { subst ht. rewrite map_map. cbn [f_ty]. apply enumerate_snd. }
    assert (Htt : forall f, In f ht -> In (f_ty f) tys) by (intros f Hf; rewrite <- Et; apply in_map; exact Hf).
    assert (Hlt : forall f, In f hl -> sz (f_ty f) /\ args_sized sz (f_ty f)).
    { intros f Hf. apply in_map_iff in Hf. destruct Hf as (nl & <- & _). split; [apply (sr_ref _ _ _ Hr)|apply ref_args]. }
    split.
    - intros f [<-|Hf]; [exact Hh1|]. apply in_app_or in Hf. destruct Hf as [Hf|Hf]; [apply Ha, Htt; exact Hf|apply Hlt; exact Hf].
    - intros l x El f Hf. apply in_but_last in El as X. rewrite X in Hf. clear X El l x.
      destruct (list_eq_nil (ht ++ hl)) as [E|E]; [rewrite E in Hf; destruct Hf|].
      rewrite removelast_cons in Hf by exact E. destruct Hf as [<-|Hf]; [exact Hh2|].
      destruct (list_eq_nil hl) as [E'|E'].
      + rewrite E', app_nil_r in Hf. apply Hl. rewrite <- Et. apply removelast_map. exact Hf.
      + rewrite removelast_app in Hf by exact E'. apply in_app_or in Hf. destruct Hf as [Hf|Hf].
        * apply Hlast; [|apply Htt; exact Hf]. intros X. apply E'. subst hl. rewrite X. reflexivity.
        * apply Hlt. apply in_removelast. exact Hf.
  Qed.
  Lemma helper_forces pin tys x : lifetimes (generics_of it) <> [] -> In x tys ->
    forall v n g, well_sized sz (OStruct v n g (FNamed (helper_fs (generics_of it) pin tys))) -> sz x.
  Proof.
    intros Hl Hx v n g [_ H].
    assert (E : exists l0 y, lifetimes (generics_of it) = l0 ++ [y]) by (destruct (exists_last Hl) as (l0 & y & E); eauto).
    destruct E as (l0 & y & E).
    destruct (enumerate_last _ _ _ E) as (l1 & z & E1).
    assert (X : exists f, In f (map (fun nt : nat * ty => mkField [] VInherited (Some (id_field (fst nt))) (snd nt)) (enumerate tys)) /\ f_ty f = x).
    { rewrite <- (enumerate_snd tys) in Hx. apply in_map_iff in Hx. destruct Hx as (nt & <- & Hnt). eexists. split; [apply in_map; exact Hnt|reflexivity]. }
    destruct X as (f & Hf & <-). unfold helper_fs in H. rewrite E1 in H. rewrite map_app in H. cbn [map] in H. rewrite app_assoc, app_comm_cons in H.
    apply (H _ _ eq_refl). right. apply in_or_app. left. exact Hf.
  Qed.
  Lemma drop_sized o : In o (drop_items a (name_of it) (generics_of it)) -> well_sized sz o.
  Proof.
    intros Hin. unfold drop_items in Hin. destruct (ar_pinned_drop a).
    - destruct Hin as [<-|[]]. intros m t [<-|[]] [].
    - destruct Hin as [<-|[<-|[<-|[<-|[]]]]]; [exact Logic.I|intros m t []|intros m t []|].
      intros m t [<-|[]] [<-|[]]. split; [eapply pinref_args, lib_in|].
      apply (sr_pin _ _ _ Hr _ _ (lib_in _ _)), (sr_ref _ _ _ Hr).
  Qed.

  (** A projection method, given that the type it returns is [Sized]. *)
  Lemma method_sized k lt m : projection_method k lt a (name_of it) (generics_of it) m ->
    sz (declared_ty (proj_name k a (name_of it)) (g_params (pgen k lt (name_of it) (generics_of it)))) ->
    (k = POwn -> sz (declared_ty (name_of it) (params_of it))) ->
    forall t, In t (passed m) -> args_sized sz t /\ sz (in_impl (applied (name_of it) (map as_arg (g_params (generics_of it)))) t).
  Proof.
    intros HP Hret Hself t Hin. unfold passed in Hin. apply in_app_or in Hin. destruct Hin as [Hin|Hin].
    - rewrite (pm_self _ _ _ _ _ _ HP) in Hin.
      destruct k; (destruct Hin as [<-|[]]); (split; [eapply pinref_args; constructor|]);
        cbn [in_impl]; (eapply (sr_pin _ _ _ Hr); [constructor|apply (sr_ref _ _ _ Hr)]).
    - apply in_app_or in Hin. destruct Hin as [Hin|Hin].
      + rewrite (pm_params _ _ _ _ _ _ HP) in Hin. destruct k; try (destruct Hin; fail).
        destruct Hin as [<-|[]]. cbn [snd]. split; [intros u Hn; destruct (needs_inv _ _ Hn) as [H'|(? & H')]; inversion H'|].
        change (in_impl ?x ty_self) with x. rewrite params_of_generics in Hself. apply Hself. reflexivity.
      + rewrite (pm_ret _ _ _ _ _ _ HP) in Hin. destruct Hin as [<-|[]]. split; [apply applied_args|].
        assert (X : forall self l, in_impl self (applied (proj_name k a (name_of it)) l) = applied (proj_name k a (name_of it)) l).
        { intros self l. destruct l; [|reflexivity]. cbn [applied in_impl]. rewrite (proj_name_not_self _ _ _ _ Ho). reflexivity. }
        rewrite X, ret_eq. exact Hret.
  Qed.

  (** All items, given the types that the projection methods return. *)
  Lemma impl_sized im : In (OImpl im) (all_items e) -> i_trait im = None ->
    (forall k lt, has_proj k it a = true -> pin_lifetime (generics_of it) lt ->
       sz (declared_ty (proj_name k a (name_of it)) (g_params (pgen k lt (name_of it) (generics_of it))))) ->
    (has_proj POwn it a = true -> sz (declared_ty (name_of it) (params_of it))) ->
    well_sized sz (OImpl im).
  Proof.
    intros Hin Hi Hret Hself m t Hm Ht. pose proof (in_inherent_impls _ _ Hin Hi) as Hii.
    destruct (inherent_impl _ _ _ Hd Ho Hord) as (im' & lt & E & Hlt & HP). rewrite E in Hii. destruct Hii as [->|[]].
    destruct (Forall2_in_r _ _ _ (pi_methods _ _ _ _ _ _ HP) _ Hm) as (k & Hk & Hkm). apply filter_In in Hk. destruct Hk as [_ Hk].
    rewrite (pi_self _ _ _ _ _ _ HP). apply (method_sized k lt m Hkm); [apply Hret; assumption| |exact Ht].
    intros ->. apply Hself. exact Hk.
  Qed.
  Lemma pinned_types_args t : In t (pinned_types it) -> args_sized sz t.
  Proof.
    intros H. apply in_flat_map in H. destruct H as (fs & Hfs & H). apply in_map_iff in H. destruct H as (f & <- & Hf).
    apply filter_In in Hf. apply (Hargs fs f Hfs), Hf.
  Qed.
  Lemma unpin_sized pin :
    (ar_unpin a = UDefault -> (forall t, In t (removelast (pinned_types it)) -> sz t) /\
       (lifetimes (generics_of it) <> [] -> forall t, In t (pinned_types it) -> sz t)) ->
    forall o, In o (unpin_items a (replace_vis (vis_of it)) (name_of it) (generics_of it) pin (pinned_types it)) -> well_sized sz o.
  Proof.
    intros H o Hin. unfold unpin_items in Hin. destruct (ar_unpin a).
    - destruct (H eq_refl) as [H1 H2]. destruct Hin as [<-|[<-|[<-|[]]]]; [|intros m t []|intros m t []].
      apply helper_sized; [exact pinned_types_args|exact H1|exact H2].
    - destruct Hin as [<-|[]]; intros m t [].
    - destruct Hin as [<-|[<-|[]]]; intros m t [].
  Qed.
End Sized.

Lemma fields_projected_list k lt self fs fs' : fields_projected k lt self fs fs' ->
  Forall2 (field_projected k lt self) (fields_list fs) (fields_list fs').
Proof. intros []; [assumption|assumption|constructor]. Qed.
Lemma Forall2_last {A B} (R : A -> B -> Prop) l x l' : Forall2 R (l ++ [x]) l' -> exists l0 y, l' = l0 ++ [y] /\ Forall2 R l l0 /\ R x y.
Proof.
  intros H. apply Forall2_app_inv_l in H. destruct H as (l0 & l1 & H0 & H1 & ->). inversion H1 as [|? y ? ? Hy Hn]; subst.
  inversion Hn; subst. eauto.
Qed.

(** ** Structs *)
Lemma struct_proj_in s e a k : parse_derive (ItStruct s) = Ok e -> options (s_attrs s) a -> ordered (g_params (s_generics s)) ->
  struct_has k a = true -> forall lt, pin_lifetime (s_generics s) lt ->
  exists v fs', In (OStruct v (proj_name k a (s_ident s)) (pgen k lt (s_ident s) (s_generics s)) fs') (all_items e) /\
    fields_projected k lt (own_type (s_ident s) (s_generics s)) (s_fields s) fs'.
Proof.
  intros H Ho Hord Hk lt Hlt. destruct (struct_form _ _ _ H Ho) as [_ E0].
  pose proof (struct_kind_in k a (struct_cx a (spelled_struct s)) (s_fields (spelled_struct s)) eq_refl Hk) as Hin.
  rewrite struct_kind_eq in Hin. rewrite kdef_struct in Hin by exact Hord.
  pose proof (pin_lifetime_unique _ _ _ Hlt (struct_lt_ok s)) as El. subst lt.
  do 2 eexists. split.
  - rewrite E0. unfold all_items. apply in_or_app. destruct (is_some (given_name k a)); [left|right]; exact Hin.
  - rewrite <- self_type_own. apply fields_projected_kty.
Qed.

Lemma c56_struct s e a sz before last :
  parse_derive (ItStruct s) = Ok e -> options (s_attrs s) a -> ordered (g_params (s_generics s)) ->
  size_rules sz (ItStruct s) e -> fields_list (s_fields s) = before ++ [last] ->
  (forall f, In f before -> sz (spelled_ty (ItStruct s) f)) ->
  (forall f, In f (before ++ [last]) -> args_sized sz (spelled_ty (ItStruct s) f)) ->
  (all_sized sz e <->
   sz (spelled_ty (ItStruct s) last) \/
   (struct_has POwn a = false /\ (ar_unpin a = UDefault -> pinned last -> lt_params (g_params (s_generics s)) = []))).
Proof.
  intros H Ho Hord Hr El Hb Ha. set (it := ItStruct s) in *.
  assert (Hargs : forall fs f, In fs (fields_of it) -> In f (fields_list fs) -> args_sized sz (spelled_ty it f)).
  { intros fs f [<-|[]] Hf. apply Ha. rewrite <- El. exact Hf. }
  assert (Ep : pinned_types it = map (spelled_ty it) (filter pin_b before) ++ (if pin_b last then [spelled_ty it last] else [])).
  { unfold pinned_types. cbn [fields_of it flat_map]. rewrite app_nil_r, El, filter_app, map_app. f_equal. cbn [filter].
    destruct (pin_b last); reflexivity. }
  assert (Hpb : forall t, In t (map (spelled_ty it) (filter pin_b before)) -> sz t).
  { intros t Ht. apply in_map_iff in Ht. destruct Ht as (f & <- & Hf). apply filter_In in Hf. apply Hb, Hf. }
  split.
  - intros Hall. destruct (struct_has POwn a) eqn:Ek.
    + left. destruct (inherent_impl it e a H Ho Hord) as (im & lt & E & Hlt & HP).
      assert (Hin : In (OImpl im) (all_items e)).
      { assert (X : In im (inherent_impls (all_items e))) by (rewrite E; left; reflexivity).
        apply in_flat_map in X. destruct X as (o & Ho' & X). destruct o as [| |im'| | |]; try (destruct X; fail).
        destruct (i_trait im'); [destruct X|]. destruct X as [->|[]]. exact Ho'. }
      assert (Hm : exists m, In m (i_methods im) /\ projection_method POwn lt a (s_ident s) (s_generics s) m).
      { destruct HP as [_ _ _ _ HM]. assert (X : In POwn (filter (fun k => has_proj k it a) all_proj)).
        { apply filter_In. split; [cbn; auto|exact Ek]. }
        clear - HM X. induction HM as [|k0 m ks ms HP HM IH]; [destruct X|]. destruct X as [->|X].
        - exists m. split; [left; reflexivity|exact HP].
        - destruct (IH X) as (m' & Hm' & HP'). exists m'. split; [right; exact Hm'|exact HP']. }
      destruct Hm as (m & Hm & Hpm). specialize (Hall _ Hin m ty_self Hm).
      assert (X : In ty_self (passed m)).
      { unfold passed. apply in_or_app. right. apply in_or_app. left. rewrite (pm_params _ _ _ _ _ _ Hpm). left. reflexivity. }
      destruct (Hall X) as [_ Y]. change (in_impl ?x ty_self) with x in Y. rewrite (pi_self _ _ _ _ _ _ HP) in Y.
      apply (proj1 (sr_item _ _ _ Hr) Y (s_fields s) last); [left; reflexivity|]. rewrite El. apply in_or_app. right. left. reflexivity.
    + destruct (lt_params (g_params (s_generics s))) as [|l0 ls] eqn:Elt; [right; auto|].
      destruct (ar_unpin a) eqn:Eu; [|right; split; [reflexivity|discriminate]|right; split; [reflexivity|discriminate]].
      destruct (pinned_dec last) as [Hp|Hp]; [|right; split; [reflexivity|intros _ X; contradiction]]. left.
      destruct (scoped_form_vis it e a H Ho Hord) as (pin & front & Hpin & Hf & E).
      assert (X : In (OStruct (replace_vis (s_vis s)) (helper_name (s_ident s))
        (mkGenerics (PLt pin [] :: g_params (spelled (s_ident s) (s_generics s))) (Some (preds (spelled (s_ident s) (s_generics s)))))
        (FNamed (helper_fs (s_generics s) pin (pinned_types it)))) (all_items e)).
      { unfold all_items. apply in_or_app. right. rewrite E. right. apply in_or_app. right. apply in_or_app. left.
        unfold unpin_items. rewrite Eu. left. reflexivity. }
      apply Hall in X. eapply (helper_forces it sz); [| |exact X].
      * change (lifetimes (generics_of it)) with (lt_params (g_params (s_generics s))). rewrite Elt. discriminate.
      * rewrite Ep. apply in_or_app. right. apply pin_b_iff in Hp. rewrite Hp. left. reflexivity.
  - intros Hc. destruct (item_forms it e a H Ho Hord) as (pin & Hpin & HF). intros o Hin.
    assert (Hfields : forall k lt fs', struct_has k a = true -> fields_projected k lt (own_type (s_ident s) (s_generics s)) (s_fields s) fs' ->
      forall f', In f' (fields_list fs') -> sz (f_ty f')).
    { intros k lt fs' Hk HP f' Hf'. destruct (Forall2_in_r _ _ _ (fields_projected_list _ _ _ _ _ HP) _ Hf') as (f & Hf & Hff).
      eapply (proj_field_sized it e sz Hr k lt f f' Hff). destruct Hc as [Hc|[Hc _]].
      - right. rewrite El in Hf. apply in_app_or in Hf. destruct Hf as [Hf|[<-|[]]]; [apply Hb; exact Hf|exact Hc].
      - left. intros ->. congruence. }
    destruct (HF o Hin) as [X|[X|[X|[X|[X|[X|X]]]]]].
    + destruct X as (s' & k & v & n & fs' & E & Hk & -> & HP). injection E as <-. split.
      * intros f' Hf'. destruct (Forall2_in_r _ _ _ (fields_projected_list _ _ _ _ _ HP) _ Hf') as (f & Hf & Hff).
        eapply (proj_field_args it e sz Hr Hargs); [left; reflexivity|exact Hf|exact Hff].
      * intros l x E f' Hf'. eapply Hfields; [exact Hk|exact HP|]. rewrite E. apply in_or_app. left. exact Hf'.
    + destruct X as (en & _ & _ & _ & _ & E & _). discriminate.
    + destruct X as (x & y & ->). exact Logic.I.
    + destruct X as (im & -> & Hi). eapply (impl_sized it e a sz H Ho Hord Hr im Hin Hi).
      * intros k lt Hk Hlt. destruct (struct_proj_in s e a k H Ho Hord Hk lt Hlt) as (v & fs' & Hin' & HP).
        apply (sr_struct _ _ _ Hr _ _ _ _ Hin'). eapply Hfields; [exact Hk|exact HP].
      * intros Hk. apply (sr_item _ _ _ Hr). intros fs f [<-|[]] Hf. destruct Hc as [Hc|[Hc _]]; [|cbn [has_proj it] in Hk; congruence].
        rewrite El in Hf. apply in_app_or in Hf. destruct Hf as [Hf|[<-|[]]]; [apply Hb; exact Hf|exact Hc].
    + destruct X as (t & ms & ->). exact Logic.I.
    + eapply (unpin_sized it e a sz Hr Hargs pin); [|exact X]. intros Eu. rewrite Ep. destruct (pin_b last) eqn:Epl.
      * rewrite removelast_last. split; [exact Hpb|]. intros Hl t Ht. apply in_app_or in Ht. destruct Ht as [Ht|[<-|[]]]; [apply Hpb; exact Ht|].
        destruct Hc as [Hc|[_ Hc]]; [exact Hc|]. elim Hl. apply (Hc Eu). apply pin_b_iff. exact Epl.
      * rewrite app_nil_r. split; [|intros _; exact Hpb]. intros t Ht. apply Hpb, in_removelast. exact Ht.
    + eapply (drop_sized it e a sz Hr). exact X.
Qed.

(** ** Enums *)
Lemma enum_proj_in en e a k : parse_derive (ItEnum en) = Ok e -> options (e_attrs en) a -> ordered (g_params (e_generics en)) ->
  enum_has k a = true -> forall lt, pin_lifetime (e_generics en) lt ->
  exists v vs', In (OEnum v (proj_name k a (e_ident en)) (pgen k lt (e_ident en) (e_generics en)) vs') (all_items e).
Proof.
  intros H Ho Hord Hk lt Hlt. destruct (enum_form _ _ _ H Ho) as [_ E0].
  pose proof (enum_kind_in k a (enum_cx a (spelled_enum en)) (e_variants (spelled_enum en)) eq_refl Hk) as Hin.
  rewrite enum_kind_eq in Hin. rewrite kdef_enum in Hin by exact Hord.
  pose proof (pin_lifetime_unique _ _ _ Hlt (enum_lt_ok en)) as El. subst lt.
  do 2 eexists. rewrite E0. unfold all_items. apply in_or_app. left. exact Hin.
Qed.
Lemma c56_enum en e sz :
  parse_derive (ItEnum en) = Ok e -> ordered (g_params (e_generics en)) ->
  size_rules sz (ItEnum en) e ->
  (forall v f, In v (e_variants en) -> In f (fields_list (v_fields v)) ->
     sz (spelled_ty (ItEnum en) f) /\ args_sized sz (spelled_ty (ItEnum en) f)) ->
  all_sized sz e.
Proof.
  intros H Hord Hr Hf. set (it := ItEnum en) in *.
  assert (Ho : exists a, options (attrs_of it) a).
  { destruct (derive_form _ _ H) as [(s & a & X & _)|(en' & a & X & _ & Ho & _)]; [discriminate|]. injection X as <-. exists a. exact Ho. }
  destruct Ho as (a & Ho).
  assert (Hall : forall fs f, In fs (fields_of it) -> In f (fields_list fs) -> sz (spelled_ty it f) /\ args_sized sz (spelled_ty it f)).
  { intros fs f Hfs. apply in_map_iff in Hfs. destruct Hfs as (v & <- & Hv). apply (Hf v f Hv). }
  assert (Hargs : forall fs f, In fs (fields_of it) -> In f (fields_list fs) -> args_sized sz (spelled_ty it f))
    by (intros fs f A B; apply (Hall fs f A B)).
  destruct (item_forms it e a H Ho Hord) as (pin & Hpin & HF). intros o Hin.
  assert (Hp : forall t, In t (pinned_types it) -> sz t).
  { intros t Ht. apply in_flat_map in Ht. destruct Ht as (fs & Hfs & Ht). apply in_map_iff in Ht. destruct Ht as (f & <- & Hf').
    apply filter_In in Hf'. destruct Hf' as [Hf' _]. exact (proj1 (Hall fs f Hfs Hf')). }
  destruct (HF o Hin) as [X|[X|[X|[X|[X|[X|X]]]]]].
  - destruct X as (s & _ & _ & _ & _ & E & _). discriminate.
  - destruct X as (en' & k & v & n & vs' & E & Hk & -> & HP). injection E as <-. intros w f' Hw Hf'.
    destruct (Forall2_in_r _ _ _ HP _ Hw) as (w0 & Hw0 & Hww).
    destruct (Forall2_in_r _ _ _ (fields_projected_list _ _ _ _ _ (vp_fields _ _ _ _ _ Hww)) _ Hf') as (f & Hff & Hfp).
    assert (Hfs : In (v_fields w0) (fields_of it)) by (apply in_map; exact Hw0). split.
    + eapply (proj_field_args it e sz Hr Hargs); [exact Hfs|exact Hff|exact Hfp].
    + eapply (proj_field_sized it e sz Hr k pin f f' Hfp). right. exact (proj1 (Hall _ _ Hfs Hff)).
  - destruct X as (x & y & ->). exact Logic.I.
  - destruct X as (im & -> & Hi). eapply (impl_sized it e a sz H Ho Hord Hr im Hin Hi).
    + intros k lt Hk Hlt. destruct (enum_proj_in en e a k H Ho Hord Hk lt Hlt) as (v & vs' & Hin').
      apply (sr_enum _ _ _ Hr _ _ _ _ Hin').
    + intros _. apply (sr_item _ _ _ Hr). intros fs f A B. exact (proj1 (Hall fs f A B)).
  - destruct X as (t & ms & ->). exact Logic.I.
  - eapply (unpin_sized it e a sz Hr Hargs pin); [|exact X]. intros _. split; [|intros _; exact Hp].
    intros t Ht. apply Hp, in_removelast. exact Ht.
  - eapply (drop_sized it e a sz Hr). exact X.
Qed.

(** ** Bounds *)
Lemma inside_inv s l t u : lib_ty s l t -> inside t u -> u = t \/ exists v, In (ATy v) l /\ inside v u.
Proof.
  intros H Hin. inversion Hin as [|s' l' ? v ? H' Hv Hi]; subst; [auto|]. right.
  destruct (lib_inj _ _ _ _ _ H H') as [_ <-]. eauto.
Qed.
Lemma inside_plain t u : (forall s l, ~ lib_ty s l t) -> inside t u -> u = t.
Proof. intros H Hin. inversion Hin as [|s' l' ? v ? H' Hv Hi]; subst; [reflexivity|]. destruct (H _ _ H'). Qed.
Lemma needs_plain t u : (forall s l, ~ lib_ty s l t) -> ~ needs t u.
Proof. intros H Hn. destruct (needs_inv _ _ Hn) as [X|(x & X)]; exact (H _ _ X). Qed.
Lemma needs_not s l t u : lib_ty s l t -> s <> "Pin" -> s <> "AlwaysUnpin" -> ~ needs t u.
Proof.
  intros H H1 H2 Hn. destruct (needs_inv _ _ Hn) as [X|(x & X)]; destruct (lib_inj _ _ _ _ _ H X) as [E _]; contradiction.
Qed.
Lemma plain_fields_of t u v : (forall s l, ~ lib_ty s l t) -> inside (pinned_fields_of t) u -> ~ needs u v.
Proof.
  intros H Hin. destruct (inside_inv _ _ _ _ (lib_in "PinnedFieldsOf" [ATy t]) Hin) as [->|(w & [E|[]] & Hw)].
  - apply (needs_not _ _ _ _ (lib_in "PinnedFieldsOf" [ATy t])); discriminate.
  - injection E as <-. rewrite (inside_plain _ _ H Hw). apply needs_plain. exact H.
Qed.
Lemma wrapped_fields_of lt t u v : (forall s l, ~ lib_ty s l t) -> inside (pinned_fields_of (ty_wrapper lt t)) u -> ~ needs u v.
Proof.
  intros H Hin. destruct (inside_inv _ _ _ _ (lib_in "PinnedFieldsOf" [ATy (ty_wrapper lt t)]) Hin) as [->|(w & [E|[]] & Hw)].
  - apply (needs_not _ _ _ _ (lib_in "PinnedFieldsOf" [ATy (ty_wrapper lt t)])); discriminate.
  - injection E as <-. destruct (inside_inv _ _ _ _ (lib_in "Wrapper" [ALt lt; ATy t]) Hw) as [->|(w & [E|[E|[]]] & Hw')].
    + apply (needs_not _ _ _ _ (lib_in "Wrapper" [ALt lt; ATy t])); discriminate.
    + discriminate.
    + injection E as <-. rewrite (inside_plain _ _ H Hw'). apply needs_plain. exact H.
Qed.

Lemma c56_bounds it e im lts t bs u v : parse_derive it = Ok e -> ordered (params_of it) -> In (OImpl im) (all_items e) ->
  In (WTy lts t bs) (preds (i_generics im)) -> ~ In (WTy lts t bs) (preds (spelled (name_of it) (generics_of it))) ->
  inside t u -> ~ needs u v.
Proof.
  intros H Hord Him Hw Hnot Hin. rewrite params_of_generics in Hord.
  assert (Ho : exists a, options (attrs_of it) a).
  { destruct (derive_form _ _ H) as [(s & a & -> & _ & Ho & _)|(en & a & -> & _ & Ho & _)]; exists a; exact Ho. }
  destruct Ho as (a & Ho).
  destruct (item_forms it e a H Ho Hord) as (pin & _ & HF). specialize (HF _ Him).
  destruct HF as [X|[X|[X|[X|[X|[X|X]]]]]].
  - destruct X as (? & ? & ? & ? & ? & ? & ? & X & ?). discriminate.
  - destruct X as (? & ? & ? & ? & ? & ? & ? & X & ?). discriminate.
  - destruct X as (? & ? & X). discriminate.
  - destruct X as (im' & E & Hi). injection E as <-. pose proof (in_inherent_impls _ _ Him Hi) as Hii.
    destruct (inherent_impl it e a H Ho Hord) as (im2 & lt & E & _ & HP). rewrite E in Hii. destruct Hii as [<-|[]].
    rewrite (pi_preds _ _ _ _ _ _ HP) in Hw. contradiction.
  - destruct X as (? & ? & X). discriminate.
  - assert (G : exists w, i_generics im = pin_generics (spelled (name_of it) (generics_of it)) pin w /\
      (w = unsafe_pred pin \/ w = never_pred pin \/ w = default_pred (name_of it) (generics_of it) pin)).
    { unfold unpin_items, empty_impl in X. destruct (ar_unpin a); cbn [In] in X; intuition (try discriminate);
        match goal with E : OImpl _ = OImpl im |- _ => injection E as <- end; eexists; (split; [reflexivity|]); auto. }
    destruct G as (w & Eg & Hp). rewrite Eg in Hw. unfold pin_generics in Hw. unfold preds at 1 in Hw. cbn [g_where] in Hw.
    apply in_app_or in Hw. destruct Hw as [Hw|[E|[]]]; [contradiction|]. subst w.
    destruct Hp as [E|[E|E]]; injection E as _ -> _.
    + eapply wrapped_fields_of; [|exact Hin]. intros s l X'. inversion X'.
    + eapply wrapped_fields_of; [|exact Hin]. intros s l X'. inversion X'.
    + eapply plain_fields_of; [|exact Hin]. intros s l X'. inversion X'.
  - exfalso. unfold drop_items in X. destruct (ar_pinned_drop a); cbn [In] in X;
      intuition (try discriminate); match goal with E : OImpl _ = OImpl im |- _ => injection E as <- end;
      first [exact (Hnot Hw)|destruct Hw].
Qed.
