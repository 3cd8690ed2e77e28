(** What the generated code looks like. *)
From Coq Require Import String Ascii List Bool Arith Lia.
From Verif Require Import Base Syntax SyntaxInd ModelArgs ModelUtils ModelDerive.
From Verif Require Import SpecArgs SpecDerive SpecLifetime SpecExpand ProofsArgs ProofsUtils ProofsRepr ProofsDerive.
Import ListNotations.
Open Scope string_scope.
Open Scope list_scope.

(** ** Replacing [Self] does not change the declared lifetimes *)
Lemma lts_underscore l : flat_map lts_seg (underscore_path l) = flat_map lts_seg l.
Proof. destruct l as [|[i a] [|]]; reflexivity. Qed.

Lemma path_is_Self_true q p : path_is_Self q p = true -> q = None /\ p = Path false [Seg (I "Self") GNone].
Proof.
  unfold path_is_Self. destruct q; [discriminate|]. destruct p as [[] [|[i []] [|]]]; try discriminate.
  intros H. apply ident_is_eq in H. subst i. auto.
Qed.
Lemma path_starts_Self_true q p : path_starts_Self q p = true ->
  q = None /\ exists s r, p = Path false (Seg (I "Self") GNone :: s :: r).
Proof.
  unfold path_starts_Self. destruct q; [discriminate|]. destruct p as [[] [|[i []] [|s r]]]; try discriminate.
  intros H. apply ident_is_eq in H. subst i. eauto.
Qed.

Lemma flat_map_ext_Forall {A B} (f : A -> list B) (g : A -> A) l :
  Forall (fun x => f (g x) = f x) l -> flat_map f (map g l) = flat_map f l.
Proof. induction 1 as [|x l Hx Hl IH]; [reflexivity|]. cbn. rewrite Hx, IH. reflexivity. Qed.

(** ** Equations for the replacement *)
Section Equations.
  Variable self : type_path.
  Notation R := (replace_ty self).
  Lemma r_path q p : R (TyPath q p) =
    if path_is_Self q p then tp_ty self
    else if path_starts_Self q p then
      match p with
      | Path _ segs => TyPath (Some (tp_ty self, 0))
          (Path true (underscore_path (skipn 1 (map (replace_seg self) segs))))
      end
    else TyPath (match q with Some (t', n) => Some (R t', n) | None => None end) (replace_path self p).
  Proof. reflexivity. Qed.
  Lemma r_ref lt m t : R (TyRef lt m t) = TyRef lt m (R t). Proof. reflexivity. Qed.
  Lemma r_ptr m t : R (TyPtr m t) = TyPtr m (R t). Proof. reflexivity. Qed.
  Lemma r_tuple l : R (TyTuple l) = TyTuple (map R l). Proof. reflexivity. Qed.
  Lemma r_slice t : R (TySlice t) = TySlice (R t). Proof. reflexivity. Qed.
  Lemma r_array t e : R (TyArray t e) = TyArray (R t) (replace_expr self e). Proof. reflexivity. Qed.
  Lemma r_fn lts l o : R (TyFn lts l o) =
    TyFn lts (map R l) (match o with Some t => Some (R t) | None => None end).
  Proof. reflexivity. Qed.
  Lemma r_dyn bs : R (TyDyn bs) = TyDyn (map (replace_bound self) bs). Proof. reflexivity. Qed.
  Lemma r_paren t : R (TyParen t) = TyParen (R t). Proof. reflexivity. Qed.
  Lemma r_never : R TyNever = TyNever. Proof. reflexivity. Qed.
  Lemma r_macro m ts : R (TyMacro m ts) = TyMacro m (visit_macro (print_ty (tp_ty self)) ts).
  Proof. reflexivity. Qed.
  Lemma r_pathc lead segs :
    replace_path self (Path lead segs) = Path lead (underscore_path (map (replace_seg self) segs)).
  Proof. reflexivity. Qed.
  Lemma r_seg i a : replace_seg self (Seg i a) = Seg i (replace_gargs self a). Proof. reflexivity. Qed.
  Lemma r_gnone : replace_gargs self GNone = GNone. Proof. reflexivity. Qed.
  Lemma r_gangle b l : replace_gargs self (GAngle b l) = GAngle b (map (replace_garg self) l).
  Proof. reflexivity. Qed.
  Lemma r_gparen l o : replace_gargs self (GParen l o) =
    GParen (map R l) (match o with Some t => Some (R t) | None => None end).
  Proof. reflexivity. Qed.
  Lemma r_alt lt : replace_garg self (ALt lt) = ALt lt. Proof. reflexivity. Qed.
  Lemma r_aty t : replace_garg self (ATy t) = ATy (R t). Proof. reflexivity. Qed.
  Lemma r_aconst e : replace_garg self (AConst e) = AConst (replace_expr self e). Proof. reflexivity. Qed.
  Lemma r_aassoc i t : replace_garg self (AAssoc i t) = AAssoc i (R t). Proof. reflexivity. Qed.
  Lemma r_blt lt : replace_bound self (BLt lt) = BLt lt. Proof. reflexivity. Qed.
  Lemma r_btrait m lts p : replace_bound self (BTrait m lts p) = BTrait m lts (replace_path self p).
  Proof. reflexivity. Qed.
  Lemma r_epath q p : replace_expr self (EPath q p) =
    if path_is_Self q p then EPath None (self_to_expr_path self p)
    else if path_starts_Self q p then
      match p with
      | Path _ segs => EPath (Some (tp_ty self, 0))
          (Path true (underscore_path (skipn 1 (map (replace_seg self) segs))))
      end
    else EPath (match q with Some (t', n) => Some (R t', n) | None => None end) (replace_path self p).
  Proof. reflexivity. Qed.
  Lemma r_elit s : replace_expr self (ELit s) = ELit s. Proof. reflexivity. Qed.
  Lemma r_ecall f l : replace_expr self (ECall f l) = ECall (replace_expr self f) (map (replace_expr self) l).
  Proof. reflexivity. Qed.
  Lemma r_emacro m ts : replace_expr self (EMacro m ts) = EMacro m (visit_macro (print_ty (tp_ty self)) ts).
  Proof. reflexivity. Qed.
End Equations.
Ltac rr := rewrite ?r_path, ?r_ref, ?r_ptr, ?r_tuple, ?r_slice, ?r_array, ?r_fn, ?r_dyn, ?r_paren, ?r_never,
  ?r_macro, ?r_pathc, ?r_seg, ?r_gnone, ?r_gangle, ?r_gparen, ?r_alt, ?r_aty, ?r_aconst, ?r_aassoc, ?r_blt,
  ?r_btrait, ?r_epath, ?r_elit, ?r_ecall, ?r_emacro.

Section LtsReplace.
  Variable self : type_path.
  Hypothesis Hself : lts_ty (tp_ty self) = [].

  Lemma lts_self_path : lts_path (tp_path self) = [].
  Proof. unfold tp_ty in Hself. cbn [lts_ty] in Hself. apply app_eq_nil in Hself. apply Hself. Qed.
  Lemma lts_turbofish l : flat_map lts_seg (map add_turbofish l) = flat_map lts_seg l.
  Proof. apply flat_map_ext_Forall. apply Forall_forall. intros [i [|[] [|x y]|]] _; cbn [add_turbofish lts_seg lts_gargs]; reflexivity. Qed.

  Lemma lts_replace :
    (forall t, lts_ty (replace_ty self t) = lts_ty t) /\
    (forall p, lts_path (replace_path self p) = lts_path p) /\
    (forall s, lts_seg (replace_seg self s) = lts_seg s) /\
    (forall a, lts_gargs (replace_gargs self a) = lts_gargs a) /\
    (forall a, lts_garg (replace_garg self a) = lts_garg a) /\
    (forall b, lts_bound (replace_bound self b) = lts_bound b) /\
    (forall e, lts_expr (replace_expr self e) = lts_expr e).
  Proof.
    assert (Hopt : forall o : option ty, Po (fun t => lts_ty (replace_ty self t) = lts_ty t) o ->
      match match o with Some t' => Some (replace_ty self t') | None => None end with
      | Some t' => lts_ty t' | None => [] end = match o with Some t' => lts_ty t' | None => [] end).
    { intros [t|]; cbn; auto. }
    assert (Hstart : forall p, lts_path (replace_path self p) = lts_path p ->
      forall s r, p = Path false (Seg (I "Self") GNone :: s :: r) ->
      flat_map lts_seg (underscore_path (skipn 1 (map (replace_seg self) (Seg (I "Self") GNone :: s :: r)))) =
      lts_path p).
    { intros p Hp s r ->. cbn [replace_path lts_path] in Hp. rewrite lts_underscore in Hp. rewrite lts_underscore.
      cbn [map skipn flat_map lts_seg lts_gargs replace_seg replace_gargs app] in *. exact Hp. }
    apply syntax_ind; unfold Pq; intros; rr;
      cbn [lts_ty lts_path lts_seg lts_gargs lts_garg lts_bound lts_expr].
    - destruct (path_is_Self q p) eqn:E1.
      { apply path_is_Self_true in E1. destruct E1 as [-> ->]. rewrite Hself. reflexivity. }
      destruct (path_starts_Self q p) eqn:E2.
      { apply path_starts_Self_true in E2. destruct E2 as (-> & s & r & ->).
        cbn [lts_ty]. rewrite Hself. cbn [app].
        etransitivity; [exact (Hstart _ H0 s r eq_refl)|reflexivity]. }
      cbn [lts_ty]. rewrite H0. f_equal. destruct q as [[t n]|]; [exact H|reflexivity].
    - exact H.
    - exact H.
    - apply flat_map_ext_Forall; assumption.
    - exact H.
    - rewrite H, H0. reflexivity.
    - rewrite flat_map_ext_Forall by assumption. rewrite Hopt by assumption. reflexivity.
    - apply flat_map_ext_Forall; assumption.
    - exact H.
    - reflexivity.
    - reflexivity.
    - rewrite lts_underscore. apply flat_map_ext_Forall; assumption.
    - exact H.
    - reflexivity.
    - apply flat_map_ext_Forall; assumption.
    - rewrite flat_map_ext_Forall by assumption. rewrite Hopt by assumption. reflexivity.
    - reflexivity.
    - exact H.
    - exact H.
    - exact H.
    - reflexivity.
    - rewrite H. reflexivity.
    - destruct (path_is_Self q p) eqn:E1.
      { apply path_is_Self_true in E1. destruct E1 as [-> ->]. unfold self_to_expr_path.
        cbn [ident_is I raw name negb andb String.eqb Ascii.eqb Bool.eqb lts_expr lts_path].
        pose proof lts_self_path as Hp. destruct (tp_path self) as [lead segs].
        cbn [lts_path] in *. rewrite flat_map_app, lts_turbofish, Hp. reflexivity. }
      destruct (path_starts_Self q p) eqn:E2.
      { apply path_starts_Self_true in E2. destruct E2 as (-> & s & r & ->).
        cbn [lts_expr]. rewrite Hself. cbn [app].
        etransitivity; [exact (Hstart _ H0 s r eq_refl)|reflexivity]. }
      cbn [lts_expr]. rewrite H0. f_equal. destruct q as [[t n]|]; [exact H|reflexivity].
    - reflexivity.
    - rewrite H. rewrite flat_map_ext_Forall by assumption. reflexivity.
    - reflexivity.
  Qed.

  Lemma flat_map_replace {A B} (f : A -> list B) (g : A -> A) l :
    (forall x, f (g x) = f x) -> flat_map f (map g l) = flat_map f l.
  Proof. intros H. apply flat_map_ext_Forall. apply Forall_forall. auto. Qed.

  Lemma collect_replace g : collect_lifetimes (replace_generics self g) = collect_lifetimes g.
  Proof.
    destruct lts_replace as (Ht & _ & _ & _ & _ & Hb & He).
    unfold collect_lifetimes, replace_generics. cbn [g_params g_where]. f_equal.
    - apply flat_map_replace. intros [lt bs|i bs d|i t d]; cbn [replace_param lts_param].
      + reflexivity.
      + rewrite flat_map_replace by exact Hb. f_equal. destruct d; cbn; auto.
      + rewrite Ht. f_equal. destruct d; cbn; auto.
    - destruct (g_where g) as [l|]; [|reflexivity]. cbn [option_map opt_list].
      apply flat_map_replace. intros [lt bs|lts t bs]; cbn [replace_wpred lts_wpred]; [reflexivity|].
      rewrite Ht, flat_map_replace by exact Hb. reflexivity.
  Qed.
End LtsReplace.

Lemma lts_self_type i g : lts_ty (tp_ty (self_type i g)) = [].
Proof.
  cbn [tp_ty self_type tp_q tp_path lts_ty app]. unfold self_path, ty_generics.
  cbn [lts_path flat_map lts_seg]. rewrite app_nil_r.
  destruct (g_params g) as [|p ps]; [reflexivity|]. cbn [lts_gargs].
  generalize (lts_first (p :: ps)) as l. induction l as [|[|j bs d|j t d] l IH]; cbn; auto.
Qed.

Lemma pin_lifetime_replace i g :
  pin_lifetime g (determine_lifetime_name "'pin" (replace_generics (self_type i g) g)).
Proof.
  destruct (determine_lifetime_name_spec "'pin" (replace_generics (self_type i g) g)) as (n & -> & H1 & H2).
  assert (Hd : forall lt, declared (replace_generics (self_type i g) g) lt <-> declared g lt).
  { intros lt. rewrite <- !collect_declared, collect_replace by apply lts_self_type. reflexivity. }
  exists n. split; [reflexivity|]. split.
  - intros l Hl. apply H1. apply Hd. exact Hl.
  - intros m Hm. destruct (H2 m Hm) as (l & Hl & Hb). exists l. split; [apply Hd; exact Hl|exact Hb].
Qed.

(** The lifetime is determined by its description. *)
Lemma pin_lifetime_unique g a b : pin_lifetime g a -> pin_lifetime g b -> a = b.
Proof.
  intros (n & -> & H1 & H2) (m & -> & H3 & H4).
  destruct (Nat.lt_trichotomy n m) as [L|[->|L]]; [|reflexivity|].
  - destruct (H4 n L) as (l & Hl & Hb). elim (H1 l Hl Hb).
  - destruct (H2 m L) as (l & Hl & Hb). elim (H3 l Hl Hb).
Qed.

(** ** Fields *)
Definition kty (k : proj) (lt : string) : field -> ty :=
  match k with PMut => mut_ty lt | PRef => ref_ty lt | POwn => own_ty end.

Lemma replace_vis_id v : ~ is_pub_self v -> replace_vis v = v.
Proof.
  intros H. destruct v as [| |b p]; try reflexivity. cbn [replace_vis].
  destruct p as [|i [|]]; try reflexivity. cbn [replace_ids]. unfold prepend_underscore_to_self.
  destruct (ident_is i "self") eqn:E; [|reflexivity]. apply ident_is_eq in E. subst i.
  elim H. exists b. reflexivity.
Qed.

Lemma field_projected_kty k lt self f :
  field_projected k lt self f (retype (kty k lt) (replace_field self f)).
Proof.
  assert (E : pin_b (replace_field self f) = pin_b f) by apply pin_b_replace.
  constructor; cbn [retype f_ident f_vis f_attrs f_ty replace_field].
  - reflexivity.
  - apply replace_vis_id.
  - intros b ->. reflexivity.
  - reflexivity.
  - intros H. apply pin_b_iff in H. destruct k; cbn [kty pinned_ty]; unfold mut_ty, ref_ty, own_ty;
      rewrite E, H; reflexivity.
  - intros H. assert (H' : pin_b f = false) by (destruct (pin_b f) eqn:X; [apply pin_b_iff in X; contradiction|reflexivity]).
    destruct k; cbn [kty unpinned_ty]; unfold mut_ty, ref_ty, own_ty; rewrite E, H'; reflexivity.
Qed.

Lemma fields_projected_kty k lt self fs :
  fields_projected k lt self fs
    (rebuild_fields (replace_fields self fs) (map (retype (kty k lt)) (fields_list (replace_fields self fs)))).
Proof.
  destruct fs as [l|l|]; cbn [replace_fields rebuild_fields fields_list]; constructor;
    rewrite map_map; induction l as [|f l IH]; cbn [map]; constructor; auto; apply field_projected_kty.
Qed.

Lemma variant_projected_kty k lt self v :
  variant_projected k lt self v (variant_of (kty k lt) (replace_variant self v)).
Proof. constructor; try reflexivity. apply fields_projected_kty. Qed.

Lemma self_type_own i g : self_type i g = own_type i g.
Proof.
  unfold self_type, own_type, self_path, ty_generics, lts_first. destruct (g_params g); [reflexivity|].
  do 5 f_equal.
Qed.

(** ** Reading off the closed forms *)
Lemma ordered_lts_first l : ordered l -> lts_first l = l.
Proof.
  intros (a & b & -> & Ha & Hb). unfold lts_first. rewrite !filter_app.
  assert (filter is_lt_param a = a) as ->.
  { clear Hb. induction a as [|x a IH]; [reflexivity|]. cbn. rewrite (Ha x) by (left; reflexivity).
    f_equal. apply IH. intros p Hp. apply Ha. right. exact Hp. }
  assert (filter is_lt_param b = []) as ->.
  { apply filter_nil_iff. exact Hb. }
  assert (filter (fun p => negb (is_lt_param p)) a = []) as ->.
  { apply filter_nil_iff. intros p Hp. rewrite (Ha p Hp). reflexivity. }
  rewrite app_nil_r. cbn [app]. f_equal.
  clear Ha. induction b as [|x b IH]; [reflexivity|]. cbn. rewrite (Hb x) by (left; reflexivity).
  cbn. f_equal. apply IH. intros p Hp. apply Hb. right. exact Hp.
Qed.
Lemma ordered_cons lt bs l : ordered l -> ordered (PLt lt bs :: l).
Proof.
  intros (a & b & -> & Ha & Hb). exists (PLt lt bs :: a), b. split; [reflexivity|]. split; [|exact Hb].
  intros p [<-|Hp]; [reflexivity|apply Ha; exact Hp].
Qed.
Lemma is_lt_replace self p : is_lt_param (replace_param self p) = is_lt_param p.
Proof. destruct p; reflexivity. Qed.
Lemma ordered_replace self l : ordered l -> ordered (map (replace_param self) l).
Proof.
  intros (a & b & -> & Ha & Hb). exists (map (replace_param self) a), (map (replace_param self) b).
  split; [apply map_app|]. split; intros p Hp; apply in_map_iff in Hp; destruct Hp as (q & <- & Hq);
    rewrite is_lt_replace; auto.
Qed.
Lemma param_arg_replace self p : param_arg (replace_param self p) = param_arg p.
Proof. destruct p; reflexivity. Qed.
Lemma as_arg_param p : param_arg p = as_arg p. Proof. destruct p; reflexivity. Qed.

(** [#ident #ty_generics] when the parameters are in order. *)
Lemma ty_applied_ordered i g : ordered (g_params g) -> ty_applied i g = applied i (map as_arg (g_params g)).
Proof.
  intros H. unfold ty_applied, self_path, ty_generics, applied.
  rewrite (map_ext as_arg param_arg) by (intros p; symmetry; apply as_arg_param).
  destruct (g_params g) as [|p l]; [reflexivity|]. rewrite (ordered_lts_first _ H). reflexivity.
Qed.
Lemma ty_applied_replace i self g : ordered (g_params g) ->
  ty_applied i (replace_generics self g) = applied i (map as_arg (g_params g)).
Proof.
  intros H. rewrite ty_applied_ordered by (apply ordered_replace; exact H).
  unfold replace_generics. cbn [g_params]. rewrite map_map. f_equal. apply map_ext.
  intros p. destruct p; reflexivity.
Qed.

(** Destructs the options. *)
Ltac cases_options a :=
  destruct a as [[|] [| |] [?pm|] [?pr|] [| |?po]].

Lemma struct_methods s a :
  map m_name (inherent_methods (struct_out (struct_cx a s) (s_fields s))) =
  map proj_method (filter (fun k => struct_has k a) all_proj).
Proof. cases_options a; reflexivity. Qed.
Lemma enum_methods e a : ar_project_replace a <> PRUnnamed ->
  map m_name (inherent_methods (enum_out (enum_cx a e) (e_variants e))) =
  map proj_method (filter (fun k => enum_has k a) all_proj).
Proof. cases_options a; try reflexivity; intros H; elim H; reflexivity. Qed.

Definition self_of (s : item_struct) : type_path := own_type (s_ident s) (s_generics s).
Definition struct_lt (s : item_struct) : string := cx_lifetime (struct_cx (mkArgs false UDefault None None PRNone) (spelled_struct s)).
Definition enum_lt (e : item_enum) : string := cx_lifetime (enum_cx (mkArgs false UDefault None None PRNone) (spelled_enum e)).
Lemma struct_lt_ok s : pin_lifetime (s_generics s) (struct_lt s).
Proof. apply pin_lifetime_replace. Qed.
Lemma enum_lt_ok e : pin_lifetime (e_generics e) (enum_lt e).
Proof. apply pin_lifetime_replace. Qed.

(** The projected type of kind [k]. *)
Definition struct_kind (k : proj) (cx : context) (fs : fields) : oitem :=
  match k with PMut => struct_mut cx fs | PRef => struct_ref cx fs | POwn => struct_own cx fs end.
Definition enum_kind (k : proj) (cx : context) (vs : list variant) : oitem :=
  match k with PMut => enum_mut cx vs | PRef => enum_ref cx vs | POwn => enum_own cx vs end.
Definition kdef (k : proj) (cx : context) : generics := match k with POwn => odef cx | _ => pdef cx end.

Lemma struct_kind_eq k a s : struct_kind k (struct_cx a (spelled_struct s)) (s_fields (spelled_struct s)) =
  OStruct (determine_visibility (replace_vis (s_vis s))) (proj_name k a (s_ident s))
    (kdef k (struct_cx a (spelled_struct s)))
    (rebuild_fields (replace_fields (self_type (s_ident s) (s_generics s)) (s_fields s))
       (map (retype (kty k (struct_lt s)))
          (fields_list (replace_fields (self_type (s_ident s) (s_generics s)) (s_fields s))))).
Proof. cases_options a; destruct k; reflexivity. Qed.
Lemma enum_kind_eq k a e : enum_kind k (enum_cx a (spelled_enum e)) (e_variants (spelled_enum e)) =
  OEnum (determine_visibility (replace_vis (e_vis e))) (proj_name k a (e_ident e))
    (kdef k (enum_cx a (spelled_enum e)))
    (map (variant_of (kty k (enum_lt e)))
       (map (replace_variant (self_type (e_ident e) (e_generics e))) (e_variants e))).
Proof. cases_options a; destruct k; reflexivity. Qed.

Lemma struct_kind_in k a cx fs : cx_args cx = a -> struct_has k a = true ->
  In (struct_kind k cx fs) (if is_some (given_name k a) then exposed (struct_out cx fs) else scoped (struct_out cx fs)).
Proof.
  intros E H. unfold struct_out. rewrite E. cases_options a; destruct k; try discriminate H;
    cbn [given_name ar_project ar_project_ref ar_project_replace is_some exposed scoped when app negb pr_span
      pr_ident andb struct_kind]; firstorder.
Qed.
Lemma enum_kind_in k a cx vs : cx_args cx = a -> enum_has k a = true ->
  In (enum_kind k cx vs) (exposed (enum_out cx vs)).
Proof.
  intros E H. unfold enum_out. rewrite E. cases_options a; destruct k; try discriminate H;
    cbn [given_name ar_project ar_project_ref ar_project_replace is_some exposed scoped when app negb pr_span
      pr_ident andb enum_kind]; firstorder.
Qed.

Lemma variants_projected k lt self vs :
  Forall2 (variant_projected k lt self) vs (map (variant_of (kty k lt)) (map (replace_variant self) vs)).
Proof. rewrite map_map. induction vs as [|v vs IH]; cbn [map]; constructor; auto. apply variant_projected_kty. Qed.

(** Which structs and enums are generated. *)
Lemma struct_types_only a s v n g fs' :
  In (OStruct v n g fs') (all_items (struct_out (struct_cx a s) (s_fields s))) ->
  (n = id_unpin (s_ident s) /\ ar_unpin a = UDefault) \/
  exists k, struct_has k a = true /\ OStruct v n g fs' = struct_kind k (struct_cx a s) (s_fields s).
Proof.
  unfold all_items, struct_out, make_unpin_impl, make_drop_impl.
  change (cx_args (struct_cx a s)) with a.
  cases_options a; cbn [given_name ar_project ar_project_ref ar_project_replace ar_unpin ar_pinned_drop
    is_some exposed scoped when app negb pr_span pr_ident andb In]; intros H;
  repeat match goal with
  | H : _ \/ _ |- _ => destruct H as [H|H]
  | H : False |- _ => destruct H
  | H : ?x = OStruct _ _ _ _ |- _ => first
      [ discriminate H
      | right; exists PMut; split; [reflexivity|symmetry; exact H]
      | right; exists PRef; split; [reflexivity|symmetry; exact H]
      | right; exists POwn; split; [reflexivity|symmetry; exact H]
      | left; injection H; intros; subst; split; reflexivity ]
  end.
Qed.
Lemma struct_no_enum a s v n g vs :
  ~ In (OEnum v n g vs) (all_items (struct_out (struct_cx a s) (s_fields s))).
Proof.
  unfold all_items, struct_out, make_unpin_impl, make_drop_impl.
  change (cx_args (struct_cx a s)) with a.
  cases_options a; cbn [given_name ar_project ar_project_ref ar_project_replace ar_unpin ar_pinned_drop
    is_some exposed scoped when app negb pr_span pr_ident andb In]; intros H;
  repeat match goal with
  | H : _ \/ _ |- _ => destruct H as [H|H]
  | H : False |- _ => destruct H
  | H : ?x = OEnum _ _ _ _ |- _ => discriminate H
  end.
Qed.
Lemma enum_types_only a e v n g vs' : ar_project_replace a <> PRUnnamed ->
  In (OEnum v n g vs') (all_items (enum_out (enum_cx a e) (e_variants e))) ->
  exists k, enum_has k a = true /\ OEnum v n g vs' = enum_kind k (enum_cx a e) (e_variants e).
Proof.
  unfold all_items, enum_out, make_unpin_impl, make_drop_impl.
  change (cx_args (enum_cx a e)) with a.
  cases_options a; cbn [given_name ar_project ar_project_ref ar_project_replace ar_unpin ar_pinned_drop
    is_some exposed scoped when app negb pr_span pr_ident andb In]; intros N H;
  repeat match goal with
  | H : _ \/ _ |- _ => destruct H as [H|H]
  | H : False |- _ => destruct H
  | H : ?x = OEnum _ _ _ _ |- _ => first
      [ discriminate H
      | exists PMut; split; [reflexivity|symmetry; exact H]
      | exists PRef; split; [reflexivity|symmetry; exact H]
      | exists POwn; split; [reflexivity|symmetry; exact H]
      | elim N; reflexivity ]
  end.
Qed.
Lemma enum_structs_only a e v n g fs' :
  In (OStruct v n g fs') (all_items (enum_out (enum_cx a e) (e_variants e))) ->
  n = id_unpin (e_ident e) /\ ar_unpin a = UDefault.
Proof.
  unfold all_items, enum_out, make_unpin_impl, make_drop_impl.
  change (cx_args (enum_cx a e)) with a.
  cases_options a; cbn [given_name ar_project ar_project_ref ar_project_replace ar_unpin ar_pinned_drop
    is_some exposed scoped when app negb pr_span pr_ident andb In]; intros H;
  repeat match goal with
  | H : _ \/ _ |- _ => destruct H as [H|H]
  | H : False |- _ => destruct H
  | H : ?x = OStruct _ _ _ _ |- _ => first
      [ discriminate H | injection H; intros; subst; split; reflexivity ]
  end.
Qed.
