(** The attributes of others do not matter. *)
From Coq Require Import String Ascii List Bool.
From Verif Require Import Base Syntax ModelArgs ModelUtils ModelDerive.
From Verif Require Import SpecArgs SpecDerive SpecExpand SpecAttrs.
From Verif Require Import ProofsArgs ProofsUtils ProofsRepr ProofsDerive ProofsExpand ProofsUnsafe.
Import ListNotations.
Open Scope string_scope.
Open Scope list_scope.

Lemma not_named x n : ~ attr_named x n -> attr_is x n = false.
Proof. intros H. destruct (attr_is x n) eqn:E; [|reflexivity]. elim H. apply attr_is_iff. exact E. Qed.

Lemma same_filter names l l' n : same_named names l l' -> In n names ->
  filter (fun x => attr_is x n) l = filter (fun x => attr_is x n) l'.
Proof.
  intros H Hn. induction H as [|x l l' _ IH|x l l' Hx _ IH|x l l' Hx _ IH]; cbn.
  - reflexivity.
  - rewrite IH. reflexivity.
  - rewrite (not_named x n) by (apply Hx; exact Hn). exact IH.
  - rewrite (not_named x n) by (apply Hx; exact Hn). exact IH.
Qed.
Lemma find_filter {A} (f : A -> bool) l : find f l = hd_error (filter f l).
Proof. induction l as [|x l IH]; [reflexivity|]. cbn. destruct (f x); [reflexivity|exact IH]. Qed.
Lemma same_find names l l' n : same_named names l l' -> In n names -> attrs_find l n = attrs_find l' n.
Proof. intros H Hn. unfold attrs_find. rewrite !find_filter. f_equal. eapply same_filter; eassumption. Qed.
Lemma same_args l l' : same_named item_names l l' -> parse_args l = parse_args l'.
Proof.
  intros H. unfold parse_args. rewrite (same_find _ _ _ "pin_project" H), (same_filter _ _ _ "pin" H) by (cbn; tauto). reflexivity.
Qed.
Lemma same_reprs b l l' : same_named item_names l l' -> check_reprs b l = check_reprs b l'.
Proof.
  intros H. induction H as [|x l l' _ IH|x l l' Hx _ IH|x l l' Hx _ IH]; cbn [check_reprs].
  - reflexivity.
  - rewrite IH. reflexivity.
  - rewrite (not_named x "repr") by (apply Hx; cbn; tauto). rewrite IH. destruct (a_meta x); reflexivity.
  - rewrite (not_named x "repr") by (apply Hx; cbn; tauto). rewrite IH. destruct (a_meta x); reflexivity.
Qed.
(** Positions differ, but only whether there is one counts. *)
Definition found (r : res (option nat)) : res bool := do o <- r; Ok (is_some o).
Lemma same_position names l l' n : same_named names l l' -> In n names -> forall k k' p p', is_some p = is_some p' ->
  found (position_exact_from k p n l) = found (position_exact_from k' p' n l').
Proof.
  intros H Hn. induction H as [|x l l' _ IH|x l l' Hx _ IH|x l l' Hx _ IH]; intros k k' p p' Hp; cbn [position_exact_from].
  - unfold found. cbn. rewrite Hp. reflexivity.
  - destruct (attr_is x n); [|apply IH; exact Hp]. destruct p, p'; try discriminate Hp; [reflexivity|].
    destruct (a_meta x); try reflexivity. apply IH. reflexivity.
  - rewrite (not_named x n) by (apply Hx; exact Hn). apply IH. exact Hp.
  - rewrite (not_named x n) by (apply Hx; exact Hn). apply IH. exact Hp.
Qed.

(** ** After the replacement of [Self] *)
Lemma same_replace names l l' : (forall n, In n names -> n <> "self" /\ n <> "__self") -> same_named names l l' ->
  same_named names (map replace_attr l) (map replace_attr l').
Proof.
  intros Hn H. induction H as [|x l l' _ IH|x l l' Hx _ IH|x l l' Hx _ IH]; cbn [map].
  - constructor.
  - apply SN_both. exact IH.
  - apply SN_left; [|exact IH]. intros n Hin E. apply (Hx n Hin). apply named_out in E; [exact E|apply Hn; exact Hin..].
  - apply SN_right; [|exact IH]. intros n Hin E. apply (Hx n Hin). apply named_out in E; [exact E|apply Hn; exact Hin..].
Qed.
Lemma pin_not_self n : In n ["pin"] -> n <> "self" /\ n <> "__self".
Proof. intros [<-|[]]. split; discriminate. Qed.
Lemma field_alike_replace self f f' : field_alike f f' -> field_alike (replace_field self f) (replace_field self f').
Proof.
  intros (H1 & H2 & H3 & H4). repeat split; cbn [replace_field f_attrs f_vis f_ident f_ty]; try congruence.
  apply same_replace; [apply pin_not_self|exact H1].
Qed.
Lemma Forall2_map_same {A} (R : A -> A -> Prop) (g : A -> A) l l' : (forall x y, R x y -> R (g x) (g y)) ->
  Forall2 R l l' -> Forall2 R (map g l) (map g l').
Proof. intros H. induction 1; cbn; constructor; auto. Qed.
Lemma fields_alike_replace self fs fs' : fields_alike fs fs' -> fields_alike (replace_fields self fs) (replace_fields self fs').
Proof. intros [l l' H|l l' H|]; constructor; (apply Forall2_map_same; [apply field_alike_replace|exact H]). Qed.
Lemma variant_alike_replace self v v' : variant_alike v v' -> variant_alike (replace_variant self v) (replace_variant self v').
Proof.
  intros (H1 & H2 & H3 & H4). unfold variant_alike. cbn [replace_variant v_attrs v_ident v_fields v_disc].
  split; [apply same_replace; [apply pin_not_self|exact H1]|]. split; [exact H2|]. split; [apply fields_alike_replace; exact H3|exact H4].
Qed.

(** ** Fields and variants *)
Lemma visit_fields_alike lt l l' : Forall2 field_alike l l' -> forall n, visit_field_list lt n l = visit_field_list lt n l'.
Proof.
  induction 1 as [|f f' l l' (H1 & H2 & H3 & H4) _ IH]; intros n; [reflexivity|]. cbn [visit_field_list].
  pose proof (same_position _ _ _ "pin" H1 (or_introl eq_refl) 0 0 None None eq_refl) as Hp.
  fold (position_exact (f_attrs f) "pin") in Hp. fold (position_exact (f_attrs f') "pin") in Hp.
  rewrite IH, H2, H3, H4. unfold found in Hp.
  destruct (position_exact (f_attrs f) "pin") as [o|m|m], (position_exact (f_attrs f') "pin") as [o'|m'|m'];
    cbn in Hp; try discriminate Hp; try (injection Hp as ->; reflexivity).
  cbn [bind]. destruct (visit_field_list lt (S n) l') as [pf|m|m]; [|reflexivity|reflexivity]. cbn [bind].
  injection Hp as ->. reflexivity.
Qed.
Lemma fields_alike_list fs fs' : fields_alike fs fs' -> Forall2 field_alike (fields_list fs) (fields_list fs').
Proof. intros [l l' H|l l' H|]; [exact H|exact H|constructor]. Qed.
Lemma members_alike l l' : Forall2 field_alike l l' -> forall k, map field_member (enum_from k l) = map field_member (enum_from k l').
Proof.
  induction 1 as [|f f' l l' (H1 & H2 & H3 & H4) _ IH]; intros k; [reflexivity|]. cbn. rewrite IH. unfold field_member. cbn.
  rewrite H3. reflexivity.
Qed.
Lemma fields_alike_empty fs fs' : fields_alike fs fs' -> fields_is_empty fs = fields_is_empty fs'.
Proof. intros H. apply fields_alike_list in H. unfold fields_is_empty. destruct H; reflexivity. Qed.
Lemma fields_alike_delim fs fs' : fields_alike fs fs' -> fields_delim fs = fields_delim fs'.
Proof. intros [l l' H|l l' H|]; reflexivity. Qed.
Lemma fields_alike_rebuild fs fs' l : fields_alike fs fs' -> rebuild_fields fs l = rebuild_fields fs' l.
Proof. intros [l1 l1' H|l1 l1' H|]; reflexivity. Qed.

Lemma visit_variants_alike cx vs vs' : Forall2 variant_alike vs vs' -> visit_variants cx vs = visit_variants cx vs'.
Proof.
  induction 1 as [|v v' vs vs' (H1 & H2 & H3 & H4) _ IH]; [reflexivity|]. cbn [visit_variants].
  unfold visit_fields. rewrite (visit_fields_alike _ _ _ (fields_alike_list _ _ H3)), IH, H2, (fields_alike_delim _ _ H3).
  destruct (visit_field_list (cx_lifetime cx) 0 (fields_list (v_fields v'))) as [pf|m|m]; [|reflexivity|reflexivity]. cbn [bind].
  destruct (visit_variants cx vs') as [pv|m|m]; [|reflexivity|reflexivity]. cbn [bind].
  rewrite !(fields_alike_rebuild _ _ _ H3). reflexivity.
Qed.
Lemma validate_variants_alike vs vs' : Forall2 variant_alike vs vs' -> forall b, validate_variants b vs = validate_variants b vs'.
Proof.
  induction 1 as [|v v' vs vs' (H1 & H2 & H3 & H4) _ IH]; intros b; [reflexivity|]. cbn [validate_variants].
  rewrite H4, (same_find _ _ _ "pin" H1), (fields_alike_empty _ _ H3), !IH by (left; reflexivity). reflexivity.
Qed.
Lemma validate_enum_alike vs vs' : Forall2 variant_alike vs vs' -> validate_enum vs = validate_enum vs'.
Proof.
  intros H. unfold validate_enum. rewrite (validate_variants_alike _ _ H). destruct H; reflexivity.
Qed.

(** A context with other attributes. *)
Definition with_attrs (l : list attr) (cx : context) : context :=
  mkCx (cx_kind cx) (cx_args cx) l (cx_vis cx) (cx_ident cx) (cx_generics cx) (cx_pvis cx) (cx_mut_ident cx)
    (cx_ref_ident cx) (cx_own_ident cx) (cx_lifetime cx) (cx_pgenerics cx) (cx_pwhere cx).
Lemma context_alike l l' v i g k : same_named item_names l l' ->
  context_new l' v i g k = do cx <- context_new l v i g k; Ok (with_attrs l' cx).
Proof.
  intros H. unfold context_new. rewrite <- (same_args _ _ H). destruct (parse_args l) as [a|m|m]; [|reflexivity|reflexivity].
  cbn [bind]. destruct (name_clash a i); reflexivity.
Qed.
Lemma context_attrs l v i g k cx : context_new l v i g k = Ok cx -> cx_attrs cx = l.
Proof.
  unfold context_new. destruct (parse_args l) as [a|m|m]; try discriminate. cbn [bind].
  destruct (name_clash a i); [discriminate|]. cbn. intros H. injection H as <-. reflexivity.
Qed.
Lemma parse_struct_alike cx l fs fs' : same_named item_names (cx_attrs cx) l -> fields_alike fs fs' ->
  parse_struct (with_attrs l cx) fs' = parse_struct cx fs.
Proof.
  intros Hl Hf. unfold parse_struct, ensure_not_packed, validate_struct, visit_fields.
  change (cx_attrs (with_attrs l cx)) with l. rewrite <- (same_reprs _ _ _ Hl), <- (fields_alike_empty _ _ Hf).
  change (cx_generics (with_attrs l cx)) with (cx_generics cx). change (cx_ident (with_attrs l cx)) with (cx_ident cx).
  unfold enumerate. rewrite <- (members_alike _ _ (fields_alike_list _ _ Hf)).
  change (cx_lifetime (with_attrs l cx)) with (cx_lifetime cx).
  rewrite <- (visit_fields_alike _ _ _ (fields_alike_list _ _ Hf)), <- (fields_alike_delim _ _ Hf).
  cbn [is_some]. destruct (check_reprs true (cx_attrs cx)) as [u|m|m]; [|reflexivity|reflexivity].
  cbn [bind]. destruct (if fields_is_empty fs then _ else _) as [u'|m|m]; [|reflexivity|reflexivity]. cbn [bind].
  assert (E : (match fs' with FUnit => Panic "internal error: entered unreachable code" | _ => visit_field_list (cx_lifetime cx) 0 (fields_list fs) end) =
    (match fs with FUnit => Panic "internal error: entered unreachable code" | _ => visit_field_list (cx_lifetime cx) 0 (fields_list fs) end))
    by (destruct Hf; reflexivity).
  rewrite E. destruct (match fs with FUnit => _ | _ => _ end) as [pf|m|m]; [|reflexivity|reflexivity]. cbn [bind].
  assert (R : forall x, rebuild_fields fs' x = rebuild_fields fs x) by (intros x; symmetry; apply fields_alike_rebuild; exact Hf).
  rewrite !R. reflexivity.
Qed.
Lemma parse_enum_alike cx l vs vs' : same_named item_names (cx_attrs cx) l -> Forall2 variant_alike vs vs' ->
  parse_enum (with_attrs l cx) vs' = parse_enum cx vs.
Proof.
  intros Hl Hv. unfold parse_enum, ensure_not_packed. change (cx_attrs (with_attrs l cx)) with l.
  rewrite <- (same_reprs _ _ _ Hl), <- (validate_enum_alike _ _ Hv).
  assert (E : visit_variants (with_attrs l cx) vs' = visit_variants cx vs).
  { rewrite <- (visit_variants_alike _ _ _ Hv). clear. induction vs as [|v vs IH]; [reflexivity|]. cbn [visit_variants].
    rewrite IH. reflexivity. }
  rewrite E. reflexivity.
Qed.

Lemma names_not_self n : In n item_names -> n <> "self" /\ n <> "__self".
Proof. intros [<-|[<-|[<-|[]]]]; split; discriminate. Qed.
Lemma c53' it it' : item_alike it it' -> parse_derive it' = parse_derive it.
Proof.
  intros [s s' H1 H2 H3 H4 H5|e e' H1 H2 H3 H4 H5|]; cbn [parse_derive].
  - rewrite <- H3, <- H4. set (self := self_type (s_ident s) (s_generics s)).
    cbn [replace_struct s_attrs s_vis s_ident s_generics s_fields]. rewrite <- H2, <- H3, <- H4.
    pose proof (same_replace _ _ _ names_not_self H1) as Ha.
    rewrite (context_alike _ _ (replace_vis (s_vis s)) (s_ident s) (replace_generics self (s_generics s)) KStruct Ha).
    destruct (context_new (map replace_attr (s_attrs s)) (replace_vis (s_vis s)) (s_ident s) (replace_generics self (s_generics s)) KStruct)
      as [cx|m|m] eqn:E; [|reflexivity|reflexivity]. cbn [bind].
    rewrite (parse_struct_alike cx _ (replace_fields self (s_fields s))).
    + reflexivity.
    + rewrite (context_attrs _ _ _ _ _ _ E). exact Ha.
    + apply fields_alike_replace. exact H5.
  - rewrite <- H3, <- H4. set (self := self_type (e_ident e) (e_generics e)).
    cbn [replace_enum e_attrs e_vis e_ident e_generics e_variants]. rewrite <- H2, <- H3, <- H4.
    pose proof (same_replace _ _ _ names_not_self H1) as Ha.
    rewrite (context_alike _ _ (replace_vis (e_vis e)) (e_ident e) (replace_generics self (e_generics e)) KEnum Ha).
    destruct (context_new (map replace_attr (e_attrs e)) (replace_vis (e_vis e)) (e_ident e) (replace_generics self (e_generics e)) KEnum)
      as [cx|m|m] eqn:E; [|reflexivity|reflexivity]. cbn [bind].
    rewrite (parse_enum_alike cx _ (map (replace_variant self) (e_variants e))).
    + reflexivity.
    + rewrite (context_attrs _ _ _ _ _ _ E). exact Ha.
    + apply Forall2_map_same; [apply variant_alike_replace|exact H5].
  - reflexivity.
Qed.

(** ** No attribute is copied *)
Lemma retype_attrs h l : flat_map f_attrs (map (retype h) l) = [].
Proof. induction l as [|f l IH]; [reflexivity|exact IH]. Qed.
Lemma rebuild_list fs l : fields_list (rebuild_fields fs (map l (fields_list fs))) = map l (fields_list fs).
Proof. destruct fs; reflexivity. Qed.
Lemma variant_attrs h l :
  flat_map (fun v => v_attrs v ++ flat_map f_attrs (fields_list (v_fields v))) (map (variant_of h) l) = [].
Proof.
  induction l as [|v l IH]; [reflexivity|]. cbn [map flat_map]. rewrite IH. unfold variant_of. cbn [v_attrs v_fields].
  rewrite rebuild_list, retype_attrs. reflexivity.
Qed.
Lemma none_attrs l : (forall f, In f l -> f_attrs f = []) -> flat_map f_attrs l = [].
Proof.
  induction l as [|f l IH]; intros H; [reflexivity|]. cbn. rewrite (H f), IH; [reflexivity| |left; reflexivity].
  intros g Hg. apply H. right. exact Hg.
Qed.
Lemma unpin_attrs cx l o : In o (make_unpin_impl cx l) -> attrs_inside o = [].
Proof.
  unfold make_unpin_impl. destruct (ar_unpin (cx_args cx)); cbn [In].
  - intros [<-|[<-|[<-|[]]]]; [|reflexivity|reflexivity]. cbn [attrs_inside fields_list]. apply none_attrs.
    intros f [<-|Hf]; [reflexivity|]. apply in_app_or in Hf.
    destruct Hf as [Hf|Hf]; apply in_map_iff in Hf; destruct Hf as (x & <- & _); reflexivity.
  - intros [<-|[]]. reflexivity.
  - intros [<-|[<-|[]]]; reflexivity.
Qed.
Lemma drop_attrs cx o : In o (make_drop_impl cx) -> attrs_inside o = [].
Proof.
  unfold make_drop_impl. destruct (ar_pinned_drop (cx_args cx)); cbn [In]; intuition (subst; reflexivity).
Qed.
Lemma struct_kind_attrs k cx fs : attrs_inside (struct_kind k cx fs) = [].
Proof. destruct k; cbn [struct_kind attrs_inside struct_mut struct_ref struct_own]; rewrite rebuild_list; apply retype_attrs. Qed.
Lemma enum_kind_attrs k cx vs : attrs_inside (enum_kind k cx vs) = [].
Proof. destruct k; cbn [enum_kind attrs_inside enum_mut enum_ref enum_own]; apply variant_attrs. Qed.
Lemma c53_no_copies it e o : parse_derive it = Ok e -> In o (all_items e) -> attrs_inside o = [].
Proof.
  intros H Hin. apply derive_form in H. apply in_app_or in Hin.
  destruct H as [(s & a & _ & _ & ->)|(n & a & _ & _ & ->)].
  - destruct Hin as [Hin|Hin].
    + apply struct_exposed in Hin. destruct Hin as [k ->]. apply struct_kind_attrs.
    + apply struct_scoped in Hin. destruct Hin as [->|[[k ->]|[->|[->|[Hin|Hin]]]]]; try reflexivity.
      * apply struct_kind_attrs.
      * eapply unpin_attrs. exact Hin.
      * eapply drop_attrs. exact Hin.
  - destruct Hin as [Hin|Hin].
    + apply enum_exposed in Hin. destruct Hin as [k ->]. apply enum_kind_attrs.
    + apply enum_scoped in Hin. destruct Hin as [->|[->|[Hin|Hin]]]; try reflexivity.
      * eapply unpin_attrs. exact Hin.
      * eapply drop_attrs. exact Hin.
Qed.
Lemma c53 it it' : item_alike it it' -> parse_derive it = parse_derive it'.
Proof. intros H. symmetry. apply c53'. exact H. Qed.
