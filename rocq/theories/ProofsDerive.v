(** The derive in closed form: when it succeeds, and with what result. *)
From Coq Require Import String Ascii List Bool Arith Lia.
From Verif Require Import Base Syntax ModelArgs ModelUtils ModelDerive.
From Verif Require Import SpecArgs SpecDerive ProofsArgs ProofsRepr.
Import ListNotations.
Open Scope string_scope.
Open Scope list_scope.


(** ** Attribute lookup *)

Lemma attrs_find_none l s : attrs_find l s = None <-> forall x, In x l -> ~ attr_named x s.
Proof.
  unfold attrs_find. split.
  - intros H x Hx. apply attr_is_false. apply (find_none _ _ H x Hx).
  - intros H. destruct (find _ l) as [x|] eqn:E; [|reflexivity].
    apply find_some in E. destruct E as [E1 E2]. apply attr_is_iff in E2. elim (H x E1 E2).
Qed.
Lemma attrs_find_some l s : is_some (attrs_find l s) = true <-> exists x, In x l /\ attr_named x s.
Proof.
  unfold attrs_find. split.
  - destruct (find _ l) as [x|] eqn:E; [|discriminate]. intros _.
    apply find_some in E. destruct E as [E1 E2]. apply attr_is_iff in E2. eauto.
  - intros (x & Hx & E). destruct (find _ l) as [y|] eqn:F; [reflexivity|].
    apply attr_is_iff in E. rewrite (find_none _ _ F x Hx) in E. discriminate.
Qed.

Lemma filter_nil_iff {A} (f : A -> bool) l : filter f l = [] <-> forall x, In x l -> f x = false.
Proof.
  induction l as [|x l IH]; cbn [filter].
  - split; [intros _ y []|reflexivity].
  - destruct (f x) eqn:E.
    + split; [discriminate|]. intros H. rewrite (H x (or_introl eq_refl)) in E. discriminate.
    + rewrite IH. split; [intros H y [<-|Hy]; auto|intros H y Hy; apply H; right; exact Hy].
Qed.
Lemma filter_single {A} (f : A -> bool) l x :
  filter f l = [x] <-> f x = true /\ exists l1 l2, l = l1 ++ x :: l2 /\ forall y, In y (l1 ++ l2) -> f y = false.
Proof.
  induction l as [|z l IH]; cbn [filter].
  - split; [discriminate|]. intros (_ & [|a l1] & l2 & E & _); discriminate.
  - destruct (f z) eqn:E.
    + split.
      * intros H. injection H as -> H. rewrite filter_nil_iff in H. split; [exact E|].
        exists [], l. split; [reflexivity|exact H].
      * intros (Hx & [|a l1] & l2 & E2 & H2).
        -- injection E2 as -> ->. f_equal. apply filter_nil_iff. exact H2.
        -- injection E2 as -> ->. rewrite (H2 a (or_introl eq_refl)) in E. discriminate.
    + rewrite IH. split.
      * intros (Hx & l1 & l2 & -> & H). split; [exact Hx|]. exists (z :: l1), l2. split; [reflexivity|].
        intros y [<-|Hy]; [exact E|apply H; exact Hy].
      * intros (Hx & [|a l1] & l2 & E2 & H2).
        -- injection E2 as -> ->. congruence.
        -- injection E2 as -> ->. split; [exact Hx|]. exists l1, l2. split; [reflexivity|].
           intros y Hy. apply H2. right; exact Hy.
Qed.

(** ** Arguments *)

Lemma parse_input_some ts l :
  parse_input ts = Ok (Some l) <-> ts = [TIdent (I "__private"); TGroup Paren l].
Proof.
  split.
  - unfold parse_input. destruct ts as [|[i| | |] r]; try discriminate.
    destruct (accept_as_ident i); [|discriminate].
    destruct (ident_is i "__private") eqn:E.
    + apply ident_is_eq in E. subst i.
      destruct r as [|[| | |[] x] [|]]; try discriminate. intros H. injection H as ->. reflexivity.
    + destruct r; discriminate.
  - intros ->. reflexivity.
Qed.

Lemma parse_args_iff l a : parse_args l = Ok a <-> options l a.
Proof.
  unfold parse_args, options, marked. split.
  - destruct (attrs_find l "pin_project") eqn:E; [discriminate|].
    rewrite attrs_find_none in E.
    destruct (filter _ l) as [|x more] eqn:F; [discriminate|].
    intros H. apply bind_ok in H. destruct H as (ts & H1 & H).
    apply bind_ok in H. destruct H as (prev & H2 & H).
    destruct more as [|y more].
    2:{ apply bind_ok in H. destruct H as (ts2 & _ & H).
        apply bind_ok in H. destruct H as (? & _ & H). discriminate. }
    destruct prev as [ts0|]; [|discriminate].
    apply parse_input_some in H2. subst ts.
    apply filter_single in F. destruct F as (Hx & l1 & l2 & -> & Hl).
    apply attr_is_iff in Hx. apply args_parse_iff in H. destruct H as (pl & Hw & Hs & Ho).
    exists ts0, pl. split; [|auto]. split; [exact E|].
    unfold require_list in H1. destruct (a_meta x) as [|d t|] eqn:Em; try discriminate.
    injection H1 as ->. exists l1, x, d, l2. repeat split; auto.
    + apply Hx.
    + apply Hx.
    + intros y Hy. apply attr_is_false. apply Hl. exact Hy.
  - intros (ts & pl & (Hn & l1 & x & d & l2 & -> & Hx & Hm & Hl) & Hw & Hs & Ho).
    apply attrs_find_none in Hn. rewrite Hn.
    assert (filter (fun a0 => attr_is a0 "pin") (l1 ++ x :: l2) = [x]) as ->.
    { apply filter_single. split; [apply attr_is_iff; exact Hx|]. exists l1, l2. split; [reflexivity|].
      intros y Hy. apply attr_is_false. apply Hl. exact Hy. }
    unfold require_list. rewrite Hm. cbn [bind].
    assert (parse_input [TIdent (I "__private"); TGroup Paren ts] = Ok (Some ts)) as ->
      by (apply parse_input_some; reflexivity).
    cbn [bind]. apply args_parse_iff. eauto.
Qed.

Lemma name_clash_none a i : name_clash a i = None <-> no_clash a i.
Proof.
  unfold name_clash, no_clash. split.
  - intros H.
    assert (Hn : forall n, In n (flat_map (fun o => match o with Some n => [n] | None => [] end)
       [ar_project a; ar_project_ref a; pr_ident (ar_project_replace a)]) -> n <> i).
    { intros n Hn E. subst n. pose proof (find_none _ _ H i Hn) as X. cbv beta in X.
      rewrite ident_eqb_refl in X. discriminate. }
    repeat split; intros E; apply (Hn i); try reflexivity; cbn [flat_map]; rewrite E; rewrite ?in_app_iff; cbn;
      auto.
  - intros (H1 & H2 & H3). destruct (find _ _) as [n|] eqn:E; [|reflexivity].
    apply find_some in E. destruct E as [E1 E2]. apply ident_eqb_eq in E2. subst n.
    cbn [flat_map] in E1. rewrite !in_app_iff in E1.
    destruct E1 as [E1|[E1|[E1|[]]]].
    + destruct (ar_project a); [|destruct E1]. destruct E1 as [->|[]]. elim H1; reflexivity.
    + destruct (ar_project_ref a); [|destruct E1]. destruct E1 as [->|[]]. elim H2; reflexivity.
    + destruct (ar_project_replace a); cbn in E1; try destruct E1 as [].
      subst. elim H3; reflexivity. contradiction.
Qed.

(** The context that [Context::new] builds. *)
Definition cx_of (a : args) (attrs : list attr) (v : vis) (i : ident) (g : generics) (k : type_kind) : context :=
  let lifetime := determine_lifetime_name "'pin" g in
  {| cx_kind := k; cx_args := a; cx_attrs := attrs; cx_vis := v; cx_ident := i;
     cx_generics := make_where_clause g;
     cx_pvis := determine_visibility v;
     cx_mut_ident := opt_or (ar_project a) (id_proj i);
     cx_ref_ident := opt_or (ar_project_ref a) (id_proj_ref i);
     cx_own_ident := opt_or (pr_ident (ar_project_replace a)) (id_proj_own i);
     cx_lifetime := lifetime;
     cx_pgenerics := insert_lifetime lifetime g;
     cx_pwhere := where_of g ++ [WTy [] (ty_applied i g) [BLt lifetime]] |}.

Lemma context_new_iff attrs v i g k cx :
  context_new attrs v i g k = Ok cx <->
  exists a, options attrs a /\ no_clash a i /\ cx = cx_of a attrs v i g k.
Proof.
  unfold context_new. rewrite bind_ok. split.
  - intros (a & H1 & H2). apply parse_args_iff in H1.
    destruct (name_clash a i) eqn:E; [discriminate|]. apply name_clash_none in E.
    unfold insert_lifetime_and_bound in H2. injection H2 as <-. exists a. auto.
  - intros (a & H1 & H2 & ->). exists a. apply parse_args_iff in H1. apply name_clash_none in H2.
    rewrite H2. split; [exact H1|reflexivity].
Qed.

(** ** Fields *)

Definition pin_b (f : field) : bool := existsb (fun x => attr_is x "pin") (f_attrs f).
Lemma pin_b_iff f : pin_b f = true <-> pinned f.
Proof.
  unfold pin_b, pinned. rewrite existsb_exists. split; intros (x & Hx & E); exists x; (split; [exact Hx|]);
    apply attr_is_iff; exact E.
Qed.

Lemma position_exact_from_ok s l : forall k prev o,
  position_exact_from k prev s l = Ok o <->
  (forall x, In x l -> attr_named x s -> a_meta x = MPath) /\
  (forall l1 x l2 y l3, l = l1 ++ x :: l2 ++ y :: l3 -> ~ (attr_named x s /\ attr_named y s)) /\
  (prev <> None -> forall x, In x l -> ~ attr_named x s) /\
  position_exact_from k prev s l = Ok o.
Proof.
  induction l as [|x l IH]; intros k prev o.
  - split; [|tauto]. intros H. split; [intros y []|]. split; [intros [|]; discriminate|].
    split; [intros _ y []|exact H].
  - split; [|tauto]. intros H. pose proof H as H0. cbn [position_exact_from] in H.
    destruct (attr_is x s) eqn:Ex.
    + apply attr_is_iff in Ex. destruct prev; [discriminate|].
      destruct (a_meta x) eqn:Em; try discriminate.
      apply IH in H. destruct H as (H1 & H2 & H3 & _).
      specialize (H3 ltac:(discriminate)).
      split; [intros y [<-|Hy]; [intros _; exact Em|apply H1; exact Hy]|].
      split; [|split; [intros X; elim X; reflexivity|exact H0]].
      intros [|z l1] x' l2 y l3 E [A B].
      * injection E as -> ->. apply (H3 y); [|exact B]. rewrite in_app_iff. right; left; reflexivity.
      * injection E as -> ->. apply (H2 l1 x' l2 y l3 eq_refl). auto.
    + apply attr_is_false in Ex. apply IH in H. destruct H as (H1 & H2 & H3 & _).
      split; [intros y [<-|Hy]; [intros X; elim (Ex X)|apply H1; exact Hy]|].
      split; [|split; [|exact H0]].
      * intros [|z l1] x' l2 y l3 E [A B].
        -- injection E as -> ->. elim (Ex A).
        -- injection E as -> ->. apply (H2 l1 x' l2 y l3 eq_refl). auto.
      * intros X y [<-|Hy]; [exact Ex|apply H3; assumption].
Qed.

Lemma position_exact_from_complete s l : forall k prev,
  (forall x, In x l -> attr_named x s -> a_meta x = MPath) ->
  (forall l1 x l2 y l3, l = l1 ++ x :: l2 ++ y :: l3 -> ~ (attr_named x s /\ attr_named y s)) ->
  (prev <> None -> forall x, In x l -> ~ attr_named x s) ->
  exists o, position_exact_from k prev s l = Ok o /\
    (is_some o = is_some prev || existsb (fun x => attr_is x s) l).
Proof.
  induction l as [|x l IH]; intros k prev H1 H2 H3; cbn [position_exact_from existsb].
  - exists prev. rewrite orb_false_r. auto.
  - assert (H1' : forall y, In y l -> attr_named y s -> a_meta y = MPath) by (intros; apply H1; [right|]; assumption).
    assert (H2' : forall l1 x l2 y l3, l = l1 ++ x :: l2 ++ y :: l3 -> ~ (attr_named x s /\ attr_named y s)).
    { intros l1 a l2 b l3 E. apply (H2 (x :: l1) a l2 b l3). rewrite E. reflexivity. }
    destruct (attr_is x s) eqn:Ex.
    + apply attr_is_iff in Ex. destruct prev.
      { elim (H3 ltac:(discriminate) x (or_introl eq_refl) Ex). }
      rewrite (H1 x (or_introl eq_refl) Ex).
      destruct (IH (S k) (Some k) H1' H2') as (o & Ho & Hs).
      { intros _ y Hy Y. apply in_split in Hy. destruct Hy as (la & lb & E).
        apply (H2 [] x la y lb). { rewrite E. reflexivity. } auto. }
      exists o. split; [exact Ho|]. rewrite Hs. reflexivity.
    + destruct (IH (S k) prev H1' H2') as (o & Ho & Hs).
      { intros X y Hy. apply H3; [exact X|right; exact Hy]. }
      exists o. auto.
Qed.

Lemma position_exact_iff f o :
  position_exact (f_attrs f) "pin" = Ok o -> pins_ok f /\ is_some o = pin_b f.
Proof.
  intros H. pose proof H as H0. apply position_exact_from_ok in H. destruct H as (H1 & H2 & H3 & _).
  destruct (position_exact_from_complete "pin" (f_attrs f) 0 None H1 H2 H3) as (o' & Ho & Hs).
  unfold position_exact in H0. rewrite H0 in Ho. injection Ho as <-. split; [split; assumption|exact Hs].
Qed.
Lemma position_exact_pins_ok f : pins_ok f ->
  exists o, position_exact (f_attrs f) "pin" = Ok o /\ is_some o = pin_b f.
Proof.
  intros [H1 H2]. destruct (position_exact_from_complete "pin" (f_attrs f) 0 None H1 H2) as (o & Ho & Hs).
  { intros X; elim X; reflexivity. }
  exists o. auto.
Qed.

(** *** Closed form of the field visitor *)
Definition binding (nf : nat * field) : ident := opt_or (f_ident (snd nf)) (id_binding (fst nf)).
Definition body_of (nf : nat * field) : option ident * atom :=
  if pin_b (snd nf)
  then (f_ident (snd nf), ACall (pp ["__private"; "Pin"; "new_unchecked"]) [binding nf])
  else (None, AVar (binding nf)).
Definition move_of (nf : nat * field) : option ident * atom :=
  if pin_b (snd nf)
  then (f_ident (snd nf), APath (pp_priv "PhantomData"))
  else (f_ident (snd nf), ACall (pp ["__private"; "ptr"; "read"]) [binding nf]).
Definition retype (t : field -> ty) (f : field) : field := mkField [] (f_vis f) (f_ident f) (t f).
Definition mut_ty (lt : string) (f : field) : ty :=
  if pin_b f then ty_pin_mut lt (f_ty f) else ty_mut lt (f_ty f).
Definition ref_ty (lt : string) (f : field) : ty :=
  if pin_b f then ty_pin_ref lt (f_ty f) else ty_ref lt (f_ty f).
Definition own_ty (f : field) : ty := if pin_b f then ty_phantom (f_ty f) else f_ty f.
Definition pf_of (lt : string) (n : nat) (l : list field) : projected_fields :=
  let nl := enum_from n l in
  mkPF (map binding nl) (map body_of nl) (map move_of nl)
    (map (retype (mut_ty lt)) l) (map (retype (ref_ty lt)) l) (map (retype own_ty) l)
    (map f_ty (filter pin_b l))
    (map binding (filter (fun nf => pin_b (snd nf)) nl)).

Lemma pf_of_cons lt n f l :
  pf_of lt n (f :: l) =
  let b := opt_or (f_ident f) (id_binding n) in
  let mk := fun t => mkField [] (f_vis f) (f_ident f) t in
  let '(mkPF ppat pbody pmove pfs prfs pofs ptys pbs) := pf_of lt (S n) l in
  if pin_b f then
    mkPF (b :: ppat)
      ((f_ident f, ACall (pp ["__private"; "Pin"; "new_unchecked"]) [b]) :: pbody)
      ((f_ident f, APath (pp_priv "PhantomData")) :: pmove)
      (mk (ty_pin_mut lt (f_ty f)) :: pfs) (mk (ty_pin_ref lt (f_ty f)) :: prfs)
      (mk (ty_phantom (f_ty f)) :: pofs) (f_ty f :: ptys) (b :: pbs)
  else
    mkPF (b :: ppat) ((None, AVar b) :: pbody)
      ((f_ident f, ACall (pp ["__private"; "ptr"; "read"]) [b]) :: pmove)
      (mk (ty_mut lt (f_ty f)) :: pfs) (mk (ty_ref lt (f_ty f)) :: prfs)
      (mk (f_ty f) :: pofs) ptys pbs.
Proof.
  unfold pf_of. cbn [enum_from map filter snd].
  assert (H1 : body_of (n, f) = if pin_b f
    then (f_ident f, ACall (pp ["__private"; "Pin"; "new_unchecked"]) [opt_or (f_ident f) (id_binding n)])
    else (None, AVar (opt_or (f_ident f) (id_binding n)))) by reflexivity.
  assert (H2 : move_of (n, f) = if pin_b f
    then (f_ident f, APath (pp_priv "PhantomData"))
    else (f_ident f, ACall (pp ["__private"; "ptr"; "read"]) [opt_or (f_ident f) (id_binding n)])) by reflexivity.
  assert (H3 : retype (mut_ty lt) f = mkField [] (f_vis f) (f_ident f)
    (if pin_b f then ty_pin_mut lt (f_ty f) else ty_mut lt (f_ty f))) by reflexivity.
  assert (H4 : retype (ref_ty lt) f = mkField [] (f_vis f) (f_ident f)
    (if pin_b f then ty_pin_ref lt (f_ty f) else ty_ref lt (f_ty f))) by reflexivity.
  assert (H5 : retype own_ty f = mkField [] (f_vis f) (f_ident f)
    (if pin_b f then ty_phantom (f_ty f) else f_ty f)) by reflexivity.
  rewrite H1, H2, H3, H4, H5. destruct (pin_b f); reflexivity.
Qed.

Lemma visit_field_list_iff lt l : forall n pf,
  visit_field_list lt n l = Ok pf <-> (forall f, In f l -> pins_ok f) /\ pf = pf_of lt n l.
Proof.
  induction l as [|f l IH]; intros n pf; cbn [visit_field_list].
  - split.
    + intros H. injection H as <-. split; [intros f []|reflexivity].
    + intros [_ ->]. reflexivity.
  - rewrite bind_ok, pf_of_cons. split.
    + intros (o & Ho & H). apply bind_ok in H. destruct H as (pf' & H1 & H2).
      apply IH in H1. destruct H1 as (H1 & ->). apply position_exact_iff in Ho. destruct Ho as [Hf Hp].
      split; [intros x [<-|Hx]; auto|].
      destruct (pf_of lt (S n) l). rewrite Hp in H2.
      destruct (pin_b f); injection H2 as <-; reflexivity.
    + intros [H ->]. destruct (position_exact_pins_ok f (H f (or_introl eq_refl))) as (o & Ho & Hp).
      exists o. split; [exact Ho|].
      assert (visit_field_list lt (S n) l = Ok (pf_of lt (S n) l)) as ->.
      { apply IH. split; [intros x Hx; apply H; right; exact Hx|reflexivity]. }
      cbn [bind]. rewrite Hp. destruct (pf_of lt (S n) l).
      destruct (pin_b f); reflexivity.
Qed.

(** ** Structs *)
Definition struct_pat (fs : fields) (k : nat) : pat :=
  PLit [I "Self"] (fields_delim fs) (map binding (enum_from k (fields_list fs))).
Definition struct_body (m : string) (name : ident) (fs : fields) : body :=
  BTail [SLet (struct_pat fs 0) None (RAtom (AMethod (I "self") (I m)))]
    (Some (RLit [name] (fields_delim fs) (map body_of (enum_from 0 (fields_list fs))))).
Definition pinned_bindings (l : list field) : list ident :=
  map binding (filter (fun nf => pin_b (snd nf)) (enum_from 0 l)).
Definition own_stmts (own : list ident) (fs : fields) : list stmt :=
  [SLet (PBind (I "__result")) None (RLit own (fields_delim fs) (map move_of (enum_from 0 (fields_list fs))));
   SBlock (map guard_stmt (rev (pinned_bindings (fields_list fs))))].
Definition struct_body_own (own : ident) (fs : fields) : body :=
  BTail (SLet (struct_pat fs 0) None (RAtom (ARefMutDeref (I "__self_ptr"))) :: own_stmts [own] fs)
    (Some (RAtom (AVar (I "__result")))).

(** Where a projected type goes. *)
Definition when {A} (b : bool) (l : list A) : list A := if b then l else [].
Definition pdef (cx : context) : generics := def_generics (cx_pgenerics cx) (cx_pwhere cx).
Definition odef (cx : context) : generics := def_generics (cx_generics cx) (where_of (cx_generics cx)).
Definition struct_mut (cx : context) (fs : fields) : oitem :=
  OStruct (cx_pvis cx) (cx_mut_ident cx) (pdef cx)
    (rebuild_fields fs (map (retype (mut_ty (cx_lifetime cx))) (fields_list fs))).
Definition struct_ref (cx : context) (fs : fields) : oitem :=
  OStruct (cx_pvis cx) (cx_ref_ident cx) (pdef cx)
    (rebuild_fields fs (map (retype (ref_ty (cx_lifetime cx))) (fields_list fs))).
Definition struct_own (cx : context) (fs : fields) : oitem :=
  OStruct (cx_pvis cx) (cx_own_ident cx) (odef cx)
    (rebuild_fields fs (map (retype own_ty) (fields_list fs))).
Definition assert_item (cx : context) (fs : fields) : oitem :=
  OAssert (impl_generics (cx_generics cx)) (ty_applied (cx_ident cx) (cx_generics cx))
    (map field_member (enumerate (fields_list fs))).
Definition struct_out (cx : context) (fs : fields) : expansion :=
  let a := cx_args cx in
  let named := is_some (ar_project a) in
  let named_ref := is_some (ar_project_ref a) in
  let named_own := is_some (pr_ident (ar_project_replace a)) in
  let rep := pr_span (ar_project_replace a) in
  mkExpansion
    (when named [struct_mut cx fs] ++ when named_ref [struct_ref cx fs] ++
     when (rep && named_own) [struct_own cx fs])
    (OExternCrate (I "pin_project") (I "_pin_project") ::
     (when (negb named) [struct_mut cx fs] ++ when (negb named_ref) [struct_ref cx fs] ++
      when (rep && negb named_own) [struct_own cx fs] ++
      [make_proj_impl cx (struct_body "get_unchecked_mut" (cx_mut_ident cx) fs)
         (struct_body "get_ref" (cx_ref_ident cx) fs) (struct_body_own (cx_own_ident cx) fs);
       assert_item cx fs]) ++
     make_unpin_impl cx (map f_ty (filter pin_b (fields_list fs))) ++ make_drop_impl cx).

Lemma ensure_not_packed_some cx fs r :
  ensure_not_packed cx (Some fs) = Ok r <-> reprs_ok (cx_attrs cx) /\ r = [assert_item cx fs].
Proof.
  unfold ensure_not_packed. rewrite bind_ok. split.
  - intros ([] & H1 & H2). apply check_reprs_ok in H1. injection H2 as <-. auto.
  - intros [H ->]. exists tt. split; [apply check_reprs_ok; exact H|reflexivity].
Qed.
Lemma ensure_not_packed_none cx r :
  ensure_not_packed cx None = Ok r <-> reprs_ok (cx_attrs cx) /\ r = [].
Proof.
  unfold ensure_not_packed. rewrite bind_ok. split.
  - intros ([] & H1 & H2). apply check_reprs_ok in H1. injection H2 as <-. auto.
  - intros [H ->]. exists tt. split; [apply check_reprs_ok; exact H|reflexivity].
Qed.

Lemma nonempty_ex {A} (l : list A) : l <> [] <-> exists x, In x l.
Proof.
  destruct l as [|x l]; split; intros H; try (elim H; reflexivity); try discriminate.
  - destruct H as [x []].
  - exists x; left; reflexivity.
Qed.
Lemma fields_is_empty_iff fs : fields_is_empty fs = false <-> exists f, In f (fields_list fs).
Proof.
  unfold fields_is_empty. rewrite <- nonempty_ex. destruct (fields_list fs); split; congruence.
Qed.

Lemma parse_struct_iff cx fs g :
  parse_struct cx fs = Ok g <->
  reprs_ok (cx_attrs cx) /\ (exists f, In f (fields_list fs)) /\
  (forall f, In f (fields_list fs) -> pins_ok f) /\
  into_tokens cx g = struct_out cx fs /\ parse_struct cx fs = Ok g.
Proof.
  split; [|intros (_ & _ & _ & _ & H); exact H].
  intros H. pose proof H as H0. unfold parse_struct in H.
  apply bind_ok in H. destruct H as (pc & H1 & H). apply ensure_not_packed_some in H1. destruct H1 as [Hr ->].
  apply bind_ok in H. destruct H as ([] & H1 & H). unfold validate_struct in H1.
  destruct (fields_is_empty fs) eqn:E; [discriminate|]. apply fields_is_empty_iff in E.
  apply bind_ok in H. destruct H as (pf & H2 & H).
  assert (Hv : visit_fields cx fs = Ok pf) by (destruct fs; [exact H2|exact H2|discriminate]).
  unfold visit_fields in Hv. apply visit_field_list_iff in Hv. destruct Hv as [Hp ->].
  split; [exact Hr|]. split; [exact E|]. split; [exact Hp|]. split; [|exact H0].
  injection H as <-. unfold into_tokens, struct_out, pf_of, struct_body, struct_body_own, own_stmts, pinned_bindings,
    struct_pat, struct_mut, struct_ref, struct_own, pdef, odef, gen_extend, when.
  cbn [pf_pat pf_body pf_move pf_fields pf_ref_fields pf_own_fields pf_pinned_tys pf_pinned_bindings].
  destruct (ar_project (cx_args cx)), (ar_project_ref (cx_args cx)), (ar_project_replace (cx_args cx));
    cbn [is_some negb pr_span pr_ident andb gen_exposed gen_scoped gen_pinned app]; reflexivity.
Qed.

Lemma parse_struct_ok cx fs :
  reprs_ok (cx_attrs cx) -> (exists f, In f (fields_list fs)) ->
  (forall f, In f (fields_list fs) -> pins_ok f) -> is_ok (parse_struct cx fs).
Proof.
  intros Hr He Hp. unfold is_ok, parse_struct.
  assert (ensure_not_packed cx (Some fs) = Ok [assert_item cx fs]) as -> by (apply ensure_not_packed_some; auto).
  cbn [bind]. unfold validate_struct. pose proof He as He'. apply fields_is_empty_iff in He. rewrite He. cbn [bind].
  assert (Hv : visit_fields cx fs = Ok (pf_of (cx_lifetime cx) 0 (fields_list fs)))
    by (apply visit_field_list_iff; auto).
  assert (match fs with FUnit => Panic "internal error: entered unreachable code" | _ => visit_fields cx fs end
          = Ok (pf_of (cx_lifetime cx) 0 (fields_list fs))) as ->.
  { destruct fs; [exact Hv|exact Hv|]. destruct He' as [f []]. }
  cbn [bind]. eexists. reflexivity.
Qed.

(** ** Enums *)
Definition variant_of (t : field -> ty) (v : variant) : variant :=
  mkVariant [] (v_ident v) (rebuild_fields (v_fields v) (map (retype t) (fields_list (v_fields v)))) false.
Definition variant_pat (v : variant) : pat :=
  PLit [I "Self"; v_ident v] (fields_delim (v_fields v)) (map binding (enum_from 0 (fields_list (v_fields v)))).
Definition variant_arm (n : ident) (v : variant) : arm :=
  mkArm (variant_pat v) []
    (RLit [n; v_ident v] (fields_delim (v_fields v)) (map body_of (enum_from 0 (fields_list (v_fields v))))).
Definition variant_arm_own (n : ident) (v : variant) : arm :=
  mkArm (variant_pat v) (own_stmts [n; v_ident v] (v_fields v)) (RAtom (AVar (I "__result"))).
Definition pinned_tys (l : list field) : list ty := map f_ty (filter pin_b l).

Lemma visit_variants_iff cx vs : forall pv,
  visit_variants cx vs = Ok pv <->
  (forall v f, In v vs -> In f (fields_list (v_fields v)) -> pins_ok f) /\
  pv = mkPV (map (variant_of (mut_ty (cx_lifetime cx))) vs) (map (variant_of (ref_ty (cx_lifetime cx))) vs)
         (map (variant_of own_ty) vs)
         (map (variant_arm (cx_mut_ident cx)) vs) (map (variant_arm (cx_ref_ident cx)) vs)
         (map (variant_arm_own (cx_own_ident cx)) vs)
         (flat_map (fun v => pinned_tys (fields_list (v_fields v))) vs).
Proof.
  induction vs as [|v vs IH]; intros pv; cbn [visit_variants].
  - split; [intros H; injection H as <-; split; [intros v f []|reflexivity]|intros [_ ->]; reflexivity].
  - rewrite bind_ok. split.
    + intros (pf & H1 & H2). apply bind_ok in H2. destruct H2 as (rest & H2 & H3).
      unfold visit_fields in H1. apply visit_field_list_iff in H1. destruct H1 as [Hp ->].
      apply IH in H2. destruct H2 as [Hp2 ->]. injection H3 as <-. split.
      * intros w f [<-|Hw] Hf; [apply Hp; exact Hf|apply (Hp2 w f Hw Hf)].
      * reflexivity.
    + intros [H ->]. exists (pf_of (cx_lifetime cx) 0 (fields_list (v_fields v))). split.
      * apply visit_field_list_iff. split; [|reflexivity]. intros f Hf. apply (H v f (or_introl eq_refl) Hf).
      * destruct (IH (mkPV (map (variant_of (mut_ty (cx_lifetime cx))) vs) (map (variant_of (ref_ty (cx_lifetime cx))) vs)
         (map (variant_of own_ty) vs)
         (map (variant_arm (cx_mut_ident cx)) vs) (map (variant_arm (cx_ref_ident cx)) vs)
         (map (variant_arm_own (cx_own_ident cx)) vs)
         (flat_map (fun v => pinned_tys (fields_list (v_fields v))) vs))) as [_ X].
        rewrite X; [reflexivity|]. split; [|reflexivity]. intros w f Hw Hf. apply (H w f (or_intror Hw) Hf).
Qed.

Lemma validate_variants_ok vs : forall b r,
  validate_variants b vs = Ok r <->
  (forall v, In v vs -> v_disc v = false) /\
  (forall v x, In v vs -> In x (v_attrs v) -> ~ attr_named x "pin") /\
  r = b || existsb (fun v => negb (fields_is_empty (v_fields v))) vs.
Proof.
  induction vs as [|v vs IH]; intros b r; cbn [validate_variants existsb].
  - rewrite orb_false_r. split.
    + intros H; injection H as <-. split; [intros v []|]. split; [intros v x []|reflexivity].
    + intros (_ & _ & ->). reflexivity.
  - destruct (v_disc v) eqn:Ed.
    { split; [discriminate|]. intros (H & _). rewrite (H v (or_introl eq_refl)) in Ed. discriminate. }
    destruct (attrs_find (v_attrs v) "pin") as [x|] eqn:Ea; cbn [is_some].
    { split; [discriminate|]. intros (_ & H & _).
      assert (exists y, In y (v_attrs v) /\ attr_named y "pin") as (y & Hy & E)
        by (apply attrs_find_some; rewrite Ea; reflexivity).
      elim (H v y (or_introl eq_refl) Hy E). }
    rewrite attrs_find_none in Ea.
    assert (Hrec : forall b', validate_variants b' vs = Ok r <->
      (forall w, In w (v :: vs) -> v_disc w = false) /\
      (forall w x, In w (v :: vs) -> In x (v_attrs w) -> ~ attr_named x "pin") /\
      r = b' || existsb (fun w => negb (fields_is_empty (v_fields w))) vs).
    { intros b'. rewrite IH. split; intros (H1 & H2 & H3); (split; [|split; [|exact H3]]).
      - intros w [<-|Hw]; auto.
      - intros w x [<-|Hw] Hx; [apply Ea; exact Hx|apply (H2 w x Hw Hx)].
      - intros w Hw; apply H1; right; exact Hw.
      - intros w x Hw; apply H2; right; exact Hw. }
    destruct (fields_is_empty (v_fields v)); rewrite Hrec; cbn [negb orb].
    + reflexivity.
    + rewrite orb_true_r. reflexivity.
Qed.

Lemma validate_enum_ok vs :
  validate_enum vs = Ok tt <->
  (exists v f, In v vs /\ In f (fields_list (v_fields v))) /\
  (forall v, In v vs -> v_disc v = false) /\
  (forall v x, In v vs -> In x (v_attrs v) -> ~ attr_named x "pin").
Proof.
  assert (He : existsb (fun v => negb (fields_is_empty (v_fields v))) vs = true <->
               exists v f, In v vs /\ In f (fields_list (v_fields v))).
  { rewrite existsb_exists. split.
    - intros (v & Hv & E). apply negb_true_iff in E. apply fields_is_empty_iff in E. destruct E as [f Hf]. eauto.
    - intros (v & f & Hv & Hf). exists v. split; [exact Hv|]. apply negb_true_iff. apply fields_is_empty_iff. eauto. }
  unfold validate_enum. destruct vs as [|v0 vs].
  { split; [discriminate|]. intros ((v & f & [] & _) & _). }
  rewrite bind_ok. split.
  - intros (b & H1 & H2). apply validate_variants_ok in H1. destruct H1 as (Hd & Hp & ->).
    cbn [orb] in H2. destruct (existsb _ _) eqn:E in H2; [|discriminate]. apply He in E. auto.
  - intros (H1 & H2 & H3). exists true. split; [|reflexivity]. apply validate_variants_ok.
    split; [exact H2|]. split; [exact H3|]. symmetry. cbn [orb]. apply He. exact H1.
Qed.

Definition enum_mut (cx : context) (vs : list variant) : oitem :=
  OEnum (cx_pvis cx) (cx_mut_ident cx) (pdef cx) (map (variant_of (mut_ty (cx_lifetime cx))) vs).
Definition enum_ref (cx : context) (vs : list variant) : oitem :=
  OEnum (cx_pvis cx) (cx_ref_ident cx) (pdef cx) (map (variant_of (ref_ty (cx_lifetime cx))) vs).
Definition enum_own (cx : context) (vs : list variant) : oitem :=
  OEnum (cx_pvis cx) (cx_own_ident cx) (odef cx) (map (variant_of own_ty) vs).
Definition enum_body (m : string) (n : ident) (vs : list variant) : body :=
  BMatch [] (AMethod (I "self") (I m)) (map (variant_arm n) vs).
Definition enum_body_own (n : ident) (vs : list variant) : body :=
  BMatch [] (ARefMutDeref (I "__self_ptr")) (map (variant_arm_own n) vs).
Definition enum_out (cx : context) (vs : list variant) : expansion :=
  let a := cx_args cx in
  mkExpansion
    (when (is_some (ar_project a)) [enum_mut cx vs] ++ when (is_some (ar_project_ref a)) [enum_ref cx vs] ++
     when (is_some (pr_ident (ar_project_replace a))) [enum_own cx vs])
    (OExternCrate (I "pin_project") (I "_pin_project") ::
     [make_proj_impl cx (enum_body "get_unchecked_mut" (cx_mut_ident cx) vs)
        (enum_body "get_ref" (cx_ref_ident cx) vs) (enum_body_own (cx_own_ident cx) vs)] ++
     make_unpin_impl cx (flat_map (fun v => pinned_tys (fields_list (v_fields v))) vs) ++ make_drop_impl cx).

Record enum_ok (cx : context) (vs : list variant) : Prop := {
  eo_replace : ar_project_replace (cx_args cx) <> PRUnnamed;
  eo_repr : reprs_ok (cx_attrs cx);
  eo_nonempty : exists v f, In v vs /\ In f (fields_list (v_fields v));
  eo_disc : forall v, In v vs -> v_disc v = false;
  eo_variant_pin : forall v x, In v vs -> In x (v_attrs v) -> ~ attr_named x "pin";
  eo_pins : forall v f, In v vs -> In f (fields_list (v_fields v)) -> pins_ok f
}.

Lemma parse_enum_iff cx vs g :
  parse_enum cx vs = Ok g -> enum_ok cx vs /\ into_tokens cx g = enum_out cx vs.
Proof.
  intros H. unfold parse_enum in H.
  assert (Hpr : ar_project_replace (cx_args cx) <> PRUnnamed)
    by (intros E; rewrite E in H; discriminate).
  assert (H' : (do _ <- ensure_not_packed cx None;
    do _ <- validate_enum vs; do pv <- visit_variants cx vs;
    let g1 := if is_some (ar_project (cx_args cx))
              then gen_extend true [OEnum (cx_pvis cx) (cx_mut_ident cx) (pdef cx) (pv_variants pv)] (mkGen [] [] (pv_pinned pv))
              else mkGen [] [] (pv_pinned pv) in
    let g2 := if is_some (ar_project_ref (cx_args cx))
              then gen_extend true [OEnum (cx_pvis cx) (cx_ref_ident cx) (pdef cx) (pv_ref_variants pv)] g1
              else g1 in
    let g3 := if is_some (pr_ident (ar_project_replace (cx_args cx)))
              then gen_extend true [OEnum (cx_pvis cx) (cx_own_ident cx) (odef cx) (pv_own_variants pv)] g2
              else g2 in
    Ok (gen_extend false [make_proj_impl cx (BMatch [] (AMethod (I "self") (I "get_unchecked_mut")) (pv_arms pv))
       (BMatch [] (AMethod (I "self") (I "get_ref")) (pv_ref_arms pv))
       (BMatch [] (ARefMutDeref (I "__self_ptr")) (pv_own_arms pv))] g3)) = Ok g).
  { destruct (ar_project_replace (cx_args cx)); [exact H|elim Hpr; reflexivity|exact H]. }
  clear H. rename H' into H.
  apply bind_ok in H. destruct H as (x & H1 & H). apply ensure_not_packed_none in H1. destruct H1 as [Hr ->].
  apply bind_ok in H. destruct H as ([] & H1 & H). apply validate_enum_ok in H1. destruct H1 as (He & Hd & Hvp).
  apply bind_ok in H. destruct H as (pv & H2 & H). apply visit_variants_iff in H2. destruct H2 as [Hp ->].
  split; [constructor; assumption|].
  injection H as <-. unfold into_tokens, enum_out, enum_mut, enum_ref, enum_own, enum_body, enum_body_own, gen_extend, when.
  cbn [pv_variants pv_ref_variants pv_own_variants pv_arms pv_ref_arms pv_own_arms pv_pinned].
  destruct (ar_project (cx_args cx)), (ar_project_ref (cx_args cx)), (ar_project_replace (cx_args cx));
    cbn [is_some negb pr_span pr_ident andb gen_exposed gen_scoped gen_pinned app]; reflexivity.
Qed.

Lemma parse_enum_ok cx vs : enum_ok cx vs -> is_ok (parse_enum cx vs).
Proof.
  intros [H1 H2 H3 H4 H5 H6]. unfold is_ok, parse_enum.
  assert (ensure_not_packed cx None = Ok []) as -> by (apply ensure_not_packed_none; auto).
  assert (validate_enum vs = Ok tt) as -> by (apply validate_enum_ok; auto).
  assert (Hv : exists pv, visit_variants cx vs = Ok pv).
  { eexists. apply visit_variants_iff. split; [exact H6|reflexivity]. }
  destruct Hv as [pv ->]. cbn [bind].
  destruct (ar_project_replace (cx_args cx)); [eexists; reflexivity|elim H1; reflexivity|eexists; reflexivity].
Qed.

(** ** [Self] replacement does not disturb attribute lookup *)
Lemma replace_ids_named x s : s <> "self" -> s <> "__self" ->
  (attr_named (replace_attr x) s <-> attr_named x s).
Proof.
  intros N1 N2. unfold attr_named, replace_attr, replace_ids. cbn [a_lead a_path].
  destruct (a_path x) as [|i [|j p]]; try reflexivity.
  unfold prepend_underscore_to_self. destruct (ident_is i "self") eqn:E; cbn [fst]; [|reflexivity].
  apply ident_is_eq in E. subst i. split; intros [A B]; exfalso; injection B as B; congruence.
Qed.

Section Transfer.
  Notation R := (map replace_attr).
  Variables (s : string) (N1 : s <> "self") (N2 : s <> "__self").
  Lemma named_map l : (exists x, In x (R l) /\ attr_named x s) <-> (exists x, In x l /\ attr_named x s).
  Proof.
    split.
    - intros (x & Hx & E). apply in_map_iff in Hx. destruct Hx as (y & <- & Hy). exists y.
      split; [exact Hy|]. apply (proj1 (replace_ids_named y s N1 N2)). exact E.
    - intros (x & Hx & E). exists (replace_attr x). split; [apply in_map; exact Hx|].
      apply (proj2 (replace_ids_named x s N1 N2)). exact E.
  Qed.
End Transfer.

Lemma pin_neq : "pin" <> "self" /\ "pin" <> "__self". Proof. split; discriminate. Qed.

Lemma map_split {A B} (f : A -> B) l l1 x l2 :
  map f l = l1 ++ x :: l2 -> exists k1 y k2, l = k1 ++ y :: k2 /\ l1 = map f k1 /\ x = f y /\ l2 = map f k2.
Proof.
  revert l1. induction l as [|a l IH]; intros [|b l1] E; try discriminate.
  - injection E as E1 E2. exists [], a, l. auto.
  - injection E as E1 E2. apply IH in E2. destruct E2 as (k1 & y & k2 & -> & -> & -> & ->).
    exists (a :: k1), y, k2. subst b. auto.
Qed.

Lemma named_out x s : s <> "self" -> s <> "__self" -> attr_named (replace_attr x) s -> attr_named x s.
Proof. intros A B. apply (proj1 (replace_ids_named x s A B)). Qed.
Lemma named_in x s : s <> "self" -> s <> "__self" -> attr_named x s -> attr_named (replace_attr x) s.
Proof. intros A B. apply (proj2 (replace_ids_named x s A B)). Qed.

Lemma marked_map l ts : marked (map replace_attr l) ts <-> marked l ts.
Proof.
  unfold marked. split.
  - intros (H1 & l1 & x & d & l2 & E & Hx & Hm & Hl). split.
    + intros y Hy Y. apply (H1 (replace_attr y)); [apply in_map; exact Hy|].
      apply named_in; [discriminate|discriminate|exact Y].
    + apply map_split in E. destruct E as (k1 & y & k2 & -> & -> & -> & ->).
      exists k1, y, d, k2. split; [reflexivity|].
      split; [apply named_out in Hx; [exact Hx|discriminate|discriminate]|].
      split; [exact Hm|]. intros z Hz Z. apply (Hl (replace_attr z)).
      * rewrite <- map_app. apply in_map. exact Hz.
      * apply named_in; [discriminate|discriminate|exact Z].
  - intros (H1 & l1 & x & d & l2 & -> & Hx & Hm & Hl). split.
    + intros y Hy Y. apply in_map_iff in Hy. destruct Hy as (z & <- & Hz).
      apply (H1 z Hz). apply named_out in Y; [exact Y|discriminate|discriminate].
    + exists (map replace_attr l1), (replace_attr x), d, (map replace_attr l2).
      split; [rewrite map_app; reflexivity|].
      split; [apply named_in; [discriminate|discriminate|exact Hx]|].
      split; [exact Hm|]. intros y Hy Y. rewrite <- map_app in Hy. apply in_map_iff in Hy.
      destruct Hy as (z & <- & Hz). apply (Hl z Hz).
      apply named_out in Y; [exact Y|discriminate|discriminate].
Qed.
Lemma options_map l a : options (map replace_attr l) a <-> options l a.
Proof. unfold options. split; intros (ts & pl & H & H'); exists ts, pl; (split; [apply marked_map; exact H|exact H']). Qed.

Lemma reprs_ok_map l : reprs_ok (map replace_attr l) <-> reprs_ok l.
Proof.
  unfold reprs_ok. split.
  - intros H x d ts Hx Hn Hm. apply (H (replace_attr x) d ts); [apply in_map; exact Hx| |exact Hm].
    apply named_in; [discriminate|discriminate|exact Hn].
  - intros H x d ts Hx Hn Hm. apply in_map_iff in Hx. destruct Hx as (y & <- & Hy).
    apply (H y d ts Hy); [|exact Hm]. apply named_out in Hn; [exact Hn|discriminate|discriminate].
Qed.

Lemma pin_named x : attr_named (replace_attr x) "pin" <-> attr_named x "pin".
Proof. apply replace_ids_named; discriminate. Qed.

Lemma pins_ok_replace self f : pins_ok (replace_field self f) <-> pins_ok f.
Proof.
  unfold pins_ok, replace_field. cbn [f_attrs]. split; intros [H1 H2]; split.
  - intros x Hx Hn. apply (H1 (replace_attr x)); [apply in_map; exact Hx|apply pin_named; exact Hn].
  - intros l1 x l2 y l3 E [A B].
    apply (H2 (map replace_attr l1) (replace_attr x) (map replace_attr l2) (replace_attr y) (map replace_attr l3)).
    + rewrite E. rewrite map_app. cbn [map]. rewrite map_app. reflexivity.
    + split; apply pin_named; assumption.
  - intros x Hx Hn. apply in_map_iff in Hx. destruct Hx as (y & <- & Hy).
    apply (H1 y Hy). apply pin_named. exact Hn.
  - intros l1 x l2 y l3 E [A B]. apply map_split in E. destruct E as (k1 & x' & k2 & E & -> & -> & E2).
    symmetry in E2. apply map_split in E2. destruct E2 as (k3 & y' & k4 & -> & -> & -> & ->).
    apply (H2 k1 x' k3 y' k4 E). split; apply pin_named; assumption.
Qed.
Lemma pinned_replace self f : pinned (replace_field self f) <-> pinned f.
Proof. unfold pinned. cbn [replace_field f_attrs]. apply named_map; discriminate. Qed.
Lemma pin_b_replace self f : pin_b (replace_field self f) = pin_b f.
Proof.
  pose proof (pinned_replace self f) as H. rewrite <- !pin_b_iff in H.
  destruct (pin_b (replace_field self f)), (pin_b f); try reflexivity; [symmetry|]; apply H; reflexivity.
Qed.

Lemma fields_list_replace self fs : fields_list (replace_fields self fs) = map (replace_field self) (fields_list fs).
Proof. destruct fs; reflexivity. Qed.

Lemma forall_in_map {A B} (f : A -> B) (P : B -> Prop) l :
  (forall y, In y (map f l) -> P y) <-> (forall x, In x l -> P (f x)).
Proof.
  split.
  - intros H x Hx. apply H. apply in_map. exact Hx.
  - intros H y Hy. apply in_map_iff in Hy. destruct Hy as (x & <- & Hx). apply H. exact Hx.
Qed.
Lemma exists_in_map {A B} (f : A -> B) l : (exists y, In y (map f l)) <-> (exists x, In x l).
Proof.
  split; intros [x Hx].
  - apply in_map_iff in Hx. destruct Hx as (y & _ & Hy). eauto.
  - exists (f x). apply in_map. exact Hx.
Qed.

(** ** The derive *)
Definition struct_cx (a : args) (s : item_struct) : context :=
  cx_of a (s_attrs s) (s_vis s) (s_ident s) (s_generics s) KStruct.
Definition enum_cx (a : args) (e : item_enum) : context :=
  cx_of a (e_attrs e) (e_vis e) (e_ident e) (e_generics e) KEnum.
Definition spelled_struct (s : item_struct) : item_struct :=
  replace_struct (self_type (s_ident s) (s_generics s)) s.
Definition spelled_enum (e : item_enum) : item_enum :=
  replace_enum (self_type (e_ident e) (e_generics e)) e.

Theorem parse_derive_struct s x :
  parse_derive (ItStruct s) = Ok x <->
  exists a, accepts_struct s a /\ x = struct_out (struct_cx a (spelled_struct s)) (s_fields (spelled_struct s)).
Proof.
  cbn [parse_derive]. fold (spelled_struct s). set (s' := spelled_struct s).
  assert (Hf : fields_list (s_fields s') = map (replace_field (self_type (s_ident s) (s_generics s))) (fields_list (s_fields s)))
    by apply fields_list_replace.
  rewrite bind_ok. split.
  - intros (cx & H1 & H2). apply context_new_iff in H1. destruct H1 as (a & Ho & Hc & ->).
    apply bind_ok in H2. destruct H2 as (g & H2 & H3). injection H3 as <-.
    apply parse_struct_iff in H2. destruct H2 as (Hr & He & Hp & Hx & _).
    exists a. split; [|exact Hx]. constructor.
    + apply (proj1 (options_map _ _)). exact Ho.
    + exact Hc.
    + apply (proj1 (reprs_ok_map _)). exact Hr.
    + rewrite Hf in He. apply exists_in_map in He. exact He.
    + rewrite Hf in Hp. rewrite forall_in_map in Hp. intros f Hin. apply (proj1 (pins_ok_replace (self_type (s_ident s) (s_generics s)) _)).
      apply Hp. exact Hin.
  - intros (a & [H1 H2 H3 H4 H5] & ->). exists (struct_cx a s'). split.
    + apply context_new_iff. exists a. split; [apply (proj2 (options_map _ _)); exact H1|]. split; [exact H2|reflexivity].
    + destruct (parse_struct_ok (struct_cx a s') (s_fields s')) as [g Hg].
      * apply (proj2 (reprs_ok_map _)). exact H3.
      * rewrite Hf. apply exists_in_map. exact H4.
      * rewrite Hf. apply forall_in_map. intros f Hin. apply (proj2 (pins_ok_replace _ _)). apply H5. exact Hin.
      * rewrite Hg. cbn [bind]. apply parse_struct_iff in Hg. destruct Hg as (_ & _ & _ & <- & _). reflexivity.
Qed.

Theorem parse_derive_enum e x :
  parse_derive (ItEnum e) = Ok x <->
  exists a, accepts_enum e a /\ x = enum_out (enum_cx a (spelled_enum e)) (e_variants (spelled_enum e)).
Proof.
  cbn [parse_derive]. fold (spelled_enum e). set (e' := spelled_enum e).
  set (self := self_type (e_ident e) (e_generics e)).
  assert (Hv : e_variants e' = map (replace_variant self) (e_variants e)) by reflexivity.
  assert (Heq : forall a, enum_ok (enum_cx a e') (e_variants e') <->
    (ar_project_replace a <> PRUnnamed /\ reprs_ok (e_attrs e) /\
     (exists v f, In v (e_variants e) /\ In f (fields_list (v_fields v))) /\
     (forall v, In v (e_variants e) -> v_disc v = false) /\
     (forall v x, In v (e_variants e) -> In x (v_attrs v) -> ~ attr_named x "pin") /\
     (forall v f, In v (e_variants e) -> In f (fields_list (v_fields v)) -> pins_ok f))).
  { intros a. split.
    - intros [H1 H2 H3 H4 H5 H6]. rewrite Hv in *. split; [exact H1|]. split; [apply (proj1 (reprs_ok_map _)); exact H2|].
      split; [|split; [|split]].
      + destruct H3 as (v & f & Hin & Hf). apply in_map_iff in Hin. destruct Hin as (w & <- & Hw).
        cbn [replace_variant v_fields] in Hf. rewrite fields_list_replace in Hf.
        apply in_map_iff in Hf. destruct Hf as (g & _ & Hg). eauto.
      + rewrite forall_in_map in H4. exact H4.
      + intros v y Hin Hy Hn. apply (H5 (replace_variant self v) (replace_attr y)).
        * apply in_map; exact Hin.
        * cbn [replace_variant v_attrs]. apply in_map; exact Hy.
        * apply pin_named; exact Hn.
      + intros v f Hin Hf. apply (proj1 (pins_ok_replace self _)). apply (H6 (replace_variant self v)); [apply in_map; exact Hin|].
        cbn [replace_variant v_fields]. rewrite fields_list_replace. apply in_map; exact Hf.
    - intros (H1 & H2 & H3 & H4 & H5 & H6). constructor; try rewrite Hv.
      + exact H1.
      + apply (proj2 (reprs_ok_map _)). exact H2.
      + destruct H3 as (v & f & Hin & Hf). exists (replace_variant self v), (replace_field self f).
        split; [apply in_map; exact Hin|]. cbn [replace_variant v_fields]. rewrite fields_list_replace. apply in_map; exact Hf.
      + apply forall_in_map. exact H4.
      + intros v y Hin Hy Hn. apply in_map_iff in Hin. destruct Hin as (w & <- & Hw).
        cbn [replace_variant v_attrs] in Hy. apply in_map_iff in Hy. destruct Hy as (z & <- & Hz).
        apply (H5 w z Hw Hz). apply pin_named. exact Hn.
      + intros v f Hin Hf. apply in_map_iff in Hin. destruct Hin as (w & <- & Hw).
        cbn [replace_variant v_fields] in Hf. rewrite fields_list_replace in Hf.
        apply in_map_iff in Hf. destruct Hf as (g & <- & Hg). apply (proj2 (pins_ok_replace _ _)). apply (H6 w g Hw Hg). }
  rewrite bind_ok. split.
  - intros (cx & H1 & H2). apply context_new_iff in H1. destruct H1 as (a & Ho & Hc & ->).
    apply bind_ok in H2. destruct H2 as (g & H2 & H3). injection H3 as <-.
    apply parse_enum_iff in H2. destruct H2 as [Hok Hx]. exists a. split; [|exact Hx].
    apply Heq in Hok. destruct Hok as (P1 & P2 & P3 & P4 & P5 & P6).
    constructor; try assumption. apply (proj1 (options_map _ _)). exact Ho.
  - intros (a & [H1 H2 H3 H4 H5 H6 H7 H8] & ->). exists (enum_cx a e'). split.
    + apply context_new_iff. exists a. split; [apply (proj2 (options_map _ _)); exact H1|]. split; [exact H2|reflexivity].
    + destruct (parse_enum_ok (enum_cx a e') (e_variants e')) as [g Hg].
      * apply Heq. repeat (split; [assumption|]). assumption.
      * rewrite Hg. cbn [bind]. apply parse_enum_iff in Hg. destruct Hg as [_ <-]. reflexivity.
Qed.

(** The options in force are determined by the attributes. *)
Lemma options_unique l a b : options l a -> options l b -> a = b.
Proof. rewrite <- !parse_args_iff. congruence. Qed.
