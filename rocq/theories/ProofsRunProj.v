(** Running [project] and [project_ref]. *)
From Coq Require Import String Ascii List Bool Arith Lia.
From Verif Require Import Base Syntax ModelArgs ModelUtils ModelDerive ModelRun.
From Verif Require Import SpecArgs SpecDerive SpecExpand SpecRun.
From Verif Require Import ProofsArgs ProofsUtils ProofsDerive ProofsExpand ProofsTypes ProofsRun.
Import ListNotations.
Open Scope string_scope.
Open Scope list_scope.

(** ** Struct expressions *)
Lemma enum_from_snd {A} (l : list A) : forall k, map snd (enum_from k l) = l.
Proof. induction l as [|x l IH]; intros k; cbn; [reflexivity|f_equal; apply IH]. Qed.

Lemma find_named (v : nat * field -> rv) l : forall k n f i,
  NoDup (map (fun f => option_map name (f_ident f)) l) -> In (n, f) (enum_from k l) -> f_ident f = Some i ->
  find (field_named (f_ident f)) (map (fun nf => (f_ident (snd nf), v nf)) (enum_from k l)) = Some (f_ident f, v (n, f)).
Proof.
  induction l as [|g l IH]; intros k n f i Hn Hin Hf; [destruct Hin|].
  cbn [enum_from map find snd] in *. inversion Hn as [|x y Hx Hy]; subst. destruct Hin as [Hin|Hin].
  - injection Hin as <- <-. unfold field_named at 1. cbn [fst]. rewrite Hf, same_name_refl. reflexivity.
  - unfold field_named at 1. cbn [fst]. rewrite Hf. destruct (f_ident g) as [j|] eqn:E.
    + destruct (same_name i j) eqn:E2.
      * exfalso. apply Hx. apply same_name_iff in E2. cbn [option_map]. rewrite <- E2.
        apply in_map_iff. exists f. split; [rewrite Hf; reflexivity|].
        rewrite <- (enum_from_snd l (S k)). apply (in_map snd) in Hin. exact Hin.
      * rewrite <- Hf. apply (IH (S k) n f i Hy Hin Hf).
    + rewrite <- Hf. apply (IH (S k) n f i Hy Hin Hf).
Qed.

Lemma build_ok fs t (v : nat * field -> rv) : fields_legal fs ->
  (forall nf, In nf (enum_from 0 (fields_list fs)) -> fits (t (snd nf)) (v nf) = true) ->
  build (rebuild_fields fs (map (retype t) (fields_list fs))) (fields_delim fs)
    (map (fun nf => (f_ident (snd nf), v nf)) (enum_from 0 (fields_list fs))) =
  Some (map (fun nf => (f_ident (snd nf), v nf)) (enum_from 0 (fields_list fs))).
Proof.
  intros Hl Hf. unfold build. rewrite map_length, enum_from_length.
  destruct fs as [l|l|]; cbn [rebuild_fields fields_list fields_delim] in *; [| |reflexivity];
    rewrite map_length, Nat.eqb_refl; cbn [negb].
  - destruct Hl as [H1 H2].
    rewrite map_map, <- (enum_from_snd l 0) at 1. rewrite map_map. apply all_some_map. intros [n f] Hin.
    cbn [snd retype f_ident f_ty]. destruct (f_ident f) as [i|] eqn:E.
    2:{ elim (H1 f); [|exact E]. rewrite <- (enum_from_snd l 0). apply (in_map snd) in Hin. exact Hin. }
    rewrite <- E. rewrite (find_named v l 0 n f i H2 Hin E). pose proof (Hf _ Hin) as F. cbn [snd] in F. rewrite F. reflexivity.
  - assert (forall k, all_some (map (fun fv => match fst (snd fv) with
        | Some _ => None
        | None => if fits (f_ty (fst fv)) (snd (snd fv)) then Some (None, snd (snd fv)) else None
        end) (combine (map (retype t) l) (map (fun nf => (f_ident (snd nf), v nf)) (enum_from k l)))) =
      (if forallb (fun nf => fits (t (snd nf)) (v nf)) (enum_from k l)
       then Some (map (fun nf => (f_ident (snd nf), v nf)) (enum_from k l)) else None)) as H.
    { clear Hf. induction l as [|f l IH]; intros k; cbn [map combine enum_from all_some forallb snd fst]; [reflexivity|].
      assert (f_ident f = None) as E by (apply Hl; left; reflexivity). rewrite E.
      cbn [retype f_ty]. destruct (fits (t f) (v (k, f))); cbn [andb]; [|reflexivity].
      rewrite IH by (intros g Hg; apply Hl; right; exact Hg).
      destruct (forallb _ (enum_from (S k) l)); reflexivity. }
    rewrite H.
    assert (forallb (fun nf => fits (t (snd nf)) (v nf)) (enum_from 0 l) = true) as ->; [|reflexivity].
    apply forallb_forall. exact Hf.
Qed.

(** Fields have names in braces and none in parentheses. *)
Definition shaped (d : option delim) (l : list field) : Prop :=
  match d with
  | Some Brace => forall f, In f l -> f_ident f <> None
  | Some Paren => forall f, In f l -> f_ident f = None
  | _ => l = []
  end.
Lemma legal_shaped fs : fields_legal fs -> shaped (fields_delim fs) (fields_list fs).
Proof. destruct fs; cbn; [intros [H _]; exact H|auto|auto]. Qed.
Lemma shaped_tail d f l : shaped d (f :: l) -> shaped d l.
Proof. destruct d as [[]|]; cbn; intros H; try discriminate; intros g Hg; apply H; right; exact Hg. Qed.

Definition ref_val (m : bool) (nf : nat * field) : rv :=
  if pin_b (snd nf) then RPin m (PlField (fst nf)) else RRef m (PlField (fst nf)).

Lemma eval_body_fields w m d l : scope_ok w -> shaped d l -> forall k e s,
  (forall nf, In nf (enum_from k l) -> get_var (binding nf) e = Some (RRef m (PlField (fst nf)))) ->
  NoDup (map name (map binding (enum_from k l))) -> inert e ->
  exists e', inert e' /\ eval_fields w (map body_of (enum_from k l)) d e s =
    Some (map (fun nf => (f_ident (snd nf), ref_val m nf)) (enum_from k l), e', s).
Proof.
  intros Hw. induction l as [|f l IH]; intros Hs k e s Hg Hn Hi; cbn [enum_from map eval_fields].
  - exists e. auto.
  - cbn [enum_from map] in Hn. inversion Hn as [|x y Hx Hy]; subst.
    assert (Hb : get_var (binding (k, f)) e = Some (RRef m (PlField k))) by (apply (Hg (k, f)); left; reflexivity).
    set (e1 := move_var (binding (k, f)) e).
    assert (He1 : inert e1) by (apply inert_move; exact Hi).
    assert (Hg1 : forall nf, In nf (enum_from (S k) l) -> get_var (binding nf) e1 = Some (RRef m (PlField (fst nf)))).
    { intros nf Hin. unfold e1. rewrite get_move_other.
      - apply Hg. right. exact Hin.
      - apply same_name_false. intros E. apply Hx. rewrite <- E. apply in_map. apply in_map. exact Hin. }
    assert (Hev : eval_atom w (snd (body_of (k, f))) e s = Some (ref_val m (k, f), e1, s)).
    { unfold body_of, ref_val. cbn [snd fst]. destruct (pin_b f); cbn [snd eval_atom].
      - unfold eval_call. rewrite (support_pp w Hw). rewrite Hb. reflexivity.
      - rewrite Hb. reflexivity. }
    destruct (IH (shaped_tail _ _ _ Hs) (S k) e1 s Hg1 Hy He1) as (e2 & He2 & E2).
    exists e2. split; [exact He2|].
    destruct (body_of (k, f)) as [n a] eqn:Eb. cbn [snd] in Hev. rewrite Hev, E2.
    cbn [snd]. f_equal. f_equal. f_equal. f_equal. f_equal.
    unfold body_of in Eb. cbn [snd] in Eb. destruct (pin_b f); injection Eb as <- <-.
    + destruct d as [[]|]; try reflexivity; destruct (f_ident f); reflexivity.
    + unfold binding. cbn [snd fst]. destruct d as [[]|]; cbn [shaped] in Hs; try discriminate.
      * rewrite (Hs f (or_introl eq_refl)). reflexivity.
      * destruct (f_ident f) eqn:E; [reflexivity|]. elim (Hs f (or_introl eq_refl) E).
Qed.

Lemma get_binds m l : forall k e0 nf, NoDup (map name (map binding (enum_from k l))) -> In nf (enum_from k l) ->
  get_var (binding nf) (binds m k l ++ e0) = Some (RRef m (PlField (fst nf))).
Proof.
  induction l as [|f l IH]; intros k e0 nf Hn Hin; [destruct Hin|].
  unfold binds. cbn [enum_from map app get_var] in *. inversion Hn as [|x y Hx Hy]; subst.
  destruct Hin as [<-|Hin]; [rewrite same_name_refl; reflexivity|].
  assert (same_name (binding nf) (binding (k, f)) = false) as ->.
  { apply same_name_false. intros E. apply Hx. rewrite <- E. apply in_map. apply in_map. exact Hin. }
  apply IH; assumption.
Qed.

Lemma finish_project w ud m t path fs e0 s : scope_ok w -> fields_legal fs ->
  lit_fields w path = Some (rebuild_fields fs (map (retype t) (fields_list fs))) ->
  (forall nf, In nf (enum_from 0 (fields_list fs)) -> fits (t (snd nf)) (ref_val m nf) = true) ->
  inert e0 -> s_stat s = Run ->
  finish w ud (Some (RLit path (fields_delim fs) (map body_of (enum_from 0 (fields_list fs)))))
    (binds m 0 (fields_list fs) ++ e0) s =
  Some (Some (RProj path (map (fun nf => (f_ident (snd nf), ref_val m nf)) (enum_from 0 (fields_list fs)))), s).
Proof.
  intros Hw Hl Hp Hf Hi Hr. unfold finish, running. rewrite Hr. cbn [eval_rhs]. rewrite Hp.
  destruct (eval_body_fields w m (fields_delim fs) (fields_list fs) Hw (legal_shaped _ Hl) 0
              (binds m 0 (fields_list fs) ++ e0) s) as (e' & He' & E).
  - intros nf Hin. apply get_binds; [apply (legal_vars _ Hl)|exact Hin].
  - apply (legal_vars _ Hl).
  - apply inert_app; [apply binds_inert|exact Hi].
  - rewrite E, (build_ok fs t (ref_val m) Hl Hf), (drop_inert w ud e' s He'), Hr. reflexivity.
Qed.

Lemma fits_mut lt nf : fits (mut_ty lt (snd nf)) (ref_val true nf) = true.
Proof. unfold mut_ty, ref_val. destruct (pin_b (snd nf)); reflexivity. Qed.
Lemma fits_ref lt nf : fits (ref_ty lt (snd nf)) (ref_val false nf) = true.
Proof. unfold ref_ty, ref_val. destruct (pin_b (snd nf)); reflexivity. Qed.

(** ** Programs *)
Lemma generic_names_params it : generic_names (item_generics it) = param_idents (params_of it).
Proof.
  assert (forall l, flat_map (fun p => match p with PTy i _ _ | PConst i _ _ => [i] | PLt _ _ => [] end) l = param_idents l) as H.
  { induction l as [|[] l IH]; cbn; [reflexivity| | |]; rewrite ?IH; reflexivity. }
  destruct it; [apply H|apply H|reflexivity].
Qed.
Lemma in_const e : match parse_derive e with Ok x => In (OExternCrate (I "pin_project") (I "_pin_project")) (scoped x) | _ => True end.
Proof.
  destruct (parse_derive e) as [x| |] eqn:E; [|exact Coq.Init.Logic.I|exact Coq.Init.Logic.I].
  apply derive_form in E. destruct E as [(s & a & _ & _ & _ & ->)|(s & a & _ & _ & _ & ->)]; left; reflexivity.
Qed.
Lemma program_scope w a : program w a -> scope_ok w.
Proof.
  intros [H1 _ _ _ H5 _ _]. constructor.
  - rewrite generic_names_params. unfold all_items in H5. rewrite flat_map_app, <- !flat_declares in H5.
    destruct (w_item w); exact H5.
  - pose proof (in_const (w_item w)) as H. rewrite H1 in H. exact H.
Qed.

Lemma numbered_var fs nf : In nf (numbered (fields_list fs)) -> field_var nf = binding nf.
Proof. intros _. unfold field_var, binding. destruct (f_ident (snd nf)); reflexivity. Qed.
Lemma program_bind w a fs self m : program w a -> In fs (fields_of (w_item w)) ->
  let fs' := replace_fields self fs in
  bind_fields w fs (fields_delim fs') (map binding (enum_from 0 (fields_list fs'))) m =
  Some (binds m 0 (fields_list fs')).
Proof.
  intros Hp Hin fs'. rewrite <- (bind_fields_replace w self). apply bind_fields_ok.
  - apply legal_replace. apply (pg_fields _ _ Hp _ Hin).
  - intros nf Hnf. pose proof (pg_consts _ _ Hp fs) as H. unfold fs' in Hnf. rewrite fields_list_replace, enum_from_map in Hnf.
    apply in_map_iff in Hnf. destruct Hnf as ([n f] & <- & Hnf).
    specialize (H (n, f) Hin). rewrite numbered_enum in H. specialize (H Hnf).
    unfold field_var in H. unfold binding. cbn [snd fst replace_field f_ident] in *. destruct (f_ident f); exact H.
Qed.

(** References in terms of the item as written. *)
Lemma ref_val_references m self fs :
  map (fun nf => (f_ident (snd nf), ref_val m nf)) (enum_from 0 (fields_list (replace_fields self fs))) = references m fs.
Proof.
  unfold references. rewrite numbered_enum, fields_list_replace, enum_from_map, map_map. apply map_ext.
  intros [n f]. unfold ref_val. cbn [fst snd]. rewrite pin_b_replace, is_pinned_pin_b. reflexivity.
Qed.

Lemma struct_lit w a s k : program w a -> w_item w = ItStruct s -> struct_has k a = true ->
  lit_fields w [proj_name k a (s_ident s)] =
  Some (rebuild_fields (s_fields (spelled_struct s)) (map (retype (kty k (struct_lt s))) (fields_list (s_fields (spelled_struct s))))).
Proof.
  intros Hp Hi Hk. pose proof (program_scope _ _ Hp) as Hw. cbn [lit_fields].
  pose proof (pg_expansion _ _ Hp) as He. pose proof (pg_options _ _ Hp) as Ho. rewrite Hi in He, Ho.
  destruct (struct_form _ _ _ He Ho) as [_ E].
  rewrite (resolve_ok w Hw _ (struct_kind k (struct_cx a (spelled_struct s)) (s_fields (spelled_struct s)))).
  - rewrite struct_kind_eq. reflexivity.
  - pose proof (struct_kind_in k a (struct_cx a (spelled_struct s)) (s_fields (spelled_struct s)) eq_refl Hk) as H.
    rewrite <- E in H. apply in_or_app. destruct (is_some (given_name k a)); auto.
  - rewrite struct_kind_eq. left. reflexivity.
Qed.
Lemma find_variant vs v : NoDup (map name (map v_ident vs)) -> In v vs ->
  find (fun x => same_name (v_ident v) (v_ident x)) vs = Some v.
Proof.
  induction vs as [|x vs IH]; intros Hn Hin; [destruct Hin|]. cbn [map find] in *. inversion Hn; subst.
  destruct Hin as [->|Hin]; [rewrite same_name_refl; reflexivity|].
  assert (same_name (v_ident v) (v_ident x) = false) as ->; [|auto].
  apply same_name_false. intros E. apply H1. rewrite <- E. apply in_map. apply in_map. exact Hin.
Qed.
Lemma enum_lit w a e k v : program w a -> w_item w = ItEnum e -> enum_has k a = true -> In v (e_variants e) ->
  let fs' := replace_fields (self_type (e_ident e) (e_generics e)) (v_fields v) in
  lit_fields w [proj_name k a (e_ident e); v_ident v] =
  Some (rebuild_fields fs' (map (retype (kty k (enum_lt e))) (fields_list fs'))).
Proof.
  intros Hp Hi Hk Hv. pose proof (program_scope _ _ Hp) as Hw. cbn [lit_fields].
  pose proof (pg_expansion _ _ Hp) as He. pose proof (pg_options _ _ Hp) as Ho. rewrite Hi in He, Ho.
  destruct (enum_form _ _ _ He Ho) as [_ E].
  rewrite (resolve_ok w Hw _ (enum_kind k (enum_cx a (spelled_enum e)) (e_variants (spelled_enum e)))).
  - rewrite enum_kind_eq.
    set (v' := variant_of (kty k (enum_lt e)) (replace_variant (self_type (e_ident e) (e_generics e)) v)).
    change (v_ident v) with (v_ident v'). rewrite find_variant with (v := v').
    + reflexivity.
    + rewrite !map_map. pose proof (pg_variants _ _ Hp) as N. rewrite Hi in N. cbn [variant_names] in N.
      rewrite map_map in N. exact N.
    + apply in_map. apply in_map. exact Hv.
  - pose proof (enum_kind_in k a (enum_cx a (spelled_enum e)) (e_variants (spelled_enum e)) eq_refl Hk) as H.
    rewrite <- E in H. apply in_or_app. auto.
  - rewrite enum_kind_eq. left. reflexivity.
Qed.

Lemma self_struct w a s : program w a -> w_item w = ItStruct s -> self_fields w [I "Self"] = Some (s_fields s).
Proof.
  intros Hp Hi. unfold self_fields. rewrite Hi. rewrite (self_is_ok w (program_scope _ _ Hp)). reflexivity.
Qed.
Lemma self_enum w a e v : program w a -> w_item w = ItEnum e -> In v (e_variants e) ->
  self_fields w [I "Self"; v_ident v] = Some (v_fields v).
Proof.
  intros Hp Hi Hv. unfold self_fields. rewrite Hi. rewrite (self_is_ok w (program_scope _ _ Hp)).
  assert (ident_is (I "Self") "Self" = true) as -> by reflexivity. cbn [andb].
  rewrite find_variant; [reflexivity| |exact Hv].
  pose proof (pg_variants _ _ Hp) as N. rewrite Hi in N. exact N.
Qed.

(** Methods *)
Definition kmethod (k : proj) (cx : context) (b : body) : method :=
  match k with
  | PMut => method_project cx b
  | PRef => method_project_ref cx b
  | POwn => method_project_replace cx b
  end.
Definition struct_kbody (k : proj) (cx : context) (fs : fields) : body :=
  match k with
  | PMut => struct_body "get_unchecked_mut" (cx_mut_ident cx) fs
  | PRef => struct_body "get_ref" (cx_ref_ident cx) fs
  | POwn => struct_body_own (cx_own_ident cx) fs
  end.
Definition enum_kbody (k : proj) (cx : context) (vs : list variant) : body :=
  match k with
  | PMut => enum_body "get_unchecked_mut" (cx_mut_ident cx) vs
  | PRef => enum_body "get_ref" (cx_ref_ident cx) vs
  | POwn => enum_body_own (cx_own_ident cx) vs
  end.
Definition mname (k : proj) : string := name (proj_method k).
Lemma struct_method w a s k : program w a -> w_item w = ItStruct s -> struct_has k a = true ->
  find_method w (mname k) =
  Some (kmethod k (struct_cx a (spelled_struct s)) (struct_kbody k (struct_cx a (spelled_struct s)) (s_fields (spelled_struct s)))).
Proof.
  intros Hp Hi Hk. pose proof (pg_expansion _ _ Hp) as He. pose proof (pg_options _ _ Hp) as Ho. rewrite Hi in He, Ho.
  destruct (struct_form _ _ _ He Ho) as [_ E]. unfold find_method. rewrite E.
  clear - Hk. cases_options a; destruct k; try discriminate Hk; reflexivity.
Qed.
Lemma enum_method w a e k : program w a -> w_item w = ItEnum e -> enum_has k a = true ->
  find_method w (mname k) =
  Some (kmethod k (enum_cx a (spelled_enum e)) (enum_kbody k (enum_cx a (spelled_enum e)) (e_variants (spelled_enum e)))).
Proof.
  intros Hp Hi Hk. pose proof (pg_expansion _ _ Hp) as He. pose proof (pg_options _ _ Hp) as Ho. rewrite Hi in He, Ho.
  destruct (enum_form _ _ _ He Ho) as [Ha E]. pose proof (ae_replace_named _ _ Ha) as N. unfold find_method. rewrite E.
  clear - Hk N. cases_options a; destruct k; try discriminate Hk; try (elim N; reflexivity); reflexivity.
Qed.

(** The arm for the variant of the value. *)
Lemma find_arm_variant (mk : variant -> arm) vs v s : NoDup (map name (map v_ident vs)) -> In v vs ->
  (forall x, arm_pat (mk x) = variant_pat x) -> s_var s = Some (v_ident v) ->
  find_arm (fun p => variant_matches p s) (map mk vs) = Some (mk v).
Proof.
  intros Hn Hin Hmk Hs. induction vs as [|x vs IH]; [destruct Hin|]. cbn [map find_arm] in *. rewrite Hmk.
  unfold variant_pat at 1. inversion Hn; subst. unfold variant_matches at 1. rewrite Hs.
  destruct Hin as [->|Hin]; [rewrite same_name_refl; reflexivity|].
  assert (same_name (v_ident x) (v_ident v) = false) as ->; [|auto].
  apply same_name_false. intros E. apply H1. rewrite E. apply in_map. apply in_map. exact Hin.
Qed.

(** ** The result of [project] and [project_ref] *)
Definition kmut (k : proj) : bool := match k with PRef => false | _ => true end.

Lemma run_project_struct w a s k ids t : k <> POwn ->
  program w a -> w_item w = ItStruct s ->
  call_method w (mname k) (RPin (kmut k) PlSelf) [] (holding (mkUval None ids) t Run) =
  Some (Some (RProj [proj_name k a (s_ident s)] (references (kmut k) (s_fields s))), holding (mkUval None ids) t Run).
Proof.
  intros Hk Hp Hi. unfold call_method.
  assert (Hh : struct_has k a = true) by (destruct k; [reflexivity|reflexivity|elim Hk; reflexivity]).
  rewrite (struct_method w a s k Hp Hi Hh).
  set (cx := struct_cx a (spelled_struct s)). set (self := self_type (s_ident s) (s_generics s)).
  set (fs := s_fields (spelled_struct s)). set (st0 := holding (mkUval None ids) t Run).
  assert (Hfs : In (s_fields s) (fields_of (w_item w))) by (rewrite Hi; left; reflexivity).
  assert (Hl : fields_legal fs) by (apply legal_replace; apply (pg_fields _ _ Hp _ Hfs)).
  pose proof (program_bind w a (s_fields s) self (kmut k) Hp Hfs) as Hb. cbn zeta in Hb.
  change (replace_fields self (s_fields s)) with fs in Hb.
  pose proof (struct_lit w a s k Hp Hi Hh) as Hlit. fold fs in Hlit.
  pose proof (self_struct w a s Hp Hi) as Hself.
  pose proof (ref_val_references (kmut k) self (s_fields s)) as Href.
  change (replace_fields self (s_fields s)) with fs in Href.
  assert (Hrun : forall m e0, inert e0 ->
     eval_atom w (AMethod (I "self") (I m)) [(I "self", Some (RPin (kmut k) PlSelf))] st0 = Some (RRef (kmut k) PlSelf, e0, st0) ->
     run_body w (drop_user w) (struct_body m (proj_name k a (s_ident s)) fs) [(I "self", Some (RPin (kmut k) PlSelf))] st0 =
     Some (Some (RProj [proj_name k a (s_ident s)] (references (kmut k) (s_fields s))), st0)).
  { intros m e0 Hi0 Hev. unfold struct_body. cbn [run_body run_stmts]. unfold running at 1. cbn [st0 holding s_stat].
    fold st0. cbn [run_stmt eval_rhs]. rewrite Hev. cbn [coerce bind_pat]. unfold struct_pat. cbn [bind_pat].
    rewrite Hself. cbn [variant_matches st0 holding s_var u_var]. fold st0. rewrite Hb. rewrite <- Href.
    apply (finish_project w (drop_user w) (kmut k) (kty k (struct_lt s))); auto.
    - apply (program_scope _ _ Hp).
    - intros nf _. destruct k; [apply fits_mut|apply fits_ref|elim Hk; reflexivity]. }
  unfold call.
  assert (Hbody : run_body w (drop_user w) (struct_kbody k cx fs) [(I "self", Some (RPin (kmut k) PlSelf))] st0 =
    Some (Some (RProj [proj_name k a (s_ident s)] (references (kmut k) (s_fields s))), st0)).
  { destruct k; [| |elim Hk; reflexivity].
    - eapply (Hrun "get_unchecked_mut"); [|reflexivity]. intros x v [H|[]]. discriminate.
    - eapply (Hrun "get_ref"); [|reflexivity]. intros x v [H|[]]. injection H as _ <-. exact Coq.Init.Logic.I. }
  destruct k; [| |elim Hk; reflexivity];
    cbn [kmethod method_project method_project_ref m_params m_body length combine map rev app Nat.eqb m_ret ret_ok] in *;
    rewrite Hbody; unfold ret_ok; cbn [m_ret]; unfold ty_applied, self_path.
  - change (cx_mut_ident cx) with (proj_name PMut a (s_ident s)). rewrite same_name_refl. reflexivity.
  - change (cx_ref_ident cx) with (proj_name PRef a (s_ident s)). rewrite same_name_refl. reflexivity.
Qed.

Lemma run_project_enum w a e v k ids t : k <> POwn -> enum_has k a = true ->
  program w a -> w_item w = ItEnum e -> In v (e_variants e) ->
  call_method w (mname k) (RPin (kmut k) PlSelf) [] (holding (mkUval (Some (v_ident v)) ids) t Run) =
  Some (Some (RProj [proj_name k a (e_ident e); v_ident v] (references (kmut k) (v_fields v))),
        holding (mkUval (Some (v_ident v)) ids) t Run).
Proof.
  intros Hk Hh Hp Hi Hv. unfold call_method.
  rewrite (enum_method w a e k Hp Hi Hh).
  set (cx := enum_cx a (spelled_enum e)). set (self := self_type (e_ident e) (e_generics e)).
  set (fs := replace_fields self (v_fields v)). set (st0 := holding (mkUval (Some (v_ident v)) ids) t Run).
  set (vs := e_variants (spelled_enum e)).
  assert (Hfs : In (v_fields v) (fields_of (w_item w))) by (rewrite Hi; apply in_map; exact Hv).
  assert (Hl : fields_legal fs) by (apply legal_replace; apply (pg_fields _ _ Hp _ Hfs)).
  pose proof (program_bind w a (v_fields v) self (kmut k) Hp Hfs) as Hb. cbn zeta in Hb. fold fs in Hb.
  pose proof (enum_lit w a e k v Hp Hi Hh Hv) as Hlit. cbn zeta in Hlit. fold self fs in Hlit.
  pose proof (self_enum w a e v Hp Hi Hv) as Hself.
  pose proof (ref_val_references (kmut k) self (v_fields v)) as Href. fold fs in Href.
  assert (Hrun : forall m e0, inert e0 ->
     eval_atom w (AMethod (I "self") (I m)) [(I "self", Some (RPin (kmut k) PlSelf))] st0 = Some (RRef (kmut k) PlSelf, e0, st0) ->
     run_body w (drop_user w) (enum_body m (proj_name k a (e_ident e)) vs) [(I "self", Some (RPin (kmut k) PlSelf))] st0 =
     Some (Some (RProj [proj_name k a (e_ident e); v_ident v] (references (kmut k) (v_fields v))), st0)).
  { intros m e0 Hi0 Hev. unfold enum_body. cbn [run_body run_stmts]. rewrite Hev.
    rewrite (find_arm_variant (variant_arm (proj_name k a (e_ident e))) vs (replace_variant self v)).
    - cbn [variant_arm arm_pat arm_stmts arm_tail run_stmts bind_pat]. unfold variant_pat. cbn [bind_pat].
      cbn [replace_variant v_ident v_fields]. fold fs.
      rewrite Hself. cbn [variant_matches st0 holding s_var u_var]. fold st0. rewrite same_name_refl, Hb. rewrite <- Href.
      apply (finish_project w (drop_user w) (kmut k) (kty k (enum_lt e))); auto.
      + apply (program_scope _ _ Hp).
      + intros nf _. destruct k; [apply fits_mut|apply fits_ref|elim Hk; reflexivity].
    - unfold vs. cbn [spelled_enum replace_enum e_variants]. rewrite !map_map.
      pose proof (pg_variants _ _ Hp) as N. rewrite Hi in N. cbn [variant_names] in N. rewrite map_map in N. exact N.
    - apply in_map. exact Hv.
    - reflexivity.
    - reflexivity. }
  unfold call.
  assert (Hbody : run_body w (drop_user w) (enum_kbody k cx vs) [(I "self", Some (RPin (kmut k) PlSelf))] st0 =
    Some (Some (RProj [proj_name k a (e_ident e); v_ident v] (references (kmut k) (v_fields v))), st0)).
  { destruct k; [| |elim Hk; reflexivity].
    - eapply (Hrun "get_unchecked_mut"); [|reflexivity]. intros x u [H|[]]. discriminate.
    - eapply (Hrun "get_ref"); [|reflexivity]. intros x u [H|[]]. injection H as _ <-. exact Coq.Init.Logic.I. }
  destruct k; [| |elim Hk; reflexivity];
    cbn [kmethod method_project method_project_ref m_params m_body length combine map rev app Nat.eqb m_ret ret_ok] in *;
    rewrite Hbody; unfold ret_ok; cbn [m_ret]; unfold ty_applied, self_path.
  - change (cx_mut_ident cx) with (proj_name PMut a (e_ident e)). rewrite same_name_refl. reflexivity.
  - change (cx_ref_ident cx) with (proj_name PRef a (e_ident e)). rewrite same_name_refl. reflexivity.
Qed.

Lemma run_project w a k u vp fs t : k <> POwn -> program w a -> has_proj k (w_item w) a = true ->
  value_of (w_item w) u vp fs ->
  call_method w (mname k) (RPin (kmut k) PlSelf) [] (holding u t Run) =
  Some (Some (RProj (proj_name k a (name_of (w_item w)) :: vp) (references (kmut k) fs)), holding u t Run).
Proof.
  intros Hk Hp Hh Hv. remember (w_item w) as it eqn:Eit. destruct Hv as [s ids H|e v ids Hin H].
  - apply run_project_struct; auto.
  - apply (run_project_enum w a e v); auto.
Qed.
