(** Everything the derive generates can be read back: its items are made of
    parts that can be written, as [output_back] (ProofsItems.v) asks. *)
From Coq Require Import String Ascii List Bool Arith Lia DecimalNat.
From Verif Require Import Base Syntax SyntaxInd ModelArgs ModelAttribute ModelUtils ModelDerive ModelLints ModelPrint.
From Verif Require Import SpecArgs SpecParse SpecRead SpecItems SpecOutput.
From Verif Require Import ProofsArgs ProofsUtils ProofsExpand ProofsDerive ProofsParse ProofsRead ProofsSized ProofsBlocks ProofsItems.
Import ListNotations.
Open Scope string_scope.
Open Scope list_scope.

(** ** Words *)
Lemma word_underscore i : path_word i = true -> path_word (fst (prepend_underscore_to_self i)) = true.
Proof. unfold prepend_underscore_to_self. destruct (ident_is i "self"); [reflexivity|auto]. Qed.
Lemma source_underscore l : forallb source_seg l = true -> forallb source_seg (underscore_path l) = true.
Proof.
  destruct l as [|[i a] [|s l]]; auto. cbn [underscore_path forallb source_seg]. intros H. band; [apply word_underscore; assumption|assumption|reflexivity].
Qed.
Lemma arrows_underscore l : arrows_last (underscore_path l) = arrows_last l.
Proof. destruct l as [|[i a] [|s l]]; reflexivity. Qed.
Lemma removelast_map {A B} (f : A -> B) l : removelast (map f l) = map f (removelast l).
Proof. induction l as [|x [|y l] IH]; [reflexivity|reflexivity|]. cbn [map removelast] in *. rewrite IH. reflexivity. Qed.
Lemma arrows_map f l : (forall s, arrow (f s) = arrow s) -> arrows_last (map f l) = arrows_last l.
Proof. intros H. unfold arrows_last. rewrite removelast_map. induction (removelast l) as [|s r IH]; [reflexivity|]. cbn. rewrite H, IH. reflexivity. Qed.
Lemma some_map {A B} (f : A -> B) l : some_in (map f l) = some_in l.
Proof. destruct l; reflexivity. Qed.
Lemma some_underscore l : some_in (underscore_path l) = some_in l.
Proof. destruct l as [|[i a] [|]]; reflexivity. Qed.
Lemma arrows_cons s l : arrows_last (s :: l) = true -> arrows_last l = true.
Proof. destruct l as [|x l]; [reflexivity|]. unfold arrows_last. cbn [removelast forallb]. intros H. bandh. assumption. Qed.
Lemma complete_underscore k lead l : complete k lead (underscore_path l) = complete k lead l.
Proof. destruct l as [|[i a] [|]]; [reflexivity| |reflexivity]. destruct k as [|[|k]]; reflexivity. Qed.
Lemma complete_map f k lead l : (forall s, arrow (f s) = arrow s) -> complete k lead (map f l) = complete k lead l.
Proof. intros H. unfold complete. rewrite map_length, firstn_map, skipn_map, !arrows_map by exact H. reflexivity. Qed.

Section Replace.
  Variables (lead : bool) (segs : list seg).
  Let own : type_path := mkTypePath None (Path lead segs).
  Hypothesis Hs : source_path (Path lead segs) = true.
  Hypothesis Ha : forallb angle_args segs = true.

  Lemma arrow_replace s : arrow (replace_seg own s) = arrow s.
  Proof. destruct s as [i [| |l [o|]]]; reflexivity. Qed.
  Lemma own_source : source_ty (tp_ty own) = true.
  Proof. exact Hs. Qed.
  Lemma turbofish_source : forallb source_seg (map add_turbofish segs) = true.
  Proof.
    cbn [source_path] in Hs. apply andb_true_iff in Hs. destruct Hs as [H _]. apply andb_true_iff in H. destruct H as [_ H]. clear - H.
    revert H. apply fa_map. intros [i [|[] [|x r]|]] _ H; exact H.
  Qed.
  Lemma turbofish_arrows : forallb (fun s => negb (arrow s)) (map add_turbofish segs) = true.
  Proof. revert Ha. clear. apply fa_map. intros [i [|[] [|x r]|l [o|]]] _ H; try reflexivity; discriminate. Qed.
  Lemma self_source p : source_path p = true -> source_path (self_to_expr_path own p) = true.
  Proof.
    intros H. destruct p as [[] [|[i []] rest]]; try exact H. cbn [self_to_expr_path].
    destruct (ident_is i "Self"); [|exact H].
    assert (N : some_in (map add_turbofish segs ++ rest) = true).
    { clear - Hs. cbn [source_path] in Hs. destruct segs; [discriminate|reflexivity]. }
    cbn [tp_path own source_path] in H |- *. cbn [some_in forallb] in H. apply andb_true_iff in H. destruct H as [H AR0]. apply andb_true_iff in H. destruct H as [_ H].
    apply andb_true_iff in H. destruct H as [_ H]. rewrite N. cbn [andb]. apply andb_true_iff. split.
    - rewrite forallb_app, turbofish_source. assumption.
    - apply arrows_cons in AR0. rename AR0 into AR.
      unfold arrows_last. destruct rest as [|s r].
      + rewrite app_nil_r. pose proof turbofish_arrows as T. clear - T. destruct (map add_turbofish segs) as [|x l] using rev_ind; [reflexivity|].
        rewrite removelast_last. rewrite forallb_app in T. bandh. assumption.
      + rewrite removelast_app by discriminate. rewrite forallb_app, turbofish_arrows. exact AR.
  Qed.

  Definition segs_of (p : path) : list seg := match p with Path _ l => l end.
  Definition source_segs (p : path) : bool := forallb source_seg (segs_of p).
  Lemma path_parts p : source_path p = some_in (segs_of p) && source_segs p && arrows_last (segs_of p).
  Proof. destruct p; reflexivity. Qed.
  Lemma path_kept p : kept source_segs (replace_path own) p -> kept source_path (replace_path own) p.
  Proof.
    unfold kept. rewrite !path_parts. intros H X. bandh. specialize (H H2). destruct p as [l s]. rewrite r_pathc in *. cbn [segs_of] in *. band.
    - rewrite some_underscore, some_map. assumption.
    - exact H.
    - rewrite arrows_underscore, arrows_map by apply arrow_replace. assumption.
  Qed.

  Lemma source_replace :
    (forall t, kept source_ty (replace_ty own) t) /\
    (forall p, kept source_segs (replace_path own) p) /\
    (forall s, kept source_seg (replace_seg own) s) /\
    (forall a, kept source_gargs (replace_gargs own) a) /\
    (forall a, kept source_garg (replace_garg own) a) /\
    (forall b, kept source_bound (replace_bound own) b) /\
    (forall e, kept source_expr (replace_expr own) e).
  Proof.
    assert (Hopt : forall o, Po (kept source_ty (replace_ty own)) o ->
      match o with Some t' => source_ty t' | None => true end = true ->
      match match o with Some t' => Some (replace_ty own t') | None => None end with
      | Some t' => source_ty t' | None => true end = true).
    { intros [t|] H; cbn; auto. }
    assert (Hstart : forall i s r, kept source_segs (replace_path own) (Path false (Seg i GNone :: s :: r)) ->
      source_path (Path false (Seg i GNone :: s :: r)) = true ->
      source_ty (tp_ty own) && forallb source_seg (underscore_path (skipn 1 (map (replace_seg own) (Seg i GNone :: s :: r)))) &&
      complete 0 true (underscore_path (skipn 1 (map (replace_seg own) (Seg i GNone :: s :: r)))) = true).
    { intros i s r H X. cbn [map skipn]. rewrite path_parts in X. bandh. specialize (H H2). rewrite r_pathc in H. unfold source_segs in H.
      cbn [segs_of map underscore_path] in H. cbn [segs_of] in H1. cbn [forallb] in H. apply andb_true_iff in H. destruct H as [_ H]. apply andb_true_iff in H. destruct H as [H4 H5].
      apply andb_true_iff. split; [apply andb_true_iff; split|].
      - exact Hs.
      - apply source_underscore. cbn [forallb]. band; assumption.
      - rewrite complete_underscore. change (replace_seg own s :: map (replace_seg own) r) with (map (replace_seg own) (s :: r)).
        rewrite complete_map by apply arrow_replace. unfold complete. cbn [length firstn skipn]. apply arrows_cons in H1. rewrite H1. reflexivity. }
    assert (Hqual : forall t k l s, kept source_ty (replace_ty own) t -> kept source_segs (replace_path own) (Path l s) ->
      source_ty t && forallb source_seg s && complete k l s = true ->
      source_ty (replace_ty own t) && forallb source_seg (underscore_path (map (replace_seg own) s)) &&
      complete k l (underscore_path (map (replace_seg own) s)) = true).
    { intros t k l s H1 H2 X. bandh. band.
      - apply H1. assumption.
      - unfold kept in H2. rewrite r_pathc in H2. apply H2. assumption.
      - rewrite complete_underscore, complete_map by apply arrow_replace. assumption. }
    apply syntax_ind; unfold kept in *.
    - intros q p Hq' Hp' H. rewrite r_path. destruct (path_is_Self q p); [exact Hs|]. destruct (path_starts_Self q p) eqn:E.
      + apply start_rest in E. destruct E as (i & s & r & -> & ->). cbn [source_ty] in H. apply (Hstart i s r Hp' H).
      + destruct q as [[t k]|]; cbn [source_ty] in *.
        * destruct p as [l s]. rewrite r_pathc. apply Hqual; assumption.
        * apply path_kept; assumption.
    - intros lt m t IH H. rewrite r_ref. cbn [source_ty] in *. band; auto.
    - intros m t IH H. rewrite r_ptr. apply IH, H.
    - intros l IH H. rewrite r_tuple. exact (fa_Forall source_ty _ l IH H).
    - intros t IH H. rewrite r_slice. apply IH, H.
    - intros t e IH IH' H. rewrite r_array. cbn [source_ty] in *. band; auto.
    - intros lts l o IH IH' H. rewrite r_fn. cbn [source_ty] in *. band; [assumption|apply fa_Forall; assumption|apply Hopt; assumption].
    - intros l IH H. rewrite r_dyn. cbn [source_ty] in *. band; [rewrite some_map; assumption|apply fa_Forall; assumption].
    - intros t IH H. rewrite r_paren. apply IH, H.
    - auto.
    - auto.
    - intros l s IH H. rewrite r_pathc. unfold source_segs in *. cbn [segs_of] in *. apply source_underscore, fa_Forall; assumption.
    - intros i a IH H. rewrite r_seg. cbn [source_seg] in *. band; auto.
    - auto.
    - intros b l IH H. rewrite r_gangle. exact (fa_Forall source_garg _ l IH H).
    - intros l o IH IH' H. rewrite r_gparen. cbn [source_gargs] in *. band; [apply fa_Forall; assumption|apply Hopt; assumption].
    - auto.
    - intros t IH H. rewrite r_aty. apply IH, H.
    - intros t IH H. rewrite r_aconst. destruct t; try discriminate. reflexivity.
    - intros i t IH H. rewrite r_aassoc. apply IH, H.
    - auto.
    - intros m lts p IH H. rewrite r_btrait. cbn [source_bound] in *. band; [assumption|apply path_kept; assumption].
    - intros q p Hq' Hp' H. rewrite r_epath.
      destruct (path_is_Self q p) eqn:E1.
      { apply path_is_Self_true in E1. destruct E1 as [-> ->]. apply self_source. reflexivity. }
      destruct (path_starts_Self q p) eqn:E.
      + apply start_rest in E. destruct E as (i & s & r & -> & ->). cbn [source_expr] in H. apply (Hstart i s r Hp' H).
      + destruct q as [[t k]|]; cbn [source_expr] in *.
        * destruct p as [l s]. rewrite r_pathc. apply Hqual; assumption.
        * apply path_kept; assumption.
    - auto.
    - intros f l IH IH' H. rewrite r_ecall. cbn [source_expr] in *. band; [apply IH; assumption|apply fa_Forall; assumption].
    - auto.
  Qed.
  Definition sr_ty := proj1 source_replace.
  Lemma sr_bound b : kept source_bound (replace_bound own) b. Proof. apply source_replace. Qed.
  Lemma sr_expr e : kept source_expr (replace_expr own) e. Proof. apply source_replace. Qed.
End Replace.

(** ** Generics *)
Lemma quoted_loop k names cur : quoted cur = true -> quoted (lifetime_loop k names cur) = true.
Proof.
  revert cur. induction k as [|k IH]; intros cur Q; cbn [lifetime_loop]; destruct (existsb _ names); try exact Q.
  apply IH. destruct cur; [discriminate|exact Q].
Qed.
Lemma quoted_pin g : quoted (determine_lifetime_name "'pin" g) = true.
Proof. apply quoted_loop. reflexivity. Qed.
Lemma source_as_preds g : source_generics g = true -> parses_generics g = true -> good_gen g = true.
Proof.
  unfold source_generics, parses_generics, good_gen, preds'. intros S P. bandh. band.
  - apply forallb_both; assumption.
  - destruct (g_where g) as [l|]; [|reflexivity]. apply forallb_both; assumption.
Qed.
Definition good_params (l : list gparam) : bool := forallb good_param l.
Lemma lts_first_good l : good_params l = true -> good_params (lts_first l) = true.
Proof.
  unfold good_params, lts_first. rewrite !forallb_forall. intros H p Hp. apply in_app_or in Hp.
  destruct Hp as [Hp|Hp]; apply filter_In in Hp; apply H, Hp.
Qed.
Lemma impl_params_good g : good_params (g_params g) = true -> good_params (impl_params g) = true.
Proof.
  intros H. apply lts_first_good in H. unfold impl_params. revert H. apply fa_map.
  intros [lt bs|i bs d|i t d] _; unfold good_param; cbn; intros H; band; auto.
Qed.
Lemma args_good l : good_params l = true -> forallb source_garg (map param_arg l) = true /\ forallb parses_garg (map param_arg l) = true.
Proof.
  intros H. split; revert H; apply fa_map; intros [lt bs|i bs d|i t d] _; unfold good_param; cbn [source_param parses_param param_arg]; intros H; bandh;
    cbn [source_garg parses_garg ty_ident source_ty source_path some_in forallb source_seg source_gargs]; try reflexivity; try assumption;
    rewrite name_word by assumption; reflexivity.
Qed.
Lemma path_good i g : name_ok i = true -> good_params (g_params g) = true ->
  source_path (self_path i g) = true /\ parses_path (self_path i g) = true /\ forallb angle_args [Seg i (ty_generics g)] = true.
Proof.
  intros N H. unfold self_path, ty_generics. cbn [source_path parses_path some_in forallb source_seg parses_seg]. rewrite name_word by exact N. cbn [andb].
  destruct (g_params g) as [|p ps] eqn:E; [repeat split|]. rewrite <- E in *. pose proof (lts_first_good _ H) as X. apply args_good in X. destruct X as [X Y].
  cbn [source_gargs parses_gargs]. rewrite X, Y. repeat split. cbn [angle_args]. rewrite E. unfold lts_first. cbn [filter].
  destruct (is_lt_param p); [reflexivity|]. destruct (filter is_lt_param ps); reflexivity.
Qed.
Lemma applied_good i g : name_ok i = true -> good_params (g_params g) = true -> good_ty (ty_applied i g) = true.
Proof.
  intros N H. destruct (path_good i g N H) as (A & B & _). unfold good_ty, ty_applied. cbn [source_ty parses_ty qualified]. rewrite A, B. reflexivity.
Qed.

(** ** The item without [Self] *)
Lemma name_place i : name_ok i = true -> place i = false.
Proof.
  unfold name_ok, place, ident_is. destruct (raw i); [reflexivity|]. cbn [negb andb orb]. intros H.
  apply negb_true_iff in H. destruct (existsb (fun s => String.eqb (name i) s) ["crate"; "self"; "super"]) eqn:E; [|reflexivity].
  apply existsb_exists in E. destruct E as (s & Hs & E). apply String.eqb_eq in E. rewrite E in H.
  destruct Hs as [<-|[<-|[<-|[]]]]; discriminate.
Qed.
Section Own.
  Variables (i : ident) (g : generics).
  Hypothesis N : name_ok i = true.
  Hypothesis G : good_params (g_params g) = true.
  Let self : type_path := self_type i g.
  Lemma go_ty t : good_ty t = true -> good_ty (replace_ty self t) = true.
  Proof.
    destruct (path_good i g N G) as (A & B & C). unfold good_ty. intros H. band; [apply sr_ty; assumption|apply pr_ty; assumption].
  Qed.
  Lemma go_param p : good_param p = true -> good_param (replace_param self p) = true.
  Proof.
    destruct (path_good i g N G) as (A & B & C). unfold good_param. intros H. bandh. band; [|apply pr_param; assumption].
    destruct p as [lt bs|j bs d|j t d]; cbn [source_param replace_param] in *; bandh; band; try assumption.
    - eapply fa_map; [|eassumption]. intros b _. apply sr_bound; assumption.
    - destruct d; [|reflexivity]. cbn [source_opt option_map] in *. apply sr_ty; assumption.
    - apply sr_ty; assumption.
    - destruct d; [|reflexivity]. cbn [source_opt option_map] in *. apply sr_expr; assumption.
  Qed.
  Lemma binder_replace t : binder_first (replace_ty self t) = binder_first t.
  Proof.
    destruct t as [q p| | | | | | | | | |]; try reflexivity. rewrite r_path. destruct (path_is_Self q p); [reflexivity|]. destruct (path_starts_Self q p); [destruct p|]; reflexivity.
  Qed.
  Lemma go_wpred w : good_wpred w = true -> good_wpred (replace_wpred self w) = true.
  Proof.
    destruct (path_good i g N G) as (A & B & C). unfold good_wpred. intros H. bandh. band; [|apply pr_wpred; assumption].
    destruct w as [lt bs|lts t bs]; cbn [source_wpred replace_wpred] in *; bandh; band; try assumption.
    - apply sr_ty; assumption.
    - eapply fa_map; [|eassumption]. intros b _. apply sr_bound; assumption.
    - rewrite binder_replace. assumption.
  Qed.
  Lemma go_gen g' : good_gen g' = true -> good_gen (replace_generics self g') = true.
  Proof.
    unfold good_gen, preds'. cbn [replace_generics g_params g_where]. intros H. band.
    - eapply fa_map; [|eassumption]. intros p _. apply go_param.
    - destruct (g_where g') as [l|]; [|reflexivity]. cbn [option_map]. eapply fa_map; [|eassumption]. intros w _. apply go_wpred.
  Qed.
  Lemma go_vis v : source_vis v = true -> pub_self v = false -> source_vis (replace_vis v) = true.
  Proof.
    destruct v as [| |[] p]; cbn [source_vis replace_vis pub_self]; auto.
    - intros H _. band; [destruct p as [|x [|y p]]; auto|]. destruct p as [|x [|y p]]; auto. cbn [replace_ids forallb] in *. bandh. rewrite word_underscore by assumption. reflexivity.
    - destruct p as [|x [|y p]]; auto. intros H P. cbn [replace_ids]. unfold prepend_underscore_to_self. rewrite P. exact H.
  Qed.
  Lemma go_like t : like_vis t = false -> like_vis (replace_ty self t) = false.
  Proof.
    destruct t as [q [l s]| | | | | | | |t| |]; try reflexivity.
    - intros _. rewrite r_path. destruct (path_is_Self _ _); [reflexivity|]. destruct (path_starts_Self _ _); reflexivity.
    - rewrite r_paren. destruct t as [q [l s]| | | | | | | | | |]; try reflexivity. rewrite r_path.
      destruct (path_is_Self _ _).
      { intros _. unfold self, self_type, self_path, tp_ty. cbn. destruct (ty_generics g); [apply name_place, N|reflexivity|reflexivity]. }
      destruct (path_starts_Self _ _); [reflexivity|]. destruct q as [[]|]; [reflexivity|]. rewrite r_pathc. destruct l; [reflexivity|].
      destruct s as [|[j a] [|y s]]; [reflexivity| |destruct y as [k b], a; reflexivity].
      cbn [map]. rewrite r_seg. cbn [underscore_path]. destruct a; try reflexivity. cbn [replace_gargs like_vis]. intros H.
      unfold prepend_underscore_to_self. destruct (ident_is j "self"); [reflexivity|exact H].
  Qed.
  (** A field as it was written: its attributes do not matter. *)
  Definition sound_field (named : bool) (f : field) : bool := source_field named f && parses_ty (f_ty f).
  Lemma go_field named f : sound_field named f = true -> pub_self (f_vis f) = false -> sound_field named (replace_field self f) = true.
  Proof.
    unfold sound_field, source_field. cbn [replace_field f_vis f_ty f_ident]. intros H P. bandh.
    assert (T : good_ty (f_ty f) = true) by (unfold good_ty; rewrite H0, H2; reflexivity). apply go_ty in T. unfold good_ty in T. bandh. band; try assumption.
    - apply go_vis; assumption.
    - destruct (f_ident f); [assumption|]. bandh. band; [assumption|].
      destruct (f_vis f); cbn [replace_vis is_vpub andb negb] in *; try reflexivity. apply negb_true_iff. apply go_like. apply negb_true_iff. assumption.
  Qed.
  Definition sound_fields (fs : fields) : bool :=
    match fs with FNamed l => forallb (sound_field true) l | FUnnamed l => forallb (sound_field false) l | FUnit => true end.
  Lemma go_fields fs : sound_fields fs = true -> forallb (fun f => negb (pub_self (f_vis f))) (fields_list fs) = true ->
    sound_fields (replace_fields self fs) = true.
  Proof.
    assert (K : forall b l, forallb (sound_field b) l = true -> forallb (fun f => negb (pub_self (f_vis f))) l = true ->
      forallb (sound_field b) (map (replace_field self) l) = true).
    { intros b l H P. rewrite forallb_forall in P. revert H. apply fa_map. intros f Hf S. apply go_field; [exact S|]. apply negb_true_iff, P, Hf. }
    destruct fs as [l|l|]; cbn [sound_fields replace_fields fields_list]; [apply K|apply K|reflexivity].
  Qed.
End Own.

(** ** Names *)
Lemma plain_name i : plain_ident i -> name_ok i = true.
Proof.
  unfold plain_ident, name_ok. intros [->|H]; [reflexivity|]. apply orb_true_iff. right. apply negb_true_iff.
  destruct (existsb (String.eqb (name i)) (strict_keywords ++ reserved_keywords ++ ["_"])) eqn:E; [|reflexivity]. destruct H.
  apply existsb_exists in E. destruct E as (s & Hs & E). apply String.eqb_eq in E. subst s. unfold keyword.
  apply in_app_or in Hs. destruct Hs as [Hs|Hs]; [auto|]. apply in_app_or in Hs. destruct Hs as [Hs|[Hs|[]]]; auto.
Qed.
Lemma under_name c s : name_ok (I (String "_" (String c s))) = true.
Proof. reflexivity. Qed.
Lemma number_ne n : string_of_nat n <> "".
Proof.
  unfold string_of_nat. intros E. pose proof (DecimalNat.Unsigned.of_to n) as X. destruct (Nat.to_uint n) eqn:U; try discriminate. subst n. discriminate U.
Qed.
Lemma binding_name n : name_ok (id_binding n) = true.
Proof. unfold id_binding. pose proof (number_ne n). destruct (string_of_nat n); [congruence|reflexivity]. Qed.
Lemma trait_name i : name_ok (id_drop_trait i) = true.
Proof.
  unfold name_ok, id_drop_trait, I. cbn [raw name orb].
  assert (L : 15 <= String.length (name i ++ "MustNotImplDrop")).
  { induction (name i) as [|c s IH]; cbn [append String.length] in *; [apply le_n|]. lia. }
  apply negb_true_iff. destruct (existsb _ _) eqn:E; [|reflexivity]. apply existsb_exists in E. destruct E as (s & Hs & E). apply String.eqb_eq in E.
  rewrite E in L. assert (K : forallb (fun s => Nat.ltb (String.length s) 15) (strict_keywords ++ reserved_keywords ++ ["_"]) = true) by reflexivity.
  rewrite forallb_forall in K. apply K in Hs. apply Nat.ltb_lt in Hs. lia.
Qed.
Lemma given_name attrs a i : parse_args attrs = Ok a ->
  ar_project a = Some i \/ ar_project_ref a = Some i \/ pr_ident (ar_project_replace a) = Some i -> name_ok i = true.
Proof.
  intros H. apply parse_args_iff in H. destruct H as (ts & pl & _ & W & _ & O). intros X. apply plain_name. eapply written_plain; [exact W|].
  assert (Y : In (GProject i) pl \/ In (GProjectRef i) pl \/ In (GReplaceNamed i) pl).
  { destruct X as [X|[X|X]].
    - left. apply (o_project _ _ O). exact X.
    - right. left. apply (o_project_ref _ _ O). exact X.
    - right. right. apply (o_replace_named _ _ O). destruct (ar_project_replace a); try discriminate. injection X as ->. reflexivity. }
  apply in_flat_map. destruct Y as [Y|[Y|Y]]; eexists; (split; [exact Y|left; reflexivity]).
Qed.

(** ** The context *)
Record good_cx (cx : context) : Prop := {
  gc_vis : source_vis (cx_vis cx) = true;
  gc_pvis : source_vis (cx_pvis cx) = true;
  gc_ident : name_ok (cx_ident cx) = true;
  gc_mut : name_ok (cx_mut_ident cx) = true;
  gc_ref : name_ok (cx_ref_ident cx) = true;
  gc_own : name_ok (cx_own_ident cx) = true;
  gc_lt : quoted (cx_lifetime cx) = true;
  gc_params : good_params (g_params (cx_generics cx)) = true;
  gc_where : forallb good_wpred (where_of (cx_generics cx)) = true;
  gc_pparams : good_params (g_params (cx_pgenerics cx)) = true;
  gc_pw : forallb good_wpred (where_of (cx_pgenerics cx)) = true;
  gc_pwhere : forallb good_wpred (cx_pwhere cx) = true
}.
Lemma context_good attrs v i g k cx : context_new attrs v i g k = Ok cx ->
  source_vis v = true -> name_ok i = true -> good_gen g = true -> good_cx cx.
Proof.
  unfold context_new. intros H V N G. destruct (parse_args attrs) as [a| |] eqn:E; try discriminate. cbn [bind] in H.
  destruct (name_clash a i); [discriminate|]. cbn [insert_lifetime_and_bound] in H. injection H as <-.
  pose proof (quoted_pin g) as Q. unfold good_gen in G. bandh.
  assert (O : forall o d, (forall j, o = Some j -> name_ok j = true) -> name_ok d = true -> name_ok (opt_or o d) = true) by (intros [j|] d X Y; cbn; auto).
  constructor; cbn [cx_vis cx_pvis cx_ident cx_mut_ident cx_ref_ident cx_own_ident cx_lifetime cx_generics cx_pgenerics cx_pwhere g_params insert_lifetime make_where_clause]; auto.
  - destruct v; auto.
  - apply O; [|reflexivity]. intros j Hj. apply (given_name attrs a j E). auto.
  - apply O; [|reflexivity]. intros j Hj. apply (given_name attrs a j E). auto.
  - apply O; [|reflexivity]. intros j Hj. apply (given_name attrs a j E). auto.
  - unfold good_params, good_param. cbn [forallb source_param parses_param]. rewrite Q. exact H.
  - rewrite forallb_app. cbn [forallb]. band; [assumption| |reflexivity].
    unfold good_wpred. cbn [source_wpred parses_wpred forallb source_bound parses_bound binder_first ty_applied]. pose proof (applied_good i g N H) as T.
    unfold good_ty in T. bandh. unfold ty_applied in *. rewrite H1, H2, Q. reflexivity.
Qed.

(** ** Fields *)
Definition init_ok (named : bool) (x : option ident * atom) : bool :=
  source_init (fst x, canon_atom (snd x)) && (named || negb (is_some (fst x))).
Record good_pf (named : bool) (pf : projected_fields) : Prop := {
  gp_pat : forallb name_ok (pf_pat pf) = true;
  gp_body : forallb (init_ok named) (pf_body pf) = true;
  gp_move : forallb (init_ok named) (pf_move pf) = true;
  gp_fields : forallb (good_field named) (pf_fields pf) = true;
  gp_ref_fields : forallb (good_field named) (pf_ref_fields pf) = true;
  gp_own_fields : forallb (good_field named) (pf_own_fields pf) = true;
  gp_tys : forallb good_ty (pf_pinned_tys pf) = true;
  gp_bindings : forallb name_ok (pf_pinned_bindings pf) = true
}.
Lemma field_good named f t : sound_field named f = true -> good_ty t = true -> like_vis t = false \/ t = f_ty f ->
  good_field named (mkField [] (f_vis f) (f_ident f) t) = true.
Proof.
  unfold sound_field, good_field, source_field, good_ty. cbn [f_attrs f_vis f_ident f_ty]. intros S T L. bandh. band; try assumption; try reflexivity.
  destruct (f_ident f); [assumption|]. bandh. destruct L as [L| ->]; band; try assumption. rewrite L, andb_false_r. reflexivity.
Qed.
Lemma fields_good named lt : quoted lt = true -> forall l n pf, forallb (sound_field named) l = true -> visit_field_list lt n l = Ok pf -> good_pf named pf.
Proof.
  intros Q. induction l as [|f l IH]; cbn [visit_field_list forallb]; intros n pf SF H.
  - injection H as <-. constructor; reflexivity.
  - apply andb_true_iff in SF. destruct SF as [Sf SF]. destruct (position_exact (f_attrs f) "pin") as [pos| |]; try discriminate. cbn [bind] in H.
    destruct (visit_field_list lt (S n) l) as [pf'| |] eqn:E; try discriminate. cbn [bind] in H. apply (IH _ _ SF) in E.
    assert (B : name_ok (opt_or (f_ident f) (id_binding n)) = true).
    { unfold sound_field, source_field in Sf. bandh. destruct (f_ident f); cbn [opt_or]; [bandh; assumption|apply binding_name]. }
    assert (INI : named || negb (is_some (f_ident f)) = true).
    { unfold sound_field, source_field in Sf. bandh. destruct (f_ident f); cbn [is_some negb]; [bandh; subst; reflexivity|apply orb_true_r]. }
    assert (O : opt_ok name_ok (f_ident f) = true).
    { unfold sound_field, source_field in Sf. bandh. destruct (f_ident f); cbn [opt_ok]; [bandh; assumption|reflexivity]. }
    assert (T : good_ty (f_ty f) = true). { unfold sound_field, source_field in Sf. unfold good_ty. bandh. band; assumption. }
    pose proof (name_word _ B) as W. pose proof T as T'. unfold good_ty in T'. apply andb_true_iff in T'. destruct T' as [T1 T2].
    assert (K : forall t, good_ty t = true -> like_vis t = false \/ t = f_ty f -> good_field named (mkField [] (f_vis f) (f_ident f) t) = true)
      by (intros; apply field_good; assumption).
    assert (K1 : good_ty (ty_pin_mut lt (f_ty f)) = true) by (unfold good_ty; cbn; rewrite Q, T1, T2; reflexivity).
    assert (K2 : good_ty (ty_pin_ref lt (f_ty f)) = true) by (unfold good_ty; cbn; rewrite Q, T1, T2; reflexivity).
    assert (K3 : good_ty (ty_phantom (f_ty f)) = true) by (unfold good_ty; cbn; rewrite T1, T2; reflexivity).
    assert (K4 : good_ty (ty_mut lt (f_ty f)) = true) by (unfold good_ty; cbn; rewrite Q, T1, T2; reflexivity).
    assert (K5 : good_ty (ty_ref lt (f_ty f)) = true) by (unfold good_ty; cbn; rewrite Q, T1, T2; reflexivity).
    destruct pf' as [ppat pbody pmove pfs prfs pofs ptys pbs]. destruct E as [E1 E2 E3 E4 E5 E6 E7 E8].
    cbn [pf_pat pf_body pf_move pf_fields pf_ref_fields pf_own_fields pf_pinned_tys pf_pinned_bindings] in *.
    assert (J : forall o x, opt_ok name_ok o = true -> source_atom (canon_atom x) = true -> named || negb (is_some o) = true -> init_ok named (o, x) = true).
    { intros o x X Y Z. unfold init_ok, source_init. cbn [fst snd]. band; assumption. }
    destruct (is_some pos); injection H as <-; constructor;
      cbn [pf_pat pf_body pf_move pf_fields pf_ref_fields pf_own_fields pf_pinned_tys pf_pinned_bindings forallb]; try assumption;
      apply andb_true_iff; split; try assumption;
      first [apply K; [assumption|auto; fail] | apply J; [assumption|cbn [canon_atom source_atom]; cbn; rewrite ?W; reflexivity|assumption]
            | apply J; [reflexivity|exact W|apply orb_true_r] | idtac].
Qed.

(** ** Bodies *)
Definition is_named (fs : fields) : bool := match fs with FNamed _ => true | _ => false end.
Definition is_unit (fs : fields) : bool := match fs with FUnit => true | _ => false end.
Lemma visit_good cx fs pf : good_cx cx -> sound_fields fs = true -> visit_fields cx fs = Ok pf -> good_pf (is_named fs) pf.
Proof.
  intros C S H. unfold visit_fields in H. eapply fields_good; [apply (gc_lt _ C)| |exact H].
  destruct fs; [exact S|exact S|reflexivity].
Qed.
Lemma lit_good fs p l : some_in p = true -> forallb path_word p = true -> (is_unit fs = true -> two p = true) ->
  forallb (init_ok (is_named fs)) l = true -> source_rhs (canon_rhs (RLit p (fields_delim fs) l)) = true.
Proof.
  intros N W U L. destruct fs as [fl|fl|]; cbn [fields_delim canon_rhs source_rhs is_named is_unit] in *.
  - rewrite N, W. cbn [andb]. revert L. apply fa_map. intros x _ H. unfold init_ok in H. bandh. assumption.
  - rewrite N, W. cbn [andb]. apply andb_true_iff. split; revert L; apply fa_map; intros x _ H; unfold init_ok in H; bandh; assumption.
  - specialize (U eq_refl). destruct p as [|x [|y p]]; try discriminate. cbn [path_atom source_atom]. rewrite U, W. reflexivity.
Qed.
Lemma pat_good fs p l : some_in p = true -> forallb path_word p = true -> (is_unit fs = true -> two p = true) ->
  forallb name_ok l = true -> source_pat (canon_pat (PLit p (fields_delim fs) l)) = true.
Proof.
  intros N W U L. destruct fs as [fl|fl|]; cbn [fields_delim is_unit] in *.
  - destruct p as [|x [|y p]]; [discriminate| |]; cbn [canon_pat source_pat]; rewrite W, L; reflexivity.
  - destruct p as [|x [|y p]]; [discriminate| |]; cbn [canon_pat source_pat]; rewrite W, L; reflexivity.
  - specialize (U eq_refl). destruct p as [|x [|y p]]; try discriminate. cbn [canon_pat source_pat]. rewrite W. reflexivity.
Qed.
Lemma guards_good l : forallb name_ok l = true -> forallb source_stmt (map canon_stmt (map guard_stmt (rev l))) = true.
Proof.
  rewrite !forallb_forall. intros H s Hs. apply in_map_iff in Hs. destruct Hs as (s' & <- & Hs). apply in_map_iff in Hs. destruct Hs as (b & <- & Hb).
  apply in_rev, H, name_word in Hb. cbn. rewrite Hb. reflexivity.
Qed.
Lemma own_body_good fs p moves pinned : some_in p = true -> forallb path_word p = true -> (is_unit fs = true -> two p = true) ->
  forallb (init_ok (is_named fs)) moves = true -> forallb name_ok pinned = true ->
  forallb source_stmt (map canon_stmt (fst (proj_own_body p (fields_delim fs) moves pinned))) = true /\
  source_rhs (canon_rhs (snd (proj_own_body p (fields_delim fs) moves pinned))) = true.
Proof.
  intros N W U M P. split; [|reflexivity]. unfold proj_own_body. cbn [fst map canon_stmt canon_pat forallb source_stmt source_pat opt_ok].
  rewrite lit_good by assumption. rewrite guards_good by assumption. reflexivity.
Qed.

(** ** Methods and impls *)
Definition good_bodies (b : body) : bool := source_body (canon_body b).
Lemma prologue_good b : good_bodies b = true -> good_bodies (add_prologue replace_prologue b) = true.
Proof.
  unfold good_bodies. destruct b as [ss t|ss a arms]; cbn [add_prologue canon_body source_body]; intros H; rewrite map_app, forallb_app; bandh; band; try assumption; reflexivity.
Qed.
Lemma gen_parts ps w : good_gen (mkGenerics ps w) = good_params ps && forallb good_wpred (match w with Some l => l | None => [] end).
Proof. reflexivity. Qed.
Lemma impl_gen_good g : good_params (g_params g) = true -> forallb good_wpred (where_of g) = true -> good_gen (impl_generics g) = true.
Proof. intros P W. unfold impl_generics. rewrite gen_parts. apply impl_params_good in P. rewrite P. exact W. Qed.
Lemma def_gen_good g w : good_params (g_params g) = true -> forallb good_wpred w = true -> good_gen (def_generics g w) = true.
Proof. intros P W. unfold def_generics. rewrite gen_parts. apply lts_first_good in P. rewrite P. exact W. Qed.
Lemma method_good cx b : good_cx cx -> good_bodies b = true ->
  good_method (method_project cx b) = true /\ good_method (method_project_ref cx b) = true /\ good_method (method_project_replace cx b) = true.
Proof.
  intros C B. pose proof (applied_good _ _ (gc_mut _ C) (gc_pparams _ C)) as T1. pose proof (applied_good _ _ (gc_ref _ C) (gc_pparams _ C)) as T2.
  pose proof (applied_good _ _ (gc_own _ C) (gc_params _ C)) as T3. pose proof (gc_lt _ C) as Q. pose proof (gc_pvis _ C) as V.
  unfold good_method. cbn [method_project method_project_ref method_project_replace m_vis m_name m_lts m_self m_params m_ret m_body opt_ok forallb fst snd].
  rewrite V, T1, T2, T3, Q. pose proof (prologue_good b B) as PB. unfold good_bodies in *. rewrite B, PB.
  assert (R : forall m, good_recv (recv_pin (Some (cx_lifetime cx)) m) = true) by (intros m; cbn; unfold good_ty; cbn; rewrite Q; reflexivity).
  rewrite !R. repeat split; reflexivity.
Qed.
Lemma proj_impl_good cx b bref bown : good_cx cx -> good_bodies b = true -> good_bodies bref = true -> good_bodies bown = true ->
  good_oitem (make_proj_impl cx b bref bown) = true.
Proof.
  intros C B1 B2 B3. unfold make_proj_impl. cbn [good_oitem]. unfold good_impl. cbn [i_self i_generics i_trait i_methods opt_ok].
  rewrite (impl_gen_good _ (gc_params _ C) (gc_where _ C)), (applied_good _ _ (gc_ident _ C) (gc_params _ C)). cbn [andb no_qself ty_applied].
  rewrite !forallb_app. band.
  - destruct (_ && _); cbn [forallb]; [reflexivity|]. rewrite (proj1 (method_good cx b C B1)). reflexivity.
  - destruct (_ && _); cbn [forallb]; [reflexivity|]. rewrite (proj1 (proj2 (method_good cx bref C B2))). reflexivity.
  - destruct (pr_span _); [|reflexivity]. destruct (_ && _); cbn [forallb]; [reflexivity|]. rewrite (proj2 (proj2 (method_good cx bown C B3))). reflexivity.
Qed.
Lemma packed_good cx fs l : good_cx cx -> sound_fields fs = true -> ensure_not_packed cx (Some fs) = Ok l -> forallb good_oitem l = true.
Proof.
  intros C S H. unfold ensure_not_packed in H. destruct (check_reprs _ _); try discriminate. injection H as <-. cbn [forallb good_oitem].
  rewrite (impl_gen_good _ (gc_params _ C) (gc_where _ C)). pose proof (applied_good _ _ (gc_ident _ C) (gc_params _ C)) as T.
  unfold good_ty in *. bandh. unfold ty_applied in *. cbn [source_ty parses_ty no_plus] in *. bandh. rewrite H, H1, H2. cbn [andb]. rewrite ?andb_true_r.
  apply forallb_forall. intros m Hm. apply in_map_iff in Hm. destruct Hm as (x & <- & Hx). unfold field_member.
  apply enum_from_in in Hx. destruct x as [k f]. cbn [snd] in *. destruct (f_ident f) as [i|] eqn:E; [|reflexivity]. cbn [good_member].
  destruct fs as [fl|fl|]; cbn [sound_fields fields_list] in *; [| |destruct Hx]; rewrite forallb_forall in S; specialize (S f Hx);
    unfold sound_field, source_field in S; rewrite E in S; bandh; try discriminate; assumption.
Qed.
Lemma rebuild_good fs l : forallb (good_field (is_named fs)) l = true -> good_fields (rebuild_fields fs l) = true.
Proof. destruct fs; auto. Qed.

(** ** Structs and enums *)
Lemma ok_same {A} (x y : A) : Ok x = Ok y -> x = y.
Proof. intros H. injection H. auto. Qed.
Definition good_generated (g : generated) : bool :=
  forallb good_oitem (gen_exposed g) && forallb good_oitem (gen_scoped g) && forallb good_ty (gen_pinned g).
Lemma extend_good b l g : forallb good_oitem l = true -> good_generated g = true -> good_generated (gen_extend b l g) = true.
Proof.
  unfold good_generated, gen_extend. intros L G. bandh. destruct b; cbn [gen_exposed gen_scoped gen_pinned]; rewrite forallb_app; band; assumption.
Qed.
Lemma struct_good cx fs g : good_cx cx -> sound_fields fs = true -> parse_struct cx fs = Ok g -> good_generated g = true.
Proof.
  intros C S H. unfold parse_struct in H. destruct (ensure_not_packed cx (Some fs)) as [pc| |] eqn:EP; try discriminate. cbn [bind] in H.
  apply (packed_good cx fs pc C S) in EP. destruct (validate_struct fs); try discriminate. cbn [bind] in H.
  assert (X : exists pf, visit_fields cx fs = Ok pf /\ is_unit fs = false).
  { destruct fs; [| |discriminate]; (destruct (visit_fields cx _) as [pf| |]; [exists pf; split; reflexivity|discriminate|discriminate]). }
  destruct X as (pf & E & NU).
  replace (match fs with FUnit => Panic "internal error: entered unreachable code" | _ => visit_fields cx fs end) with (@Ok projected_fields pf) in H
    by (rewrite E; destruct fs; [reflexivity|reflexivity|discriminate]).
  cbn [bind] in H. apply (visit_good cx fs pf C S) in E. destruct E as [E1 E2 E3 E4 E5 E6 E7 E8]. 
  assert (U : forall p : list ident, is_unit fs = true -> two p = true) by (intros p; rewrite NU; discriminate).
  pose proof (name_word _ (gc_mut _ C)) as W1. pose proof (name_word _ (gc_ref _ C)) as W2. pose proof (name_word _ (gc_own _ C)) as W3.
  assert (P : forall m, source_stmt (canon_stmt (SLet (PLit [I "Self"] (fields_delim fs) (pf_pat pf)) None (RAtom m))) = source_rhs (canon_rhs (RAtom m))).
  { intros m. cbn [canon_stmt source_stmt opt_ok]. rewrite pat_good by (auto; reflexivity). reflexivity. }
  assert (W : forall x, path_word x = true -> forallb path_word [x] = true) by (intros x Hx; cbn; rewrite Hx; reflexivity).
  destruct (own_body_good fs [cx_own_ident cx] (pf_move pf) (pf_pinned_bindings pf) eq_refl (W _ W3) (U _) E3 E8) as [O1 O2].
  cbv zeta in H. destruct (proj_own_body [cx_own_ident cx] (fields_delim fs) (pf_move pf) (pf_pinned_bindings pf)) as [oss ot]. cbn [fst snd] in *.
  apply ok_same in H. subst g. apply extend_good; [exact EP|]. apply extend_good.
  - cbn [forallb]. rewrite andb_true_r. apply proj_impl_good; [exact C| | |]; unfold good_bodies; cbn [canon_body source_body map forallb option_map opt_ok].
    + rewrite P. rewrite lit_good by auto. reflexivity.
    + rewrite P. rewrite lit_good by auto. reflexivity.
    + rewrite P. rewrite O1, O2. reflexivity.
  - assert (Z : good_generated (mkGen [] [] (pf_pinned_tys pf)) = true) by (unfold good_generated; cbn [gen_exposed gen_scoped gen_pinned forallb andb]; exact E7).
    assert (Y : forall i gg l, name_ok i = true -> good_gen gg = true -> forallb (good_field (is_named fs)) l = true ->
      forallb good_oitem [OStruct (cx_pvis cx) i gg (rebuild_fields fs l)] = true).
    { intros i gg l Hi Hg Hl. cbn [forallb good_oitem]. rewrite (gc_pvis _ C), Hi, Hg, rebuild_good by exact Hl. reflexivity. }
    pose proof (def_gen_good _ _ (gc_pparams _ C) (gc_pwhere _ C)) as D1. pose proof (def_gen_good _ _ (gc_params _ C) (gc_where _ C)) as D2.
    destruct (pr_span (ar_project_replace (cx_args cx))); repeat (apply extend_good; [apply Y; auto using gc_mut, gc_ref, gc_own|]); exact Z.
Qed.
Definition sound_variant (v : variant) : bool := name_ok (v_ident v) && sound_fields (v_fields v).
Definition good_arm (a : arm) : bool :=
  source_arm (mkArm (canon_pat (arm_pat a)) (map canon_stmt (arm_stmts a)) (canon_rhs (arm_tail a))).
Record good_pv (pv : projected_variants) : Prop := {
  gv_vs : forallb good_variant (pv_variants pv) = true;
  gv_rvs : forallb good_variant (pv_ref_variants pv) = true;
  gv_ovs : forallb good_variant (pv_own_variants pv) = true;
  gv_arms : forallb good_arm (pv_arms pv) = true;
  gv_rarms : forallb good_arm (pv_ref_arms pv) = true;
  gv_oarms : forallb good_arm (pv_own_arms pv) = true;
  gv_tys : forallb good_ty (pv_pinned pv) = true
}.
Lemma variants_good cx : good_cx cx -> forall vs pv, forallb sound_variant vs = true -> visit_variants cx vs = Ok pv -> good_pv pv.
Proof.
  intros C. induction vs as [|v vs IH]; cbn [visit_variants forallb]; intros pv SV H.
  - injection H as <-. constructor; reflexivity.
  - apply andb_true_iff in SV. destruct SV as [Sv SV]. destruct (visit_fields cx (v_fields v)) as [pf| |] eqn:E; try discriminate. cbn [bind] in H.
    destruct (visit_variants cx vs) as [rest| |]; try discriminate. cbn [bind] in H. specialize (IH rest SV eq_refl). unfold sound_variant in Sv.
    apply andb_true_iff in Sv. destruct Sv as [Nv Fv]. apply (visit_good cx _ pf C Fv) in E. destruct E as [E1 E2 E3 E4 E5 E6 E7 E8].
    pose proof (name_word _ (gc_mut _ C)) as W1. pose proof (name_word _ (gc_ref _ C)) as W2. pose proof (name_word _ (gc_own _ C)) as W3.
    assert (W : forall x, path_word x = true -> forallb path_word [x; v_ident v] = true) by (intros x Hx; cbn; rewrite Hx, name_word by exact Nv; reflexivity).
    destruct (own_body_good (v_fields v) [cx_own_ident cx; v_ident v] (pf_move pf) (pf_pinned_bindings pf) eq_refl (W _ W3) (fun _ => eq_refl) E3 E8) as [O1 O2].
    destruct (proj_own_body [cx_own_ident cx; v_ident v] (fields_delim (v_fields v)) (pf_move pf) (pf_pinned_bindings pf)) as [oss ot]. cbn [fst snd] in *.
    injection H as <-. destruct IH as [I1 I2 I3 I4 I5 I6 I7].
    assert (V : forall l, forallb (good_field (is_named (v_fields v))) l = true -> good_variant (mkVariant [] (v_ident v) (rebuild_fields (v_fields v) l) false) = true).
    { intros l Hl. unfold good_variant. cbn [v_ident v_fields v_attrs v_disc]. rewrite Nv, rebuild_good by exact Hl. reflexivity. }
    assert (A : forall ss x, forallb source_stmt (map canon_stmt ss) = true -> source_rhs (canon_rhs x) = true ->
      good_arm (mkArm (PLit [I "Self"; v_ident v] (fields_delim (v_fields v)) (pf_pat pf)) ss x) = true).
    { intros ss x Hs Hx. unfold good_arm, source_arm. cbn [arm_pat arm_stmts arm_tail]. rewrite Hs, Hx. rewrite pat_good; [reflexivity|reflexivity| |reflexivity|exact E1].
      apply W. reflexivity. }
    constructor; cbn [pv_variants pv_ref_variants pv_own_variants pv_arms pv_ref_arms pv_own_arms pv_pinned forallb];
      first [rewrite forallb_app; apply andb_true_iff; split; assumption | apply andb_true_iff; split; [|assumption]].
    + apply V. assumption.
    + apply V. assumption.
    + apply V. assumption.
    + apply A; [reflexivity|]. apply lit_good; auto.
    + apply A; [reflexivity|]. apply lit_good; auto.
    + apply A; assumption.
Qed.
Lemma arms_good l : forallb good_arm l = true -> forall a, source_atom (canon_atom a) = true -> good_bodies (BMatch [] a l) = true.
Proof.
  intros H a Ha. unfold good_bodies. cbn [canon_body source_body map forallb andb]. rewrite Ha. cbn [andb]. revert H. apply fa_map. intros x _ Hx. exact Hx.
Qed.
Lemma enum_good cx vs g : good_cx cx -> forallb sound_variant vs = true -> parse_enum cx vs = Ok g -> good_generated g = true.
Proof.
  intros C S H. unfold parse_enum in H.
  assert (X : exists pv, visit_variants cx vs = Ok pv /\
    exists b1 b2 b3, g = gen_extend false [make_proj_impl cx (BMatch [] (AMethod (I "self") (I "get_unchecked_mut")) (pv_arms pv))
       (BMatch [] (AMethod (I "self") (I "get_ref")) (pv_ref_arms pv)) (BMatch [] (ARefMutDeref (I "__self_ptr")) (pv_own_arms pv))]
      (let g0 := mkGen [] [] (pv_pinned pv) in
       let g1 := if b1 : bool then gen_extend true [OEnum (cx_pvis cx) (cx_mut_ident cx) (def_generics (cx_pgenerics cx) (cx_pwhere cx)) (pv_variants pv)] g0 else g0 in
       let g2 := if b2 : bool then gen_extend true [OEnum (cx_pvis cx) (cx_ref_ident cx) (def_generics (cx_pgenerics cx) (cx_pwhere cx)) (pv_ref_variants pv)] g1 else g1 in
       if b3 : bool then gen_extend true [OEnum (cx_pvis cx) (cx_own_ident cx) (def_generics (cx_generics cx) (where_of (cx_generics cx))) (pv_own_variants pv)] g2 else g2)).
  { destruct (ar_project_replace (cx_args cx)) eqn:ER; try discriminate; (destruct (ensure_not_packed cx None); try discriminate; cbn [bind] in H;
      destruct (validate_enum vs); try discriminate; cbn [bind] in H; destruct (visit_variants cx vs) as [pv| |]; try discriminate; cbn [bind] in H;
      exists pv; split; [reflexivity|]; apply ok_same in H; subst g; do 3 eexists; reflexivity). }
  destruct X as (pv & E & b1 & b2 & b3 & ->). apply (variants_good cx C _ _ S) in E. destruct E as [E1 E2 E3 E4 E5 E6 E7].
  apply extend_good.
  - cbn [forallb]. rewrite andb_true_r. apply proj_impl_good; [exact C| | |]; apply arms_good; auto; reflexivity.
  - assert (Z : good_generated (mkGen [] [] (pv_pinned pv)) = true) by (unfold good_generated; cbn [gen_exposed gen_scoped gen_pinned forallb andb]; exact E7).
    assert (Y : forall i gg l, name_ok i = true -> good_gen gg = true -> forallb good_variant l = true ->
      forallb good_oitem [OEnum (cx_pvis cx) i gg l] = true).
    { intros i gg l Hi Hg Hl. cbn [forallb good_oitem]. rewrite (gc_pvis _ C), Hi, Hg, Hl. reflexivity. }
    pose proof (def_gen_good _ _ (gc_pparams _ C) (gc_pwhere _ C)) as D1. pose proof (def_gen_good _ _ (gc_params _ C) (gc_where _ C)) as D2.
    cbv zeta. destruct b1, b2, b3; repeat (apply extend_good; [apply Y; auto using gc_mut, gc_ref, gc_own|]); exact Z.
Qed.

(** ** The impls of [Unpin] and [Drop] *)
Lemma ident_good i : name_ok i = true -> good_ty (ty_ident i) = true.
Proof. intros N. apply (applied_good i (mkGenerics [] None) N). reflexivity. Qed.
Lemma phantom_good t : good_ty t = true -> good_ty (pp_priv_ty "PhantomData" (targ t)) = true.
Proof. intros T. unfold good_ty in *. cbn in T |- *. bandh. rewrite H, H0. reflexivity. Qed.
Lemma pinned_good t : good_ty t = true -> good_ty (ty_pinned_fields_of t) = true.
Proof. intros T. unfold good_ty in *. cbn in T |- *. bandh. rewrite H, H0. reflexivity. Qed.
Lemma tuple_good ps : forallb name_ok ps = true -> good_ty (phantom_tuple ps) = true.
Proof.
  intros P. unfold phantom_tuple.
  assert (G : forallb good_ty (map (fun i => pp_priv_ty "PhantomData" (targ (ty_ident i))) ps) = true).
  { revert P. apply fa_map. intros i _ Hi. apply phantom_good, ident_good, Hi. }
  destruct (map _ ps) as [|x [|y l]] eqn:E.
  - reflexivity.
  - unfold good_ty in *. cbn [forallb source_ty parses_ty] in *. bandh. band; try assumption; reflexivity.
  - rewrite forallb_forall in G. unfold good_ty. cbn [source_ty parses_ty]. band; apply forallb_forall; intros z Hz; specialize (G z Hz); unfold good_ty in G; bandh; assumption.
Qed.
Lemma type_params_good g : good_params (g_params g) = true -> forallb name_ok (type_params g) = true.
Proof.
  unfold good_params, type_params. rewrite !forallb_forall. intros G i Hi. apply in_flat_map in Hi. destruct Hi as (p & Hp & Hi). specialize (G p Hp).
  destruct p; cbn in Hi; [destruct Hi| |destruct Hi]. destruct Hi as [<-|[]]. unfold good_param in G. cbn [source_param] in G. bandh. assumption.
Qed.
Lemma lifetimes_good g : good_params (g_params g) = true -> forallb quoted (lifetimes g) = true.
Proof.
  unfold good_params, lifetimes. rewrite !forallb_forall. intros G i Hi. apply in_flat_map in Hi. destruct Hi as (p & Hp & Hi). specialize (G p Hp).
  destruct p; cbn in Hi; [|destruct Hi|destruct Hi]. destruct Hi as [<-|[]]. unfold good_param in G. cbn [source_param] in G. bandh. assumption.
Qed.
Lemma helper_good cx pinned : good_cx cx -> forallb good_ty pinned = true -> good_fields (FNamed (helper_fields cx pinned)) = true.
Proof.
  intros C P. assert (K : forall i t, name_ok i = true -> good_ty t = true -> good_field true (mkField [] VInherited (Some i) t) = true).
  { intros i t Ni T. unfold good_field, source_field, good_ty in *. cbn [f_attrs f_vis f_ident f_ty source_vis]. bandh. band; try assumption; reflexivity. }
  unfold helper_fields. cbn [good_fields forallb]. rewrite forallb_app. band.
  - apply K; [reflexivity|]. pose proof (tuple_good _ (type_params_good _ (gc_params _ C))) as T. unfold good_ty in *. cbn. bandh. rewrite H, H0, (gc_lt _ C). reflexivity.
  - apply forallb_forall. intros f Hf. apply in_map_iff in Hf. destruct Hf as (x & <- & Hx). apply K; [unfold id_field; apply under_name|].
    apply enum_from_in in Hx. rewrite forallb_forall in P. apply P, Hx.
  - apply forallb_forall. intros f Hf. apply in_map_iff in Hf. destruct Hf as (x & <- & Hx). apply K; [unfold id_lifetime; apply under_name|].
    apply enum_from_in in Hx. pose proof (lifetimes_good _ (gc_params _ C)) as L. rewrite forallb_forall in L. apply L in Hx. unfold good_ty. cbn. rewrite Hx. reflexivity.
Qed.
Lemma empty_good u g tr i gg : good_gen g = true -> good_ty (TyPath None tr) = true -> name_ok i = true -> good_params (g_params gg) = true ->
  good_oitem (empty_impl u g tr (ty_applied i gg)) = true.
Proof.
  intros G T N P. unfold empty_impl. cbn [good_oitem]. unfold good_impl. cbn [i_self i_generics i_trait i_methods opt_ok forallb].
  rewrite G, T, (applied_good _ _ N P). reflexivity.
Qed.
Lemma wrapper_good lt t : quoted lt = true -> good_ty t = true -> good_ty (ty_wrapper lt t) = true.
Proof. intros Q T. unfold good_ty in *. cbn. bandh. rewrite Q, H, H0. reflexivity. Qed.
Lemma pred_good t tr : good_ty t = true -> binder_first t = false -> good_ty (TyPath None tr) = true -> good_wpred (WTy [] t [trait_bound tr]) = true.
Proof.
  intros T B R. unfold good_ty in *. unfold good_wpred, trait_bound. cbn [source_wpred parses_wpred forallb source_bound parses_bound source_ty parses_ty] in *. bandh. rewrite B.
  band; try assumption; reflexivity.
Qed.
Lemma unpin_name i : name_ok (id_unpin i) = true.
Proof. apply under_name. Qed.
Lemma unpin_good cx pinned : good_cx cx -> forallb good_ty pinned = true -> forallb good_oitem (make_unpin_impl cx pinned) = true.
Proof.
  intros C P. pose proof (gc_lt _ C) as Q.
  assert (PW : forall w, good_wpred w = true -> good_gen (impl_generics (push_where (cx_pgenerics cx) w)) = true).
  { intros w W. apply impl_gen_good.
    - exact (gc_pparams _ C).
    - unfold push_where, where_of. cbn [g_where make_where_clause]. pose proof (gc_pw _ C) as X. unfold where_of in X. destruct (g_where (cx_pgenerics cx)); rewrite forallb_app; cbn [forallb];
        rewrite W; rewrite ?X; reflexivity. }
  unfold make_unpin_impl. destruct (ar_unpin (cx_args cx)).
  - cbn [forallb]. rewrite andb_true_r. band.
    + cbn [good_oitem]. rewrite (gc_vis _ C). rewrite helper_good by assumption. rewrite def_gen_good; [|apply gc_pparams, C|apply gc_where, C].
      rewrite unpin_name. reflexivity.
    + apply empty_good; [|reflexivity|apply gc_ident, C|apply gc_params, C]. rewrite gen_parts. rewrite (impl_params_good _ (gc_pparams _ C)), forallb_app, (gc_where _ C). cbn [forallb andb].
      rewrite pred_good; [reflexivity| |reflexivity|reflexivity]. apply pinned_good. apply applied_good; [apply unpin_name|apply gc_pparams, C].
    + apply empty_good; [|reflexivity|apply gc_ident, C|apply gc_params, C]. rewrite gen_parts. rewrite (impl_params_good _ (gc_pparams _ C)), forallb_app, (gc_where _ C). cbn [forallb andb].
      rewrite pred_good; [reflexivity| |reflexivity|reflexivity]. apply pinned_good. apply applied_good; [apply unpin_name|apply gc_pparams, C].
  - cbn [forallb]. rewrite andb_true_r. apply empty_good; [|reflexivity|apply gc_ident, C|apply gc_params, C]. apply PW.
    apply pred_good; [|reflexivity|reflexivity]. apply pinned_good. apply wrapper_good; [exact Q|reflexivity].
  - cbn [forallb]. rewrite andb_true_r. band; (apply empty_good; [|reflexivity|apply gc_ident, C|apply gc_params, C]; apply PW;
      apply pred_good; [|reflexivity|reflexivity]; apply pinned_good; apply wrapper_good; [exact Q|reflexivity]).
Qed.
Lemma drop_good cx : good_cx cx -> forallb good_oitem (make_drop_impl cx) = true.
Proof.
  intros C. pose proof (impl_gen_good _ (gc_params _ C) (gc_where _ C)) as G. pose proof (applied_good _ _ (gc_ident _ C) (gc_params _ C)) as T.
  pose proof (trait_name (cx_ident cx)) as N. pose proof (ident_good _ N) as NT. unfold make_drop_impl. destruct (ar_pinned_drop (cx_args cx)); cbn [forallb good_oitem];
    unfold good_impl; cbn [i_self i_generics i_trait i_methods opt_ok forallb]; rewrite ?G, ?T, ?N; unfold ty_ident in *; rewrite ?NT; cbn [andb no_qself ty_applied]; reflexivity.
Qed.

(** ** The whole output *)
Lemma tokens_good cx g : good_cx cx -> good_generated g = true ->
  forallb good_oitem (exposed (into_tokens cx g)) = true /\ forallb good_oitem (scoped (into_tokens cx g)) = true.
Proof.
  unfold good_generated. intros C G. bandh. unfold into_tokens. cbn [exposed scoped forallb]. rewrite !forallb_app. split; [assumption|].
  rewrite unpin_good, drop_good by assumption. band; try assumption; reflexivity.
Qed.
Lemma sound_of fs : source_fields fs = true -> parses_fields fs = true -> sound_fields fs = true.
Proof. unfold parses_fields. destruct fs as [l|l|]; cbn [source_fields fields_list sound_fields]; intros S P; [apply forallb_both|apply forallb_both|reflexivity]; assumption. Qed.
Lemma derive_good it e : parse_derive it = Ok e -> source_item it = true -> parses_item it = true -> without_pub_self it = true ->
  forallb good_oitem (exposed e) = true /\ forallb good_oitem (scoped e) = true.
Proof.
  destruct it as [s|n|]; cbn [parse_derive source_item parses_item without_pub_self]; intros H S P Q; [| |discriminate].
  - cbv zeta in H. destruct (context_new _ _ _ _ _) as [cx| |] eqn:E; try discriminate. cbn [bind] in H. destruct (parse_struct _ _) as [g| |] eqn:EP; try discriminate. cbn [bind] in H.
    apply ok_same in H. subst e. bandh. assert (G : good_gen (s_generics s) = true) by (apply source_as_preds; assumption). assert (GP : good_params (g_params (s_generics s)) = true) by (unfold good_gen in G; bandh; assumption).
    assert (C : good_cx cx).
    { eapply context_good; [exact E| | |]; cbn [replace_struct s_vis s_ident s_generics]; [|assumption|apply go_gen; assumption].
      apply go_vis; [assumption|]. apply negb_true_iff. assumption. }
    apply tokens_good; [exact C|]. eapply struct_good; [exact C| |exact EP]. cbn [replace_struct s_fields]. apply go_fields; try assumption. apply sound_of; assumption.
  - cbv zeta in H. destruct (context_new _ _ _ _ _) as [cx| |] eqn:E; try discriminate. cbn [bind] in H. destruct (parse_enum _ _) as [g| |] eqn:EP; try discriminate. cbn [bind] in H.
    apply ok_same in H. subst e. bandh. assert (G : good_gen (e_generics n) = true) by (apply source_as_preds; assumption). assert (GP : good_params (g_params (e_generics n)) = true) by (unfold good_gen in G; bandh; assumption).
    assert (C : good_cx cx).
    { eapply context_good; [exact E| | |]; cbn [replace_enum e_vis e_ident e_generics]; [|assumption|apply go_gen; assumption].
      apply go_vis; [assumption|]. apply negb_true_iff. assumption. }
    apply tokens_good; [exact C|]. eapply enum_good; [exact C| |exact EP]. cbn [replace_enum e_variants].
    match goal with X : forallb (fun v => name_ok _ && _) _ = true |- _ => rename X into SV end.
    match goal with X : forallb (fun v => parses_fields _) _ = true |- _ => rename X into PV end.
    match goal with X : forallb (fun v => forallb _ _) _ = true |- _ => rename X into QV end.
    rewrite forallb_forall in PV, QV. revert SV. apply fa_map. intros v Hv X. specialize (PV v Hv). specialize (QV v Hv). cbv beta in *. bandh.
    unfold sound_variant. cbn [replace_variant v_ident v_fields]. band; [assumption|]. apply go_fields; try assumption. apply sound_of; assumption.
Qed.
Lemma marked_good l ms : forallb good_oitem l = true -> forallb good_marks ms = true -> forallb good_marked (combine l ms) = true.
Proof.
  rewrite !forallb_forall. intros L M [o mk] H. unfold good_marked. cbn [fst snd]. rewrite (L o), (M mk); [reflexivity| |].
  - eapply in_combine_r; exact H.
  - eapply in_combine_l; exact H.
Qed.
Lemma marks_good a k : forallb good_marks (exposed_marks a k) = true /\ forallb good_marks (scoped_marks a k) = true.
Proof. destruct a as [p pr r u d], k, p, pr, r, u, d; split; vm_compute; reflexivity. Qed.
Lemma output_reads it e : parse_derive_marked it = Ok e -> source_item it = true -> parses_item it = true -> without_pub_self it = true ->
  gives_output (print_expansion e) (shown_output e).
Proof.
  intros H S P Q. apply output_back. unfold parse_derive_marked in H. destruct it as [s|n|]; [| |discriminate].
  - destruct (parse_derive (ItStruct s)) as [x| |] eqn:E; try discriminate. cbn [bind] in H. destruct (parse_args _) as [a| |]; try discriminate. cbn [bind] in H.
    apply ok_same in H. subst e. destruct (derive_good _ _ E S P Q) as [A B]. destruct (marks_good a KStruct) as [M1 M2].
    unfold good_output. cbn [me_exposed me_const me_scoped]. rewrite !marked_good by assumption. reflexivity.
  - destruct (parse_derive (ItEnum n)) as [x| |] eqn:E; try discriminate. cbn [bind] in H. destruct (parse_args _) as [a| |]; try discriminate. cbn [bind] in H.
    apply ok_same in H. subst e. destruct (derive_good _ _ E S P Q) as [A B]. destruct (marks_good a KEnum) as [M1 M2].
    unfold good_output. cbn [me_exposed me_const me_scoped]. rewrite !marked_good by assumption. reflexivity.
Qed.

Lemma output_unique ts o o' : gives_output ts o -> gives_output ts o' -> o = o'.
Proof. intros [n H] [n' H']. specialize (H (n + n') ltac:(lia)). specialize (H' (n + n') ltac:(lia)). congruence. Qed.
(** F7: [#[pin_project(project = P)] pub(self) struct S { f: u8 }] *)
Lemma pub_self_unread : exists it e, parse_derive_marked it = Ok e /\ source_item it = true /\ parses_item it = true /\
  forall o, ~ gives_output (print_expansion e) o.
Proof.
  exists (ItStruct (mkStruct [ModelAttribute.pin_attr [TIdent (I "project"); TPunct "=" false; TIdent (I "P")]] (VRestricted false [I "self"]) (I "S") (mkGenerics [] None)
    (FNamed [mkField [] VInherited (Some (I "f")) (ty_ident (I "u8"))]))).
  eexists. split; [vm_compute; reflexivity|]. split; [reflexivity|]. split; [reflexivity|].
  intros o [n H]. specialize (H (30 + n) ltac:(lia)). revert H. match goal with |- ?a = _ -> _ => assert (G : a = None) by (vm_compute; reflexivity) end.
  rewrite G. discriminate.
Qed.
