(** Lemmas about the interpreter: names, destructors, patterns, literals. *)
From Coq Require Import String Ascii List Bool Arith Lia.
From Coq Require Import DecimalString DecimalNat.
From Verif Require Import Base Syntax ModelArgs ModelUtils ModelDerive ModelRun.
From Verif Require Import SpecArgs SpecDerive SpecExpand SpecRun.
From Verif Require Import ProofsArgs ProofsDerive.
Import ListNotations.
Open Scope string_scope.
Open Scope list_scope.

(** ** Names *)
Lemma same_name_iff i j : same_name i j = true <-> name i = name j.
Proof. apply String.eqb_eq. Qed.
Lemma same_name_refl i : same_name i i = true. Proof. apply same_name_iff. reflexivity. Qed.
Lemma same_name_false i j : same_name i j = false <-> name i <> name j.
Proof. apply String.eqb_neq. Qed.
Lemma same_name_sym i j : same_name i j = same_name j i. Proof. apply String.eqb_sym. Qed.
Lemma has_name_iff i l : has_name i l = true <-> In (name i) (map name l).
Proof.
  unfold has_name. rewrite existsb_exists, in_map_iff. split.
  - intros (j & Hj & E). apply same_name_iff in E. exists j. auto.
  - intros (j & E & Hj). exists j. split; [exact Hj|]. apply same_name_iff. auto.
Qed.
Lemma has_name_false i l : has_name i l = false <-> ~ In (name i) (map name l).
Proof. rewrite <- has_name_iff. destruct (has_name i l); split; congruence. Qed.
Lemma nodup_names_iff l : nodup_names l = true <-> NoDup (map name l).
Proof.
  induction l as [|x l IH]; cbn [nodup_names map].
  - split; [constructor|reflexivity].
  - rewrite andb_true_iff, negb_true_iff, has_name_false, IH. split.
    + intros [H1 H2]. constructor; assumption.
    + intros H. inversion H; subst. auto.
Qed.

Lemma string_of_nat_inj a b : string_of_nat a = string_of_nat b -> a = b.
Proof.
  unfold string_of_nat. intros H.
  assert (Nat.to_uint a = Nat.to_uint b) as E.
  { assert (Some (Nat.to_uint a) = Some (Nat.to_uint b)) as E; [|injection E; auto].
    rewrite <- (NilEmpty.usu (Nat.to_uint a)), <- (NilEmpty.usu (Nat.to_uint b)), H. reflexivity. }
  rewrite <- (Unsigned.of_to a), <- (Unsigned.of_to b), E. reflexivity.
Qed.

(** ** Numbered lists *)
Lemma enum_from_combine {A} (l : list A) : forall k, enum_from k l = combine (seq k (length l)) l.
Proof. induction l as [|x l IH]; intros k; cbn; [reflexivity|f_equal; apply IH]. Qed.
Lemma numbered_enum {A} (l : list A) : numbered l = enum_from 0 l.
Proof. symmetry. apply enum_from_combine. Qed.
Lemma enum_from_length {A} (l : list A) k : length (enum_from k l) = length l.
Proof. revert k. induction l as [|x l IH]; intros k; cbn; [reflexivity|f_equal; apply IH]. Qed.
Lemma enum_from_nth {A} (l : list A) : forall k i, nth_error (enum_from k l) i = option_map (fun x => (k + i, x)) (nth_error l i).
Proof.
  induction l as [|x l IH]; intros k [|i]; cbn; try reflexivity.
  - rewrite Nat.add_0_r. reflexivity.
  - rewrite IH. rewrite <- plus_n_Sm. reflexivity.
Qed.
Lemma enum_from_in {A} (l : list A) k i x : In (i, x) (enum_from k l) <-> k <= i /\ nth_error l (i - k) = Some x.
Proof.
  split.
  - intros H. apply In_nth_error in H. destruct H as (n & H). rewrite enum_from_nth in H.
    destruct (nth_error l n) as [y|] eqn:E; [|discriminate]. injection H as <- <-.
    split; [lia|]. replace (k + n - k) with n by lia. exact E.
  - intros [H1 H2]. apply nth_error_In with (n := i - k). rewrite enum_from_nth, H2. cbn. f_equal. f_equal. lia.
Qed.
Lemma enum_from_map {A B} (f : A -> B) l : forall k, enum_from k (map f l) = map (fun nx => (fst nx, f (snd nx))) (enum_from k l).
Proof. induction l as [|x l IH]; intros k; cbn; [reflexivity|f_equal; apply IH]. Qed.

Lemma nodup_app_l {A} (l1 l2 : list A) : NoDup (l1 ++ l2) -> NoDup l1.
Proof. induction l1 as [|x l1 IH]; intros H; [constructor|]. inversion H; subst. constructor; [|auto].
  intros Hx. apply H2. apply in_or_app. auto. Qed.
Lemma nodup_app_r {A} (l1 l2 : list A) : NoDup (l1 ++ l2) -> NoDup l2.
Proof. induction l1 as [|x l1 IH]; intros H; [exact H|]. inversion H; subst. auto. Qed.
Lemma nodup_app_disj {A} (l1 l2 : list A) x : NoDup (l1 ++ l2) -> In x l1 -> ~ In x l2.
Proof.
  induction l1 as [|y l1 IH]; intros H Hx; [destruct Hx|]. inversion H; subst.
  destruct Hx as [->|Hx]; [|apply IH; assumption]. intros H'. apply H2. apply in_or_app. auto.
Qed.

(** ** Declarations *)
Lemma declares_introduces o : declares o = introduces o.
Proof. destruct o; reflexivity. Qed.
Lemma flat_declares l : flat_map declares l = flat_map introduces l.
Proof. apply flat_map_ext. exact declares_introduces. Qed.
Lemma declaring_none n l : ~ In (name n) (map name (flat_map declares l)) -> declaring n l = [].
Proof.
  intros H. unfold declaring. apply filter_nil_iff. intros o Ho. apply has_name_false. intros E. apply H.
  apply in_map_iff in E. destruct E as (j & E & Hj). apply in_map_iff. exists j. split; [exact E|].
  apply in_flat_map. eauto.
Qed.
Lemma declaring_one n l o : NoDup (map name (flat_map declares l)) -> In o l -> In (name n) (map name (declares o)) ->
  declaring n l = [o].
Proof.
  intros Hn Ho Hd. apply in_split in Ho. destruct Ho as (l1 & l2 & ->).
  rewrite flat_map_app, map_app in Hn. cbn [flat_map] in Hn. rewrite map_app in Hn.
  unfold declaring. rewrite filter_app. cbn [filter].
  assert (has_name n (declares o) = true) as -> by (apply has_name_iff; exact Hd).
  fold (declaring n l1) (declaring n l2). rewrite !declaring_none; [reflexivity| |].
  - intros H. apply nodup_app_r in Hn. exact (nodup_app_disj _ _ _ Hn Hd H).
  - intros H. apply (nodup_app_disj _ _ _ Hn H). apply in_or_app. left. exact Hd.
Qed.

(** Everything resolves as intended. *)
Record scope_ok (w : world) : Prop := {
  so_names : NoDup (map name (item_ident (w_item w) :: generic_names (item_generics (w_item w)) ++
                     flat_map declares (exposed (w_exp w)) ++ flat_map declares (scoped (w_exp w))));
  so_crate : In (OExternCrate (I "pin_project") (I "_pin_project")) (scoped (w_exp w))
}.
Section Scope.
  Context (w : world) (Hw : scope_ok w).
  Let Hn := so_names w Hw.

  Lemma so_tail : NoDup (map name (generic_names (item_generics (w_item w)) ++
                     flat_map declares (exposed (w_exp w)) ++ flat_map declares (scoped (w_exp w)))).
  Proof. cbn [map] in Hn. inversion Hn; assumption. Qed.
  Lemma so_items : NoDup (map name (flat_map declares (exposed (w_exp w))) ++ map name (flat_map declares (scoped (w_exp w)))).
  Proof. pose proof so_tail as H. rewrite map_app in H. apply nodup_app_r in H. rewrite map_app in H. exact H. Qed.
  Lemma so_generic n o : In o (exposed (w_exp w) ++ scoped (w_exp w)) -> In (name n) (map name (declares o)) ->
    has_name n (generic_names (item_generics (w_item w))) = false.
  Proof.
    intros Ho Hd. apply has_name_false. intros H. pose proof so_tail as N. rewrite map_app in N.
    apply (nodup_app_disj _ _ _ N H). rewrite map_app. rewrite in_app_iff in Ho.
    apply in_map_iff in Hd. destruct Hd as (j & E & Hj). rewrite <- E.
    apply in_or_app. destruct Ho as [Ho|Ho]; [left|right]; apply in_map; apply in_flat_map; eauto.
  Qed.
  Lemma resolve_scoped n o : In o (scoped (w_exp w)) -> In (name n) (map name (declares o)) -> resolve w n = Some o.
  Proof.
    intros Ho Hd. unfold resolve. rewrite (so_generic n o); [|apply in_or_app; auto|exact Hd].
    rewrite (declaring_one n (scoped (w_exp w)) o); [reflexivity| |exact Ho|exact Hd].
    eapply nodup_app_r. exact so_items.
  Qed.
  Lemma resolve_exposed n o : In o (exposed (w_exp w)) -> In (name n) (map name (declares o)) -> resolve w n = Some o.
  Proof.
    intros Ho Hd. unfold resolve. rewrite (so_generic n o); [|apply in_or_app; auto|exact Hd].
    rewrite declaring_none.
    - rewrite (declaring_one n (exposed (w_exp w)) o); [reflexivity| |exact Ho|exact Hd].
      eapply nodup_app_l. exact so_items.
    - eapply nodup_app_disj; [exact so_items|].
      apply in_map_iff in Hd. destruct Hd as (j & E & Hj). rewrite <- E. apply in_map. apply in_flat_map. eauto.
  Qed.
  Lemma resolve_ok n o : In o (exposed (w_exp w) ++ scoped (w_exp w)) -> In (name n) (map name (declares o)) ->
    resolve w n = Some o.
  Proof. intros Ho. apply in_app_or in Ho. destruct Ho; [apply resolve_exposed|apply resolve_scoped]; assumption. Qed.
  Lemma support_pp l : support_path w (pp l) = Some l.
  Proof.
    unfold pp. cbn [map support_path].
    assert (ident_is (I "_pin_project") "_pin_project" = true) as -> by reflexivity.
    rewrite (resolve_scoped (I "_pin_project") _ (so_crate w Hw)); [|left; reflexivity].
    assert (ident_is (I "pin_project") "pin_project" = true) as -> by reflexivity.
    rewrite map_map. cbn [name I]. rewrite map_id. reflexivity.
  Qed.
  Lemma self_is_ok : self_ok w = true.
  Proof.
    unfold self_ok. cbn [map] in Hn. inversion Hn as [|x l Hx Hl]; subst.
    rewrite map_app in Hx.
    assert (has_name (item_ident (w_item w)) (generic_names (item_generics (w_item w))) = false) as ->.
    { apply has_name_false. intros H. apply Hx. apply in_or_app. auto. }
    rewrite declaring_none; [reflexivity|]. rewrite flat_map_app.
    intros H. apply Hx. apply in_or_app. auto.
  Qed.
End Scope.

(** ** Variables *)
Lemma get_move_other x y e : same_name x y = false -> get_var x (move_var y e) = get_var x e.
Proof.
  intros H. induction e as [|[z v] e IH]; cbn [move_var get_var]; [reflexivity|].
  destruct (same_name y z) eqn:E; cbn [get_var].
  - destruct (same_name x z) eqn:E2; [|reflexivity].
    apply same_name_iff in E, E2. apply same_name_false in H. congruence.
  - destruct (same_name x z); [reflexivity|exact IH].
Qed.
Lemma get_app_left x e1 e2 v : In (name x) (map name (map fst e1)) -> get_var x e1 = v -> get_var x (e1 ++ e2) = v.
Proof.
  induction e1 as [|[y u] e1 IH]; cbn [map app get_var]; [intros []|]. intros H E.
  destruct (same_name x y) eqn:E2; [exact E|]. apply IH; [|exact E].
  destruct H as [H|H]; [|exact H]. cbn in H. apply same_name_false in E2. congruence.
Qed.

(** Values whose destructor does nothing. *)
Definition inert_rv (v : rv) : Prop :=
  match v with RRef _ _ | RPin _ _ | RPtr _ | RPhantom | RUnit => True | _ => False end.
Definition inert (e : env) : Prop := forall x v, In (x, Some v) e -> inert_rv v.
Lemma drop_inert_rv w ud v s : inert_rv v -> drop_rv w ud v s = s.
Proof. destruct v; cbn; intros H; try reflexivity; contradiction. Qed.
Lemma drop_inert w ud e s : inert e -> drop_env w ud e s = s.
Proof.
  revert s. induction e as [|[x [v|]] e IH]; intros s H; cbn [drop_env]; [reflexivity| |].
  - rewrite drop_inert_rv by (apply (H x); left; reflexivity). apply IH. intros y u Hu. apply (H y). right; exact Hu.
  - apply IH. intros y u Hu. apply (H y). right; exact Hu.
Qed.
Lemma inert_app e1 e2 : inert e1 -> inert e2 -> inert (e1 ++ e2).
Proof. intros H1 H2 x v H. apply in_app_or in H. destruct H; [eapply H1|eapply H2]; eassumption. Qed.
Lemma inert_move x e : inert e -> inert (move_var x e).
Proof.
  induction e as [|[y v] e IH]; intros H; cbn [move_var]; [exact H|].
  destruct (same_name x y); intros z u Hu.
  - destruct Hu as [Hu|Hu]; [discriminate|]. apply (H z). right; exact Hu.
  - destruct Hu as [Hu|Hu]; [apply (H z); left; exact Hu|].
    apply (IH (fun z u Hz => H z u (or_intror Hz)) z). exact Hu.
Qed.
Lemma drop_env_app w ud e1 e2 s : drop_env w ud (e1 ++ e2) s = drop_env w ud e2 (drop_env w ud e1 s).
Proof. revert s. induction e1 as [|[x [v|]] e1 IH]; intros s; cbn [app drop_env]; auto. Qed.

(** ** Field patterns *)
Definition binds (m : bool) (k : nat) (l : list field) : env :=
  map (fun nf => (binding nf, Some (RRef m (PlField (fst nf))))) (enum_from k l).
Lemma binds_inert m k l : inert (binds m k l).
Proof. intros x v H. apply in_map_iff in H. destruct H as ([n f] & H & _). injection H as _ <-. exact Coq.Init.Logic.I. Qed.

(** The names of the variables differ. *)
Definition vars_differ (l : list field) : Prop := NoDup (map name (map binding (enum_from 0 l))).

Lemma named_some l : (forall f, In f l -> f_ident f <> None) -> forall k,
  map (fun f => option_map name (f_ident f)) l = map Some (map name (map binding (enum_from k l))).
Proof.
  intros H. induction l as [|f l IH]; intros k; cbn [map enum_from]; [reflexivity|].
  f_equal.
  - unfold binding. cbn [snd fst]. destruct (f_ident f) as [i|] eqn:E; [reflexivity|].
    elim (H f (or_introl eq_refl)). exact E.
  - apply IH. intros g Hg. apply H. right; exact Hg.
Qed.
Lemma NoDup_map_some {A} (l : list A) : NoDup (map Some l) -> NoDup l.
Proof. apply NoDup_map_inv. Qed.
Lemma tuple_vars l : (forall f, In f l -> f_ident f = None) -> forall k,
  map binding (enum_from k l) = map id_binding (seq k (length l)).
Proof.
  intros H. induction l as [|f l IH]; intros k; cbn [map enum_from seq length]; [reflexivity|].
  f_equal.
  - unfold binding. cbn [snd fst]. rewrite (H f (or_introl eq_refl)). reflexivity.
  - apply IH. intros g Hg. apply H. right; exact Hg.
Qed.
Lemma id_binding_inj a b : name (id_binding a) = name (id_binding b) -> a = b.
Proof. cbn. intros H. injection H as H. apply string_of_nat_inj. exact H. Qed.
Lemma NoDup_map_inj {A B} (f : A -> B) l : (forall x y, f x = f y -> x = y) -> NoDup l -> NoDup (map f l).
Proof.
  intros Hf H. induction H as [|x l Hx H IH]; cbn; constructor; [|exact IH].
  intros E. apply in_map_iff in E. destruct E as (y & E & Hy). apply Hf in E. subst. contradiction.
Qed.
Lemma legal_vars fs : fields_legal fs -> vars_differ (fields_list fs).
Proof.
  unfold vars_differ. destruct fs as [l|l|]; cbn [fields_legal fields_list].
  - intros [H1 H2]. rewrite (named_some l H1 0) in H2. apply NoDup_map_some in H2. exact H2.
  - intros H. rewrite (tuple_vars l H), map_map. apply NoDup_map_inj; [exact id_binding_inj|apply seq_NoDup].
  - intros _. constructor.
Qed.

Lemma index_of_skip b l : forall k, (forall f i, In f l -> f_ident f = Some i -> name i <> name b) -> index_of b k l = None.
Proof.
  induction l as [|f l IH]; intros k H; cbn [index_of]; [reflexivity|].
  destruct (f_ident f) as [i|] eqn:E.
  - assert (same_name b i = false) as -> by (apply same_name_false; intros X; apply (H f i); [left; reflexivity|exact E|auto]).
    apply IH. intros g j Hg. apply H. right; exact Hg.
  - apply IH. intros g j Hg. apply H. right; exact Hg.
Qed.
Lemma index_of_nth b l : forall k n f, NoDup (map (fun f => option_map name (f_ident f)) l) ->
  nth_error l n = Some f -> f_ident f = Some b -> index_of b k l = Some (k + n).
Proof.
  induction l as [|g l IH]; intros k n f Hn Hl Hf; [destruct n; discriminate|].
  cbn [index_of map] in *. inversion Hn as [|x y Hx Hy]; subst. destruct n as [|n]; cbn in Hl.
  - injection Hl as ->. rewrite Hf, same_name_refl. f_equal. lia.
  - assert (H : index_of b (S k) l = Some (k + S n)) by (rewrite (IH (S k) n f Hy Hl Hf); f_equal; lia).
    destruct (f_ident g) as [i|] eqn:E; [|exact H].
    destruct (same_name b i) eqn:E2; [|exact H]. exfalso. apply Hx.
    apply same_name_iff in E2. cbn [option_map]. rewrite <- E2.
    apply in_map_iff. exists f. split; [rewrite Hf; reflexivity|]. eapply nth_error_In; exact Hl.
Qed.
Lemma all_some_map {A B} (f : A -> option B) (g : A -> B) l : (forall x, In x l -> f x = Some (g x)) ->
  all_some (map f l) = Some (map g l).
Proof.
  intros H. induction l as [|x l IH]; cbn [map all_some]; [reflexivity|].
  rewrite (H x (or_introl eq_refl)). rewrite IH; [reflexivity|]. intros y Hy. apply H. right; exact Hy.
Qed.

Lemma bind_fields_ok w fs m : fields_legal fs ->
  (forall nf, In nf (enum_from 0 (fields_list fs)) -> w_consts w (binding nf) = false) ->
  bind_fields w fs (fields_delim fs) (map binding (enum_from 0 (fields_list fs))) m = Some (binds m 0 (fields_list fs)).
Proof.
  intros Hl Hc. unfold bind_fields. rewrite map_length, enum_from_length, Nat.eqb_refl.
  pose proof (legal_vars fs Hl) as Hv. unfold vars_differ in Hv. apply nodup_names_iff in Hv. rewrite Hv. cbn [andb negb orb].
  assert (existsb (w_consts w) (map binding (enum_from 0 (fields_list fs))) = false) as ->.
  { destruct (existsb _ _) eqn:E; [|reflexivity]. apply existsb_exists in E. destruct E as (b & Hb & E).
    apply in_map_iff in Hb. destruct Hb as (nf & <- & Hnf). rewrite (Hc nf Hnf) in E. discriminate. }
  destruct fs as [l|l|]; cbn [fields_delim fields_list]; [| |reflexivity].
  - destruct Hl as [H1 H2]. rewrite map_map. unfold binds. apply all_some_map. intros [n f] Hin.
    apply enum_from_in in Hin. destruct Hin as [_ Hin]. rewrite Nat.sub_0_r in Hin.
    unfold binding. cbn [snd fst]. destruct (f_ident f) as [i|] eqn:E; [|elim (H1 f); [eapply nth_error_In; exact Hin|exact E]].
    cbn [opt_or]. rewrite (index_of_nth i l 0 n f H2 Hin E). reflexivity.
  - f_equal. unfold enumerate, binds. rewrite enum_from_map.
    assert (H : forall k, map (fun ib : nat * ident => (snd ib, Some (RRef m (PlField (fst ib)))))
              (map (fun nx => (fst nx, binding (snd nx))) (enum_from k (enum_from k l))) =
              map (fun nf => (binding nf, Some (RRef m (PlField (fst nf))))) (enum_from k l)); [|apply H].
    clear. intros k. revert k. induction l as [|f l IH]; intros k; cbn [enum_from map fst snd]; [reflexivity|].
    f_equal. apply IH.
Qed.
(** Patterns only look at the names of the fields. *)
Lemma index_of_replace b self l : forall k, index_of b k (map (replace_field self) l) = index_of b k l.
Proof.
  induction l as [|f l IH]; intros k; cbn [map index_of replace_field f_ident]; [reflexivity|].
  rewrite IH. reflexivity.
Qed.
Lemma bind_fields_replace w self fs d bs m : bind_fields w (replace_fields self fs) d bs m = bind_fields w fs d bs m.
Proof.
  unfold bind_fields. rewrite fields_list_replace, map_length.
  destruct (_ || _); [reflexivity|]. destruct d as [[]|], fs; cbn [replace_fields]; try reflexivity.
  f_equal. apply map_ext. intros b. rewrite index_of_replace. reflexivity.
Qed.
Lemma legal_replace self fs : fields_legal fs -> fields_legal (replace_fields self fs).
Proof.
  destruct fs as [l|l|]; cbn [replace_fields fields_legal]; [| |auto].
  - intros [H1 H2]. split.
    + intros f Hf. apply in_map_iff in Hf. destruct Hf as (g & <- & Hg). apply (H1 g Hg).
    + rewrite map_map. exact H2.
  - intros H f Hf. apply in_map_iff in Hf. destruct Hf as (g & <- & Hg). apply (H g Hg).
Qed.
Lemma binding_replace self l : forall k,
  map binding (enum_from k (map (replace_field self) l)) = map binding (enum_from k l).
Proof. intros k. rewrite enum_from_map, map_map. reflexivity. Qed.
Lemma is_pinned_pin_b f : is_pinned f = pin_b f.
Proof.
  unfold is_pinned, pin_b. induction (f_attrs f) as [|x l IH]; cbn [existsb]; [reflexivity|]. rewrite IH. f_equal.
  unfold attr_is, path_is_ident. destruct (a_lead x); cbn [negb andb]; [reflexivity|].
  destruct (a_path x) as [|i [|j r]]; try reflexivity.
Qed.
