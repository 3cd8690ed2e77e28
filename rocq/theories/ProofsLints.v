(** Proofs for C58. *)
From Coq Require Import String List Bool.
From Verif Require Import Base Syntax ModelArgs ModelUtils ModelDerive ModelLints.
From Verif Require Import SpecArgs SpecDerive SpecExpand SpecRun SpecLints ProofsArgs ProofsDerive ProofsExpand ProofsTypes.
Import ListNotations.
Open Scope string_scope.
Open Scope list_scope.

Lemma combine_fst {A B} (l : list A) (l' : list B) : length l = length l' -> map fst (combine l l') = l.
Proof.
  revert l'. induction l as [|x l IH]; intros [|y l']; try discriminate; [reflexivity|].
  cbn. intros E. injection E as E. rewrite (IH _ E). reflexivity.
Qed.
Lemma exposed_struct_len cx fs a : cx_args cx = a ->
  length (exposed (struct_out cx fs)) = length (exposed_marks a KStruct).
Proof. intros E. unfold struct_out. rewrite E. cases_options a; reflexivity. Qed.
Lemma scoped_struct_len cx fs a : cx_args cx = a ->
  length (scoped (struct_out cx fs)) = length (scoped_marks a KStruct).
Proof. intros E. unfold struct_out, make_unpin_impl, make_drop_impl. rewrite E. cases_options a; reflexivity. Qed.
Lemma exposed_enum_len cx vs a : cx_args cx = a ->
  length (exposed (enum_out cx vs)) = length (exposed_marks a KEnum).
Proof. intros E. unfold enum_out. rewrite E. cases_options a; reflexivity. Qed.
Lemma scoped_enum_len cx vs a : cx_args cx = a ->
  length (scoped (enum_out cx vs)) = length (scoped_marks a KEnum).
Proof. intros E. unfold enum_out, make_unpin_impl, make_drop_impl. rewrite E. cases_options a; reflexivity. Qed.

(** The output of the derive together with its attributes. *)
Lemma marked_form it me : parse_derive_marked it = Ok me ->
  exists e a, parse_derive it = Ok e /\ options (attrs_of it) a /\
    me = mkMarked (combine (exposed e) (exposed_marks a (kind_of it))) const_attrs (combine (scoped e) (scoped_marks a (kind_of it))) /\
    length (exposed e) = length (exposed_marks a (kind_of it)) /\ length (scoped e) = length (scoped_marks a (kind_of it)).
Proof.
  intros H. destruct it as [s|n|]; cbn [parse_derive_marked] in H; [| |discriminate H].
  - apply bind_ok in H. destruct H as (e & He & H). apply bind_ok in H. destruct H as (a & Ha & H). injection H as <-.
    exists e, a. pose proof He as Hd. apply parse_args_iff in Ha. apply derive_form in He.
    destruct He as [(s' & a' & E & _ & Ho & ->)|(n & a' & E & _)]; [|discriminate E]. injection E as <-.
    assert (a' = a) as -> by (eapply options_unique; eassumption).
    split; [exact Hd|]. split; [exact Ha|]. split; [reflexivity|]. split; [apply exposed_struct_len|apply scoped_struct_len]; reflexivity.
  - apply bind_ok in H. destruct H as (e & He & H). apply bind_ok in H. destruct H as (a & Ha & H). injection H as <-.
    exists e, a. pose proof He as Hd. apply parse_args_iff in Ha. apply derive_form in He.
    destruct He as [(s' & a' & E & _)|(n' & a' & E & _ & Ho & ->)]; [discriminate E|]. injection E as <-.
    assert (a' = a) as -> by (eapply options_unique; eassumption).
    split; [exact Hd|]. split; [exact Ha|]. split; [reflexivity|]. split; [apply exposed_enum_len|apply scoped_enum_len]; reflexivity.
Qed.

(** ** Levels *)
Lemma mentions_iff l x : mentions l x = true <-> In x l.
Proof.
  unfold mentions. rewrite existsb_exists. split.
  - intros (y & Hy & E). destruct (list_eq_dec string_dec x y); [subst; exact Hy|discriminate E].
  - intros H. exists x. split; [exact H|]. destruct (list_eq_dec string_dec x x); [reflexivity|contradiction].
Qed.
Lemma enter_allow lv l x : lv x <> Forbid -> forbids l x = false -> allows l x = true -> enter lv l x = Allow.
Proof. intros H1 H2 H3. unfold enter. rewrite H2, H3. destruct (lv x); try reflexivity. contradiction. Qed.
Lemma enter_allowed lv l x : lv x = Allow -> forbids l x = false -> enter lv l x = Allow.
Proof. intros H1 H2. unfold enter. rewrite H1, H2. destruct (allows l x); reflexivity. Qed.
Lemma enter_keep lv l x : forbids l x = false -> allows l x = false -> enter lv l x = lv x.
Proof. intros H1 H2. unfold enter. rewrite H1, H2. destruct (lv x); reflexivity. Qed.
Lemma enter_forbid lv l x : forbids l x = true -> enter lv l x = Forbid.
Proof. intros H. unfold enter. rewrite H. destruct (lv x); reflexivity. Qed.
Lemma enter_forbidden lv l x : enter lv l x = Forbid -> lv x = Forbid \/ forbids l x = true.
Proof. unfold enter. destruct (lv x); auto; destruct (forbids l x); auto; destruct (allows l x); discriminate. Qed.

(** ** What the attributes are, by computation for every choice of options *)
Definition all_exposed (p : marks -> bool) : Prop := forall a k, forallb p (exposed_marks a k) = true.
Definition all_scoped (p : marks -> bool) : Prop := forall a k, forallb p (scoped_marks a k) = true.
Definition quiet (l : list lint) (x : list gattr) : bool := forallb (fun y => negb (forbids x y)) l.
Definition loud (l : list lint) (x : list gattr) : bool := forallb (allows x) l.
Definition only_allow (l : list lint) (x : list gattr) : bool :=
  forallb (fun a => match a with AAllow m => forallb (mentions l) m | _ => true end) x.
Definition only_forbid (l : list lint) (x : list gattr) : bool :=
  forallb (fun a => match a with AForbid m => forallb (mentions l) m | _ => true end) x.
Ltac all_marks := intros a k; destruct k; cases_options a; vm_compute; reflexivity.
Lemma exposed_loud : all_exposed (fun m => loud everywhere (mk_item m)). Proof. all_marks. Qed.
Lemma exposed_quiet : all_exposed (fun m => only_forbid [] (mk_item m) && only_forbid [] (mk_method m)). Proof. all_marks. Qed.
Lemma scoped_quiet : all_scoped (fun m => only_forbid packed_lints (mk_item m) && only_forbid [] (mk_method m)). Proof. all_marks. Qed.
Lemma exposed_only : all_exposed (fun m => only_allow lowered (mk_item m) && only_allow lowered (mk_method m)). Proof. all_marks. Qed.
Lemma scoped_only : all_scoped (fun m => only_allow lowered (mk_item m) && only_allow lowered (mk_method m)). Proof. all_marks. Qed.
Lemma const_loud : loud (everywhere ++ inside_const) const_attrs = true. Proof. reflexivity. Qed.
Lemma const_quiet x : forbids const_attrs x = false. Proof. reflexivity. Qed.
Lemma const_only : only_allow lowered const_attrs = true. Proof. reflexivity. Qed.

Lemma loud_in l as_ x : loud l as_ = true -> In x l -> allows as_ x = true.
Proof. intros H Hx. unfold loud in H. rewrite forallb_forall in H. exact (H x Hx). Qed.
Lemma only_forbid_out l as_ x : only_forbid l as_ = true -> ~ In x l -> forbids as_ x = false.
Proof.
  intros H Hx. apply not_true_iff_false. intros E. apply existsb_exists in E. destruct E as (a & Ha & E).
  unfold only_forbid in H. rewrite forallb_forall in H. specialize (H a Ha). destruct a; try discriminate E.
  rewrite forallb_forall in H. apply mentions_iff in E. specialize (H x E). apply mentions_iff in H. exact (Hx H).
Qed.
Lemma only_allow_out l as_ x : only_allow l as_ = true -> allows as_ x = true -> In x l.
Proof.
  intros H E. apply existsb_exists in E. destruct E as (a & Ha & E).
  unfold only_allow in H. rewrite forallb_forall in H. specialize (H a Ha). destruct a; try discriminate E.
  rewrite forallb_forall in H. apply mentions_iff in E. apply mentions_iff. exact (H x E).
Qed.
Lemma exposed_in p a k (o : oitem * marks) : all_exposed p -> forall l, In o (combine l (exposed_marks a k)) -> p (snd o) = true.
Proof.
  intros H l Hin. destruct o as [o m]. apply in_combine_r in Hin. specialize (H a k). rewrite forallb_forall in H. exact (H m Hin).
Qed.
Lemma scoped_in p a k (o : oitem * marks) : all_scoped p -> forall l, In o (combine l (scoped_marks a k)) -> p (snd o) = true.
Proof.
  intros H l Hin. destruct o as [o m]. apply in_combine_r in Hin. specialize (H a k). rewrite forallb_forall in H. exact (H m Hin).
Qed.
Lemma apart_lints x : In x lowered -> ~ In x packed_lints.
Proof.
  intros H H'. assert (E : forallb (fun y => negb (mentions packed_lints y)) lowered = true) by reflexivity.
  rewrite forallb_forall in E. specialize (E x H). apply mentions_iff in H'. rewrite H' in E. discriminate E.
Qed.
Lemma everywhere_lowered x : In x (everywhere ++ inside_const) -> In x lowered.
Proof.
  intros H. unfold lowered. apply in_app_or in H. rewrite !in_app_iff. tauto.
Qed.

(** ** C58 *)
Lemma c58_complete it e : parse_derive it = Ok e ->
  exists me, parse_derive_marked it = Ok me /\ map fst (me_exposed me) = exposed e /\ map fst (me_scoped me) = scoped e.
Proof.
  intros H. assert (Hm : exists me, parse_derive_marked it = Ok me).
  { pose proof H as H'. apply derive_form in H'. destruct H' as [(s & a & -> & _ & Ho & _)|(n & a & -> & _ & Ho & _)];
      cbn [parse_derive_marked]; rewrite H; cbn [bind]; apply parse_args_iff in Ho; rewrite Ho; cbn [bind]; eauto. }
  destruct Hm as (me & Hm). exists me. split; [exact Hm|]. apply marked_form in Hm.
  destruct Hm as (e' & a & He & _ & -> & L1 & L2). rewrite H in He. injection He as <-. cbn [me_exposed me_scoped].
  split; apply combine_fst; assumption.
Qed.
Lemma c58_silent it me lv o lv' x : parse_derive_marked it = Ok me -> In (o, lv') (places lv me) ->
  In x everywhere -> lv x <> Forbid -> lv' x = Allow.
Proof.
  intros H Hin Hx Hl. apply marked_form in H. destruct H as (e & a & _ & _ & -> & _). unfold places in Hin.
  cbn [me_exposed me_const me_scoped] in Hin.
  assert (Hp : ~ In x packed_lints) by (apply apart_lints, everywhere_lowered, in_or_app; left; exact Hx).
  apply in_app_or in Hin. destruct Hin as [Hin|Hin]; apply in_map_iff in Hin; destruct Hin as (p & E & Hin); injection E as <- <-.
  - pose proof (exposed_in _ _ _ _ exposed_loud _ Hin) as H1. pose proof (exposed_in _ _ _ _ exposed_quiet _ Hin) as H2.
    apply andb_prop in H2. apply enter_allow; [exact Hl|eapply only_forbid_out; [first [exact (proj1 H2)|exact (proj2 H2)]|intros []]|]. exact (loud_in _ _ _ H1 Hx).
  - pose proof (scoped_in _ _ _ _ scoped_quiet _ Hin) as H2. apply andb_prop in H2.
    apply enter_allowed; [|eapply only_forbid_out; [first [exact (proj1 H2)|exact (proj2 H2)]|exact Hp]].
    apply enter_allow; [exact Hl|apply const_quiet|]. apply (loud_in _ _ _ const_loud). apply in_or_app. left. exact Hx.
Qed.
Lemma c58_others it me lv x : parse_derive_marked it = Ok me -> ~ In x lowered -> ~ In x packed_lints ->
  (forall o lv', In (o, lv') (places lv me) -> lv' x = lv x) /\
  (forall im lv', In (im, lv') (method_places lv me) -> lv' x = lv x).
Proof.
  intros H Hx Hp. apply marked_form in H. destruct H as (e & a & _ & _ & -> & _).
  assert (Hc : enter lv const_attrs x = lv x).
  { apply enter_keep; [apply const_quiet|]. apply not_true_iff_false. intros E. apply Hx. exact (only_allow_out _ _ _ const_only E). }
  assert (He : forall l (p : oitem * marks) lv0, In p (combine l (exposed_marks a (kind_of it))) ->
    enter lv0 (mk_item (snd p)) x = lv0 x /\ enter lv0 (mk_method (snd p)) x = lv0 x).
  { intros l p lv0 Hin. pose proof (exposed_in _ _ _ _ exposed_quiet _ Hin) as H2. pose proof (exposed_in _ _ _ _ exposed_only _ Hin) as H3.
    apply andb_prop in H2. apply andb_prop in H3.
    split; (apply enter_keep; [eapply only_forbid_out; [first [exact (proj1 H2)|exact (proj2 H2)]|intros []]|]; apply not_true_iff_false; intros E; apply Hx;
      first [exact (only_allow_out _ _ _ (proj1 H3) E)|exact (only_allow_out _ _ _ (proj2 H3) E)]). }
  assert (Hs : forall l (p : oitem * marks) lv0, In p (combine l (scoped_marks a (kind_of it))) ->
    enter lv0 (mk_item (snd p)) x = lv0 x /\ enter lv0 (mk_method (snd p)) x = lv0 x).
  { intros l p lv0 Hin. pose proof (scoped_in _ _ _ _ scoped_quiet _ Hin) as H2. pose proof (scoped_in _ _ _ _ scoped_only _ Hin) as H3.
    apply andb_prop in H2. apply andb_prop in H3.
    split; (apply enter_keep; [eapply only_forbid_out; [first [exact (proj1 H2)|exact (proj2 H2)]|first [exact Hp|intros []]]|]; apply not_true_iff_false; intros E; apply Hx;
      first [exact (only_allow_out _ _ _ (proj1 H3) E)|exact (only_allow_out _ _ _ (proj2 H3) E)]). }
  split.
  - intros o lv' Hin. unfold places in Hin. cbn [me_exposed me_const me_scoped] in Hin.
    apply in_app_or in Hin. destruct Hin as [Hin|Hin]; apply in_map_iff in Hin; destruct Hin as (p & E & Hin); injection E as <- <-.
    + apply (He _ _ lv Hin).
    + rewrite (proj1 (Hs _ _ (enter lv const_attrs) Hin)). exact Hc.
  - intros im lv' Hin. unfold method_places in Hin. cbn [me_exposed me_const me_scoped] in Hin.
    apply in_app_or in Hin. destruct Hin as [Hin|Hin]; apply in_flat_map in Hin; destruct Hin as (p & Hin & E); unfold methods_at in E;
      destruct (fst p); try (destruct E; fail); destruct E as [E|[]]; injection E as <- <-.
    + rewrite (proj2 (He _ _ (enter lv (mk_item (snd p))) Hin)). apply (He _ _ lv Hin).
    + rewrite (proj2 (Hs _ _ (enter (enter lv const_attrs) (mk_item (snd p))) Hin)).
      rewrite (proj1 (Hs _ _ (enter lv const_attrs) Hin)). exact Hc.
Qed.
Lemma c58_refused it me lv : parse_derive_marked it = Ok me -> (forall x, In x lowered -> lv x <> Forbid) -> ~ refused lv me.
Proof.
  intros H Hl. apply marked_form in H. destruct H as (e & a & _ & _ & -> & _).
  assert (Hc : forall lv0 as_ l, only_allow lowered as_ = true -> only_forbid l as_ = true -> (forall x, In x l -> ~ In x lowered) ->
    (forall x, In x lowered -> lv0 x <> Forbid) -> ~ contradicts lv0 as_ /\ (forall x, In x lowered -> enter lv0 as_ x <> Forbid)).
  { intros lv0 as_ l H1 H2 Hd H0. split.
    - intros (x & E & F). apply (H0 x); [exact (only_allow_out _ _ _ H1 F)|exact E].
    - intros x Hx E. apply enter_forbidden in E. destruct E as [E|E]; [exact (H0 x Hx E)|].
      rewrite (only_forbid_out _ _ _ H2) in E; [discriminate E|]. intros Hin. exact (Hd x Hin Hx). }
  assert (Hn : forall x, In x [] -> ~ In x lowered) by (intros x []).
  assert (Hp : forall x, In x packed_lints -> ~ In x lowered) by (intros x H1 H2; exact (apart_lints x H2 H1)).
  assert (Hcc : only_forbid [] const_attrs = true) by reflexivity.
  destruct (Hc lv const_attrs [] const_only Hcc Hn Hl) as [C1 C2].
  intros [(p & Hin & HR)|[HR|(p & Hin & HR)]]; cbn [me_exposed me_const me_scoped] in *.
  - pose proof (exposed_in _ _ _ _ exposed_quiet _ Hin) as H2. pose proof (exposed_in _ _ _ _ exposed_only _ Hin) as H3.
    apply andb_prop in H2. apply andb_prop in H3.
    destruct (Hc lv (mk_item (snd p)) [] (proj1 H3) (proj1 H2) Hn Hl) as [D1 D2].
    destruct HR as [HR|HR]; [exact (D1 HR)|]. exact (proj1 (Hc _ _ [] (proj2 H3) (proj2 H2) Hn D2) HR).
  - exact (C1 HR).
  - pose proof (scoped_in _ _ _ _ scoped_quiet _ Hin) as H2. pose proof (scoped_in _ _ _ _ scoped_only _ Hin) as H3.
    apply andb_prop in H2. apply andb_prop in H3.
    destruct (Hc _ (mk_item (snd p)) packed_lints (proj1 H3) (proj1 H2) Hp C2) as [D1 D2].
    destruct HR as [HR|HR]; [exact (D1 HR)|]. exact (proj1 (Hc _ _ [] (proj2 H3) (proj2 H2) Hn D2) HR).
Qed.
Lemma c58_forbidden it me lv x : parse_derive_marked it = Ok me -> In x (everywhere ++ inside_const) -> lv x = Forbid -> refused lv me.
Proof.
  intros H Hx E. apply marked_form in H. destruct H as (e & a & _ & _ & -> & _). right. left. exists x. split; [exact E|].
  exact (loud_in _ _ _ const_loud Hx).
Qed.
(** Which marks stand on which items. *)
Definition right_marks (p : oitem * marks) : Prop :=
  match fst p with
  | OAssert _ _ _ => loud [] (mk_item (snd p)) = true /\ forall x, In x packed_lints -> forbids (mk_item (snd p)) x = true
  | OImpl im => only_forbid [] (mk_item (snd p)) = true /\ (i_trait im = None -> allows (mk_method (snd p)) ["dead_code"] = true)
  | _ => only_forbid [] (mk_item (snd p)) = true
  end.
Ltac right_item Hs := hnf; solve
  [ reflexivity
  | split; [reflexivity|let E := fresh in intros E; first [discriminate E|reflexivity]]
  | split; [reflexivity|exact Hs] ].
Lemma right_all it me p : parse_derive_marked it = Ok me -> In p (me_exposed me ++ me_scoped me) -> right_marks p.
Proof.
  intros H. assert (Hs : forall x, In x packed_lints -> forbids [AForbid [["unaligned_references"]; ["safe_packed_borrows"]]] x = true)
    by (intros x [<-|[<-|[]]]; reflexivity).
  apply marked_form in H. destruct H as (e & a & He & Ho & -> & _). apply derive_form in He. cbn [me_exposed me_scoped].
  assert (HF : Forall right_marks (combine (exposed e) (exposed_marks a (kind_of it))) /\
               Forall right_marks (combine (scoped e) (scoped_marks a (kind_of it)))).
  { destruct He as [(s & a' & -> & _ & Ho' & ->)|(n & a' & -> & _ & Ho' & ->)]; cbn [attrs_of] in Ho;
      rewrite <- (options_unique _ _ _ Ho Ho'); clear Ho Ho' a'; cbn [kind_of];
      [set (cx := struct_cx a (spelled_struct s)); assert (E : cx_args cx = a) by reflexivity; clearbody cx;
       generalize (s_fields (spelled_struct s)); unfold struct_out
      |set (cx := enum_cx a (spelled_enum n)); assert (E : cx_args cx = a) by reflexivity; clearbody cx;
       generalize (e_variants (spelled_enum n)); unfold enum_out];
      unfold make_unpin_impl, make_drop_impl; rewrite !E; clear E; intros fs;
      cases_options a; (split; repeat first [apply Forall_nil|apply Forall_cons; [right_item Hs|]]). }
  intros Hin. apply in_app_or in Hin. destruct HF as [H1 H2]. rewrite Forall_forall in H1, H2. destruct Hin as [Hin|Hin]; auto.
Qed.
Lemma c58_packed it me lv o lv' x : parse_derive_marked it = Ok me -> In (o, lv') (places lv me) -> In x packed_lints ->
  match o with OAssert _ _ _ => lv' x = Forbid | _ => lv' x = lv x end.
Proof.
  intros H Hin Hx. assert (Hr := fun p => right_all it me p H).
  assert (Hlow : ~ In x lowered) by (intros Hl; exact (apart_lints x Hl Hx)).
  apply marked_form in H. destruct H as (e & a & _ & _ & -> & _). unfold places in Hin. cbn [me_exposed me_const me_scoped] in *.
  assert (Hc : enter lv const_attrs x = lv x).
  { apply enter_keep; [apply const_quiet|]. apply not_true_iff_false. intros E. apply Hlow. exact (only_allow_out _ _ _ const_only E). }
  assert (Hout : forall lv0 l, only_forbid [] l = true -> only_allow lowered l = true -> enter lv0 l x = lv0 x).
  { intros lv0 l E1 E2. apply enter_keep; [exact (only_forbid_out _ _ _ E1 (fun z => z))|]. apply not_true_iff_false. intros E. apply Hlow.
    exact (only_allow_out _ _ _ E2 E). }
  apply in_app_or in Hin. destruct Hin as [Hin|Hin]; apply in_map_iff in Hin; destruct Hin as (p & E & Hin); injection E as <- <-.
  - pose proof (Hr p (in_or_app _ _ _ (or_introl Hin))) as R. pose proof (exposed_in _ _ _ _ exposed_only _ Hin) as H3. apply andb_prop in H3.
    unfold right_marks in R. destruct (fst p); try (apply Hout; [first [exact R|exact (proj1 R)]|exact (proj1 H3)]).
    apply enter_forbid, R, Hx.
  - pose proof (Hr p (in_or_app _ _ _ (or_intror Hin))) as R. pose proof (scoped_in _ _ _ _ scoped_only _ Hin) as H3. apply andb_prop in H3.
    unfold right_marks in R. destruct (fst p); try (rewrite Hout; [exact Hc|first [exact R|exact (proj1 R)]|exact (proj1 H3)]).
    apply enter_forbid, R, Hx.
Qed.
Lemma c58_methods it me lv im lv' : parse_derive_marked it = Ok me -> In (im, lv') (method_places lv me) -> i_trait im = None ->
  lv ["dead_code"] <> Forbid -> lv' ["dead_code"] = Allow.
Proof.
  intros H Hin Ht Hl. assert (Hr := fun p => right_all it me p H).
  apply marked_form in H. destruct H as (e & a & _ & _ & -> & _). unfold method_places in Hin. cbn [me_exposed me_const me_scoped] in *.
  assert (Hstep : forall lv0 l, lv0 ["dead_code"] <> Forbid -> only_forbid [] l = true -> enter lv0 l ["dead_code"] <> Forbid).
  { intros lv0 l H0 H1 E. apply enter_forbidden in E. destruct E as [E|E]; [exact (H0 E)|].
    rewrite (only_forbid_out _ _ _ H1 (fun z => z)) in E. discriminate E. }
  apply in_app_or in Hin. destruct Hin as [Hin|Hin]; apply in_flat_map in Hin; destruct Hin as (p & Hin & E); unfold methods_at in E;
    destruct (fst p) eqn:Ep; try (destruct E; fail); destruct E as [E|[]]; injection E as <- <-.
  - pose proof (Hr p (in_or_app _ _ _ (or_introl Hin))) as R. unfold right_marks in R. rewrite Ep in R.
    pose proof (exposed_in _ _ _ _ exposed_quiet _ Hin) as H2. apply andb_prop in H2.
    apply enter_allow; [apply Hstep; [exact Hl|apply R]|exact (only_forbid_out _ _ _ (proj2 H2) (fun z => z))|exact (proj2 R Ht)].
  - pose proof (Hr p (in_or_app _ _ _ (or_intror Hin))) as R. unfold right_marks in R. rewrite Ep in R.
    pose proof (scoped_in _ _ _ _ scoped_quiet _ Hin) as H2. apply andb_prop in H2.
    apply enter_allow; [apply Hstep; [apply Hstep; [exact Hl|reflexivity]|apply R]|exact (only_forbid_out _ _ _ (proj2 H2) (fun z => z))|exact (proj2 R Ht)].
Qed.
(** The projected types. *)
Lemma c58_projected it me a k lv : parse_derive_marked it = Ok me -> options (attrs_of it) a -> has_proj k it a = true ->
  exists o lv', In (o, lv') (places lv me) /\ type_named o (proj_name k a (name_of it)) /\
    forall x, In x (of_projected k (kind_of it)) -> lv x <> Forbid -> lv' x = Allow.
Proof.
  intros H Ha Hk. apply marked_form in H. destruct H as (e & a' & He & Ho & -> & _).
  assert (a' = a) as -> by (eapply options_unique; eassumption). clear Ho.
  assert (Hg : exists o m, (In (o, m) (combine (exposed e) (exposed_marks a (kind_of it))) \/
                            In (o, m) (combine (scoped e) (scoped_marks a (kind_of it)))) /\
    type_named o (proj_name k a (name_of it)) /\ only_forbid [] (mk_item m) = true /\ loud (of_projected k (kind_of it)) (mk_item m) = true).
  { apply derive_form in He. destruct He as [(s & a' & -> & _ & Ho & ->)|(n & a' & -> & Hok & Ho & ->)]; cbn [attrs_of] in Ha;
      assert (a' = a) as -> by (eapply options_unique; eassumption); clear Ho; cbn [kind_of has_proj] in *.
    - cbn [has_proj] in Hk.
      exists (struct_kind k (struct_cx a (spelled_struct s)) (s_fields (spelled_struct s))).
      exists (plain match k with PMut => proj_mut_attrs a | PRef => proj_ref_attrs a | POwn => proj_own_attrs a KStruct end).
      split; [|split; [cases_options a; destruct k; reflexivity|cases_options a; destruct k; split; reflexivity]].
      unfold struct_out. change (cx_args (struct_cx a (spelled_struct s))) with a. clear Ha.
      cases_options a; destruct k; try discriminate Hk; cbn [is_some exposed scoped when app negb pr_span pr_ident andb ar_project ar_project_ref
        ar_project_replace exposed_marks scoped_marks hidden_marks combine struct_kind In]; tauto.
    - cbn [has_proj] in Hk.
      exists (enum_kind k (enum_cx a (spelled_enum n)) (e_variants (spelled_enum n))).
      exists (plain match k with PMut => proj_mut_attrs a | PRef => proj_ref_attrs a | POwn => proj_own_attrs a KEnum end).
      split; [|split; [cases_options a; destruct k; reflexivity|cases_options a; destruct k; split; reflexivity]].
      unfold enum_out. change (cx_args (enum_cx a (spelled_enum n))) with a. clear Ha.
      cases_options a; destruct k; try discriminate Hk; cbn [is_some exposed scoped when app negb pr_span pr_ident andb ar_project ar_project_ref
        ar_project_replace exposed_marks scoped_marks hidden_marks combine enum_kind In]; tauto. }
  destruct Hg as (o & m & Hin & Hn & Hf & Hloud). unfold places. cbn [me_exposed me_const me_scoped].
  destruct Hin as [Hin|Hin].
  - exists o, (enter lv (mk_item m)). split; [|split; [exact Hn|]].
    + apply in_or_app. left. apply in_map_iff. exists (o, m). auto.
    + intros x Hx Hl. apply enter_allow; [exact Hl|exact (only_forbid_out _ _ _ Hf (fun z => z))|exact (loud_in _ _ _ Hloud Hx)].
  - exists o, (enter (enter lv const_attrs) (mk_item m)). split; [|split; [exact Hn|]].
    + apply in_or_app. right. apply in_map_iff. exists (o, m). auto.
    + intros x Hx Hl. apply enter_allow; [|exact (only_forbid_out _ _ _ Hf (fun z => z))|exact (loud_in _ _ _ Hloud Hx)].
      intros E. apply enter_forbidden in E. destruct E as [E|E]; [exact (Hl E)|discriminate E].
Qed.
