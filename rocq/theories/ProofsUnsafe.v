(** No code of the user gets into an unsafe context. *)
From Coq Require Import String List Bool.
From Verif Require Import Base Syntax BodyInd ModelArgs ModelUtils ModelDerive ModelPinnedDrop.
From Verif Require Import SpecArgs SpecDerive SpecExpand SpecPinnedDrop SpecMeaning SpecUnsafe.
From Verif Require Import ProofsArgs ProofsUtils ProofsDerive ProofsExpand ProofsTypes ProofsDecl ProofsPinnedDrop.
Import ListNotations.
Open Scope string_scope.
Open Scope list_scope.

Lemma flat_map_same {A B} (f : A -> list B) (g : A -> A) l :
  Forall (fun x => f (g x) = f x) l -> flat_map f (map g l) = flat_map f l.
Proof. induction 1 as [|x l H _ IH]; [reflexivity|]. cbn. rewrite H, IH. reflexivity. Qed.

Section Replace.
  Variable self : type_path.
  Lemma contexts_replace :
    (forall e u, contexts u (replace_bexpr self e) = contexts u e) /\
    (forall s u, contexts_stmt u (replace_bstmt self s) = contexts_stmt u s).
  Proof.
    assert (HL : forall l u, Forall (fun e => forall u, contexts u (replace_bexpr self e) = contexts u e) l ->
      flat_map (contexts u) (map (replace_bexpr self) l) = flat_map (contexts u) l).
    { intros l u H. apply flat_map_same. eapply Forall_impl; [|exact H]. intros e He. apply He. }
    apply body_ind.
    - intros q p u. cbn [replace_bexpr]. destruct (replace_qpath self q p). reflexivity.
    - reflexivity.
    - intros f l Hf Hl u. cbn. rewrite Hf, HL by exact Hl. reflexivity.
    - intros f m t l Hf Hl u. cbn. rewrite Hf, HL by exact Hl. reflexivity.
    - intros e i H u. cbn. rewrite H. reflexivity.
    - intros p fs b Hf Hb u. cbn. f_equal. f_equal.
      + induction Hf as [|x l H _ IH]; [reflexivity|]. cbn. rewrite H, IH. reflexivity.
      + destruct b; [|reflexivity]. apply Hb.
    - intros o e H u. cbn. rewrite H. reflexivity.
    - intros o a b Ha Hb u. cbn. rewrite Ha, Hb. reflexivity.
    - intros e t H u. cbn. rewrite H. reflexivity.
    - intros l H u. cbn. f_equal. apply (flat_map_same (contexts_stmt u) (replace_bstmt self)).
      eapply Forall_impl; [|exact H]. intros s Hs. apply Hs.
    - intros e arms H Ha u. cbn. rewrite H. f_equal. f_equal.
      induction Ha as [|x l Hx _ IH]; [reflexivity|]. cbn. rewrite Hx, IH. reflexivity.
    - intros ps e H u. cbn. rewrite H. reflexivity.
    - reflexivity.
    - intros p t e H u. cbn. destruct e; [apply H|reflexivity].
    - intros e H u. cbn. apply H.
    - reflexivity.
    - reflexivity.
    - reflexivity.
  Qed.
End Replace.

Lemma c51_destructor args im im' m : pinned_drop_attribute args im = Ok (PdImpl im') -> im_items im = [IIFn m] ->
  exists m', im_items im' = [IIFn m'] /\ fs_unsafe (mt_sig m) = false /\
    contexts_method m' = contexts_method m ++ [("call", true); ("path", true); ("path", true)].
Proof.
  intros H Hm. apply pinned_drop_ok in H. destruct H as (m0 & q & p & neg & (_ & Hh & Hi & Ho & Hd) & Hs & (tp & Ht) & ->).
  rewrite Hm in Hi. injection Hi as <-.
  destruct Ho as [Hn Hu _ _]. exists (outer_method (mkTypePath q p) (im_generics im) m).
  split; [reflexivity|]. split; [exact Hu|].
  unfold contexts_method. cbn [outer_method mt_sig mt_block outer_sig fs_unsafe flat_map].
  f_equal. cbn [drop_inner contexts_stmt replace_block map flat_map replace_sig inner_sig fs_unsafe dummy_fn replace_bstmt app].
  rewrite Hu. apply flat_map_same. apply Forall_forall. intros s _. apply contexts_replace.
Qed.

(** ** Generated bodies *)
Definition plain (b : body) : Prop := forall t, In t (types_body b) -> t = TyPtr true ty_self.
Lemma guards_plain l : flat_map types_stmt (map guard_stmt l) = [].
Proof. induction l; [reflexivity|exact IHl]. Qed.
Lemma prologue_plain b : types_body b = [] -> plain (add_prologue replace_prologue b).
Proof.
  intros H t. destruct b as [ss tl|ss sc arms]; cbn [add_prologue types_body] in *.
  - rewrite flat_map_app, H, app_nil_r. intros [<-|[]]. reflexivity.
  - rewrite flat_map_app. apply app_eq_nil in H. destruct H as [H1 H2]. rewrite H1, H2, !app_nil_r. intros [<-|[]]. reflexivity.
Qed.
Lemma proj_impl_plain cx b1 b2 b3 im m : types_body b1 = [] -> types_body b2 = [] -> types_body b3 = [] ->
  make_proj_impl cx b1 b2 b3 = OImpl im -> In m (i_methods im) -> plain (m_body m).
Proof.
  intros H1 H2 H3 E Hm. unfold make_proj_impl in E. injection E as <-. cbn [i_methods] in Hm.
  apply in_app_or in Hm. destruct Hm as [Hm|Hm].
  { destruct (_ && _); [destruct Hm|]. destruct Hm as [<-|[]]. unfold plain. cbn. rewrite H1. intros t []. }
  apply in_app_or in Hm. destruct Hm as [Hm|Hm].
  { destruct (_ && _); [destruct Hm|]. destruct Hm as [<-|[]]. unfold plain. cbn. rewrite H2. intros t []. }
  destruct (pr_span _); [|destruct Hm]. destruct (_ && _); [destruct Hm|]. destruct Hm as [<-|[]].
  apply prologue_plain. exact H3.
Qed.
Lemma own_plain own fs : flat_map types_stmt (own_stmts own fs) = [].
Proof. unfold own_stmts. cbn. rewrite guards_plain. reflexivity. Qed.
Lemma unpin_no_methods cx l im m : In (OImpl im) (make_unpin_impl cx l) -> ~ In m (i_methods im).
Proof.
  unfold make_unpin_impl. intros H. destruct (ar_unpin (cx_args cx)).
  - destruct H as [H|[H|[H|[]]]]; try discriminate H; injection H as <-; intros [].
  - destruct H as [H|[]]; injection H as <-; intros [].
  - destruct H as [H|[H|[]]]; injection H as <-; intros [].
Qed.
Lemma drop_plain cx im m : In (OImpl im) (make_drop_impl cx) -> In m (i_methods im) -> types_body (m_body m) = [].
Proof.
  unfold make_drop_impl. intros H. destruct (ar_pinned_drop (cx_args cx)).
  - destruct H as [H|[]]. injection H as <-. intros [<-|[]]. reflexivity.
  - destruct H as [H|[H|[H|[H|[]]]]]; try discriminate H; injection H as <-; cbn; intros Hm; try (destruct Hm; fail).
    destruct Hm as [<-|[]]. reflexivity.
Qed.

(** ** The generated items, one by one *)
Definition struct_impl (cx : context) (fs : fields) : oitem :=
  make_proj_impl cx (struct_body "get_unchecked_mut" (cx_mut_ident cx) fs)
    (struct_body "get_ref" (cx_ref_ident cx) fs) (struct_body_own (cx_own_ident cx) fs).
Definition enum_impl (cx : context) (vs : list variant) : oitem :=
  make_proj_impl cx (enum_body "get_unchecked_mut" (cx_mut_ident cx) vs)
    (enum_body "get_ref" (cx_ref_ident cx) vs) (enum_body_own (cx_own_ident cx) vs).
Lemma in_when {A} (b : bool) (x y : A) : In x (when b [y]) -> b = true /\ x = y.
Proof. destruct b; cbn; [intros [<-|[]]; auto|intros []]. Qed.
Lemma struct_scoped cx fs o : In o (scoped (struct_out cx fs)) ->
  o = OExternCrate (I "pin_project") (I "_pin_project") \/ (exists k, o = struct_kind k cx fs) \/ o = struct_impl cx fs \/
  o = assert_item cx fs \/ In o (make_unpin_impl cx (map f_ty (filter pin_b (fields_list fs)))) \/ In o (make_drop_impl cx).
Proof.
  unfold struct_out. cbn [scoped]. intros [<-|H]; [left; reflexivity|].
  rewrite !in_app_iff in H. destruct H as [[H|[H|[H|[<-|[<-|[]]]]]]|[H|H]]; try (apply in_when in H; destruct H as [_ ->]); auto 10.
  - right. left. exists PMut. reflexivity.
  - right. left. exists PRef. reflexivity.
  - right. left. exists POwn. reflexivity.
Qed.
Lemma struct_exposed cx fs o : In o (exposed (struct_out cx fs)) -> exists k, o = struct_kind k cx fs.
Proof.
  unfold struct_out. cbn [exposed]. intros H. rewrite !in_app_iff in H.
  destruct H as [H|[H|H]]; apply in_when in H; destruct H as [_ ->]; [exists PMut|exists PRef|exists POwn]; reflexivity.
Qed.
Lemma enum_scoped cx vs o : In o (scoped (enum_out cx vs)) ->
  o = OExternCrate (I "pin_project") (I "_pin_project") \/ o = enum_impl cx vs \/
  In o (make_unpin_impl cx (flat_map (fun v => pinned_tys (fields_list (v_fields v))) vs)) \/ In o (make_drop_impl cx).
Proof.
  unfold enum_out. cbn [scoped]. intros [<-|H]; [left; reflexivity|].
  rewrite !in_app_iff in H. destruct H as [[<-|[]]|[H|H]]; auto 10.
Qed.
Lemma enum_exposed cx vs o : In o (exposed (enum_out cx vs)) -> exists k, o = enum_kind k cx vs.
Proof.
  unfold enum_out. cbn [exposed]. intros H. rewrite !in_app_iff in H.
  destruct H as [H|[H|H]]; apply in_when in H; destruct H as [_ ->]; [exists PMut|exists PRef|exists POwn]; reflexivity.
Qed.

Lemma derive_form it e : parse_derive it = Ok e ->
  (exists s a, it = ItStruct s /\ accepts_struct s a /\ e = struct_out (struct_cx a (spelled_struct s)) (s_fields (spelled_struct s))) \/
  (exists n a, it = ItEnum n /\ accepts_enum n a /\ e = enum_out (enum_cx a (spelled_enum n)) (e_variants (spelled_enum n))).
Proof.
  intros H. destruct it as [s|n|]; [| |discriminate].
  - apply parse_derive_struct in H. destruct H as (a & Ha & ->). left. eauto.
  - apply parse_derive_enum in H. destruct H as (a & Ha & ->). right. eauto.
Qed.

Lemma c51_derive it e im m t : parse_derive it = Ok e -> In (OImpl im) (all_items e) -> In m (i_methods im) ->
  In t (types_body (m_body m)) -> t = TyPtr true ty_self.
Proof.
  intros H Hin Hm. apply derive_form in H. revert t. apply in_app_or in Hin.
  destruct H as [(s & a & _ & _ & ->)|(n & a & _ & _ & ->)].
  - destruct Hin as [Hin|Hin].
    + apply struct_exposed in Hin. destruct Hin as [[] Hin]; discriminate Hin.
    + apply struct_scoped in Hin. destruct Hin as [Hin|[[k Hin]|[Hin|[Hin|[Hin|Hin]]]]]; try discriminate Hin.
      * destruct k; discriminate Hin.
      * symmetry in Hin. eapply proj_impl_plain; [..|exact Hin|exact Hm]; try reflexivity.
        cbn. rewrite guards_plain. reflexivity.
      * elim (unpin_no_methods _ _ _ _ Hin Hm).
      * intros t. rewrite (drop_plain _ _ _ Hin Hm). intros [].
  - destruct Hin as [Hin|Hin].
    + apply enum_exposed in Hin. destruct Hin as [[] Hin]; discriminate Hin.
    + apply enum_scoped in Hin. destruct Hin as [Hin|[Hin|[Hin|Hin]]]; try discriminate Hin.
      * assert (HA : forall (f : variant -> arm) vs, (forall v, flat_map types_stmt (arm_stmts (f v)) = []) ->
          flat_map (fun a => flat_map types_stmt (arm_stmts a)) (map f vs) = []).
        { intros f vs Hf. induction vs as [|v vs IH]; [reflexivity|]. cbn. rewrite Hf, IH. reflexivity. }
        symmetry in Hin. eapply proj_impl_plain; [..|exact Hin|exact Hm]; cbn [types_body enum_body enum_body_own flat_map app]; apply HA;
          try reflexivity. intros v. apply (own_plain [cx_own_ident (enum_cx a (spelled_enum n)); v_ident v]).
      * elim (unpin_no_methods _ _ _ _ Hin Hm).
      * intros t. rewrite (drop_plain _ _ _ Hin Hm). intros [].
Qed.
