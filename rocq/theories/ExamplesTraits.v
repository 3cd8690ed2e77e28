(** Concrete programs for the properties about traits. *)
From Coq Require Import String Ascii List Bool.
From Verif Require Import Base Syntax ModelArgs ModelUtils ModelAttribute ModelDerive ModelMeaning ModelTraits.
From Verif Require Import SpecArgs SpecDerive SpecLifetime SpecExpand SpecRun SpecMeaning SpecTraits.
From Verif Require Import ProofsArgs ProofsUtils ProofsDerive ProofsExpand ProofsVis ProofsMeaning ProofsTraitsForm ProofsTraitsEnv ProofsTraits ProofsTraitsProps Examples.
Import ListNotations.
Open Scope string_scope.
Open Scope list_scope.

(** ** A universe of types: terms, with the support crate's alias and
    associated type evaluated. *)
Inductive dt : Type :=
| XItem
| XGen (x : string)
| XLib (x : string)
| XUsr (x : string)
| XPrivate
| XInst (d : dt) (a : list (darg dt string))
| XSel (d : dt) (x : string) (a : list (darg dt string))
| XAbs (x : string) (a : list (darg dt string))
| XProj (d tr : dt) (x : string) (a : list (darg dt string))
| XRef (l : string) (m : bool) (d : dt)
| XPtr (m : bool) (d : dt)
| XTuple (l : list dt)
| XSlice (d : dt)
| XArray (d e : dt)
| XFn (l : list string) (a : list dt) (o : option dt)
| XDyn (l : list (dbound dt string))
| XNever
| XLit (s : string)
| XCall (d : dt) (l : list dt)
| XMacro (m : list ident) (ts : list ttree).

Definition x_inst (d : dt) (a : list (darg dt string)) : dt :=
  match d with
  | XLib n => if String.eqb n "PinnedFieldsOf" then match a with [DTy t] => t | _ => XInst d a end else XInst d a
  | _ => XInst d a
  end.
Definition x_sel (d : dt) (x : string) (a : list (darg dt string)) : dt :=
  match d with
  | XAbs c [] =>
    if String.eqb c "pin_project" then
      if String.eqb x "__private" then XPrivate
      else if String.eqb x "UnsafeUnpin" then XInst (XLib "UnsafeUnpin") a else XSel d x a
    else XSel d x a
  | XPrivate => x_inst (XLib x) a
  | _ => XSel d x a
  end.
Definition x_proj (d tr : dt) (x : string) (a : list (darg dt string)) : dt :=
  match d with
  | XInst (XLib n) [DTy t] =>
    if (String.eqb n "PinnedFieldsOfHelperStruct" && String.eqb x "Actual")%bool then t else XProj d tr x a
  | _ => XProj d tr x a
  end.
Definition terms : univ :=
  mkUniv dt string x_inst x_sel XAbs (fun x => XAbs x []) x_proj XRef XPtr XTuple XSlice XArray XFn XDyn XNever XLit XCall
    (fun _ m ts => XMacro m ts) "'_" (fun x => x).

Definition usr (s : string) : dt := XInst (XUsr s) [].
Definition phantom_pinned_ : dt := XInst (XLib "PhantomPinned") [].
(** Outside, [Foo] is the item, [PhantomPinned], [PinnedDrop], [Unpin] and so on
    are imported, everything else is the user's. *)
Definition outer_names (x : string) : head dt :=
  if String.eqb x "Foo" then HDef XItem
  else if existsb (String.eqb x) lib_names then HDef (XLib x) else HDef (XUsr x).
Definition outer_env : env dt string := mkEnv outer_names (fun x => x).
(** [Sized]: all types but slices, trait objects and the item when one of its
    fields is none. *)
Definition core_sized : dt := XSel (XSel (XAbs "core" []) "marker" []) "Sized" [].
Definition bare (t : dt) : bool := match t with XSlice _ | XDyn _ | XInst XItem _ => false | _ => true end.
Definition field_at (it : item) (s : string -> dt) (l : string -> string) (f : field) : dt :=
  den_ty (U := terms) (with_params (U := terms) (g_params (generics_of it)) s l
    (with_self (U := terms) (XInst XItem (param_args (U := terms) (g_params (generics_of it)) s l)) outer_env)) (f_ty f).
Inductive x_sized (it : item) : dt -> Prop :=
| XS_bare t : bare t = true -> x_sized it t
| XS_item s l : (forall fs f, In fs (fields_of it) -> In f (fields_list fs) -> x_sized it (field_at it s l f)) ->
    x_sized it (XInst XItem (param_args (U := terms) (g_params (generics_of it)) s l)).
(** [u8] and [u16] are [Unpin]; [Tr] is implemented by [u8] and [PhantomPinned]. *)
Definition other_traits (it : item) (tr t : dt) : Prop :=
  (tr = core_sized /\ x_sized it t) \/
  (tr = XInst (XLib "Unpin") [] /\ (t = usr "u8" \/ t = usr "u16")) \/
  (tr = usr "Tr" /\ (t = usr "u8" \/ t = phantom_pinned_)).
Definition prog (it : item) (impls : list impl) : setting :=
  mkSetting terms outer_env it (match parse_derive it with Ok e => e | _ => mkExpansion [] [] end)
    XItem XGen XLib (map (fun im => (outer_env, im)) impls) (other_traits it) (fun _ _ => True) (fun _ _ => True).

Lemma terms_nominal it impls (e e' : entity) a a' : known e -> known e' ->
  x_inst (entity_def (prog it impls) e) a = x_inst (entity_def (prog it impls) e') a' -> e = e' /\ a = a'.
Proof.
  assert (X : forall e a, known e -> x_inst (entity_def (prog it impls) e) a = XInst (entity_def (prog it impls) e) a).
  { intros [|x|x] b; cbn; try reflexivity. intros H. destruct (String.eqb_spec x "PinnedFieldsOf") as [->|_]; [|reflexivity].
    exfalso. intuition discriminate. }
  intros Hk Hk' H. rewrite !X in H by assumption. injection H as H ->. split; [|reflexivity].
  destruct e, e'; cbn in H; congruence.
Qed.
Lemma terms_entity it impls (e : entity) a : known e -> x_inst (entity_def (prog it impls) e) a = XInst (entity_def (prog it impls) e) a.
Proof.
  destruct e as [|x|x]; cbn; try reflexivity. intros H. destruct (String.eqb_spec x "PinnedFieldsOf") as [->|_]; [|reflexivity].
  exfalso. intuition discriminate.
Qed.

Lemma field_at_ext it s l s' l' f :
  param_args (U := terms) (g_params (generics_of it)) s l = param_args (U := terms) (g_params (generics_of it)) s' l' ->
  field_at it s l f = field_at it s' l' f.
Proof.
  intros E. unfold field_at. destruct (param_args_inj terms _ _ _ _ _ E) as [Es El]. unfold with_params, with_self. cbn [names lts_of].
  apply (proj1 (den_agree terms (fun _ => False) _ _) (f_ty f)).
  - intros x _. destruct (existsb (String.eqb x) (param_lts (g_params (generics_of it)))) eqn:Ex; [|reflexivity].
    apply El. apply existsb_exists in Ex. destruct Ex as (y & Hy & Ey). apply String.eqb_eq in Ey. subst y. exact Hy.
  - constructor.
    + intros x _. destruct (existsb (String.eqb x) (param_names (g_params (generics_of it)))) eqn:Ex.
      * f_equal. apply Es. apply existsb_exists in Ex. destruct Ex as (y & Hy & Ey). apply String.eqb_eq in Ey. subst y. exact Hy.
      * rewrite E. reflexivity.
    + reflexivity.
    + intros x [].
Qed.
Lemma sized_other it impls t : has_size (prog it impls) t <-> x_sized it t.
Proof.
  split; [|intros H; left; split; [reflexivity|exact H]].
  intros [[_ H]|[[H _]|[H _]]]; [exact H|discriminate|discriminate].
Qed.

(** All the laws of Rust, up to what depends on the item. *)
Lemma prog_rust it impls e :
  parse_derive it = Ok e -> name (name_of it) = "Foo" -> ordered (g_params (generics_of it)) ->
  (forall im s l tr en a, In im impls -> In tr (the_traits (prog it impls)) -> known en ->
    matches (prog it impls) outer_env im s l tr (XInst (entity_def (prog it impls) en) a) -> en = EItem) ->
  rust (prog it impls).
Proof.
  intros He Hn Ho Horph. constructor.
  - cbn. rewrite He. reflexivity.
  - cbn. unfold item_name. cbn. rewrite Hn. reflexivity.
  - exact Ho.
  - intros en en' a a'. apply (terms_nominal it impls).
  - intros en l m d a Hk H. cbn in H. rewrite (terms_entity it impls) in H by exact Hk. discriminate.
  - intros x a. reflexivity.
  - reflexivity.
  - intros d. reflexivity.
  - intros d. reflexivity.
  - intros tr en a Htr Hk H. cbn [prog se_univ se_other u_inst terms] in H. rewrite (terms_entity it impls) in H by exact Hk.
    destruct H as [[-> _]|[[_ [H|H]]|[-> _]]].
    + cbn in Htr. unfold core_sized in Htr. intuition discriminate.
    + destruct en; discriminate.
    + destruct en; discriminate.
    + cbn in Htr. intuition discriminate.
  - intros E im s l tr en a Hin Htr Hk Hm. cbn [prog se_impls] in Hin. apply in_map_iff in Hin.
    destruct Hin as (im' & Eq & Hin). injection Eq as <- <-.
    cbn [prog se_univ u_inst terms] in Hm. rewrite (terms_entity it impls) in Hm by exact Hk.
    exact (Horph im' s l tr en a Hin Htr Hk Hm).
  - intros s l. rewrite sized_other. unfold sized_at. split.
    + intros H fs f Hfs Hf. apply sized_other. remember (item_at (prog it impls) s l) as t eqn:Et. destruct H as [t Hb|s' l' H].
      * subst t. discriminate.
      * assert (E : param_args (U := terms) (g_params (generics_of it)) s' l' = param_args (U := terms) (g_params (generics_of it)) s l)
          by (injection Et as E; exact E).
        specialize (H fs f Hfs Hf). rewrite (field_at_ext it s' l' s l f E) in H. exact H.
    + intros H. apply (XS_item it s l). intros fs f Hfs Hf. apply (sized_other it impls). exact (H fs f Hfs Hf).
  - intros l _. apply sized_other. apply XS_bare. reflexivity.
  - intros d. apply sized_other. apply XS_bare. reflexivity.
Qed.

(** ** The least solution of the selection rules *)
Section Least.
  Variable se : setting.
  Notation T := (D (se_univ se)).
  Definition least (tr t : T) : Prop :=
    forall h : T -> T -> Prop, (forall tr t, selected se h tr t -> h tr t) -> h tr t.

  Lemma pred_mono (h h' : T -> T -> Prop) E w : (forall tr t, h tr t -> h' tr t) -> pred_sat se h E w -> pred_sat se h' E w.
  Proof.
    intros Hh. destruct w as [lt bs|lts t bs]; cbn; [exact (fun H => H)|].
    intros H f Hf b Hb. specialize (H f Hf b Hb). destruct b as [lt|[] lts' p]; cbn in *; [exact H|exact H|].
    intros g Hg. apply Hh. exact (H g Hg).
  Qed.
  Lemma sat_mono (h h' : T -> T -> Prop) E g : (forall tr t, h tr t -> h' tr t) -> generics_sat se h E g -> generics_sat se h' E g.
  Proof. intros Hh H w Hw. exact (pred_mono h h' E w Hh (H w Hw)). Qed.
  Lemma selected_mono (h h' : T -> T -> Prop) tr t :
    (forall tr t, h tr t -> h' tr t) -> selected se h tr t -> selected se h' tr t.
  Proof.
    intros Hh [H|[[-> H]|[[-> H]|[H|H]]]].
    - left. destruct H as (E & im & s & l & Hin & Hm & Hs). exists E, im, s, l. split; [exact Hin|]. split; [exact Hm|].
      exact (sat_mono h h' _ _ Hh Hs).
    - right. left. split; [reflexivity|]. destruct H as (E & c & g & fs & s & l & Hin & -> & Hn & Hf).
      exists E, c, g, fs, s, l. split; [exact Hin|]. split; [reflexivity|]. split; [exact Hn|]. intros f Hi. apply Hh. exact (Hf f Hi).
    - right. right. left. split; [reflexivity|]. destruct H as (d & -> & H). exists d. split; [reflexivity|]. apply Hh. exact H.
    - right. right. right. left. exact H.
    - right. right. right. right. exact H.
  Qed.
  Lemma least_solution : solution se least.
  Proof.
    assert (A : forall tr t, selected se least tr t -> least tr t).
    { intros tr t H h Hh. apply Hh. apply (selected_mono least h tr t); [|exact H]. intros tr' t' H'. exact (H' h Hh). }
    intros tr t. split; [|apply A]. intros H. apply (H (selected se least)). intros tr' t' H'.
    apply (selected_mono (selected se least) least tr' t'); [exact A|exact H'].
  Qed.

  (** The overlap check that can tell everything, except behind [PinnedFieldsOf]. *)
  Definition can_tell (holds : T -> T -> Prop) (E : env T (LT (se_univ se))) (w : wpred) : Prop :=
    ~ pred_sat se holds E w /\
    ~ exists lts t bs, w = WTy lts (pinned_fields_of t) bs /\ names E "_pin_project" = HDone (crate_ se).
  Lemma can_tell_refuter (holds : T -> T -> Prop) : refuter se holds (can_tell holds).
  Proof.
    constructor.
    - intros E w [H _]. exact H.
    - intros E lts t bs Hn [_ H]. apply H. exists lts, t, bs. split; [reflexivity|exact Hn].
  Qed.
  Lemma can_tell_drop (holds : T -> T -> Prop) : refutes_drop se holds (can_tell holds).
  Proof.
    intros E i p s l Hi Hp Hn. split.
    - intros H. apply Hn. specialize (H (lts_of E) (fun x _ => eq_refl) _ (or_introl eq_refl)). cbn in H.
      specialize (H (lts_of E) (fun x _ => eq_refl)). rewrite Hp, Hi in H. exact H.
    - intros (lts & t & bs & H & _). discriminate.
  Qed.
  Lemma can_tell_sized (holds : T -> T -> Prop) : refutes_sized se holds (can_tell holds).
  Proof.
    intros E i s l Hi Hn. split.
    - intros H. apply Hn. specialize (H (lts_of E) (fun x _ => eq_refl) _ (or_introl eq_refl)). cbn in H.
      specialize (H (lts_of E) (fun x _ => eq_refl)). rewrite Hi in H. exact H.
    - intros (lts & t & bs & H & _). discriminate.
  Qed.
End Least.

(** ** Checking the conditions on names, for items without macros *)
Definition node_legal (n : node) : bool :=
  match n with
  | NPath _ _ p => negb (existsb (ident_eqb (I "self")) p)
  | NMacro _ _ | NOddSelf => false
  | _ => true
  end.
Definition node_free (hid : list string) (pin : string) (n : node) : bool :=
  match n with
  | NPath q lead p =>
    match q, lead, p with
    | Some 0, _, _ | _, true, _ | _, _, [] => true
    | _, false, i :: _ => negb (existsb (String.eqb (name i)) hid)
    end
  | NLt x => negb (String.eqb x pin)
  | _ => true
  end.
Definition binders_of (it : item) : list string :=
  flat_map (fun fs => flat_map (fun f => lts_ty (f_ty f)) (fields_list fs)) (fields_of it) ++
  flat_map (fun p => match p with PTy _ bs _ => flat_map lts_bound bs | _ => [] end) (g_params (generics_of it)) ++
  flat_map (fun w => match w with WTy lts t bs => lts ++ lts_ty t ++ flat_map lts_bound bs | _ => [] end)
    (preds (generics_of it)).
Lemma check_legal se :
  forallb node_legal (written se) = true -> item_name se <> "Self" -> ~ In "Self" (param_names (item_params se)) ->
  (forall x, In x (param_lts (item_params se)) -> ~ In x (binders_of (se_item se))) -> legal se.
Proof.
  intros Hw Hn Hp Hb. rewrite forallb_forall in Hw. constructor; [| |exact Hn|exact Hp|].
  - intros q lead p Hin l1 l2 ->. specialize (Hw _ Hin). cbn in Hw. rewrite existsb_app in Hw. cbn [existsb] in Hw.
    rewrite (ident_eqb_refl (I "self")) in Hw. cbn in Hw. rewrite orb_true_r in Hw. discriminate.
  - intros Hin. discriminate (Hw _ Hin).
  - intros lt Hlt Hbi. apply (Hb lt Hlt). clear Hb Hlt. unfold binders_of. destruct (lts_binds lt) as (HT & _ & _ & _ & _ & HB & _).
    rewrite !in_app_iff, !in_flat_map. destruct Hbi as [f (fs & Hfs & Hf & _) H|i bs d b Hi Hb H|lts t bs Hi H|lts t bs Hi H|lts t bs b Hi Hb H].
    + left. exists fs. split; [exact Hfs|]. apply in_flat_map. exists f. split; [exact Hf|]. apply HT. exact H.
    + right. left. exists (PTy i bs d). split; [exact Hi|]. apply in_flat_map. exists b. split; [exact Hb|]. apply HB. exact H.
    + right. right. exists (WTy lts t bs). split; [exact Hi|]. apply in_app_iff. left. exact H.
    + right. right. exists (WTy lts t bs). split; [exact Hi|]. apply in_app_iff. right. apply in_app_iff. left. apply HT. exact H.
    + right. right. exists (WTy lts t bs). split; [exact Hi|]. apply in_app_iff. right. apply in_app_iff. right.
      apply in_flat_map. exists b. split; [exact Hb|]. apply HB. exact H.
Qed.
Lemma check_uncaptured se :
  visible se -> forallb node_legal (written se) = true ->
  forallb (node_free (map name (flat_map introduces (scoped (se_exp se))))
    (determine_lifetime_name "'pin" (generics_of (se_item se)))) (written se) = true ->
  uncaptured se.
Proof.
  intros Hv Hl Hw. rewrite forallb_forall in Hw, Hl. constructor; [exact Hv| | | |].
  - intros x (q & i & r & Hin & Hq & <-) Hh. specialize (Hw _ Hin). cbn in Hw. unfold hidden in Hh.
    assert (X : existsb (String.eqb (name i)) (map name (flat_map introduces (scoped (se_exp se)))) = true).
    { apply existsb_exists. exists (name i). split; [exact Hh|apply String.eqb_refl]. }
    destruct q as [[|n]|]; [congruence| |]; rewrite X in Hw; discriminate.
  - intros pin Hp Hin. specialize (Hw _ Hin). unfold node_free in Hw.
    rewrite <- (pin_lifetime_unique _ _ _ Hp (pin_lifetime_det (generics_of (se_item se)))), String.eqb_refl in Hw. discriminate.
  - intros n f0 _ m ts lf Hin. discriminate (Hl _ Hin).
  - intros pin n1 n2 f g m ts _ Hin. discriminate (Hl _ Hin).
Qed.
Lemma check_visible se :
  (let h := map name (flat_map introduces (scoped (se_exp se))) in
   negb (existsb (String.eqb (item_name se)) (h ++ param_names (item_params se))) &&
   forallb (fun x => negb (existsb (String.eqb x) h)) (param_names (item_params se)))%bool = true -> visible se.
Proof.
  cbn zeta. intros H. apply andb_true_iff in H. destruct H as [H1 H2]. rewrite forallb_forall in H2.
  assert (X : forall x l, negb (existsb (String.eqb x) l) = true -> ~ In x l).
  { intros x l H Hin. apply negb_true_iff in H. rewrite <- not_true_iff_false in H. apply H. apply existsb_exists. exists x.
    split; [exact Hin|apply String.eqb_refl]. }
  apply X in H1. constructor.
  - split; intros H; apply H1; apply in_app_iff; [left|right]; exact H.
  - intros x Hx. exact (X _ _ (H2 x Hx)).
Qed.

(** ** The programs

    [#[pin_project(..)] struct Foo<'a, T> where T: Tr { #[pin] a: T, b: PhantomPinned, #[pin] c: &'a Self }] *)
Definition foo (ts : list ttree) : item :=
  ItStruct (mkStruct [pin_attr ts] VPub (I "Foo")
    (mkGenerics [PLt "'a" []; PTy (I "T") [] None] (Some [WTy [] (tid "T") [bnd "Tr"]]))
    (FNamed [mkField [pin_mark] VInherited (Some (I "a")) (tid "T");
             mkField [] VInherited (Some (I "b")) (tid "PhantomPinned");
             mkField [pin_mark] VInherited (Some (I "c")) (TyRef (Some "'a") false ty_self)])).
(** [impl<'a> tr for Foo<'a, u8>]. *)
Definition impl_u8 (tr : string) : impl :=
  mkImpl true (mkGenerics [PLt "'a" []] None) (Some (Path false [seg1 tr]))
    (TyPath None (Path false [Seg (I "Foo") (GAngle false [ALt "'a"; ATy (tid "u8")])])) [].
(** [impl<'a, T> tr for Foo<'a, T> where T: Tr]. *)
Definition impl_all (tr : string) : impl :=
  mkImpl false (mkGenerics [PLt "'a" []; PTy (I "T") [] None] (Some [WTy [] (tid "T") [bnd "Tr"]]))
    (Some (Path false [seg1 tr]))
    (TyPath None (Path false [Seg (I "Foo") (GAngle false [ALt "'a"; ATy (tid "T")])])) [].

Definition t_default : list ttree := [].
Definition t_negative : list ttree := [TPunct "!" false; TIdent (I "Unpin")].
Definition t_unsafe : list ttree := [TIdent (I "UnsafeUnpin")].
Definition t_drop : list ttree := [TIdent (I "PinnedDrop")].
Definition o_of (ts : list ttree) : args :=
  match parse_args [pin_attr ts] with Ok a => a | _ => mkArgs false UDefault None None PRNone end.
Definition modes : list (list ttree) := [t_default; t_negative; t_unsafe; t_drop].
Definition user_impls : list impl :=
  [impl_u8 "Unpin"; impl_u8 "UnsafeUnpin"; impl_all "Drop"; impl_all "PinnedDrop"].

Ltac each_mode H := cbn [modes In] in H; destruct H as [<-|[<-|[<-|[<-|[]]]]].

Lemma foo_options ts : In ts modes -> options (attrs_of (foo ts)) (o_of ts).
Proof. intros H. apply parse_args_iff. each_mode H; reflexivity. Qed.

Lemma foo_rust ts impls : In ts modes -> incl impls user_impls -> rust (prog (foo ts) impls).
Proof.
  intros H Hi. apply (prog_rust (foo ts) impls (match parse_derive (foo ts) with Ok e => e | _ => mkExpansion [] [] end)).
  - each_mode H; vm_compute; reflexivity.
  - reflexivity.
  - exists [PLt "'a" []], [PTy (I "T") [] None]. split; [reflexivity|]. split; intros p [<-|[]]; reflexivity.
  - intros im s l tr en a Hin _ _ [Hm _]. apply Hi in Hin.
    cbn [user_impls In] in Hin. destruct Hin as [<-|[<-|[<-|[<-|[]]]]]; vm_compute in Hm; injection Hm; intros;
      destruct en; cbn in *; congruence.
Qed.
Lemma foo_tr_rust : rust (prog (foo t_unsafe) [impl_u8 "UnsafeUnpin"; impl_all "Tr"]).
Proof.
  apply (prog_rust (foo t_unsafe) _ (match parse_derive (foo t_unsafe) with Ok e => e | _ => mkExpansion [] [] end)).
  - vm_compute; reflexivity.
  - reflexivity.
  - exists [PLt "'a" []], [PTy (I "T") [] None]. split; [reflexivity|]. split; intros p [<-|[]]; reflexivity.
  - intros im s l tr en a Hin _ _ [Hm _].
    destruct Hin as [<-|[<-|[]]]; vm_compute in Hm; injection Hm; intros; destruct en; cbn in *; congruence.
Qed.
Lemma foo_legal ts impls : legal (prog (foo ts) impls).
Proof.
  apply check_legal.
  - reflexivity.
  - discriminate.
  - cbn. intuition discriminate.
  - cbn. intuition.
Qed.
Lemma foo_uncaptured ts impls : In ts modes -> uncaptured (prog (foo ts) impls).
Proof.
  intros H. apply check_uncaptured.
  - apply check_visible. each_mode H; vm_compute; reflexivity.
  - reflexivity.
  - each_mode H; vm_compute; reflexivity.
Qed.

(** [T: Tr] and [T: Sized] is all that the item asks for. *)
Lemma foo_where ts impls (holds : dt -> dt -> Prop) s l :
  where_holds (prog (foo ts) impls) holds s l <-> holds (usr "Tr") (s "T") /\ holds core_sized (s "T").
Proof.
  split.
  - intros H. split.
    + specialize (H (WTy [] (tid "T") [bnd "Tr"])). cbn in H.
      exact (H (or_intror (or_intror (or_intror (or_introl eq_refl)))) _ (fun x _ => eq_refl) _ (or_introl eq_refl) _ (fun x _ => eq_refl)).
    + exact (H _ (or_intror (or_intror (or_introl eq_refl))) _ (fun x _ => eq_refl) _ (or_introl eq_refl) _ (fun x _ => eq_refl)).
  - intros [H H'] w Hw. cbn in Hw. destruct Hw as [<-|[<-|[<-|[<-|[]]]]]; cbn.
    + intros b [].
    + intros f Hf b [].
    + intros f Hf b [<-|[]] g Hg. exact H'.
    + intros f Hf b [<-|[]] g Hg. exact H.
Qed.
Lemma sized_holds it impls t : x_sized it t -> least (prog it impls) core_sized t.
Proof. intros H. apply (least_solution (prog it impls)). do 4 right. left. split; [reflexivity|exact H]. Qed.
Lemma tr_holds ts impls t : t = usr "u8" \/ t = phantom_pinned_ -> least (prog (foo ts) impls) (usr "Tr") t.
Proof. intros H. apply (least_solution (prog (foo ts) impls)). do 6 right. split; [reflexivity|exact H]. Qed.
Lemma both_hold ts impls t : t = usr "u8" \/ t = phantom_pinned_ ->
  least (prog (foo ts) impls) (usr "Tr") t /\ least (prog (foo ts) impls) core_sized t.
Proof. intros H. split; [apply tr_holds; exact H|]. apply sized_holds, XS_bare. destruct H as [->| ->]; reflexivity. Qed.

Lemma foo_headers ts impls : incl impls user_impls ->
  headers_ok (prog (foo ts) impls) (least (prog (foo ts) impls)).
Proof.
  intros Hi E im s l tr a Hin [Hm _] Hs. cbn [prog se_impls] in Hin. apply in_map_iff in Hin.
  destruct Hin as (im' & Eq & Hin). injection Eq as <- <-. apply Hi in Hin.
  assert (U8 : den_ty (header_env (prog (foo ts) impls) outer_env (i_generics (impl_u8 "Unpin")) s l) (i_self (impl_u8 "Unpin")) = XInst XItem a ->
    exists s0 l0, a = param_args (item_params (prog (foo ts) impls)) s0 l0 /\ where_holds (prog (foo ts) impls) (least (prog (foo ts) impls)) s0 l0).
  { intros X. vm_compute in X. injection X as <-. exists (fun _ => usr "u8"), l. split; [reflexivity|].
    apply foo_where. apply both_hold. left. reflexivity. }
  assert (ALL : den_ty (header_env (prog (foo ts) impls) outer_env (i_generics (impl_all "Drop")) s l) (i_self (impl_all "Drop")) = XInst XItem a ->
    generics_sat (prog (foo ts) impls) (least (prog (foo ts) impls)) (impl_env (prog (foo ts) impls) outer_env (impl_all "Drop") s l) (i_generics (impl_all "Drop")) ->
    exists s0 l0, a = param_args (item_params (prog (foo ts) impls)) s0 l0 /\ where_holds (prog (foo ts) impls) (least (prog (foo ts) impls)) s0 l0).
  { intros X Y. vm_compute in X. injection X as <-. exists s, l. split; [reflexivity|].
    apply foo_where. split.
    - specialize (Y (WTy [] (tid "T") [bnd "Tr"])).
      exact (Y (or_intror (or_intror (or_intror (or_introl eq_refl)))) _ (fun x _ => eq_refl) _ (or_introl eq_refl) _ (fun x _ => eq_refl)).
    - exact (Y _ (or_intror (or_intror (or_introl eq_refl))) _ (fun x _ => eq_refl) _ (or_introl eq_refl) _ (fun x _ => eq_refl)). }
  cbn [user_impls In] in Hin. destruct Hin as [<-|[<-|[<-|[<-|[]]]]].
  - exact (U8 Hm).
  - exact (U8 Hm).
  - exact (ALL Hm Hs).
  - exact (ALL Hm Hs).
Qed.

(** ** Programs without user impls *)
Definition gen_impls (it : item) : list impl :=
  flat_map (fun o => match o with OImpl im => [im] | _ => [] end)
    (scoped (match parse_derive it with Ok e => e | _ => mkExpansion [] [] end)).
Lemma generated_map it impls : generated_impls (prog it impls) = map (pair (inner_env (prog it impls))) (gen_impls it).
Proof.
  unfold generated_impls, impls_of, gen_impls. cbn [prog se_exp].
  induction (scoped _) as [|o r IH]; [reflexivity|]. cbn [flat_map]. rewrite map_app, <- IH. destruct o; reflexivity.
Qed.
Definition no_obligations (it : item) : bool :=
  forallb (fun im => forallb (fun m => match body_obligations (m_body m) with [] => true | _ => false end) (i_methods im)) (gen_impls it).
Lemma no_obligations_bodies it impls holds x : no_obligations it = true ->
  In x (generated_impls (prog it impls)) -> typechecks (prog it impls) holds x.
Proof.
  unfold no_obligations. rewrite generated_map, in_map_iff, forallb_forall. intros H (im & <- & Hin) s l m p Hm Hp _.
  specialize (H _ Hin). rewrite forallb_forall in H. specialize (H _ Hm). cbn [snd] in Hp.
  destruct (body_obligations (m_body m)); [destruct Hp|discriminate].
Qed.
Lemma compiles_alone it a : options (attrs_of it) a -> rust (prog it []) -> visible (prog it []) -> no_obligations it = true ->
  compiles (prog it []) (least (prog it [])) (can_tell (prog it []) (least (prog it []))).
Proof.
  intros Ha Hr Hv Hb. constructor.
  - exact Hr.
  - apply least_solution.
  - intros E im s l tr b [].
  - apply can_tell_refuter.
  - intros i j x y Hij. apply (c26_alone (prog it []) (least (prog it [])) _ a Ha Hr Hv (least_solution _) (can_tell_drop _ _)); [|exact Hij].
    intros z s l [].
  - intros x. apply no_obligations_bodies. exact Hb.
Qed.
Lemma foo_compiles ts : In ts [t_default; t_negative; t_unsafe] ->
  compiles (prog (foo ts) []) (least (prog (foo ts) [])) (can_tell (prog (foo ts) []) (least (prog (foo ts) []))).
Proof.
  intros H. assert (Hm : In ts modes) by (cbn in *; tauto). apply (compiles_alone _ _ (foo_options ts Hm)).
  - apply foo_rust; [exact Hm|intros x []].
  - apply un_visible. apply foo_uncaptured. exact Hm.
  - cbn [In] in H. destruct H as [<-|[<-|[<-|[]]]]; reflexivity.
Qed.

(** ** Programs with one user impl *)
Lemma compiles_one it a im : let se := prog it [im] in
  options (attrs_of it) a -> rust se -> visible se -> headers_ok se (least se) ->
  (forall x s l, In x (se_impls se) -> ~ applies se (least se) x (drop_trait se) (item_at se s l)) ->
  (forall y s1 l1 s2 l2 tr t, In y (map (pair (inner_env se)) (gen_impls it) ++ lib_impls se) ->
     matches se outer_env im s1 l1 tr t -> matches se (fst y) (snd y) s2 l2 tr t -> False) ->
  (forall x, In x (generated_impls se) -> typechecks se (least se) x) ->
  compiles se (least se) (can_tell se (least se)).
Proof.
  cbn zeta. intros Ha Hr Hv Hh Hd Hc Hb. constructor.
  - exact Hr.
  - apply least_solution.
  - exact Hh.
  - apply can_tell_refuter.
  - pose proof (c26_alone (prog it [im]) (least (prog it [im])) _ a Ha Hr Hv (least_solution _) (can_tell_drop _ _) Hd) as Hrest.
    rewrite <- generated_map in Hc. intros i j x y Hij Hx Hy.
    change (all_impls (prog it [im])) with ((outer_env, im) :: generated_impls (prog it [im]) ++ lib_impls (prog it [im])) in Hx, Hy.
    destruct i as [|i], j as [|j]; cbn [nth_error] in Hx, Hy.
    + congruence.
    + injection Hx as <-. apply nth_error_In in Hy. intros (s1 & l1 & s2 & l2 & tr & t & H1 & H2 & _).
      exact (Hc y s1 l1 s2 l2 tr t Hy H1 H2).
    + injection Hy as <-. apply nth_error_In in Hx. intros (s1 & l1 & s2 & l2 & tr & t & H1 & H2 & _).
      exact (Hc x s2 l2 s1 l1 tr t Hx H2 H1).
    + apply (Hrest i j x y); [congruence|exact Hx|exact Hy].
  - exact Hb.
Qed.

Ltac no_match H := destruct H as [? (? & ? & ?)];
  match goal with X : _ = Some _ |- _ => vm_compute in X; try discriminate X; injection X as <- end;
  repeat match goal with X : _ = _ |- _ => progress (vm_compute in X) end; try congruence.
Lemma foo_unsafe_compiles :
  let se := prog (foo t_unsafe) [impl_u8 "UnsafeUnpin"] in compiles se (least se) (can_tell se (least se)).
Proof.
  assert (Hm : In t_unsafe modes) by (cbn; tauto).
  assert (Hi : incl [impl_u8 "UnsafeUnpin"] user_impls) by (intros x [<-|[]]; cbn; tauto).
  apply (compiles_one _ _ _ (foo_options _ Hm)).
  - exact (foo_rust _ _ Hm Hi).
  - exact (un_visible _ (foo_uncaptured _ _ Hm)).
  - exact (foo_headers _ _ Hi).
  - intros x s l [<-|[]] (s' & l' & Hma & _). no_match Hma.
  - intros y s1 l1 s2 l2 tr t Hy H1 H2. apply in_app_iff in Hy. destruct Hy as [Hy|Hy].
    + apply in_map_iff in Hy. destruct Hy as (im & <- & Hy). cbn [fst snd] in H2. vm_compute in Hy.
      repeat (destruct Hy as [<-|Hy]; [no_match H1; no_match H2|]). destruct Hy.
    + cbn in Hy. destruct Hy as [<-|[<-|[]]]; cbn [fst snd] in H2; no_match H1; no_match H2.
  - intros x. apply no_obligations_bodies. reflexivity.
Qed.

(** The user's impls apply: [impl_u8] at [u8], [impl_all] wherever [T: Tr]. *)
Lemma u8_applies ts impls n s l : In n lib_names -> s "T" = usr "u8" ->
  let se := prog (foo ts) impls in
  applies se (least se) (outer_env, impl_u8 n) (XInst (XLib n) []) (item_at se s l).
Proof.
  intros Hn Hs. exists s, l. split.
  - split.
    + cbn. unfold item_at. cbn. rewrite Hs. reflexivity.
    + exists (Path false [seg1 n]). split; [reflexivity|]. cbn [lib_names In] in Hn.
      decompose [or] Hn; subst; try reflexivity. contradiction.
  - intros w [<-|[]] b [].
Qed.
Lemma all_applies ts impls n s l : In n lib_names ->
  least (prog (foo ts) impls) (usr "Tr") (s "T") /\ least (prog (foo ts) impls) core_sized (s "T") ->
  let se := prog (foo ts) impls in
  applies se (least se) (outer_env, impl_all n) (XInst (XLib n) []) (item_at se s l).
Proof.
  intros Hn [Hs Hz]. exists s, l. split.
  - split; [reflexivity|]. exists (Path false [seg1 n]). split; [reflexivity|]. cbn [lib_names In] in Hn.
    decompose [or] Hn; subst; try reflexivity. contradiction.
  - intros w Hw. cbn in Hw. destruct Hw as [<-|[<-|[<-|[<-|[]]]]]; cbn.
    + intros b [].
    + intros f Hf b [].
    + intros f Hf b [<-|[]] g Hg. exact Hz.
    + intros f Hf b [<-|[]] g Hg. exact Hs.
Qed.

Lemma applies_by_impl se h x tr t : In x (all_impls se) -> applies se h x tr t -> by_impl se h tr t.
Proof. destruct x as [E im]. intros Hin (s & l & Hm & Hs). exists E, im, s, l. repeat split; assumption || apply Hm. Qed.
Lemma foo_drop_bodies : let se := prog (foo t_drop) [impl_all "PinnedDrop"] in
  forall x, In x (generated_impls se) -> typechecks se (least se) x.
Proof.
  cbn zeta.
  intros x Hx s l m p Hmm Hp Hs. rewrite generated_map in Hx. apply in_map_iff in Hx. destruct Hx as (im & <- & Hx).
    cbn [fst snd] in *.
    let l := eval vm_compute in (gen_impls (foo t_drop)) in
      assert (G : gen_impls (foo t_drop) = l) by (vm_compute; reflexivity).
    rewrite G in Hx. clear G. cbn [In] in Hx.
    decompose [or] Hx; clear Hx; try contradiction; subst im; cbn [i_methods In] in Hmm; try contradiction;
      decompose [or] Hmm; clear Hmm; try contradiction; subst m; vm_compute in Hp; try contradiction.
    destruct Hp as [<-|[]].
    assert (Hsz : least (prog (foo t_drop) [impl_all "PinnedDrop"]) core_sized (s "T")).
    { cbn [i_generics] in Hs. specialize (Hs _ (or_intror (or_intror (or_introl eq_refl)))). unfold pred_sat in Hs.
      specialize (Hs _ (fun x _ => eq_refl) _ (or_introl eq_refl)). unfold bound_sat in Hs.
      specialize (Hs _ (fun x _ => eq_refl)).
      match type of Hs with least _ ?a ?b =>
        replace a with core_sized in Hs by (vm_compute; reflexivity);
        replace b with (s "T") in Hs by (vm_compute; reflexivity) end.
      exact Hs. }
    assert (Htr : least (prog (foo t_drop) [impl_all "PinnedDrop"]) (usr "Tr") (s "T")).
    { cbn [i_generics] in Hs. specialize (Hs (WTy [] (tid "T") [bnd "Tr"])).
      specialize (Hs (or_intror (or_intror (or_intror (or_introl eq_refl))))). unfold pred_sat in Hs.
      specialize (Hs _ (fun x _ => eq_refl) _ (or_introl eq_refl)). unfold bound_sat, bnd in Hs.
      specialize (Hs _ (fun x _ => eq_refl)).
      match type of Hs with least _ ?a ?b =>
        replace a with (usr "Tr") in Hs by (vm_compute; reflexivity);
        replace b with (s "T") in Hs by (vm_compute; reflexivity) end.
      exact Hs. }
    clear Hs.
    match goal with |- least ?se ?a ?b =>
      replace a with (XInst (XLib "PinnedDrop") []) by (vm_compute; reflexivity);
      replace b with (item_at se s l) by (vm_compute; reflexivity) end.
    apply least_solution. left. apply (applies_by_impl (prog (foo t_drop) [impl_all "PinnedDrop"]) _ (outer_env, impl_all "PinnedDrop")).
    + unfold all_impls. apply in_or_app. left. left. reflexivity.
    + apply all_applies; [cbn; tauto|split; [exact Htr|exact Hsz]].
Qed.
Lemma foo_drop_compiles :
  let se := prog (foo t_drop) [impl_all "PinnedDrop"] in compiles se (least se) (can_tell se (least se)).
Proof.
  assert (Hm : In t_drop modes) by (cbn; tauto).
  assert (Hi : incl [impl_all "PinnedDrop"] user_impls) by (intros x [<-|[]]; cbn; tauto).
  apply (compiles_one _ _ _ (foo_options _ Hm)).
  - exact (foo_rust _ _ Hm Hi).
  - exact (un_visible _ (foo_uncaptured _ _ Hm)).
  - exact (foo_headers _ _ Hi).
  - intros x s l [<-|[]] (s' & l' & Hma & _). no_match Hma.
  - intros y s1 l1 s2 l2 tr t Hy H1 H2. apply in_app_iff in Hy. destruct Hy as [Hy|Hy].
    + apply in_map_iff in Hy. destruct Hy as (im & <- & Hy). cbn [fst snd] in H2. vm_compute in Hy.
      repeat (destruct Hy as [<-|Hy]; [no_match H1; no_match H2|]). destruct Hy.
    + cbn in Hy. destruct Hy as [<-|[<-|[]]]; cbn [fst snd] in H2; no_match H1; no_match H2.
  - exact foo_drop_bodies.
Qed.

(** ** Which instances of [Foo] are [Unpin] *)
Definition at_ (t : dt) : string -> dt := fun _ => t.
Definition lt_ : string -> string := fun _ => "'static".

Lemma foo_sized ts impls : sized_at (prog (foo ts) impls) (at_ phantom_pinned_) lt_.
Proof.
  intros fs f [<-|[]] Hf. apply sized_other, XS_bare. cbn in Hf. destruct Hf as [<-|[<-|[<-|[]]]]; reflexivity.
Qed.

(** ** Finding: a user module called [_pin_project]

    [#[pin_project(project = P, project_ref = R)]
     struct Foo { #[pin] f: _pin_project::__private::AlwaysUnpin<'static, u8> }]
    where [_pin_project] is a module of the user.  Inside [const _] the same
    path means the struct of the support crate. *)
Definition f1_args : list ttree :=
  [TIdent (I "project"); TPunct "=" false; TIdent (I "P"); TPunct "," false;
   TIdent (I "project_ref"); TPunct "=" false; TIdent (I "R")].
Definition f1_field : field :=
  mkField [pin_mark] VInherited (Some (I "f"))
    (TyPath None (Path false [seg1 "_pin_project"; seg1 "__private";
       Seg (I "AlwaysUnpin") (GAngle false [ALt "'static"; ATy (tid "u8")])])).
Definition f1_item : item :=
  ItStruct (mkStruct [pin_attr f1_args] VPub (I "Foo") (mkGenerics [] None) (FNamed [f1_field])).
Definition f1 : setting := prog f1_item [].
Definition f1_opts : args := mkArgs false UDefault (Some (I "P")) (Some (I "R")) PRNone.
Definition f1_type : dt :=
  XSel (XSel (usr "_pin_project") "__private" []) "AlwaysUnpin" [DLt "'static"; DTy (usr "u8")].

Lemma f1_options : options (attrs_of f1_item) f1_opts.
Proof. apply parse_args_iff. vm_compute. reflexivity. Qed.
Lemma f1_rust : rust f1.
Proof.
  apply (prog_rust f1_item [] (match parse_derive f1_item with Ok e => e | _ => mkExpansion [] [] end)).
  - vm_compute. reflexivity.
  - reflexivity.
  - exists [], []. split; [reflexivity|]. split; intros p [].
  - intros im s l tr en b [].
Qed.
Lemma f1_visible : visible f1.
Proof. apply check_visible. vm_compute. reflexivity. Qed.
Lemma f1_legal : legal f1.
Proof.
  apply check_legal.
  - reflexivity.
  - discriminate.
  - intros [].
  - intros x [].
Qed.
Lemma f1_compiles : compiles f1 (least f1) (can_tell f1 (least f1)).
Proof. apply (compiles_alone f1_item f1_opts f1_options f1_rust f1_visible). vm_compute. reflexivity. Qed.
Lemma f1_field_type : type_at f1 (at_ XNever) lt_ f1_field = f1_type.
Proof. vm_compute. reflexivity. Qed.

Lemma f1_not_unpin : ~ least f1 (unpin f1) f1_type.
Proof.
  intros H0. pose proof (proj1 (least_solution f1 _ _) H0) as H. clear H0. destruct H as [H|[[_ H]|[[_ (d & H & _)]|[[_ (l & m & d & H)]|H]]]].
  - destruct H as (E & im & s & l & Hin & Hm & _). change (all_impls f1) with (generated_impls f1 ++ lib_impls f1) in Hin.
    apply in_app_or in Hin. destruct Hin as [Hin|Hin].
    + unfold f1 in Hin. rewrite generated_map in Hin. apply in_map_iff in Hin. destruct Hin as (im' & Eq & Hin). injection Eq as <- <-.
      let l := eval vm_compute in (gen_impls f1_item) in assert (G : gen_impls f1_item = l) by (vm_compute; reflexivity).
      rewrite G in Hin. clear G. cbn [In] in Hin. decompose [or] Hin; clear Hin; try contradiction; subst im'; no_match Hm.
    + cbn in Hin. destruct Hin as [Hin|[Hin|[]]]; injection Hin as <- <-; no_match Hm.
  - destruct H as (E & c & g & fs & s & l & Hin & Eq & _). unfold definitions in Hin. apply in_app_or in Hin. destruct Hin as [Hin|Hin].
    + cbn in Hin. destruct Hin as [Hin|[]]. injection Hin as <- <- <- <-. discriminate.
    + apply in_app_or in Hin. destruct Hin as [Hin|Hin].
      * unfold structs_of in Hin. apply in_flat_map in Hin. destruct Hin as (o & _ & Hin). destruct o; try (destruct Hin; fail).
        destruct Hin as [Hin|[]]. injection Hin as <- <- <- <-. discriminate.
      * cbn in Hin. destruct Hin as [Hin|[Hin|[Hin|[]]]]; injection Hin as <- <- <- <-; discriminate.
  - discriminate.
  - discriminate.
  - destruct H as [[H _]|[[_ [H|H]]|[H _]]]; discriminate.
Qed.
Definition f1_helper : dt := XInst (XGen "__Foo") [DLt "'static"].
Definition f1_no_impl : impl := mkImpl false (mkGenerics [] None) None TyNever [].
Definition f1_unpin_impl : impl := nth 1 (gen_impls f1_item) f1_no_impl.
Lemma f1_helper_unpin : least f1 (unpin f1) f1_helper.
Proof.
  apply (least_solution f1). right. left. split; [reflexivity|].
  let l := eval vm_compute in
    (match parse_derive f1_item with
     | Ok e => flat_map (fun o => match o with OStruct v i g fs => [(v, i, g, fs)] | _ => [] end) (scoped e)
     | _ => [] end) in
  match l with [(?v, ?i, ?g, ?fs)] =>
    assert (G : In (OStruct v i g fs) (scoped (se_exp f1))) by (vm_compute; auto 12);
    exists (inner_env f1), (XGen "__Foo"), g, (fields_list fs), (at_ XNever), lt_;
    split; [unfold definitions; apply in_or_app; right; apply in_or_app; left; unfold structs_of; apply in_flat_map;
            exists (OStruct v i g fs); split; [exact G|left; reflexivity]|]
  end. clear G.
  split; [reflexivity|]. split.
  - intros (E & im & s & l & b & Hin & Hm). change (all_impls f1) with (generated_impls f1 ++ lib_impls f1) in Hin.
    apply in_app_or in Hin. destruct Hin as [Hin|Hin].
    + unfold f1 in Hin. rewrite generated_map in Hin. apply in_map_iff in Hin. destruct Hin as (im' & Eq & Hin). injection Eq as <- <-.
      let l := eval vm_compute in (gen_impls f1_item) in assert (G : gen_impls f1_item = l) by (vm_compute; reflexivity).
      rewrite G in Hin. clear G. cbn [In] in Hin. decompose [or] Hin; clear Hin; try contradiction; subst im'; no_match Hm.
    + cbn in Hin. destruct Hin as [Hin|[Hin|[]]]; injection Hin as <- <-; no_match Hm.
  - intros f Hf. cbn [fields_list In] in Hf. decompose [or] Hf; clear Hf; try contradiction; subst f;
      (match goal with |- least _ _ ?d => let d' := eval vm_compute in d in replace d with d' by (vm_compute; reflexivity) end);
      apply (least_solution f1); left; apply (lib_always f1); apply sized_holds, XS_bare; reflexivity.
Qed.
Lemma f1_unpin : least f1 (unpin f1) (item_at f1 (at_ XNever) lt_).
Proof.
  apply (least_solution f1). left.
  assert (Hin : In f1_unpin_impl (gen_impls f1_item)) by (apply nth_In; vm_compute; auto).
  exists (inner_env f1), f1_unpin_impl, (at_ XNever), lt_. split; [|split].
  - unfold all_impls. apply in_or_app. right. apply in_or_app. left. unfold f1. rewrite generated_map. apply in_map. exact Hin.
  - split; [vm_compute; reflexivity|]. exists (Path false [seg1 "_pin_project"; seg1 "__private"; seg1 "Unpin"]). split; vm_compute; reflexivity.
  - intros w Hw. let l := eval vm_compute in (all_preds (i_generics f1_unpin_impl)) in
      assert (G : all_preds (i_generics f1_unpin_impl) = l) by (vm_compute; reflexivity).
    rewrite G in Hw. clear G. cbn [In] in Hw. destruct Hw as [<-|[<-|[]]].
    + intros b [].
    + intros f Hf b [<-|[]] f' Hf'.
      match goal with |- least _ ?tr ?d => replace tr with (unpin f1) by (vm_compute; reflexivity) end.
      match goal with |- least _ _ ?d => replace d with (XInst (XGen "__Foo") [DLt (f "'pin")]) end; [|vm_compute; reflexivity].
      rewrite (Hf "'pin") by (intros []). exact f1_helper_unpin.
Qed.

(** ** A field that is not pinned

    [#[pin_project] struct Foo<T, U> { #[pin] a: T, b: .. }] *)
Definition two (t : ty) : item :=
  ItStruct (mkStruct [pin_attr []] VPub (I "Foo") (mkGenerics [PTy (I "T") [] None; PTy (I "U") [] None] None)
    (FNamed [mkField [pin_mark] VInherited (Some (I "a")) (tid "T"); mkField [] VInherited (Some (I "b")) t])).
Definition two_u : item := two (tid "U").
Definition two_p : item := two (tid "PhantomPinned").
Definition two_opts : args := mkArgs false UDefault None None PRNone.
Definition s_of (t u : dt) : string -> dt := fun x => if String.eqb x "T" then t else u.
Lemma two_options it : In it [two_u; two_p] -> options (attrs_of it) two_opts.
Proof. intros [<-|[<-|[]]]; apply parse_args_iff; vm_compute; reflexivity. Qed.
Lemma two_rust it : In it [two_u; two_p] -> rust (prog it []).
Proof.
  intros H. apply (prog_rust it [] (match parse_derive it with Ok e => e | _ => mkExpansion [] [] end)).
  - destruct H as [<-|[<-|[]]]; vm_compute; reflexivity.
  - destruct H as [<-|[<-|[]]]; reflexivity.
  - exists [], [PTy (I "T") [] None; PTy (I "U") [] None]. split; [destruct H as [<-|[<-|[]]]; reflexivity|].
    split; [intros p []|intros p [<-|[<-|[]]]; reflexivity].
  - intros im s l tr en b [].
Qed.
Lemma two_legal it : In it [two_u; two_p] -> legal (prog it []).
Proof.
  intros H. apply check_legal.
  - destruct H as [<-|[<-|[]]]; reflexivity.
  - destruct H as [<-|[<-|[]]]; discriminate.
  - destruct H as [<-|[<-|[]]]; cbn; intuition discriminate.
  - destruct H as [<-|[<-|[]]]; cbn; intuition.
Qed.
Lemma two_uncaptured it : In it [two_u; two_p] -> uncaptured (prog it []).
Proof.
  intros H. apply check_uncaptured.
  - apply check_visible. destruct H as [<-|[<-|[]]]; vm_compute; reflexivity.
  - destruct H as [<-|[<-|[]]]; reflexivity.
  - destruct H as [<-|[<-|[]]]; vm_compute; reflexivity.
Qed.
Lemma two_compiles it : In it [two_u; two_p] ->
  compiles (prog it []) (least (prog it [])) (can_tell (prog it []) (least (prog it []))).
Proof.
  intros H. apply (compiles_alone it two_opts (two_options it H) (two_rust it H) (un_visible _ (two_uncaptured it H))).
  destruct H as [<-|[<-|[]]]; reflexivity.
Qed.
Lemma two_where it (h : dt -> dt -> Prop) s l : In it [two_u; two_p] -> h core_sized (s "T") -> h core_sized (s "U") ->
  where_holds (prog it []) h s l.
Proof.
  intros [<-|[<-|[]]] H1 H2 w Hw; cbn in Hw; destruct Hw as [<-|[<-|[<-|[<-|[]]]]];
    try (intros f Hf b []; fail); intros f Hf b [<-|[]] f' Hf'; assumption.
Qed.
(** Each ways: [u8] is [Unpin], [PhantomPinned] is not. *)
Lemma u8_unpin it impls : least (prog it impls) (unpin (prog it impls)) (usr "u8").
Proof. apply (least_solution (prog it impls)). do 5 right. left. split; [reflexivity|left; reflexivity]. Qed.
Lemma ref_unpin it impls l m d : least (prog it impls) (unpin (prog it impls)) (XRef l m d).
Proof. apply (least_solution (prog it impls)). right. right. right. left. split; [reflexivity|]. exists l, m, d. reflexivity. Qed.
Lemma pinned_not_unpin it impls a : rust (prog it impls) -> visible (prog it impls) -> options (attrs_of it) a ->
  ~ least (prog it impls) (unpin (prog it impls)) phantom_pinned_.
Proof.
  intros Hr Hv Ha. destruct (scoped_form it (se_exp (prog it impls)) a (ru_derive _ Hr) Ha (ru_ordered _ Hr)) as (pin & v & front & Hpin & Hfront & Hform).
  exact (phantom_pinned (prog it impls) Hr a pin v front Hpin Hfront Hform Hv _ (least_solution _) []).
Qed.

(** The counterexamples to the full statements of C33 and C43. *)
Lemma f1_pinned : pinned_field f1 f1_field.
Proof.
  eexists. split; [left; reflexivity|]. split; [left; reflexivity|]. exists pin_mark. split; [left; reflexivity|].
  repeat split.
Qed.
Lemma c43_refuted : exists se holds fails a s l f,
  options (attrs_of (se_item se)) a /\ legal se /\ visible se /\ compiles se holds fails /\ se_impls se = [] /\
  holds (unpin se) (item_at se s l) /\ pinned_field se f /\ ~ holds (unpin se) (type_at se s l f).
Proof.
  exists f1, (least f1), (can_tell f1 (least f1)), f1_opts, (at_ XNever), lt_, f1_field.
  split; [exact f1_options|]. split; [exact f1_legal|]. split; [exact f1_visible|]. split; [exact f1_compiles|].
  split; [reflexivity|]. split; [exact f1_unpin|]. split; [exact f1_pinned|]. rewrite f1_field_type. exact f1_not_unpin.
Qed.
Lemma c33_refuted : exists se holds fails a,
  options (attrs_of (se_item se)) a /\ ar_unpin a = UDefault /\ legal se /\ visible se /\ compiles se holds fails /\
  exists f s l, pinned_field se f /\
  forall vv gg fs h, In (OStruct vv (helper_name (name_of (se_item se))) gg fs) (scoped (se_exp se)) ->
    In h (fields_list fs) -> den_ty (in_helper se gg s l) (f_ty h) <> type_at se s l f.
Proof.
  exists f1, (least f1), (can_tell f1 (least f1)), f1_opts.
  split; [exact f1_options|]. split; [reflexivity|]. split; [exact f1_legal|]. split; [exact f1_visible|]. split; [exact f1_compiles|].
  exists f1_field, (at_ XNever), lt_. split; [exact f1_pinned|]. rewrite f1_field_type. intros vv gg fs h Hin Hh.
  let l := eval vm_compute in (scoped (se_exp f1)) in assert (G : scoped (se_exp f1) = l) by (vm_compute; reflexivity).
  rewrite G in Hin. clear G. cbn [In] in Hin. decompose [or] Hin; clear Hin; try contradiction; try discriminate.
  match goal with X : _ = OStruct _ _ _ _ |- _ => injection X; intros <- <- _; clear X end.
  cbn [fields_list In] in Hh. decompose [or] Hh; clear Hh; try contradiction; subst h; intros H; vm_compute in H; discriminate H.
Qed.

(** ** Finding: an item that is never [Sized]

    [#[pin_project] struct Foo { #[pin] a: u8, b: [u8] }] with
    [impl Drop for Foo { .. }]. *)
Definition tail_item : item :=
  ItStruct (mkStruct [pin_attr []] VPub (I "Foo") (mkGenerics [] None)
    (FNamed [mkField [pin_mark] VInherited (Some (I "a")) (tid "u8");
             mkField [] VInherited (Some (I "b")) (TySlice (tid "u8"))])).
Definition tail_drop : impl := mkImpl false (mkGenerics [] None) (Some (Path false [seg1 "Drop"])) (tid "Foo") [].
Definition tail : setting := prog tail_item [tail_drop].
Lemma tail_options : options (attrs_of tail_item) two_opts.
Proof. apply parse_args_iff. vm_compute. reflexivity. Qed.
Lemma tail_rust : rust tail.
Proof.
  apply (prog_rust tail_item [tail_drop] (match parse_derive tail_item with Ok e => e | _ => mkExpansion [] [] end)).
  - vm_compute. reflexivity.
  - reflexivity.
  - exists [], []. split; [reflexivity|]. split; intros p [].
  - intros im s l tr en a [<-|[]] _ _ [Hm _]. vm_compute in Hm. injection Hm; intros; destruct en; cbn in *; congruence.
Qed.
Lemma tail_legal : legal tail.
Proof.
  apply check_legal.
  - reflexivity.
  - discriminate.
  - intros [].
  - intros x [].
Qed.
Lemma tail_uncaptured : uncaptured tail.
Proof. apply check_uncaptured; [apply check_visible|..]; vm_compute; reflexivity. Qed.
Lemma tail_applies s l : applies tail (least tail) (outer_env, tail_drop) (drop_trait tail) (item_at tail s l).
Proof.
  exists s, l. split.
  - split; [reflexivity|]. exists (Path false [seg1 "Drop"]). split; reflexivity.
  - intros w [].
Qed.
Lemma tail_unsized s l : ~ least tail (sized_trait tail) (item_at tail s l).
Proof.
  intros H0. pose proof (proj1 (least_solution tail _ _) H0) as H. clear H0.
  destruct H as [H|[[H _]|[[H _]|[[H _]|H]]]]; try discriminate.
  - destruct H as (E & im & s' & l' & Hin & Hm & _).
    change (all_impls tail) with ((outer_env, tail_drop) :: generated_impls tail ++ lib_impls tail) in Hin.
    destruct Hin as [Hin|Hin]; [injection Hin as <- <-; no_match Hm|]. apply in_app_or in Hin. destruct Hin as [Hin|Hin].
    + unfold tail in Hin. rewrite generated_map in Hin. apply in_map_iff in Hin. destruct Hin as (im' & Eq & Hin). injection Eq as <- <-.
      let l := eval vm_compute in (gen_impls tail_item) in assert (G : gen_impls tail_item = l) by (vm_compute; reflexivity).
      rewrite G in Hin. clear G. cbn [In] in Hin. decompose [or] Hin; clear Hin; try contradiction; subst im'; no_match Hm.
    + cbn in Hin. destruct Hin as [Hin|[Hin|[]]]; injection Hin as <- <-; no_match Hm.
  - apply (ru_sized_item _ tail_rust) in H.
    specialize (H _ _ (or_introl eq_refl) (or_intror (or_introl eq_refl))). apply (sized_other tail_item [tail_drop]) in H.
    vm_compute in H. inversion H. discriminate.
Qed.
Lemma tail_coherent : coherent tail (can_tell tail (least tail)).
Proof.
  pose proof (c26_alone' tail (least tail) _ two_opts tail_options tail_rust (un_visible _ tail_uncaptured) (least_solution _)
    (can_tell_drop _ _) (can_tell_sized _ _) (fun x s l _ _ => tail_unsized s l)) as Hrest.
  assert (Hc : forall y s1 l1 s2 l2 tr t, In y (generated_impls tail ++ lib_impls tail) ->
     matches tail outer_env tail_drop s1 l1 tr t -> matches tail (fst y) (snd y) s2 l2 tr t -> False).
  { intros y s1 l1 s2 l2 tr t Hy H1 H2. apply in_app_iff in Hy. destruct Hy as [Hy|Hy].
    - unfold tail in Hy. rewrite generated_map in Hy. apply in_map_iff in Hy. destruct Hy as (im & <- & Hy). cbn [fst snd] in H2.
      let l := eval vm_compute in (gen_impls tail_item) in assert (G : gen_impls tail_item = l) by (vm_compute; reflexivity).
      rewrite G in Hy. clear G. cbn [In] in Hy. decompose [or] Hy; clear Hy; try contradiction; subst im; no_match H1; no_match H2.
    - cbn in Hy. destruct Hy as [<-|[<-|[]]]; cbn [fst snd] in H2; no_match H1; no_match H2. }
  intros i j x y Hij Hx Hy.
  change (all_impls tail) with ((outer_env, tail_drop) :: generated_impls tail ++ lib_impls tail) in Hx, Hy.
  destruct i as [|i], j as [|j]; cbn [nth_error] in Hx, Hy.
  - congruence.
  - injection Hx as <-. apply nth_error_In in Hy. intros (s1 & l1 & s2 & l2 & tr & t & H1 & H2 & _).
    exact (Hc y s1 l1 s2 l2 tr t Hy H1 H2).
  - injection Hy as <-. apply nth_error_In in Hx. intros (s1 & l1 & s2 & l2 & tr & t & H1 & H2 & _).
    exact (Hc x s2 l2 s1 l1 tr t Hx H2 H1).
  - apply (Hrest i j x y); [congruence|exact Hx|exact Hy].
Qed.
Lemma tail_compiles : compiles tail (least tail) (can_tell tail (least tail)).
Proof.
  constructor.
  - exact tail_rust.
  - apply least_solution.
  - intros E im s l tr a [Hin|[]] [Hm _] _. injection Hin as <- <-. vm_compute in Hm. injection Hm as <-.
    exists s, l. split; [reflexivity|]. intros w [].
  - apply can_tell_refuter.
  - exact tail_coherent.
  - intros x. apply no_obligations_bodies. vm_compute. reflexivity.
Qed.
Lemma c26_refuted : exists se holds fails a x s l,
  options (attrs_of (se_item se)) a /\ ar_pinned_drop a = false /\ legal se /\ uncaptured se /\ compiles se holds fails /\
  In x (se_impls se) /\ applies se holds x (drop_trait se) (item_at se s l).
Proof.
  exists tail, (least tail), (can_tell tail (least tail)), two_opts, (outer_env, tail_drop), (at_ XNever), lt_.
  split; [exact tail_options|]. split; [reflexivity|]. split; [exact tail_legal|]. split; [exact tail_uncaptured|].
  split; [exact tail_compiles|]. split; [left; reflexivity|]. apply tail_applies.
Qed.
