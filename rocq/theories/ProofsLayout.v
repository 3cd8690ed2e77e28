(** Lemmas about layouts. *)
From Coq Require Import String List Bool Arith Lia.
From Verif Require Import Base Syntax ModelArgs ModelUtils ModelDerive ModelRun ModelLayout.
From Verif Require Import SpecArgs SpecDerive SpecExpand SpecRun SpecLayout ProofsArgs ProofsDerive ProofsExpand ProofsTypes ProofsRunMain.
Import ListNotations.
Open Scope string_scope.
Open Scope list_scope.

Lemma pow_divide a b : a <= b -> Nat.divide (2 ^ a) (2 ^ b).
Proof. intros H. exists (2 ^ (b - a)). rewrite <- Nat.pow_add_r. f_equal. lia. Qed.

Lemma address_aligned pack ks y i k : layout_legal pack ks y -> nth_error ks i = Some k ->
  (forall p, pack = Some p -> k <= p) -> Nat.divide (2 ^ k) (address y i).
Proof.
  intros [(m & Hm & Hb) Ho] Hi Hp.
  assert (E : capped pack k = k). { unfold capped. destruct pack as [p|]; [|reflexivity]. specialize (Hp p eq_refl). lia. }
  apply Nat.divide_add_r.
  - apply Nat.divide_trans with (2 ^ m); [|exact Hb]. apply pow_divide. rewrite Forall_forall in Hm. rewrite <- E. apply Hm.
    eapply nth_error_In. exact Hi.
  - rewrite <- E. apply Ho. exact Hi.
Qed.

(** Every field is among the references of the check. *)
Lemma position_nth l : NoDup (map (fun f => option_map name (f_ident f)) l) ->
  forall k i f x, nth_error l i = Some f -> f_ident f = Some x -> position (name x) k l = Some (k + i).
Proof.
  induction l as [|f0 l IH]; intros Hn k i f x Hi Hx; [destruct i; discriminate|]. cbn [map] in Hn. inversion Hn as [|z zs Hz Hn']; subst.
  destruct i as [|i]; cbn in Hi.
  - injection Hi as ->. cbn. rewrite Hx, String.eqb_refl. f_equal. lia.
  - cbn. assert (X : position (name x) (S k) l = Some (k + S i)).
    { rewrite (IH Hn' (S k) i f x Hi Hx). f_equal. lia. }
    destruct (f_ident f0) as [j|] eqn:E; [|exact X]. destruct (String.eqb_spec (name j) (name x)) as [Ej|_]; [|exact X].
    destruct Hz. apply in_map_iff. exists f. split; [|eapply nth_error_In; exact Hi]. rewrite Hx. cbn. rewrite Ej. reflexivity.
Qed.
Lemma enum_from_nth {A} (l : list A) : forall k i x, nth_error l i = Some x -> In (k + i, x) (enum_from k l).
Proof.
  induction l as [|y l IH]; intros k i x H; [destruct i; discriminate|]. destruct i as [|i]; cbn in *.
  - injection H as ->. left. f_equal. lia.
  - right. replace (k + S i) with (S k + i) by lia. apply IH. exact H.
Qed.
Lemma resolve_field fs i f : fields_legal fs -> nth_error (fields_list fs) i = Some f ->
  resolve fs (field_member (i, f)) = Some i.
Proof.
  intros Hl Hi. unfold field_member. cbn [fst snd]. destruct fs as [l|l|]; cbn [fields_list] in *.
  - destruct Hl as [Hn Hd]. destruct (f_ident f) as [x|] eqn:E; [|destruct (Hn f (nth_error_In _ _ Hi) E)].
    cbn. rewrite (position_nth l Hd 0 i f x Hi E). reflexivity.
  - rewrite (Hl f (nth_error_In _ _ Hi)). assert (i < length l) by (apply nth_error_Some; congruence).
    unfold resolve. destruct (Nat.ltb_spec i (length l)); [reflexivity|lia].
  - destruct i; discriminate.
Qed.

Lemma ty_generics_replace self g g' : g_params g' = map (replace_param self) (g_params g) -> ty_generics g' = ty_generics g.
Proof.
  intros E'. unfold ty_generics. rewrite E'. clear E'.
  assert (X : map param_arg (lts_first (map (replace_param self) (g_params g))) = map param_arg (lts_first (g_params g))).
  { assert (Y : forall b l, map param_arg (filter (fun p => Bool.eqb b (is_lt_param p)) (map (replace_param self) l)) =
                            map param_arg (filter (fun p => Bool.eqb b (is_lt_param p)) l)).
    { intros b l. induction l as [|p l IH]; [reflexivity|]. cbn [map filter].
      replace (is_lt_param (replace_param self p)) with (is_lt_param p) by (destruct p; reflexivity).
      destruct (Bool.eqb b (is_lt_param p)); [|exact IH]. cbn [map]. rewrite IH, param_arg_replace. reflexivity. }
    unfold lts_first. rewrite !map_app. f_equal.
    - rewrite !(filter_ext is_lt_param (fun p => Bool.eqb true (is_lt_param p))) by (intros []; reflexivity). apply Y.
    - rewrite !(filter_ext (fun p => negb (is_lt_param p)) (fun p => Bool.eqb false (is_lt_param p))) by (intros []; reflexivity). apply Y. }
  destruct (g_params g) as [|p l] eqn:E; [reflexivity|]. cbn [map] in *. rewrite X. reflexivity.
Qed.

Lemma members_replace self l : forall k, map field_member (enum_from k (map (replace_field self) l)) = map field_member (enum_from k l).
Proof. induction l as [|f l IH]; intros k; [reflexivity|]. cbn. rewrite IH. reflexivity. Qed.

Lemma assert_in s e : parse_derive (ItStruct s) = Ok e ->
  exists g, In (OAssert g (tp_ty (own_type (s_ident s) (s_generics s)))
    (map field_member (enumerate (fields_list (s_fields s))))) (scoped e).
Proof.
  intros H. apply parse_derive_struct in H. destruct H as (a & _ & ->).
  set (s' := spelled_struct s). set (cx := struct_cx a s'). exists (impl_generics (cx_generics cx)).
  assert (E : assert_item cx (s_fields s') = OAssert (impl_generics (cx_generics cx)) (tp_ty (own_type (s_ident s) (s_generics s)))
     (map field_member (enumerate (fields_list (s_fields s))))).
  { unfold assert_item. f_equal.
    - rewrite <- self_type_own. unfold ty_applied, self_path, self_type, tp_ty, self_path. cbn [tp_q tp_path].
      rewrite (ty_generics_replace (self_type (s_ident s) (s_generics s)) (s_generics s)); reflexivity.
    - unfold s', spelled_struct, replace_struct. cbn [s_fields]. rewrite fields_list_replace. apply members_replace. }
  rewrite <- E. unfold struct_out. cbn [scoped]. right. apply in_or_app. left.
  do 3 (apply in_or_app; right). right. left. reflexivity.
Qed.

Section Main.
  Variables (s : item_struct) (e : expansion).
  Hypothesis Hd : parse_derive (ItStruct s) = Ok e.
  Hypothesis Hl : fields_legal (s_fields s).
  Variable inst : Type.
  Variable aligns : inst -> list nat.
  Variable pack : option nat.
  Hypothesis Hlen : forall a, length (aligns a) = length (fields_list (s_fields s)).
  Hypothesis Hc : forall it, In it (scoped e) ->
    assert_compiles inst aligns pack (tp_ty (own_type (s_ident s) (s_generics s))) (s_fields s) it.

  Lemma all_borrow_ok i f : nth_error (fields_list (s_fields s)) i = Some f -> borrow_ok inst aligns pack i.
  Proof.
    intros Hi. destruct (assert_in s e Hd) as (g & Hin). pose proof (Hc _ Hin eq_refl (field_member (i, f))) as H.
    rewrite (resolve_field _ i f Hl Hi) in H. apply H. apply in_map. apply (enum_from_nth _ 0 i f Hi).
  Qed.
  Lemma field_at a i k : nth_error (aligns a) i = Some k -> exists f, nth_error (fields_list (s_fields s)) i = Some f.
  Proof.
    intros H. assert (i < length (fields_list (s_fields s))). { rewrite <- (Hlen a). apply nth_error_Some. congruence. }
    destruct (nth_error (fields_list (s_fields s)) i) as [f|] eqn:E; [eauto|]. apply nth_error_None in E. lia.
  Qed.
  Lemma c35_aligned a y i k : layout_legal pack (aligns a) y -> nth_error (aligns a) i = Some k -> Nat.divide (2 ^ k) (address y i).
  Proof.
    intros Hy Hi. destruct (field_at a i k Hi) as (f & Hf). eapply address_aligned; [exact Hy|exact Hi|].
    intros p Hp. exact (all_borrow_ok i f Hf a k p Hi Hp).
  Qed.
  Lemma c35_not_moved a i : ~ moved_before_drop inst aligns pack a i.
  Proof.
    intros (k & p & Hi & Hp & Hlt). destruct (field_at a i k Hi) as (f & Hf). pose proof (all_borrow_ok i f Hf a k p Hi Hp). lia.
  Qed.
End Main.

Lemma c35 s e inst aligns pack : parse_derive (ItStruct s) = Ok e -> fields_legal (s_fields s) ->
  check_compiles s e inst aligns pack ->
  forall a y i k, layout_legal pack (aligns a) y -> nth_error (aligns a) i = Some k -> Nat.divide (2 ^ k) (address y i).
Proof. intros H1 H2 [H3 H4]. eapply c35_aligned; eassumption. Qed.
Lemma c35_drop s e inst aligns pack : parse_derive (ItStruct s) = Ok e -> fields_legal (s_fields s) ->
  check_compiles s e inst aligns pack -> forall a i, ~ moved_before_drop inst aligns pack a i.
Proof. intros H1 H2 [H3 H4]. eapply c35_not_moved; eassumption. Qed.

Lemma c35_references w s a u t m k r i inst aligns pack st :
  program w a -> w_item w = ItStruct s -> has_proj k (w_item w) a = true -> value_of (w_item w) u [] (s_fields s) ->
  check_compiles s (w_exp w) inst aligns pack ->
  (m, k) = ("project", PMut) \/ (m, k) = ("project_ref", PRef) ->
  call_method w m (RPin (match k with PMut => true | _ => false end) PlSelf) [] (holding u t Run) = Some (Some r, st) ->
  refers r i -> forall b y, layout_legal pack (aligns b) y ->
  exists al, nth_error (aligns b) i = Some al /\ Nat.divide (2 ^ al) (address y i).
Proof.
  intros Hp Hw Hh Hv Hc Hk Hcall Hr b y Hy.
  assert (Hi : i < length (fields_list (s_fields s))).
  { assert (X : exists p q, r = RProj p (references q (s_fields s))).
    { destruct Hk as [E|E]; injection E as -> ->.
      - rewrite (c14 w a u [] (s_fields s) t Hp Hh Hv) in Hcall. injection Hcall as <- _. eauto.
      - rewrite (c15 w a u [] (s_fields s) t Hp Hh Hv) in Hcall. injection Hcall as <- _. eauto. }
    destruct X as (p & q & ->). unfold references in Hr.
    assert (Y : forall (l : list field) n j f, In (j, f) (combine (seq n (length l)) l) -> j < n + length l).
    { intros l n j f Hin. apply in_combine_l in Hin. apply in_seq in Hin. lia. }
    inversion Hr as [p' l x m' i' Hin|p' l x m' i' Hin]; subst; apply in_map_iff in Hin; destruct Hin as ([j f] & E & Hin);
      cbn [fst snd] in E; unfold numbered in Hin; apply Y in Hin; destruct (is_pinned f); try discriminate; injection E; intros; subst; exact Hin. }
  destruct (nth_error (aligns b) i) as [al|] eqn:E.
  - exists al. split; [reflexivity|]. eapply (c35 s (w_exp w) inst aligns pack); try eassumption.
    + rewrite <- Hw. apply (pg_expansion _ _ Hp).
    + apply (pg_fields _ _ Hp). rewrite Hw. left. reflexivity.
  - apply nth_error_None in E. destruct Hc as [Hlen _]. rewrite (Hlen b) in E. lia.
Qed.
