(** C57: the interfaces of the generated items show nothing that is less visible. *)
From Coq Require Import String Ascii List Bool Arith.
From Verif Require Import Base Syntax SyntaxInd ModelArgs ModelUtils ModelDerive ModelMeaning.
From Verif Require Import SpecArgs SpecDerive SpecLifetime SpecExpand SpecRun SpecMeaning SpecTraits SpecScope SpecVis SpecReach.
From Verif Require Import ProofsArgs ProofsUtils ProofsDerive ProofsExpand ProofsTypes ProofsMeaning ProofsUnsafe ProofsVis ProofsScope.
Import ListNotations.
Open Scope string_scope.
Open Scope list_scope.

Definition allp (P : node -> Prop) (l : list node) : Prop := forall n, In n l -> P n.
Lemma allp_nil P : allp P []. Proof. intros n []. Qed.
Lemma allp_app P l l' : allp P l -> allp P l' -> allp P (l ++ l').
Proof. intros H H' n Hn. apply in_app_or in Hn. destruct Hn; auto. Qed.
Lemma allp_app_l P l l' : allp P (l ++ l') -> allp P l.
Proof. intros H n Hn. apply H, in_or_app. auto. Qed.
Lemma allp_app_r P l l' : allp P (l ++ l') -> allp P l'.
Proof. intros H n Hn. apply H, in_or_app. auto. Qed.
Lemma allp_cons (P : node -> Prop) n l : P n -> allp P l -> allp P (n :: l).
Proof. intros H Hl x [<-|Hx]; auto. Qed.
Lemma allp_flat {B} P (f : B -> list node) l : (forall b, In b l -> allp P (f b)) -> allp P (flat_map f l).
Proof. intros H n Hn. apply in_flat_map in Hn. destruct Hn as (b & Hb & Hn). exact (H b Hb n Hn). Qed.
Lemma allp_flat_in {B} P (f : B -> list node) l b : allp P (flat_map f l) -> In b l -> allp P (f b).
Proof. intros H Hb n Hn. apply H, in_flat_map. eauto. Qed.

Record closed (P : node -> Prop) : Prop := {
  cl_lt : forall x, P (NLt x);
  cl_macro : forall x ts, P (NMacro x ts);
  cl_value : P NSelfValue;
  cl_odd : P NOddSelf;
  cl_q0 : forall lead p, P (NPath (Some 0) lead p);
  cl_abs : forall p, support_path p = true -> P (NPath None true p)
}.
Definition nm (P : node -> Prop) (j : ident) : Prop := forall q r, P (NPath q false (j :: r)).

Section Closed.
  Variable P : node -> Prop.
  Hypothesis HP : closed P.

  (** ** Replacing [Self] *)
  Section Origins.
    Variable self : type_path.
    Hypothesis Hq : tp_q self = None.
    Hypothesis Hs : allp P (nodes_ty (tp_ty self)).
    Lemma allp_origin l l' : self_legal l -> allp P l -> (forall y, In y l' -> origin self l y) -> allp P l'.
    Proof.
      intros HL HA HO y Hy. destruct (HO y Hy) as [H|H]; [apply Hs; exact H|].
      destruct y as [q lead p|x|x ts| |]; [|apply HP..].
      destruct H as [->|(p' & Hp & E & _)]; [apply HP|]. apply HA. assert (p' = p) as <-; [|exact Hp].
      destruct p' as [|j [|k p']]; cbn in E; try congruence.
      unfold prepend_underscore_to_self in E. destruct (ident_is j "self") eqn:F; cbn in E; [|congruence].
      apply ident_is_eq in F. subst j. destruct (HL _ _ _ Hp [] [] eq_refl) as (_ & _ & X). elim X. reflexivity.
    Qed.
    Lemma allp_ty t : self_legal (nodes_ty t) -> allp P (nodes_ty t) -> allp P (nodes_ty (replace_ty self t)).
    Proof. intros HL HA. eapply allp_origin; [exact HL|exact HA|]. destruct (nodes_replace self Hq) as (H & _). exact (H t). Qed.
    Lemma allp_bound b : self_legal (nodes_bound b) -> allp P (nodes_bound b) -> allp P (nodes_bound (replace_bound self b)).
    Proof. intros HL HA. eapply allp_origin; [exact HL|exact HA|]. destruct (nodes_replace self Hq) as (_ & _ & _ & _ & _ & H & _). exact (H b). Qed.
    Lemma allp_expr b : self_legal (nodes_expr b) -> allp P (nodes_expr b) -> allp P (nodes_expr (replace_expr self b)).
    Proof. intros HL HA. eapply allp_origin; [exact HL|exact HA|]. destruct (nodes_replace self Hq) as (_ & _ & _ & _ & _ & _ & H). exact (H b). Qed.
  End Origins.

  (** ** Generics *)
  Definition param_okp (p : gparam) : Prop :=
    allp P (nodes_param p) /\ allp P (nodes_default p) /\ forall i, In i (param_idents [p]) -> nm P i.
  Record gokp (g : generics) : Prop := {
    gp_params : forall p, In p (g_params g) -> param_okp p;
    gp_preds : forall w, In w (where_of g) -> allp P (nodes_wpred w)
  }.
  Lemma gokp_nodes g : gokp g -> allp P (nodes_all_generics g).
  Proof.
    intros [H1 H2]. unfold nodes_all_generics, nodes_generics. apply allp_app; [apply allp_app|]; apply allp_flat.
    - intros p Hp. apply H1. exact Hp.
    - exact H2.
    - intros p Hp. apply H1. exact Hp.
  Qed.
  Lemma gokp_intro g : allp P (nodes_all_generics g) -> (forall i, In i (param_idents (g_params g)) -> nm P i) -> gokp g.
  Proof.
    intros H Hi. unfold nodes_all_generics, nodes_generics in H. split.
    - intros p Hp. split; [|split].
      + apply allp_app_l, allp_app_l in H. eapply allp_flat_in; eassumption.
      + apply allp_app_r in H. eapply allp_flat_in; eassumption.
      + intros i Hin. apply Hi. apply in_param_idents. eauto.
    - intros w Hw. apply allp_app_l, allp_app_r in H. eapply allp_flat_in; eassumption.
  Qed.
  Lemma gokp_def g w : gokp g -> (forall x, In x w -> allp P (nodes_wpred x)) -> gokp (def_generics g w).
  Proof. intros [H1 H2] Hw. split; [|exact Hw]. intros p Hp. apply H1. apply in_lts_first. exact Hp. Qed.
  Lemma gokp_strip p : param_okp p -> param_okp (strip_default p).
  Proof. intros (H1 & H2 & H3). destruct p; split; try exact H1; split; try exact H3; apply allp_nil. Qed.
  Lemma gokp_impl g : gokp g -> gokp (impl_generics g).
  Proof.
    intros [H1 H2]. split; [|exact H2]. intros p Hp. cbn in Hp. unfold impl_params in Hp. apply in_map_iff in Hp.
    destruct Hp as (p' & <- & Hp). apply gokp_strip. apply H1. apply in_lts_first. exact Hp.
  Qed.
  Lemma gokp_lifetime lt g : gokp g -> gokp (insert_lifetime lt g).
  Proof.
    intros [H1 H2]. split; [|exact H2]. intros p [<-|Hp]; [|apply H1; exact Hp].
    split; [|split; [apply allp_nil|intros i []]]. apply allp_cons; [apply HP|apply allp_nil].
  Qed.
  Lemma gokp_push g w : gokp g -> allp P (nodes_wpred w) -> gokp (push_where g w).
  Proof.
    intros [H1 H2] Hw. split; [exact H1|]. intros x Hx. cbn in Hx. apply in_app_or in Hx.
    destruct Hx as [Hx|[<-|[]]]; [apply H2; exact Hx|exact Hw].
  Qed.
  Lemma gokp_make g : gokp g -> gokp (make_where_clause g).
  Proof. intros [H1 H2]. split; [exact H1|exact H2]. Qed.
  Lemma allp_odd tr q lead segs : allp P (odd_self tr q lead segs).
  Proof. intros x Hin. apply odd_self_only in Hin. subst x. apply HP. Qed.
  Lemma allp_ident i : nm P i -> allp P (nodes_ty (ty_ident i)).
  Proof. intros H. cbn [nodes_ty ty_ident]. apply allp_cons; [apply H|]. cbn [app flat_map nodes_seg nodes_gargs]. apply allp_odd. Qed.
  Lemma allp_applied i g : nm P i -> gokp g -> allp P (nodes_ty (ty_applied i g)).
  Proof.
    intros Hi [H1 _]. unfold ty_applied, self_path. cbn [nodes_ty]. apply allp_cons; [apply Hi|].
    cbn [app flat_map nodes_seg]. rewrite app_nil_r.
    apply allp_app; [|apply allp_odd]. unfold ty_generics.
    assert (Hl : forall l, (forall p, In p l -> In p (g_params g)) -> allp P (flat_map nodes_garg (map param_arg l))).
    { intros l Hl. rewrite flat_map_concat_map, map_map, <- flat_map_concat_map. apply allp_flat. intros p Hp.
      destruct (H1 p (Hl p Hp)) as (_ & _ & H3). destruct p as [lt bs|j bs d|j t d]; cbn [param_arg nodes_garg].
      - apply allp_cons; [apply HP|apply allp_nil].
      - apply allp_ident. apply H3. left. reflexivity.
      - apply allp_ident. apply H3. left. reflexivity. }
    destruct (g_params g) as [|p ps]; [apply allp_nil|]. apply Hl. intros p' Hp'. apply in_lts_first. exact Hp'.
  Qed.

  (** ** The support crate *)
  Lemma allp_pp l a : nm P (I "_pin_project") -> allp P (nodes_gargs a) -> allp P (nodes_ty (TyPath None (pp_path l a))).
  Proof.
    intros H Ha. unfold pp_path. cbn [nodes_ty map app]. apply allp_cons; [apply H|].
    cbn [app flat_map seg1 nodes_seg nodes_gargs]. apply allp_app; [|apply allp_odd].
    rewrite flat_map_app. cbn [flat_map nodes_seg]. rewrite app_nil_r. apply allp_app; [|exact Ha].
    apply allp_flat. intros s Hs. apply in_map_iff in Hs. destruct Hs as (x & <- & _). apply allp_nil.
  Qed.
  Lemma allp_pp_bound l : nm P (I "_pin_project") -> allp P (nodes_bound (trait_bound (pp_path l GNone))).
  Proof.
    intros H. unfold pp_path, trait_bound. cbn [nodes_bound map app]. apply allp_cons; [apply H|].
    cbn [app flat_map seg1 nodes_seg nodes_gargs]. apply allp_app; [|apply allp_odd].
    rewrite flat_map_app. cbn [flat_map nodes_seg nodes_gargs app]. rewrite app_nil_r.
    apply allp_flat. intros s Hs. apply in_map_iff in Hs. destruct Hs as (x & <- & _). apply allp_nil.
  Qed.
  Lemma allp_abs s a : allp P (nodes_gargs a) -> allp P (nodes_ty (abs_priv_ty s a)).
  Proof.
    intros Ha. unfold abs_priv_ty. cbn [nodes_ty]. apply allp_cons; [apply HP; reflexivity|].
    cbn [app flat_map seg1 nodes_seg nodes_gargs]. rewrite !app_nil_r. exact Ha.
  Qed.
  Lemma allp_targ t : allp P (nodes_ty t) -> allp P (nodes_gargs (targ t)).
  Proof. intros H. cbn. rewrite app_nil_r. exact H. Qed.
  Lemma allp_lt x l : allp P l -> allp P (NLt x :: l).
  Proof. apply allp_cons. apply HP. Qed.
  Lemma allp_kty k lt f : allp P (nodes_ty (f_ty f)) -> allp P (nodes_ty (kty k lt f)).
  Proof.
    intros H. destruct k; cbn [kty]; [unfold mut_ty|unfold ref_ty|unfold own_ty]; destruct (pin_b f).
    - apply allp_abs, allp_targ. cbn. apply allp_lt. exact H.
    - cbn. apply allp_lt. exact H.
    - apply allp_abs, allp_targ. cbn. apply allp_lt. exact H.
    - cbn. apply allp_lt. exact H.
    - apply allp_abs, allp_targ. exact H.
    - exact H.
  Qed.

  (** ** The item after the replacement of [Self] *)
  Section Spelled.
    Variables (i : ident) (g : generics).
    Hypothesis Hi : nm P i.
    Hypothesis Hps : forall j, In j (param_idents (g_params g)) -> nm P j.
    Hypothesis Hg : allp P (nodes_all_generics g).
    Hypothesis Hl : self_legal (nodes_all_generics g).
    Let self := self_type i g.

    Lemma self_allp : allp P (nodes_ty (tp_ty self)).
    Proof. apply (allp_applied i g Hi). apply gokp_intro; assumption. Qed.
    Lemma gokp_spelled : gokp (replace_generics self g).
    Proof.
      unfold nodes_all_generics, nodes_generics in Hl.
      destruct (gokp_intro g Hg Hps) as [H1 H2]. split.
      - intros p Hp. cbn in Hp. apply in_map_iff in Hp. destruct Hp as (p0 & <- & Hp).
        destruct (H1 p0 Hp) as (P1 & P2 & P3).
        pose proof (legal_in _ _ _ (legal_app_l _ _ (legal_app_l _ _ Hl)) Hp) as L1.
        pose proof (legal_in _ _ _ (legal_app_r _ _ Hl) Hp) as L2.
        destruct p0 as [lt bs|j bs d|j t d]; cbn [replace_param nodes_param nodes_default] in *.
        + split; [exact P1|]. split; [exact P2|exact P3].
        + split; [|split; [|exact P3]].
          * apply allp_flat. intros b Hb. apply in_map_iff in Hb. destruct Hb as (b0 & <- & Hb).
            apply allp_bound; [reflexivity|apply self_allp|eapply legal_in; eassumption|eapply allp_flat_in; eassumption].
          * destruct d as [t|]; [|apply allp_nil]. apply allp_ty; [reflexivity|apply self_allp|exact L2|exact P2].
        + split; [|split; [|exact P3]].
          * apply allp_ty; [reflexivity|apply self_allp|exact L1|exact P1].
          * destruct d as [e|]; [|apply allp_nil]. apply allp_expr; [reflexivity|apply self_allp|exact L2|exact P2].
      - intros w Hw. unfold where_of in *. cbn in Hw. destruct (g_where g) as [l|]; [|destruct Hw]. cbn in Hw.
        apply in_map_iff in Hw. destruct Hw as (w0 & <- & Hw).
        pose proof (legal_in _ _ _ (legal_app_r _ _ (legal_app_l _ _ Hl)) Hw) as L1. specialize (H2 _ Hw).
        destruct w0 as [lt bs|lts t bs]; cbn [replace_wpred nodes_wpred] in *; [exact H2|].
        apply allp_app.
        + apply allp_ty; [reflexivity|apply self_allp|eapply legal_app_l; exact L1|eapply allp_app_l; exact H2].
        + apply allp_flat. intros b Hb. apply in_map_iff in Hb. destruct Hb as (b0 & <- & Hb).
          apply allp_bound; [reflexivity|apply self_allp| |].
          * eapply legal_in; [eapply legal_app_r; exact L1|exact Hb].
          * eapply allp_flat_in; [eapply allp_app_r; exact H2|exact Hb].
    Qed.
    Lemma ty_spelled t : allp P (nodes_ty t) -> self_legal (nodes_ty t) -> allp P (nodes_ty (replace_ty self t)).
    Proof. intros HA HL. apply allp_ty; [reflexivity|apply self_allp|exact HL|exact HA]. Qed.
  End Spelled.

  (** ** Interfaces *)
  Section Items.
    Variables (a : args) (attrs : list attr) (v : vis) (i : ident) (g : generics) (kd : type_kind).
    Let cx := cx_of a attrs v i g kd.
    Hypothesis Hi : nm P i.
    Hypothesis HSelf : nm P (I "Self").
    Hypothesis Hpp : nm P (I "_pin_project").
    Hypothesis Hg : gokp g.

    Lemma cgp : gokp (cx_generics cx). Proof. apply gokp_make. exact Hg. Qed.
    Lemma cpgp : gokp (cx_pgenerics cx). Proof. apply gokp_lifetime. exact Hg. Qed.
    Lemma cappp : allp P (nodes_ty (ty_applied (cx_ident cx) (cx_generics cx))).
    Proof. apply allp_applied; [exact Hi|apply cgp]. Qed.
    Lemma cselfp : allp P (nodes_ty ty_self). Proof. apply allp_ident. exact HSelf. Qed.
    Lemma kdef_okp k : gokp (kdef k cx).
    Proof.
      assert (Hw : forall x, In x (where_of g) -> allp P (nodes_wpred x)) by apply Hg.
      assert (Hp : forall x, In x (cx_pwhere cx) -> allp P (nodes_wpred x)).
      { intros x Hx. cbn in Hx. apply in_app_or in Hx. destruct Hx as [Hx|[<-|[]]]; [apply Hw; exact Hx|].
        cbn [nodes_wpred]. apply allp_app; [apply allp_applied; [exact Hi|exact Hg]|].
        cbn. apply allp_lt, allp_nil. }
      destruct k; [apply gokp_def; [apply cpgp|exact Hp]|apply gokp_def; [apply cpgp|exact Hp]|apply gokp_def; [apply cgp|exact Hw]].
    Qed.
    Lemma recv_okp lt mu : allp P (nodes_ty (pp_priv_ty "Pin" (targ (TyRef lt mu ty_self)))).
    Proof.
      apply allp_pp; [exact Hpp|]. apply allp_targ. cbn [nodes_ty]. apply allp_app; [|apply cselfp].
      destruct lt; [apply allp_lt, allp_nil|apply allp_nil].
    Qed.
    Let en := match kd with KEnum => true | KStruct => false end.
    Lemma signature_ok b1 b2 b3 im me : make_proj_impl cx b1 b2 b3 = OImpl im -> In me (i_methods im) ->
      (en && negb (is_some (ar_project a)) = false -> nm P (cx_mut_ident cx)) ->
      (en && negb (is_some (ar_project_ref a)) = false -> nm P (cx_ref_ident cx)) ->
      (pr_span (ar_project_replace a) = true -> en && negb (is_some (pr_ident (ar_project_replace a))) = false ->
       nm P (cx_own_ident cx)) ->
      allp P (nodes_signature me).
    Proof.
      intros E Hm H1 H2 H3. unfold make_proj_impl in E. injection E as <-. cbn [i_methods] in Hm.
      assert (Hsig : forall me lt mu t, m_self me = RecvTyped (pp_priv_ty "Pin" (targ (TyRef lt mu ty_self))) ->
        allp P (flat_map (fun x => nodes_ty (snd x)) (m_params me)) -> m_ret me = Some t -> allp P (nodes_ty t) ->
        allp P (nodes_signature me)).
      { intros me' lt mu t E1 E2 E3 E4. unfold nodes_signature. rewrite E1, E3. apply allp_app; [apply recv_okp|].
        apply allp_app; [exact E2|exact E4]. }
      change (cx_args cx) with a in Hm. change (cx_kind cx) with kd in Hm. fold en in Hm.
      apply in_app_or in Hm. destruct Hm as [Hm|Hm].
      { destruct (en && _) eqn:En in Hm; [destruct Hm|]. destruct Hm as [<-|[]].
        eapply Hsig; [reflexivity|apply allp_nil|reflexivity|]. apply allp_applied; [exact (H1 En)|apply cpgp]. }
      apply in_app_or in Hm. destruct Hm as [Hm|Hm].
      { destruct (en && _) eqn:En in Hm; [destruct Hm|]. destruct Hm as [<-|[]].
        eapply Hsig; [reflexivity|apply allp_nil|reflexivity|]. apply allp_applied; [exact (H2 En)|apply cpgp]. }
      destruct (pr_span _) eqn:Es in Hm; [|destruct Hm]. destruct (en && _) eqn:En in Hm; [destruct Hm|].
      destruct Hm as [<-|[]]. eapply Hsig; [reflexivity| |reflexivity|].
      - apply allp_flat. intros x [<-|[]]. apply cselfp.
      - apply allp_applied; [exact (H3 Es En)|apply cgp].
    Qed.
    Lemma wpred_okp t l : allp P (nodes_ty t) -> allp P (nodes_wpred (WTy [] (ty_pinned_fields_of t) [trait_bound (pp_path l GNone)])).
    Proof.
      intros H. cbn [nodes_wpred flat_map]. rewrite app_nil_r. apply allp_app; [|apply allp_pp_bound, Hpp].
      apply allp_pp; [exact Hpp|]. apply allp_targ. exact H.
    Qed.
    Lemma wrapper_okp lt t : allp P (nodes_ty t) -> allp P (nodes_ty (ty_wrapper lt t)).
    Proof.
      intros H. apply allp_pp; [exact Hpp|]. cbn [nodes_gargs flat_map nodes_garg app]. apply allp_lt. rewrite app_nil_r. exact H.
    Qed.
    Lemma helper_okp tys f : (forall j, In j (param_idents (g_params g)) -> nm P j) ->
      (forall t, In t tys -> allp P (nodes_ty t)) -> In f (helper_fields cx tys) -> allp P (nodes_ty (f_ty f)).
    Proof.
      intros Hps H Hf. unfold helper_fields in Hf.
      destruct Hf as [<-|Hf]; [|apply in_app_or in Hf; destruct Hf as [Hf|Hf]].
      - cbn [f_ty]. apply allp_pp; [exact Hpp|]. cbn [nodes_gargs flat_map nodes_garg app]. apply allp_lt. rewrite app_nil_r.
        assert (Hps' : forall j, In j (type_params (cx_generics cx)) -> nm P j).
        { intros j Hj. apply Hps. unfold type_params in Hj. apply in_flat_map in Hj. destruct Hj as (p & Hp & Hj).
          apply in_param_idents. exists p. split; [exact Hp|]. destruct p; [destruct Hj|exact Hj|destruct Hj]. }
        assert (Hph : forall t, In t (map (fun j => pp_priv_ty "PhantomData" (targ (ty_ident j))) (type_params (cx_generics cx))) ->
          allp P (nodes_ty t)).
        { intros t Ht. apply in_map_iff in Ht. destruct Ht as (j & <- & Hj). apply allp_pp; [exact Hpp|]. apply allp_targ, allp_ident, Hps', Hj. }
        unfold phantom_tuple. revert Hph.
        generalize (map (fun j => pp_priv_ty "PhantomData" (targ (ty_ident j))) (type_params (cx_generics cx))).
        intros l Hph. destruct l as [|t [|t' l]].
        + apply allp_nil.
        + cbn [nodes_ty]. apply Hph. left. reflexivity.
        + change (allp P (flat_map nodes_ty (t :: t' :: l))). apply allp_flat. exact Hph.
      - apply in_map_iff in Hf. destruct Hf as ([n t] & <- & Hf). cbn [f_ty snd]. apply H. eapply in_enum_from. exact Hf.
      - apply in_map_iff in Hf. destruct Hf as ([n lt] & <- & Hf). cbn. apply allp_lt, allp_nil.
    Qed.
    (** The generics of the impls for the item. *)
    Lemma trait_impl_ok tys im : In (OImpl im) (make_unpin_impl cx tys) \/ In (OImpl im) (make_drop_impl cx) ->
      (ar_unpin a = UDefault -> nm P (id_unpin i)) -> allp P (nodes_all_generics (i_generics im)).
    Proof.
      intros Hin Hh. destruct Hin as [Hin|Hin].
      - unfold make_unpin_impl in Hin. change (cx_args cx) with a in Hin. destruct (ar_unpin a).
        + assert (Hgg : gokp (mkGenerics (impl_params (cx_pgenerics cx)) (Some (where_of (cx_generics cx) ++
            [WTy [] (ty_pinned_fields_of (ty_applied (id_unpin (cx_ident cx)) (cx_pgenerics cx))) [trait_bound tr_unpin]])))).
          { split; [apply (gokp_impl _ cpgp)|]. intros w Hw. cbn [where_of g_where] in Hw. apply in_app_or in Hw.
            destruct Hw as [Hw|[<-|[]]]; [apply cgp; exact Hw|].
            apply wpred_okp. apply allp_applied; [exact (Hh eq_refl)|apply cpgp]. }
          destruct Hin as [E|[E|[E|[]]]]; [discriminate E| |]; injection E as <-; apply gokp_nodes, Hgg.
        + destruct Hin as [E|[]]. injection E as <-. apply gokp_nodes, gokp_impl, gokp_push; [apply cpgp|].
          apply wpred_okp, wrapper_okp, cselfp.
        + destruct Hin as [E|[E|[]]]; injection E as <-;
            (apply gokp_nodes, gokp_impl, gokp_push; [apply cpgp|]);
            (apply wpred_okp, wrapper_okp, allp_pp; [exact Hpp|apply allp_nil]).
      - unfold make_drop_impl in Hin. destruct (ar_pinned_drop _).
        + destruct Hin as [E|[]]. injection E as <-. apply gokp_nodes, gokp_impl, cgp.
        + destruct Hin as [E|[E|[E|[E|[]]]]]; [discriminate E| | |]; injection E as <-.
          * cbn [i_generics]. unfold nodes_all_generics, nodes_generics. cbn [g_params g_where flat_map nodes_param nodes_default app].
            rewrite !app_nil_r. apply allp_pp_bound. exact Hpp.
          * apply gokp_nodes, gokp_impl, cgp.
          * apply gokp_nodes, gokp_impl, cgp.
    Qed.
  End Items.
End Closed.

(** ** Who may use a node *)
Lemma in_names x l : existsb (String.eqb x) l = true <-> In x l.
Proof.
  rewrite existsb_exists. split; [intros (y & Hy & E); apply String.eqb_eq in E; subst y; exact Hy|].
  intros H. exists x. split; [exact H|apply String.eqb_refl].
Qed.
Definition same_names (l l' : list gparam) : Prop :=
  forall x, In x (map name (param_idents l)) <-> In x (map name (param_idents l')).
Lemma usable_names ed m user it gen l l' w n : same_names l l' ->
  usable ed m user it gen l w n -> usable ed m user it gen l' w n.
Proof.
  intros H. destruct n as [[[|k]|] [] [|i p]| | | |]; cbn [usable]; auto.
  all: assert (E : existsb (String.eqb (name i)) (map name (param_idents l)) = existsb (String.eqb (name i)) (map name (param_idents l')))
    by (apply eq_true_iff_eq; rewrite !in_names; apply H); rewrite E; auto.
Qed.
Lemma same_sym l l' : same_names l l' -> same_names l' l.
Proof. intros H x. symmetry. apply H. Qed.
Lemma same_trans l1 l2 l3 : same_names l1 l2 -> same_names l2 l3 -> same_names l1 l3.
Proof. intros H H' x. rewrite (H x). apply H'. Qed.
Lemma same_intro l l' : more l l' -> more l' l -> same_names l l'.
Proof.
  intros H H' x. rewrite !in_map_iff. split; intros (j & E & Hj); exists j; auto.
Qed.
Lemma same_lts_first l : same_names l (lts_first l).
Proof.
  apply same_intro; [apply more_lts_first|]. intros j H. apply in_param_idents in H. destruct H as (p & Hp & Hj).
  apply in_param_idents. exists p. split; [apply in_lts_first; exact Hp|exact Hj].
Qed.
Lemma same_strip l : same_names l (map strip_default l).
Proof.
  apply same_intro; [apply more_strip|]. intros j H. apply in_param_idents in H. destruct H as (p & Hp & Hj).
  apply in_map_iff in Hp. destruct Hp as (p' & <- & Hp). apply in_param_idents. exists p'. split; [exact Hp|].
  destruct p'; exact Hj.
Qed.
Lemma same_impl l : same_names l (map strip_default (lts_first l)).
Proof. eapply same_trans; [apply same_lts_first|apply same_strip]. Qed.
Lemma same_lifetime lt l : same_names l (PLt lt [] :: l).
Proof. apply same_intro; intros j H; exact H. Qed.
Lemma same_spelled self l : same_names l (map (replace_param self) l).
Proof. intros x. rewrite params_spelled. reflexivity. Qed.

Lemma look_in l x v : NoDup (map fst l) -> In (x, v) l -> look x l = Some v.
Proof.
  induction l as [|[y u] l IH]; [intros _ []|]. cbn [map fst look]. intros N [E|H].
  - injection E as -> ->. rewrite String.eqb_refl. reflexivity.
  - inversion N as [|? ? N1 N2]. destruct (String.eqb x y) eqn:E; [|apply IH; assumption].
    apply String.eqb_eq in E. subst y. elim N1. apply in_map_iff. exists (x, v). auto.
Qed.
Lemma look_none l x : ~ In x (map fst l) -> look x l = None.
Proof.
  induction l as [|[y u] l IH]; [reflexivity|]. cbn [map fst look]. intros H.
  destruct (String.eqb x y) eqn:E; [apply String.eqb_eq in E; subst y; elim H; left; reflexivity|].
  apply IH. intros Hx. apply H. right. exact Hx.
Qed.
Lemma named_sub gen x : In x (map fst (flat_map named_items gen)) -> In x (map name (flat_map introduces gen)).
Proof.
  intros H. apply in_map_iff in H. destruct H as ((y & v) & <- & H). apply in_flat_map in H. destruct H as (o & Ho & H).
  apply in_map_iff. destruct o; cbn in H; try (destruct H; fail); destruct H as [H|[]]; injection H as <- _;
    eexists; (split; [reflexivity|]); apply in_flat_map; eexists; (split; [exact Ho|]); left; reflexivity.
Qed.
Lemma named_nodup gen : NoDup (map name (flat_map introduces gen)) -> NoDup (map fst (flat_map named_items gen)).
Proof.
  induction gen as [|o gen IH]; [constructor|]. cbn [flat_map]. rewrite !map_app. intros H.
  assert (Hr : NoDup (map name (flat_map introduces gen))).
  { clear -H. induction (map name (introduces o)) as [|x l IHl]; [exact H|]. apply IHl. inversion H. assumption. }
  destruct o; cbn [named_items introduces map app] in *; try exact (IH Hr);
    (constructor; [|exact (IH Hr)]); inversion H as [|? ? N1 N2]; intros Hx; apply N1; cbn [fst] in Hx; apply named_sub; exact Hx.
Qed.

Lemma legal_inside ed m v x : legal ed m v -> within m x -> visible ed m v (Inside x).
Proof.
  intros H (r & ->). destruct v as [| |b p]; cbn in *; [exists (m ++ r); split; [reflexivity|exists r; reflexivity]|exact Logic.I|].
  destruct H as (t & E & (r' & ->)). exists t, ((t ++ r') ++ r). split; [exact E|]. split; [reflexivity|].
  exists (r' ++ r). rewrite app_assoc. reflexivity.
Qed.

Section Main.
  Variables (ed : edition) (m : module) (user : bool -> list ident -> viewer -> Prop) (it : item) (gen : list oitem).
  Let ps := g_params (generics_of it).
  Hypothesis Hap : apart it gen.
  Hypothesis Hleg : legal ed m (vis_of it).
  Hypothesis Hreach : in_reach ed m user it.
  Hypothesis Hself : self_legal (nodes_item it).
  Let P (w : viewer) : node -> Prop := usable ed m user it gen ps w.

  Lemma P_closed w : closed (P w).
  Proof.
    split; intros; try exact Logic.I.
    unfold P. cbn [usable]. destruct p as [|x [|y [|z [|]]]]; try discriminate H. rewrite H. exact Logic.I.
  Qed.
  Lemma P_param w j : In (name j) (map name (param_idents ps)) -> nm (P w) j.
  Proof.
    intros H q r. unfold P. apply in_names in H. destruct q as [[|k]|]; cbn [usable]; [exact Logic.I|rewrite H; exact Logic.I..].
  Qed.
  Lemma P_own w j : name j = "Self" \/ name j = name (name_of it) -> visible ed m (vis_of it) w -> nm (P w) j.
  Proof.
    intros H Hv q r. unfold P.
    assert (E : String.eqb (name j) "Self" || String.eqb (name j) (name (name_of it)) = true).
    { apply orb_true_iff. rewrite !String.eqb_eq. exact H. }
    destruct q as [[|k]|]; cbn [usable]; [exact Logic.I|destruct (existsb _ _); [exact Logic.I|rewrite E; exact Hv]..].
  Qed.
  Lemma P_named w x v : In (name x, v) (flat_map named_items gen) -> visible ed m v w -> nm (P w) x.
  Proof.
    intros H Hv q r. unfold P.
    assert (Hin : In (name x) (map name (flat_map introduces gen))) by (apply named_sub; apply in_map_iff; exists (name x, v); auto).
    assert (E : String.eqb (name x) "Self" || String.eqb (name x) (name (name_of it)) = false).
    { apply orb_false_iff. rewrite !String.eqb_neq. split; intros E; refine (ap_user _ _ Hap _ _ Hin); rewrite E;
        [right; reflexivity|left; left; reflexivity]. }
    pose proof (look_in _ _ _ (named_nodup _ (ap_names _ _ Hap)) H) as L.
    destruct q as [[|k]|]; cbn [usable]; [exact Logic.I|destruct (existsb _ _); [exact Logic.I|rewrite E, L; exact Hv]..].
  Qed.
  (** What the user wrote. *)
  Lemma P_user w n : In n (nodes_item it) -> usable ed m user it [] ps w n -> P w n.
  Proof.
    intros Hn H. unfold P. destruct n as [q [] p| | | |]; try exact H.
    destruct p as [|i p]; [destruct q as [[|k]|]; exact H|].
    assert (Hc : q <> Some 0 -> existsb (String.eqb (name i)) (map name (param_idents ps)) = false ->
      look (name i) (flat_map named_items gen) = None).
    { intros Hq E. apply look_none. intros Hin. apply named_sub in Hin. refine (ap_user _ _ Hap _ _ Hin). left. right. split.
      - exists q, i, p. auto.
      - intros F. apply in_names in F. unfold ps in E. rewrite E in F. discriminate F. }
    destruct q as [[|k]|]; cbn [usable] in *; [exact Logic.I| |];
      (destruct (existsb _ _) eqn:E; [exact Logic.I|]; destruct (_ || _); [exact H|]; rewrite Hc; [exact H|discriminate|reflexivity]).
  Qed.

  (** Seen by whom the item is visible to. *)
  Hypothesis Horig : no_leak ed m user it [] (as_item it).
  Lemma orig_generics w : visible ed m (vis_of it) w -> allp (P w) (nodes_all_generics (generics_of it)).
  Proof.
    intros Hv n Hn. apply P_user; [apply in_or_app; left; exact Hn|]. destruct it as [s|e|]; cbn [as_item vis_of generics_of] in *.
    - eapply Horig; [apply sh_struct|exact Hv|exact Hn].
    - eapply Horig; [apply sh_enum|exact Hv|]. apply in_or_app. left. exact Hn.
    - destruct Hn.
  Qed.
  Lemma insider_all w x : w = Inside x -> within m x -> allp (P w) (nodes_item it).
  Proof. intros -> Hx n Hn. apply P_user; [exact Hn|]. apply Hreach; [exact Hn|exact Hx]. Qed.

  Let self := self_type (name_of it) (generics_of it).
  Let sg := replace_generics self (generics_of it).
  Lemma own_nm w : visible ed m (vis_of it) w -> nm (P w) (name_of it).
  Proof. intros Hv. apply P_own; [right; reflexivity|exact Hv]. Qed.
  Lemma params_nm w j : In j (param_idents (g_params (generics_of it))) -> nm (P w) j.
  Proof. intros H. apply P_param. apply in_map. exact H. Qed.
  Lemma sg_ok w : visible ed m (vis_of it) w -> gokp (P w) sg.
  Proof.
    intros Hv. apply gokp_spelled; [apply P_closed|apply own_nm; exact Hv|apply params_nm|apply orig_generics; exact Hv|].
    eapply legal_app_l. exact Hself.
  Qed.
  Lemma sty_ok w t : visible ed m (vis_of it) w -> allp (P w) (nodes_ty t) -> self_legal (nodes_ty t) ->
    allp (P w) (nodes_ty (replace_ty self t)).
  Proof.
    intros Hv. apply ty_spelled; [apply P_closed|apply own_nm; exact Hv|apply params_nm|apply orig_generics; exact Hv].
  Qed.
  Lemma field_legal fs f : In fs (fields_of it) -> In f (fields_list fs) -> self_legal (nodes_ty (f_ty f)).
  Proof.
    intros Hf Hin. apply (legal_in (fun f => nodes_ty (f_ty f)) (fields_list fs)); [|exact Hin].
    eapply (legal_in nodes_fields); [eapply legal_app_r; exact Hself|exact Hf].
  Qed.
  Lemma inside_field w x fs f : w = Inside x -> within m x -> In fs (fields_of it) -> In f (fields_list fs) ->
    allp (P w) (nodes_ty (replace_ty self (f_ty f))).
  Proof.
    intros Hw Hx Hf Hin. apply sty_ok.
    - subst w. apply legal_inside; assumption.
    - pose proof (insider_all w x Hw Hx) as H. apply allp_app_r in H.
      apply (allp_flat_in _ (fun f => nodes_ty (f_ty f)) (fields_list fs)); [|exact Hin].
      eapply (allp_flat_in _ nodes_fields); eassumption.
    - eapply field_legal; eassumption.
  Qed.

  (** ** The generated items *)
  Variables (a : args) (attrs : list attr) (kd : type_kind).
  Let cx := cx_of a attrs (vis_of it) (name_of it) sg kd.
  Hypothesis Hpp : In ("_pin_project", VPub) (flat_map named_items gen).

  Lemma pp_nm w : nm (P w) (I "_pin_project").
  Proof. apply (P_named w (I "_pin_project") VPub); [exact Hpp|exact Logic.I]. Qed.
  Lemma pp_nm_look (w : viewer) :
    String.eqb "_pin_project" "Self" || String.eqb "_pin_project" (name (name_of it)) = false /\
    look "_pin_project" (flat_map named_items gen) = Some VPub.
  Proof.
    split; [|apply look_in; [apply named_nodup, (ap_names _ _ Hap)|exact Hpp]].
    apply orb_false_iff. split; [reflexivity|]. apply String.eqb_neq. intros E.
    refine (ap_user _ _ Hap (name (name_of it)) _ _); [left; left; reflexivity|]. apply named_sub. rewrite <- E.
    apply in_map_iff. exists ("_pin_project", VPub). auto.
  Qed.
  Lemma Self_nm w : visible ed m (vis_of it) w -> nm (P w) (I "Self").
  Proof. apply P_own. left. reflexivity. Qed.
  Lemma pvis w : visible ed m (determine_visibility (vis_of it)) w -> visible ed m (vis_of it) w.
  Proof. intros H. apply (determine_visibility_ok ed m _ Hleg) in H. apply H. Qed.
  Lemma same_sg : same_names ps (g_params sg).
  Proof. apply same_spelled. Qed.
  Lemma same_kdef k : same_names ps (g_params (kdef k cx)).
  Proof.
    eapply same_trans; [apply same_sg|]. destruct k; cbn [kdef pdef odef def_generics g_params].
    - eapply same_trans; [apply (same_lifetime (cx_lifetime cx))|apply same_lts_first].
    - eapply same_trans; [apply (same_lifetime (cx_lifetime cx))|apply same_lts_first].
    - apply same_lts_first.
  Qed.
  Lemma leak_intro o : same_names ps (declares o) ->
    (forall R ns w, shows ed m user it gen o R ns -> R w -> allp (P w) ns) -> no_leak ed m user it gen o.
  Proof. intros Hs H R ns w n Hsh HR Hn. eapply usable_names; [exact Hs|]. exact (H R ns w Hsh HR n Hn). Qed.

  Lemma struct_kind_leak k fs : (forall w f, In f (fields_list fs) -> visible ed m (vis_of it) w -> visible ed m (f_vis f) w ->
      allp (P w) (nodes_ty (f_ty f))) ->
    no_leak ed m user it gen (struct_kind k cx fs).
  Proof.
    intros Hf. assert (E : exists n, struct_kind k cx fs = OStruct (determine_visibility (vis_of it)) n (kdef k cx)
      (rebuild_fields fs (map (retype (kty k (cx_lifetime cx))) (fields_list fs)))) by (destruct k; eexists; reflexivity).
    destruct E as (n & ->). generalize (cx_lifetime cx). intros lt.
    apply leak_intro; [apply same_kdef|]. intros R ns w Hsh HR. inversion Hsh; subst; clear Hsh.
    - apply pvis in HR. apply gokp_nodes, kdef_okp; [apply P_closed|apply own_nm; exact HR|apply sg_ok; exact HR].
    - destruct HR as [Hv Hfv]. apply pvis in Hv. match goal with X : In f _ |- _ => rename X into Hin end.
      destruct (ProofsScope.rebuild_list fs (map (retype (kty k lt)) (fields_list fs))) as [Eq|Eq]; rewrite Eq in Hin; [destruct Hin|].
      apply in_map_iff in Hin. destruct Hin as (f1 & <- & Hin). cbn [retype f_ty f_vis] in *.
      apply allp_kty; [apply P_closed|]. apply Hf; assumption.
  Qed.
  Lemma enum_kind_leak k vs : (forall w v f, In v vs -> In f (fields_list (v_fields v)) -> visible ed m (vis_of it) w ->
      allp (P w) (nodes_ty (f_ty f))) ->
    no_leak ed m user it gen (enum_kind k cx vs).
  Proof.
    intros Hf. assert (E : exists n, enum_kind k cx vs = OEnum (determine_visibility (vis_of it)) n (kdef k cx)
      (map (variant_of (kty k (cx_lifetime cx))) vs)) by (destruct k; eexists; reflexivity).
    destruct E as (n & ->). generalize (cx_lifetime cx). intros lt.
    apply leak_intro; [apply same_kdef|]. intros R ns w Hsh HR. inversion Hsh; subst; clear Hsh.
    apply pvis in HR. apply allp_app.
    - apply gokp_nodes, kdef_okp; [apply P_closed|apply own_nm; exact HR|apply sg_ok; exact HR].
    - apply allp_flat. intros x Hx. apply in_map_iff in Hx. destruct Hx as (x0 & <- & Hx). unfold nodes_fields. cbn [variant_of v_fields].
      destruct (ProofsScope.rebuild_list (v_fields x0) (map (retype (kty k lt)) (fields_list (v_fields x0)))) as [Eq|Eq];
        rewrite Eq; [apply allp_nil|].
      apply allp_flat. intros f Hfin. apply in_map_iff in Hfin. destruct Hfin as (f1 & <- & Hin). cbn [retype f_ty].
      apply allp_kty; [apply P_closed|]. eapply Hf; eassumption.
  Qed.

  (** An impl for the item is visible only where the item is. *)
  Lemma impl_sees im w : i_self im = ty_applied (cx_ident cx) (cx_generics cx) -> same_names ps (g_params (i_generics im)) ->
    impl_visible ed m user it gen im w -> visible ed m (vis_of it) w.
  Proof.
    intros Hs Hn H.
    assert (Hin : In (NPath None false [name_of it]) (header im)) by (apply in_or_app; right; rewrite Hs; left; reflexivity).
    specialize (H _ Hin). apply (usable_names _ _ _ _ _ _ _ _ _ (same_sym _ _ Hn)) in H. cbn [usable] in H.
    assert (E : existsb (String.eqb (name (name_of it))) (map name (param_idents ps)) = false).
    { apply not_true_iff_false. intros E. apply in_names in E. exact (ap_params _ _ Hap E). }
    rewrite E, String.eqb_refl, orb_true_r in H. exact H.
  Qed.
  Definition kname (k : proj) (c : context) : ident :=
    match k with PMut => cx_mut_ident c | PRef => cx_ref_ident c | POwn => cx_own_ident c end.
  Hypothesis Hkinds : forall k, (match kd with KStruct => struct_has k a | KEnum => enum_has k a end) = true ->
    In (name (kname k cx), cx_pvis cx) (flat_map named_items gen).

  Lemma proj_impl_leak b1 b2 b3 : no_leak ed m user it gen (make_proj_impl cx b1 b2 b3).
  Proof.
    assert (Hsg := signature_ok). unfold make_proj_impl at 1. set (im := mkImpl _ _ _ _ _) in *.
    assert (Hn : same_names ps (g_params (i_generics im))) by (eapply same_trans; [apply same_sg|apply same_impl]).
    apply leak_intro; [exact Hn|]. intros R ns w Hsh HR. inversion Hsh; subst; clear Hsh.
    - assert (Hv : visible ed m (vis_of it) w) by (apply (impl_sees im); [reflexivity|exact Hn|exact HR]).
      apply gokp_nodes, gokp_impl, gokp_make, sg_ok. exact Hv.
    - destruct HR as [Hi Hmv].
      assert (Hv : visible ed m (vis_of it) w) by (apply (impl_sees im); [reflexivity|exact Hn|exact Hi]).
      match goal with X : In me _ |- _ => rename X into Hin end.
      assert (Ev : m_vis me = cx_pvis cx).
      { clear -Hin. unfold im in Hin. cbn [i_methods] in Hin.
        apply in_app_or in Hin. destruct Hin as [Hm|Hm]; [destruct (_ && _) in Hm; [destruct Hm|destruct Hm as [<-|[]]; reflexivity]|].
        apply in_app_or in Hm. destruct Hm as [Hm|Hm]; [destruct (_ && _) in Hm; [destruct Hm|destruct Hm as [<-|[]]; reflexivity]|].
        destruct (pr_span _) in Hm; [|destruct Hm]. destruct (_ && _) in Hm; [destruct Hm|destruct Hm as [<-|[]]; reflexivity]. }
      rewrite Ev in Hmv.
      apply (Hsg (P w) (P_closed w) a attrs (vis_of it) (name_of it) sg kd (Self_nm w Hv) (pp_nm w) (sg_ok w Hv) b1 b2 b3 im me eq_refl Hin).
      + intros E. apply (P_named w _ (cx_pvis cx)); [|exact Hmv]. apply (Hkinds PMut). destruct kd; [|reflexivity].
        cbn in E. unfold enum_has, given_name. destruct (ar_project a); [reflexivity|discriminate E].
      + intros E. apply (P_named w _ (cx_pvis cx)); [|exact Hmv]. apply (Hkinds PRef). destruct kd; [|reflexivity].
        cbn in E. unfold enum_has, given_name. destruct (ar_project_ref a); [reflexivity|discriminate E].
      + intros Es E. apply (P_named w _ (cx_pvis cx)); [|exact Hmv]. apply (Hkinds POwn). destruct kd.
        * cbn in E. unfold enum_has, given_name. destruct (ar_project_replace a); [discriminate E|discriminate E|reflexivity].
        * unfold struct_has. destruct (ar_project_replace a); [discriminate Es|reflexivity..].
  Qed.

  (** The other impls for the item, and the helper. *)
  Lemma impl_leak im : i_trait im <> None -> i_self im = ty_applied (cx_ident cx) (cx_generics cx) ->
    same_names ps (g_params (i_generics im)) ->
    (forall w, visible ed m (vis_of it) w -> allp (P w) (nodes_all_generics (i_generics im))) ->
    no_leak ed m user it gen (OImpl im).
  Proof.
    intros Ht Hs Hn H. apply leak_intro; [exact Hn|]. intros R ns w Hsh HR. inversion Hsh; subst; clear Hsh; [|contradiction].
    apply H. apply (impl_sees im); assumption.
  Qed.
  Lemma same_pimpl : same_names ps (g_params (impl_generics (cx_pgenerics cx))).
  Proof.
    eapply same_trans; [apply same_sg|]. eapply same_trans; [apply (same_lifetime (cx_lifetime cx))|apply same_impl].
  Qed.
  Lemma same_gimpl : same_names ps (g_params (impl_generics (cx_generics cx))).
  Proof. eapply same_trans; [apply same_sg|apply same_impl]. Qed.
  Lemma unpin_leak tys o :
    (forall w x t, w = Inside x -> within m x -> In t tys -> allp (P w) (nodes_ty t)) ->
    (ar_unpin a = UDefault -> In (name (id_unpin (name_of it)), vis_of it) (flat_map named_items gen)) ->
    In o (make_unpin_impl cx tys) -> no_leak ed m user it gen o.
  Proof.
    intros Ht Hh Hin.
    assert (Himpl : forall im, o = OImpl im -> i_trait im <> None -> i_self im = ty_applied (cx_ident cx) (cx_generics cx) ->
      same_names ps (g_params (i_generics im)) -> no_leak ed m user it gen (OImpl im)).
    { intros im -> H1 H2 H3. apply impl_leak; try assumption. intros w Hv.
      apply (trait_impl_ok (P w) (P_closed w) a attrs (vis_of it) (name_of it) sg kd (Self_nm w Hv) (pp_nm w) (sg_ok w Hv) tys im).
      - left. exact Hin.
      - intros E. eapply P_named; [exact (Hh E)|exact Hv]. }
    unfold make_unpin_impl in Hin, Himpl. change (cx_args cx) with a in Hin. destruct (ar_unpin a) eqn:Eu.
    - destruct Hin as [<-|[<-|[<-|[]]]].
      + apply leak_intro.
        { eapply same_trans; [apply same_sg|]. eapply same_trans; [apply (same_lifetime (cx_lifetime cx))|apply same_lts_first]. }
        intros R ns w Hsh HR. inversion Hsh; subst; clear Hsh.
        * apply gokp_nodes, gokp_def; [apply gokp_lifetime; [apply P_closed|apply sg_ok; exact HR]|apply sg_ok; exact HR].
        * destruct HR as [Hv Hfv]. match goal with X : In f _ |- _ => rename X into Hin end. cbn [fields_list] in Hin.
          assert (Ei : f_vis f = VInherited).
          { destruct Hin as [<-|Hin]; [reflexivity|]. apply in_app_or in Hin.
            destruct Hin as [Hin|Hin]; apply in_map_iff in Hin; destruct Hin as ([? ?] & <- & _); reflexivity. }
          rewrite Ei in Hfv. destruct Hfv as (x & -> & Hx).
          eapply (helper_okp (P (Inside x)) (P_closed _) a attrs (vis_of it) (name_of it) sg kd (pp_nm _) tys); [| |exact Hin].
          -- intros j Hj. apply P_param. apply same_sg. apply in_map. exact Hj.
          -- intros t Hin'. eapply Ht; [reflexivity|exact Hx|exact Hin'].
      + apply Himpl; [reflexivity|discriminate|reflexivity|apply same_pimpl].
      + apply Himpl; [reflexivity|discriminate|reflexivity|apply same_pimpl].
    - destruct Hin as [<-|[]]. apply Himpl; [reflexivity|discriminate|reflexivity|apply same_pimpl].
    - destruct Hin as [<-|[<-|[]]]; (apply Himpl; [reflexivity|discriminate|reflexivity|apply same_pimpl]).
  Qed.
  Lemma drop_leak o : In o (make_drop_impl cx) -> no_leak ed m user it gen o.
  Proof.
    intros Hin.
    assert (Himpl : forall im, o = OImpl im -> i_trait im <> None -> i_self im = ty_applied (cx_ident cx) (cx_generics cx) ->
      i_generics im = impl_generics (cx_generics cx) -> no_leak ed m user it gen (OImpl im)).
    { intros im -> H1 H2 H3. apply impl_leak; try assumption; [rewrite H3; apply same_gimpl|]. intros w Hv. rewrite H3.
      apply gokp_nodes, gokp_impl, gokp_make, sg_ok. exact Hv. }
    unfold make_drop_impl in Hin. destruct (ar_pinned_drop _).
    - destruct Hin as [<-|[]]. apply Himpl; [reflexivity|discriminate|reflexivity|reflexivity].
    - destruct Hin as [<-|[<-|[<-|[<-|[]]]]].
      + intros R ns w n Hsh. inversion Hsh.
      + intros R ns w n Hsh HR Hn. inversion Hsh; subst; clear Hsh; [|discriminate].
        cbn in Hn. destruct Hn as [<-|[]]. cbn [usable declares i_generics g_params].
        assert (E : existsb (String.eqb (name (I "_pin_project"))) (map name (param_idents [PTy (I "T") [trait_bound tr_drop] None])) = false)
          by reflexivity.
        rewrite E. change (name (I "_pin_project")) with "_pin_project". destruct (pp_nm_look w) as [E1 E2]. rewrite E1, E2. exact Logic.I.
      + apply Himpl; [reflexivity|discriminate|reflexivity|reflexivity].
      + apply Himpl; [reflexivity|discriminate|reflexivity|reflexivity].
  Qed.
  Lemma assert_leak ms : no_leak ed m user it gen (OAssert (impl_generics (cx_generics cx)) (ty_applied (cx_ident cx) (cx_generics cx)) ms).
  Proof.
    apply leak_intro; [apply same_gimpl|]. intros R ns w Hsh HR. inversion Hsh; subst; clear Hsh.
    destruct HR as (x & -> & Hx).
    assert (Hv : visible ed m (vis_of it) (Inside x)) by (apply legal_inside; assumption).
    apply allp_app; [apply gokp_nodes, gokp_impl, gokp_make, sg_ok; exact Hv|].
    apply allp_applied; [apply P_closed|apply own_nm; exact Hv|apply gokp_make, sg_ok; exact Hv].
  Qed.
End Main.

Lemma named_of o gen x v : In o gen -> named_items o = [(x, v)] -> In (x, v) (flat_map named_items gen).
Proof. intros H E. apply in_flat_map. exists o. split; [exact H|]. rewrite E. left. reflexivity. Qed.
Lemma field_nodes it fs f n : In fs (fields_of it) -> In f (fields_list fs) -> In n (nodes_ty (f_ty f)) -> In n (nodes_item it).
Proof.
  intros H1 H2 H3. apply in_or_app. right. apply in_flat_map. exists fs. split; [exact H1|]. apply in_flat_map. exists f. auto.
Qed.

Lemma c57_no_leak ed m user it e o :
  parse_derive it = Ok e -> no_pub_self it -> legal ed m (vis_of it) -> self_legal (nodes_item it) ->
  apart it (all_items e) -> in_reach ed m user it -> no_leak ed m user it [] (as_item it) ->
  In o (all_items e) -> no_leak ed m user it (all_items e) o.
Proof.
  intros Hd [Hv Hvf] Hleg Hself Hap Hreach Horig Hin.
  apply ProofsUnsafe.derive_form in Hd. destruct Hd as [(s & a & -> & _ & ->)|(n & a & -> & Ha & ->)].
  - set (it := ItStruct s) in *. set (self := self_type (s_ident s) (s_generics s)).
    set (cx := struct_cx a (spelled_struct s)) in *. set (fs := s_fields (spelled_struct s)) in *.
    set (gen := all_items (struct_out cx fs)) in *.
    assert (Ecx : cx = cx_of a (s_attrs (spelled_struct s)) (vis_of it) (name_of it) (replace_generics self (generics_of it)) KStruct).
    { unfold cx, struct_cx, spelled_struct. cbn [replace_struct s_attrs s_vis s_ident s_generics].
      change (vis_of it) with (s_vis s) in *. rewrite (replace_vis_id _ Hv). reflexivity. }
    assert (Hpp : In ("_pin_project", VPub) (flat_map named_items gen)).
    { apply (named_of (OExternCrate (I "pin_project") (I "_pin_project"))); [|reflexivity]. apply in_all. right. left. reflexivity. }
    assert (Hkinds : forall k, struct_has k a = true -> In (name (kname k cx), cx_pvis cx) (flat_map named_items gen)).
    { intros k Hk. apply (named_of (struct_kind k cx fs)); [|destruct k; reflexivity]. apply in_all.
      pose proof (struct_kind_in k a cx fs eq_refl Hk) as H. destruct (is_some _) in H; [left; exact H|right; exact H]. }
    assert (Hun : ar_unpin a = UDefault -> In (name (id_unpin (name_of it)), vis_of it) (flat_map named_items gen)).
    { intros E. apply (named_of (OStruct (cx_vis cx) (id_unpin (s_ident s))
           (def_generics (cx_pgenerics cx) (where_of (cx_generics cx)))
           (FNamed (helper_fields cx (map f_ty (filter pin_b (fields_list fs)))))));
        [|cbn [named_items]; rewrite Ecx; reflexivity].
      apply in_all. right. unfold struct_out. cbn [scoped]. right. rewrite !in_app_iff. right. left.
      unfold make_unpin_impl. change (cx_args cx) with a. rewrite E. left. reflexivity. }
    assert (Hfs : fields_list fs = map (replace_field self) (fields_list (s_fields s))) by apply fields_list_replace.
    assert (Hff : forall w f, In f (fields_list fs) -> visible ed m (vis_of it) w -> visible ed m (f_vis f) w ->
        allp (usable ed m user it gen (g_params (generics_of it)) w) (nodes_ty (f_ty f))).
    { intros w f Hf Hw Hfw. rewrite Hfs in Hf. apply in_map_iff in Hf. destruct Hf as (f0 & <- & Hf).
      cbn [replace_field f_ty f_vis] in *. rewrite replace_vis_id in Hfw by (eapply Hvf; [left; reflexivity|exact Hf]).
      eapply (sty_ok ed m user it gen); try eassumption.
      - intros x Hx. eapply (P_user ed m user it gen); try eassumption; [eapply (field_nodes it); [left; reflexivity|exact Hf|exact Hx]|].
        eapply (Horig _ _ w x (sh_field ed m user it [] _ _ _ _ f0 Hf)); [split; assumption|exact Hx].
      - eapply (field_legal it Hself); [left; reflexivity|exact Hf]. }
    unfold gen, all_items in Hin. apply in_app_or in Hin. destruct Hin as [Hin|Hin].
    + apply struct_exposed in Hin. destruct Hin as [k ->]. rewrite Ecx. apply struct_kind_leak; assumption.
    + apply struct_scoped in Hin. destruct Hin as [->|[[k ->]|[->|[->|[Hin|Hin]]]]].
      * intros R ns w x Hsh. inversion Hsh.
      * rewrite Ecx. apply struct_kind_leak; assumption.
      * unfold struct_impl. rewrite Ecx. rewrite Ecx in Hkinds. apply proj_impl_leak; assumption.
      * unfold assert_item. rewrite Ecx. apply assert_leak; assumption.
      * rewrite Ecx in Hin. eapply unpin_leak; [..|exact Hin]; try eassumption.
        intros w x t -> Hx Ht. apply in_map_iff in Ht. destruct Ht as (f & <- & Hf). apply filter_In in Hf. destruct Hf as [Hf _].
        rewrite Hfs in Hf. apply in_map_iff in Hf. destruct Hf as (f0 & <- & Hf). cbn [replace_field f_ty].
        eapply (inside_field ed m user it gen) with (fs := s_fields s); try eassumption; try reflexivity. left; reflexivity.
      * rewrite Ecx in Hin. eapply drop_leak; [..|exact Hin]; eassumption.
  - set (it := ItEnum n) in *. set (self := self_type (e_ident n) (e_generics n)).
    set (cx := enum_cx a (spelled_enum n)) in *. set (vs := e_variants (spelled_enum n)) in *.
    set (gen := all_items (enum_out cx vs)) in *.
    assert (Ecx : cx = cx_of a (e_attrs (spelled_enum n)) (vis_of it) (name_of it) (replace_generics self (generics_of it)) KEnum).
    { unfold cx, enum_cx, spelled_enum. cbn [replace_enum e_attrs e_vis e_ident e_generics].
      change (vis_of it) with (e_vis n) in *. rewrite (replace_vis_id _ Hv). reflexivity. }
    assert (Hpp : In ("_pin_project", VPub) (flat_map named_items gen)).
    { apply (named_of (OExternCrate (I "pin_project") (I "_pin_project"))); [|reflexivity]. apply in_all. right. left. reflexivity. }
    assert (Hkinds : forall k, enum_has k a = true -> In (name (kname k cx), cx_pvis cx) (flat_map named_items gen)).
    { intros k Hk. apply (named_of (enum_kind k cx vs)); [|destruct k; reflexivity]. apply in_all. left.
      exact (enum_kind_in k a cx vs eq_refl Hk). }
    assert (Hun : ar_unpin a = UDefault -> In (name (id_unpin (name_of it)), vis_of it) (flat_map named_items gen)).
    { intros E. apply (named_of (OStruct (cx_vis cx) (id_unpin (e_ident n))
           (def_generics (cx_pgenerics cx) (where_of (cx_generics cx)))
           (FNamed (helper_fields cx (flat_map (fun v => pinned_tys (fields_list (v_fields v))) vs)))));
        [|cbn [named_items]; rewrite Ecx; reflexivity].
      apply in_all. right. unfold enum_out. cbn [scoped]. right. rewrite !in_app_iff. right. left.
      unfold make_unpin_impl. change (cx_args cx) with a. rewrite E. left. reflexivity. }
    assert (Hvs : forall v f, In v vs -> In f (fields_list (v_fields v)) ->
      exists v0 f0, In v0 (e_variants n) /\ In f0 (fields_list (v_fields v0)) /\ f = replace_field self f0).
    { intros v f Hv' Hf. cbn in Hv'. apply in_map_iff in Hv'. destruct Hv' as (v0 & <- & Hv'). exists v0.
      cbn [replace_variant v_fields] in Hf. rewrite fields_list_replace in Hf. apply in_map_iff in Hf.
      destruct Hf as (f0 & <- & Hf). exists f0. auto. }
    assert (Hff : forall w v f, In v vs -> In f (fields_list (v_fields v)) -> visible ed m (vis_of it) w ->
        allp (usable ed m user it gen (g_params (generics_of it)) w) (nodes_ty (f_ty f))).
    { intros w v f Hv' Hf Hw. destruct (Hvs v f Hv' Hf) as (v0 & f0 & H1 & H2 & ->). cbn [replace_field f_ty].
      eapply (sty_ok ed m user it gen); try eassumption.
      - intros x Hx. eapply (P_user ed m user it gen); try eassumption.
        + eapply (field_nodes it (v_fields v0)); [cbn; apply in_map; exact H1|exact H2|exact Hx].
        + eapply (Horig _ _ w x (sh_enum ed m user it [] _ _ _ _)); [exact Hw|]. apply in_or_app. right.
          apply in_flat_map. exists v0. split; [exact H1|]. apply in_flat_map. exists f0. auto.
      - eapply (field_legal it Hself (v_fields v0)); [cbn; apply in_map; exact H1|exact H2]. }
    unfold gen, all_items in Hin. apply in_app_or in Hin. destruct Hin as [Hin|Hin].
    + apply enum_exposed in Hin. destruct Hin as [k ->]. rewrite Ecx. apply enum_kind_leak; assumption.
    + apply enum_scoped in Hin. destruct Hin as [->|[->|[Hin|Hin]]].
      * intros R ns w x Hsh. inversion Hsh.
      * unfold enum_impl. rewrite Ecx. rewrite Ecx in Hkinds. apply proj_impl_leak; assumption.
      * rewrite Ecx in Hin. eapply unpin_leak; [..|exact Hin]; try eassumption.
        intros w x t -> Hx Ht. apply in_flat_map in Ht. destruct Ht as (v & Hv' & Ht). apply in_map_iff in Ht.
        destruct Ht as (f & <- & Hf). apply filter_In in Hf. destruct Hf as [Hf _].
        destruct (Hvs v f Hv' Hf) as (v0 & f0 & H1 & H2 & ->). cbn [replace_field f_ty].
        eapply (inside_field ed m user it gen) with (fs := v_fields v0); try eassumption; try reflexivity.
        cbn. apply in_map. exact H1.
      * rewrite Ecx in Hin. eapply drop_leak; [..|exact Hin]; eassumption.
Qed.

