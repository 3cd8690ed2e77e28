(** Proofs for C60. *)
From Coq Require Import String List Bool Arith Lia Permutation.
From Verif Require Import Base Syntax ModelArgs ModelUtils ModelDerive.
From Verif Require Import SpecArgs SpecDerive SpecLifetime SpecExpand SpecRun SpecTraits SpecDecl SpecSized SpecTyping.
From Verif Require Import ProofsDerive ProofsExpand ProofsTypes ProofsTraitsForm ProofsOutlives ProofsVis ProofsDecl ProofsSized ProofsAuto ProofsRun ProofsRunReplace ProofsRunNames.
Import ListNotations.
Open Scope string_scope.
Open Scope list_scope.

(** ** Variables *)
Fixpoint look (G : scope) (y : string) : option ty :=
  match G with
  | [] => None
  | (z, o) :: G' => if String.eqb z y then o else look G' y
  end.
Lemma look_uses x t G : look G (name x) = Some t ->
  exists G', uses x t G G' /\ length G' = length G /\ forall y, y <> name x -> look G' y = look G y.
Proof.
  induction G as [|[z o] G IH]; cbn [look]; [discriminate|]. destruct (String.eqb z (name x)) eqn:E.
  - apply String.eqb_eq in E. subst z. intros ->. exists ((name x, None) :: G). split; [constructor|]. split; [reflexivity|].
    intros y Hy. cbn [look]. destruct (String.eqb (name x) y) eqn:E; [|reflexivity]. apply String.eqb_eq in E. congruence.
  - apply String.eqb_neq in E. intros H. destruct (IH H) as (G' & H1 & H2 & H3). exists ((z, o) :: G').
    split; [apply U_outer; assumption|]. split; [cbn [length]; congruence|].
    intros y Hy. cbn [look]. rewrite (H3 y Hy). reflexivity.
Qed.
Lemma look_copy x m u G : look G (name x) = Some (TyPtr m u) -> uses x (TyPtr m u) G G.
Proof.
  induction G as [|[z o] G IH]; cbn [look]; [discriminate|]. destruct (String.eqb z (name x)) eqn:E.
  - apply String.eqb_eq in E. subst z. intros ->. eapply U_copy. reflexivity.
  - apply String.eqb_neq in E. intros H. apply U_outer; auto.
Qed.
Lemma look_bind_in bs G n t : NoDup (map fst bs) -> In (n, t) bs -> look (bind_all bs G) n = Some t.
Proof.
  unfold bind_all. induction bs as [|[z u] bs IH]; cbn [map fst snd app look]; intros Hn Hin; [destruct Hin|].
  inversion Hn as [|? ? Hz Hn']; subst. destruct Hin as [E|Hin].
  - injection E as -> ->. rewrite String.eqb_refl. reflexivity.
  - destruct (String.eqb z n) eqn:E; [|auto]. apply String.eqb_eq in E. subst z. elim Hz. apply (in_map fst) in Hin. exact Hin.
Qed.
Lemma look_bind_out bs G n : ~ In n (map fst bs) -> look (bind_all bs G) n = look G n.
Proof.
  unfold bind_all. induction bs as [|[z u] bs IH]; cbn [map fst snd app look]; intros Hn; [reflexivity|].
  destruct (String.eqb z n) eqn:E; [apply String.eqb_eq in E; elim Hn; left; exact E|]. apply IH. intros X. apply Hn. right; exact X.
Qed.

(** ** Types *)
Lemma same_unparen t : same_ty t (TyParen t).
Proof. apply ST_sym, ST_paren. Qed.
Lemma same_ref lt m t : same_ty (TyRef lt m t) (TyRef lt m (TyParen t)).
Proof. apply ST_ref, same_unparen. Qed.
Lemma same_pin lt m t : same_ty (priv "Pin" (TyRef lt m t)) (priv "Pin" (TyRef lt m (TyParen t))).
Proof. apply (ST_lib "Pin" (TyRef lt m t) (TyRef lt m (TyParen t))); [apply LT_outside|apply LT_outside|apply same_ref]. Qed.

Section Bodies.
  Variable pd : ty -> Prop.
  Variable it : item.
  Variable e : expansion.
  Let self := own_type (name_of it) (generics_of it).

  (** The variables of a field list. *)
  Definition vars (lt : option string) (m : bool) (nl : list (nat * field)) : list (string * ty) :=
    map (fun nf => (name (binding nf), TyRef lt m (spelled_ty it (snd nf)))) nl.

  Lemma body_of_replace r n l : map body_of (enum_from n (map (replace_field r) l)) = map body_of (enum_from n l).
  Proof. rewrite enum_from_map, map_map. apply map_ext. intros [k f]. unfold body_of. cbn [snd fst]. rewrite pin_b_replace. reflexivity. Qed.
  Lemma move_of_replace r n l : map move_of (enum_from n (map (replace_field r) l)) = map move_of (enum_from n l).
  Proof. rewrite enum_from_map, map_map. apply map_ext. intros [k f]. unfold move_of. cbn [snd fst]. rewrite pin_b_replace. reflexivity. Qed.
  Lemma pinned_bindings_replace r l : pinned_bindings (map (replace_field r) l) = pinned_bindings l.
  Proof.
    unfold pinned_bindings. generalize 0. induction l as [|f l IH]; intros n; cbn [map enum_from filter snd]; [reflexivity|].
    rewrite pin_b_replace. destruct (pin_b f); cbn [map]; [f_equal; apply IH|apply IH].
  Qed.

  Lemma fits p fs lt m : self_pattern it p fs -> fields_legal fs ->
    pat_typed it (PLit p (fields_delim fs) (map binding (enum_from 0 (fields_list fs)))) (TyRef lt m ty_self)
      (vars lt m (enum_from 0 (fields_list fs))).
  Proof.
    intros Hp Hl. apply (P_lit it p _ _ lt m fs (fields_list fs)); [exact Hp| | |rewrite map_length, enum_from_length; reflexivity|].
    - destruct fs; cbn; auto.
    - assert (H : forall n l, (forall f, In f l -> In f (fields_list fs)) ->
        Forall2 (fun xf b => SpecTyping.binds it lt m (fields_delim fs) (fst xf) (snd xf) b)
          (combine (map binding (enum_from n l)) l) (vars lt m (enum_from n l))); [|apply H; auto].
      intros n l. revert n. induction l as [|f l IH]; intros n Hin; cbn [enum_from map combine vars]; constructor.
      + split; [|reflexivity]. intros Hd. cbn [fst snd]. unfold binding. cbn [fst snd].
        destruct fs as [k|k|]; try discriminate Hd. destruct Hl as [Hl _].
        destruct (f_ident f) as [i|] eqn:E; [reflexivity|]. elim (Hl f); [apply Hin; left; reflexivity|exact E].
      + apply IH. intros g Hg. apply Hin. right; exact Hg.
    - apply legal_vars. exact Hl.
  Qed.
  Lemma vars_fst lt m nl : map fst (vars lt m nl) = map name (map binding nl).
  Proof. unfold vars. rewrite !map_map. reflexivity. Qed.

  Definition named_as (d : option delim) (f : field) : Prop :=
    match d with Some Brace => f_ident f <> None | _ => f_ident f = None end.
  Lemma legal_named fs : fields_legal fs -> Forall (named_as (fields_delim fs)) (fields_list fs).
  Proof. destruct fs as [l|l|]; cbn; [intros [H _]|intros H|intros _; constructor]; apply Forall_forall; exact H. Qed.
  Lemma entry_named d f a : (forall b, a <> AVar b) -> entry_field d (f_ident f, a) = option_map name (f_ident f).
  Proof. intros Ha. destruct d as [[]|]; cbn [entry_field]; try reflexivity. destruct (f_ident f), a; try reflexivity. elim (Ha x). reflexivity. Qed.

  (** *** The fields of a projection by reference *)
  Lemma body_entries k lt m d : (k = PMut /\ m = true) \/ (k = PRef /\ m = false) ->
    forall l l' n G, Forall2 (field_projected k lt self) l l' -> Forall (named_as d) l ->
    NoDup (map name (map binding (enum_from n l))) ->
    (forall nf, In nf (enum_from n l) -> look G (name (binding nf)) = Some (TyRef (Some lt) m (spelled_ty it (snd nf)))) ->
    exists G', entries_typed pd d (map body_of (enum_from n l)) l' G G'.
  Proof.
    intros Hk. induction l as [|f l IH]; intros l' n G HP Hd Hn HG.
    - inversion HP; subst. eexists. constructor.
    - inversion HP as [|? f' ? ? Hf HP']; subst. inversion Hd as [|? ? Hf1 Hd']; subst.
      cbn [enum_from map] in Hn. inversion Hn as [|? ? Hn1 Hn2]; subst.
      pose proof (HG (n, f) (or_introl eq_refl)) as E. cbn [snd] in E.
      destruct (look_uses _ _ _ E) as (G1 & U & _ & K).
      assert (HG1 : forall nf, In nf (enum_from (S n) l) -> look G1 (name (binding nf)) = Some (TyRef (Some lt) m (spelled_ty it (snd nf)))).
      { intros nf Hin. rewrite K; [apply HG; right; exact Hin|]. intros X. apply Hn1. rewrite <- X. apply in_map, in_map. exact Hin. }
      destruct (IH _ (S n) G1 HP' Hd' Hn2 HG1) as (G2 & HE). exists G2. cbn [enum_from map].
      unfold body_of at 1. cbn [snd]. destruct (pin_b f) eqn:Ep.
      + apply pin_b_iff in Ep. pose proof (fp_pinned _ _ _ _ _ Hf Ep) as Et.
        eapply (ET_cons pd d _ _ _ _ (priv "Pin" (TyRef (Some lt) m (spelled_ty it f)))).
        * rewrite (fp_ident _ _ _ _ _ Hf). apply entry_named. discriminate.
        * cbn [snd]. eapply A_call; [|eapply AT_cons; [exact U|apply CO_same; apply ST_refl|apply AT_nil]].
          apply F_pin. apply LT_outside.
        * rewrite Et. apply CO_same. destruct Hk as [[-> ->]|[-> ->]]; apply same_pin.
        * exact HE.
      + assert (Hp : ~ pinned f) by (intros X; apply pin_b_iff in X; congruence).
        pose proof (fp_unpinned _ _ _ _ _ Hf Hp) as Et.
        eapply (ET_cons pd d _ _ _ _ (TyRef (Some lt) m (spelled_ty it f))).
        * rewrite (fp_ident _ _ _ _ _ Hf). unfold binding. cbn [fst snd]. unfold named_as in Hf1.
          destruct d as [[]|]; cbn [entry_field]; try (rewrite Hf1; reflexivity). destruct (f_ident f); [reflexivity|congruence].
        * cbn [snd]. apply A_var. exact U.
        * rewrite Et. apply CO_same. destruct Hk as [[-> ->]|[-> ->]]; apply same_ref.
        * exact HE.
  Qed.

  (** *** The fields that [project_replace] returns *)
  Lemma move_entries lt lt' d :
    forall l l' n G, Forall2 (field_projected POwn lt self) l l' ->
    NoDup (map name (map binding (enum_from n l))) ->
    (forall nf, In nf (enum_from n l) -> look G (name (binding nf)) = Some (TyRef lt' true (spelled_ty it (snd nf)))) ->
    exists G', entries_typed pd d (map move_of (enum_from n l)) l' G G' /\ length G' = length G /\
      forall y, (forall nf, In nf (enum_from n l) -> pin_b (snd nf) = false -> name (binding nf) <> y) -> look G' y = look G y.
  Proof.
    induction l as [|f l IH]; intros l' n G HP Hn HG.
    - inversion HP; subst. eexists. split; [constructor|]. auto.
    - inversion HP as [|? f' ? ? Hf HP']; subst.
      cbn [enum_from map] in Hn. inversion Hn as [|? ? Hn1 Hn2]; subst.
      pose proof (HG (n, f) (or_introl eq_refl)) as E. cbn [snd] in E.
      cbn [enum_from map]. unfold move_of at 1. cbn [snd]. destruct (pin_b f) eqn:Ep.
      + assert (HG0 : forall nf, In nf (enum_from (S n) l) -> look G (name (binding nf)) = Some (TyRef lt' true (spelled_ty it (snd nf))))
          by (intros nf Hin; apply HG; right; exact Hin).
        destruct (IH _ (S n) G HP' Hn2 HG0) as (G2 & HE & HL & HK). exists G2. split; [|split; [exact HL|]].
        * pose proof Ep as Ep'. apply pin_b_iff in Ep'. pose proof (fp_pinned _ _ _ _ _ Hf Ep') as Et.
          eapply (ET_cons pd d _ _ _ _ (priv "PhantomData" (spelled_ty it f))).
          -- rewrite (fp_ident _ _ _ _ _ Hf). apply entry_named. discriminate.
          -- cbn [snd]. eapply A_phantom. apply LT_outside.
          -- rewrite Et. apply CO_same, ST_refl.
          -- exact HE.
        * intros y Hy. apply HK. intros nf Hin. apply Hy. right; exact Hin.
      + destruct (look_uses _ _ _ E) as (G1 & U & L & K).
        assert (HG1 : forall nf, In nf (enum_from (S n) l) -> look G1 (name (binding nf)) = Some (TyRef lt' true (spelled_ty it (snd nf)))).
        { intros nf Hin. rewrite K; [apply HG; right; exact Hin|]. intros X. apply Hn1. rewrite <- X. apply in_map, in_map. exact Hin. }
        destruct (IH _ (S n) G1 HP' Hn2 HG1) as (G2 & HE & HL & HK). exists G2. split; [|split; [congruence|]].
        * assert (Hp : ~ pinned f) by (intros X; apply pin_b_iff in X; congruence).
          pose proof (fp_unpinned _ _ _ _ _ Hf Hp) as Et.
          eapply (ET_cons pd d _ _ _ _ (spelled_ty it f)).
          -- rewrite (fp_ident _ _ _ _ _ Hf). apply entry_named. discriminate.
          -- cbn [snd]. eapply A_call; [apply F_read|]. eapply AT_cons; [exact U| |apply AT_nil].
             eapply CO_ptr; apply ST_refl.
          -- rewrite Et. apply CO_same, ST_refl.
          -- exact HE.
        * intros y Hy. rewrite HK; [|intros nf Hin; apply Hy; right; exact Hin].
          apply K. intros X. apply (Hy (n, f)); [left; reflexivity|exact Ep|congruence].
  Qed.

  (** *** The guards *)
  Lemma guards_typed lt xs : forall P Gb,
    Forall (fun b => fst b = "__guard") P -> (P <> [] -> forall x, In x xs -> name (fst x) <> "__guard") ->
    (forall x, In x (tl xs) -> name (fst x) <> "__guard") ->
    NoDup (map (fun x => name (fst x)) xs) ->
    (forall x, In x xs -> look Gb (name (fst x)) = Some (TyRef lt true (snd x))) ->
    exists P' Gb', stmts_typed pd it e (map guard_stmt (map fst xs)) (P ++ Gb) (P' ++ Gb') /\ length Gb' = length Gb /\
      forall y, ~ In y (map (fun x => name (fst x)) xs) -> look Gb' y = look Gb y.
  Proof.
    induction xs as [|[x t] xs IH]; intros P Gb HP Hne Htl Hnd HG; cbn [map fst].
    - exists P, Gb. split; [constructor|]. auto.
    - pose proof (HG _ (or_introl eq_refl)) as E. cbn [fst snd] in E. destruct (look_uses _ _ _ E) as (Gb1 & U & L & K).
      assert (U' : uses x (TyRef lt true t) (P ++ Gb) (P ++ Gb1)).
      { destruct P as [|p P]; [exact U|]. pose proof (Hne ltac:(discriminate) _ (or_introl eq_refl)) as Hx. cbn [fst] in Hx.
        clear -HP U Hx. induction (p :: P) as [|[z o] Q IHQ]; [exact U|]. inversion HP as [|? ? Hz HQ]; subst. cbn [fst] in Hz.
        cbn [app]. apply U_outer; [congruence|]. apply IHQ. exact HQ. }
      inversion Hnd as [|? ? Hx Hnd']; subst.
      destruct (IH (("__guard", Some (priv "UnsafeDropInPlaceGuard" t)) :: P) Gb1) as (P' & Gb' & HS & HL & HK).
      + constructor; [reflexivity|exact HP].
      + intros _ y Hy. apply Htl. exact Hy.
      + intros y Hy. apply Htl. destruct xs; [destruct Hy|right; exact Hy].
      + exact Hnd'.
      + intros y Hy. rewrite K; [apply HG; right; exact Hy|]. intros X. apply Hx. cbn [fst]. rewrite <- X.
        apply (in_map (fun x => name (fst x))) in Hy. exact Hy.
      + exists P', Gb'. split; [|split; [congruence|]].
        * eapply SS_cons; [|exact HS]. unfold guard_stmt.
          apply (S_let pd it e (PBind (I "__guard")) None _ (priv "UnsafeDropInPlaceGuard" t) (priv "UnsafeDropInPlaceGuard" t)
                   [("__guard", priv "UnsafeDropInPlaceGuard" t)] _ (P ++ Gb1)); [|reflexivity|exact Logic.I|apply (P_var it (I "__guard"))].
          apply R_atom. eapply A_call; [apply F_drop_guard, LT_outside|]. eapply AT_cons; [exact U'| |apply AT_nil].
          eapply CO_ptr; apply ST_refl.
        * intros y Hy. cbn [map fst] in Hy. rewrite HK; [|intros X; apply Hy; right; exact X]. apply K. intros X. apply Hy. left. congruence.
  Qed.

  Lemma delim_replace r fs : fields_delim (replace_fields r fs) = fields_delim fs.
  Proof. destruct fs; reflexivity. Qed.
  Lemma listing_projected k lt fs fs' : fields_projected k lt self fs fs' -> listing fs' (fields_delim fs) (fields_list fs').
  Proof. intros []; cbn; auto. Qed.

  (** The literal that [project] and [project_ref] return. *)
  Lemma lit_typed k lt m p fs fs' t G : (k = PMut /\ m = true) \/ (k = PRef /\ m = false) ->
    constructs e p fs' t -> fields_projected k lt self fs fs' -> fields_legal fs ->
    exists G', rhs_typed pd e (RLit p (fields_delim fs) (map body_of (enum_from 0 (fields_list fs)))) t
      (bind_all (vars (Some lt) m (enum_from 0 (fields_list fs))) G) G'.
  Proof.
    intros Hk Hc HP Hl. pose proof (legal_vars fs Hl) as Hv. unfold vars_differ in Hv.
    destruct (body_entries k lt m (fields_delim fs) Hk (fields_list fs) (fields_list fs') 0
      (bind_all (vars (Some lt) m (enum_from 0 (fields_list fs))) G)) as (G' & HE).
    - apply fields_projected_list. exact HP.
    - apply legal_named. exact Hl.
    - exact Hv.
    - intros nf Hin. apply look_bind_in; [rewrite vars_fst; exact Hv|]. unfold vars. apply in_map_iff. exists nf. auto.
    - exists G'. eapply R_lit; [exact Hc|apply (listing_projected _ _ _ _ HP)|exact HE].
  Qed.

  (** The statements that [project_replace] ends with. *)
  Lemma own_typed lt lt' p fs fs' t G : constructs e p fs' t -> fields_projected POwn lt self fs fs' -> fields_legal fs -> replaceable fs ->
    exists G3 G4, stmts_typed pd it e (own_stmts p (replace_fields self fs)) (bind_all (vars lt' true (enum_from 0 (fields_list fs))) G) G3 /\
      rhs_typed pd e (RAtom (AVar (I "__result"))) t G3 G4.
  Proof.
    intros Hc HP Hl Hr. pose proof (legal_vars fs Hl) as Hv. unfold vars_differ in Hv.
    set (G0 := bind_all _ G).
    assert (HG0 : forall nf, In nf (enum_from 0 (fields_list fs)) -> look G0 (name (binding nf)) = Some (TyRef lt' true (spelled_ty it (snd nf)))).
    { intros nf Hin. apply look_bind_in; [rewrite vars_fst; exact Hv|]. unfold vars. apply in_map_iff. exists nf. auto. }
    destruct (move_entries lt lt' (fields_delim fs) (fields_list fs) (fields_list fs') 0 G0 (fields_projected_list _ _ _ _ _ HP) Hv HG0)
      as (G1 & HE & HL1 & HK1).
    pose proof (replaceable_result self fs Hr Hl) as Hres. pose proof (replaceable_guard self fs Hr Hl) as Hgu.
    rewrite fields_list_replace in Hres, Hgu.
    set (l := fields_list fs) in *. set (pl := filter (fun nf : nat * field => pin_b (snd nf)) (enum_from 0 l)).
    set (xs := rev (map (fun nf : nat * field => (binding nf, spelled_ty it (snd nf))) pl)).
    assert (Exs : rev (pinned_bindings l) = map fst xs).
    { unfold xs, pinned_bindings. rewrite map_rev, map_map. reflexivity. }
    assert (Hxs : forall x, In x xs -> exists nf, In nf (enum_from 0 l) /\ pin_b (snd nf) = true /\ x = (binding nf, spelled_ty it (snd nf))).
    { intros x Hx. unfold xs in Hx. apply in_rev in Hx. apply in_map_iff in Hx. destruct Hx as (nf & <- & Hx).
      apply filter_In in Hx. destruct Hx. eauto. }
    assert (Hnr : forall nf, In nf (enum_from 0 l) -> pin_b (snd nf) = true -> name (binding nf) <> "__result").
    { intros [n f] Hin Hp. apply (Hres (n, replace_field self f)).
      - rewrite enum_from_map. apply in_map_iff. exists (n, f). auto.
      - cbn [snd]. rewrite pin_b_replace. exact Hp. }
    assert (Hnd : NoDup (map (fun x => name (fst x)) xs)).
    { unfold xs. rewrite map_rev, map_map. cbn [fst]. apply NoDup_rev. unfold pl. clear -Hv. rewrite map_map in Hv.
      induction (enum_from 0 l) as [|nf nl IH]; cbn [map filter] in *; [constructor|]. inversion Hv as [|? ? H1 H2]; subst.
      destruct (pin_b (snd nf)); [|auto]. cbn [map]. constructor; [|auto]. intros X. apply H1. apply in_map_iff in X.
      destruct X as (y & E & Hy). apply filter_In in Hy. rewrite <- E. apply (in_map (fun nf => name (binding nf))), (proj1 Hy). }
    destruct (guards_typed lt' xs [] (("__result", Some t) :: G1)) as (P' & Gb' & HS & HLb & HKb).
    - constructor.
    - intros X. elim X. reflexivity.
    - intros b Hb'.
      assert (exists q y, map (fun nf : nat * field => (binding nf, spelled_ty it (snd nf))) pl = q ++ [y] /\ In b q) as (q & y & Eq & Hq).
      { unfold xs in Hb'. destruct (rev (map (fun nf : nat * field => (binding nf, spelled_ty it (snd nf))) pl)) as [|y q] eqn:E; [destruct Hb'|].
        exists (rev q), y. split.
        - rewrite <- (rev_involutive (map _ pl)), E. reflexivity.
        - apply in_rev in Hb'. exact Hb'. }
      apply map_eq_app in Eq. destruct Eq as (p1 & p2 & Epl & <- & Ey).
      destruct p2 as [|y0 [|]]; try discriminate. apply in_map_iff in Hq. destruct Hq as (x & <- & Hx).
      apply in_split in Hx. destruct Hx as (q1 & q2 & ->). cbn [fst].
      unfold pl in Epl. rewrite <- app_assoc in Epl. cbn [app] in Epl.
      apply filter_app_inv in Epl. destruct Epl as (a1 & a2 & E1 & _ & E2 & Hpx).
      apply filter_app_inv in E2. destruct E2 as (b1 & b2 & -> & _ & _ & Hpy).
      set (h := fun nf : nat * field => (fst nf, replace_field self (snd nf))).
      apply (Hgu (map h a1) (h x) (map h b1) (h y0) (map h b2)).
      + rewrite enum_from_map. rewrite E1, !map_app. cbn [map]. rewrite map_app. reflexivity.
      + cbn [h snd]. rewrite pin_b_replace. exact Hpx.
      + cbn [h snd]. rewrite pin_b_replace. exact Hpy.
    - exact Hnd.
    - intros x Hx. destruct (Hxs x Hx) as (nf & Hin & Hp & ->). cbn [fst snd look].
      destruct (String.eqb "__result" (name (binding nf))) eqn:E; [apply String.eqb_eq in E; elim (Hnr nf Hin Hp); auto|].
      rewrite HK1; [apply HG0; exact Hin|]. intros nf' Hin' Hp' X.
      assert (nf' = nf); [|congruence]. clear -Hv Hin Hin' X. rewrite map_map in Hv.
      induction (enum_from 0 l) as [|z nl IH]; [destruct Hin|]. cbn [map] in Hv. inversion Hv as [|? ? H1 H2]; subst.
      assert (Hc : forall y, In y nl -> name (binding y) <> name (binding z)).
      { intros y Hy E. apply H1. rewrite <- E. apply (in_map (fun nf => name (binding nf))), Hy. }
      destruct Hin as [->|Hin], Hin' as [->|Hin']; auto; exfalso; [apply (Hc nf' Hin')|apply (Hc nf Hin)]; congruence.
    - cbn [app] in HS.
      assert (Hlv : SpecTyping.leave (("__result", Some t) :: G1) (P' ++ Gb') = Gb').
      { unfold SpecTyping.leave. rewrite app_length, HLb, Nat.add_sub, skipn_app, skipn_all, Nat.sub_diag. reflexivity. }
      assert (Hlook : look Gb' "__result" = Some t).
      { rewrite HKb; [reflexivity|]. intros X. apply in_map_iff in X. destruct X as (x & E & Hx).
        destruct (Hxs x Hx) as (nf & Hin & Hp & ->). exact (Hnr nf Hin Hp E). }
      destruct (look_uses (I "__result") _ _ Hlook) as (G4 & U & _ & _). exists Gb', G4.
      split; [|apply R_atom, A_var, U]. unfold own_stmts. rewrite fields_list_replace, move_of_replace, pinned_bindings_replace, delim_replace.
      fold l. rewrite Exs. eapply SS_cons.
      + apply (S_let pd it e (PBind (I "__result")) None _ t t [("__result", t)] _ G1);
          [|reflexivity|exact Logic.I|apply (P_var it (I "__result"))].
        eapply R_lit; [exact Hc|apply (listing_projected _ _ _ _ HP)|exact HE].
      + eapply SS_cons; [|apply SS_nil]. rewrite <- Hlv. apply S_block. exact HS.
  Qed.

  (** ** Methods *)
  Definition mut_of (k : proj) : bool := match k with PRef => false | _ => true end.
  Definition get (k : proj) : string := match k with PRef => "get_ref" | _ => "get_unchecked_mut" end.
  Lemma self_moves lt m t k : (k = PMut /\ m = true) \/ (k = PRef /\ m = false) -> self_param (pin_self (Some lt) m) = t ->
    atom_typed pd (AMethod (I "self") (I (get k))) (TyRef (Some lt) m ty_self) (bind_all [("self", t)] []) [("self", None)].
  Proof.
    intros Hk <-. eapply A_method; [apply U_move|]. destruct Hk as [[-> ->]|[-> ->]]; [apply M_mut|apply M_ref]; apply LT_inside.
  Qed.
  (** After the first two statements of [project_replace]. *)
  Definition replace_scope : scope :=
    [("__guard", Some (priv "UnsafeOverwriteGuard" ty_self)); ("__self_ptr", Some (TyPtr true ty_self)); ("self", None); ("__replacement", None)].
  Lemma prologue_typed : stmts_typed pd it e replace_prologue
    (bind_all [("self", self_param (pin_self None true)); ("__replacement", ty_self)] []) replace_scope.
  Proof.
    unfold replace_prologue. eapply SS_cons.
    { apply (S_let pd it e (PBind (I "__self_ptr")) (Some (TyPtr true ty_self)) _ (TyRef None true ty_self) (TyPtr true ty_self)
        [("__self_ptr", TyPtr true ty_self)] _ [("self", None); ("__replacement", Some ty_self)]);
        [|split; [eapply CO_ptr; apply ST_refl|reflexivity]|exact Logic.I|apply (P_var it (I "__self_ptr"))].
      apply R_atom. eapply A_method; [apply U_move|]. apply M_mut. apply LT_inside. }
    eapply SS_cons; [|apply SS_nil].
    apply (S_let pd it e (PBind (I "__guard")) None _ (priv "UnsafeOverwriteGuard" ty_self) (priv "UnsafeOverwriteGuard" ty_self)
      [("__guard", priv "UnsafeOverwriteGuard" ty_self)] _ [("__self_ptr", Some (TyPtr true ty_self)); ("self", None); ("__replacement", None)]);
      [|reflexivity|exact Logic.I|apply (P_var it (I "__guard"))].
    apply R_atom. eapply A_call; [apply F_overwrite_guard, LT_outside|].
    eapply AT_cons; [eapply (U_copy (I "__self_ptr")); reflexivity|apply CO_same, ST_refl|].
    eapply AT_cons; [|apply CO_same, ST_refl|apply AT_nil].
    apply U_outer; [discriminate|]. apply U_outer; [discriminate|]. apply U_move.
  Qed.
  Lemma self_ptr : atom_typed pd (ARefMutDeref (I "__self_ptr")) (TyRef None true ty_self) replace_scope replace_scope.
  Proof. apply A_ref_mut. apply look_copy. reflexivity. Qed.
End Bodies.

(** ** Structs *)
Definition kbody (k : proj) (n : ident) (fs : fields) : body :=
  match k with
  | PMut | PRef => struct_body (get k) n fs
  | POwn => add_prologue replace_prologue (struct_body_own n fs)
  end.
Definition kbody_enum (k : proj) (n : ident) (vs : list variant) : body :=
  match k with
  | PMut | PRef => enum_body (get k) n vs
  | POwn => add_prologue replace_prologue (enum_body_own n vs)
  end.
(** The methods of the only inherent impl. *)
Lemma proj_impl_methods cx b br bo m : In m (inherent (make_proj_impl cx b br bo)) ->
  m = method_project cx b \/ m = method_project_ref cx br \/ m = method_project_replace cx bo.
Proof.
  unfold make_proj_impl. cbn [inherent i_trait i_methods]. intros H.
  apply in_app_or in H. destruct H as [H|H]; [|apply in_app_or in H; destruct H as [H|H]].
  - left. destruct (_ && _) in H; [destruct H|]. destruct H as [<-|[]]. reflexivity.
  - right. left. destruct (_ && _) in H; [destruct H|]. destruct H as [<-|[]]. reflexivity.
  - right. right. destruct (pr_span _) in H; [|destruct H]. destruct (_ && _) in H; [destruct H|]. destruct H as [<-|[]]. reflexivity.
Qed.
Lemma no_inherent l m : (forall o, In o l -> inherent o = []) -> ~ In m (flat_map inherent l).
Proof. intros H Hin. apply in_flat_map in Hin. destruct Hin as (o & Ho & Hm). rewrite (H o Ho) in Hm. destruct Hm. Qed.
Lemma unpin_not_inherent cx tys o : In o (make_unpin_impl cx tys) -> inherent o = [].
Proof. unfold make_unpin_impl. destruct (ar_unpin _); cbn [In]; intuition subst; reflexivity. Qed.
Lemma drop_not_inherent cx o : In o (make_drop_impl cx) -> inherent o = [].
Proof. unfold make_drop_impl. destruct (ar_pinned_drop _); cbn [In]; intuition subst; reflexivity. Qed.
Lemma when_not_inherent b o o' : inherent o = [] -> In o' (when b [o]) -> inherent o' = [].
Proof. destruct b; cbn; intuition subst; assumption. Qed.

Lemma struct_bodies a s m : In m (inherent_methods (struct_out (struct_cx a s) (s_fields s))) ->
  exists k, m_name m = proj_method k /\ m_body m = kbody k (proj_name k a (s_ident s)) (s_fields s).
Proof.
  intros H. unfold inherent_methods in H. apply in_flat_map in H. destruct H as (o & Ho & Hm).
  assert (X : inherent o = [] \/ o = make_proj_impl (struct_cx a s)
    (struct_body "get_unchecked_mut" (cx_mut_ident (struct_cx a s)) (s_fields s))
    (struct_body "get_ref" (cx_ref_ident (struct_cx a s)) (s_fields s)) (struct_body_own (cx_own_ident (struct_cx a s)) (s_fields s))).
  { unfold all_items, struct_out in Ho. cbn [exposed scoped] in Ho.
    repeat match goal with
    | H : In _ (_ ++ _) |- _ => apply in_app_or in H; destruct H as [H|H]
    | H : In _ (_ :: _) |- _ => destruct H as [H|H]
    | H : In _ [] |- _ => destruct H
    | H : In _ (when _ _) |- _ => left; eapply when_not_inherent; [|exact H]; reflexivity
    | H : In _ (make_unpin_impl _ _) |- _ => left; eapply unpin_not_inherent; exact H
    | H : In _ (make_drop_impl _) |- _ => left; eapply drop_not_inherent; exact H
    | H : _ = o |- _ => subst o
    end; try (left; reflexivity). right. reflexivity. }
  destruct X as [X| ->]; [rewrite X in Hm; destruct Hm|]. apply proj_impl_methods in Hm.
  destruct Hm as [->|[->| ->]]; [exists PMut|exists PRef|exists POwn]; (split; [reflexivity|]); cases_options a; reflexivity.
Qed.
Lemma enum_bodies a s m : In m (inherent_methods (enum_out (enum_cx a s) (e_variants s))) ->
  exists k, m_name m = proj_method k /\ m_body m = kbody_enum k (proj_name k a (e_ident s)) (e_variants s).
Proof.
  intros H. unfold inherent_methods in H. apply in_flat_map in H. destruct H as (o & Ho & Hm).
  assert (X : inherent o = [] \/ o = make_proj_impl (enum_cx a s)
    (enum_body "get_unchecked_mut" (cx_mut_ident (enum_cx a s)) (e_variants s))
    (enum_body "get_ref" (cx_ref_ident (enum_cx a s)) (e_variants s)) (enum_body_own (cx_own_ident (enum_cx a s)) (e_variants s))).
  { unfold all_items, enum_out in Ho. cbn [exposed scoped] in Ho.
    repeat match goal with
    | H : In _ (_ ++ _) |- _ => apply in_app_or in H; destruct H as [H|H]
    | H : In _ (_ :: _) |- _ => destruct H as [H|H]
    | H : In _ [] |- _ => destruct H
    | H : In _ (when _ _) |- _ => left; eapply when_not_inherent; [|exact H]; reflexivity
    | H : In _ (make_unpin_impl _ _) |- _ => left; eapply unpin_not_inherent; exact H
    | H : In _ (make_drop_impl _) |- _ => left; eapply drop_not_inherent; exact H
    | H : _ = o |- _ => subst o
    end; try (left; reflexivity). right. reflexivity. }
  destruct X as [X| ->]; [rewrite X in Hm; destruct Hm|]. apply proj_impl_methods in Hm.
  destruct Hm as [->|[->| ->]]; [exists PMut|exists PRef|exists POwn]; (split; [reflexivity|]); cases_options a; reflexivity.
Qed.

Lemma kind_cases k : k = POwn \/ (k = PMut /\ mut_of k = true) \/ (k = PRef /\ mut_of k = false).
Proof. destruct k; auto. Qed.

Lemma struct_method_typed pd s e a k lt m : parse_derive (ItStruct s) = Ok e -> options (s_attrs s) a -> ordered (g_params (s_generics s)) ->
  struct_has k a = true -> pin_lifetime (s_generics s) lt -> fields_legal (s_fields s) -> (k = POwn -> replaceable (s_fields s)) ->
  projection_method k lt a (s_ident s) (s_generics s) m ->
  m_body m = kbody k (proj_name k a (s_ident s)) (s_fields (spelled_struct s)) ->
  method_typed pd (ItStruct s) e m.
Proof.
  intros Hd Ho Hord Hk Hlt Hl Hr Hm Hb. destruct (struct_proj_in s e a k Hd Ho Hord Hk lt Hlt) as (v & fs' & Hin & HP).
  pose proof (K_struct e _ _ _ _ Hin) as Hc. pose proof (ret_eq (ItStruct s) a k lt (s_ident s)) as Er. cbn [generics_of name_of] in Er.
  pose proof (pm_ret _ _ _ _ _ _ Hm) as Et. rewrite Er in Et.
  set (t := declared_ty _ _) in *. set (self := own_type (s_ident s) (s_generics s)) in *.
  assert (Ef : s_fields (spelled_struct s) = replace_fields self (s_fields s))
    by (unfold spelled_struct; rewrite self_type_own; reflexivity).
  assert (Epat : struct_pat (s_fields (spelled_struct s)) 0 =
    PLit [I "Self"] (fields_delim (s_fields s)) (map binding (enum_from 0 (fields_list (s_fields s))))).
  { unfold struct_pat. rewrite Ef, delim_replace, fields_list_replace, binding_replace. reflexivity. }
  unfold method_typed. rewrite Hb, Et.
  destruct (kind_cases k) as [->|Hk'].
  - rewrite (pm_self _ _ _ _ _ _ Hm), (pm_params _ _ _ _ _ _ Hm). cbn [kbody add_prologue struct_body_own map fst snd].
    destruct (own_typed pd (ItStruct s) e lt None [proj_name POwn a (s_ident s)] (s_fields s) fs' t replace_scope Hc HP Hl (Hr eq_refl))
      as (G3 & G4 & HS & HR).
    eapply B_tail; [|exact HR|apply CO_same, ST_refl]. cbn [app].
    assert (App : forall l1 l2 G G1 G2, stmts_typed pd (ItStruct s) e l1 G G1 -> stmts_typed pd (ItStruct s) e l2 G1 G2 ->
      stmts_typed pd (ItStruct s) e (l1 ++ l2) G G2).
    { clear. intros l1 l2 G G1 G2 H. induction H; intros H2; [exact H2|]. cbn [app]. eapply SS_cons; eauto. }
    eapply App; [apply prologue_typed|]. rewrite Epat, Ef. eapply SS_cons; [|exact HS].
    eapply S_let; [apply R_atom, self_ptr|reflexivity|reflexivity|]. apply (fits (ItStruct s) _ (s_fields s)); [|exact Hl].
    apply SP_struct. reflexivity.
  - assert (Eself : m_self m = pin_self (Some lt) (mut_of k) /\ m_params m = [] /\
      kbody k (proj_name k a (s_ident s)) (s_fields (spelled_struct s)) = struct_body (get k) (proj_name k a (s_ident s)) (s_fields (spelled_struct s))).
    { rewrite (pm_self _ _ _ _ _ _ Hm), (pm_params _ _ _ _ _ _ Hm). destruct Hk' as [[-> _]|[-> _]]; auto. }
    destruct Eself as (-> & -> & ->). unfold struct_body. rewrite Epat, Ef, delim_replace, fields_list_replace, body_of_replace.
    destruct (lit_typed pd (ItStruct s) e k lt (mut_of k) [proj_name k a (s_ident s)] (s_fields s) fs' t [("self", None)] Hk' Hc HP Hl) as (G' & HL).
    eapply B_tail; [|exact HL|apply CO_same, ST_refl]. eapply SS_cons; [|apply SS_nil].
    eapply S_let; [apply R_atom; apply (self_moves pd lt (mut_of k) _ k Hk' eq_refl)|reflexivity|reflexivity|].
    apply (fits (ItStruct s) _ (s_fields s)); [|exact Hl]. apply SP_struct. reflexivity.
Qed.

Lemma enum_method_typed pd s e a k lt m : parse_derive (ItEnum s) = Ok e -> options (e_attrs s) a -> ordered (g_params (e_generics s)) ->
  enum_has k a = true -> pin_lifetime (e_generics s) lt -> (forall v, In v (e_variants s) -> fields_legal (v_fields v)) ->
  (k = POwn -> forall v, In v (e_variants s) -> replaceable (v_fields v)) ->
  projection_method k lt a (e_ident s) (e_generics s) m ->
  m_body m = kbody_enum k (proj_name k a (e_ident s)) (e_variants (spelled_enum s)) ->
  method_typed pd (ItEnum s) e m.
Proof.
  intros Hd Ho Hord Hk Hlt Hl Hr Hm Hb. destruct (enum_proj_vs s e a k Hd Ho Hord Hk lt Hlt) as (v & vs' & Hin & HP).
  pose proof (fun w H => K_variant e _ _ _ _ w Hin H) as Hc. pose proof (ret_eq (ItEnum s) a k lt (e_ident s)) as Er. cbn [generics_of name_of] in Er.
  pose proof (pm_ret _ _ _ _ _ _ Hm) as Et. rewrite Er in Et.
  set (t := declared_ty _ _) in *. set (self := own_type (e_ident s) (e_generics s)) in *.
  assert (Ev : e_variants (spelled_enum s) = map (replace_variant self) (e_variants s))
    by (unfold spelled_enum; rewrite self_type_own; reflexivity).
  assert (Epat : forall w, variant_pat (replace_variant self w) =
    PLit [I "Self"; v_ident w] (fields_delim (v_fields w)) (map binding (enum_from 0 (fields_list (v_fields w))))).
  { intros w. unfold variant_pat. cbn [replace_variant v_fields v_ident]. rewrite delim_replace, fields_list_replace, binding_replace. reflexivity. }
  assert (Hcov : forall arm_of, (forall w, arm_pat (arm_of w) = variant_pat w) ->
    forall w, In w (e_variants s) -> exists x, In x (map arm_of (e_variants (spelled_enum s))) /\ arm_covers w x).
  { intros f Hf w Hw. exists (f (replace_variant self w)). split.
    - rewrite Ev, map_map. apply (in_map (fun w => f (replace_variant self w))). exact Hw.
    - unfold arm_covers. rewrite Hf, Epat. eauto. }
  unfold method_typed. rewrite Hb, Et.
  destruct (kind_cases k) as [->|Hk'].
  - rewrite (pm_self _ _ _ _ _ _ Hm), (pm_params _ _ _ _ _ _ Hm). cbn [kbody_enum add_prologue enum_body_own map fst snd].
    rewrite app_nil_r. eapply B_match; [apply prologue_typed|apply self_ptr|reflexivity|apply Hcov; reflexivity|].
    intros x Hx. rewrite Ev, map_map in Hx. apply in_map_iff in Hx. destruct Hx as (w & <- & Hw).
    destruct (Forall2_in_l _ _ _ _ HP Hw) as (w' & Hw' & HW). specialize (Hc w' Hw'). rewrite (vp_ident _ _ _ _ _ HW) in Hc.
    destruct (own_typed pd (ItEnum s) e lt None _ (v_fields w) (v_fields w') t replace_scope Hc (vp_fields _ _ _ _ _ HW) (Hl w Hw) (Hr eq_refl w Hw))
      as (G3 & G4 & HS & HR).
    exists (vars (ItEnum s) None true (enum_from 0 (fields_list (v_fields w)))), t, G3, G4.
    cbn [variant_arm_own arm_pat arm_stmts arm_tail]. rewrite Epat. split; [|split; [exact HS|split; [exact HR|apply CO_same, ST_refl]]].
    apply (fits (ItEnum s)); [|apply Hl; exact Hw]. eapply SP_variant; [reflexivity|exact Hw].
  - assert (Eself : m_self m = pin_self (Some lt) (mut_of k) /\ m_params m = [] /\
      kbody_enum k (proj_name k a (e_ident s)) (e_variants (spelled_enum s)) = enum_body (get k) (proj_name k a (e_ident s)) (e_variants (spelled_enum s))).
    { rewrite (pm_self _ _ _ _ _ _ Hm), (pm_params _ _ _ _ _ _ Hm). destruct Hk' as [[-> _]|[-> _]]; auto. }
    destruct Eself as (-> & -> & ->). unfold enum_body. cbn [map].
    eapply B_match; [apply SS_nil|apply (self_moves pd lt (mut_of k) _ k Hk' eq_refl)|reflexivity|apply Hcov; reflexivity|].
    intros x Hx. rewrite Ev, map_map in Hx. apply in_map_iff in Hx. destruct Hx as (w & <- & Hw).
    destruct (Forall2_in_l _ _ _ _ HP Hw) as (w' & Hw' & HW). specialize (Hc w' Hw'). rewrite (vp_ident _ _ _ _ _ HW) in Hc.
    destruct (lit_typed pd (ItEnum s) e k lt (mut_of k) _ (v_fields w) (v_fields w') t [("self", None)] Hk' Hc (vp_fields _ _ _ _ _ HW) (Hl w Hw)) as (G' & HL).
    exists (vars (ItEnum s) (Some lt) (mut_of k) (enum_from 0 (fields_list (v_fields w)))), t, (bind_all (vars (ItEnum s) (Some lt) (mut_of k) (enum_from 0 (fields_list (v_fields w)))) [("self", None)]), G'.
    cbn [variant_arm arm_pat arm_stmts arm_tail]. rewrite Epat. split; [|split; [apply SS_nil|split; [|apply CO_same, ST_refl]]].
    + apply (fits (ItEnum s)); [|apply Hl; exact Hw]. eapply SP_variant; [reflexivity|exact Hw].
    + cbn [replace_variant v_fields v_ident]. rewrite delim_replace, fields_list_replace, body_of_replace. exact HL.
Qed.

(** ** Destructors *)
Lemma drop_method_typed (pd : ty -> Prop) it e : pd ty_self -> method_typed pd it e drop_method.
Proof.
  intros H. unfold method_typed, drop_method. cbn [m_body m_ret m_self m_params self_param map]. unfold drop_body.
  eapply B_unit. eapply SS_cons.
  { apply (S_let pd it e (PBind (I "__pinned_self")) None _ (pp_priv_ty "Pin" (targ (TyRef None true ty_self))) (pp_priv_ty "Pin" (targ (TyRef None true ty_self)))
      [("__pinned_self", pp_priv_ty "Pin" (targ (TyRef None true ty_self)))] _ [("self", None)]);
      [|reflexivity|exact Logic.I|apply (P_var it (I "__pinned_self"))].
    apply R_atom. eapply A_call; [apply F_pin, LT_inside|]. eapply AT_cons; [apply U_move|apply CO_same, ST_refl|apply AT_nil]. }
  eapply SS_cons; [|apply SS_nil]. eapply S_expr. eapply A_call; [eapply F_pinned_drop; [apply LT_inside|exact H]|].
  eapply AT_cons; [apply (U_move (I "__pinned_self"))|apply CO_same, ST_refl|apply AT_nil].
Qed.
Lemma dummy_method_typed pd it e : method_typed pd it e dummy_method.
Proof. unfold method_typed, dummy_method. cbn [m_body m_ret]. eapply B_unit. apply SS_nil. Qed.

Lemma unpin_items_typed pd it e a v i g pin tys o : In o (unpin_items a v i g pin tys) -> well_typed pd it e o.
Proof.
  unfold unpin_items. intros H.
  assert (X : (exists v n g fs, o = OStruct v n g fs) \/ (exists g t, o = empty_impl false g tr_unpin t) \/
    (exists g t, o = empty_impl true g tr_unsafe_unpin t)).
  { destruct (ar_unpin a); cbn [In] in H; intuition subst; eauto 12. }
  destruct X as [(? & ? & ? & ? & ->)|[(? & ? & ->)|(? & ? & ->)]]; [exact Logic.I| |];
    (split; [|intros m []]); [exists false, []|exists true, []]; (split; [constructor|]); (split; [reflexivity|constructor]).
Qed.
Lemma drop_items_typed (pd : ty -> Prop) it e a o : (ar_pinned_drop a = true -> pd ty_self) ->
  (forall o, In o (drop_items a (name_of it) (generics_of it)) -> In o (all_items e)) ->
  In o (drop_items a (name_of it) (generics_of it)) -> well_typed pd it e o.
Proof.
  unfold drop_items. intros Hpd Hsub H.
  assert (Es : applied (name_of it) (map as_arg (g_params (generics_of it))) = declared_ty (name_of it) (params_of it))
    by (rewrite params_of_generics; reflexivity).
  destruct (ar_pinned_drop a).
  - destruct H as [<-|[]]. split.
    + exists false, [("drop", false, false)]. split; [constructor|]. split; [reflexivity|].
      constructor; [|constructor]. repeat (split; [reflexivity|]). reflexivity.
    + intros m [<-|[]]. split; [exact Es|]. apply drop_method_typed. auto.
  - destruct H as [<-|[<-|[<-|[<-|[]]]]].
    + exact Logic.I.
    + split; [|intros m []]. exists false, []. split; [|split; [reflexivity|constructor]].
      apply T_generated. apply Hsub. left. reflexivity.
    + split; [|intros m []]. exists false, []. split; [|split; [reflexivity|constructor]].
      apply T_generated. apply Hsub. left. reflexivity.
    + split.
      * exists false, [("drop", true, true)]. split; [constructor|]. split; [reflexivity|].
        constructor; [|constructor]. repeat (split; [reflexivity|]). eexists. split; [reflexivity|apply LT_inside].
      * intros m [<-|[]]. split; [exact Es|]. apply dummy_method_typed.
Qed.

Lemma drop_items_in it e a : parse_derive it = Ok e -> options (attrs_of it) a -> ordered (g_params (generics_of it)) ->
  forall o, In o (drop_items a (name_of it) (generics_of it)) -> In o (all_items e).
Proof.
  intros H Ho Hord o Hin. destruct it as [s|en|]; [| |discriminate]; cbn [attrs_of name_of generics_of] in *.
  - destruct (struct_form _ _ _ H Ho) as [_ ->].
    rewrite <- (drop_form (s_ident s) (s_generics s) Hord a (s_attrs (spelled_struct s)) (replace_vis (s_vis s)) KStruct) in Hin.
    unfold all_items, struct_out. cbn [exposed scoped]. apply in_or_app. right. right. apply in_or_app. right.
    apply in_or_app. right. exact Hin.
  - destruct (enum_form _ _ _ H Ho) as [_ ->].
    rewrite <- (drop_form (e_ident en) (e_generics en) Hord a (e_attrs (spelled_enum en)) (replace_vis (e_vis en)) KEnum) in Hin.
    unfold all_items, enum_out. cbn [exposed scoped]. apply in_or_app. right. right. apply in_or_app. right.
    apply in_or_app. right. exact Hin.
Qed.

Lemma assert_typed s a e pd : ordered (g_params (s_generics s)) -> fields_legal (s_fields s) ->
  well_typed pd (ItStruct s) e (assert_item (struct_cx a (spelled_struct s)) (s_fields (spelled_struct s))).
Proof.
  intros Hord Hl. unfold assert_item. cbn [well_typed]. destruct (impl_header s a Hord) as [_ E]. split; [exact E|].
  exists s. split; [reflexivity|]. intros m Hm. apply in_map_iff in Hm. destruct Hm as ([n f] & <- & Hin).
  unfold spelled_struct in Hin. cbn [replace_struct s_fields] in Hin. rewrite fields_list_replace in Hin. unfold enumerate in Hin.
  rewrite enum_from_map in Hin. apply in_map_iff in Hin. destruct Hin as ([n' f'] & E' & Hin). cbn [fst snd] in E'. injection E' as <- <-.
  apply enum_from_in in Hin. destruct Hin as [_ Hin]. rewrite Nat.sub_0_r in Hin.
  unfold field_member. cbn [fst snd replace_field f_ident]. destruct (s_fields s) as [l|l|]; cbn [fields_list] in Hin.
  - destruct Hl as [Hl _]. pose proof (nth_error_In _ _ Hin) as Hin'. destruct (f_ident f') as [i|] eqn:Ei; [|elim (Hl f' Hin' Ei)].
    cbn [names_field]. eauto.
  - rewrite (Hl f' (nth_error_In _ _ Hin)). cbn [names_field]. apply nth_error_Some. congruence.
  - destruct n'; discriminate.
Qed.

Lemma c60 it e a (pd : ty -> Prop) o : parse_derive it = Ok e -> options (attrs_of it) a -> ordered (params_of it) ->
  (forall fs, In fs (fields_of it) -> fields_legal fs) ->
  (has_proj POwn it a = true -> forall fs, In fs (fields_of it) -> replaceable fs) ->
  (ar_pinned_drop a = true -> pd ty_self) ->
  In o (all_items e) -> well_typed pd it e o.
Proof.
  intros Hd Ho Hord Hl Hr Hpd Hin. rewrite params_of_generics in Hord.
  assert (Inh : forall im, In (OImpl im) (all_items e) -> i_trait im = None -> well_typed pd it e (OImpl im)).
  { intros im0 Him Htr. destruct (inherent_impl it e a Hd Ho Hord) as (im & lt & E & Hlt & HP).
    assert (In im0 (inherent_impls (all_items e))) as Him'.
    { unfold inherent_impls. apply in_flat_map. exists (OImpl im0). split; [exact Him|]. rewrite Htr. left. reflexivity. }
    rewrite E in Him'. destruct Him' as [<-|[]]. split; [unfold impl_conforms; rewrite Htr; apply (pi_safe _ _ _ _ _ _ HP)|].
    intros m Hm. split; [rewrite (pi_self _ _ _ _ _ _ HP), params_of_generics; reflexivity|].
    assert (Hm' : In m (inherent_methods e)).
    { unfold inherent_methods. apply in_flat_map. exists (OImpl im). split; [exact Him|]. cbn [inherent]. rewrite Htr. exact Hm. }
    destruct (Forall2_in_r _ _ _ (pi_methods _ _ _ _ _ _ HP) _ Hm) as (k & Hk & Hkm). apply filter_In in Hk. destruct Hk as [_ Hk].
    assert (Same : forall k', m_name m = proj_method k' -> k' = k).
    { intros k' X. rewrite (pm_name _ _ _ _ _ _ Hkm) in X. destruct k, k'; first [reflexivity|discriminate]. }
    destruct it as [s|en|]; [| |discriminate]; cbn [attrs_of name_of generics_of fields_of has_proj] in *.
    - destruct (struct_form _ _ _ Hd Ho) as [_ Ee]. rewrite Ee in Hm'.
      destruct (struct_bodies _ _ _ Hm') as (k' & Hn & Hb). apply Same in Hn. subst k'.
      apply (struct_method_typed pd s e a k lt m); try assumption.
      + apply Hl. left. reflexivity.
      + intros ->. apply Hr; [exact Hk|left; reflexivity].
    - destruct (enum_form _ _ _ Hd Ho) as [_ Ee]. rewrite Ee in Hm'.
      destruct (enum_bodies _ _ _ Hm') as (k' & Hn & Hb). apply Same in Hn. subst k'.
      apply (enum_method_typed pd en e a k lt m); try assumption.
      + intros v Hv. apply Hl. apply in_map. exact Hv.
      + intros -> v Hv. apply Hr; [exact Hk|apply in_map; exact Hv]. }
  destruct (item_forms it e a Hd Ho Hord) as (pin & _ & HF).
  destruct (HF o Hin) as [(?&?&?&?&?&_&_& -> &_)|[(?&?&?&?&?&_&_& -> &_)|[(?&?& ->)|[(im & -> & Htr)|[(t & ms & E)|[H|H]]]]]];
    try exact Logic.I.
  - apply Inh; assumption.
  - destruct it as [s|en|]; [| |discriminate]; cbn [attrs_of name_of generics_of fields_of has_proj] in *.
    + destruct (struct_form _ _ _ Hd Ho) as [_ Ee]. subst o. rewrite Ee in Hin. apply struct_items in Hin.
      destruct Hin as [(k & _ & X)|[(?&?&X)|[(?&X&_)|[X|[X|X]]]]]; try discriminate X.
      * destruct k; discriminate X.
      * rewrite X. apply assert_typed; [exact Hord|apply Hl; left; reflexivity].
      * exfalso. unfold make_unpin_impl in X. cbn [cx_args struct_cx cx_of] in X.
        destruct (ar_unpin a); cbn [In] in X; intuition discriminate.
      * exfalso. unfold make_drop_impl in X. destruct (ar_pinned_drop _) in X; cbn [In] in X; intuition discriminate.
    + destruct (enum_form _ _ _ Hd Ho) as [Ha Ee]. subst o. rewrite Ee in Hin. apply enum_items in Hin; [|apply (ae_replace_named _ _ Ha)].
      destruct Hin as [(k & _ & X)|[(?&?&X)|[(?&X&_)|[X|X]]]]; try discriminate X.
      * destruct k; discriminate X.
      * exfalso. unfold make_unpin_impl in X. cbn [cx_args enum_cx cx_of] in X.
        destruct (ar_unpin a); cbn [In] in X; intuition discriminate.
      * exfalso. unfold make_drop_impl in X. destruct (ar_pinned_drop _) in X; cbn [In] in X; intuition discriminate.
  - apply (unpin_items_typed _ _ _ _ _ _ _ _ _ _ H).
  - apply (drop_items_typed pd it e a o Hpd); [|exact H]. apply drop_items_in; assumption.
Qed.

(** ** Names that [project_replace] cannot cope with *)
Fixpoint pointer (t : ty) : bool :=
  match t with TyRef _ _ _ | TyPtr _ _ => true | TyParen u => pointer u | _ => false end.
Lemma same_pointer t u : same_ty t u -> pointer t = pointer u.
Proof. intros H. induction H as [| | | | | |s t u a b [] [] _ _]; cbn; congruence. Qed.
Lemma coerces_pointer t m u : coerces t (TyPtr m u) -> pointer t = true.
Proof. intros H. inversion H as [? ? H1|? ? ? ? ? H1 H2]; subst; apply same_pointer in H1; exact H1. Qed.
Lemma uses_look x t G G' : uses x t G G' -> look G (name x) = Some t /\
  forall y, look G' y = look G y \/ look G' y = None.
Proof.
  intros H. induction H as [G|m u G E|y o G G' Hy H IH]; cbn [look].
  - rewrite String.eqb_refl. split; [reflexivity|]. intros y. destruct (String.eqb (name x) y); auto.
  - rewrite String.eqb_refl. auto.
  - apply String.eqb_neq in Hy. rewrite Hy. destruct IH as [-> IH]. split; [reflexivity|].
    intros z. destruct (String.eqb y z); auto.
Qed.

Definition useless (G : scope) (n : string) : Prop := forall t, look G n = Some t -> pointer t = false.
Lemma guards_need pd it e bs : forall G G', stmts_typed pd it e (map guard_stmt bs) G G' ->
  (useless G "__result" -> forall b, In b bs -> name b <> "__result") /\
  (forall b, In b (tl bs) -> name b <> "__guard") /\
  (useless G "__guard" -> forall b, In b bs -> name b <> "__guard").
Proof.
  induction bs as [|b bs IH]; intros G G' H; cbn [map] in H.
  - split; [intros _ b []|]. split; [intros b []|intros _ b []].
  - inversion H as [|? ? ? G1 ? Hs Hss]; subst. unfold guard_stmt in Hs.
    inversion Hs as [p o r t u bs0 ? G0 Hr Ho _ Hp| |]; subst. inversion Hp as [? ?|]; subst. clear Hp Hs H.
    inversion Hr as [? ? ? ? Ha|]; subst. clear Hr.
    inversion Ha as [| | |? ? ts ? ? ? Hf Hargs|]; subst. clear Ha.
    inversion Hargs as [|? ? tb ub us ? Gb ? Hu Hc Hn]; subst. clear Hargs.
    assert (Eg : pointer t = false /\ exists w, ub = TyPtr true w).
    { inversion Hf; subst. inversion Hn; subst. split; [|eauto]. match goal with L : lib_ty _ _ _ |- _ => destruct L; reflexivity end. }
    destruct Eg as [Et (w & ->)]. inversion Hn; subst. clear Hn Hf. apply coerces_pointer in Hc. destruct (uses_look _ _ _ _ Hu) as [Hl Hk].
    destruct (IH _ _ Hss) as (I1 & _ & I3). clear IH Hss.
    assert (U3 : useless (bind_all [(name (I "__guard"), t)] G0) "__guard").
    { intros v. cbn. intros E. injection E as <-. exact Et. }
    assert (Here : forall n, useless G n -> name b <> n) by (intros n Un E; rewrite <- E in Un; rewrite (Un _ Hl) in Hc; discriminate).
    split; [|split].
    + intros U c [<-|Hin]; [apply Here; exact U|]. apply I1; [|exact Hin].
      intros v E. cbn in E. destruct (Hk "__result") as [X|X]; rewrite X in E; [apply U; exact E|discriminate].
    + intros c Hin. apply I3; [exact U3|exact Hin].
    + intros U c [<-|Hin]; [apply Here; exact U|]. apply I3; [exact U3|exact Hin].
Qed.

Lemma own_needs pd it e p fs G G3 : stmts_typed pd it e (own_stmts p fs) G G3 -> not_result (fields_list fs) /\ not_guard (fields_list fs).
Proof.
  intros H. unfold own_stmts in H. inversion H as [|? ? ? G1 ? Hs Hss]; subst. clear H.
  inversion Hs as [q o r t u bs0 ? G0 Hr Ho _ Hp| |]; subst. inversion Hp as [? ?|]; subst. clear Hp Hs.
  inversion Hr as [|? ? ? ? ? ? ? ? Hc _ _]; subst. clear Hr.
  inversion Hss as [|? ? ? G2 ? Hs _]; subst. inversion Hs as [| |? ? ? Hg]; subst. clear Hs Hss.
  apply guards_need in Hg. destruct Hg as (H1 & H2 & _).
  assert (U : useless (bind_all [(name (I "__result"), t)] G0) "__result").
  { intros v. cbn. intros E. injection E as <-. inversion Hc; subst; reflexivity. }
  specialize (H1 U). unfold pinned_bindings in *. split.
  - intros nf Hin Hp. apply H1. rewrite <- in_rev. apply in_map. apply filter_In. auto.
  - intros l1 x l2 y l3 E Hx Hy. rewrite E in H2. rewrite filter_app in H2. cbn [filter] in H2. rewrite Hx, filter_app in H2.
    cbn [filter] in H2. rewrite Hy in H2. rewrite map_app in H2. cbn [map] in H2. rewrite map_app in H2. cbn [map] in H2.
    apply H2. rewrite rev_app_distr. cbn [rev]. rewrite rev_app_distr. cbn [rev].
    set (A := rev (map binding (filter _ l3))). set (B := rev (map binding (filter _ l2))).
    destruct A as [|a A]; cbn [app tl].
    + apply in_or_app. left. apply in_or_app. right. left. reflexivity.
    + rewrite <- !app_assoc. apply in_or_app. right. apply in_or_app. right. apply in_or_app. right. left. reflexivity.
Qed.
Lemma stmts_app pd it e l1 : forall l2 G G', stmts_typed pd it e (l1 ++ l2) G G' -> exists G1, stmts_typed pd it e l2 G1 G'.
Proof. induction l1 as [|s l1 IH]; intros l2 G G' H; [eauto|]. cbn [app] in H. inversion H; subst. eauto. Qed.

Lemma c60_replace it e a (pd : ty -> Prop) : parse_derive it = Ok e -> options (attrs_of it) a -> ordered (params_of it) ->
  has_proj POwn it a = true -> (forall o, In o (all_items e) -> well_typed pd it e o) ->
  forall fs, In fs (fields_of it) -> replaceable fs.
Proof.
  intros Hd Ho Hord Hh Hw fs Hfs. rewrite params_of_generics in Hord.
  destruct (inherent_impl it e a Hd Ho Hord) as (im & lt & E & Hlt & HP).
  assert (Him : In (OImpl im) (all_items e) /\ i_trait im = None).
  { assert (X : In im (inherent_impls (all_items e))) by (rewrite E; left; reflexivity). unfold inherent_impls in X.
    apply in_flat_map in X. destruct X as (o & Hin & X). destruct o as [| |im'| | |]; try destruct X.
    destruct (i_trait im') eqn:Et; destruct X; [subst; auto|contradiction]. }
  destruct Him as [Him Htr]. destruct (Hw _ Him) as [_ Hmt]. clear Hw.
  assert (Hin : In POwn (filter (fun k => has_proj k it a) all_proj)) by (apply filter_In; split; [cbn; auto|exact Hh]).
  assert (Hm : exists m, In m (i_methods im) /\ projection_method POwn lt a (name_of it) (generics_of it) m).
  { destruct (Forall2_in_l _ _ _ _ (pi_methods _ _ _ _ _ _ HP) Hin) as (m & H1 & H2). eauto. }
  destruct Hm as (m & Hm & Hpm). destruct (Hmt m Hm) as [_ HT]. unfold method_typed in HT.
  assert (Hm' : In m (inherent_methods e)).
  { unfold inherent_methods. apply in_flat_map. exists (OImpl im). split; [exact Him|]. cbn [inherent]. rewrite Htr. exact Hm. }
  assert (Same : forall k', m_name m = proj_method k' -> k' = POwn).
  { intros k' X. rewrite (pm_name _ _ _ _ _ _ Hpm) in X. destruct k'; first [reflexivity|discriminate]. }
  destruct it as [s|en|]; [| |discriminate]; cbn [attrs_of name_of generics_of fields_of has_proj] in *.
  - destruct (struct_form _ _ _ Hd Ho) as [_ Ee]. rewrite Ee in Hm'.
    destruct (struct_bodies _ _ _ Hm') as (k' & Hn & Hb). apply Same in Hn. subst k'. rewrite Hb in HT. destruct Hfs as [<-|[]].
    cbn [kbody struct_body_own add_prologue] in HT. inversion HT as [|? ? ? ? ? ? ? Hss _ _|]; subst.
    apply (stmts_app _ _ _ replace_prologue) in Hss. destruct Hss as (G1 & Hss). inversion Hss as [|? ? ? ? ? _ Hown]; subst. apply own_needs in Hown.
    destruct Hown as [H1 H2]. apply (not_result_replaceable (self_type (s_ident s) (s_generics s))); assumption.
  - destruct (enum_form _ _ _ Hd Ho) as [_ Ee]. rewrite Ee in Hm'.
    destruct (enum_bodies _ _ _ Hm') as (k' & Hn & Hb). apply Same in Hn. subst k'. rewrite Hb in HT.
    apply in_map_iff in Hfs. destruct Hfs as (v & <- & Hv).
    cbn [kbody_enum enum_body_own add_prologue] in HT. inversion HT as [| |? ? ? n ? ? ? ? ? _ _ _ _ Harm]; subst.
    set (self := self_type (e_ident en) (e_generics en)) in *.
    destruct (Harm (variant_arm_own (proj_name POwn a (e_ident en)) (replace_variant self v))) as (bs & ut & G3 & G4 & _ & Hown & _).
    { apply in_map. unfold spelled_enum. fold self. apply (in_map (replace_variant self)). exact Hv. }
    cbn [variant_arm_own arm_stmts] in Hown. apply own_needs in Hown. destruct Hown as [H1 H2].
    apply (not_result_replaceable self); assumption.
Qed.

Lemma c60_replace_iff it e a (pd : ty -> Prop) : parse_derive it = Ok e -> options (attrs_of it) a -> ordered (params_of it) ->
  (forall fs, In fs (fields_of it) -> fields_legal fs) ->
  (ar_pinned_drop a = true -> pd ty_self) -> has_proj POwn it a = true ->
  ((forall o, In o (all_items e) -> well_typed pd it e o) <-> (forall fs, In fs (fields_of it) -> replaceable fs)).
Proof. intros; split; [eapply c60_replace; eassumption|]. intros; eapply c60; eauto. Qed.

(** ** Types as written: without parentheses and with one name for the library *)
Fixpoint plain_ty (t : ty) : ty :=
  match t with
  | TyParen u => plain_ty u
  | TyRef lt m u => TyRef lt m (plain_ty u)
  | TyPtr m u => TyPtr m (plain_ty u)
  | TyPath None (Path b [Seg p GNone; Seg q GNone; Seg s (GAngle false [ATy u])]) =>
    if (ident_is p "pin_project" || ident_is p "_pin_project") && ident_is q "__private"
    then TyPath None (Path true [seg1 "pin_project"; seg1 "__private"; Seg s (GAngle false [ATy (plain_ty u)])])
    else t
  | _ => t
  end.
Lemma plain_lib s u t : lib_ty s [ATy u] t ->
  plain_ty t = TyPath None (Path true [seg1 "pin_project"; seg1 "__private"; Seg (I s) (GAngle false [ATy (plain_ty u)])]).
Proof. intros []; reflexivity. Qed.
Lemma same_plain t u : same_ty t u -> plain_ty t = plain_ty u.
Proof.
  induction 1; cbn [plain_ty]; try congruence.
  repeat match goal with L : lib_ty _ _ _ |- _ => apply plain_lib in L end. congruence.
Qed.
Lemma plain_self t : plain_ty t = ty_self -> same_ty t ty_self.
Proof.
  induction t; cbn [plain_ty]; intros E; try discriminate.
  - destruct q as [[]|]; [discriminate|]. destruct p as [b [|[i [| |]] [|[j [| |]] [|[k [|[] [|[] []]|]] []]]]]; try (rewrite <- E; apply ST_refl).
    destruct (_ && _); discriminate.
  - eapply ST_trans; [apply ST_paren|auto].
Qed.

Lemma c60_pinned_drop it e a (pd : ty -> Prop) : parse_derive it = Ok e -> options (attrs_of it) a -> ordered (params_of it) ->
  ar_pinned_drop a = true -> (forall o, In o (all_items e) -> well_typed pd it e o) -> exists t, same_ty t ty_self /\ pd t.
Proof.
  intros Hd Ho Hord Ha Hw. rewrite params_of_generics in Hord.
  pose proof (drop_items_in it e a Hd Ho Hord) as Hin. unfold drop_items in Hin. rewrite Ha in Hin.
  destruct (Hw _ (Hin _ (or_introl eq_refl))) as [_ Hm]. destruct (Hm _ (or_introl eq_refl)) as [_ HT]. clear Hw Hin Hm.
  unfold method_typed in HT. cbn [drop_method m_body m_ret m_self m_params self_param map] in HT. unfold drop_body in HT.
  inversion HT as [? ? ? Hss| |]; subst. clear HT.
  inversion Hss as [|? ? ? G1 ? Hs Hss']; subst. clear Hss. inversion Hs as [q o r t u bs0 ? G0 Hr Eo _ Hp| |]; subst. clear Hs.
  inversion Hp as [? ?|]; subst. clear Hp. inversion Hr as [? ? ? ? Hc|]; subst. clear Hr.
  inversion Hc as [| | |? ? ts ? ? ? Hf Hargs|]; subst. clear Hc.
  inversion Hf as [lt m v p Hl Ef| | | |]; subst. clear Hf.
  inversion Hargs as [|? ? w ? us ? Gb ? Hu Hco Hn]; subst. clear Hargs. inversion Hn; subst. clear Hn.
  inversion Hu as [G Eg|? ? ? Ew|? ? ? ? Hne]; subst; [| |destruct Hne; reflexivity].
  2: discriminate.
  inversion Hco as [? ? Hsame|]; subst. clear Hco Hu.
  inversion Hss' as [|? ? ? G2 ? Hs _]; subst. clear Hss'. inversion Hs as [|? ? ? ? Hc|]; subst. clear Hs.
  inversion Hc as [| | |? ? ts ? ? ? Hf Hargs|]; subst. clear Hc.
  inversion Hf as [| | | |lt' v' p' Hl' Hpd]; subst. clear Hf.
  inversion Hargs as [|? ? w ? us ? Gc ? Hu Hco Hn]; subst. clear Hargs.
  inversion Hu as [G Eg|? ? ? Ew|? ? ? ? Hne]; subst; [| |destruct Hne; reflexivity].
  2: inversion Hl.
  inversion Hco as [? ? Hs2|]; subst; [|inversion Hl'].
  exists v'. split; [|exact Hpd]. apply plain_self.
  apply same_plain in Hsame. apply same_plain in Hs2. rewrite (plain_lib _ _ _ Hl), (plain_lib _ _ _ Hl') in Hs2.
  cbn [plain_ty] in *. change (plain_ty ty_self) with ty_self in Hsame. congruence.
Qed.
