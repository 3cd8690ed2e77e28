(** The tokens of printed items read back as those items. *)
From Coq Require Import String Ascii List Bool Arith Lia.
From Verif Require Import Base Syntax SyntaxInd ModelUtils ModelDerive ModelLints ModelPrint SpecArgs SpecParse SpecRead SpecItems SpecOutput ProofsRead ProofsBlocks.
Import ListNotations.
Open Scope string_scope.
Open Scope list_scope.

Definition good_ty (t : ty) : bool := source_ty t && parses_ty t.
Definition good_bound (b : bound) : bool := source_bound b && parses_bound b.

(** ** Types and bounds *)
Lemma type_back t : good_ty t = true ->
  ev (fun m => forall rest, follow rest = true -> not_plus rest = true -> read_ty m true (print_ty t ++ rest) = Some (t, rest)).
Proof.
  unfold good_ty. intros S. bandh. eapply ev_mono; [apply (proj1 read_back t); assumption|].
  intros m R rest F N. apply R; [exact F|intros _; exact N|discriminate].
Qed.
Lemma bound_back b : good_bound b = true -> ev (fun m => forall rest, follow rest = true -> rb m (print_bound b ++ rest) = Some (b, rest)).
Proof.
  unfold good_bound. intros S. bandh. destruct read_back as (_ & _ & _ & _ & _ & B & _). exact (B b H H0).
Qed.
Lemma chain_back {A} (f : nat -> reader A) pr (ok : A -> bool) l :
  (forall x, ok x = true -> ev (fun m => forall rest, follow rest = true -> f m (pr x ++ rest) = Some (x, rest))) ->
  some_in l = true -> forallb ok l = true ->
  ev (fun m => forall rest, follow rest = true -> not_plus rest = true -> chain (f m) (eat "+") m (sep_by [punct "+"] (map pr l) ++ rest) = Some (l, rest)).
Proof.
  intros F N O. rewrite forallb_forall in O.
  assert (E : ev (fun m => forall x, In x l -> forall rest, follow rest = true -> f m (pr x ++ rest) = Some (x, rest))).
  { apply (ev_Forall (fun x m => forall rest, follow rest = true -> f m (pr x ++ rest) = Some (x, rest))).
    apply Forall_forall. intros x Hx. apply F, O, Hx. }
  eapply ev_mono; [apply (ev_and _ _ E (ev_le (length l)))|]. intros m [R L] rest Fo Np. cbv beta in *.
  apply chain_sep; [destruct l; [discriminate|congruence]|exact L|reflexivity| | |].
  - destruct rest as [|[i|c b|s|d y] rest]; try reflexivity. cbn [not_plus eat] in *. apply negb_true_iff in Np. rewrite Np. reflexivity.
  - intros x y r Hx _. apply R; [apply removelast_incl, Hx|reflexivity].
  - intros l1 x ->. apply R; [apply in_or_app; right; left; reflexivity|exact Fo].
Qed.
Lemma lt_back lt : quoted lt = true -> ev (fun m : nat => forall rest, follow rest = true -> read_lt (print_lt lt ++ rest) = Some (lt, rest)).
Proof. intros Q. apply ev_all. intros m rest _. apply read_lt_print, Q. Qed.

(** ** Generic parameters *)
Definition good_param (p : gparam) : bool := source_param p && parses_param p.
Lemma forallb_both {A} (f g : A -> bool) l : forallb f l = true -> forallb g l = true -> forallb (fun x => f x && g x) l = true.
Proof. rewrite !forallb_forall. intros F G x Hx. rewrite (F x Hx), (G x Hx). reflexivity. Qed.

(** What follows a parameter: a comma or [>]. *)
Lemma after_colon_lts bs : forallb quoted bs = true ->
  ev (fun m => forall c r, c = ","%char \/ c = ">"%char ->
    after_colon m read_lt (print_lts bs ++ TPunct c false :: r) = Some (bs, TPunct c false :: r)).
Proof.
  intros Q. destruct bs as [|b bs].
  - apply ev_all. intros m c r [->| ->]; reflexivity.
  - eapply ev_mono; [apply (chain_back (fun _ => read_lt) print_lt quoted (b :: bs) lt_back eq_refl Q)|].
    intros m R c r Hc. cbv beta in R. unfold after_colon, print_lts. cbn [app]. unfold punct at 1. cbn [eat]. rewrite Ascii.eqb_refl.
    apply R; destruct Hc as [->| ->]; reflexivity.
Qed.
Lemma after_colon_bounds bs : forallb good_bound bs = true ->
  ev (fun m => forall c r, c = ","%char \/ c = ">"%char \/ c = "="%char ->
    after_colon m (rb m) (print_bounds bs ++ TPunct c false :: r) = Some (bs, TPunct c false :: r)).
Proof.
  intros Q. destruct bs as [|b bs].
  - apply ev_all. intros m c r [->|[->| ->]]; reflexivity.
  - eapply ev_mono; [apply (chain_back rb print_bound good_bound (b :: bs) bound_back eq_refl Q)|].
    intros m R c r Hc. cbv beta in R. unfold after_colon, print_bounds. cbn [app]. unfold punct at 1. cbn [eat]. rewrite Ascii.eqb_refl.
    apply R; destruct Hc as [->|[->| ->]]; reflexivity.
Qed.
Lemma expr_reads e : source_expr e && parses_expr e = true ->
  ev (fun m => forall rest, follow rest = true -> read_expr m (print_expr e ++ rest) = Some (e, rest)).
Proof.
  intros S. bandh. destruct read_back as (_ & _ & _ & _ & _ & _ & E). apply (expr_back e (E e) H H0).
Qed.
Lemma default_back {A} (f : nat -> reader A) pr (ok : A -> bool) d :
  (forall x, ok x = true -> ev (fun m => forall rest, follow rest = true -> not_plus rest = true -> f m (pr x ++ rest) = Some (x, rest))) ->
  opt_ok ok d = true ->
  ev (fun m => forall c r, c = ","%char \/ c = ">"%char ->
    read_default (f m) (opt_list (fun x => punct "=" :: pr x) d ++ TPunct c false :: r) = Some (d, TPunct c false :: r)).
Proof.
  intros F O. destruct d as [d|].
  - eapply ev_mono; [apply (F d O)|]. intros m R c r Hc. cbv beta in R. unfold read_default. cbn [opt_list app]. unfold punct. cbn [eat].
    rewrite Ascii.eqb_refl. rewrite R; [reflexivity| |]; destruct Hc as [->| ->]; reflexivity.
  - apply ev_all. intros m c r [->| ->]; reflexivity.
Qed.
Lemma eat_const x : eat_word "const" (TIdent (I "const") :: x) = Some x.
Proof. reflexivity. Qed.
Lemma name_const i ts : name_ok i = true -> eat_word "const" (TIdent i :: ts) = None.
Proof.
  intros H. cbn. assert (E : ident_is i "const" = false) by (apply path_word_not; [apply name_word, H|reflexivity|reflexivity]). rewrite E. reflexivity.
Qed.
Lemma default_head {A} (pr : A -> list ttree) d c r : c = ","%char \/ c = ">"%char ->
  exists c' r', opt_list (fun x => punct "=" :: pr x) d ++ TPunct c false :: r = TPunct c' false :: r' /\
    (c' = ","%char \/ c' = ">"%char \/ c' = "="%char).
Proof. intros H. destruct d as [d|]; cbn [opt_list app]; eexists _, _; (split; [reflexivity|]); intuition. Qed.

Lemma param_back p : good_param p = true ->
  ev (fun m => forall c r, c = ","%char \/ c = ">"%char -> read_param m (print_param p ++ TPunct c false :: r) = Some (p, TPunct c false :: r)).
Proof.
  unfold good_param. destruct p as [lt bs|i bs d|i t d]; cbn [source_param parses_param print_param]; intros S; bandh.
  - eapply ev_mono; [apply (after_colon_lts bs); assumption|]. intros m R c r Hc. cbv beta in R. unfold read_param. rewrite <- app_assoc.
    rewrite read_lt_print by assumption. rewrite R by exact Hc. reflexivity.
  - assert (D : opt_ok good_ty d = true) by (destruct d; [cbn in *; unfold good_ty; rewrite H2, H1; reflexivity|reflexivity]).
    assert (B : forallb good_bound bs = true) by (apply forallb_both; assumption).
    eapply ev_mono; [apply (ev_and _ _ (after_colon_bounds bs B) (default_back (fun m => read_ty m true) print_ty good_ty d type_back D))|].
    intros m [R1 R2] c r Hc. cbv beta in *. cbn [app]. rewrite <- app_assoc. unfold read_param. cbn [read_lt].
    rewrite name_const by assumption. rewrite name_reads by assumption.
    destruct (default_head print_ty d c r Hc) as (c' & r' & E & Hc'). pose proof (R2 c r Hc) as R2'. rewrite E in *. rewrite R1 by exact Hc'.
    rewrite R2'. reflexivity.
  - assert (D : opt_ok (fun e => source_expr e && parses_expr e) d = true) by (destruct d; [cbn in *; rewrite H2, H1; reflexivity|reflexivity]).
    assert (T : good_ty t = true) by (unfold good_ty; rewrite H3, H0; reflexivity).
    eapply ev_mono; [apply (ev_and _ _ (type_back t T) (default_back read_expr print_expr _ d (fun e He => ev_mono _ _ (expr_reads e He) (fun m R rest F _ => R rest F)) D))|].
    intros m [R1 R2] c r Hc. cbv beta in *. cbn [app]. rewrite <- app_assoc. unfold read_param. cbn [read_lt t_id].
    rewrite eat_const. rewrite name_reads by assumption. unfold punct at 1. cbn [eat]. rewrite Ascii.eqb_refl.
    destruct (default_head print_expr d c r Hc) as (c' & r' & E & Hc'). pose proof (R2 c r Hc) as R2'. rewrite E in *.
    rewrite R1; [rewrite R2'; reflexivity| |]; destruct Hc' as [->|[->| ->]]; reflexivity.
Qed.
Lemma param_gt p r : good_param p = true -> eat ">" (print_param p ++ r) = None.
Proof. destruct p; reflexivity. Qed.
Lemma params_back g : forallb good_param (g_params g) = true ->
  ev (fun m => forall rest, eat "<" rest = None -> read_params m (print_params g ++ rest) = Some (g_params g, rest)).
Proof.
  intros O. unfold print_params. destruct (g_params g) as [|p ps] eqn:Eg.
  - apply ev_all. intros m rest E. unfold read_params. cbn [app]. rewrite E. reflexivity.
  - clear Eg. set (l := p :: ps) in *. rewrite forallb_forall in O.
    assert (E : ev (fun m => forall x, In x l -> forall c r, c = ","%char \/ c = ">"%char -> read_param m (print_param x ++ TPunct c false :: r) = Some (x, TPunct c false :: r))).
    { apply (ev_Forall (fun x m => forall c r, c = ","%char \/ c = ">"%char -> read_param m (print_param x ++ TPunct c false :: r) = Some (x, TPunct c false :: r))).
      apply Forall_forall. intros x Hx. apply param_back, O, Hx. }
    eapply ev_mono; [apply (ev_and _ _ E (ev_le (length l)))|]. intros m [R L] rest _. cbv beta in *.
    unfold read_params. cbn [app]. unfold punct at 1. cbn [eat]. rewrite Ascii.eqb_refl. rewrite <- app_assoc.
    apply list_to_sep; [exact L|intros x r Hx; apply param_gt, O, Hx|]. intros x c r Hx Hc. apply R; assumption.
Qed.

(** ** Where clauses *)
Definition good_wpred (w : wpred) : bool := source_wpred w && parses_wpred w.
(** After the where clause: a body or a semicolon. *)
Definition after_where (ts : list ttree) : bool :=
  match ts with TPunct c false :: _ => Ascii.eqb c ";" | TGroup Brace _ :: _ => true | _ => false end.
Definition after_pred (ts : list ttree) : bool :=
  match ts with TPunct c false :: _ => Ascii.eqb c ";" || Ascii.eqb c "," | TGroup Brace _ :: _ => true | _ => false end.
Lemma after_pred_ends ts : after_pred ts = true -> ends ts = true /\ follow ts = true /\ not_plus ts = true.
Proof.
  destruct ts as [|[i|c [] |s|[] l] ts]; try discriminate; [|repeat split]. cbn [after_pred]. intros H. apply orb_prop in H.
  destruct H as [H|H]; apply Ascii.eqb_eq in H; subst c; repeat split.
Qed.
Lemma bound_ends b r : source_bound b = true -> ends (print_bound b ++ r) = false.
Proof.
  destruct b as [lt|q lts p]; [reflexivity|]. cbn [source_bound print_bound]. intros S. bandh.
  destruct q; [reflexivity|]. destruct lts; [|reflexivity]. destruct p as [[] l]; [reflexivity|]. cbn [source_path print_path print_for app] in *. bandh.
  destruct l as [|s l]; [discriminate|]. destruct (segs_start (s :: l) r) as (i & r' & E); [discriminate|]. rewrite E. reflexivity.
Qed.
Lemma bounds_read {A} (f : nat -> reader A) pr (ok : A -> bool) bs :
  (forall x, ok x = true -> ev (fun m => forall rest, follow rest = true -> f m (pr x ++ rest) = Some (x, rest))) ->
  (forall x r, ok x = true -> ends (pr x ++ r) = false) -> forallb ok bs = true ->
  ev (fun m => forall rest, after_pred rest = true -> read_bounds m (f m) (sep_by [punct "+"] (map pr bs) ++ rest) = Some (bs, rest)).
Proof.
  intros F N O. destruct bs as [|b bs].
  - apply ev_all. intros m rest Q. unfold read_bounds. cbn [map sep_by app]. apply after_pred_ends in Q. destruct Q as [-> _]. reflexivity.
  - eapply ev_mono; [apply (chain_back f pr ok (b :: bs) F eq_refl O)|]. intros m R rest Q. cbv beta in R. apply after_pred_ends in Q. destruct Q as (_ & Q1 & Q2).
    unfold read_bounds. assert (E : ends (sep_by [punct "+"] (map pr (b :: bs)) ++ rest) = false).
    { cbn [forallb] in O. bandh. cbn [map sep_by]. destruct (map pr bs); [apply N; assumption|]. rewrite <- app_assoc. apply N. assumption. }
    rewrite E. apply R; assumption.
Qed.
Lemma for_reads lts : forallb quoted lts = true ->
  ev (fun m => forall rest, (lts = [] -> eat_word "for" rest = None) -> read_for m (print_for lts ++ rest) = Some (lts, rest)).
Proof.
  intros Q. destruct lts as [|lt lts].
  - apply ev_all. intros m rest N. unfold read_for. cbn [print_for app]. rewrite N by reflexivity. reflexivity.
  - eapply ev_mono; [apply (ev_le (length (lt :: lts)))|]. intros m L rest _. cbv beta in L.
    unfold print_for. rewrite <- !app_assoc. cbn [app]. unfold read_for. cbn [eat_word t_id].
    change (ident_is (I "for") "for") with true. cbv iota. cbn [eat]. rewrite Ascii.eqb_refl.
    rewrite forallb_forall in Q. apply list_to_sep; [exact L | reflexivity |]. intros x c r Hx _. apply read_lt_print, Q, Hx.
Qed.
(** How types start. *)
Lemma ty_start t rest : source_ty t = true -> exists x r, print_ty t ++ rest = x :: r /\
  match x with
  | TIdent i => path_word i = true \/ i = I "dyn" \/ i = I "fn" \/ (i = I "for" /\ binder_first t = true)
  | TPunct c _ => existsb (Ascii.eqb c) ["<"; "&"; "*"; "!"; ":"]%char = true
  | TGroup Paren _ | TGroup Bracket _ => True
  | _ => False
  end.
Proof.
  destruct t as [q p|lt m t|m t|l|t|t e|lts l o|bs|t| |m ts]; cbn [source_ty]; intros S.
  - destruct q as [[t k]|].
    + eexists _, _. split; [reflexivity|reflexivity].
    + destruct p as [[] l]; [eexists _, _; split; [reflexivity|reflexivity]|].
      cbn [source_path] in S. bandh. cbn [print_ty print_path app]. destruct l as [|[i a] l]; [discriminate|].
      cbn [forallb source_seg] in *. bandh.
      destruct l; [eexists _, _; split; [reflexivity|left; assumption]|]. rewrite sep_by_2. eexists _, _; split; [reflexivity|left; assumption].
  - eexists _, _. split; [reflexivity|reflexivity].
  - eexists _, _. split; [reflexivity|reflexivity].
  - eexists _, _. split; [reflexivity|exact Logic.I].
  - eexists _, _. split; [reflexivity|exact Logic.I].
  - eexists _, _. split; [reflexivity|exact Logic.I].
  - destruct lts as [|lt lts]; (eexists _, _; split; [reflexivity|]); [right; right; left; reflexivity|right; right; right; split; reflexivity].
  - eexists _, _. split; [reflexivity|]. right; left; reflexivity.
  - eexists _, _. split; [reflexivity|exact Logic.I].
  - eexists _, _. split; [reflexivity|reflexivity].
  - bandh. destruct m as [|i m]; [discriminate|]. cbn [forallb] in *. bandh. cbn [print_ty map].
    destruct m; eexists _, _; (split; [reflexivity|left; assumption]).
Qed.
Lemma ty_no_word w t rest : source_ty t = true -> existsb (String.eqb w) (strict_keywords ++ reserved_keywords ++ ["_"]) = true ->
  existsb (String.eqb w) ["self"; "Self"; "super"; "crate"; "dyn"; "fn"] = false -> (w = "for" -> binder_first t = false) ->
  eat_word w (print_ty t ++ rest) = None.
Proof.
  intros S K N B. destruct (ty_start t rest S) as (x & r & E & H). rewrite E. destruct x as [i| | |]; try reflexivity. cbn [eat_word].
  assert (F : ident_is i w = false); [|rewrite F; reflexivity].
  cbn [existsb] in N. rewrite !orb_false_iff in N. destruct N as (N1 & N2 & N3 & N4 & N5 & N6 & _).
  destruct H as [H|[->|[->|[-> H]]]].
  - apply path_word_not; [exact H|exact K|]. cbn [existsb]. rewrite N1, N2, N3, N4. reflexivity.
  - unfold ident_is, I. cbn [raw name negb andb]. rewrite String.eqb_sym. exact N5.
  - unfold ident_is, I. cbn [raw name negb andb]. rewrite String.eqb_sym. exact N6.
  - unfold ident_is, I. cbn [raw name negb andb]. destruct (String.eqb_spec "for" w) as [<-|]; [rewrite (B eq_refl) in H; discriminate|reflexivity].
Qed.
Lemma ty_ends t rest : source_ty t = true -> ends (print_ty t ++ rest) = false.
Proof.
  intros S. destruct (ty_start t rest S) as (x & r & E & H). rewrite E. destruct x as [i|c b|s|[] l]; try reflexivity; try contradiction H.
  cbn [ends existsb]. destruct (Ascii.eqb_spec c ","); [exfalso; subst c; vm_compute in H; discriminate H|]. destruct (Ascii.eqb_spec c ";"); [exfalso; subst c; vm_compute in H; discriminate H|]. reflexivity.
Qed.
Lemma wpred_ends w rest : source_wpred w = true -> ends (print_wpred w ++ rest) = false.
Proof.
  destruct w as [lt bs|lts t bs]; cbn [source_wpred print_wpred]; intros S; bandh.
  - reflexivity.
  - destruct lts; [|reflexivity]. cbn [print_for app]. rewrite <- app_assoc. apply ty_ends. assumption.
Qed.
Lemma wpred_back w : good_wpred w = true ->
  ev (fun m => forall rest, after_pred rest = true -> read_wpred m (print_wpred w ++ rest) = Some (w, rest)).
Proof.
  unfold good_wpred. destruct w as [lt bs|lts t bs]; cbn [source_wpred parses_wpred print_wpred]; intros S; bandh.
  - eapply ev_mono; [apply (bounds_read (fun _ => read_lt) print_lt quoted bs lt_back (fun x r _ => eq_refl)); assumption|].
    intros m R rest Q. cbv beta in R. unfold read_wpred. rewrite <- app_assoc. rewrite read_lt_print by assumption. cbn [app]. unfold punct at 1. cbn [eat].
    rewrite Ascii.eqb_refl. rewrite R by exact Q. reflexivity.
  - assert (T : good_ty t = true) by (unfold good_ty; rewrite H4, H0; reflexivity).
    assert (B : forallb good_bound bs = true) by (apply forallb_both; assumption).
    eapply ev_mono; [apply (ev_and _ _ (for_reads lts H) (ev_and _ _ (type_back t T)
      (bounds_read rb print_bound good_bound bs bound_back (fun x r Hx => bound_ends x r (proj1 (andb_prop _ _ Hx))) B)))|].
    intros m (R1 & R2 & R3) rest Q. cbv beta in *. rewrite <- !app_assoc. cbn [app].
    assert (L : forall r, read_lt (print_for lts ++ print_ty t ++ r) = None).
    { intros r. destruct lts; [apply ty_lt; assumption|reflexivity]. }
    unfold read_wpred. rewrite L, R1.
    + rewrite R2 by reflexivity. unfold punct at 1. cbn [eat]. rewrite Ascii.eqb_refl. rewrite R3 by exact Q. reflexivity.
    + intros ->. apply ty_no_word; [assumption|reflexivity|reflexivity|]. intros _.
      match goal with X : negb (_ && binder_first t) = true |- _ => cbn in X; apply negb_true_iff in X; exact X end.
Qed.
Lemma wpreds_back l : forallb good_wpred l = true ->
  ev (fun m => forall k rest, length l <= k -> after_where rest = true -> l <> [] -> wpreds m k (commas (map print_wpred l) ++ rest) = Some (l, rest)).
Proof.
  intros O. rewrite forallb_forall in O.
  assert (E : ev (fun m => forall x, In x l -> forall rest, after_pred rest = true -> read_wpred m (print_wpred x ++ rest) = Some (x, rest))).
  { apply (ev_Forall (fun x m => forall rest, after_pred rest = true -> read_wpred m (print_wpred x ++ rest) = Some (x, rest))).
    apply Forall_forall. intros x Hx. apply wpred_back, O, Hx. }
  eapply ev_mono; [exact E|]. clear E. intros m R. cbv beta in R. unfold commas. induction l as [|x l IH]; intros k rest K Q N; [congruence|].
  destruct k as [|k]; [cbn in K; lia|].
  assert (Q' : after_pred rest = true).
  { destruct rest as [|[i|c [] |s|[] y] rest]; try discriminate; [|reflexivity]. cbn in *. rewrite Q. reflexivity. }
  assert (Sx : source_wpred x = true) by (pose proof (O x (or_introl eq_refl)) as X; unfold good_wpred in X; bandh; assumption).
  destruct l as [|y l].
  - cbn [map sep_by wpreds]. rewrite wpred_ends by exact Sx. rewrite R by (auto; left; reflexivity).
    assert (Ec : eat "," rest = None).
    { destruct rest as [|[i|c [] |s|[] z] rest]; try discriminate; [|reflexivity]. cbn in *. apply Ascii.eqb_eq in Q. subst c. reflexivity. }
    rewrite Ec. reflexivity.
  - rewrite sep_by_2, <- !app_assoc. cbn [wpreds]. rewrite wpred_ends by exact Sx.
    rewrite R; [|left; reflexivity|reflexivity]. cbn [app]. unfold t_comma at 1. cbn [eat]. rewrite Ascii.eqb_refl.
    rewrite IH; [reflexivity|intros z Hz; apply O; right; exact Hz|intros z Hz; apply R; right; exact Hz|cbn in *; lia|exact Q|discriminate].
Qed.
Definition preds' (g : generics) : list wpred := match g_where g with Some l => l | None => [] end.
Lemma where_back g : forallb good_wpred (preds' g) = true ->
  ev (fun m => forall rest, after_where rest = true -> read_where m (print_where g ++ rest) = Some (preds' g, rest)).
Proof.
  intros O. assert (E : print_where g = match preds' g with [] => [] | l => t_id "where" :: commas (map print_wpred l) end).
  { unfold print_where, preds'. destruct (g_where g) as [[|]|]; reflexivity. }
  rewrite E. destruct (preds' g) as [|w l].
  - apply ev_all. intros m rest Q. unfold read_where. cbn [app]. destruct rest as [|[i|c b|s|d z] rest]; try discriminate; reflexivity.
  - eapply ev_mono; [apply (ev_and _ _ (wpreds_back (w :: l) O) (ev_le (length (w :: l))))|]. intros m [R L] rest Q. cbv beta in *.
    unfold read_where. cbn [app t_id eat_word]. change (ident_is (I "where") "where") with true. cbv iota. apply R; [exact L|exact Q|discriminate].
Qed.

(** ** Visibilities *)
Definition after_vis (v : vis) (rest : list ttree) : Prop :=
  match v with
  | VInherited => eat_word "pub" rest = None
  | VPub =>
    match rest with
    | TGroup Paren body :: _ => eat_word "in" body = None /\ forall i, body = [TIdent i] -> place i = false
    | _ => True
    end
  | VRestricted _ _ => True
  end.
Lemma place_not i s : place i = true -> existsb (String.eqb s) ["crate"; "self"; "super"] = false -> ident_is i s = false.
Proof.
  unfold place, ident_is. destruct (raw i); [reflexivity|]. cbn [negb andb existsb]. intros H N.
  destruct (String.eqb_spec (name i) s) as [<-|]; [|reflexivity]. congruence.
Qed.
Lemma place_word i : place i = true -> path_word i = true.
Proof.
  unfold place, path_word, ident_is. destruct (raw i); [reflexivity|]. cbn [negb andb existsb orb]. intros H.
  apply orb_true_iff. right. rewrite !orb_true_iff in *. intuition.
Qed.
Lemma vis_back v : source_vis v = true ->
  ev (fun m => forall rest, after_vis v rest -> read_vis m (print_vis v ++ rest) = Some (v, rest)).
Proof.
  destruct v as [| |[] p]; cbn [source_vis print_vis]; intros S.
  - apply ev_all. intros m rest E. unfold read_vis. cbn [app after_vis] in *. rewrite E. reflexivity.
  - apply ev_all. intros m rest E. unfold read_vis. cbn [app after_vis t_id eat_word] in *. change (ident_is (I "pub") "pub") with true. cbv iota.
    destruct rest as [|[i|c b|s|[] body] rest]; try reflexivity. destruct E as [-> E].
    destruct body as [|[i|c b|s|d l] [|]]; try reflexivity. rewrite (E i eq_refl). reflexivity.
  - bandh. eapply ev_mono; [apply (words_back p H H0)|]. intros m W rest _. cbv beta in W. unfold read_vis. cbn [app t_id eat_word].
    change (ident_is (I "pub") "pub") with true. cbv iota. 
    specialize (W [] eq_refl). rewrite app_nil_r in W. cbn [app eat_word t_id]. change (ident_is (I "in") "in") with true. cbv iota. rewrite W. reflexivity.
  - destruct p as [|i [|j p]]; try discriminate. apply ev_all. intros m rest _. unfold read_vis. change (print_ids [i]) with [TIdent i]. cbn [app t_id eat_word].
    change (ident_is (I "pub") "pub") with true. cbv iota. cbn [app eat_word]. rewrite (place_not i "in" S eq_refl). rewrite S. reflexivity.
Qed.
Lemma pub_ty t rest : good_ty t = true -> like_vis t = false -> after_vis VPub (print_ty t ++ rest).
Proof.
  unfold good_ty. intros G L. bandh. cbn [after_vis].
  assert (K : forall t r, source_ty t = true -> eat_word "in" (print_ty t ++ r) = None).
  { intros t' r S. apply ty_no_word; [exact S|reflexivity|reflexivity|discriminate]. }
  destruct t as [q p|lt m t|m t|l|t|t e|lts l o|bs|t| |m ts]; try exact Logic.I.
  - destruct q as [[t k]|]; [exact Logic.I|]. destruct p as [[] l]; [exact Logic.I|]. cbn [source_ty source_path] in *. bandh.
    destruct l as [|s l]; [discriminate|]. destruct (segs_start (s :: l) rest) as (i & r' & E); [discriminate|].
    cbn [print_ty print_path app]. rewrite E. exact Logic.I.
  - cbn [print_ty app]. destruct l as [|t [|t' l]]; cbn [source_ty map forallb] in *; bandh.
    + split; [reflexivity|discriminate].
    + split; [apply K; assumption|]. intros i E. pose proof (ty_head t [] H eq_refl) as X. rewrite app_nil_r in X.
      destruct (print_ty t) as [|x [|y r]]; [discriminate|discriminate|discriminate].
    + split; [apply (K t); assumption|]. intros i E. pose proof (ty_head t [] H eq_refl) as X. rewrite app_nil_r in X.
      destruct (print_ty t) as [|x [|y r]]; [discriminate|discriminate|discriminate].
  - destruct lts; exact Logic.I.
  - cbn [print_ty app source_ty parses_ty] in *. split; [rewrite <- (app_nil_r (print_ty t)); apply K; assumption|].
    intros i E. destruct (place i) eqn:P; [|reflexivity].
    assert (X : t = ty_ident i).
    { apply print_inj; try assumption.
      - cbn. rewrite (place_word i P). reflexivity.
      - reflexivity. }
    subst t. cbn [like_vis ty_ident] in L. congruence.
  - bandh. destruct m as [|i m]; [discriminate|]. cbn [print_ty map]. destruct m; exact Logic.I.
Qed.

(** ** Fields and variants *)
Definition good_field (named : bool) (f : field) : bool :=
  source_field named f && parses_ty (f_ty f) && match f_attrs f with [] => true | _ => false end.
Lemma name_pub i ts : name_ok i = true -> eat_word "pub" (TIdent i :: ts) = None.
Proof.
  intros H. cbn. assert (E : ident_is i "pub" = false) by (apply path_word_not; [apply name_word, H|reflexivity|reflexivity]). rewrite E. reflexivity.
Qed.
Lemma comma_follow rest : comma_or_end rest -> follow rest = true /\ not_plus rest = true.
Proof. intros [->|[r ->]]; split; reflexivity. Qed.
Lemma named_back f : good_field true f = true ->
  ev (fun m => forall rest, comma_or_end rest -> read_named m (print_field f ++ rest) = Some (f, rest)).
Proof.
  destruct f as [at_ v i t]. unfold good_field, source_field, print_field. cbn [f_attrs f_vis f_ident f_ty]. intros S. bandh.
  destruct at_; [|discriminate]. destruct i as [i|]; [|discriminate]. bandh.
  assert (T : good_ty t = true) by (unfold good_ty; rewrite H3, H1; reflexivity).
  eapply ev_mono; [apply (ev_and _ _ (vis_back v H) (type_back t T))|]. intros m [V R] rest Q. cbv beta in *. apply comma_follow in Q. destruct Q as [Q1 Q2].
  rewrite <- !app_assoc. unfold read_named. cbn [opt_list app]. rewrite V.
  - cbn [andb] in *. rewrite name_reads by assumption. unfold punct. cbn [eat]. rewrite Ascii.eqb_refl. rewrite R by assumption. reflexivity.
  - destruct v; cbn [after_vis]; try exact Logic.I. apply name_pub. assumption.
Qed.
Lemma unnamed_back f : good_field false f = true ->
  ev (fun m => forall rest, comma_or_end rest -> read_unnamed m (print_field f ++ rest) = Some (f, rest)).
Proof.
  destruct f as [at_ v i t]. unfold good_field, source_field, print_field. cbn [f_attrs f_vis f_ident f_ty]. intros S. bandh.
  destruct at_; [|discriminate]. destruct i as [i|]; [discriminate|]. cbn [negb andb] in *.
  assert (T : good_ty t = true) by (unfold good_ty; rewrite H3, H1; reflexivity).
  eapply ev_mono; [apply (ev_and _ _ (vis_back v H) (type_back t T))|]. intros m [V R] rest Q. cbv beta in *. apply comma_follow in Q. destruct Q as [Q1 Q2].
  rewrite <- !app_assoc. unfold read_unnamed. cbn [opt_list app]. rewrite V.
  - rewrite R by assumption. reflexivity.
  - destruct v; [| |exact Logic.I].
    + cbn [after_vis]. apply ty_no_word; [assumption|reflexivity|reflexivity|discriminate].
    + apply pub_ty; [exact T|]. cbn [is_vpub andb] in *. apply negb_true_iff. assumption.
Qed.
Lemma field_ne named f : good_field named f = true -> print_field f <> [].
Proof.
  unfold good_field, source_field, print_field. intros S. bandh. intros E. apply app_eq_nil in E. destruct E as [_ E]. apply app_eq_nil in E. destruct E as [_ E].
  match goal with X : source_ty _ = true |- _ => pose proof (ty_head _ [] X eq_refl) as Y end. rewrite E in Y. discriminate.
Qed.
Definition good_fields (fs : fields) : bool :=
  match fs with FNamed l => forallb (good_field true) l | FUnnamed l => forallb (good_field false) l | FUnit => true end.
Lemma nameds_back l : forallb (good_field true) l = true -> ev (fun m => list_in (read_named m) m (commas (map print_field l)) = Some (l, false)).
Proof. apply (list_back read_named print_field (good_field true) l named_back (field_ne true)). Qed.
Lemma unnameds_back l : forallb (good_field false) l = true -> ev (fun m => list_in (read_unnamed m) m (commas (map print_field l)) = Some (l, false)).
Proof. apply (list_back read_unnamed print_field (good_field false) l unnamed_back (field_ne false)). Qed.
Definition good_variant (v : variant) : bool :=
  name_ok (v_ident v) && good_fields (v_fields v) && match v_attrs v with [] => true | _ => false end && negb (v_disc v).
Definition print_variant (x : variant) : list ttree := TIdent (v_ident x) :: print_fields (v_fields x).
Lemma variant_back v : good_variant v = true ->
  ev (fun m => forall rest, comma_or_end rest -> read_variant m (print_variant v ++ rest) = Some (v, rest)).
Proof.
  destruct v as [at_ i fs d]. unfold good_variant, print_variant. cbn [v_attrs v_ident v_fields v_disc]. intros S. bandh.
  destruct at_; [|discriminate]. destruct d; [discriminate|]. destruct fs as [l|l|]; cbn [good_fields print_fields] in *.
  - eapply ev_mono; [apply (nameds_back l); assumption|]. intros m R rest _. cbv beta in R. cbn [app group]. unfold read_variant.
    rewrite name_reads by assumption. rewrite R. reflexivity.
  - eapply ev_mono; [apply (unnameds_back l); assumption|]. intros m R rest _. cbv beta in R. cbn [app group]. unfold read_variant.
    rewrite name_reads by assumption. rewrite R. reflexivity.
  - apply ev_all. intros m rest [->|[r ->]]; cbn [app]; unfold read_variant; rewrite name_reads by assumption; reflexivity.
Qed.
Lemma variants_back l : forallb good_variant l = true -> ev (fun m => list_in (read_variant m) m (commas (map print_variant l)) = Some (l, false)).
Proof. apply (list_back read_variant print_variant good_variant l variant_back). intros x _. discriminate. Qed.

(** ** Attributes *)
Definition good_lints (l : list lint) : bool := forallb (fun x => some_in x && forallb path_word (map I x)) l.
Definition good_attr (g : gattr) : bool := match g with AAllow l | AForbid l => good_lints l | _ => true end.
Lemma lints_back l : good_lints l = true -> ev (fun m => list_in (words m) m (commas (map print_lint l)) = Some (map (map I) l, false)).
Proof.
  intros G. replace (map print_lint l) with (map print_ids (map (map I) l)) by (rewrite map_map; reflexivity).
  apply (list_back words print_ids (fun x => some_in x && forallb path_word x)).
  - intros x Hx. bandh. eapply ev_mono; [apply (words_back x); assumption|]. intros m W rest Q. apply W. destruct Q as [->|[r ->]]; reflexivity.
  - intros x Hx. bandh. destruct (print_ids_head x H) as (i & r & -> & E). specialize (E []). rewrite app_nil_r in E. rewrite E. discriminate.
  - unfold good_lints in G. rewrite forallb_forall in *. intros x Hx. apply in_map_iff in Hx. destruct Hx as (y & <- & Hy). specialize (G y Hy).
    destruct y; [discriminate|exact G].
Qed.
Lemma attr_back g : good_attr g = true -> exists body, print_gattr g = [punct "#"; TGroup Bracket body] /\
  ev (fun m => read_attr m body = Some (shown_attr g)).
Proof.
  intros G. unfold print_gattr, print_attr. eexists. split; [reflexivity|].
  destruct g as [l|l| |]; cbn [good_attr a_lead a_path a_meta app shown_attr] in *.
  - eapply ev_mono; [apply (ev_and _ _ (words_back [I "allow"] eq_refl eq_refl) (lints_back l G))|]. intros m [W L]. cbv beta in *.
    unfold read_attr. rewrite W by reflexivity. rewrite L. reflexivity.
  - eapply ev_mono; [apply (ev_and _ _ (words_back [I "forbid"] eq_refl eq_refl) (lints_back l G))|]. intros m [W L]. cbv beta in *.
    unfold read_attr. rewrite W by reflexivity. rewrite L. reflexivity.
  - exists 5. intros m L. do 5 (destruct m as [|m]; [lia|]). reflexivity.
  - exists 5. intros m L. do 5 (destruct m as [|m]; [lia|]). reflexivity.
Qed.
Definition no_hash (ts : list ttree) : bool := match ts with TPunct _ _ :: _ => false | _ => true end.
Lemma attrs_back l : forallb good_attr l = true ->
  ev (fun m => forall rest, no_hash rest = true -> read_attrs m (flat_map print_gattr l ++ rest) = Some (map shown_attr l, rest)).
Proof.
  induction l as [|g l IH]; cbn [forallb]; intros G; bandh.
  - apply ev_all. intros m rest N. destruct rest as [|[i|c b|s|d y] rest]; try reflexivity. discriminate.
  - destruct (attr_back g H) as (body & E & A). eapply ev_mono; [apply (ev_and _ _ A (IH H0))|]. intros m [A' B] rest N. cbv beta in *.
    cbn [flat_map map]. rewrite E. unfold punct. cbn [app read_attrs]. rewrite Ascii.eqb_refl, A', B by exact N. reflexivity.
Qed.

(** ** Methods *)
Definition good_recv (r : receiver) : bool := match r with RecvTyped t => good_ty t | RecvRefMut => true end.
Definition good_method (m : method) : bool :=
  source_vis (m_vis m) && name_ok (m_name m) && forallb quoted (m_lts m) && good_recv (m_self m) &&
  forallb (fun p => name_ok (fst p) && good_ty (snd p)) (m_params m) && opt_ok good_ty (m_ret m) && source_body (canon_body (m_body m)).
Definition good_arg (a : rarg) : bool :=
  match a with RSelfTyped t => good_ty t | RSelfRefMut => true | RArg i t => name_ok i && good_ty t end.
Definition print_rarg (a : rarg) : list ttree :=
  match a with
  | RSelfTyped t => t_id "self" :: punct ":" :: print_ty t
  | RSelfRefMut => [punct "&"; t_id "mut"; t_id "self"]
  | RArg i t => TIdent i :: punct ":" :: print_ty t
  end.
Lemma name_self i : name_ok i = true -> ident_is i "self" = false.
Proof.
  unfold name_ok, ident_is. destruct (raw i); [reflexivity|]. cbn [negb andb orb]. intros H.
  destruct (String.eqb_spec (name i) "self") as [E|]; [|reflexivity]. rewrite E in H. discriminate.
Qed.
Lemma arg_back a : good_arg a = true -> ev (fun m => forall rest, comma_or_end rest -> read_arg m (print_rarg a ++ rest) = Some (a, rest)).
Proof.
  destruct a as [t| |i t]; cbn [good_arg print_rarg]; intros S; bandh.
  - eapply ev_mono; [apply (type_back t S)|]. intros m R rest Q. cbv beta in R. apply comma_follow in Q. destruct Q as [Q1 Q2].
    unfold read_arg, t_id, punct. cbn [app eat]. rewrite Ascii.eqb_refl, R by assumption. reflexivity.
  - apply ev_all. intros m rest _. reflexivity.
  - eapply ev_mono; [apply (type_back t); assumption|]. intros m R rest Q. cbv beta in R. apply comma_follow in Q. destruct Q as [Q1 Q2].
    unfold read_arg, punct. cbn [app eat]. rewrite Ascii.eqb_refl, R by assumption. rewrite name_self by assumption. rewrite H. reflexivity.
Qed.
Lemma args_back l : forallb good_arg l = true -> ev (fun m => list_in (read_arg m) m (commas (map print_rarg l)) = Some (l, false)).
Proof. apply (list_back read_arg print_rarg good_arg l arg_back). intros [] _; discriminate. Qed.
Lemma lts_read l : forallb quoted l = true ->
  ev (fun m => forall rest, eat "<" rest = None ->
    read_lts m (match l with [] => [] | s :: l' => punct "<" :: commas (map print_lt (s :: l')) ++ [punct ">"] end ++ rest) = Some (l, rest)).
Proof.
  intros Q. destruct l as [|x l].
  - apply ev_all. intros m rest N. unfold read_lts. cbn [app]. rewrite N. reflexivity.
  - eapply ev_mono; [apply (ev_le (length (x :: l)))|]. intros m L rest _. cbv beta in L. unfold read_lts. cbn [app]. unfold punct at 1. cbn [eat].
    rewrite Ascii.eqb_refl. rewrite <- app_assoc. rewrite forallb_forall in Q.
    apply list_to_sep; [exact L|reflexivity|]. intros y c r Hy _. apply read_lt_print, Q, Hy.
Qed.
Lemma ret_back o : opt_ok good_ty o = true ->
  ev (fun m => forall b rest, read_ret m (opt_list (fun t => t_arrow ++ print_ty t) o ++ TGroup Brace b :: rest) = Some (o, TGroup Brace b :: rest)).
Proof.
  destruct o as [t|]; cbn [opt_ok opt_list]; intros S.
  - eapply ev_mono; [apply (type_back t S)|]. intros m R b rest. cbv beta in R. unfold read_ret, t_arrow. cbn [app eat2].
    change (Ascii.eqb "-" "-" && Ascii.eqb ">" ">") with true. cbv iota. rewrite R by reflexivity. reflexivity.
  - apply ev_all. reflexivity.
Qed.
Definition shown_args (m : method) : list rarg :=
  match m_self m with RecvTyped t => RSelfTyped t | RecvRefMut => RSelfRefMut end :: map (fun p => RArg (fst p) (snd p)) (m_params m).
Lemma print_args m : map print_rarg (shown_args m) =
  match m_self m with
  | RecvTyped t => t_id "self" :: punct ":" :: print_ty t
  | RecvRefMut => [punct "&"; t_id "mut"; t_id "self"]
  end :: map (fun p => TIdent (fst p) :: punct ":" :: print_ty (snd p)) (m_params m).
Proof. unfold shown_args. cbn [map]. rewrite map_map. destruct (m_self m); reflexivity. Qed.
Lemma method_back as_ mt : forallb good_attr as_ = true -> good_method mt = true ->
  ev (fun m => forall rest, read_method m (print_method as_ mt ++ rest) = Some (shown_method as_ mt, rest)).
Proof.
  unfold good_method. intros GA G. bandh.
  assert (A : forallb good_arg (shown_args mt) = true).
  { unfold shown_args. cbn [forallb]. rewrite andb_true_iff. split; [destruct (m_self mt); assumption|].
    rewrite forallb_forall in *. intros a Ha. apply in_map_iff in Ha. destruct Ha as (p & <- & Hp). cbn [good_arg]. auto. }
  eapply ev_mono; [apply (ev_and _ _ (attrs_back as_ GA) (ev_and _ _ (vis_back _ H) (ev_and _ _ (lts_read _ H4) (ev_and _ _ (args_back _ A)
    (ev_and _ _ (ret_back _ H1) (block_back _ H0))))))|].
  intros m (RA & RV & RL & RG & RR & RB) rest. cbv beta in *. rewrite print_canon_block in RB.
  unfold print_method, read_method, shown_method. rewrite <- print_args. rewrite <- !app_assoc.
  assert (E : forall r, match print_vis (m_vis mt) ++ (if m_unsafe mt then [t_id "unsafe"] else []) ++ [t_id "fn"; TIdent (m_name mt)] ++ r with
    | TIdent _ :: _ => True | _ => False end).
  { intros r. destruct (m_vis mt); cbn; [|exact Logic.I|exact Logic.I]. destruct (m_unsafe mt); exact Logic.I. }
  rewrite RA.
  2:{ match goal with |- no_hash (_ ++ _ ++ _ ++ ?r) = true => specialize (E r) end.
      destruct (print_vis _ ++ _) as [|[] ?]; [destruct E|reflexivity|destruct E..]. }
  rewrite RV.
  2:{ destruct (m_vis mt); cbn [after_vis]; [destruct (m_unsafe mt); reflexivity|destruct (m_unsafe mt); exact Logic.I|exact Logic.I]. }
  assert (U : forall r, maybe (eat_word "unsafe") ((if m_unsafe mt then [t_id "unsafe"] else []) ++ [t_id "fn"; TIdent (m_name mt)] ++ r) =
    (m_unsafe mt, [t_id "fn"; TIdent (m_name mt)] ++ r)).
  { intros r. destruct (m_unsafe mt); reflexivity. }
  rewrite U. cbn [app t_id eat_word]. change (ident_is (I "fn") "fn") with true. cbv iota. rewrite name_reads by assumption.
  rewrite RL by reflexivity. unfold group. cbn [app]. rewrite RG.
  rewrite RR. destruct (m_body mt) as [[|s ss] [r|]|ss a arms]; cbn [print_block] in RB; unfold group in RB; rewrite RB; reflexivity.
Qed.

(** ** Items *)
Lemma all_shown {A B} (f : nat -> reader B) (sh : A -> B) pr (ok : A -> bool) l :
  (forall x, ok x = true -> ev (fun m => forall rest, f m (pr x ++ rest) = Some (sh x, rest))) ->
  (forall x, ok x = true -> pr x <> []) -> forallb ok l = true ->
  ev (fun m => read_all (f m) m (flat_map pr l) = Some (map sh l)).
Proof.
  intros F NE O. rewrite forallb_forall in O.
  assert (E : ev (fun m => forall x, In x l -> forall rest, f m (pr x ++ rest) = Some (sh x, rest))).
  { apply (ev_Forall (fun x m => forall rest, f m (pr x ++ rest) = Some (sh x, rest))).
    apply Forall_forall. intros x Hx. apply F, O, Hx. }
  eapply ev_mono; [apply (ev_and _ _ E (ev_le (length l)))|]. intros m [R L]. cbv beta in *.
  assert (K : forall k, length l <= k -> read_all (f m) k (flat_map pr l) = Some (map sh l)); [|apply K, L].
  clear L E F. induction l as [|x l IH]; intros k L; cbn [flat_map map]; [destruct k; reflexivity|].
  cbn [length] in L. destruct k as [|k]; [lia|]. specialize (NE x (O x (or_introl eq_refl))) as N. 
  specialize (R x (or_introl eq_refl) (flat_map pr l)) as Rx. destruct (pr x ++ flat_map pr l) as [|y r] eqn:Ey.
  - apply app_eq_nil in Ey. destruct Ey. contradiction.
  - cbn [read_all]. rewrite Rx. rewrite IH; [reflexivity| | |lia].
    + intros z Hz. apply O. right. exact Hz.
    + intros z Hz. apply R. right. exact Hz.
Qed.
Definition good_gen (g : generics) : bool := forallb good_param (g_params g) && forallb good_wpred (preds' g).
Definition good_member (m : member) : bool := match m with MNamed i => name_ok i | MIndex _ => true end.
Definition no_qself (t : ty) : bool := match t with TyPath (Some _) _ => false | _ => true end.
Definition good_impl (im : impl) : bool :=
  no_qself (i_self im) && good_gen (i_generics im) && opt_ok (fun p => good_ty (TyPath None p)) (i_trait im) && good_ty (i_self im) && forallb good_method (i_methods im).
Definition good_oitem (o : oitem) : bool :=
  match o with
  | OStruct v i g fs => source_vis v && name_ok i && good_gen g && good_fields fs
  | OEnum v i g vs => source_vis v && name_ok i && good_gen g && forallb good_variant vs
  | OImpl im => good_impl im
  | OTrait i => name_ok i
  | OAssert g t ms => good_gen g && good_ty (TyRef None false t) && forallb good_member ms
  | OExternCrate a b => name_ok a && name_ok b
  end.
Definition good_marks (mk : marks) : bool := forallb good_attr (mk_item mk) && forallb good_attr (mk_method mk).
Lemma shown_gen g : shown_generics g = generics_from (g_params g) (preds' g).
Proof. reflexivity. Qed.
Lemma where_start g rest : eat "<" rest = None -> eat "<" (print_where g ++ rest) = None.
Proof. unfold print_where. destruct (g_where g) as [[|]|]; intros E; [exact E|reflexivity|exact E]. Qed.

Lemma struct_back v i g fs : name_ok i = true -> good_gen g = true -> good_fields fs = true ->
  ev (fun m => forall rest, read_struct m v
    (TIdent i :: print_params g ++ match fs with FNamed _ => print_where g ++ print_fields fs | _ => print_fields fs ++ print_where g ++ [punct ";"] end ++ rest)
    = Some (SeenStruct v i (shown_generics g) fs, rest)).
Proof.
  intros N G F. unfold good_gen in G. bandh. rewrite shown_gen.
  pose proof (ev_and _ _ (params_back g H) (where_back g H0)) as E.
  destruct fs as [l|l|]; cbn [good_fields print_fields] in *.
  - eapply ev_mono; [apply (ev_and _ _ E (nameds_back l F))|]. intros m [[P W] R] rest. cbv beta in *.
    rewrite <- !app_assoc. unfold read_struct. rewrite name_reads by exact N. unfold group. cbn [app]. rewrite P by (apply where_start; reflexivity).
    specialize (W (TGroup Brace (commas (map print_field l)) :: rest) eq_refl).
    assert (X : exists y r, print_where g ++ TGroup Brace (commas (map print_field l)) :: rest = y :: r /\ match y with TGroup Paren _ => False | _ => True end).
    { unfold print_where. destruct (g_where g) as [[|]|]; eexists _, _; split; try reflexivity; exact Logic.I. }
    destruct X as (y & r & EX & X). rewrite EX in *. destruct y as [j|c b|s|[] z]; try destruct X; rewrite W, R; reflexivity.
  - eapply ev_mono; [apply (ev_and _ _ E (unnameds_back l F))|]. intros m [[P W] R] rest. cbv beta in *.
    rewrite <- !app_assoc. unfold read_struct. rewrite name_reads by exact N. unfold group. cbn [app]. rewrite P by reflexivity.
    rewrite R. rewrite W by reflexivity. reflexivity.
  - eapply ev_mono; [apply E|]. intros m [P W] rest. cbv beta in *. cbn [app]. rewrite <- ?app_assoc. unfold read_struct. rewrite name_reads by exact N.
    rewrite P by (apply where_start; reflexivity). specialize (W ([punct ";"] ++ rest) eq_refl).
    assert (X : exists y r, print_where g ++ [punct ";"] ++ rest = y :: r /\ match y with TGroup _ _ => False | _ => True end).
    { unfold print_where. destruct (g_where g) as [[|]|]; eexists _, _; split; try reflexivity; exact Logic.I. }
    destruct X as (y & r & EX & X). rewrite EX in *. destruct y as [j|c b|s|[] z]; try destruct X; rewrite W; reflexivity.
Qed.
Lemma enum_back v i g vs : name_ok i = true -> good_gen g = true -> forallb good_variant vs = true ->
  ev (fun m => forall rest, read_enum m v
    (TIdent i :: print_params g ++ print_where g ++ group Brace (commas (map print_variant vs)) ++ rest) = Some (SeenEnum v i (shown_generics g) vs, rest)).
Proof.
  intros N G F. unfold good_gen in G. bandh. rewrite shown_gen.
  eapply ev_mono; [apply (ev_and _ _ (variants_back vs F) (ev_and _ _ (params_back g H) (where_back g H0)))|]. intros m (R & P & W) rest. cbv beta in *.
  unfold read_enum. rewrite name_reads by exact N. unfold group. cbn [app]. rewrite P by (apply where_start; reflexivity).
  rewrite W by reflexivity. rewrite R. reflexivity.
Qed.
Lemma where_follow g rest : after_where rest = true -> follow (print_where g ++ rest) = true /\ not_plus (print_where g ++ rest) = true /\
  eat_word "for" (print_where g ++ rest) = None.
Proof.
  intros A. unfold print_where. destruct (g_where g) as [[|]|]; try (repeat split; reflexivity).
  - destruct rest as [|[i|c [] |s|[] z] rest]; try discriminate; cbn [app]; repeat split; cbn [after_where] in A;
      apply Ascii.eqb_eq in A; subst c; reflexivity.
  - destruct rest as [|[i|c [] |s|[] z] rest]; try discriminate; cbn [app]; repeat split; cbn [after_where] in A;
      apply Ascii.eqb_eq in A; subst c; reflexivity.
Qed.
Lemma ty_not_lt t rest : source_ty t = true -> no_qself t = true -> eat "<" (print_ty t ++ rest) = None.
Proof.
  intros S Q. destruct t as [q p|lt m t|m t|l|t|t e|lts l o|bs|t| |m ts]; try reflexivity.
  - destruct q; [discriminate|]. destruct p as [[] l]; [reflexivity|]. cbn [source_ty source_path] in S. bandh.
    destruct (segs_start l rest) as (i & r & E); [destruct l; discriminate|]. cbn [print_ty print_path app]. rewrite E. reflexivity.
  - destruct lts; reflexivity.
  - cbn [source_ty] in S. bandh. destruct m as [|i [|j m]]; [discriminate|reflexivity|reflexivity].
Qed.

Lemma method_ne as_ mt : good_method mt = true -> print_method as_ mt <> [].
Proof.
  intros _. unfold print_method. intros E. apply app_eq_nil in E. destruct E as [_ E]. apply app_eq_nil in E. destruct E as [_ E].
  apply app_eq_nil in E. destruct E as [_ E]. discriminate.
Qed.
Lemma impl_back as_ im : forallb good_attr as_ = true -> good_impl im = true ->
  ev (fun m => forall rest, read_impl m (i_unsafe im)
    (print_params (i_generics im) ++ opt_list (fun p => print_path p ++ [t_id "for"]) (i_trait im) ++ print_ty (i_self im) ++
     print_where (i_generics im) ++ group Brace (flat_map (print_method as_) (i_methods im)) ++ rest) =
    Some (SeenImpl (i_unsafe im) (shown_generics (i_generics im)) (i_trait im) (i_self im) (map (shown_method as_) (i_methods im)), rest)).
Proof.
  intros A G. unfold good_impl, good_gen in G. bandh. rewrite shown_gen.
  assert (M : ev (fun m => read_all (read_method m) m (flat_map (print_method as_) (i_methods im)) = Some (map (shown_method as_) (i_methods im)))).
  { apply (all_shown read_method (shown_method as_) (print_method as_) good_method); [|apply method_ne|assumption]. intros x Hx. apply method_back; assumption. }
  assert (S : source_ty (i_self im) = true) by (unfold good_ty in *; bandh; assumption).
  pose proof (ev_and _ _ M (ev_and _ _ (params_back _ H3) (ev_and _ _ (where_back _ H4) (type_back _ H1)))) as E.
  destruct (i_trait im) as [p|]; cbn [opt_list opt_ok] in *.
  - eapply ev_mono; [apply (ev_and _ _ E (type_back _ H2))|]. intros m [(RM & RP & RW & RT) RR] rest. cbv beta in *. rewrite <- !app_assoc.
    unfold read_impl. change (print_path p) with (print_ty (TyPath None p)).
    rewrite RP by (apply ty_not_lt; [unfold good_ty in *; bandh; assumption|reflexivity]).
    rewrite RR by reflexivity. cbn [app t_id eat_word]. change (ident_is (I "for") "for") with true. cbv iota.
    destruct (where_follow (i_generics im) (group Brace (flat_map (print_method as_) (i_methods im)) ++ rest) eq_refl) as (F1 & F2 & F3).
    rewrite RT by assumption. rewrite RW by reflexivity. unfold group. cbn [app]. rewrite RM. reflexivity.
  - eapply ev_mono; [apply E|]. intros m (RM & RP & RW & RT) rest. cbv beta in *. cbn [app].
    unfold read_impl. rewrite RP by (apply ty_not_lt; assumption).
    destruct (where_follow (i_generics im) (group Brace (flat_map (print_method as_) (i_methods im)) ++ rest) eq_refl) as (F1 & F2 & F3).
    rewrite RT by assumption. rewrite F3. rewrite RW by reflexivity. unfold group. cbn [app]. rewrite RM. reflexivity.
Qed.
Lemma member_back x : good_member x = true -> ev (fun m => forall rest, read_member (print_member x ++ rest) = Some (shown_member x, rest)).
Proof.
  intros G. apply ev_all. intros m rest. destruct x as [i|k]; cbn [good_member] in G; unfold print_member; cbn [app read_member t_id punct].
  - rewrite G. reflexivity.
  - reflexivity.
Qed.
Lemma function_back g t ms : good_gen g = true -> good_ty (TyRef None false t) = true -> forallb good_member ms = true ->
  ev (fun m => forall rest, read_function m
    (t_id "__assert_not_repr_packed" :: print_params g ++ group Paren (t_id "this" :: punct ":" :: punct "&" :: print_ty t) ++ print_where g ++
     group Brace (flat_map print_member ms) ++ rest) =
    Some (SeenFn (I "__assert_not_repr_packed") (shown_generics g) [RArg (I "this") (TyRef None false t)] (map shown_member ms), rest)).
Proof.
  intros G T M. unfold good_gen in G. bandh. rewrite shown_gen.
  assert (R : ev (fun m => read_all read_member m (flat_map print_member ms) = Some (map shown_member ms))).
  { apply (all_shown (fun _ => read_member) shown_member print_member good_member); [apply member_back| |exact M]. intros x _. discriminate. }
  assert (A : forallb good_arg [RArg (I "this") (TyRef None false t)] = true).
  { cbn [forallb good_arg]. rewrite T. reflexivity. }
  eapply ev_mono; [apply (ev_and _ _ R (ev_and _ _ (args_back _ A) (ev_and _ _ (params_back _ H) (where_back _ H0))))|].
  intros m (RM & RA & RP & RW) rest. cbv beta in *. unfold read_function. unfold t_id at 1. rewrite name_reads by reflexivity. unfold group. cbn [app].
  rewrite RP by reflexivity.
  change (list_in (read_arg m) m (t_id "this" :: punct ":" :: punct "&" :: print_ty t) = Some ([RArg (I "this") (TyRef None false t)], false)) in RA.
  rewrite RA. rewrite RW by reflexivity. rewrite RM. reflexivity.
Qed.

Definition oitem_tokens (o : oitem) (mk : marks) : list ttree :=
  match o with
  | OStruct v i g fs => print_struct v i g fs
  | OEnum v i g vs => print_enum v i g vs
  | OImpl im => print_impl (mk_method mk) im
  | OTrait i => [t_id "trait"; TIdent i; TGroup Brace []]
  | OAssert g t ms =>
    [t_id "fn"; t_id "__assert_not_repr_packed"] ++ print_params g ++
    group Paren (t_id "this" :: punct ":" :: punct "&" :: print_ty t) ++ print_where g ++
    group Brace (flat_map print_member ms)
  | OExternCrate a b => [t_id "extern"; t_id "crate"; TIdent a; t_id "as"; TIdent b; punct ";"]
  end.
Lemma kind_struct v r : forall m, read_kind m v (I "struct") r = read_struct m v r.
Proof. reflexivity. Qed.
Lemma kind_enum v r : forall m, read_kind m v (I "enum") r = read_enum m v r.
Proof. reflexivity. Qed.
Lemma kind_impl r : forall m, read_kind m VInherited (I "impl") r = read_impl m false r.
Proof. reflexivity. Qed.
Lemma kind_unsafe r : forall m, read_kind m VInherited (I "unsafe") (t_id "impl" :: r) = read_impl m true r.
Proof. reflexivity. Qed.
Lemma kind_fn r : forall m, read_kind m VInherited (I "fn") r = read_function m r.
Proof. reflexivity. Qed.
Lemma kind_trait r : forall m, read_kind m VInherited (I "trait") r = read_trait r.
Proof. reflexivity. Qed.
Lemma kind_extern r : forall m, read_kind m VInherited (I "extern") r = read_extern r.
Proof. reflexivity. Qed.
(** An item without its attributes. *)
Definition first_vis (o : oitem) : vis := match o with OStruct v _ _ _ | OEnum v _ _ _ => v | _ => VInherited end.
Lemma oitem_back o mk : good_marks mk = true -> good_oitem o = true ->
  source_vis (first_vis o) = true /\
  exists w r, oitem_tokens o mk = print_vis (first_vis o) ++ TIdent w :: r /\ ident_is w "pub" = false /\ ident_is w "const" = false /\
  ev (fun m => forall rest, read_kind m (first_vis o) w (r ++ rest) = Some (snd (shown (o, mk)), rest)).
Proof.
  unfold good_marks. intros A G. bandh. destruct o as [v i g fs|v i g vs|im|i|g t ms|a b]; cbn [good_oitem oitem_tokens first_vis shown fst snd] in *.
  - bandh. split; [assumption|]. eexists _, _. split; [reflexivity|]. split; [reflexivity|]. split; [reflexivity|].
    eapply ev_mono; [apply (struct_back v i g fs); assumption|]. intros m R rest. cbv beta in R. rewrite kind_struct. rewrite <- R. f_equal.
    cbn [app]. f_equal. rewrite <- app_assoc. reflexivity.
  - bandh. split; [assumption|]. eexists _, _. split; [reflexivity|]. split; [reflexivity|]. split; [reflexivity|].
    eapply ev_mono; [apply (enum_back v i g vs); assumption|]. intros m R rest. cbv beta in R. rewrite kind_enum. rewrite <- R. f_equal.
    cbn [app]. f_equal. rewrite <- !app_assoc. reflexivity.
  - split; [reflexivity|]. pose proof (impl_back (mk_method mk) im H0 G) as E. unfold print_impl. destruct (i_unsafe im).
    + eexists _, _. split; [reflexivity|]. split; [reflexivity|]. split; [reflexivity|].
      eapply ev_mono; [apply E|]. intros m R rest. cbv beta in R. cbn [app]. rewrite kind_unsafe, <- R. f_equal. rewrite <- !app_assoc. reflexivity.
    + eexists _, _. split; [reflexivity|]. split; [reflexivity|]. split; [reflexivity|].
      eapply ev_mono; [apply E|]. intros m R rest. cbv beta in R. rewrite kind_impl, <- R. f_equal. rewrite <- !app_assoc. reflexivity.
  - split; [reflexivity|]. eexists _, _. split; [reflexivity|]. split; [reflexivity|]. split; [reflexivity|].
    apply ev_all. intros m rest. rewrite kind_trait. unfold read_trait. cbn [app]. rewrite name_reads by assumption. reflexivity.
  - bandh. split; [reflexivity|]. eexists _, _. split; [reflexivity|]. split; [reflexivity|]. split; [reflexivity|].
    eapply ev_mono; [apply (function_back g t ms); assumption|]. intros m R rest. cbv beta in R. rewrite kind_fn, <- R. f_equal.
    cbn [app]. f_equal. rewrite <- !app_assoc. reflexivity.
  - bandh. split; [reflexivity|]. eexists _, _. split; [reflexivity|]. split; [reflexivity|]. split; [reflexivity|].
    apply ev_all. intros m rest. rewrite kind_extern. unfold read_extern. cbn [app t_id eat_word]. change (ident_is (I "crate") "crate") with true. cbv iota.
    rewrite name_reads by assumption. cbn [eat_word t_id]. change (ident_is (I "as") "as") with true. cbv iota. rewrite name_reads by assumption. reflexivity.
Qed.
Definition print_marked (p : oitem * marks) : list ttree := print_oitem (fst p) (snd p).
Definition good_marked (p : oitem * marks) : bool := good_oitem (fst p) && good_marks (snd p).
Lemma item_back p : good_marked p = true ->
  ev (fun m => forall rest, read_item m (print_marked p ++ rest) = Some (shown p, rest) /\ read_const m (print_marked p ++ rest) = None).
Proof.
  unfold good_marked. intros G. bandh. destruct p as [o mk]. cbn [fst snd] in *. destruct (oitem_back o mk H0 H) as (V & w & r & E & NP & NC & K).
  unfold good_marks in H0. bandh. eapply ev_mono; [apply (ev_and _ _ K (ev_and _ _ (attrs_back _ H0) (vis_back _ V)))|].
  intros m (RK & RA & RV) rest. cbv beta in *. unfold print_marked, print_oitem. cbn [fst snd]. fold (oitem_tokens o mk). rewrite E.
  rewrite <- !app_assoc. cbn [app].
  assert (T : exists x y, print_vis (first_vis o) ++ TIdent w :: r ++ rest = TIdent x :: y /\ ident_is x "const" = false).
  { destruct (first_vis o); eexists _, _; split; try reflexivity; exact NC. }
  destruct T as (x & y & T & NX). split.
  - unfold read_item. rewrite RA by (rewrite T; reflexivity). rewrite RV.
    + rewrite RK. reflexivity.
    + destruct (first_vis o); cbn [after_vis]; try exact Logic.I. cbn [eat_word]. rewrite NP. reflexivity.
  - unfold read_const. rewrite RA by (rewrite T; reflexivity). rewrite T. cbn [eat_word]. rewrite NX. reflexivity.
Qed.

(** ** The output *)
Definition good_output (e : marked_expansion) : bool :=
  forallb good_marked (me_exposed e) && forallb good_attr (me_const e) && forallb good_marked (me_scoped e).
Lemma marked_ne p : good_marked p = true -> print_marked p <> [].
Proof.
  unfold good_marked. intros G. bandh. destruct p as [o mk]. cbn [fst snd] in *. destruct (oitem_back o mk H0 H) as (V & w & r & E & _).
  unfold print_marked, print_oitem. cbn [fst snd]. fold (oitem_tokens o mk). rewrite E. intros X. apply app_eq_nil in X. destruct X as [_ X].
  apply app_eq_nil in X. destruct X as [_ X]. discriminate.
Qed.
Lemma output_back e : good_output e = true -> gives_output (print_expansion e) (shown_output e).
Proof.
  unfold good_output. intros G. bandh.
  assert (S : ev (fun m => read_all (read_item m) m (flat_map print_marked (me_scoped e)) = Some (map shown (me_scoped e)))).
  { apply (all_shown read_item shown print_marked good_marked); [|apply marked_ne|assumption].
    intros x Hx. eapply ev_mono; [apply (item_back x Hx)|]. intros m R rest. apply (R rest). }
  assert (O : ev (fun m => forall p, In p (me_exposed e) ->
    forall rest, read_item m (print_marked p ++ rest) = Some (shown p, rest) /\ read_const m (print_marked p ++ rest) = None)).
  { apply (ev_Forall (fun p m => forall rest, read_item m (print_marked p ++ rest) = Some (shown p, rest) /\ read_const m (print_marked p ++ rest) = None)).
    apply Forall_forall. intros p Hp. apply item_back. rewrite forallb_forall in H. apply H, Hp. }
  pose proof (ev_and _ _ S (ev_and _ _ O (ev_and _ _ (attrs_back _ H1) (ev_le (length (me_exposed e)))))) as E. destruct E as [n E]. exists n. intros m L.
  destruct (E m L) as (RS & RO & RA & RL). clear E L n. cbv beta in *. unfold print_expansion, shown_output.
  set (tail := flat_map print_gattr (me_const e) ++ _).
  assert (C : read_const m tail = Some (map shown_attr (me_const e), flat_map print_marked (me_scoped e))).
  { unfold tail, read_const. rewrite RA by reflexivity. reflexivity. }
  change (flat_map (fun p => print_oitem (fst p) (snd p))) with (flat_map print_marked).
  assert (K : forall l k, length l <= k ->
    (forall p, In p l -> forall rest, read_item m (print_marked p ++ rest) = Some (shown p, rest) /\ read_const m (print_marked p ++ rest) = None) ->
    read_output m k (flat_map print_marked l ++ tail) = Some (mkROutput (map shown l) (map shown_attr (me_const e)) (map shown (me_scoped e)))).
  { clear RO RL. induction l as [|p l IH]; intros k L RO.
    - cbn [flat_map app map]. destruct k; cbn [read_output]; rewrite C, RS; reflexivity.
    - cbn [length] in L. destruct k as [|k]; [lia|]. cbn [flat_map map]. rewrite <- app_assoc. cbn [read_output].
      destruct (RO p (or_introl eq_refl) (flat_map print_marked l ++ tail)) as [R1 R2]. rewrite R1, R2.
      rewrite IH; [reflexivity|lia|]. intros q Hq. apply RO. right. exact Hq. }
  apply K; [exact RL|exact RO].
Qed.
