(** The tokens of a printed type read back as that type. *)
From Coq Require Import String Ascii List Bool Arith Lia.
From Verif Require Import Base Syntax SyntaxInd ModelUtils SpecArgs SpecParse SpecTokens SpecRead ProofsTokens.
Import ListNotations.
Open Scope string_scope.
Open Scope list_scope.

(** ** From some point on *)
Definition ev (P : nat -> Prop) : Prop := exists n, forall m, n <= m -> P m.

Lemma ev_mono (P Q : nat -> Prop) : ev P -> (forall m, P m -> Q m) -> ev Q.
Proof. intros [n H] G. exists n. auto. Qed.
Lemma ev_all (P : nat -> Prop) : (forall m, P m) -> ev P.
Proof. intros H. exists 0. auto. Qed.
Lemma ev_and (P Q : nat -> Prop) : ev P -> ev Q -> ev (fun m => P m /\ Q m).
Proof. intros [n H] [k G]. exists (n + k). intros m L. split; [apply H | apply G]; lia. Qed.
Lemma ev_S (P Q : nat -> Prop) : ev P -> (forall m, P m -> Q (S m)) -> ev Q.
Proof. intros [n H] G. exists (S n). intros [|m] L; [lia|]. apply G, H. lia. Qed.
Lemma ev_le (k : nat) : ev (fun m => k <= m).
Proof. exists k. auto. Qed.
Lemma ev_Forall {A} (P : A -> nat -> Prop) l : Forall (fun x => ev (P x)) l -> ev (fun m => forall x, In x l -> P x m).
Proof.
  induction 1 as [|x l H _ IH].
  - apply ev_all. intros m x [].
  - apply (ev_mono (fun m => P x m /\ forall y, In y l -> P y m)).
    + apply ev_and; assumption.
    + intros m [H1 H2] y [<-|I]; auto.
Qed.

(** ** Lists *)
Lemma sep_by_2 {A} spr (pr : A -> list ttree) x y l :
  sep_by spr (map pr (x :: y :: l)) = pr x ++ spr ++ sep_by spr (map pr (y :: l)).
Proof. reflexivity. Qed.

Section Lists.
  Context {A : Type} (f : reader A) (pr : A -> list ttree).

  Lemma list_in_sep n l :
    length l <= n -> (forall x, In x l -> pr x <> []) ->
    (forall x rest, In x l -> rest = [] \/ (exists r, rest = t_comma :: r) -> f (pr x ++ rest) = Some (x, rest)) ->
    list_in f n (sep_by [t_comma] (map pr l)) = Some (l, false).
  Proof.
    revert n. induction l as [|x l IH]; intros n L NE R; [destruct n; reflexivity|].
    destruct n as [|n]; [cbn in L; lia|].
    destruct l as [|y l].
    - cbn [map sep_by]. pose proof (R x [] (or_introl eq_refl) (or_introl eq_refl)) as E.
      rewrite app_nil_r in E. destruct (pr x) as [|t ts] eqn:P; [destruct (NE x (or_introl eq_refl) P)|].
      cbn [list_in]. rewrite E. reflexivity.
    - rewrite sep_by_2.
      set (r := sep_by [t_comma] (map pr (y :: l))) in *.
      assert (Er : r <> []).
      { unfold r. cbn [map sep_by]. pose proof (NE y (or_intror (or_introl eq_refl))) as N.
        destruct (map pr l); [exact N|]. destruct (pr y); [congruence|discriminate]. }
      assert (E : f (pr x ++ [t_comma] ++ r) = Some (x, [t_comma] ++ r)).
      { apply R; [left; reflexivity | right; exists r; reflexivity]. }
      assert (IH' : list_in f n r = Some (y :: l, false)).
      { apply IH; [cbn in *; lia | intros; apply NE; right; assumption | intros; apply R; [right; assumption | assumption]]. }
      destruct (pr x ++ [t_comma] ++ r) as [|t ts] eqn:P.
      { destruct (pr x); discriminate. }
      cbn [list_in]. rewrite E. cbn [app eat t_comma]. rewrite Ascii.eqb_refl.
      destruct r as [|r0 r1]; [congruence|]. rewrite IH'. reflexivity.
  Qed.

  Lemma list_in_one n x :
    1 <= n -> pr x <> [] -> f (pr x ++ [t_comma]) = Some (x, [t_comma]) ->
    list_in f n (pr x ++ [t_comma]) = Some ([x], true).
  Proof.
    intros L NE E. destruct n as [|n]; [lia|].
    destruct (pr x ++ [t_comma]) as [|t ts] eqn:P; [destruct (pr x); discriminate|].
    cbn [list_in]. rewrite E. reflexivity.
  Qed.

  Lemma list_to_sep n l rest :
    length l <= n ->
    (forall x r, In x l -> eat ">" (pr x ++ r) = None) ->
    (forall x c r, In x l -> c = "," %char \/ c = ">" %char -> f (pr x ++ TPunct c false :: r) = Some (x, TPunct c false :: r)) ->
    list_to f n (sep_by [t_comma] (map pr l) ++ TPunct ">" false :: rest) = Some (l, rest).
  Proof.
    revert n. induction l as [|x l IH]; intros n L NE R; [destruct n; reflexivity|].
    destruct n as [|n]; [cbn in L; lia|].
    destruct l as [|y l].
    - cbn [map sep_by list_to]. rewrite NE by (left; reflexivity).
      rewrite R by (auto; left; reflexivity). reflexivity.
    - rewrite sep_by_2. cbn [list_to]. rewrite <- !app_assoc. rewrite NE by (left; reflexivity).
      cbn [app]. unfold t_comma at 1. rewrite R by (auto; left; reflexivity).
      cbn [eat]. rewrite Ascii.eqb_refl.
      rewrite IH; [reflexivity | cbn in *; lia | intros; apply NE; right; assumption
                   | intros; apply R; [right; assumption | assumption]].
  Qed.

  Lemma chain_sep sep spr n l rest :
    l <> [] -> length l <= n -> (forall r, sep (spr ++ r) = Some r) -> sep rest = None ->
    (forall x y r, In x (removelast l) -> In y l -> f (pr x ++ spr ++ pr y ++ r) = Some (x, spr ++ pr y ++ r)) ->
    (forall l1 x, l = l1 ++ [x] -> f (pr x ++ rest) = Some (x, rest)) ->
    chain f sep n (sep_by spr (map pr l) ++ rest) = Some (l, rest).
  Proof.
    intros NE L S N. revert n L NE. induction l as [|x l IH]; intros n L NE R R'; [congruence|].
    destruct n as [|n]; [cbn in L; lia|].
    destruct l as [|y l].
    - cbn [map sep_by chain]. rewrite (R' [] x eq_refl), N. reflexivity.
    - rewrite sep_by_2. cbn [chain]. rewrite <- !app_assoc.
      assert (Y : exists r, sep_by spr (map pr (y :: l)) ++ rest = pr y ++ r).
      { destruct l as [|z l]; [eexists; reflexivity|].
        rewrite sep_by_2, <- !app_assoc. eexists; reflexivity. }
      destruct Y as [r Y].
      assert (E : f (pr x ++ spr ++ sep_by spr (map pr (y :: l)) ++ rest) =
                  Some (x, spr ++ sep_by spr (map pr (y :: l)) ++ rest)).
      { rewrite Y. apply R; [left; reflexivity | right; left; reflexivity]. }
      rewrite E, S.
      rewrite IH; [reflexivity | cbn in *; lia | discriminate | | ].
      + intros a b r' Ia Ib. apply R; [right; exact Ia | right; exact Ib].
      + intros l1 a E'. apply (R' (x :: l1)). rewrite <- app_comm_cons, <- E'. reflexivity.
  Qed.
End Lists.

(** ** What may follow *)
Definition stop (c : ascii) (j : bool) : bool :=
  negb (existsb (Ascii.eqb c) ["<"; "!"; "-"]%char) && negb (Ascii.eqb c ":" && j).
Definition follow (ts : list ttree) : bool :=
  match ts with TPunct c j :: _ => stop c j | TGroup Paren _ :: _ => false | _ => true end.
Definition not_plus (ts : list ttree) : bool :=
  match ts with TPunct c _ :: _ => negb (Ascii.eqb c "+") | _ => true end.
Definition paren_next (ts : list ttree) : bool := match ts with TGroup Paren _ :: _ => true | _ => false end.
Definition bang_next (ts : list ttree) : bool := match ts with TPunct c _ :: _ => Ascii.eqb c "!" | _ => false end.
Definition seg_next (ts : list ttree) : bool :=
  match ts with TPunct c true :: TPunct d _ :: TIdent _ :: _ => Ascii.eqb c ":" && Ascii.eqb d ":" | _ => false end.
Definition stops (value : bool) (ts : list ttree) : bool := follow ts || (value && paren_next ts).
Definition after_seg (value : bool) (ts : list ttree) : bool := stops value ts || bang_next ts || seg_next ts.

Lemma stop_not c j d : stop c j = true -> In d ["<"; "!"; "-"]%char -> Ascii.eqb c d = false.
Proof.
  unfold stop. intros H I. apply andb_prop in H. destruct H as [H _]. apply negb_true_iff in H.
  destruct (Ascii.eqb_spec c d); [|reflexivity]. subst d. exfalso.
  assert (T : existsb (Ascii.eqb c) ["<"; "!"; "-"]%char = true); [|congruence].
  apply existsb_exists. exists c. split; [exact I | apply Ascii.eqb_refl].
Qed.
Lemma stop_colon c : stop c true = true -> Ascii.eqb c ":" = false.
Proof.
  unfold stop. intros H. apply andb_prop in H. destruct H as [_ H]. apply negb_true_iff in H.
  rewrite andb_true_r in H. exact H.
Qed.

Lemma path_word_not i s :
  path_word i = true -> existsb (String.eqb s) (strict_keywords ++ reserved_keywords ++ ["_"]) = true ->
  existsb (String.eqb s) ["self"; "Self"; "super"; "crate"] = false -> ident_is i s = false.
Proof.
  unfold path_word, ident_is. intros H K N.
  destruct (raw i) eqn:R; [reflexivity|]. cbn [negb andb orb] in *.
  destruct (String.eqb (name i) s) eqn:E; [|reflexivity].
  apply String.eqb_eq in E. rewrite E, K, N in H. discriminate.
Qed.

Lemma eat2_colon r : eat2 ":" ":" (t_colon2 ++ r) = Some r.
Proof. reflexivity. Qed.
Lemma eat2_none value ts c : after_seg value ts = true -> eat2 "-" c ts = None.
Proof.
  unfold after_seg, stops. destruct ts as [|[i|d j|s|d l] ts]; try reflexivity.
  intros H. destruct j; [|reflexivity]. cbn [eat2].
  destruct (Ascii.eqb_spec d "-"); [subst d|destruct ts as [|[] ?]; reflexivity].
  exfalso. revert H. cbn. destruct ts as [|[| | |] [|[] ?]]; destruct value; discriminate.
Qed.
Lemma stops_colon value ts : stops value ts = true -> eat2 ":" ":" ts = None.
Proof.
  unfold stops. destruct ts as [|[i|d j|s|d l] ts]; try reflexivity.
  intros H. cbn [follow paren_next] in H. rewrite andb_false_r, orb_false_r in H.
  destruct j; [|reflexivity]. apply stop_colon in H. cbn [eat2]. rewrite H. destruct ts as [|[] ?]; reflexivity.
Qed.
Lemma bang_colon ts : bang_next ts = true -> eat2 ":" ":" ts = None.
Proof.
  destruct ts as [|[i|d j|s|d l] ts]; try discriminate. cbn [bang_next]. intros H.
  apply Ascii.eqb_eq in H. subst d. destruct j; destruct ts as [|[] ?]; reflexivity.
Qed.

Lemma read_lt_print lt r : quoted lt = true -> read_lt (print_lt lt ++ r) = Some (lt, r).
Proof.
  destruct lt as [|c lt]; [discriminate|]. cbn [quoted]. intros H. apply Ascii.eqb_eq in H. subst c. reflexivity.
Qed.

Lemma removelast_incl {A} (l : list A) x : In x (removelast l) -> In x l.
Proof.
  induction l as [|a l IH]; [intros []|]. cbn [removelast]. destruct l as [|b l]; [intros []|].
  intros [<-|I]; [left; reflexivity | right; apply IH, I].
Qed.

Lemma sep_by_ne spr (l : list (list ttree)) : (exists x r, l = x :: r /\ x <> []) -> sep_by spr l <> [].
Proof.
  intros (x & r & -> & N). destruct r; cbn [sep_by]; [exact N|]. destruct x; [congruence|discriminate].
Qed.

(** ** Types start like types *)
Definition head_ok (ts : list ttree) : bool :=
  match ts with
  | TIdent _ :: TPunct c _ :: _ => negb (Ascii.eqb c "=")
  | TPunct c _ :: _ => existsb (Ascii.eqb c) ["<"; "&"; "*"; "!"; ":"]%char
  | TLit _ :: _ | [] => false
  | _ => true
  end.

Lemma follow_after value rest : follow rest = true -> after_seg value rest = true.
Proof. unfold after_seg, stops. intros ->. reflexivity. Qed.
Lemma stops_after value rest : stops value rest = true -> after_seg value rest = true.
Proof. unfold after_seg. intros ->. reflexivity. Qed.

Definition not_eq (ts : list ttree) : bool :=
  match ts with TPunct c _ :: _ => negb (Ascii.eqb c "=") | _ => true end.
Lemma ident_head i rest : not_eq rest = true -> head_ok (TIdent i :: rest) = true.
Proof. destruct rest as [|[j|c j|s|d l] rest]; try reflexivity. intros H. exact H. Qed.

Lemma seg_head s rest : not_eq rest = true -> head_ok (print_seg s ++ rest) = true.
Proof.
  destruct s as [i [|b l|l o]]; cbn [print_seg print_gargs]; intros H.
  - apply ident_head, H.
  - destruct b; reflexivity.
  - reflexivity.
Qed.
Lemma seg_next_seg s r : not_eq (t_colon2 ++ print_seg s ++ r) = true.
Proof. destruct s; reflexivity. Qed.
Lemma seg_next_seg' v s r : after_seg v (t_colon2 ++ print_seg s ++ r) = true.
Proof. destruct s, v; reflexivity. Qed.

Lemma segs_head l rest :
  l <> [] -> not_eq rest = true -> head_ok (sep_by t_colon2 (map print_seg l) ++ rest) = true.
Proof.
  destruct l as [|x [|y l]]; [congruence| |]; intros _ H.
  - apply seg_head, H.
  - rewrite sep_by_2, <- !app_assoc. apply seg_head.
    destruct l as [|z l]; [|rewrite sep_by_2, <- !app_assoc]; apply seg_next_seg.
Qed.
Lemma path_head p rest :
  source_path p = true -> not_eq rest = true -> head_ok (print_path p ++ rest) = true.
Proof.
  destruct p as [lead l]. cbn [source_path print_path]. rewrite !andb_true_iff. intros [[N _] _] H.
  destruct lead; [reflexivity|]. apply segs_head; [|exact H]. destruct l; [discriminate|congruence].
Qed.

Lemma words_segs m : map (fun i => [TIdent i]) m = map print_seg (map (fun i => Seg i GNone) m).
Proof. rewrite map_map. reflexivity. Qed.

Lemma ty_head t rest : source_ty t = true -> not_eq rest = true -> head_ok (print_ty t ++ rest) = true.
Proof.
  destruct t as [q p|lt m t|m t|l|t|t e|lts l o|bs|t| |m ts]; cbn [source_ty]; intros S F; try reflexivity.
  - destruct q as [[t n]|]; [reflexivity|]. apply path_head; [exact S | exact F].
  - cbn [print_ty]. unfold print_for. destruct lts; reflexivity.
  - cbn [print_ty]. apply andb_prop in S. destruct S as [N S]. destruct bs as [|b bs]; [discriminate|].
    cbn [map sep_by app t_id]. cbn [forallb] in S. apply andb_prop in S. destruct S as [S _].
    assert (E : forall r, head_ok (TIdent (I "dyn") :: print_bound b ++ r) = true).
    { intros r. destruct b as [lt|q lts p]; [reflexivity|]. cbn [print_bound source_bound] in *.
      destruct q; [reflexivity|]. destruct lts; [|reflexivity].
      apply andb_prop in S. destruct S as [_ S]. destruct p as [lead l].
      cbn [source_path] in S. rewrite !andb_true_iff in S. destruct l as [|[i a] l]; [destruct S as [[? _] _]; discriminate|].
      destruct lead; [reflexivity|]. cbn [print_path]. cbn [map].
      destruct (map print_seg l); reflexivity. }
    destruct (map print_bound bs); cbn [sep_by]; [apply E|]. rewrite <- app_assoc. apply E.
  - cbn [print_ty]. apply andb_prop in S. destruct S as [N _]. rewrite words_segs, <- app_assoc. apply segs_head.
    + destruct m; [discriminate|]. discriminate.
    + reflexivity.
Qed.

Lemma head_ne ts : head_ok ts = true -> ts <> [].
Proof. intros H ->. discriminate. Qed.
Lemma head_lt ts : head_ok ts = true -> read_lt ts = None.
Proof.
  destruct ts as [|[i|c j|s|d l] ts]; try reflexivity. cbn [head_ok existsb]. intros H.
  destruct j; [|reflexivity]. destruct ts as [|[] ?]; try reflexivity. cbn [read_lt].
  destruct (Ascii.eqb_spec c "'"); [subst c; discriminate H | reflexivity].
Qed.
(** The same, whatever follows. *)
Lemma ty_lt t rest : source_ty t = true -> read_lt (print_ty t ++ rest) = None.
Proof.
  intros S. pose proof (ty_head t [] S eq_refl) as H. rewrite app_nil_r in H.
  destruct (print_ty t) as [|[i|c j|s|d l] ts]; try discriminate; try reflexivity.
  cbn [head_ok existsb app] in *. destruct j; [|reflexivity].
  destruct (ts ++ rest) as [|[] ?]; try reflexivity. cbn [read_lt].
  destruct (Ascii.eqb_spec c "'"); [subst c; discriminate H | reflexivity].
Qed.
Lemma path_lt p rest : source_path p = true -> read_lt (print_path p ++ rest) = None.
Proof. exact (ty_lt (TyPath None p) rest). Qed.
Lemma path_q p rest : source_path p = true -> eat "?" (print_path p ++ rest) = None.
Proof.
  intros S. pose proof (path_head p [] S eq_refl) as H. rewrite app_nil_r in H.
  destruct (print_path p) as [|[i|c j|s|d l] ts]; try discriminate; try reflexivity.
  cbn [head_ok existsb app eat] in *. destruct (Ascii.eqb_spec c "?"); [subst c; discriminate H | reflexivity].
Qed.
Lemma head_gt ts : head_ok ts = true -> eat ">" ts = None.
Proof.
  destruct ts as [|[i|c j|s|d l] ts]; try reflexivity. cbn [head_ok existsb]. intros H. cbn [eat].
  destruct (Ascii.eqb_spec c ">"); [subst c; discriminate H | reflexivity].
Qed.
Lemma head_garg rt ts :
  head_ok ts = true -> read_garg rt ts = match rt true ts with Some (t, r') => Some (ATy t, r') | None => None end.
Proof.
  intros H. unfold read_garg. rewrite (head_lt _ H).
  destruct ts as [|[i|c j|s|d l] ts]; try reflexivity; [|discriminate].
  destruct ts as [|[i'|c j|s|d l] ts]; try reflexivity. cbn [head_ok] in H.
  apply negb_true_iff in H. rewrite H. reflexivity.
Qed.

(** ** The induction *)
Notation RT m := (fst (read m)).
Notation RE m := (snd (read m)).

Definition Qt (t : ty) : Prop :=
  source_ty t = true -> parses_ty t = true ->
  ev (fun m => forall plus rest, follow rest = true -> (plus = true -> not_plus rest = true) ->
        (plus = false -> no_plus t = true) -> RT m plus (print_ty t ++ rest) = Some (t, rest)).
Definition Qp (p : path) : Prop :=
  source_path p = true -> parses_path p = true ->
  ev (fun m => forall value rest, (value = true -> value_path None p = true) -> stops value rest = true ->
        read_path m (RT m) value (print_path p ++ rest) = Some (p, rest)).
Definition Qs (s : seg) : Prop :=
  source_seg s = true -> parses_seg s = true ->
  ev (fun m => forall value rest, (value = true -> value_args s = true) -> after_seg value rest = true ->
        (arrow s = true -> follow rest = true) ->
        read_seg m (RT m) value (print_seg s ++ rest) = Some (s, rest)).
Definition Qgs (a : gargs) : Prop :=
  source_gargs a = true -> parses_gargs a = true ->
  ev (fun m => forall value rest, (value = true -> value_args (Seg (I "") a) = true) -> after_seg value rest = true ->
        (arrow (Seg (I "") a) = true -> follow rest = true) ->
        read_args m (RT m) value (print_gargs a ++ rest) = Some (a, rest)).
Definition Qg (a : garg) : Prop :=
  source_garg a = true -> parses_garg a = true ->
  ev (fun m => forall rest, follow rest = true -> not_plus rest = true -> not_eq rest = true ->
        read_garg (RT m) (print_garg a ++ rest) = Some (a, rest)).
Definition Qb (b : bound) : Prop :=
  source_bound b = true -> parses_bound b = true ->
  ev (fun m => forall rest, follow rest = true -> read_bound m (RT m) (print_bound b ++ rest) = Some (b, rest)).
Definition Qe (e : expr) : Prop :=
  source_expr e = true -> parses_expr e = true ->
  exists c h, ev (fun m => forall rest k, stops true rest = true ->
    exists r', read_prim m (RT m) (print_expr e ++ rest) = Some (h, r') /\
               calls m (RE m) (c + k) h r' = calls m (RE m) k e rest).

Lemma use_all {A} (a b : A -> bool) (P : A -> nat -> Prop) l :
  Forall (fun x => a x = true -> b x = true -> ev (P x)) l -> forallb a l = true -> forallb b l = true ->
  ev (fun m => forall x, In x l -> P x m).
Proof.
  intros H Ha Hb. apply ev_Forall. rewrite Forall_forall in *. rewrite forallb_forall in Ha, Hb. auto.
Qed.

(** Lists of types between parentheses. *)
Lemma tys_in l :
  Forall Qt l -> forallb source_ty l = true -> forallb parses_ty l = true ->
  ev (fun m => list_in (RT m true) m (sep_by [t_comma] (map print_ty l)) = Some (l, false)).
Proof.
  intros H S P. eapply ev_mono; [apply (ev_and _ _ (use_all _ _ _ _ H S P) (ev_le (length l)))|].
  intros m [R L]. cbv beta in *. rewrite forallb_forall in S. apply list_in_sep; [exact L | |].
  - intros x I E. pose proof (ty_head x [] (S x I) eq_refl) as Hd. rewrite E in Hd. discriminate.
  - intros x rest I D. apply R; [exact I | | | discriminate].
    + destruct D as [->|[r ->]]; reflexivity.
    + destruct D as [->|[r ->]]; reflexivity.
Qed.

(** What a function type returns. *)
Lemma out_back o :
  Po Qt o -> match o with Some t' => source_ty t' | None => true end = true ->
  match o with Some t' => parses_ty t' && no_plus t' | None => true end = true ->
  ev (fun m => forall value rest, after_seg value rest = true -> (o <> None -> follow rest = true) ->
        read_out (RT m) (match o with Some t' => t_arrow ++ print_ty t' | None => [] end ++ rest) = Some (o, rest)).
Proof.
  destruct o as [t|]; cbn [Po]; intros H S P.
  - apply andb_prop in P. destruct P as [P N]. eapply ev_mono; [apply (H S P)|].
    intros m R value rest _ F. cbv beta in R. unfold read_out. rewrite <- app_assoc. cbn [app t_arrow eat2 Ascii.eqb].
    cbn. rewrite R; [reflexivity | apply F; discriminate | discriminate | intros _; exact N].
  - apply ev_all. intros m value rest A _. unfold read_out. cbn [app]. rewrite (eat2_none _ _ _ A). reflexivity.
Qed.

(** Lists of segments. *)
Lemma segs_back l :
  Forall Qs l -> l <> [] -> forallb source_seg l = true -> forallb parses_seg l = true -> arrows_last l = true ->
  ev (fun m => forall value rest, (value = true -> forallb value_args l = true) ->
        stops value rest = true \/ (bang_next rest = true /\ forallb (fun s => negb (arrow s)) l = true) ->
        read_segs m (RT m) value (sep_by t_colon2 (map print_seg l) ++ rest) = Some (l, rest)).
Proof.
  intros H NE S P AL. eapply ev_mono; [apply (ev_and _ _ (use_all _ _ _ _ H S P) (ev_le (length l)))|].
  intros m [R L] value rest V F. cbv beta in R. unfold read_segs.
  apply chain_sep; [exact NE | exact L | reflexivity | | |].
  - destruct F as [F|[F _]]; [apply (stops_colon _ _ F) | apply (bang_colon _ F)].
  - intros x y r Ix Iy. apply R.
    + apply removelast_incl, Ix.
    + intros Ev. specialize (V Ev). rewrite forallb_forall in V. apply V, removelast_incl, Ix.
    + apply seg_next_seg'.
    + intros A. unfold arrows_last in AL. rewrite forallb_forall in AL. apply AL in Ix. rewrite A in Ix. discriminate.
  - intros l1 x ->. assert (I : In x (l1 ++ [x])) by (apply in_or_app; right; left; reflexivity).
    assert (V' : value = true -> value_args x = true).
    { intros Ev. specialize (V Ev). rewrite forallb_forall in V. apply V, I. }
    apply R; [exact I | exact V' | |].
    + destruct F as [F|[F _]]; [apply stops_after, F|]. unfold after_seg. rewrite F, orb_true_r. reflexivity.
    + intros A. destruct F as [F|[_ F]].
      * destruct value; [|cbn in F; unfold stops in F; cbn in F; rewrite orb_false_r in F; exact F].
        specialize (V' eq_refl). destruct x as [i [| |? []]]; discriminate.
      * rewrite forallb_forall in F. apply F in I. rewrite A in I. discriminate.
Qed.

Lemma for_back lts :
  forallb quoted lts = true ->
  ev (fun m => forall rest, eat_word "for" rest = None -> read_for m (print_for lts ++ rest) = Some (lts, rest)).
Proof.
  intros Q. eapply ev_mono; [apply (ev_le (length lts))|]. intros m L rest N. cbv beta in L.
  destruct lts as [|lt lts].
  - unfold read_for. cbn [print_for app]. rewrite N. reflexivity.
  - unfold print_for. rewrite <- !app_assoc. cbn [app].
    unfold read_for. cbn [eat_word t_id].
    change (ident_is (I "for") "for") with true. cbv iota. cbn [eat]. rewrite Ascii.eqb_refl.
    rewrite forallb_forall in Q. apply list_to_sep; [exact L | reflexivity |].
    intros x c r I _. apply read_lt_print, Q, I.
Qed.

(** Qualified paths, as types and as values. *)
Definition qtokens (t : ty) (n : nat) (p : path) : list ttree :=
  [TPunct "<" false] ++ print_ty t ++
  match n, p with
  | 0, Path lead segs => [TPunct ">" false] ++ (if lead then t_colon2 else []) ++ sep_by t_colon2 (map print_seg segs)
  | _, Path lead segs =>
    [t_id "as"] ++ (if lead then t_colon2 else []) ++
    sep_by t_colon2 (firstn n (map print_seg segs)) ++ [TPunct ">" false] ++
    flat_map (fun s => t_colon2 ++ s) (skipn n (map print_seg segs))
  end.

Lemma flat_sep l : l <> [] -> flat_map (fun s => t_colon2 ++ s) l = t_colon2 ++ sep_by t_colon2 l.
Proof.
  induction l as [|x [|y l] IH]; [congruence| |]; intros _.
  - cbn [flat_map]. rewrite app_nil_r. reflexivity.
  - cbn [flat_map] in *. rewrite IH by discriminate. rewrite <- app_assoc. reflexivity.
Qed.

Lemma forallb_firstn {A} (f : A -> bool) n l : forallb f l = true -> forallb f (firstn n l) = true.
Proof.
  rewrite !forallb_forall. intros H x I. apply H. rewrite <- (firstn_skipn n l). apply in_or_app. left. exact I.
Qed.
Lemma forallb_skipn {A} (f : A -> bool) n l : forallb f l = true -> forallb f (skipn n l) = true.
Proof.
  rewrite !forallb_forall. intros H x I. apply H. rewrite <- (firstn_skipn n l). apply in_or_app. right. exact I.
Qed.
Lemma Forall_firstn {A} (P : A -> Prop) n l : Forall P l -> Forall P (firstn n l).
Proof.
  rewrite !Forall_forall. intros H x I. apply H. rewrite <- (firstn_skipn n l). apply in_or_app. left. exact I.
Qed.
Lemma Forall_skipn {A} (P : A -> Prop) n l : Forall P l -> Forall P (skipn n l).
Proof.
  rewrite !Forall_forall. intros H x I. apply H. rewrite <- (firstn_skipn n l). apply in_or_app. right. exact I.
Qed.

(** What the segments of a path give. *)
Definition Qpc (p : path) : Prop := Forall Qs (match p with Path _ l => l end).

Lemma seg_start s r : exists i r', print_seg s ++ r = TIdent i :: r' .
Proof. destruct s. eexists _, _. reflexivity. Qed.
Lemma segs_start l r : l <> [] -> exists i r', sep_by t_colon2 (map print_seg l) ++ r = TIdent i :: r'.
Proof.
  destruct l as [|x [|y l]]; [congruence| |]; intros _.
  - apply seg_start.
  - rewrite sep_by_2, <- app_assoc. apply seg_start.
Qed.

Lemma path_back (lead : bool) (l : list seg) :
  Forall Qs l -> l <> [] -> forallb source_seg l = true -> forallb parses_seg l = true -> arrows_last l = true ->
  ev (fun m => forall value rest, (value = true -> forallb value_args l = true) ->
        stops value rest = true \/ (bang_next rest = true /\ forallb (fun s => negb (arrow s)) l = true) ->
        read_path m (RT m) value ((if lead then t_colon2 else []) ++ sep_by t_colon2 (map print_seg l) ++ rest) =
        Some (Path lead l, rest)).
Proof.
  intros H NE S P AL. eapply ev_mono; [apply (segs_back l H NE S P AL)|].
  intros m R value rest V F. cbv beta in R. specialize (R value rest V F). unfold read_path.
  destruct lead.
  - unfold maybe. rewrite eat2_colon. rewrite R. reflexivity.
  - cbn [app]. destruct (segs_start l rest NE) as (i & r' & E). rewrite E in *. unfold maybe. cbn [eat2].
    rewrite R. reflexivity.
Qed.

Lemma qpath_back t k lead l :
  Qt t -> Forall Qs l -> source_ty t = true -> parses_ty t = true ->
  forallb source_seg l = true -> forallb parses_seg l = true -> complete k lead l = true ->
  ev (fun m => forall value rest, (value = true -> forallb value_args (skipn k l) = true) -> stops value rest = true ->
        read_qpath m (RT m) value (qtokens t k (Path lead l) ++ rest) = Some ((Some (t, k), Path lead l), rest)).
Proof.
  intros Ht Hl St Pt Sl Pl C. unfold complete in C. rewrite !andb_true_iff in C. destruct C as [[[K Z] A1] A2].
  apply Nat.ltb_lt in K.
  assert (N2 : skipn k l <> []).
  { intros E. apply (f_equal (@length _)) in E. rewrite skipn_length in E. cbn in E. lia. }
  pose proof (segs_back (skipn k l) (Forall_skipn _ k _ Hl) N2 (forallb_skipn _ k _ Sl) (forallb_skipn _ k _ Pl) A2) as R2.
  destruct k as [|k].
  - subst lead. cbn [skipn] in *. eapply ev_mono; [apply (ev_and _ _ (Ht St Pt) R2)|].
    intros m [R R'] value rest V F. cbv beta in *. unfold qtokens, read_qpath.
    rewrite <- !app_assoc. cbn [app eat]. rewrite Ascii.eqb_refl.
    rewrite R; [|reflexivity|reflexivity|discriminate]. cbn [eat]. rewrite Ascii.eqb_refl.
    change (eat2 ":" ":" (t_colon2 ++ sep_by t_colon2 (map print_seg l) ++ rest))
      with (Some (sep_by t_colon2 (map print_seg l) ++ rest)). cbv iota beta.
    rewrite R'; [reflexivity | exact V | left; exact F].
  - assert (N1 : firstn (S k) l <> []).
    { intros E. apply (f_equal (@length _)) in E. rewrite firstn_length in E. cbn [length] in E. lia. }
    assert (L1 : length (firstn (S k) l) = S k) by (rewrite firstn_length; lia).
    pose proof (path_back lead (firstn (S k) l) (Forall_firstn _ (S k) _ Hl) N1 (forallb_firstn _ (S k) _ Sl)
                  (forallb_firstn _ (S k) _ Pl) A1) as R1.
    eapply ev_mono; [apply (ev_and _ _ (Ht St Pt) (ev_and _ _ R1 R2))|].
    intros m [R [R' R'']] value rest V F. cbv beta in *. unfold qtokens, read_qpath.
    rewrite firstn_map, skipn_map, flat_sep by (destruct (skipn (S k) l); [congruence|discriminate]).
    rewrite <- !app_assoc. cbn [app eat]. rewrite Ascii.eqb_refl.
    rewrite R; [|reflexivity|reflexivity|discriminate]. cbn [eat t_id eat_word].
    change (ident_is (I "as") "as") with true. cbv iota.
    rewrite R'; [|discriminate|left; reflexivity].
    cbn [eat]. rewrite Ascii.eqb_refl. cbn [app].
    change (eat2 ":" ":" (t_colon2 ++ sep_by t_colon2 (map print_seg (skipn (S k) l)) ++ rest))
      with (Some (sep_by t_colon2 (map print_seg (skipn (S k) l)) ++ rest)). cbv iota beta.
    rewrite R''; [|exact V|left; exact F]. rewrite L1, firstn_skipn. reflexivity.
Qed.

Lemma plain_words_back m : plain_words (map (fun i => Seg i GNone) m) = Some m.
Proof. induction m as [|i m IH]; [reflexivity|]. cbn [map plain_words]. rewrite IH. reflexivity. Qed.
Lemma seg_plain i value rest m rt :
  path_word i = true -> after_seg value rest = true -> read_seg m rt value (TIdent i :: rest) = Some (Seg i GNone, rest).
Proof.
  intros W A. unfold read_seg. rewrite W.
  assert (E : read_args m rt value rest = Some (GNone, rest)); [|rewrite E; reflexivity].
  unfold read_args. destruct rest as [|[j|c j|s|[] b] rest]; try (destruct value; reflexivity).
  - destruct (eat2 ":" ":" (TPunct c j :: rest)) as [r|] eqn:E.
    + unfold eat2 in E. destruct j; [|discriminate]. destruct rest as [|[|d j| |] rest]; try discriminate.
      destruct (Ascii.eqb_spec c ":"); [subst c|discriminate]. destruct (Ascii.eqb_spec d ":"); [subst d|discriminate].
      cbn in E. injection E as <-. revert A. unfold after_seg. cbn. rewrite andb_false_r.
      destruct rest as [|[k|? ?| |] rest]; try discriminate. reflexivity.
    + destruct value; [reflexivity|]. cbn [eat]. destruct (Ascii.eqb_spec c "<"); [subst c|reflexivity].
      exfalso. revert A. cbn. destruct j; destruct rest as [|[] [|[] ?]]; discriminate.
  - destruct value; [reflexivity|discriminate].
Qed.

Lemma seg_words m : Forall Qs (map (fun i => Seg i GNone) m).
Proof.
  apply Forall_forall. intros s I. apply in_map_iff in I. destruct I as (i & <- & _). intros S _.
  cbn [source_seg source_gargs] in S. rewrite andb_true_r in S.
  apply ev_all. intros k value rest _ A _. apply seg_plain; assumption.
Qed.

(** [m!(..)]. *)
Lemma macro_back w :
  some_in w && forallb path_word w = true ->
  ev (fun m => forall value ts rest,
        read_qpath m (RT m) value (sep_by t_colon2 (map (fun i => [TIdent i]) w) ++ [TPunct "!" false; TGroup Paren ts] ++ rest) =
        Some ((None, Path false (map (fun i => Seg i GNone) w)), [TPunct "!" false; TGroup Paren ts] ++ rest)).
Proof.
  intros H. apply andb_prop in H. destruct H as [N W]. rewrite words_segs.
  set (l := map (fun i => Seg i GNone) w).
  assert (NE : l <> []) by (destruct w; discriminate).
  assert (S : forallb source_seg l = true).
  { unfold l. rewrite forallb_forall in *. intros s I. apply in_map_iff in I. destruct I as (i & <- & I).
    cbn. rewrite (W _ I). reflexivity. }
  assert (P : forallb parses_seg l = true).
  { unfold l. rewrite forallb_forall. intros s I. apply in_map_iff in I. destruct I as (i & <- & I). reflexivity. }
  assert (A : forallb (fun s => negb (arrow s)) l = true).
  { unfold l. rewrite forallb_forall. intros s I. apply in_map_iff in I. destruct I as (i & <- & I). reflexivity. }
  assert (V : forallb value_args l = true).
  { unfold l. rewrite forallb_forall. intros s I. apply in_map_iff in I. destruct I as (i & <- & I). reflexivity. }
  assert (AL : arrows_last l = true).
  { unfold arrows_last. rewrite forallb_forall in *. intros s I. apply A, removelast_incl, I. }
  eapply ev_mono; [apply (path_back false l (seg_words w) NE S P AL)|].
  intros m R value ts rest. cbv beta in R.
  specialize (R value ([TPunct "!" false; TGroup Paren ts] ++ rest) (fun _ => V) (or_intror (conj eq_refl A))).
  cbn [app] in R. unfold read_qpath. cbn [app].
  destruct (segs_start l (TPunct "!" false :: TGroup Paren ts :: rest) NE) as (i & r' & E). rewrite E in *.
  cbn [eat]. rewrite R. reflexivity.
Qed.

(** A plain path where a path may be qualified. *)
Lemma qpath_plain m rt value lead l rest :
  l <> [] ->
  read_path m rt value (print_path (Path lead l) ++ rest) = Some (Path lead l, rest) ->
  read_qpath m rt value (print_path (Path lead l) ++ rest) = Some ((None, Path lead l), rest).
Proof.
  intros NE H. unfold read_qpath. destruct lead.
  - cbn [print_path]. rewrite <- app_assoc. cbn [t_colon2 app eat].
    change (Ascii.eqb ":" "<") with false. cbv iota.
    cbn [print_path] in H. rewrite <- app_assoc in H. cbn [t_colon2 app] in H. rewrite H. reflexivity.
  - cbn [print_path app] in *. destruct (segs_start l rest NE) as (i & r' & E). rewrite E in *. cbn [eat].
    rewrite H. reflexivity.
Qed.
Lemma no_macro p value rest : stops value rest = true -> macro_after p rest = None.
Proof.
  destruct p as [[] l]; [reflexivity|]. destruct rest as [|[i|c j|s|d b] rest]; try reflexivity. intros H.
  unfold stops in H. cbn [follow paren_next] in H. rewrite andb_false_r, orb_false_r in H.
  cbn [macro_after]. destruct rest as [|[| | |[] ?] ?]; try reflexivity.
  rewrite (stop_not _ _ "!" H); [reflexivity | right; left; reflexivity].
Qed.

Lemma calls_stop n re k e rest : follow rest = true -> calls n re k e rest = Some (e, rest).
Proof. destruct rest as [|[| | |[]] rest]; try discriminate; destruct k; reflexivity. Qed.

Lemma expr_back e :
  Qe e -> source_expr e = true -> parses_expr e = true ->
  ev (fun m => forall rest, follow rest = true -> RE m (print_expr e ++ rest) = Some (e, rest)).
Proof.
  intros H S P. destruct (H S P) as (c & h & E).
  apply (ev_S _ _ (ev_and _ _ E (ev_le c))). intros m [R L] rest F. cbv beta in *.
  cbn [read snd]. unfold expr_body.
  assert (F' : stops true rest = true) by (unfold stops; rewrite F; reflexivity).
  destruct (R rest (m - c) F') as (r' & -> & C).
  replace (c + (m - c)) with m in C by lia. rewrite C. apply calls_stop, F.
Qed.

Lemma exprs_in l :
  Forall Qe l -> forallb source_expr l = true -> forallb parses_expr l = true ->
  (forall x, In x l -> print_expr x <> []) ->
  ev (fun m => list_in (RE m) m (sep_by [t_comma] (map print_expr l)) = Some (l, false)).
Proof.
  intros H S P N.
  assert (H' : Forall (fun x => source_expr x = true -> parses_expr x = true ->
                 ev (fun m => forall rest, follow rest = true -> RE m (print_expr x ++ rest) = Some (x, rest))) l).
  { eapply Forall_impl; [|exact H]. intros x Hx. apply expr_back, Hx. }
  eapply ev_mono; [apply (ev_and _ _ (use_all _ _ _ _ H' S P) (ev_le (length l)))|].
  intros m [R L]. cbv beta in *. apply list_in_sep; [exact L | exact N |].
  intros x rest I D. apply R; [exact I|]. destruct D as [->|[r ->]]; reflexivity.
Qed.

Lemma expr_ne e : source_expr e = true -> print_expr e <> [].
Proof.
  assert (W : forall (l l' : list ttree), l <> [] -> l ++ l' <> []) by (intros [|] ?; [congruence|discriminate]).
  assert (G : forall l, l <> [] -> sep_by t_colon2 (map print_seg l) <> []).
  { intros l N. destruct (segs_start l [] N) as (i & r & E). rewrite app_nil_r in E. rewrite E. discriminate. }
  destruct e as [[[t k]|] [lead l]|s|f l|m ts]; cbn [source_expr print_expr]; intros S; try discriminate.
  - cbn [source_path] in S. rewrite !andb_true_iff in S. destruct S as [[N _] _]. cbn [print_path].
    destruct lead; [discriminate|]. apply G. destruct l; [discriminate|congruence].
  - intros E. apply app_eq_nil in E. destruct E as [_ E]. discriminate.
  - intros E. apply app_eq_nil in E. destruct E as [_ E]. discriminate.
Qed.

Lemma follow_stops value rest : follow rest = true -> stops value rest = true.
Proof. unfold stops. intros ->. reflexivity. Qed.

Lemma skipn_segs q l : forallb value_args (behind q l) = true ->
  match q with Some (_, k) => forallb value_args (skipn k l) = true | None => forallb value_args l = true end.
Proof. destruct q as [[t k]|]; exact id. Qed.

Lemma read_back :
  (forall t, Qt t) /\ (forall p, Qp p /\ Qpc p) /\ (forall s, Qs s) /\ (forall a, Qgs a) /\
  (forall a, Qg a) /\ (forall b, Qb b) /\ (forall e, Qe e).
Proof.
  apply (syntax_ind Qt (fun p => Qp p /\ Qpc p) Qs Qgs Qg Qb Qe).
  - (* TyPath *)
    intros [[t k]|] [lead l] Hq [Hp Hl] S P; cbn [source_ty parses_ty] in S, P.
    + rewrite !andb_true_iff in S. destruct S as [[St Sl] C]. rewrite !andb_true_iff in P. destruct P as [[Pt Pl] _].
      apply (ev_S _ _ (qpath_back t k lead l Hq Hl St Pt Sl Pl C)).
      intros m R plus rest F _ _. cbv beta in R. cbn [read fst].
      specialize (R false rest (fun E => False_ind _ (Bool.diff_false_true E)) (follow_stops _ _ F)).
      change (print_ty (TyPath (Some (t, k)) (Path lead l))) with (qtokens t k (Path lead l)).
      unfold ty_body. unfold qtokens in *. cbn [app] in *.
      change (Ascii.eqb "<" "&") with false. change (Ascii.eqb "<" "*") with false. change (Ascii.eqb "<" "!") with false.
      cbv iota. unfold read_plain. rewrite R. reflexivity.
    + cbn [andb qualified] in P. rewrite andb_true_r in P. apply (ev_S _ _ (Hp S P)). intros m R plus rest F _ _. cbv beta in R. cbn [read fst].
      specialize (R false rest (fun E => False_ind _ (Bool.diff_false_true E)) (follow_stops _ _ F)).
      cbn [source_path] in S. rewrite !andb_true_iff in S. destruct S as [[N Sl] _].
      assert (NE : l <> []) by (destruct l; [discriminate|congruence]).
      apply qpath_plain in R; [|exact NE].
      assert (E : read_plain m (RT m) (print_path (Path lead l) ++ rest) = Some (TyPath None (Path lead l), rest)).
      { unfold read_plain. rewrite R, (no_macro _ _ _ (follow_stops false _ F)). reflexivity. }
      clear R. cbn [print_ty]. unfold ty_body.
      destruct lead; [exact E|].
      destruct l as [|[i a] l]; [congruence|].
      assert (H : exists r, print_path (Path false (Seg i a :: l)) ++ rest = TIdent i :: r).
      { cbn [print_path app map]. destruct (map print_seg l); cbn [sep_by print_seg app]; eexists; reflexivity. }
      destruct H as [r H]. rewrite H in *.
      cbn [forallb source_seg] in Sl. rewrite !andb_true_iff in Sl. destruct Sl as [[W _] _].
      rewrite !(path_word_not i) by (exact W || reflexivity). exact E.
  - (* TyRef *)
    intros lt mu t Ht S P. cbn [source_ty parses_ty] in S, P. apply andb_prop in S, P. destruct S as [L S], P as [P N].
    apply (ev_S _ _ (Ht S P)). intros m R plus rest F _ _. cbv beta in R. cbn [read fst print_ty]. rewrite <- !app_assoc.
    specialize (R false rest F (fun E => False_ind _ (Bool.diff_false_true E)) (fun _ => N)).
    cbn [app ty_body]. change (Ascii.eqb "&" "&") with true. cbv iota.
    set (body := print_ty t ++ rest) in *.
    assert (E1 : forall r, (if mu then [t_id "mut"] else []) ++ body = r ->
                 maybe (eat_word "mut") r = (mu, body)).
    { intros r <-. destruct mu; [reflexivity|]. cbn [app]. unfold maybe.
      assert (E : eat_word "mut" body = None); [|rewrite E; reflexivity].
      unfold body in *.
      destruct t as [[[t k]|] [lead l]|lt' m' t'|m' t'|l|t'|t' e|lts l o|bs|t'| |w ts]; try reflexivity.
      - cbn [source_ty source_path] in S. rewrite !andb_true_iff in S. destruct S as [[N0 Sl] _].
        cbn [print_ty print_path]. destruct lead; [reflexivity|]. destruct l as [|[i a] l]; [discriminate N0|].
        cbn [forallb source_seg] in Sl. rewrite !andb_true_iff in Sl. destruct Sl as [[W _] _].
        cbn [map app]. destruct (map print_seg l); cbn [sep_by print_seg app eat_word];
          rewrite (path_word_not i) by (exact W || reflexivity); reflexivity.
      - cbn [print_ty]. unfold print_for. destruct lts; reflexivity.
      - cbn [print_ty source_ty] in *. apply andb_prop in S. destruct S as [N0 W]. destruct w as [|i w]; [discriminate N0|].
        cbn [forallb] in W. apply andb_prop in W. destruct W as [W _]. cbn [map].
        destruct (map (fun i => [TIdent i]) w); cbn [sep_by app eat_word];
          rewrite (path_word_not i) by (exact W || reflexivity); reflexivity. }
    destruct lt as [lt|]; cbn [opt_list app].
    + rewrite read_lt_print by exact L. rewrite (E1 _ eq_refl). rewrite R. reflexivity.
    + assert (E : read_lt ((if mu then [t_id "mut"] else []) ++ body) = None).
      { destruct mu; [reflexivity|]. apply ty_lt, S. }
      rewrite E, (E1 _ eq_refl), R. reflexivity.
  - (* TyPtr *)
    intros mu t Ht S P. cbn [source_ty parses_ty] in S, P. apply andb_prop in P. destruct P as [P N].
    apply (ev_S _ _ (Ht S P)). intros m R plus rest F _ _. cbv beta in R. cbn [read fst print_ty]. rewrite <- !app_assoc.
    specialize (R false rest F (fun E => False_ind _ (Bool.diff_false_true E)) (fun _ => N)).
    cbn [app ty_body]. change (Ascii.eqb "*" "&") with false. change (Ascii.eqb "*" "*") with true. cbv iota.
    destruct mu; cbn; rewrite R; reflexivity.
  - (* TyTuple *)
    intros l Hl S P. cbn [source_ty parses_ty] in S, P.
    destruct l as [|x [|y l]].
    + apply (ev_S (fun _ => True)); [apply ev_all; auto|]. intros m _ plus rest _ _ _. destruct m; reflexivity.
    + cbn [forallb] in S, P. rewrite andb_true_r in S, P. apply Forall_inv in Hl.
      apply (ev_S _ _ (ev_and _ _ (Hl S P) (ev_le 1))). intros m [R L] plus rest F _ _. cbv beta in *.
      cbn [read fst print_ty map app ty_body].
      rewrite (list_in_one (RT m true) print_ty m x); [reflexivity | exact L | |].
      * intros E. pose proof (ty_head x [] S eq_refl) as Hd. rewrite E in Hd. discriminate.
      * apply R; [reflexivity | reflexivity | discriminate].
    + apply (ev_S _ _ (tys_in (x :: y :: l) Hl S P)). intros m R plus rest F _ _. cbv beta in R.
      cbn [read fst]. change (print_ty (TyTuple (x :: y :: l)))
        with [TGroup Paren (sep_by [t_comma] (map print_ty (x :: y :: l)))].
      cbn [app ty_body]. rewrite R. reflexivity.
  - (* TySlice *)
    intros t Ht S P. cbn [source_ty parses_ty] in S, P. apply (ev_S _ _ (Ht S P)). intros m R plus rest F _ _. cbv beta in R.
    cbn [read fst print_ty app ty_body].
    specialize (R true [] eq_refl (fun _ => eq_refl) (fun E => False_ind _ (Bool.diff_true_false E))).
    rewrite app_nil_r in R. rewrite R. reflexivity.
  - (* TyArray *)
    intros t e Ht He S P. cbn [source_ty parses_ty] in S, P. apply andb_prop in S, P. destruct S as [S Se], P as [P Pe].
    apply (ev_S _ _ (ev_and _ _ (Ht S P) (expr_back e He Se Pe))). intros m [R R'] plus rest F _ _. cbv beta in *.
    cbn [read fst print_ty app ty_body].
    rewrite R; [|reflexivity|reflexivity|discriminate]. cbn [eat]. rewrite Ascii.eqb_refl.
    specialize (R' [] eq_refl). rewrite app_nil_r in R'. rewrite R'. reflexivity.
  - (* TyFn *)
    intros lts l o Hl Ho S P. cbn [source_ty parses_ty] in S, P.
    rewrite !andb_true_iff in S. destruct S as [[Q Sl] So]. apply andb_prop in P. destruct P as [Pl Po].
    apply (ev_S _ _ (ev_and _ _ (for_back lts Q) (ev_and _ _ (tys_in l Hl Sl Pl) (out_back o Ho So Po)))).
    intros m [R1 [R2 R3]] plus rest F _ _. cbv beta in *. cbn [read fst print_ty].
    rewrite <- !app_assoc. cbn [app].
    set (tail := t_id "fn" :: TGroup Paren (sep_by [t_comma] (map print_ty l)) ::
                 match o with Some t' => t_arrow ++ print_ty t' | None => [] end ++ rest) in *.
    assert (E : read_fn m (RT m) (print_for lts ++ tail) = Some (TyFn lts l o, rest)).
    { unfold read_fn. rewrite R1 by reflexivity. unfold tail. cbn [eat_word t_id].
      change (ident_is (I "fn") "fn") with true. cbv iota. rewrite R2.
      rewrite (R3 false rest); [reflexivity | apply follow_after, F | intros _; exact F]. }
    destruct lts as [|lt lts]; cbn [print_for app] in *; exact E.
  - (* TyDyn *)
    intros bs Hb S P. cbn [source_ty parses_ty] in S, P. apply andb_prop in S. destruct S as [N S].
    apply (ev_S _ _ (ev_and _ _ (use_all _ _ _ _ Hb S P) (ev_le (length bs)))). intros m [R L] plus rest F NP PP. cbv beta in *.
    cbn [read fst print_ty app ty_body t_id]. change (ident_is (I "dyn") "dyn") with true. cbv iota.
    destruct plus.
    + rewrite (chain_sep _ print_bound); [reflexivity | destruct bs; [discriminate|congruence] | exact L | reflexivity | | |].
      * specialize (NP eq_refl). destruct rest as [|[| | |] rest]; try reflexivity. cbn [not_plus eat] in *.
        apply negb_true_iff in NP. rewrite NP. reflexivity.
      * intros x y r Ix Iy. apply R; [apply removelast_incl, Ix | reflexivity].
      * intros l1 x ->. apply R; [apply in_or_app; right; left; reflexivity | exact F].
    + specialize (PP eq_refl). destruct bs as [|b [|]]; [discriminate| |discriminate].
      cbn [map sep_by]. rewrite R; [reflexivity | left; reflexivity | exact F].
  - (* TyParen *)
    intros t Ht S P. cbn [source_ty parses_ty] in S, P. apply (ev_S _ _ (ev_and _ _ (Ht S P) (ev_le 1))).
    intros m [R L] plus rest F _ _. cbv beta in *. cbn [read fst print_ty app ty_body].
    pose proof (list_in_sep (RT m true) print_ty m [t] L) as E. cbn [map sep_by] in E. rewrite E; [reflexivity| |].
    + intros x [<-|[]] E'. pose proof (ty_head t [] S eq_refl) as Hd. rewrite E' in Hd. discriminate.
    + intros x r [<-|[]] D. apply R; [| | discriminate]; destruct D as [->|[r' ->]]; reflexivity.
  - (* TyNever *)
    intros _ _. apply (ev_S (fun _ => True)); [apply ev_all; auto|]. reflexivity.
  - (* TyMacro *)
    intros w ts S _. cbn [source_ty] in S. apply (ev_S _ _ (macro_back w S)). intros m R plus rest F _ _. cbv beta in R.
    cbn [read fst print_ty]. rewrite <- app_assoc. specialize (R false ts rest).
    assert (E : read_plain m (RT m) (sep_by t_colon2 (map (fun i => [TIdent i]) w) ++ [TPunct "!" false; TGroup Paren ts] ++ rest) =
                Some (TyMacro w ts, rest)).
    { unfold read_plain. rewrite R. cbn [macro_after app]. rewrite Ascii.eqb_refl, plain_words_back. reflexivity. }
    apply andb_prop in S. destruct S as [N0 W]. destruct w as [|i w]; [discriminate N0|].
    cbn [forallb] in W. apply andb_prop in W. destruct W as [W _].
    assert (H : exists r, sep_by t_colon2 (map (fun i => [TIdent i]) (i :: w)) ++ [TPunct "!" false; TGroup Paren ts] ++ rest = TIdent i :: r).
    { cbn [map]. destruct (map (fun i => [TIdent i]) w); cbn [sep_by app]; eexists; reflexivity. }
    destruct H as [r H]. rewrite H in *. unfold ty_body.
    rewrite !(path_word_not i) by (exact W || reflexivity). exact E.
  - (* Path *)
    intros lead l Hl. split; [|exact Hl]. intros S P. cbn [source_path parses_path] in S, P.
    rewrite !andb_true_iff in S. destruct S as [[N S] AL].
    assert (NE : l <> []) by (destruct l; [discriminate|congruence]).
    eapply ev_mono; [apply (path_back lead l Hl NE S P AL)|]. intros m R value rest V F. cbv beta in R.
    cbn [print_path]. rewrite <- app_assoc. apply R; [exact V | left; exact F].
  - (* Seg *)
    intros i a Ha S P. cbn [source_seg parses_seg] in S, P. apply andb_prop in S. destruct S as [W S].
    eapply ev_mono; [apply (Ha S P)|]. intros m R value rest V A Ar. cbv beta in R.
    cbn [print_seg app read_seg]. rewrite W. rewrite R; [reflexivity | exact V | exact A | exact Ar].
  - (* GNone *)
    intros _ _. apply ev_all. intros m value rest _ A _. cbn [print_gargs app].
    pose proof (seg_plain (I "x") value rest m (RT m) eq_refl A) as E. unfold read_seg in E.
    change (path_word (I "x")) with true in E. cbv iota in E.
    destruct (read_args m (RT m) value rest) as [[a r]|]; congruence.
  - (* GAngle *)
    intros turbo l Hl S P. cbn [source_gargs parses_gargs] in S, P.
    eapply ev_mono; [apply (ev_and _ _ (use_all _ _ _ _ Hl S P) (ev_le (length l)))|].
    intros m [R L] value rest V A _. cbv beta in *.
    assert (E : list_to (read_garg (RT m)) m (sep_by [t_comma] (map print_garg l) ++ TPunct ">" false :: rest) = Some (l, rest)).
    { rewrite forallb_forall in S. apply list_to_sep; [exact L | |].
      - intros x r I. specialize (S x I). destruct x as [lt|t|e|i t]; cbn [print_garg source_garg] in *; try reflexivity.
        + assert (Hr : exists c r', print_ty t ++ r = c :: r' /\ eat ">" [c] = None).
          { pose proof (ty_head t [] S eq_refl) as Hd. rewrite app_nil_r in Hd.
            destruct (print_ty t) as [|c ts]; [discriminate|]. exists c, (ts ++ r). split; [reflexivity|].
            destruct c as [i|c j|s|d b]; try reflexivity. apply head_gt in Hd. cbn [eat] in *.
            destruct (Ascii.eqb c ">"); [discriminate|reflexivity]. }
          destruct Hr as (c & r' & -> & E). destruct c; try reflexivity. cbn [eat] in *.
          destruct (Ascii.eqb _ _); [discriminate|reflexivity].
        + destruct e; try discriminate. reflexivity.
      - intros x c r I D. apply R; [exact I | | |]; destruct D as [->| ->]; reflexivity. }
    cbn [print_gargs]. rewrite <- !app_assoc. cbn [app] in *. destruct turbo.
    + cbn [t_colon2 app]. unfold read_args. cbn [eat2]. change (Ascii.eqb ":" ":") with true. cbn [andb].
      cbn [eat]. rewrite Ascii.eqb_refl. rewrite E. reflexivity.
    + destruct value; [discriminate (V eq_refl)|]. cbn [app]. unfold read_args. cbn [eat2 eat]. rewrite Ascii.eqb_refl.
      rewrite E. reflexivity.
  - (* GParen *)
    intros l o Hl Ho S P. cbn [source_gargs parses_gargs] in S, P. apply andb_prop in S, P. destruct S as [Sl So], P as [Pl Po].
    eapply ev_mono; [apply (ev_and _ _ (tys_in l Hl Sl Pl) (out_back o Ho So Po))|].
    intros m [R2 R3] value rest V A Ar. cbv beta in *. destruct value; [discriminate (V eq_refl)|].
    cbn [print_gargs]. rewrite <- app_assoc. cbn [app]. unfold read_args. cbn [eat2 eat]. rewrite R2.
    rewrite (R3 false rest A); [reflexivity|]. intros No. apply Ar. destruct o; [reflexivity|congruence].
  - (* ALt *)
    intros lt S _. apply ev_all. intros m rest _ _ _. cbn [print_garg]. unfold read_garg. rewrite read_lt_print by exact S. reflexivity.
  - (* ATy *)
    intros t Ht S P. cbn [source_garg parses_garg] in S, P. eapply ev_mono; [apply (Ht S P)|].
    intros m R rest F NP NQ. cbv beta in R. cbn [print_garg].
    rewrite head_garg by (apply ty_head; assumption). rewrite R; [reflexivity | exact F | intros _; exact NP | discriminate].
  - (* AConst *)
    intros e _ S _. cbn [source_garg] in S. destruct e; try discriminate. apply ev_all. intros m rest _ _ _. reflexivity.
  - (* AAssoc *)
    intros i t Ht S P. cbn [source_garg parses_garg] in S, P. eapply ev_mono; [apply (Ht S P)|].
    intros m R rest F NP NQ. cbv beta in R. cbn [print_garg app]. unfold read_garg. cbn [read_lt].
    rewrite Ascii.eqb_refl. rewrite R; [reflexivity | exact F | intros _; exact NP | discriminate].
  - (* BLt *)
    intros lt S _. apply ev_all. intros m rest _. cbn [print_bound]. unfold read_bound. rewrite read_lt_print by exact S. reflexivity.
  - (* BTrait *)
    intros q lts p [Hp _] S P. cbn [source_bound parses_bound] in S, P. apply andb_prop in S. destruct S as [Q S].
    eapply ev_mono; [apply (ev_and _ _ (for_back lts Q) (Hp S P))|]. intros m [R1 R2] rest F. cbv beta in *.
    cbn [print_bound]. rewrite <- !app_assoc. unfold read_bound.
    assert (Hw : eat_word "for" (print_path p ++ rest) = None).
    { destruct p as [lead l]. cbn [source_path] in S. rewrite !andb_true_iff in S. destruct S as [[N Sl] _].
      cbn [print_path]. destruct lead; [reflexivity|]. destruct l as [|[i a] l]; [discriminate N|].
      cbn [forallb source_seg] in Sl. rewrite !andb_true_iff in Sl. destruct Sl as [[W _] _].
      cbn [map app]. destruct (map print_seg l); cbn [sep_by print_seg app eat_word];
        rewrite (path_word_not i) by (exact W || reflexivity); reflexivity. }
    assert (Hl : read_lt ((if q then [TPunct "?" false] else []) ++ print_for lts ++ print_path p ++ rest) = None).
    { destruct q; [reflexivity|]. destruct lts; [apply path_lt, S | reflexivity]. }
    assert (Hm : maybe (eat "?") ((if q then [TPunct "?" false] else []) ++ print_for lts ++ print_path p ++ rest) =
                 (q, print_for lts ++ print_path p ++ rest)).
    { unfold maybe. destruct q; [reflexivity|]. cbn [app].
      destruct lts; [cbn [print_for app]; rewrite (path_q _ _ S); reflexivity | reflexivity]. }
    rewrite Hl, Hm, (R1 _ Hw), R2; [reflexivity | discriminate | apply follow_stops, F].
  - (* EPath *)
    intros [[t k]|] [lead l] Hq [Hp Hl] S P; cbn [source_expr parses_expr] in S, P.
    + rewrite !andb_true_iff in S. apply andb_prop in P. destruct P as [P _].
      rewrite !andb_true_iff in P. destruct S as [[St Sl] C], P as [[Pt Pl] V].
      exists 0, (EPath (Some (t, k)) (Path lead l)).
      eapply ev_mono; [apply (qpath_back t k lead l Hq Hl St Pt Sl Pl C)|].
      intros m R rest j F. cbv beta in R. exists rest. split; [|reflexivity].
      specialize (R true rest (fun _ => V) F).
      change (print_expr (EPath (Some (t, k)) (Path lead l))) with (qtokens t k (Path lead l)).
      unfold read_prim. unfold qtokens in *. cbn [app] in *. rewrite R. reflexivity.
    + cbn [andb qualified] in P. rewrite andb_true_r in P. apply andb_prop in P. destruct P as [P V].
      exists 0, (EPath None (Path lead l)). eapply ev_mono; [apply (Hp S P)|].
      intros m R rest j F. cbv beta in R. exists rest. split; [|reflexivity].
      specialize (R true rest (fun _ => V) F).
      cbn [source_path] in S. rewrite !andb_true_iff in S. destruct S as [[N Sl] _].
      assert (NE : l <> []) by (destruct l; [discriminate|congruence]).
      apply qpath_plain in R; [|exact NE]. cbn [print_expr]. unfold read_prim.
      pose proof (no_macro (Path lead l) _ _ F) as NM.
      destruct lead.
      * rewrite R, NM. reflexivity.
      * cbn [print_path app] in *. destruct (segs_start l rest NE) as (i & r' & E). rewrite E in *. rewrite R, NM. reflexivity.
  - (* ELit *)
    intros s _ _. exists 0, (ELit s). apply ev_all. intros m rest k _. exists rest. split; reflexivity.
  - (* ECall *)
    intros f l Hf Hl S P. cbn [source_expr parses_expr] in S, P. apply andb_prop in S, P. destruct S as [Sf Sl], P as [Pf Pl].
    destruct (Hf Sf Pf) as (c & h & R). exists (S c), h.
    assert (NE : forall x, In x l -> print_expr x <> []).
    { intros x I. apply expr_ne. rewrite forallb_forall in Sl. apply Sl, I. }
    eapply ev_mono; [apply (ev_and _ _ R (exprs_in l Hl Sl Pl NE))|].
    intros m [R1 R2] rest k F. cbv beta in *. cbn [print_expr]. rewrite <- app_assoc. cbn [app].
    destruct (R1 (TGroup Paren (sep_by [t_comma] (map print_expr l)) :: rest) (S k) eq_refl) as (r' & E & C).
    exists r'. split; [exact E|]. replace (S c + k) with (c + S k) by lia. rewrite C. cbn [calls]. rewrite R2. reflexivity.
  - (* EMacro *)
    intros w ts S _. cbn [source_expr] in S. exists 0, (EMacro w ts). eapply ev_mono; [apply (macro_back w S)|].
    intros m R rest k F. cbv beta in R. exists rest. split; [|reflexivity]. cbn [print_expr]. rewrite <- app_assoc.
    specialize (R true ts rest). unfold read_prim.
    apply andb_prop in S. destruct S as [N0 W]. destruct w as [|i w]; [discriminate N0|].
    assert (H : exists r, sep_by t_colon2 (map (fun i => [TIdent i]) (i :: w)) ++ [TPunct "!" false; TGroup Paren ts] ++ rest = TIdent i :: r).
    { cbn [map]. destruct (map (fun i => [TIdent i]) w); cbn [sep_by app]; eexists; reflexivity. }
    destruct H as [r H]. rewrite H in *. rewrite R. cbn [macro_after app]. rewrite Ascii.eqb_refl, plain_words_back. reflexivity.
Qed.

(** ** What C55 says *)
Lemma continues_follow ts : continues ts = false -> follow ts = true /\ not_plus ts = true.
Proof.
  destruct ts as [|[i|c j|s|[] l] ts]; cbn [continues follow not_plus]; try (split; reflexivity); [|discriminate].
  intros H. apply orb_false_iff in H. destruct H as [H C]. unfold stop. rewrite C.
  cbn [existsb] in *. rewrite !orb_false_iff in *. destruct H as (-> & -> & -> & -> & _). split; reflexivity.
Qed.

Lemma gives_back t rest :
  source_ty t = true -> parses_ty t = true -> continues rest = false -> gives_ty (print_ty t ++ rest) t rest.
Proof.
  intros S P C. apply continues_follow in C. destruct C as [F N].
  destruct (proj1 read_back t S P) as [n H]. exists n. intros m L. apply H; [exact L | exact F | intros _; exact N | discriminate].
Qed.

Lemma print_inj t t' :
  source_ty t = true -> parses_ty t = true -> source_ty t' = true -> parses_ty t' = true ->
  print_ty t = print_ty t' -> t = t'.
Proof.
  intros S P S' P' E. destruct (gives_back t [] S P eq_refl) as [n H]. destruct (gives_back t' [] S' P' eq_refl) as [n' H'].
  specialize (H (n + n') ltac:(lia)). specialize (H' (n + n') ltac:(lia)). rewrite E, H' in H. congruence.
Qed.

Lemma continues_respelled toks r r' :
  respelled toks r r' -> begins "Self" r = false -> continues r = false -> continues r' = false.
Proof.
  destruct 1; intros B C; try reflexivity; try discriminate; try exact C.
Qed.

Lemma occurs_tail i t r : ~ occurs i (t :: r) -> ~ occurs i r.
Proof. intros N O. apply N, Oc_later, O. Qed.

Lemma not_colons r : continues r = false -> ~ colons r.
Proof. intros C (j & r' & ->). discriminate. Qed.

Lemma c55_self t r :
  source_ty t = true -> parses_ty t = true -> ~ occurs (I "fn") r -> continues r = false -> begins "Self" r = false ->
  gives_ty (visit_macro (print_ty t) (TIdent (I "Self") :: r)) t (visit_macro (print_ty t) r).
Proof.
  intros S P O C B.
  assert (R : respelled (print_ty t) r (visit_macro (print_ty t) r)) by (apply (c39_respelled (print_ty t) r); [exact O | reflexivity]).
  assert (R' : visit_macro (print_ty t) (TIdent (I "Self") :: r) = print_ty t ++ visit_macro (print_ty t) r).
  { apply c39_respelled.
    - intros H. inversion H; subst. contradiction.
    - apply Rs_Self; [apply not_colons, C | exact R]. }
  rewrite R'. apply gives_back; [exact S | exact P | exact (continues_respelled _ _ _ R B C)].
Qed.

Lemma respelled_colon toks j r r' :
  respelled toks r r' -> respelled toks (TPunct ":" true :: TPunct ":" j :: r) (TPunct ":" true :: TPunct ":" j :: r').
Proof. intros R. constructor. constructor. exact R. Qed.

Lemma c55_path t x j r :
  source_ty t = true -> parses_ty t = true -> path_word x = true -> x <> I "self" -> x <> I "Self" ->
  ~ occurs (I "fn") r -> continues r = false -> begins "Self" r = false ->
  gives_ty (visit_macro (print_ty t) (TIdent (I "Self") :: TPunct ":" true :: TPunct ":" j :: TIdent x :: r))
    (TyPath (Some (t, 0)) (Path true [Seg x GNone])) (visit_macro (print_ty t) r).
Proof.
  intros S P W N1 N2 O C B.
  assert (R : respelled (print_ty t) r (visit_macro (print_ty t) r)) by (apply (c39_respelled (print_ty t) r); [exact O | reflexivity]).
  assert (X : ident_is x "fn" = false) by (apply path_word_not; [exact W | reflexivity | reflexivity]).
  assert (R' : visit_macro (print_ty t) (TIdent (I "Self") :: TPunct ":" true :: TPunct ":" j :: TIdent x :: r) =
               TPunct "<" false :: print_ty t ++ TPunct ">" false :: TPunct ":" true :: TPunct ":" j :: TIdent x :: visit_macro (print_ty t) r).
  { apply c39_respelled.
    - intros H. inversion H as [|? ? ? H1|? ? H1]; subst. inversion H1 as [|? ? ? H2|? ? H2]; subst.
      inversion H2 as [|? ? ? H3|? ? H3]; subst. inversion H3; subst; [discriminate X|contradiction].
    - apply Rs_Self_path; [exists j; eexists; reflexivity|]. apply respelled_colon. apply Rs_ident; [exact N1 | exact N2 | exact R]. }
  rewrite R'. pose proof (continues_respelled _ _ _ R B C) as C'. apply continues_follow in C'. destruct C' as [F _].
  set (rest := visit_macro (print_ty t) r) in *.
  destruct (proj1 read_back t S P) as [n H]. exists (2 + n). intros m L. destruct m as [|[|m]]; [lia|lia|].
  unfold read_ty. cbn [read fst]. unfold ty_body at 1.
  change (Ascii.eqb "<" "&") with false. change (Ascii.eqb "<" "*") with false. change (Ascii.eqb "<" "!") with false.
  cbv iota. unfold read_plain, read_qpath. cbn [eat]. rewrite Ascii.eqb_refl.
  change (ty_body m (RT m) (RE m)) with (RT (Datatypes.S m)).
  rewrite H; [|lia|reflexivity|reflexivity|discriminate]. cbn [eat]. rewrite Ascii.eqb_refl.
  cbn [eat2]. change (Ascii.eqb ":" ":") with true. cbn [andb]. unfold read_segs. cbn [chain].
  rewrite (seg_plain x false rest _ _ W (follow_after _ _ F)).
  rewrite (stops_colon false rest (follow_stops _ _ F)). reflexivity.
Qed.

(** Values: a unit struct, and a call of a constructor. *)
Lemma value_back p :
  source_path p = true -> parses_path p = true -> value_path None p = true ->
  ev (fun m => forall rest, stops true rest = true -> read_prim m (RT m) (print_path p ++ rest) = Some (EPath None p, rest)).
Proof.
  intros S P V.
  assert (S' : source_expr (EPath None p) = true) by exact S.
  assert (H := proj1 (proj1 (proj2 read_back) p) S P). eapply ev_mono; [exact H|].
  intros m R rest F. cbv beta in R. specialize (R true rest (fun _ => V) F).
  destruct p as [lead l]. cbn [source_path] in S. rewrite !andb_true_iff in S. destruct S as [[N Sl] _].
  assert (NE : l <> []) by (destruct l; [discriminate N|congruence]).
  apply qpath_plain in R; [|exact NE]. unfold read_prim.
  pose proof (no_macro (Path lead l) _ _ F) as NM.
  destruct lead.
  - rewrite R, NM. reflexivity.
  - cbn [print_path app] in *. destruct (segs_start l rest NE) as (i & r' & E). rewrite E in *. rewrite R, NM. reflexivity.
Qed.

Lemma c55_value p r :
  source_path p = true -> parses_path p = true -> value_path None p = true ->
  ~ occurs (I "fn") r -> continues r = false -> begins "Self" r = false ->
  gives_expr (visit_macro (print_ty (TyPath None p)) (TIdent (I "Self") :: r)) (EPath None p)
    (visit_macro (print_ty (TyPath None p)) r).
Proof.
  intros S P V O C B. set (toks := print_ty (TyPath None p)).
  assert (R : respelled toks r (visit_macro toks r)) by (apply (c39_respelled toks r); [exact O | reflexivity]).
  assert (R' : visit_macro toks (TIdent (I "Self") :: r) = toks ++ visit_macro toks r).
  { apply c39_respelled.
    - intros H. inversion H; subst. contradiction.
    - apply Rs_Self; [apply not_colons, C | exact R]. }
  rewrite R'. pose proof (continues_respelled _ _ _ R B C) as C'. apply continues_follow in C'. destruct C' as [F _].
  destruct (value_back p S P V) as [n H]. exists (Datatypes.S n). intros [|m] L; [lia|].
  unfold read_expr. cbn [read snd]. unfold expr_body, toks. cbn [print_ty].
  rewrite H; [|lia|apply follow_stops, F]. apply calls_stop, F.
Qed.

Lemma c55_call p args l b r :
  source_path p = true -> parses_path p = true -> value_path None p = true ->
  ~ occurs (I "fn") args -> ~ occurs (I "fn") r -> continues r = false -> begins "Self" r = false ->
  (exists n, forall m, n <= m -> list_in (read_expr m) m (visit_macro (print_ty (TyPath None p)) args) = Some (l, b)) ->
  gives_expr (visit_macro (print_ty (TyPath None p)) (TIdent (I "Self") :: TGroup Paren args :: r))
    (ECall (EPath None p) l) (visit_macro (print_ty (TyPath None p)) r).
Proof.
  intros S P V Oa O C B A. set (toks := print_ty (TyPath None p)) in *.
  assert (R : respelled toks r (visit_macro toks r)) by (apply (c39_respelled toks r); [exact O | reflexivity]).
  assert (Ra : respelled toks args (visit_macro toks args)) by (apply (c39_respelled toks args); [exact Oa | reflexivity]).
  assert (R' : visit_macro toks (TIdent (I "Self") :: TGroup Paren args :: r) =
               toks ++ TGroup Paren (visit_macro toks args) :: visit_macro toks r).
  { apply c39_respelled.
    - intros H. inversion H as [|? ? ? H1|? ? H1]; subst. inversion H1; subst; contradiction.
    - apply Rs_Self; [intros (j & r' & E); discriminate|]. apply Rs_group; [exact Ra | exact R]. }
  rewrite R'. pose proof (continues_respelled _ _ _ R B C) as C'. apply continues_follow in C'. destruct C' as [F _].
  destruct (ev_and _ _ (value_back p S P V) (ev_and _ _ A (ev_le 1))) as [n H]. exists (Datatypes.S n). intros [|m] L; [lia|].
  destruct (H m ltac:(lia)) as [H1 [H2 H3]]. cbv beta in *.
  unfold read_expr in *. cbn [read snd]. unfold expr_body, toks at 1. cbn [print_ty].
  rewrite H1 by reflexivity. destruct m as [|m]; [lia|]. cbn [calls].
  unfold toks in *. rewrite H2. apply calls_stop, F.
Qed.

Lemma c55_generic_constructor : exists p ts e,
  source_path p = true /\ parses_path p = true /\ ~ occurs (I "fn") ts /\
  gives_expr ts (ECall (EPath None (Path false [Seg (I "Self") GNone])) e) [] /\
  forall n x, read_expr n (visit_macro (print_ty (TyPath None p)) ts) <> Some (x, []).
Proof.
  exists (Path false [Seg (I "Foo") (GAngle false [ATy (TyPath None (Path false [Seg (I "T") GNone]))])]).
  exists [TIdent (I "Self"); TGroup Paren [TLit "1"]], [ELit "1"].
  split; [reflexivity|]. split; [reflexivity|]. split; [rewrite <- contains_fn_iff; vm_compute; discriminate|]. split.
  - exists 4. intros m L. destruct m as [|[|[|[|m]]]]; try lia. reflexivity.
  - intros [|[|n]] x; cbn; discriminate.
Qed.
