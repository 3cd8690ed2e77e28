(** The tokens of a printed body read back as that body. *)
From Coq Require Import String Ascii List Bool Arith Lia.
From Verif Require Import Base Syntax ModelUtils ModelDerive ModelLints ModelPrint SpecArgs SpecRead SpecParse SpecItems SpecOutput ProofsRead.
Import ListNotations.
Open Scope string_scope.
Open Scope list_scope.

Ltac bandh := repeat match goal with H : _ && _ = true |- _ => apply andb_true_iff in H; destruct H end.

(** ** Words *)
Lemma words_back p : some_in p = true -> forallb path_word p = true ->
  ev (fun m => forall rest, eat2 ":" ":" rest = None -> words m (print_ids p ++ rest) = Some (p, rest)).
Proof.
  intros N W. rewrite forallb_forall in W. eapply ev_mono; [apply (ev_le (length p))|]. intros m L rest E. cbv beta in L.
  unfold words, print_ids. apply chain_sep; [destruct p; [discriminate|congruence]|exact L|reflexivity|exact E| |].
  - intros x y r Hx _. cbn. rewrite (W x) by (apply removelast_incl; exact Hx). reflexivity.
  - intros l1 x ->. cbn. rewrite (W x) by (apply in_or_app; right; left; reflexivity). reflexivity.
Qed.
Lemma words_none m t ts : match t with TIdent i => path_word i = false | _ => True end -> words m (t :: ts) = None.
Proof.
  intros H. unfold words. destruct m; [reflexivity|]. cbn. destruct t; try reflexivity. cbn. rewrite H. reflexivity.
Qed.
Lemma name_word i : name_ok i = true -> path_word i = true.
Proof. unfold name_ok, path_word. intros H. rewrite H. reflexivity. Qed.
Lemma print_ids_head p : some_in p = true -> exists i r, p = i :: r /\
  forall rest, print_ids p ++ rest = TIdent i :: (match r with [] => [] | _ => t_colon2 ++ print_ids r end) ++ rest.
Proof.
  destruct p as [|i r]; [discriminate|]. intros _. exists i, r. split; [reflexivity|]. intros rest. destruct r; reflexivity.
Qed.

(** ** Atoms *)
Definition two {A} (l : list A) : bool := match l with _ :: _ :: _ => true | _ => false end.
Definition source_atom (a : atom) : bool :=
  match a with
  | AVar x | ARefMutDeref x => path_word x
  | AMethod x m => path_word x && name_ok m
  | ACall f l => some_in f && forallb path_word f && forallb path_word l
  | APath p => two p && forallb path_word p
  end.
Definition quiet (ts : list ttree) : bool :=
  match ts with [] => true | TPunct c false :: _ => Ascii.eqb c "," || Ascii.eqb c ";" | _ => false end.
Definition quietb (ts : list ttree) : bool :=
  quiet ts || match ts with TGroup Brace _ :: _ => true | _ => false end.
Lemma quiet_b ts : quiet ts = true -> quietb ts = true.
Proof. unfold quietb. intros ->. reflexivity. Qed.
Lemma quiet_colon ts : quietb ts = true -> eat2 ":" ":" ts = None.
Proof. destruct ts as [|[i|c [] |s|d l] ts]; try reflexivity. discriminate. Qed.

Lemma idents_in l (f : reader ident) (ok : ident -> bool) :
  (forall i r, ok i = true -> f (TIdent i :: r) = Some (i, r)) -> forallb ok l = true ->
  ev (fun m => list_in f m (commas (map (fun x => [TIdent x]) l)) = Some (l, false)).
Proof.
  intros F O. rewrite forallb_forall in O. eapply ev_mono; [apply (ev_le (length l))|]. intros m L. cbv beta in L.
  unfold commas. apply list_in_sep; [exact L|discriminate|]. intros x rest Hx _. cbn [app]. apply F, O, Hx.
Qed.
Lemma word_ok i r : path_word i = true -> read_word (TIdent i :: r) = Some (i, r).
Proof. cbn. intros ->. reflexivity. Qed.
Lemma name_reads i r : name_ok i = true -> read_name (TIdent i :: r) = Some (i, r).
Proof. cbn. intros ->. reflexivity. Qed.

Lemma atom_back a : source_atom a = true ->
  ev (fun m => forall rest, quietb rest = true -> read_atom m (print_atom a ++ rest) = Some (a, rest)).
Proof.
  destruct a as [x|x m|x|f l|p]; cbn [source_atom]; intros S; bandh.
  - eapply ev_mono; [apply (words_back [x]); [reflexivity|cbn; rewrite S; reflexivity]|]. intros n W rest Q. cbv beta in W.
    pose proof (W rest (quiet_colon _ Q)) as E. cbn [print_ids map sep_by app print_atom] in *.
    unfold read_atom. rewrite E.
    destruct rest as [|[i|c [] |s|[] l] [|[j|d b|s'|[] [|y l']] [|[j'|d' b'|s''|[] [|y' l'']] r]]]; try discriminate; try reflexivity.
    unfold quietb, quiet in Q. apply orb_prop in Q. destruct Q as [Q|Q]; [|discriminate].
    assert (Ascii.eqb c "." = false) as ->; [|reflexivity].
    apply orb_prop in Q. destruct Q as [Q|Q]; apply Ascii.eqb_eq in Q; subst c; reflexivity.
  - eapply ev_mono; [apply (words_back [x]); [reflexivity|cbn; rewrite H; reflexivity]|]. intros n W rest _. cbv beta in W.
    pose proof (W ([punct "."; TIdent m; TGroup Paren []] ++ rest) eq_refl) as E. cbn [print_ids map sep_by app print_atom] in *.
    unfold read_atom. rewrite E. cbn. rewrite H0. reflexivity.
  - apply ev_all. intros m rest _. cbn. rewrite S. reflexivity.
  - eapply ev_mono; [apply (ev_and _ _ (words_back f H H1) (idents_in l read_word path_word word_ok H0))|]. intros n [W L] rest _. cbv beta in *.
    cbn [print_atom]. rewrite <- app_assoc. unfold read_atom.
    destruct (print_ids_head f H) as (i & r & -> & E). rewrite E, <- E. rewrite W by reflexivity. cbn [group app]. rewrite L. reflexivity.
  - assert (N : some_in p = true) by (destruct p; [discriminate|reflexivity]).
    eapply ev_mono; [apply (words_back p N H0)|]. intros n W rest Q. cbv beta in *. cbn [print_atom]. unfold read_atom.
    destruct (print_ids_head p N) as (i & r & -> & E). rewrite E, <- E. rewrite W by (apply quiet_colon; exact Q).
    destruct r as [|i' r]; [discriminate|].
    destruct rest as [|[j|c [] |s|[] l] [|[k|d b|s'|[] [|y l']] [|[j'|d' b'|s''|[] [|y' l'']] rest]]]; try discriminate; reflexivity.
Qed.

(** ** Right hand sides *)
Definition source_init (x : option ident * atom) : bool :=
  opt_ok name_ok (fst x) && source_atom (snd x).
Definition source_rhs (r : rhs) : bool :=
  match r with
  | RAtom (ACall _ _) => false
  | RAtom a => source_atom a
  | RLit p (Some Brace) fs => some_in p && forallb path_word p && forallb source_init fs
  | RLit p (Some Paren) fs =>
    some_in p && forallb path_word p && forallb source_init fs && forallb (fun x => negb (is_some (fst x))) fs
  | RLit _ _ _ => false
  end.
Definition comma_or_end (rest : list ttree) : Prop := rest = [] \/ exists r, rest = t_comma :: r.
Lemma comma_quiet rest : comma_or_end rest -> quiet rest = true.
Proof. intros [->|[r ->]]; reflexivity. Qed.
Lemma atom_ne a : source_atom a = true -> print_atom a <> [].
Proof.
  destruct a as [x|x m|x|f l|p]; cbn [source_atom print_atom]; intros S; bandh; try discriminate.
  - destruct (print_ids_head f H) as (i & r & -> & E). specialize (E (group Paren (commas (map (fun x : ident => [TIdent x]) l)))). rewrite E. discriminate.
  - assert (N : some_in p = true) by (destruct p; [discriminate|reflexivity]).
    destruct (print_ids_head p N) as (i & r & -> & E). specialize (E []). rewrite app_nil_r in E. rewrite E. discriminate.
Qed.
Lemma atom_init m a rest : source_atom a = true -> comma_or_end rest ->
  read_init m (print_atom a ++ rest) = match read_atom m (print_atom a ++ rest) with Some (x, r) => Some ((None, x), r) | None => None end.
Proof.
  intros S Q. unfold read_init. destruct a as [x|x y|x|f l|p]; cbn [source_atom] in S; bandh.
  - cbn [print_atom app]. destruct Q as [->|[r ->]]; reflexivity.
  - reflexivity.
  - reflexivity.
  - cbn [print_atom]. rewrite <- app_assoc. destruct (print_ids_head f H) as (i & r & -> & E). rewrite E. destruct r; reflexivity.
  - cbn [print_atom]. assert (N : some_in p = true) by (destruct p; [discriminate|reflexivity]).
    destruct (print_ids_head p N) as (i & r & -> & E). rewrite E. destruct r; [discriminate|reflexivity].
Qed.
Lemma init_back x : source_init x = true ->
  ev (fun m => forall rest, comma_or_end rest -> read_init m (print_init x ++ rest) = Some (x, rest)).
Proof.
  destruct x as [i a]. unfold source_init. cbn [fst snd]. intros S. bandh. eapply ev_mono; [apply (atom_back a H0)|].
  intros m A rest Q. cbv beta in A. unfold print_init. cbn [fst snd]. destruct i as [i|].
  - cbn [opt_list app]. unfold read_init, punct. cbn [opt_ok] in H. change (Ascii.eqb ":" ":") with true. cbv iota. rewrite H.
    rewrite A by (apply quiet_b, comma_quiet, Q). reflexivity.
  - cbn [opt_list app]. rewrite atom_init by assumption. rewrite A by (apply quiet_b, comma_quiet, Q). reflexivity.
Qed.
Lemma init_ne x : source_init x = true -> print_init x <> [].
Proof.
  destruct x as [[i|] a]; unfold source_init, print_init; cbn [fst snd opt_list app]; intros S; bandh; [discriminate|].
  apply atom_ne. assumption.
Qed.
Lemma list_back {A} (f : nat -> reader A) pr (ok : A -> bool) l :
  (forall x, ok x = true -> ev (fun m => forall rest, comma_or_end rest -> f m (pr x ++ rest) = Some (x, rest))) ->
  (forall x, ok x = true -> pr x <> []) -> forallb ok l = true ->
  ev (fun m => list_in (f m) m (commas (map pr l)) = Some (l, false)).
Proof.
  intros F NE O. rewrite forallb_forall in O.
  assert (E : ev (fun m => forall x, In x l -> forall rest, comma_or_end rest -> f m (pr x ++ rest) = Some (x, rest))).
  { apply (ev_Forall (fun x m => forall rest, comma_or_end rest -> f m (pr x ++ rest) = Some (x, rest))).
    apply Forall_forall. intros x Hx. apply F, O, Hx. }
  eapply ev_mono; [apply (ev_and _ _ E (ev_le (length l)))|]. intros m [R L]. cbv beta in *. unfold commas.
  apply list_in_sep; [exact L|intros x Hx; apply NE, O, Hx|]. intros x rest Hx Q. apply R; [exact Hx|exact Q].
Qed.

Lemma rhs_back r : source_rhs r = true ->
  ev (fun m => forall rest, quiet rest = true -> read_rhs m (print_rhs r ++ rest) = Some (r, rest)).
Proof.
  destruct r as [a|p d fs].
  - intros S. assert (SA : source_atom a = true) by (destruct a; [exact S|exact S|exact S|discriminate|exact S]).
    cbn [print_rhs]. assert (W : ev (fun m => forall rest, quiet rest = true ->
      match words m (print_atom a ++ rest) with Some (_, TGroup Paren _ :: _) | Some (_, TGroup Brace _ :: _) => False | _ => True end)).
    { destruct a as [x|x m|x|f l|p]; cbn [source_rhs source_atom] in S; bandh; [| | |discriminate|].
      - eapply ev_mono; [apply (words_back [x]); [reflexivity|cbn; rewrite S; reflexivity]|]. intros n W rest Q. cbv beta in W.
        pose proof (W rest (quiet_colon _ (quiet_b _ Q))) as E. cbn [print_ids map sep_by app print_atom] in *. rewrite E.
        destruct rest as [|[i|c b|s|d l] ?]; try exact Logic.I; discriminate.
      - eapply ev_mono; [apply (words_back [x]); [reflexivity|cbn; rewrite H; reflexivity]|]. intros n W rest _. cbv beta in W.
        pose proof (W ([punct "."; TIdent m; TGroup Paren []] ++ rest) eq_refl) as E. cbn [print_ids map sep_by app print_atom] in *.
        rewrite E. exact Logic.I.
      - apply ev_all. intros m rest _. cbn [print_atom app]. rewrite words_none; exact Logic.I.
      - assert (N : some_in p = true) by (destruct p; [discriminate|reflexivity]).
        eapply ev_mono; [apply (words_back p N H0)|]. intros n W rest Q. cbv beta in W. cbn [print_atom].
        rewrite (W rest (quiet_colon _ (quiet_b _ Q))). destruct rest as [|[i|c b|s|d l] ?]; try exact Logic.I; discriminate. }
    eapply ev_mono; [apply (ev_and _ _ W (atom_back a SA))|]. intros m [W' A] rest Q. cbv beta in *. specialize (W' rest Q).
    unfold read_rhs. rewrite A by (apply quiet_b, Q).
    destruct (words m (print_atom a ++ rest)) as [[w [|[i|c b|s|[] l] ts]]|]; try reflexivity; destruct W'.
  - destruct d as [[]|]; try discriminate; cbn [source_rhs print_rhs]; intros S; bandh.
    + assert (B : ev (fun m => list_in (read_atom m) m (commas (map print_init fs)) = Some (map snd fs, false))).
      { replace (map print_init fs) with (map print_atom (map snd fs)).
        - apply (list_back read_atom print_atom source_atom).
          + intros a Ha. eapply ev_mono; [apply (atom_back a Ha)|]. intros m A rest Q. apply A, quiet_b, comma_quiet, Q.
          + apply atom_ne.
          + apply forallb_forall. intros a Ha. apply in_map_iff in Ha. destruct Ha as (x & <- & Hx).
            match goal with X : forallb source_init fs = true |- _ => rewrite forallb_forall in X; specialize (X x Hx); unfold source_init in X end.
            bandh. assumption.
        - rewrite map_map. apply map_ext_in. intros [i a] Hx. match goal with X : forallb (fun x => negb _) fs = true |- _ => rewrite forallb_forall in X; specialize (X _ Hx) end.
          cbn [fst] in *. destruct i; [discriminate|reflexivity]. }
      eapply ev_mono; [apply (ev_and _ _ (words_back p H H2) B)|]. intros m [W B'] rest _. cbv beta in *.
      rewrite <- app_assoc. unfold read_rhs. rewrite W by reflexivity. cbn [group app]. rewrite B'. repeat f_equal.
      rewrite map_map. rewrite <- (map_id fs) at 2. apply map_ext_in. intros [i a] Hx.
      match goal with X : forallb (fun x => negb _) fs = true |- _ => rewrite forallb_forall in X; specialize (X _ Hx) end.
      cbn [fst snd] in *. destruct i; [discriminate|reflexivity].
    + eapply ev_mono; [apply (ev_and _ _ (words_back p H H1) (list_back read_init print_init source_init fs init_back init_ne H0))|].
      intros m [W B'] rest _. cbv beta in *. rewrite <- app_assoc. unfold read_rhs. rewrite W by reflexivity. cbn [group app]. rewrite B'. reflexivity.
Qed.

(** ** Patterns *)
Definition source_pat (p : pat) : bool :=
  match p with
  | PBind x => path_word x
  | PLit p (Some Brace) bs | PLit p (Some Paren) bs => some_in p && forallb path_word p && forallb name_ok bs
  | PLit p None [] => two p && forallb path_word p
  | PLit _ _ _ => false
  end.
Definition after_pat (ts : list ttree) : bool :=
  match ts with TPunct c j :: _ => negb (Ascii.eqb c ":" && j) | _ => false end.
Lemma after_pat_colon ts : after_pat ts = true -> eat2 ":" ":" ts = None.
Proof.
  destruct ts as [|[i|c [] |s|d l] ts]; try reflexivity. cbn [after_pat]. rewrite andb_true_r, negb_true_iff. intros H.
  cbn [eat2]. rewrite H. destruct ts as [|[] ?]; reflexivity.
Qed.
Lemma pat_back p : source_pat p = true ->
  ev (fun m => forall rest, after_pat rest = true -> read_pat m (print_pat p ++ rest) = Some (p, rest)).
Proof.
  destruct p as [x|p [[]|] bs]; cbn [source_pat print_pat]; try discriminate; intros S; bandh.
  - eapply ev_mono; [apply (words_back [x]); [reflexivity|cbn; rewrite S; reflexivity]|]. intros n W rest Q. cbv beta in W.
    pose proof (W rest (after_pat_colon _ Q)) as E. cbn [print_ids map sep_by app] in *. unfold read_pat. rewrite E.
    destruct rest as [|[i|c b|s|d l] ?]; try discriminate; reflexivity.
  - eapply ev_mono; [apply (ev_and _ _ (words_back p H H1) (idents_in bs read_name name_ok name_reads H0))|]. intros m [W B] rest _. cbv beta in *.
    rewrite <- app_assoc. unfold read_pat. rewrite W by reflexivity. cbn [group app]. rewrite B. destruct p as [|? []]; reflexivity.
  - eapply ev_mono; [apply (ev_and _ _ (words_back p H H1) (idents_in bs read_name name_ok name_reads H0))|]. intros m [W B] rest _. cbv beta in *.
    rewrite <- app_assoc. unfold read_pat. rewrite W by reflexivity. cbn [group app]. rewrite B. destruct p as [|? []]; reflexivity.
  - destruct bs; [|discriminate]. bandh. assert (N : some_in p = true) by (destruct p; [discriminate|reflexivity]).
    eapply ev_mono; [apply (words_back p N H0)|]. intros m W rest Q. cbv beta in *. unfold read_pat. rewrite W by (apply after_pat_colon, Q).
    destruct p as [|i [|j p]]; try discriminate. destruct rest as [|[k|c b|s|d l] ?]; try discriminate; reflexivity.
Qed.

(** ** Statements *)
Fixpoint source_stmt (s : stmt) : bool :=
  match s with
  | SLet p t r => source_pat p && opt_ok (fun t => source_ty t && parses_ty t) t && source_rhs r
  | SExpr a => source_atom a
  | SBlock l => forallb source_stmt l
  end.
Fixpoint ssize (s : stmt) : nat :=
  match s with SBlock l => S (fold_right (fun x n => S (ssize x + n)) 0 l) | _ => 0 end.
Definition lsize (l : list stmt) : nat := fold_right (fun x n => S (ssize x + n)) 0 l.
(** Statements end here. *)
Definition tail_ok (m : nat) (ts : list ttree) : Prop :=
  ts = [] \/
  (match ts with TGroup Brace _ :: _ => False | _ => True end /\ eat_word "let" ts = None /\
   forall a r, read_atom m ts = Some (a, r) -> eat ";" r = None).
Definition reads_stmt (s : stmt) (m : nat) : Prop :=
  forall k rest, ssize s <= k ->
    read_stmts m (S k) (print_stmt s ++ rest) =
    match read_stmts m k rest with Some (l, r') => Some (s :: l, r') | None => None end.

Lemma stmts_back l : Forall (fun s => ev (reads_stmt s)) l ->
  ev (fun m => forall k rest, lsize l < k -> tail_ok m rest -> read_stmts m k (flat_map print_stmt l ++ rest) = Some (l, rest)).
Proof.
  intros H. eapply ev_mono; [apply (ev_Forall _ _ H)|]. clear H. intros m. cbv beta. induction l as [|s l IH]; intros R k rest K T.
  - cbn [flat_map app]. destruct k as [|k]; [lia|]. destruct rest as [|t ts]; [reflexivity|].
    destruct T as [T|(T1 & T2 & T3)]; [discriminate|]. cbn [read_stmts].
    destruct t as [i|c b|x|[] y]; try destruct T1; rewrite T2;
      match goal with |- context [read_atom m ?ts] => destruct (read_atom m ts) as [[a r]|] eqn:E end; try reflexivity; rewrite (T3 _ _ eq_refl); reflexivity.
  - cbn [flat_map]. rewrite <- app_assoc. destruct k as [|k]; [lia|]. cbn [lsize fold_right] in K. fold (lsize l) in K.
    rewrite (R s (or_introl eq_refl)) by lia. rewrite IH; [reflexivity|intros x Hx; apply R; right; exact Hx|lia|exact T].
Qed.

Lemma no_let t ts : match t with TIdent i => path_word i = true | _ => True end -> eat_word "let" (t :: ts) = None.
Proof.
  destruct t; try reflexivity. intros H. cbn. assert (E : ident_is i "let" = false) by (apply path_word_not; [exact H|reflexivity|reflexivity]).
  rewrite E. reflexivity.
Qed.
Lemma atom_start a rest : source_atom a = true -> exists t r, print_atom a ++ rest = t :: r /\
  match t with TIdent i => path_word i = true | TGroup _ _ => False | _ => True end.
Proof.
  destruct a as [x|x m|x|f l|p]; cbn [source_atom print_atom]; intros S; bandh.
  - eexists _, _. split; [reflexivity|exact S].
  - eexists _, _. split; [reflexivity|assumption].
  - eexists _, _. split; [reflexivity|exact Logic.I].
  - rewrite <- app_assoc. destruct (print_ids_head f H) as (i & r & -> & E). rewrite E. eexists _, _. split; [reflexivity|].
    cbn [forallb] in H1. bandh. assumption.
  - assert (N : some_in p = true) by (destruct p; [discriminate|reflexivity]).
    destruct (print_ids_head p N) as (i & r & -> & E). rewrite E. eexists _, _. split; [reflexivity|].
    cbn [forallb] in H0. bandh. assumption.
Qed.

Lemma let_back p t r : source_stmt (SLet p t r) = true ->
  ev (fun m => forall rest, read_let m (print_pat p ++ opt_list (fun t => punct ":" :: print_ty t) t ++ punct "=" :: print_rhs r ++ punct ";" :: rest)
     = Some (SLet p t r, rest)).
Proof.
  cbn [source_stmt]. intros S. bandh.
  assert (T : ev (fun m => match t with Some t => forall rest, read_ty m true (print_ty t ++ punct "=" :: rest) = Some (t, punct "=" :: rest) | None => True end)).
  { destruct t as [t|]; [|apply ev_all; intros; exact Logic.I]. cbn [opt_ok] in *. bandh.
    eapply ev_mono; [apply (proj1 read_back t); assumption|]. intros m R rest. apply R; [reflexivity|reflexivity|discriminate]. }
  eapply ev_mono; [apply (ev_and _ _ (pat_back p H) (ev_and _ _ T (rhs_back r H0)))|]. intros m (P & T' & R) rest. cbv beta in *.
  unfold read_let. destruct t as [t|]; cbn [opt_list app].
  - rewrite P by reflexivity. unfold punct at 1. cbn [eat]. rewrite Ascii.eqb_refl. rewrite T'. unfold punct. cbn [eat]. rewrite Ascii.eqb_refl.
    rewrite R by reflexivity. cbn [eat]. rewrite Ascii.eqb_refl. reflexivity.
  - rewrite P by reflexivity. unfold punct. cbn [eat]. change (Ascii.eqb "=" ":") with false. cbv iota. cbn [eat]. rewrite Ascii.eqb_refl.
    rewrite R by reflexivity. cbn [eat]. rewrite Ascii.eqb_refl. reflexivity.
Qed.

Fixpoint stmt_back (s : stmt) : source_stmt s = true -> ev (reads_stmt s).
Proof.
  destruct s as [p t r|a|l]; intros S.
  - eapply ev_mono; [apply (let_back _ _ _ S)|]. intros m R k rest _. cbv beta in R.
    assert (E : print_stmt (SLet p t r) ++ rest = t_id "let" :: (print_pat p ++ opt_list (fun t => punct ":" :: print_ty t) t ++ punct "=" :: print_rhs r ++ punct ";" :: rest)).
    { cbn [print_stmt app]. rewrite <- !app_assoc. cbn [app]. rewrite <- !app_assoc. reflexivity. }
    rewrite E. specialize (R rest). revert R. match goal with |- read_let m ?x = _ -> _ => generalize x end. intros x R.
    cbn [read_stmts t_id eat_word]. change (ident_is (I "let") "let") with true. cbv iota. rewrite R. reflexivity.
  - cbn [source_stmt] in S. eapply ev_mono; [apply (atom_back a S)|]. intros m A k rest _. cbv beta in A.
    cbn [print_stmt]. rewrite <- app_assoc. cbn [app].
    destruct (atom_start a (punct ";" :: rest) S) as (t & r & E & T). pose proof (A (punct ";" :: rest) eq_refl) as A'.
    rewrite E in *. cbn [read_stmts]. rewrite no_let by (destruct t; auto). rewrite A'. cbn [eat punct]. rewrite Ascii.eqb_refl.
    destruct t as [i|c b|x|d y]; try reflexivity. destruct T.
  - assert (F : Forall (fun s => ev (reads_stmt s)) l).
    { cbn [source_stmt] in S. clear -S stmt_back. induction l as [|s l IH]; [constructor|]. cbn [forallb] in S. bandh.
      constructor; [apply stmt_back; assumption|apply IH; assumption]. }
    eapply ev_mono; [apply (stmts_back l F)|]. intros m R k rest K. cbv beta in R. cbn [print_stmt group app read_stmts].
    cbn [ssize] in K. fold (lsize l) in K. specialize (R k [] K (or_introl eq_refl)). rewrite app_nil_r in R. rewrite R. reflexivity.
Qed.
Lemma stmts_read l : forallb source_stmt l = true ->
  ev (fun m => forall rest, tail_ok m rest -> read_stmts m m (flat_map print_stmt l ++ rest) = Some (l, rest)).
Proof.
  intros S. rewrite forallb_forall in S.
  assert (F : Forall (fun s => ev (reads_stmt s)) l) by (apply Forall_forall; intros s Hs; apply stmt_back, S, Hs).
  eapply ev_mono; [apply (ev_and _ _ (stmts_back l F) (ev_le (Datatypes.S (lsize l))))|]. intros m [R L] rest T. cbv beta in *. apply R; [lia|exact T].
Qed.

Lemma rhs_start r rest : source_rhs r = true -> exists t ts, print_rhs r ++ rest = t :: ts /\
  match t with TIdent i => path_word i = true | TGroup _ _ => False | _ => True end.
Proof.
  destruct r as [a|p d fs]; intros S.
  - apply atom_start. destruct a; [exact S|exact S|exact S|discriminate|exact S].
  - destruct d as [[]|]; try discriminate; cbn [source_rhs print_rhs] in *; bandh; rewrite <- app_assoc;
      destruct (print_ids_head p H) as (i & r & -> & E); rewrite E; eexists _, _; (split; [reflexivity|]);
      match goal with X : forallb path_word (i :: r) = true |- _ => cbn [forallb] in X; apply andb_true_iff in X; exact (proj1 X) end.
Qed.
Lemma rhs_tail r : source_rhs r = true -> ev (fun m => tail_ok m (print_rhs r)).
Proof.
  intros S. assert (A : ev (fun m => forall a r', read_atom m (print_rhs r) = Some (a, r') -> eat ";" r' = None)).
  { destruct r as [a|p d fs].
    - assert (SA : source_atom a = true) by (destruct a; [exact S|exact S|exact S|discriminate|exact S]).
      eapply ev_mono; [apply (atom_back a SA)|]. intros m A x r' E. cbv beta in A. specialize (A [] eq_refl). rewrite app_nil_r in A.
      cbn [print_rhs] in E. rewrite A in E. injection E as _ <-. reflexivity.
    - assert (W : some_in p = true /\ forallb path_word p = true) by (destruct d as [[]|]; try discriminate; cbn [source_rhs] in S; bandh; auto).
      destruct W as [W1 W2]. eapply ev_mono; [apply (words_back p W1 W2)|]. intros m W x r' E. cbv beta in W.
      destruct d as [d|]; [|discriminate]. cbn [print_rhs] in E.
      destruct (print_ids_head p W1) as (i & r & -> & Ep). unfold read_atom in E. rewrite Ep, <- Ep in E. rewrite W in E by reflexivity. cbn [group] in E.
      destruct d; try discriminate.
      + destruct (list_in read_word m _) as [[l b]|]; [|discriminate]. injection E as _ <-. reflexivity.
      + injection E as _ <-. reflexivity. }
  eapply ev_mono; [exact A|]. intros m A'. right. destruct (rhs_start r [] S) as (t & ts & E & T). rewrite app_nil_r in E. rewrite E in *.
  split; [destruct t; auto; destruct T|]. split; [apply no_let; destruct t; auto|exact A'].
Qed.

(** ** Arms and bodies *)
Definition source_arm (a : arm) : bool :=
  source_pat (arm_pat a) && forallb source_stmt (arm_stmts a) && source_rhs (arm_tail a).
Definition source_body (b : body) : bool :=
  match b with
  | BTail ss t => forallb source_stmt ss && opt_ok source_rhs t
  | BMatch ss a arms => forallb source_stmt ss && source_atom a && forallb source_arm arms
  end.
Lemma eat2_arm x : eat2 "=" ">" (TPunct "=" true :: punct ">" :: x) = Some x.
Proof. reflexivity. Qed.
Lemma eat_match x : eat_word "match" (TIdent (I "match") :: x) = Some x.
Proof. reflexivity. Qed.
Lemma arm_back a : source_arm a = true -> ev (fun m => forall rest, read_arm m (print_arm a ++ rest) = Some (a, rest)).
Proof.
  destruct a as [p ss r]. unfold source_arm, print_arm. cbn [arm_pat arm_stmts arm_tail]. intros S. bandh.
  eapply ev_mono; [apply (ev_and _ _ (pat_back p H) (ev_and _ _ (rhs_back r H0) (ev_and _ _ (stmts_read ss H1) (rhs_tail r H0))))|].
  intros m (P & R & T & Q) rest. cbv beta in *. rewrite <- !app_assoc. unfold read_arm. rewrite P by reflexivity. cbn [app].
  rewrite eat2_arm. destruct ss as [|s ss].
  - rewrite <- app_assoc. cbn [app]. destruct (rhs_start r (t_comma :: rest) H0) as (t & ts & E & X).
    pose proof (R (t_comma :: rest) eq_refl) as R'. rewrite E in *.
    destruct t as [i|c b|x|d y]; [| | |destruct X]; cbv iota; rewrite R'; reflexivity.
  - cbn [group app]. rewrite T by exact Q. pose proof (R [] eq_refl) as R'. rewrite app_nil_r in R'. rewrite R'. reflexivity.
Qed.
Lemma all_back {A} (f : nat -> reader A) pr (ok : A -> bool) l :
  (forall x, ok x = true -> ev (fun m => forall rest, f m (pr x ++ rest) = Some (x, rest))) ->
  (forall x, ok x = true -> pr x <> []) -> forallb ok l = true ->
  ev (fun m => read_all (f m) m (flat_map pr l) = Some l).
Proof.
  intros F NE O. rewrite forallb_forall in O.
  assert (E : ev (fun m => forall x, In x l -> forall rest, f m (pr x ++ rest) = Some (x, rest))).
  { apply (ev_Forall (fun x m => forall rest, f m (pr x ++ rest) = Some (x, rest))).
    apply Forall_forall. intros x Hx. apply F, O, Hx. }
  eapply ev_mono; [apply (ev_and _ _ E (ev_le (length l)))|]. intros m [R L]. cbv beta in *.
  assert (X : forall k, length l <= k -> read_all (f m) k (flat_map pr l) = Some l); [|apply X, L].
  clear L E F. induction l as [|x l IH]; intros k K; [destruct k; reflexivity|]. destruct k as [|k]; [cbn in K; lia|].
  cbn [flat_map]. pose proof (NE x (O x (or_introl eq_refl))) as N. pose proof (R x (or_introl eq_refl) (flat_map pr l)) as Rx.
  destruct (pr x ++ flat_map pr l) as [|t ts] eqn:P; [destruct (pr x); [congruence|discriminate]|]. cbn [read_all]. rewrite Rx.
  rewrite IH; [reflexivity|intros y Hy; apply O; right; exact Hy|intros y Hy; apply R; right; exact Hy|cbn in K; lia].
Qed.
Lemma arm_ne a : source_arm a = true -> print_arm a <> [].
Proof.
  intros _. unfold print_arm. intros E. apply app_eq_nil in E. destruct E as [_ E]. discriminate.
Qed.

(** The block of a method. *)
Definition print_block (b : body) : list ttree :=
  match b with BTail [] None => [] | b => t_id "unsafe" :: group Brace (print_body b) end.
Lemma match_tail m ts : tail_ok m (t_id "match" :: ts).
Proof.
  right. split; [exact Logic.I|]. split; [reflexivity|]. intros a r. unfold read_atom. cbn [t_id]. rewrite words_none by reflexivity. discriminate.
Qed.
Lemma block_back b : source_body b = true -> ev (fun m => read_block m (print_block b) = Some b).
Proof.
  destruct b as [ss t|ss a arms]; cbn [source_body]; intros S; bandh.
  - destruct t as [t|]; cbn [opt_ok] in *.
    + eapply ev_mono; [apply (ev_and _ _ (stmts_read ss H) (ev_and _ _ (rhs_back t H0) (rhs_tail t H0)))|]. intros m (T & R & Q). cbv beta in *.
      assert (E : print_block (BTail ss (Some t)) = t_id "unsafe" :: group Brace (flat_map print_stmt ss ++ print_rhs t)) by (destruct ss; reflexivity).
      rewrite E. unfold read_block, t_id, group. change (ident_is (I "unsafe") "unsafe") with true. cbv iota. rewrite T by exact Q.
      destruct (rhs_start t [] H0) as (x & xs & E' & X). rewrite app_nil_r in E'.
      pose proof (R [] eq_refl) as R'. rewrite app_nil_r in R'. rewrite E' in *.
      assert (M : eat_word "match" (x :: xs) = None).
      { destruct x as [i| | |]; try reflexivity. cbn. assert (Z : ident_is i "match" = false) by (apply path_word_not; [exact X|reflexivity|reflexivity]). rewrite Z. reflexivity. }
      rewrite M, R'. reflexivity.
    + destruct ss as [|s ss]; [apply ev_all; reflexivity|]. eapply ev_mono; [apply (stmts_read (s :: ss) H)|]. intros m T. cbv beta in *.
      assert (E : print_block (BTail (s :: ss) None) = t_id "unsafe" :: group Brace (flat_map print_stmt (s :: ss) ++ [])) by reflexivity.
      rewrite E. unfold read_block, t_id, group. change (ident_is (I "unsafe") "unsafe") with true. cbv iota. rewrite T by (left; reflexivity). reflexivity.
  - eapply ev_mono; [apply (ev_and _ _ (stmts_read ss H) (ev_and _ _ (atom_back a H1) (all_back read_arm print_arm source_arm arms arm_back arm_ne H0)))|].
    intros m (T & A & B). cbv beta in *. unfold print_block, print_body, read_block, t_id, group. change (ident_is (I "unsafe") "unsafe") with true. cbv iota.
    rewrite T by apply match_tail. rewrite eat_match.
    rewrite A by reflexivity. rewrite B. reflexivity.
Qed.

(** ** Two ways to write the same body *)
Lemma print_path_atom p : print_atom (path_atom p) = print_ids p.
Proof. destruct p as [|x [|y p]]; reflexivity. Qed.
Lemma print_canon_atom a : print_atom (canon_atom a) = print_atom a.
Proof. destruct a; try reflexivity. apply print_path_atom. Qed.
Lemma print_canon_rhs r : print_rhs (canon_rhs r) = print_rhs r.
Proof.
  destruct r as [a|p [d|] fs].
  - destruct a; cbn [canon_rhs]; try reflexivity.
    + cbn [print_rhs print_atom]. rewrite map_map. reflexivity.
    + apply print_path_atom.
  - cbn [canon_rhs print_rhs]. rewrite map_map. do 3 f_equal. apply map_ext. intros [i a]. unfold print_init. cbn [fst snd].
    rewrite print_canon_atom. reflexivity.
  - apply print_path_atom.
Qed.
Lemma print_canon_pat p : print_pat (canon_pat p) = print_pat p.
Proof. destruct p as [x|[|x [|y p]] [d|] bs]; reflexivity. Qed.
Fixpoint print_canon_stmt (s : stmt) : print_stmt (canon_stmt s) = print_stmt s.
Proof.
  destruct s as [p t r|a|l].
  - cbn [canon_stmt print_stmt]. rewrite print_canon_pat, print_canon_rhs. reflexivity.
  - cbn [canon_stmt print_stmt]. rewrite print_canon_atom. reflexivity.
  - change (group Brace (flat_map print_stmt (map canon_stmt l)) = group Brace (flat_map print_stmt l)). f_equal.
    induction l as [|s l IH]; [reflexivity|]. cbn [map flat_map]. rewrite print_canon_stmt, IH. reflexivity.
Qed.
Lemma print_canon_stmts l : flat_map print_stmt (map canon_stmt l) = flat_map print_stmt l.
Proof. induction l as [|s l IH]; [reflexivity|]. cbn [map flat_map]. rewrite print_canon_stmt, IH. reflexivity. Qed.
Lemma print_canon_body b : print_body (canon_body b) = print_body b.
Proof.
  destruct b as [ss t|ss a arms]; cbn [canon_body print_body]; rewrite print_canon_stmts.
  - destruct t; cbn [option_map opt_list]; rewrite ?print_canon_rhs; reflexivity.
  - rewrite print_canon_atom. do 4 f_equal. induction arms as [|[p s r] l IH]; [reflexivity|]. cbn [map flat_map]. rewrite IH. f_equal.
    unfold print_arm. cbn [arm_pat arm_stmts arm_tail]. rewrite print_canon_pat, print_canon_rhs. destruct s; [reflexivity|].
    cbn [map]. rewrite <- (print_canon_stmts (s :: s0)). reflexivity.
Qed.
Lemma print_canon_block b : print_block (canon_body b) = print_block b.
Proof.
  unfold print_block. pose proof (print_canon_body b) as E. destruct b as [[|s ss] [t|]|ss a arms]; cbn [canon_body map option_map] in *; rewrite ?E; reflexivity.
Qed.
