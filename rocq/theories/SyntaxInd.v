(** Induction principle for the mutually recursive syntax of types. *)
From Coq Require Import String List.
From Verif Require Import Base Syntax.
Import ListNotations.

Section Ind.
  Variable Pt : ty -> Prop.
  Variable Pp : path -> Prop.
  Variable Ps : seg -> Prop.
  Variable Pgs : gargs -> Prop.
  Variable Pg : garg -> Prop.
  Variable Pb : bound -> Prop.
  Variable Pe : expr -> Prop.

  Definition Pq (q : option (ty * nat)) : Prop :=
    match q with Some (t, _) => Pt t | None => True end.
  Definition Po (o : option ty) : Prop :=
    match o with Some t => Pt t | None => True end.

  Hypothesis Hpath : forall q p, Pq q -> Pp p -> Pt (TyPath q p).
  Hypothesis Href : forall lt m t, Pt t -> Pt (TyRef lt m t).
  Hypothesis Hptr : forall m t, Pt t -> Pt (TyPtr m t).
  Hypothesis Htuple : forall l, Forall Pt l -> Pt (TyTuple l).
  Hypothesis Hslice : forall t, Pt t -> Pt (TySlice t).
  Hypothesis Harray : forall t e, Pt t -> Pe e -> Pt (TyArray t e).
  Hypothesis Hfn : forall lts l o, Forall Pt l -> Po o -> Pt (TyFn lts l o).
  Hypothesis Hdyn : forall bs, Forall Pb bs -> Pt (TyDyn bs).
  Hypothesis Hparen : forall t, Pt t -> Pt (TyParen t).
  Hypothesis Hnever : Pt TyNever.
  Hypothesis Hmacro : forall m ts, Pt (TyMacro m ts).
  Hypothesis Hpathc : forall lead segs, Forall Ps segs -> Pp (Path lead segs).
  Hypothesis Hseg : forall i a, Pgs a -> Ps (Seg i a).
  Hypothesis Hgnone : Pgs GNone.
  Hypothesis Hgangle : forall b l, Forall Pg l -> Pgs (GAngle b l).
  Hypothesis Hgparen : forall l o, Forall Pt l -> Po o -> Pgs (GParen l o).
  Hypothesis Halt : forall lt, Pg (ALt lt).
  Hypothesis Haty : forall t, Pt t -> Pg (ATy t).
  Hypothesis Haconst : forall e, Pe e -> Pg (AConst e).
  Hypothesis Haassoc : forall i t, Pt t -> Pg (AAssoc i t).
  Hypothesis Hblt : forall lt, Pb (BLt lt).
  Hypothesis Hbtrait : forall m lts p, Pp p -> Pb (BTrait m lts p).
  Hypothesis Hepath : forall q p, Pq q -> Pp p -> Pe (EPath q p).
  Hypothesis Helit : forall s, Pe (ELit s).
  Hypothesis Hecall : forall f l, Pe f -> Forall Pe l -> Pe (ECall f l).
  Hypothesis Hemacro : forall m ts, Pe (EMacro m ts).

  Fixpoint ty_rect' (t : ty) : Pt t :=
    match t with
    | TyPath q p =>
      Hpath q p
        (match q return Pq q with
         | Some (t', n) => ty_rect' t'
         | None => Logic.I
         end)
        (path_rect' p)
    | TyRef lt m t' => Href lt m t' (ty_rect' t')
    | TyPtr m t' => Hptr m t' (ty_rect' t')
    | TyTuple l =>
      Htuple l ((fix go (l : list ty) : Forall Pt l :=
                   match l with
                   | [] => Forall_nil _
                   | x :: r => Forall_cons _ (ty_rect' x) (go r)
                   end) l)
    | TySlice t' => Hslice t' (ty_rect' t')
    | TyArray t' e => Harray t' e (ty_rect' t') (expr_rect' e)
    | TyFn lts l o =>
      Hfn lts l o ((fix go (l : list ty) : Forall Pt l :=
                   match l with
                   | [] => Forall_nil _
                   | x :: r => Forall_cons _ (ty_rect' x) (go r)
                   end) l)
        (match o return Po o with Some t' => ty_rect' t' | None => Logic.I end)
    | TyDyn bs =>
      Hdyn bs ((fix go (l : list bound) : Forall Pb l :=
                   match l with
                   | [] => Forall_nil _
                   | x :: r => Forall_cons _ (bound_rect' x) (go r)
                   end) bs)
    | TyParen t' => Hparen t' (ty_rect' t')
    | TyNever => Hnever
    | TyMacro m ts => Hmacro m ts
    end
  with path_rect' (p : path) : Pp p :=
    match p with
    | Path lead segs =>
      Hpathc lead segs ((fix go (l : list seg) : Forall Ps l :=
                   match l with
                   | [] => Forall_nil _
                   | x :: r => Forall_cons _ (seg_rect' x) (go r)
                   end) segs)
    end
  with seg_rect' (s : seg) : Ps s :=
    match s with Seg i a => Hseg i a (gargs_rect' a) end
  with gargs_rect' (a : gargs) : Pgs a :=
    match a with
    | GNone => Hgnone
    | GAngle b l =>
      Hgangle b l ((fix go (l : list garg) : Forall Pg l :=
                   match l with
                   | [] => Forall_nil _
                   | x :: r => Forall_cons _ (garg_rect' x) (go r)
                   end) l)
    | GParen l o =>
      Hgparen l o ((fix go (l : list ty) : Forall Pt l :=
                   match l with
                   | [] => Forall_nil _
                   | x :: r => Forall_cons _ (ty_rect' x) (go r)
                   end) l)
        (match o return Po o with Some t' => ty_rect' t' | None => Logic.I end)
    end
  with garg_rect' (a : garg) : Pg a :=
    match a with
    | ALt lt => Halt lt
    | ATy t => Haty t (ty_rect' t)
    | AConst e => Haconst e (expr_rect' e)
    | AAssoc i t => Haassoc i t (ty_rect' t)
    end
  with bound_rect' (b : bound) : Pb b :=
    match b with
    | BLt lt => Hblt lt
    | BTrait m lts p => Hbtrait m lts p (path_rect' p)
    end
  with expr_rect' (e : expr) : Pe e :=
    match e with
    | EPath q p =>
      Hepath q p
        (match q return Pq q with
         | Some (t', n) => ty_rect' t'
         | None => Logic.I
         end)
        (path_rect' p)
    | ELit s => Helit s
    | ECall f l =>
      Hecall f l (expr_rect' f)
        ((fix go (l : list expr) : Forall Pe l :=
                   match l with
                   | [] => Forall_nil _
                   | x :: r => Forall_cons _ (expr_rect' x) (go r)
                   end) l)
    | EMacro m ts => Hemacro m ts
    end.

  (** All seven at once. *)
  Lemma syntax_ind :
    (forall t, Pt t) /\ (forall p, Pp p) /\ (forall s, Ps s) /\ (forall a, Pgs a) /\
    (forall a, Pg a) /\ (forall b, Pb b) /\ (forall e, Pe e).
  Proof.
    exact (conj ty_rect' (conj path_rect' (conj seg_rect' (conj gargs_rect'
             (conj garg_rect' (conj bound_rect' expr_rect')))))).
  Qed.
End Ind.

(** Induction on token trees. *)
Section TInd.
  Variable P : ttree -> Prop.
  Hypothesis Hi : forall i, P (TIdent i).
  Hypothesis Hp : forall c j, P (TPunct c j).
  Hypothesis Hl : forall s, P (TLit s).
  Hypothesis Hg : forall d l, Forall P l -> P (TGroup d l).
  Fixpoint ttree_ind' (t : ttree) : P t :=
    match t with
    | TIdent i => Hi i
    | TPunct c j => Hp c j
    | TLit s => Hl s
    | TGroup d l =>
      Hg d l ((fix go (l : list ttree) : Forall P l :=
                 match l with
                 | [] => Forall_nil _
                 | x :: r => Forall_cons _ (ttree_ind' x) (go r)
                 end) l)
    end.
End TInd.
