(** Induction principle for the syntax of bodies. *)
From Coq Require Import String List.
From Verif Require Import Base Syntax ModelPinnedDrop.
Import ListNotations.

Section Ind.
  Variable P : bexpr -> Prop.
  Variable Q : bstmt -> Prop.
  Definition Pb (o : option bexpr) : Prop := match o with Some e => P e | None => True end.
  Hypothesis Hpath : forall q p, P (XPath q p).
  Hypothesis Hlit : forall s, P (XLit s).
  Hypothesis Hcall : forall f l, P f -> Forall P l -> P (XCall f l).
  Hypothesis Hmethod : forall e m t l, P e -> Forall P l -> P (XMethod e m t l).
  Hypothesis Hfield : forall e i, P e -> P (XField e i).
  Hypothesis Hstruct : forall p fs b, Forall (fun f => P (snd f)) fs -> Pb b -> P (XStruct p fs b).
  Hypothesis Hunary : forall o e, P e -> P (XUnary o e).
  Hypothesis Hbinary : forall o a b, P a -> P b -> P (XBinary o a b).
  Hypothesis Hcast : forall e t, P e -> P (XCast e t).
  Hypothesis Hblock : forall l, Forall Q l -> P (XBlock l).
  Hypothesis Hmatch : forall e arms, P e -> Forall (fun a => P (snd a)) arms -> P (XMatch e arms).
  Hypothesis Hclosure : forall ps e, P e -> P (XClosure ps e).
  Hypothesis Hmacro : forall m ts, P (XMacro m ts).
  Hypothesis Hlet : forall p t e, Pb e -> Q (YLet p t e).
  Hypothesis Hexpr : forall e, P e -> Q (YExpr e).
  Hypothesis Hfn : forall a v s b, Forall Q b -> Q (YFn a v s b).
  Hypothesis Hrules : forall x ts, Q (YMacroRules x ts).
  Hypothesis Hitem : forall x ts, Q (YItem x ts).

  Fixpoint bexpr_rect' (e : bexpr) : P e :=
    match e with
    | XPath q p => Hpath q p
    | XLit s => Hlit s
    | XCall f l => Hcall f l (bexpr_rect' f)
        ((fix go (l : list bexpr) : Forall P l :=
            match l with [] => Forall_nil _ | x :: r => Forall_cons _ (bexpr_rect' x) (go r) end) l)
    | XMethod f m t l => Hmethod f m t l (bexpr_rect' f)
        ((fix go (l : list bexpr) : Forall P l :=
            match l with [] => Forall_nil _ | x :: r => Forall_cons _ (bexpr_rect' x) (go r) end) l)
    | XField f i => Hfield f i (bexpr_rect' f)
    | XStruct p fs b => Hstruct p fs b
        ((fix go (l : list (ident * bexpr)) : Forall (fun f => P (snd f)) l :=
            match l with
            | [] => Forall_nil _
            | (i, x) :: r => Forall_cons (i, x) (bexpr_rect' x) (go r)
            end) fs)
        (match b return Pb b with Some x => bexpr_rect' x | None => Logic.I end)
    | XUnary o f => Hunary o f (bexpr_rect' f)
    | XBinary o a b => Hbinary o a b (bexpr_rect' a) (bexpr_rect' b)
    | XCast f t => Hcast f t (bexpr_rect' f)
    | XBlock l => Hblock l
        ((fix go (l : list bstmt) : Forall Q l :=
            match l with [] => Forall_nil _ | x :: r => Forall_cons _ (bstmt_rect' x) (go r) end) l)
    | XMatch f arms => Hmatch f arms (bexpr_rect' f)
        ((fix go (l : list (bpat * bexpr)) : Forall (fun a => P (snd a)) l :=
            match l with
            | [] => Forall_nil _
            | (i, x) :: r => Forall_cons (i, x) (bexpr_rect' x) (go r)
            end) arms)
    | XClosure ps f => Hclosure ps f (bexpr_rect' f)
    | XMacro m ts => Hmacro m ts
    end
  with bstmt_rect' (s : bstmt) : Q s :=
    match s with
    | YLet p t e => Hlet p t e (match e return Pb e with Some x => bexpr_rect' x | None => Logic.I end)
    | YExpr e => Hexpr e (bexpr_rect' e)
    | YFn a v s b => Hfn a v s b
        ((fix go (l : list bstmt) : Forall Q l :=
            match l with [] => Forall_nil _ | x :: r => Forall_cons _ (bstmt_rect' x) (go r) end) b)
    | YMacroRules x ts => Hrules x ts
    | YItem x ts => Hitem x ts
    end.
  Theorem body_ind : (forall e, P e) /\ (forall s, Q s).
  Proof. exact (conj bexpr_rect' bstmt_rect'). Qed.
End Ind.
