(** A place where [Self] is [Foo<'pin, T, U, N>], for the properties about type
    expressions. *)
From Coq Require Import String Ascii List Bool.
From Verif Require Import Base Syntax ModelArgs ModelUtils ModelAttribute ModelDerive ModelMeaning.
From Verif Require Import SpecArgs SpecDerive SpecLifetime SpecExpand SpecMeaning ProofsUtils ProofsExpand ProofsVis Examples ExamplesTraits.
Import ListNotations.
Open Scope string_scope.
Open Scope list_scope.

Definition own_ex : type_path := own_type (I "Foo") generics_ex.
Definition base_ex (x : string) : head dt :=
  if existsb (String.eqb x) ["T"; "U"; "N"] then HDone (usr x) else outer_names x.
Definition names_ex (x : string) : head dt :=
  if String.eqb x "Self" then HDone (den_ty (U := terms) (mkEnv base_ex (fun l => l)) (tp_ty own_ex)) else base_ex x.
(** Elsewhere [Self] is something else and [Unpin] is hidden. *)
Definition names_ex' (x : string) : head dt :=
  if String.eqb x "Self" then HDone (usr "Other") else if String.eqb x "Unpin" then HDef (XUsr "Mine") else base_ex x.

Lemma names_ex_self : names_ex "Self" = HDone (den_ty (U := terms) (mkEnv names_ex (fun l => l)) (tp_ty own_ex)).
Proof. vm_compute. reflexivity. Qed.
Lemma own_ex_macros m ts : ~ In (NMacro m ts) (nodes_ty (tp_ty own_ex)).
Proof. vm_compute. intuition discriminate. Qed.

(** [(Self::Item, <Self as Tr>::Out, Vec<[Self; Self::N]>, for<'b> fn(&'b Self) -> mac![fn Self])] *)
Definition type_ex : ty :=
  TyTuple [TyPath None (Path false [seg1 "Self"; seg1 "Item"]);
           TyPath (Some (ty_self, 1)) (Path false [seg1 "Tr"; seg1 "Out"]);
           TyPath None (Path false [Seg (I "Vec") (GAngle false
             [ATy (TyArray ty_self (EPath None (Path false [seg1 "Self"; seg1 "N"])))])]);
           TyFn ["'b"] [TyRef (Some "'b") false ty_self] (Some (TyMacro [I "mac"] [TIdent (I "fn"); TIdent (I "Self")]))].

Definition no_self (n : node) : bool :=
  match n with NPath _ _ p => negb (existsb (ident_eqb (I "self")) p) | _ => true end.
Lemma no_self_legal l : forallb no_self l = true -> self_legal l.
Proof.
  intros H q lead p Hin l1 l2 ->. rewrite forallb_forall in H. specialize (H _ Hin). cbn in H. rewrite existsb_app in H.
  cbn [existsb] in H. change (ident_eqb (I "self") (I "self")) with true in H. cbn in H. rewrite orb_true_r in H. discriminate.
Qed.
Lemma type_ex_spellable : spellable terms names_ex None (tp_path own_ex) (nodes_ty type_ex) (fun x => binds_ty x type_ex).
Proof.
  constructor.
  - apply no_self_legal. vm_compute. reflexivity.
  - intros m ts lf Hin. vm_compute in Hin.
    repeat (destruct Hin as [Hin|Hin]; [try discriminate Hin; injection Hin as <- <-; vm_compute; reflexivity|]). destruct Hin.
  - left. reflexivity.
  - intros x Hx Hin. apply lts_binds in Hx. vm_compute in Hx. destruct Hx as [<-|[]]. vm_compute in Hin.
    repeat (destruct Hin as [Hin|Hin]; [discriminate Hin|]). destruct Hin.
Qed.

(** [<T: Into<Self>, const K: mac![fn Self]> where for<'b> &'b Self: Tr<Self::Out>, Self: Sized] *)
Definition self_generics_ex : generics :=
  mkGenerics [PTy (I "T") [BTrait false [] (Path false [Seg (I "Into") (GAngle false [ATy ty_self])])] None;
              PConst (I "K") (TyMacro [I "mac"] [TIdent (I "fn"); TIdent (I "Self")]) None]
    (Some [WTy ["'b"] (TyRef (Some "'b") false ty_self)
             [BTrait false [] (Path false [Seg (I "Tr") (GAngle false [ATy (TyPath None (Path false [seg1 "Self"; seg1 "Out"]))])])];
           WTy [] ty_self [bnd "Sized"]]).
Lemma self_generics_spellable :
  spellable terms names_ex None (tp_path own_ex) (nodes_generics self_generics_ex) (fun x => binds_generics x self_generics_ex).
Proof.
  constructor.
  - apply no_self_legal. vm_compute. reflexivity.
  - intros m ts lf Hin. vm_compute in Hin.
    repeat (destruct Hin as [Hin|Hin]; [try discriminate Hin; injection Hin as <- <-; vm_compute; reflexivity|]). destruct Hin.
  - left. reflexivity.
  - intros x Hx Hin. assert (E : x = "'b").
    { destruct Hx as [(i & bs & d & b & Hp & Hb & Hx)|[(i & t & d & Hp & Hx)|(w & lts & t & bs & Hw & Hp & Hx)]].
      - destruct Hp as [Hp|[Hp|[]]]; [|discriminate]. injection Hp as <- <- <-. destruct Hb as [<-|[]]. apply lts_binds in Hx. destruct Hx.
      - destruct Hp as [Hp|[Hp|[]]]; [discriminate|]. injection Hp as <- <- <-. apply lts_binds in Hx. destruct Hx.
      - injection Hw as <-. destruct Hp as [Hp|[Hp|[]]]; injection Hp as <- <- <-.
        + destruct Hx as [[Hx|[]]|[Hx|(b & [<-|[]] & Hx)]]; [symmetry; exact Hx| |]; apply lts_binds in Hx; destruct Hx.
        + destruct Hx as [[]|[Hx|(b & [<-|[]] & Hx)]]; apply lts_binds in Hx; destruct Hx. }
    subst x. vm_compute in Hin. repeat (destruct Hin as [Hin|Hin]; [discriminate Hin|]). destruct Hin.
Qed.

(** The fields of [struct_ex], copied to the other place. *)
Lemma pin_ex pin : pin_lifetime generics_ex pin -> pin = "'pin__".
Proof.
  intros H. rewrite (pin_lifetime_unique _ _ _ H (pin_lifetime_det generics_ex)). vm_compute. reflexivity.
Qed.
Lemma fields_ex_written f : In f fields_ex -> well_written (tp_ty own_ex) (f_ty f).
Proof.
  intros [<-|[<-|[<-|[<-|[]]]]]; (constructor;
    [apply no_self_legal; vm_compute; reflexivity
    |vm_compute; intros H; repeat (destruct H as [H|H]; [discriminate H|]); exact H
    |intros x Hx; apply lts_binds in Hx; destruct Hx]).
Qed.
Definition name_free (hid : list string) (n : node) : bool :=
  match n with
  | NPath (Some 0) _ _ | NPath _ true _ | NPath _ _ [] => true
  | NPath _ false (i :: _) => negb (existsb (String.eqb (name i)) hid)
  | _ => true
  end.
Lemma name_free_looks hid l x : forallb (name_free hid) l = true -> looks_up l x -> ~ In x hid.
Proof.
  intros H (q & i & r & Hin & Hq & <-) Hx. rewrite forallb_forall in H. specialize (H _ Hin). cbn in H.
  assert (E : existsb (String.eqb (name i)) hid = true) by (apply existsb_exists; exists (name i); split; [exact Hx|apply String.eqb_refl]).
  destruct q as [[|n]|]; [congruence| |]; rewrite E in H; discriminate.
Qed.
Lemma fields_ex_copied f : In f fields_ex -> copied terms "'pin__" names_ex names_ex' (tp_ty own_ex) (f_ty f).
Proof.
  intros Hf. assert (Hm : forall m ts, ~ In (NMacro m ts) (nodes_ty (f_ty f))).
  { intros m ts. destruct Hf as [<-|[<-|[<-|[<-|[]]]]]; vm_compute; intuition discriminate. }
  constructor.
  - intros x Hx Hn. assert (Hu : x <> "Unpin").
    { intros ->. destruct Hx as [Hx|Hx].
      - destruct Hf as [<-|[<-|[<-|[<-|[]]]]]; apply (name_free_looks ["Unpin"]) in Hx; try (vm_compute; reflexivity); apply Hx; left; reflexivity.
      - apply (name_free_looks ["Unpin"]) in Hx; [|vm_compute; reflexivity]. apply Hx. left. reflexivity. }
    unfold names_ex, names_ex'. destruct (String.eqb_spec x "Self") as [E|_]; [contradiction|].
    destruct (String.eqb_spec x "Unpin") as [E|_]; [contradiction|]. reflexivity.
  - split; [destruct Hf as [<-|[<-|[<-|[<-|[]]]]]|]; vm_compute; intros H; repeat (destruct H as [H|H]; [discriminate H|]); exact H.
  - intros m ts lf Hin. destruct (Hm m ts Hin).
  - intros m ts h h' Hin. destruct (Hm m ts Hin).
Qed.

(** [Self] as a value where the type is [<X as Tr>::Y]. *)
Definition q_ex : option (ty * nat) := Some (tid "X", 1).
Definition p_ex : path := Path false [seg1 "Tr"; seg1 "Y"].
Definition q_names (x : string) : head dt :=
  if String.eqb x "Self" then HDone (den_ty (U := terms) outer_env (TyPath q_ex p_ex)) else outer_names x.
Lemma c38_value_refuted : exists U n f q p e, self_is U n f q p /\
  den_expr (mkEnv n f) (replace_expr (mkTypePath q p) e) <> den_expr (mkEnv n f) e.
Proof.
  exists terms, q_names, (fun l => l), q_ex, p_ex, (EPath None (Path false [seg1 "Self"])).
  split; [split|]; [vm_compute; reflexivity|vm_compute; intuition discriminate|vm_compute; discriminate].
Qed.
