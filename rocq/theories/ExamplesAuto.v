(** For C59: the struct of [Examples.v], whose parameter [T] is [Send] only. *)
From Coq Require Import String List Bool.
From Verif Require Import Base Syntax ModelArgs ModelUtils ModelDerive SpecArgs SpecDerive SpecExpand SpecRun SpecTraits SpecSized SpecAuto Examples.
Import ListNotations.
Open Scope string_scope.
Open Scope list_scope.

Definition named_ex (x : auto_trait) (s : string) : bool :=
  match x with
  | Send => negb (String.eqb s "__FooProjectionRef")
  | Sync => negb (existsb (String.eqb s) ["T"; "Proj"; "__FooProjectionRef"; "Own"])
  | Unpin => negb (existsb (String.eqb s) ["T"; "Own"])
  end.
Fixpoint auto_b (x : auto_trait) (t : ty) {struct t} : bool :=
  match t with
  | TyRef _ m u => match x with Unpin => true | Send => auto_b (if m then Send else Sync) u | Sync => auto_b Sync u end
  | TyParen u => auto_b x u
  | TyPath None (Path _ [_; _; Seg _ (GAngle false [ATy u])]) => auto_b x u
  | TyPath None (Path _ [Seg i _]) => named_ex x (name i)
  | _ => true
  end.
Definition auto_ex (x : auto_trait) (t : ty) : Prop := auto_b x t = true.

Lemma auto_ex_rules e : parse_derive (ItStruct (struct_ex args_struct)) = Ok e -> auto_rules auto_ex e.
Proof.
  intros He. let r := eval vm_compute in (parse_derive (ItStruct (struct_ex args_struct))) in
    assert (G : parse_derive (ItStruct (struct_ex args_struct)) = r) by (vm_compute; reflexivity).
  rewrite G in He. clear G. injection He as <-. constructor; try (intros; reflexivity).
  - intros x u t []; reflexivity.
  - intros x u t []; reflexivity.
  - intros x v i g fs Hin. cbn [all_items exposed scoped app In] in Hin.
    repeat match type of Hin with
    | _ \/ _ => destruct Hin as [Hin|Hin]
    | False => destruct Hin
    | _ = _ => try discriminate Hin; injection Hin as <- <- <- <-
    end; destruct x; vm_compute; (split; [intros E f Hf; first [discriminate E|repeat (destruct Hf as [<-|Hf]; [reflexivity|]); destruct Hf]|
      intros H; first [reflexivity|exact (H _ (or_introl eq_refl))]]).
  - intros x v i g vs Hin. cbn [all_items exposed scoped app In] in Hin.
    repeat match type of Hin with _ \/ _ => destruct Hin as [Hin|Hin] | False => destruct Hin | _ = _ => discriminate Hin end.
Qed.
