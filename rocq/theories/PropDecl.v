(** C47: what is generated is legally declared. *)
From Coq Require Import String Ascii List Bool.
From Verif Require Import Base Syntax ModelArgs ModelUtils ModelDerive.
From Verif Require Import SpecArgs SpecDerive SpecExpand SpecRun SpecMeaning SpecDecl.
From Verif Require Import ProofsDecl Examples.
Import ListNotations.
Open Scope string_scope.
Open Scope list_scope.

(** If the parameters of the item are in order, different and used, and its
    fields and variants different, then so are those of every generated type,
    and every generated impl has a legal header. *)
Theorem C47_declarations : forall it e o,
  parse_derive it = Ok e -> declared_legally it -> In o (all_items e) -> item_legal o.
Proof. exact c47. Qed.
Print Assumptions C47_declarations.

Example C47_example :
  declared_legally (ItStruct (struct_ex [])) /\ is_ok (parse_derive (ItStruct (struct_ex []))) /\
  declared_legally (ItEnum (enum_ex args_enum)) /\ is_ok (parse_derive (ItEnum (enum_ex args_enum))).
Proof.
  split; [|split; [eexists; vm_compute; reflexivity|split; [|eexists; vm_compute; reflexivity]]].
  - constructor.
    + constructor.
      * exists [PLt "'pin" []]. eexists. split; [reflexivity|]. split.
        -- intros p [<-|[]]. reflexivity.
        -- intros p [<-|[<-|[<-|[]]]]; reflexivity.
      * repeat constructor. intros [].
      * repeat constructor; cbn; intuition discriminate.
      * intros i [<-|[<-|[<-|[]]]]; split; discriminate.
    + intros p [<-|[<-|[<-|[<-|[]]]]] Hc; try discriminate; exists (FNamed fields_ex).
      * eexists. split; [left; reflexivity|]. split; [do 3 right; left; reflexivity|]. left. reflexivity.
      * eexists. split; [left; reflexivity|]. split; [left; reflexivity|]. exists None, (I "T"), [].
        split; [left; reflexivity|]. split; [discriminate|reflexivity].
      * eexists. split; [left; reflexivity|]. split; [do 3 right; left; reflexivity|]. exists None, (I "U"), [].
        split; [right; left; reflexivity|]. split; [discriminate|reflexivity].
    + intros fs [<-|[]]. split.
      * intros f [<-|[<-|[<-|[<-|[]]]]]; discriminate.
      * repeat constructor; cbn; intuition discriminate.
    + constructor.
  - constructor.
    + constructor.
      * exists []. eexists. split; [reflexivity|]. split; [intros p []|]. intros p [<-|[]]. reflexivity.
      * constructor.
      * repeat constructor. intros [].
      * intros i [<-|[]]. split; discriminate.
    + intros p [<-|[]] _. do 2 eexists. split; [left; reflexivity|]. split; [left; reflexivity|]. exists None, (I "T"), [].
      split; [left; reflexivity|]. split; [discriminate|reflexivity].
    + intros fs [<-|[<-|[<-|[]]]].
      * intros f [<-|[<-|[]]]; reflexivity.
      * split; [intros f [<-|[]]; discriminate|]. repeat constructor. intros [].
      * exact Logic.I.
    + repeat constructor; cbn; intuition discriminate.
Qed.
