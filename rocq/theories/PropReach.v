(** C57: no private type in a more visible interface. *)
From Coq Require Import String List Bool.
From Verif Require Import Base Syntax ModelArgs ModelUtils ModelDerive.
From Verif Require Import SpecArgs SpecDerive SpecExpand SpecVis SpecRun SpecMeaning SpecTraits SpecScope SpecReach.
From Verif Require Import ProofsScope ProofsReach Examples ExamplesReach.
Import ListNotations.
Open Scope string_scope.
Open Scope list_scope.

(** If the interface of the item shows nothing that is less visible than the
    interface itself, neither do the interfaces of the generated items, whoever
    may use what the item mentions. *)
Theorem C57_no_leak : forall ed m user it e o,
  parse_derive it = Ok e -> no_pub_self it -> SpecVis.legal ed m (vis_of it) -> self_legal (nodes_item it) ->
  apart it (all_items e) -> in_reach ed m user it -> no_leak ed m user it [] (as_item it) ->
  In o (all_items e) -> no_leak ed m user it (all_items e) o.
Proof. exact c57_no_leak. Qed.
Print Assumptions C57_no_leak.

(** [pub struct Foo<T: Tr> { #[pin] pub a: T, #[pin] b: Hidden }] has a private
    type in a private field, and so has the projected type, which other modules
    can name; with [pub b] the item itself is at fault. *)
Example C57_example :
  (exists e o ns R w, parse_derive (hiding VInherited) = Ok e /\ no_pub_self (hiding VInherited) /\
    SpecVis.legal Rust2018 module_ex (vis_of (hiding VInherited)) /\ self_legal (nodes_item (hiding VInherited)) /\
    apart (hiding VInherited) (all_items e) /\ in_reach Rust2018 module_ex user_ex (hiding VInherited) /\
    no_leak Rust2018 module_ex user_ex (hiding VInherited) [] (as_item (hiding VInherited)) /\
    In o (all_items e) /\ shows Rust2018 module_ex user_ex (hiding VInherited) (all_items e) o R ns /\
    R w /\ In (NPath None false [I "Hidden"]) ns) /\
  ~ no_leak Rust2018 module_ex user_ex (hiding VPub) [] (as_item (hiding VPub)).
Proof.
  split.
  - eexists. eexists. eexists. eexists. exists (Inside module_ex). split; [vm_compute; reflexivity|]. split; [|split; [exact Logic.I|split]].
    + split; [intros [b E]; discriminate E|]. intros fs f [<-|[]] [<-|[<-|[]]] [b E]; discriminate E.
    + apply no_self_legal. vm_compute. reflexivity.
    + split; [|split; [|split; [|split; [left; reflexivity|split; [eapply sh_field; right; left; reflexivity|]]]]].
      * constructor; [vm_compute; intuition discriminate| |].
        -- repeat (constructor; [vm_compute; intuition discriminate|]). constructor.
        -- intros x Hx Hin.
           assert (Hx' : In x ["Foo"; "Self"; "Tr"; "Hidden"]).
           { destruct Hx as [[->|[(q & i & r & Hn & _ & Ex) Hp]]| ->]; [left; reflexivity| |right; left; reflexivity]. subst x.
             vm_compute in Hn. repeat (destruct Hn as [Hn|Hn]; [injection Hn as <- <- <-; cbn; tauto || (elim Hp; left; reflexivity)|]).
             destruct Hn. }
           vm_compute in Hin. vm_compute in Hx'. intuition (subst; discriminate).
      * intros n x Hn Hx. vm_compute in Hn.
        repeat (destruct Hn as [<-|Hn]; [cbn; try exact Logic.I; intros E; try discriminate E; eauto|]). destruct Hn.
      * intros R ns w n Hsh HR Hn. inversion Hsh; subst; clear Hsh.
        -- vm_compute in Hn. destruct Hn as [<-|[]]. intros E. discriminate E.
        -- destruct HR as [_ HR]. match goal with X : In f _ |- _ => destruct X as [<-|[<-|[]]] end.
           ++ vm_compute in Hn. destruct Hn as [<-|[]]. exact Logic.I.
           ++ vm_compute in Hn. destruct Hn as [<-|[]]. intros _. exact HR.
      * split; [|vm_compute; tauto]. split; [exists [], module_ex; repeat split; exists module_ex; reflexivity|].
        exists module_ex. split; [reflexivity|]. exists []. reflexivity.
  - intros H. assert (F : user_ex false [I "Hidden"] OtherCrate).
    { refine (H _ _ OtherCrate (NPath None false [I "Hidden"])
        (sh_field Rust2018 module_ex user_ex (hiding VPub) [] VPub (I "Foo") _
           (FNamed [mkField [pin_mark] VPub (Some (I "a")) (tid "T"); mkField [pin_mark] VPub (Some (I "b")) (tid "Hidden")])
           _ (or_intror (or_introl eq_refl))) _ _); [split; exact Logic.I|left; reflexivity]. }
    destruct (F eq_refl) as (x & E & _). discriminate E.
Qed.
