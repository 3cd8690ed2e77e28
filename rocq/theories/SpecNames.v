(** Vocabulary: values of types that have nothing in common but how many fields
    there are and which of them are pinned. *)
From Coq Require Import String List Bool.
From Verif Require Import Base Syntax ModelArgs ModelDerive ModelRun SpecDerive SpecRun.
Import ListNotations.
Open Scope list_scope.

(** Which fields are marked [#[pin]], in the order of the declaration. *)
Definition pins (fs : fields) : list bool := map is_pinned (fields_list fs).
(** Results that differ only in the names of the projected type, of the variant
    and of the fields. *)
Inductive same_result : option rv -> option rv -> Prop :=
| SR_panic : same_result None None
| SR_value p p' l l' : map snd l = map snd l' -> same_result (Some (RProj p l)) (Some (RProj p' l')).
(** An event without the name of the variant that is written. *)
Definition nameless (e : event) : event :=
  match e with EvWrite u => EvWrite (mkUval None (u_ids u)) | _ => e end.
