(** C46: projected types only refer to types that live long enough. *)
From Coq Require Import String List Bool.
From Verif Require Import Base Syntax ModelArgs ModelUtils ModelDerive ModelMeaning.
From Verif Require Import SpecArgs SpecDerive SpecLifetime SpecExpand SpecRun SpecOutlives.
From Verif Require Import ProofsDerive ProofsOutlives Examples ExamplesOutlives.
Import ListNotations.
Open Scope string_scope.
Open Scope list_scope.

(** ** Every reference [&'pin T] in a projected type is to a type that outlives
    ['pin], for all arguments that satisfy the where clause of the projected type,
    whatever the types and their relations are. *)
Theorem C46_struct : forall s e a k,
  parse_derive (ItStruct s) = Ok e -> options (s_attrs s) a -> struct_has k a = true -> k <> POwn ->
  ordered (g_params (s_generics s)) -> ~ In (name (s_ident s)) (map name (param_idents (g_params (s_generics s)))) ->
  exists v gg fs', In (OStruct v (proj_name k a (s_ident s)) gg fs') (all_items e) /\
  forall U out lout E c sb lb, outlives_rules out lout -> module_level out lout E ->
    names E (name (s_ident s)) = HDef c -> nominal out lout c ->
    let E' := with_params (U := U) (g_params gg) sb lb E in
    outlives_sat out E' (preds gg) ->
    forall fld lt t, In fld (fields_list fs') -> has_ref (f_ty fld) lt t -> out (den_ty E' t) (lts_of E' lt).
Proof. exact c46_struct. Qed.
Print Assumptions C46_struct.
Theorem C46_enum : forall e x a k,
  parse_derive (ItEnum e) = Ok x -> options (e_attrs e) a -> enum_has k a = true -> k <> POwn ->
  ordered (g_params (e_generics e)) -> ~ In (name (e_ident e)) (map name (param_idents (g_params (e_generics e)))) ->
  exists v gg vs', In (OEnum v (proj_name k a (e_ident e)) gg vs') (all_items x) /\
  forall U out lout E c sb lb, outlives_rules out lout -> module_level out lout E ->
    names E (name (e_ident e)) = HDef c -> nominal out lout c ->
    let E' := with_params (U := U) (g_params gg) sb lb E in
    outlives_sat out E' (preds gg) ->
    forall w fld lt t, In w vs' -> In fld (fields_list (v_fields w)) -> has_ref (f_ty fld) lt t ->
    out (den_ty E' t) (lts_of E' lt).
Proof. exact c46_enum. Qed.
Print Assumptions C46_enum.
(** [Foo<'pin, T, U, N>] where [T], [U] and ['pin] live as long as ['x]; in the
    second instance they do not and the where clause fails. *)
Example C46_example : let s := struct_ex args_struct in
  (exists e, parse_derive (ItStruct s) = Ok e) /\ options (s_attrs s) opts_struct /\ struct_has PMut opts_struct = true /\
  ordered (g_params (s_generics s)) /\ ~ In (name (s_ident s)) (map name (param_idents (g_params (s_generics s)))) /\
  outlives_rules (U := lifetimes) ty_out lt_out /\ module_level (U := lifetimes) ty_out lt_out lt_env /\
  nominal (U := lifetimes) ty_out lt_out [] /\
  let gg := mkGenerics (projected_params PMut "'pin__" (spelled (s_ident s) (s_generics s)))
    (Some (projected_preds PMut "'pin__" (s_ident s) (s_generics s) (spelled (s_ident s) (s_generics s)))) in
  outlives_sat (U := lifetimes) ty_out (with_params (U := lifetimes) (g_params gg) (fun x => if String.eqb x "N" then [] else ["'x"; "'static"]) (fun _ => "'x") lt_env) (preds gg) /\
  ~ outlives_sat (U := lifetimes) ty_out (with_params (U := lifetimes) (g_params gg) (fun _ => ["'y"]) (fun _ => "'x") lt_env) (preds gg).
Proof.
  split; [eexists; vm_compute; reflexivity|]. split; [apply parse_args_iff; vm_compute; reflexivity|]. split; [reflexivity|].
  split. { exists [PLt "'pin" []]. eexists. split; [reflexivity|]. split.
    - intros p [<-|[]]. reflexivity.
    - intros p [<-|[<-|[<-|[]]]]; reflexivity. }
  split; [vm_compute; intuition discriminate|]. split; [exact lifetimes_rules|]. split; [exact lt_env_level|]. split; [exact lt_nominal|].
  split.
  - intros t lt Hin. vm_compute in Hin. destruct Hin as [Hin|[Hin|[Hin|[]]]]; try discriminate. injection Hin as <- <-.
    intros l Hl. vm_compute in Hl. vm_compute. intuition auto.
  - intros H. assert (X : In (WTy [] (applied (I "Foo") (map as_arg (g_params generics_ex))) [BLt "'pin__"])
      (projected_preds PMut "'pin__" (I "Foo") generics_ex (spelled (I "Foo") generics_ex))) by (right; right; left; reflexivity).
    specialize (H _ _ X "'y"). vm_compute in H. destruct H as [H|H]; [right; left; reflexivity|discriminate|discriminate].
Qed.

(** ** Every pinned reference can be projected: what the type that a projection
    method returns asks of lifetimes is what the impl asks plus that [Self]
    outlives the lifetime of the reference the method is called with. *)
Theorem C46_struct_calls : forall s e a k,
  parse_derive (ItStruct s) = Ok e -> options (s_attrs s) a -> struct_has k a = true -> k <> POwn ->
  ordered (g_params (s_generics s)) ->
  exists v gg fs' im pin m, In (OStruct v (proj_name k a (s_ident s)) gg fs') (all_items e) /\
  inherent_impls (all_items e) = [im] /\ In m (i_methods im) /\ m_name m = proj_method k /\ m_lts m = [pin] /\
  m_self m = pin_self (Some pin) (match k with PMut => true | _ => false end) /\
  m_ret m = Some (applied (proj_name k a (s_ident s)) (map as_arg (g_params gg))) /\
  forall U (out : D U -> LT U -> Prop) E sb lb,
    let Em := with_params (PLt pin [] :: g_params (i_generics im)) sb lb E in
    outlives_sat out Em (preds (i_generics im)) -> out (den_ty Em (i_self im)) (lb pin) ->
    outlives_sat out (with_params (g_params gg) sb lb E) (preds gg).
Proof. exact c46_struct_calls. Qed.
Print Assumptions C46_struct_calls.
Theorem C46_enum_calls : forall e x a k,
  parse_derive (ItEnum e) = Ok x -> options (e_attrs e) a -> enum_has k a = true -> k <> POwn ->
  ordered (g_params (e_generics e)) ->
  exists v gg vs' im pin m, In (OEnum v (proj_name k a (e_ident e)) gg vs') (all_items x) /\
  inherent_impls (all_items x) = [im] /\ In m (i_methods im) /\ m_name m = proj_method k /\ m_lts m = [pin] /\
  m_self m = pin_self (Some pin) (match k with PMut => true | _ => false end) /\
  m_ret m = Some (applied (proj_name k a (e_ident e)) (map as_arg (g_params gg))) /\
  forall U (out : D U -> LT U -> Prop) E sb lb,
    let Em := with_params (PLt pin [] :: g_params (i_generics im)) sb lb E in
    outlives_sat out Em (preds (i_generics im)) -> out (den_ty Em (i_self im)) (lb pin) ->
    outlives_sat out (with_params (g_params gg) sb lb E) (preds gg).
Proof. exact c46_enum_calls. Qed.
Print Assumptions C46_enum_calls.
Example C46_calls_example : let e := enum_ex args_enum in
  (exists x, parse_derive (ItEnum e) = Ok x) /\ (exists a, options (e_attrs e) a /\ enum_has PMut a = true /\ enum_has PRef a = true) /\
  ordered (g_params (e_generics e)).
Proof.
  split; [eexists; vm_compute; reflexivity|]. split.
  - eexists. split; [apply parse_args_iff; vm_compute; reflexivity|]. split; reflexivity.
  - exists []. eexists. split; [reflexivity|]. split; [intros p []|]. intros p [<-|[]]. reflexivity.
Qed.
