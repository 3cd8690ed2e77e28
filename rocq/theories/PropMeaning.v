(** C38, C39, C45: [Self] and [self] in type expressions and in macro input. *)
From Coq Require Import String Ascii List Bool.
From Verif Require Import Base Syntax ModelArgs ModelUtils ModelDerive ModelMeaning ModelObject.
From Verif Require Import SpecArgs SpecDerive SpecLifetime SpecExpand SpecRun SpecMeaning SpecObject SpecTokens.
From Verif Require Import ProofsArgs ProofsDerive ProofsSelf ProofsObject ProofsTokens Examples ExamplesTraits ExamplesMeaning ExamplesObject.
Import ListNotations.
Open Scope string_scope.
Open Scope list_scope.

(** ** C38: in every universe of types, [n] and [f] say what names and
    lifetimes mean, and [Self] means the type written [q p]. *)
Theorem C38_types : forall U n f q p t, self_is U n f q p ->
  spellable U n q p (nodes_ty t) (fun x => binds_ty x t) ->
  den_ty (mkEnv n f) (replace_ty (mkTypePath q p) t) = den_ty (mkEnv n f) t.
Proof. exact c38_ty'. Qed.
Print Assumptions C38_types.
Theorem C38_bounds : forall U n f q p b, self_is U n f q p ->
  spellable U n q p (nodes_bound b) (fun x => binds_bound x b) ->
  den_bound (mkEnv n f) (replace_bound (mkTypePath q p) b) = den_bound (mkEnv n f) b.
Proof. exact c38_bound'. Qed.
Print Assumptions C38_bounds.
Theorem C38_expressions : forall U n f q p e, self_is U n f q p ->
  spellable U n q p (nodes_expr e) (fun x => binds_expr x e) ->
  den_expr (mkEnv n f) (replace_expr (mkTypePath q p) e) = den_expr (mkEnv n f) e.
Proof. exact c38_expr'. Qed.
Print Assumptions C38_expressions.
Example C38_example :
  self_is terms names_ex (fun l => l) None (tp_path own_ex) /\
  spellable terms names_ex None (tp_path own_ex) (nodes_ty type_ex) (fun x => binds_ty x type_ex) /\
  replace_ty own_ex type_ex <> type_ex.
Proof.
  split; [split; [apply names_ex_self|apply own_ex_macros]|]. split; [apply type_ex_spellable|]. vm_compute. discriminate.
Qed.

(** Parameters and where clauses. *)
Theorem C38_generics : forall U n f q p g, self_is U n f q p ->
  spellable U n q p (nodes_generics g) (fun x => binds_generics x g) ->
  den_generics (mkEnv n f) (replace_generics (mkTypePath q p) g) = den_generics (mkEnv n f) g.
Proof. exact c38_generics'. Qed.
Print Assumptions C38_generics.
Example C38_generics_example :
  self_is terms names_ex (fun l => l) None (tp_path own_ex) /\
  spellable terms names_ex None (tp_path own_ex) (nodes_generics self_generics_ex) (fun x => binds_generics x self_generics_ex) /\
  replace_generics own_ex self_generics_ex <> self_generics_ex.
Proof.
  split; [split; [apply names_ex_self|apply own_ex_macros]|]. split; [apply self_generics_spellable|]. vm_compute. discriminate.
Qed.

(** [Self] is gone. *)
Theorem C38_no_Self_left : forall p, ~ looks_up (nodes_ty (TyPath None p)) "Self" ->
  (forall t, ~ In NOddSelf (nodes_ty t) -> ~ looks_up (nodes_ty (replace_ty (mkTypePath None p) t)) "Self") /\
  (forall b, ~ In NOddSelf (nodes_bound b) -> ~ looks_up (nodes_bound (replace_bound (mkTypePath None p) b)) "Self") /\
  (forall e, ~ In NOddSelf (nodes_expr e) -> ~ looks_up (nodes_expr (replace_expr (mkTypePath None p) e)) "Self").
Proof. exact c38_left. Qed.
Print Assumptions C38_no_Self_left.
Example C38_no_Self_left_example :
  ~ looks_up (nodes_ty (tp_ty own_ex)) "Self" /\ ~ In NOddSelf (nodes_ty type_ex) /\ looks_up (nodes_ty type_ex) "Self".
Proof.
  split; [intros H; apply (name_free_looks ["Self"]) in H; [|vm_compute; reflexivity]; apply H; left; reflexivity|].
  split; [vm_compute; intros H; repeat (destruct H as [H|H]; [discriminate H|]); exact H|].
  exists None, (I "Self"), [I "Item"]. split; [left; reflexivity|]. split; [discriminate|reflexivity].
Qed.

(** Types without [Self], [self] and macros do not change; so the second visit
    of the item's own type, which the code makes, does nothing. *)
Theorem C38_unchanged : forall self t,
  (forall m ts, ~ In (NMacro m ts) (nodes_ty t)) ->
  (forall r, ~ In (NPath None false (I "Self" :: r)) (nodes_ty t)) ->
  (forall q lead, ~ In (NPath q lead [I "self"]) (nodes_ty t)) ->
  replace_ty self t = t.
Proof. exact c38_unchanged. Qed.
Print Assumptions C38_unchanged.
Theorem C38_own_type_unchanged : forall i g self,
  ~ named_self i -> (forall j, In j (param_idents (g_params g)) -> ~ named_self j) ->
  replace_ty self (tp_ty (own_type i g)) = tp_ty (own_type i g).
Proof. exact c38_own_unchanged. Qed.
Print Assumptions C38_own_type_unchanged.
Example C38_unchanged_example : ~ named_self (I "Foo") /\ forall j, In j (param_idents (g_params generics_ex)) -> ~ named_self j.
Proof.
  split; [intros [H|H]; discriminate|]. intros j [<-|[<-|[<-|[]]]] [H|H]; discriminate.
Qed.

(** The one place where the type cannot be spelled as the code does it: a
    qualified path as the value [Self]. *)
Theorem C38_qualified_value_refuted : exists U n f q p e, self_is U n f q p /\
  den_expr (mkEnv n f) (replace_expr (mkTypePath q p) e) <> den_expr (mkEnv n f) e.
Proof. exact c38_value_refuted. Qed.
Print Assumptions C38_qualified_value_refuted.

(** ** C45: the types in a projected type mean what the field types mean, in a
    reference, [Pin] or [PhantomData].  [n] and [f] belong to the item, [n'] and
    [f'] to the place of the projected type.  Every trait object has a lifetime
    bound, written or not.

    Missing: fields whose type has a trait object with no lifetime bound outside
    of references and arguments; there the claim is false, see below. *)
Theorem C45_struct_partial : forall s e a k,
  parse_derive (ItStruct s) = Ok e -> options (s_attrs s) a -> struct_has k a = true ->
  name (s_ident s) <> "Self" -> ~ In "Self" (map name (param_idents (g_params (s_generics s)))) ->
  exists pin v gg fs', pin_lifetime (s_generics s) pin /\ In (OStruct v (proj_name k a (s_ident s)) gg fs') (all_items e) /\
  forall U n n' f f',
    let self := tp_ty (own_type (s_ident s) (s_generics s)) in
    n "Self" = HDone (den_ty (U := U) (mkEnv n f) self) -> same_but pin f' f ->
    (forall fld, In fld (fields_list (s_fields s)) -> ~ bare_object (f_ty fld) /\
       well_written self (f_ty fld) /\ copied U pin n n' self (f_ty fld)) ->
    Forall2 (means_projected_objects U k (f' pin) (mkEnv n f) (mkEnv n' f')) (fields_list (s_fields s)) (fields_list fs').
Proof. exact c45_struct. Qed.
Print Assumptions C45_struct_partial.
Theorem C45_enum_partial : forall e x a k,
  parse_derive (ItEnum e) = Ok x -> options (e_attrs e) a -> enum_has k a = true ->
  name (e_ident e) <> "Self" -> ~ In "Self" (map name (param_idents (g_params (e_generics e)))) ->
  exists pin v gg vs', pin_lifetime (e_generics e) pin /\ In (OEnum v (proj_name k a (e_ident e)) gg vs') (all_items x) /\
  forall U n n' f f',
    let self := tp_ty (own_type (e_ident e) (e_generics e)) in
    n "Self" = HDone (den_ty (U := U) (mkEnv n f) self) -> same_but pin f' f ->
    (forall v fld, In v (e_variants e) -> In fld (fields_list (v_fields v)) -> ~ bare_object (f_ty fld) /\
       well_written self (f_ty fld) /\ copied U pin n n' self (f_ty fld)) ->
    Forall2 (fun v v' => v_ident v' = v_ident v /\
      Forall2 (means_projected_objects U k (f' pin) (mkEnv n f) (mkEnv n' f')) (fields_list (v_fields v)) (fields_list (v_fields v')))
      (e_variants e) vs'.
Proof. exact c45_enum. Qed.
Print Assumptions C45_enum_partial.
Example C45_objects_example : let s := objects_ex in let self := tp_ty (own_type (s_ident s) (s_generics s)) in
  (exists e, parse_derive (ItStruct s) = Ok e) /\ options (s_attrs s) (mkArgs false UDefault None None PRNone) /\
  foo_names "Self" = HDone (den_ty (U := terms) (mkEnv foo_names (fun l => l)) self) /\
  forall pin, pin_lifetime (s_generics s) pin -> forall fld, In fld (fields_list (s_fields s)) ->
    ~ bare_object (f_ty fld) /\ well_written self (f_ty fld) /\ copied terms pin foo_names foo_names' self (f_ty fld).
Proof.
  split; [eexists; vm_compute; reflexivity|]. split; [apply parse_args_iff; vm_compute; reflexivity|].
  split; [vm_compute; reflexivity|]. intros pin Hp fld Hin. apply foo_pin in Hp. subst pin.
  split; [apply objects_ex_not_bare; exact Hin|]. apply foo_fields. apply in_or_app. left. exact Hin.
Qed.

(** [struct Foo { x: dyn Tr }]: the field is [dyn Tr + 'static], the projected
    one [&'pin mut (dyn Tr + 'pin)]. *)
Theorem C45_bare_object_refuted : exists s e a pin v gg fs' U n n' f f',
  parse_derive (ItStruct s) = Ok e /\ options (s_attrs s) a /\ struct_has PMut a = true /\
  pin_lifetime (s_generics s) pin /\ In (OStruct v (proj_name PMut a (s_ident s)) gg fs') (all_items e) /\
  let self := tp_ty (own_type (s_ident s) (s_generics s)) in
  n "Self" = HDone (den_ty (U := U) (mkEnv n f) self) /\ same_but pin f' f /\
  (forall fld, In fld (fields_list (s_fields s)) -> well_written self (f_ty fld) /\ copied U pin n n' self (f_ty fld)) /\
  ~ Forall2 (means_projected_objects U PMut (f' pin) (mkEnv n f) (mkEnv n' f')) (fields_list (s_fields s)) (fields_list fs').
Proof. exact bare_object_differs. Qed.
Print Assumptions C45_bare_object_refuted.

(** All field types, when bounds of trait objects are taken as written. *)
Theorem C45_as_written_struct : forall s e a k,
  parse_derive (ItStruct s) = Ok e -> options (s_attrs s) a -> struct_has k a = true ->
  name (s_ident s) <> "Self" -> ~ In "Self" (map name (param_idents (g_params (s_generics s)))) ->
  exists pin v gg fs', pin_lifetime (s_generics s) pin /\ In (OStruct v (proj_name k a (s_ident s)) gg fs') (all_items e) /\
  forall U n n' f f',
    let self := tp_ty (own_type (s_ident s) (s_generics s)) in
    n "Self" = HDone (den_ty (U := U) (mkEnv n f) self) -> same_but pin f' f ->
    (forall fld, In fld (fields_list (s_fields s)) -> well_written self (f_ty fld) /\ copied U pin n n' self (f_ty fld)) ->
    Forall2 (means_projected U k (f' pin) (mkEnv n f) (mkEnv n' f')) (fields_list (s_fields s)) (fields_list fs').
Proof. exact c38_struct. Qed.
Print Assumptions C45_as_written_struct.
Theorem C45_as_written_enum : forall e x a k,
  parse_derive (ItEnum e) = Ok x -> options (e_attrs e) a -> enum_has k a = true ->
  name (e_ident e) <> "Self" -> ~ In "Self" (map name (param_idents (g_params (e_generics e)))) ->
  exists pin v gg vs', pin_lifetime (e_generics e) pin /\ In (OEnum v (proj_name k a (e_ident e)) gg vs') (all_items x) /\
  forall U n n' f f',
    let self := tp_ty (own_type (e_ident e) (e_generics e)) in
    n "Self" = HDone (den_ty (U := U) (mkEnv n f) self) -> same_but pin f' f ->
    (forall v fld, In v (e_variants e) -> In fld (fields_list (v_fields v)) ->
       well_written self (f_ty fld) /\ copied U pin n n' self (f_ty fld)) ->
    Forall2 (fun v v' => v_ident v' = v_ident v /\
      Forall2 (means_projected U k (f' pin) (mkEnv n f) (mkEnv n' f')) (fields_list (v_fields v)) (fields_list (v_fields v')))
      (e_variants e) vs'.
Proof. exact c38_enum. Qed.
Print Assumptions C45_as_written_enum.
Example C45_example : let s := struct_ex args_struct in let self := tp_ty (own_type (s_ident s) (s_generics s)) in
  (exists e, parse_derive (ItStruct s) = Ok e) /\ options (s_attrs s) opts_struct /\ struct_has PMut opts_struct = true /\
  names_ex "Self" = HDone (den_ty (U := terms) (mkEnv names_ex (fun l => l)) self) /\
  forall pin, pin_lifetime (s_generics s) pin -> forall fld, In fld (fields_list (s_fields s)) ->
    well_written self (f_ty fld) /\ copied terms pin names_ex names_ex' self (f_ty fld).
Proof.
  split; [eexists; vm_compute; reflexivity|]. split; [apply parse_args_iff; vm_compute; reflexivity|]. split; [reflexivity|].
  split; [apply names_ex_self|]. intros pin Hp fld Hin. apply pin_ex in Hp. subst pin.
  split; [apply fields_ex_written|apply fields_ex_copied]; exact Hin.
Qed.

(** ** C39: [ty] are the tokens of the type. *)
Theorem C39_respelled : forall ty ts out, ~ occurs (I "fn") ts -> (visit_macro ty ts = out <-> respelled ty ts out).
Proof. exact c39_respelled. Qed.
Print Assumptions C39_respelled.
Theorem C39_fn_unchanged : forall ty ts, occurs (I "fn") ts -> visit_macro ty ts = ts.
Proof. exact c39_fn. Qed.
Print Assumptions C39_fn_unchanged.
(** A path that starts at the current module is not the receiver; it is replaced
    all the same (finding F6): [self::f] becomes [__self::f]. *)
Theorem C39_module_path : exists ts, ~ occurs (I "fn") ts /\
  ts = [TIdent (I "self"); TPunct ":" true; TPunct ":" false; TIdent (I "f")] /\
  forall ty, visit_macro ty ts = [TIdent (I "__self"); TPunct ":" true; TPunct ":" false; TIdent (I "f")].
Proof.
  eexists. split; [|split; [reflexivity|]].
  - rewrite <- contains_fn_iff. vm_compute. discriminate.
  - intros ty. vm_compute. reflexivity.
Qed.
Print Assumptions C39_module_path.
(** [self.f(Self::N, [Self])] *)
Example C39_example : let ts := [TIdent (I "self"); TPunct "." false; TIdent (I "f");
    TGroup Paren [TIdent (I "Self"); TPunct ":" true; TPunct ":" false; TIdent (I "N"); TPunct "," false; TGroup Bracket [TIdent (I "Self")]]] in
  ~ occurs (I "fn") ts /\
  visit_macro [TIdent (I "Foo")] ts =
    [TIdent (I "__self"); TPunct "." false; TIdent (I "f");
     TGroup Paren [TPunct "<" false; TIdent (I "Foo"); TPunct ">" false; TPunct ":" true; TPunct ":" false; TIdent (I "N"); TPunct "," false;
       TGroup Bracket [TIdent (I "Foo")]]] /\
  visit_macro [TIdent (I "Foo")] (ts ++ [TGroup Brace [TIdent (I "fn")]]) = ts ++ [TGroup Brace [TIdent (I "fn")]].
Proof.
  cbn zeta. split; [|vm_compute; auto].
  rewrite <- contains_fn_iff. vm_compute. discriminate.
Qed.
