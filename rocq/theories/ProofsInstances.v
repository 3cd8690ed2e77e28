(** Which instances the generated impls are for. *)
From Coq Require Import String Ascii List Bool.
From Verif Require Import Base Syntax SyntaxInd ModelArgs ModelUtils ModelDerive ModelMeaning ModelTraits
  SpecArgs SpecDerive SpecLifetime SpecExpand SpecRun SpecMeaning SpecTraits SpecInstances
  ProofsArgs ProofsUtils ProofsDerive ProofsExpand ProofsTypes ProofsRun ProofsMeaning ProofsTraitsForm ProofsTraitsEnv
  ProofsTraits ProofsTraitsMain ProofsTraitsProps.
Import ListNotations.
Open Scope string_scope.
Open Scope list_scope.

Section Instances.
  Variable se : setting.
  Variable a : args.
  Hypothesis Ha : options (attrs_of (se_item se)) a.
  Hypothesis Hr : rust se.
  Hypothesis Hl : legal se.
  Hypothesis Hu : uncaptured se.

  Notation g := (generics_of (se_item se)).
  Notation gs := (spelled (name_of (se_item se)) g).
  Record plain (im : impl) : Prop := {
    pl_self : i_self im = self_ty se;
    pl_params : g_params (i_generics im) = g_params (plain_generics gs);
    pl_where : where_of (i_generics im) = where_of (plain_generics gs)
  }.
  Lemma plain_is im holds s l : plain im -> is_for se im holds (item_at se s l) s l <-> where_holds se holds s l.
  Proof.
    intros [Hs Hp Hw]. form' se Ha Hr.
    rewrite <- (plain_sat se Hr pin Hpin Hl (un_visible _ Hu) Hu holds false None [] s l s l eq_refl).
    assert (E1 : header_env se (inner_env se) (i_generics im) s l = header_env se (inner_env se) (plain_generics gs) s l)
      by (unfold header_env; rewrite Hp; reflexivity).
    assert (E2 : impl_env se (inner_env se) im s l =
                 impl_env se (inner_env se) (mkImpl false (plain_generics gs) None (self_ty se) []) s l)
      by (unfold impl_env; cbn [i_generics i_self]; rewrite E1, Hs, Hp; reflexivity).
    assert (E3 : all_preds (i_generics im) = all_preds (plain_generics gs))
      by (unfold all_preds; rewrite Hp, Hw; reflexivity).
    unfold is_for, generics_sat. rewrite E1, E2, E3, Hs.
    rewrite (header_den se Hr (un_visible _ Hu) _ s l (fits_plain se) (lts_plain_sub se)). tauto.
  Qed.
  Lemma plain_header im s l : plain im -> den_ty (header_env se (inner_env se) (i_generics im) s l) (i_self im) = item_at se s l.
  Proof.
    intros [Hs Hp Hw]. unfold header_env. rewrite Hp, Hs.
    exact (header_den se Hr (un_visible _ Hu) _ s l (fits_plain se) (lts_plain_sub se)).
  Qed.
  Lemma all_plain im : In (OImpl im) (all_items (se_exp se)) -> for_every_instance im -> plain im.
  Proof.
    intros Hin [Hn|Ht].
    - assert (X : exists lt ks, projection_impl ks lt a (name_of (se_item se)) g im).
      { assert (Hi : In im (inherent_impls (all_items (se_exp se)))).
        { unfold inherent_impls. apply in_flat_map. exists (OImpl im). split; [exact Hin|]. rewrite Hn. left. reflexivity. }
        pose proof (ru_derive _ Hr) as Hd. pose proof (ru_ordered _ Hr) as Hord. unfold item_params in Hord. revert Ha Hd Hord.
        destruct (se_item se) as [s|e|]; cbn [attrs_of generics_of name_of]; intros Ho Hd Hord; [| |discriminate].
        - destruct (c10_impl_struct s _ a Hd Ho Hord) as (im' & lt & E & _ & Hp). rewrite E in Hi. destruct Hi as [<-|[]]. eauto.
        - destruct (c10_impl_enum e _ a Hd Ho Hord) as (im' & lt & E & _ & Hp). rewrite E in Hi. destruct Hi as [<-|[]]. eauto. }
      destruct X as (lt & ks & X). constructor.
      + exact (pi_self _ _ _ _ _ _ X).
      + exact (pi_params _ _ _ _ _ _ X).
      + exact (pi_preds _ _ _ _ _ _ X).
    - form' se Ha Hr.
      assert (Hs : In (OImpl im) (scoped (se_exp se))).
      { unfold all_items in Hin. apply in_app_or in Hin. destruct Hin as [Hin|Hin]; [|exact Hin]. exfalso.
        pose proof (ru_derive _ Hr) as Hd. revert Ha Hd Hin. clear.
        destruct (se_item se) as [s|e|]; cbn [attrs_of]; intros Ho Hd Hin; [| |discriminate].
        - destruct (struct_form _ _ _ Hd Ho) as [_ E]. rewrite E in Hin. unfold struct_out in Hin. cbn [exposed] in Hin.
          change (cx_args (struct_cx a (spelled_struct s))) with a in Hin.
          revert Hin. cases_options a; cbn [ar_project ar_project_ref ar_project_replace is_some pr_span pr_ident negb andb when In app];
            unfold struct_mut, struct_ref, struct_own; intuition discriminate.
        - destruct (enum_form _ _ _ Hd Ho) as [_ E]. rewrite E in Hin. unfold enum_out in Hin. cbn [exposed] in Hin.
          change (cx_args (enum_cx a (spelled_enum e))) with a in Hin.
          revert Hin. cases_options a; cbn [ar_project ar_project_ref ar_project_replace is_some pr_span pr_ident negb andb when In app];
            unfold enum_mut, enum_ref, enum_own; intuition discriminate. }
      assert (Hg : In (inner_env se, im) (generated_impls se)).
      { unfold generated_impls, impls_of. apply in_flat_map. exists (OImpl im). split; [exact Hs|]. left. reflexivity. }
      rewrite (gen_impls_eq se a pin v front Hform) in Hg. apply in_app_or in Hg. destruct Hg as [Hg|Hg].
      + apply (front_inherent se front Hfront) in Hg. destruct Hg as [_ Hg]. rewrite Hg in Ht. destruct Ht; discriminate.
      + apply in_map_iff in Hg. destruct Hg as (im' & E & Hg). injection E as ->.
        unfold trait_impls in Hg. destruct Hg as [<-|Hg]; [destruct Ht; discriminate|]. apply in_app_or in Hg. destruct Hg as [Hg|Hg].
        * destruct (ar_unpin a); destruct Hg as [<-|[]] || destruct Hg; destruct Ht; discriminate.
        * destruct (ar_pinned_drop a).
          -- destruct Hg as [<-|[]]. constructor; reflexivity.
          -- destruct Hg as [<-|[<-|[<-|[]]]]; [destruct Ht; discriminate|destruct Ht; discriminate|constructor; reflexivity].
  Qed.
  Lemma c65_every im : In (OImpl im) (all_items (se_exp se)) -> for_every_instance im -> unspecialised se im.
  Proof. intros Hin Hf holds s l H. exists s, l. apply (plain_is im holds s l (all_plain im Hin Hf)). exact H. Qed.
  Lemma c65_only im : In (OImpl im) (all_items (se_exp se)) -> for_every_instance im -> no_more_general se im.
  Proof.
    intros Hin Hf holds s' l' t H. exists s', l'. pose proof (all_plain im Hin Hf) as Hp.
    assert (E : t = item_at se s' l') by (destruct H as [<- _]; apply plain_header; exact Hp).
    subst t. split; [reflexivity|]. apply (plain_is im holds s' l' Hp). exact H.
  Qed.
End Instances.

Lemma impl_at l n t : match nth_error l n with Some (OImpl im) => i_trait im = t | _ => False end ->
  exists im, In (OImpl im) l /\ i_trait im = t.
Proof.
  destruct (nth_error l n) as [o|] eqn:E; [|intros []]. intros H. destruct o; try contradiction.
  eexists. split; [|exact H]. exact (nth_error_In l n E).
Qed.
