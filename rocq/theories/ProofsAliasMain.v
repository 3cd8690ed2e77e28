(** The aliasing rules: what callers see. *)
From Coq Require Import String Ascii List Bool Arith Lia.
From Verif Require Import Base Syntax ModelArgs ModelUtils ModelDerive ModelRun ModelAlias.
From Verif Require Import SpecArgs SpecDerive SpecExpand SpecRun SpecAlias.
From Verif Require Import ProofsArgs ProofsUtils ProofsDerive ProofsExpand ProofsTypes ProofsRun ProofsRunProj ProofsRunReplace.
From Verif Require Import ProofsRunDrop ProofsAlias ProofsAliasRun ProofsAliasCall.
Import ListNotations.
Open Scope string_scope.
Open Scope list_scope.

(** ** Calls, seen from outside *)
Definition inner (b : bool) (n : nat) : memory := fun _ => [mkEntry n (kperm b) true].
Definition rest_of (b : bool) (t : nat) (mem : memory) (l : loc) : stack :=
  match access b t (mem l) with Some s => s | None => [] end.
Definition outer (b : bool) (t n : nat) (m' mem : memory) : memory :=
  fun l => map (release n) (m' l ++ rest_of b t mem l).

Lemma inner_fresh b n : fresh (S n) (inner b n).
Proof. intros l x [<-|[]]. cbn. lia. Qed.
Lemma inner_top b n : top (kperm b) n PlSelf (inner b n).
Proof. intros l _. exists true, []. reflexivity. Qed.
Lemma rest_tags b t n mem l : fresh n mem -> Forall (fun e => en_tag e < n) (rest_of b t mem l).
Proof.
  intros Hf. unfold rest_of. destruct (access b t (mem l)) as [s|] eqn:E; [|constructor].
  apply Forall_forall. intros x Hx. destruct (access_tags _ _ _ _ x E Hx) as (y & Hy & <-). apply (Hf l y Hy).
Qed.
Lemma usable_tag b t n mem : fresh n mem -> usable b t mem -> t < n.
Proof.
  intros Hf Hu. specialize (Hu LRest). unfold access in Hu.
  destruct (granting b t (mem LRest)) as [[[x g] y]|] eqn:E; [|elim Hu; reflexivity].
  apply granting_split in E. destruct E as (E & Hg & _). unfold grants in Hg. apply andb_true_iff in Hg.
  destruct Hg as [Hg _]. apply Nat.eqb_eq in Hg. rewrite <- Hg. apply (Hf LRest g). rewrite E. apply in_or_app. right. left. reflexivity.
Qed.

Lemma call_outer b t n mem a' m' : fresh n mem -> usable b t mem ->
  go b (mkA (S n) [ORetag (ref_kind b) true PlSelf t n]) a' (inner b n) m' ->
  runs (a_ops a' ++ [ORelease n]) mem (outer b t n m' mem) /\ fresh (a_next a') (outer b t n m' mem) /\ n <= a_next a' /\
  (forall r, releases (a_ops a' ++ [ORelease n]) r -> n <= r) /\
  forall l, exists x s1, access b t (mem l) = Some s1 /\ outer b t n m' mem l = (x ++ [mkEntry n (kperm b) false]) ++ s1 /\
    Forall (new_entry b (S n)) x.
Proof.
  intros Hf Hu [(os & E & R & L) X N F _]. cbn [a_ops a_next] in *. split; [|split; [|split; [lia|split]]].
  - rewrite E. cbn [app]. intros l. cbn [steps step]. rewrite covers_self.
    destruct (access b t (mem l)) as [s1|] eqn:Ea; [|elim (Hu l Ea)].
    assert (retag (ref_kind b) true t n (mem l) = Some ([mkEntry n (kperm b) true] ++ s1)) as ->.
    { destruct b; cbn [ref_kind retag]; rewrite Ea; reflexivity. }
    rewrite steps_app. pose proof (R l) as Rl. unfold inner in Rl.
    rewrite (steps_frame l os _ s1 (m' l) Rl).
    + cbn [steps step]. unfold outer, rest_of. rewrite Ea. reflexivity.
    + intros u x Hr Hx. specialize (L u Hr). destruct (access_tags _ _ _ _ x Ea Hx) as (y & Hy & <-). pose proof (Hf l y Hy). lia.
  - intros l x Hx. unfold outer in Hx. apply in_map_iff in Hx. destruct Hx as (y & <- & Hy).
    assert (en_tag (release n y) = en_tag y) as -> by (unfold release; destruct (Nat.eqb _ _); reflexivity).
    apply in_app_or in Hy. destruct Hy as [Hy|Hy]; [apply (F l y Hy)|].
    pose proof (rest_tags b t n mem l Hf) as H. rewrite Forall_forall in H. specialize (H y Hy). lia.
  - intros r Hr. rewrite E in Hr. apply in_app_or in Hr. destruct Hr as [Hr|[Hr|[]]]; [|injection Hr; lia].
    destruct Hr as [Hr|Hr]; [discriminate|]. specialize (L r Hr). lia.
  - intros l. destruct (access b t (mem l)) as [s1|] eqn:Ea; [|elim (Hu l Ea)].
    destruct (X l) as (x & Ex & Hx). exists x, s1. split; [reflexivity|]. split; [|exact Hx].
    unfold outer, rest_of. rewrite Ea, Ex, !map_app.
    assert (map (release n) x = x) as ->.
    { apply release_other. eapply Forall_impl; [|exact Hx]. intros e (H & _ & _). lia. }
    assert (map (release n) s1 = s1) as ->.
    { apply release_other. apply Forall_forall. intros e He. destruct (access_tags _ _ _ _ e Ea He) as (y & Hy & <-).
      pose proof (Hf l y Hy). lia. }
    unfold inner. cbn [map]. unfold release. cbn [en_tag en_perm]. rewrite Nat.eqb_refl. reflexivity.
Qed.
Lemma new_unprot b lo x : Forall (new_entry b lo) x -> existsb en_prot x = false.
Proof. intros H. induction H as [|e x (_ & He & _) H IH]; cbn [existsb]; [reflexivity|]. rewrite He, IH. reflexivity. Qed.
(** Afterwards the caller's pointer gives the same access as before. *)
Lemma outer_write t n (mem m' : memory) : t < n -> (forall l, exists x s1, access true t (mem l) = Some s1 /\
    m' l = (x ++ [mkEntry n Unique false]) ++ s1 /\ Forall (new_entry true (S n)) x) ->
  forall l, access true t (m' l) = access true t (mem l).
Proof.
  intros Ht H l. destruct (H l) as (x & s1 & E & -> & Hx). rewrite E. apply (access_write_new t (mem l)); auto.
  - apply Forall_app. split; [|constructor; [cbn; lia|constructor]]. eapply Forall_impl; [|exact Hx]. intros e (H1 & _ & _). lia.
  - rewrite existsb_app, (new_unprot _ _ _ Hx). reflexivity.
Qed.
Lemma top_outer b t n m' mem q c p : top q c p m' -> top q c p (outer b t n m' mem).
Proof.
  intros H l Hl. destruct (H l Hl) as (pr & r & E). unfold outer. rewrite E. cbn [app map]. unfold release at 1. cbn [en_tag en_perm en_prot].
  destruct (Nat.eqb c n); eauto.
Qed.

(** ** The pointers that are returned *)
Lemma forget_refs b self fs m vs : Forall2 (is_ref b m) (enum_from 0 (fields_list (replace_fields self fs))) vs ->
  map (fun x => (fst x, forget (snd x))) vs = map (fun x => (fst x, Some (snd x))) (references b fs).
Proof.
  rewrite <- (ref_val_references b self fs). rewrite map_map. intros H.
  induction H as [|nf x l vs (H1 & c & _ & H2) H IH]; cbn [map]; [reflexivity|]. rewrite IH. f_equal.
  rewrite H1, H2. unfold ref_val. cbn [fst snd]. destruct (pin_b (snd nf)), b; reflexivity.
Qed.
Lemma through_runs b m m2 nl vs os : Forall2 (is_ref b m) nl vs -> Forall (through b vs) os ->
  (forall c p, top (kperm b) c p m -> top (kperm b) c p m2) -> runs os m2 m2.
Proof.
  intros HF H Ht. induction H as [|o os Ho H IH]; [apply runs_nil|].
  change (o :: os) with ([o] ++ os). eapply runs_app; [|exact IH].
  destruct Ho as (x & p & t & w & Hin & Htg & Hw & ->). intros l. cbn [steps step].
  destruct (covers p l) eqn:El; [|reflexivity].
  assert (settled w t p m2) as Hs.
  { apply (top_settled (kperm b)).
    - destruct b; [destruct w; reflexivity|]. destruct w; [specialize (Hw eq_refl); discriminate|reflexivity].
    - apply Ht. clear - HF Hin Htg. induction HF as [|nf y nl vs (_ & c & Hc & Hy) HF IH]; [destruct Hin|].
      destruct Hin as [->|Hin]; [|apply IH; exact Hin]. rewrite Hy in Htg.
      destruct (pin_b (snd nf)); cbn [target] in Htg; injection Htg as <- <-; exact Hc. }
  rewrite (Hs l El). reflexivity.
Qed.
Lemma readable_refs m m2 nl vs : Forall2 (is_ref false m) nl vs -> (forall c p, top SharedRO c p m -> top SharedRO c p m2) ->
  forall x p t, In x vs -> target (snd x) = Some (p, t) -> readable t p m2.
Proof.
  intros HF Ht x p t Hin Htg. apply (top_settled SharedRO false); [reflexivity|]. apply Ht.
  induction HF as [|nf y nl vs (_ & c & Hc & Hy) HF IH]; [destruct Hin|].
  destruct Hin as [->|Hin]; [|apply IH; exact Hin]. rewrite Hy in Htg.
  destruct (pin_b (snd nf)); cbn [target] in Htg; injection Htg as <- <-; exact Hc.
Qed.

(** ** The methods *)
Definition kbool (k : proj) : bool := match k with PRef => false | _ => true end.
Lemma alias_project_go w a k u vp fs uses t n : k <> POwn -> program w a -> has_proj k (w_item w) a = true ->
  value_of (w_item w) u vp fs ->
  exists vs a' m' self, alias_project w (u_var u) uses (mname k) (kbool k) t n = Some (AvProj vs, a_ops a' ++ [ORelease n], a_next a') /\
    go (kbool k) (mkA (S n) [ORetag (ref_kind (kbool k)) true PlSelf t n]) a' (inner (kbool k) n) m' /\
    Forall2 (is_ref (kbool k) m') (enum_from 0 (fields_list (replace_fields self fs))) vs.
Proof.
  intros Hk Hp Hh Hv. remember (w_item w) as it eqn:Eit. symmetry in Eit. destruct Hv as [s ids H|e v ids Hin H]; cbn [u_var].
  - unfold alias_project. rewrite (struct_method w a s k Hp Eit Hh).
    destruct (alias_body_struct w a s (kbool k) n [ORetag (ref_kind (kbool k)) true PlSelf t n] (inner (kbool k) n) uses
                (match k with PRef => cx_ref_ident (struct_cx a (spelled_struct s)) | _ => cx_mut_ident (struct_cx a (spelled_struct s)) end)
                Hp Eit (inner_fresh _ n) (inner_top _ n)) as (vs & a' & m' & E & G & R).
    exists vs, a', m', (self_type (s_ident s) (s_generics s)). split; [|split; [exact G|exact R]].
    unfold alias_method. destruct k; [| |elim Hk; reflexivity]; cbn [kbool getter] in E;
      cbn [kmethod method_project method_project_ref m_params m_body map rev app struct_kbody kbool]; rewrite E; reflexivity.
  - unfold alias_project. rewrite (enum_method w a e k Hp Eit Hh).
    destruct (alias_body_enum w a e v (kbool k) n [ORetag (ref_kind (kbool k)) true PlSelf t n] (inner (kbool k) n) uses
                (match k with PRef => cx_ref_ident (enum_cx a (spelled_enum e)) | _ => cx_mut_ident (enum_cx a (spelled_enum e)) end)
                Hp Eit Hin (inner_fresh _ n) (inner_top _ n)) as (vs & a' & m' & E & G & R).
    exists vs, a', m', (self_type (e_ident e) (e_generics e)). split; [|split; [exact G|exact R]].
    unfold alias_method. destruct k; [| |elim Hk; reflexivity]; cbn [kbool getter] in E;
      cbn [kmethod method_project method_project_ref m_params m_body map rev app enum_kbody kbool]; rewrite E; reflexivity.
Qed.

Lemma c63_project w a u vp fs uses t n mem :
  program w a -> has_proj PMut (w_item w) a = true -> value_of (w_item w) u vp fs -> usable true t mem -> fresh n mem ->
  exists ptrs ops n' mem',
    alias_project w (u_var u) uses "project" true t n = Some (AvProj ptrs, ops, n') /\
    map (fun x => (fst x, forget (snd x))) ptrs = map (fun x => (fst x, Some (snd x))) (references true fs) /\
    runs ops mem mem' /\ n <= n' /\ fresh n' mem' /\
    (forall os, Forall (through true ptrs) os -> runs os mem' mem') /\
    (forall l, access true t (mem' l) = access true t (mem l)).
Proof.
  intros Hp Hh Hv Hu Hf.
  destruct (alias_project_go w a PMut u vp fs uses t n ltac:(discriminate) Hp Hh Hv) as (vs & a' & m' & self & E & G & R).
  destruct (call_outer true t n mem a' m' Hf Hu G) as (H1 & H2 & H3 & Hrel & H4).
  exists vs, (a_ops a' ++ [ORelease n]), (a_next a'), (outer true t n m' mem).
  split; [exact E|]. split; [exact (forget_refs true self fs m' vs R)|]. split; [exact H1|]. split; [exact H3|]. split; [exact H2|]. split.
  - intros os Hos. eapply through_runs; [exact R|exact Hos|]. intros c p. apply top_outer.
  - apply (outer_write t n mem); [exact (usable_tag true t n mem Hf Hu)|exact H4].
Qed.

Lemma read_again t s s1 : access false t s = Some s1 -> access false t s1 = Some s1.
Proof.
  unfold access. destruct (granting false t s) as [[[u g] v]|] eqn:Eg; [|discriminate].
  destruct (existsb (fun x => is_unique x && en_prot x) u) eqn:Eu; [discriminate|]. intros H. injection H as <-.
  apply granting_split in Eg. destruct Eg as (_ & Hg & Hu).
  rewrite granting_found; [|exact Hg|].
  - assert (existsb (fun x => is_unique x && en_prot x) (map disable u) = false) as ->.
    { clear. induction u as [|e u IH]; cbn [map existsb]; [reflexivity|]. rewrite IH, orb_false_r. destruct e as [? [] ?]; reflexivity. }
    rewrite map_map. assert (map (fun x => disable (disable x)) u = map disable u) as -> by (apply map_ext; exact disable_twice). reflexivity.
  - apply Forall_map. eapply Forall_impl; [|exact Hu]. intros e He. apply disable_grants. exact He.
Qed.
Lemma read_below t s x : access false t s = Some s -> Forall (fun e => en_tag e <> t /\ en_perm e = SharedRO) x ->
  access false t (x ++ s) = Some (x ++ s).
Proof.
  unfold access. destruct (granting false t s) as [[[u g] v]|] eqn:Eg; [|discriminate].
  destruct (existsb (fun x => is_unique x && en_prot x) u) eqn:Eu; [discriminate|]. intros H Hx.
  apply granting_split in Eg. destruct Eg as (Es & Hg & Hu). rewrite Es at 1. rewrite app_assoc.
  rewrite granting_found; [|exact Hg|].
  - rewrite existsb_app, Eu, orb_false_r.
    assert (existsb (fun x => is_unique x && en_prot x) x = false) as ->.
    { clear - Hx. induction Hx as [|[e q pr] x (_ & He) Hx IH]; cbn [existsb]; [reflexivity|]. cbn in He. subst q. exact IH. }
    rewrite map_app, <- app_assoc.
    assert (map disable x = x) as ->.
    { clear - Hx. induction Hx as [|[e q pr] x (_ & He) Hx IH]; cbn [map]; [reflexivity|]. cbn in He. subst q. rewrite IH. reflexivity. }
    injection H as H. rewrite H. reflexivity.
  - apply Forall_app. split; [|exact Hu]. eapply Forall_impl; [|exact Hx]. intros e (He & _). apply grants_tag. exact He.
Qed.
Lemma access_low b t n s : Forall (fun e => en_tag e < n) s -> access b t s <> None -> t < n.
Proof.
  intros Hf Hu. unfold access in Hu.
  destruct (granting b t s) as [[[x g] y]|] eqn:E; [|elim Hu; reflexivity].
  apply granting_split in E. destruct E as (E & Hg & _). unfold grants in Hg. apply andb_true_iff in Hg.
  destruct Hg as [Hg _]. apply Nat.eqb_eq in Hg. rewrite <- Hg. rewrite Forall_forall in Hf. apply Hf. rewrite E. apply in_or_app. right. left. reflexivity.
Qed.

Lemma shared_new t n x : t < n -> Forall (new_entry false (S n)) x ->
  Forall (fun e => en_tag e <> t /\ en_perm e = SharedRO) (x ++ [mkEntry n SharedRO false]).
Proof.
  intros Ht Hx. apply Forall_app. split; [|constructor; [cbn; split; [lia|reflexivity]|constructor]].
  eapply Forall_impl; [|exact Hx]. intros e (H1 & _ & H3). split; [lia|auto].
Qed.
(** What lies above is popped, whatever it is. *)
Lemma write_above t s s1 new x : access true t s = Some s1 -> is_raw x = false ->
  Forall (fun e => en_tag e <> t) (new ++ [x]) -> existsb en_prot (new ++ [x]) = false ->
  access true t ((new ++ [x]) ++ s) = Some s1.
Proof.
  intros H Hx Ht Hp. apply access_write_form in H.
  destruct H as (gone & kept & g & below & -> & -> & Hg & H1 & H2 & H3 & H4 & H5 & H6).
  rewrite app_assoc. apply (access_write_of t ((new ++ [x]) ++ gone) kept g below); auto.
  - apply Forall_app. split; [|exact H1]. eapply Forall_impl; [|exact Ht]. intros e He. apply grants_tag. exact He.
  - rewrite existsb_app, Hp, H3. reflexivity.
  - intros Hr. specialize (H6 Hr). destruct gone as [|y gone].
    + rewrite app_nil_r. apply split_raw_new; [exact Hx|exact H4].
    + clear - H6. induction (new ++ [x]) as [|z l IH]; [exact H6|]. cbn [app split_raw]. cbn [app] in IH. rewrite IH.
      destruct l; reflexivity.
Qed.
Lemma write_below t n s s2 x : t < n -> access true t s = Some s2 -> Forall (new_entry false (S n)) x ->
  access true t ((x ++ [mkEntry n SharedRO false]) ++ s) = Some s2.
Proof.
  intros Ht H Hx. apply write_above; auto.
  - eapply Forall_impl; [|exact (shared_new t n x Ht Hx)]. intros e (He & _). exact He.
  - rewrite existsb_app, (new_unprot _ _ _ Hx). reflexivity.
Qed.

Lemma c63_project_ref w a u vp fs uses t n mem :
  program w a -> has_proj PRef (w_item w) a = true -> value_of (w_item w) u vp fs -> usable false t mem -> fresh n mem ->
  exists ptrs ops n' mem',
    alias_project w (u_var u) uses "project_ref" false t n = Some (AvProj ptrs, ops, n') /\
    map (fun x => (fst x, forget (snd x))) ptrs = map (fun x => (fst x, Some (snd x))) (references false fs) /\
    runs ops mem mem' /\ n <= n' /\ fresh n' mem' /\
    (forall x p c, In x ptrs -> target (snd x) = Some (p, c) -> readable c p mem') /\
    readable t PlSelf mem' /\
    (readable t PlSelf mem -> forall r p, readable r p mem -> readable r p mem') /\
    (usable true t mem -> forall l, access true t (mem' l) = access true t (mem l)).
Proof.
  intros Hp Hh Hv Hu Hf.
  destruct (alias_project_go w a PRef u vp fs uses t n ltac:(discriminate) Hp Hh Hv) as (vs & a' & m' & self & E & G & R).
  destruct (call_outer false t n mem a' m' Hf Hu G) as (H1 & H2 & H3 & Hrel & H4).
  pose proof (usable_tag false t n mem Hf Hu) as Ht.
  exists vs, (a_ops a' ++ [ORelease n]), (a_next a'), (outer false t n m' mem).
  split; [exact E|]. split; [exact (forget_refs false self fs m' vs R)|]. split; [exact H1|]. split; [exact H3|]. split; [exact H2|].
  split; [|split; [|split]].
  - eapply readable_refs; [exact R|]. intros c p. apply top_outer.
  - intros l _. destruct (H4 l) as (x & s1 & Ea & -> & Hx).
    apply read_below; [exact (read_again _ _ _ Ea)|]. apply shared_new with (n := n); [exact Ht|exact Hx].
  - intros Hrt r p Hr l Hl. destruct (H4 l) as (x & s1 & Ea & -> & Hx).
    rewrite (Hrt l (covers_self l)) in Ea. injection Ea as <-. apply read_below; [exact (Hr l Hl)|].
    apply shared_new with (n := n); [|exact Hx]. apply (access_low false r n (mem l)).
    + apply Forall_forall. exact (Hf l).
    + rewrite (Hr l Hl). discriminate.
  - intros Hw l. destruct (H4 l) as (x & s1 & Ea & E1 & Hx). rewrite E1.
    destruct (access true t (mem l)) as [s2|] eqn:Ew; [|elim (Hw l Ew)].
    apply (write_below t n s1 s2 x); auto. exact (read_then_write _ _ _ _ Ew Ea).
Qed.

Lemma alias_replace_go w a u vp fs uses t n : program w a -> has_proj POwn (w_item w) a = true ->
  value_of (w_item w) u vp fs -> replaceable fs ->
  exists vs a' self, alias_project w (u_var u) uses "project_replace" true t n = Some (AvProj vs, a_ops a' ++ [ORelease n], a_next a') /\
    go true (mkA (S n) [ORetag PkMut true PlSelf t n]) a' (inner true n) (rep_mem n (inner true n)) /\
    Forall2 is_owned (enum_from 0 (fields_list (replace_fields self fs))) vs.
Proof.
  intros Hp Hh Hv Hre. remember (w_item w) as it eqn:Eit. symmetry in Eit.
  change "project_replace" with (mname POwn). destruct Hv as [s ids H|e v ids Hin H]; cbn [u_var].
  - unfold alias_project. rewrite (struct_method w a s POwn Hp Eit Hh).
    destruct (alias_replace_struct w a s n [ORetag PkMut true PlSelf t n] (inner true n) uses
                (cx_own_ident (struct_cx a (spelled_struct s)))
                Hp Eit Hre (inner_fresh _ n) (inner_top true n)) as (vs & a' & E & G & R).
    exists vs, a', (self_type (s_ident s) (s_generics s)). split; [|split; [exact G|exact R]].
    unfold alias_method. cbn [kmethod method_project_replace m_params m_body map rev app struct_kbody ref_kind]. unfold rep_start in E.
    cbn [fst]. rewrite E. reflexivity.
  - unfold alias_project. rewrite (enum_method w a e POwn Hp Eit Hh).
    destruct (alias_replace_enum w a e v n [ORetag PkMut true PlSelf t n] (inner true n) uses
                (cx_own_ident (enum_cx a (spelled_enum e)))
                Hp Eit Hin Hre (inner_fresh _ n) (inner_top true n)) as (vs & a' & E & G & R).
    exists vs, a', (self_type (e_ident e) (e_generics e)). split; [|split; [exact G|exact R]].
    unfold alias_method. cbn [kmethod method_project_replace m_params m_body map rev app enum_kbody ref_kind]. unfold rep_start in E.
    cbn [fst]. rewrite E. reflexivity.
Qed.
Lemma owned_names self fs vs : Forall2 is_owned (enum_from 0 (fields_list (replace_fields self fs))) vs ->
  vs = map (fun f => (f_ident f, AvOwned)) (fields_list fs).
Proof.
  intros H. rewrite fields_list_replace in H.
  revert H. generalize 0. revert vs. induction (fields_list fs) as [|f l IH]; intros vs k H; cbn [map enum_from] in *.
  - inversion H. reflexivity.
  - inversion H as [|? x ? r Hx Hr]; subst. rewrite (IH r (S k) Hr). f_equal. destruct x as [x1 x2]. destruct Hx as [H1 H2]. cbn [fst snd] in H1, H2. subst x1 x2.
    destruct f; reflexivity.
Qed.

Lemma c63_project_replace w a u vp fs uses t n mem :
  program w a -> has_proj POwn (w_item w) a = true -> value_of (w_item w) u vp fs -> replaceable fs ->
  usable true t mem -> fresh n mem ->
  exists ops n' mem',
    alias_project w (u_var u) uses "project_replace" true t n =
      Some (AvProj (map (fun f => (f_ident f, AvOwned)) (fields_list fs)), ops, n') /\
    runs ops mem mem' /\ n <= n' /\ fresh n' mem' /\
    (forall l, access true t (mem' l) = access true t (mem l)).
Proof.
  intros Hp Hh Hv Hre Hu Hf.
  destruct (alias_replace_go w a u vp fs uses t n Hp Hh Hv Hre) as (vs & a' & self & E & G & R).
  destruct (call_outer true t n mem a' _ Hf Hu G) as (H1 & H2 & H3 & Hrel & H4).
  rewrite (owned_names self fs vs R) in E.
  exists (a_ops a' ++ [ORelease n]), (a_next a'), (outer true t n (rep_mem n (inner true n)) mem).
  split; [exact E|]. split; [exact H1|]. split; [exact H3|]. split; [exact H2|].
  apply (outer_write t n mem); [exact (usable_tag true t n mem Hf Hu)|exact H4].
Qed.
Lemma c63_drop w a v uses t n mem :
  program w a -> usable true t mem -> fresh n mem ->
  exists ops n' mem',
    alias_destroy w v uses t n = Some (AvOwned, ops, n') /\
    runs ops mem mem' /\ n <= n' /\ fresh n' mem' /\
    (forall l, access true t (mem' l) = access true t (mem l)).
Proof.
  intros Hp Hu Hf. unfold alias_destroy. rewrite (program_drop w a Hp). destruct (ar_pinned_drop a).
  - destruct (alias_drop_body w a v uses n [ORetag PkMut true PlSelf t n] (inner true n) Hp (inner_fresh _ n) (inner_top true n))
      as (a' & m' & E & G).
    destruct (call_outer true t n mem a' m' Hf Hu G) as (H1 & H2 & H3 & Hrel & H4).
    exists (a_ops a' ++ [ORelease n]), (a_next a'), (outer true t n m' mem). split.
    + unfold alias_method. cbn [drop_method m_params m_body map rev app]. rewrite E. reflexivity.
    + split; [exact H1|]. split; [exact H3|]. split; [exact H2|].
      apply (outer_write t n mem); [exact (usable_tag true t n mem Hf Hu)|exact H4].
  - exists [], n, mem. split; [reflexivity|]. split; [apply runs_nil|]. auto.
Qed.

(** Once the caller's pointer is written through, the results are gone. *)
Lemma c63_stale w a u vp fs uses t n mem ptrs ops n' mem' m2 m3 x p c b :
  program w a -> has_proj PMut (w_item w) a = true -> value_of (w_item w) u vp fs -> usable true t mem -> fresh n mem ->
  alias_project w (u_var u) uses "project" true t n = Some (AvProj ptrs, ops, n') -> runs ops mem mem' ->
  runs [OUse true PlSelf t] mem' m2 ->
  In x ptrs -> target (snd x) = Some (p, c) -> ~ runs [OUse b p c] m2 m3.
Proof.
  intros Hp Hh Hv Hu Hf E R1 R2 Hin Htg R3.
  destruct (alias_project_go w a PMut u vp fs uses t n ltac:(discriminate) Hp Hh Hv) as (vs & a' & m' & self & E2 & G & R).
  change (mname PMut) with "project" in E2. cbn [kbool] in E2. rewrite E in E2. injection E2 as -> -> ->.
  destruct (call_outer true t n mem a' m' Hf Hu G) as (H1 & _ & _ & _ & H4).
  assert (Hm : forall l, mem' l = outer true t n m' mem l).
  { intros l. specialize (R1 l). specialize (H1 l). rewrite R1 in H1. injection H1. auto. }
  assert (Hx : exists l, covers p l = true /\ top Unique c p m').
  { clear - R Hin Htg. induction R as [|nf y nl vs (_ & d & Hd & Hy) R IH]; [destruct Hin|].
    destruct Hin as [->|Hin]; [|apply IH; exact Hin]. rewrite Hy in Htg. exists (LField (fst nf)).
    destruct (pin_b (snd nf)); cbn [target] in Htg; injection Htg as <- <-; (split; [cbn [covers]; apply Nat.eqb_refl|exact Hd]). }
  destruct Hx as (l & Hl & Ht). specialize (R2 l). specialize (R3 l). cbn [steps step] in R2, R3. rewrite covers_self in R2. rewrite Hl in R3.
  rewrite (outer_write t n mem mem') in R2; [|exact (usable_tag true t n mem Hf Hu)|intros k; rewrite (Hm k); exact (H4 k)].
  destruct (access true t (mem l)) as [s1|] eqn:Ea; [|discriminate]. injection R2 as R2. rewrite <- R2 in R3.
  assert (Hc : n <= c).
  { destruct (go_ext _ _ _ _ _ G l) as (y & Ey & Hy). destruct (Ht l Hl) as (pr & r & Er). rewrite Ey in Er. unfold inner in Er.
    destruct y as [|z y]; [injection Er; intros; lia|]. injection Er as Ez _. inversion Hy as [|? ? (Hz & _) _]; subst. cbn [en_tag a_next] in Hz. lia. }
  destruct (access b c s1) as [s2|] eqn:Eb; [|discriminate].
  assert (c < n); [|lia]. apply (access_low b c n s1).
  - apply Forall_forall. intros e He. destruct (access_tags _ _ _ _ e Ea He) as (y & Hy & <-). exact (Hf l y Hy).
  - rewrite Eb. discriminate.
Qed.

(** ** Sessions *)
Record fine (t n : nat) (ops : list op) (n' : nat) (mem mem' : memory) : Prop := {
  fn_runs : runs ops mem mem';
  fn_next : n <= n';
  fn_fresh : fresh n' mem';
  fn_same : forall l, access true t (mem' l) = access true t (mem l);
  fn_rel : forall r, releases ops r -> n <= r;
  fn_tags : forall l x, In x (mem' l) -> (exists y, In y (mem l) /\ en_tag y = en_tag x) \/ n <= en_tag x
}.
Lemma fine_refl t n mem : fresh n mem -> fine t n [] n mem mem.
Proof. intros H. constructor; auto; [apply runs_nil|intros r []|eauto]. Qed.
Lemma fine_trans t n ops n1 ops2 n2 m m1 m2 : fine t n ops n1 m m1 -> fine t n1 ops2 n2 m1 m2 -> fine t n (ops ++ ops2) n2 m m2.
Proof.
  intros [A1 A2 A3 A4 A5 A6] [B1 B2 B3 B4 B5 B6]. constructor; auto; [eapply runs_app; eassumption|lia| | |].
  - intros l. rewrite B4. apply A4.
  - intros r Hr. apply in_app_or in Hr. destruct Hr as [Hr|Hr]; [auto|]. specialize (B5 r Hr). lia.
  - intros l x Hx. destruct (B6 l x Hx) as [(y & Hy & <-)|H]; [|right; lia]. exact (A6 l y Hy).
Qed.
Lemma usable_same t (mem mem' : memory) : (forall l, access true t (mem' l) = access true t (mem l)) -> usable true t mem -> usable true t mem'.
Proof. intros H Hu l. rewrite H. apply Hu. Qed.
Lemma usable_read t mem : usable true t mem -> usable false t mem.
Proof. intros H l. apply write_usable_read. apply H. Qed.

Lemma fine_use b p t n mem : usable true t mem -> fresh n mem -> exists mem', fine t n [OUse b p t] n mem mem'.
Proof.
  intros Hu Hf.
  assert (H : forall l, access b t (mem l) <> None).
  { intros l. destruct b; [apply Hu|]. apply write_usable_read. apply Hu. }
  set (mem' := fun l => if covers p l then match access b t (mem l) with Some s => s | None => [] end else mem l).
  assert (T : forall l x, In x (mem' l) -> exists y, In y (mem l) /\ en_tag y = en_tag x).
  { intros l x Hx. unfold mem' in Hx. destruct (covers p l); [|eauto]. destruct (access b t (mem l)) as [s|] eqn:E; [|destruct Hx].
    exact (access_tags _ _ _ _ x E Hx). }
  exists mem'. constructor; [|lia| | | |].
  - intros l. cbn [steps step]. unfold mem'. destruct (covers p l); [|reflexivity].
    specialize (H l). destruct (access b t (mem l)); [reflexivity|]. elim H; reflexivity.
  - intros l x Hx. destruct (T l x Hx) as (y & Hy & <-). exact (Hf l y Hy).
  - intros l. unfold mem'. destruct (covers p l); [|reflexivity]. specialize (H l).
    destruct (access b t (mem l)) as [s|] eqn:E; [|elim H; reflexivity]. destruct b.
    + rewrite E. exact (access_write_idem _ _ _ E).
    + destruct (access true t (mem l)) as [s1|] eqn:E1; [|elim (Hu l E1)]. exact (read_then_write _ _ _ _ E1 E).
  - intros r [Hr|[]]. discriminate.
  - intros l x Hx. left. exact (T l x Hx).
Qed.
(** From a call. *)
Lemma fine_call t n ops n' mem mem' : fresh n mem -> usable true t mem -> runs ops mem mem' -> n <= n' -> fresh n' mem' ->
  (forall r, releases ops r -> n <= r) ->
  (forall l, exists x s1, access true t (mem l) = Some s1 /\ mem' l = (x ++ [mkEntry n Unique false]) ++ s1 /\ Forall (new_entry true (S n)) x) ->
  fine t n ops n' mem mem'.
Proof.
  intros Hf Hu H1 H2 H3 H4 H5. constructor; auto.
  - apply (outer_write t n mem); [exact (usable_tag true t n mem Hf Hu)|exact H5].
  - intros l x Hx. destruct (H5 l) as (y & s1 & Ea & Em & Hy). rewrite Em in Hx. apply in_app_or in Hx. destruct Hx as [Hx|Hx].
    + right. apply in_app_or in Hx. destruct Hx as [Hx|[<-|[]]]; [|cbn; lia]. rewrite Forall_forall in Hy. destruct (Hy x Hx). lia.
    + left. exact (access_tags _ _ _ _ x Ea Hx).
Qed.
Lemma fine_project w a u vp fs uses t n mem ptrs ops n' :
  program w a -> has_proj PMut (w_item w) a = true -> value_of (w_item w) u vp fs -> usable true t mem -> fresh n mem ->
  alias_project w (u_var u) uses "project" true t n = Some (AvProj ptrs, ops, n') ->
  exists mem', fine t n ops n' mem mem' /\ forall os, Forall (through true ptrs) os -> runs os mem' mem'.
Proof.
  intros Hp Hh Hv Hu Hf E2.
  destruct (alias_project_go w a PMut u vp fs uses t n ltac:(discriminate) Hp Hh Hv) as (vs & a' & m' & self & E & G & R).
  change (mname PMut) with "project" in E. cbn [kbool] in E. rewrite E2 in E. injection E as -> -> ->.
  destruct (call_outer true t n mem a' m' Hf Hu G) as (H1 & H2 & H3 & Hrel & H4).
  exists (outer true t n m' mem). split; [apply fine_call; auto|].
  intros os Hos. eapply through_runs; [exact R|exact Hos|]. intros c p. apply top_outer.
Qed.
Lemma fine_replace w a u vp fs uses t n mem r ops n' :
  program w a -> has_proj POwn (w_item w) a = true -> value_of (w_item w) u vp fs -> replaceable fs ->
  usable true t mem -> fresh n mem ->
  alias_project w (u_var u) uses "project_replace" true t n = Some (r, ops, n') ->
  exists mem', fine t n ops n' mem mem'.
Proof.
  intros Hp Hh Hv Hre Hu Hf E2.
  destruct (alias_replace_go w a u vp fs uses t n Hp Hh Hv Hre) as (vs & a' & self & E & G & R).
  rewrite E2 in E. injection E as -> -> ->.
  destruct (call_outer true t n mem a' _ Hf Hu G) as (H1 & H2 & H3 & Hrel & H4).
  exists (outer true t n (rep_mem n (inner true n)) mem). apply fine_call; auto.
Qed.
Lemma fine_drop w a v uses t n mem r ops n' :
  program w a -> usable true t mem -> fresh n mem -> alias_destroy w v uses t n = Some (r, ops, n') ->
  exists mem', fine t n ops n' mem mem'.
Proof.
  intros Hp Hu Hf. unfold alias_destroy. rewrite (program_drop w a Hp). destruct (ar_pinned_drop a).
  - destruct (alias_drop_body w a v uses n [ORetag PkMut true PlSelf t n] (inner true n) Hp (inner_fresh _ n) (inner_top true n))
      as (a' & m' & E & G).
    destruct (call_outer true t n mem a' m' Hf Hu G) as (H1 & H2 & H3 & Hrel & H4).
    unfold alias_method. cbn [drop_method m_params m_body map rev app]. rewrite E. intros E2. injection E2 as <- <- <-.
    exists (outer true t n m' mem). apply fine_call; auto.
  - intros E. injection E as <- <- <-. exists mem. apply fine_refl. exact Hf.
Qed.

(** Lending: what happens with the new pointer stays above the old ones. *)
Lemma fine_lend t n sub n1 mem mi : usable true t mem -> fresh n mem ->
  fine n (S n) sub n1 (fun _ => [mkEntry n Unique false]) mi ->
  exists mem', fine t n (ORetag PkMut false PlSelf t n :: sub) n1 mem mem'.
Proof.
  intros Hu Hf [A1 A2 A3 A4 A5 A6]. pose proof (usable_tag true t n mem Hf Hu) as Ht.
  exists (fun l => mi l ++ rest_of true t mem l).
  assert (Hmi : forall l x, In x (mi l) -> n <= en_tag x).
  { intros l x Hx. destruct (A6 l x Hx) as [(y & [<-|[]] & <-)|H]; cbn; lia. }
  constructor; [|lia| | | |].
  - intros l. cbn [steps step]. rewrite covers_self. cbn [retag]. unfold rest_of.
    destruct (access true t (mem l)) as [s1|] eqn:Ea; [|elim (Hu l Ea)]. cbn [option_map].
    apply (steps_frame l sub [mkEntry n Unique false] s1 (mi l) (A1 l)).
    intros u x Hr Hx. specialize (A5 u Hr). destruct (access_tags _ _ _ _ x Ea Hx) as (y & Hy & <-). pose proof (Hf l y Hy). lia.
  - intros l x Hx. apply in_app_or in Hx. destruct Hx as [Hx|Hx]; [exact (A3 l x Hx)|].
    pose proof (rest_tags true t n mem l Hf) as H. rewrite Forall_forall in H. specialize (H x Hx). lia.
  - intros l. unfold rest_of. destruct (access true t (mem l)) as [s1|] eqn:Ea; [|elim (Hu l Ea)].
    specialize (A4 l). assert (A4' : access true n (mi l) = Some [mkEntry n Unique false]).
    { rewrite A4. unfold access. cbn [granting]. unfold grants. cbn [en_tag en_perm]. rewrite Nat.eqb_refl. reflexivity. }
    apply access_write_form in A4'. destruct A4' as (gone & kept & g & below & Em & E1 & Hg & _ & _ & Hpr & _ & Hk & _).
    destruct kept as [|k kept]; [|injection E1 as _ E1; destruct kept; discriminate]. cbn [app] in E1, Em. injection E1 as <- <-.
    rewrite Em. apply (access_write_new t (mem l)); auto.
    + rewrite <- Em. apply Forall_forall. intros x Hx. specialize (Hmi l x Hx). lia.
    + rewrite existsb_app, Hpr. reflexivity.
  - intros r [Hr|Hr]; [discriminate|]. specialize (A5 r Hr). lia.
  - intros l x Hx. apply in_app_or in Hx. destruct Hx as [Hx|Hx]; [right; exact (Hmi l x Hx)|]. left.
    unfold rest_of in Hx. destruct (access true t (mem l)) as [s1|] eqn:Ea; [|destruct Hx]. exact (access_tags _ _ _ _ x Ea Hx).
Qed.

(** Shared pointers only add entries for shared pointers. *)
Definition added (n : nat) (e : entry) : Prop := n <= en_tag e /\ en_perm e = SharedRO /\ en_prot e = false.
Definition adds (n : nat) (mem mem' : memory) : Prop := forall l, exists x, mem' l = x ++ mem l /\ Forall (added n) x.
Lemma adds_trans n n1 m m1 m2 : n <= n1 -> adds n m m1 -> adds n1 m1 m2 -> adds n m m2.
Proof.
  intros Hn H1 H2 l. destruct (H1 l) as (x & Ex & Hx), (H2 l) as (y & Ey & Hy). exists (y ++ x). rewrite Ey, Ex, app_assoc. split; [reflexivity|].
  apply Forall_app. split; [|exact Hx]. eapply Forall_impl; [|exact Hy]. intros e (A & B & C). repeat split; auto. lia.
Qed.
Lemma adds_readable n mem mem' r p : fresh n mem -> adds n mem mem' -> readable r p mem -> readable r p mem'.
Proof.
  intros Hf Ha Hr l Hl. destruct (Ha l) as (x & -> & Hx). apply read_below; [exact (Hr l Hl)|].
  assert (r < n). { apply (access_low false r n (mem l)); [apply Forall_forall; exact (Hf l)|]. rewrite (Hr l Hl). discriminate. }
  eapply Forall_impl; [|exact Hx]. intros e (A & B & _). split; [lia|exact B].
Qed.
Lemma shared_session_fine w a uses v live n ops n' mem : program w a -> variant_of_item (w_item w) v ->
  shared_session w a uses v live n ops n' -> fresh n mem -> (forall p t, In (p, t) live -> readable t p mem) ->
  exists mem', runs ops mem mem' /\ n <= n' /\ fresh n' mem' /\ adds n mem mem' /\ (forall r, releases ops r -> n <= r).
Proof.
  intros Hp Hv Hs. revert mem. induction Hs as [live n|live n p q t rest n' Hin Hq Hs IH|live n p t rest n' Hin Hs IH
                                              |live n t ptrs ops n1 rest n' Hin Hh E Hs IH]; intros mem Hf Hl.
  - exists mem. split; [apply runs_nil|]. split; [lia|]. split; [exact Hf|]. split; [intros l; exists []; auto|intros r []].
  - destruct (IH mem Hf Hl) as (m1 & R1 & N1 & F1 & A1 & L1). exists m1. split; [|split; [exact N1|split; [exact F1|split; [exact A1|]]]].
    + intros l. cbn [steps step]. destruct (covers q l) eqn:Eq; [|exact (R1 l)].
      rewrite (settled_part false t q p mem Hq (Hl p t Hin) l Eq). exact (R1 l).
    + intros r [Hr|Hr]; [discriminate|auto].
  - set (m0 := push p (mkEntry n SharedRO false) mem).
    assert (F0 : fresh (S n) m0) by (apply fresh_push; auto).
    assert (A0 : adds n mem m0).
    { intros l. unfold m0, push. destruct (covers p l); [exists [mkEntry n SharedRO false]|exists []; auto]. split; [reflexivity|].
      constructor; [repeat split; cbn; lia|constructor]. }
    destruct (IH m0 F0) as (m1 & R1 & N1 & F1 & A1 & L1).
    { intros q r [Hq|Hq]; [|apply (adds_readable n mem); auto]. injection Hq as <- <-.
      apply (top_settled SharedRO false); [reflexivity|]. apply top_push. }
    exists m1. split; [|split; [lia|split; [exact F1|split; [exact (adds_trans n (S n) mem m0 m1 (le_S _ _ (le_n n)) A0 A1)|]]]].
    + intros l. cbn [steps step]. specialize (R1 l). unfold m0, push in R1. destruct (covers p l) eqn:El; [|exact R1].
      cbn [retag]. rewrite (Hl p t Hin l El). exact R1.
    + intros r [Hr|Hr]; [discriminate|]. specialize (L1 r Hr). lia.
  - destruct Hv as (u & vp & fs & Hv & Eu). subst v.
    pose proof (Hl PlSelf t Hin) as Ht.
    assert (Hu : usable false t mem) by (intros l; rewrite (Ht l (covers_self l)); discriminate).
    destruct (alias_project_go w a PRef u vp fs uses t n ltac:(discriminate) Hp Hh Hv) as (vs & a' & m' & self & E2 & G & R).
    change (mname PRef) with "project_ref" in E2. cbn [kbool] in E2, G, R. rewrite E in E2. injection E2 as -> -> ->.
    destruct (call_outer false t n mem a' m' Hf Hu G) as (H1 & H2 & H3 & Hrel & H4).
    assert (A0 : adds n mem (outer false t n m' mem)).
    { intros l. destruct (H4 l) as (x & s1 & Ea & Em & Hx). rewrite (Ht l (covers_self l)) in Ea. injection Ea as <-.
      exists (x ++ [mkEntry n SharedRO false]). split; [exact Em|]. apply Forall_app. split; [|constructor; [repeat split; cbn; lia|constructor]].
      eapply Forall_impl; [|exact Hx]. intros e (B1 & B2 & B3). repeat split; auto. lia. }
    destruct (IH (outer false t n m' mem) H2) as (m1 & R1 & N1 & F1 & A1 & L1).
    { intros q r Hq. apply in_app_or in Hq. destruct Hq as [Hq|Hq]; [|apply (adds_readable n mem); auto].
      apply in_flat_map in Hq. destruct Hq as (x & Hx & Hq). destruct (target (snd x)) as [[q' r']|] eqn:Et; [|destruct Hq].
      destruct Hq as [Hq|[]]. injection Hq as -> ->.
      eapply readable_refs; [exact R| |exact Hx|exact Et]. intros c p. apply top_outer. }
    exists m1. split; [eapply runs_app; eassumption|]. split; [lia|]. split; [exact F1|].
    split; [exact (adds_trans n _ mem _ m1 H3 A0 A1)|].
    intros r Hr. apply in_app_or in Hr. destruct Hr as [Hr|Hr]; [auto|]. specialize (L1 r Hr). lia.
Qed.
Lemma fine_share w a uses v t n sub n1 mem : program w a -> variant_of_item (w_item w) v ->
  usable true t mem -> fresh n mem -> shared_session w a uses v [(PlSelf, n)] (S n) sub n1 ->
  exists mem', fine t n (ORetag PkShared false PlSelf t n :: sub) n1 mem mem'.
Proof.
  intros Hp Hv Hu Hf Hs. pose proof (usable_tag true t n mem Hf Hu) as Ht. pose proof (usable_read t mem Hu) as Hr.
  set (m0 := push PlSelf (mkEntry n SharedRO false) (rest_of false t mem)).
  assert (Hs1 : forall l, exists s1, access false t (mem l) = Some s1 /\ rest_of false t mem l = s1).
  { intros l. unfold rest_of. destruct (access false t (mem l)) as [s1|] eqn:E; [eauto|elim (Hr l E)]. }
  assert (F0 : fresh (S n) m0).
  { apply fresh_push; [|reflexivity]. intros l x Hx. pose proof (rest_tags false t n mem l Hf) as H. rewrite Forall_forall in H. auto. }
  destruct (shared_session_fine w a uses v _ _ _ _ m0 Hp Hv Hs F0) as (m1 & R1 & N1 & F1 & A1 & L1).
  { intros q r [Hq|[]]. injection Hq as <- <-. apply (top_settled SharedRO false); [reflexivity|]. apply top_push. }
  exists m1. constructor; [|lia|exact F1| | |].
  - intros l. cbn [steps step]. rewrite covers_self. cbn [retag]. destruct (Hs1 l) as (s1 & Ea & Er). rewrite Ea. cbn [option_map].
    rewrite <- Er. specialize (R1 l). unfold m0, push in R1. rewrite covers_self in R1. exact R1.
  - intros l. destruct (A1 l) as (x & -> & Hx). unfold m0, push. rewrite covers_self. destruct (Hs1 l) as (s1 & Ea & ->).
    destruct (access true t (mem l)) as [s2|] eqn:Ew; [|elim (Hu l Ew)].
    change (mkEntry n SharedRO false :: s1) with ([mkEntry n SharedRO false] ++ s1). rewrite app_assoc.
    apply write_above; [exact (read_then_write _ _ _ _ Ew Ea)|reflexivity| |].
    + apply Forall_app. split; [|constructor; [cbn; lia|constructor]]. eapply Forall_impl; [|exact Hx]. intros e (B & _). lia.
    + rewrite existsb_app. cbn [existsb en_prot]. rewrite orb_false_r. clear - Hx.
      induction Hx as [|e x (_ & _ & He) Hx IH]; cbn [existsb]; [reflexivity|]. rewrite He. exact IH.
  - intros r [Hr2|Hr2]; [discriminate|]. specialize (L1 r Hr2). lia.
  - intros l x Hx. destruct (A1 l) as (y & Ey & Hy). rewrite Ey in Hx. apply in_app_or in Hx. destruct Hx as [Hx|Hx].
    + right. rewrite Forall_forall in Hy. destruct (Hy x Hx). lia.
    + unfold m0, push in Hx. rewrite covers_self in Hx. destruct Hx as [<-|Hx]; [right; cbn; lia|]. left.
      destruct (Hs1 l) as (s1 & Ea & Er). rewrite Er in Hx. exact (access_tags _ _ _ _ x Ea Hx).
Qed.

Lemma session_fine w a uses t v n ops v' n' :
  program w a -> (forall fs, In fs (fields_of (w_item w)) -> replaceable fs) -> session w a uses t v n ops v' n' ->
  variant_of_item (w_item w) v -> forall mem, usable true t mem -> fresh n mem ->
  variant_of_item (w_item w) v' /\ exists mem', fine t n ops n' mem mem'.
Proof.
  intros Hp Hre Hs.
  induction Hs as [t v n|t v n b p rest v2 n2 Hs IH|t v n sub v1 n1 rest v2 n2 Hs1 IH1 Hs IH|t v n sub n1 rest v2 n2 Hs1 Hs IH
                  |t v n ptrs ops n' os rest v2 n2 Hh E Ho Hs IH|t v n r ops n' v' rest v2 n2 Hh E Hv' Hs IH
                  |t v n r ops n' rest v2 n2 E Hs IH]; intros Hv mem Hu Hf.
  - split; [exact Hv|]. exists mem. apply fine_refl. exact Hf.
  - destruct (fine_use b p t n mem Hu Hf) as (m1 & S1).
    destruct (IH Hv m1 (usable_same t mem m1 (fn_same _ _ _ _ _ _ S1) Hu) (fn_fresh _ _ _ _ _ _ S1)) as (V2 & m2 & S2).
    split; [exact V2|]. exists m2. exact (fine_trans _ _ [OUse b p t] _ _ _ _ _ _ S1 S2).
  - destruct (IH1 Hv (fun _ => [mkEntry n Unique false])) as (V1 & mi & Si).
    { intros l. unfold access. cbn [granting]. unfold grants. cbn [en_tag en_perm]. rewrite Nat.eqb_refl. discriminate. }
    { intros l x [<-|[]]. cbn. lia. }
    destruct (fine_lend t n sub n1 mem mi Hu Hf Si) as (m1 & S1).
    destruct (IH V1 m1 (usable_same t mem m1 (fn_same _ _ _ _ _ _ S1) Hu) (fn_fresh _ _ _ _ _ _ S1)) as (V2 & m2 & S2).
    split; [exact V2|]. exists m2. exact (fine_trans _ _ (ORetag PkMut false PlSelf t n :: sub) _ _ _ _ _ _ S1 S2).
  - destruct (fine_share w a uses v t n sub n1 mem Hp Hv Hu Hf Hs1) as (m1 & S1).
    destruct (IH Hv m1 (usable_same t mem m1 (fn_same _ _ _ _ _ _ S1) Hu) (fn_fresh _ _ _ _ _ _ S1)) as (V2 & m2 & S2).
    split; [exact V2|]. exists m2. exact (fine_trans _ _ (ORetag PkShared false PlSelf t n :: sub) _ _ _ _ _ _ S1 S2).
  - pose proof Hv as Hv0. destruct Hv as (u & vp & fs & Hv & Eu). subst v.
    destruct (fine_project w a u vp fs uses t n mem ptrs ops n' Hp Hh Hv Hu Hf E) as (m1 & S1 & T1).
    destruct (IH Hv0 m1 (usable_same t mem m1 (fn_same _ _ _ _ _ _ S1) Hu) (fn_fresh _ _ _ _ _ _ S1)) as (V2 & m2 & S2).
    split; [exact V2|]. exists m2. eapply fine_trans; [exact S1|]. 
    assert (So : fine t n' os n' m1 m1).
    { constructor; [exact (T1 os Ho)|lia|exact (fn_fresh _ _ _ _ _ _ S1)|reflexivity| |eauto].
      intros r Hr. unfold releases in Hr. rewrite Forall_forall in Ho. destruct (Ho _ Hr) as (? & ? & ? & ? & _ & _ & _ & X). discriminate. }
    exact (fine_trans _ _ _ _ _ _ _ _ _ So S2).
  - destruct Hv as (u & vp & fs & Hv & Eu). subst v.
    assert (Hfs : In fs (fields_of (w_item w))) by (destruct Hv; cbn [fields_of]; [left; reflexivity|apply in_map; assumption]).
    destruct (fine_replace w a u vp fs uses t n mem r ops n' Hp Hh Hv (Hre fs Hfs) Hu Hf E) as (m1 & S1).
    destruct (IH Hv' m1 (usable_same t mem m1 (fn_same _ _ _ _ _ _ S1) Hu) (fn_fresh _ _ _ _ _ _ S1)) as (V2 & m2 & S2).
    split; [exact V2|]. exists m2. exact (fine_trans _ _ _ _ _ _ _ _ _ S1 S2).
  - destruct (fine_drop w a v uses t n mem r ops n' Hp Hu Hf E) as (m1 & S1).
    destruct (IH Hv m1 (usable_same t mem m1 (fn_same _ _ _ _ _ _ S1) Hu) (fn_fresh _ _ _ _ _ _ S1)) as (V2 & m2 & S2).
    split; [exact V2|]. exists m2. exact (fine_trans _ _ _ _ _ _ _ _ _ S1 S2).
Qed.
Lemma c63_session w a uses t v n ops v' n' mem :
  program w a -> (forall fs, In fs (fields_of (w_item w)) -> replaceable fs) -> variant_of_item (w_item w) v ->
  usable true t mem -> fresh n mem -> session w a uses t v n ops v' n' ->
  exists mem', runs ops mem mem' /\ fresh n' mem' /\ forall l, access true t (mem' l) = access true t (mem l).
Proof.
  intros Hp Hre Hv Hu Hf Hs. destruct (session_fine w a uses t v n ops v' n' Hp Hre Hs Hv mem Hu Hf) as (_ & mem' & S1).
  exists mem'. destruct S1. auto.
Qed.
Lemma c63_shared_session w a uses v t n ops n' mem : program w a -> variant_of_item (w_item w) v ->
  readable t PlSelf mem -> fresh n mem -> shared_session w a uses v [(PlSelf, t)] n ops n' ->
  exists mem', runs ops mem mem' /\ fresh n' mem' /\ forall r p, readable r p mem -> readable r p mem'.
Proof.
  intros Hp Hv Ht Hf Hs. destruct (shared_session_fine w a uses v _ n ops n' mem Hp Hv Hs Hf) as (m1 & R1 & _ & F1 & A1 & _).
  { intros q r [Hq|[]]. injection Hq as <- <-. exact Ht. }
  exists m1. split; [exact R1|]. split; [exact F1|]. intros r p. apply (adds_readable n mem); assumption.
Qed.
