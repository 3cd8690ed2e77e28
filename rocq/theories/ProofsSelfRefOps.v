(** Pointers from a pinned field to itself: the operations of [project]. *)
From Coq Require Import String Ascii List Bool Arith Lia.
From Verif Require Import Base Syntax ModelArgs ModelUtils ModelDerive ModelRun ModelAlias.
From Verif Require Import SpecArgs SpecDerive SpecExpand SpecRun SpecAlias SpecSelfRef.
From Verif Require Import ProofsArgs ProofsUtils ProofsDerive ProofsExpand ProofsTypes ProofsRun ProofsRunProj ProofsRunReplace.
From Verif Require Import ProofsRunDrop ProofsAlias ProofsAliasRun ProofsAliasCall ProofsAliasMain.
Import ListNotations.
Open Scope string_scope.
Open Scope list_scope.

Definition field_tag (b : bool) (base t : nat) (nf : nat * field) : op := ORetag (ref_kind b) false (PlField (fst nf)) t (base + fst nf).
Lemma tag_binds_ops b t base l : forall k a, a_next a = base + k ->
  tag_binds b t (binds b k l) a =
  Some (tagged b (fun j => base + j) (enum_from k l),
        mkA (base + k + length l) (a_ops a ++ map (field_tag b base t) (enum_from k l))).
Proof.
  induction l as [|f l IH]; intros k a Ha; unfold binds; cbn [enum_from map fst snd tag_binds derive_ptr].
  - rewrite app_nil_r. cbn [length]. rewrite Nat.add_0_r, <- Ha. destruct a; reflexivity.
  - fold (binds b (S k) l). rewrite (IH (S k)) by (cbn [a_next]; lia). cbn [a_ops].
    unfold tagged at 2. cbn [map fst]. rewrite <- app_assoc. cbn [app]. unfold field_tag at 3. cbn [fst]. rewrite Ha. cbn [length].
    replace (base + S k + length l) with (base + k + S (length l)) by lia. reflexivity.
Qed.
Definition pin_tag (b : bool) (tg cs : nat -> nat) (nf : nat * field) : list op :=
  if pin_b (snd nf) then [ORetag (ref_kind b) false (PlField (fst nf)) (tg (fst nf)) (cs (fst nf))] else [].
Definition part_of (b : bool) (tg cs : nat -> nat) (nf : nat * field) : option ident * av :=
  (f_ident (snd nf), if pin_b (snd nf) then AvPin b (PlField (fst nf)) (cs (fst nf)) else AvPtr (ref_kind b) (PlField (fst nf)) (tg (fst nf))).
Lemma alias_fields_ops w uses b tg d l : scope_ok w -> shaped d l -> forall k e a,
  (forall nf, In nf (enum_from k l) -> lookup (binding nf) e = Some (AvPtr (ref_kind b) (PlField (fst nf)) (tg (fst nf)))) ->
  NoDup (map name (map binding (enum_from k l))) -> quiet e ->
  exists cs e' n', alias_fields w uses (map body_of (enum_from k l)) d e a =
      Some (map (part_of b tg cs) (enum_from k l), e', mkA n' (a_ops a ++ flat_map (pin_tag b tg cs) (enum_from k l))) /\
    quiet e' /\ a_next a <= n' /\ forall nf, In nf (enum_from k l) -> pin_b (snd nf) = true -> a_next a <= cs (fst nf) < n'.
Proof.
  intros Hw. induction l as [|f l IH]; intros Hs k e a Hg Hn Hq; cbn [enum_from map alias_fields flat_map].
  - exists (fun x => x), e, (a_next a). rewrite app_nil_r. split; [destruct a; reflexivity|]. split; [exact Hq|]. split; [lia|intros nf []].
  - cbn [enum_from map] in Hn. inversion Hn as [|x y Hx Hy]; subst.
    pose proof (Hg (k, f) (or_introl eq_refl)) as Hb. cbn [fst] in Hb.
    set (e1 := take (binding (k, f)) e).
    assert (He1 : quiet e1) by (apply quiet_take; exact Hq).
    assert (Hg1 : forall nf, In nf (enum_from (S k) l) -> lookup (binding nf) e1 = Some (AvPtr (ref_kind b) (PlField (fst nf)) (tg (fst nf)))).
    { intros nf Hin. unfold e1. rewrite lookup_take.
      - apply Hg. right. exact Hin.
      - apply same_name_false. intros E. apply Hx. rewrite <- E. apply in_map. apply in_map. exact Hin. }
    assert (Hev : exists a1,
      alias_atom w uses (snd (body_of (k, f))) e a =
        Some (if pin_b f then AvPin b (PlField k) (a_next a) else AvPtr (ref_kind b) (PlField k) (tg k), e1, a1) /\
      a_ops a1 = a_ops a ++ pin_tag b tg (fun _ => a_next a) (k, f) /\
      a_next a1 = if pin_b f then S (a_next a) else a_next a).
    { unfold body_of, pin_tag. cbn [snd fst]. destruct (pin_b f); cbn [snd alias_atom].
      - unfold alias_call. rewrite (support_pp w Hw), Hb. destruct b; cbn [derive_ptr ref_kind]; eexists; (split; [reflexivity|]); split; reflexivity.
      - rewrite Hb. exists a. rewrite app_nil_r. split; [reflexivity|]. split; reflexivity. }
    destruct Hev as (a1 & Hev & Eo & En).
    destruct (IH (shaped_tail _ _ _ Hs) (S k) e1 a1) as (cs & e2 & n2 & E2 & Q2 & N2 & C2); auto.
    destruct (body_of (k, f)) as [n at0] eqn:Eb. cbn [snd] in Hev. rewrite Hev, E2.
    exists (fun j => if Nat.eqb j k then a_next a else cs j), e2, n2.
    assert (Hne : forall nf, In nf (enum_from (S k) l) -> Nat.eqb (fst nf) k = false).
    { intros [j g] Hin. apply ProofsRun.enum_from_in in Hin. cbn [fst]. apply Nat.eqb_neq. lia. }
    split; [|split; [exact Q2|split; [destruct (pin_b f); lia|]]].
    + f_equal. f_equal; [f_equal|].
      * f_equal.
        -- unfold part_of. cbn [fst snd]. rewrite Nat.eqb_refl. f_equal.
           unfold body_of in Eb. cbn [snd] in Eb. destruct (pin_b f); injection Eb as <- <-.
           ++ destruct d as [[]|]; try reflexivity; destruct (f_ident f); reflexivity.
           ++ unfold binding. cbn [snd fst]. destruct d as [[]|]; cbn [shaped] in Hs; try discriminate.
              ** rewrite (Hs f (or_introl eq_refl)). reflexivity.
              ** destruct (f_ident f) eqn:E; [reflexivity|]. elim (Hs f (or_introl eq_refl) E).
        -- apply map_ext_in. intros nf Hin. unfold part_of. rewrite (Hne nf Hin). reflexivity.
      * f_equal. rewrite Eo, <- app_assoc. f_equal. f_equal.
        -- unfold pin_tag. cbn [fst snd]. rewrite Nat.eqb_refl. reflexivity.
        -- clear - Hne. induction (enum_from (S k) l) as [|nf nl IH]; [reflexivity|]. cbn [flat_map].
           rewrite IH by (intros x Hx; apply Hne; right; exact Hx). f_equal. unfold pin_tag. rewrite (Hne nf (or_introl eq_refl)). reflexivity.
    + intros nf [<-|Hin] Hp; cbn [fst snd] in *.
      * rewrite Nat.eqb_refl, Hp in *. lia.
      * rewrite (Hne nf Hin). specialize (C2 nf Hin Hp). destruct (pin_b f); lia.
Qed.

(** The new pointers. *)
Definition good_cs (n n' : nat) (cs : nat -> nat) (l : list field) : Prop :=
  S (S n) + length l <= n' /\ forall nf, In nf (enum_from 0 l) -> pin_b (snd nf) = true -> S (S n) + length l <= cs (fst nf) < n'.
Lemma body_ops_tail w uses b path fs n ops : scope_ok w -> fields_legal fs ->
  exists cs n', alias_finish w uses (Some (RLit path (fields_delim fs) (map body_of (enum_from 0 (fields_list fs)))))
      (tagged b (fun j => S (S n) + j) (enum_from 0 (fields_list fs)) ++ self_left b n)
      (mkA (S (S n) + 0 + length (fields_list fs)) ops) =
    Some (AvProj (map (part_of b (fun j => S (S n) + j) cs) (enum_from 0 (fields_list fs))),
          mkA n' (ops ++ flat_map (pin_tag b (fun j => S (S n) + j) cs) (enum_from 0 (fields_list fs)))) /\ good_cs n n' cs (fields_list fs).
Proof.
  intros Hw Hl. pose proof (legal_vars _ Hl) as Hv. unfold alias_finish. cbn [alias_rhs].
  destruct (alias_fields_ops w uses b (fun j => S (S n) + j) (fields_delim fs) (fields_list fs) Hw (legal_shaped _ Hl) 0
     (tagged b (fun j => S (S n) + j) (enum_from 0 (fields_list fs)) ++ self_left b n)
     (mkA (S (S n) + 0 + length (fields_list fs)) ops)) as (cs & e' & n' & E & Q & N & C).
  - intros nf Hin. exact (lookup_tagged b _ _ 0 _ nf Hv Hin).
  - exact Hv.
  - apply quiet_app; [apply tagged_quiet|apply self_left_quiet].
  - rewrite E. exists cs, n'. rewrite (drops_quiet uses e' _ Q). cbn [a_ops a_next] in *. split; [reflexivity|]. split; [lia|].
    intros nf Hin Hp. specialize (C nf Hin Hp). lia.
Qed.
(** The operations of the call before its end; [disc]: what it does to find the variant. *)
Definition body_ops (b : bool) (t n : nat) (disc : list op) (cs : nat -> nat) (l : list field) : list op :=
  [ORetag (ref_kind b) true PlSelf t n; ORetag (ref_kind b) false PlSelf n (S n)] ++ disc ++
  map (field_tag b (S (S n)) (S n)) (enum_from 0 l) ++ flat_map (pin_tag b (fun j => S (S n) + j) cs) (enum_from 0 l).
Lemma explicit_struct w a s b n t uses nm : program w a -> w_item w = ItStruct s ->
  let fs := s_fields (spelled_struct s) in
  exists cs n',
    alias_body w None uses (struct_body (getter b) nm fs) [(I "self", Some (AvPin b PlSelf n))] (mkA (S n) [ORetag (ref_kind b) true PlSelf t n]) =
      Some (AvProj (map (part_of b (fun j => S (S n) + j) cs) (enum_from 0 (fields_list fs))), mkA n' (body_ops b t n [] cs (fields_list fs))) /\
    good_cs n n' cs (fields_list fs).
Proof.
  intros Hp Hi fs. set (self := self_type (s_ident s) (s_generics s)).
  assert (Hfs : In (s_fields s) (fields_of (w_item w))) by (rewrite Hi; left; reflexivity).
  assert (Hl : fields_legal fs) by (apply legal_replace; apply (pg_fields _ _ Hp _ Hfs)).
  pose proof (program_bind w a (s_fields s) self b Hp Hfs) as Hb. cbn zeta in Hb.
  change (replace_fields self (s_fields s)) with fs in Hb.
  unfold struct_body. cbn [alias_body alias_stmts alias_stmt alias_rhs]. rewrite alias_getter. cbn [alias_coerce].
  unfold struct_pat. cbn [is_wild alias_pat]. rewrite (self_struct w a s Hp Hi). cbn [variant_matches s_var derive_ptr snd a_next a_ops app].
  set (a1 := mkA (S (S n)) _).
  assert (Hpat : match AvPtr (ref_kind b) PlSelf (S n) with
     | AvPtr PkMut PlSelf t => match bind_fields w (s_fields s) (fields_delim fs) (map binding (enum_from 0 (fields_list fs))) true with
                               | Some l => tag_binds true t l a1 | None => None end
     | AvPtr PkShared PlSelf t => match bind_fields w (s_fields s) (fields_delim fs) (map binding (enum_from 0 (fields_list fs))) false with
                               | Some l => tag_binds false t l a1 | None => None end
     | _ => None end = tag_binds b (S n) (binds b 0 (fields_list fs)) a1).
  { destruct b; cbn [ref_kind]; rewrite Hb; reflexivity. }
  rewrite Hpat, (tag_binds_ops b (S n) (S (S n)) (fields_list fs) 0 a1) by (unfold a1; cbn [a_next]; lia).
  destruct (body_ops_tail w uses b [nm] fs n (a_ops a1 ++ map (field_tag b (S (S n)) (S n)) (enum_from 0 (fields_list fs))) (program_scope _ _ Hp) Hl)
    as (cs & n' & E & C).
  exists cs, n'. split; [|exact C]. rewrite E. unfold body_ops, a1. cbn [a_ops]. rewrite <- ?app_assoc. reflexivity.
Qed.
Lemma explicit_enum w a e v b n t uses nm : program w a -> w_item w = ItEnum e -> In v (e_variants e) ->
  let fs := replace_fields (self_type (e_ident e) (e_generics e)) (v_fields v) in
  exists cs n',
    alias_body w (Some (v_ident v)) uses (enum_body (getter b) nm (e_variants (spelled_enum e)))
      [(I "self", Some (AvPin b PlSelf n))] (mkA (S n) [ORetag (ref_kind b) true PlSelf t n]) =
      Some (AvProj (map (part_of b (fun j => S (S n) + j) cs) (enum_from 0 (fields_list fs))),
            mkA n' (body_ops b t n [OUse false PlSelf (S n)] cs (fields_list fs))) /\
    good_cs n n' cs (fields_list fs).
Proof.
  intros Hp Hi Hv fs. set (self := self_type (e_ident e) (e_generics e)). fold self in fs.
  assert (Hfs : In (v_fields v) (fields_of (w_item w))) by (rewrite Hi; apply in_map; exact Hv).
  assert (Hl : fields_legal fs) by (apply legal_replace; apply (pg_fields _ _ Hp _ Hfs)).
  pose proof (program_bind w a (v_fields v) self b Hp Hfs) as Hb. cbn zeta in Hb. fold fs in Hb.
  unfold enum_body. cbn [alias_body alias_stmts]. rewrite alias_getter.
  rewrite (find_arm_variant (variant_arm nm) (e_variants (spelled_enum e)) (replace_variant self v)).
  2:{ cbn [spelled_enum replace_enum e_variants]. rewrite !map_map.
      pose proof (pg_variants _ _ Hp) as N. rewrite Hi in N. cbn [variant_names] in N. rewrite map_map in N. exact N. }
  2:{ apply in_map. exact Hv. }
  2: reflexivity. 2: reflexivity.
  cbn [variant_arm arm_pat arm_stmts arm_tail alias_stmts]. unfold variant_pat. cbn [alias_pat replace_variant v_ident v_fields]. fold fs.
  rewrite (self_enum w a e v Hp Hi Hv). cbn [variant_matches s_var derive_ptr snd a_next a_ops app]. rewrite same_name_refl.
  unfold emit. cbn [a_next a_ops app]. set (a1 := mkA (S (S n)) _).
  assert (Hpat : match AvPtr (ref_kind b) PlSelf (S n) with
     | AvPtr PkMut PlSelf t => match bind_fields w (v_fields v) (fields_delim fs) (map binding (enum_from 0 (fields_list fs))) true with
                               | Some l => tag_binds true t l a1 | None => None end
     | AvPtr PkShared PlSelf t => match bind_fields w (v_fields v) (fields_delim fs) (map binding (enum_from 0 (fields_list fs))) false with
                               | Some l => tag_binds false t l a1 | None => None end
     | _ => None end = tag_binds b (S n) (binds b 0 (fields_list fs)) a1).
  { destruct b; cbn [ref_kind]; rewrite Hb; reflexivity. }
  rewrite Hpat, (tag_binds_ops b (S n) (S (S n)) (fields_list fs) 0 a1) by (unfold a1; cbn [a_next]; lia).
  destruct (body_ops_tail w uses b [nm; v_ident v] fs n (a_ops a1 ++ map (field_tag b (S (S n)) (S n)) (enum_from 0 (fields_list fs))) (program_scope _ _ Hp) Hl)
    as (cs & n' & E & C).
  exists cs, n'. split; [|exact C]. rewrite E. unfold body_ops, a1. cbn [a_ops]. rewrite <- ?app_assoc. reflexivity.
Qed.
Lemma project_explicit w a k u vp fs uses t n : k <> POwn -> program w a -> has_proj k (w_item w) a = true ->
  value_of (w_item w) u vp fs ->
  exists self disc cs n',
    let l := fields_list (replace_fields self fs) in
    alias_project w (u_var u) uses (mname k) (kbool k) t n =
      Some (AvProj (map (part_of (kbool k) (fun j => S (S n) + j) cs) (enum_from 0 l)), body_ops (kbool k) t n disc cs l ++ [ORelease n], n') /\
    (disc = [] \/ disc = [OUse false PlSelf (S n)]) /\ good_cs n n' cs l.
Proof.
  intros Hk Hp Hh Hv. remember (w_item w) as it eqn:Eit. symmetry in Eit. destruct Hv as [s ids H|e v ids Hin H]; cbn [u_var].
  - unfold alias_project. rewrite (struct_method w a s k Hp Eit Hh).
    destruct (explicit_struct w a s (kbool k) n t uses
                (match k with PRef => cx_ref_ident (struct_cx a (spelled_struct s)) | _ => cx_mut_ident (struct_cx a (spelled_struct s)) end)
                Hp Eit) as (cs & n' & E & C).
    exists (self_type (s_ident s) (s_generics s)), [], cs, n'. split; [|split; [left; reflexivity|exact C]].
    unfold alias_method. destruct k; [| |elim Hk; reflexivity]; cbn [kbool getter ref_kind] in E;
      cbn [kmethod method_project method_project_ref m_params m_body map rev app struct_kbody kbool ref_kind]; rewrite E; reflexivity.
  - unfold alias_project. rewrite (enum_method w a e k Hp Eit Hh).
    destruct (explicit_enum w a e v (kbool k) n t uses
                (match k with PRef => cx_ref_ident (enum_cx a (spelled_enum e)) | _ => cx_mut_ident (enum_cx a (spelled_enum e)) end)
                Hp Eit Hin) as (cs & n' & E & C).
    exists (self_type (e_ident e) (e_generics e)), [OUse false PlSelf (S n)], cs, n'. split; [|split; [right; reflexivity|exact C]].
    unfold alias_method. destruct k; [| |elim Hk; reflexivity]; cbn [kbool getter ref_kind] in E;
      cbn [kmethod method_project method_project_ref m_params m_body map rev app enum_kbody kbool ref_kind]; rewrite E; reflexivity.
Qed.
