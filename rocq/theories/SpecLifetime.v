(** Which lifetimes a generics list declares, and string prefixes. *)
From Coq Require Import String Ascii List.
From Verif Require Import Base Syntax.
Import ListNotations.

(** [lt] is introduced by a [for<..>] binder somewhere inside. *)
Inductive binds_ty (lt : string) : ty -> Prop :=
| DT_qself t n p : binds_ty lt t -> binds_ty lt (TyPath (Some (t, n)) p)
| DT_path q p : binds_path lt p -> binds_ty lt (TyPath q p)
| DT_ref l m t : binds_ty lt t -> binds_ty lt (TyRef l m t)
| DT_ptr m t : binds_ty lt t -> binds_ty lt (TyPtr m t)
| DT_tuple l t : In t l -> binds_ty lt t -> binds_ty lt (TyTuple l)
| DT_slice t : binds_ty lt t -> binds_ty lt (TySlice t)
| DT_array t e : binds_ty lt t -> binds_ty lt (TyArray t e)
| DT_array_len t e : binds_expr lt e -> binds_ty lt (TyArray t e)
| DT_fn lts l o : In lt lts -> binds_ty lt (TyFn lts l o)
| DT_fn_arg lts l o t : In t l -> binds_ty lt t -> binds_ty lt (TyFn lts l o)
| DT_fn_ret lts l t : binds_ty lt t -> binds_ty lt (TyFn lts l (Some t))
| DT_dyn bs b : In b bs -> binds_bound lt b -> binds_ty lt (TyDyn bs)
| DT_paren t : binds_ty lt t -> binds_ty lt (TyParen t)
with binds_path (lt : string) : path -> Prop :=
| DP lead segs i a : In (Seg i a) segs -> binds_gargs lt a -> binds_path lt (Path lead segs)
with binds_gargs (lt : string) : gargs -> Prop :=
| DG_ty b l t : In (ATy t) l -> binds_ty lt t -> binds_gargs lt (GAngle b l)
| DG_const b l e : In (AConst e) l -> binds_expr lt e -> binds_gargs lt (GAngle b l)
| DG_assoc b l i t : In (AAssoc i t) l -> binds_ty lt t -> binds_gargs lt (GAngle b l)
| DG_paren l o t : In t l -> binds_ty lt t -> binds_gargs lt (GParen l o)
| DG_paren_ret l t : binds_ty lt t -> binds_gargs lt (GParen l (Some t))
with binds_bound (lt : string) : bound -> Prop :=
| DB m lts p : In lt lts -> binds_bound lt (BTrait m lts p)
| DB_path m lts p : binds_path lt p -> binds_bound lt (BTrait m lts p)
with binds_expr (lt : string) : expr -> Prop :=
| DE_qself t n p : binds_ty lt t -> binds_expr lt (EPath (Some (t, n)) p)
| DE_path q p : binds_path lt p -> binds_expr lt (EPath q p)
| DE_fun f l : binds_expr lt f -> binds_expr lt (ECall f l)
| DE_arg f l e : In e l -> binds_expr lt e -> binds_expr lt (ECall f l).

(** [lt] is declared in the generics: a lifetime parameter, or bound by a
    [for<..>] in a bound, a default or a where clause. *)
Inductive declared (g : generics) (lt : string) : Prop :=
| D_param bs : In (PLt lt bs) (g_params g) -> declared g lt
| D_bound i bs d b : In (PTy i bs d) (g_params g) -> In b bs -> binds_bound lt b -> declared g lt
| D_default i bs t : In (PTy i bs (Some t)) (g_params g) -> binds_ty lt t -> declared g lt
| D_const i t d : In (PConst i t d) (g_params g) -> binds_ty lt t -> declared g lt
| D_const_default i t e : In (PConst i t (Some e)) (g_params g) -> binds_expr lt e -> declared g lt
| D_where_for w lts t bs : g_where g = Some w -> In (WTy lts t bs) w -> In lt lts -> declared g lt
| D_where_ty w lts t bs : g_where g = Some w -> In (WTy lts t bs) w -> binds_ty lt t -> declared g lt
| D_where_bound w lts t bs b :
    g_where g = Some w -> In (WTy lts t bs) w -> In b bs -> binds_bound lt b -> declared g lt.

Definition begins_with (p s : string) : Prop := exists r, s = String.append p r.

Fixpoint underscores (n : nat) : string :=
  match n with 0 => EmptyString | S k => String.append "_" (underscores k) end.
