(** * Specification of elementwise equality and comparison *)
From Verif Require Import Base M_Double M_Scalar M_Object M_Proxy Spec_Value.

(** Inputs [vec_equal()] gets after casting and recycling at the R level: two
    proxies of the same type, size and column types, holding C values. *)
Definition cols_in_range (cols : list vec) : Prop :=
  Forall (fun v => Forall elt_in_range (v_data v)) cols.
Definition cols_plain (cols : list vec) : Prop :=
  Forall (fun v => Forall is_plain (v_data v)) cols.
Definition proxy_ok (p : proxy) : Prop := proxy_wf p /\ cols_in_range (proxy_cols p).
(** List columns: elements without attributes (see C05 for the others). *)
Definition proxy_plain (p : proxy) : Prop := cols_plain (proxy_cols p).

Definition same_shape (x y : proxy) : Prop :=
  match x, y with
  | PVec v, PVec w => v_type v = v_type w /\ length (v_data v) = length (v_data w)
  | PDf n xs, PDf m ys => n = m /\ map v_type xs = map v_type ys
  | _, _ => False
  end.

(** Row equality with missing values propagated: the first column in which the
    values are not both present and equal decides. *)
Inductive row_eq_propagate : list elt -> list elt -> Z -> Prop :=
| rep_nil : row_eq_propagate [] [] 1
| rep_na a b r s : missing_sem a \/ missing_sem b -> row_eq_propagate (a :: r) (b :: s) NA_LOGICAL
| rep_ne a b r s : ~ missing_sem a -> ~ missing_sem b -> elt_sem a <> elt_sem b ->
    row_eq_propagate (a :: r) (b :: s) 0
| rep_eq a b r s v : ~ missing_sem a -> ~ missing_sem b -> elt_sem a = elt_sem b ->
    row_eq_propagate r s v -> row_eq_propagate (a :: r) (b :: s) v.

(** Comparison: lexicographic, -1/0/1. *)
Definition row_cmp (r s : list elt) (c : Z) : Prop :=
  (c = -1 /\ row_lt r s)%Z \/ (c = 0 /\ row_same r s)%Z \/ (c = 1 /\ row_lt s r)%Z.

(** With missing values propagated. *)
Inductive row_cmp_propagate : list elt -> list elt -> Z -> Prop :=
| rcp_nil : row_cmp_propagate [] [] 0
| rcp_na a b r s : missing_sem a \/ missing_sem b -> row_cmp_propagate (a :: r) (b :: s) NA_INTEGER
| rcp_lt a b r s : ~ missing_sem a -> ~ missing_sem b -> elt_lt a b ->
    row_cmp_propagate (a :: r) (b :: s) (-1)
| rcp_gt a b r s : ~ missing_sem a -> ~ missing_sem b -> elt_lt b a ->
    row_cmp_propagate (a :: r) (b :: s) 1
| rcp_eq a b r s v : ~ missing_sem a -> ~ missing_sem b -> elt_sem a = elt_sem b ->
    row_cmp_propagate r s v -> row_cmp_propagate (a :: r) (b :: s) v.

(** Leaves of a possibly nested data frame, left to right. *)
Fixpoint cflatten (x : cproxy) : list vec :=
  match x with
  | CVec v => [v]
  | CDf cols => (fix go cs := match cs with [] => [] | c :: cs' => cflatten c ++ go cs' end) cols
  end.
(** Two comparison proxies with the same nesting structure and column types. *)
Inductive csame : cproxy -> cproxy -> Prop :=
| csame_vec v w : v_type v = v_type w -> csame (CVec v) (CVec w)
| csame_df xs ys : Forall2 csame xs ys -> csame (CDf xs) (CDf ys).
Definition cproxy_ok (size : nat) (x : cproxy) : Prop :=
  Forall (fun v => vec_wf v /\ length (v_data v) = size /\ Forall elt_in_range (v_data v) /\
                   v_type v <> TCpl /\ v_type v <> TRaw /\ v_type v <> TList) (cflatten x).
