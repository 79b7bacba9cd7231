(** * Specification of uniqueness, matching, counting, grouping and sets *)
From Verif Require Import Base M_Double M_Scalar M_Object M_Proxy Spec_Value Spec_Equal Spec_Missing.

(** Rows [i] of [x] and [j] of [y] are equal. *)
Definition rows_equal (x : proxy) (i : nat) (y : proxy) (j : nat) : Prop :=
  row_same (proxy_row x i) (proxy_row y j).
(** Row [i] equals no earlier row. *)
Definition first_row (p : proxy) (i : nat) : Prop := forall j, j < i -> ~ rows_equal p j p i.
(** Some row of [y] equals row [i] of [x]. *)
Definition row_in (x : proxy) (i : nat) (y : proxy) : Prop :=
  exists j, j < proxy_size y /\ rows_equal y j x i.

(** [P] holds of exactly [k] numbers below [n]. *)
Definition card (n : nat) (P : nat -> Prop) (k : nat) : Prop :=
  exists ls, NoDup ls /\ (forall j, j ∈ ls <-> j < n /\ P j) /\ length ls = k.
(** 1-based R location. *)
Definition rloc (i : nat) : Z := (Z.of_nat i + 1)%Z.

(** [z] is the location of the first row of [hay] equal to row [i] of [needles]. *)
Definition first_match (needles : proxy) (i : nat) (hay : proxy) (z : Z) : Prop :=
  (z = NA_INTEGER /\ ~ row_in needles i hay) \/
  (exists j, z = rloc j /\ j < proxy_size hay /\ rows_equal hay j needles i /\
     forall k, k < j -> ~ rows_equal hay k needles i).

(** Vectors the dictionary functions accept: C values, list elements without
    attributes (see C05 for those) and of hashable type, at most R_LEN_T_MAX rows. *)
Definition short (p : proxy) : Prop := (Z.of_nat (proxy_size p) <= R_LEN_T_MAX)%Z.
(** List elements [obj_hash()] supports: no raw, complex, CHARSXP or exotic
    object anywhere inside. *)
Inductive obj_hashable : robj -> Prop :=
| hb_null : obj_hashable RNull
| hb_ref k a : obj_hashable (RRef k a)
| hb_vec v a : (match v with Cpl _ | Raw _ => False | _ => True end) -> obj_hashable a -> obj_hashable (RVec v a)
| hb_list e xs a : Forall obj_hashable xs -> obj_hashable a -> obj_hashable (RList e xs a)
| hb_node k t car cdr a : obj_hashable car -> obj_hashable cdr -> obj_hashable a -> obj_hashable (RNode k t car cdr a)
| hb_clo f b e a : obj_hashable f -> obj_hashable b -> obj_hashable e -> obj_hashable a -> obj_hashable (RClo f b e a).
Definition elt_can_hash (e : elt) : Prop := match e with ELst o => obj_hashable o | _ => True end.
Definition hashable (p : proxy) : Prop := Forall (fun v => Forall elt_can_hash (v_data v)) (proxy_cols p).
Definition dictable (p : proxy) : Prop := proxy_ok p /\ proxy_plain p /\ hashable p /\ short p.

(** In no row does a raw element follow a missing one. *)
Definition raw_first (p : proxy) : Prop :=
  exists k, Forall (fun v => v_type v = TRaw) (take k (proxy_cols p)) /\
            Forall (fun v => v_type v <> TRaw) (drop k (proxy_cols p)).

(** Decode a run-length encoding. *)
Definition rle_decodes (g l : list Z) (out : list Z) : Prop :=
  length g = length l /\
  out = concat (zip_with (fun gv lv => replicate (Z.to_nat lv) gv) g l).
