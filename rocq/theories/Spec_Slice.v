(** * Specification: slicing and assigning *)
From Verif Require Import Base M_Double M_Scalar M_Object M_Proxy M_Slice.

(** The 1-based locations a subscript stands for. *)
Definition expand (s : subscript) : list Z :=
  match s with
  | SLoc l => l
  | SRep i n => replicate (Z.to_nat n) i
  | SSeq start n step => map (fun k => start + Z.of_nat k * step + 1)%Z (seq 0 (Z.to_nat n))
  end.
(** A location is missing or in [1..n]. *)
Definition loc_ok (n i : Z) : Prop := i = NA_INTEGER \/ (1 <= i <= n)%Z.
(** Subscripts valid for a vector of size [n]. *)
Definition subscript_ok (n : Z) (s : subscript) : Prop :=
  Forall (loc_ok n) (expand s) /\
  match s with
  | SLoc _ => True
  | SRep i k => loc_ok n i /\ (0 <= k <= INT_MAX)%Z
  | SSeq start k step => (0 <= start <= n /\ 0 <= k)%Z /\ Forall (fun i => i <> NA_INTEGER) (expand s) /\ (step = 1 \/ step = -1)%Z
  end.

(** The element at 1-based location [i]; [na] when it is missing. *)
Definition pick {A} (na : A) (x : list A) (i : Z) : A :=
  if (i =? NA_INTEGER)%Z then na else nth (Z.to_nat (i - 1)) x na.

(** ** Assigning: the last assignment to a location wins *)
Definition put {A} (x : list A) (iv : Z * A) : list A :=
  if (iv.1 =? NA_INTEGER)%Z then x else <[Z.to_nat (iv.1 - 1) := iv.2]> x.
Definition assigned {A} (x : list A) (locs : list Z) (vals : list A) (out : list A) : Prop :=
  length out = length x /\
  (forall j a, x !! j = Some a -> ~ In (Z.of_nat j + 1)%Z locs -> out !! j = Some a) /\
  (forall k i v, locs !! k = Some i -> vals !! k = Some v -> i <> NA_INTEGER ->
     (forall k', k < k' -> locs !! k' <> Some i) -> out !! Z.to_nat (i - 1) = Some v).

(** ** Arrays *)
Fixpoint zprod (l : list Z) : Z := match l with [] => 1 | d :: l => d * zprod l end%Z.
(** Position of a cell in column-major order. *)
Fixpoint offset (dim idx : list Z) : Z :=
  match dim, idx with
  | d :: dim, i :: idx => i + d * offset dim idx
  | _, _ => 0
  end%Z.
Definition in_dim (dim idx : list Z) : Prop := Forall2 (fun d i => 0 <= i < d)%Z dim idx.
(** Dimensions whose products (of any of them, treating empty ones as 1) are C ints. *)
Definition dim_ok (dim : list Z) : Prop :=
  dim <> [] /\ Forall (fun d => 0 <= d)%Z dim /\ (zprod (map (Z.max 1) dim) <= INT_MAX)%Z.
(** Column [e]: the [e]-th group of [d] consecutive elements. *)
Definition chunk {A} (d e : nat) (x : list A) : list A := take d (drop (e * d) x).

(** ** Vectors *)
Inductive value_ok : value -> Prop :=
| vo_vec t data names :
    Forall (fun e => elt_type e = t) data ->
    match names with Some n => length n = length data | None => True end ->
    (Z.of_nat (length data) <= INT_MAX)%Z ->
    value_ok (VVec t data names)
| vo_arr t dim data :
    Forall (fun e => elt_type e = t) data ->
    dim_ok dim -> zprod dim = Z.of_nat (length data) ->
    value_ok (VArr t dim data)
| vo_df n names cols :
    (Z.of_nat n <= INT_MAX)%Z ->
    length names = length cols ->
    Forall (fun c => value_size c = Z.of_nat n) cols ->
    Forall value_ok cols ->
    value_ok (VDf n names cols).

(** [out] holds the rows of [v] at [locs]. *)
Inductive sliced (locs : list Z) : value -> value -> Prop :=
| sl_vec t data names names' :
    names' = match names with None => None | Some n => Some (map (pick empty_str n) locs) end ->
    sliced locs (VVec t data names) (VVec t (map (pick (vtype_na t) data) locs) names')
| sl_arr t d dim data out :
    (Z.of_nat (length out) = Z.of_nat (length locs) * zprod dim)%Z ->
    (forall e, (Z.of_nat e < zprod dim)%Z ->
       chunk (length locs) e out = map (pick (vtype_na t) (chunk (Z.to_nat d) e data)) locs) ->
    sliced locs (VArr t (d :: dim) data) (VArr t (Z.of_nat (length locs) :: dim) out)
| sl_df n names cols cols' :
    Forall2 (sliced locs) cols cols' ->
    sliced locs (VDf n names cols) (VDf (length locs) names cols').

(** The number of elements of a slice of [n] rows is a C int in every array. *)
Inductive out_fits (n : Z) : value -> Prop :=
| of_vec t data names : out_fits n (VVec t data names)
| of_arr t d dim data : (zprod dim * n <= INT_MAX)%Z -> out_fits n (VArr t (d :: dim) data)
| of_df k names cols : Forall (out_fits n) cols -> out_fits n (VDf k names cols).

(** An array of the shape of [v] with [n] rows has dimensions whose products are C ints. *)
Inductive shape_fits (n : Z) : value -> Prop :=
| sf_vec t data names : shape_fits n (VVec t data names)
| sf_arr t d ds data : (Z.max 1 n * zprod (map (Z.max 1) ds) <= INT_MAX)%Z -> shape_fits n (VArr t (d :: ds) data)
| sf_df k names cols : Forall (shape_fits n) cols -> shape_fits n (VDf k names cols).

(** [out] is [x] with the rows at [locs] replaced by the rows of [val]. *)
Inductive value_assigned (locs : list Z) : value -> value -> value -> Prop :=
| as_vec t data names vdata vnames out :
    assigned data locs vdata out ->
    value_assigned locs (VVec t data names) (VVec t vdata vnames) (VVec t out names)
| as_arr t d dim data vdata out :
    length out = length data ->
    (forall e, (Z.of_nat e < zprod dim)%Z ->
       assigned (chunk (Z.to_nat d) e data) locs (chunk (length locs) e vdata) (chunk (Z.to_nat d) e out)) ->
    value_assigned locs (VArr t (d :: dim) data) (VArr t (Z.of_nat (length locs) :: dim) vdata) (VArr t (d :: dim) out)
| as_df n names cols vnames vcols outs :
    Forall3 (value_assigned locs) cols vcols outs ->
    value_assigned locs (VDf n names cols) (VDf (length locs) vnames vcols) (VDf n names outs).

(** Vectors of the same type (and shape), of any sizes. *)
Inductive same_type : value -> value -> Prop :=
| st_vec t a na b nb : same_type (VVec t a na) (VVec t b nb)
| st_arr t d d' dim a b : same_type (VArr t (d :: dim) a) (VArr t (d' :: dim) b)
| st_df n names cols m names' cols' : Forall2 same_type cols cols' -> same_type (VDf n names cols) (VDf m names' cols').
