(** * Specification: types, columns by name, types up to order *)
From Verif Require Import Base M_Double M_Scalar M_Proxy M_Slice M_Shape M_Ptype Spec_Factor.

(** The column named [n] (the first one). *)
Fixpoint col {A} (names : list rstr) (cols : list A) (n : rstr) : option A :=
  match names, cols with
  | m :: names, c :: cols => if decide (m = n) then Some c else col names cols n
  | _, _ => None
  end.
(** The names of [ys] that are not in [xs]. *)
Definition new_names (xs ys : list rstr) : list rstr := filter (fun n : rstr => n ∉ xs) ys.

(** Types of proper vectors: arrays have a dimension, levels and names are
    without duplicates, time zones have at least one element.  At most [k] levels or
    columns each. *)
Fixpoint ty_ok (k : Z) (x : ty) : Prop :=
  match x with
  | TyNull | TyUnspecified | TyDate => True
  | TyBare _ d => d <> Some []
  | TyFactor l | TyOrdered l => NoDup l /\ strs_ok l /\ (Z.of_nat (length l) <= k)%Z
  | TyPosixct tz | TyPosixlt tz => tz <> Some []
  | TyDf _ names cols =>
      NoDup names /\ strs_ok names /\ length names = length cols /\ (Z.of_nat (length names) <= k)%Z /\
      (fix go cols := match cols with [] => True | c :: cols => ty_ok k c /\ go cols end) cols
  | TyScalar => False
  end.

(** The type of a vector without its size: arrays have no rows, a date-time
    without time zone has the local one. *)
Fixpoint proto (x : ty) : ty :=
  match x with
  | TyBare t (Some (_ :: d)) => TyBare t (Some (0%Z :: d))
  | TyPosixct None => TyPosixct (Some [empty_str])
  | TyPosixlt None => TyPosixlt (Some [empty_str])
  | TyDf tib names cols => TyDf tib names (map proto cols)
  | _ => x
  end.

(** Same type up to the order of levels, the order of columns, and which of two
    time zones is used when both are not local. *)
Inductive ty_equiv : ty -> ty -> Prop :=
| te_null : ty_equiv TyNull TyNull
| te_unspecified : ty_equiv TyUnspecified TyUnspecified
| te_bare t d : ty_equiv (TyBare t d) (TyBare t d)
| te_factor l m : l ≡ₚ m -> ty_equiv (TyFactor l) (TyFactor m)
| te_ordered l : ty_equiv (TyOrdered l) (TyOrdered l)
| te_date : ty_equiv TyDate TyDate
| te_posixct tz : ty_equiv (TyPosixct tz) (TyPosixct tz)
| te_posixct_zones a b : a <> empty_str -> b <> empty_str -> ty_equiv (TyPosixct (Some [a])) (TyPosixct (Some [b]))
| te_posixlt tz : ty_equiv (TyPosixlt tz) (TyPosixlt tz)
| te_df tib xn xc yn yc :
    xn ≡ₚ yn -> length xn = length xc -> length yn = length yc ->
    (forall n c d, col xn xc n = Some c -> col yn yc n = Some d -> ty_equiv c d) ->
    ty_equiv (TyDf tib xn xc) (TyDf tib yn yc).

(** No POSIXlt, and time zones that are one string. *)
Fixpoint ty_plain (x : ty) : Prop :=
  match x with
  | TyPosixlt _ => False
  | TyPosixct tz => match tz with None => True | Some l => length l = 1 end
  | TyDf _ _ cols => (fix go cols := match cols with [] => True | c :: cols => ty_plain c /\ go cols end) cols
  | _ => True
  end.

(** How a column of the common type comes from the columns of the inputs. *)
Definition common_col (join : ty -> ty -> res ty) (x y out : option ty) : Prop :=
  match x, y with
  | None, None => out = None
  | Some c, None | None, Some c => out = Some (proto c)
  | Some c, Some d => exists r, out = Some r /\ join c d = Ok r
  end.

(** ** The documented table of common types *)
(** Logical, integer, double, complex, in this order; but logical and complex have
    no common type. *)
Definition num_rank (t : vtype) : option nat :=
  match t with TLgl => Some 0 | TInt => Some 1 | TDbl => Some 2 | TCpl => Some 3 | _ => None end.
Definition bare_common (t u v : vtype) : Prop :=
  (t = u /\ v = t) \/
  exists a b, num_rank t = Some a /\ num_rank u = Some b /\ Nat.max a b - Nat.min a b < 3 /\ num_rank v = Some (Nat.max a b).
(** Characters and factors, with their dimensions. *)
Definition str_dims (x : ty) : option dims :=
  match x with TyBare TChr d => Some d | TyFactor _ | TyOrdered _ => Some None | _ => None end.
Definition is_chr (x : ty) : bool := match x with TyBare TChr _ => true | _ => false end.
(** Dates and date-times, with their time zone (that of a date is local). *)
Definition zone (x : ty) : option rstr :=
  match x with
  | TyDate | TyPosixct None | TyPosixlt None => Some empty_str
  | TyPosixct (Some (s :: _)) | TyPosixlt (Some (s :: _)) => Some s
  | _ => None
  end.
(** The first of two time zones that is not local. *)
Definition zone2 (a b : rstr) : rstr := if decide (a = empty_str) then b else a.
(** [flat x y a]: vectors [x] and [y], not data frames and not unspecified, have
    common type [a]. *)
Inductive flat : ty -> ty -> ty -> Prop :=
| f_bare t u v d e s : bare_common t u v -> vec_shape2 d e = Ok s -> flat (TyBare t d) (TyBare u e) (TyBare v s)
| f_str x y d e s : str_dims x = Some d -> str_dims y = Some e -> is_chr x || is_chr y = true ->
    vec_shape2 d e = Ok s -> flat x y (TyBare TChr s)
| f_fct l m : flat (TyFactor l) (TyFactor m) (TyFactor (l ++ new_names l m))
| f_ord l : flat (TyOrdered l) (TyOrdered l) (TyOrdered l)
| f_date : flat TyDate TyDate TyDate
| f_time x y a b : zone x = Some a -> zone y = Some b -> ~ (x = TyDate /\ y = TyDate) ->
    flat x y (TyPosixct (Some [zone2 a b])).
(** Neither NULL nor unspecified, and not a data frame. *)
Definition is_df (x : ty) : bool := match x with TyDf _ _ _ => true | _ => false end.
Definition is_some_type (x : ty) : bool := match x with TyNull | TyUnspecified => false | _ => true end.
(** No complex columns. *)
Fixpoint no_cpl (x : ty) : Prop :=
  match x with
  | TyBare t _ => t <> TCpl
  | TyDf _ _ cols => (fix go cols := match cols with [] => True | c :: cols => no_cpl c /\ go cols end) cols
  | _ => True
  end.
