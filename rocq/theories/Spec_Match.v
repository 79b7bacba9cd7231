(** * Specification of locating matches (C30): which haystack locations match a
      needle, which of them are returned, and when it is an error *)
From Verif Require Import Base M_Double M_Scalar M_OrderChr M_OrderDf M_Match Spec_Order Spec_OrderRow P_Order P_Rank.

(** How the value at location [a] of [x] compares with the value at location
    [b] of [y]; missing values are smallest. *)
Definition pair_vcmp (nan_distinct : bool) (x y : ocol) (a b : Z) : comparison :=
  match x, y with
  | OLgl x, OLgl y | OInt x, OInt y => int_vcmp false (at_loc NA_INTEGER x a) (at_loc NA_INTEGER y b)
  | ODbl x, ODbl y => dbl_vcmp false nan_distinct (at_loc 0%Z x a) (at_loc 0%Z y b)
  | OCpl x, OCpl y => cpl_vcmp false nan_distinct (at_loc (0%Z, 0%Z) x a) (at_loc (0%Z, 0%Z) y b)
  | OChr x, OChr y => chr_vcmp false (at_loc None x a) (at_loc None y b)
  | _, _ => Eq
  end.
Definition same_type (x y : ocol) : Prop :=
  match x, y with
  | OLgl _, OLgl _ | OInt _, OInt _ | ODbl _, ODbl _ | OCpl _, OCpl _ | OChr _, OChr _ => True
  | _, _ => False
  end.
Fixpoint pairs_vcmp (nan_distinct : bool) (xs ys : list ocol) (a b : Z) : comparison :=
  match xs, ys with
  | x :: xs, y :: ys => cmp_then (pair_vcmp nan_distinct x y a b) (pairs_vcmp nan_distinct xs ys a b)
  | _, _ => Eq
  end.
(** A column of the needles and one of the haystack: packed columns compare
    lexicographically. *)
Definition key_vcmp (nan_distinct : bool) (x y : oproxy) (a b : Z) : comparison :=
  pairs_vcmp nan_distinct (proxy_cols x) (proxy_cols y) a b.

(** [needle op haystack] *)
Definition op_holds (op : mop) (c : comparison) : bool :=
  match op, c with
  | OPS_eq, Eq | OPS_gt, Gt | OPS_gte, Gt | OPS_gte, Eq | OPS_lt, Lt | OPS_lte, Lt | OPS_lte, Eq => true
  | _, _ => false
  end.
Definition is_eq (c : comparison) : bool := match c with Eq => true | _ => false end.

(** Complete needles match complete values that satisfy the condition.  An
    incomplete needle matches equal values if [incomplete = "match"], and if
    [incomplete = "compare"] and the condition allows equal values. *)
Definition cell_matches (inc : incomplete) (nan_distinct : bool) (op : mop) (x y : oproxy) (a b : Z) : bool :=
  if complete_at x a then complete_at y b && op_holds op (key_vcmp nan_distinct x y a b)
  else match inc with
       | INC_match => is_eq (key_vcmp nan_distinct x y a b)
       | INC_compare => is_eq (key_vcmp nan_distinct x y a b) && op_holds op Eq
       | _ => false
       end.
Fixpoint row_matches (inc : incomplete) (nan_distinct : bool) (ops : list mop) (xs ys : list oproxy) (a b : Z) : bool :=
  match ops, xs, ys with
  | op :: ops, x :: xs, y :: ys => cell_matches inc nan_distinct op x y a b && row_matches inc nan_distinct ops xs ys a b
  | _, _, _ => true
  end.
(** The haystack locations that match needle [a], increasing. *)
Definition matches_of (inc : incomplete) (nan_distinct : bool) (ops : list mop) (xs ys : list oproxy) (n : nat) (a : Z) : list Z :=
  List.filter (row_matches inc nan_distinct ops xs ys a) (locs n).
Definition needle_incomplete (xs : list oproxy) (a : Z) : bool := existsb (fun x => negb (complete_at x a)) xs.

(** Of the locations [l], those with the largest (smallest) value of a column. *)
Definition best_of (nan_distinct : bool) (f : mfilter) (y : oproxy) (l : list Z) : list Z :=
  match f with
  | FILTER_none => l
  | FILTER_max => List.filter (fun b => forallb (fun b' => match key_vcmp nan_distinct y y b' b with Gt => false | _ => true end) l) l
  | FILTER_min => List.filter (fun b => forallb (fun b' => match key_vcmp nan_distinct y y b' b with Lt => false | _ => true end) l) l
  end.

(** ** What is returned, given what is found for each needle *)
(** The locations returned for a needle, of those found (increasing). *)
Definition chosen (m : multiple) (found choice : list Z) : Prop :=
  match m with
  | MULTIPLE_all | MULTIPLE_warning | MULTIPLE_error => choice = found
  | MULTIPLE_first => choice = match found with [] => [] | h :: _ => [h] end
  | MULTIPLE_last => choice = match rev found with [] => [] | h :: _ => [h] end
  | MULTIPLE_any => match found with [] => choice = [] | _ => exists h, h ∈ found /\ choice = [h] end
  end.

Section outcome.
  (** Sizes and options; [sig]: the needles that are treated as incomplete;
      [choice]: the haystack locations returned for a needle. *)
  Context (n_needles n_haystack : nat) (opts : mopts) (sig : Z -> bool) (choice : Z -> list Z).
  Definition needle_rows (a : Z) : list (Z * Z) :=
    if sig a then match o_incomplete opts with INC_value v => [(a, v)] | _ => [] end
    else match choice a with
         | [] => match o_no_match opts with NM_value v => [(a, v)] | _ => [] end
         | hs => map (pair a) hs
         end.
  Definition chooses (h a : Z) : bool := bool_decide (h ∈ choice a).
  (** The haystack locations without match. *)
  Definition unmatched : list Z := List.filter (fun h => negb (existsb (chooses h) (locs n_needles))) (locs n_haystack).
  Definition result_rows : list (Z * Z) :=
    concat (map needle_rows (locs n_needles)) ++
    match o_remaining opts with REM_value v => map (pair v) unmatched | _ => [] end.
  (** A needle with several matches, a haystack location matched several times. *)
  Definition many_needle : Prop := exists a, a ∈ locs n_needles /\ 1 < length (choice a).
  Definition many_haystack : Prop := exists a b h, a ∈ locs n_needles /\ b ∈ locs n_needles /\ a <> b /\ h ∈ choice a /\ h ∈ choice b.

  (** Reasons for an error; [total] is the number of matches, where a needle
      without match counts as one. *)
  Definition violation (total : Z) (e : String.string) : Prop :=
    (one_match_per_needle (o_multiple opts) = false /\ (R_LEN_T_MAX < total)%Z /\
      e = "Match procedure results in an allocation larger than 2^31-1 elements."%string) \/
    (o_incomplete opts = INC_error /\ (exists a, a ∈ locs n_needles /\ sig a = true) /\ e = "incomplete needle"%string) \/
    (o_no_match opts = NM_error /\ (exists a, a ∈ locs n_needles /\ sig a = false /\ choice a = []) /\ e = "needle without match"%string) \/
    (o_multiple opts = MULTIPLE_error /\ many_needle /\ e = "multiple matches"%string) \/
    (o_relationship opts = REL_one_to_one /\ many_needle /\ e = "relationship one-to-one: multiple matches of a needle"%string) \/
    (o_relationship opts = REL_many_to_one /\ many_needle /\ e = "relationship many-to-one: multiple matches of a needle"%string) \/
    (o_relationship opts = REL_one_to_one /\ many_haystack /\ e = "relationship one-to-one: multiple matches in the haystack"%string) \/
    (o_relationship opts = REL_one_to_many /\ many_haystack /\ e = "relationship one-to-many: multiple matches in the haystack"%string) \/
    (o_remaining opts = REM_error /\ unmatched <> [] /\ e = "remaining haystack location"%string).

  Definition warns (w : mwarning) : Prop :=
    match w with
    | WARN_multiple => o_multiple opts = MULTIPLE_warning /\ many_needle
    | WARN_many_to_many => o_relationship opts = REL_warn_many_to_many /\ many_needle /\ many_haystack
    end.

  (** The result: an error if there is a reason for it, and only then. *)
  Definition outcome (total_low total_high : Z) (r : res (list Z * list Z * list mwarning)) : Prop :=
    match r with
    | Ok (out_needles, out_haystack, warnings) =>
        (forall e, ~ violation total_low e) /\ zip out_needles out_haystack = result_rows /\ length out_needles = length out_haystack /\
        NoDup warnings /\ (forall w, w ∈ warnings <-> warns w)
    | Err e => violation total_high e
    | UB _ => False
    end.
End outcome.

(** The number of rows, where a needle without any counts as one. *)
Definition count_rows (n_needles : nat) (f : Z -> list Z) : Z :=
  foldr Z.add 0%Z (map (fun a => Z.max 1 (Z.of_nat (length (f a)))) (locs n_needles)).
