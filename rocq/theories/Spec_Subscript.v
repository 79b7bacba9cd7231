(** * Specification of the conversion of subscripts to locations. *)
From Verif Require Import Base M_Double M_Scalar M_Object M_Proxy M_Cast M_Slice M_Subscript Spec_Value Spec_Cast Spec_Slice.

(** Names, when present, go with the elements. *)
Definition named_ok {A} (x : named A) : Prop :=
  match x.2 with None => True | Some ns => length ns = length x.1 end.

(** The positions (from 0) of the elements satisfying [p], in order. *)
Definition positions {A} (p : A -> bool) (xs : list A) : list nat :=
  filter (fun i => match xs !! i with Some e => p e | None => false end = true) (seq 0 (length xs)).
Definition names_at (ns : option (list rstr)) (ks : list nat) : option (list rstr) :=
  match ns with None => None | Some ns => Some (omap (fun k => ns !! k) ks) end.
(** The elements satisfying [p], in order, with their names. *)
Definition kept {A} (p : A -> bool) (x : named A) : named A :=
  (filter (fun e => p e = true) x.1, names_at x.2 (positions p x.1)).

(** ** Logical subscripts *)
Definition lgl_selected (m : sub_missing) (e : Z) : bool :=
  (e =? 1)%Z || (match m with MissingPropagate => true | _ => false end && (e =? NA_LOGICAL)%Z).
(** Locations of the selected elements; NA for a missing one. *)
Definition lgl_locations (m : sub_missing) (x : named Z) : named Z :=
  let ks := positions (lgl_selected m) x.1 in
  (map (fun k => match x.1 !! k with Some 1%Z => (Z.of_nat k + 1)%Z | _ => NA_INTEGER end) ks,
   names_at x.2 ks).
(** A logical subscript of size 1 stands for one of size n. *)
Definition lgl_recycled (x : named Z) (n : nat) : named Z :=
  if bool_decide (length x.1 = n) then x
  else (replicate n (default 0%Z (x.1 !! 0)),
        match x.2 with None => None | Some ns => Some (replicate n (default None (ns !! 0))) end).

(** ** Integer subscripts *)
(** Does the subscript ask for the complement? *)
Definition has_negative (xs : list Z) : Prop := exists e, e ∈ xs /\ e <> NA_INTEGER /\ (e < 0)%Z.
Definition beyond (n e : Z) : Prop := e <> NA_INTEGER /\ (n < Z.abs e)%Z.
(** Extending locations must add the elements after the end one by one. *)
Definition consecutive (n : Z) (xs : list Z) : Prop :=
  exists k, xs ≡ₚ map (fun i => n + 1 + Z.of_nat i)%Z (seq 0 k).

Definition int_keep (opts : location_opts) (n e : Z) : bool :=
  if (e =? NA_INTEGER)%Z then match o_missing opts with MissingRemove => false | _ => true end
  else if (e =? 0)%Z then match o_zero opts with ZeroRemove => false | _ => true end
  else if (n <? Z.abs e)%Z then match o_oob opts with OobRemove => false | _ => true end
  else true.
Definition int_bad (opts : location_opts) (n : Z) (xs : list Z) : Prop :=
  (o_missing opts = MissingError /\ NA_INTEGER ∈ xs) \/
  (o_zero opts = ZeroError /\ 0%Z ∈ xs) \/
  (o_negative opts = NegativeError /\ has_negative xs) \/
  (o_oob opts = OobError /\ exists e, e ∈ xs /\ beyond n e) \/
  (o_oob opts = OobExtend /\
     ((exists e, e ∈ xs /\ beyond n e /\ (e < 0)%Z) \/
      ~ consecutive n (filter (fun e => (n < e)%Z) xs))).
(** Out-of-bounds removal applies [abs()] to a missing location that is to be
    propagated. *)
Definition abs_of_na (opts : location_opts) (n : Z) (xs : list Z) : Prop :=
  o_oob opts = OobRemove /\ o_missing opts = MissingPropagate /\ NA_INTEGER ∈ xs /\ exists e, e ∈ xs /\ beyond n e.
Definition invert_bad (opts : location_opts) (n : Z) (xs : list Z) : Prop :=
  (o_missing opts <> MissingRemove /\ NA_INTEGER ∈ xs) \/
  (o_zero opts = ZeroError /\ 0%Z ∈ xs) \/
  (exists e, e ∈ xs /\ (0 < e)%Z) \/
  (o_oob opts <> OobRemove /\ exists e, e ∈ xs /\ beyond n e).
(** The locations 1..n whose negative is not in the subscript, in order. *)
Definition complement (n : nat) (xs : list Z) : list Z :=
  filter (fun e => (- e)%Z ∉ xs) (map Z.of_nat (seq 1 n)).

(** ** Character subscripts *)
(** [k] is the location (from 1) of the first name equal to [s]. *)
Definition first_name (names : list rstr) (s : rstr) (k : Z) : Prop :=
  (1 <= k)%Z /\ names !! Z.to_nat (k - 1) = Some s /\
  forall i, i < Z.to_nat (k - 1) -> names !! i <> Some s.
Definition chr_bad (opts : location_opts) (names : list rstr) (xs : list rstr) : Prop :=
  (Some [] : rstr) ∈ xs \/
  (o_missing opts = MissingError /\ None ∈ xs) \/
  (exists s, s ∈ xs /\ s <> None /\ s ∉ names).
Definition chr_keep (opts : location_opts) (s : rstr) : bool :=
  match s, o_missing opts with None, MissingRemove => false | _, _ => true end.
Definition chr_located (names : list rstr) (s : rstr) (k : Z) : Prop :=
  match s with None => k = NA_INTEGER | Some _ => first_name names s k end.

(** ** Subscripts whose numbers are C values *)
Definition index_ok (i : index) : Prop :=
  match i with
  | INull => True
  | ILgl x => Forall lgl_wf x.1 /\ named_ok x
  | IInt x => Forall is_int x.1 /\ named_ok x
  | IDbl x => Forall dbl_wf x.1 /\ named_ok x
  | IChr x => named_ok x
  end.
