(** * Specification: chopping and combining *)
From Verif Require Import Base M_Double M_Scalar M_Object M_Proxy M_Slice Spec_Slice M_Rep Spec_Rep.

(** Consecutive blocks of locations, of given sizes, after [start] locations. *)
Fixpoint size_blocks (start : Z) (sizes : list Z) : list (list Z) :=
  match sizes with
  | [] => []
  | s :: sizes => map (fun k => start + Z.of_nat k + 1)%Z (seq 0 (Z.to_nat s)) :: size_blocks (start + s) sizes
  end.
(** Location lists that together hold each of 1..n exactly once. *)
Definition partition (n : nat) (locss : list (list Z)) : Prop := concat locss ≡ₚ all_locs_of n.

(** A vector without any names, and one in which absent names are empty strings. *)
Fixpoint unnamed (v : value) : value :=
  match v with
  | VVec t data _ => VVec t data None
  | VArr t dim data => VArr t dim data
  | VDf n names cols => VDf n names (map unnamed cols)
  end.
Fixpoint full (v : value) : value :=
  match v with
  | VVec t data names =>
      VVec t data (Some match names with None => replicate (length data) empty_str | Some n => n end)
  | VArr t dim data => VArr t dim data
  | VDf n names cols => VDf n names (map full cols)
  end.
(** The names of a vector (not of its columns). *)
Definition top_names (v : value) : option (list rstr) := match v with VVec _ _ names => names | _ => None end.
Definition with_names (names : option (list rstr)) (v : value) : value :=
  match v with VVec t data _ => VVec t data names | _ => v end.
Definition no_na_names (names : option (list rstr)) : option (list rstr) :=
  match names with
  | None => None
  | Some n => Some (map (fun s => match s with None => empty_str | Some _ => s end) n)
  end.

(** Row [i] of [a] is row [j] of [b]. *)
Definition same_row (a : value) (i : Z) (b : value) (j : Z) : Prop :=
  exists r, sliced [i] a r /\ sliced [j] b r.
(** [p] has the type of [v], with the same column names. *)
Inductive proto_of : value -> value -> Prop :=
| po_vec t a na b nb : proto_of (VVec t a na) (VVec t b nb)
| po_arr t d d' dim a b : proto_of (VArr t (d :: dim) a) (VArr t (d' :: dim) b)
| po_df n names cols m cols' : Forall2 proto_of cols cols' -> proto_of (VDf n names cols) (VDf m names cols').

(** What each input of [list_unchop()] or [vec_c()] becomes: [r] is the recycled
    input (it gives the names), [w] its cast (it gives the values). *)
Definition prepared (p r w : value) : Prop :=
  value_ok r /\ value_ok w /\ proto_of p w /\ value_size w = value_size r /\
  match w with VVec _ _ _ => True | _ => top_names r = None end.

(** ** Combining *)
Definition source := option (value * value).
(** [y] is what the input [x] becomes for a block of [n] locations. *)
Definition ready (cast : value -> res value) (n : Z) (x : option value) (y : source) : Prop :=
  match x with
  | None => y = None
  | Some v => exists r w, y = Some (r, w) /\ recycled n (Some v) (Some r) /\ cast r = Ok w
  end.
(** Location [l] is assigned from block [j]. *)
Definition covers (locss : list (list Z)) (ys : list source) (j : nat) (l : Z) : Prop :=
  exists loc rw, locss !! j = Some loc /\ ys !! j = Some (Some rw) /\ l ∈ loc.
(** The values at a location are those of the last block that assigns it. *)
Definition placed_last (locss : list (list Z)) (ys : list source) (out : value) : Prop :=
  forall i loc r w k l, locss !! i = Some loc -> ys !! i = Some (Some (r, w)) -> loc !! k = Some l -> l <> NA_INTEGER ->
    (forall k', k < k' -> loc !! k' <> Some l) -> (forall j, i < j -> ~ covers locss ys j l) ->
    same_row (unnamed out) l (unnamed w) (Z.of_nat k + 1).
(** When no location is assigned twice: values and names. *)
Definition no_overlap (locss : list (list Z)) : Prop := NoDup (filter (fun l => l <> NA_INTEGER) (concat locss)).
Definition placed_named (locss : list (list Z)) (ys : list source) (out : value) : Prop :=
  forall i loc r w k l, locss !! i = Some loc -> ys !! i = Some (Some (r, w)) -> loc !! k = Some l -> l <> NA_INTEGER ->
    same_row (full out) l (full (with_names (no_na_names (top_names r)) w)) (Z.of_nat k + 1).
(** Locations that are not assigned hold missing values. *)
Definition others_missing (view : value -> value) (locss : list (list Z)) (ys : list source) (p out : value) : Prop :=
  forall l, (1 <= l <= value_size out)%Z -> (forall j, ~ covers locss ys j l) -> same_row (view out) l (view p) NA_INTEGER.
