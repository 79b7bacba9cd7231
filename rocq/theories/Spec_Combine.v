(** * Specification: names of combined vectors *)
From Verif Require Import Base M_Double M_Scalar M_Object M_Proxy M_Slice Spec_Slice M_Rep Spec_Rep Spec_Chop M_Names Spec_Names M_Bind Spec_Bind.

(** The names [o] of an input of size [n] with outer name [outer] and names
    [inner]: as in Spec_Bind; an empty input with an outer name is named. *)
Definition named_by (spec : name_spec) (outer : option rstr) (inner : option (list rstr)) (n : nat) (o : option (list rstr)) : Prop :=
  if n =? 0 then o = match spec, outer with SpecZap, _ => None | _, None => inner | _, Some _ => Some [] end
  else input_names spec inner n outer o /\ length (fill_names n o) = n.
(** Outer names are not used when the result is a data frame. *)
Definition used_outer (xs_names : option (list rstr)) (p : value) (i : nat) : option rstr :=
  match p with VDf _ _ _ => None | _ => outer_at xs_names i end.
(** The names of a vector, or the row names of a data frame. *)
Definition own_names (x : option rowed) : option (list rstr) :=
  match x with None => None | Some (VDf _ _ _, rn) => rn | Some (v, _) => top_names v end.
(** A vector with names; for a data frame they are row names, which must be unique. *)
Definition name_result (addr : rstr -> Z) (r : repair) (out : value) (names : option (list rstr)) : res (option rowed) :=
  match names with
  | None => Ok (Some (out, None))
  | Some l =>
      let! l := vec_as_names addr r l in
      match out with
      | VVec t data _ => Ok (Some (VVec t data (Some l), None))
      | VArr _ _ _ => Ok (Some (out, None))
      | VDf _ _ _ => let! l := vec_as_unique_names addr l in Ok (Some (out, Some l))
      end
  end.
(** A name repair that returns as many names as it gets (see C34 for unique names). *)
Definition repair_fits (r : repair) (names : option (list rstr)) : Prop :=
  match r, names with
  | RepairFn f, Some l => forall l', f l = Ok l' -> length l' = length l
  | RepairUnique, Some l => names_ok l
  | _, _ => True
  end.
(** Names placed at locations; the other names are empty. *)
Definition names_placed (n : nat) (locss : list (list Z)) (nms : list (option (list rstr))) (out : list rstr) : Prop :=
  length out = n /\
  (forall i loc nm k l, locss !! i = Some loc -> nms !! i = Some (Some nm) -> loc !! k = Some l -> l <> NA_INTEGER ->
     out !! Z.to_nat (l - 1) = nm !! k) /\
  (forall l, (1 <= l <= Z.of_nat n)%Z -> (forall i loc nm, locss !! i = Some loc -> nms !! i = Some (Some nm) -> l ∉ loc) ->
     out !! Z.to_nat (l - 1) = Some empty_str).
(** The inputs' sizes, and the names of each input: of [vec_c()], and of
    [list_unchop()] (where inputs are recycled and [NULL] has no names). *)
Definition rsizes (xs : list (option rowed)) : list Z := map (fun x : option rowed => match x with None => 0%Z | Some v => value_size v.1 end) xs.
Definition names_for (spec : name_spec) (p : value) (xs : list (option rowed)) (xs_names : option (list rstr)) (nms : list (option (list rstr))) : Prop :=
  length nms = length xs /\
  forall i x n o, xs !! i = Some x -> rsizes xs !! i = Some n -> nms !! i = Some o ->
    named_by spec (used_outer xs_names p i) (own_names x) (Z.to_nat n) o.
Definition names_at (spec : name_spec) (p : value) (xs : list (option rowed)) (xs_names : option (list rstr)) (locss : list (list Z)) (nms : list (option (list rstr))) : Prop :=
  length nms = length xs /\
  forall i x loc o, xs !! i = Some x -> locss !! i = Some loc -> nms !! i = Some o ->
    match x with
    | None => o = None
    | Some (v, rn) => forall r, recycled (Z.of_nat (length loc)) (Some v) (Some r) ->
        named_by spec (used_outer xs_names p i) (own_names (Some (r, rn))) (length loc) o
    end.
(** Data frames with row names are not recycled. *)
Definition rows_not_recycled (xs : list (option rowed)) (locss : list (list Z)) : Prop :=
  forall i v rn loc, xs !! i = Some (Some (v, Some rn)) -> locss !! i = Some loc -> value_size v = Z.of_nat (length loc).
Definition some_names (nms : list (option (list rstr))) (l : list rstr) : option (list rstr) :=
  if forallb (fun o => match o with None => true | Some _ => false end) nms then None else Some l.
(** Each input is at its locations; the other locations are missing. *)
Definition values_placed (locss : list (list Z)) (ys : list source) (p out : value) : Prop :=
  (forall i loc r w k l, locss !! i = Some loc -> ys !! i = Some (Some (r, w)) -> loc !! k = Some l -> l <> NA_INTEGER ->
     same_row (full out) l (full (with_names None w)) (Z.of_nat k + 1)) /\
  others_missing full locss ys p out.
(** An outer name that can't be merged without a specification: with more than
    one row, or with other names. *)
Definition cannot_merge (outer : option rstr) (inner : option (list rstr)) (n : nat) : Prop :=
  exists o, outer = Some o /\ ~ blank_name o /\ ~ (blanks inner /\ n <= 1).
