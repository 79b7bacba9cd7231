(** * Specification: binding columns and rows *)
From Verif Require Import Base M_Double M_Scalar M_Object M_Proxy M_Slice Spec_Slice M_Rep Spec_Rep M_Bind.

(** The vectors of the inputs. *)
Definition vals (xs : list (option rowed)) : list (option value) := map (option_map fst) xs.

(** ** Columns *)
(** The columns of a vector, a matrix or a data frame. *)
Definition columns_of (w : value) : list (rstr * value) :=
  match w with
  | VVec _ _ _ => [(empty_str, w)]
  | VArr t [] data => []
  | VArr t (d :: dim) data => map (fun e => (empty_str, VVec t (chunk (Z.to_nat d) e data) None)) (seq 0 (Z.to_nat (zprod dim)))
  | VDf _ names cols => zip names cols
  end.
(** What an input with outer name [o] contributes: a named input is one column
    of that name, an unnamed input its columns. *)
Definition contribution (o : rstr) (w : option value) : list (rstr * value) :=
  match w with
  | None => []
  | Some w => if decide (o = empty_str) then columns_of w else [(o, w)]
  end.
Definition outer_names_of (n : nat) (xs_names : option (list rstr)) : list rstr :=
  match xs_names with Some l => l | None => replicate n empty_str end.
Definition contributions (xs_names : option (list rstr)) (ws : list (option value)) : list (rstr * value) :=
  concat (zip_with contribution (outer_names_of (length ws) xs_names) ws).
(** Arrays of more than two dimensions can't be bound. *)
Definition bindable (w : option value) : Prop :=
  match w with Some (VArr _ dim _) => length dim <= 2 | _ => True end.

(** The first row names. *)
Fixpoint first_rownames (rns : list (option (list rstr))) (default : option (list rstr)) : option (list rstr) :=
  match rns with [] => default | Some rn :: _ => Some rn | None :: rns => first_rownames rns default end.

(** ** Rows *)
Definition unspecified (v : value) : Prop :=
  match v with VVec TLgl data _ => data <> [] /\ Forall (fun e => e = ELgl NA_LOGICAL) data | _ => False end.
(** An input as a data frame: a vector is one row, its names are column names;
    [repair] relates names to repaired names. *)
Inductive row_form (repair : list rstr -> list rstr -> Prop) : option (value * option (list rstr)) -> option (value * option (list rstr)) -> Prop :=
| rf_null : row_form repair None None
| rf_unspecified data : unspecified (VVec TLgl data None) -> forall rn, row_form repair (Some (VVec TLgl data None, rn)) (Some (VVec TLgl data None, rn))
| rf_df n names names' cols rn : repair names names' -> row_form repair (Some (VDf n names cols, rn)) (Some (VDf n names' cols, rn))
| rf_matrix t d n data names' rn : repair (replicate (Z.to_nat n) empty_str) names' ->
    row_form repair (Some (VArr t [d; n] data, rn)) (Some (VDf (Z.to_nat d) names' (map snd (columns_of (VArr t [d; n] data))), None))
| rf_array1 t d data names' rn : repair (replicate (length data) empty_str) names' ->
    row_form repair (Some (VArr t [d] data, rn)) (Some (VDf 1 names' (map (fun e => VVec t [e] None) data), None))
| rf_vector t data names names' rn : ~ (names = None /\ unspecified (VVec t data names)) ->
    repair (match names with Some l => l | None => replicate (length data) empty_str end) names' ->
    row_form repair (Some (VVec t data names, rn)) (Some (VDf 1 names' (map (fun e => VVec t [e] None) data), None)).

(** The row names of one input of size [n], from its outer name and its own row
    names; [None] when there are none. *)
Definition blank_name (s : rstr) : Prop := s = None \/ s = empty_str.
Definition blanks (inner : option (list rstr)) : Prop := match inner with None => True | Some l => Forall blank_name l end.
Definition fill_names (n : nat) (names : option (list rstr)) : list rstr :=
  match names with Some l => l | None => replicate n empty_str end.
(** Row names of the result: empty for inputs without row names, if any has some. *)
Definition joined_names (ns : list Z) (nms : list (option (list rstr))) : option (list rstr) :=
  if forallb (fun o => match o with None => true | Some _ => false end) nms then None
  else Some (concat (zip_with (fun n o => fill_names (Z.to_nat n) o) ns nms)).
Inductive input_names (spec : name_spec) (inner : option (list rstr)) (n : nat) : option rstr -> option (list rstr) -> Prop :=
| in_zap outer : spec = SpecZap -> input_names spec inner n outer None
| in_inner : spec <> SpecZap -> input_names spec inner n None inner
| in_blank o : spec <> SpecZap -> blank_name o -> input_names spec inner n (Some o) (Some (fill_names n inner))
| in_outer o : spec <> SpecZap -> ~ blank_name o -> blanks inner -> n = 1 -> input_names spec inner n (Some o) (Some [o])
| in_fn f o arg out : spec = SpecFn f -> ~ blank_name o -> ~ (blanks inner /\ n = 1) ->
    (blanks inner -> arg = inl n) -> (~ blanks inner -> exists l, inner = Some l /\ arg = inr l) -> f o arg = Ok (Some out) ->
    length out = n \/ length out = 1 ->
    input_names spec inner n (Some o) (Some (match out with [s] => replicate n s | _ => out end))
| in_fn_null f o arg : spec = SpecFn f -> ~ blank_name o -> ~ (blanks inner /\ n = 1) ->
    (blanks inner -> arg = inl n) -> (~ blanks inner -> exists l, inner = Some l /\ arg = inr l) -> f o arg = Ok None ->
    input_names spec inner n (Some o) None.
(** The row names of input [i]; inputs without rows have none.  Names given by a
    specification must be as many as there are rows. *)
Definition outer_at (xs_names : option (list rstr)) (i : nat) : option rstr := match xs_names with Some l => l !! i | None => None end.
Definition name_of_input (spec : name_spec) (xs_names : option (list rstr)) (ws : list (option rowed)) (ns : list Z) (i : nat) (o : option (list rstr)) : Prop :=
  match (ws !! i : option (option rowed)), ns !! i with
  | Some (Some (_, inner)), Some n =>
      if (n =? 0)%Z then o = None
      else input_names spec inner (Z.to_nat n) (outer_at xs_names i) o /\ length (fill_names (Z.to_nat n) o) = Z.to_nat n
  | _, _ => o = None
  end.
(** Each element once per row. *)
Definition spread {A} (ns : list Z) (l : list A) : list A := concat (zip_with (fun n e => replicate (Z.to_nat n) e) ns l).
