(** * Model: fields of records (src/fields.c) *)
From Verif Require Import Base M_Double M_Scalar M_Cast.

(** ** Doubles after arithmetic

    The value of a double after [val--] is kept as its exact value times
    2^1074 ([None] is NaN). *)

(** The nearest double (ties to even) of an exact value times 2^1074.
    Values that would overflow are not rounded to infinity; no value here
    gets larger by rounding than the infinity that [dbl_value] has. *)
Definition round_dbl (v : Z) : Z :=
  let a := Z.abs v in
  if (a <? 2 ^ 53)%Z then v
  else
    let e := (Z.log2 a - 52)%Z in
    let q := (a / 2 ^ e)%Z in
    let r := (a mod 2 ^ e)%Z in
    let half := (2 ^ (e - 1))%Z in
    let q := if (half <? r)%Z || ((r =? half)%Z && Z.odd q) then (q + 1)%Z else q in
    (Z.sgn v * (q * 2 ^ e))%Z.
Definition dbl_dec (x : dbl) : option Z :=
  if isnan x then None else Some (round_dbl (dbl_value x - dscale)).
(** Comparisons with an [int] *)
Definition vlt_int (v : option Z) (i : Z) : bool :=
  match v with None => false | Some v => (v <? i * dscale)%Z end.
Definition vge_int (v : option Z) (i : Z) : bool :=
  match v with None => false | Some v => (i * dscale <=? v)%Z end.
Definition vgt_int (v : option Z) (i : Z) : bool :=
  match v with None => false | Some v => (i * dscale <? v)%Z end.
(** C [(int) x] *)
Definition int_of_val (v : option Z) : res Z :=
  match v with
  | None => UB "conversion of NaN to int"
  | Some v =>
      let t := (v ÷ dscale)%Z in
      if (INT_MIN <=? t)%Z && (t <=? INT_MAX)%Z then Ok t
      else UB "conversion of an out-of-range double to int"
  end.

(** ** Strings

    A CHARSXP is its bytes and its encoding (the global cache makes pointers
    equal exactly if both are); [None] is [NA_STRING]. *)
Record charsxp := Chr { ch_bytes : list Z; ch_enc : Z }.
#[global] Instance charsxp_dec : EqDecision charsxp.
Proof. solve_decision. Defined.

Section fields.
  (** [Rf_translateCharUTF8()], which may fail *)
  Context (translate : charsxp -> res (list Z)).

  (** src/fields.c:7-18 [equal_string]; [x_utf8] has been filled in by the only caller. *)
  Definition equal_string (x : charsxp) (x_utf8 : list Z) (y : charsxp) : res bool :=
    if bool_decide (x = y) then Ok true
    else
      let! y_utf := translate y in
      Ok (bool_decide (y_utf = x_utf8)).

  Inductive findex :=
  | FInt (v : list Z)
  | FDbl (v : list dbl)
  | FStr (v : list (option charsxp))
  | FOther (length : nat).
  Definition findex_length (i : findex) : nat :=
    match i with FInt v => length v | FDbl v => length v | FStr v => length v | FOther n => n end.

  (** A list with names (its other attributes are not looked at). *)
  Record flist (V : Type) := FL { fl_elts : list V; fl_names : option (list (option charsxp)) }.
  Arguments FL {V}. Arguments fl_elts {V}. Arguments fl_names {V}.

  (** src/fields.c:20-80 [find_offset], 66-75: the loop over the names *)
  Fixpoint find_name (val_0 : charsxp) (val_0_chr : list Z) (names : list (option charsxp)) (j : nat) : res nat :=
    match names with
    | [] => Err "Invalid index: field name not found"
    | None :: _ => Err "Corrupt x: element is unnamed"
    | Some name_j :: names =>
        let! eq := equal_string val_0 val_0_chr name_j in
        if eq : bool then Ok j else find_name val_0 val_0_chr names (S j)
    end.

  (** src/fields.c:20-80 [find_offset] *)
  Definition find_offset {V} (x : flist V) (index : findex) : res Z :=
    if negb (findex_length index =? 1) then Err "Invalid index: must have length 1"
    else
      let n := Z.of_nat (length (fl_elts x)) in
      match index with
      | FInt v =>
          let! val := rd v 0 in
          if (val =? NA_INTEGER)%Z then Err "Invalid index: NA_integer_"
          else
            let val := (val - 1)%Z in
            if (val <? INT_MIN)%Z then UB "signed overflow in find_offset"
            else if (val <? 0)%Z || (n <=? val)%Z then Err "Invalid index: out of bounds"
            else Ok val
      | FDbl v =>
          let! val := rd v 0 in
          if dbl_class_eqb (dbl_classify val) DblMissing then Err "Invalid index: NA_real_"
          else
            let val := dbl_dec val in
            if vlt_int val 0 || vge_int val n then Err "Invalid index: out of bounds"
            else if vgt_int val INT_MAX then Err "Invalid index: too large"
            else int_of_val val
      | FStr v =>
          match fl_names x with
          | None => Err "Corrupt x: no names"
          | Some names =>
              let! val_0 := rd v 0 in
              match val_0 with
              | None => Err "Invalid index: NA_character_"
              | Some val_0 =>
                  let! val_0_chr := translate val_0 in
                  if bool_decide (val_0_chr = []) then Err "Invalid index: empty string"
                  else
                    let! j := find_name val_0 val_0_chr names 0 in
                    Ok (Z.of_nat j)
              end
          end
      | FOther _ => Err "Invalid index: must be a character or numeric vector"
      end.

  (** src/fields.c:84-88 [vctrs_list_get] *)
  Definition list_get {V} (x : flist V) (index : findex) : res V :=
    let! idx := find_offset x index in
    rdZ (fl_elts x) idx.
  (** src/fields.c:90-98 [vctrs_list_set] *)
  Definition list_set {V} (x : flist V) (index : findex) (value : V) : res (flist V) :=
    let! idx := find_offset x index in
    let! elts := wrZ (fl_elts x) idx value in
    Ok (FL elts (fl_names x)).

  (** src/fields.c:102-107 [check_rcrd]; that [x] is a list is given here *)
  Definition check_rcrd {V} (x : flist V) : res unit :=
    if length (fl_elts x) =? 0 then Err "Corrupt rcrd: length 0" else Ok tt.
  (** src/fields.c:109-113 [vctrs_fields] *)
  Definition fields {V} (x : flist V) : res (option (list (option charsxp))) :=
    let! _ := check_rcrd x in
    Ok (fl_names x).
  (** src/fields.c:115-119 [vctrs_n_fields] *)
  Definition n_fields {V} (x : flist V) : res nat :=
    let! _ := check_rcrd x in
    Ok (length (fl_elts x)).
  (** src/fields.c:121-124 [vctrs_field_get] *)
  Definition field_get {V} (x : flist V) (index : findex) : res V :=
    let! _ := check_rcrd x in
    list_get x index.
  (** src/fields.c:126-138 [vctrs_field_set].  [obj_is_vector()] and
      [vec_size()] of fields are parameters; the size of a record is that of
      its first field. *)
  Definition field_set {V} (is_vector : V -> bool) (vec_size : V -> nat) (x : flist V) (index : findex) (value : V)
      : res (flist V) :=
    let! _ := check_rcrd x in
    if negb (is_vector value) then Err "Invalid value: not a vector."
    else
      let! first := rd (fl_elts x) 0 in
      if negb (vec_size value =? vec_size first) then Err "Invalid value: incorrect length."
      else list_set x index value.
End fields.
#[global] Arguments FL {V}. #[global] Arguments fl_elts {V}. #[global] Arguments fl_names {V}.
