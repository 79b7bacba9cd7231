(** * Model: casts between bare logical, integer and double vectors
    (src/cast-bare.c, src/cast.c and the R methods they fall back to).

    Not modelled here: dimensions ([vec_shape_broadcast]), data frames, S3
    classes, and the restart by which a caller may accept a lossy cast
    ([allow_lossy_cast()]). *)
From Verif Require Import Base M_Double M_Scalar M_Object M_Proxy.

(** ** C conversions and comparisons between [int] and [double].

    [dbl_value] is the exact value times 2^1074.  An [int] converts to [double]
    without rounding, so comparing a double with an [int] compares exact values. *)
Definition dscale : Z := (2 ^ 1074)%Z.
Definition c_deq_int (x : dbl) (i : Z) : bool :=
  negb (isnan x) && (dbl_value x =? i * dscale)%Z.
Definition c_dle_int (x : dbl) (i : Z) : bool :=
  negb (isnan x) && (dbl_value x <=? i * dscale)%Z.
Definition c_dge_int (x : dbl) (i : Z) : bool :=
  negb (isnan x) && (i * dscale <=? dbl_value x)%Z.
Definition c_dgt_int (x : dbl) (i : Z) : bool :=
  negb (isnan x) && (i * dscale <? dbl_value x)%Z.
(** C [isfinite()]. *)
Definition isfinite (x : dbl) : bool := negb (dbl_exp x =? 2047)%Z.

(** C [(int) x]: truncation towards zero; not defined for NaN and for values
    that do not fit. *)
Definition c_int_of_dbl (x : dbl) : res Z :=
  if isnan x then UB "conversion of NaN to int"
  else
    let t := (dbl_value x ÷ dscale)%Z in
    if (INT_MIN <=? t)%Z && (t <=? INT_MAX)%Z then Ok t
    else UB "conversion of an out-of-range double to int".

(** C [(double) i] for an [int]: sign, biased exponent and fraction of [i]. *)
Definition dbl_of_int (i : Z) : dbl :=
  if (i =? 0)%Z then pos_zero
  else
    let a := Z.abs i in
    let k := Z.log2 a in
    let mag := ((1023 + k) * two52 + (a * 2 ^ (52 - k) - two52))%Z in
    if (i <? 0)%Z then (two63 + mag)%Z else mag.

(** The loops of cast-bare.c walk [data] and [out_data] in step and leave as
    soon as an element is lossy ([None]). *)
Fixpoint cast_loop {A B} (f : A -> res (option B)) (xs : list A) : res (option (list B)) :=
  match xs with
  | [] => Ok (Some [])
  | x :: xs' =>
      let! o := f x in
      match o with
      | None => Ok None
      | Some b =>
          let! r := cast_loop f xs' in
          match r with None => Ok None | Some bs => Ok (Some (b :: bs)) end
      end
  end.

(** src/cast-bare.c:4-30 [int_as_logical] *)
Definition int_as_logical : list Z -> res (option (list Z)) :=
  cast_loop (fun elt =>
    if (elt =? NA_INTEGER)%Z then Ok (Some NA_LOGICAL)
    else if negb (elt =? 0)%Z && negb (elt =? 1)%Z then Ok None
    else Ok (Some elt)).

(** src/cast-bare.c:32-58 [dbl_as_logical] *)
Definition dbl_as_logical : list dbl -> res (option (list Z)) :=
  cast_loop (fun elt =>
    if isnan elt then Ok (Some NA_LOGICAL)
    else if negb (c_deq_int elt 0) && negb (c_deq_int elt 1) then Ok None
    else let! v := c_int_of_dbl elt in Ok (Some v)).

(** src/cast-bare.c:60-111 [chr_as_logical].  Strings are lists of bytes
    without the terminating NUL. *)
Definition chr_as_logical : list rstr -> res (option (list Z)) :=
  cast_loop (fun str =>
    match str with
    | None => Ok (Some NA_LOGICAL)
    | Some elt =>
        match elt with
        | 84%Z :: rest =>       (* 'T' *)
            if bool_decide (rest = []) || bool_decide (elt = [84; 82; 85; 69]%Z) then Ok (Some 1%Z)
            else Ok None
        | 70%Z :: rest =>       (* 'F' *)
            if bool_decide (rest = []) || bool_decide (elt = [70; 65; 76; 83; 69]%Z) then Ok (Some 0%Z)
            else Ok None
        | 116%Z :: _ =>         (* 't' *)
            if bool_decide (elt = [116; 114; 117; 101]%Z) then Ok (Some 1%Z) else Ok None
        | 102%Z :: _ =>         (* 'f' *)
            if bool_decide (elt = [102; 97; 108; 115; 101]%Z) then Ok (Some 0%Z) else Ok None
        | _ => Ok None
        end
    end).

(** src/cast-bare.c:113-115 [lgl_as_integer]: [Rf_coerceVector()] from logical
    to integer keeps the values and maps NA to NA. *)
Definition lgl_as_integer : list Z -> res (option (list Z)) :=
  cast_loop (fun elt => Ok (Some (if (elt =? NA_LOGICAL)%Z then NA_INTEGER else elt))).

(** src/cast-bare.c:117-151 [dbl_as_integer] *)
Definition dbl_as_integer : list dbl -> res (option (list Z)) :=
  cast_loop (fun elt =>
    if c_dle_int elt INT_MIN || c_dge_int elt (INT_MAX + 1) then Ok None
    else if isnan elt then Ok (Some NA_INTEGER)
    else
      let! value := c_int_of_dbl elt in
      if negb (c_deq_int elt value) then Ok None else Ok (Some value)).

(** src/cast-bare.c:153-167 [lgl_as_double], 169-183 [int_as_double] *)
Definition lgl_as_double : list Z -> res (option (list dbl)) :=
  cast_loop (fun elt => Ok (Some (if (elt =? NA_LOGICAL)%Z then NA_REAL else dbl_of_int elt))).
Definition int_as_double : list Z -> res (option (list dbl)) :=
  cast_loop (fun elt => Ok (Some (if (elt =? NA_INTEGER)%Z then NA_REAL else dbl_of_int elt))).

(** ** The R methods used when the C code reports a lossy cast. *)

(** R/type-bare.R:180-204 [vec_cast.logical.integer]: [lossy <- !x %in% c(0L, 1L, NA)]. *)
Definition r_logical_integer (xs : list Z) : res (list Z) :=
  if existsb (fun x => negb ((x =? 0) || (x =? 1) || (x =? NA_INTEGER))%Z) xs
  then Err "Can't convert from <integer> to <logical> due to loss of precision."
  else Ok (map (fun x => if (x =? NA_INTEGER)%Z then NA_LOGICAL else b2i (negb (x =? 0)%Z)) xs).

(** R/type-bare.R:207-231 [vec_cast.logical.double].  [%in%] distinguishes NaN
    from NA. *)
Definition r_logical_double (xs : list dbl) : res (list Z) :=
  if existsb (fun x => negb (c_deq_int x 0 || c_deq_int x 1
                             || dbl_class_eqb (dbl_classify x) DblMissing)) xs
  then Err "Can't convert from <double> to <logical> due to loss of precision."
  else Ok (map (fun x => if isnan x then NA_LOGICAL else b2i (negb (c_deq_int x 0))) xs).

(** [as.integer()] of a double as in R's coerceVector: out-of-range is NA. *)
Definition r_as_integer (x : dbl) : res Z :=
  if isnan x then Ok NA_INTEGER
  else if c_dge_int x (INT_MAX + 1) || c_dle_int x INT_MIN then Ok NA_INTEGER
  else c_int_of_dbl x.
(** R/type-bare.R:253-279 [vec_cast.integer.double]:
    [lossy <- (out != x & !x_na) | xor(x_na, is.na(out))]. *)
Fixpoint r_integer_double_go (xs : list dbl) : res (bool * list Z) :=
  match xs with
  | [] => Ok (false, [])
  | x :: xs' =>
      let! out := r_as_integer x in
      let! r := r_integer_double_go xs' in
      let x_na := isnan x in
      let out_na := (out =? NA_INTEGER)%Z in
      (* [out != x] is NA when either side is; [NA & !x_na] then only matters
         together with [xor()], which is TRUE in that case *)
      let lossy := (negb x_na && negb out_na && negb (c_deq_int x out)) || xorb x_na out_na in
      Ok (lossy || r.1, out :: r.2)
  end.
Definition r_integer_double (xs : list dbl) : res (list Z) :=
  let! r := r_integer_double_go xs in
  if r.1 then Err "Can't convert from <double> to <integer> due to loss of precision."
  else Ok r.2.

(** ** [vec_cast()] on bare numeric vectors *)

(** A bare vector of one of the three numeric types. *)
Inductive num_vec := NLgl (xs : list Z) | NInt (xs : list Z) | NDbl (xs : list dbl).
Inductive num_type := NTLgl | NTInt | NTDbl.

(** src/cast.c:20-74 [vec_cast_opts] and 76-126 [vec_cast_switch_native],
    restricted to these types: the native cast, and the R method when it is
    lossy. *)
Definition num_cast (x : num_vec) (to : num_type) : res num_vec :=
  match x, to with
  | NLgl _, NTLgl | NInt _, NTInt | NDbl _, NTDbl => Ok x
  | NLgl xs, NTInt =>
      let! o := lgl_as_integer xs in
      match o with Some ys => Ok (NInt ys) | None => Err "unreachable" end
  | NInt xs, NTLgl =>
      let! o := int_as_logical xs in
      match o with
      | Some ys => Ok (NLgl ys)
      | None => let! ys := r_logical_integer xs in Ok (NLgl ys)
      end
  | NLgl xs, NTDbl =>
      let! o := lgl_as_double xs in
      match o with Some ys => Ok (NDbl ys) | None => Err "unreachable" end
  | NDbl xs, NTLgl =>
      let! o := dbl_as_logical xs in
      match o with
      | Some ys => Ok (NLgl ys)
      | None => let! ys := r_logical_double xs in Ok (NLgl ys)
      end
  | NInt xs, NTDbl =>
      let! o := int_as_double xs in
      match o with Some ys => Ok (NDbl ys) | None => Err "unreachable" end
  | NDbl xs, NTInt =>
      let! o := dbl_as_integer xs in
      match o with
      | Some ys => Ok (NInt ys)
      | None => let! ys := r_integer_double xs in Ok (NInt ys)
      end
  end.
