(** * Model: casts of dates and date-times (src/type-date-time.c).

    A POSIXct is its data and its attribute [tzone]; names are left out.
    Conversions that base R does ([as.Date()], [as.POSIXct()],
    [as.POSIXlt()], and those by way of character vectors) are parameters.
    An attribute [tzone] that is no character vector is left out. *)
From Verif Require Import Base M_Double M_Scalar M_Cast M_Ptype.

Inductive ddata := TInt (v : list Z) | TDbl (v : list dbl) | TOther.
Record posixct := CT { ct_data : ddata; ct_tzone : option (list rstr) }.

(** [CHAR()] of a string; that of the missing string is "NA". *)
Definition char_of (s : rstr) : list Z := match s with Some b => b | None => [78; 65]%Z end.
(** src/type-date-time.c:457-477 [tzone_equal] *)
Definition tzone_equal (x y : rstr) : bool :=
  if str_ptr_eqb x y then true else (c_strcmp (char_of x) (char_of y) =? 0)%Z.

(** [Rf_coerceVector()] of integers to doubles *)
Definition coerce_dbl (v : list Z) : list dbl :=
  map (fun i => if (i =? NA_INTEGER)%Z then NA_REAL else dbl_of_int i) v.
(** src/type-date-time.c:335-346 [date_validate] *)
Definition date_validate (x : ddata) : res (list dbl) :=
  match x with TDbl v => Ok v | TInt v => Ok (coerce_dbl v) | TOther => Err "Corrupt `Date` with unknown type" end.
(** src/type-date-time.c:379-392 [datetime_validate_type] *)
Definition datetime_validate_type (x : ddata) : res (list dbl) :=
  match x with TDbl v => Ok v | TInt v => Ok (coerce_dbl v) | TOther => Err "Corrupt `POSIXct` with unknown type" end.
(** src/type-date-time.c:356-362 [datetime_validate] *)
Definition datetime_validate (x : posixct) : res posixct :=
  let tz := validate_tzone (ct_tzone x) in
  let! v := datetime_validate_type (ct_data x) in
  Ok (CT (TDbl v) tz).
(** src/type-date-time.c:397-411 [datetime_rezone] *)
Definition datetime_rezone (x : posixct) (tzone : rstr) : res posixct :=
  let! x_tzone := tzone_get (ct_tzone x) in
  if tzone_equal x_tzone tzone then Ok x else Ok (CT (ct_data x) (Some [tzone])).
(** src/type-date-time.c:174-179 [posixct_as_posixct_impl] *)
Definition posixct_as_posixct_impl (x : posixct) (tzone : rstr) : res posixct :=
  let! x := datetime_validate x in
  datetime_rezone x tzone.
(** src/type-date-time.c:167-172 [posixct_as_posixct] *)
Definition posixct_as_posixct (x : posixct) (to_tzone : option (list rstr)) : res posixct :=
  let! tzone := tzone_get to_tzone in
  posixct_as_posixct_impl x tzone.

(** [REAL()] of the data *)
Definition ct_real (x : posixct) : res (list dbl) :=
  match ct_data x with TDbl v => Ok v | _ => Err "REAL() can only be applied to a 'numeric'" end.

Section base.
  Context {lt : Type} (lt_tzone : lt -> option (list rstr)).
  Context (as_date : lt -> list dbl).                      (* [as.Date()] *)
  Context (as_posixct : lt -> rstr -> posixct).            (* [as.POSIXct()] *)
  Context (as_posixlt : posixct -> rstr -> lt).            (* [as.POSIXlt()] *)
  Context (chr_posixct : list dbl -> rstr -> posixct).     (* date to character to POSIXct *)
  Context (chr_posixlt : list dbl -> rstr -> lt).          (* date to character to POSIXlt *)

  (** src/type-date-time.c:71-81 [date_as_posixct] *)
  Definition date_as_posixct (x : list dbl) (to_tzone : option (list rstr)) : res posixct :=
    let! tzone := tzone_get to_tzone in
    Ok (chr_posixct x tzone).
  (** src/type-date-time.c:85-95 [date_as_posixlt] *)
  Definition date_as_posixlt (x : list dbl) (to_tzone : option (list rstr)) : res lt :=
    let! tzone := tzone_get to_tzone in
    Ok (chr_posixlt x tzone).

  (** src/type-date-time.c:131-161 [posixt_as_date]; [None] is a lossy cast *)
  Definition posixt_as_date (ct : posixct) (l : lt) : res (option (list dbl)) :=
    let! ct := datetime_validate ct in
    let! p_ct := ct_real ct in
    let out := as_date l in
    let! roundtrip := date_as_posixct out (ct_tzone ct) in
    let! p_roundtrip := ct_real roundtrip in
    let! lossy := for_brk 0 (length out) (fun i _ =>
      let! ct_elt := rd p_ct i in
      if isnan ct_elt then Ok (Next false)
      else
        let! roundtrip_elt := rd p_roundtrip i in
        if negb (c_deq ct_elt roundtrip_elt) then Ok (Break true) else Ok (Next false)) false in
    Ok (if lossy : bool then None else Some out).

  (** src/type-date-time.c:209-211 [posixct_as_posixlt_impl] *)
  Definition posixct_as_posixlt_impl (x : posixct) (tzone : rstr) : lt := as_posixlt x tzone.
  (** src/type-date-time.c:202-207 [posixct_as_posixlt] *)
  Definition posixct_as_posixlt (x : posixct) (to_tzone : option (list rstr)) : res lt :=
    let! tzone := tzone_get to_tzone in
    Ok (posixct_as_posixlt_impl x tzone).
  (** src/type-date-time.c:190-198 [posixlt_as_posixct_impl] *)
  Definition posixlt_as_posixct_impl (x : lt) (tzone : rstr) : res posixct :=
    let! x_tzone := tzone_get (lt_tzone x) in
    posixct_as_posixct_impl (as_posixct x x_tzone) tzone.
  (** src/type-date-time.c:183-188 [posixlt_as_posixct] *)
  Definition posixlt_as_posixct (x : lt) (to_tzone : option (list rstr)) : res posixct :=
    let! tzone := tzone_get to_tzone in
    posixlt_as_posixct_impl x tzone.
  (** src/type-date-time.c:101-111 [posixct_as_date] *)
  Definition posixct_as_date (x : posixct) : res (option (list dbl)) :=
    let! ct := datetime_validate x in
    let! tzone := tzone_get (ct_tzone ct) in
    posixt_as_date ct (posixct_as_posixlt_impl ct tzone).
  (** src/type-date-time.c:115-125 [posixlt_as_date] *)
  Definition posixlt_as_date (x : lt) : res (option (list dbl)) :=
    let! tzone := tzone_get (lt_tzone x) in
    let! ct := posixlt_as_posixct_impl x tzone in
    posixt_as_date ct x.
  (** src/type-date-time.c:215-234 [posixlt_as_posixlt] *)
  Definition posixlt_as_posixlt (x : lt) (to_tzone : option (list rstr)) : res lt :=
    let! x_tzone := tzone_get (lt_tzone x) in
    let! to_tzone := tzone_get to_tzone in
    if tzone_equal x_tzone to_tzone then Ok x
    else
      let! out := posixlt_as_posixct_impl x x_tzone in
      let! out := posixct_as_posixct_impl out to_tzone in
      Ok (posixct_as_posixlt_impl out to_tzone).
End base.
