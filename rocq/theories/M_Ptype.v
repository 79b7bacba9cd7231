(** * Model: common types (src/ptype.c, src/ptype2.c, src/ptype2-dispatch.c,
      src/ptype-common.c, src/type-date-time.c, src/type-tibble.c,
      src/type-data-frame.c) and casts of data frames.

    Types are those with an entry in the tables of src/typeof2.c and
    src/typeof2-s3.c.  For classes outside these tables, the common class
    fallback and partial types, vctrs calls R methods, which are not modelled.
    Names, dimnames and row names are not modelled, nor are factors and dates
    with dimensions. *)
From Verif Require Import Base M_Double M_Scalar M_Object M_Proxy M_Slice M_Subscript M_Rep M_Shape M_Chop M_Factor.

(** What [vec_typeof()] and [class_type()] say of an object, and the attributes
    that matter here.  [TyUnspecified] is a vctrs_unspecified or a logical
    vector of missing values only; [TyScalar] is no vector. *)
Inductive ty :=
| TyNull
| TyUnspecified
| TyBare (t : vtype) (d : dims)
| TyFactor (levels : list rstr)
| TyOrdered (levels : list rstr)
| TyDate
| TyPosixct (tzone : option (list rstr))
| TyPosixlt (tzone : option (list rstr))
| TyDf (tibble : bool) (names : list rstr) (cols : list ty)
| TyScalar.

(** ** Time zones *)

(** src/type-date-time.c:416-440 [tzone_get] *)
Definition tzone_get (tz : option (list rstr)) : res rstr :=
  match tz with
  | None => Ok empty_str
  | Some [] => Err "Corrupt datetime with 0-length `tzone` attribute"
  | Some (s :: _) => Ok s
  end.
(** src/type-date-time.c:443-445 [tzone_is_local] *)
Definition tzone_is_local (s : rstr) : bool := str_ptr_eqb s empty_str.
(** src/type-date-time.c:448-454 [tzone_union] *)
Definition tzone_union (x y : rstr) : rstr := if tzone_is_local x then y else x.
(** src/type-date-time.c:364-377 [datetime_validate_tzone] *)
Definition validate_tzone (tz : option (list rstr)) : option (list rstr) :=
  match tz with None => Some [empty_str] | Some _ => tz end.
(** src/type-date-time.c:33-43 [date_datetime_ptype2]; [x_date] is whether [x]
    has class Date *)
Definition date_datetime_ptype2 (x_date : bool) (x y : option (list rstr)) : res ty :=
  let! tz := if x_date then tzone_get y else tzone_get x in
  Ok (TyPosixct (Some [tz])).
(** src/type-date-time.c:47-59 [datetime_datetime_ptype2] *)
Definition datetime_datetime_ptype2 (x y : option (list rstr)) : res ty :=
  let! x := tzone_get x in
  let! y := tzone_get y in
  Ok (TyPosixct (Some [tzone_union x y])).

(** ** Prototypes *)

(** src/ptype.c:12-29 [vec_ptype], 46-84 [s3_ptype], 99-115 [df_ptype].
    Slicing an array leaves it with no rows; [vec_restore()] of a date-time
    checks its time zone. *)
Fixpoint vec_ptype (x : ty) : res ty :=
  match x with
  | TyNull | TyUnspecified | TyFactor _ | TyOrdered _ | TyDate => Ok x
  | TyBare t d => let! d := vec_shape d in Ok (TyBare t d)
  | TyPosixct tz => Ok (TyPosixct (validate_tzone tz))
  | TyPosixlt tz => Ok (TyPosixlt (validate_tzone tz))
  | TyDf tib names cols =>
      let! cols := (fix go cols := match cols with
        | [] => Ok []
        | c :: cols => let! c := vec_ptype c in let! cols := go cols in Ok (c :: cols)
        end) cols in
      Ok (TyDf tib names cols)
  | TyScalar => Err "must be a vector"
  end.

(** src/ptype.c:119-155 [vec_ptype_finalise] *)
Fixpoint vec_ptype_finalise (x : ty) : ty :=
  match x with
  | TyUnspecified => TyBare TLgl None
  | TyDf tib names cols => TyDf tib names (map vec_ptype_finalise cols)
  | _ => x
  end.

(** ** Common types *)

(** src/ptype2.c:100-148 [vec_ptype2_switch_native] on two bare vectors; the
    default case finds no method in R/type-bare.R and is an incompatible type
    error. *)
Definition bare_ptype2 (x y : vtype) : res vtype :=
  match x, y with
  | TLgl, TLgl => Ok TLgl
  | TLgl, TInt | TInt, TLgl | TInt, TInt => Ok TInt
  | TLgl, TDbl | TDbl, TLgl | TInt, TDbl | TDbl, TInt | TDbl, TDbl => Ok TDbl
  | TInt, TCpl | TCpl, TInt | TDbl, TCpl | TCpl, TDbl | TCpl, TCpl => Ok TCpl
  | TChr, TChr => Ok TChr
  | TRaw, TRaw => Ok TRaw
  | TList, TList => Ok TList
  | _, _ => Err "Can't combine"
  end.
(** src/shape.c:9-24 [vec_shaped_ptype] *)
Definition vec_shaped_ptype (t : vtype) (x y : dims) : res ty :=
  let! d := vec_shape2 x y in Ok (TyBare t d).

Section ptype2.
  Context (addr : rstr -> Z).

  (** src/type-data-frame.c:613-649 [df_ptype2_loop], the columns; [ptype2] is
      [vec_ptype2_opts()] *)
  Definition df_ptype2_loop_ (ptype2 : ty -> ty -> res ty) (ycols : list ty) :=
    fix go (i : nat) (xcols : list ty) : res (list ty) :=
      match xcols with
      | [] => Ok []
      | col :: xcols =>
          let! ycol := rd ycols i in
          let! type := ptype2 col ycol in
          let! rest := go (S i) xcols in
          Ok (type :: rest)
      end.
  (** src/type-data-frame.c:550-581: the columns that are in [x] *)
  Definition df_ptype2_match_ (ptype2 : ty -> ty -> res ty) (ycols : list ty) (x_dups_pos : list Z) :=
    fix go (i : nat) (xcols : list ty) : res (list ty) :=
      match xcols with
      | [] => Ok []
      | col :: xcols =>
          let! dup := rd x_dups_pos i in
          let! type := (if (dup =? NA_INTEGER)%Z then vec_ptype col
                        else let! ycol := rdZ ycols (dup - 1) in ptype2 col ycol) in
          let! rest := go (S i) xcols in
          Ok (type :: rest)
      end.
  (** src/type-data-frame.c:583-605: the columns that are only in [y] *)
  Definition df_ptype2_rest (ynames : list rstr) (ycols : list ty) (y_dups_pos : list Z) : res (list (rstr * ty)) :=
    for_ 0 (length ynames) (fun j out =>
      let! dup := rd y_dups_pos j in
      if (dup =? NA_INTEGER)%Z then
        let! col := rd ycols j in
        let! type := vec_ptype col in
        let! name := rd ynames j in
        Ok (out ++ [(name, type)])
      else Ok out) [].

  (** src/ptype2.c:29-93 [vec_ptype2_opts_impl], src/ptype2-dispatch.c:7-44
      [vec_ptype2_dispatch_native], src/type-tibble.c:5-12 [tib_ptype2],
      src/type-data-frame.c:498-512 [df_ptype2], 514-611 [df_ptype2_match].
      Two factors are taken to have levels at different addresses, see M_Factor.v
      for the case of the same address. *)
  Fixpoint vec_ptype2 (x y : ty) {struct x} : res ty :=
    match x, y with
    | TyNull, _ => vec_ptype y
    | _, TyNull => vec_ptype x
    | TyUnspecified, _ => vec_ptype y
    | _, TyUnspecified => vec_ptype x
    | TyScalar, _ | _, TyScalar => Err "must be a vector"
    | TyBare t d, TyBare u e => let! v := bare_ptype2 t u in vec_shaped_ptype v d e
    | TyBare TChr d, (TyFactor _ | TyOrdered _) => vec_shaped_ptype TChr d None
    | (TyFactor _ | TyOrdered _), TyBare TChr e => vec_shaped_ptype TChr None e
    | TyFactor l, TyFactor m => let! l := fct_ptype2 addr (LChr 0 l) (LChr 1 m) in Ok (TyFactor l)
    | TyOrdered l, TyOrdered m => let! l := ord_ptype2 (LChr 0 l) (LChr 1 m) in Ok (TyOrdered l)
    | TyDate, TyDate => Ok TyDate
    | TyDate, (TyPosixct tz | TyPosixlt tz) => date_datetime_ptype2 true None tz
    | (TyPosixct tz | TyPosixlt tz), TyDate => date_datetime_ptype2 false tz None
    | (TyPosixct a | TyPosixlt a), (TyPosixct b | TyPosixlt b) => datetime_datetime_ptype2 a b
    | TyDf tib xnames xcols, TyDf tib' ynames ycols =>
        if equal_object (RVec (Str xnames) RNull) (RVec (Str ynames) RNull) then
          let! cols := df_ptype2_loop_ vec_ptype2 ycols 0 xcols in
          Ok (TyDf (tib || tib') xnames cols)
        else
          let! x_dups_pos := chr_match addr xnames ynames in
          let! y_dups_pos := chr_match addr ynames xnames in
          let! cols := df_ptype2_match_ vec_ptype2 ycols x_dups_pos 0 xcols in
          let! rest := df_ptype2_rest ynames ycols y_dups_pos in
          Ok (TyDf (tib || tib') (xnames ++ rest.*1) (cols ++ rest.*2))
    | _, _ => Err "Can't combine"
    end.

  (** src/ptype-common.c:43-68 [vec_ptype_common_opts]; [ptype] is complete
      unless NULL *)
  Definition vec_ptype_common (ptype : ty) (dots : list ty) : res ty :=
    match ptype with
    | TyNull => let! type := reduce vec_ptype2 ptype dots in Ok (vec_ptype_finalise type)
    | _ => vec_ptype ptype
    end.

  (** ** Casts of data frames *)
  Section cast.
    (** [vec_cast_opts()] unless both are data frames *)
    Context (cast : value -> value -> res value).

    (** R/type-data-frame.R:361-382 [df_lossy_cast], src/type-data-frame.c:763-776 *)
    Definition df_lossy_cast (out : value) (x_names to_names : list rstr) : res value :=
      if existsb (fun s => negb (r_in s to_names)) x_names then Err "Can't convert: dropped variables" else Ok out.

    (** src/type-data-frame.c:676-694 [df_cast_opts], 696-780 [df_cast_match],
        782-822 [df_cast_loop]; src/cast.c:20-74 [vec_cast_opts].  Recursion is on
        [to], whose columns are visited in order. *)
    Definition df_cast_match_ (vec_cast : value -> value -> res value) (size : nat) (xcols : list value) (to_dups_pos : list Z) :=
      fix go (i : nat) (tocols : list value) : res (list value * nat) :=
        match tocols with
        | [] => Ok ([], 0)
        | to_col :: tocols =>
            let! pos := rd to_dups_pos i in
            let! col := (if (pos =? NA_INTEGER)%Z then vec_init to_col (Z.of_nat size)
                         else let! xcol := rdZ xcols (pos - 1) in vec_cast xcol to_col) in
            let! rest := go (S i) tocols in
            Ok (col :: rest.1, if (pos =? NA_INTEGER)%Z then rest.2 else S rest.2)
        end.
    Definition df_cast_loop_ (vec_cast : value -> value -> res value) (xcols : list value) :=
      fix go (i : nat) (tocols : list value) : res (list value) :=
        match tocols with
        | [] => Ok []
        | to_col :: tocols =>
            let! xcol := rd xcols i in
            let! col := vec_cast xcol to_col in
            let! rest := go (S i) tocols in
            Ok (col :: rest)
        end.
    Fixpoint vec_cast (x to : value) {struct to} : res value :=
      match x, to with
      | VDf size x_names xcols, VDf _ to_names tocols =>
          if equal_object (RVec (Str x_names) RNull) (RVec (Str to_names) RNull) then
            let! cols := df_cast_loop_ vec_cast xcols 0 tocols in
            Ok (VDf size x_names cols)
          else
            let! to_dups_pos := chr_match addr to_names x_names in
            let! cols := df_cast_match_ vec_cast size xcols to_dups_pos 0 tocols in
            let out := VDf size to_names cols.1 in
            if Nat.eqb (length xcols) cols.2 then Ok out
            else df_lossy_cast out x_names to_names
      | _, _ => cast x to
      end.
  End cast.
End ptype2.
