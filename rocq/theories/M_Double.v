(** * Model: C doubles as IEEE-754 binary64 bit patterns.

    A [dbl] is the 64-bit pattern of a C double, i.e. the value of the
    [uint64_t] member of the unions used in src/vctrs-core.h and src/hash.c. *)
From Verif Require Import Base.

Definition dbl : Type := Z.
Definition dbl_wf (b : dbl) : Prop := (0 <= b < two64)%Z.

Definition two52 : Z := 4503599627370496%Z.
Definition two63 : Z := 9223372036854775808%Z.

(** Fields of the binary64 encoding. *)
Definition dbl_sign (b : dbl) : bool := (two63 <=? b)%Z.
Definition dbl_mag  (b : dbl) : Z := (b mod two63)%Z.
Definition dbl_exp  (b : dbl) : Z := (dbl_mag b / two52)%Z.
Definition dbl_frac (b : dbl) : Z := (dbl_mag b mod two52)%Z.

(** C [isnan()]: exponent all ones and non-zero fraction. *)
Definition isnan (b : dbl) : bool :=
  ((dbl_exp b =? 2047) && negb (dbl_frac b =? 0))%Z.

(** Exact numeric value scaled by 2^1074.  Every finite binary64 number is an
    integer multiple of 2^-1074, so this is an integer; the infinities get
    +-2^52 * 2^2046, above every finite value. *)
Definition mag_value (m : Z) : Z :=
  let e := (m / two52)%Z in
  let f := (m mod two52)%Z in
  (if e =? 0 then f else (two52 + f) * 2 ^ (e - 1))%Z.
Definition dbl_value (b : dbl) : Z :=
  if dbl_sign b then (- mag_value (dbl_mag b))%Z else mag_value (dbl_mag b).

(** C operators on doubles: comparisons with a NaN operand are false
    (and [!=] true). *)
Definition c_deq (x y : dbl) : bool :=
  negb (isnan x) && negb (isnan y) && (dbl_value x =? dbl_value y)%Z.
Definition c_dlt (x y : dbl) : bool :=
  negb (isnan x) && negb (isnan y) && (dbl_value x <? dbl_value y)%Z.
Definition c_dgt (x y : dbl) : bool := c_dlt y x.

(** [NA_REAL]: R builds it with high word 0x7FF00000 and low word 1954. *)
Definition NA_REAL : dbl := 9218868437227407266%Z.  (* 0x7FF00000000007A2 *)
(** [R_NaN]: the default quiet NaN.  (Some platforms produce it with the sign
    bit set; nothing below depends on which NaN it is.) *)
Definition R_NaN : dbl := 9221120237041090560%Z.    (* 0x7FF8000000000000 *)
Definition pos_zero : dbl := 0%Z.
Definition neg_zero : dbl := two63.

(** src/vctrs-core.h:88-92 [enum vctrs_dbl] *)
Inductive dbl_class := DblNumber | DblMissing | DblNan.
Definition dbl_class_eqb (a b : dbl_class) : bool :=
  match a, b with
  | DblNumber, DblNumber | DblMissing, DblMissing | DblNan, DblNan => true
  | _, _ => false
  end.

(** src/vctrs-core.c:3-16 [dbl_classify].  [indicator.key[vctrs_indicator_pos]]
    is the low 32-bit word on both endiannesses. *)
Definition dbl_classify (x : dbl) : dbl_class :=
  if negb (isnan x) then DblNumber
  else if (x mod two32 =? 1954)%Z then DblMissing else DblNan.
