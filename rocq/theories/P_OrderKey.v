(** * Property C28: the keys used for ordering preserve the order *)
From Verif Require Import Base M_Double M_Scalar M_Order Spec_Order L_OrderKeys.
Local Open Scope Z_scope.

(** [na_last] as computed by [vec_order_compute_na_last()] is
    [xorb decreasing na_largest]. *)

(** Comparing the 64-bit keys of two doubles (any of the 2^64 bit patterns) is
    comparing the doubles. *)
Theorem C28_double_key decreasing na_largest nan_distinct x y :
  0 <= x < 2 ^ 64 -> 0 <= y < 2 ^ 64 ->
  let key := dbl_adjust_elt decreasing (xorb decreasing na_largest) nan_distinct in
  (key x ?= key y) = dir decreasing (dbl_vcmp na_largest nan_distinct x y) /\
  0 <= key x < 2 ^ 64.
Proof.
  intros Hx Hy key. subst key. split.
  - rewrite dbl_key_cmp by done. by destruct decreasing, na_largest.
  - by apply (dbl_key_range decreasing (xorb decreasing na_largest) nan_distinct x Hx).
Qed.
Print Assumptions C28_double_key.

(** The key does not separate the two zeros, nor (unless asked to) NA and
    NaN, nor two payloads of NaN; it separates everything else. *)
Theorem C28_double_key_merges decreasing na_largest nan_distinct x y :
  0 <= x < 2 ^ 64 -> 0 <= y < 2 ^ 64 ->
  let key := dbl_adjust_elt decreasing (xorb decreasing na_largest) nan_distinct in
  key x = key y <->
  match dbl_classify x, dbl_classify y with
  | DblNumber, DblNumber => x = y \/ (dbl_mag x = 0 /\ dbl_mag y = 0)
  | DblNumber, _ | _, DblNumber => False
  | DblMissing, DblNan | DblNan, DblMissing => nan_distinct = false
  | DblMissing, DblMissing | DblNan, DblNan => True
  end.
Proof.
  intros Hx Hy key. subst key. rewrite <- Z.compare_eq_iff.
  rewrite dbl_key_cmp by done. unfold dbl_vcmp.
  pose proof (dbl_classify_nan x) as Cx. pose proof (dbl_classify_nan y) as Cy.
  destruct (dbl_classify x), (dbl_classify y);
    try (destruct decreasing, na_largest, nan_distinct; simpl; intuition congruence).
  transitivity (dbl_value x = dbl_value y).
  { destruct decreasing; simpl; [|apply Z.compare_eq_iff].
    rewrite <- Z.compare_eq_iff. destruct (dbl_value x ?= dbl_value y); simpl; intuition congruence. }
  pose proof (dbl_pos_cmp x y Hx Cx Hy Cy) as E. rewrite <- Z.compare_eq_iff, <- E, Z.compare_eq_iff.
  pose proof (num_mag x Hx Cx). pose proof (num_mag y Hy Cy).
  pose proof (num_split x Hx) as Sx. pose proof (num_split y Hy) as Sy. unfold dbl_pos.
  unfold two52, two63 in *.
  destruct (dbl_sign x), (dbl_sign y), (Z.eqb_spec (dbl_mag x) 0), (Z.eqb_spec (dbl_mag y) 0); lia.
Qed.
Print Assumptions C28_double_key_merges.

(** The same for the 32-bit keys of integers. *)
Theorem C28_integer_key decreasing na_largest x y :
  is_int x -> is_int y ->
  exists kx ky,
    int_adjust_elt decreasing (xorb decreasing na_largest) x = Ok kx /\
    int_adjust_elt decreasing (xorb decreasing na_largest) y = Ok ky /\
    (kx ?= ky) = dir decreasing (int_vcmp na_largest x y) /\
    (kx = ky <-> x = y).
Proof.
  intros Hx Hy. exists (int_key decreasing (xorb decreasing na_largest) x), (int_key decreasing (xorb decreasing na_largest) y).
  split; [by apply int_adjust_elt_spec|]. split; [by apply int_adjust_elt_spec|].
  assert (E : (int_key decreasing (xorb decreasing na_largest) x ?= int_key decreasing (xorb decreasing na_largest) y)
              = dir decreasing (int_vcmp na_largest x y)).
  { rewrite int_key_cmp by done. by destruct decreasing, na_largest. }
  split; [done|]. rewrite <- Z.compare_eq_iff, E. unfold int_vcmp.
  destruct (Z.eqb_spec x NA_INTEGER), (Z.eqb_spec y NA_INTEGER).
  - split; [intros _; congruence|intros _; by destruct decreasing].
  - split; [destruct decreasing, na_largest; done|intros ->; done].
  - split; [destruct decreasing, na_largest; done|intros ->; done].
  - rewrite <- (Z.compare_eq_iff x y). destruct decreasing; simpl; [|done].
    destruct (x ?= y); simpl; intuition congruence.
Qed.
Print Assumptions C28_integer_key.

(** -Inf < -1 < -0 = 0 < the least subnormal < Inf < NaN < NA, and reversed. *)
Example C28_run :
  let inf := 9218868437227405312 in let two63 := 2 ^ 63 in
  let xs := [two63 + inf; two63 + 4607182418800017408; two63; 0; 1; inf; inf + 2 ^ 51; NA_REAL] in
  let key d l := map (dbl_adjust_elt d l true) xs in
  key false true = [4503599627370495; 4616189618054758399; 9223372036854775808; 9223372036854775808;
                    9223372036854775809; 18442240474082181120; 18446744073709551614; 18446744073709551615] /\
  key true false = [18442240474082181120; 13830554455654793216; 9223372036854775808; 9223372036854775808;
                    9223372036854775806; 4503599627370495; 1; 0].
Proof. split; reflexivity. Qed.
