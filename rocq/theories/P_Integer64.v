(** * C39: the integer64 proxy *)
From Verif Require Import Base M_Double M_Scalar M_Object M_Proxy M_Cast M_Integer64 M_Order M_OrderChr M_OrderDf
  Spec_Value Spec_Order Spec_OrderRow L_Dbl L_Cast L_Proxy P_Order.
#[local] Arguments Z.mul : simpl never.
#[local] Arguments Z.add : simpl never.
#[local] Arguments Z.sub : simpl never.
#[local] Arguments Z.pow : simpl never.

(** ** Specification *)
(** 64-bit integers in ascending order, NA before all others. *)
Definition int64_na (x : Z) : bool := (x =? - 2 ^ 63)%Z.
Definition int64_vcmp (na_largest : bool) (x y : Z) : comparison :=
  match int64_na x, int64_na y with
  | true, true => Eq
  | true, false => missing_vs_present na_largest
  | false, true => CompOpp (missing_vs_present na_largest)
  | false, false => (x ?= y)%Z
  end.
(** How two rows of the proxy compare as a data frame of doubles. *)
Definition pair_vcmp (na_largest nan_distinct : bool) (a b : dbl * dbl) : comparison :=
  cmp_then (dbl_vcmp na_largest nan_distinct a.1 b.1) (dbl_vcmp na_largest nan_distinct a.2 b.2).

(** ** One element *)
Section elt.
  Open Scope Z_scope.
  Definition hi (x : Z) : Z := (x + 2 ^ 63) / 2 ^ 32.
  Definition lo (x : Z) : Z := (x + 2 ^ 63) mod 2 ^ 32.

  Lemma hi_lo_range x : is_int64 x -> 0 <= hi x < 2 ^ 32 /\ 0 <= lo x < 2 ^ 32.
  Proof.
    unfold is_int64, INT64_MIN, INT64_MAX, hi, lo. intros H.
    change (2 ^ 63) with 9223372036854775808. change (2 ^ 32) with 4294967296. split.
    - split; [apply Z.div_pos; lia|]. apply Z.div_lt_upper_bound; lia.
    - apply Z.mod_pos_bound. lia.
  Qed.
  Lemma hi_lo x : x = hi x * 2 ^ 32 + lo x - 2 ^ 63.
  Proof. unfold hi, lo. pose proof (Z.div_mod (x + 2 ^ 63) (2 ^ 32) ltac:(done)). lia. Qed.

  Lemma unpack_spec x : is_int64 x -> int64_unpack x = (dbl_of_int (hi x), dbl_of_int (lo x)).
  Proof.
    intros H. pose proof (hi_lo_range x H) as [H1 H2]. unfold int64_unpack.
    assert (E : to_u64 (to_u64 x - to_u64 INT64_MIN) = x + 2 ^ 63).
    { unfold to_u64. rewrite <- Zminus_mod. unfold is_int64, INT64_MIN, INT64_MAX in *. rewrite two64_pow.
      change (2 ^ 63) with 9223372036854775808. change (2 ^ 64) with 18446744073709551616.
      rewrite Z.mod_small; lia. }
    rewrite E. unfold to_u32. rewrite Z.shiftr_div_pow2 by lia. rewrite two32_pow. fold (hi x) (lo x).
    rewrite Z.mod_small by done. done.
  Qed.

  Lemma u32_dbl k : 0 <= k < 2 ^ 32 -> dbl_wf (dbl_of_int k) /\ isnan (dbl_of_int k) = false /\ dbl_value (dbl_of_int k) = k * dscale /\
    c_u32_of_dbl (dbl_of_int k) = Ok k.
  Proof.
    intros H. destruct (dbl_of_exact_spec k) as [W E].
    { change (2 ^ 32) with 4294967296 in H. change (2 ^ 52) with 4503599627370496. lia. }
    destruct (num_isnan _ _ W E) as [Hn Hv]. do 3 (split; [done|]). unfold c_u32_of_dbl. rewrite Hn, Hv, quot_exact, two32_pow.
    rewrite (proj2 (Z.leb_le _ _)), (proj2 (Z.ltb_lt _ _)) by lia. done.
  Qed.

  Lemma lor_add a b : 0 <= b < 2 ^ 32 -> Z.lor (a * 2 ^ 32) b = a * 2 ^ 32 + b.
  Proof.
    intros Hb. assert (L : Z.land (a * 2 ^ 32) b = 0).
    { apply Z.bits_inj'. intros k Hk. rewrite Z.land_spec, Z.bits_0. destruct (Z.lt_ge_cases k 32) as [Hlt|Hge].
      - rewrite Z.mul_pow2_bits_low by lia. done.
      - rewrite (Z.testbit_eqb b) by lia. rewrite Z.div_small; [apply andb_false_r|].
        split; [lia|]. apply Z.lt_le_trans with (2 ^ 32); [lia|]. apply Z.pow_le_mono_r; lia. }
    rewrite Z.add_nocarry_lxor by done. by rewrite Z.lxor_lor.
  Qed.

  Lemma pack_spec x : is_int64 x -> int64_pack (dbl_of_int (hi x)) (dbl_of_int (lo x)) = Ok x.
  Proof.
    intros H. pose proof (hi_lo_range x H) as [H1 H2]. unfold int64_pack.
    destruct (u32_dbl _ H1) as (_ & _ & _ & ->). cbn [bind]. destruct (u32_dbl _ H2) as (_ & _ & _ & ->). cbn [bind].
    f_equal. rewrite Z.shiftl_mul_pow2 by lia. pose proof (hi_lo x) as Hx.
    unfold is_int64, INT64_MIN, INT64_MAX in *.
    assert (E1 : to_u64 (hi x * 2 ^ 32) = hi x * 2 ^ 32).
    { unfold to_u64. rewrite two64_pow. apply Z.mod_small. change (2 ^ 32) with 4294967296 in *. change (2 ^ 64) with 18446744073709551616. lia. }
    rewrite E1, lor_add by done.
    replace (hi x * 2 ^ 32 + lo x) with (x + 2 ^ 63) by lia.
    unfold to_i64, to_u64, INT64_MIN, INT64_MAX. rewrite two64_pow.
    change (2 ^ 63) with 9223372036854775808. change (2 ^ 64) with 18446744073709551616.
    change (-9223372036854775808 mod 18446744073709551616) with 9223372036854775808.
    destruct (Z.lt_ge_cases x 0) as [Hn|Hp].
    - rewrite Z.mod_small by lia. destruct (Z.leb_spec (x + 9223372036854775808 + 9223372036854775808) 9223372036854775807); lia.
    - assert (E : (x + 9223372036854775808 + 9223372036854775808) mod 18446744073709551616 = x).
      { symmetry. apply (Z.mod_unique _ _ 1); lia. }
      rewrite E. destruct (Z.leb_spec x 9223372036854775807); lia.
  Qed.

  (** the row of the proxy for an element *)
  Definition row (x : Z) : dbl * dbl := if x =? NA_LLONG then (NA_REAL, NA_REAL) else int64_unpack x.

  Lemma na_llong : NA_LLONG = - 2 ^ 63. Proof. reflexivity. Qed.

  Lemma row_cmp na_largest nd x y : is_int64 x -> is_int64 y -> pair_vcmp na_largest nd (row x) (row y) = int64_vcmp na_largest x y.
  Proof.
    intros Hx Hy. unfold pair_vcmp, int64_vcmp, int64_na, row. rewrite na_llong.
    assert (Hc : dbl_classify NA_REAL = DblMissing) by reflexivity.
    assert (Hnum : forall z, is_int64 z -> dbl_classify (dbl_of_int (hi z)) = DblNumber /\ dbl_classify (dbl_of_int (lo z)) = DblNumber).
    { intros z Hz. destruct (hi_lo_range z Hz) as [H1 H2]. unfold dbl_classify.
      destruct (u32_dbl _ H1) as (_ & -> & _). destruct (u32_dbl _ H2) as (_ & -> & _). done. }
    destruct (Z.eqb_spec x (- 2 ^ 63)) as [Ex|Ex], (Z.eqb_spec y (- 2 ^ 63)) as [Ey|Ey]; rewrite ?unpack_spec by done; cbn [fst snd];
      unfold dbl_vcmp; rewrite ?Hc; try done.
    - destruct (Hnum y Hy) as [-> ->]. by destruct na_largest.
    - destruct (Hnum x Hx) as [-> ->]. by destruct na_largest.
    - destruct (Hnum x Hx) as [-> ->], (Hnum y Hy) as [-> ->].
      destruct (hi_lo_range x Hx) as [H1 H2], (hi_lo_range y Hy) as [H3 H4].
      destruct (u32_dbl _ H1) as (_ & _ & -> & _), (u32_dbl _ H2) as (_ & _ & -> & _), (u32_dbl _ H3) as (_ & _ & -> & _), (u32_dbl _ H4) as (_ & _ & -> & _).
      pose proof (hi_lo x) as Dx. pose proof (hi_lo y) as Dy. pose proof dscale_pos as Hs.
      rewrite !(Z.mul_comm _ dscale). rewrite <- !Zmult_compare_compat_l by lia.
      change (2 ^ 32) with 4294967296 in *.
      destruct (Z.compare_spec (hi x) (hi y)) as [E|E|E]; cbn.
      + destruct (Z.compare_spec (lo x) (lo y)) as [F|F|F]; symmetry; [apply Z.compare_eq_iff|apply Z.compare_lt_iff|apply Z.compare_gt_iff]; lia.
      + symmetry. apply Z.compare_lt_iff. lia.
      + symmetry. apply Z.compare_gt_iff. lia.
  Qed.
End elt.

(** ** Vectors *)
Lemma proxy_rows_spec xs : Forall is_int64 xs -> integer64_proxy xs = Ok (map fst (map row xs), map snd (map row xs)).
Proof.
  intros H. unfold integer64_proxy. set (n := length xs).
  destruct (for_inv (fun i (st : list dbl * list dbl) => st =
      (map fst (map row (take i xs)) ++ replicate (n - i) 0%Z, map snd (map row (take i xs)) ++ replicate (n - i) 0%Z)) 0 n
    (fun i '((v_left, v_right) : list dbl * list dbl) =>
      let! elt := rd xs i in
      if (elt =? NA_LLONG)%Z then
        let! v_left := wr v_left i NA_REAL in let! v_right := wr v_right i NA_REAL in Ok (v_left, v_right)
      else
        let '(l, r) := int64_unpack elt in
        let! v_left := wr v_left i l in let! v_right := wr v_right i r in Ok (v_left, v_right))
    (replicate n 0%Z, replicate n 0%Z)) as (st & E & Hst).
  - simpl. by rewrite Nat.sub_0_r.
  - intros i st Hi ->. destruct (lookup_lt_is_Some_2 xs i) as [x Hx]; [unfold n in *; lia|].
    rewrite (proj2 (rd_Ok _ _ _) Hx). cbn [bind].
    assert (Hw : forall (f : dbl * dbl -> dbl) v, f (row x) = v ->
      wr (map f (map row (take i xs)) ++ replicate (n - i) 0%Z) i v = Ok (map f (map row (take (S i) xs)) ++ replicate (n - S i) 0%Z)).
    { intros f v <-. pose proof (wr_put (A:=dbl) (map f (map row (take i xs))) 0%Z (n - i) (f (row x))) as W.
      rewrite !map_length, take_length_le in W by (unfold n in *; lia). etransitivity; [apply W; lia|].
      rewrite (take_S_r _ _ _ Hx), !map_app. replace (n - i - 1) with (n - S i) by lia. done. }
    unfold row in Hw. destruct (x =? NA_LLONG)%Z.
    + rewrite (Hw fst) by done. cbn [bind]. rewrite (Hw snd) by done. cbn [bind]. eauto.
    + destruct (int64_unpack x) as [l r]. rewrite (Hw fst) by done. cbn [bind]. rewrite (Hw snd) by done. cbn [bind]. eauto.
  - rewrite E, Hst, Nat.add_0_l, take_ge, Nat.sub_diag, !app_nil_r by (unfold n; lia). done.
Qed.

Lemma restore_rows_spec xs : Forall is_int64 xs -> integer64_restore (map fst (map row xs)) (map snd (map row xs)) = Ok xs.
Proof.
  intros H. unfold integer64_restore. rewrite !map_length.
  rewrite (for_fill _ (fun i => nth i xs 0%Z)); [|by rewrite replicate_length|].
  - f_equal. apply list_eq. intros i. destruct (decide (i < length xs)) as [Hi|Hi].
    + destruct (lookup_lt_is_Some_2 xs i Hi) as [x Hx]. rewrite list_lookup_fmap, lookup_seq_lt by done. simpl.
      by rewrite Hx, (nth_lookup_Some _ _ _ _ Hx).
    + rewrite !lookup_ge_None_2; [done|lia|]. rewrite map_length, seq_length. lia.
  - intros i out Hi Ho. destruct (lookup_lt_is_Some_2 xs i Hi) as [x Hx]. rewrite (nth_lookup_Some _ _ _ _ Hx).
    rewrite (proj2 (rd_Ok (map fst (map row xs)) i (row x).1)) by (rewrite map_map; by apply (map_lookup0 (fun x => (row x).1))).
    rewrite (proj2 (rd_Ok (map snd (map row xs)) i (row x).2)) by (rewrite map_map; by apply (map_lookup0 (fun x => (row x).2))).
    cbn [bind]. pose proof (proj1 (Forall_lookup _ _) H i x Hx) as Hr. unfold row.
    destruct (Z.eqb_spec x NA_LLONG) as [->|Hne]; [done|]. rewrite unpack_spec by done. cbn [fst snd].
    destruct (hi_lo_range x Hr) as [H1 H2]. destruct (u32_dbl _ H1) as (_ & -> & _). by rewrite pack_spec.
Qed.

(** Every integer64 vector has a proxy of two double columns of its size, and
    restoring it gives the same vector: no undefined conversion, no loss. *)
Theorem C39_roundtrip xs : Forall is_int64 xs ->
  exists left right, integer64_proxy xs = Ok (left, right) /\ length left = length xs /\ length right = length xs /\
    Forall dbl_wf left /\ Forall dbl_wf right /\ integer64_restore left right = Ok xs.
Proof.
  intros H. exists (map fst (map row xs)), (map snd (map row xs)). rewrite proxy_rows_spec, !map_length by done.
  do 3 (split; [done|]). rewrite restore_rows_spec by done.
  assert (W : forall x, is_int64 x -> dbl_wf (row x).1 /\ dbl_wf (row x).2).
  { intros x Hx. unfold row. destruct (x =? NA_LLONG)%Z; [done|]. rewrite unpack_spec by done. cbn [fst snd].
    destruct (hi_lo_range x Hx) as [H1 H2]. destruct (u32_dbl _ H1) as (? & _), (u32_dbl _ H2) as (? & _). done. }
  split; [|split; [|done]]; rewrite map_map; apply Forall_map; eapply Forall_impl; try exact H; intros x Hx; by apply W.
Qed.

(** Rows of the proxy compare like the integers, NA at the end that is asked
    for; in particular they are equal only for equal integers. *)
Theorem C39_order xs left right na_largest nan_distinct i j x y : Forall is_int64 xs ->
  integer64_proxy xs = Ok (left, right) -> xs !! i = Some x -> xs !! j = Some y ->
  exists lx rx ly ry, left !! i = Some lx /\ right !! i = Some rx /\ left !! j = Some ly /\ right !! j = Some ry /\
    pair_vcmp na_largest nan_distinct (lx, rx) (ly, ry) = int64_vcmp na_largest x y.
Proof.
  intros H E Hx Hy. rewrite proxy_rows_spec in E by done.
  assert (left = map fst (map row xs) /\ right = map snd (map row xs)) as [-> ->] by (split; congruence).
  exists (row x).1, (row x).2, (row y).1, (row y).2. rewrite !map_map.
  rewrite !(map_lookup0 (fun x => (row x).1) _ _ _ Hx), !(map_lookup0 (fun x => (row x).2) _ _ _ Hx),
    !(map_lookup0 (fun x => (row x).1) _ _ _ Hy), !(map_lookup0 (fun x => (row x).2) _ _ _ Hy).
  do 4 (split; [done|]).
  rewrite <- (row_cmp na_largest nan_distinct) by (eapply (proj1 (Forall_lookup _ _) H); eassumption).
  by rewrite <- !surjective_pairing.
Qed.

(** Missing exactly where the vector is. *)
Theorem C39_missing xs left right i x : Forall is_int64 xs -> integer64_proxy xs = Ok (left, right) -> xs !! i = Some x ->
  exists l r, left !! i = Some l /\ right !! i = Some r /\
    (dbl_sem l = SNa <-> x = (- 2 ^ 63)%Z) /\ (dbl_sem r = SNa <-> x = (- 2 ^ 63)%Z) /\ dbl_sem l <> SNan /\ dbl_sem r <> SNan.
Proof.
  intros H E Hx. rewrite proxy_rows_spec in E by done.
  assert (left = map fst (map row xs) /\ right = map snd (map row xs)) as [-> ->] by (split; congruence).
  exists (row x).1, (row x).2. rewrite !map_map.
  rewrite !(map_lookup0 (fun x => (row x).1) _ _ _ Hx), !(map_lookup0 (fun x => (row x).2) _ _ _ Hx).
  do 2 (split; [done|]). pose proof (proj1 (Forall_lookup _ _) H i x Hx) as Hr. unfold row. rewrite na_llong.
  destruct (Z.eqb_spec x (- 2 ^ 63)) as [Ex|Ex]; cbn [fst snd].
  - by rewrite na_real_sem.
  - rewrite unpack_spec by done. cbn [fst snd]. destruct (hi_lo_range x Hr) as [H1 H2].
    destruct (u32_dbl _ H1) as (W1 & N1 & _), (u32_dbl _ H2) as (W2 & N2 & _).
    rewrite !dbl_value_spec by done. done.
Qed.

(** Ordering the proxy with [vec_order()] orders the integers. *)
Theorem C39_sort xs left right decreasing na_largest nan_distinct fuel tls o :
  Forall is_int64 xs -> (Z.of_nat (length xs) <= INT_MAX)%Z -> (forall s, 0 <= tls s)%Z ->
  integer64_proxy xs = Ok (left, right) ->
  vec_order fuel XVec (ODf [M_OrderDf.ODbl left; M_OrderDf.ODbl right] (length xs)) [decreasing] [na_largest] nan_distinct tls = Ok o ->
  is_order (fun a b => dir decreasing (by_loc 0%Z (int64_vcmp na_largest) xs a b)) (length xs) o.
Proof.
  intros H Hn Ht E Eo.
  destruct (C39_roundtrip xs H) as (left' & right' & E' & Hl & Hr & Wl & Wr & _). rewrite E in E'.
  assert (left' = left /\ right' = right) as [-> ->] by (split; congruence).
  apply C27_order_sound in Eo; [|by repeat constructor].
  destruct Eo as [Hp Hs]. split; [done|].
  cbn [oproxy_size] in Hp.
  assert (Hin : forall a, a ∈ o -> exists x, xs !! Z.to_nat (a - 1) = Some x).
  { intros a Ha. rewrite Hp in Ha. unfold locs in Ha. apply elem_of_list_In, in_map_iff in Ha as (k & <- & Hk).
    apply in_seq in Hk. replace (Z.to_nat (Z.of_nat k + 1 - 1)) with k by lia. destruct (lookup_lt_is_Some_2 xs k) as [x ?]; [lia|]. eauto. }
  assert (Hcmp : forall a b, a ∈ o -> b ∈ o ->
    order_vcmp XVec (ODf [M_OrderDf.ODbl left; M_OrderDf.ODbl right] (length xs)) [decreasing] [na_largest] nan_distinct a b =
    dir decreasing (by_loc 0%Z (int64_vcmp na_largest) xs a b)).
  { intros a b Ha Hb. destruct (Hin a Ha) as [x Hx], (Hin b Hb) as [y Hy].
    destruct (C39_order xs left right na_largest nan_distinct _ _ x y H E Hx Hy) as (lx & rx & ly & ry & H1 & H2 & H3 & H4 & Hc).
    unfold by_loc, at_loc. rewrite (nth_lookup_Some _ _ _ _ Hx), (nth_lookup_Some _ _ _ _ Hy), <- Hc.
    unfold order_vcmp. cbn. unfold by_loc, at_loc.
    rewrite (nth_lookup_Some _ _ _ _ H1), (nth_lookup_Some _ _ _ _ H2), (nth_lookup_Some _ _ _ _ H3), (nth_lookup_Some _ _ _ _ H4).
    unfold pair_vcmp. cbn [fst snd]. destruct decreasing; cbn [dir]; destruct (dbl_vcmp na_largest nan_distinct lx ly), (dbl_vcmp na_largest nan_distinct rx ry); done. }
  clear -Hs Hcmp. induction Hs as [|a o Hs IH Ha]; constructor.
  - apply IH. intros x y Hx Hy. apply Hcmp; by apply elem_of_cons; right.
  - apply Forall_forall. intros b Hb. pose proof (proj1 (Forall_forall _ _) Ha b Hb) as Hab.
    rewrite <- Hcmp; [done|apply elem_of_cons; by left|apply elem_of_cons; by right].
Qed.

Example C39_ex : exists left right,
  integer64_proxy [5; - 2 ^ 63; -1; 2 ^ 63 - 1]%Z = Ok (left, right) /\
  left = [dbl_of_int (2 ^ 31); NA_REAL; dbl_of_int (2 ^ 31 - 1); dbl_of_int (2 ^ 32 - 1)]%Z /\
  right = [dbl_of_int 5; NA_REAL; dbl_of_int (2 ^ 32 - 1); dbl_of_int (2 ^ 32 - 1)]%Z /\
  integer64_restore left right = Ok [5; - 2 ^ 63; -1; 2 ^ 63 - 1]%Z /\
  vec_order 2 XVec (ODf [M_OrderDf.ODbl left; M_OrderDf.ODbl right] 4) [false] [false] true (fun _ => 0%Z) = Ok [2; 3; 1; 4]%Z.
Proof. eexists _, _. split; [reflexivity|]. split; [reflexivity|]. split; [reflexivity|]. split; [vm_compute; reflexivity|reflexivity]. Qed.

Print Assumptions C39_roundtrip.
Print Assumptions C39_order.
Print Assumptions C39_missing.
Print Assumptions C39_sort.
