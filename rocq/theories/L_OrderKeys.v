(** * Lemmas: the keys of integers and doubles order like the values *)
From Verif Require Import Base M_Double M_Scalar M_Order Spec_Order L_Dbl L_OrderSpec L_OrderSort.
From Coq Require Import Sorting.Sorted.
#[local] Arguments Z.mul : simpl never.
#[local] Arguments Z.add : simpl never.
#[local] Arguments Z.sub : simpl never.
Local Open Scope Z_scope.

(** ** Bit operations *)
Lemma testbit_low n r : 0 <= n -> 0 <= r < 2 ^ n -> Z.testbit r n = false.
Proof. intros Hn H. rewrite Z.testbit_eqb by done. by rewrite Z.div_small. Qed.
Lemma land_low n r : 0 <= n -> 0 <= r < 2 ^ n -> Z.land r (2 ^ n) = 0.
Proof.
  intros Hn H. apply Z.bits_inj'. intros k Hk. rewrite Z.land_spec, Z.pow2_bits_eqb, Z.bits_0 by done.
  destruct (Z.eqb_spec n k) as [<-|?]; [|apply andb_false_r]. by rewrite testbit_low.
Qed.
Lemma lxor_low n r : 0 <= n -> 0 <= r < 2 ^ n -> Z.lxor r (2 ^ n) = r + 2 ^ n.
Proof. intros Hn H. symmetry. apply Z.add_nocarry_lxor. by apply land_low. Qed.
Lemma lxor_high n r : 0 <= n -> 0 <= r < 2 ^ n -> Z.lxor (r + 2 ^ n) (2 ^ n) = r.
Proof. intros Hn H. rewrite <- lxor_low by done. by rewrite Z.lxor_assoc, Z.lxor_nilpotent, Z.lxor_0_r. Qed.
Lemma land_high n r : 0 <= n -> 0 <= r < 2 ^ n -> Z.land (r + 2 ^ n) (2 ^ n) <> 0.
Proof.
  intros Hn H E. assert (Hb : Z.testbit (Z.land (r + 2 ^ n) (2 ^ n)) n = false) by (by rewrite E, Z.bits_0).
  rewrite Z.land_spec, Z.pow2_bits_true, andb_true_r in Hb by done.
  rewrite <- lxor_low, Z.lxor_spec, testbit_low, Z.pow2_bits_true in Hb by done. done.
Qed.
Lemma lxor_ones n x : 0 <= n -> 0 <= x < 2 ^ n -> Z.lxor x (Z.ones n) = Z.ones n - x.
Proof.
  intros Hn H. rewrite Z.sub_nocarry_ldiff.
  - apply Z.bits_inj'. intros k Hk. rewrite Z.lxor_spec, Z.ldiff_spec.
    destruct (Z.lt_ge_cases k n) as [Hlt|Hge].
    + rewrite Z.ones_spec_low by lia. by destruct (Z.testbit x k).
    + rewrite Z.ones_spec_high by lia. rewrite Z.testbit_eqb by done.
      rewrite Z.div_small; [done|]. split; [lia|]. eapply Z.lt_le_trans; [apply H|]. by apply Z.pow_le_mono_r.
  - apply Z.bits_inj'. intros k Hk. rewrite Z.ldiff_spec, Z.bits_0.
    destruct (Z.lt_ge_cases k n) as [Hlt|Hge].
    + rewrite Z.ones_spec_low by lia. apply andb_false_r.
    + rewrite Z.testbit_eqb by done.
      rewrite Z.div_small; [done|]. split; [lia|]. eapply Z.lt_le_trans; [apply H|]. by apply Z.pow_le_mono_r.
Qed.

(** ** Integers *)
Lemma int_map_spec x : is_int x -> int_map_to_uint32 x = x + 2147483648.
Proof.
  intros [H1 H2]. unfold INT_MIN, INT_MAX, int_map_to_uint32, u32, two32 in *.
  change 2147483648 with (2 ^ 31).
  destruct (Z.lt_ge_cases x 0) as [Hlt|Hge].
  - assert (E : x mod 4294967296 = (x + 2 ^ 31) + 2 ^ 31).
    { symmetry. apply (Z.mod_unique _ _ (-1)); lia. }
    rewrite E. rewrite lxor_high by lia. lia.
  - rewrite Z.mod_small by lia. apply lxor_low; lia.
Qed.

Definition int_key (decreasing na_last : bool) (x : Z) : Z :=
  if x =? NA_INTEGER then (if na_last then 4294967295 else 0)
  else x * direction_of decreasing + (if na_last then -1 else 0) + 2147483648.

Lemma int_adjust_elt_spec d l x : is_int x -> int_adjust_elt d l x = Ok (int_key d l x).
Proof.
  intros H. unfold int_adjust_elt, int_key. destruct (Z.eqb_spec x NA_INTEGER) as [E|E]; [by destruct l|].
  assert (Hx : INT_MIN < x <= INT_MAX) by (unfold is_int, NA_INTEGER in *; lia). clear H E.
  unfold INT_MIN, INT_MAX in Hx.
  unfold int_in_range, direction_of.
  assert (Hp : INT_MIN < x * (if d then -1 else 1) <= INT_MAX) by (unfold INT_MIN, INT_MAX; destruct d; lia).
  rewrite (proj2 (Z.leb_le INT_MIN _)), (proj2 (Z.leb_le _ INT_MAX)) by lia. cbn [andb negb].
  rewrite (proj2 (Z.leb_le INT_MIN _)), (proj2 (Z.leb_le _ INT_MAX)) by (destruct l; lia). cbn [andb negb].
  rewrite int_map_spec by (unfold is_int; destruct l; lia). done.
Qed.

Lemma int_key_range d l x : is_int x -> 0 <= int_key d l x < 2 ^ (8 * Z.of_nat 4).
Proof.
  intros H. change (2 ^ (8 * Z.of_nat 4)) with 4294967296. unfold int_key, is_int, NA_INTEGER, INT_MIN, INT_MAX, direction_of in *.
  destruct (Z.eqb_spec x (-2147483648)); destruct l, d; lia.
Qed.

Lemma int_key_cmp d l x y : is_int x -> is_int y ->
  (int_key d l x ?= int_key d l y) = dir d (int_vcmp (xorb d l) x y).
Proof.
  intros Hx Hy. unfold int_vcmp, int_key, direction_of.
  unfold is_int, NA_INTEGER, INT_MIN, INT_MAX in *.
  destruct (Z.eqb_spec x (-2147483648)), (Z.eqb_spec y (-2147483648)); destruct d, l; cbn [dir xorb missing_vs_present CompOpp];
    match goal with |- (?a ?= ?b) = _ => destruct (Z.compare_spec a b) end;
    try done; try lia; destruct (Z.compare_spec x y); try done; lia.
Qed.

Lemma int_cmp_vcmp d l x y :
  match dir d (int_vcmp (xorb d l) x y) with
  | Lt => int_cmp x y (direction_of d) (na_order_of l) < 0
  | Eq => int_cmp x y (direction_of d) (na_order_of l) = 0
  | Gt => 0 < int_cmp x y (direction_of d) (na_order_of l)
  end.
Proof.
  unfold int_vcmp, int_cmp, direction_of, na_order_of, b2i.
  destruct (x =? NA_INTEGER), (y =? NA_INTEGER); destruct d, l; simpl; try lia;
    destruct (Z.compare_spec x y), (Z.ltb_spec x y), (Z.ltb_spec y x); simpl; lia.
Qed.

(** the loop of [int_adjust] *)
Lemma int_adjust_spec d l (f : Z -> Z) os : (forall a, a ∈ os -> is_int (f a)) ->
  int_adjust d l (map f os) = Ok (map (fun a => int_key d l (f a)) os).
Proof.
  intros H. unfold int_adjust. rewrite map_length.
  match goal with |- for_ 0%nat _ ?body ?st = _ =>
    destruct (for_inv (fun i l' => l' = map (fun a => int_key d l (f a)) (take i os) ++ map f (drop i os))
      0%nat (length os) body st) as (s & E & Hs) end.
  - done.
  - intros i s Hi ->. destruct (lookup_lt_is_Some_2 os i) as [a Ha]; [lia|].
    assert (Hd : drop i os = a :: drop (S i) os) by (by apply drop_S).
    assert (Hlk : (map (fun a => int_key d l (f a)) (take i os) ++ map f (drop i os)) !! i = Some (f a)).
    { rewrite lookup_app_r; rewrite map_length, take_length_le by lia; [|lia]. by rewrite Nat.sub_diag, Hd. }
    rewrite (proj2 (rd_Ok _ _ _) Hlk). cbn [bind].
    rewrite int_adjust_elt_spec by (apply H; by eapply elem_of_list_lookup_2). cbn [bind].
    rewrite wr_Ok by (by eapply lookup_lt_Some). eexists. split; [reflexivity|].
    rewrite Hd, (take_S_r _ _ _ Ha), map_app, <- app_assoc. cbn [map app].
    rewrite insert_app_r_alt; rewrite map_length, take_length_le by lia; [|lia]. by rewrite Nat.sub_diag.
  - rewrite E, Hs. simpl. rewrite take_ge, drop_ge by lia. by rewrite app_nil_r.
Qed.

(** ** Doubles *)
Lemma num_mag x : dbl_wf x -> isnan x = false -> 0 <= dbl_mag x <= 2047 * two52.
Proof.
  intros Hw Hn. unfold isnan in Hn. unfold dbl_exp, dbl_frac in Hn.
  assert (Hm : 0 <= dbl_mag x < two63) by (apply Z.mod_pos_bound; done).
  pose proof (Z.div_mod (dbl_mag x) two52 ltac:(done)) as Ed.
  pose proof (Z.mod_pos_bound (dbl_mag x) two52 ltac:(done)) as Hb.
  unfold two63, two52 in *. set (q := _ / _) in *. set (r := _ mod _) in *. clearbody q r.
  destruct (Z.eqb_spec q 2047), (Z.eqb_spec r 0); simpl in Hn; try done; lia.
Qed.
Lemma num_split x : dbl_wf x -> x = dbl_mag x + (if dbl_sign x then two63 else 0).
Proof.
  intros Hw. unfold dbl_wf, dbl_mag, dbl_sign, two64 in *.
  destruct (Z.leb_spec two63 x).
  - rewrite (Z.mod_eq x two63) by done.
    assert (x / two63 = 1); [|lia]. symmetry. apply (Z.div_unique _ _ _ (x - two63)); unfold two63 in *; lia.
  - rewrite Z.mod_small by lia. lia.
Qed.
Lemma mag_value_pos m : 0 < m <= 2047 * two52 -> 0 < mag_value m.
Proof. intros H. change 0 with (mag_value 0). apply mag_value_mono; lia. Qed.

(** position of a number on the line: 0 for both zeros *)
Definition dbl_pos (x : dbl) : Z :=
  if dbl_sign x then (if dbl_mag x =? 0 then 0 else -1 - dbl_mag x) else dbl_mag x.

Lemma dbl_map_spec x : dbl_wf x -> isnan x = false -> dbl_map_to_uint64 x = two63 + dbl_pos x.
Proof.
  intros Hw Hn. unfold dbl_map_to_uint64, c_deq. rewrite Hn. change (isnan pos_zero) with false. cbn [negb andb].
  change (dbl_value pos_zero) with 0.
  pose proof (num_mag x Hw Hn) as Hm. pose proof (num_split x Hw) as Hs.
  assert (Hz : dbl_value x =? 0 = (dbl_mag x =? 0)).
  { unfold dbl_value. destruct (Z.eqb_spec (dbl_mag x) 0) as [E|E].
    - rewrite E. by destruct (dbl_sign x).
    - pose proof (mag_value_pos (dbl_mag x) ltac:(lia)). apply Z.eqb_neq. destruct (dbl_sign x); lia. }
  rewrite Hz. unfold dbl_pos. destruct (Z.eqb_spec (dbl_mag x) 0) as [E|E].
  - rewrite E. change (dbl_flip_uint64 pos_zero) with two63. destruct (dbl_sign x); lia.
  - unfold dbl_flip_uint64. change two63 with (2 ^ 63).
    assert (Hm63 : 0 <= dbl_mag x < 2 ^ 63) by (unfold two52 in Hm; lia).
    destruct (dbl_sign x).
    + assert (Hx : x = dbl_mag x + 2 ^ 63) by (change (2 ^ 63) with two63; lia).
      assert (Hland : Z.land x (2 ^ 63) <> 0) by (rewrite Hx; by apply land_high).
      rewrite (proj2 (Z.eqb_neq _ _) Hland). cbn [negb].
      change UINT64_MAX with (Z.ones 64). rewrite lxor_ones by (unfold dbl_wf, two64 in Hw; lia).
      change (Z.ones 64) with (2 ^ 63 + 2 ^ 63 - 1). lia.
    + assert (Hx : x = dbl_mag x) by lia. rewrite Hx. 
      assert (Hland : Z.land (dbl_mag x) (2 ^ 63) = 0) by (by apply land_low).
      rewrite Hland. cbn [Z.eqb negb]. rewrite lxor_low by (done || lia).
      assert (dbl_mag (dbl_mag x) = dbl_mag x) by (by rewrite <- Hx). lia.
Qed.

Lemma dbl_mul_spec d x : dbl_wf x -> isnan x = false ->
  let y := dbl_mul_direction d x in
  dbl_wf y /\ isnan y = false /\ dbl_mag y = dbl_mag x /\ dbl_sign y = xorb d (dbl_sign x).
Proof.
  intros Hw Hn. cbv zeta. unfold dbl_mul_direction. destruct d; [|by destruct (dbl_sign x)].
  pose proof (num_split x Hw) as Hs. pose proof (num_mag x Hw Hn) as Hm.
  assert (Hm63 : 0 <= dbl_mag x < two63) by (unfold two52, two63 in *; lia).
  set (y := if dbl_sign x then _ else _).
  assert (Hy : y = dbl_mag x + (if dbl_sign x then 0 else two63)) by (subst y; destruct (dbl_sign x); lia).
  assert (Hwy : dbl_wf y) by (unfold dbl_wf, two64, two63 in *; destruct (dbl_sign x); lia).
  assert (Hmy : dbl_mag y = dbl_mag x).
  { rewrite Hy. unfold dbl_mag at 1. destruct (dbl_sign x).
    - rewrite Z.add_0_r. by apply Z.mod_small.
    - rewrite <- (Z.mul_1_l two63) at 1. rewrite Z.mod_add by done. by apply Z.mod_small. }
  split; [done|]. split; [unfold isnan, dbl_exp, dbl_frac in *; by rewrite Hmy|]. split; [done|].
  unfold dbl_sign at 1. rewrite Hy. destruct (dbl_sign x); simpl.
  - apply Z.leb_gt. lia.
  - apply Z.leb_le. lia.
Qed.

Lemma dbl_pos_cmp x y : dbl_wf x -> isnan x = false -> dbl_wf y -> isnan y = false ->
  (dbl_pos x ?= dbl_pos y) = (dbl_value x ?= dbl_value y).
Proof.
  intros Hx Hnx Hy Hny. pose proof (num_mag x Hx Hnx) as Mx. pose proof (num_mag y Hy Hny) as My.
  unfold dbl_pos, dbl_value.
  set (m := dbl_mag x) in *. set (n := dbl_mag y) in *. clearbody m n.
  assert (H0 : mag_value 0 = 0) by done.
  assert (Pm : m = 0 \/ 0 < mag_value m) by (destruct (Z.eq_dec m 0); [by left|right; apply mag_value_pos; lia]).
  assert (Pn : n = 0 \/ 0 < mag_value n) by (destruct (Z.eq_dec n 0); [by left|right; apply mag_value_pos; lia]).
  assert (Pc : m = n \/ (m < n /\ mag_value m < mag_value n) \/ (n < m /\ mag_value n < mag_value m)).
  { destruct (Z.lt_trichotomy m n) as [H|[H|H]].
    - right. left. split; [done|]. apply mag_value_mono; lia.
    - by left.
    - right. right. split; [done|]. apply mag_value_mono; lia. }
  assert (Nm : m = 0 -> mag_value m = 0) by (by intros ->).
  assert (Nn : n = 0 -> mag_value n = 0) by (by intros ->).
  assert (Ne : m = n -> mag_value m = mag_value n) by (by intros ->).
  set (vm := mag_value m) in *. set (vn := mag_value n) in *. clearbody vm vn. clear H0.
  set (p := if dbl_sign x then _ else _). set (q := if dbl_sign y then _ else _).
  set (v := if dbl_sign x then _ else _). set (w := if dbl_sign y then _ else _).
  destruct (Z.compare_spec v w); subst p q v w; symmetry.
  - destruct (dbl_sign x), (dbl_sign y), (Z.eqb_spec m 0), (Z.eqb_spec n 0); symmetry; apply Z.compare_eq_iff; lia.
  - destruct (dbl_sign x), (dbl_sign y), (Z.eqb_spec m 0), (Z.eqb_spec n 0); symmetry; apply Z.compare_lt_iff; lia.
  - destruct (dbl_sign x), (dbl_sign y), (Z.eqb_spec m 0), (Z.eqb_spec n 0); symmetry; apply Z.compare_gt_iff; lia.
Qed.

Lemma dbl_value_mul d x : dbl_wf x -> isnan x = false ->
  dbl_value (dbl_mul_direction d x) = (if d then - dbl_value x else dbl_value x).
Proof.
  intros Hw Hn. destruct (dbl_mul_spec d x Hw Hn) as (_ & _ & Hm & Hs). unfold dbl_value. rewrite Hm, Hs.
  destruct d, (dbl_sign x); simpl; lia.
Qed.

Lemma dbl_key_num d l nd x : dbl_wf x -> isnan x = false ->
  dbl_adjust_elt d l nd x = two63 + dbl_pos (dbl_mul_direction d x) /\
  1 < dbl_adjust_elt d l nd x < UINT64_MAX - 1.
Proof.
  intros Hw Hn. destruct (dbl_mul_spec d x Hw Hn) as (Hwy & Hny & Hm & Hs).
  assert (E : dbl_adjust_elt d l nd x = two63 + dbl_pos (dbl_mul_direction d x)).
  { unfold dbl_adjust_elt, dbl_classify. rewrite Hn. simpl. destruct nd; by apply dbl_map_spec. }
  split; [done|]. rewrite E. pose proof (num_mag _ Hwy Hny) as Hmy. unfold dbl_pos.
  unfold two52, UINT64_MAX, two63 in *.
  destruct (dbl_sign (dbl_mul_direction d x)), (Z.eqb_spec (dbl_mag (dbl_mul_direction d x)) 0); lia.
Qed.

Lemma dbl_classify_nan x : isnan x = match dbl_classify x with DblNumber => false | _ => true end.
Proof. unfold dbl_classify. destruct (isnan x); simpl; [by destruct (_ =? _)|done]. Qed.

Lemma dbl_key_cmp d l nd x y : dbl_wf x -> dbl_wf y ->
  (dbl_adjust_elt d l nd x ?= dbl_adjust_elt d l nd y) = dir d (dbl_vcmp (xorb d l) nd x y).
Proof.
  intros Hx Hy. pose proof (dbl_classify_nan x) as Cx. pose proof (dbl_classify_nan y) as Cy.
  unfold dbl_vcmp.
  assert (Hmis : forall z, isnan z = true -> dbl_adjust_elt d l nd z =
     match dbl_classify z with
     | DblNan => if nd then (if l then UINT64_MAX - 1 else 1) else if l then UINT64_MAX else 0
     | _ => if l then UINT64_MAX else 0 end).
  { intros z Hz. unfold dbl_adjust_elt. rewrite Hz. pose proof (dbl_classify_nan z) as Cz. rewrite Hz in Cz.
    destruct (dbl_classify z), nd; done. }
  destruct (isnan x) eqn:Ex, (isnan y) eqn:Ey.
  - rewrite !Hmis by done. destruct (dbl_classify x), (dbl_classify y); try done; destruct nd, d, l; done.
  - destruct (dbl_key_num d l nd y Hy Ey) as [_ R]. rewrite Hmis by done.
    destruct (dbl_classify y); try done.
    destruct (dbl_classify x); try done; destruct nd, d, l; cbn [dir xorb missing_vs_present CompOpp];
      match goal with |- (?a ?= ?b) = _ => destruct (Z.compare_spec a b) end; try done; unfold UINT64_MAX in *; lia.
  - destruct (dbl_key_num d l nd x Hx Ex) as [_ R]. rewrite (Hmis y) by done.
    destruct (dbl_classify x); try done.
    destruct (dbl_classify y); try done; destruct nd, d, l; cbn [dir xorb missing_vs_present CompOpp];
      match goal with |- (?a ?= ?b) = _ => destruct (Z.compare_spec a b) end; try done; unfold UINT64_MAX in *; lia.
  - destruct (dbl_key_num d l nd x Hx Ex) as [Kx _]. destruct (dbl_key_num d l nd y Hy Ey) as [Ky _].
    rewrite Kx, Ky. destruct (dbl_classify x); try done. destruct (dbl_classify y); try done.
    destruct (dbl_mul_spec d x Hx Ex) as (Hwx & Hnx & _). destruct (dbl_mul_spec d y Hy Ey) as (Hwy & Hny & _).
    transitivity (dbl_pos (dbl_mul_direction d x) ?= dbl_pos (dbl_mul_direction d y)).
    { destruct (Z.compare_spec (dbl_pos (dbl_mul_direction d x)) (dbl_pos (dbl_mul_direction d y)));
        first [apply Z.compare_eq_iff; lia | apply Z.compare_lt_iff; lia | apply Z.compare_gt_iff; lia]. }
    rewrite dbl_pos_cmp by done. rewrite !dbl_value_mul by done.
    destruct d; simpl; [|done]. rewrite Z.compare_opp. by rewrite Z.compare_antisym.
Qed.

Lemma dbl_key_range d l nd x : dbl_wf x -> 0 <= dbl_adjust_elt d l nd x < 2 ^ (8 * Z.of_nat 8).
Proof.
  intros Hx. change (2 ^ (8 * Z.of_nat 8)) with (UINT64_MAX + 1).
  destruct (isnan x) eqn:Ex.
  - unfold dbl_adjust_elt. rewrite Ex. pose proof (dbl_classify_nan x) as Cx. rewrite Ex in Cx.
    unfold UINT64_MAX. destruct nd, l, (dbl_classify x); done || lia.
  - destruct (dbl_key_num d l nd x Hx Ex) as [_ R]. lia.
Qed.

Lemma dbl_cmp_vcmp d l nd x y :
  match dir d (dbl_vcmp (xorb d l) nd x y) with
  | Lt => dbl_cmp x y (direction_of d) (na_order_of l) (if nd then na_order_of l else 0) < 0
  | Eq => dbl_cmp x y (direction_of d) (na_order_of l) (if nd then na_order_of l else 0) = 0
  | Gt => 0 < dbl_cmp x y (direction_of d) (na_order_of l) (if nd then na_order_of l else 0)
  end.
Proof.
  unfold dbl_vcmp, dbl_cmp, direction_of, na_order_of.
  pose proof (dbl_classify_nan x) as Cx. pose proof (dbl_classify_nan y) as Cy.
  destruct (dbl_classify x), (dbl_classify y); destruct d, l, nd; simpl; try lia.
  all: unfold dbl_cmp_numbers, c_dgt, c_dlt, b2i; rewrite Cx, Cy; simpl;
    destruct (Z.compare_spec (dbl_value x) (dbl_value y)), (Z.ltb_spec (dbl_value x) (dbl_value y)),
      (Z.ltb_spec (dbl_value y) (dbl_value x)); simpl; lia.
Qed.

Lemma dbl_adjust_spec d l nd (f : Z -> dbl) os :
  dbl_adjust d l nd (map f os) = Ok (map (fun a => dbl_adjust_elt d l nd (f a)) os).
Proof.
  unfold dbl_adjust. rewrite map_length.
  match goal with |- for_ 0%nat _ ?body ?st = _ =>
    destruct (for_inv (fun i l' => l' = map (fun a => dbl_adjust_elt d l nd (f a)) (take i os) ++ map f (drop i os))
      0%nat (length os) body st) as (s & E & Hs) end.
  - done.
  - intros i s Hi ->. destruct (lookup_lt_is_Some_2 os i) as [a Ha]; [lia|].
    assert (Hd : drop i os = a :: drop (S i) os) by (by apply drop_S).
    assert (Hlk : (map (fun a => dbl_adjust_elt d l nd (f a)) (take i os) ++ map f (drop i os)) !! i = Some (f a)).
    { rewrite lookup_app_r; rewrite map_length, take_length_le by lia; [|lia]. by rewrite Nat.sub_diag, Hd. }
    rewrite (proj2 (rd_Ok _ _ _) Hlk). cbn [bind].
    rewrite wr_Ok by (by eapply lookup_lt_Some). eexists. split; [reflexivity|].
    rewrite Hd, (take_S_r _ _ _ Ha), map_app, <- app_assoc. cbn [map app].
    rewrite insert_app_r_alt; rewrite map_length, take_length_le by lia; [|lia]. by rewrite Nat.sub_diag.
  - etransitivity; [exact E|]. rewrite Hs. simpl. rewrite take_ge, drop_ge by lia. by rewrite app_nil_r.
Qed.
