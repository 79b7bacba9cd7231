(** * Lemmas: table size and the probing sequence (dictionary.c) *)
From Verif Require Import Base M_Dict.
From Coq Require Import ZifyBool ZifyNat.
Ltac Zify.zify_post_hook ::= Z.div_mod_to_equations.

(** ** The bit trick of [u32_safe_ceil2] *)
(** [z] has bit [j] iff [y] has a bit among [j .. j+w-1]. *)
Definition smeared (y z : Z) (w : nat) : Prop :=
  forall j, (0 <= j)%Z -> Z.testbit z j = true <-> exists d, d < w /\ Z.testbit y (j + Z.of_nat d) = true.

Lemma smeared_1 y : smeared y y 1.
Proof.
  intros j Hj. split.
  - intros H. exists 0. rewrite Z.add_0_r. split; [lia|done].
  - intros (d & Hd & H). assert (d = 0) as -> by lia. by rewrite Z.add_0_r in H.
Qed.
Lemma smeared_step y z w s : smeared y z w -> s = Z.of_nat w -> smeared y (Z.lor z (Z.shiftr z s)) (w + w).
Proof.
  intros H -> j Hj. rewrite Z.lor_spec, Z.shiftr_spec by done. rewrite Bool.orb_true_iff.
  rewrite (H j) by done. rewrite (H (j + Z.of_nat w)%Z) by lia. split.
  - intros [(d & Hd & E)|(d & Hd & E)].
    + exists d. split; [lia|done].
    + exists (w + d). split; [lia|]. rewrite <- E. f_equal. lia.
  - intros (d & Hd & E). destruct (decide (d < w)).
    + left. by exists d.
    + right. exists (d - w). split; [lia|]. rewrite <- E. f_equal. lia.
Qed.

Lemma smear_ones y : (0 < y < 2 ^ 32)%Z ->
  let x := Z.lor y (Z.shiftr y 1) in
  let x := Z.lor x (Z.shiftr x 2) in
  let x := Z.lor x (Z.shiftr x 4) in
  let x := Z.lor x (Z.shiftr x 8) in
  Z.lor x (Z.shiftr x 16) = (2 ^ (Z.log2 y + 1) - 1)%Z.
Proof.
  intros Hy. simpl.
  pose proof (smeared_1 y) as S1.
  apply (smeared_step _ _ _ 1) in S1; [|done].
  apply (smeared_step _ _ _ 2) in S1; [|done].
  apply (smeared_step _ _ _ 4) in S1; [|done].
  apply (smeared_step _ _ _ 8) in S1; [|done].
  apply (smeared_step _ _ _ 16) in S1; [|done].
  simpl in S1. set (z := Z.lor _ _) in S1 |- *.
  assert (Hl : (0 <= Z.log2 y < 32)%Z).
  { split; [apply Z.log2_nonneg|]. apply Z.log2_lt_pow2; lia. }
  replace (2 ^ (Z.log2 y + 1) - 1)%Z with (Z.ones (Z.log2 y + 1)) by (rewrite Z.ones_equiv; lia).
  apply Z.bits_inj'. intros j Hj. apply Bool.eq_iff_eq_true. rewrite (S1 j Hj).
  destruct (decide (j <= Z.log2 y)%Z) as [Hle|Hgt].
  - rewrite Z.ones_spec_low by lia. split; [done|]. intros _.
    exists (Z.to_nat (Z.log2 y - j)). split; [lia|]. replace (j + _)%Z with (Z.log2 y) by lia.
    apply Z.bit_log2. lia.
  - rewrite Z.ones_spec_high by lia. split; [|done]. intros (d & Hd & E).
    rewrite Z.bits_above_log2 in E by lia. done.
Qed.

(** The smallest power of two that is at least [x]. *)
Lemma u32_safe_ceil2_spec x : (0 <= x <= 2 ^ 31)%Z ->
  exists e, (0 <= e <= 31)%Z /\ u32_safe_ceil2 x = Ok (2 ^ e)%Z /\ (x <= 2 ^ e)%Z /\
    (1 < x -> 2 ^ e < 2 * x)%Z /\ (x <= 1 -> 2 ^ e = 1)%Z.
Proof.
  intros Hx. unfold u32_safe_ceil2. set (x' := if (x =? 0)%Z then 1%Z else x).
  destruct (decide (x' - 1 = 0)%Z) as [E|E].
  - rewrite E. simpl. exists 0%Z. unfold x' in E. destruct (Z.eqb_spec x 0); split_and!; try done; simpl; lia.
  - assert (Hx' : x' = x /\ (2 <= x)%Z) by (unfold x' in *; destruct (Z.eqb_spec x 0); lia).
    destruct Hx' as [-> Hx2].
    rewrite (smear_ones (x - 1)) by (rewrite ?Z.pow_twice_r; lia).
    set (m := Z.log2 (x - 1)). pose proof (Z.log2_spec (x - 1) ltac:(lia)) as Hm. fold m in Hm.
    assert (Hm31 : (0 <= m < 31)%Z).
    { split; [apply Z.log2_nonneg|]. apply Z.log2_lt_pow2; lia. }
    replace (2 ^ (m + 1) - 1 + 1)%Z with (2 ^ (m + 1))%Z by lia.
    assert (Hpos : (0 < 2 ^ (m + 1))%Z) by (apply Z.pow_pos_nonneg; lia).
    assert (Hle : (2 ^ (m + 1) <= 2 ^ 31)%Z) by (apply Z.pow_le_mono_r; lia).
    assert (Hu : u32 (2 ^ (m + 1)) = (2 ^ (m + 1))%Z) by (unfold u32, two32; apply Z.mod_small; lia).
    rewrite Hu. destruct (Z.eqb_spec (2 ^ (m + 1)) 0); [lia|].
    exists (m + 1)%Z. replace (Z.succ m) with (m + 1)%Z in Hm by lia.
    split_and!; try done; try lia. intros _. rewrite Z.pow_add_r by lia. lia.
Qed.

Lemma dict_key_size_spec n : (0 <= n <= R_LEN_T_MAX)%Z ->
  exists e, (4 <= e <= 31)%Z /\ dict_key_size n = Ok (2 ^ e)%Z /\ (n < 2 ^ e)%Z /\ (2 ^ e <= Z.max 16 (4 * n))%Z.
Proof.
  intros Hn. unfold dict_key_size, R_LEN_T_MAX, INT_MAX, two32 in *.
  destruct (Z.ltb_spec 2147483647 n); [lia|].
  destruct (Z.ltb_spec (4294967296 - 1) (2 * n)); [lia|].
  set (sz := if (2147483647 <? 2 * n)%Z then 2147483647%Z else (2 * n)%Z).
  assert (Hsz : (0 <= sz <= 2147483647)%Z /\ ((sz = 2 * n)%Z \/ (sz = 2147483647 /\ 1073741824 <= n)%Z)).
  { unfold sz. destruct (Z.ltb_spec 2147483647 (2 * n)); lia. }
  clearbody sz.
  destruct (u32_safe_ceil2_spec sz) as (e & He & -> & Hge & Hlt & Hone); [lia|]. simpl bind.
  assert (H16 : (2 ^ 4 = 16)%Z) by done.
  destruct (Z.ltb_spec (2 ^ e) 16).
  - exists 4%Z. destruct (Z.ltb_spec 16 n); [lia|]. split_and!; try done; lia.
  - assert (4 <= e)%Z. { destruct (decide (4 <= e)%Z); [done|]. exfalso.
      assert (2 ^ e <= 2 ^ 3)%Z by (apply Z.pow_le_mono_r; lia). lia. }
    assert (n < 2 ^ e)%Z.
    { destruct Hsz as [? [->|[Hs ?]]]; [destruct (decide (n = 0)%Z); lia|].
      rewrite Hs in Hge. assert (~ (e <= 30))%Z.
      { intros He30. assert (2 ^ e <= 2 ^ 30)%Z by (apply Z.pow_le_mono_r; lia). lia. }
      assert (e = 31)%Z as -> by lia. lia. }
    destruct (Z.ltb_spec (2 ^ e) n); [lia|]. exists e. split_and!; try done; lia.
Qed.

(** ** The probing sequence *)
Definition slot (size hash : Z) (k : nat) : nat :=
  Z.to_nat ((hash + (Z.of_nat k * (Z.of_nat k + 1)) / 2) mod size).

Lemma u32_half_mod a e : (0 <= e <= 31)%Z -> (0 <= a)%Z ->
  ((u32 a / 2) mod 2 ^ e = (a / 2) mod 2 ^ e)%Z.
Proof.
  intros He Ha. unfold u32, two32.
  assert (E : (a / 2 = (a mod 4294967296) / 2 + (a / 4294967296) * 2147483648)%Z) by lia.
  rewrite E. replace 2147483648%Z with (2 ^ (31 - e) * 2 ^ e)%Z
    by (rewrite <- Z.pow_add_r by lia; change 2147483648%Z with (2 ^ 31)%Z; f_equal; lia).
  rewrite Z.mul_assoc, Z_mod_plus_full. done.
Qed.

Lemma u32_mod a e : (0 <= e <= 32)%Z -> (u32 a mod 2 ^ e = a mod 2 ^ e)%Z.
Proof.
  intros He. unfold u32. symmetry. apply Znumtheory.Zmod_div_mod; [apply Z.pow_pos_nonneg; lia|done|].
  exists (2 ^ (32 - e))%Z. rewrite <- Z.pow_add_r by lia. unfold two32. change 4294967296%Z with (2 ^ 32)%Z. f_equal; lia.
Qed.

(** 32-bit wrap-around does not matter. *)
Lemma dict_probe_slot e hash k : (0 <= e <= 31)%Z -> (Z.of_nat k < 2 ^ e)%Z ->
  dict_probe (2 ^ e) hash (Z.of_nat k) = Z.of_nat (slot (2 ^ e) hash k).
Proof.
  intros He Hk. unfold dict_probe, slot.
  assert (Hpos : (0 < 2 ^ e)%Z) by (apply Z.pow_pos_nonneg; lia).
  assert (Hle : (2 ^ e <= 2 ^ 31)%Z) by (apply Z.pow_le_mono_r; lia).
  rewrite Z2Nat.id by (apply Z.mod_pos_bound; done).
  replace (2 ^ e - 1)%Z with (Z.ones e) by (rewrite Z.ones_equiv; lia).
  rewrite Z.land_ones by lia. rewrite u32_mod by lia.
  assert (Hs : u32 (Z.of_nat k + 1) = (Z.of_nat k + 1)%Z) by (unfold u32, two32; apply Z.mod_small; lia).
  rewrite Hs. rewrite <- (Z.add_mod_idemp_r hash), u32_half_mod, Z.add_mod_idemp_r by lia. done.
Qed.

(** Odd numbers are units modulo powers of two. *)
Lemma odd_pow2_divide e a : Z.Odd a -> (0 <= e)%Z -> forall b, (2 ^ e | a * b)%Z -> (2 ^ e | b)%Z.
Proof.
  intros [c Hc] He. pattern e. apply natlike_ind; [| |done].
  - intros b _. exists b. lia.
  - intros x Hx IH b [q Hq]. rewrite Z.pow_succ_r in * by done.
    assert (Hb : exists b', b = (2 * b')%Z).
    { exists (q * 2 ^ x - c * b)%Z. subst a. lia. }
    destruct Hb as [b' ->]. destruct (IH b') as [r Hr].
    { exists q. lia. }
    exists r. lia.
Qed.

Lemma tri_even k : (2 * ((k * (k + 1)) / 2) = k * (k + 1))%Z.
Proof.
  destruct (Z.Even_or_Odd k) as [[c ->]|[c ->]].
  - replace (2 * c * (2 * c + 1))%Z with ((c * (2 * c + 1)) * 2)%Z by lia. rewrite Z.div_mul by lia. lia.
  - replace ((2 * c + 1) * (2 * c + 1 + 1))%Z with (((2 * c + 1) * (c + 1)) * 2)%Z by lia.
    rewrite Z.div_mul by lia. lia.
Qed.

Lemma pow2_divide_small e z : (0 <= e)%Z -> (2 ^ e | z)%Z -> (- 2 ^ e < z < 2 ^ e)%Z -> z = 0%Z.
Proof.
  intros He [q ->] H. assert (0 < 2 ^ e)%Z by (apply Z.pow_pos_nonneg; lia).
  generalize dependent (2 ^ e)%Z. intros p H Hp. assert (q = 0)%Z as ->; [|done].
  assert (-1 < q < 1)%Z; [|lia]. split.
  - apply (Zmult_lt_reg_r _ _ p); lia.
  - apply (Zmult_lt_reg_r _ _ p); lia.
Qed.

(** Triangular numbers are distinct modulo a power of two. *)
Lemma tri_inj e a b : (0 <= e)%Z -> (0 <= a < 2 ^ e)%Z -> (0 <= b < 2 ^ e)%Z ->
  (2 ^ e | (a * (a + 1)) / 2 - (b * (b + 1)) / 2)%Z -> a = b.
Proof.
  intros He Ha Hb [q Hq].
  pose proof (tri_even a) as Ta. pose proof (tri_even b) as Tb.
  assert (HD : (2 ^ (e + 1) | (a - b) * (a + b + 1))%Z).
  { exists q. rewrite Z.pow_add_r by lia. change (2 ^ 1)%Z with 2%Z.
    replace ((a - b) * (a + b + 1))%Z with (a * (a + 1) - b * (b + 1))%Z by lia. lia. }
  assert (Hp : (2 ^ (e + 1) = 2 * 2 ^ e)%Z) by (rewrite Z.pow_add_r by lia; lia).
  destruct (Z.Even_or_Odd (a - b)) as [[c Hc]|Hodd].
  - rewrite Z.mul_comm in HD. apply odd_pow2_divide in HD; [|exists (b + c)%Z; lia|lia].
    apply pow2_divide_small in HD; lia.
  - apply odd_pow2_divide in HD; [|done|lia]. apply pow2_divide_small in HD; lia.
Qed.

Lemma slot_lt e h k : (0 <= e)%Z -> slot (2 ^ e) h k < Z.to_nat (2 ^ e).
Proof.
  intros He. unfold slot. assert (0 < 2 ^ e)%Z by (apply Z.pow_pos_nonneg; lia).
  pose proof (Z.mod_pos_bound (h + Z.of_nat k * (Z.of_nat k + 1) / 2) (2 ^ e) ltac:(lia)). lia.
Qed.
Lemma slot_inj e h a b : (0 <= e)%Z -> a < Z.to_nat (2 ^ e) -> b < Z.to_nat (2 ^ e) ->
  slot (2 ^ e) h a = slot (2 ^ e) h b -> a = b.
Proof.
  intros He Ha Hb E. unfold slot in E. assert (0 < 2 ^ e)%Z by (apply Z.pow_pos_nonneg; lia).
  apply Z2Nat.inj in E; [|apply Z.mod_pos_bound; lia|apply Z.mod_pos_bound; lia].
  apply Nat2Z.inj. apply (tri_inj e); [lia|lia|lia|].
  apply Z.mod_divide; [lia|]. 
  rewrite <- (Z.mod_0_l (2 ^ e)) by lia.
  replace (Z.of_nat a * (Z.of_nat a + 1) / 2 - Z.of_nat b * (Z.of_nat b + 1) / 2)%Z
    with ((h + Z.of_nat a * (Z.of_nat a + 1) / 2) - (h + Z.of_nat b * (Z.of_nat b + 1) / 2))%Z by lia.
  rewrite Zminus_mod, E, <- Zminus_mod. f_equal. lia.
Qed.
(** Every slot is tried. *)
Lemma slot_surj e h s : (0 <= e)%Z -> s < Z.to_nat (2 ^ e) ->
  exists k, k < Z.to_nat (2 ^ e) /\ slot (2 ^ e) h k = s.
Proof.
  intros He Hs. set (n := Z.to_nat (2 ^ e)) in *.
  assert (HND : List.NoDup (map (slot (2 ^ e) h) (seq 0 n))).
  { apply NoDup_ListNoDup. apply NoDup_fmap_2_strong; [|apply NoDup_seq].
    intros x y Hx Hy. apply elem_of_seq in Hx, Hy. apply slot_inj; unfold n in *; lia. }
  assert (HI : List.incl (seq 0 n) (map (slot (2 ^ e) h) (seq 0 n))).
  { apply NoDup_length_incl; [done| |].
    - rewrite map_length. done.
    - intros x Hx. apply in_map_iff in Hx as (k & <- & Hk). apply in_seq.
      pose proof (slot_lt e h k He). unfold n. lia. }
  specialize (HI s). rewrite in_seq in HI. specialize (HI ltac:(lia)).
  apply in_map_iff in HI as (k & E & Hk). apply in_seq in Hk. exists k. split; [lia|done].
Qed.
