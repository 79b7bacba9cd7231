(** * Lemmas: fields of records *)
From Verif Require Import Base M_Double M_Scalar M_Cast M_Fields Spec_Value Spec_Cast Spec_Fields L_Dbl L_Cast.
#[local] Open Scope Z_scope.
#[local] Arguments Z.mul : simpl never.
#[local] Arguments Z.add : simpl never.
#[local] Arguments Z.sub : simpl never.
#[local] Arguments Z.pow : simpl never.
#[local] Opaque dscale.

Lemma pow_pos k : 0 <= k -> 0 < 2 ^ k.
Proof. intros. apply Z.pow_pos_nonneg; lia. Qed.

(** the parts of a value that does not fit 53 bits *)
Lemma round_parts v : 2 ^ 53 <= Z.abs v ->
  let a := Z.abs v in let e := Z.log2 a - 52 in
  1 <= e /\ a = 2 ^ e * (a / 2 ^ e) + a mod 2 ^ e /\ 0 <= a mod 2 ^ e < 2 ^ e /\ 2 ^ 52 <= a / 2 ^ e /\ 0 < 2 ^ (e - 1).
Proof.
  intros H a e. assert (Ha : 0 < a) by lia.
  assert (He : 1 <= e). { unfold e. pose proof (Z.log2_le_mono _ _ H) as HH. rewrite Z.log2_pow2 in HH by lia. fold a in HH. lia. }
  pose proof (pow_pos e ltac:(lia)) as Hp.
  split; [done|]. split; [apply Z.div_mod; lia|]. split; [apply Z.mod_pos_bound; lia|]. split; [|apply pow_pos; lia].
  apply Z.div_le_lower_bound; [done|]. rewrite <- Z.pow_add_r by lia. replace (e + 52) with (Z.log2 a) by lia.
  by apply Z.log2_spec.
Qed.
Lemma round_cases v : 2 ^ 53 <= Z.abs v ->
  let a := Z.abs v in let e := Z.log2 a - 52 in
  (round_dbl v = Z.sgn v * (a / 2 ^ e * 2 ^ e) \/ round_dbl v = Z.sgn v * ((a / 2 ^ e + 1) * 2 ^ e)) /\
  (a mod 2 ^ e = 0 -> round_dbl v = Z.sgn v * (a / 2 ^ e * 2 ^ e)).
Proof.
  intros H a e. pose proof (round_parts v H) as (H1 & H2 & H3 & H4 & H5). fold a in H1, H2, H3, H4, H5. fold e in H1, H2, H3, H4, H5.
  unfold round_dbl. fold a. destruct (Z.ltb_spec a (2 ^ 53)); [lia|]. fold e. cbv zeta.
  split; [destruct (_ || _); auto|]. intros E. rewrite E.
  destruct (Z.ltb_spec (2 ^ (e - 1)) 0); [lia|]. destruct (Z.eqb_spec 0 (2 ^ (e - 1))); [lia|]. done.
Qed.

Lemma round_neg v : v < 0 -> round_dbl v < 0.
Proof.
  intros Hv. destruct (Z.lt_ge_cases (Z.abs v) (2 ^ 53)) as [H|H].
  - unfold round_dbl. destruct (Z.ltb_spec (Z.abs v) (2 ^ 53)); [done|lia].
  - pose proof (round_parts v H) as (H1 & H2 & H3 & H4 & H5). destruct (round_cases v H) as [Hc _]. cbv zeta in *.
    set (e := Z.log2 (Z.abs v) - 52) in *. set (q := Z.abs v / 2 ^ e) in *.
    pose proof (pow_pos e ltac:(lia)) as Hp. rewrite Z.sgn_neg in Hc by done.
    assert (Hq : 0 < q * 2 ^ e) by (apply Z.mul_pos_pos; lia).
    assert (Hq1 : 0 < (q + 1) * 2 ^ e) by (apply Z.mul_pos_pos; lia). destruct Hc as [-> | ->]; lia.
Qed.
Lemma round_ge v i : 0 <= i < 2 ^ 52 -> i * dscale <= v -> i * dscale <= round_dbl v.
Proof.
  intros Hi Hv. pose proof dscale_pos as HS. assert (H0 : 0 <= i * dscale) by (apply Z.mul_nonneg_nonneg; lia).
  destruct (Z.lt_ge_cases (Z.abs v) (2 ^ 53)) as [H|H].
  - unfold round_dbl. destruct (Z.ltb_spec (Z.abs v) (2 ^ 53)); [done|lia].
  - pose proof (round_parts v H) as (H1 & H2 & H3 & H4 & H5). destruct (round_cases v H) as [Hc _]. cbv zeta in *.
    rewrite (Z.abs_eq v) in * by lia.
    set (e := Z.log2 v - 52) in *. set (q := v / 2 ^ e) in *.
    pose proof (pow_pos e ltac:(lia)) as Hp. rewrite Z.sgn_pos in Hc by lia.
    assert (Hge : i * dscale <= q * 2 ^ e).
    { rewrite dscale_eq in *. destruct (Z.le_gt_cases e 1074) as [He|He].
      - assert (E : 2 ^ 1074 = 2 ^ (1074 - e) * 2 ^ e) by (rewrite <- Z.pow_add_r by lia; f_equal; lia).
        rewrite E in *. rewrite Z.mul_assoc in *. apply Z.mul_le_mono_nonneg_r; [lia|].
        apply Z.div_le_lower_bound; [done|]. lia.
      - transitivity (2 ^ 52 * 2 ^ e).
        + apply Z.mul_le_mono_nonneg; try lia. apply Z.pow_le_mono_r; lia.
        + apply Z.mul_le_mono_nonneg_r; lia. }
    destruct Hc as [-> | ->]; rewrite ?Z.mul_add_distr_r; lia.
Qed.
Lemma round_exact v k : 0 <= k -> 0 <= v < 2 ^ (k + 53) -> (2 ^ k | v) -> round_dbl v = v.
Proof.
  intros Hk Hv Hd. destruct (Z.lt_ge_cases (Z.abs v) (2 ^ 53)) as [H|H].
  - unfold round_dbl. destruct (Z.ltb_spec (Z.abs v) (2 ^ 53)); [done|lia].
  - pose proof (round_parts v H) as (H1 & H2 & H3 & H4 & H5). destruct (round_cases v H) as [_ Hc]. cbv zeta in *.
    rewrite (Z.abs_eq v) in * by lia.
    assert (Hl : Z.log2 v < k + 53) by (apply Z.log2_lt_pow2; lia).
    set (e := Z.log2 v - 52) in *.
    assert (Hde : (2 ^ e | v)).
    { transitivity (2 ^ k); [|done]. exists (2 ^ (k - e)). rewrite <- Z.pow_add_r by lia. f_equal. lia. }
    assert (Hm : v mod 2 ^ e = 0). { apply Z.mod_divide; [|done]. pose proof (pow_pos e ltac:(lia)). lia. }
    rewrite Hc by done. rewrite Z.sgn_pos by lia. rewrite Hm in H2. lia.
Qed.

(** the binary exponent of a double that is an index *)
Lemma dbl_value_parts x : dscale <= dbl_value x -> dbl_value x < 2 ^ 32 * dscale ->
  exists k, 0 <= k <= 1074 /\ (2 ^ k | dbl_value x) /\ dbl_value x < 2 ^ (k + 53).
Proof.
  pose proof dscale_pos as HS.
  intros Hlo Hhi. unfold dbl_value in *. assert (Hmag : 0 <= dbl_mag x) by (apply Z.mod_pos_bound; done).
  set (m := dbl_mag x) in *. pose proof (Z.mod_pos_bound m two52 eq_refl) as Hf.
  pose proof (Z.div_pos m two52 Hmag eq_refl) as He. unfold mag_value in *.
  set (e := m / two52) in *. set (f := m mod two52) in *.
  assert (H52 : two52 = 2 ^ 52) by done.
  assert (Hpe : forall e, 0 <= e -> 0 < 2 ^ e) by (intros; by apply pow_pos).
  destruct (dbl_sign x).
  { exfalso. destruct (e =? 0); [lia|].
    destruct (Z.le_gt_cases 0 (e - 1)) as [?|Hn].
    - assert (0 <= (two52 + f) * 2 ^ (e - 1)) by (apply Z.mul_nonneg_nonneg; [lia|]; specialize (Hpe (e - 1)); lia). lia.
    - rewrite Z.pow_neg_r in Hlo by lia. lia. }
  destruct (Z.eqb_spec e 0) as [E|E].
  { exfalso. rewrite dscale_eq in Hlo. assert (2 ^ 52 <= 2 ^ 1074) by (apply Z.pow_le_mono_r; lia). lia. }
  exists (e - 1). specialize (Hpe (e - 1) ltac:(lia)). split; [split; [lia|]|split].
  - destruct (Z.le_gt_cases (e - 1) 1074) as [?|Hn]; [done|]. exfalso.
    assert (2 ^ 52 * 2 ^ 1074 <= (two52 + f) * 2 ^ (e - 1)).
    { apply Z.mul_le_mono_nonneg; try lia. apply Z.pow_le_mono_r; lia. }
    rewrite dscale_eq in Hhi. assert (2 ^ 32 * 2 ^ 1074 < 2 ^ 52 * 2 ^ 1074) by (apply Z.mul_lt_mono_pos_r; [by apply pow_pos|lia]).
    lia.
  - by exists (two52 + f).
  - replace (e - 1 + 53) with (53 + (e - 1)) by lia. rewrite Z.pow_add_r by lia. apply Z.mul_lt_mono_pos_r; lia.
Qed.

(** decrementing an index is exact *)
Lemma dec_exact x : dscale <= dbl_value x -> dbl_value x < 2 ^ 32 * dscale ->
  round_dbl (dbl_value x - dscale) = dbl_value x - dscale.
Proof.
  intros Hlo Hhi. destruct (dbl_value_parts x Hlo Hhi) as (k & Hk & Hd & Hl). pose proof dscale_pos.
  apply (round_exact _ k); [lia|lia|]. apply Z.divide_sub_r; [done|]. rewrite dscale_eq.
  exists (2 ^ (1074 - k)). rewrite <- Z.pow_add_r by lia. f_equal. lia.
Qed.
