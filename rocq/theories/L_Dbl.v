(** * Lemmas about doubles, strings and integers *)
From Verif Require Import Base M_Double M_Scalar M_Object M_Proxy Spec_Value.
From Coq Require Import ZifyBool ZifyNat.
Local Ltac Zify.zify_post_hook ::= Z.div_mod_to_equations.

Lemma two52_pow : two52 = (2 ^ 52)%Z. Proof. reflexivity. Qed.
Lemma two63_pow : two63 = (2 ^ 63)%Z. Proof. reflexivity. Qed.
Lemma two64_pow : two64 = (2 ^ 64)%Z. Proof. reflexivity. Qed.
Lemma two32_pow : two32 = (2 ^ 32)%Z. Proof. reflexivity. Qed.

Section dbl.
  Open Scope Z_scope.

  Lemma dbl_exp_spec b : dbl_wf b -> dbl_exp b = field_exp b.
  Proof.
    unfold dbl_wf, dbl_exp, field_exp, dbl_mag, two63, two52, two64.
    change (2 ^ 52) with 4503599627370496. change (2 ^ 11) with 2048. intros H. lia.
  Qed.
  Lemma dbl_frac_spec b : dbl_wf b -> dbl_frac b = field_frac b.
  Proof.
    unfold dbl_wf, dbl_frac, field_frac, dbl_mag, two63, two52, two64.
    change (2 ^ 52) with 4503599627370496. intros H. lia.
  Qed.
  Lemma dbl_sign_spec b : dbl_wf b -> dbl_sign b = Z.testbit b 63.
  Proof.
    intros H. unfold dbl_sign. rewrite Z.testbit_eqb by lia.
    unfold dbl_wf, two63, two64 in *. change (2 ^ 63) with 9223372036854775808. lia.
  Qed.
  Lemma isnan_spec b : dbl_wf b ->
    isnan b = (field_exp b =? 2047) && negb (field_frac b =? 0).
  Proof. intros H. unfold isnan. by rewrite dbl_exp_spec, dbl_frac_spec. Qed.

  Lemma dbl_value_spec b : dbl_wf b -> isnan b = false -> dbl_sem b = SNum (dbl_value b).
  Proof.
    intros Hwf Hn. unfold dbl_sem. rewrite isnan_spec in Hn by done. rewrite Hn.
    unfold dbl_value, mag_value, field_sign. rewrite dbl_sign_spec by done.
    change (dbl_mag b / two52) with (dbl_exp b). change (dbl_mag b mod two52) with (dbl_frac b).
    rewrite dbl_exp_spec, dbl_frac_spec by done. rewrite two52_pow.
    destruct (Z.testbit b 63); f_equal; destruct (field_exp b =? 0); lia.
  Qed.

  Lemma dbl_classify_spec b : dbl_wf b ->
    dbl_classify b = match dbl_sem b with SNa => DblMissing | SNan => DblNan | SNum _ => DblNumber end.
  Proof.
    intros Hwf. unfold dbl_classify, dbl_sem. rewrite isnan_spec by done. rewrite two32_pow.
    destruct ((field_exp b =? 2047) && negb (field_frac b =? 0)); simpl; [|done].
    by destruct (b mod 2 ^ 32 =? 1954).
  Qed.
  Lemma isnan_sem b : dbl_wf b ->
    isnan b = match dbl_sem b with SNum _ => false | _ => true end.
  Proof.
    intros Hwf. unfold dbl_sem. rewrite isnan_spec by done.
    destruct ((field_exp b =? 2047) && negb (field_frac b =? 0)); simpl; [|done].
    by destruct (b mod 2 ^ 32 =? 1954).
  Qed.

  Lemma c_deq_spec x y v w : dbl_wf x -> dbl_wf y ->
    dbl_sem x = SNum v -> dbl_sem y = SNum w -> c_deq x y = (v =? w).
  Proof.
    intros Hx Hy Ex Ey. unfold c_deq. rewrite !isnan_sem, Ex, Ey by done. simpl.
    rewrite dbl_value_spec in Ex by (rewrite ?isnan_sem, ?Ex by done; done).
    rewrite dbl_value_spec in Ey by (rewrite ?isnan_sem, ?Ey by done; done).
    by injection Ex as ->; injection Ey as ->.
  Qed.
  Lemma c_dlt_spec x y v w : dbl_wf x -> dbl_wf y ->
    dbl_sem x = SNum v -> dbl_sem y = SNum w -> c_dlt x y = (v <? w).
  Proof.
    intros Hx Hy Ex Ey. unfold c_dlt. rewrite !isnan_sem, Ex, Ey by done. simpl.
    rewrite dbl_value_spec in Ex by (rewrite ?isnan_sem, ?Ex by done; done).
    rewrite dbl_value_spec in Ey by (rewrite ?isnan_sem, ?Ey by done; done).
    by injection Ex as ->; injection Ey as ->.
  Qed.

  Lemma dbl_equal_spec x y : dbl_wf x -> dbl_wf y ->
    dbl_equal_na_equal x y = true <-> dbl_sem x = dbl_sem y.
  Proof.
    intros Hx Hy. unfold dbl_equal_na_equal. rewrite !dbl_classify_spec, (isnan_sem y) by done.
    destruct (dbl_sem x) eqn:Ex, (dbl_sem y) eqn:Ey; simpl; try (split; congruence).
    rewrite (c_deq_spec x y v v0) by done. rewrite Z.eqb_eq. split; congruence.
  Qed.

  (** Monotonicity of the value in the magnitude: used for ordering keys. *)
  Lemma mag_value_mono m n : 0 <= m < n -> n <= 2047 * two52 -> mag_value m < mag_value n.
  Proof.
    intros Hm Hn. unfold mag_value.
    assert (Hp : two52 > 0) by (unfold two52; lia).
    pose proof (Z.div_mod m two52 ltac:(lia)) as Em. pose proof (Z.div_mod n two52 ltac:(lia)) as En.
    pose proof (Z.mod_pos_bound m two52 ltac:(lia)) as Bm. pose proof (Z.mod_pos_bound n two52 ltac:(lia)) as Bn.
    assert (Hqm : 0 <= m / two52) by (apply Z.div_pos; lia).
    assert (Hqn : m / two52 <= n / two52) by (apply Z.div_le_mono; lia).
    set (qm := m / two52) in *. set (qn := n / two52) in *.
    set (rm := m mod two52) in *. set (rn := n mod two52) in *.
    destruct (Z.eq_dec qm qn) as [e|ne].
    - rewrite e in *. assert (rm < rn) by lia.
      destruct (Z.eqb_spec qn 0); [lia|].
      assert (0 < 2 ^ (qn - 1)) by (apply Z.pow_pos_nonneg; lia). nia.
    - assert (qm + 1 <= qn) by lia.
      destruct (Z.eqb_spec qn 0); [lia|].
      assert (Hle : 2 ^ (qn - 1) = 2 ^ (qn - 1 - qm) * 2 ^ qm).
      { rewrite <- Z.pow_add_r by lia. f_equal. lia. }
      assert (0 < 2 ^ (qn - 1 - qm)) by (apply Z.pow_pos_nonneg; lia).
      assert (0 < 2 ^ qm) by (apply Z.pow_pos_nonneg; lia).
      destruct (Z.eqb_spec qm 0) as [e0|ne0].
      + rewrite e0 in *. simpl in *. nia.
      + assert (E2 : 2 ^ qm = 2 * 2 ^ (qm - 1)).
        { replace qm with (Z.succ (qm - 1)) at 1 by lia. rewrite Z.pow_succ_r by lia. done. }
        assert (0 < 2 ^ (qm - 1)) by (apply Z.pow_pos_nonneg; lia).
        assert (2 ^ qm <= 2 ^ (qn - 1)) by nia. nia.
  Qed.
End dbl.

Lemma bytes_eqb_spec a b : bytes_eqb a b = true <-> a = b.
Proof.
  revert b. induction a as [|x a IH]; destruct b as [|y b]; simpl; try (split; congruence).
  rewrite andb_true_iff, IH, Z.eqb_eq. split; [intros [-> ->]|intros [= -> ->]]; done.
Qed.
Lemma str_ptr_eqb_spec a b : str_ptr_eqb a b = true <-> a = b.
Proof.
  destruct a, b; simpl; try (split; congruence). rewrite bytes_eqb_spec. split; congruence.
Qed.
Lemma str_ptr_eqb_refl a : str_ptr_eqb a a = true.
Proof. by apply str_ptr_eqb_spec. Qed.

Lemma int_sem_inj x y : int_sem x = int_sem y <-> x = y.
Proof.
  unfold int_sem. destruct (Z.eqb_spec x (-2^31)), (Z.eqb_spec y (-2^31)); split; congruence.
Qed.
Lemma int_sem_none x : int_sem x = None <-> x = INT_MIN.
Proof.
  unfold int_sem. change INT_MIN with (-2^31)%Z. destruct (Z.eqb_spec x (-2^31)); split; congruence.
Qed.

