(** * Lemmas about casts of dates and date-times *)
From Verif Require Import Base M_Double M_Scalar M_Cast M_Ptype M_DateTime Spec_Value Spec_DateTime L_Dbl L_Cast L_Scalar.

Lemma bytes_lt_irrefl_strcmp a : c_strcmp a a = 0%Z.
Proof. induction a as [|z a IH]; [done|]. cbn. rewrite Z.ltb_irrefl. done. Qed.
Lemma tzone_equal_spec a b : tzone_equal a b = true <-> spelled a = spelled b.
Proof.
  unfold tzone_equal. destruct (str_ptr_eqb a b) eqn:E.
  { apply str_ptr_eqb_spec in E as ->. done. }
  change (char_of a) with (spelled a). change (char_of b) with (spelled b). split.
  - intros H. apply Z.eqb_eq in H. destruct (strcmp_spec (spelled a) (spelled b)) as [[? _]|[[_ ?]|[? _]]]; [lia|done|lia].
  - intros ->. by rewrite bytes_lt_irrefl_strcmp.
Qed.
Lemma tzone_get_ok tz z : tzone_get tz = Ok z <-> zone_of tz z.
Proof.
  unfold zone_of. destruct tz as [[|y rest]|]; cbn.
  - split; [done|]. intros [[? _]|[? ?]]; done.
  - split; [intros [= ->]; right; eauto|]. intros [[? _]|[? [= -> _]]]; done.
  - split; [intros [= <-]; by left|]. intros [[_ ->]|[? ?]]; done.
Qed.
Lemma tzone_get_cases tz : (exists z, tzone_get tz = Ok z /\ zone_of tz z) \/ (exists e, tzone_get tz = Err e) /\ tz = Some [].
Proof.
  destruct tz as [[|y rest]|].
  - right. split; [by eexists|done].
  - left. exists y. split; [done|]. right. by eexists.
  - left. exists (Some []). split; [done|]. by left.
Qed.
Lemma zone_validate tz z : zone_of (validate_tzone tz) z <-> zone_of tz z.
Proof.
  destruct tz as [tz|]; [done|]. unfold zone_of. cbn. split.
  - intros [[? _]|[? [= <- _]]]; [done|]. by left.
  - intros [[_ ->]|[? ?]]; [|done]. right. by eexists.
Qed.
Lemma coerce_times w : Forall is_int w -> Forall2 same_number w (coerce_dbl w).
Proof.
  induction 1 as [|i w Hi _ IH]; [constructor|]. cbn [coerce_dbl map]. constructor; [|exact IH].
  unfold same_number, int_sem. change (- 2 ^ 31)%Z with NA_INTEGER.
  destruct (Z.eqb_spec i NA_INTEGER); [apply na_real_sem|].
  destruct (dbl_of_int_spec i Hi) as [_ E]. exact E.
Qed.
Lemma coerce_wf w : Forall is_int w -> Forall dbl_wf (coerce_dbl w).
Proof.
  induction 1 as [|i w Hi _ IH]; [constructor|]. cbn [coerce_dbl map]. constructor; [|exact IH].
  destruct (Z.eqb_spec i NA_INTEGER); [unfold dbl_wf, NA_REAL, two64; lia|]. by destruct (dbl_of_int_spec i Hi).
Qed.
Lemma validate_type_ok d : ints_wf d ->
  (exists v, datetime_validate_type d = Ok v /\ same_times d v /\ Forall dbl_wf v) \/
  (exists e, datetime_validate_type d = Err e) /\ d = TOther.
Proof.
  destruct d as [w|w|]; intros H; cbn in H.
  - left. eexists. split; [done|]. split; [by apply coerce_times|by apply coerce_wf].
  - left. eexists. done.
  - right. split; [by eexists|done].
Qed.
Lemma validate_ok x : ints_wf (ct_data x) ->
  (exists v, datetime_validate x = Ok (CT (TDbl v) (validate_tzone (ct_tzone x))) /\ same_times (ct_data x) v /\ Forall dbl_wf v) \/
  (exists e, datetime_validate x = Err e) /\ ct_data x = TOther.
Proof.
  intros H. unfold datetime_validate. destruct (validate_type_ok _ H) as [(v & -> & Hs & Hw)|[[e ->] Hd]].
  - left. exists v. done.
  - right. split; [by eexists|done].
Qed.
Lemma deq_same a b : dbl_wf a -> dbl_wf b -> c_deq a b = true <-> same_time a b.
Proof.
  intros Ha Hb. unfold same_time. split.
  - intros H. pose proof H as H'. unfold c_deq in H'. apply andb_true_iff in H' as [[Hna Hnb]%andb_true_iff _].
    apply negb_true_iff in Hna, Hnb. pose proof (dbl_value_spec _ Ha Hna) as Ea. pose proof (dbl_value_spec _ Hb Hnb) as Eb.
    rewrite (c_deq_spec _ _ _ _ Ha Hb Ea Eb) in H. apply Z.eqb_eq in H. exists (dbl_value a). split; [done|]. by rewrite Eb, H.
  - intros (v & Ea & Eb). rewrite (c_deq_spec _ _ _ _ Ha Hb Ea Eb). apply Z.eqb_refl.
Qed.
