(** * Lemmas: sizes *)
From Verif Require Import Base M_Double M_Scalar M_Cast M_Sizes Spec_Value Spec_Cast Spec_Sizes L_Dbl L_Cast.
#[local] Open Scope Z_scope.
#[local] Opaque dscale.

Lemma quot_spec v : exists t r, v = t * dscale + r /\ v ÷ dscale = t /\ - dscale < r < dscale /\ (0 <= v -> 0 <= r) /\ (v <= 0 -> r <= 0).
Proof.
  pose proof dscale_pos as HS. exists (v ÷ dscale), (Z.rem v dscale).
  pose proof (Z.quot_rem v dscale ltac:(lia)). split; [lia|]. split; [done|].
  pose proof (Z.rem_bound_abs v dscale ltac:(lia)). split; [lia|].
  split; intros Hv.
  - pose proof (Z.rem_bound_pos v dscale). lia.
  - pose proof (Z.rem_bound_neg_pos v dscale). lia.
Qed.

Lemma int64_ok d v : dbl_wf d -> dbl_sem d = SNum v -> (INT64_MIN - 1) * dscale < v -> v < (INT64_MAX + 1) * dscale ->
  c_int64_of_dbl d = Ok (v ÷ dscale).
Proof.
  intros Hwf Hs H1 H2. destruct (num_isnan _ _ Hwf Hs) as [Hn Hv]. unfold c_int64_of_dbl. rewrite Hn, Hv.
  pose proof dscale_pos as HS.
  destruct (quot_spec v) as (t & r & E & Et & Hr & Hp & Hm). rewrite Et.
  destruct (Z.leb_spec INT64_MIN t) as [_|Hlt].
  - destruct (Z.leb_spec t INT64_MAX) as [_|Hgt]; [done|]. exfalso.
    assert ((INT64_MAX + 1) * dscale <= t * dscale) by (apply Z.mul_le_mono_nonneg_r; lia).
    assert (1 * dscale <= t * dscale) by (apply Z.mul_le_mono_nonneg_r; unfold INT64_MAX in *; lia).
    assert (0 <= r) by (apply Hp; lia). lia.
  - exfalso. assert (t * dscale <= (INT64_MIN - 1) * dscale) by (apply Z.mul_le_mono_nonneg_r; lia).
    assert (t * dscale <= -1 * dscale) by (apply Z.mul_le_mono_nonneg_r; unfold INT64_MIN in *; lia).
    assert (r <= 0) by (apply Hm; lia). lia.
Qed.

Lemma fractional_spec d v : dbl_wf d -> dbl_sem d = SNum v -> c_fractional d = negb (v mod dscale =? 0).
Proof. intros Hwf Hs. destruct (num_isnan _ _ Hwf Hs) as [Hn Hv]. unfold c_fractional. by rewrite Hn, Hv. Qed.
Lemma whole_spec v : v mod dscale = 0 <-> exists k, v = k * dscale.
Proof.
  pose proof dscale_pos as HS. split.
  - intros H. exists (v / dscale). pose proof (Z.div_mod v dscale ltac:(lia)). lia.
  - intros [k ->]. apply Z.mod_mul. lia.
Qed.
Lemma dbl_is_eq d k : dbl_is d k <-> dbl_sem d = SNum (k * dscale).
Proof. unfold dbl_is. by rewrite dscale_eq. Qed.
Lemma stands_dbl_inv x k : stands_for (SDbl [x]) k -> dbl_sem x = SNum (k * dscale).
Proof. intros H. apply dbl_is_eq. by inversion H. Qed.

#[local] Close Scope Z_scope.
Fixpoint mapR {A B} (f : A -> res B) (l : list A) : res (list B) :=
  match l with [] => Ok [] | x :: l => let! y := f x in let! l := mapR f l in Ok (y :: l) end.
Lemma mapR_Ok {A B} (f : A -> res B) l l' : mapR f l = Ok l' <-> Forall2 (fun x y => f x = Ok y) l l'.
Proof.
  split.
  - revert l'. induction l as [|x l IH]; intros l'; simpl.
    + intros [= <-]. constructor.
    + intros H. apply bind_Ok in H as (y & E & H). apply bind_Ok in H as (r & E2 & [= <-]).
      constructor; eauto.
  - induction 1 as [|x y l l' E _ IH]; simpl; [done|]. rewrite E. cbn [bind]. by rewrite IH.
Qed.
