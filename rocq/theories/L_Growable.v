(** * Lemmas: growable vectors *)
From Verif Require Import Base M_Growable L_Proxy.
From Coq Require Import ZifyBool ZifyNat.

(** [g] holds the values [vs]. *)
Definition ginv (g : growable) (vs : list Z) : Prop :=
  g_n g = length vs /\ take (length vs) (g_x g) = vs /\
  Z.of_nat (length (g_x g)) = g_capacity g /\ (1 <= g_capacity g)%Z.

Lemma new_growable_inv c : (1 <= c)%Z -> ginv (new_growable c) [].
Proof.
  intros Hk. unfold ginv, new_growable. simpl. rewrite replicate_length. split_and!; try done; lia.
Qed.
Lemma growable_values_inv g vs : ginv g vs -> growable_values g = vs.
Proof.
  intros (Hn & Ht & Hc & _). unfold growable_values, lengthgets. rewrite Hn, Ht.
  assert (length vs <= length (g_x g)) by (rewrite <- Ht, take_length; lia).
  replace (length vs - length (g_x g)) with 0 by lia. simpl. apply app_nil_r.
Qed.

Lemma take_snoc_insert {A} (vs x : list A) v : length vs < length x -> take (length vs) x = vs ->
  take (length (vs ++ [v])) (<[length vs := v]> x) = vs ++ [v].
Proof.
  intros Hx Hx'. rewrite app_length. simpl. replace (length vs + 1) with (S (length vs)) by lia.
  rewrite (take_S_r _ _ v) by (by apply list_lookup_insert). rewrite take_insert, Hx' by lia. done.
Qed.

(** Pushing works as long as doubling a full vector stays below INT_MAX; in
    particular until there are 2^30 values. *)
Lemma growable_push_inv g vs v : ginv g vs -> (Z.of_nat (length vs) < 2 ^ 30)%Z ->
  exists g', growable_push_int g v = Ok g' /\ ginv g' (vs ++ [v]) /\
    g_capacity g' = (if (Z.of_nat (length vs) =? g_capacity g) then g_capacity g * 2 else g_capacity g)%Z.
Proof.
  intros (Hn & Ht & Hc & H1) Hl. unfold growable_push_int.
  assert (Hle : length vs <= length (g_x g)) by (rewrite <- Ht, take_length; lia).
  rewrite Hn. destruct (Z.eqb_spec (Z.of_nat (length vs)) (g_capacity g)) as [E|E].
  - destruct (Z.ltb_spec INT_MAX (g_capacity g * 2)) as [H'|H']; [unfold INT_MAX in H'; lia|]. simpl.
    set (x' := lengthgets (g_x g) (Z.to_nat (g_capacity g * 2))).
    assert (Hx' : Z.of_nat (length x') = (g_capacity g * 2)%Z).
    { unfold x', lengthgets. rewrite app_length, take_length, replicate_length. lia. }
    assert (Hp : take (length vs) x' = vs).
    { unfold x', lengthgets. rewrite take_app_le by (rewrite take_length; lia).
      rewrite take_take, Nat.min_l by lia. done. }
    rewrite ?Hn. rewrite wr_Ok by lia. simpl. eexists. split; [reflexivity|]. unfold ginv. simpl.
    rewrite insert_length. split_and!; try done; try lia.
    + rewrite app_length. simpl. lia.
    + apply take_snoc_insert; [lia|done].
  - simpl. rewrite ?Hn. rewrite wr_Ok by lia. simpl. eexists. split; [reflexivity|]. unfold ginv. simpl.
    rewrite insert_length. split_and!; try done; try lia.
    + rewrite app_length. simpl. lia.
    + apply take_snoc_insert; [lia|done].
Qed.

(** The capacity is the initial one times a power of two. *)
Definition gcap (c : Z) (g : growable) : Prop :=
  exists k, (0 <= k)%Z /\ g_capacity g = (c * 2 ^ k)%Z /\ (k = 0 \/ c * 2 ^ (k - 1) < Z.of_nat (g_n g))%Z.
Lemma gcap_new c : gcap c (new_growable c).
Proof. exists 0%Z. simpl. split_and!; lia. Qed.
Lemma gcap_push c g g' vs v : gcap c g -> ginv g vs -> ginv g' (vs ++ [v]) ->
  g_capacity g' = (if (Z.of_nat (length vs) =? g_capacity g) then g_capacity g * 2 else g_capacity g)%Z -> gcap c g'.
Proof.
  intros (k & Hk & Ek & Hc) (Hn & _) (Hn' & _) E. rewrite app_length in Hn'. simpl in Hn'.
  destruct (Z.eqb_spec (Z.of_nat (length vs)) (g_capacity g)) as [Eq|Eq].
  - exists (k + 1)%Z. split; [lia|]. split.
    + rewrite E, Ek, Z.pow_add_r by lia. lia.
    + right. rewrite Z.add_simpl_r. lia.
  - exists k. split; [lia|]. split; [congruence|]. destruct Hc as [|Hc]; [by left|]. right. lia.
Qed.
(** With 2^30 values and an initial capacity of 256 the capacity overflows. *)
Lemma growable_push_overflow g vs v : ginv g vs -> gcap 256 g -> Z.of_nat (length vs) = (2 ^ 30)%Z ->
  growable_push_int g v = UB "signed integer overflow".
Proof.
  intros (Hn & Ht & Hc & H1) (k & Hk & Ek & Hcap) Hl.
  assert (Hle : length vs <= length (g_x g)) by (rewrite <- Ht, take_length; lia).
  assert (Hcv : g_capacity g = (2 ^ 30)%Z).
  { rewrite Ek. change 256%Z with (2 ^ 8)%Z in *. rewrite <- Z.pow_add_r by lia. f_equal.
    destruct Hcap as [->|Hcap]; [lia|].
    destruct (decide (k = 0)%Z) as [->|]; [lia|].
    rewrite <- Z.pow_add_r in Hcap by lia. rewrite Hn, Hl in Hcap. apply Z.pow_lt_mono_r_iff in Hcap; [|lia|lia].
    assert (Hge : (2 ^ 30 <= 2 ^ (8 + k))%Z) by (rewrite Z.pow_add_r by lia; lia).
    apply Z.pow_le_mono_r_iff in Hge; lia. }
  unfold growable_push_int. rewrite Hn, Hl, Hcv. done.
Qed.

(** ** Dynamic arrays *)
Section dyn.
  Context {A : Type} (zero : A).
  Definition dyninv (p : @dyn_array A) (vs : list A) : Prop :=
    dyn_count p = Z.of_nat (length vs) /\ take (length vs) (dyn_data p) = vs /\
    Z.of_nat (length (dyn_data p)) = dyn_capacity p /\ (1 <= dyn_capacity p)%Z.
  Lemma r_new_dyn_vector_inv c : (1 <= c)%Z -> dyninv (r_new_dyn_vector zero c) [].
  Proof. intros H. unfold dyninv, r_new_dyn_vector. simpl. rewrite replicate_length. split_and!; try done; lia. Qed.
  Lemma r_dyn_unwrap_inv p vs : dyninv p vs -> r_dyn_unwrap zero p = vs.
  Proof.
    intros (Hn & Ht & Hc & _). unfold r_dyn_unwrap. rewrite Hn, Nat2Z.id, Ht.
    assert (length vs <= length (dyn_data p)) by (rewrite <- Ht, take_length; lia).
    replace (length vs - length (dyn_data p)) with 0 by lia. simpl. apply app_nil_r.
  Qed.
  Lemma r_dyn_push_back_inv p vs v : dyninv p vs -> (2 * Z.of_nat (length vs) <= R_SSIZE_MAX)%Z ->
    exists p', r_dyn_push_back zero p v = Ok p' /\ dyninv p' (vs ++ [v]).
  Proof.
    intros (Hn & Ht & Hc & H1) Hl. unfold r_dyn_push_back, r_dyn_increment. simpl.
    assert (Hle : length vs <= length (dyn_data p)) by (rewrite <- Ht, take_length; lia).
    destruct (Z.ltb_spec (dyn_capacity p) (dyn_count p + 1)) as [Hf|Hf].
    - unfold r_ssize_mult.
      assert (Hov : (R_SSIZE_MAX / 2 <? dyn_capacity p)%Z = false).
      { apply Z.ltb_ge. apply Z.div_le_lower_bound; lia. }
      rewrite Hov, andb_false_r. simpl. rewrite Hn, wrZ_nat.
      set (x' := take _ (dyn_data p) ++ _).
      assert (Hx' : Z.of_nat (length x') = (dyn_capacity p * 2)%Z).
      { unfold x'. rewrite app_length, take_length, replicate_length. lia. }
      assert (Hp : take (length vs) x' = vs).
      { unfold x'. rewrite take_app_le by (rewrite take_length; lia).
        rewrite take_take, Nat.min_l by lia. done. }
      rewrite wr_Ok by lia. simpl. eexists. split; [reflexivity|]. unfold dyninv. simpl.
      rewrite insert_length, app_length. simpl. split_and!; try done; try lia.
      pose proof (take_snoc_insert vs x' v ltac:(lia) Hp) as HT. by rewrite app_length in HT.
    - simpl. rewrite Hn, wrZ_nat, wr_Ok by lia. simpl. eexists. split; [reflexivity|]. unfold dyninv. simpl.
      rewrite insert_length, app_length. simpl. split_and!; try done; try lia.
      pose proof (take_snoc_insert vs (dyn_data p) v ltac:(lia) Ht) as HT. by rewrite app_length in HT.
  Qed.
  Lemma r_dyn_pop_back_inv p vs v : dyninv p (vs ++ [v]) ->
    exists p', r_dyn_pop_back p = Ok (p', v) /\ dyninv p' vs.
  Proof.
    intros (Hn & Ht & Hc & H1). unfold r_dyn_pop_back. rewrite app_length in *. simpl in *.
    assert (Hle : length vs + 1 <= length (dyn_data p)).
    { apply (f_equal length) in Ht. rewrite take_length, app_length in Ht. simpl in Ht. lia. }
    replace (dyn_count p - 1)%Z with (Z.of_nat (length vs)) by lia. rewrite rdZ_nat.
    assert (Ev : dyn_data p !! length vs = Some v).
    { rewrite <- (lookup_take _ (length vs + 1)) by lia. rewrite Ht. by apply list_lookup_middle. }
    rewrite (proj2 (rd_Ok _ _ _) Ev). simpl. eexists. split; [reflexivity|]. unfold dyninv. simpl. split_and!; try done.
    apply (f_equal (take (length vs))) in Ht. rewrite take_take, Nat.min_l in Ht by lia. by rewrite take_app in Ht.
  Qed.
End dyn.
