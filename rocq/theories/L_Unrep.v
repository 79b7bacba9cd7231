(** * Lemmas about [vec_unrep] *)
From Verif Require Import Base M_Double M_Scalar M_Hash M_Object M_Proxy M_Slice M_Growable M_Runs M_Rep
  Spec_Value Spec_Equal Spec_Missing Spec_Dict Spec_Runs Spec_Slice Spec_Rep
  L_Proxy L_Equal L_Slice L_SliceArray L_Assign L_Value L_SliceVal L_Runs L_Runs2 L_Runs3 L_Rep.
From Coq Require Import ZifyBool ZifyNat.
#[local] Arguments Z.mul : simpl never.
#[local] Arguments Z.add : simpl never.
#[local] Arguments Z.sub : simpl never.
#[local] Arguments Z.max : simpl never.

Fixpoint cum (c : Z) (l : list Z) : list Z := match l with [] => [] | s :: l => c :: cum (c + s)%Z l end.
Lemma cum_length c l : length (cum c l) = length l.
Proof. revert c. induction l; intros c; simpl; auto. Qed.
Lemma cum_lookup c l r : r < length l -> cum c l !! r = Some (c + zsum (take r l))%Z.
Proof.
  revert c r. induction l as [|s l IH]; intros c r Hr; simpl in Hr; [lia|]. destruct r as [|r]; simpl.
  - f_equal. unfold zsum. simpl. lia.
  - rewrite IH by lia. f_equal. unfold zsum. simpl. lia.
Qed.
Lemma cum_snoc c l s : cum c (l ++ [s]) = cum c l ++ [c + zsum l]%Z.
Proof.
  revert c. induction l as [|a l IH]; intros c; simpl; [unfold zsum; simpl; f_equal; lia|].
  rewrite IH. do 3 f_equal. unfold zsum. simpl. lia.
Qed.
Lemma zsum_app a b : zsum (a ++ b) = (zsum a + zsum b)%Z.
Proof. unfold zsum. induction a as [|x a IH]; simpl; [lia|]. rewrite IH. lia. Qed.
Lemma zsum_total l : zsum l = total l.
Proof. done. Qed.

Lemma unrep_loop ts :
  for_ 0 (length ts) (fun i '(loc, current) =>
      let! loc := wr loc i current in
      let! t := rd ts i in
      Ok (loc, current + t)%Z) (alloc (length ts), 1%Z) = Ok (cum 1 ts, 1 + zsum ts)%Z.
Proof.
  destruct (for_inv (fun i (st : list Z * Z) => st = (cum 1 (take i ts) ++ replicate (length ts - i) 0%Z, 1 + zsum (take i ts))%Z)
    0 (length ts) (fun i '(loc, current) =>
      let! loc := wr loc i current in
      let! t := rd ts i in
      Ok (loc, current + t)%Z) (alloc (length ts), 1%Z)) as (st & Hf & Hst).
  - simpl. by rewrite Nat.sub_0_r.
  - intros i st Hi ->. destruct (lookup_lt_is_Some_nth ts i) as [t Ht]; [lia|].
    assert (Hc : length (cum 1 (take i ts)) = i) by (rewrite cum_length, take_length; lia).
    rewrite wr_Ok by (rewrite app_length, replicate_length, Hc; lia). cbn [bind].
    assert (rd ts i = Ok t) as -> by by apply rd_Ok. cbn [bind]. eexists; split; [done|].
    rewrite (take_S_r _ _ _ Ht), cum_snoc, zsum_app.
    replace (length ts - i) with (S (length ts - S i)) by lia.
    rewrite insert_app_r_alt, Hc, Nat.sub_diag by lia. simpl. rewrite <- app_assoc. simpl. f_equal. unfold zsum. simpl. lia.
  - rewrite Hf, Hst. simpl. rewrite Nat.sub_diag, take_ge by lia. simpl. by rewrite app_nil_r.
Qed.

(** Position [q] lies in run [r]. *)
Lemma each_lookup k ts q : Forall (fun t => 0 < t)%Z ts -> (Z.of_nat q < zsum ts)%Z ->
  exists r, r < length ts /\ (zsum (take r ts) <= Z.of_nat q < zsum (take (S r) ts))%Z /\ each k ts !! q = Some (Z.of_nat (k + r) + 1)%Z.
Proof.
  intros H. revert k q. induction H as [|t ts Ht H IH]; intros k q Hq; [unfold zsum in Hq; simpl in Hq; lia|].
  simpl each. destruct (decide (Z.of_nat q < t)%Z) as [Hlt|Hge].
  - exists 0. split; [simpl; lia|]. split; [unfold zsum; simpl; lia|].
    rewrite lookup_app_l by (rewrite replicate_length; lia). rewrite lookup_replicate_2 by lia. do 3 f_equal. lia.
  - destruct (IH (S k) (q - Z.to_nat t)) as (r & Hr & Hb & E).
    { unfold zsum in *. simpl in Hq. lia. }
    exists (S r). split; [simpl; lia|]. split; [unfold zsum in *; simpl in *; lia|].
    rewrite lookup_app_r by (rewrite replicate_length; lia). rewrite replicate_length, E. do 3 f_equal. lia.
Qed.

Lemma not_start_equal p i : proxy_ok p -> proxy_plain p -> 0 < i < proxy_size p -> ~ run_start p i -> rows_equal p (i - 1) p i.
Proof.
  intros [W R] P Hi Hn. pose proof (proxy_wf_lengths p W) as Hl.
  destruct (rbound p RStart i) eqn:E.
  - destruct Hn. by apply (rbound_spec p RStart i (conj W R) P ltac:(lia)).
  - unfold rbound in E. apply negb_false_iff in E. cbv zeta in E. simpl pos in E. destruct i as [|k]; [lia|].
    rewrite conts_spec in E by (done || lia). replace (S k - 1) with k by lia. done.
Qed.
Lemma run_rows_equal p a b : proxy_ok p -> proxy_plain p -> a <= b < proxy_size p ->
  (forall i, a < i <= b -> ~ run_start p i) -> rows_equal p a p b.
Proof.
  intros W P [Hab Hb] Hn. induction Hab as [|b Hab IH]; [done|].
  unfold rows_equal, row_same in *. rewrite IH by (lia || (intros; apply Hn; lia)).
  pose proof (not_start_equal p (S b) W P ltac:(lia) (Hn (S b) ltac:(lia))) as E. unfold rows_equal, row_same in E.
  by replace (S b - 1) with b in E by lia.
Qed.
(** No row strictly inside a run starts one. *)
Lemma zsum_take_lt l r k : Forall (fun t => 0 < t)%Z l -> r < k <= length l -> (zsum (take r l) < zsum (take k l))%Z.
Proof.
  intros H. revert r k. induction H as [|t l Ht H IH]; intros r k Hr; simpl in Hr; [lia|].
  destruct k as [|k]; [lia|]. destruct r as [|r]; simpl.
  - pose proof (zsum_nonneg (take k l) ltac:(by apply Forall_take)). unfold zsum in *. simpl. lia.
  - specialize (IH r k ltac:(lia)). unfold zsum in *. simpl. lia.
Qed.
Lemma inside_run p sizes r i : run_sizes_of p sizes -> r < length sizes ->
  (zsum (take r sizes) < Z.of_nat i < zsum (take (S r) sizes))%Z -> i < proxy_size p -> ~ run_start p i.
Proof.
  intros (Hp & Hs & H) Hr Hi Hin Hst. apply H in Hst as (k & Hk & E); [|done].
  destruct (lt_eq_lt_dec k r) as [[Hlt|Heq]|Hgt].
  - pose proof (zsum_take_lt sizes k r Hp ltac:(lia)). lia.
  - subst k. lia.
  - destruct (decide (k = S r)) as [->|]; [lia|]. pose proof (zsum_take_lt sizes (S r) k Hp ltac:(lia)). lia.
Qed.
Lemma zsum_take_le l r : Forall (fun t => 0 < t)%Z l -> r <= length l -> (0 <= zsum (take r l) <= zsum l)%Z.
Proof.
  intros H Hr. split; [apply zsum_nonneg; by apply Forall_take|].
  destruct (decide (r = length l)) as [->|]; [rewrite take_ge by lia; lia|].
  pose proof (zsum_take_lt l r (length l) H ltac:(lia)) as E. rewrite (take_ge l (length l)) in E by lia. lia.
Qed.

Lemma unrep_sizes_le sizes : Forall (fun t => 0 < t)%Z sizes -> (Z.of_nat (length sizes) <= zsum sizes)%Z.
Proof. induction 1; unfold zsum in *; simpl; lia. Qed.
