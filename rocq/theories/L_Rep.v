(** * Lemmas about recycling and replication *)
From Verif Require Import Base M_Double M_Scalar M_Hash M_Object M_Proxy M_Slice M_Growable M_Runs M_Rep Spec_Slice Spec_Rep
  L_Proxy L_Slice L_SliceArray L_Assign L_Value L_SliceVal.
From Coq Require Import ZifyBool ZifyNat.
#[local] Arguments Z.mul : simpl never.
#[local] Arguments Z.add : simpl never.
#[local] Arguments Z.sub : simpl never.
#[local] Arguments Z.max : simpl never.

(** A loop that appends to a preallocated vector. *)
Lemma push_loop (f : nat -> Z) d cnt : forall lo acc m, cnt <= m ->
  for_ lo cnt (fun j '(sub, k) => let! sub := wr sub k (f j) in Ok (sub, S k)) (acc ++ replicate m d, length acc) =
  Ok ((acc ++ map f (seq lo cnt)) ++ replicate (m - cnt) d, length (acc ++ map f (seq lo cnt))).
Proof.
  induction cnt as [|cnt IH]; intros lo acc m Hm.
  - simpl. by rewrite app_nil_r, Nat.sub_0_r.
  - cbn [for_]. destruct m as [|m]; [lia|]. rewrite wr_Ok by (rewrite app_length, replicate_length; lia). cbn [bind].
    replace (<[length acc:=f lo]> (acc ++ replicate (S m) d)) with ((acc ++ [f lo]) ++ replicate m d).
    2:{ rewrite insert_app_r_alt, Nat.sub_diag by lia. simpl. by rewrite <- app_assoc. }
    replace (S (length acc)) with (length (acc ++ [f lo])) by (rewrite app_length; simpl; lia).
    rewrite IH by lia. rewrite <- (app_assoc acc [f lo]). done.
Qed.
Lemma concat_snoc {A} (l : list (list A)) x : concat (l ++ [x]) = concat l ++ x.
Proof. rewrite concat_app. simpl. by rewrite app_nil_r. Qed.
Lemma replicate_snoc {A} n (x : A) : replicate (S n) x = replicate n x ++ [x].
Proof. rewrite <- Nat.add_1_r, replicate_add. done. Qed.
Lemma concat_replicate_length {A} n (x : list A) : length (concat (replicate n x)) = n * length x.
Proof. induction n as [|n IH]; simpl; [done|]. rewrite app_length, IH. done. Qed.

Lemma rep_subscript_spec n t : rep_subscript n t = Ok (concat (replicate t (iota n))).
Proof.
  unfold rep_subscript.
  destruct (for_inv (fun i (st : list Z * nat) => st = (concat (replicate i (iota n)) ++ replicate (n * t - i * n) 0%Z, i * n))
    0 t (fun _ st =>
      for_ 0 n (fun j '(sub, k) =>
        let! sub := wr sub k (Z.of_nat j + 1)%Z in Ok (sub, S k)) st) (alloc (n * t), 0)) as (st & Hf & Hst).
  - simpl. by rewrite Nat.sub_0_r.
  - intros i st Hi ->. set (acc := concat (replicate i (iota n))).
    assert (Ha : length acc = i * n) by (unfold acc; rewrite concat_replicate_length, iota_length; lia).
    rewrite <- !Ha. rewrite (push_loop (fun j => Z.of_nat j + 1)%Z) by (rewrite Ha; nia). eexists; split; [done|].
    fold (iota n). assert (E : concat (replicate (S i) (iota n)) = acc ++ iota n).
    { rewrite replicate_snoc, concat_snoc. done. }
    rewrite E. f_equal; [f_equal; f_equal; rewrite Ha; lia|]. rewrite app_length, iota_length, Ha. lia.
  - rewrite Hf. cbn [bind]. rewrite Hst. cbn [bind]. f_equal. simpl. rewrite (Nat.mul_comm n t), Nat.sub_diag. simpl. by rewrite app_nil_r.
Qed.
Lemma iota_all n : iota n = all_locs_of n.
Proof. done. Qed.

(** ** Each *)
Fixpoint each (k : nat) (ts : list Z) : list Z :=
  match ts with [] => [] | t :: ts => replicate (Z.to_nat t) (Z.of_nat k + 1)%Z ++ each (S k) ts end.
Lemma each_app k a b : each k (a ++ b) = each k a ++ each (k + length a) b.
Proof.
  revert k. induction a as [|t a IH]; intros k; simpl; [by rewrite Nat.add_0_r|].
  rewrite IH, app_assoc. do 2 f_equal. lia.
Qed.
Lemma each_zip k ts : each k ts = concat (zip_with (fun i t => replicate (Z.to_nat t) i) (map (fun k => Z.of_nat k + 1)%Z (seq k (length ts))) ts).
Proof. revert k. induction ts as [|t ts IH]; intros k; simpl; [done|]. by rewrite IH. Qed.
Lemma each_length k ts : Forall (fun t => 0 <= t)%Z ts -> Z.of_nat (length (each k ts)) = total ts.
Proof. intros H. revert k. induction H as [|t ts Ht H IH]; intros k; simpl; [done|]. rewrite app_length, replicate_length. specialize (IH (S k)). lia. Qed.
Lemma total_app a b : total (a ++ b) = (total a + total b)%Z.
Proof. unfold total. induction a as [|x a IH]; simpl; [lia|]. rewrite IH. lia. Qed.
Lemma total_nonneg l : Forall (fun t => 0 <= t)%Z l -> (0 <= total l)%Z.
Proof. induction 1; simpl; unfold total in *; simpl; lia. Qed.
Lemma each_in k ts : Forall (fun i => Z.of_nat k + 1 <= i <= Z.of_nat k + Z.of_nat (length ts))%Z (each k ts).
Proof.
  revert k. induction ts as [|t ts IH]; intros k; simpl; [constructor|]. apply Forall_app. split.
  - apply Forall_replicate. lia.
  - eapply Forall_impl; [apply IH|]. simpl. lia.
Qed.

Lemma rep_each_subscript_spec n get ts size : length ts = n -> (forall i t, ts !! i = Some t -> get i = Ok t) ->
  Forall (fun t => 0 <= t)%Z ts -> total ts = size ->
  rep_each_subscript n get size = Ok (each 0 ts).
Proof.
  intros Hl Hget Hpos Htot. unfold rep_each_subscript.
  destruct (for_inv (fun i (st : list Z * nat) => st = (each 0 (take i ts) ++ replicate (Z.to_nat (total (drop i ts))) 0%Z, length (each 0 (take i ts))))
    0 n (fun i '(sub, k) =>
      let! t := get i in
      for_ 0 (Z.to_nat t) (fun _ '(sub, k) =>
        let! sub := wr sub k (Z.of_nat i + 1)%Z in Ok (sub, S k)) (sub, k)) (alloc (Z.to_nat size), 0)) as (st & Hf & Hst).
  - simpl. by rewrite drop_0, Htot.
  - intros i st Hi ->. destruct (lookup_lt_is_Some_nth ts i) as [t Ht]; [lia|]. rewrite (Hget _ _ Ht). cbn [bind].
    assert (Ht0 : (0 <= t)%Z) by (rewrite Forall_lookup in Hpos; eauto).
    rewrite (drop_S _ _ _ Ht). simpl total.
    pose proof (total_nonneg (drop (S i) ts) ltac:(by apply Forall_drop)) as Hn.
    rewrite (push_loop (fun _ => Z.of_nat i + 1)%Z) by lia. eexists; split; [done|].
    rewrite map_const_seq. rewrite (take_S_r _ _ _ Ht), each_app. simpl. rewrite app_nil_r, take_length, Nat.min_l by lia.
    f_equal. f_equal. f_equal. lia.
  - rewrite Hf. cbn [bind]. rewrite Hst. cbn [bind]. f_equal. simpl. rewrite take_ge, drop_ge by lia. simpl. by rewrite app_nil_r.
Qed.

(** ** vec_rep, vec_rep_each *)
Lemma check_times_ok t : (0 <= t <= INT_MAX)%Z -> check_rep_times t = Ok tt.
Proof. intros H. unfold check_rep_times, R_LEN_T_MAX. destruct (Z.ltb_spec t 0); [lia|]. destruct (Z.ltb_spec INT_MAX t); [lia|done]. Qed.
Lemma check_times_bad t : (t < 0)%Z -> exists e, check_rep_times t = Err e.
Proof. intros H. unfold check_rep_times. destruct (Z.ltb_spec t 0); [|lia]. destruct (t =? NA_INTEGER)%Z; eauto. Qed.

Lemma value_size_range v : value_ok v -> (0 <= value_size v <= INT_MAX)%Z.
Proof.
  destruct v as [t data names|t dim data|n names cols]; intros H.
  - apply value_ok_vec in H as (_ & _ & H). simpl. lia.
  - apply value_ok_arr in H as (_ & H & _). destruct (dim_ok_cons _ H) as (d & ds & ->). destruct (dim_elem _ _ H) as (_ & _ & Hd). done.
  - apply value_ok_df in H as (H & _). simpl. lia.
Qed.
Lemma slice_locs_spec v locs : value_ok v -> Forall (fun i => 1 <= i <= value_size v)%Z locs ->
  vec_slice_unsafe v (SLoc locs) = Ok (slice_val locs v).
Proof.
  intros Hv H. rewrite vec_slice_spec; [done|done| |done]. split; [|done]. simpl. eapply Forall_impl; [apply H|]. intros i Hi. by right.
Qed.
Lemma slice_rep1_spec v n : value_ok v -> value_size v = 1%Z -> (0 <= n <= INT_MAX)%Z ->
  vec_slice_unsafe v (SRep 1 n) = Ok (slice_val (replicate (Z.to_nat n) 1%Z) v).
Proof.
  intros Hv H1 Hn. rewrite vec_slice_spec; [done|done| |].
  - rewrite H1. split; [simpl; apply Forall_replicate; right; lia|]. split; [right; lia|lia].
  - intros m E. exfalso. injection E as E _. unfold NA_INTEGER, INT_MIN in E. lia.
Qed.

Lemma concat_replicate_singleton {A} n (x : A) : concat (replicate n [x]) = replicate n x.
Proof. induction n; simpl; [done|]. by f_equal. Qed.
Lemma vec_rep_spec v times : value_ok v -> (0 <= times <= INT_MAX)%Z -> (value_size v * times <= INT_MAX)%Z ->
  vec_rep v times = Ok (slice_val (rep_locs (Z.to_nat (value_size v)) times) v).
Proof.
  intros Hv Ht Hs. unfold vec_rep. rewrite check_times_ok by done. cbn [bind]. unfold rep_locs. rewrite <- iota_all.
  destruct (Z.eqb_spec times 1) as [->|Hn1].
  { change (Z.to_nat 1) with 1. simpl. rewrite app_nil_r. by rewrite slice_val_id. }
  destruct (Z.eqb_spec (value_size v) 1) as [E|E].
  - unfold vec_check_recycle. destruct (Z.eqb_spec (value_size v) times); [lia|].
    destruct (Z.eqb_spec (value_size v) 1); [|done]. unfold compact_rep. destruct (Z.ltb_spec times 0); [lia|]. cbn [bind].
    rewrite slice_rep1_spec by (done || lia). cbn [bind]. rewrite E. change (iota (Z.to_nat 1)) with [1%Z]. by rewrite concat_replicate_singleton.
  - unfold multiply_would_overflow, R_LEN_T_MAX. destruct (Z.ltb_spec INT_MAX (value_size v * times)); [lia|].
    rewrite rep_subscript_spec. cbn [bind]. apply slice_locs_spec; [done|]. apply Forall_forall. intros i Hi.
    apply elem_of_list_In, in_concat in Hi as (l & Hl & Hi). apply elem_of_list_In, elem_of_replicate in Hl as [-> _].
    pose proof (iota_ok (Z.to_nat (value_size v))) as HI. rewrite Forall_forall in HI. apply elem_of_list_In, HI in Hi.
    pose proof (value_size_range v Hv). lia.
Qed.
Lemma vec_rep_err v times : value_ok v -> (INT_MIN <= times <= INT_MAX)%Z ->
  (times < 0 \/ value_size v * times > INT_MAX)%Z -> exists e, vec_rep v times = Err e.
Proof.
  intros Hv Hi H. unfold vec_rep. pose proof (value_size_range v Hv). destruct (decide (times < 0)%Z) as [Hn|Hn].
  - destruct (check_times_bad times Hn) as [e ->]. eauto.
  - rewrite check_times_ok by lia. cbn [bind]. destruct (Z.eqb_spec times 1); [lia|]. destruct (Z.eqb_spec (value_size v) 1); [lia|].
    unfold multiply_would_overflow, R_LEN_T_MAX. destruct (Z.ltb_spec INT_MAX (value_size v * times)); [eauto|lia].
Qed.

Lemma each_replicate_one k n : each k (replicate n 1%Z) = map (fun k => Z.of_nat k + 1)%Z (seq k n).
Proof. revert k. induction n as [|n IH]; intros k; simpl; [done|]. change (Z.to_nat 1) with 1. simpl. by rewrite IH. Qed.
Lemma each_replicate_zero k n : each k (replicate n 0%Z) = [].
Proof. revert k. induction n as [|n IH]; intros k; simpl; [done|]. done. Qed.
Lemma total_replicate n t : total (replicate n t) = (Z.of_nat n * t)%Z.
Proof. induction n as [|n IH]; [done|]. simpl replicate. simpl. unfold total in *. rewrite IH. lia. Qed.
Lemma rep_each_locs_each n ts : length ts = n -> rep_each_locs n ts = each 0 ts.
Proof. intros <-. unfold rep_each_locs, all_locs_of. by rewrite each_zip. Qed.

Lemma size_loop ts : Forall (fun t => 0 <= t <= INT_MAX)%Z ts -> (total ts <= INT_MAX)%Z ->
  for_ 0 (length ts) (fun i size =>
        let! elt_times := rd ts i in
        let! _ := check_rep_times elt_times in
        if plus_would_overflow size elt_times then Err "Long vectors are not yet supported."
        else Ok (size + elt_times)%Z) 0%Z = Ok (total ts).
Proof.
  intros Hp Ht. match goal with |- for_ 0 _ ?b _ = _ => set (body := b) end.
  destruct (for_inv (fun i size => size = total (take i ts)) 0 (length ts) body 0%Z) as (s & Hf & ->); [done| |].
  - intros i s Hi ->. destruct (lookup_lt_is_Some_nth ts i) as [t Hti]; [lia|]. unfold body.
    assert (rd ts i = Ok t) as -> by by apply rd_Ok. cbn [bind].
    assert (0 <= t <= INT_MAX)%Z by (rewrite Forall_lookup in Hp; eauto). rewrite check_times_ok by done. cbn [bind].
    assert (total ts = total (take i ts) + (t + total (drop (S i) ts)))%Z as E.
    { rewrite <- (take_drop i ts) at 1. rewrite total_app, (drop_S _ _ _ Hti). done. }
    assert (0 <= total (drop (S i) ts))%Z.
    { apply total_nonneg. apply Forall_drop. eapply Forall_impl; [apply Hp|]. simpl. lia. }
    unfold plus_would_overflow, R_LEN_T_MAX. destruct (Z.ltb_spec (INT_MAX - t) (total (take i ts))); [lia|].
    eexists; split; [done|]. rewrite (take_S_r _ _ _ Hti), total_app. simpl. lia.
  - rewrite Hf. f_equal. by rewrite take_ge by lia.
Qed.
Lemma size_loop_err ts : Forall (fun t => INT_MIN <= t <= INT_MAX)%Z ts ->
  (Exists (fun t => t < 0)%Z ts \/ (total ts > INT_MAX)%Z) ->
  exists e, for_ 0 (length ts) (fun i size =>
        let! elt_times := rd ts i in
        let! _ := check_rep_times elt_times in
        if plus_would_overflow size elt_times then Err "Long vectors are not yet supported."
        else Ok (size + elt_times)%Z) 0%Z = Err e.
Proof.
  intros Hi H.
  assert (G : forall ws pre, ts = pre ++ ws -> (0 <= total pre <= INT_MAX)%Z ->
    (Exists (fun t => t < 0)%Z ws \/ (total ts > INT_MAX)%Z) ->
    exists e, for_ (length pre) (length ws) (fun i size =>
        let! elt_times := rd ts i in
        let! _ := check_rep_times elt_times in
        if plus_would_overflow size elt_times then Err "Long vectors are not yet supported."
        else Ok (size + elt_times)%Z) (total pre) = Err e).
  { induction ws as [|t ws IH]; intros pre E Hp HH.
    - rewrite app_nil_r in E. subst ts. destruct HH as [HH|HH]; [by inversion HH|lia].
    - cbn [length for_]. assert (rd ts (length pre) = Ok t) as -> by (apply rd_Ok; rewrite E, lookup_app_r, Nat.sub_diag by lia; done).
      cbn [bind]. assert (INT_MIN <= t <= INT_MAX)%Z.
      { rewrite Forall_forall in Hi. apply Hi. rewrite E. apply elem_of_app. right. by left. }
      destruct (decide (t < 0)%Z) as [Hn|Hn]; [destruct (check_times_bad t Hn) as [e ->]; eauto|].
      rewrite check_times_ok by lia. cbn [bind]. unfold plus_would_overflow, R_LEN_T_MAX.
      destruct (Z.ltb_spec (INT_MAX - t) (total pre)); [eauto|]. cbn [bind].
      specialize (IH (pre ++ [t])). rewrite <- app_assoc, app_length, Nat.add_1_r, total_app in IH. simpl in IH.
      replace (total pre + (t + 0))%Z with (total pre + t)%Z in IH by lia. apply IH; [done|lia|].
      destruct HH as [HH|HH]; [|by right]. inversion HH; subst; [lia|by left]. }
  specialize (G ts []). simpl in G. apply G; [done|unfold INT_MAX; lia|done].
Qed.

Definition times_ok (n : nat) (ts : list Z) : Prop :=
  (length ts = 1 \/ length ts = n) /\ Forall (fun t => 0 <= t)%Z ts /\ (total (recycled_times n ts) <= INT_MAX)%Z.
Lemma vec_rep_each_spec v ts : value_ok v -> Forall (fun t => INT_MIN <= t <= INT_MAX)%Z ts ->
  times_ok (Z.to_nat (value_size v)) ts ->
  vec_rep_each v ts = Ok (slice_val (each 0 (recycled_times (Z.to_nat (value_size v)) ts)) v).
Proof.
  intros Hv Hi (Hl & Hp & Ht). pose proof (value_size_range v Hv) as Hr.
  assert (Hin : forall ts', length ts' = Z.to_nat (value_size v) -> Forall (fun i => 1 <= i <= value_size v)%Z (each 0 ts')).
  { intros ts' E. eapply Forall_impl; [apply each_in|]. simpl. rewrite E. lia. }
  destruct (decide (length ts = 1)) as [E1|E1].
  - destruct ts as [|t [|]]; [done| |done]. simpl recycled_times in *. cbn [vec_rep_each].
    apply Forall_cons in Hp as [Hp _], Hi as [Hi _].
    destruct (Z.eqb_spec t 1) as [->|Hn1]; [rewrite each_replicate_one; fold (iota (Z.to_nat (value_size v))); by rewrite (slice_val_id v Hv)|].
    destruct (Z.eqb_spec t 0) as [->|Hn0]; [rewrite each_replicate_zero; apply slice_locs_spec; [done|constructor]|].
    unfold vec_rep_each_uniform. rewrite check_times_ok by lia. cbn [bind].
    rewrite total_replicate in Ht. unfold multiply_would_overflow, R_LEN_T_MAX. destruct (Z.ltb_spec INT_MAX (value_size v * t)); [lia|].
    rewrite (rep_each_subscript_spec _ _ (replicate (Z.to_nat (value_size v)) t)).
    + cbn [bind]. apply slice_locs_spec; [done|]. apply Hin. apply replicate_length.
    + apply replicate_length.
    + intros i t' Ht'. apply lookup_replicate in Ht' as [-> _]. done.
    + by apply Forall_replicate.
    + rewrite total_replicate. lia.
  - destruct Hl as [Hl|Hl]; [done|]. assert (Er : recycled_times (Z.to_nat (value_size v)) ts = ts) by (by destruct ts as [|t [|]]).
    rewrite Er in *. assert (vec_rep_each v ts = vec_rep_each_impl v ts) as -> by (by destruct ts as [|t [|]]).
    unfold vec_rep_each_impl. destruct (Z.eqb_spec (value_size v) (Z.of_nat (length ts))); [|lia]. cbn [negb].
    rewrite size_loop; [|clear -Hp Hi; induction Hp; constructor; apply Forall_cons in Hi as [? ?]; auto; lia|done]. cbn [bind].
    rewrite (rep_each_subscript_spec _ _ ts); [|done|intros; by apply rd_Ok|done|done]. cbn [bind].
    apply slice_locs_spec; [done|]. by apply Hin.
Qed.
Lemma vec_rep_each_err v ts : value_ok v -> Forall (fun t => INT_MIN <= t <= INT_MAX)%Z ts ->
  ~ times_ok (Z.to_nat (value_size v)) ts -> exists e, vec_rep_each v ts = Err e.
Proof.
  intros Hv Hi Hno. pose proof (value_size_range v Hv) as Hr. unfold times_ok in Hno.
  destruct (decide (length ts = 1)) as [E1|E1].
  - destruct ts as [|t [|]]; [done| |done]. simpl recycled_times in *. cbn [vec_rep_each].
    apply Forall_cons in Hi as [Hi _].
    rewrite total_replicate in Hno.
    assert (Hc : (t < 0 \/ INT_MAX < value_size v * t)%Z).
    { destruct (decide (t < 0)%Z); [by left|right]. apply Znot_ge_lt. intros ?. apply Hno. split; [by left|]. split; [|lia]. constructor; [lia|constructor]. }
    destruct (Z.eqb_spec t 1) as [->|Hn1]; [lia|]. destruct (Z.eqb_spec t 0) as [->|Hn0]; [unfold INT_MAX in *; lia|].
    unfold vec_rep_each_uniform. destruct (decide (t < 0)%Z) as [Hn|Hn]; [destruct (check_times_bad t Hn) as [e ->]; eauto|].
    rewrite check_times_ok by lia. cbn [bind].
    unfold multiply_would_overflow, R_LEN_T_MAX. destruct (Z.ltb_spec INT_MAX (value_size v * t)); [eauto|lia].
  - assert (vec_rep_each v ts = vec_rep_each_impl v ts) as -> by (by destruct ts as [|t [|]]).
    assert (Er : recycled_times (Z.to_nat (value_size v)) ts = ts) by (by destruct ts as [|t [|]]). rewrite Er in *.
    unfold vec_rep_each_impl. destruct (Z.eqb_spec (value_size v) (Z.of_nat (length ts))); [|eauto]. cbn [negb].
    destruct (size_loop_err ts Hi) as [er ->]; [|eauto].
    destruct (decide (Forall (fun t => 0 <= t)%Z ts)) as [Hp|Hp].
    + right. apply Z.lt_gt, Znot_ge_lt. intros ?. apply Hno. split; [right; lia|]. split; [done|lia].
    + left. apply not_Forall_Exists in Hp; [|intros x; apply _]. eapply Exists_impl; [apply Hp|]. simpl. lia.
Qed.
