(** * Lemmas about run ids and run sizes *)
From Coq Require Import Sorting.Sorted.
From Verif Require Import Base M_Double M_Scalar M_Hash M_Object M_Proxy Spec_Value Spec_Equal Spec_Missing Spec_Dict
  L_Scalar L_Proxy L_Equal L_DictRows M_Slice M_Runs Spec_Runs L_Slice L_Runs L_Runs2.
From Coq Require Import ZifyBool ZifyNat.
#[local] Arguments Z.mul : simpl never.
#[local] Arguments Z.add : simpl never.
#[local] Arguments Z.sub : simpl never.

Lemma card_S n P k : card n P k -> (P n -> card (S n) P (S k)) /\ (~ P n -> card (S n) P k).
Proof.
  intros (ls & Hnd & Hm & Hl). split; intros HP.
  - exists (n :: ls). split; [|split].
    + constructor; [|done]. rewrite Hm. lia.
    + intros j. rewrite elem_of_cons, Hm. split.
      * intros [->|[? ?]]; split; try lia; done.
      * intros [H1 H2]. destruct (decide (j = n)); [by left|right]. split; [lia|done].
    + simpl. lia.
  - exists ls. split; [done|]. split; [|done]. intros j. rewrite Hm. split.
    + intros [? ?]; split; [lia|done].
    + intros [H1 H2]. split; [|done]. destruct (decide (j = n)) as [->|]; [done|lia].
Qed.
Lemma card_ext n P Q k : (forall i, i < n -> P i <-> Q i) -> card n P k -> card n Q k.
Proof.
  intros H (ls & Hnd & Hm & Hl). exists ls. split; [done|]. split; [|done].
  intros j. rewrite Hm. split; intros [? ?]; (split; [done|]); by apply H.
Qed.
Lemma card_ntrue f n : card n (fun i => f i = true) (ntrue (map f (seq 0 n))).
Proof.
  induction n as [|n IH].
  - exists []. split; [constructor|]. split; [|done]. intros j. rewrite elem_of_nil. lia.
  - rewrite seq_S, map_app, ntrue_app. simpl. apply card_S in IH as [H1 H2].
    destruct (f n) eqn:E.
    + replace (ntrue (map f (seq 0 n)) + (1 + 0)) with (S (ntrue (map f (seq 0 n)))) by lia. by apply H1.
    + rewrite Nat.add_0_r. by apply H2.
Qed.
Lemma ntrue_le w : ntrue w <= length w.
Proof. induction w as [|[] w IH]; simpl; lia. Qed.

Definition identify_loop (w : list bool) : res (list Z * Z) :=
  for_ 0 (length w) (fun i '(out, n) =>
    let! b := rd w i in
    let! n := int_add n (b2i b) in
    let! out := wr out i n in
    Ok (out, n)) (alloc (length w), 0%Z).
Lemma identify_spec w : (Z.of_nat (length w) <= R_LEN_T_MAX)%Z ->
  identify_loop w = Ok (map (fun i => Z.of_nat (ntrue (take (S i) w))) (seq 0 (length w)), Z.of_nat (ntrue w)).
Proof.
  intros Hs. unfold identify_loop.
  destruct (for_inv (fun i (st : list Z * Z) => length st.1 = length w /\ st.2 = Z.of_nat (ntrue (take i w)) /\
      forall m, m < i -> st.1 !! m = Some (Z.of_nat (ntrue (take (S m) w))))
    0 (length w) (fun i '(out, n) =>
      let! b := rd w i in
      let! n := int_add n (b2i b) in
      let! out := wr out i n in
      Ok (out, n)) (alloc (length w), 0%Z)) as ([out n] & Hf & Hl & Hn & Ho).
  - simpl. split; [apply replicate_length|]. split; [done|]. lia.
  - intros i [out n] Hi (Hl & Hn & Ho). cbn [fst snd] in *.
    destruct (lookup_lt_is_Some_nth w i) as [b Hb]; [lia|].
    assert (rd w i = Ok b) as -> by by apply rd_Ok. cbn [bind].
    pose proof (ntrue_le (take i w)) as Hle. rewrite take_length in Hle.
    assert (En : Z.of_nat (ntrue (take (S i) w)) = (n + b2i b)%Z).
    { rewrite (take_S_r _ _ _ Hb), ntrue_app. destruct b; simpl; lia. }
    rewrite int_add_in by (unfold R_LEN_T_MAX, INT_MAX, INT_MIN in *; destruct b; simpl; lia). cbn [bind].
    rewrite wr_Ok by lia. cbn [bind]. eexists; split; [done|]. cbn [fst snd]. rewrite insert_length.
    split; [done|]. split; [done|]. intros m Hm. destruct (decide (m = i)) as [->|].
    + rewrite list_lookup_insert by lia. by rewrite En.
    + rewrite list_lookup_insert_ne by done. apply Ho. lia.
  - rewrite Hf. cbn [fst snd] in *. rewrite Nat.add_0_l, take_ge in Hn by lia. subst n. f_equal. f_equal.
    apply list_eq. intros i. destruct (decide (i < length w)).
    + rewrite Ho by lia. rewrite list_lookup_fmap, lookup_seq_lt by lia. done.
    + rewrite !lookup_ge_None_2; [done|rewrite map_length, seq_length; lia|lia].
Qed.

(** ** Run sizes *)
Fixpoint rsizes (c : Z) (w : list bool) : list Z :=
  match w with [] => [] | b :: w => if b then c :: rsizes 1 w else rsizes (c + 1) w end.
Lemma rsizes_length c w : length (rsizes c w) = ntrue w.
Proof. revert c. induction w as [|[] w IH]; intros c; simpl; [done|by rewrite IH|by rewrite IH]. Qed.
Lemma rsizes_ge c w : (1 <= c)%Z -> Forall (fun s => 0 < s)%Z (rsizes c w) /\ (forall s l, rsizes c w = s :: l -> c <= s)%Z.
Proof.
  revert c. induction w as [|[] w IH]; intros c Hc; simpl.
  - split; [constructor|]. done.
  - split; [constructor; [lia|apply IH; lia]|]. intros s l [= -> _]. lia.
  - destruct (IH (c + 1)%Z) as [H1 H2]; [lia|]. split; [done|]. intros s l H. apply H2 in H. lia.
Qed.
Lemma rsizes_sum c w : last w <> Some false -> w <> [] -> zsum (rsizes c w) = (c - 1 + Z.of_nat (length w))%Z.
Proof.
  revert c. induction w as [|b w IH]; intros c Hl Hne; [done|]. destruct w as [|b' w].
  - simpl in Hl. destruct b; [|done]. simpl. unfold zsum. simpl. lia.
  - rewrite last_cons_ne in Hl by done. remember (b' :: w) as u. cbn [rsizes length]. destruct b.
    + change (zsum (c :: rsizes 1 u)) with (c + zsum (rsizes 1 u))%Z. rewrite IH; [lia|done|by subst].
    + rewrite IH; [lia|done|by subst].
Qed.
Lemma zsum_nonneg l : Forall (fun s => 0 < s)%Z l -> (0 <= zsum l)%Z.
Proof. induction 1; unfold zsum in *; simpl; lia. Qed.
Lemma rsizes_parts c w i : (1 <= c)%Z -> i < length w ->
  w !! i = Some true <-> exists k, k < length (rsizes c w) /\ zsum (take (S k) (rsizes c w)) = (c + Z.of_nat i)%Z.
Proof.
  revert c i. induction w as [|b w IH]; intros c i Hc Hi; simpl in Hi; [lia|]. destruct b; simpl rsizes.
  - destruct i as [|i]; simpl.
    + split; [|done]. intros _. exists 0. split; [simpl; lia|]. unfold zsum. simpl. lia.
    + rewrite (IH 1%Z) by lia. split.
      * intros (k & Hk & E). exists (S k). split; [lia|]. unfold zsum in *. simpl in *. lia.
      * intros ([|k] & Hk & E); [unfold zsum in E; simpl in E; lia|]. exists k. split; [lia|]. unfold zsum in *. simpl in *. lia.
  - destruct i as [|i]; simpl lookup.
    + split; [done|]. intros (k & Hk & E). destruct (rsizes_ge (c + 1)%Z w) as [H1 H2]; [lia|].
      destruct (rsizes (c + 1) w) as [|s l]; [simpl in Hk; lia|]. specialize (H2 s l eq_refl).
      simpl in E. unfold zsum in E. simpl in E. apply Forall_cons in H1 as [_ H1].
      pose proof (zsum_nonneg (take k l) ltac:(by apply Forall_take)) as Hn. unfold zsum in Hn. lia.
    + rewrite (IH (c + 1)%Z) by lia. split; intros (k & Hk & E); exists k; (split; [done|lia]).
Qed.

Lemma sizes_loop w : forall ws pre out c, w = pre ++ ws -> length out = ntrue w ->
  last ws <> Some false -> (1 <= c)%Z -> (c + Z.of_nat (length ws) - 1 <= R_LEN_T_MAX)%Z ->
  for_ (length pre) (length ws) (fun i '(out, j, count) =>
      let! e := rd w i in
      let! out := wrZ out j count in
      let! c := int_mul (b2i (negb e)) count in
      let! count := int_add c 1 in
      Ok (out, j + b2i e, count)%Z) (out, Z.of_nat (ntrue pre), c) =
  Ok (take (ntrue pre) out ++ rsizes c ws, Z.of_nat (ntrue w), if ws then c else 1%Z).
Proof.
  induction ws as [|b ws IH]; intros pre out c Ew Ho Hl Hc Hlen.
  - simpl. rewrite app_nil_r in *. subst pre. rewrite take_ge by lia. done.
  - cbn [length for_]. assert (En0 : ntrue (b :: ws) <> 0) by (intros E; apply Hl, ntrue_last_true; done).
    assert (rd w (length pre) = Ok b) as -> by (apply rd_Ok; rewrite Ew, lookup_app_r, Nat.sub_diag by lia; done).
    cbn [bind]. assert (Hj : ntrue pre < length out) by (rewrite Ho, Ew, ntrue_app; lia).
    rewrite wrZ_nat, wr_Ok by lia. cbn [bind]. unfold R_LEN_T_MAX in Hlen. cbn [length] in Hlen.
    specialize (IH (pre ++ [b]) (<[ntrue pre:=c]> out) (if b then 1 else c + 1)%Z).
    rewrite <- app_assoc, insert_length, ntrue_app, app_length, Nat.add_1_r in IH. simpl in IH.
    assert (Hb : b = false -> ws <> []) by (intros -> ->; simpl in En0; lia).
    assert (Hws : Z.of_nat (length ws) = 0%Z -> ws = []) by (destruct ws; simpl; intros; [done|lia]).
    assert (Hc1 : b = false -> (c + 1 <= INT_MAX)%Z).
    { intros E. specialize (Hb E). assert (length ws <> 0) by (by destruct ws). lia. }
    rewrite int_mul_in by (unfold INT_MAX, INT_MIN in *; destruct b; simpl; lia). cbn [bind].
    rewrite int_add_in by (unfold INT_MAX, INT_MIN in *; destruct b; simpl; lia). cbn [bind].
    replace (b2i (negb b) * c + 1)%Z with (if b then 1 else c + 1)%Z by (destruct b; simpl; lia).
    replace (Z.of_nat (ntrue pre) + b2i b)%Z with (Z.of_nat (ntrue pre + ((if b then 1 else 0) + 0))) by (destruct b; simpl; lia).
    rewrite IH; [|done|done| |destruct b; lia|unfold R_LEN_T_MAX; destruct b; lia].
    + f_equal. f_equal. 2:{ destruct b; simpl; [by destruct ws|]. destruct ws; [|done]. by specialize (Hb eq_refl). }
      f_equal. destruct b; simpl.
      * rewrite Nat.add_1_r, (take_S_r _ _ c) by (apply list_lookup_insert; lia).
        rewrite take_insert by lia. by rewrite <- app_assoc.
      * rewrite Nat.add_0_r, take_insert by lia. done.
    + destruct ws; [done|]. by rewrite last_cons_ne in Hl.
Qed.
