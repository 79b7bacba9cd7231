(** * Lemmas about runs: bounds of proxies, locations, ids and sizes *)
From Coq Require Import Sorting.Sorted.
From Verif Require Import Base M_Double M_Scalar M_Hash M_Object M_Proxy Spec_Value Spec_Equal Spec_Missing Spec_Dict
  L_Scalar L_Proxy L_Equal L_DictRows M_Slice M_Runs Spec_Runs L_Slice L_Runs.
From Coq Require Import ZifyBool ZifyNat.
#[local] Arguments Z.mul : simpl never.
#[local] Arguments Z.add : simpl never.
#[local] Arguments Z.sub : simpl never.

Lemma cols_row_map cols n i : Forall (fun c => length (v_data c) = n) cols -> i < n ->
  cols_row cols i = map (fun c => nth i (v_data c) (ELgl 0%Z)) cols.
Proof.
  intros H Hi. unfold cols_row. induction H as [|c cs Hc H IH]; [done|]. simpl.
  rewrite (nth_lookup_Some (v_data c) i (ELgl 0%Z) (nth i (v_data c) (ELgl 0%Z))); [by rewrite IH|done] || 
  (destruct (lookup_lt_is_Some_nth (v_data c) i) as [a Ha]; [lia|]; rewrite Ha; simpl; f_equal; [symmetry; by apply nth_lookup_Some|done]).
Qed.

Lemma conts_spec cols n which k : Forall (fun c => length (v_data c) = n) cols -> S k < n ->
  cols_in_range cols -> cols_plain cols ->
  conts elt_equal_na_equal cols n which (S k) = true <->
  row_same (cols_row cols (pos n which k)) (cols_row cols (pos n which (S k))).
Proof.
  intros Hl Hk Hr Hp. unfold conts, row_same.
  rewrite !(cols_row_map _ n) by (done || (apply pos_lt; lia)).
  set (i := pos n which k). set (j := pos n which (S k)).
  assert (Hi : i < n) by (apply pos_lt; lia). assert (Hj : j < n) by (apply pos_lt; lia). clearbody i j.
  induction Hl as [|c cs Hc Hl IH]; [done|]. unfold cols_in_range, cols_plain in *.
  apply Forall_cons in Hr as [Hr1 Hr2], Hp as [Hp1 Hp2]. cbn [forallb map].
  rewrite andb_true_iff, IH by done. rewrite elt_equal_spec.
  - split; [intros [-> ->]; done|]. intros [= E1 E2]. done.
  - rewrite Forall_forall in Hp1. apply Hp1, elem_of_list_In, nth_In. lia.
  - rewrite Forall_forall in Hp1. apply Hp1, elem_of_list_In, nth_In. lia.
  - rewrite Forall_forall in Hr1. apply Hr1, elem_of_list_In, nth_In. lia.
  - rewrite Forall_forall in Hr1. apply Hr1, elem_of_list_In, nth_In. lia.
Qed.

Definition rbound (p : proxy) (which : run_bound) (i : nat) : bool :=
  let n := proxy_size p in negb (conts elt_equal_na_equal (proxy_cols p) n which (pos n which i)).

Lemma proxy_wf_lengths p : proxy_wf p -> Forall (fun c => length (v_data c) = proxy_size p) (proxy_cols p).
Proof. intros W. eapply Forall_impl; [apply W|]. by intros c [_ H]. Qed.

Lemma rbound_spec p which i : proxy_ok p -> proxy_plain p -> i < proxy_size p ->
  rbound p which i = true <-> run_bound_at which p i.
Proof.
  intros [W R] P Hi. unfold rbound. rewrite negb_true_iff. set (n := proxy_size p) in *.
  pose proof (proxy_wf_lengths p W) as Hl.
  destruct (pos n which i) as [|k] eqn:Ek.
  - simpl. split; [intros _|done]. destruct which; simpl in *; [left; lia|]. left. fold n. lia.
  - rewrite <- not_true_iff_false, conts_spec by (done || (destruct which; simpl in *; lia)).
    unfold run_bound_at, run_start, run_end, rows_equal, proxy_row. fold n.
    destruct which; simpl in *.
    + subst i. replace (S k - 1) with k by lia. intuition lia.
    + replace (n - 1 - k) with (i + 1) by lia. replace (n - 1 - S k) with i by lia.
      assert (i + 1 <> n) by lia. unfold row_same. split.
      * intros H1. right. intros E. by apply H1.
      * intros [H1|H1]; [lia|]. intros E. by apply H1.
Qed.

Lemma bounds_bool_spec p which : proxy_ok p -> proxy_plain p ->
  vec_detect_run_bounds_bool elt_equal_na_equal p which = Ok (map (rbound p which) (seq 0 (proxy_size p))).
Proof.
  intros [W R] P. unfold vec_detect_run_bounds_bool. pose proof (proxy_wf_lengths p W) as Hl.
  destruct p as [v|n cols].
  - rewrite detect_vec_spec by (try apply replicate_length; done). f_equal. apply map_ext_in. intros i Hi.
    apply in_seq in Hi. unfold rbound. f_equal. cbn [proxy_cols proxy_size] in *.
    set (n := length (v_data v)) in *.
    destruct (pos n which i) as [|k] eqn:Ek; [done|].
    assert (Hk : S k < n) by (destruct which; simpl in *; lia).
    apply Bool.eq_iff_eq_true. rewrite conts_spec by done. unfold cont.
    assert (R' : Forall elt_in_range (v_data v)) by (by inversion R).
    assert (P' : Forall is_plain (v_data v)) by (by inversion P). clear R P. rename R' into R, P' into P.
    rewrite elt_equal_spec.
    + unfold row_same. rewrite !(cols_row_map _ n) by (done || (apply pos_lt; lia)). simpl. split; [by intros ->|by intros [= ->]].
    + rewrite Forall_forall in P. apply P, elem_of_list_In, nth_In. apply pos_lt; lia.
    + rewrite Forall_forall in P. apply P, elem_of_list_In, nth_In. apply pos_lt; lia.
    + rewrite Forall_forall in R. apply R, elem_of_list_In, nth_In. apply pos_lt; lia.
    + rewrite Forall_forall in R. apply R, elem_of_list_In, nth_In. apply pos_lt; lia.
  - rewrite detect_df_spec by (try apply replicate_length; done). done.
Qed.

(** ** Counting and locating [true]s *)
Fixpoint ntrue (w : list bool) : nat := match w with [] => 0 | b :: w => (if b then 1 else 0) + ntrue w end.
Fixpoint tlocs (k : nat) (w : list bool) : list Z :=
  match w with [] => [] | b :: w => (if b then [rloc k] else []) ++ tlocs (S k) w end.
Lemma ntrue_app a b : ntrue (a ++ b) = ntrue a + ntrue b.
Proof. induction a as [|[] a IH]; simpl; lia. Qed.
Lemma tlocs_app k a b : tlocs k (a ++ b) = tlocs k a ++ tlocs (k + length a) b.
Proof.
  revert k. induction a as [|x a IH]; intros k; simpl; [by rewrite Nat.add_0_r|].
  rewrite IH, <- app_assoc. replace (S k + length a) with (k + S (length a)) by lia. done.
Qed.
Lemma tlocs_length k w : length (tlocs k w) = ntrue w.
Proof. revert k. induction w as [|b w IH]; intros k; simpl; [done|]. rewrite app_length, IH. by destruct b. Qed.
Lemma count_bounds_spec w : count_bounds w = Ok (Z.of_nat (ntrue w)).
Proof.
  unfold count_bounds. destruct (for_inv (fun i n => n = Z.of_nat (ntrue (take i w))) 0 (length w)
    (fun i n => let! b := rd w i in Ok (n + b2i b)%Z) 0%Z) as (n & Hf & ->); [done| |].
  - intros i n Hi ->. destruct (lookup_lt_is_Some_nth w i) as [b Hb]; [lia|].
    assert (rd w i = Ok b) as -> by by apply rd_Ok. cbn [bind]. eexists; split; [done|].
    rewrite (take_S_r _ _ _ Hb), ntrue_app. destruct b; simpl; lia.
  - rewrite Hf. rewrite Nat.add_0_l, take_ge by lia. done.
Qed.

Lemma tlocs_elem k w z : In z (tlocs k w) <-> exists i, w !! i = Some true /\ z = rloc (k + i).
Proof.
  revert k. induction w as [|b w IH]; intros k; simpl.
  - split; [done|]. by intros (i & H & _).
  - rewrite in_app_iff, IH. split.
    + intros [H|(i & Hi & ->)].
      * destruct b; [|done]. destruct H as [<-|[]]. exists 0. split; [done|]. by rewrite Nat.add_0_r.
      * exists (S i). split; [done|]. f_equal. lia.
    + intros ([|i] & Hi & ->); simpl in Hi.
      * injection Hi as ->. left. left. f_equal. lia.
      * right. exists i. split; [done|]. f_equal. lia.
Qed.
Lemma tlocs_sorted k w : StronglySorted Z.lt (tlocs k w).
Proof.
  revert k. induction w as [|b w IH]; intros k; simpl; [constructor|]. destruct b; simpl; [|apply IH].
  constructor; [apply IH|]. apply Forall_forall. intros z Hz. apply elem_of_list_In, tlocs_elem in Hz as (i & _ & ->).
  unfold rloc. lia.
Qed.

Lemma last_cons_ne {A} (a : A) l : l <> [] -> last (a :: l) = last l.
Proof. by destruct l. Qed.
Lemma ntrue_last_true w : ntrue w = 0 -> w <> [] -> last w = Some false.
Proof.
  induction w as [|[] w IH]; intros H Hne; simpl in H; try done; try lia.
  destruct w as [|b w]; [done|]. rewrite last_cons_ne by done. by apply IH.
Qed.

(** The loop of [vec_locate_run_bounds] writes before it looks whether the slot
    is complete. *)
Definition is_ub {A} (r : res A) : Prop := exists s, r = UB s.
Lemma wrZ_out {A} (l : list A) i v : (i < 0 \/ Z.of_nat (length l) <= i)%Z -> is_ub (wrZ l i v).
Proof.
  intros H. unfold wrZ. destruct (Z.ltb_spec i 0); [eexists; done|].
  unfold wr. destruct (Nat.ltb_spec (Z.to_nat i) (length l)); [lia|eexists; done].
Qed.

Lemma locate_start w : forall ws pre out lo, w = pre ++ ws -> length out = ntrue w ->
  take (ntrue pre) out = tlocs 0 pre ->
  let r := for_ lo (length ws) (fun _ '(out, j, loc) =>
      let! out := wrZ out j (loc + 1)%Z in
      let! b := rdZ w loc in
      Ok (out, j + 1 * b2i b, loc + 1)%Z) (out, Z.of_nat (ntrue pre), Z.of_nat (length pre)) in
  (last ws = Some false -> is_ub r) /\
  (last ws <> Some false -> r = Ok (tlocs 0 w, Z.of_nat (ntrue w), Z.of_nat (length w))).
Proof.
  induction ws as [|b ws IH]; intros pre out lo Ew Ho Ht.
  - simpl. rewrite app_nil_r in Ew. subst pre. split; [done|]. intros _.
    rewrite take_ge in Ht by lia. by subst.
  - cbn [length for_]. destruct (decide (ntrue (b :: ws) = 0)) as [E0|En0].
    + split; [intros _|]; [|intros H; by rewrite ntrue_last_true in H].
      destruct (wrZ_out out (Z.of_nat (ntrue pre)) (Z.of_nat (length pre) + 1)%Z) as [s ->]; [|eexists; done].
      right. rewrite Ho, Ew, ntrue_app. lia.
    + assert (Hj : ntrue pre < length out) by (rewrite Ho, Ew, ntrue_app; lia).
      rewrite wrZ_nat, wr_Ok by lia. cbn [bind].
      rewrite rdZ_nat. assert (rd w (length pre) = Ok b) as -> by (apply rd_Ok; rewrite Ew, lookup_app_r, Nat.sub_diag by lia; done).
      cbn [bind]. specialize (IH (pre ++ [b]) (<[ntrue pre:=rloc (length pre)]> out) (S lo)).
      rewrite <- app_assoc, insert_length, ntrue_app, tlocs_app, app_length in IH. simpl in IH.
      rewrite Z.mul_1_l. replace (Z.of_nat (ntrue pre) + b2i b)%Z with (Z.of_nat (ntrue pre + ((if b then 1 else 0) + 0))) by (destruct b; simpl; lia).
      replace (Z.of_nat (length pre) + 1)%Z with (Z.of_nat (length pre + 1)) by lia.
      replace (rloc (length pre)) with (Z.of_nat (length pre + 1)) in IH by (unfold rloc; lia).
      destruct IH as [IH1 IH2]; [done|done| |].
      * destruct b; simpl.
        -- rewrite Nat.add_1_r, (take_S_r _ _ (Z.of_nat (length pre + 1))) by (apply list_lookup_insert; lia).
           by rewrite take_insert, Ht by lia.
        -- rewrite Nat.add_0_r, take_insert, app_nil_r by lia. done.
      * destruct ws as [|b' ws]; [|rewrite last_cons_ne by done; by split].
        split; [|intros _; by apply IH2]. intros [= ->]. simpl in En0. lia.
Qed.

Lemma locate_end w : forall ws post out lo, w = ws ++ post -> length out = ntrue w ->
  drop (ntrue ws) out = tlocs (length ws) post ->
  let r := for_ lo (length ws) (fun _ '(out, j, loc) =>
      let! out := wrZ out j (loc + 1)%Z in
      let! b := rdZ w loc in
      Ok (out, j + -1 * b2i b, loc + -1)%Z) (out, Z.of_nat (ntrue ws) - 1, Z.of_nat (length ws) - 1)%Z in
  (head ws = Some false -> is_ub r) /\
  (head ws <> Some false -> r = Ok (tlocs 0 w, -1, -1)%Z).
Proof.
  induction ws as [|b ws IH] using rev_ind; intros post out lo Ew Ho Ht.
  - simpl. simpl in Ew. subst w. split; [done|]. intros _. simpl in Ht. rewrite drop_0 in Ht. by subst.
  - rewrite app_length. simpl. rewrite Nat.add_1_r. cbn [for_].
    rewrite ntrue_app in Ht |- *. rewrite app_length in Ht. simpl in Ht. simpl (ntrue [b]).
    destruct (decide (ntrue (ws ++ [b]) = 0)) as [E0|En0].
    + assert (ntrue ws = 0 /\ b = false) as [E1 ->] by (rewrite ntrue_app in E0; simpl in E0; destruct b; lia).
      split; [intros _|].
      * destruct (wrZ_out out (Z.of_nat (ntrue ws + (0 + 0)) - 1) (Z.of_nat (S (length ws)) - 1 + 1)%Z) as [s ->]; [left; lia|eexists; done].
      * intros H. exfalso. apply H. clear -E1. destruct ws as [|[] ws]; simpl in *; done || lia.
    + set (jn := ntrue ws + ((if b then 1 else 0) + 0)) in *.
      assert (Hjn : jn = ntrue (ws ++ [b])) by (by rewrite ntrue_app).
      assert (Hj : 0 < jn <= length out) by (rewrite Ho, Ew, ntrue_app; lia).
      rewrite wrZ_Ok by lia. cbn [bind].
      replace (Z.of_nat (S (length ws)) - 1)%Z with (Z.of_nat (length ws)) by lia.
      rewrite rdZ_nat. assert (rd w (length ws) = Ok b) as -> by (apply rd_Ok; rewrite Ew, <- app_assoc, lookup_app_r, Nat.sub_diag by lia; done).
      cbn [bind]. replace (Z.to_nat (Z.of_nat jn - 1)) with (jn - 1) by lia.
      replace (Z.of_nat (length ws) + 1)%Z with (rloc (length ws)) by (unfold rloc; lia).
      specialize (IH ([b] ++ post) (<[jn - 1:=rloc (length ws)]> out) (S lo)).
      rewrite app_assoc, insert_length in IH. simpl in IH.
      replace (Z.of_nat jn - 1 + -1 * b2i b)%Z with (Z.of_nat (ntrue ws) - 1)%Z by (unfold jn; destruct b; simpl; lia).
      replace (Z.of_nat (length ws) + -1)%Z with (Z.of_nat (length ws) - 1)%Z by lia.
      destruct IH as [IH1 IH2]; [done|done| |].
      * replace (length ws + 1) with (S (length ws)) in Ht by lia. unfold jn in *. destruct b; simpl in *.
        -- replace (ntrue ws + 1 - 1) with (ntrue ws) in * by lia.
           rewrite (drop_S _ (rloc (length ws)) (ntrue ws)) by (apply list_lookup_insert; lia).
           rewrite drop_insert_gt by lia. replace (S (ntrue ws)) with (ntrue ws + 1) by lia. by rewrite Ht.
        -- rewrite Nat.add_0_r in *. rewrite drop_insert_gt by lia. by rewrite Ht.
      * destruct ws as [|b' ws]; [|by split].
        split; [|intros _; by apply IH2]. simpl. intros [= ->]. simpl in En0. lia.
Qed.
