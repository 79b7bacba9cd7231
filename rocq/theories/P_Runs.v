(** * Theorems about runs (C15, C16) *)
From Coq Require Import Sorting.Sorted.
From Verif Require Import Base M_Double M_Scalar M_Hash M_Object M_Proxy Spec_Value Spec_Equal Spec_Missing Spec_Dict
  L_Scalar L_Proxy L_Equal L_DictRows M_Slice M_Runs Spec_Runs L_Slice L_Runs L_Runs2 L_Runs3.
From Coq Require Import ZifyBool ZifyNat.
#[local] Arguments Z.mul : simpl never.
#[local] Arguments Z.add : simpl never.
#[local] Arguments Z.sub : simpl never.

(** Example: the runs of [c(1L, 1L, NA, NA, 2L)] and of a two column data frame. *)
Definition ex_run_vec : proxy := PVec (Vec TInt [EInt 1; EInt 1; EInt NA_INTEGER; EInt NA_INTEGER; EInt 2]%Z).
Definition ex_run_df : proxy :=
  PDf 4 [Vec TInt [EInt 1; EInt 1; EInt 1; EInt 2]%Z; Vec TLgl [ELgl 0; ELgl 0; ELgl 1; ELgl 1]%Z].
Definition ex_run_oob : proxy := PVec (Vec TInt [EInt 1; EInt 2; EInt 2]%Z).
Lemma ex_runs_ok : (proxy_ok ex_run_vec /\ proxy_plain ex_run_vec) /\ (proxy_ok ex_run_df /\ proxy_plain ex_run_df) /\
  (proxy_ok ex_run_oob /\ proxy_plain ex_run_oob).
Proof.
  unfold proxy_ok, proxy_wf, proxy_plain, cols_in_range, cols_plain, vec_wf.
  repeat split; repeat constructor; unfold is_int, INT_MIN, INT_MAX, NA_INTEGER; simpl; try lia; done.
Qed.

(** ** C15: detection *)
Theorem C15_detect p which : proxy_ok p -> proxy_plain p ->
  exists out, vec_detect_run_bounds p which = Ok out /\ length out = proxy_size p /\
    forall i, i < proxy_size p ->
      (run_bound_at which p i -> out !! i = Some 1%Z) /\ (~ run_bound_at which p i -> out !! i = Some 0%Z).
Proof.
  intros W P. unfold vec_detect_run_bounds. rewrite bounds_bool_spec by done. cbn [bind].
  set (n := proxy_size p). rewrite map_length, seq_length.
  rewrite (for_fill _ (fun i => b2i (rbound p which i))).
  - eexists; split; [done|]. rewrite map_length, seq_length. split; [done|]. intros i Hi.
    rewrite list_lookup_fmap, lookup_seq_lt by done. simpl. pose proof (rbound_spec p which i W P Hi) as H.
    destruct (rbound p which i); split; intros HB; try done; exfalso; [by apply HB, H|]. by apply H in HB.
  - apply replicate_length.
  - intros i out Hi _. assert (rd (map (rbound p which) (seq 0 n)) i = Ok (rbound p which i)) as ->; [|done].
    apply rd_Ok. by rewrite list_lookup_fmap, lookup_seq_lt.
Qed.
Example C15_detect_ex : vec_detect_run_bounds ex_run_vec RStart = Ok [1; 0; 1; 0; 1]%Z /\
  vec_detect_run_bounds ex_run_df REnd = Ok [0; 1; 1; 1]%Z.
Proof. by vm_compute. Qed.

(** ** C15/C16: locations.  When the last row starts a run (the first row ends
    one, for [which = "end"]) the locations are right; otherwise the function
    stores one element outside its output. *)
Lemma locate_shape p which : proxy_ok p -> proxy_plain p ->
  let w := map (rbound p which) (seq 0 (proxy_size p)) in
  let stop := match which with RStart => last w | REnd => head w end in
  (stop = Some false -> is_ub (vec_locate_run_bounds p which)) /\
  (stop <> Some false -> vec_locate_run_bounds p which = Ok (tlocs 0 w)).
Proof.
  intros W P w stop. unfold vec_locate_run_bounds. rewrite bounds_bool_spec by done. cbn [bind]. fold w.
  rewrite count_bounds_spec. cbn [bind]. rewrite Nat2Z.id. destruct which; simpl compute_iter_loc; simpl compute_iter_step.
  - destruct (locate_start w w [] (alloc (ntrue w)) 0) as [H1 H2]; [done|apply replicate_length|done|].
    change (Z.of_nat (ntrue [])) with 0%Z in H1, H2. change (Z.of_nat (length (@nil bool))) with 0%Z in H1, H2.
    split; intros H.
    + destruct (H1 H) as [s ->]. by eexists.
    + by rewrite H2.
  - destruct (locate_end w w [] (alloc (ntrue w)) 0) as [H1 H2]; [by rewrite app_nil_r|apply replicate_length| |].
    + rewrite drop_ge; [done|]. unfold alloc. by rewrite replicate_length.
    + split; intros H.
      * destruct (H1 H) as [s ->]. by eexists.
      * by rewrite H2.
Qed.
(** The row whose being a bound decides. *)
Definition stop_row (which : run_bound) (n : nat) : nat := match which with RStart => n - 1 | REnd => 0 end.
Lemma stop_row_spec p which : proxy_ok p -> proxy_plain p ->
  let w := map (rbound p which) (seq 0 (proxy_size p)) in
  (match which with RStart => last w | REnd => head w end = Some false) <->
  0 < proxy_size p /\ ~ run_bound_at which p (stop_row which (proxy_size p)).
Proof.
  intros W P w. set (n := proxy_size p) in *. destruct (decide (n = 0)) as [E|E].
  { unfold w. rewrite E. simpl. destruct which; simpl; split; done || lia. }
  pose proof (rbound_spec p which (stop_row which n) W P ltac:(fold n; destruct which; simpl; lia)) as H.
  assert (match which with RStart => last w | REnd => head w end = Some (rbound p which (stop_row which n))) as ->.
  { unfold w. destruct which; simpl.
    - rewrite last_lookup, map_length, seq_length, list_lookup_fmap, lookup_seq_lt by lia. simpl. by replace (pred n) with (n - 1) by lia.
    - destruct n; [done|]. done. }
  rewrite <- H. destruct (rbound p which (stop_row which n)); split; try done.
  - intros [_ H1]. by destruct H1.
  - intros _. split; [lia|done].
Qed.

(** C15 for [vec_locate_run_bounds], missing the inputs of [C16_locate_ub]. *)
Theorem C15_locate_partial p which : proxy_ok p -> proxy_plain p ->
  (0 < proxy_size p -> run_bound_at which p (stop_row which (proxy_size p))) ->
  exists locs, vec_locate_run_bounds p which = Ok locs /\ lists_locs (proxy_size p) (run_bound_at which p) locs.
Proof.
  intros W P H. destruct (locate_shape p which W P) as [_ H2].
  rewrite H2.
  - eexists; split; [done|]. split; [apply tlocs_sorted|]. intros z. rewrite tlocs_elem. split.
    + intros (i & Hi & ->). rewrite list_lookup_fmap in Hi. destruct (seq 0 _ !! i) as [j|] eqn:Ej; [|done].
      apply lookup_seq in Ej as [-> Ej]. simpl in Hi. injection Hi as Hi. exists i. split; [done|]. split; [done|]. by apply rbound_spec.
    + intros (i & Hi & -> & HB). exists i. rewrite list_lookup_fmap, lookup_seq_lt by done. simpl. split; [|done].
      f_equal. by apply rbound_spec.
  - intros E. apply stop_row_spec in E as [E1 E2]; [|done..]. by apply E2, H.
Qed.
Example C15_locate_ex : vec_locate_run_bounds ex_run_vec RStart = Ok [1; 3; 5]%Z /\
  vec_locate_run_bounds ex_run_df RStart = Ok [1; 3; 4]%Z /\ vec_locate_run_bounds ex_run_oob REnd = Ok [1; 3]%Z.
Proof. by vm_compute. Qed.

(** C16 is false: whenever the last row starts no run (the first ends none), a
    store outside the output vector happens. *)
Theorem C16_locate_ub p which : proxy_ok p -> proxy_plain p -> 0 < proxy_size p ->
  ~ run_bound_at which p (stop_row which (proxy_size p)) ->
  exists s, vec_locate_run_bounds p which = UB s.
Proof.
  intros W P Hn HB. destruct (locate_shape p which W P) as [H1 _]. apply H1, stop_row_spec; done.
Qed.
Theorem C16_locate_refuted : exists p which s, proxy_ok p /\ proxy_plain p /\ vec_locate_run_bounds p which = UB s.
Proof. exists ex_run_oob, RStart. eexists. destruct ex_runs_ok as (_ & _ & H1 & H2). split; [done|]. split; [done|]. by vm_compute. Qed.

(** ** C15/C16: ids and sizes *)
Theorem C15_identify p : proxy_ok p -> proxy_plain p -> short p ->
  exists ids n, vec_identify_runs p = Ok (ids, Z.of_nat n) /\ length ids = proxy_size p /\
    (forall i, i < proxy_size p -> exists k, ids !! i = Some (Z.of_nat k) /\ card (S i) (run_start p) k) /\
    card (proxy_size p) (run_start p) n.
Proof.
  intros W P S. unfold vec_identify_runs. rewrite bounds_bool_spec by done. cbn [bind].
  set (n := proxy_size p) in *. set (w := map (rbound p RStart) (seq 0 n)).
  assert (Hw : length w = n) by (unfold w; by rewrite map_length, seq_length).
  change (exists ids k, identify_loop w = Ok (ids, Z.of_nat k) /\ length ids = n /\
    (forall i, i < n -> exists k, ids !! i = Some (Z.of_nat k) /\ card (Datatypes.S i) (run_start p) k) /\ card n (run_start p) k).
  rewrite identify_spec by (rewrite Hw; apply S). rewrite Hw. eexists _, _. split; [done|].
  rewrite map_length, seq_length. split; [done|].
  assert (HC : forall i, i <= n -> card i (run_start p) (ntrue (map (rbound p RStart) (seq 0 i)))).
  { intros i Hi. eapply card_ext; [|apply card_ntrue]. intros j Hj. apply (rbound_spec p RStart); [done|done|]. fold n. lia. }
  split; [|by apply HC].
  intros i Hi. rewrite list_lookup_fmap, lookup_seq_lt by lia. eexists. split; [done|].
  replace (take (Datatypes.S (0 + i)) w) with (map (rbound p RStart) (seq 0 (Datatypes.S i))); [apply HC; lia|].
  unfold w. rewrite <- (Nat.sub_add (Datatypes.S i) n) by lia.
  rewrite (Nat.add_comm (n - _)), seq_app, map_app, take_app_alt; [done|]. by rewrite map_length, seq_length.
Qed.
Example C15_identify_ex : vec_identify_runs ex_run_vec = Ok ([1; 1; 2; 2; 3], 3)%Z /\
  vec_identify_runs ex_run_df = Ok ([1; 1; 2; 3], 3)%Z.
Proof. by vm_compute. Qed.

Theorem C15_sizes p : proxy_ok p -> proxy_plain p -> short p ->
  exists sizes, vec_run_sizes p = Ok sizes /\ run_sizes_of p sizes.
Proof.
  intros W P S. unfold vec_run_sizes. rewrite bounds_bool_spec by done. cbn [bind].
  set (n := proxy_size p) in *. set (w := map (rbound p REnd) (seq 0 n)).
  assert (Hw : length w = n) by (unfold w; by rewrite map_length, seq_length).
  rewrite count_bounds_spec. cbn [bind]. rewrite Nat2Z.id.
  assert (Hl : last w <> Some false).
  { unfold w. rewrite last_lookup, map_length, seq_length, list_lookup_fmap. destruct (decide (n = 0)) as [->|Hn0]; [done|].
    rewrite lookup_seq_lt by lia. simpl. intros [= E]. apply not_true_iff_false in E. apply E.
    apply rbound_spec; [done|done|fold n; lia|]. simpl. left. fold n. lia. }
  pose proof (sizes_loop w w [] (alloc (ntrue w)) 1%Z) as HL.
  change (Z.of_nat (ntrue [])) with 0%Z in HL. change (length (@nil bool)) with 0 in HL.
  rewrite HL; [|done|apply replicate_length|done|lia|unfold short in S; rewrite Hw; fold n in S; lia].
  cbn [bind]. simpl (take _ _ ++ _). eexists; split; [done|].
  destruct (rsizes_ge 1%Z w) as [Hpos _]; [lia|].
  assert (Hsum : zsum (rsizes 1 w) = Z.of_nat n).
  { destruct (decide (w = [])) as [E|E]; [rewrite E in *; simpl in Hw; rewrite <- Hw; done|].
    rewrite rsizes_sum by done. rewrite Hw. lia. }
  split; [done|]. split; [done|]. intros i Hi. fold n in Hi.
  destruct i as [|i].
  - split; [|intros _; by left]. intros _. exists 0. split; [|done].
    destruct (rsizes 1 w) as [|s l]; [|simpl; lia]. unfold zsum in Hsum. simpl in Hsum. lia.
  - assert (Hst : run_start p (Datatypes.S i) <-> w !! i = Some true).
    { unfold w. rewrite list_lookup_fmap, lookup_seq_lt by lia. simpl.
      assert (run_start p (Datatypes.S i) <-> run_end p i) as ->.
      { unfold run_start, run_end. replace (Datatypes.S i - 1) with i by lia. replace (i + 1) with (Datatypes.S i) by lia. fold n. intuition lia. }
      rewrite <- (rbound_spec p REnd i) by (done || (fold n; lia)). split; [by intros ->|by intros [= ->]]. }
    rewrite Hst, (rsizes_parts 1%Z) by lia. split.
    + intros (k & Hk & E). exists (Datatypes.S k). split; [|lia].
      destruct (decide (Datatypes.S k = length (rsizes 1 w))) as [Ek|]; [|lia].
      rewrite take_ge in E by lia. lia.
    + intros ([|k] & Hk & E); [unfold zsum in E; simpl in E; lia|]. exists k. split; lia.
Qed.
Example C15_sizes_ex : vec_run_sizes ex_run_vec = Ok [2; 2; 1]%Z /\ vec_run_sizes ex_run_df = Ok [2; 1; 1]%Z /\
  run_sizes_of ex_run_vec [2; 2; 1]%Z.
Proof.
  split; [by vm_compute|]. split; [by vm_compute|].
  destruct ex_runs_ok as ((H1 & H2) & _). destruct (C15_sizes ex_run_vec H1 H2) as (s & E & Hs).
  - unfold short, R_LEN_T_MAX, INT_MAX. simpl. lia.
  - vm_compute in E. by injection E as <-.
Qed.

(** C16 for the others: [C15_detect], [C15_identify] and [C15_sizes] return [Ok],
    so no access is outside the vectors and no [int] overflows. *)
Theorem C16_others p : proxy_ok p -> proxy_plain p -> short p ->
  (forall which s, vec_detect_run_bounds p which <> UB s) /\ (forall s, vec_identify_runs p <> UB s) /\ (forall s, vec_run_sizes p <> UB s).
Proof.
  intros W P S. split; [|split].
  - intros which s. by destruct (C15_detect p which W P) as (? & -> & _).
  - intros s. by destruct (C15_identify p W P S) as (? & ? & -> & _).
  - intros s. by destruct (C15_sizes p W P S) as (? & -> & _).
Qed.

Print Assumptions C15_detect.
Print Assumptions C15_locate_partial.
Print Assumptions C15_identify.
Print Assumptions C15_sizes.
Print Assumptions C16_locate_ub.
Print Assumptions C16_locate_refuted.
Print Assumptions C16_others.
