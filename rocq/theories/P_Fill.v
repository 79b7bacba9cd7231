(** * Property C20: vec_fill_missing *)
From Verif Require Import Base M_Double M_Scalar M_Hash M_Object M_Proxy M_Slice M_Runs M_Fill
  Spec_Value Spec_Equal Spec_Missing Spec_Dict Spec_Slice Spec_Fill L_Value L_SliceVal L_Rep L_Fill P_Equal P_Missing.
From Coq Require Import ZifyBool ZifyNat.

Definition max_of (max_fill : option (list Z)) : option Z := match max_fill with Some (m :: _) => Some m | _ => None end.
Definition row_of (v : value) (i : nat) : list elt := proxy_row (eq_proxy v) i.

Lemma fill_locs v down leading max_fill :
  value_ok v -> proxy_ok (eq_proxy v) ->
  match max_fill with None => True | Some l => exists m, l = [m] /\ (0 < m)%Z end ->
  let n := Z.to_nat (value_size v) in
  exists locs, vctrs_fill_missing v down leading max_fill = Ok (slice_val locs v) /\ length locs = n /\
    forall i, i < n -> exists l, locs !! i = Some (Z.of_nat l + 1)%Z /\
      filled down leading (max_of max_fill) n (fun i => row_missing (row_of v i)) i l.
Proof.
  intros Hv Hp Hm n. pose proof (value_size_range v Hv) as Hr. destruct (eq_proxy_lengths v Hv) as [_ Hps].
  destruct (C21_vec_detect_missing _ Hp) as (na & En & Hna). rewrite Hps in Hna. fold n in Hna.
  set (miss := fun i => row_missing (row_of v i)). change (indicates n miss na) in Hna.
  assert (Hal : length (alloc n) = n) by (unfold alloc; apply replicate_length).
  assert (HL : exists locs, written miss n leading (max_of max_fill) down 0 n locs /\
    vctrs_fill_missing v down leading max_fill = vec_slice_unsafe v (SLoc locs)).
  { unfold vctrs_fill_missing, vec_fill_missing. destruct max_fill as [l|].
    - destruct Hm as (m & -> & Hm). simpl parse_max_fill. destruct (Z.ltb_spec 0 m); [|lia]. cbn [bind]. rewrite En. cbn [bind].
      unfold INFINITE_FILL. destruct (Z.eqb_spec m (-1)); [lia|]. cbn [negb]. fold n.
      destruct down; [destruct (down_max_spec miss n na Hna leading m (alloc n)) as (locs & -> & Hw); [lia|done|]
                     |destruct (up_max_spec miss n na Hna leading m (alloc n)) as (locs & -> & Hw); [lia|done|]]; cbn [bind]; eauto.
    - cbn [parse_max_fill bind]. rewrite En. cbn [bind]. unfold INFINITE_FILL. cbn [Z.eqb Pos.eqb negb]. fold n.
      destruct down; [destruct (down_spec miss n na Hna leading (alloc n)) as (locs & -> & Hw); [done|]
                     |destruct (up_spec miss n na Hna leading (alloc n)) as (locs & -> & Hw); [done|]]; cbn [bind]; eauto. }
  destruct HL as (locs & [Hl Hw] & ->).
  assert (Hin : Forall (fun i => 1 <= i <= value_size v)%Z locs).
  { apply Forall_lookup. intros i z Hz. pose proof (lookup_lt_Some _ _ _ Hz).
    destruct (Hw i ltac:(lia)) as (l & E & (Hln & _)). rewrite Hz in E. injection E as ->. lia. }
  rewrite slice_locs_spec by done. exists locs. split; [done|]. split; [done|].
  intros i Hi. apply Hw. lia.
Qed.

Theorem C20_fill v down leading max_fill :
  value_ok v -> proxy_ok (eq_proxy v) ->
  match max_fill with None => True | Some l => exists m, l = [m] /\ (0 < m)%Z end ->
  let n := Z.to_nat (value_size v) in
  exists out locs, vctrs_fill_missing v down leading max_fill = Ok out /\ sliced locs v out /\ length locs = n /\
    forall i, i < n -> exists l, locs !! i = Some (Z.of_nat l + 1)%Z /\
      filled down leading (max_of max_fill) n (fun i => row_missing (row_of v i)) i l.
Proof.
  intros Hv Hp Hm n. destruct (fill_locs v down leading max_fill Hv Hp Hm) as (locs & E & H).
  eexists _, locs. split; [exact E|]. split; [by apply sliced_slice_val|done].
Qed.
Print Assumptions C20_fill.

(** Any other [max_fill] is an error. *)
Theorem C20_max_fill_error v down leading l :
  (forall m, l = [m] -> m <= 0)%Z -> exists e, vctrs_fill_missing v down leading (Some l) = Err e.
Proof.
  intros H. unfold vctrs_fill_missing, parse_max_fill. destruct l as [|m [|]]; try (by eexists).
  specialize (H m eq_refl). destruct (Z.ltb_spec 0 m); [lia|]. by eexists.
Qed.
Print Assumptions C20_max_fill_error.

(** Read off the rows of the result: rows that are not missing are kept, a
    missing row takes the row of its source when that is near enough, and a
    row that takes nothing is still missing. *)
Theorem C20_rows v down leading max_fill out :
  value_ok v -> proxy_ok (eq_proxy v) ->
  vctrs_fill_missing v down leading max_fill = Ok out ->
  let n := Z.to_nat (value_size v) in
  let miss := fun i => row_missing (row_of v i) in
  let src := if down then prev_valid miss n else next_valid miss n in
  let alt := if down then next_valid miss n else prev_valid miss n in
  forall i, i < n ->
    (~ miss i -> row_of out i = row_of v i) /\
    (forall j, src i j -> within (max_of max_fill) i j -> row_of out i = row_of v j) /\
    (forall j, src i j -> ~ within (max_of max_fill) i j -> row_of out i = row_of v i) /\
    ((forall j, ~ src i j) -> leading = true -> forall j, alt i j -> within (max_of max_fill) i j -> row_of out i = row_of v j) /\
    ((forall j, ~ src i j) -> leading = true -> forall j, alt i j -> ~ within (max_of max_fill) i j -> row_of out i = row_of v i) /\
    ((forall j, ~ src i j) -> (leading = false \/ forall j, ~ alt i j) -> row_missing (row_of out i)).
Proof.
  intros Hv Hp E n miss src alt i Hi. pose proof (value_size_range v Hv) as Hr.
  assert (Hm : match max_fill with None => True | Some l => exists m, l = [m] /\ (0 < m)%Z end).
  { unfold vctrs_fill_missing, parse_max_fill in E. destruct max_fill as [[|m [|]]|]; try discriminate; [|done].
    destruct (Z.ltb_spec 0 m); [eauto|discriminate]. }
  destruct (fill_locs v down leading max_fill Hv Hp Hm) as (locs & E' & Hl & Hf). rewrite E in E'. injection E' as ->.
  destruct (Hf i Hi) as (l & Hil & Hln & Hsrc & Halt & Hnone).
  assert (Hrow : row_of (slice_val locs v) i = row_of v l).
  { unfold row_of. rewrite (eq_proxy_slice_row _ _ _ _ Hv Hil) by lia. f_equal. lia. }
  rewrite Hrow. clear Hrow.
  assert (Hsrc' : forall j, src i j -> takes (max_of max_fill) i j l) by (unfold src; by destruct down).
  assert (Halt' : (forall j, ~ src i j) -> leading = true -> forall j, alt i j -> takes (max_of max_fill) i j l)
    by (unfold src, alt; by destruct down).
  assert (Hnone' : (forall j, ~ src i j) -> (leading = false \/ forall j, ~ alt i j) -> miss l) by (unfold src, alt; by destruct down).
  split_and!.
  - intros Hi'. assert (Hii : src i i) by (unfold src; destruct down; (split; [lia|split; [done|lia]])).
    destruct (Hsrc' i Hii) as [H1 _]. rewrite H1; [done|]. unfold within, max_of. destruct max_fill as [[|m ?]|]; [done| |done].
    destruct Hm as (m' & [= -> _] & ?). lia.
  - intros j Hj W. destruct (Hsrc' j Hj) as [H1 _]. by rewrite H1.
  - intros j Hj W. destruct (Hsrc' j Hj) as [_ H1]. by rewrite H1.
  - intros Hno HL j Hj W. destruct (Halt' Hno HL j Hj) as [H1 _]. by rewrite H1.
  - intros Hno HL j Hj W. destruct (Halt' Hno HL j Hj) as [_ H1]. by rewrite H1.
  - intros Hno HL. by apply Hnone'.
Qed.
Print Assumptions C20_rows.

(** Missing rows that nothing fills stay missing but need not stay "as they
    are": they take the first (last) row, which may be another kind of missing
    value.  Here NaN becomes NA. *)
Definition fill_bad : value := VVec TDbl [EDbl NA_REAL; EDbl R_NaN] None.
Lemma fill_bad_missing i : row_missing (row_of fill_bad i).
Proof.
  destruct i as [|[|i]]; [| |by constructor]; (constructor; [|constructor]).
  - by left.
  - by right.
Qed.
Theorem C20_unchanged_refuted : exists v out, value_ok v /\ proxy_ok (eq_proxy v) /\
  vctrs_fill_missing v true false None = Ok out /\
  row_missing (row_of v 1) /\ (forall j, ~ prev_valid (fun i => row_missing (row_of v i)) 2 1 j) /\
  ~ rows_equal (eq_proxy out) 1 (eq_proxy v) 1.
Proof.
  exists fill_bad, (VVec TDbl [EDbl NA_REAL; EDbl NA_REAL] None). split_and!.
  - constructor; [by repeat constructor|done|unfold INT_MAX; simpl; lia].
  - crush_ok.
  - by vm_compute.
  - apply fill_bad_missing.
  - intros j (_ & H & _). apply H, fill_bad_missing.
  - unfold rows_equal, row_same. vm_compute. discriminate.
Qed.
Print Assumptions C20_unchanged_refuted.

Example C20_ex :
  let na := EInt NA_INTEGER in
  let v := VVec TInt [na; na; EInt 5; na; na; na; EInt 7; na]%Z None in
  vctrs_fill_missing v true false None = Ok (VVec TInt [na; na; EInt 5; EInt 5; EInt 5; EInt 5; EInt 7; EInt 7]%Z None) /\
  vctrs_fill_missing v true true (Some [1]%Z) = Ok (VVec TInt [na; EInt 5; EInt 5; EInt 5; na; na; EInt 7; EInt 7]%Z None) /\
  vctrs_fill_missing v false false (Some [2]%Z) = Ok (VVec TInt [EInt 5; EInt 5; EInt 5; na; EInt 7; EInt 7; EInt 7; na]%Z None) /\
  vctrs_fill_missing v false true None = Ok (VVec TInt [EInt 5; EInt 5; EInt 5; EInt 7; EInt 7; EInt 7; EInt 7; EInt 7]%Z None) /\
  value_ok v /\ proxy_ok (eq_proxy v).
Proof.
  split; [by vm_compute|]. split; [by vm_compute|]. split; [by vm_compute|]. split; [by vm_compute|]. split.
  - constructor; [by repeat constructor|done|unfold INT_MAX; simpl; lia].
  - unfold NA_INTEGER. crush_ok.
Qed.
