(** * Theorems about replication and recycling (C17, C18, C22) *)
From Coq Require Import Sorting.Permutation.
From Verif Require Import Base M_Double M_Scalar M_Hash M_Object M_Proxy M_Slice M_Growable M_Runs M_Rep
  Spec_Value Spec_Equal Spec_Missing Spec_Dict Spec_Runs Spec_Slice Spec_Rep
  L_Proxy L_Equal L_Slice L_SliceArray L_Assign L_Value L_SliceVal L_Runs L_Runs2 L_Runs3 L_Rep L_Unrep L_Recycle P_Runs.
From Coq Require Import ZifyBool ZifyNat.
#[local] Arguments Z.mul : simpl never.
#[local] Arguments Z.add : simpl never.
#[local] Arguments Z.sub : simpl never.
#[local] Arguments Z.max : simpl never.

(** ** C18 *)
Theorem C18_rep v times : value_ok v -> is_int times ->
  (((0 <= times)%Z /\ (value_size v * times <= INT_MAX)%Z) ->
    exists out, vec_rep v times = Ok out /\ sliced (rep_locs (Z.to_nat (value_size v)) times) v out) /\
  (~ ((0 <= times)%Z /\ (value_size v * times <= INT_MAX)%Z) -> exists e, vec_rep v times = Err e).
Proof.
  intros Hv [Hi1 Hi2]. split.
  - intros [H1 H2]. rewrite vec_rep_spec by (done || lia). eexists; split; [done|]. by apply sliced_slice_val.
  - intros H. apply vec_rep_err; [done|lia|]. lia.
Qed.
Theorem C18_rep_each v times : value_ok v -> Forall is_int times ->
  let n := Z.to_nat (value_size v) in
  let good := (length times = 1 \/ length times = n) /\ Forall (fun t => 0 <= t)%Z times /\
              (total (recycled_times n times) <= INT_MAX)%Z in
  (good -> exists out, vec_rep_each v times = Ok out /\ sliced (rep_each_locs n (recycled_times n times)) v out) /\
  (~ good -> exists e, vec_rep_each v times = Err e).
Proof.
  intros Hv Hi n good. split.
  - intros Hg. rewrite vec_rep_each_spec by done. eexists; split; [done|].
    rewrite rep_each_locs_each; [by apply sliced_slice_val|]. destruct Hg as [[H|H] _].
    + destruct times as [|t [|]]; [done| |done]. simpl. apply replicate_length.
    + destruct times as [|t [|]]; [done| |done]. simpl. apply replicate_length.
  - intros Hb. by apply vec_rep_each_err.
Qed.
Definition ex_rep_df : value :=
  VDf 2 [Some [97%Z]; Some [98%Z]] [VVec TInt [EInt 1; EInt 2]%Z None; VVec TLgl [ELgl 0; ELgl NA_LOGICAL]%Z None].
Lemma ex_rep_df_ok : value_ok ex_rep_df.
Proof. repeat constructor; simpl; unfold INT_MAX; lia. Qed.
Example C18_ex :
  vec_rep ex_rep_df 2 = Ok (VDf 4 [Some [97%Z]; Some [98%Z]] [VVec TInt [EInt 1; EInt 2; EInt 1; EInt 2]%Z None; VVec TLgl [ELgl 0; ELgl NA_LOGICAL; ELgl 0; ELgl NA_LOGICAL]%Z None]) /\
  vec_rep_each (VVec TInt [EInt 7; EInt 8; EInt 9]%Z None) [2; 0; 1]%Z = Ok (VVec TInt [EInt 7; EInt 7; EInt 9]%Z None) /\
  (exists e, vec_rep ex_rep_df 2000000000 = Err e) /\ (exists e, vec_rep_each ex_rep_df [1; NA_INTEGER]%Z = Err e).
Proof. split; [by vm_compute|]. split; [by vm_compute|]. split; eexists; by vm_compute. Qed.

(** ** C17 *)
Theorem C17_unrep_rep_each v : value_ok v -> proxy_ok (eq_proxy v) -> proxy_plain (eq_proxy v) ->
  exists key times out,
    vec_unrep v = Ok (key, times) /\ value_size key = Z.of_nat (length times) /\
    vec_rep_each key times = Ok out /\ value_size out = value_size v /\
    (forall i, i < Z.to_nat (value_size v) -> rows_equal (eq_proxy out) i (eq_proxy v) i) /\
    Forall (fun t => 0 < t)%Z times /\
    (forall r, S r < length times -> ~ rows_equal (eq_proxy key) r (eq_proxy key) (S r)).
Proof.
  intros Hv W P. pose proof (value_size_range v Hv) as Hr. destruct (eq_proxy_lengths v Hv) as [_ Hps].
  assert (Hshort : short (eq_proxy v)) by (unfold short, R_LEN_T_MAX; rewrite Hps; lia).
  destruct (C15_sizes _ W P Hshort) as (sizes & Es & Hsz). pose proof Hsz as (Hpos & Hsum & Hst).
  set (n := Z.to_nat (value_size v)) in *. rewrite Hps in Hsum, Hst.
  set (locs := cum 1 sizes).
  assert (Hloc : forall r, r < length sizes -> locs !! r = Some (1 + zsum (take r sizes))%Z) by (intros; by apply cum_lookup).
  assert (Hsb : forall r, r < length sizes -> (0 <= zsum (take r sizes) < Z.of_nat n)%Z).
  { intros r Hr'. pose proof (zsum_take_le sizes r Hpos ltac:(lia)). pose proof (zsum_take_lt sizes r (length sizes) Hpos ltac:(lia)) as Hlt.
    rewrite (take_ge sizes (length sizes)) in Hlt by lia. lia. }
  assert (Hlin : Forall (fun i => 1 <= i <= value_size v)%Z locs).
  { apply Forall_lookup. intros r l Hrl. assert (Hr' : r < length sizes).
    { apply lookup_lt_Some in Hrl. unfold locs in Hrl. by rewrite cum_length in Hrl. }
    rewrite Hloc in Hrl by done. injection Hrl as <-. specialize (Hsb r Hr'). lia. }
  set (key := slice_val locs v).
  assert (Hll : length locs = length sizes) by apply cum_length.
  pose proof (unrep_sizes_le sizes Hpos) as Hcount.
  assert (Hkey : value_ok key).
  { apply slice_val_ok; [done|lia|]. apply (shape_fits_le (value_size v)); [lia|by apply shape_fits_self]. }
  assert (Hks : value_size key = Z.of_nat (length sizes)) by (unfold key; rewrite slice_val_size; lia).
  assert (Hrec : recycled_times (Z.to_nat (value_size key)) sizes = sizes).
  { rewrite Hks, Nat2Z.id. destruct sizes as [|t [|]]; done. }
  set (out := slice_val (each 0 sizes) key).
  assert (Hout : vec_rep_each key sizes = Ok out).
  { rewrite vec_rep_each_spec; [by rewrite Hrec|done| |].
    - apply Forall_lookup. intros r s Hs.
      assert (r < length sizes) by (by apply lookup_lt_Some in Hs). pose proof (Hsb r ltac:(done)) as Hb.
      pose proof (zsum_take_le sizes (S r) Hpos ltac:(lia)) as Hle. rewrite (take_S_r _ _ _ Hs), zsum_app in Hle.
      unfold zsum in Hle at 2. simpl in Hle. rewrite Forall_lookup in Hpos. specialize (Hpos r s Hs). unfold INT_MIN. lia.
    - rewrite Hks, Nat2Z.id. split; [by right|]. split; [eapply Forall_impl; [apply Hpos|]; simpl; lia|].
      assert (Er : recycled_times (length sizes) sizes = sizes) by (by destruct sizes as [|t [|]]).
      rewrite Er, <- zsum_total, Hsum. lia. }
  assert (Hel : length (each 0 sizes) = n).
  { pose proof (each_length 0 sizes ltac:(eapply Forall_impl; [apply Hpos|]; simpl; lia)) as E. rewrite <- zsum_total in E. lia. }
  exists key, sizes, out. split.
  { unfold vec_unrep. rewrite Es. cbn [bind]. rewrite unrep_loop. cbn [bind]. rewrite slice_locs_spec by done. done. }
  split; [done|]. split; [done|]. split; [unfold out; rewrite slice_val_size, Hel; unfold n; lia|].
  split; [|split; [done|]].
  - intros i Hi. destruct (each_lookup 0 sizes i Hpos ltac:(lia)) as (r & Hr' & Hb & El).
    unfold rows_equal. unfold out. rewrite (eq_proxy_slice_row _ _ _ _ Hkey El) by lia.
    replace (Z.to_nat (Z.of_nat (0 + r) + 1 - 1)) with r by lia.
    unfold key. rewrite (eq_proxy_slice_row _ _ _ _ Hv (Hloc r Hr')) by (specialize (Hsb r Hr'); lia).
    apply run_rows_equal; [done|done|rewrite Hps; lia|].
    intros j Hj. apply (inside_run _ sizes r); [done|done|lia|rewrite Hps; lia].
  - intros r Hr' E. unfold rows_equal, key in E.
    rewrite (eq_proxy_slice_row _ _ _ _ Hv (Hloc r ltac:(lia))) in E by (specialize (Hsb r ltac:(lia)); lia).
    rewrite (eq_proxy_slice_row _ _ _ _ Hv (Hloc (S r) Hr')) in E by (specialize (Hsb (S r) Hr'); lia).
    set (a := Z.to_nat (1 + zsum (take r sizes) - 1)) in *. set (b := Z.to_nat (1 + zsum (take (S r) sizes) - 1)) in *.
    pose proof (Hsb r ltac:(lia)) as B1. pose proof (Hsb (S r) Hr') as B2.
    pose proof (zsum_take_lt sizes r (S r) Hpos ltac:(lia)) as B3.
    assert (E2 : rows_equal (eq_proxy v) a (eq_proxy v) (b - 1)).
    { apply run_rows_equal; [done|done|rewrite Hps; lia|]. intros j Hj. apply (inside_run _ sizes r); [done|lia|lia|rewrite Hps; lia]. }
    assert (Hs : run_start (eq_proxy v) b) by (apply Hst; [lia|]; exists (S r); split; [done|]; lia).
    destruct Hs as [Hs|Hs]; [lia|]. apply Hs. unfold rows_equal, row_same in *. rewrite <- E2. done.
Qed.
Definition ex_unrep : value := VVec TDbl [EDbl 0; EDbl 0x8000000000000000; EDbl 0x3FF0000000000000; EDbl 0x3FF0000000000000; EDbl 0]%Z None.
(** [c(0, -0, 1, 1, 0)]: the two zeros are one run. *)
Example C17_ex : vec_unrep ex_unrep = Ok (VVec TDbl [EDbl 0; EDbl 0x3FF0000000000000; EDbl 0]%Z None, [2; 2; 1]%Z) /\
  value_ok ex_unrep /\ proxy_ok (eq_proxy ex_unrep) /\ proxy_plain (eq_proxy ex_unrep).
Proof.
  split; [by vm_compute|]. split; [repeat constructor; simpl; unfold INT_MAX; lia|].
  unfold proxy_ok, proxy_wf, proxy_plain, cols_in_range, cols_plain, vec_wf.
  repeat split; repeat constructor; simpl; try done; unfold dbl_wf; lia.
Qed.

(** ** C22 *)
Theorem C22_size_common xs absent :
  (sizes_of xs = [] -> vec_size_common xs absent = Ok absent) /\
  (forall s, common_size (sizes_of xs) s -> vec_size_common xs absent = Ok s) /\
  (incompatible (sizes_of xs) -> exists e, vec_size_common xs absent = Err e) /\
  (sizes_of xs = [] \/ (exists s, common_size (sizes_of xs) s) \/ incompatible (sizes_of xs)).
Proof.
  destruct (size_common_spec xs absent) as [(E & H)|[(s & Hs & H)|(Hi & e & H)]].
  - split; [done|]. split; [intros t [Ht _]; rewrite E in Ht; done|]. split; [|by left].
    intros (a & b & Ha & _). rewrite E in Ha. done.
  - split; [intros E; rewrite E in Hs; by destruct Hs|]. split; [intros t Ht; rewrite H; f_equal; by eapply common_size_unique|].
    split; [intros Hi; by apply (common_not_incompatible _ _ Hs) in Hi|]. right. left. eauto.
  - split; [intros E; destruct Hi as (a & b & Ha & _); rewrite E in Ha; done|].
    split; [intros t Ht; by apply (common_not_incompatible _ _ Ht) in Hi|]. split; [eauto|]. by right; right.
Qed.
(** The order of the inputs does not matter. *)
Theorem C22_order xs ys absent : Permutation xs ys ->
  (forall s, vec_size_common xs absent = Ok s -> vec_size_common ys absent = Ok s) /\
  ((exists e, vec_size_common xs absent = Err e) -> exists e, vec_size_common ys absent = Err e).
Proof.
  intros Hp. assert (Hs : Permutation (sizes_of xs) (sizes_of ys)).
  { unfold sizes_of. apply Permutation_map. by rewrite Hp. }
  assert (HI : forall a, In a (sizes_of xs) <-> In a (sizes_of ys)).
  { intros a. split; apply Permutation_in; [done|by symmetry]. }
  destruct (C22_size_common ys absent) as (Y1 & Y2 & Y3 & _).
  destruct (size_common_spec xs absent) as [(E & H)|[(s & [Hs1 Hs2] & H)|(Hi & e & H)]]; rewrite H.
  - split; [|by intros [? ?]]. intros s [= <-]. apply Y1. rewrite E in Hs. by apply Permutation_nil in Hs.
  - split; [|by intros [? ?]]. intros t [= <-]. apply Y2. split; [by apply HI|]. intros m Hm. by apply Hs2, HI.
  - split; [done|]. intros _. apply Y3. destruct Hi as (a & b & Ha & Hb & Hrest). exists a, b. by rewrite <- !HI.
Qed.
Theorem C22_recycle_common xs : Forall (fun x => match x with Some v => value_ok v | None => True end) xs ->
  (sizes_of xs = [] -> vec_recycle_common xs = Ok xs) /\
  (forall s, common_size (sizes_of xs) s -> exists ys, vec_recycle_common xs = Ok ys /\ Forall2 (recycled s) xs ys) /\
  (incompatible (sizes_of xs) -> exists e, vec_recycle_common xs = Err e).
Proof.
  intros Hv. destruct (C22_size_common xs (-1)%Z) as (H1 & H2 & H3 & _). unfold vec_recycle_common.
  assert (HI : forall v, In (Some v) xs -> In (value_size v) (sizes_of xs)).
  { intros v Hx. unfold sizes_of. apply in_map. apply elem_of_list_In, elem_of_list_omap. exists (Some v). split; [by apply elem_of_list_In|done]. }
  split; [|split].
  - intros E. rewrite H1 by done. done.
  - intros s Hs. rewrite (H2 s Hs). cbn [bind].
    assert (Hsr : (0 <= s <= INT_MAX)%Z).
    { destruct Hs as [Hs _]. unfold sizes_of in Hs. apply in_map_iff in Hs as (v & <- & Hin).
      apply elem_of_list_In, elem_of_list_omap in Hin as (x & Hx & Ex). unfold id in Ex. subst x. rewrite Forall_forall in Hv. apply value_size_range. by apply (Hv _ Hx). }
    apply recycle_opts_spec; [done|done|]. apply Forall_forall. intros [v|] Hx; [|done]. destruct Hs as [_ Hs]. apply Hs, HI. by apply elem_of_list_In.
  - intros Hi. destruct (H3 Hi) as [e ->]. cbn [bind]. eauto.
Qed.
Theorem C22_recycle v s : value_ok v -> is_int s ->
  (value_size v = s -> ffi_recycle (Some v) (Some [s]) = Ok (Some v)) /\
  (value_size v = 1%Z -> (0 <= s)%Z -> exists w, ffi_recycle (Some v) (Some [s]) = Ok (Some w) /\ recycled s (Some v) (Some w)) /\
  (value_size v <> s -> (value_size v <> 1%Z \/ s < 0)%Z -> exists e, ffi_recycle (Some v) (Some [s]) = Err e).
Proof.
  intros Hv [Hi1 Hi2]. unfold ffi_recycle. change (rd [s] 0) with (Ok s). cbn [bind]. split; [|split].
  - intros E. unfold vec_check_recycle. by rewrite (proj2 (Z.eqb_eq _ _) E).
  - intros E1 Hs. destruct (check_recycle_spec (Some v) s) as (y & -> & Hy); [done|lia|by right|].
    pose proof Hy as (w & -> & _). eauto.
  - apply check_recycle_err.
Qed.
(** [vec_recycle(x, integer())] reads past the end of [size]. *)
Theorem C22_recycle_empty_size_refuted : exists v s, value_ok v /\ ffi_recycle (Some v) (Some []) = UB s.
Proof. exists ex_rep_df. eexists. split; [apply ex_rep_df_ok|by vm_compute]. Qed.
Example C22_ex :
  let a := VVec TInt [EInt 7]%Z None in
  vec_size_common [None; Some a; Some ex_rep_df; Some a] (-1) = Ok 2%Z /\
  vec_recycle_common [None; Some a; Some ex_rep_df] = Ok [None; Some (VVec TInt [EInt 7; EInt 7]%Z None); Some ex_rep_df] /\
  (exists e, vec_size_common [Some ex_rep_df; Some (VVec TInt [] None)] (-1) = Err e) /\
  common_size (sizes_of [None; Some a; Some ex_rep_df; Some a]) 2.
Proof.
  split; [by vm_compute|]. split; [by vm_compute|]. split; [eexists; by vm_compute|].
  split; [right; by left|]. simpl. intros n [<-|[<-|[<-|[]]]]; auto.
Qed.

Print Assumptions C17_unrep_rep_each.
Print Assumptions C18_rep.
Print Assumptions C18_rep_each.
Print Assumptions C22_size_common.
Print Assumptions C22_order.
Print Assumptions C22_recycle_common.
Print Assumptions C22_recycle.
Print Assumptions C22_recycle_empty_size_refuted.
