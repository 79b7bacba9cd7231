(** * C24, C41, C42: slicing and assigning *)
From Verif Require Import Base M_Double M_Scalar M_Hash M_Object M_Proxy M_Slice Spec_Slice L_Proxy L_Slice
  L_SliceArray L_Assign L_Value.
From Coq Require Import ZifyBool ZifyNat.
#[local] Arguments Z.mul : simpl never.
#[local] Arguments Z.add : simpl never.
#[local] Arguments Z.sub : simpl never.

(** ** C24.  Slicing gives the rows at the locations, in order; [NA] gives the
    missing value.  (The last hypothesis only concerns [vec_init()] of arrays.) *)
Theorem C24_slice v s :
  value_ok v -> subscript_ok (value_size v) s ->
  (forall n, s = SRep NA_INTEGER n -> out_fits n v) ->
  exists out, vec_slice_unsafe v s = Ok out /\ sliced (expand s) v out.
Proof. intros Hv Hs Hf. rewrite vec_slice_spec by done. eexists; split; [done|]. by apply sliced_slice_val. Qed.

(** Assigning changes exactly the rows at the locations; the last one wins. *)
Theorem C24_assign x s val :
  value_ok x -> value_ok val -> same_type x val ->
  value_size val = Z.of_nat (length (expand s)) ->
  subscript_ok (value_size x) s -> (forall i n, s <> SRep i n) ->
  exists out, vec_proxy_assign x s val = Ok out /\ value_assigned (expand s) x val out.
Proof.
  intros Hx Hv Hst Hsz Hs Hr. rewrite vec_assign_spec by done. eexists; split; [done|].
  apply assigned_assign_val; try done. apply Hs.
Qed.

(** The two array laws, for bare vectors: reading back what was assigned at
    distinct locations, and reading elsewhere. *)
Lemma assigned_pick {A} (na : A) x locs vals out : Forall (fun i => 1 <= i <= Z.of_nat (length x))%Z locs ->
  NoDup locs -> length locs = length vals -> assigned x locs vals out -> map (pick na out) locs = vals.
Proof.
  intros Hr Hnd Hl (Hlen & _ & Ha). apply list_eq. intros k. rewrite list_lookup_fmap.
  destruct (locs !! k) as [i|] eqn:Hk; simpl.
  - destruct (lookup_lt_is_Some_nth vals k) as [v Hv].
    { apply lookup_lt_Some in Hk. lia. }
    rewrite Hv. f_equal.
    assert (i <> NA_INTEGER).
    { rewrite Forall_lookup in Hr. apply Hr in Hk. unfold NA_INTEGER, INT_MIN. lia. }
    unfold pick. destruct (Z.eqb_spec i NA_INTEGER); [done|].
    rewrite nth_lookup, (Ha k i v); [done|done|done|done|].
    intros k' Hkk Hk'. rewrite NoDup_alt in Hnd. rewrite (Hnd k k' i Hk Hk') in Hkk. lia.
  - symmetry. apply lookup_ge_None in Hk. apply lookup_ge_None. lia.
Qed.
Theorem C24_slice_after_assign t data names vdata vnames s :
  value_ok (VVec t data names) -> value_ok (VVec t vdata vnames) ->
  length vdata = length (expand s) -> subscript_ok (Z.of_nat (length data)) s -> (forall i n, s <> SRep i n) ->
  Forall (fun i => i <> NA_INTEGER) (expand s) -> NoDup (expand s) ->
  exists out, vec_proxy_assign (VVec t data None) s (VVec t vdata vnames) = Ok out /\
              vec_slice_unsafe out s = Ok (VVec t vdata None).
Proof.
  intros Hx Hv Hl Hs Hr Hna Hnd.
  assert (Hx' : value_ok (VVec t data None)) by (inversion Hx; constructor; done).
  destruct (C24_assign (VVec t data None) s (VVec t vdata vnames)) as (out & Ho & Ha); try done.
  { constructor. }
  { simpl. lia. }
  rewrite Ho. eexists; split; [done|]. inversion Ha as [? ? ? ? ? o Hput| |]; subst.
  simpl. rewrite slice_base_spec by (by rewrite (proj1 Hput)). cbn [bind]. do 2 f_equal.
  apply (assigned_pick _ data); [|done|lia|done].
  rewrite Forall_lookup in Hna |- *. intros k i Hk. destruct Hs as [Hs _]. rewrite Forall_lookup in Hs.
  destruct (Hs k i Hk) as [->|]; [by apply Hna in Hk|done].
Qed.

(** *** Examples *)
Definition ex_df : value :=
  VDf 3 [Some [97%Z]; Some [98%Z]]
    [VVec TInt [EInt 10; EInt 20; EInt 30] (Some [Some [120%Z]; Some [121%Z]; Some [122%Z]]);
     VArr TInt [3; 2]%Z [EInt 1; EInt 2; EInt 3; EInt 4; EInt 5; EInt 6]].
Ltac all_locs := simpl;
  repeat (apply List.Forall_cons; [first [left; reflexivity | right; simpl; lia | unfold NA_INTEGER, INT_MIN; simpl; lia]|]);
  apply List.Forall_nil.
Lemma ex_df_ok : value_ok ex_df.
Proof. unfold ex_df, INT_MAX. repeat constructor; try done; unfold INT_MAX; simpl; try lia. Qed.
Example C24_slice_ex :
  subscript_ok (value_size ex_df) (SLoc [3; NA_INTEGER; 1; 3]%Z) /\
  vec_slice_unsafe ex_df (SLoc [3; NA_INTEGER; 1; 3]%Z) =
  Ok (VDf 4 [Some [97%Z]; Some [98%Z]]
    [VVec TInt [EInt 30; EInt NA_INTEGER; EInt 10; EInt 30]
       (Some [Some [122%Z]; Some []; Some [120%Z]; Some [122%Z]]);
     VArr TInt [4; 2]%Z [EInt 3; EInt NA_INTEGER; EInt 1; EInt 3; EInt 6; EInt NA_INTEGER; EInt 4; EInt 6]]).
Proof.
  split; [|reflexivity]. split; [|done]. all_locs.
Qed.
Definition ex_df_val : value :=
  VDf 2 [Some [97%Z]; Some [98%Z]]
    [VVec TInt [EInt 77; EInt 88] None; VArr TInt [2; 2]%Z [EInt 7; EInt 8; EInt 17; EInt 18]].
Example C24_assign_ex :
  same_type ex_df ex_df_val /\ value_ok ex_df_val /\
  vec_proxy_assign ex_df (SLoc [3; 3]%Z) ex_df_val =
  Ok (VDf 3 [Some [97%Z]; Some [98%Z]]
    [VVec TInt [EInt 10; EInt 20; EInt 88] (Some [Some [120%Z]; Some [121%Z]; Some [122%Z]]);
     VArr TInt [3; 2]%Z [EInt 1; EInt 2; EInt 8; EInt 4; EInt 5; EInt 18]]).
Proof.
  split; [repeat constructor|]. split; [|reflexivity].
  unfold ex_df_val. repeat constructor; try done; unfold INT_MAX; simpl; try lia.
Qed.
Example C24_slice_after_assign_ex :
  subscript_ok 4 (SSeq 3 3 (-1)) /\ NoDup (expand (SSeq 3 3 (-1))) /\
  vec_proxy_assign (VVec TInt [EInt 1; EInt 2; EInt 3; EInt 4] None) (SSeq 3 3 (-1)) (VVec TInt [EInt 7; EInt 8; EInt 9] None)
  = Ok (VVec TInt [EInt 1; EInt 9; EInt 8; EInt 7] None).
Proof.
  split; [|split; [|reflexivity]].
  - split; [all_locs|]. split; [simpl; lia|]. split; [all_locs|lia].
  - simpl. repeat constructor; rewrite ?elem_of_cons, ?elem_of_nil; lia || intuition lia.
Qed.

(** ** C41.  Cell by cell: the element at row [k] and indices [idx] of a slice is
    the element of the array at row [loc] and the same indices. *)
Lemma chunk_lookup {A} (x : list A) d e i : i < d -> chunk d e x !! i = x !! (e * d + i).
Proof. intros H. unfold chunk. rewrite lookup_take by done. by rewrite lookup_drop. Qed.
Theorem C41_array_cells t d ds data s :
  value_ok (VArr t (d :: ds) data) -> subscript_ok d s ->
  (forall n, s = SRep NA_INTEGER n -> zprod ds * n <= INT_MAX)%Z ->
  exists out, vec_slice_unsafe (VArr t (d :: ds) data) s = Ok (VArr t (vec_subscript_size s :: ds) out) /\
    Z.of_nat (length out) = zprod (vec_subscript_size s :: ds) /\
    forall k loc idx, expand s !! k = Some loc -> in_dim ds idx ->
      let dst := Z.to_nat (offset (vec_subscript_size s :: ds) (Z.of_nat k :: idx)) in
      let src := Z.to_nat (offset (d :: ds) ((loc - 1)%Z :: idx)) in
      if (loc =? NA_INTEGER)%Z then out !! dst = Some (vtype_na t)
      else exists a, data !! src = Some a /\ out !! dst = Some a.
Proof.
  intros Hv Hs Hna.
  destruct (C24_slice (VArr t (d :: ds) data) s) as (out & Ho & Hsl); [done|done| |].
  { intros n E. constructor. by apply Hna. }
  inversion Hsl as [|? ? ? ? o Hlen Hch|]; subst. rewrite Ho.
  rewrite (subscript_size _ _ Hs).
  eexists; split; [done|]. split; [simpl; lia|].
  intros k loc idx Hk Hin. cbv zeta. set (n := length (expand s)) in *.
  pose proof (offset_bounds _ _ Hin) as Hb. pose proof (in_dim_pos _ _ Hin) as Hp.
  set (e := Z.to_nat (offset ds idx)).
  assert (He : offset ds idx = Z.of_nat e) by lia.
  apply lookup_lt_Some in Hk as Hkn. fold n in Hkn. simpl offset. rewrite He.
  specialize (Hch e ltac:(lia)).
  assert (Hc : chunk n e o !! k = o !! Z.to_nat (Z.of_nat k + Z.of_nat n * Z.of_nat e)).
  { rewrite chunk_lookup by done. f_equal. lia. }
  rewrite <- Hc, Hch, list_lookup_fmap, Hk. simpl. unfold pick.
  destruct (Z.eqb_spec loc NA_INTEGER); [done|].
  assert (Hl : (1 <= loc <= d)%Z).
  { destruct Hs as [Hs _]. rewrite Forall_lookup in Hs. destruct (Hs _ _ Hk); [done|done]. }
  destruct (lookup_lt_is_Some_nth data (Z.to_nat (loc - 1 + d * Z.of_nat e))) as [a Ha].
  { inversion Hv; subst. destruct (dim_bound d ds e ltac:(done) ltac:(lia)) as (? & ? & ? & ?). simpl in *. lia. }
  exists a. split; [done|]. f_equal. rewrite nth_lookup, chunk_lookup by lia.
  replace (e * Z.to_nat d + Z.to_nat (loc - 1)) with (Z.to_nat (loc - 1 + d * Z.of_nat e)) by lia.
  by rewrite Ha.
Qed.

Example C41_array_cells_ex :
  value_ok (VArr TInt [2; 2; 2]%Z (map (fun k => EInt (Z.of_nat k)) (seq 0 8))) /\
  vec_slice_unsafe (VArr TInt [2; 2; 2]%Z (map (fun k => EInt (Z.of_nat k)) (seq 0 8))) (SSeq 1 2 (-1)) =
    Ok (VArr TInt [2; 2; 2]%Z [EInt 1; EInt 0; EInt 3; EInt 2; EInt 5; EInt 4; EInt 7; EInt 6]) /\
  offset [2; 2; 2]%Z [1; 0; 1]%Z = 5%Z.
Proof. split; [|split; reflexivity]. repeat constructor; unfold INT_MAX; simpl; try done; lia. Qed.

(** Without the bound on the products of the dimensions the C code overflows: an
    empty array of dimensions 0 x 100000 x 100000 is a valid R object. *)
Theorem C41_overflow_refuted :
  exists dim, Forall (fun d => 0 <= d <= INT_MAX)%Z dim /\ zprod dim = 0%Z /\
    exists msg, vec_slice_unsafe (VArr TInt dim []) (SLoc []) = UB msg.
Proof.
  exists [0; 100000; 100000]%Z. split; [repeat constructor; unfold INT_MAX; lia|]. split; [done|].
  eexists. vm_compute. reflexivity.
Qed.
(** ... and so does [vec_init()] of a 1 x 3 array to a billion rows. *)
Theorem C41_init_overflow_refuted :
  exists t dim data n, value_ok (VArr t dim data) /\ (0 <= n <= INT_MAX)%Z /\
    exists msg, vec_slice_unsafe (VArr t dim data) (SRep NA_INTEGER n) = UB msg.
Proof.
  exists TRaw, [1; 3]%Z, [ERaw 1; ERaw 2; ERaw 3], 1000000000%Z.
  assert (Hok : dim_ok [1; 3]%Z). { split; [done|]. unfold INT_MAX. split; [|simpl; lia]. repeat constructor; lia. }
  split; [repeat constructor; try apply Hok|]. split; [unfold INT_MAX; lia|].
  unfold vec_slice_unsafe, slice_shaped, slice_shaped_rep.
  destruct (dim_elem _ _ Hok) as (-> & _). cbn [bind]. rewrite Z.eqb_refl.
  replace (int_mul (zprod [3%Z]) 1000000000) with (@UB Z "signed integer overflow") by reflexivity.
  eexists. reflexivity.
Qed.

(** ** C42.  A compact subscript acts like the vector of its locations. *)
Theorem C42_materialize s n : subscript_ok n s -> compact_materialize s = Ok (expand s).
Proof.
  intros Hs. destruct s as [locs|i k|start k step]; [done| |].
  - simpl. unfold compact_rep_materialize. rewrite (for_fill _ (fun _ => i)); [|apply replicate_length|done].
    by rewrite map_const_seq.
  - simpl. unfold compact_seq_materialize.
    destruct (for_inv (fun i (st : list Z * Z) =>
        st.1 = map (fun j => start + Z.of_nat j * step + 1)%Z (seq 0 i) ++ alloc (Z.to_nat k - i) /\
        st.2 = (start + 1 + Z.of_nat i * step)%Z)
      0 (Z.to_nat k) (fun i '(out, start) =>
      let! out := wr out i start in
      Ok (out, start + step)%Z) (alloc (Z.to_nat k), start + 1)%Z) as ([out st] & Hf & Ho & _).
    + split; [by rewrite Nat.sub_0_r|simpl; lia].
    + intros i [out st] Hi [Ho Hst]. cbn [fst snd] in *. subst.
      unfold alloc. rewrite wr_snoc' by (try rewrite map_length, seq_length; lia). cbn [bind].
      eexists; split; [done|]. cbn [fst snd]. split; [|lia].
      rewrite seq_S, map_app. simpl. f_equal; [|f_equal; lia]. f_equal. f_equal. lia.
    + rewrite Hf. cbn [bind]. simpl in Ho. rewrite Ho, Nat.sub_diag. simpl. by rewrite app_nil_r.
Qed.
Theorem C42_slice v s :
  value_ok v -> subscript_ok (value_size v) s ->
  (forall n, s = SRep NA_INTEGER n -> out_fits n v) ->
  vec_slice_unsafe v s = vec_slice_unsafe v (SLoc (expand s)).
Proof.
  intros Hv Hs Hf. rewrite !vec_slice_spec; try done. split; [apply Hs|done].
Qed.
Theorem C42_assign x s val :
  value_ok x -> value_ok val -> same_type x val ->
  value_size val = Z.of_nat (length (expand s)) ->
  subscript_ok (value_size x) s -> (forall i n, s <> SRep i n) ->
  vec_proxy_assign x s val = vec_proxy_assign x (SLoc (expand s)) val.
Proof.
  intros Hx Hv Hst Hsz Hs Hr. rewrite !vec_assign_spec; try done. split; [apply Hs|done].
Qed.
(** The constructors reject what is not a valid sequence. *)
Theorem C42_compact_seq start size (increasing : bool) n :
  is_int start -> is_int size -> (0 <= n)%Z ->
  (if increasing then start + size <= n else start < n)%Z -> (size = 0 -> start <= n)%Z ->
  (exists s, compact_seq start size increasing = Ok s /\ subscript_ok n s /\ vec_subscript_size s = size) <->
  (0 <= start /\ 0 <= size /\ (increasing = false -> size <= start + 1))%Z.
Proof.
  intros Hi1 Hi2 Hn0 Hin H0. unfold compact_seq.
  destruct (Z.ltb_spec start 0); [split; [naive_solver|lia]|].
  destruct (Z.ltb_spec size 0); [split; [naive_solver|lia]|].
  destruct increasing; simpl.
  - split; [intros _; split; [|split]; [done|done|discriminate]|]. intros _. eexists; split; [done|]. split; [|done].
    assert (HF : Forall (fun i => loc_ok n i /\ i <> NA_INTEGER) (expand (SSeq start size 1))).
    { simpl. apply Forall_forall. intros i Hi. apply elem_of_list_In, in_map_iff in Hi as (k & <- & Hk).
      apply in_seq in Hk. split; [right; lia|unfold NA_INTEGER, INT_MIN; lia]. }
    split; [eapply Forall_impl; [exact HF|]; by intros ? [? ?]|]. split; [lia|]. split; [|by left].
    eapply Forall_impl; [exact HF|]. by intros ? [? ?].
  - destruct (Z.ltb_spec (start + 1) size).
    { split; [naive_solver|]. intros (_ & _ & Hc). specialize (Hc eq_refl). lia. }
    split; [lia|]. intros _. eexists; split; [done|]. split; [|done].
    assert (HF : Forall (fun i => loc_ok n i /\ i <> NA_INTEGER) (expand (SSeq start size (-1)))).
    { simpl. apply Forall_forall. intros i Hi. apply elem_of_list_In, in_map_iff in Hi as (k & <- & Hk).
      apply in_seq in Hk. split; [right; lia|unfold NA_INTEGER, INT_MIN; lia]. }
    split; [eapply Forall_impl; [exact HF|]; by intros ? [? ?]|]. split; [lia|]. split; [|by right].
    eapply Forall_impl; [exact HF|]. by intros ? [? ?].
Qed.

Example C42_slice_ex : subscript_ok (value_size ex_df) (SSeq 2 3 (-1)) /\
  vec_slice_unsafe ex_df (SSeq 2 3 (-1)) = vec_slice_unsafe ex_df (SLoc [3; 2; 1]%Z).
Proof.
  split; [|reflexivity].
  split; [all_locs|]. split; [simpl; lia|]. split; [all_locs|lia].
Qed.
Example C42_compact_seq_ex :
  compact_seq 2 3 false = Ok (SSeq 2 3 (-1)) /\ compact_seq 2 4 false <> Ok (SSeq 2 4 (-1)).
Proof. split; [reflexivity|discriminate]. Qed.

(** Compact repetitions are not understood when assigning: their two fields are
    taken as two locations (no caller passes one). *)
Theorem C42_assign_rep_refuted :
  exists x s val, value_ok x /\ value_ok val /\ same_type x val /\ subscript_ok (value_size x) s /\
    value_size val = Z.of_nat (length (expand s)) /\
    vec_proxy_assign x s val <> vec_proxy_assign x (SLoc (expand s)) val.
Proof.
  exists (VVec TInt [EInt 1; EInt 2; EInt 3] None), (SRep 3 2), (VVec TInt [EInt 7; EInt 8] None).
  split; [repeat constructor; unfold INT_MAX; simpl; lia|].
  split; [repeat constructor; unfold INT_MAX; simpl; lia|].
  split; [constructor|]. split; [|split; [done|vm_compute; discriminate]].
  split; [all_locs|]. unfold INT_MAX. split; [right; simpl; lia|lia].
Qed.

Print Assumptions C24_slice.
Print Assumptions C24_assign.
Print Assumptions C24_slice_after_assign.
Print Assumptions C41_array_cells.
Print Assumptions C41_overflow_refuted.
Print Assumptions C41_init_overflow_refuted.
Print Assumptions C42_materialize.
Print Assumptions C42_slice.
Print Assumptions C42_assign.
Print Assumptions C42_compact_seq.
Print Assumptions C42_assign_rep_refuted.
