(** * Lemmas: slices of slices, identity slices, equality proxies of slices *)
From Verif Require Import Base M_Double M_Scalar M_Hash M_Object M_Proxy M_Slice M_Runs Spec_Value Spec_Equal Spec_Missing Spec_Dict Spec_Slice
  L_Scalar L_Proxy L_Equal L_Slice L_SliceArray L_Assign L_Value.
From Coq Require Import ZifyBool ZifyNat.
#[local] Arguments Z.mul : simpl never.
#[local] Arguments Z.add : simpl never.
#[local] Arguments Z.sub : simpl never.
#[local] Arguments Z.max : simpl never.

(** Locations 1..n *)
Definition iota (n : nat) : list Z := map (fun k => Z.of_nat k + 1)%Z (seq 0 n).
Lemma iota_length n : length (iota n) = n.
Proof. unfold iota. by rewrite map_length, seq_length. Qed.
Lemma iota_ok n : Forall (fun i => 1 <= i <= Z.of_nat n)%Z (iota n).
Proof. apply Forall_forall. intros z Hz. apply elem_of_list_fmap in Hz as (k & -> & Hk). apply elem_of_seq in Hk. lia. Qed.
Lemma pick_iota {A} (na : A) (x : list A) n : n = length x -> map (pick na x) (iota n) = x.
Proof.
  intros ->. unfold iota. rewrite map_map. transitivity (map (fun k => nth k x na) (seq 0 (length x))).
  - apply map_ext_in. intros k Hk. unfold pick. destruct (Z.eqb_spec (Z.of_nat k + 1) NA_INTEGER); [unfold NA_INTEGER, INT_MIN in *; lia|].
    f_equal. lia.
  - apply list_eq. intros i. rewrite list_lookup_fmap. destruct (decide (i < length x)).
    + rewrite lookup_seq_lt by done. simpl. destruct (lookup_lt_is_Some_nth x i) as [a Ha]; [done|]. rewrite Ha. f_equal. by apply nth_lookup_Some.
    + rewrite !lookup_ge_None_2; [done|lia|rewrite seq_length; lia].
Qed.

Lemma shape_chunks {A} (x : list A) d m : length x = m * d -> flat_map (fun e => chunk d e x) (seq 0 m) = x.
Proof.
  intros Hl. assert (H : forall k, k <= m -> flat_map (fun e => chunk d e x) (seq 0 k) = take (k * d) x).
  { induction k as [|k IH]; intros Hk; [done|]. rewrite flat_map_snoc, IH by lia. unfold chunk.
    replace (S k * d) with (k * d + d) by lia. by rewrite <- take_take_drop. }
  rewrite H by lia. apply take_ge. lia.
Qed.

Lemma shaped_out_id {A} (na : A) x d ds : dim_ok (d :: ds) -> zprod (d :: ds) = Z.of_nat (length x) ->
  shaped_out na x d ds (iota (Z.to_nat d)) = x.
Proof.
  intros Hok Hl. destruct (dim_elem _ _ Hok) as (_ & Hp & Hd). unfold shaped_out. simpl in Hl.
  rewrite (flat_map_ext_in _ (fun e => chunk (Z.to_nat d) e x)).
  - apply shape_chunks. nia.
  - intros e He. apply in_seq in He. apply pick_iota. rewrite chunk_length; [done|]. nia.
Qed.
Lemma slice_val_id v : value_ok v -> slice_val (iota (Z.to_nat (value_size v))) v = v.
Proof.
  induction v as [t data names|t dim data|n names cols IH] using value_ind'; intros H.
  - apply value_ok_vec in H as (_ & H1 & _). simpl. rewrite pick_iota by lia. f_equal.
    destruct names as [nm|]; [|done]. f_equal. apply pick_iota. lia.
  - apply value_ok_arr in H as (_ & H4 & H5). destruct (dim_ok_cons _ H4) as (d & ds & ->). simpl.
    destruct (dim_elem _ _ H4) as (_ & _ & Hd). rewrite shaped_out_id by done. rewrite iota_length. f_equal. f_equal. lia.
  - apply value_ok_df in H as (_ & _ & H5 & H6). cbn [value_size slice_val]. rewrite iota_length, Nat2Z.id. f_equal.
    induction cols as [|c cols IHc]; [done|]. apply Forall_cons in IH as [I1 I2], H5 as [S1 S2], H6 as [V1 V2].
    simpl. rewrite IHc by done. f_equal. rewrite S1, Nat2Z.id in I1. by apply I1.
Qed.

(** ** Slices of slices *)
Definition compose_locs (l1 l2 : list Z) : list Z := map (pick NA_INTEGER l1) l2.
Lemma pick_map_pick {A} (na : A) x l1 l2 : Forall (loc_ok (Z.of_nat (length l1))) l2 ->
  map (pick na (map (pick na x) l1)) l2 = map (pick na x) (compose_locs l1 l2).
Proof.
  intros H. unfold compose_locs. rewrite map_map. apply map_ext_in. intros i Hi.
  rewrite Forall_forall in H. specialize (H i). rewrite elem_of_list_In in H. specialize (H Hi).
  destruct (Z.eqb_spec i NA_INTEGER) as [->|Hi0]; [done|]. destruct H as [H|H]; [done|].
  assert (E : forall B (b : B) y, pick b y i = nth (Z.to_nat (i - 1)) y b) by (intros B b y; unfold pick; by destruct (Z.eqb_spec i NA_INTEGER)).
  rewrite !E, <- (map_nth (pick na x) l1 NA_INTEGER). apply nth_indep. rewrite map_length. lia.
Qed.
Lemma compose_locs_length l1 l2 : length (compose_locs l1 l2) = length l2.
Proof. apply map_length. Qed.
Lemma slice_val_size locs v : value_size (slice_val locs v) = Z.of_nat (length locs).
Proof. destruct v as [t data names|t dim data|n names cols]; simpl; [by rewrite map_length| |done]. by destruct dim. Qed.
Lemma slice_val_slice_val l1 l2 v : value_ok v -> Forall (loc_ok (Z.of_nat (length l1))) l2 ->
  slice_val l2 (slice_val l1 v) = slice_val (compose_locs l1 l2) v.
Proof.
  intros Hv H. induction v as [t data names|t dim data|n names cols IH] using value_ind'.
  - simpl. rewrite pick_map_pick by done. f_equal. destruct names; [|done]. f_equal. by apply pick_map_pick.
  - apply value_ok_arr in Hv as (_ & H4 & H5). destruct (dim_ok_cons _ H4) as (d & ds & ->). simpl.
    rewrite compose_locs_length. f_equal. unfold shaped_out at 1 3. apply flat_map_ext_in. intros e He. apply in_seq in He.
    rewrite Nat2Z.id, shaped_out_chunk by lia. by apply pick_map_pick.
  - apply value_ok_df in Hv as (_ & _ & H5 & H6). simpl. rewrite compose_locs_length. f_equal. rewrite map_map.
    apply map_ext_in. intros c Hc. apply elem_of_list_In in Hc. rewrite Forall_forall in IH, H6. auto.
Qed.

(** ** Well-formedness of slices *)
Lemma shape_fits_arr n t d ds data : shape_fits n (VArr t (d :: ds) data) -> (Z.max 1 n * zprod (map (Z.max 1) ds) <= INT_MAX)%Z.
Proof. by inversion 1. Qed.
Lemma shape_fits_df n k names cols : shape_fits n (VDf k names cols) -> Forall (shape_fits n) cols.
Proof. by inversion 1. Qed.
Lemma shape_fits_le n m v : (m <= n)%Z -> shape_fits n v -> shape_fits m v.
Proof.
  intros Hmn. induction v as [t data names|t dim data|k names cols IH] using value_ind'; intros H.
  - constructor.
  - inversion H; subst. constructor. pose proof (zprod_max_pos ds).
    etransitivity; [apply (Z.mul_le_mono_nonneg_r (Z.max 1 m) (Z.max 1 n)); lia|done].
  - apply shape_fits_df in H. constructor. induction IH; constructor; apply Forall_cons in H as [? ?]; auto.
Qed.
Lemma shape_fits_self v : value_ok v -> shape_fits (value_size v) v.
Proof.
  induction v as [t data names|t dim data|k names cols IH] using value_ind'; intros H.
  - constructor.
  - apply value_ok_arr in H as (_ & H4 & _). destruct (dim_ok_cons _ H4) as (d & ds & ->). constructor. by destruct H4 as (_ & _ & H4).
  - apply value_ok_df in H as (_ & _ & H5 & H6). constructor. simpl. induction IH; constructor; apply Forall_cons in H5 as [E ?], H6 as [? ?]; [|auto].
    rewrite <- E. auto.
Qed.
Lemma vtype_na_type t : elt_type (vtype_na t) = t.
Proof. by destruct t. Qed.
Lemma pick_Forall {A} (P : A -> Prop) na x locs : P na -> Forall P x -> Forall P (map (pick na x) locs).
Proof.
  intros Hna Hx. apply Forall_forall. intros a Ha. apply elem_of_list_fmap in Ha as (i & -> & _). unfold pick.
  destruct (i =? NA_INTEGER)%Z; [done|]. destruct (nth_in_or_default (Z.to_nat (i - 1)) x na) as [H| ->]; [|done].
  rewrite Forall_forall in Hx. apply Hx. by apply elem_of_list_In.
Qed.
Lemma Forall_take_drop {A} (P : A -> Prop) n m l : Forall P l -> Forall P (take n (drop m l)).
Proof. intros H. apply Forall_take. by apply Forall_drop. Qed.
Lemma slice_val_ok locs v : value_ok v -> (Z.of_nat (length locs) <= INT_MAX)%Z ->
  shape_fits (Z.of_nat (length locs)) v -> value_ok (slice_val locs v).
Proof.
  induction v as [t data names|t dim data|n names cols IH] using value_ind'; intros H Hl Hf.
  - apply value_ok_vec in H as (H0 & H1 & _). simpl. constructor.
    + apply pick_Forall; [apply vtype_na_type|done].
    + destruct names; [|done]. by rewrite !map_length.
    + by rewrite map_length.
  - apply value_ok_arr in H as (H0 & H4 & H5). destruct (dim_ok_cons _ H4) as (d & ds & ->). simpl.
    destruct (dim_elem _ _ H4) as (_ & Hp & _). apply shape_fits_arr in Hf. constructor.
    + unfold shaped_out. apply Forall_forall. intros a Ha. apply elem_of_list_In, in_flat_map in Ha as (e & _ & Ha).
      apply elem_of_list_In in Ha. revert a Ha. rewrite <- Forall_forall. apply pick_Forall; [apply vtype_na_type|]. by apply Forall_take_drop.
    + destruct H4 as (_ & H4 & _). apply Forall_cons in H4 as [_ H4]. split; [done|]. split; [constructor; [lia|done]|]. done.
    + rewrite shaped_out_length by done. done.
  - apply value_ok_df in H as (_ & H3 & H5 & H6). apply shape_fits_df in Hf. simpl. constructor; [done|by rewrite map_length| |].
    + apply Forall_fmap, Forall_forall. intros c _. apply slice_val_size.
    + apply Forall_fmap. clear H3 H5. induction IH as [|c cols Hc IH IH']; [constructor|].
      apply Forall_cons in H6 as [? ?], Hf as [? ?]. constructor; [by apply Hc|auto].
Qed.
Lemma slice_val_fits n locs v : shape_fits n v -> shape_fits n (slice_val locs v).
Proof.
  induction v as [t data names|t dim data|k names cols IH] using value_ind'; intros H.
  - constructor.
  - inversion H; subst. simpl. by constructor.
  - apply shape_fits_df in H. simpl. constructor. apply Forall_fmap. induction IH; constructor; apply Forall_cons in H as [? ?]; auto.
Qed.

(** ** Equality proxies *)
Lemma proxy_cols_flatten n cs : proxy_cols (df_flatten_unwrap n cs) = flat_map proxy_cols cs.
Proof. unfold df_flatten_unwrap. destruct (flat_map proxy_cols cs) as [|c [|]]; done. Qed.
Lemma proxy_size_flatten n cs : Forall (fun c => length (v_data c) = n) (flat_map proxy_cols cs) ->
  proxy_size (df_flatten_unwrap n cs) = n.
Proof.
  unfold df_flatten_unwrap. destruct (flat_map proxy_cols cs) as [|c [|]]; [done| |done].
  intros H. by apply Forall_cons in H as [H _].
Qed.
Lemma zprod_fold l : fold_right Z.mul 1%Z l = zprod l.
Proof. by induction l as [|a l IH]; simpl; [|rewrite IH]. Qed.
Lemma flat_map_PVec cs : flat_map proxy_cols (map PVec cs) = cs.
Proof. induction cs as [|c cs IH]; simpl; [done|]. by rewrite IH. Qed.
Lemma eq_proxy_cols_arr t dim data : value_ok (VArr t dim data) ->
  exists d ds, dim = d :: ds /\ proxy_cols (eq_proxy (VArr t dim data)) =
    map (fun e => Vec t (chunk (Z.to_nat d) e data)) (seq 0 (Z.to_nat (zprod ds))).
Proof.
  intros H. apply value_ok_arr in H as (_ & H4 & H5). destruct (dim_ok_cons _ H4) as (d & ds & ->). exists d, ds. split; [done|].
  simpl eq_proxy. destruct (Nat.ltb_spec 1 (S (length ds))).
  - rewrite proxy_cols_flatten, flat_map_PVec. unfold array_cols. simpl. by rewrite zprod_fold.
  - assert (ds = []) as -> by (by destruct ds; simpl in *; [|lia]). simpl in *.
    change (Z.to_nat 1) with 1. simpl. f_equal. f_equal. unfold chunk. simpl. rewrite drop_0, take_ge; [done|lia].
Qed.
Lemma eq_proxy_lengths v : value_ok v ->
  Forall (fun c => length (v_data c) = Z.to_nat (value_size v)) (proxy_cols (eq_proxy v)) /\
  proxy_size (eq_proxy v) = Z.to_nat (value_size v).
Proof.
  induction v as [t data names|t dim data|n names cols IH] using value_ind'; intros H.
  - simpl. rewrite Nat2Z.id. split; [|done]. by constructor.
  - destruct (eq_proxy_cols_arr _ _ _ H) as (d & ds & -> & E).
    assert (F : Forall (fun c => length (v_data c) = Z.to_nat d) (proxy_cols (eq_proxy (VArr t (d :: ds) data)))).
    { rewrite E. apply Forall_fmap, Forall_forall. intros e He. apply elem_of_seq in He. simpl.
      apply value_ok_arr in H as (_ & H4 & H5). destruct (dim_elem _ _ H4) as (_ & Hp & Hd). simpl in H5. apply chunk_length. nia. }
    simpl value_size. split; [done|]. simpl eq_proxy in *. destruct (1 <? S (length ds)).
    + rewrite proxy_cols_flatten in F. by apply proxy_size_flatten.
    + simpl in F. by apply Forall_cons in F as [F _].
  - apply value_ok_df in H as (_ & _ & H5 & H6). cbn [eq_proxy value_size]. rewrite proxy_cols_flatten, Nat2Z.id.
    assert (F : Forall (fun c => length (v_data c) = n) (flat_map proxy_cols (map eq_proxy cols))).
    { induction cols as [|c cols IHc]; [constructor|]. apply Forall_cons in IH as [I1 I2], H5 as [S1 S2], H6 as [V1 V2].
      simpl. apply Forall_app. split; [|by apply IHc]. destruct (I1 V1) as [F _]. by rewrite S1, Nat2Z.id in F. }
    split; [done|]. by apply proxy_size_flatten.
Qed.
Definition slice_col (locs : list Z) (c : vec) : vec := Vec (v_type c) (map (pick (vtype_na (v_type c)) (v_data c)) locs).
Lemma eq_proxy_slice_cols locs v : value_ok v ->
  proxy_cols (eq_proxy (slice_val locs v)) = map (slice_col locs) (proxy_cols (eq_proxy v)).
Proof.
  induction v as [t data names|t dim data|n names cols IH] using value_ind'; intros H.
  - done.
  - destruct (eq_proxy_cols_arr _ _ _ H) as (d & ds & -> & E). rewrite E.
    assert (E' : proxy_cols (eq_proxy (slice_val locs (VArr t (d :: ds) data))) =
      map (fun e => Vec t (chunk (length locs) e (shaped_out (vtype_na t) data d ds locs))) (seq 0 (Z.to_nat (zprod ds)))).
    { simpl slice_val. simpl eq_proxy. destruct (Nat.ltb_spec 1 (S (length ds))).
      - rewrite proxy_cols_flatten, flat_map_PVec. unfold array_cols. simpl. by rewrite zprod_fold, Nat2Z.id.
      - assert (ds = []) as -> by (by destruct ds; simpl in *; [|lia]). simpl.
        change (Z.to_nat 1) with 1. simpl. f_equal. f_equal. unfold chunk at 1. simpl. rewrite drop_0, take_ge; [done|].
        unfold shaped_out. simpl. change (Z.to_nat 1) with 1. simpl. rewrite app_nil_r. by rewrite map_length. }
    rewrite E', map_map. apply map_ext_in. intros e He. apply in_seq in He. rewrite shaped_out_chunk by lia. done.
  - apply value_ok_df in H as (_ & _ & H5 & H6). cbn [eq_proxy slice_val]. rewrite !proxy_cols_flatten. clear H5.
    induction cols as [|c cols IHc]; [done|]. apply Forall_cons in IH as [I1 I2], H6 as [V1 V2].
    simpl. rewrite map_app, I1 by done. f_equal. by apply IHc.
Qed.
Lemma eq_proxy_slice_size locs v : value_ok v -> proxy_size (eq_proxy (slice_val locs v)) = length locs.
Proof.
  destruct v as [t data names|t dim data|n names cols]; intros H.
  - simpl. by rewrite map_length.
  - pose proof (eq_proxy_slice_cols locs _ H) as Ec. pose proof (eq_proxy_lengths _ H) as [HL _].
    destruct (eq_proxy_cols_arr _ _ _ H) as (d & ds & -> & _). simpl slice_val in *. simpl eq_proxy in *.
    destruct (1 <? S (length ds)).
    + rewrite Nat2Z.id in *. apply proxy_size_flatten. rewrite proxy_cols_flatten in Ec. rewrite Ec. apply Forall_fmap, Forall_forall. intros c _. simpl. apply map_length.
    + simpl in Ec. injection Ec as Ec. simpl. rewrite Ec. apply map_length.
  - cbn [slice_val eq_proxy]. apply proxy_size_flatten.
    pose proof (eq_proxy_slice_cols locs _ H) as Ec. cbn [slice_val eq_proxy] in Ec. rewrite proxy_cols_flatten in Ec. rewrite Ec.
    apply Forall_fmap, Forall_forall. intros c _. simpl. apply map_length.
Qed.
(** Row [k] of a slice is row [locs[k]] of the vector. *)
Lemma eq_proxy_slice_row locs v k l : value_ok v -> locs !! k = Some l -> (1 <= l <= value_size v)%Z ->
  proxy_row (eq_proxy (slice_val locs v)) k = proxy_row (eq_proxy v) (Z.to_nat (l - 1)).
Proof.
  intros H Hk Hl. unfold proxy_row. rewrite eq_proxy_slice_cols by done.
  destruct (eq_proxy_lengths v H) as [HL _]. unfold cols_row. induction HL as [|c cs Hc HL IH]; [done|].
  set (f := fun c : vec => v_data c !! k) in *. set (g := fun c : vec => v_data c !! Z.to_nat (l - 1)) in *.
  change (match f (slice_col locs c) with Some y => y :: omap f (map (slice_col locs) cs) | None => omap f (map (slice_col locs) cs) end =
          match g c with Some y => y :: omap g cs | None => omap g cs end).
  rewrite IH. unfold f, g. simpl. rewrite list_lookup_fmap, Hk. simpl. unfold pick.
  destruct (Z.eqb_spec l NA_INTEGER); [unfold NA_INTEGER, INT_MIN in *; lia|].
  destruct (lookup_lt_is_Some_nth (v_data c) (Z.to_nat (l - 1))) as [a Ha]; [lia|]. rewrite Ha.
  by rewrite (nth_lookup_Some _ _ _ _ Ha).
Qed.
