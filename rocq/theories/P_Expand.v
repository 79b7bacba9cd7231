(** * Theorems about [vec_expand_grid] (C19) *)
From Verif Require Import Base M_Double M_Scalar M_Hash M_Object M_Proxy M_Slice M_Growable M_Runs M_Rep Spec_Slice Spec_Rep
  L_Proxy L_Slice L_SliceArray L_Assign L_Value L_SliceVal L_Rep L_Unrep Spec_Runs.
From Coq Require Import ZifyBool ZifyNat.
#[local] Arguments Z.mul : simpl never.
#[local] Arguments Z.add : simpl never.
#[local] Arguments Z.sub : simpl never.
#[local] Arguments Z.max : simpl never.

(** ** Locations *)
Lemma zsum_take_replicate n W r : r <= n -> zsum (take r (replicate n W)) = (Z.of_nat r * W)%Z.
Proof. intros H. rewrite take_replicate, Nat.min_l by lia. rewrite zsum_total. apply total_replicate. Qed.
Lemma each_uniform n W q : (0 < W)%Z -> (Z.of_nat q < Z.of_nat n * W)%Z ->
  each 0 (replicate n W) !! q = Some (Z.of_nat q / W + 1)%Z.
Proof.
  intros HW Hq. destruct (each_lookup 0 (replicate n W) q) as (r & Hr & Hb & E).
  - by apply Forall_replicate.
  - rewrite zsum_total, total_replicate. done.
  - rewrite replicate_length in Hr. rewrite !zsum_take_replicate in Hb by lia.
    rewrite E. do 2 f_equal. simpl. apply (Z.div_unique _ _ _ (Z.of_nat q - Z.of_nat r * W)%Z); lia.
Qed.
Lemma concat_rep_lookup {A} T (l : list A) q : q < T * length l ->
  concat (replicate T l) !! q = l !! (q mod length l).
Proof.
  revert q. induction T as [|T IH]; intros q Hq; [lia|]. simpl. destruct (decide (q < length l)).
  - rewrite lookup_app_l by done. by rewrite Nat.mod_small.
  - rewrite lookup_app_r by lia. rewrite IH by lia. f_equal.
    replace q with ((q - length l) + 1 * length l) at 2 by lia. rewrite Nat.mod_add by lia. done.
Qed.
Definition mixed (W n : Z) (N : nat) : list Z := map (fun k => (Z.of_nat k / W) mod n + 1)%Z (seq 0 N).

Lemma rep_each_rep v W T : value_ok v -> (0 < value_size v)%Z -> (0 < W)%Z -> (0 < T)%Z ->
  (T * value_size v * W <= INT_MAX)%Z -> shape_fits (T * value_size v * W) v ->
  (let! x := vec_rep_each v [W] in vec_rep x T) = Ok (slice_val (mixed W (value_size v) (Z.to_nat (T * value_size v * W))) v).
Proof.
  intros Hv Hn HW HT HN Hf. set (n := value_size v) in *.
  assert (Hnw : (n * W <= T * n * W)%Z) by nia. assert (H1 : (W <= n * W)%Z) by nia. assert (H2 : (T <= T * n * W)%Z) by nia.
  rewrite vec_rep_each_spec.
  - cbn [bind]. fold n. simpl recycled_times. set (l1 := each 0 (replicate (Z.to_nat n) W)).
    assert (Hl1 : Z.of_nat (length l1) = (n * W)%Z).
    { unfold l1. rewrite each_length by (apply Forall_replicate; lia). rewrite total_replicate. lia. }
    rewrite vec_rep_spec.
    + rewrite slice_val_size, Nat2Z.id. rewrite slice_val_slice_val; [|done|].
      * f_equal. f_equal. apply list_eq. intros q. unfold compose_locs, mixed, rep_locs. fold (iota (length l1)).
        rewrite !list_lookup_fmap. set (NN := Z.to_nat (T * n * W)).
        assert (HNN : NN = Z.to_nat T * length l1) by (unfold NN; lia).
        destruct (decide (q < NN)) as [Hq|Hq].
        -- rewrite concat_rep_lookup by (rewrite <- iota_all, iota_length; lia). rewrite <- iota_all, iota_length.
           assert (Hm : q mod length l1 < length l1) by (apply Nat.mod_upper_bound; lia).
           unfold iota. rewrite list_lookup_fmap, !lookup_seq_lt by lia. simpl. f_equal. unfold pick.
           destruct (Z.eqb_spec (Z.of_nat (q mod length l1) + 1) NA_INTEGER); [unfold NA_INTEGER, INT_MIN in *; lia|].
           assert (Ez : Z.to_nat (Z.of_nat (q mod length l1) + 1 - 1) = q mod length l1) by lia. rewrite Ez.
           erewrite nth_lookup_Some; [|apply each_uniform; [done|]].
           2:{ rewrite Z2Nat.id by lia. rewrite <- Hl1. lia. }
           f_equal. rewrite Nat2Z.inj_mod, Hl1.
           rewrite (Z.mul_comm n W), Z.rem_mul_r by lia.
           rewrite Z.mul_comm, Z.div_add by lia. rewrite Z.div_small by (apply Z.mod_pos_bound; lia). lia.
        -- rewrite !lookup_ge_None_2; [done|rewrite seq_length; lia|].
           rewrite concat_replicate_length, <- iota_all, iota_length. lia.
      * apply Forall_forall. intros i Hi. right. unfold rep_locs in Hi.
        apply elem_of_list_In, in_concat in Hi as (l & Hl & Hi). apply elem_of_list_In, elem_of_replicate in Hl as [-> _].
        pose proof (iota_ok (length l1)) as HI. rewrite Forall_forall in HI. apply elem_of_list_In, HI in Hi. lia.
    + apply slice_val_ok; [done|lia|]. apply (shape_fits_le (T * n * W)); [lia|done].
    + lia.
    + rewrite slice_val_size. lia.
  - done.
  - constructor; [|constructor]. unfold INT_MIN. lia.
  - fold n. split; [by left|]. split; [constructor; [lia|constructor]|]. simpl recycled_times. rewrite total_replicate. lia.
Qed.

(** ** The size loop *)
Lemma zprod_snoc l a : zprod (l ++ [a]) = (zprod l * a)%Z.
Proof. rewrite zprod_app. simpl. lia. Qed.
Lemma r_ssize_mult_spec x y : (0 <= x)%Z -> (0 <= y)%Z ->
  ((x * y <= R_SSIZE_MAX)%Z -> r_ssize_mult x y = Ok (x * y)%Z) /\ ((x * y > R_SSIZE_MAX)%Z -> exists e, r_ssize_mult x y = Err e).
Proof.
  intros Hx Hy. unfold r_ssize_mult. destruct (Z.ltb_spec 0 x), (Z.ltb_spec 0 y); simpl; try (split; [done|unfold R_SSIZE_MAX; nia]).
  destruct (Z.ltb_spec (R_SSIZE_MAX / y) x) as [H1|H1]; simpl.
  - split; [|eauto]. intros H2. exfalso. apply Z.div_le_lower_bound with (b := y) in H2 || idtac.
    assert (x <= R_SSIZE_MAX / y)%Z by (apply Z.div_le_lower_bound; lia). lia.
  - split; [done|]. intros H2. exfalso. assert (y * (R_SSIZE_MAX / y) <= R_SSIZE_MAX)%Z by (apply Z.mul_div_le; lia). nia.
Qed.
Definition size_body (ns : list Z) : nat -> list Z * Z -> res (list Z * Z) :=
  fun i '(cumulative, size) =>
      let! s := rd ns i in
      let! size := r_ssize_mult size s in
      let! cumulative := wr cumulative i size in
      Ok (cumulative, size).
Lemma size_loop_ok ns : Forall (fun n => 0 <= n)%Z ns -> prefix_ok ns ->
  for_ 0 (length ns) (size_body ns) (alloc (length ns), 1%Z) = Ok (map (fun i => zprod (take (S i) ns)) (seq 0 (length ns)), zprod ns).
Proof.
  intros Hn Hp.
  destruct (for_inv (fun i (st : list Z * Z) => length st.1 = length ns /\ st.2 = zprod (take i ns) /\
     forall m, m < i -> st.1 !! m = Some (zprod (take (S m) ns))) 0 (length ns) (size_body ns) (alloc (length ns), 1%Z))
    as ([cm sz] & Hf & Hl & Hs & Hc).
  - simpl. split; [apply replicate_length|]. split; [done|]. lia.
  - intros i [cm sz] Hi (Hl & Hs & Hc). cbn [fst snd] in *. destruct (lookup_lt_is_Some_nth ns i) as [a Ha]; [lia|].
    unfold size_body. assert (rd ns i = Ok a) as -> by by apply rd_Ok. cbn [bind].
    assert (E : zprod (take (S i) ns) = (sz * a)%Z) by (rewrite (take_S_r _ _ _ Ha), zprod_snoc; by rewrite Hs).
    assert (Hz : (0 <= sz)%Z) by (rewrite Hs; apply zprod_nonneg; by apply Forall_take).
    assert (Ha0 : (0 <= a)%Z) by (rewrite Forall_lookup in Hn; eauto).
    rewrite (proj1 (r_ssize_mult_spec sz a Hz Ha0)) by (rewrite <- E; apply Hp; lia). cbn [bind].
    rewrite wr_Ok by lia. cbn [bind]. eexists; split; [done|]. cbn [fst snd]. rewrite insert_length. split; [done|]. split; [done|].
    intros m Hm. destruct (decide (m = i)) as [->|].
    + rewrite list_lookup_insert by lia. by rewrite E.
    + rewrite list_lookup_insert_ne by done. apply Hc. lia.
  - rewrite Hf. cbn [fst snd] in *. rewrite Nat.add_0_l, take_ge in Hs by lia. subst sz. f_equal. f_equal.
    apply list_eq. intros i. destruct (decide (i < length ns)).
    + rewrite Hc by lia. rewrite list_lookup_fmap, lookup_seq_lt by lia. done.
    + rewrite !lookup_ge_None_2; [done|rewrite map_length, seq_length; lia|lia].
Qed.
Lemma size_loop_fail ns : Forall (fun n => 0 <= n)%Z ns -> ~ prefix_ok ns ->
  exists e, for_ 0 (length ns) (size_body ns) (alloc (length ns), 1%Z) = Err e.
Proof.
  intros Hn Hp.
  assert (G : forall ws pre cm, ns = pre ++ ws -> length cm = length ns ->
    (exists i, i <= length ws /\ (zprod (pre ++ take i ws) > R_SSIZE_MAX)%Z) -> (zprod pre <= R_SSIZE_MAX)%Z ->
    exists e, for_ (length pre) (length ws) (size_body ns) (cm, zprod pre) = Err e).
  { induction ws as [|a ws IH]; intros pre cm E Hl (i & Hi & Hbad) Hpre.
    - rewrite take_nil, app_nil_r in Hbad. lia.
    - cbn [length for_]. unfold size_body at 1.
      assert (rd ns (length pre) = Ok a) as -> by (apply rd_Ok; rewrite E, lookup_app_r, Nat.sub_diag by lia; done). cbn [bind].
      rewrite E in Hn. apply Forall_app in Hn as [Hn1 Hn2]. apply Forall_cons in Hn2 as [Ha Hn2].
      destruct (r_ssize_mult_spec (zprod pre) a ltac:(by apply zprod_nonneg) Ha) as [M1 M2].
      destruct (Z.le_gt_cases (zprod pre * a) R_SSIZE_MAX) as [Hle|Hgt].
      + rewrite M1 by done. cbn [bind]. rewrite wr_Ok by (rewrite Hl, E, app_length; simpl; lia). cbn [bind].
        rewrite <- zprod_snoc. specialize (IH (pre ++ [a]) (<[length pre:=zprod (pre ++ [a])]> cm)).
        rewrite app_length, Nat.add_1_r, <- app_assoc in IH. apply IH; [done|by rewrite insert_length| |by rewrite zprod_snoc].
        destruct i as [|i]; [simpl in Hbad; rewrite app_nil_r in Hbad; lia|]. exists i. split; [simpl in Hi; lia|]. rewrite <- app_assoc. done.
      + destruct (M2 ltac:(lia)) as [e ->]. cbn [bind]. eauto. }
  apply (G ns []); [done|apply replicate_length| |simpl; unfold R_SSIZE_MAX; lia].
  destruct (decide (Exists (fun i => zprod (take i ns) > R_SSIZE_MAX)%Z (seq 0 (S (length ns))))) as [Hex|Hno].
  - apply Exists_exists in Hex as (i & Hi & Hb). apply elem_of_seq in Hi. exists i. split; [lia|done].
  - destruct Hp. intros i Hi. apply Znot_gt_le. intros Hb. apply Hno. apply Exists_exists. exists i. split; [apply elem_of_seq; lia|done].
Qed.

(** ** C19 *)
Lemma div_mul_l a b : (0 < b)%Z -> (a * b / b = a)%Z.
Proof. intros. apply Z.div_mul. lia. Qed.
Lemma take_drop_prod ns j n : ns !! j = Some n -> zprod ns = (zprod (take j ns) * n * zprod (drop (S j) ns))%Z.
Proof. intros H. rewrite <- (take_drop_middle _ _ _ H) at 1. rewrite zprod_app. simpl. lia. Qed.

Theorem C19_grid xs v :
  let ys := omap id xs in
  let ns := map value_size ys in
  Forall value_ok ys -> Forall (shape_fits (zprod ns)) ys ->
  (prefix_ok ns -> (zprod ns <= INT_MAX)%Z ->
     exists cols, vec_expand_grid xs v = Ok (zprod ns, cols) /\ length cols = length ys /\
       forall j x, ys !! j = Some x -> exists c, cols !! j = Some c /\ sliced (grid_locs v ns j) x c) /\
  (~ (prefix_ok ns /\ (zprod ns <= INT_MAX)%Z) -> exists e, vec_expand_grid xs v = Err e).
Proof.
  intros ys ns Hok Hfit.
  assert (Hn : Forall (fun n => 0 <= n)%Z ns).
  { apply Forall_fmap. eapply Forall_impl; [apply Hok|]. simpl. intros x Hx. apply value_size_range in Hx. lia. }
  assert (Hln : length ys = length ns) by (unfold ns; by rewrite map_length).
  assert (HB : forall (k : list Z * Z -> res (Z * list value)),
    (let! st := for_ 0 (length ys) (size_body ns) (alloc (length ys), 1%Z) in k st) =
    (let! st := for_ 0 (length ns) (size_body ns) (alloc (length ns), 1%Z) in k st)) by (intros; by rewrite Hln).
  unfold vec_expand_grid. fold ys. fold ns. fold (size_body ns). rewrite HB. clear HB. split.
  - intros Hp Hmax. rewrite size_loop_ok by done. cbn [bind]. unfold R_LEN_T_MAX.
    destruct (Z.ltb_spec INT_MAX (zprod ns)); [lia|]. set (N := zprod ns) in *.
    set (cumulative := map (fun i => zprod (take (S i) ns)) (seq 0 (length ns))).
    match goal with |- context [for_ 0 (length ys) ?b []] => set (body := b) end.
    destruct (for_inv (fun i cols => cols = map (fun j => match ys !! j with Some x => slice_val (grid_locs v ns j) x | None => (VVec TLgl [] None) end) (seq 0 i))
      0 (length ys) body []) as (cols & Hf & Hcols).
    + done.
    + intros i cols Hi ->. destruct (lookup_lt_is_Some_nth ys i) as [x Hx]; [lia|]. unfold body.
      assert (Hxi : ns !! i = Some (value_size x)) by (unfold ns; rewrite list_lookup_fmap, Hx; done).
      assert (Hci : rd cumulative i = Ok (zprod (take (S i) ns))).
      { apply rd_Ok. unfold cumulative. rewrite list_lookup_fmap, lookup_seq_lt by lia. done. }
      assert (rd ys i = Ok x) as -> by by apply rd_Ok. cbn [bind]. rewrite Hci. cbn [bind].
      assert (rd ns i = Ok (value_size x)) as -> by by apply rd_Ok. cbn [bind].
      assert (Hvx : value_ok x) by (rewrite Forall_lookup in Hok; eauto).
      assert (Hfx : shape_fits N x) by (rewrite Forall_lookup in Hfit; eauto).
      rewrite seq_S, map_app. simpl map. rewrite Hx.
      set (prev := map _ (seq 0 i)).
      assert (Hxr := value_size_range x Hvx).
      assert (Hnth : nth i ns 1%Z = value_size x) by (by apply nth_lookup_Some).
      destruct (Z.eqb_spec N 0) as [E0|E0]; cbn [negb].
      * cbn [bind]. change (r_ssize_as_integer 0) with (Ok 0%Z). cbn [bind].
        assert (Hre : vec_rep_each x [0%Z] = Ok (slice_val [] x)) by (cbn [vec_rep_each Z.eqb]; apply slice_locs_spec; [done|constructor]).
        rewrite Hre. cbn [bind]. rewrite vec_rep_spec.
        -- rewrite slice_val_size. cbn [bind]. eexists; split; [done|]. do 2 f_equal. unfold grid_locs. fold N. rewrite E0.
           change (rep_locs (Z.to_nat (Z.of_nat (length (@nil Z)))) 0) with (@nil Z). simpl map. by rewrite slice_val_slice_val.
        -- apply slice_val_ok; [done|simpl; unfold INT_MAX; lia|]. apply (shape_fits_le N); [simpl; lia|done].
        -- unfold INT_MAX. lia.
        -- rewrite slice_val_size. simpl. unfold INT_MAX. lia.
      * pose proof (take_drop_prod _ _ _ Hxi) as EN. fold N in EN.
        set (P := zprod (take i ns)) in *. set (S' := zprod (drop (S i) ns)) in *.
        assert (HP : (0 <= P)%Z) by (apply zprod_nonneg; by apply Forall_take).
        assert (HS : (0 <= S')%Z) by (apply zprod_nonneg; by apply Forall_drop).
        set (n := value_size x) in *.
        assert (0 < P)%Z by nia. assert (0 < S')%Z by nia. assert (0 < n)%Z by nia.
        assert (EC : zprod (take (S i) ns) = (P * n)%Z) by (rewrite (take_S_r _ _ _ Hxi), zprod_snoc; done).
        rewrite EC. unfold r_ssize_div. destruct (Z.eqb_spec (P * n) 0); [nia|]. destruct (Z.eqb_spec n 0); [lia|]. cbn [bind].
        assert (E1 : (N / (P * n) = S')%Z) by (rewrite EN, (Z.mul_comm (P * n)); apply div_mul_l; nia).
        assert (E2 : (P * n / n = P)%Z) by (apply div_mul_l; lia).
        rewrite E1, E2. assert (1 <= P * n)%Z by nia. assert (1 <= n * S')%Z by nia. assert (S' <= N)%Z by (rewrite EN; nia).
        assert (P <= N)%Z by (rewrite EN, <- Z.mul_assoc; nia).
        assert (HI : forall z, (0 <= z <= N)%Z -> r_ssize_as_integer z = Ok z).
        { intros z Hz. unfold r_ssize_as_integer, INT_MIN. destruct (Z.ltb_spec INT_MAX z); [lia|]. by destruct (Z.ltb_spec z (-2147483648)); [lia|]. }
        assert (Hgen : forall W T, (0 < W)%Z -> (0 < T)%Z -> (T * n * W = N)%Z ->
          forall (Hd : grid_locs v ns i = mixed W n (Z.to_nat N)),
          exists cols', (let! te := r_ssize_as_integer W in let! x := vec_rep_each x [te] in
             let! times := r_ssize_as_integer T in let! x := vec_rep x times in Ok (prev ++ [x])) = Ok cols' /\
          cols' = prev ++ [slice_val (grid_locs v ns i) x]).
        { intros W T HW HT EN' Hd.
          assert (1 <= T * n)%Z by nia. assert (1 <= n * W)%Z by nia. assert (W <= N)%Z by (rewrite <- EN'; nia).
          assert (T <= N)%Z by (rewrite <- EN', <- Z.mul_assoc; nia). rewrite !HI by lia. cbn [bind].
          pose proof (rep_each_rep x W T Hvx ltac:(done) HW HT) as HR. fold n in HR. rewrite EN' in HR. specialize (HR ltac:(lia) Hfx).
          destruct (vec_rep_each x [W]) as [y| |]; cbn [bind] in *; [|done|done]. rewrite HR. cbn [bind]. eexists; split; [done|]. by rewrite Hd. }
        destruct v; cbn [bind].
        -- apply (Hgen S' P); [done|done|lia|]. unfold grid_locs, mixed, digit. by rewrite Hnth.
        -- apply (Hgen P S'); [done|done|lia|]. unfold grid_locs, mixed, digit. by rewrite Hnth.
    + rewrite Hf. cbn [bind]. rewrite Hcols. eexists; split; [done|]. rewrite map_length, seq_length. split; [done|].
      intros j x Hx. pose proof (lookup_lt_Some _ _ _ Hx) as Hj. eexists. split.
      * rewrite list_lookup_fmap, lookup_seq_lt by done. simpl. by rewrite Hx.
      * apply sliced_slice_val. rewrite Forall_lookup in Hok. eauto.
  - intros Hbad. destruct (decide (Forall (fun i => zprod (take i ns) <= R_SSIZE_MAX)%Z (seq 0 (S (length ns))))) as [Hp|Hp].
    + assert (Hp' : prefix_ok ns). { intros i Hi. rewrite Forall_forall in Hp. apply Hp. apply elem_of_seq. lia. }
      rewrite size_loop_ok by done. cbn [bind]. unfold R_LEN_T_MAX. destruct (Z.ltb_spec INT_MAX (zprod ns)); [eauto|]. destruct Hbad. done.
    + destruct (size_loop_fail ns Hn) as [e ->]; [|cbn [bind]; eauto]. intros Hp'. apply Hp. apply Forall_forall. intros i Hi. apply elem_of_seq in Hi. apply Hp'. lia.
Qed.

(** Each combination of locations occurs in exactly one row. *)
Lemma digit_fastest_S n ns j k : (0 < n)%Z -> Forall (fun n => 0 < n)%Z ns -> digit Fastest (n :: ns) (S j) k = digit Fastest ns j (k / n).
Proof.
  intros Hn H. unfold digit. simpl. rewrite <- Z.div_div; [done|lia|].
  clear -H. revert j. induction H as [|a l Ha H IH]; intros j; [rewrite take_nil; simpl; lia|].
  destruct j; simpl; [lia|]. specialize (IH j). nia.
Qed.
Lemma digit_fastest_0 n ns k : digit Fastest (n :: ns) 0 k = (k mod n)%Z.
Proof. unfold digit. simpl. by rewrite Z.div_1_r. Qed.
Lemma fastest_once ns idx : Forall2 (fun n i => 0 <= i < n)%Z ns idx ->
  (0 <= offset ns idx < zprod ns)%Z /\
  (forall j i, idx !! j = Some i -> digit Fastest ns j (offset ns idx) = i) /\
  (forall k, (0 <= k < zprod ns)%Z -> (forall j i, idx !! j = Some i -> digit Fastest ns j k = i) -> k = offset ns idx).
Proof.
  induction 1 as [|n i ns idx Hi H (IH1 & IH2 & IH3)].
  - simpl. split; [lia|]. split; [done|]. intros k Hk _. lia.
  - assert (Hp : Forall (fun n => 0 < n)%Z ns). { clear -H. induction H; constructor; auto; lia. }
    simpl offset. simpl zprod. split; [nia|]. split.
    + intros [|j] x Hx; simpl in Hx.
      * injection Hx as ->. rewrite digit_fastest_0. rewrite Z.mul_comm, Z.mod_add by lia. by apply Z.mod_small.
      * rewrite digit_fastest_S by (lia || done). rewrite Z.mul_comm, Z.div_add by lia. rewrite Z.div_small by lia. by apply IH2.
    + intros k Hk Hd. pose proof (Hd 0 i eq_refl) as H0. rewrite digit_fastest_0 in H0.
      rewrite (Z.div_mod k n) by lia. rewrite H0. rewrite (IH3 (k / n)%Z).
      * lia.
      * split; [apply Z.div_pos; lia|]. apply Z.div_lt_upper_bound; lia.
      * intros j x Hx. rewrite <- digit_fastest_S by (lia || done). by apply Hd.
Qed.
Lemma zprod_rev l : zprod (rev l) = zprod l.
Proof. induction l as [|a l IH]; [done|]. simpl. rewrite zprod_snoc, IH. lia. Qed.
Lemma digit_slowest ns j k : j < length ns -> digit Slowest ns j k = digit Fastest (rev ns) (length ns - 1 - j) k.
Proof.
  intros Hj. unfold digit. f_equal.
  - f_equal. rewrite <- (zprod_rev (drop _ _)). f_equal.
    assert (E : rev ns = rev (drop (S j) ns) ++ rev (take (S j) ns)) by (by rewrite <- rev_app_distr, take_drop).
    rewrite E, take_app_le.
    + rewrite take_ge; [done|]. rewrite rev_length, drop_length. lia.
    + rewrite rev_length, drop_length. lia.
  - rewrite rev_nth by lia. f_equal. lia.
Qed.
Lemma rev_lookup' {A} (l : list A) j : j < length l -> rev l !! j = l !! (length l - 1 - j).
Proof.
  intros H. destruct (lookup_lt_is_Some_nth l (length l - 1 - j)) as [a Ha]; [lia|]. rewrite Ha.
  rewrite <- (take_drop_middle _ _ _ Ha), rev_app_distr. simpl. rewrite <- app_assoc.
  rewrite lookup_app_r; rewrite rev_length, drop_length; [|lia]. replace (j - _) with 0 by lia. done.
Qed.
Theorem C19_once v ns idx : Forall2 (fun n i => 0 <= i < n)%Z ns idx ->
  exists k, (0 <= k < zprod ns)%Z /\ (forall j i, idx !! j = Some i -> digit v ns j k = i) /\
    forall k', (0 <= k' < zprod ns)%Z -> (forall j i, idx !! j = Some i -> digit v ns j k' = i) -> k' = k.
Proof.
  intros H. destruct v.
  2:{ exists (offset ns idx). by apply fastest_once. }
  assert (Hr : Forall2 (fun n i => 0 <= i < n)%Z (rev ns) (rev idx)) by (clear -H; induction H; simpl; [constructor|]; apply Forall2_app; auto).
  pose proof (Forall2_length _ _ _ H) as Hl.
  destruct (fastest_once _ _ Hr) as (H1 & H2 & H3). rewrite zprod_rev in H1, H3.
  exists (offset (rev ns) (rev idx)). split; [done|]. split.
  - intros j i Hi. pose proof (lookup_lt_Some _ _ _ Hi). rewrite digit_slowest by lia. apply H2.
    rewrite rev_lookup' by lia. by replace (length idx - 1 - (length ns - 1 - j)) with j by lia.
  - intros k' Hk' Hd. apply H3; [done|]. intros j i Hi. pose proof (lookup_lt_Some _ _ _ Hi) as Hj. rewrite rev_length in Hj.
    rewrite rev_lookup' in Hi by lia. pose proof (Hd _ _ Hi) as E. rewrite digit_slowest in E by lia.
    by replace (length ns - 1 - (length idx - 1 - j)) with j in E by lia.
Qed.
Example C19_ex :
  let a := VVec TInt [EInt 1; EInt 2]%Z None in let b := VVec TLgl [ELgl 0; ELgl 1; ELgl NA_LOGICAL]%Z None in
  vec_expand_grid [Some a; None; Some b] Slowest =
    Ok (6%Z, [VVec TInt [EInt 1; EInt 1; EInt 1; EInt 2; EInt 2; EInt 2]%Z None;
              VVec TLgl [ELgl 0; ELgl 1; ELgl NA_LOGICAL; ELgl 0; ELgl 1; ELgl NA_LOGICAL]%Z None]) /\
  vec_expand_grid [Some a; None; Some b] Fastest =
    Ok (6%Z, [VVec TInt [EInt 1; EInt 2; EInt 1; EInt 2; EInt 1; EInt 2]%Z None;
              VVec TLgl [ELgl 0; ELgl 0; ELgl 1; ELgl 1; ELgl NA_LOGICAL; ELgl NA_LOGICAL]%Z None]) /\
  vec_expand_grid [Some a; Some (VVec TRaw [] None)] Slowest = Ok (0%Z, [VVec TInt [] None; VVec TRaw [] None]).
Proof. by vm_compute. Qed.
Print Assumptions C19_grid.
Print Assumptions C19_once.
