(** * Property C47: the dynamic list-of of rlang holds what was pushed *)
From Verif Require Import Base M_Growable M_DynListOf L_Growable.
From Coq Require Import ZifyBool ZifyNat.
#[local] Arguments Z.of_nat : simpl never.
#[local] Arguments Z.to_nat : simpl never.
#[local] Arguments Z.add : simpl never.
#[local] Arguments Z.sub : simpl never.
#[local] Arguments Z.mul : simpl never.

(** ** Specification: a list of lists *)
Inductive lop (A : Type) := PushArr | PushElt (i : nat) (x : option A).
Arguments PushArr {A}. Arguments PushElt {A}.
Section spec.
  Context {A : Type} (zero : A).
  Definition spec_step (vss : list (list A)) (o : lop A) : option (list (list A)) :=
    match o with
    | PushArr => Some (vss ++ [[]])
    | PushElt i x => match vss !! i with Some vs => Some (<[i := vs ++ [match x with Some x => x | None => zero end]]> vss) | None => None end
    end.
  Fixpoint spec_run (vss : list (list A)) (os : list (lop A)) : option (list (list A)) :=
    match os with
    | [] => Some vss
    | o :: os => match spec_step vss o with Some vss => spec_run vss os | None => None end
    end.
  Definition lof_step (l : lof) (o : lop A) : res lof :=
    match o with PushArr => r_lof_push_back zero l | PushElt i x => r_lof_arr_push_back zero l (Z.of_nat i) x end.
  Fixpoint lof_run (l : lof) (os : list (lop A)) : res lof :=
    match os with [] => Ok l | o :: os => let! l := lof_step l o in lof_run l os end.
End spec.

(** ** Dynamic arrays *)
Section dyn.
  Context {B : Type}.
  Implicit Types (p : @dyn_array B) (vs : list B).
  Lemma dyn_lookup p vs i v : dyninv p vs -> vs !! i = Some v -> dyn_data p !! i = Some v.
  Proof. intros (_ & T & _) H. assert (L := lookup_lt_Some _ _ _ H). rewrite <- T in H. by rewrite lookup_take in H by lia. Qed.
  Lemma dyn_len p vs : dyninv p vs -> length vs <= length (dyn_data p).
  Proof. intros (_ & T & _). rewrite <- T, take_length. lia. Qed.
  Lemma dyn_poke_inv p vs i v : dyninv p vs -> i < length vs ->
    exists p', dyn_poke p (Z.of_nat i) v = Ok p' /\ dyninv p' (<[i := v]> vs) /\ dyn_capacity p' = dyn_capacity p /\ dyn_count p' = dyn_count p.
  Proof.
    intros D Hi. pose proof (dyn_len _ _ D) as L. destruct D as (C & T & Cp & P). unfold dyn_poke. rewrite wrZ_nat, wr_Ok by lia. eexists. split; [done|]. split; [|done].
    unfold dyninv. cbn. rewrite !insert_length. split_and!; try done. rewrite <- T at 2. apply list_eq. intros j. destruct (decide (j < length vs)).
    - rewrite lookup_take by done. destruct (decide (j = i)) as [->|Hne].
      + rewrite !list_lookup_insert by (rewrite ?take_length; lia). done.
      + rewrite !list_lookup_insert_ne by done. by rewrite lookup_take by done.
    - rewrite !lookup_ge_None_2; [done|rewrite insert_length, take_length; lia|rewrite take_length, insert_length; lia].
  Qed.
  Lemma dyn_push_room (z : B) p vs v : dyninv p vs -> (Z.of_nat (length vs) < dyn_capacity p)%Z ->
    exists p', r_dyn_push_back z p v = Ok p' /\ dyninv p' (vs ++ [v]) /\ dyn_capacity p' = dyn_capacity p.
  Proof.
    intros D Hi. pose proof (dyn_len _ _ D) as L. destruct D as (C & T & Cp & P). unfold r_dyn_push_back, r_dyn_increment. cbn.
    assert ((dyn_capacity p <? dyn_count p + 1)%Z = false) as -> by lia. cbn [bind]. cbn. rewrite C, wrZ_nat, wr_Ok by lia. cbn [bind]. eexists. split; [done|]. split; [|done].
    unfold dyninv. cbn. rewrite insert_length, app_length. cbn. split_and!; try done; try lia. pose proof (take_snoc_insert vs (dyn_data p) v ltac:(lia) T) as HT. by rewrite app_length in HT.
  Qed.
  Lemma dyn_resize_inv (z : B) p vs c : dyninv p vs -> (dyn_capacity p <= c)%Z -> dyninv (r_dyn_resize z p c) vs.
  Proof.
    intros D Hc. pose proof (dyn_len _ _ D) as L. destruct D as (C & T & Cp & P). unfold dyninv, r_dyn_resize. cbn. split_and!; [lia| |rewrite app_length, take_length, replicate_length; lia|lia].
    rewrite take_app_le by (rewrite take_length; lia). rewrite take_take, Nat.min_l by lia. done.
  Qed.
End dyn.
Lemma mult_ok x y : (0 <= x)%Z -> (0 <= y)%Z -> (x * y <= R_SSIZE_MAX)%Z -> r_ssize_mult x y = Ok (x * y)%Z.
Proof.
  intros Hx Hy H. unfold r_ssize_mult. destruct (Z.ltb_spec 0 x); [|done]. destruct (Z.ltb_spec 0 y); [|done]. cbn [andb].
  assert ((R_SSIZE_MAX / y <? x)%Z = false) as ->; [|done]. apply Z.ltb_ge. apply Z.div_le_lower_bound; lia.
Qed.

(** ** The invariant *)
Section proofs.
  Context {A : Type} (zero : A).
  Implicit Types (l : @lof A) (vss : list (list A)).
  Definition slot (W N : nat) (reserve : list A) (ms : list (@dyn_array A)) (i : nat) (vs : list A) (loc : Z) (pr : ptr * Z) : Prop :=
    (loc = (-1)%Z /\ pr = (PReserve (Z.of_nat N) (Z.of_nat (i * W)), Z.of_nat (length vs)) /\ length vs <= W /\ take (length vs) (drop (i * W) reserve) = vs) \/
    (exists k a, loc = Z.of_nat k /\ ms !! k = Some a /\ dyninv a vs /\ pr = (PMoved (Z.of_nat k) (dyn_capacity a), Z.of_nat (length vs))).
  Record inv l vss (W N : nat) (pairs : list (ptr * Z)) (ms : list (@dyn_array A)) : Prop := Inv {
    i_width : lof_width l = Z.of_nat W; i_w : 1 <= W;
    i_cap : lof_capacity l = Z.of_nat N; i_n : 1 <= N;
    i_count : lof_count l = Z.of_nat (length vss); i_le : length vss <= N;
    i_res : length (lof_reserve l) = N * W;
    i_locs : length (lof_arr_locs l) = N;
    i_arr : dyninv (lof_arrays l) pairs; i_pairs : length pairs = length vss; i_acap : dyn_capacity (lof_arrays l) = Z.of_nat N;
    i_data : lof_v_data l = Z.of_nat N;
    i_moved : dyninv (lof_moved l) ms;
    i_slot : forall i vs, vss !! i = Some vs -> exists loc pr, lof_arr_locs l !! i = Some loc /\ pairs !! i = Some pr /\ slot W N (lof_reserve l) ms i vs loc pr;
    i_free : forall i, length vss <= i < N -> lof_arr_locs l !! i = Some (-1)%Z;
    i_inj : forall i j k, lof_arr_locs l !! i = Some (Z.of_nat k) -> lof_arr_locs l !! j = Some (Z.of_nat k) -> i = j;
    i_dom : forall i k, lof_arr_locs l !! i = Some (Z.of_nat k) -> k < length ms }.
  (** [b] bounds the number of arrays that were moved. *)
  Definition ok l vss (b : nat) : Prop := exists W N pairs ms, inv l vss W N pairs ms /\ length ms <= b.

  Lemma new_ok c w : (1 <= c)%Z -> (1 <= w)%Z -> (c * w <= R_SSIZE_MAX)%Z -> exists l, r_new_dyn_list_of zero c w = Ok l /\ ok l [] 0 /\ lof_width l = w.
  Proof.
    intros Hc Hw Hm. unfold r_new_dyn_list_of. rewrite mult_ok by lia. cbn [bind]. eexists. split; [done|]. split; [|done].
    exists (Z.to_nat w), (Z.to_nat c), [], []. split; [|done]. split; cbn; rewrite ?replicate_length; try lia.
    - by apply r_new_dyn_vector_inv.
    - by apply r_new_dyn_vector_inv.
    - intros i vs H. done.
    - intros i Hi. apply lookup_replicate_2. lia.
    - intros i j k H. apply lookup_replicate in H as [H _]. lia.
    - intros i k H. apply lookup_replicate in H as [H _]. lia.
  Qed.

  (** ** Reading *)
  Lemma block_read_ok (data : list A) o n : o + n <= length data -> block_read data (Z.of_nat o) (Z.of_nat n) = Ok (take n (drop o data)).
  Proof.
    intros H. unfold block_read. assert ((Z.of_nat o <? 0)%Z = false) as -> by lia. assert ((Z.of_nat n <? 0)%Z = false) as -> by lia.
    assert ((Z.of_nat (length data) <? Z.of_nat o + Z.of_nat n)%Z = false) as -> by lia. by rewrite !Nat2Z.id.
  Qed.
  Lemma slot_room vss W N i vs : (vss : list (list A)) !! i = Some vs -> length vss <= N -> i * W + W <= N * W.
  Proof. intros H L. apply lookup_lt_Some in H. nia. Qed.
  Lemma sub_take (x y : list A) n j m : take n x = y -> j + m <= n -> take m (drop j x) = take m (drop j y).
  Proof. intros <- H. rewrite take_drop_commute. symmetry. rewrite take_drop_commute. rewrite take_take. by rewrite Nat.min_l by lia. Qed.
  Lemma slot_read l vss W N pairs ms i vs pr p sz : inv l vss W N pairs ms -> vss !! i = Some vs -> pairs !! i = Some pr -> pr = (p, sz) ->
    sz = Z.of_nat (length vs) /\ forall j n, j + n <= length vs -> ptr_read l p (Z.of_nat j) (Z.of_nat n) = Ok (take n (drop j vs)).
  Proof.
    intros I H Hp E. destruct (i_slot _ _ _ _ _ _ I i vs H) as (loc & pr' & Hl & Hp' & S). assert (pr' = pr) as -> by congruence. clear Hp'.
    pose proof (slot_room vss W N i vs H (i_le _ _ _ _ _ _ I)) as Rm. pose proof (i_res _ _ _ _ _ _ I) as Er.
    destruct S as [(-> & -> & Hw & T)|(k & a & -> & Hk & D & ->)]; injection E as <- <-; (split; [done|]); intros j n Hj; cbn [ptr_read].
    - rewrite (i_cap _ _ _ _ _ _ I), Z.eqb_refl. replace (Z.of_nat (i * W) + Z.of_nat j)%Z with (Z.of_nat (i * W + j)) by lia. rewrite block_read_ok by lia.
      f_equal. rewrite <- drop_drop. by apply (sub_take _ _ (length vs)).
    - rewrite rdZ_nat. rewrite (proj2 (rd_Ok _ _ _) (dyn_lookup _ _ _ _ (i_moved _ _ _ _ _ _ I) Hk)). cbn [bind]. rewrite Z.eqb_refl.
      pose proof (dyn_len _ _ D). rewrite block_read_ok by lia. f_equal. apply (sub_take _ _ (length vs)); [|done]. by destruct D as (_ & T & _).
  Qed.
  Lemma pair_at l vss W N pairs ms i vs : inv l vss W N pairs ms -> vss !! i = Some vs -> exists p, pairs !! i = Some (p, Z.of_nat (length vs)) /\ dyn_data (lof_arrays l) !! i = Some (p, Z.of_nat (length vs)).
  Proof.
    intros I H. assert (L := lookup_lt_Some _ _ _ H). destruct (lookup_lt_is_Some_2 pairs i ltac:(rewrite (i_pairs _ _ _ _ _ _ I); lia)) as [[p sz] Hp].
    destruct (slot_read _ _ _ _ _ _ _ _ _ p sz I H Hp eq_refl) as [-> _]. exists p. split; [done|]. by apply (dyn_lookup _ _ _ _ (i_arr _ _ _ _ _ _ I)).
  Qed.
  Lemma unwrap_ok l vss b : ok l vss b -> r_lof_unwrap l = Ok vss.
  Proof.
    intros (W & N & pairs & ms & I & Hb). unfold r_lof_unwrap. rewrite (i_count _ _ _ _ _ _ I), Nat2Z.id.
    match goal with |- for_ 0 _ ?body _ = _ => destruct (for_inv (fun i out => out = take i vss) 0 (length vss) body []) as (s & E & Hs) end; [done| |].
    - intros i out Hi ->. destruct (lookup_lt_is_Some_2 vss i ltac:(lia)) as [vs Hv]. destruct (pair_at _ _ _ _ _ _ _ _ I Hv) as (p & Hp & Hd).
      rewrite (proj2 (rd_Ok _ _ _) Hd). cbn [bind]. destruct (slot_read _ _ _ _ _ _ _ _ _ p _ I Hv Hp eq_refl) as [_ R].
      change 0%Z with (Z.of_nat 0). rewrite R by lia. cbn [bind]. eexists. split; [done|]. cbn [drop]. rewrite (take_ge vs) by lia. by rewrite (take_S_r _ _ vs).
    - rewrite E, Hs. by rewrite take_ge.
  Qed.
  Lemma data_ok l vss b i vs : ok l vss b -> vss !! i = Some vs -> r_lof_data l (Z.of_nat i) = Ok vs.
  Proof.
    intros (W & N & pairs & ms & I & Hb) H. unfold r_lof_data. rewrite (i_data _ _ _ _ _ _ I), (i_acap _ _ _ _ _ _ I), Z.eqb_refl.
    destruct (pair_at _ _ _ _ _ _ _ _ I H) as (p & Hp & Hd). rewrite rdZ_nat, (proj2 (rd_Ok _ _ _) Hd). cbn [bind].
    destruct (slot_read _ _ _ _ _ _ _ _ _ p _ I H Hp eq_refl) as [_ R]. change 0%Z with (Z.of_nat 0). rewrite R by lia. cbn [drop]. by rewrite take_ge.
  Qed.
  Lemma get_ok l vss b i j vs v : ok l vss b -> vss !! i = Some vs -> vs !! j = Some v -> r_lof_arr_get l (Z.of_nat i) (Z.of_nat j) = Ok [v].
  Proof.
    intros (W & N & pairs & ms & I & Hb) H Hj. assert (Lj := lookup_lt_Some _ _ _ Hj). unfold r_lof_arr_get.
    destruct (pair_at _ _ _ _ _ _ _ _ I H) as (p & Hp & Hd). rewrite rdZ_nat, (proj2 (rd_Ok _ _ _) Hd). cbn [bind].
    destruct (slot_read _ _ _ _ _ _ _ _ _ p _ I H Hp eq_refl) as [_ R]. change 1%Z with (Z.of_nat 1). rewrite R by lia. rewrite (drop_S _ v) by done. done.
  Qed.

  (** ** Resizing *)
  Lemma resized_len {B} (z : B) x (n : nat) : length x <= n -> length (resized z x (Z.of_nat n)) = n.
  Proof. intros H. unfold resized. rewrite Nat2Z.id, app_length, take_length, replicate_length. lia. Qed.
  Lemma resized_take {B} (z : B) x (n : nat) : length x <= n -> resized z x (Z.of_nat n) = x ++ replicate (n - length x) z.
  Proof. intros H. unfold resized. by rewrite Nat2Z.id, take_ge. Qed.
  Lemma fill_loop (locs : list Z) lo cnt : lo + cnt <= length locs -> exists locs', for_ lo cnt (fun i locs => wr locs i (-1)%Z) locs = Ok locs' /\
    length locs' = length locs /\ (forall i, i < lo -> locs' !! i = locs !! i) /\ (forall i, lo <= i < lo + cnt -> locs' !! i = Some (-1)%Z).
  Proof.
    intros H. destruct (for_inv (fun k s => length s = length locs /\ (forall i, i < lo -> s !! i = locs !! i) /\ (forall i, lo <= i < k -> s !! i = Some (-1)%Z)) lo cnt (fun i locs => wr locs i (-1)%Z) locs) as (s & E & H1 & H2 & H3).
    - split; [done|]. split; [done|]. intros i Hi. lia.
    - intros i s0 Hi (H1 & H2 & H3). rewrite wr_Ok by lia. eexists. split; [done|]. rewrite insert_length. split; [done|]. split.
      + intros j Hj. rewrite list_lookup_insert_ne by lia. by apply H2.
      + intros j Hj. destruct (decide (j = i)) as [->|Hne]; [apply list_lookup_insert; lia|]. rewrite list_lookup_insert_ne by lia. apply H3. lia.
    - exists s. done.
  Qed.
  Definition moved_ptr (W N2 : nat) (locs : list Z) (j : nat) (pr : ptr * Z) : ptr * Z :=
    match locs !! j with Some loc => if (loc <? 0)%Z then (PReserve (Z.of_nat N2) (Z.of_nat (j * W)), pr.2) else pr | None => pr end.
  Lemma ptr_loop W N2 (locs : list Z) n (data : list (ptr * Z)) : n <= length locs -> n <= length data ->
    exists data', for_ 0 n (fun i data =>
      let! loc := rd locs i in
      if (loc <? 0)%Z then
        let! (_, size) := rd data i in
        wr data i (PReserve (Z.of_nat N2) (Z.of_nat i * Z.of_nat W), size)
      else Ok data) data = Ok data' /\ length data' = length data /\ forall j, j < n -> data' !! j = moved_ptr W N2 locs j <$> data !! j.
  Proof.
    intros Hl Hd.
    match goal with |- exists data', for_ 0 n ?body data = _ /\ _ => destruct (for_inv (fun i s => length s = length data /\ (forall j, j < i -> s !! j = moved_ptr W N2 locs j <$> data !! j) /\ (forall j, i <= j -> s !! j = data !! j)) 0 n body data) as (s & E & H1 & H2 & H3) end.
    - split; [done|]. split; [lia|done].
    - intros i s0 Hi (H1 & H2 & H3). destruct (lookup_lt_is_Some_2 locs i ltac:(lia)) as [loc Hloc]. rewrite (proj2 (rd_Ok _ _ _) Hloc). cbn [bind].
      destruct (lookup_lt_is_Some_2 data i ltac:(lia)) as [[pp sz] Hpr]. destruct (Z.ltb_spec loc 0) as [Hneg|Hpos].
      + assert (Hs : s0 !! i = Some (pp, sz)) by (rewrite H3 by lia; done). rewrite (proj2 (rd_Ok _ _ _) Hs). cbn [bind]. rewrite wr_Ok by lia. eexists. split; [done|].
        rewrite insert_length. split; [done|]. split.
        * intros j Hj. destruct (decide (j = i)) as [->|Hne].
          -- rewrite list_lookup_insert by lia. rewrite Hpr. cbn. unfold moved_ptr. rewrite Hloc. assert ((loc <? 0)%Z = true) as -> by lia. cbn. do 3 f_equal. lia.
          -- rewrite list_lookup_insert_ne by lia. apply H2. lia.
        * intros j Hj. rewrite list_lookup_insert_ne by lia. apply H3. lia.
      + eexists. split; [done|]. split; [done|]. split.
        * intros j Hj. destruct (decide (j = i)) as [->|Hne]; [|apply H2; lia]. rewrite H3 by lia. rewrite Hpr. cbn. unfold moved_ptr. rewrite Hloc. by assert ((loc <? 0)%Z = false) as -> by lia.
        * intros j Hj. apply H3. lia.
    - exists s. split; [done|]. split; [done|]. intros j Hj. apply H2. lia.
  Qed.
  Lemma take_drop_app (x y : list A) o n vs : take n (drop o x) = vs -> o + n <= length x -> take n (drop o (x ++ y)) = vs.
  Proof. intros <- H. rewrite drop_app_le by lia. by rewrite take_app_le by (rewrite drop_length; lia). Qed.
  Lemma resize_ok l vss W N pairs ms N2 : inv l vss W N pairs ms -> N <= N2 -> (Z.of_nat N2 * Z.of_nat W <= R_SSIZE_MAX)%Z -> (8 * Z.of_nat N2 <= R_SSIZE_MAX)%Z ->
    exists l' pairs', r_lof_resize zero l (Z.of_nat N2) = Ok l' /\ inv l' vss W N2 pairs' ms.
  Proof.
    intros I HN M1 M2. pose proof I as [Iw Hw Icap Hn Icount Ile Ires Ilocs Iarr Ipairs Iacap Idata Imoved Islot Ifree Iinj Idom].
    unfold r_lof_resize. rewrite Iw, mult_ok by lia. cbn [bind]. rewrite mult_ok by lia. cbn [bind]. rewrite Icount.
    replace (Z.to_nat (Z.of_nat N2 - Z.of_nat (length vss))) with (N2 - length vss) by lia. rewrite Nat2Z.id.
    destruct (fill_loop (resized 0%Z (lof_arr_locs l) (Z.of_nat N2)) (length vss) (N2 - length vss)) as (locs & -> & Ll & Llo & Lhi).
    { rewrite resized_len by lia. lia. }
    cbn [bind]. rewrite resized_len in Ll by lia.
    assert (Lold : forall i, i < N -> locs !! i = lof_arr_locs l !! i).
    { intros i Hi. destruct (decide (i < length vss)).
      - rewrite Llo by done. rewrite resized_take by lia. by rewrite lookup_app_l by lia.
      - rewrite Lhi by lia. symmetry. apply Ifree. lia. }
    pose proof (dyn_resize_inv null_pair _ _ (Z.of_nat N2) Iarr ltac:(lia)) as D2. pose proof (dyn_len _ _ D2) as DL.
    destruct (ptr_loop W N2 locs (length vss) (dyn_data (r_dyn_resize null_pair (lof_arrays l) (Z.of_nat N2)))) as (data & -> & Ld & Hd); [lia|lia|].
    cbn [bind]. eexists _, (take (length vss) data). split; [done|]. destruct D2 as (C2 & T2 & Cp2 & P2).
    split; cbn [lof_width lof_capacity lof_count lof_reserve lof_arr_locs lof_arrays lof_v_data lof_moved dyn_capacity]; try done; try lia.
    - rewrite <- Nat2Z.inj_mul. rewrite resized_len; [done|]. rewrite Ires. nia.
    - unfold dyninv. cbn [dyn_count dyn_data dyn_capacity]. rewrite take_length, Ld. split_and!; [lia| |lia|lia]. by rewrite Nat.min_l by lia.
    - rewrite take_length. lia.
    - intros i vs Hv. assert (Hi := lookup_lt_Some _ _ _ Hv). destruct (Islot i vs Hv) as (loc & pr & Hloc & Hpr & S). exists loc, (moved_ptr W N2 locs i pr).
      rewrite Lold by lia. split; [done|]. split.
      + rewrite lookup_take by done. rewrite Hd by done. rewrite (dyn_lookup (r_dyn_resize null_pair (lof_arrays l) (Z.of_nat N2)) pairs i pr); [done| |done]. by split_and!.
      + unfold moved_ptr. rewrite Lold by lia. rewrite Hloc. destruct S as [(-> & -> & Hlen & T)|(k & a & -> & Hk & D & ->)].
        * left. split; [done|]. split; [done|]. split; [done|]. rewrite <- Nat2Z.inj_mul. rewrite resized_take by (rewrite Ires; nia). apply take_drop_app; [done|]. rewrite Ires. nia.
        * right. exists k, a. assert ((Z.of_nat k <? 0)%Z = false) as -> by lia. done.
    - intros i Hi. apply Lhi. lia.
    - intros i j k Hi Hj. assert (Hi2 := lookup_lt_Some _ _ _ Hi). assert (Hj2 := lookup_lt_Some _ _ _ Hj).
      assert (Hi3 : i < N). { destruct (decide (i < N)); [done|]. rewrite Lhi in Hi by lia. injection Hi. lia. }
      assert (Hj3 : j < N). { destruct (decide (j < N)); [done|]. rewrite Lhi in Hj by lia. injection Hj. lia. }
      rewrite Lold in Hi, Hj by lia. by eapply Iinj.
    - intros i k Hi. assert (Hi2 := lookup_lt_Some _ _ _ Hi).
      assert (Hi3 : i < N). { destruct (decide (i < N)); [done|]. rewrite Lhi in Hi by lia. injection Hi. lia. }
      rewrite Lold in Hi by lia. by eapply Idom.
  Qed.

  (** ** Pushing an array *)
  Lemma lookup_snoc_cases {B} (x : list B) b i v : (x ++ [b]) !! i = Some v -> i < length x /\ x !! i = Some v \/ i = length x /\ v = b.
  Proof.
    intros H. destruct (decide (i < length x)); [left; by rewrite lookup_app_l in H by done|]. right. assert (L := lookup_lt_Some _ _ _ H). rewrite app_length in L. cbn in L.
    assert (i = length x) as -> by lia. split; [done|]. rewrite list_lookup_middle in H by done. by injection H.
  Qed.
  Lemma push_arr_ok l vss b W : ok l vss b -> lof_width l = W -> (16 * (Z.of_nat (length vss) + 1) * W <= R_SSIZE_MAX)%Z ->
    exists l', r_lof_push_back zero l = Ok l' /\ ok l' (vss ++ [[]]) b /\ lof_width l' = W.
  Proof.
    intros (W' & N & pairs & ms & I & Hb) HW HM. assert (W = Z.of_nat W') as -> by (rewrite <- HW; apply (i_width _ _ _ _ _ _ I)).
    assert (HP : exists l' N' pairs', (if (lof_capacity l <? lof_count l + 1)%Z then let! new_size := r_ssize_mult (lof_capacity l) 2 in r_lof_resize zero l new_size else Ok l) = Ok l' /\ inv l' vss W' N' pairs' ms /\ length vss < N').
    { pose proof (i_cap _ _ _ _ _ _ I) as Ec. pose proof (i_count _ _ _ _ _ _ I) as Eo. pose proof (i_le _ _ _ _ _ _ I). pose proof (i_w _ _ _ _ _ _ I). pose proof (i_n _ _ _ _ _ _ I).
      destruct (Z.ltb_spec (lof_capacity l) (lof_count l + 1)) as [Hf|Hf].
      - assert (N = length vss) by lia. rewrite mult_ok by nia. cbn [bind]. replace (lof_capacity l * 2)%Z with (Z.of_nat (2 * N)) by lia.
        destruct (resize_ok l vss W' N pairs ms (2 * N) I) as (l' & pairs' & E & I'); [lia|nia|nia|]. exists l', (2 * N), pairs'. split; [done|]. split; [done|lia].
      - exists l, N, pairs. split; [done|]. split; [done|lia]. }
    destruct HP as (l' & N' & pairs' & E & I' & Hlt). unfold r_lof_push_back. rewrite E. cbn [bind].
    pose proof I' as [Iw Hw Icap Hn Icount Ile Ires Ilocs Iarr Ipairs Iacap Idata Imoved Islot Ifree Iinj Idom].
    match goal with |- context [r_dyn_push_back _ _ ?info] => destruct (dyn_push_room null_pair (lof_arrays l') pairs' info Iarr ltac:(lia)) as (arrays & -> & Da & Ca) end.
    cbn [bind]. eexists. split; [done|]. split; [|cbn; lia]. pose proof (i_count _ _ _ _ _ _ I) as Eo. pose proof (i_count _ _ _ _ _ _ I') as Eo2. eexists W', N', _, ms. split; [|exact Hb].
    split; cbn [lof_width lof_capacity lof_count lof_reserve lof_arr_locs lof_arrays lof_v_data lof_moved]; [exact Iw|exact Hw|first [reflexivity|exact Icap]|exact Hn|rewrite app_length; cbn [length]; lia|rewrite app_length; cbn [length]; lia|exact Ires|exact Ilocs|exact Da|rewrite !app_length; cbn [length]; lia|lia|exact Idata|exact Imoved| | |exact Iinj|exact Idom].
    - intros i vs Hv. apply lookup_snoc_cases in Hv as [[Hi Hv]|[-> ->]].
      + destruct (Islot i vs Hv) as (loc & pr & Hloc & Hpr & S). exists loc, pr. split; [done|]. split; [|done]. rewrite lookup_app_l; [done|]. by eapply lookup_lt_Some.
      + exists (-1)%Z. eexists. split; [apply Ifree; lia|]. split; [by rewrite <- Ipairs, list_lookup_middle|]. left. split; [done|]. split; [|split; [cbn; lia|done]].
        rewrite Icap, Iw. pose proof (i_count _ _ _ _ _ _ I). cbn [length]. do 2 f_equal. lia.
    - intros i Hi. rewrite app_length in Hi. cbn [length] in Hi. apply Ifree. lia.
  Qed.

  (** ** Pushing an element *)
  Lemma take_drop_insert (r : list A) o n k x : k < o \/ o + n <= k -> take n (drop o (<[k := x]> r)) = take n (drop o r).
  Proof.
    intros H. apply list_eq. intros j. destruct (decide (j < n)).
    - rewrite !lookup_take, !lookup_drop by done. apply list_lookup_insert_ne. lia.
    - rewrite !lookup_ge_None_2; [done|rewrite take_length; lia|rewrite take_length; lia].
  Qed.
  Lemma take_drop_snoc (r : list A) o vs x : take (length vs) (drop o r) = vs -> o + length vs < length r -> take (length (vs ++ [x])) (drop o (<[o + length vs := x]> r)) = vs ++ [x].
  Proof.
    intros T L. rewrite drop_insert_le by lia. replace (o + length vs - o) with (length vs) by lia. apply take_snoc_insert; [rewrite drop_length; lia|done].
  Qed.
  Lemma insert_cases {B} (x : list B) i b j v : <[i := b]> x !! j = Some v -> j = i /\ v = b /\ i < length x \/ j <> i /\ x !! j = Some v.
  Proof.
    intros H. destruct (decide (j = i)) as [->|Hne]; [|rewrite list_lookup_insert_ne in H by done; by right].
    assert (L := lookup_lt_Some _ _ _ H). rewrite insert_length in L. rewrite list_lookup_insert in H by done. injection H as <-. by left.
  Qed.
  Lemma slots_apart i j W n m : i <> j -> n < W -> m <= W -> i * W + n < j * W \/ j * W + m <= i * W + n.
  Proof. intros H Hn Hm. destruct (decide (i < j)); [left|right]; nia. Qed.
  Definition same_frame (l l' : @lof A) : Prop := lof_count l' = lof_count l /\ lof_width l' = lof_width l.
  Lemma push_reserve l vss W N pairs ms i vs x : inv l vss W N pairs ms -> vss !! i = Some vs -> lof_arr_locs l !! i = Some (-1)%Z -> length vs < W ->
    exists l' pairs', reserve_push_back zero l (Z.of_nat i) x = Ok (l', true) /\ inv l' (<[i := vs ++ [default zero x]]> vss) W N pairs' ms.
  Proof.
    intros I Hv Hl Hw. pose proof I as [Iw HW Icap Hn Icount Ile Ires Ilocs Iarr Ipairs Iacap Idata Imoved Islot Ifree Iinj Idom].
    assert (Hi := lookup_lt_Some _ _ _ Hv). pose proof (slot_room vss W N i vs Hv Ile) as Rm.
    destruct (Islot i vs Hv) as (loc & pr & Hloc & Hpr & S). assert (loc = (-1)%Z) as -> by congruence.
    destruct S as [(_ & -> & _ & T)|(k & a & E & _)]; [|lia].
    unfold reserve_push_back. rewrite rdZ_nat, (proj2 (rd_Ok _ _ _) Hl). cbn [bind]. assert ((0 <=? -1)%Z = false) as -> by done.
    rewrite rdZ_nat, (proj2 (rd_Ok _ _ _) (dyn_lookup _ _ _ _ Iarr Hpr)). cbn [bind]. rewrite Iw. assert ((Z.of_nat W <=? Z.of_nat (length vs))%Z = false) as -> by lia.
    destruct (dyn_poke_inv _ _ i (PReserve (Z.of_nat N) (Z.of_nat (i * W)), (Z.of_nat (length vs) + 1)%Z) Iarr ltac:(lia)) as (arrays & -> & Da & Ca & _). cbn [bind].
    replace (Z.of_nat i * Z.of_nat W + (Z.of_nat (length vs) + 1) - 1)%Z with (Z.of_nat (i * W + length vs)) by lia. rewrite wrZ_nat, wr_Ok by lia. cbn [bind].
    eexists _, _. split; [done|].
    split; cbn [lof_width lof_capacity lof_count lof_reserve lof_arr_locs lof_arrays lof_v_data lof_moved]; [first [reflexivity|exact Iw]|exact HW|first [reflexivity|exact Icap]|exact Hn|rewrite insert_length; lia|rewrite insert_length; lia|rewrite insert_length; exact Ires|exact Ilocs|exact Da|rewrite !insert_length; lia|lia|exact Idata|exact Imoved| | |exact Iinj|exact Idom].
    - intros j vj Hj. apply insert_cases in Hj as [(-> & -> & _)|[Hne Hj]].
      + exists (-1)%Z. eexists. split; [done|]. split; [apply list_lookup_insert; lia|]. left. split; [done|]. split; [do 2 f_equal; rewrite app_length; cbn; lia|].
        split; [rewrite app_length; cbn; lia|]. apply take_drop_snoc; [done|lia].
      + destruct (Islot j vj Hj) as (loc & pr & Hlj & Hpj & S). exists loc, pr. split; [done|]. split; [by rewrite list_lookup_insert_ne|].
        destruct S as [(E1 & E2 & E3 & E4)|S]; [left|by right]. split; [done|]. split; [done|]. split; [done|]. rewrite take_drop_insert; [done|].
        destruct (slots_apart i j W (length vs) (length vj)); try done; lia.
    - intros j Hj. rewrite insert_length in Hj. by apply Ifree.
  Qed.

  Lemma move_ok l vss W N pairs ms i vs : inv l vss W N pairs ms -> vss !! i = Some vs -> lof_arr_locs l !! i = Some (-1)%Z -> W <= length vs -> (2 * Z.of_nat (length ms) <= R_SSIZE_MAX)%Z ->
    exists l' pairs' new, reserve_move zero l (Z.of_nat i) = Ok l' /\ inv l' vss W N pairs' (ms ++ [new]) /\ lof_arr_locs l' !! i = Some (Z.of_nat (length ms)).
  Proof.
    intros I Hv Hl Hw HM. pose proof I as [Iw HW Icap Hn Icount Ile Ires Ilocs Iarr Ipairs Iacap Idata Imoved Islot Ifree Iinj Idom].
    assert (Hi := lookup_lt_Some _ _ _ Hv). pose proof (slot_room vss W N i vs Hv Ile) as Rm.
    destruct (Islot i vs Hv) as (loc & pr & Hloc & Hpr & S). assert (loc = (-1)%Z) as -> by congruence.
    destruct S as [(_ & Epr & Hlen & T)|(k & a & E & _)]; [|lia].
    destruct (slot_read _ _ _ _ _ _ _ _ _ _ _ I Hv Hpr Epr) as [_ R]. subst pr. unfold reserve_move.
    rewrite rdZ_nat, (proj2 (rd_Ok _ _ _) (dyn_lookup _ _ _ _ Iarr Hpr)). cbn [bind]. rewrite Iw. change 0%Z with (Z.of_nat 0). rewrite R by lia. change (Z.of_nat 0) with 0%Z. cbn [bind drop].
    rewrite (take_ge vs) by lia. cbn [r_new_dyn_vector dyn_data dyn_capacity]. rewrite replicate_length, Nat2Z.id.
    assert ((Z.of_nat W <? Z.of_nat W)%Z = false) as -> by lia. cbn [bind]. rewrite drop_ge by (rewrite replicate_length; lia). rewrite app_nil_r.
    set (new := Dyn vs (Z.of_nat W) (Z.of_nat W)).
    destruct (r_dyn_push_back_inv null_arr (lof_moved l) ms new Imoved HM) as (moved & -> & Dm). cbn [bind].
    assert (Em : (dyn_count moved - 1)%Z = Z.of_nat (length ms)). { destruct Dm as [-> _]. rewrite app_length. cbn. lia. }
    rewrite Em.
    match goal with |- context [dyn_poke _ _ ?v] => destruct (dyn_poke_inv _ _ i v Iarr ltac:(lia)) as (arrays & -> & Da & Ca & _) end. cbn [bind].
    rewrite wrZ_nat, wr_Ok by lia. cbn [bind]. eexists _, _, new. split; [done|]. split; [|cbn; apply list_lookup_insert; lia].
    split; cbn [set_moved lof_width lof_capacity lof_count lof_reserve lof_arr_locs lof_arrays lof_v_data lof_moved]; [first [reflexivity|exact Iw]|exact HW|first [reflexivity|exact Icap]|exact Hn|exact Icount|exact Ile|exact Ires|rewrite insert_length; exact Ilocs|exact Da|rewrite insert_length; lia|lia|exact Idata|exact Dm| | | |].
    - intros j vj Hj. destruct (decide (j = i)) as [->|Hne].
      + assert (vj = vs) as -> by congruence. eexists _, _. split; [apply list_lookup_insert; lia|]. split; [apply list_lookup_insert; lia|]. right. exists (length ms), new. split; [done|].
        split; [by apply list_lookup_middle|]. split; [|cbn; do 2 f_equal; lia]. unfold dyninv, new. cbn. rewrite take_ge by lia. split_and!; try done; lia.
      + destruct (Islot j vj Hj) as (loc & pr & Hlj & Hpj & S). exists loc, pr. rewrite !list_lookup_insert_ne by done. split; [done|]. split; [done|].
        destruct S as [S|(k & a & E1 & E2 & E3)]; [by left|right]. exists k, a. split; [done|]. split; [|done]. rewrite lookup_app_l; [done|]. by eapply lookup_lt_Some.
    - intros j Hj. rewrite list_lookup_insert_ne by lia. by apply Ifree.
    - intros j1 j2 k H1 H2. apply insert_cases in H1 as [(-> & E1 & _)|[N1 H1]]; apply insert_cases in H2 as [(-> & E2 & _)|[N2 H2]]; [done| | |by eapply Iinj].
      + apply Idom in H2. lia.
      + apply Idom in H1. lia.
    - intros j k H1. rewrite app_length. cbn. apply insert_cases in H1 as [(-> & E1 & _)|[N1 H1]]; [lia|]. apply Idom in H1. lia.
  Qed.

  (** Pushing to an array that was moved *)
  Definition push_moved l (i : Z) (x : A) : res (@lof A) :=
    let! arr_i := rdZ (lof_arr_locs l) i in
    if (dyn_count (lof_moved l) <=? arr_i)%Z then Err "Location does not exist in the extra array"
    else
      let! inner := rdZ (dyn_data (lof_moved l)) arr_i in
      let! inner := r_dyn_push_back zero inner x in
      let! moved := dyn_poke (lof_moved l) arr_i inner in
      let! arrays := dyn_poke (lof_arrays l) i (PMoved arr_i (dyn_capacity inner), dyn_count inner) in
      Ok (set_moved l moved (lof_arr_locs l) arrays).
  Lemma push_moved_ok l vss W N pairs ms i vs x k : inv l vss W N pairs ms -> vss !! i = Some vs -> lof_arr_locs l !! i = Some (Z.of_nat k) -> (2 * Z.of_nat (length vs) <= R_SSIZE_MAX)%Z ->
    exists l' pairs' ms', push_moved l (Z.of_nat i) x = Ok l' /\ inv l' (<[i := vs ++ [x]]> vss) W N pairs' ms' /\ length ms' = length ms.
  Proof.
    intros I Hv Hl HM. pose proof I as [Iw HW Icap Hn Icount Ile Ires Ilocs Iarr Ipairs Iacap Idata Imoved Islot Ifree Iinj Idom].
    assert (Hi := lookup_lt_Some _ _ _ Hv).
    destruct (Islot i vs Hv) as (loc & pr & Hloc & Hpr & S). assert (loc = Z.of_nat k) as -> by congruence.
    destruct S as [(E & _)|(k' & a & E & Hk & D & Epr)]; [lia|]. apply Nat2Z.inj in E. subst k'. assert (Hkl := lookup_lt_Some _ _ _ Hk).
    unfold push_moved. rewrite rdZ_nat, (proj2 (rd_Ok _ _ _) Hl). cbn [bind].
    assert ((dyn_count (lof_moved l) <=? Z.of_nat k)%Z = false) as -> by (destruct Imoved as [-> _]; lia).
    rewrite rdZ_nat, (proj2 (rd_Ok _ _ _) (dyn_lookup _ _ _ _ Imoved Hk)). cbn [bind].
    destruct (r_dyn_push_back_inv zero a vs x D HM) as (a' & -> & D'). cbn [bind].
    destruct (dyn_poke_inv _ _ k a' Imoved Hkl) as (moved & -> & Dm & _). cbn [bind].
    match goal with |- context [dyn_poke _ _ ?v] => destruct (dyn_poke_inv _ _ i v Iarr ltac:(lia)) as (arrays & -> & Da & Ca & _) end. cbn [bind].
    eexists _, _, _. split; [done|]. split; [|by rewrite insert_length].
    split; cbn [set_moved lof_width lof_capacity lof_count lof_reserve lof_arr_locs lof_arrays lof_v_data lof_moved]; [first [reflexivity|exact Iw]|exact HW|first [reflexivity|exact Icap]|exact Hn|rewrite insert_length; exact Icount|rewrite insert_length; exact Ile|exact Ires|exact Ilocs|exact Da|rewrite !insert_length; lia|lia|exact Idata|exact Dm| | |exact Iinj|intros j k0 H0; rewrite insert_length; by eapply Idom].
    - intros j vj Hj. apply insert_cases in Hj as [(-> & -> & _)|[Hne Hj]].
      + eexists _, _. split; [done|]. split; [apply list_lookup_insert; lia|]. right. exists k, a'. split; [done|]. split; [by apply list_lookup_insert|]. split; [done|].
        destruct D' as [-> _]. done.
      + destruct (Islot j vj Hj) as (loc & pr' & Hlj & Hpj & S). exists loc, pr'. split; [done|]. split; [by rewrite list_lookup_insert_ne|].
        destruct S as [S|(k2 & a2 & E1 & E2 & E3)]; [by left|right]. exists k2, a2. split; [done|]. split; [|done]. rewrite list_lookup_insert_ne; [done|].
        intros <-. subst loc. apply Hne. by eapply Iinj.
    - intros j Hj. rewrite insert_length in Hj. by apply Ifree.
  Qed.

  Lemma push_elt_ok l vss b W i vs x : ok l vss b -> lof_width l = W -> vss !! i = Some vs -> (2 * Z.of_nat b <= R_SSIZE_MAX)%Z -> (2 * Z.of_nat (length vs) <= R_SSIZE_MAX)%Z ->
    exists l', r_lof_arr_push_back zero l (Z.of_nat i) x = Ok l' /\ ok l' (<[i := vs ++ [default zero x]]> vss) (S b) /\ lof_width l' = W.
  Proof.
    intros (W' & N & pairs & ms & I & Hb) HW Hv HMb HM. assert (Hi := lookup_lt_Some _ _ _ Hv). unfold r_lof_arr_push_back.
    rewrite (i_count _ _ _ _ _ _ I). assert ((Z.of_nat (length vss) <=? Z.of_nat i)%Z = false) as -> by lia.
    destruct (i_slot _ _ _ _ _ _ I i vs Hv) as (loc & pr & Hloc & Hpr & S).
    assert (G : forall l1 pairs1 ms1 k, reserve_push_back zero l (Z.of_nat i) x = Ok (l1, false) -> inv l1 vss W' N pairs1 ms1 -> lof_arr_locs l1 !! i = Some (Z.of_nat k) -> length ms1 <= Datatypes.S b ->
      exists l', (let! (l, done) := reserve_push_back zero l (Z.of_nat i) x in if done : bool then Ok l else push_moved l (Z.of_nat i) (default zero x)) = Ok l' /\ ok l' (<[i := vs ++ [default zero x]]> vss) (Datatypes.S b) /\ lof_width l' = W).
    { intros l1 pairs1 ms1 k E I1 H1 Hb1. rewrite E. cbn [bind]. destruct (push_moved_ok l1 vss W' N pairs1 ms1 i vs (default zero x) k I1 Hv H1 HM) as (l2 & pairs2 & ms2 & E2 & I2 & L2).
      exists l2. split; [done|]. split; [exists W', N, pairs2, ms2; split; [done|lia]|]. rewrite <- HW. rewrite (i_width _ _ _ _ _ _ I2), (i_width _ _ _ _ _ _ I). done. }
    destruct S as [(-> & Epr & Hlen & T)|(k & a & -> & Hk & D & Epr)].
    - destruct (decide (length vs < W')) as [Hlt|Hge].
      + destruct (push_reserve l vss W' N pairs ms i vs x I Hv Hloc Hlt) as (l1 & pairs1 & -> & I1). cbn [bind]. exists l1. split; [done|].
        split; [exists W', N, pairs1, ms; split; [done|lia]|]. rewrite <- HW. rewrite (i_width _ _ _ _ _ _ I1), (i_width _ _ _ _ _ _ I). done.
      + destruct (move_ok l vss W' N pairs ms i vs I Hv Hloc ltac:(lia) ltac:(lia)) as (l1 & pairs1 & new & E1 & I1 & H1).
        eapply (G l1 pairs1 _ _); [|exact I1|exact H1|rewrite app_length; cbn; lia].
        unfold reserve_push_back. rewrite rdZ_nat, (proj2 (rd_Ok _ _ _) Hloc). cbn [bind]. assert ((0 <=? -1)%Z = false) as -> by done.
        rewrite rdZ_nat, (proj2 (rd_Ok _ _ _) (dyn_lookup _ _ _ _ (i_arr _ _ _ _ _ _ I) Hpr)). rewrite Epr. cbn [bind]. rewrite (i_width _ _ _ _ _ _ I).
        assert ((Z.of_nat W' <=? Z.of_nat (length vs))%Z = true) as -> by lia. by rewrite E1.
    - eapply (G l pairs ms k); [|exact I|exact Hloc|lia]. unfold reserve_push_back. rewrite rdZ_nat, (proj2 (rd_Ok _ _ _) Hloc). cbn [bind].
      by assert ((0 <=? Z.of_nat k)%Z = true) as -> by lia.
  Qed.

  (** ** Histories *)
  Definition elts (vss : list (list A)) : nat := length (concat vss).
  Lemma elts_insert vss i vs x : vss !! i = Some vs -> elts (<[i := vs ++ [x]]> vss) = S (elts vss) /\ length vs <= elts vss.
  Proof.
    intros H. assert (L := lookup_lt_Some _ _ _ H). unfold elts. rewrite insert_take_drop by done. rewrite <- (take_drop_middle vss i vs H) at 3 4. rewrite !concat_app. cbn [concat]. rewrite !app_length. cbn. lia.
  Qed.
  Lemma run_ok os : forall l vss b W, ok l vss b -> lof_width l = W -> b <= elts vss -> (1 <= W)%Z -> (16 * (Z.of_nat (elts vss) + Z.of_nat (length vss) + Z.of_nat (length os)) * W <= R_SSIZE_MAX)%Z ->
    match spec_run zero vss os with
    | Some vss' => exists l' b', lof_run zero l os = Ok l' /\ ok l' vss' b'
    | None => lof_run zero l os = Err "Location does not exist."
    end.
  Proof.
    induction os as [|o os IH]; intros l vss b W Hok HW Hb Hw HM; [by exists l, b|]. cbn [spec_run lof_run length] in *. destruct o as [|i x]; cbn [spec_step lof_step].
    - destruct (push_arr_ok l vss b W Hok HW ltac:(nia)) as (l1 & -> & Ok1 & W1). cbn [bind]. apply (IH l1 _ b W); [done|done| |done|].
      + unfold elts in *. rewrite concat_app, app_length. lia.
      + assert (elts (vss ++ [[]]) = elts vss) as -> by (unfold elts; rewrite concat_app; cbn; by rewrite app_nil_r). rewrite app_length. cbn. nia.
    - destruct (vss !! i) as [vs|] eqn:Hv.
      + destruct (elts_insert vss i vs (default zero x) Hv) as [E1 E2].
        destruct (push_elt_ok l vss b W i vs x Hok HW Hv ltac:(nia) ltac:(nia)) as (l1 & -> & Ok1 & W1). cbn [bind]. apply (IH l1 _ (S b) W); [done|done| |done|].
        * change (match x with Some x => x | None => zero end) with (default zero x). lia.
        * change (match x with Some x => x | None => zero end) with (default zero x). rewrite E1, insert_length. nia.
      + unfold r_lof_arr_push_back. destruct Hok as (W' & N & pairs & ms & I & _). rewrite (i_count _ _ _ _ _ _ I). apply lookup_ge_None in Hv. by assert ((Z.of_nat (length vss) <=? Z.of_nat i)%Z = true) as -> by lia.
  Qed.

  (** Any history of pushes: the list-of holds what was pushed; a push to an array
      that is not there is an error. *)
  Theorem C47_list_of c w os : (1 <= c)%Z -> (1 <= w)%Z -> (c * w <= R_SSIZE_MAX)%Z -> (16 * Z.of_nat (length os) * w <= R_SSIZE_MAX)%Z ->
    exists l0, r_new_dyn_list_of zero c w = Ok l0 /\
    match spec_run zero [] os with
    | Some vss => exists l, lof_run zero l0 os = Ok l /\ r_lof_unwrap l = Ok vss /\ lof_count l = Z.of_nat (length vss) /\
        (forall i vs, vss !! i = Some vs -> r_lof_data l (Z.of_nat i) = Ok vs) /\
        (forall i j vs v, vss !! i = Some vs -> vs !! j = Some v -> r_lof_arr_get l (Z.of_nat i) (Z.of_nat j) = Ok [v])
    | None => lof_run zero l0 os = Err "Location does not exist."
    end.
  Proof.
    intros Hc Hw HM1 HM2. destruct (new_ok c w Hc Hw HM1) as (l0 & E0 & Ok0 & W0). exists l0. split; [done|].
    pose proof (run_ok os l0 [] 0 w Ok0 W0 ltac:(lia) Hw ltac:(unfold elts; cbn; lia)) as R. destruct (spec_run zero [] os) as [vss|]; [|done].
    destruct R as (l & b & E & Hok). exists l. split; [done|]. split; [by eapply unwrap_ok|]. split; [by destruct Hok as (? & ? & ? & ? & I & _); apply (i_count _ _ _ _ _ _ I)|].
    split; [intros i vs Hv; by eapply data_ok|]. intros i j vs v Hv Hj. by eapply get_ok.
  Qed.
  Theorem C47_front c w os l0 l i vs v : (1 <= c)%Z -> (1 <= w)%Z -> (c * w <= R_SSIZE_MAX)%Z -> (16 * Z.of_nat (length os) * w <= R_SSIZE_MAX)%Z ->
    r_new_dyn_list_of zero c w = Ok l0 -> lof_run zero l0 os = Ok l -> r_lof_unwrap l = Ok vs -> vs !! i ≫= head = Some v -> r_lof_arr_front l (Z.of_nat i) = Ok [v].
  Proof.
    intros Hc Hw HM1 HM2 E0 E U H. destruct (C47_list_of c w os Hc Hw HM1 HM2) as (l0' & E0' & R). rewrite E0 in E0'. injection E0' as <-.
    destruct (spec_run zero [] os) as [vss|]; [|congruence]. destruct R as (l' & E' & U' & _ & _ & G). rewrite E in E'. injection E' as <-. rewrite U in U'. injection U' as <-.
    destruct (vs !! i) as [x|] eqn:Hx; [|done]. cbn in H. destruct x as [|v' x]; [done|]. injection H as ->. unfold r_lof_arr_front. change 0%Z with (Z.of_nat 0). by eapply G.
  Qed.
End proofs.

(** [r_lof_arr_ptr_back()] is not the last element: its index is the number of
    arrays minus one. *)
Theorem C47_back_refuted : exists os, (let! l0 := r_new_dyn_list_of 0%Z 2 2 in let! l := lof_run 0%Z l0 os in let! out := r_lof_unwrap l in Ok (out, r_lof_arr_back l 0)) =
  Ok ([[5; 6]], Ok [5])%Z.
Proof. exists [PushArr; PushElt 0 (Some 5%Z); PushElt 0 (Some 6%Z)]. vm_compute. reflexivity. Qed.
(** It may even be outside of the array's memory. *)
Theorem C47_back_bounds_refuted : exists os, (let! l0 := r_new_dyn_list_of 0%Z 2 1 in let! l := lof_run 0%Z l0 os in let! out := r_lof_unwrap l in Ok (out, r_lof_arr_back l 1)) =
  Ok ([[5]; [6]]%Z, UB "out-of-bounds read").
Proof. exists [PushArr; PushArr; PushElt 0 (Some 5%Z); PushElt 1 (Some 6%Z)]. vm_compute. reflexivity. Qed.
(** A width or a capacity of 0, and a negative location *)
Theorem C47_zero_refuted : (exists os l0 m, r_new_dyn_list_of 0%Z 2 0 = Ok l0 /\ spec_run 0%Z [] os = Some [[5]]%Z /\ lof_run 0%Z l0 os = UB m) /\
  (exists os l0 m, r_new_dyn_list_of 0%Z 0 2 = Ok l0 /\ spec_run 0%Z [] os = Some [[]] /\ lof_run 0%Z l0 os = UB m).
Proof.
  split; [exists [PushArr; PushElt 0 (Some 5%Z)]|exists [PushArr]]; eexists _, _; (split; [reflexivity|]); (split; [reflexivity|]); reflexivity.
Qed.
Theorem C47_negative_refuted : exists l0 m, r_new_dyn_list_of 0%Z 2 2 = Ok l0 /\ r_lof_arr_push_back 0%Z l0 (-1) (Some 5%Z) = UB m.
Proof. eexists _, _. split; reflexivity. Qed.

(** Arrays that outgrow the reserve, before and after the reserve moves *)
Definition ex_ops : list (lop Z) :=
  [PushArr; PushElt 0 (Some 1); PushElt 0 (Some 2); PushElt 0 (Some 3); PushArr; PushElt 1 None; PushArr; PushElt 0 (Some 4); PushElt 1 (Some 5); PushElt 1 (Some 6); PushElt 0 (Some 7); PushElt 2 (Some 8)]%Z.
Example C47_example :
  (16 * Z.of_nat (length ex_ops) * 2 <= R_SSIZE_MAX)%Z /\ spec_run 0%Z [] ex_ops = Some [[1; 2; 3; 4; 7]; [0; 5; 6]; [8]]%Z /\
  (let! l0 := r_new_dyn_list_of 0%Z 1 2 in let! l := lof_run 0%Z l0 ex_ops in let! out := r_lof_unwrap l in let! front := r_lof_arr_front l 1 in Ok (out, lof_capacity l, front)) =
    Ok ([[1; 2; 3; 4; 7]; [0; 5; 6]; [8]], 4, [0])%Z /\
  (let! l0 := r_new_dyn_list_of 0%Z 1 2 in lof_run 0%Z l0 [PushArr; PushElt 1 (Some 1)]%Z) = Err "Location does not exist.".
Proof. split; [by vm_compute|]. split; [reflexivity|]. split; vm_compute; reflexivity. Qed.
Print Assumptions C47_list_of.
Print Assumptions C47_front.
Print Assumptions C47_back_refuted.
Print Assumptions C47_back_bounds_refuted.
Print Assumptions C47_zero_refuted.
Print Assumptions C47_negative_refuted.
