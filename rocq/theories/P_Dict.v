(** * Properties C06-C14: the hash table and the functions built on it *)
From Verif Require Import Base M_Double M_Scalar M_Hash M_Object M_Proxy M_Growable M_Dict M_DictApi
  Spec_Value Spec_Equal Spec_Missing Spec_Dict L_Scalar L_Proxy L_Equal L_Missing L_Hash
  L_DictNum L_Dict L_Growable L_DictOps L_DictOps2 L_DictOps3 L_Group L_Set L_DictRows L_DictHist L_Unique P_Equal.
From Coq Require Import ZifyBool ZifyNat.

Local Notation rspec := row_equal_spec.
Local Notation hspec := (row_hash_spec _ _).

(** ** Concrete inputs *)
Definition exd : proxy := PVec (Vec TInt [EInt 3; EInt 1; EInt 3; EInt NA_INTEGER; EInt 1; EInt NA_INTEGER; EInt 7]%Z).
Definition exe : proxy := PVec (Vec TInt [EInt 7; EInt NA_INTEGER; EInt 5; EInt 7]%Z).
(** Data frame rows: NA and NaN doubles, both zeros. *)
Definition exf : proxy := PDf 5
  [Vec TDbl [EDbl pos_zero; EDbl NA_REAL; EDbl neg_zero; EDbl na_payload; EDbl one_bits];
   Vec TChr [EChr (Some [97%Z]); EChr None; EChr (Some [97%Z]); EChr None; EChr None]].
Ltac crush_dict := unfold dictable, hashable, short, R_LEN_T_MAX; split_and!; crush_ok; simpl; try lia.
Example exd_ok : dictable exd. Proof. crush_dict. Qed.
Example exe_ok : dictable exe. Proof. crush_dict. Qed.
Example exf_ok : dictable exf. Proof. crush_dict. Qed.
Definition addr0 : rstr -> Z := fun s => match s with None => 17%Z | Some l => (1000 + 64 * Z.of_nat (length l))%Z end.

(** ** C06 *)
Theorem C06_table_size n : (0 <= n <= R_LEN_T_MAX)%Z ->
  exists e, (4 <= e <= 31)%Z /\ dict_key_size n = Ok (2 ^ e)%Z /\ (16 <= 2 ^ e)%Z /\ (n < 2 ^ e)%Z.
Proof.
  intros H. destruct (dict_key_size_spec n H) as (e & He & E & Hn & _). pose proof (Z.pow_le_mono_r 2 4 e ltac:(lia) ltac:(lia)).
  exists e. split; [done|]. split; [done|]. lia.
Qed.
Print Assumptions C06_table_size.

Theorem C06_probe_visits_every_slot e hash s : (4 <= e <= 31)%Z -> (0 <= s < 2 ^ e)%Z ->
  exists k, (0 <= k < 2 ^ e)%Z /\ dict_probe (2 ^ e) hash k = s /\
    forall k', (0 <= k' < 2 ^ e)%Z -> dict_probe (2 ^ e) hash k' = s -> k' = k.
Proof.
  intros He Hs. destruct (slot_surj e hash (Z.to_nat s)) as (k & Hk & E); [lia|lia|].
  exists (Z.of_nat k). split; [lia|]. split.
  - rewrite dict_probe_slot by lia. lia.
  - intros k' Hk' E'. rewrite <- (Z2Nat.id k') in E' |- * by lia. rewrite dict_probe_slot in E' by lia.
    f_equal. apply (slot_inj e hash); [lia|lia|lia|]. lia.
Qed.
Print Assumptions C06_probe_visits_every_slot.

(** Whatever rows [J] of [x] have been stored so far, in whatever order, looking
    up any row of any vector [y] succeeds. *)
Theorem C06_lookup addr na_equal x y J hx hy d dy partial i : dictable x -> dictable y ->
  hash_fill addr na_equal x = Ok hx -> hash_fill addr na_equal y = Ok hy ->
  history row_equal (proxy_rows x) hx d J ->
  new_dictionary_opts (proxy_rows y) hy partial = Ok dy ->
  i < proxy_size y ->
  exists s key, dict_hash_with row_equal d dy i = Ok s /\ rdZ (d_key d) s = Ok key /\
    ((key = DICT_EMPTY /\ forall j, j ∈ J -> ~ rows_equal x j y i) \/
     (exists j, key = Z.of_nat j /\ j ∈ J /\ rows_equal x j y i)).
Proof.
  intros (Ox & Px & Fx & Sx) (Oy & Py & Fy & Sy) Ex Ey HH En Hi.
  rewrite hash_fill_ok in Ex by (apply Ox || by apply hashable_proxy). injection Ex as <-.
  rewrite hash_fill_ok in Ey by (apply Oy || by apply hashable_proxy). injection Ey as <-.
  pose proof (proxy_rows_dom x Ox Px) as Dx. pose proof (proxy_rows_dom y Oy Py) as Dy.
  assert (I : hinv rdom (row_hash_val addr na_equal) (proxy_rows x) d J).
  { apply (history_hinv row_equal rsem rdom _ rspec (row_hash_spec addr na_equal)); [done| |done]. by rewrite proxy_rows_length. }
  unfold new_dictionary_opts in En.
  assert (Hd : d_hash dy = map (row_hash_val addr na_equal) (proxy_rows y) /\ d_vec dy = proxy_rows y).
  { destruct (if partial then _ else _) as [sz| |]; simpl in En; [|done|done]. by injection En as <-. }
  destruct Hd as [Hd1 Hd2].
  pose proof (proxy_rows_lookup y i Hi) as Eb.
  assert (Hb : rdom (proxy_row y i)) by (rewrite Forall_lookup in Dy; by apply (Dy i)).
  destruct (hist_lookup row_equal rsem rdom _ rspec (row_hash_spec addr na_equal) _ d J _ i _ dy I Hd1 Hd2 Eb Hb)
    as (s & E & Hs & _ & Hc).
  exists (Z.of_nat s). rewrite rdZ_nat. destruct Hc as [[Es Hno]|(j & a & Es & Hj & Ea & Eq)].
  - exists DICT_EMPTY. split; [done|]. split; [by apply rd_Ok|]. left. split; [done|]. intros j Hj.
    assert (Hjx : j < proxy_size x).
    { destruct (hi_all _ _ _ _ _ I j Hj) as [s' Es']. destruct (hi_key _ _ _ _ _ I _ _ Es') as [E'|(j' & a & E' & _ & Ea & _)].
      - unfold DICT_EMPTY in E'. lia.
      - assert (j' = j) as -> by lia. apply lookup_lt_Some in Ea. by rewrite proxy_rows_length in Ea. }
    apply (Hno j (proxy_row x j) Hj). by apply proxy_rows_lookup.
  - exists (Z.of_nat j). split; [done|]. split; [by apply rd_Ok|]. right. exists j. split_and!; try done.
    assert (Hjx : j < proxy_size x) by (apply lookup_lt_Some in Ea; by rewrite proxy_rows_length in Ea).
    rewrite proxy_rows_lookup in Ea by done. by injection Ea as <-.
Qed.
Print Assumptions C06_lookup.
(** Such histories exist: rows 4, 0 and 3 of [exd] stored in this order. *)
Fixpoint put_rows (d : @dict (list elt)) (J js : list nat) : res (@dict (list elt) * list nat) :=
  match js with
  | [] => Ok (d, J)
  | i :: js' =>
      let! s := dict_hash_scalar row_equal d i in
      let! k := rdZ (d_key d) s in
      if (k =? DICT_EMPTY)%Z then let! d' := dict_put d s i in put_rows d' (i :: J) js' else Err "not empty"
  end.
Lemma put_rows_history x h js : forall d J d' J', history row_equal x h d J -> put_rows d J js = Ok (d', J') -> history row_equal x h d' J'.
Proof.
  induction js as [|i js IH]; intros d J d' J' H E; simpl in E; [by injection E as <- <-|].
  destruct (dict_hash_scalar row_equal d i) as [s| |] eqn:Es; try done. simpl in E.
  destruct (rdZ (d_key d) s) as [k| |] eqn:Ek; try done. simpl in E.
  destruct (Z.eqb_spec k DICT_EMPTY) as [->|]; [|done].
  destruct (dict_put d s i) as [d1| |] eqn:Ed; try done. simpl in E.
  eapply IH; [|exact E]. by eapply hist_put.
Qed.
Example C06_run : exists hx d, hash_fill addr0 true exd = Ok hx /\ history row_equal (proxy_rows exd) hx d [3; 0; 4].
Proof.
  assert (H : match hash_fill addr0 true exd with Ok hx =>
                match new_dictionary_opts (proxy_rows exd) hx false with Ok d =>
                  match put_rows d [] [4; 0; 3] with Ok (_, J) => J = [3; 0; 4] | _ => False end
                | _ => False end | _ => False end) by (vm_compute; reflexivity).
  destruct (hash_fill addr0 true exd) as [hx| |]; try done.
  destruct (new_dictionary_opts (proxy_rows exd) hx false) as [d| |] eqn:E; try done.
  destruct (put_rows d [] [4; 0; 3]) as [[d' J]| |] eqn:E'; try done. subst J.
  exists hx, d'. split; [done|]. eapply put_rows_history; [by apply hist_new|done].
Qed.

(** ** C07 *)
(** The full statement would not mention the number of classes; see the
    refutation below. *)
Theorem C07_unique_loc_partial addr p : dictable p ->
  (forall k, card (proxy_size p) (first_row p) k -> (Z.of_nat k <= 2 ^ 30)%Z) ->
  exists out, api_unique_loc addr p = Ok out /\ locates (proxy_size p) (first_row p) out.
Proof.
  intros (O & P & F & S) Hk. unfold api_unique_loc. rewrite with_hash_ok by (done || by apply hashable_proxy).
  pose proof (proxy_rows_dom p O P) as D.
  assert (Hf : fits (proxy_rows p)) by (unfold fits; by rewrite proxy_rows_length).
  eexists. split; [apply (vec_unique_loc_spec row_equal rsem rdom _ rspec (row_hash_spec addr true)); [done|done|]|].
  - rewrite proxy_rows_length. apply Hk. by apply firsts_card.
  - rewrite proxy_rows_length. split.
    + intros k. rewrite elem_of_list_fmap. split.
      * intros (i & -> & Hi). apply (firsts_elem row_equal rsem rdom rspec) in Hi as [Hi Fi]; [|done|by rewrite proxy_rows_length].
        exists i. split_and!; [done|done|]. by apply is_first_row.
      * intros (i & -> & Hi & Fi). exists i. split; [done|].
        apply (firsts_elem row_equal rsem rdom rspec); [done|by rewrite proxy_rows_length|]. split; [done|]. by apply is_first_row.
    + intros a b x y Hab Ex Ey. apply lookup_map_Some in Ex as (i & Ei & ->). apply lookup_map_Some in Ey as (j & Ej & ->).
      pose proof (filter_seq_sorted _ _ _ _ _ _ _ Hab Ei Ej). unfold loc_of. lia.
Qed.
Print Assumptions C07_unique_loc_partial.

(** What the locations found say about vec_unique(): pairwise different rows,
    every row equal to exactly one of them. *)
Theorem C07_unique_cover_partial addr p out : dictable p ->
  (forall k, card (proxy_size p) (first_row p) k -> (Z.of_nat k <= 2 ^ 30)%Z) ->
  api_unique_loc addr p = Ok out ->
  (forall i j, rloc i ∈ out -> rloc j ∈ out -> rows_equal p i p j -> i = j) /\
  (forall i, i < proxy_size p -> exists j, rloc j ∈ out /\ rows_equal p j p i).
Proof.
  intros Hd Hk E. destruct (C07_unique_loc_partial addr p Hd Hk) as (o & E' & HL & _).
  assert (o = out) as -> by congruence. clear E E'. split.
  - intros i j Hi Hj R. apply HL in Hi as (i' & Ei & Hi & Fi). apply HL in Hj as (j' & Ej & Hj & Fj).
    assert (i' = i) as -> by (unfold rloc in Ei; lia). assert (j' = j) as -> by (unfold rloc in Ej; lia).
    destruct (Nat.lt_trichotomy i j) as [H|[H|H]]; [|done|].
    + by destruct (Fj i H).
    + destruct (Fi j H). unfold rows_equal, row_same in *. by rewrite R.
  - intros i Hi. destruct Hd as (O & P & F & S).
    destruct (first_exists row_equal rsem rdom _ rspec (row_hash_spec addr true) (proxy_rows p) i) as (f & Hf & Ff & Ef);
      [by apply proxy_rows_dom|by rewrite proxy_rows_length|].
    exists f. split; [|by apply rows_X_eq; [lia|lia|]]. apply HL. exists f. split_and!; [done|lia|]. apply is_first_row; [lia|done].
Qed.
Print Assumptions C07_unique_cover_partial.
Example C07_run : api_unique_loc addr0 exd = Ok [1; 2; 4; 7]%Z. Proof. vm_compute. reflexivity. Qed.
Example C07_run_df : api_unique_loc addr0 exf = Ok [1; 2; 5]%Z. Proof. vm_compute. reflexivity. Qed.
Example C07_hyps : forall k, card (proxy_size exd) (first_row exd) k -> (Z.of_nat k <= 2 ^ 30)%Z.
Proof.
  intros k (ls & Hn & He & <-). assert (length ls <= 7); [|lia].
  apply NoDup_bounded_length; [done|]. intros x Hx. apply He in Hx as [Hx _]. exact Hx.
Qed.

(** With more than 2^30 distinct elements (which R's vectors allow)
    [growable_push_int] doubles an [int] capacity of 2^30. *)
Theorem C07_unique_loc_overflow addr p : dictable p ->
  (exists k, card (proxy_size p) (first_row p) k /\ (2 ^ 30 < Z.of_nat k)%Z) ->
  api_unique_loc addr p = UB "signed integer overflow".
Proof.
  intros (O & P & F & S) (k & Hk & Hlt). unfold api_unique_loc. rewrite with_hash_ok by (done || by apply hashable_proxy).
  apply (vec_unique_loc_overflow row_equal rsem rdom _ rspec (row_hash_spec addr true)).
  - by apply proxy_rows_dom.
  - unfold fits. by rewrite proxy_rows_length.
  - rewrite proxy_rows_length. by rewrite (card_fun _ _ _ _ (firsts_card p (proxy_size p) O P ltac:(lia)) Hk).
Qed.
Print Assumptions C07_unique_loc_overflow.

Definition distinct_ints (n : nat) : proxy := PVec (Vec TInt (map (fun k => EInt (Z.of_nat k)) (seq 0 n))).
Lemma distinct_ints_ok n : (Z.of_nat n <= R_LEN_T_MAX)%Z -> dictable (distinct_ints n).
Proof.
  intros Hn. unfold R_LEN_T_MAX, INT_MAX in Hn.
  unfold dictable, distinct_ints, proxy_ok, proxy_wf, proxy_plain, hashable, short, cols_in_range, cols_plain, vec_wf.
  cbn [proxy_size proxy_cols v_data v_type].
  assert (HF : forall P : elt -> Prop, (forall k, k < n -> P (EInt (Z.of_nat k))) ->
    Forall P (map (fun k => EInt (Z.of_nat k)) (seq 0 n))).
  { intros P HP. apply Forall_forall. intros e He. apply elem_of_list_fmap in He as (k & -> & Hk).
    apply elem_of_seq in Hk. apply HP. lia. }
  repeat split; repeat constructor; try (apply HF; intros k Hk; simpl; try done).
  - unfold is_int, INT_MIN, INT_MAX. lia.
  - rewrite map_length, seq_length. unfold R_LEN_T_MAX, INT_MAX. lia.
Qed.
Lemma distinct_ints_row n i : i < n -> proxy_row (distinct_ints n) i = [EInt (Z.of_nat i)].
Proof.
  intros Hi. unfold proxy_row, distinct_ints, cols_row. simpl. rewrite list_lookup_fmap, lookup_seq_lt by done. done.
Qed.
Lemma distinct_ints_card n : card n (first_row (distinct_ints n)) n.
Proof.
  exists (seq 0 n). split; [apply NoDup_seq|]. split; [|apply seq_length]. intros j. rewrite elem_of_seq. split; [|lia].
  intros Hj. split; [lia|]. intros i Hi R. unfold rows_equal, row_same in R. rewrite !distinct_ints_row in R by lia.
  simpl in R. injection R as E. unfold int_sem in E.
  destruct (Z.eqb_spec (Z.of_nat i) (-2 ^ 31)), (Z.eqb_spec (Z.of_nat j) (-2 ^ 31)); try lia. injection E. lia.
Qed.
Theorem C07_unique_loc_refuted : exists p, dictable p /\ forall addr, api_unique_loc addr p = UB "signed integer overflow".
Proof.
  destruct (Z_of_nat_complete (2 ^ 30 + 1)) as [n Hn]; [lia|].
  assert (Hd : dictable (distinct_ints n)) by (apply distinct_ints_ok; unfold R_LEN_T_MAX, INT_MAX; lia).
  exists (distinct_ints n). split; [done|]. intros addr. apply C07_unique_loc_overflow; [done|].
  exists n. split; [|lia].
  replace (proxy_size (distinct_ints n)) with n by (simpl; by rewrite map_length, seq_length).
  apply distinct_ints_card.
Qed.
Print Assumptions C07_unique_loc_refuted.

(** ** C08 *)
Theorem C08_duplicate_detect addr p : dictable p ->
  exists out, api_duplicate_detect addr p = Ok out /\
    indicates (proxy_size p) (fun i => exists j, j < proxy_size p /\ j <> i /\ rows_equal p j p i) out.
Proof.
  intros (O & P & F & S). unfold api_duplicate_detect. rewrite with_hash_ok by (done || by apply hashable_proxy).
  destruct (vec_duplicate_detect_spec row_equal rsem rdom _ rspec (row_hash_spec addr true) (proxy_rows p)) as (out & E & Hl & H);
    [by apply proxy_rows_dom|unfold fits; by rewrite proxy_rows_length|].
  rewrite proxy_rows_length in *. exists out. split; [done|]. split; [done|]. intros i Hi.
  destruct (H i Hi) as [[E1 (j & Hj & Hne & Ej)]|[E1 Hno]].
  - left. split; [|done]. exists j. split_and!; try done. by apply rows_X_eq.
  - right. split; [|done]. intros (j & Hj & Hne & R). apply (Hno j Hj Hne). by apply rows_X_eq.
Qed.
Print Assumptions C08_duplicate_detect.
Theorem C08_duplicate_any addr p : dictable p ->
  exists b, api_duplicate_any addr p = Ok b /\
    (b = true <-> exists i j, i < j < proxy_size p /\ rows_equal p i p j).
Proof.
  intros (O & P & F & S). unfold api_duplicate_any. rewrite with_hash_ok by (done || by apply hashable_proxy).
  destruct (vec_duplicate_any_spec row_equal rsem rdom _ rspec (row_hash_spec addr true) (proxy_rows p)) as (b & E & Hb);
    [by apply proxy_rows_dom|unfold fits; by rewrite proxy_rows_length|].
  exists b. split; [done|]. rewrite Hb, proxy_rows_length. split; intros (i & j & Hij & R); exists i, j; (split; [done|]);
    apply rows_X_eq; try done; lia.
Qed.
Print Assumptions C08_duplicate_any.
Theorem C08_unique_count addr p : dictable p ->
  exists k, api_unique_count addr p = Ok (Z.of_nat k) /\ card (proxy_size p) (first_row p) k.
Proof.
  intros (O & P & F & S). unfold api_unique_count. rewrite with_hash_ok by (done || by apply hashable_proxy).
  eexists. split; [apply (vec_unique_count_spec row_equal rsem rdom _ rspec (row_hash_spec addr true));
    [by apply proxy_rows_dom|unfold fits; by rewrite proxy_rows_length]|].
  rewrite proxy_rows_length. by apply firsts_card.
Qed.
Print Assumptions C08_unique_count.
Theorem C08_duplicate_id addr p : dictable p ->
  exists out, api_duplicate_id addr p = Ok out /\ length out = proxy_size p /\
    forall i, i < proxy_size p -> exists f, out !! i = Some (rloc f) /\ f <= i /\ rows_equal p f p i /\ first_row p f.
Proof.
  intros (O & P & F & S). unfold api_duplicate_id. rewrite with_hash_ok by (done || by apply hashable_proxy).
  destruct (vec_duplicate_id_spec row_equal rsem rdom _ rspec (row_hash_spec addr true) (proxy_rows p)) as (out & E & Hl & H);
    [by apply proxy_rows_dom|unfold fits; by rewrite proxy_rows_length|].
  rewrite proxy_rows_length in *. exists out. split_and!; try done. intros i Hi.
  destruct (H i Hi) as (f & Ef & Hf & Ff & E'). exists f. split_and!; try done.
  - apply rows_X_eq; [lia|lia|done].
  - apply is_first_row; [lia|done].
Qed.
Print Assumptions C08_duplicate_id.
Example C08_run : api_duplicate_detect addr0 exd = Ok [1; 1; 1; 1; 1; 1; 0]%Z /\ api_duplicate_any addr0 exd = Ok true /\
  api_unique_count addr0 exd = Ok 4%Z /\ api_duplicate_id addr0 exd = Ok [1; 2; 1; 4; 2; 4; 7]%Z.
Proof. vm_compute. done. Qed.

(** ** C09 *)
Lemma match_result_first x y i z : i < proxy_size y ->
  match_result rsem (proxy_rows x) (proxy_rows y) i z -> first_match y i x z.
Proof.
  intros Hi [[-> Hno]|(j & -> & Hj & Fj & E)].
  - left. split; [done|]. intros (j & Hj & R). rewrite proxy_rows_length in Hno. apply (Hno j Hj). by apply rows_X_eq.
  - right. rewrite proxy_rows_length in Hj. exists j. split_and!; try done.
    + by apply rows_X_eq.
    + intros k Hk R. apply (Fj k Hk). rewrite E. apply rows_X_eq; [lia|done|done].
Qed.
Lemma match_common addr na y x : dictable y -> dictable x ->
  exists out, api_match addr y x na = Ok out /\ length out = proxy_size y /\
    forall i, i < proxy_size y -> exists z, out !! i = Some z /\
      (if propagates row_is_incomplete (row_hash_val addr na) (negb na) (proxy_rows y) i then z = NA_INTEGER else first_match y i x z).
Proof.
  intros (Oy & Py & Fy & Sy) (O & P & F & S). unfold api_match.
  rewrite with_hash_ok by (done || by apply hashable_proxy). rewrite with_hash_ok by (done || by apply hashable_proxy).
  destruct (vec_match_spec row_equal row_is_incomplete rsem rdom _ rspec (row_hash_spec addr na) (proxy_rows x) (proxy_rows y) na) as (out & E & Hl & H);
    [by apply proxy_rows_dom|by apply proxy_rows_dom|unfold fits; by rewrite proxy_rows_length|].
  rewrite proxy_rows_length in *. exists out. split_and!; try done. intros i Hi. destruct (H i Hi) as (z & Ez & Hz).
  exists z. split; [done|]. destruct (propagates _ _ _ _ _); [done|]. by apply match_result_first.
Qed.
Lemma in_common addr na y x : dictable y -> dictable x ->
  exists out, api_in addr y x na = Ok out /\ length out = proxy_size y /\
    forall i, i < proxy_size y ->
      if propagates row_is_incomplete (row_hash_val addr na) (negb na) (proxy_rows y) i then out !! i = Some NA_LOGICAL
      else (row_in y i x /\ out !! i = Some 1%Z) \/ (~ row_in y i x /\ out !! i = Some 0%Z).
Proof.
  intros (Oy & Py & Fy & Sy) (O & P & F & S). unfold api_in.
  rewrite with_hash_ok by (done || by apply hashable_proxy). rewrite with_hash_ok by (done || by apply hashable_proxy).
  destruct (vec_in_spec row_equal row_is_incomplete rsem rdom _ rspec (row_hash_spec addr na) (proxy_rows x) (proxy_rows y) na) as (out & E & Hl & H);
    [by apply proxy_rows_dom|by apply proxy_rows_dom|unfold fits; by rewrite proxy_rows_length|].
  rewrite proxy_rows_length in *. exists out. split_and!; try done. intros i Hi. specialize (H i Hi).
  destruct (propagates _ _ _ _ _); [done|]. destruct H as [[E1 Hno]|[E1 (j & Hj & Ej)]].
  - right. split; [|done]. intros (j & Hj & R). rewrite proxy_rows_length in Hno. apply (Hno j Hj). by apply rows_X_eq.
  - left. rewrite proxy_rows_length in Hj. split; [|done]. exists j. split; [done|]. by apply rows_X_eq.
Qed.
Lemma propagates_complete hf b y i : i < proxy_size y -> Forall elt_in_range (proxy_row y i) -> row_complete (proxy_row y i) ->
  propagates row_is_incomplete hf b (proxy_rows y) i = false.
Proof.
  intros Hi Hr Hc. unfold propagates. rewrite proxy_rows_lookup by done.
  rewrite (proj2 (row_is_incomplete_spec _ Hr) Hc). by rewrite !andb_false_r.
Qed.
Lemma propagates_incomplete addr y i : i < proxy_size y -> proxy_ok y -> hashable y -> raw_first y ->
  ~ row_complete (proxy_row y i) -> propagates row_is_incomplete (row_hash_val addr false) true (proxy_rows y) i = true.
Proof.
  intros Hi O F Hraw Hc. unfold propagates. rewrite proxy_rows_lookup by done. simpl.
  assert (Hinc : row_is_incomplete (proxy_row y i) = true).
  { apply not_false_iff_true. intros E. apply Hc. apply row_is_incomplete_spec; [|done]. by apply row_in_range, O. }
  rewrite Hinc, (incomplete_hash addr y i O (hashable_proxy addr y F) Hraw Hi Hinc). done.
Qed.

Theorem C09_match addr needles haystack : dictable needles -> dictable haystack ->
  exists out, api_match addr needles haystack true = Ok out /\ length out = proxy_size needles /\
    forall i, i < proxy_size needles -> exists z, out !! i = Some z /\ first_match needles i haystack z.
Proof.
  intros Hy Hx. destruct (match_common addr true needles haystack Hy Hx) as (out & E & Hl & H). exists out. split_and!; done.
Qed.
Print Assumptions C09_match.
(** [na_equal = FALSE].  The full statement has no hypothesis [raw_first]; see
    the refutation below. *)
Theorem C09_match_propagate_partial addr needles haystack : dictable needles -> dictable haystack -> raw_first needles ->
  exists out, api_match addr needles haystack false = Ok out /\ length out = proxy_size needles /\
    forall i, i < proxy_size needles -> exists z, out !! i = Some z /\
      (row_complete (proxy_row needles i) -> first_match needles i haystack z) /\
      (~ row_complete (proxy_row needles i) -> z = NA_INTEGER).
Proof.
  intros Hy Hx Hr. destruct (match_common addr false needles haystack Hy Hx) as (out & E & Hl & H). exists out. split_and!; try done.
  intros i Hi. destruct (H i Hi) as (z & Ez & Hz). exists z. destruct Hy as (O & P & F & S). split_and!; [done| |].
  - intros Hc. rewrite propagates_complete in Hz; [done|done|by apply row_in_range, O|done].
  - intros Hc. change (negb false) with true in Hz. by rewrite propagates_incomplete in Hz.
Qed.
Print Assumptions C09_match_propagate_partial.
(** A complete needle behaves as documented without that hypothesis, whatever its hash. *)
Theorem C09_match_complete_needle addr na_equal needles haystack i out z : dictable needles -> dictable haystack ->
  api_match addr needles haystack na_equal = Ok out -> out !! i = Some z ->
  row_complete (proxy_row needles i) -> first_match needles i haystack z.
Proof.
  intros Hy Hx E Ez Hc. destruct (match_common addr na_equal needles haystack Hy Hx) as (o & E' & Hl & H).
  assert (o = out) as -> by congruence. assert (Hi : i < proxy_size needles) by (apply lookup_lt_Some in Ez; lia).
  destruct (H i Hi) as (z' & Ez' & Hz). assert (z' = z) as -> by congruence.
  rewrite propagates_complete in Hz; [done|done|by apply row_in_range, Hy|done].
Qed.
Print Assumptions C09_match_complete_needle.
Theorem C09_in addr needles haystack : dictable needles -> dictable haystack ->
  exists out, api_in addr needles haystack true = Ok out /\ indicates (proxy_size needles) (fun i => row_in needles i haystack) out.
Proof.
  intros Hy Hx. destruct (in_common addr true needles haystack Hy Hx) as (out & E & Hl & H). exists out. split; [done|].
  split; [done|]. exact H.
Qed.
Print Assumptions C09_in.
Theorem C09_in_propagate_partial addr needles haystack : dictable needles -> dictable haystack -> raw_first needles ->
  exists out, api_in addr needles haystack false = Ok out /\ length out = proxy_size needles /\
    forall i, i < proxy_size needles ->
      (row_complete (proxy_row needles i) ->
         (row_in needles i haystack /\ out !! i = Some 1%Z) \/ (~ row_in needles i haystack /\ out !! i = Some 0%Z)) /\
      (~ row_complete (proxy_row needles i) -> out !! i = Some NA_LOGICAL).
Proof.
  intros Hy Hx Hr. destruct (in_common addr false needles haystack Hy Hx) as (out & E & Hl & H). exists out. split_and!; try done.
  intros i Hi. specialize (H i Hi). destruct Hy as (O & P & F & S). split.
  - intros Hc. rewrite propagates_complete in H; [done|done|by apply row_in_range, O|done].
  - intros Hc. change (negb false) with true in H. by rewrite propagates_incomplete in H.
Qed.
Print Assumptions C09_in_propagate_partial.
Example C09_hyps : raw_first exd /\ raw_first exf. Proof. split; exists 0; split; crush_ok. Qed.
Example C09_run : api_match addr0 exd exe true = Ok [NA_INTEGER; NA_INTEGER; NA_INTEGER; 2; NA_INTEGER; 2; 1]%Z /\
  api_match addr0 exd exe false = Ok [NA_INTEGER; NA_INTEGER; NA_INTEGER; NA_INTEGER; NA_INTEGER; NA_INTEGER; 1]%Z /\
  api_in addr0 exd exe false = Ok [0; 0; 0; NA_LOGICAL; 0; NA_LOGICAL; 1]%Z.
Proof. vm_compute. done. Qed.

(** src/hash.c:357-359: a raw column after an incomplete one hides the missing value. *)
Definition ex_na_raw : proxy := PDf 1 [Vec TInt [EInt NA_INTEGER]; Vec TRaw [ERaw 5%Z]].
Theorem C09_match_propagate_refuted : exists p, dictable p /\ proxy_size p = 1 /\
  ~ row_complete (proxy_row p 0) /\
  forall addr, api_match addr p p false = Ok [1%Z] /\ api_in addr p p false = Ok [1%Z].
Proof.
  exists ex_na_raw. split_and!; [crush_dict|done| |].
  - intros H. apply Forall_cons in H as [H _]. by apply H.
  - intros addr. vm_compute. done.
Qed.
Print Assumptions C09_match_propagate_refuted.

(** ** C10 *)
Theorem C10_count addr p : dictable p ->
  exists js counts, api_count addr p = Ok (map rloc js, map Z.of_nat counts) /\
    NoDup js /\ (forall j, j ∈ js <-> j < proxy_size p /\ first_row p j) /\
    length counts = length js /\
    (forall k j c, js !! k = Some j -> counts !! k = Some c -> card (proxy_size p) (fun i => rows_equal p i p j) c) /\
    list_sum counts = proxy_size p.
Proof.
  intros (O & P & F & S). unfold api_count. rewrite with_hash_ok by (done || by apply hashable_proxy).
  pose proof (proxy_rows_dom p O P) as D.
  destruct (vec_count_spec row_equal rsem rdom _ rspec (row_hash_spec addr true) (proxy_rows p)) as (js & E & HP);
    [done|unfold fits; by rewrite proxy_rows_length|].
  rewrite proxy_rows_length in *.
  assert (Hel : forall j, j ∈ js <-> j < proxy_size p /\ first_row p j).
  { intros j. rewrite HP, (firsts_elem row_equal rsem rdom rspec) by (done || by rewrite proxy_rows_length).
    split; intros [Hj Fj]; (split; [done|]); by apply is_first_row. }
  assert (Hnd : NoDup js) by (rewrite HP; apply firsts_NoDup).
  exists js, (map (fun j => length (occ row_equal (proxy_rows p) (proxy_size p) j)) js).
  split; [rewrite E, map_map; done|]. split; [done|]. split; [done|]. split; [by rewrite map_length|]. split.
  - intros k j c Ej Ec. rewrite list_lookup_fmap, Ej in Ec. injection Ec as <-. apply occ_card; [done|done|].
    apply Hel. apply elem_of_list_lookup. eauto.
  - apply (occ_sum row_equal rsem rdom (row_hash_val addr true)); [apply rspec|apply (row_hash_spec addr true)|done|done| |by rewrite proxy_rows_length].
    intros j. rewrite Hel, proxy_rows_length. split; intros [Hj Fj]; (split; [done|]); by apply is_first_row.
Qed.
Print Assumptions C10_count.
Example C10_run : exists js cs, api_count addr0 exd = Ok (js, cs) /\ Permutation (zip js cs) [(1, 2); (2, 2); (4, 2); (7, 1)]%Z.
Proof.
  eexists. eexists. split; [vm_compute; reflexivity|]. simpl.
  apply NoDup_Permutation; [by apply (bool_decide_unpack _)|by apply (bool_decide_unpack _)|].
  intros z. rewrite !elem_of_cons, !elem_of_nil. tauto.
Qed.

(** ** C11 *)
Definition group_of (p : proxy) (i : nat) (z : Z) : Prop :=
  exists f k, f <= i /\ first_row p f /\ rows_equal p f p i /\ card f (first_row p) k /\ z = (Z.of_nat k + 1)%Z.
Lemma group_ids_of p ids : proxy_ok p -> proxy_plain p -> group_ids row_equal rsem (proxy_rows p) ids ->
  length ids = proxy_size p /\ forall i, i < proxy_size p -> exists z, ids !! i = Some z /\ group_of p i z.
Proof.
  intros O P [Hl H]. rewrite proxy_rows_length in *. split; [done|]. intros i Hi.
  destruct (H i Hi) as (f & Hf & Ff & Ef & E). eexists. split; [exact E|].
  exists f, (length (firsts row_equal (proxy_rows p) f)). split_and!; try done.
  - apply is_first_row; [lia|done].
  - apply rows_X_eq; [lia|lia|done].
  - apply firsts_card; [done|done|lia].
  - lia.
Qed.
(** Groups are numbered 1, 2, ... in order of first appearance: the group of row
    [i] is one more than the number of classes that appear before its own. *)
Theorem C11_group_id addr p : dictable p ->
  exists out k, api_group_id addr p = Ok (out, Z.of_nat k) /\ length out = proxy_size p /\
    card (proxy_size p) (first_row p) k /\
    forall i, i < proxy_size p -> exists z, out !! i = Some z /\ group_of p i z /\ (1 <= z <= Z.of_nat k)%Z.
Proof.
  intros (O & P & F & S). unfold api_group_id. rewrite with_hash_ok by (done || by apply hashable_proxy).
  pose proof (proxy_rows_dom p O P) as D. unfold vec_group_id.
  destruct (group_id_loop_spec row_equal rsem rdom _ rspec (row_hash_spec addr true) 1 (proxy_rows p)) as (d & out & -> & I & Hl & H);
    [done|unfold fits; by rewrite proxy_rows_length|]. simpl.
  rewrite proxy_rows_length in *.
  exists out, (length (firsts row_equal (proxy_rows p) (proxy_size p))). split_and!; [|done|by apply firsts_card|].
  - by rewrite (di_used _ _ _ _ _ _ _ I).
  - intros i Hi. destruct (H i Hi) as (f & Hf & Ff & Ef & E). eexists. split; [exact E|]. split.
    + exists f, (length (firsts row_equal (proxy_rows p) f)). split_and!; try done.
      * apply is_first_row; [lia|done].
      * apply rows_X_eq; [lia|lia|done].
      * apply firsts_card; [done|done|lia].
      * lia.
    + pose proof (firsts_index_lt row_equal rsem rdom rspec (proxy_rows p) (proxy_size p) f D ltac:(lia) ltac:(by rewrite proxy_rows_length) Ff). lia.
Qed.
Print Assumptions C11_group_id.
Theorem C11_group_id_equal addr p out n i j zi zj : dictable p -> api_group_id addr p = Ok (out, n) ->
  out !! i = Some zi -> out !! j = Some zj -> zi = zj <-> rows_equal p i p j.
Proof.
  intros Hd E Ei Ej. destruct (C11_group_id addr p Hd) as (o & k & E' & Hl & _ & H).
  assert (o = out) as -> by congruence. destruct Hd as (O & P & F & S).
  assert (Hi : i < proxy_size p) by (apply lookup_lt_Some in Ei; lia).
  assert (Hj : j < proxy_size p) by (apply lookup_lt_Some in Ej; lia).
  destruct (H i Hi) as (z & Ez & (f & kf & Hf & Ff & Rf & Cf & ->) & _). rewrite Ez in Ei. injection Ei as <-.
  destruct (H j Hj) as (z & Ez' & (g & kg & Hg & Fg & Rg & Cg & ->) & _). rewrite Ez' in Ej. injection Ej as <-.
  unfold rows_equal, row_same in *. split.
  - intros E1. assert (kf = kg) as -> by lia. assert (f = g); [|congruence].
    pose proof (proxy_rows_dom p O P) as D.
    apply (firsts_index_inj row_equal rsem rdom rspec (proxy_rows p)); [done|rewrite proxy_rows_length; lia|rewrite proxy_rows_length; lia| | |].
    + apply is_first_row; [lia|done].
    + apply is_first_row; [lia|done].
    + rewrite <- (card_fun _ _ _ _ Cf (firsts_card p f O P ltac:(lia))).
      by rewrite <- (card_fun _ _ _ _ Cg (firsts_card p g O P ltac:(lia))).
  - intros R. assert (f = g) as ->.
    { destruct (Nat.lt_trichotomy f g) as [H'|[H'|H']]; [|done|].
      - destruct (Fg f H'). unfold rows_equal, row_same. congruence.
      - destruct (Ff g H'). unfold rows_equal, row_same. congruence. }
    by rewrite (card_fun _ _ _ _ Cf Cg).
Qed.
Print Assumptions C11_group_id_equal.
Example C11_run : api_group_id addr0 exd = Ok ([1; 2; 1; 3; 2; 3; 4]%Z, 4%Z). Proof. vm_compute. reflexivity. Qed.

(** ** C12 *)
Theorem C12_group_loc addr p : dictable p ->
  exists fs locs, api_group_loc addr p = Ok (map rloc fs, locs) /\
    locates (proxy_size p) (first_row p) (map rloc fs) /\ length locs = length fs /\
    (forall g f l, fs !! g = Some f -> locs !! g = Some l -> locates (proxy_size p) (fun i => rows_equal p i p f) l) /\
    Permutation (concat locs) (map rloc (seq 0 (proxy_size p))).
Proof.
  intros (O & P & F & S). unfold api_group_loc. rewrite with_hash_ok by (done || by apply hashable_proxy).
  pose proof (proxy_rows_dom p O P) as D.
  assert (Hfit : fits (proxy_rows p)) by (unfold fits; by rewrite proxy_rows_length).
  rewrite (vec_group_loc_spec row_equal rsem rdom _ rspec (row_hash_spec addr true) (proxy_rows p) D Hfit).
  rewrite proxy_rows_length. set (fs := firsts row_equal (proxy_rows p) (proxy_size p)).
  assert (Hel : forall j, j ∈ fs <-> j < proxy_size p /\ first_row p j).
  { intros j. unfold fs. rewrite (firsts_elem row_equal rsem rdom rspec) by (done || by rewrite proxy_rows_length).
    split; intros [Hj Fj]; (split; [done|]); by apply is_first_row. }
  exists fs. eexists. split; [reflexivity|].
  assert (Hocc : forall f, f ∈ fs -> locates (proxy_size p) (fun i => rows_equal p i p f) (map loc_of (occ row_equal (proxy_rows p) (proxy_size p) f))).
  { intros f Hf. apply Hel in Hf as [Hf _]. split.
    - intros k. rewrite elem_of_list_fmap. split.
      + intros (i & -> & Hi). apply (occ_elem row_equal rsem rdom rspec) in Hi as [Hi Ei]; [|done|by rewrite proxy_rows_length|by rewrite proxy_rows_length].
        exists i. split_and!; [done|done|]. by apply rows_X_eq.
      + intros (i & -> & Hi & R). exists i. split; [done|]. apply (occ_elem row_equal rsem rdom rspec);
          [done|by rewrite proxy_rows_length|by rewrite proxy_rows_length|]. split; [done|]. by apply rows_X_eq.
    - intros a b x y Hab Ex Ey. apply lookup_map_Some in Ex as (i & Ei & ->). apply lookup_map_Some in Ey as (j & Ej & ->).
      pose proof (filter_seq_sorted _ _ _ _ _ _ _ Hab Ei Ej). unfold loc_of. lia. }
  split_and!.
  - split.
    + intros k. rewrite elem_of_list_fmap. split.
      * intros (i & -> & Hi). apply Hel in Hi as [Hi Fi]. by exists i.
      * intros (i & -> & Hi & Fi). exists i. split; [done|]. by apply Hel.
    + intros a b x y Hab Ex Ey. apply lookup_map_Some in Ex as (i & Ei & ->). apply lookup_map_Some in Ey as (j & Ej & ->).
      pose proof (filter_seq_sorted _ _ _ _ _ _ _ Hab Ei Ej). unfold rloc. lia.
  - by rewrite map_length.
  - intros g f l Ef El. rewrite list_lookup_fmap, Ef in El. injection El as <-. apply Hocc.
    apply elem_of_list_lookup. eauto.
  - symmetry. apply submseteq_Permutation_length_eq; revgoals.
    + apply NoDup_submseteq.
      * apply NoDup_fmap_2; [|apply NoDup_seq]. intros a b. unfold rloc. lia.
      * intros z Hz. apply elem_of_list_fmap in Hz as (i & -> & Hi). apply elem_of_seq in Hi.
        destruct (first_exists row_equal rsem rdom _ rspec (row_hash_spec addr true) (proxy_rows p) i D) as (f & Hf & Ff & Ef);
          [rewrite proxy_rows_length; lia|].
        assert (Hfs : f ∈ fs) by (apply Hel; split; [lia|]; apply is_first_row; [lia|done]).
        apply elem_of_list_In, in_concat. eexists. split; [apply elem_of_list_In, elem_of_list_fmap; exists f; split; [reflexivity|done]|]. apply elem_of_list_In.
        apply Hocc; [done|]. exists i. split_and!; [done|lia|].
        unfold rows_equal, row_same. symmetry. apply (proj1 (rows_X_eq p f p i ltac:(lia) ltac:(lia))). done.
    + assert (HL : forall gs : list nat, length (concat (map (fun f => map loc_of (occ row_equal (proxy_rows p) (proxy_size p) f)) gs)) =
                list_sum (map (fun j => length (occ row_equal (proxy_rows p) (proxy_size p) j)) gs)).
      { induction gs as [|g gs IH]; [done|]. simpl. by rewrite app_length, map_length, IH. }
      rewrite HL. rewrite (occ_sum row_equal rsem rdom (row_hash_val addr true)); [by rewrite map_length, seq_length|apply rspec|apply (row_hash_spec addr true)|done|apply firsts_NoDup| |by rewrite proxy_rows_length].
      intros j. rewrite Hel, proxy_rows_length. split; intros [Hj Fj]; (split; [done|]); by apply is_first_row.
Qed.
Print Assumptions C12_group_loc.
Example C12_run : api_group_loc addr0 exd = Ok ([1; 2; 4; 7]%Z, [[1; 3]; [2; 5]; [4; 6]; [7]]%Z). Proof. vm_compute. reflexivity. Qed.

(** ** C13 *)
Theorem C13_group_rle addr p : dictable p ->
  exists ids n g l, api_group_id addr p = Ok (ids, n) /\ api_group_rle addr p = Ok (g, l, n) /\
    rle_decodes g l ids /\ Forall (fun z => (1 <= z)%Z) l /\
    (forall r a b, g !! r = Some a -> g !! S r = Some b -> a <> b).
Proof.
  intros Hd. destruct (C11_group_id addr p Hd) as (ids & k & E & Hl & Hk & H). destruct Hd as (O & P & F & S).
  assert (Er : api_group_rle addr p = vec_group_rle row_equal (proxy_rows p) (map (row_hash_val addr true) (proxy_rows p)))
    by (unfold api_group_rle; by rewrite with_hash_ok by (done || by apply hashable_proxy)).
  destruct (vec_group_rle_spec row_equal rsem rdom _ rspec (row_hash_spec addr true) (proxy_rows p)) as (ids' & g & l & GI & E' & Hgl & Hdec & Hpos & Hadj);
    [by apply proxy_rows_dom|unfold fits; by rewrite proxy_rows_length|].
  exists ids, (Z.of_nat k), g, l. rewrite Er, E'. split_and!; try done.
  - f_equal. f_equal. f_equal. rewrite proxy_rows_length. by apply (card_fun _ _ _ _ (firsts_card p (proxy_size p) O P ltac:(lia)) Hk).
  - split; [done|]. apply list_eq. intros i. destruct (group_ids_of p ids' O P GI) as [Hl' H'].
    destruct (decide (i < proxy_size p)) as [Hi|Hi].
    + destruct (H i Hi) as (z & -> & (f & kf & Hf & Ff & Rf & Cf & ->) & _).
      change (concat _) with (rle_decode g l). rewrite Hdec.
      destruct (H' i Hi) as (z' & -> & (f' & kf' & Hf' & Ff' & Rf' & Cf' & ->)). f_equal.
      assert (f = f') as <-.
      { unfold rows_equal, row_same in *. destruct (Nat.lt_trichotomy f f') as [Hlt|[Hlt|Hlt]]; [|done|].
        - destruct (Ff' f Hlt). unfold rows_equal, row_same. congruence.
        - destruct (Ff f' Hlt). unfold rows_equal, row_same. congruence. }
      by rewrite (card_fun _ _ _ _ Cf Cf').
    + change (concat _) with (rle_decode g l). rewrite Hdec. rewrite !lookup_ge_None_2 by lia. done.
Qed.
Print Assumptions C13_group_rle.
Definition exr : proxy := PVec (Vec TInt [EInt 3; EInt 3; EInt 1; EInt 3; EInt 3; EInt 3; EInt NA_INTEGER]%Z).
Example C13_hyps : dictable exr. Proof. crush_dict. Qed.
Example C13_run : api_group_rle addr0 exr = Ok ([1; 2; 1; 3]%Z, [2; 1; 3; 1]%Z, 3%Z). Proof. vm_compute. reflexivity. Qed.

(** ** C14 *)
Section sets.
  Context (addr : rstr -> Z) (x y : proxy).
  Context (Hx : dictable x) (Hy : dictable y).
  Let Dx := proxy_rows_dom x (proj1 Hx) (proj1 (proj2 Hx)).
  Let Dy := proxy_rows_dom y (proj1 Hy) (proj1 (proj2 Hy)).
  Lemma fits_rows p : dictable p -> fits (proxy_rows p).
  Proof. intros (_ & _ & _ & S). unfold fits. by rewrite proxy_rows_length. Qed.

  Theorem C14_intersect : exists out, api_set_intersect addr x y = Ok out /\
    locates (proxy_size x) (fun i => first_row x i /\ row_in x i y) out.
  Proof.
    unfold api_set_intersect. destruct Hx as (O & P & F & S), Hy as (O' & P' & F' & S').
    rewrite !with_hash_ok by (done || by apply hashable_proxy).
    destruct (vec_set_intersect_spec row_equal rsem rdom _ rspec (row_hash_spec addr true) (proxy_rows x) (proxy_rows y) Dx Dy (fits_rows x Hx)) as (out & E & HL).
    exists out. split; [done|]. rewrite proxy_rows_length in HL. revert HL. apply locates_ext. intros j Hj.
    rewrite is_first_row by done. rewrite <- occurs_row by done. done.
  Qed.
  Theorem C14_difference : exists out, api_set_difference addr x y = Ok out /\
    locates (proxy_size x) (fun i => first_row x i /\ ~ row_in x i y) out.
  Proof.
    unfold api_set_difference. destruct Hx as (O & P & F & S), Hy as (O' & P' & F' & S').
    rewrite !with_hash_ok by (done || by apply hashable_proxy).
    destruct (vec_set_difference_spec row_equal rsem rdom _ rspec (row_hash_spec addr true) (proxy_rows x) (proxy_rows y) Dx Dy (fits_rows x Hx)) as (out & E & HL).
    exists out. split; [done|]. rewrite proxy_rows_length in HL. revert HL. apply locates_ext. intros j Hj.
    rewrite is_first_row by done. rewrite <- occurs_row by done. done.
  Qed.
  Theorem C14_union : exists ox oy, api_set_union addr x y = Ok (ox, oy) /\
    locates (proxy_size x) (first_row x) ox /\
    locates (proxy_size y) (fun i => first_row y i /\ ~ row_in y i x) oy.
  Proof.
    unfold api_set_union. destruct Hx as (O & P & F & S), Hy as (O' & P' & F' & S').
    rewrite !with_hash_ok by (done || by apply hashable_proxy).
    destruct (vec_set_union_spec row_equal rsem rdom _ rspec (row_hash_spec addr true) (proxy_rows x) (proxy_rows y) Dx Dy (fits_rows x Hx) (fits_rows y Hy)) as (ox & oy & E & HL1 & HL2).
    exists ox, oy. split; [done|]. rewrite proxy_rows_length in HL1. rewrite !proxy_rows_length in HL2. split.
    - revert HL1. apply locates_ext. intros j Hj. by rewrite is_first_row.
    - revert HL2. apply locates_ext. intros j Hj.
      rewrite is_first_row by done. rewrite <- occurs_row by done. by rewrite proxy_rows_length.
  Qed.
  Theorem C14_symmetric_difference : exists ox oy, api_set_symmetric_difference addr x y = Ok (ox, oy) /\
    locates (proxy_size x) (fun i => first_row x i /\ ~ row_in x i y) ox /\
    locates (proxy_size y) (fun i => first_row y i /\ ~ row_in y i x) oy.
  Proof.
    unfold api_set_symmetric_difference. destruct Hx as (O & P & F & S), Hy as (O' & P' & F' & S').
    rewrite !with_hash_ok by (done || by apply hashable_proxy).
    destruct (vec_set_symmetric_difference_spec row_equal rsem rdom _ rspec (row_hash_spec addr true) (proxy_rows x) (proxy_rows y) Dx Dy (fits_rows x Hx) (fits_rows y Hy)) as (ox & oy & E & HL1 & HL2).
    exists ox, oy. split; [done|]. rewrite !proxy_rows_length in HL1. rewrite !proxy_rows_length in HL2. split.
    - revert HL1. apply locates_ext. intros j Hj. rewrite is_first_row by done. rewrite <- occurs_row by done. by rewrite proxy_rows_length.
    - revert HL2. apply locates_ext. intros j Hj.
      rewrite is_first_row by done. rewrite <- occurs_row by done. by rewrite proxy_rows_length.
  Qed.
End sets.
Print Assumptions C14_intersect.
Print Assumptions C14_difference.
Print Assumptions C14_union.
Print Assumptions C14_symmetric_difference.
Example C14_run : api_set_intersect addr0 exd exe = Ok [4; 7]%Z /\ api_set_difference addr0 exd exe = Ok [1; 2]%Z /\
  api_set_union addr0 exd exe = Ok ([1; 2; 4; 7], [3])%Z /\ api_set_symmetric_difference addr0 exd exe = Ok ([1; 2], [3])%Z.
Proof. vm_compute. done. Qed.
