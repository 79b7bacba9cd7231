(** * Lemmas: missing.c and complete.c *)
From Verif Require Import Base M_Double M_Scalar M_Hash M_Object M_Proxy Spec_Value Spec_Equal Spec_Missing
  L_Scalar L_Proxy L_Equal.

Lemma row_is_missing_spec r : Forall elt_in_range r -> row_is_missing r = true <-> row_missing r.
Proof.
  induction 1 as [|e r He Hr IH]; simpl; [split; [constructor|done]|].
  pose proof (elt_missing_spec e He) as Hm. unfold row_missing in *. rewrite Forall_cons.
  destruct (elt_is_missing e); simpl; [rewrite IH; tauto|]. split; [done|]. intros [H _].
  apply Hm in H. done.
Qed.
Lemma row_is_incomplete_spec r : Forall elt_in_range r -> row_is_incomplete r = false <-> row_complete r.
Proof.
  induction 1 as [|e r He Hr IH]; simpl; [split; [constructor|done]|].
  pose proof (elt_missing_spec e He) as Hm. unfold row_complete in *. rewrite Forall_cons.
  destruct (elt_is_missing e); simpl; [|rewrite IH].
  - split; [done|]. intros [H _]. destruct H. by apply Hm.
  - split; [|tauto]. intros H. split; [|done]. intros H'. apply Hm in H'. done.
Qed.

Lemma detect_missing_loop_spec x :
  detect_missing_loop x = Ok (map (fun e => b2i (elt_is_missing e)) x).
Proof.
  unfold detect_missing_loop, alloc.
  rewrite (for_fill _ (fun i => match x !! i with Some e => b2i (elt_is_missing e) | None => 0%Z end)).
  - f_equal. apply list_eq. intros i. rewrite !list_lookup_fmap.
    destruct (x !! i) as [e|] eqn:E; simpl.
    + rewrite lookup_seq_lt by by eapply lookup_lt_Some. simpl. by rewrite E.
    + rewrite lookup_seq_ge; [done|]. by apply lookup_ge_None.
  - apply replicate_length.
  - intros i out Hi Hl. destruct (lookup_lt_is_Some_nth x i Hi) as [e E].
    rewrite (proj2 (rd_Ok x i e) E). simpl. by rewrite E.
Qed.

(** The in-place narrowing of [v_loc]. *)
Lemma col_detect_missing_spec x v_loc n :
  n <= length v_loc -> Forall (fun i => i < length x) (take n v_loc) ->
  exists v_loc' m, col_detect_missing x v_loc n = Ok (v_loc', m) /\ length v_loc' = length v_loc /\ m <= n /\
    take m v_loc' = filter (fun i => match x !! i with Some e => elt_is_missing e | None => false end = true) (take n v_loc).
Proof.
  intros Hn HF. unfold col_detect_missing.
  set (P := fun i => match x !! i with Some e => elt_is_missing e | None => false end = true).
  destruct (for_inv (fun i '(v, m) => length v = length v_loc /\ m <= i /\ drop i v = drop i v_loc /\
       take m v = filter P (take i v_loc)) 0 n
       (fun i '(v_loc, new_loc_size) =>
          let! loc := rd v_loc i in
          let! v_loc := wr v_loc new_loc_size loc in
          let! a := rd x loc in
          Ok (v_loc, new_loc_size + (if elt_is_missing a then 1 else 0))) (v_loc, 0)) as ([v m] & Hf & H1 & H2 & H3 & H4).
  - split_and!; try done. 
  - intros i [v m] Hi (H1 & H2 & H3 & H4).
    destruct (lookup_lt_is_Some_nth v_loc i) as [loc E]; [lia|].
    assert (E' : v !! i = Some loc).
    { pose proof (f_equal (lookup 0) H3) as K. rewrite !lookup_drop, Nat.add_0_r in K. congruence. }
    rewrite (proj2 (rd_Ok v i loc) E'). simpl. rewrite wr_Ok by lia. simpl.
    assert (Hloc : loc < length x).
    { rewrite Forall_lookup in HF. apply (HF i). rewrite lookup_take by lia. exact E. }
    destruct (lookup_lt_is_Some_nth x loc Hloc) as [e Ee].
    rewrite (proj2 (rd_Ok x loc e) Ee). simpl. eexists. split; [reflexivity|]. simpl.
    rewrite insert_length. split; [done|]. split; [destruct (elt_is_missing e); lia|].
    split.
    { rewrite drop_insert_gt by lia. pose proof (f_equal (drop 1) H3) as K. rewrite !drop_drop in K.
      by replace (i + 1) with (S i) in K by lia. }
    rewrite (take_S_r _ _ _ E), filter_app, <- H4.
    destruct (elt_is_missing e) eqn:Em.
    + replace (m + 1) with (S m) by lia.
      rewrite (take_S_r _ _ loc) by (apply list_lookup_insert; lia).
      rewrite take_insert by lia. f_equal. rewrite filter_cons, decide_True; [done|].
      unfold P. by rewrite Ee.
    + rewrite Nat.add_0_r, take_insert by lia. rewrite filter_cons, decide_False; [by rewrite app_nil_r|].
      unfold P. rewrite Ee. congruence.
  - exists v, m. rewrite Hf. split_and!; done || lia.
Qed.

Definition col_missing_at (c : vec) (i : nat) : bool :=
  match v_data c !! i with Some e => elt_is_missing e | None => false end.

Lemma df_detect_missing_cols_spec n cols v_loc m :
  Forall (fun c => length (v_data c) = n) cols -> m <= length v_loc ->
  Forall (fun i => i < n) (take m v_loc) ->
  exists v_loc' m', df_detect_missing_cols cols v_loc m = Ok (v_loc', m') /\ m' <= length v_loc' /\
    take m' v_loc' = filter (fun i => forallb (fun c => col_missing_at c i) cols = true) (take m v_loc).
Proof.
  intros Hc. revert v_loc m. induction Hc as [|c cols Hc Hcs IH]; intros v_loc m Hm HF; simpl.
  - eexists _, _. split; [reflexivity|]. split; [done|]. symmetry.
    clear HF. induction (take m v_loc) as [|a l IHl]; [done|]. rewrite filter_cons, decide_True by done. by f_equal.
  - destruct (col_detect_missing_spec (v_data c) v_loc m) as (v1 & m1 & E1 & L1 & M1 & T1); [done| |].
    { rewrite Hc. done. }
    rewrite E1. simpl.
    set (P := fun i => match v_data c !! i with Some e => elt_is_missing e | None => false end = true) in *.
    assert (HF1 : Forall (fun i => i < n) (take m1 v1)).
    { rewrite T1. apply Forall_forall. intros i Hi. apply elem_of_list_filter in Hi as [_ Hi].
      by eapply Forall_forall in HF. }
    assert (Hcomb : filter (fun i => forallb (fun c => col_missing_at c i) cols = true) (take m1 v1) =
             filter (fun i => col_missing_at c i && forallb (fun c => col_missing_at c i) cols = true) (take m v_loc)).
    { rewrite T1. clear. induction (take m v_loc) as [|a l IHl]; [done|].
      rewrite !filter_cons. destruct (decide (P a)) as [Hp|Hp]; unfold P in Hp; fold (col_missing_at c a) in Hp.
      - rewrite filter_cons. destruct (decide (forallb (fun c0 => col_missing_at c0 a) cols = true)) as [Hq|Hq].
        + rewrite decide_True by (by rewrite Hp, Hq). by rewrite IHl.
        + rewrite decide_False by (rewrite andb_true_iff; tauto). done.
      - rewrite decide_False by (rewrite andb_true_iff; tauto). done. }
    destruct (Nat.eqb_spec m1 0) as [->|Hnz].
    + eexists _, _. split; [reflexivity|]. split; [lia|]. rewrite <- Hcomb. done.
    + destruct (IH v1 m1) as (v2 & m2 & E2 & M2 & T2); [lia|done|].
      eexists _, _. split; [exact E2|]. split; [done|]. by rewrite T2, Hcomb.
Qed.

Lemma row_is_missing_cols n cols i :
  Forall (fun c => length (v_data c) = n) cols -> i < n ->
  row_is_missing (cols_row cols i) = forallb (fun c => col_missing_at c i) cols.
Proof.
  intros H Hi. induction H as [|c cs Hc H IH]; [done|].
  destruct (lookup_lt_is_Some_nth (v_data c) i) as [e E]; [lia|].
  rewrite (cols_row_cons _ _ _ e) by done. simpl. unfold col_missing_at at 1. rewrite E, IH.
  by destruct (elt_is_missing e).
Qed.

(** Writing 1 at a duplicate-free list of locations. *)
Lemma for_mark locs (out0 : list Z) :
  Forall (fun i => i < length out0) locs ->
  for_ 0 (length locs) (fun i out => let! loc := rd locs i in wr out loc 1%Z) out0 =
  Ok (imap (fun i v => if decide (i ∈ locs) then 1%Z else v) out0).
Proof.
  intros HF.
  destruct (for_inv (fun i out => length out = length out0 /\ forall k, k < length out0 ->
      out !! k = if decide (k ∈ take i locs) then Some 1%Z else out0 !! k) 0 (length locs)
      (fun i out => let! loc := rd locs i in wr out loc 1%Z) out0) as (out & Hf & Hl & Ho).
  - split; [done|]. intros k Hk. by rewrite decide_False by (apply not_elem_of_nil).
  - intros i out Hi (Hl & Ho). destruct (lookup_lt_is_Some_nth locs i) as [loc E]; [lia|].
    rewrite (proj2 (rd_Ok _ _ _) E). simpl.
    assert (loc < length out0) by (eapply Forall_lookup_1 in HF; [|exact E]; done).
    rewrite wr_Ok by lia. eexists. split; [reflexivity|]. rewrite insert_length. split; [done|].
    intros k Hk. rewrite (take_S_r _ _ _ E).
    destruct (decide (k = loc)) as [->|Hne].
    + rewrite list_lookup_insert by lia. rewrite decide_True; [done|]. rewrite elem_of_app, elem_of_list_singleton. by right.
    + rewrite list_lookup_insert_ne by done. rewrite Ho by done.
      destruct (decide (k ∈ take i locs)).
      * rewrite decide_True; [done|]. rewrite elem_of_app. by left.
      * rewrite decide_False; [done|]. rewrite elem_of_app, elem_of_list_singleton. tauto.
  - rewrite Hf. f_equal. apply list_eq. intros k. rewrite list_lookup_imap.
    destruct (decide (k < length out0)) as [Hk|Hk].
    + rewrite Ho by done. simpl. rewrite firstn_all. destruct (lookup_lt_is_Some_nth out0 k Hk) as [v Ev].
      rewrite Ev. simpl. by destruct (decide (k ∈ locs)).
    + rewrite !lookup_ge_None_2 by lia. done.
Qed.

Lemma for_mark_take locs m (out0 : list Z) :
  m <= length locs ->
  for_ 0 m (fun i out => let! loc := rd locs i in wr out loc 1%Z) out0 =
  for_ 0 (length (take m locs)) (fun i out => let! loc := rd (take m locs) i in wr out loc 1%Z) out0.
Proof.
  intros Hm. rewrite take_length, min_l by done. apply for_ext. intros i s Hi. unfold rd.
  by rewrite lookup_take by lia.
Qed.

Lemma df_detect_missing_spec n cols :
  Forall (fun c => length (v_data c) = n) cols ->
  df_detect_missing n cols = Ok (map (fun i => b2i (row_is_missing (cols_row cols i))) (seq 0 n)).
Proof.
  intros Hc. unfold df_detect_missing.
  destruct (df_detect_missing_cols_spec n cols (seq 0 n) n) as (v & m & E & M & T); [done| | |].
  { by rewrite seq_length. }
  { apply Forall_take, Forall_forall. intros i Hi. apply elem_of_seq in Hi. lia. }
  rewrite E. simpl. rewrite for_mark_take by done.
  rewrite (take_ge (seq 0 n)) in T by (by rewrite seq_length).
  rewrite for_mark.
  - f_equal. apply list_eq. intros i. rewrite list_lookup_imap.
    destruct (decide (i < n)) as [Hi|Hi].
    + rewrite lookup_replicate_2 by done. simpl. rewrite !list_lookup_fmap, lookup_seq_lt by done.
      simpl. f_equal. rewrite T. rewrite (row_is_missing_cols n) by done.
      destruct (decide (i ∈ filter (fun j => forallb (fun c => col_missing_at c j) cols = true) (seq 0 n))) as [Hin|Hin].
      * apply elem_of_list_filter in Hin as [Hin _]. by rewrite Hin.
      * destruct (forallb (fun c => col_missing_at c i) cols) eqn:Ef; [|done].
        destruct Hin. apply elem_of_list_filter. split; [done|]. apply elem_of_seq. lia.
    + rewrite lookup_ge_None_2 by (rewrite replicate_length; lia). simpl.
      rewrite !list_lookup_fmap, lookup_seq_ge by lia. done.
  - rewrite T, replicate_length. apply Forall_forall. intros i Hi. apply elem_of_list_filter in Hi as [_ Hi].
    apply elem_of_seq in Hi. lia.
Qed.

Lemma vec_detect_missing_rows p : proxy_wf p ->
  vec_detect_missing p = Ok (map (fun i => b2i (row_is_missing (proxy_row p i))) (seq 0 (proxy_size p))).
Proof.
  intros W. destruct p as [v|n cols]; simpl.
  - rewrite detect_missing_loop_spec. f_equal. apply list_eq. intros i. rewrite !list_lookup_fmap.
    destruct (v_data v !! i) as [e|] eqn:E; simpl.
    + rewrite lookup_seq_lt by by eapply lookup_lt_Some. simpl. unfold proxy_row. simpl.
      rewrite (cols_row_cons _ _ _ e) by done. simpl. by destruct (elt_is_missing e).
    + rewrite lookup_seq_ge; [done|]. by apply lookup_ge_None.
  - apply df_detect_missing_spec. by apply (proxy_wf_len (PDf n cols)).
Qed.

Lemma indicates_map n (f : nat -> bool) P :
  (forall i, i < n -> f i = true <-> P i) ->
  indicates n P (map (fun i => b2i (f i)) (seq 0 n)).
Proof.
  intros H. split; [by rewrite map_length, seq_length|]. intros i Hi.
  rewrite !list_lookup_fmap, lookup_seq_lt by done. simpl.
  pose proof (H i Hi) as Hi'. destruct (f i); simpl; [left|right]; (split; [|done]).
  - by apply Hi'.
  - intros K. apply Hi' in K. done.
Qed.

Theorem vec_detect_missing_correct p : proxy_ok p ->
  exists out, vec_detect_missing p = Ok out /\
    indicates (proxy_size p) (fun i => row_missing (proxy_row p i)) out.
Proof.
  intros [W R]. rewrite vec_detect_missing_rows by done. eexists. split; [reflexivity|].
  apply indicates_map. intros i Hi. apply row_is_missing_spec. unfold proxy_row. by apply row_in_range.
Qed.

(** First missing *)
Lemma first_missing_loop_spec x : exists i, first_missing_loop x = Ok i /\ i <= length x /\
  (forall k e, k < i -> x !! k = Some e -> elt_is_missing e = false) /\
  (forall e, x !! i = Some e -> elt_is_missing e = true).
Proof.
  unfold first_missing_loop. 
  destruct (for_brk_inv (fun i r => r = length x /\ forall k e, k < i -> x !! k = Some e -> elt_is_missing e = false)
    (fun i => i <= length x /\ (forall k e, k < i -> x !! k = Some e -> elt_is_missing e = false) /\
  (forall e, x !! i = Some e -> elt_is_missing e = true)) 0 (length x)
    (fun i _ => let! a := rd x i in if elt_is_missing a then Ok (Break i) else Ok (Next (length x))) (length x)) as (i & E & H).
  - split; [done|]. intros; lia.
  - intros i r Hi (Hr & Hk). destruct (lookup_lt_is_Some_nth x i) as [e Ee]; [lia|].
    rewrite (proj2 (rd_Ok _ _ _) Ee). simpl. destruct (elt_is_missing e) eqn:Em.
    + right. eexists. split; [reflexivity|]. split_and!; [lia|done|]. intros e' E'. congruence.
    + left. eexists. split; [reflexivity|]. split; [done|]. intros k e' Hk' E'.
      destruct (decide (k = i)) as [->|]; [congruence|]. eapply Hk; [|done]. lia.
  - intros r (-> & Hk). split_and!; [done|done|]. intros e E. apply lookup_lt_Some in E. lia.
  - exists i. split; [exact E|done].
Qed.

Lemma vec_first_missing_spec p : proxy_wf p ->
  exists i, vec_first_missing p = Ok i /\ i <= proxy_size p /\
    (forall k, k < i -> row_is_missing (proxy_row p k) = false) /\
    (i < proxy_size p -> row_is_missing (proxy_row p i) = true).
Proof.
  intros W. pose proof (proxy_wf_len p W) as HL. destruct p as [v|n cols]; simpl in *.
  - destruct (first_missing_loop_spec (v_data v)) as (i & E & H1 & H2 & H3).
    exists i. split_and!; try done.
    + intros k Hk. destruct (lookup_lt_is_Some_nth (v_data v) k) as [e Ee]; [lia|].
      unfold proxy_row. simpl. rewrite (cols_row_cons _ _ _ e) by done. simpl. by rewrite (H2 k e).
    + intros Hi. destruct (lookup_lt_is_Some_nth (v_data v) i) as [e Ee]; [lia|].
      unfold proxy_row. simpl. rewrite (cols_row_cons _ _ _ e) by done. simpl. by rewrite (H3 e).
  - unfold df_first_missing.
    assert (H0 : exists i0, (match cols with [] => Ok 0 | c :: _ => first_missing_loop (v_data c) end) = Ok i0 /\
              i0 <= n /\ forall k, k < i0 -> row_is_missing (cols_row cols k) = false).
    { destruct cols as [|c cs].
      - exists 0. split_and!; [done|lia|intros; lia].
      - destruct (first_missing_loop_spec (v_data c)) as (i & E & H1 & H2 & H3).
        apply Forall_cons in HL as [HL _]. exists i. split_and!; [done|lia|]. intros k Hk.
        destruct (lookup_lt_is_Some_nth (v_data c) k) as [e Ee]; [lia|].
        rewrite (cols_row_cons _ _ _ e) by done. simpl. by rewrite (H2 k e). }
    destruct H0 as (i0 & -> & Hi0 & Hk0). simpl.
    destruct (negb (length cols =? 0) && (i0 =? n)) eqn:Eb.
    { apply andb_true_iff in Eb as [_ Eb]. apply Nat.eqb_eq in Eb as ->. exists n. split_and!; [done|lia|done|lia]. }
    set (Q := fun i => i <= n /\
    (forall k, k < i -> row_is_missing (cols_row cols k) = false) /\
    (i < n -> row_is_missing (cols_row cols i) = true)).
    destruct (for_brk_inv (fun i r => r = n /\ forall k, k < i -> row_is_missing (cols_row cols k) = false) Q i0 (n - i0)
       (fun i _ => if row_is_missing (cols_row cols i) then Ok (Break i) else Ok (Next n)) n) as (i & E & H).
    + done.
    + intros i r Hi (Hr & Hk). destruct (row_is_missing (cols_row cols i)) eqn:Em; [right|left].
      * eexists. split; [done|]. unfold Q. split_and!; [lia|done|done].
      * eexists. split; [done|]. split; [done|]. intros k Hk'. destruct (decide (k = i)) as [->|]; [done|]. apply Hk. lia.
    + intros r (-> & Hk). unfold Q. split_and!; [lia| |lia]. replace (i0 + (n - i0)) with n in Hk by lia. done.
    + exists i. split; [exact E|]. exact H.
Qed.

Theorem vec_any_missing_correct p : proxy_ok p ->
  exists b, vec_any_missing p = Ok b /\
    (b = true <-> exists i, i < proxy_size p /\ row_missing (proxy_row p i)).
Proof.
  intros [W R]. unfold vec_any_missing. destruct (vec_first_missing_spec p W) as (i & -> & H1 & H2 & H3). simpl.
  eexists. split; [reflexivity|].
  assert (HR : forall k, row_is_missing (proxy_row p k) = true <-> row_missing (proxy_row p k)).
  { intros k. apply row_is_missing_spec. by apply row_in_range. }
  destruct (Nat.eqb_spec i (proxy_size p)) as [->|Hne]; simpl.
  - split; [done|]. intros (k & Hk & Hm). apply HR in Hm. rewrite H2 in Hm by done. done.
  - split; [|done]. intros _. exists i. split; [lia|]. apply HR, H3. lia.
Qed.

(** Complete *)
Lemma detect_complete_loop_spec x n out :
  length x = n -> length out = n ->
  detect_complete_loop x n out = Ok (zip_with (fun e v => if elt_is_missing e then 0%Z else v) x out).
Proof.
  intros Hx Ho. unfold detect_complete_loop.
  destruct (for_inv (fun i o => length o = n /\ forall k e v, x !! k = Some e -> out !! k = Some v ->
     o !! k = Some (if decide (k < i) then if elt_is_missing e then 0%Z else v else v)) 0 n
    (fun i out => let! a := rd x i in if elt_is_missing a then wr out i 0%Z else Ok out) out) as (o & E & Hl & H).
  - split; [done|]. intros. by rewrite decide_False by lia.
  - intros i o Hi (Hl & H). destruct (lookup_lt_is_Some_nth x i) as [e Ee]; [lia|].
    rewrite (proj2 (rd_Ok _ _ _) Ee). simpl.
    destruct (elt_is_missing e) eqn:Em.
    + rewrite wr_Ok by lia. eexists. split; [reflexivity|]. rewrite insert_length. split; [done|].
      intros k e' v Ek Ev. destruct (decide (k = i)) as [->|Hne].
      * rewrite list_lookup_insert by lia. rewrite decide_True by lia. rewrite Ee in Ek. injection Ek as <-.
        by rewrite Em.
      * rewrite list_lookup_insert_ne by done. rewrite (H k e' v) by done.
        destruct (decide (k < i)), (decide (k < S i)); done || lia.
    + eexists. split; [reflexivity|]. split; [done|]. intros k e' v Ek Ev. rewrite (H k e' v) by done.
      destruct (decide (k < i)), (decide (k < S i)); try done; try lia.
      assert (k = i) as -> by lia. rewrite Ee in Ek. injection Ek as <-. by rewrite Em.
  - rewrite E. f_equal. apply list_eq. intros k. rewrite lookup_zip_with.
    destruct (decide (k < n)) as [Hk|Hk].
    + destruct (lookup_lt_is_Some_nth x k) as [e Ee]; [lia|]. destruct (lookup_lt_is_Some_nth out k) as [v Ev]; [lia|].
      rewrite (H k e v Ee Ev), Ee, Ev. simpl. by rewrite decide_True by lia.
    + rewrite (lookup_ge_None_2 o), (lookup_ge_None_2 x) by lia. done.
Qed.

Lemma detect_complete_cols n cols g :
  Forall (fun c => length (v_data c) = n) cols ->
  foldl (fun acc c => let! out := acc in detect_complete_loop (v_data c) n out) (Ok (map (fun i => b2i (g i)) (seq 0 n))) cols
  = Ok (map (fun i => b2i (g i && negb (row_is_incomplete (cols_row cols i)))) (seq 0 n)).
Proof.
  intros H. revert g. induction H as [|c cs Hc H IH]; intros g; simpl.
  - f_equal. apply map_ext. intros i. by rewrite andb_true_r.
  - rewrite detect_complete_loop_spec; [|done|by rewrite map_length, seq_length].
    replace (zip_with _ _ _) with
      (map (fun i => b2i (g i && negb (col_missing_at c i))) (seq 0 n)).
    + rewrite IH. f_equal. apply list_eq. intros i. rewrite !list_lookup_fmap.
      destruct (decide (i < n)) as [Hi|Hi]; [|by rewrite lookup_seq_ge by lia].
      rewrite lookup_seq_lt by done. simpl. destruct (lookup_lt_is_Some_nth (v_data c) i) as [e E]; [lia|].
      rewrite (cols_row_cons _ _ _ e) by done. unfold col_missing_at. rewrite E. simpl.
      destruct (elt_is_missing e), (g i); done.
    + apply list_eq. intros i. rewrite lookup_zip_with, !list_lookup_fmap.
      destruct (decide (i < n)) as [Hi|Hi]; [|rewrite lookup_seq_ge, (lookup_ge_None_2 (v_data c)) by lia; done].
      rewrite lookup_seq_lt by done. simpl. destruct (lookup_lt_is_Some_nth (v_data c) i) as [e E]; [lia|].
      unfold col_missing_at. rewrite E. simpl. destruct (elt_is_missing e), (g i); done.
Qed.

Lemma vec_detect_complete_rows p : proxy_wf p ->
  vec_detect_complete p = Ok (map (fun i => b2i (negb (row_is_incomplete (proxy_row p i)))) (seq 0 (proxy_size p))).
Proof.
  intros W. unfold vec_detect_complete.
  replace (replicate (proxy_size p) 1%Z) with (map (fun i => b2i ((fun _ => true) i)) (seq 0 (proxy_size p))).
  - rewrite detect_complete_cols by by apply proxy_wf_len. done.
  - apply list_eq. intros i. rewrite !list_lookup_fmap. destruct (decide (i < proxy_size p)).
    + by rewrite lookup_seq_lt, lookup_replicate_2 by done.
    + rewrite lookup_seq_ge by lia. rewrite lookup_ge_None_2; [done|]. rewrite replicate_length. lia.
Qed.

Theorem vec_detect_complete_correct p : proxy_ok p ->
  exists out, vec_detect_complete p = Ok out /\
    indicates (proxy_size p) (fun i => row_complete (proxy_row p i)) out.
Proof.
  intros [W R]. rewrite vec_detect_complete_rows by done. eexists. split; [reflexivity|].
  apply indicates_map. intros i Hi. rewrite negb_true_iff. apply row_is_incomplete_spec. by apply row_in_range.
Qed.

(** r_lgl_which *)
Fixpoint which_from (k : Z) (x : list Z) : list Z :=
  match x with
  | [] => []
  | v :: x' => if (v =? 1)%Z then (k + 1)%Z :: which_from (k + 1) x' else which_from (k + 1) x'
  end.
Definition which_ (x : list Z) : list Z := which_from 0 x.

Lemma which_from_app k x y : which_from k (x ++ y) = which_from k x ++ which_from (k + Z.of_nat (length x)) y.
Proof.
  revert k. induction x as [|v x IH]; intros k; simpl; [by rewrite Z.add_0_r|].
  rewrite IH. replace (k + 1 + Z.of_nat (length x))%Z with (k + Z.of_nat (S (length x)))%Z by lia.
  by destruct (v =? 1)%Z.
Qed.
Lemma which_from_length k x : length (which_from k x) = r_lgl_sum x.
Proof.
  unfold r_lgl_sum. revert k. induction x as [|v x IH]; intros k; simpl; [done|].
  rewrite filter_cons. destruct (Z.eqb_spec v 1); simpl.
  - rewrite decide_True by done. simpl. by rewrite IH.
  - rewrite decide_False by done. by rewrite IH.
Qed.
Lemma r_lgl_sum_app x y : r_lgl_sum (x ++ y) = r_lgl_sum x + r_lgl_sum y.
Proof. unfold r_lgl_sum. by rewrite filter_app, app_length. Qed.

Lemma r_lgl_which_spec x : r_lgl_which x = Ok (which_ x).
Proof.
  unfold r_lgl_which. set (out_n := r_lgl_sum x).
  set (Q := fun '((out, j) : list Z * nat) => out = which_ x).
  assert (HI : forall i out j, length out = out_n -> j = r_lgl_sum (take i x) -> take j out = which_ (take i x) ->
     j >= out_n -> out = which_ x).
  { intros i out j Hl Hj Ht Hge.
    assert (Hsum : out_n = r_lgl_sum (take i x) + r_lgl_sum (drop i x)).
    { unfold out_n. rewrite <- r_lgl_sum_app. by rewrite take_drop. }
    assert (Hd : r_lgl_sum (drop i x) = 0) by lia.
    rewrite firstn_all2 in Ht by lia. rewrite Ht. rewrite <- (take_drop i x) at 2. unfold which_.
    rewrite which_from_app. rewrite (nil_length_inv (which_from _ (drop i x))); [by rewrite app_nil_r|].
    by rewrite which_from_length. }
  destruct (for_brk_inv (fun i '(out, j) => length out = out_n /\ j = r_lgl_sum (take i x) /\ take j out = which_ (take i x)) Q
    0 (length x) (fun i '(out, j) =>
      if out_n <=? j then Ok (Break (out, j))
      else
        let! out := wr out j (Z.of_nat i + 1)%Z in
        let! v := rd x i in
        Ok (Next (out, j + (if (v =? 1)%Z then 1 else 0)))) (alloc out_n, 0)) as ([out j] & E & H).
  - split_and!; [by apply replicate_length|done|done].
  - intros i [out j] Hi (Hl & Hj & Ht). destruct (Nat.leb_spec out_n j) as [Hle|Hlt].
    + right. eexists. split; [reflexivity|]. simpl. by eapply (HI i out j).
    + left. rewrite wr_Ok by lia. simpl. destruct (lookup_lt_is_Some_nth x i) as [v Ev]; [lia|].
      rewrite (proj2 (rd_Ok _ _ _) Ev). simpl. eexists. split; [reflexivity|]. simpl.
      rewrite insert_length. split; [done|].
      rewrite (take_S_r _ _ _ Ev), r_lgl_sum_app. unfold which_. rewrite which_from_app, take_length, min_l by lia.
      unfold r_lgl_sum at 2. rewrite filter_cons, Z.add_0_l. simpl.
      destruct (Z.eqb_spec v 1) as [->|Hne].
      * rewrite decide_True by done. simpl. split; [lia|].
        replace (j + 1) with (S j) by lia. rewrite (take_S_r _ _ (Z.of_nat i + 1)%Z) by (apply list_lookup_insert; lia).
        rewrite take_insert by lia. by rewrite Ht.
      * rewrite decide_False by done. simpl. split; [lia|]. rewrite Nat.add_0_r, take_insert by lia.
        by rewrite app_nil_r.
  - intros [out j] (Hl & Hj & Ht). simpl. eapply (HI (0 + length x)); try done.
    rewrite Hj. simpl. rewrite firstn_all. unfold out_n; lia.
  - rewrite E. simpl. simpl in H. by rewrite H.
Qed.

Lemma which_from_elem k x z : z ∈ which_from k x <-> exists i, z = (k + Z.of_nat i + 1)%Z /\ x !! i = Some 1%Z.
Proof.
  revert k. induction x as [|v x IH]; intros k; simpl.
  - split; [by intros ?%elem_of_nil|]. intros (i & _ & H). done.
  - assert (Hcase : z ∈ which_from (k + 1) x <-> exists i, z = (k + Z.of_nat (S i) + 1)%Z /\ x !! i = Some 1%Z).
    { rewrite IH. split; intros (i & -> & H); exists i; (split; [lia|done]). }
    destruct (Z.eqb_spec v 1) as [->|Hne].
    + rewrite elem_of_cons, Hcase. split.
      * intros [->|(i & -> & H)]; [exists 0|exists (S i)]; (split; [lia|done]).
      * intros ([|i] & -> & H); [left; lia|right; by eauto].
    + rewrite Hcase. split.
      * intros (i & -> & H). by exists (S i).
      * intros ([|i] & -> & H); simpl in H; [congruence|eauto].
Qed.
Lemma which_from_gt k x z : z ∈ which_from k x -> (k < z)%Z.
Proof. rewrite which_from_elem. intros (i & -> & _). lia. Qed.
Lemma which_from_sorted k x a b y z : a < b -> which_from k x !! a = Some y -> which_from k x !! b = Some z -> (y < z)%Z.
Proof.
  revert k a b. induction x as [|v x IH]; intros k a b Hab Ha Hb; simpl in *; [done|].
  destruct (v =? 1)%Z; [|by eapply IH].
  destruct b as [|b]; [lia|]. destruct a as [|a]; simpl in *.
  - injection Ha as <-. apply elem_of_list_lookup_2, which_from_gt in Hb. done.
  - eapply IH; [|exact Ha|exact Hb]. lia.
Qed.

Theorem vec_locate_complete_correct p : proxy_ok p ->
  exists out, vec_locate_complete p = Ok out /\
    locates (proxy_size p) (fun i => row_complete (proxy_row p i)) out.
Proof.
  intros Hok. unfold vec_locate_complete. destruct (vec_detect_complete_correct p Hok) as (w & -> & Hl & Hw). simpl.
  rewrite r_lgl_which_spec. eexists. split; [reflexivity|]. split.
  - intros k. unfold which_. rewrite which_from_elem. split.
    + intros (i & -> & Hi). exists i. assert (i < proxy_size p) by (apply lookup_lt_Some in Hi; lia).
      split_and!; [lia|done|]. destruct (Hw i) as [[? _]|[_ K]]; [done|done|]. congruence.
    + intros (i & -> & Hi & HP). exists i. split; [lia|]. destruct (Hw i Hi) as [[_ ?]|[K _]]; done.
  - intros a b x y Hab Ha Hb. by eapply which_from_sorted.
Qed.
