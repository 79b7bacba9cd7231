(** * Lemmas about runs *)
From Verif Require Import Base M_Double M_Scalar M_Hash M_Object M_Proxy Spec_Value Spec_Equal Spec_Missing Spec_Dict
  L_Scalar L_Proxy L_DictRows M_Slice M_Runs Spec_Runs L_Slice.
From Coq Require Import ZifyBool ZifyNat.
#[local] Arguments Z.mul : simpl never.
#[local] Arguments Z.add : simpl never.
#[local] Arguments Z.sub : simpl never.

(** The [k]-th position visited. *)
Definition pos (n : nat) (which : run_bound) (k : nat) : nat := match which with RStart => k | REnd => n - 1 - k end.
Lemma pos_lt n which k : k < n -> pos n which k < n.
Proof. destruct which; simpl; lia. Qed.
Lemma pos_pos n which k : k < n -> pos n which (pos n which k) = k.
Proof. destruct which; simpl; lia. Qed.
Lemma pos_inj n which k l : k < n -> l < n -> pos n which k = pos n which l -> k = l.
Proof. destruct which; simpl; lia. Qed.
Lemma iter_pos n which k : k < n ->
  (compute_iter_loc (Z.of_nat n) which + Z.of_nat k * compute_iter_step which)%Z = Z.of_nat (pos n which k).
Proof. destruct which; simpl; lia. Qed.

Lemma list_by_pos {A} n which (f : nat -> A) (out : list A) :
  length out = n -> (forall k, k < n -> out !! pos n which k = Some (f k)) ->
  out = map (fun i => f (pos n which i)) (seq 0 n).
Proof.
  intros Hl H. apply list_eq. intros i. destruct (decide (i < n)).
  - rewrite list_lookup_fmap, lookup_seq_lt by lia. simpl. rewrite <- H by (apply pos_lt; lia). by rewrite pos_pos.
  - rewrite !lookup_ge_None_2; [done|rewrite map_length, seq_length; lia|lia].
Qed.

Section detect.
  Context (equal : elt -> elt -> bool).
  Let dflt := ELgl 0%Z.
  (** [x] at the k-th and the previous position *)
  Definition cont (x : list elt) n which k : bool :=
    match k with 0 => false | S k' => equal (nth (pos n which k) x dflt) (nth (pos n which k') x dflt) end.

  Lemma detect_vec_spec x n which out0 : length x = n -> length out0 = n ->
    detect_run_bounds_vec equal x n which out0 = Ok (map (fun i => negb (cont x n which (pos n which i))) (seq 0 n)).
  Proof.
    intros Hx Ho. unfold detect_run_bounds_vec. destruct (Nat.eqb_spec n 0) as [->|Hn].
    { by destruct out0. }
    set (loc0 := compute_iter_loc (Z.of_nat n) which). set (step := compute_iter_step which).
    assert (Hit : forall k, k < n -> (loc0 + Z.of_nat k * step)%Z = Z.of_nat (pos n which k)) by apply iter_pos.
    pose proof (Hit 0 ltac:(lia)) as H0. assert (E0 : loc0 = Z.of_nat (pos n which 0)) by lia.
    pose proof (pos_lt n which 0 ltac:(lia)) as Hp0.
    rewrite (rdZ_Ok x loc0 dflt) by lia. cbn [bind].
    rewrite wrZ_Ok by lia. cbn [bind].
    destruct (for_inv (fun k (st : list bool * elt * Z) => length st.1.1 = n /\
        (forall m, m < k -> st.1.1 !! pos n which m = Some (negb (cont x n which m))) /\
        st.1.2 = nth (pos n which (k - 1)) x dflt /\ st.2 = (loc0 + Z.of_nat k * step)%Z)
      1 (n - 1) (fun _ '(out, ref, loc) =>
          let! e := rdZ x loc in
          let! out := wrZ out loc (negb (equal e ref)) in
          Ok (out, e, loc + step)%Z)
      (<[Z.to_nat loc0:=true]> out0, nth (Z.to_nat loc0) x dflt, loc0 + step)%Z) as ([[out ref] loc] & Hf & Hl & Hout & _).
    - cbn [fst snd]. rewrite insert_length. split; [done|]. split.
      + intros m Hm. assert (m = 0) as -> by lia. rewrite E0, Nat2Z.id. apply list_lookup_insert. lia.
      + split; [rewrite E0, Nat2Z.id; done|lia].
    - intros k [[out ref] loc] Hk (Hl & Hout & Er & El). cbn [fst snd] in *. subst ref loc.
      rewrite Hit by lia. pose proof (pos_lt n which k ltac:(lia)).
      rewrite (rdZ_Ok x _ dflt) by lia. cbn [bind]. rewrite wrZ_Ok by lia. cbn [bind].
      eexists; split; [done|]. cbn [fst snd]. rewrite insert_length, !Nat2Z.id. split; [done|]. split.
      + intros m Hm. destruct (decide (m = k)) as [->|].
        * rewrite list_lookup_insert by lia. destruct k as [|k]; [lia|]. simpl. by rewrite Nat.sub_0_r.
        * rewrite list_lookup_insert_ne; [apply Hout; lia|]. intros E. apply pos_inj in E; lia.
      + rewrite Nat.sub_succ, Nat.sub_0_r. split; [done|]. rewrite <- Hit by lia. lia.
    - rewrite Hf. cbn [bind fst snd] in *. f_equal. apply (list_by_pos _ which (fun k => negb (cont x n which k))); [done|].
      intros k Hk. apply Hout. lia.
  Qed.

  Lemma detect_col_spec x n which out0 (g : nat -> bool) : 0 < n -> length x = n -> g 0 = false ->
    out0 = map (fun i => g (pos n which i)) (seq 0 n) ->
    detect_run_bounds_col equal n which x out0 =
    Ok (map (fun i => let k := pos n which i in g k && match k with 0 => false | S k' => equal (nth (pos n which k') x dflt) (nth (pos n which k) x dflt) end) (seq 0 n)).
  Proof.
    intros Hn Hx Hg ->. unfold detect_run_bounds_col.
    set (loc0 := compute_iter_loc (Z.of_nat n) which). set (step := compute_iter_step which).
    set (h k := g k && match k with 0 => false | S k' => equal (nth (pos n which k') x dflt) (nth (pos n which k) x dflt) end).
    assert (Hit : forall k, k < n -> (loc0 + Z.of_nat k * step)%Z = Z.of_nat (pos n which k)) by apply iter_pos.
    pose proof (Hit 0 ltac:(lia)) as H0. assert (E0 : loc0 = Z.of_nat (pos n which 0)) by lia.
    pose proof (pos_lt n which 0 ltac:(lia)) as Hp0.
    rewrite (rdZ_Ok x loc0 dflt) by lia. cbn [bind].
    assert (Hg0 : forall k, k < n -> map (fun i => g (pos n which i)) (seq 0 n) !! pos n which k = Some (g k)).
    { intros k Hk. rewrite list_lookup_fmap, lookup_seq_lt by (apply pos_lt; lia). simpl. by rewrite pos_pos. }
    destruct (for_inv (fun k (st : list bool * elt * Z) => length st.1.1 = n /\
        (forall m, m < k -> st.1.1 !! pos n which m = Some (h m)) /\
        (forall m, k <= m < n -> st.1.1 !! pos n which m = Some (g m)) /\
        st.1.2 = nth (pos n which (k - 1)) x dflt /\ st.2 = (loc0 + Z.of_nat k * step)%Z)
      1 (n - 1) (fun _ '(out, ref, loc) =>
        let! e := rdZ x loc in
        let! o := rdZ out loc in
        let! out := wrZ out loc (o && equal ref e) in
        Ok (out, e, loc + step)%Z)
      (map (fun i => g (pos n which i)) (seq 0 n), nth (Z.to_nat loc0) x dflt, loc0 + step)%Z) as ([[out ref] loc] & Hf & Hl & Hout & _).
    - cbn [fst snd]. rewrite map_length, seq_length. split; [done|]. split; [|split; [|split]].
      + intros m Hm. assert (m = 0) as -> by lia. rewrite Hg0 by lia. unfold h. by rewrite Hg.
      + intros m Hm. apply Hg0. lia.
      + rewrite E0, Nat2Z.id. done.
      + lia.
    - intros k [[out ref] loc] Hk (Hl & Hout & Hrest & Er & El). cbn [fst snd] in *. subst ref loc.
      rewrite Hit by lia. pose proof (pos_lt n which k ltac:(lia)).
      rewrite (rdZ_Ok x _ dflt) by lia. cbn [bind].
      rewrite rdZ_nat. assert (rd out (pos n which k) = Ok (g k)) as -> by (apply rd_Ok, Hrest; lia). cbn [bind].
      rewrite wrZ_Ok by lia. cbn [bind].
      eexists; split; [done|]. cbn [fst snd]. rewrite insert_length, !Nat2Z.id. split; [done|]. split; [|split; [|split]].
      + intros m Hm. destruct (decide (m = k)) as [->|].
        * rewrite list_lookup_insert by lia. destruct k as [|k]; [lia|]. simpl. by rewrite Nat.sub_0_r.
        * rewrite list_lookup_insert_ne; [apply Hout; lia|]. intros E. apply pos_inj in E; lia.
      + intros m Hm. rewrite list_lookup_insert_ne; [apply Hrest; lia|]. intros E. apply pos_inj in E; lia.
      + by rewrite Nat.sub_succ, Nat.sub_0_r.
      + rewrite <- Hit by lia. lia.
    - rewrite Hf. cbn [bind fst snd] in *. f_equal. apply (list_by_pos _ which h); [done|].
      intros k Hk. apply Hout. lia.
  Qed.

  (** Continuation of a run over several columns. *)
  Definition conts (cols : list vec) n which k : bool :=
    match k with
    | 0 => false
    | S k' => forallb (fun c => equal (nth (pos n which k') (v_data c) dflt) (nth (pos n which k) (v_data c) dflt)) cols
    end.

  Lemma detect_df_spec cols n which out0 : Forall (fun c => length (v_data c) = n) cols -> length out0 = n ->
    detect_run_bounds_df equal cols n which out0 = Ok (map (fun i => negb (conts cols n which (pos n which i))) (seq 0 n)).
  Proof.
    intros Hc Ho. unfold detect_run_bounds_df. destruct (Nat.eqb_spec n 0) as [->|Hn].
    { by destruct out0. }
    set (loc0 := compute_iter_loc (Z.of_nat n) which). set (step := compute_iter_step which).
    assert (Hit : forall k, k < n -> (loc0 + Z.of_nat k * step)%Z = Z.of_nat (pos n which k)) by apply iter_pos.
    pose proof (Hit 0 ltac:(lia)) as H0. assert (E0 : loc0 = Z.of_nat (pos n which 0)) by lia.
    pose proof (pos_lt n which 0 ltac:(lia)) as Hp0.
    rewrite wrZ_Ok by lia. cbn [bind].
    destruct (for_inv (fun k (st : list bool * Z) => length st.1 = n /\
        (forall m, m < k -> st.1 !! pos n which m = Some (conts [] n which m)) /\ st.2 = (loc0 + Z.of_nat k * step)%Z)
      1 (n - 1) (fun _ '(out, loc) =>
          let! out := wrZ out loc true in Ok (out, loc + step)%Z)
      (<[Z.to_nat loc0:=false]> out0, loc0 + step)%Z) as ([out loc] & Hf & Hl & Hout & _).
    - cbn [fst snd]. rewrite insert_length. split; [done|]. split.
      + intros m Hm. assert (m = 0) as -> by lia. rewrite E0, Nat2Z.id. apply list_lookup_insert. lia.
      + lia.
    - intros k [out loc] Hk (Hl & Hout & El). cbn [fst snd] in *. subst loc.
      rewrite Hit by lia. pose proof (pos_lt n which k ltac:(lia)). rewrite wrZ_Ok by lia. cbn [bind].
      eexists; split; [done|]. cbn [fst snd]. rewrite insert_length, !Nat2Z.id. split; [done|]. split.
      + intros m Hm. destruct (decide (m = k)) as [->|].
        * rewrite list_lookup_insert by lia. by destruct k as [|k]; [lia|].
        * rewrite list_lookup_insert_ne; [apply Hout; lia|]. intros E. apply pos_inj in E; lia.
      + rewrite <- Hit by lia. lia.
    - rewrite Hf. cbn [bind fst snd] in *.
      assert (Eo : out = map (fun i => conts [] n which (pos n which i)) (seq 0 n)).
      { apply (list_by_pos _ which (conts [] n which)); [done|]. intros k Hk. apply Hout. lia. }
      destruct (for_inv (fun i st => st = map (fun j => conts (take i cols) n which (pos n which j)) (seq 0 n))
        0 (length cols) (fun i out =>
          let! c := rd cols i in
          detect_run_bounds_col equal n which (v_data c) out) out) as (st & Hf2 & ->).
      + by rewrite take_0.
      + intros i st Hi ->. destruct (lookup_lt_is_Some_nth cols i) as [c Hci]; [lia|].
        assert (rd cols i = Ok c) as -> by by apply rd_Ok. cbn [bind].
        rewrite (detect_col_spec _ _ _ _ (conts (take i cols) n which)); [|lia| |done|done].
        2:{ rewrite Forall_lookup in Hc. eauto. }
        eexists; split; [done|]. apply map_ext. intros j. cbv zeta.
        rewrite (take_S_r _ _ _ Hci). unfold conts. destruct (pos n which j) as [|k]; [done|].
        rewrite forallb_app. simpl. by rewrite andb_true_r.
      + rewrite Hf2. cbn [bind]. rewrite Nat.add_0_l, take_ge by lia.
        clear. set (g i := conts cols n which (pos n which i)).
        destruct (for_inv (fun i (st : list bool) => length st = n /\
            (forall m, m < i -> st !! m = Some (negb (g m))) /\ (forall m, i <= m < n -> st !! m = Some (g m)))
          0 n (fun i out => let! o := rd out i in wr out i (negb o)) (map g (seq 0 n))) as (st & Hf & Hl & Hs & _).
        * rewrite map_length, seq_length. split; [done|]. split; [lia|]. intros m Hm.
          rewrite list_lookup_fmap, lookup_seq_lt by lia. done.
        * intros i st Hi (Hl & H1 & H2). assert (rd st i = Ok (g i)) as -> by (apply rd_Ok, H2; lia). cbn [bind].
          rewrite wr_Ok by lia. eexists; split; [done|]. rewrite insert_length. split; [done|]. split.
          -- intros m Hm. destruct (decide (m = i)) as [->|]; [apply list_lookup_insert; lia|].
             rewrite list_lookup_insert_ne by done. apply H1. lia.
          -- intros m Hm. rewrite list_lookup_insert_ne by lia. apply H2. lia.
        * rewrite Hf. f_equal. apply list_eq. intros i. destruct (decide (i < n)).
          -- rewrite Hs by lia. rewrite list_lookup_fmap, lookup_seq_lt by lia. done.
          -- rewrite !lookup_ge_None_2; [done|rewrite map_length, seq_length; lia|lia].
  Qed.
End detect.
