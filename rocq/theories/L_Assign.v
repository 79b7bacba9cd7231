(** * Lemmas about assigning *)
From Verif Require Import Base M_Double M_Scalar M_Hash M_Object M_Proxy M_Slice Spec_Slice L_Proxy L_Slice L_SliceArray.
From Coq Require Import ZifyBool ZifyNat.
#[local] Arguments Z.mul : simpl never.
#[local] Arguments Z.add : simpl never.
#[local] Arguments Z.sub : simpl never.
#[local] Arguments Z.max : simpl never.

Section assign.
  Context {A : Type}.
  Implicit Types (x vals : list A) (locs : list Z).

  Definition puts x locs vals : list A := fold_left put (zip locs vals) x.

  Lemma put_length x p : length (put x p) = length x.
  Proof. unfold put. case_match; [done|]. apply insert_length. Qed.
  Lemma puts_length locs : forall vals x, length (puts x locs vals) = length x.
  Proof.
    unfold puts. induction locs as [|i l IH]; intros vals x; simpl; [done|].
    destruct vals as [|v vals]; simpl; [done|]. rewrite IH. apply put_length.
  Qed.
  Lemma puts_assigned x locs vals : Forall (loc_ok (Z.of_nat (length x))) locs -> length locs = length vals ->
    assigned x locs vals (puts x locs vals).
  Proof.
    intros H Hl. split; [apply puts_length|]. unfold puts. split.
    - revert x vals H Hl. induction locs as [|i l IH]; intros x vals H Hl j a Hj Hin; simpl; [done|].
      destruct vals as [|v vals]; [done|]. simpl. inversion H; subst.
      apply IH.
      + by rewrite put_length.
      + simpl in Hl. lia.
      + unfold put. simpl. case_match; [done|]. rewrite list_lookup_insert_ne; [done|].
        intros E. apply Hin. left. destruct H2 as [|]; [subst; by rewrite Z.eqb_refl in H0|]. lia.
      + intros Hc. apply Hin. by right.
    - revert x vals H Hl. induction locs as [|i l IH]; intros x vals H Hl k i' v Hk Hv Hne Hlast; simpl; [done|].
      destruct vals as [|v' vals]; [done|]. simpl. inversion H; subst.
      destruct k as [|k]; simpl in *.
      + injection Hk as ->. injection Hv as ->.
        assert (Hx : put x (i', v) !! Z.to_nat (i' - 1) = Some v).
        { unfold put. simpl. destruct (Z.eqb_spec i' NA_INTEGER); [done|].
          destruct H2 as [|]; [done|]. apply list_lookup_insert. lia. }
        assert (Hni : ~ In i' l).
        { intros Hin. apply elem_of_list_In, elem_of_list_lookup in Hin as [k Hk]. by apply (Hlast (S k)); [lia|]. }
        clear - Hx Hni H3 H2 Hl Hne.
        assert (Hl' : length l = length vals) by lia. clear Hl.
        assert (Hw : Forall (loc_ok (Z.of_nat (length (put x (i', v))))) l) by by rewrite put_length.
        revert Hx Hl' Hw Hni. generalize (put x (i', v)). clear H3. revert vals.
        induction l as [|i l IH]; intros vals y Hx Hl Hw Hni; simpl; [done|].
        destruct vals as [|w vals]; [done|]. simpl. inversion Hw; subst. apply IH.
        * unfold put. simpl. destruct (Z.eqb_spec i NA_INTEGER); [done|].
          rewrite list_lookup_insert_ne; [done|]. intros E. apply Hni. left.
          destruct H2 as [|], H1 as [|]; try done. lia.
        * simpl in Hl; lia.
        * by rewrite put_length.
        * intros ?. apply Hni. by right.
      + eapply IH; [by rewrite put_length|lia|done|done|done|].
        intros k' Hk' Hc. apply (Hlast (S k')); [lia|done].
  Qed.

  Lemma assign_loc_spec x locs vals : Forall (loc_ok (Z.of_nat (length x))) locs -> length locs = length vals ->
    assign_loc x locs vals = Ok (puts x locs vals).
  Proof.
    intros H Hl. unfold assign_loc. rewrite Hl, Nat.eqb_refl. simpl. rewrite <- Hl.
    cut (forall (p : list Z) (q : list A), length p = length q ->
      for_ (length p) (length locs) (fun i out =>
        let! j := rd (p ++ locs) i in
        if negb (j =? NA_INTEGER)%Z then
          let! v := rd (q ++ vals) i in
          wrZ out (j - 1) v
        else Ok out) x = Ok (puts x locs vals)).
    { intros Hc. apply (Hc [] []). done. }
    revert x vals H Hl. induction locs as [|i l IH]; intros x vals H Hl p q Hpq; [done|].
    destruct vals as [|v vals]; [done|]. inversion H; subst. cbn [length for_].
    assert (rd (p ++ i :: l) (length p) = Ok i) as ->.
    { apply rd_Ok. rewrite lookup_app_r, Nat.sub_diag by lia. done. }
    assert (rd (q ++ v :: vals) (length p) = Ok v) as ->.
    { apply rd_Ok. rewrite Hpq, lookup_app_r, Nat.sub_diag by lia. done. }
    cbn [bind].
    assert (E : (if negb (i =? NA_INTEGER)%Z then wrZ x (i - 1) v else Ok x) = Ok (put x (i, v))).
    { unfold put. simpl. destruct (Z.eqb_spec i NA_INTEGER); [done|]. simpl.
      destruct H2 as [|]; [done|]. apply wrZ_Ok. lia. }
    rewrite E. cbn [bind].
    specialize (IH (put x (i, v)) vals). rewrite put_length in IH.
    specialize (IH H3 ltac:(simpl in Hl; lia) (p ++ [i]) (q ++ [v])). rewrite !app_length in IH. simpl in IH.
    rewrite !Nat.add_1_r, <- !app_assoc in IH. simpl in IH. rewrite IH by lia. done.
  Qed.

  Lemma zip_snoc {B C} (l : list B) (k : list C) n a b : l !! n = Some a -> k !! n = Some b ->
    take (S n) (zip l k) = take n (zip l k) ++ [(a, b)].
  Proof. intros Ha Hb. apply take_S_r. rewrite lookup_zip_with, Ha. simpl. by rewrite Hb. Qed.

  Lemma assign_seq_spec x start n step vals :
    subscript_ok (Z.of_nat (length x)) (SSeq start n step) -> n = Z.of_nat (length vals) ->
    assign_seq x start n step vals = Ok (puts x (expand (SSeq start n step)) vals).
  Proof.
    intros (H & (Hst & Hn) & Hna & _) Hl. unfold assign_seq. rewrite Hl, Z.eqb_refl. rewrite <- Hl. cbn [negb].
    set (locs := expand (SSeq start n step)) in *.
    assert (Hloc : forall k, k < Z.to_nat n -> locs !! k = Some (start + Z.of_nat k * step + 1)%Z).
    { intros k Hk. unfold locs. simpl. rewrite list_lookup_fmap, lookup_seq_lt by lia. done. }
    assert (Hr : forall k, k < Z.to_nat n -> (0 <= start + Z.of_nat k * step < Z.of_nat (length x) /\
        start + Z.of_nat k * step + 1 <> NA_INTEGER)%Z).
    { intros k Hk. rewrite Forall_lookup in H, Hna. pose proof (Hna _ _ (Hloc k Hk)) as Hx. simpl in Hx.
      destruct (H _ _ (Hloc k Hk)); [done|]. split; [lia|done]. }
    destruct (for_inv (fun i (st : list A * Z) =>
        st = (fold_left put (take i (zip locs vals)) x, start + Z.of_nat i * step)%Z) 0 (Z.to_nat n)
       (fun i '(out, data) =>
          let! v := rd vals i in
          let! out := wrZ out data v in
          Ok (out, data + step)%Z) (x, start)) as (st & Hf & ->).
    - rewrite take_0. simpl. f_equal. lia.
    - intros i st Hi ->. destruct (lookup_lt_is_Some_nth vals i) as [v Hv]; [lia|].
      assert (rd vals i = Ok v) as -> by by apply rd_Ok. cbn [bind].
      destruct (Hr i ltac:(lia)) as [Hr1 Hr2].
      rewrite wrZ_Ok.
      2:{ rewrite <- (puts_length (take i locs) (take i vals) x) in Hr1. unfold puts in Hr1.
          rewrite <- zip_with_take in Hr1. exact Hr1. }
      cbn [bind]. eexists; split; [done|].
      rewrite (zip_snoc _ _ _ _ _ (Hloc i ltac:(lia)) Hv), fold_left_app. simpl.
      f_equal; [|lia]. unfold put at 2. simpl. destruct (Z.eqb_spec (start + Z.of_nat i * step + 1) NA_INTEGER); [done|].
      f_equal. lia.
    - rewrite Hf. cbn [bind]. rewrite Nat.add_0_l, take_ge; [done|].
      rewrite zip_with_length. unfold locs. simpl. rewrite map_length, seq_length. lia.
  Qed.

  Lemma assign_base_spec x s vals :
    subscript_ok (Z.of_nat (length x)) s -> length (expand s) = length vals -> (forall i n, s <> SRep i n) ->
    assign_base x s vals = Ok (puts x (expand s) vals).
  Proof.
    intros Hs Hl Hr. destruct s as [locs|i n|start n step]; simpl assign_base.
    - apply assign_loc_spec; [apply Hs|done].
    - by destruct (Hr i n).
    - apply assign_seq_spec; [done|]. simpl in Hl. rewrite map_length, seq_length in Hl.
      destruct Hs as (_ & (_ & ?) & _). lia.
  Qed.

  (** ** Arrays *)
  Definition shaped_assigned (x : list A) (d : nat) (E : nat) locs vals : list A :=
    flat_map (fun e => puts (chunk d e x) locs (chunk (length locs) e vals)) (seq 0 E).

  Lemma chunk_app_drop (x : list A) d e : (e + 1) * d <= length x ->
    drop (e * d) x = chunk d e x ++ drop ((e + 1) * d) x.
  Proof.
    intros H. unfold chunk. rewrite <- (take_drop d (drop (e * d) x)) at 1. rewrite drop_drop.
    do 2 f_equal. lia.
  Qed.
  Lemma puts_mid (P C R : list A) i v k :
    (i =? NA_INTEGER)%Z = false -> (1 <= i <= Z.of_nat (length C))%Z -> k = (Z.of_nat (length P) + (i - 1))%Z ->
    wrZ (P ++ C ++ R) k v = Ok (P ++ put C (i, v) ++ R).
  Proof.
    intros Hne Hi ->. rewrite wrZ_Ok by (rewrite !app_length; lia). f_equal.
    rewrite insert_app_r_alt by lia. f_equal. replace (Z.to_nat _ - length P) with (Z.to_nat (i - 1)) by lia.
    unfold put. simpl. rewrite Hne. rewrite insert_app_l by lia. done.
  Qed.

  Lemma assign_index_inner d locs : (0 <= d <= INT_MAX)%Z -> Forall (loc_ok d) locs ->
    forall (P C R : list A) (vals : list A) (q r : list A) (pre : list Z) prev base k,
    Z.of_nat (length P) = base -> Z.of_nat (length C) = d -> (base + d <= INT_MAX)%Z ->
    Z.of_nat (length q) = k -> (k + Z.of_nat (length locs) <= INT_MAX)%Z -> length vals = length locs ->
    (1 <= prev <= Z.max 1 d)%Z ->
    exists loc', for_ (length pre) (length locs) (fun j '(out, k, loc) =>
            let! step := rd (pre ++ steps_of prev locs) j in
            if (step =? NA_INTEGER)%Z then let! k := int_add k 1 in Ok (out, k, loc)
            else
              let! loc := int_add loc step in
              let! v := rdZ (q ++ vals ++ r) k in
              let! out := wrZ out loc v in
              let! k := int_add k 1 in
              Ok (out, k, loc)) (P ++ C ++ R, k, base + (prev - 1))%Z
      = Ok (P ++ puts C locs vals ++ R, k + Z.of_nat (length locs), loc')%Z.
  Proof.
    intros Hd H. induction H as [|i locs Hi H IH]; intros P C R vals q r pre prev base k HP HC Hb Hq Hk Hv Hp.
    { simpl. rewrite Z.add_0_r. eauto. }
    destruct vals as [|v vals]; [done|]. cbn [length for_ steps_of] in *.
    assert (Hv' : length vals = length locs) by lia.
    destruct (Z.eqb_spec i NA_INTEGER) as [->|Hne].
    - assert (rd (pre ++ NA_INTEGER :: steps_of prev locs) (length pre) = Ok NA_INTEGER) as ->.
      { apply rd_Ok. rewrite lookup_app_r, Nat.sub_diag by lia. done. }
      cbn [bind]. rewrite Z.eqb_refl. rewrite int_add_in by (unfold INT_MIN; lia). cbn [bind].
      destruct (IH P C R vals (q ++ [v]) r (pre ++ [NA_INTEGER]) prev base (k + 1)%Z) as [loc' Hf];
        [done|done|done|rewrite app_length; simpl; lia|lia|done|done|].
      exists loc'. rewrite !app_length in Hf. cbn [length] in Hf. rewrite !Nat.add_1_r in Hf.
      rewrite <- (app_assoc pre), <- (app_assoc q) in Hf. simpl app in Hf. simpl app. rewrite Hf.
      unfold puts. simpl. unfold put at 3. simpl. do 3 f_equal. lia.
    - destruct Hi as [|Hi]; [done|].
      assert (rd (pre ++ (i - prev)%Z :: steps_of i locs) (length pre) = Ok (i - prev)%Z) as ->.
      { apply rd_Ok. rewrite lookup_app_r, Nat.sub_diag by lia. done. }
      cbn [bind]. destruct (Z.eqb_spec (i - prev) NA_INTEGER); [unfold NA_INTEGER, INT_MIN, INT_MAX in *; lia|].
      rewrite int_add_in by (unfold INT_MIN; lia). cbn [bind].
      assert (rdZ (q ++ (v :: vals) ++ r) k = Ok v) as ->.
      { rewrite <- Hq, rdZ_nat. apply rd_Ok. rewrite lookup_app_r, Nat.sub_diag by lia. done. }
      cbn [bind]. rewrite (puts_mid P C R i) by lia. cbn [bind].
      rewrite int_add_in by (unfold INT_MIN; lia). cbn [bind].
      destruct (IH P (put C (i, v)) R vals (q ++ [v]) r (pre ++ [(i - prev)%Z]) i base (k + 1)%Z) as [loc' Hf];
        [done|by rewrite put_length|done|rewrite app_length; simpl; lia|lia|done|lia|].
      exists loc'. rewrite !app_length in Hf. cbn [length] in Hf. rewrite !Nat.add_1_r in Hf.
      rewrite <- (app_assoc pre), <- (app_assoc q) in Hf. simpl app in Hf. simpl app.
      replace (base + (prev - 1) + (i - prev))%Z with (base + (i - 1))%Z by lia. rewrite Hf.
      do 3 f_equal. lia.
  Qed.

  Lemma assign_seq_inner d start n step : (0 <= d <= INT_MAX)%Z -> subscript_ok d (SSeq start n step) ->
    forall (P C R : list A) (vals q r : list A) base,
    Z.of_nat (length P) = base -> Z.of_nat (length C) = d -> (base + d <= INT_MAX)%Z ->
    (Z.of_nat (length q) + n <= INT_MAX)%Z -> Z.of_nat (length vals) = n ->
    exists loc', for_ 0 (Z.to_nat n) (fun _ '(out, k, loc) =>
            let! v := rdZ (q ++ vals ++ r) k in
            let! out := wrZ out loc v in
            let! loc := int_add loc step in
            let! k := int_add k 1 in
            Ok (out, k, loc)) (P ++ C ++ R, Z.of_nat (length q), base + start)%Z
      = Ok (P ++ puts C (expand (SSeq start n step)) vals ++ R, Z.of_nat (length q) + n, loc')%Z.
  Proof.
    intros Hd (H & (Hst & Hn) & Hna & Hstep) P C R vals q r base HP HC Hb Hk Hv.
    set (locs := expand (SSeq start n step)) in *.
    assert (Hloc : forall k, k < Z.to_nat n -> locs !! k = Some (start + Z.of_nat k * step + 1)%Z).
    { intros k Hk'. unfold locs. simpl. rewrite list_lookup_fmap, lookup_seq_lt by lia. done. }
    assert (Hr : forall k, k < Z.to_nat n -> (0 <= start + Z.of_nat k * step < d /\
        start + Z.of_nat k * step + 1 <> NA_INTEGER)%Z).
    { intros k Hk'. rewrite Forall_lookup in H, Hna. pose proof (Hna _ _ (Hloc k Hk')) as Hx. simpl in Hx.
      destruct (H _ _ (Hloc k Hk')); [done|]. split; [lia|done]. }
    destruct (for_inv (fun i (st : list A * Z * Z) =>
        st = (P ++ fold_left put (take i (zip locs vals)) C ++ R, Z.of_nat (length q) + Z.of_nat i,
              base + start + Z.of_nat i * step)%Z) 0 (Z.to_nat n)
       (fun _ '(out, k, loc) =>
            let! v := rdZ (q ++ vals ++ r) k in
            let! out := wrZ out loc v in
            let! loc := int_add loc step in
            let! k := int_add k 1 in
            Ok (out, k, loc)) (P ++ C ++ R, Z.of_nat (length q), base + start)%Z) as (st & Hf & ->).
    - rewrite take_0. simpl. f_equal; [f_equal|]; lia.
    - intros i st Hi ->. destruct (lookup_lt_is_Some_nth vals i) as [v Hv']; [lia|].
      assert (rdZ (q ++ vals ++ r) (Z.of_nat (length q) + Z.of_nat i) = Ok v) as ->.
      { rewrite <- Nat2Z.inj_add, rdZ_nat. apply rd_Ok. rewrite lookup_app_r by lia.
        replace (length q + i - length q) with i by lia. rewrite lookup_app_l by lia. done. }
      cbn [bind]. destruct (Hr i ltac:(lia)) as [Hr1 Hr2].
      assert (Hcl : length (fold_left put (take i (zip locs vals)) C) = length C).
      { pose proof (puts_length (take i locs) (take i vals) C) as Hpl. unfold puts in Hpl.
        by rewrite <- zip_with_take in Hpl. }
      rewrite (puts_mid P _ R (start + Z.of_nat i * step + 1)) by (try rewrite Hcl; try apply Z.eqb_neq; lia || done).
      cbn [bind]. rewrite int_add_in by (unfold INT_MIN, INT_MAX in *; lia). cbn [bind].
      rewrite int_add_in by (unfold INT_MIN; lia). cbn [bind].
      eexists; split; [done|].
      rewrite (zip_snoc _ _ _ _ _ (Hloc i ltac:(lia)) Hv'), fold_left_app. simpl.
      f_equal; [f_equal|]; lia.
    - rewrite Hf. eexists. rewrite Nat.add_0_l, take_ge; [do 3 f_equal; lia|].
      rewrite zip_with_length. unfold locs. simpl. rewrite map_length, seq_length. lia.
  Qed.

  Lemma assign_shaped_gen x d ds n locs vals (inner : Z -> list A * Z -> res (list A * Z)) :
    dim_ok (d :: ds) -> zprod (d :: ds) = Z.of_nat (length x) -> length locs = n ->
    (zprod ds * Z.of_nat n)%Z = Z.of_nat (length vals) -> (zprod ds * Z.of_nat n <= INT_MAX)%Z ->
    (forall P C R vals' q r, vals = q ++ vals' ++ r ->
       Z.of_nat (length C) = d -> (Z.of_nat (length P) + d <= INT_MAX)%Z ->
       (Z.of_nat (length q) + Z.of_nat n <= INT_MAX)%Z -> length vals' = n ->
       inner (Z.of_nat (length P)) (P ++ C ++ R, Z.of_nat (length q)) =
       Ok (P ++ puts C locs vals' ++ R, Z.of_nat (length q) + Z.of_nat n)%Z) ->
    exists k, shape_loop (d :: ds) inner (x, 0%Z) = Ok (shaped_assigned x (Z.to_nat d) (Z.to_nat (zprod ds)) locs vals, k).
  Proof.
    intros Hok Hlen Hn Hvl Hvm Hin. destruct (dim_elem _ _ Hok) as (He & Hp & Hd).
    set (acc e := flat_map (fun e => puts (chunk (Z.to_nat d) e x) locs (chunk n e vals)) (seq 0 e)).
    assert (Hacc : forall e, (Z.of_nat e <= zprod ds)%Z -> length (acc e) = e * Z.to_nat d).
    { induction e as [|e IH]; intros Hle; [done|]. unfold acc. rewrite flat_map_snoc. fold (acc e).
      rewrite app_length, IH by lia. rewrite puts_length.
      destruct (dim_bound d ds e Hok ltac:(lia)) as (? & ? & ? & ?). simpl in Hlen. rewrite chunk_length by nia. lia. }
    destruct (shape_loop_spec d ds inner (fun e (st : list A * Z) =>
        st = (acc e ++ drop (e * Z.to_nat d) x, Z.of_nat (e * n))) (x, 0%Z)) as (st & Hf & ->).
    - done.
    - simpl. done.
    - intros e st Hlt ->. destruct (dim_bound d ds e Hok Hlt) as (Hb1 & Hb2 & Hb3 & Hb4). simpl in Hlen.
      assert (Hx : (e + 1) * Z.to_nat d <= length x) by nia.
      assert (Hen : (e + 1) * n <= length vals).
      { assert ((Z.of_nat e + 1) * Z.of_nat n <= zprod ds * Z.of_nat n)%Z by (apply Z.mul_le_mono_nonneg_r; lia). nia. }
      rewrite (chunk_app_drop x _ e Hx).
      assert (Ha : Z.of_nat (length (acc e)) = (d * Z.of_nat e)%Z) by (rewrite Hacc by lia; lia).
      assert (Hq : length (take (e * n) vals) = e * n) by (rewrite take_length; nia).
      specialize (Hin (acc e) (chunk (Z.to_nat d) e x) (drop ((e + 1) * Z.to_nat d) x)
        (chunk n e vals) (take (e * n) vals) (drop ((e + 1) * n) vals)).
      rewrite Ha, Hq in Hin. rewrite Hin; clear Hin.
      + eexists; split; [done|]. unfold acc. rewrite flat_map_snoc. fold (acc e).
        rewrite <- app_assoc. f_equal; [|lia]. do 3 f_equal. lia.
      + rewrite <- (take_drop (e * n) vals) at 1. f_equal. by apply chunk_app_drop.
      + rewrite chunk_length by done. lia.
      + lia.
      + lia.
      + by apply chunk_length.
    - rewrite Hf. eexists. f_equal. f_equal. unfold shaped_assigned, acc. rewrite Hn.
      rewrite drop_ge, app_nil_r; [done|]. simpl in Hlen. nia.
  Qed.

  Lemma assign_shaped_spec x d ds s vals :
    dim_ok (d :: ds) -> zprod (d :: ds) = Z.of_nat (length x) -> subscript_ok d s -> (forall i n, s <> SRep i n) ->
    (zprod ds * Z.of_nat (length (expand s)))%Z = Z.of_nat (length vals) ->
    (zprod ds * Z.of_nat (length (expand s)) <= INT_MAX)%Z ->
    assign_shaped x (d :: ds) s vals = Ok (shaped_assigned x (Z.to_nat d) (Z.to_nat (zprod ds)) (expand s) vals).
  Proof.
    intros Hok Hlen Hs Hr Hv Hm. destruct (dim_elem _ _ Hok) as (_ & Hp & Hd).
    destruct s as [locs|i n|start n step]; simpl assign_shaped; [| by destruct (Hr i n)|].
    - simpl expand in *. unfold assign_shaped_index. rewrite (vec_steps_spec d) by (apply Hs || lia). cbn [bind].
      match goal with |- context [shape_loop _ ?f _] =>
        destruct (assign_shaped_gen x d ds (length locs) locs vals f Hok Hlen eq_refl Hv Hm) as [k Hf] end.
      { intros P C R vals' q r -> HC HP Hq Hvl. cbv beta iota.
        destruct (assign_index_inner d locs Hd (proj1 Hs) P C R vals' q r [] 1%Z _ _ eq_refl HC HP eq_refl Hq Hvl ltac:(lia)) as [loc' Hf].
        simpl in Hf. rewrite Z.add_0_r in Hf. rewrite Hf. done. }
      rewrite Hf. done.
    - unfold assign_shaped_seq.
      assert (Hll : length (expand (SSeq start n step)) = Z.to_nat n) by (simpl; by rewrite map_length, seq_length).
      assert (Hn : (0 <= n)%Z) by apply Hs.
      rewrite Hll in *.
      match goal with |- context [shape_loop _ ?f _] =>
        destruct (assign_shaped_gen x d ds (Z.to_nat n) (expand (SSeq start n step)) vals f Hok Hlen Hll Hv Hm) as [k Hf] end.
      { intros P C R vals' q r -> HC HP Hq Hvl. cbv beta iota.
        rewrite int_add_in.
        2:{ destruct Hs as (_ & (? & _) & _). unfold INT_MIN. lia. }
        cbn [bind].
        destruct (assign_seq_inner d start n step Hd Hs P C R vals' q r _ eq_refl HC HP ltac:(lia) ltac:(lia)) as [loc' Hf].
        rewrite Hf. cbn [bind]. do 3 f_equal. lia. }
      rewrite Hf. done.
  Qed.
End assign.
