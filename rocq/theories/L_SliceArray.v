(** * Lemmas about slicing arrays, and assigning *)
From Verif Require Import Base M_Double M_Scalar M_Hash M_Object M_Proxy M_Slice Spec_Slice L_Proxy L_Slice.
From Coq Require Import ZifyBool ZifyNat.
#[local] Arguments Z.mul : simpl never.
#[local] Arguments Z.add : simpl never.
#[local] Arguments Z.sub : simpl never.
#[local] Arguments Z.max : simpl never.

Fixpoint steps_of (prev : Z) (locs : list Z) : list Z :=
  match locs with
  | [] => []
  | i :: locs => if (i =? NA_INTEGER)%Z then NA_INTEGER :: steps_of prev locs
                 else (i - prev)%Z :: steps_of i locs
  end.
Lemma steps_of_length prev locs : length (steps_of prev locs) = length locs.
Proof. revert prev. induction locs as [|i l IH]; intros prev; simpl; [done|]. case_match; simpl; by rewrite IH. Qed.

Lemma vec_steps_spec n locs : (n <= INT_MAX)%Z -> Forall (loc_ok n) locs -> vec_steps locs = Ok (steps_of 1 locs).
Proof.
  intros Hn H. unfold vec_steps.
  cut (forall (pre acc : list Z) prev, length pre = length acc -> (1 <= prev <= INT_MAX)%Z ->
    exists prev', for_ (length acc) (length locs) (fun i '(steps, prev) =>
      let! cur := rd (pre ++ locs) i in
      if (cur =? NA_INTEGER)%Z then
        let! steps := wr steps i NA_INTEGER in Ok (steps, prev)
      else
        let! d := int_add cur (- prev) in
        let! steps := wr steps i d in Ok (steps, cur)) (acc ++ alloc (length locs), prev)
      = Ok (acc ++ steps_of prev locs, prev')).
  { intros Hc. destruct (Hc [] [] 1%Z) as [p Hf]; [done|unfold INT_MAX; lia|]. simpl in Hf. by rewrite Hf. }
  induction H as [|i locs Hi H IH]; intros pre acc prev Hl Hp; [simpl; eauto|].
  cbn [length for_].
  assert (rd (pre ++ i :: locs) (length acc) = Ok i) as ->.
  { apply rd_Ok. rewrite lookup_app_r, Hl, Nat.sub_diag by lia. done. }
  cbn [bind steps_of].
  destruct (Z.eqb_spec i NA_INTEGER) as [->|Hne].
  - unfold alloc. rewrite wr_snoc. cbn [bind].
    destruct (IH (pre ++ [NA_INTEGER]) (acc ++ [NA_INTEGER]) prev) as [p Hf]; [rewrite !app_length; lia|done|].
    exists p. rewrite app_length, <- !app_assoc in Hf. simpl in Hf. rewrite Nat.add_1_r in Hf.
    rewrite <- app_assoc. exact Hf.
  - destruct Hi as [|Hi]; [done|].
    rewrite int_add_in by (unfold INT_MIN, INT_MAX in *; lia). cbn [bind].
    unfold alloc. rewrite wr_snoc. cbn [bind].
    destruct (IH (pre ++ [i]) (acc ++ [(i - prev)%Z]) i) as [p Hf]; [rewrite !app_length; simpl; lia|lia|].
    exists p. rewrite app_length, <- !app_assoc in Hf. simpl in Hf. rewrite Nat.add_1_r in Hf.
    rewrite <- app_assoc. simpl. replace (i + - prev)%Z with (i - prev)%Z by lia. exact Hf.
Qed.

(** ** Columns *)
Lemma chunk_length {A} d e (x : list A) : (e + 1) * d <= length x -> length (chunk d e x) = d.
Proof. intros H. unfold chunk. rewrite take_length, drop_length. lia. Qed.
Lemma nth_chunk {A} d e (x : list A) i na : i < d -> nth i (chunk d e x) na = nth (e * d + i) x na.
Proof.
  intros H. rewrite !nth_lookup. unfold chunk. rewrite lookup_take by lia. by rewrite lookup_drop.
Qed.
Lemma chunk_flat_map {A} (f : nat -> list A) d m e : (forall k, length (f k) = d) -> e < m ->
  chunk d e (flat_map f (seq 0 m)) = f e.
Proof.
  intros Hf He. unfold chunk.
  replace m with (e + S (m - e - 1)) by lia. rewrite seq_app, flat_map_app. simpl.
  assert (Hl : forall a n, length (flat_map f (seq a n)) = n * d).
  { intros a n. revert a. induction n as [|n IH]; intros a; simpl; [done|]. rewrite app_length, Hf, IH. lia. }
  rewrite drop_app_alt by (by rewrite Hl). rewrite take_app_alt; [done|]. by rewrite Hf.
Qed.
Lemma flat_map_length {A} (f : nat -> list A) d a m : (forall k, length (f k) = d) ->
  length (flat_map f (seq a m)) = m * d.
Proof. intros Hf. revert a. induction m; intros a; simpl; [done|]. rewrite app_length, Hf, IHm. lia. Qed.
Lemma flat_map_snoc {A} (f : nat -> list A) m : flat_map f (seq 0 (S m)) = flat_map f (seq 0 m) ++ f m.
Proof. rewrite seq_S, flat_map_app. simpl. by rewrite app_nil_r. Qed.

Section shaped.
  Context {A : Type} (na : A).

  Lemma pick_chunk (x : list A) d e i : (1 <= i <= d)%Z ->
    pick na (chunk (Z.to_nat d) e x) i = nth (Z.to_nat (d * Z.of_nat e + (i - 1))) x na.
  Proof.
    intros Hi. unfold pick. destruct (Z.eqb_spec i NA_INTEGER); [unfold NA_INTEGER, INT_MIN in *; lia|].
    rewrite nth_chunk by lia. f_equal. lia.
  Qed.

  Lemma index_inner (x : list A) d e locs :
    (0 <= d)%Z -> (d * Z.of_nat e + d <= Z.of_nat (length x))%Z -> (Z.of_nat (length x) <= INT_MAX)%Z ->
    Forall (loc_ok d) locs ->
    forall acc m prev (pre : list Z), (1 <= prev <= Z.max 1 d)%Z -> length locs <= m ->
    exists loc', for_ (length pre) (length locs) (fun j '(out, k, loc) =>
            let! step := rd (pre ++ steps_of prev locs) j in
            if (step =? NA_INTEGER)%Z then
              let! out := wr out k na in Ok (out, S k, loc)
            else
              let! loc := int_add loc step in
              let! v := rdZ x loc in
              let! out := wr out k v in
              Ok (out, S k, loc)) (acc ++ replicate m na, length acc, d * Z.of_nat e + (prev - 1))%Z
      = Ok ((acc ++ map (pick na (chunk (Z.to_nat d) e x)) locs) ++ replicate (m - length locs) na,
            length acc + length locs, loc').
  Proof.
    intros Hd Hx Hmax H. induction H as [|i locs Hi H IH]; intros acc m prev pre Hp Hm.
    { simpl. rewrite app_nil_r, Nat.sub_0_r, Nat.add_0_r. eauto. }
    destruct m as [|m]; [simpl in Hm; lia|].
    cbn [length for_ steps_of].
    destruct (Z.eqb_spec i NA_INTEGER) as [->|Hne].
    - assert (rd (pre ++ NA_INTEGER :: steps_of prev locs) (length pre) = Ok NA_INTEGER) as ->.
      { apply rd_Ok. rewrite lookup_app_r, Nat.sub_diag by lia. done. }
      cbn [bind]. rewrite Z.eqb_refl. rewrite wr_snoc. cbn [bind].
      destruct (IH (acc ++ [na]) m prev (pre ++ [NA_INTEGER])) as [loc' Hf]; [done|simpl in Hm; lia|].
      exists loc'. rewrite !app_length in Hf. cbn [length] in Hf. rewrite !Nat.add_1_r in Hf.
      rewrite <- (app_assoc pre) in Hf. simpl app in Hf. rewrite Hf. f_equal.
      cbn [map]. rewrite <- !app_assoc. simpl. do 2 f_equal. lia.
    - destruct Hi as [|Hi]; [done|].
      assert (rd (pre ++ (i - prev)%Z :: steps_of i locs) (length pre) = Ok (i - prev)%Z) as ->.
      { apply rd_Ok. rewrite lookup_app_r, Nat.sub_diag by lia. done. }
      cbn [bind]. destruct (Z.eqb_spec (i - prev) NA_INTEGER); [unfold NA_INTEGER, INT_MIN, INT_MAX in *; nia|].
      assert (0 <= d * Z.of_nat e)%Z by nia.
      rewrite int_add_in by (unfold INT_MIN; lia). cbn [bind].
      rewrite (rdZ_Ok x _ na) by lia. cbn [bind]. rewrite wr_snoc. cbn [bind].
      destruct (IH (acc ++ [nth (Z.to_nat (d * Z.of_nat e + (prev - 1) + (i - prev))) x na]) m i (pre ++ [(i - prev)%Z]))
        as [loc' Hf]; [lia|simpl in Hm; lia|].
      exists loc'. rewrite !app_length in Hf. cbn [length] in Hf. rewrite !Nat.add_1_r in Hf.
      rewrite <- (app_assoc pre) in Hf. simpl app in Hf.
      replace (d * Z.of_nat e + (prev - 1) + (i - prev))%Z with (d * Z.of_nat e + (i - 1))%Z in * by lia.
      rewrite Hf. f_equal.
      cbn [map]. rewrite pick_chunk by lia. rewrite <- !app_assoc. simpl. do 2 f_equal. lia.
  Qed.

  Definition shaped_out (x : list A) (d : Z) (ds : list Z) (locs : list Z) : list A :=
    flat_map (fun e => map (pick na (chunk (Z.to_nat d) e x)) locs) (seq 0 (Z.to_nat (zprod ds))).

  Lemma dim_bound d ds e : dim_ok (d :: ds) -> (Z.of_nat e < zprod ds)%Z ->
    (0 <= d)%Z /\ (0 <= d * Z.of_nat e)%Z /\ (d * Z.of_nat e + d <= d * zprod ds)%Z /\ (d * zprod ds <= INT_MAX)%Z.
  Proof.
    intros (_ & Hp & Hm) He. pose proof (zprod_le_max _ Hp) as Hle. inversion Hp; subst. simpl in *.
    assert (d * (Z.of_nat e + 1) <= d * zprod ds)%Z by (apply Z.mul_le_mono_nonneg_l; lia). nia.
  Qed.
  Lemma dim_elem d ds : dim_ok (d :: ds) -> shape_elem_n (d :: ds) = Ok (zprod ds) /\ (0 <= zprod ds)%Z /\ (0 <= d <= INT_MAX)%Z.
  Proof.
    intros (_ & Hp & Hm). rewrite shape_elem_n_spec by done. split; [done|]. inversion Hp; subst.
    split; [by apply zprod_nonneg|]. split; [done|].
    assert (d <= zprod (map (Z.max 1) (d :: ds)))%Z by (apply zprod_max_ge; by left). lia.
  Qed.

  Lemma slice_shaped_index_spec (x : list A) d ds locs :
    dim_ok (d :: ds) -> zprod (d :: ds) = Z.of_nat (length x) -> Forall (loc_ok d) locs ->
    slice_shaped_index na x (d :: ds) locs = Ok (shaped_out x d ds locs).
  Proof.
    intros Hok Hlen H. destruct (dim_elem _ _ Hok) as (He & Hp & Hd). unfold slice_shaped_index.
    rewrite (vec_steps_spec d) by (done || lia). cbn [bind]. rewrite He. cbn [bind].
    set (n := length locs).
    destruct (shape_loop_spec d ds (fun loc '(out, k) =>
        let! (out, k, _) :=
          for_ 0 n (fun j '(out, k, loc) =>
            let! step := rd (steps_of 1 locs) j in
            if (step =? NA_INTEGER)%Z then
              let! out := wr out k na in Ok (out, S k, loc)
            else
              let! loc := int_add loc step in
              let! v := rdZ x loc in
              let! out := wr out k v in
              Ok (out, S k, loc)) (out, k, loc) in
        Ok (out, k)) (fun e (st : list A * nat) =>
          let acc := flat_map (fun e => map (pick na (chunk (Z.to_nat d) e x)) locs) (seq 0 e) in
          st = (acc ++ replicate (Z.to_nat (zprod ds) * n - e * n) na, length acc))
        (replicate (Z.to_nat (zprod ds) * n) na, 0)) as ([out k] & Hf & HI).
    - done.
    - simpl. by rewrite Nat.sub_0_r.
    - intros e [out k] Hlt HI. cbv zeta in HI. injection HI as -> ->.
      destruct (dim_bound d ds e Hok Hlt) as (Hb1 & Hb2 & Hb3 & Hb4).
      set (acc := flat_map (fun e0 => map (pick na (chunk (Z.to_nat d) e0 x)) locs) (seq 0 e)).
      simpl in Hlen.
      assert (Hal : length acc = e * n) by (apply flat_map_length; intros; apply map_length).
      destruct (index_inner x d e locs ltac:(lia) ltac:(lia) ltac:(lia) H acc
         (Z.to_nat (zprod ds) * n - e * n) 1 []) as [loc' Hf].
      { lia. }
      { fold n. assert (n * 1 <= n * (Z.to_nat (zprod ds) - e)) by (apply Nat.mul_le_mono_l; lia). nia. }
      simpl in Hf. rewrite Z.add_0_r in Hf. fold n in Hf. rewrite Hf. cbn [bind].
      eexists; split; [done|]. cbv zeta. rewrite flat_map_snoc. fold acc. rewrite app_length, map_length.
      f_equal. f_equal. f_equal. nia.
    - fold n. rewrite Hf. cbn [bind]. cbv zeta in HI. injection HI as -> ->. rewrite Nat.sub_diag.
      simpl. by rewrite app_nil_r.
  Qed.

  Lemma loop_fill (v : A) n : forall acc m lo, n <= m ->
    for_ lo n (fun _ '(out, k) => let! out := wr out k v in Ok (out, S k)) (acc ++ replicate m na, length acc)
    = Ok ((acc ++ replicate n v) ++ replicate (m - n) na, length acc + n).
  Proof.
    induction n as [|n IH]; intros acc m lo Hm; simpl.
    - by rewrite app_nil_r, Nat.sub_0_r, Nat.add_0_r.
    - destruct m as [|m]; [lia|]. rewrite wr_snoc. cbn [bind].
      specialize (IH (acc ++ [v]) m (S lo)). rewrite app_length in IH. simpl in IH.
      rewrite Nat.add_1_r in IH. rewrite IH by lia. rewrite <- !app_assoc. simpl. do 2 f_equal. lia.
  Qed.
  Lemma flat_map_ext_in {B} (f g : nat -> list B) l : (forall a, In a l -> f a = g a) -> flat_map f l = flat_map g l.
  Proof. induction l; intros H; simpl; [done|]. rewrite (H a), IHl; [done| |by left]. intros; apply H; by right. Qed.
  Lemma flat_map_replicate (v : A) n m a : flat_map (fun _ : nat => replicate n v) (seq a m) = replicate (m * n) v.
  Proof. revert a. induction m; intros a; simpl; [done|]. rewrite IHm. by rewrite <- replicate_add. Qed.

  Lemma slice_shaped_rep_spec (x : list A) d ds i n :
    dim_ok (d :: ds) -> zprod (d :: ds) = Z.of_nat (length x) -> loc_ok d i -> (0 <= n)%Z ->
    (i = NA_INTEGER -> zprod ds * n <= INT_MAX)%Z ->
    slice_shaped_rep na x (d :: ds) i n = Ok (shaped_out x d ds (expand (SRep i n))).
  Proof.
    intros Hok Hlen Hi Hn Hna. destruct (dim_elem _ _ Hok) as (He & Hp & Hd). unfold slice_shaped_rep.
    rewrite He. cbn [bind]. simpl expand. unfold shaped_out.
    destruct (Z.eqb_spec i NA_INTEGER) as [->|Hne].
    - assert (0 <= zprod ds * n)%Z by nia. rewrite int_mul_in by (unfold INT_MIN; specialize (Hna eq_refl); lia). cbn [bind].
      rewrite (for_fill _ (fun _ => na)); [| |done].
      + f_equal. rewrite map_const_seq.
        rewrite (flat_map_ext_in _ (fun _ => replicate (Z.to_nat n) na)).
        * rewrite flat_map_replicate. f_equal. lia.
        * intros e _. rewrite map_replicate'. done.
      + rewrite replicate_length. lia.
    - destruct Hi as [|Hi]; [done|].
      set (nn := Z.to_nat n).
      destruct (shape_loop_spec d ds (fun loc '(out, k) =>
          let! loc := int_add loc (i - 1) in
          let! v := rdZ x loc in
          for_ 0 nn (fun _ '(out, k) =>
            let! out := wr out k v in Ok (out, S k)) (out, k))
        (fun e (st : list A * nat) =>
          let acc := flat_map (fun e => map (pick na (chunk (Z.to_nat d) e x)) (replicate nn i)) (seq 0 e) in
          st = (acc ++ replicate (Z.to_nat (zprod ds) * nn - e * nn) na, length acc))
        (replicate (Z.to_nat (zprod ds) * nn) na, 0)) as ([out k] & Hf & HI).
      + done.
      + simpl. by rewrite Nat.sub_0_r.
      + intros e [out k] Hlt HI. cbv zeta in HI. injection HI as -> ->.
        destruct (dim_bound d ds e Hok Hlt) as (Hb1 & Hb2 & Hb3 & Hb4). simpl in Hlen.
        set (acc := flat_map (fun e0 => map (pick na (chunk (Z.to_nat d) e0 x)) (replicate nn i)) (seq 0 e)).
        rewrite int_add_in by (unfold INT_MIN; lia). cbn [bind].
        rewrite (rdZ_Ok x _ na) by lia. cbn [bind].
        rewrite loop_fill.
        2:{ assert (nn * 1 <= nn * (Z.to_nat (zprod ds) - e)) by (apply Nat.mul_le_mono_l; lia). nia. }
        eexists; split; [done|]. cbv zeta. rewrite flat_map_snoc. fold acc.
        rewrite app_length, map_length, replicate_length, map_replicate', pick_chunk by lia.
        f_equal. f_equal. f_equal. nia.
      + rewrite Hf. cbn [bind]. cbv zeta in HI. injection HI as -> ->. rewrite Nat.sub_diag.
        simpl. by rewrite app_nil_r.
  Qed.

  Lemma slice_shaped_seq_spec (x : list A) d ds start n step :
    dim_ok (d :: ds) -> zprod (d :: ds) = Z.of_nat (length x) ->
    subscript_ok d (SSeq start n step) ->
    slice_shaped_seq na x (d :: ds) start n step = Ok (shaped_out x d ds (expand (SSeq start n step))).
  Proof.
    intros Hok Hlen (H & [Hst Hn] & Hna & Hstep). destruct (dim_elem _ _ Hok) as (He & Hp & Hd). unfold slice_shaped_seq.
    rewrite He. cbn [bind]. unfold shaped_out.
    set (nn := Z.to_nat n). set (locs := expand (SSeq start n step)) in *.
    assert (Hll : length locs = nn) by (unfold locs; simpl; by rewrite map_length, seq_length).
    assert (Hloc : forall k, k < nn -> locs !! k = Some (start + Z.of_nat k * step + 1)%Z).
    { intros k Hk. unfold locs. simpl. rewrite list_lookup_fmap, lookup_seq_lt by lia. done. }
    assert (Hr : forall k, k < nn -> (0 <= start + Z.of_nat k * step < d)%Z).
    { intros k Hk. rewrite Forall_lookup in H, Hna. pose proof (Hna _ _ (Hloc k Hk)). simpl in H0.
      destruct (H _ _ (Hloc k Hk)); [done|]. lia. }
    set (body := (fun _ '(out, k, loc) =>
            let! v := rdZ x loc in
            let! out := wr out k v in
            let! loc := int_add loc step in
            Ok (out, S k, loc)) : nat -> list A * nat * Z -> res (list A * nat * Z)).
    destruct (shape_loop_spec d ds (fun loc '(out, k) =>
        let! loc := int_add loc start in
        let! (out, k, _) := for_ 0 nn body (out, k, loc) in
        Ok (out, k)) (fun e (st : list A * nat) =>
          let acc := flat_map (fun e => map (pick na (chunk (Z.to_nat d) e x)) locs) (seq 0 e) in
          st = (acc ++ replicate (Z.to_nat (zprod ds) * nn - e * nn) na, length acc))
        (replicate (Z.to_nat (zprod ds) * nn) na, 0)) as ([out k] & Hf & HI).
    - done.
    - simpl. by rewrite Nat.sub_0_r.
    - intros e [out k] Hlt HI. cbv zeta in HI. injection HI as -> ->.
      destruct (dim_bound d ds e Hok Hlt) as (Hb1 & Hb2 & Hb3 & Hb4). simpl in Hlen.
      set (acc := flat_map (fun e0 => map (pick na (chunk (Z.to_nat d) e0 x)) locs) (seq 0 e)).
      set (m := Z.to_nat (zprod ds) * nn - e * nn).
      assert (Hm : nn <= m).
      { assert (nn * 1 <= nn * (Z.to_nat (zprod ds) - e)) by (apply Nat.mul_le_mono_l; lia). nia. }
      rewrite int_add_in by (unfold INT_MIN; lia). cbn [bind].
      destruct (for_inv (fun j (st : list A * nat * Z) =>
          st = ((acc ++ map (pick na (chunk (Z.to_nat d) e x)) (take j locs)) ++ replicate (m - j) na,
                length acc + j, (d * Z.of_nat e + start + Z.of_nat j * step)%Z))
        0 nn body (acc ++ replicate m na, length acc, d * Z.of_nat e + start)%Z) as (st & Hf & ->).
      + rewrite take_0, app_nil_r, Nat.sub_0_r, Nat.add_0_r. f_equal. lia.
      + intros j st Hj ->. unfold body. specialize (Hr j ltac:(lia)).
        rewrite (rdZ_Ok x _ na) by lia. cbn [bind].
        rewrite wr_snoc' by (try rewrite app_length, map_length, take_length; lia). cbn [bind].
        rewrite int_add_in by (unfold INT_MIN, INT_MAX in *; lia). cbn [bind].
        eexists; split; [done|].
        rewrite (take_S_r _ _ _ (Hloc j ltac:(lia))), map_app. simpl map.
        rewrite pick_chunk by lia. rewrite <- !app_assoc. simpl. f_equal; [|lia]. f_equal; [|lia].
        do 3 f_equal; [f_equal; f_equal; lia|]. f_equal. lia.
      + rewrite Hf. cbn [bind]. eexists; split; [done|]. cbv zeta. rewrite flat_map_snoc. fold acc.
        rewrite Nat.add_0_l, take_ge by lia. rewrite app_length, map_length, Hll. f_equal. f_equal. f_equal.
        unfold m. nia.
    - rewrite Hf. cbn [bind]. cbv zeta in HI. injection HI as -> ->. rewrite Nat.sub_diag.
      simpl. by rewrite app_nil_r.
  Qed.

  Lemma slice_shaped_spec (x : list A) d ds s :
    dim_ok (d :: ds) -> zprod (d :: ds) = Z.of_nat (length x) -> subscript_ok d s ->
    (forall n, s = SRep NA_INTEGER n -> zprod ds * n <= INT_MAX)%Z ->
    slice_shaped na x (d :: ds) s = Ok (shaped_out x d ds (expand s)).
  Proof.
    intros Hok Hlen Hs Hna. destruct s; simpl slice_shaped.
    - apply slice_shaped_index_spec; [done|done|]. apply Hs.
    - destruct Hs as (_ & H1 & H2). apply slice_shaped_rep_spec; try done; [lia|]. intros ->. by apply Hna.
    - by apply slice_shaped_seq_spec.
  Qed.
  Lemma shaped_out_length x d ds locs : (0 <= zprod ds)%Z ->
    Z.of_nat (length (shaped_out x d ds locs)) = (Z.of_nat (length locs) * zprod ds)%Z.
  Proof. intros H. unfold shaped_out. rewrite (flat_map_length _ (length locs)) by (intros; apply map_length). lia. Qed.
  Lemma shaped_out_chunk x d ds locs e : (Z.of_nat e < zprod ds)%Z ->
    chunk (length locs) e (shaped_out x d ds locs) = map (pick na (chunk (Z.to_nat d) e x)) locs.
  Proof.
    intros H. unfold shaped_out.
    apply (chunk_flat_map (fun e => map (pick na (chunk (Z.to_nat d) e x)) locs)); [intros; apply map_length|lia].
  Qed.
End shaped.
