(** * Lemmas about slicing and assigning *)
From Verif Require Import Base M_Double M_Scalar M_Hash M_Object M_Proxy M_Slice Spec_Slice L_Proxy.
From Coq Require Import ZifyBool ZifyNat.
#[local] Arguments Z.mul : simpl never.
#[local] Arguments Z.add : simpl never.
#[local] Arguments Z.max : simpl never.

Lemma int_ok_in z : (INT_MIN <= z <= INT_MAX)%Z -> int_ok z = Ok z.
Proof.
  intros H. unfold int_ok. destruct (Z.leb_spec INT_MIN z); [|lia].
  destruct (Z.leb_spec z INT_MAX); [done|lia].
Qed.
Lemma int_add_in a b : (INT_MIN <= a + b <= INT_MAX)%Z -> int_add a b = Ok (a + b)%Z.
Proof. apply int_ok_in. Qed.
Lemma int_mul_in a b : (INT_MIN <= a * b <= INT_MAX)%Z -> int_mul a b = Ok (a * b)%Z.
Proof. apply int_ok_in. Qed.

Lemma rdZ_Ok {A} (l : list A) i d : (0 <= i < Z.of_nat (length l))%Z -> rdZ l i = Ok (nth (Z.to_nat i) l d).
Proof.
  intros H. rewrite <- (Z2Nat.id i) at 1 by lia. rewrite rdZ_nat. apply rd_Ok.
  rewrite nth_lookup. destruct (lookup_lt_is_Some_nth l (Z.to_nat i)) as [a Ha]; [lia|]. by rewrite Ha.
Qed.
Lemma wrZ_Ok {A} (l : list A) i v : (0 <= i < Z.of_nat (length l))%Z -> wrZ l i v = Ok (<[Z.to_nat i:=v]> l).
Proof. intros H. rewrite <- (Z2Nat.id i) at 1 by lia. rewrite wrZ_nat. apply wr_Ok. lia. Qed.

Lemma nth_map_lookup {A B} (f : A -> B) (l : list A) n b : map f l !! n = Some b <-> exists a, l !! n = Some a /\ b = f a.
Proof. rewrite list_lookup_fmap. destruct (l !! n); simpl; naive_solver. Qed.

Lemma map_seq_nth {A B} (f : A -> B) (l : list A) (d : A) n : n = length l ->
  map (fun i => f (nth i l d)) (seq 0 n) = map f l.
Proof.
  intros ->. apply list_eq. intros i. rewrite !list_lookup_fmap.
  destruct (decide (i < length l)).
  - rewrite lookup_seq_lt by lia. simpl. rewrite nth_lookup.
    destruct (lookup_lt_is_Some_nth l i) as [a ->]; [lia|]. done.
  - rewrite !lookup_ge_None_2; [done|lia|rewrite seq_length; lia].
Qed.

Section base.
  Context {A : Type} (na : A).

  Lemma pick_rd (x : list A) i : loc_ok (Z.of_nat (length x)) i ->
    (if (i =? NA_INTEGER)%Z then Ok na else rdZ x (i - 1)) = Ok (pick na x i).
  Proof.
    intros [->|Hi]; unfold pick; [by rewrite Z.eqb_refl|].
    destruct (Z.eqb_spec i NA_INTEGER); [done|]. apply rdZ_Ok. lia.
  Qed.

  Lemma slice_loc_spec (x : list A) locs : Forall (loc_ok (Z.of_nat (length x))) locs ->
    slice_loc na x locs = Ok (map (pick na x) locs).
  Proof.
    intros H. unfold slice_loc. rewrite <- (map_seq_nth (pick na x) locs 0%Z _ eq_refl).
    apply for_fill; [apply replicate_length|]. intros i out Hi _.
    destruct (lookup_lt_is_Some_nth locs i) as [j Hj]; [lia|].
    assert (rd locs i = Ok j) as -> by by apply rd_Ok. simpl.
    rewrite Forall_lookup in H. rewrite pick_rd by eauto. simpl.
    by rewrite nth_lookup, Hj.
  Qed.
  Lemma map_const_seq {B} (b : B) n : map (fun _ => b) (seq 0 n) = replicate n b.
  Proof. generalize 0. induction n; intros; simpl; f_equal; auto. Qed.
  Lemma map_replicate' {B C} (f : B -> C) n b : map f (replicate n b) = replicate n (f b).
  Proof. induction n; simpl; f_equal; auto. Qed.

  Lemma slice_rep_spec (x : list A) i n : loc_ok (Z.of_nat (length x)) i ->
    slice_rep na x i n = Ok (map (pick na x) (expand (SRep i n))).
  Proof.
    intros H. unfold slice_rep, expand. rewrite pick_rd by done. simpl.
    rewrite map_replicate', <- (map_const_seq (pick na x i)). apply for_fill; [apply replicate_length|done].
  Qed.

  Lemma wr_snoc {B} (acc : list B) (b : B) m v :
    wr (acc ++ replicate (S m) b) (length acc) v = Ok ((acc ++ [v]) ++ replicate m b).
  Proof.
    rewrite wr_Ok by (rewrite app_length, replicate_length; lia).
    rewrite insert_app_r_alt, Nat.sub_diag by lia. simpl. by rewrite <- app_assoc.
  Qed.
  Lemma wr_snoc' {B} (acc : list B) (b : B) m k v : k = length acc -> 0 < m ->
    wr (acc ++ replicate m b) k v = Ok ((acc ++ [v]) ++ replicate (m - 1) b).
  Proof. intros -> H. replace m with (S (m - 1)) at 1 by lia. apply wr_snoc. Qed.

  Lemma slice_seq_spec (x : list A) start n step :
    (0 <= n)%Z -> Forall (loc_ok (Z.of_nat (length x))) (expand (SSeq start n step)) ->
    Forall (fun i => i <> NA_INTEGER) (expand (SSeq start n step)) ->
    slice_seq na x start n step = Ok (map (pick na x) (expand (SSeq start n step))).
  Proof.
    intros Hn H Hna. unfold slice_seq.
    set (g k := pick na x (start + Z.of_nat k * step + 1)%Z).
    destruct (for_inv (fun i (st : list A * Z) =>
        st.1 = map g (seq 0 i) ++ replicate (Z.to_nat n - i) na /\ st.2 = (start + Z.of_nat i * step)%Z)
      0 (Z.to_nat n) (fun i '(out, data) =>
        let! v := rdZ x data in
        let! out := wr out i v in
        Ok (out, data + step)%Z) (replicate (Z.to_nat n) na, start)) as ([out data] & Hf & Ho & _).
    - simpl. split; [by rewrite Nat.sub_0_r|lia].
    - intros i [out data] Hi [Ho Hd]. cbn [fst snd] in *. subst.
      assert (He : expand (SSeq start n step) !! i = Some (start + Z.of_nat i * step + 1)%Z).
      { simpl. rewrite list_lookup_fmap, lookup_seq_lt by lia. done. }
      rewrite Forall_lookup in H, Hna. apply Hna in He as Hne.
      apply H in He as [He|He]; [done|].
      rewrite (rdZ_Ok x _ na) by lia. cbn [bind].
      rewrite wr_snoc' by (try rewrite map_length, seq_length; lia). cbn [bind].
      eexists; split; [done|]. cbn [fst snd]. split; [|lia].
      rewrite seq_S, map_app. simpl. f_equal; [|f_equal; lia]. f_equal. f_equal.
      unfold g, pick. destruct (Z.eqb_spec (start + Z.of_nat i * step + 1) NA_INTEGER); [done|].
      f_equal. lia.
    - rewrite Hf. simpl in *. rewrite Ho. simpl. replace (Z.to_nat n - Z.to_nat n) with 0 by lia.
      simpl. rewrite app_nil_r, map_map. done.
  Qed.

  Lemma slice_base_spec (x : list A) s : subscript_ok (Z.of_nat (length x)) s ->
    slice_base na x s = Ok (map (pick na x) (expand s)).
  Proof.
    intros [H1 H2]. destruct s; simpl slice_base.
    - by apply slice_loc_spec.
    - apply slice_rep_spec. tauto.
    - destruct H2 as ([_ H2] & H3 & _). by apply slice_seq_spec.
  Qed.
End base.

(** ** Mixed-radix counting *)
Fixpoint inc (dim idx : list Z) : list Z :=
  match dim, idx with
  | d :: dim, i :: idx => if (i + 1 <? d)%Z then (i + 1)%Z :: idx else 0%Z :: inc dim idx
  | _, _ => []
  end.
Fixpoint scan (st : Z) (ds : list Z) : list Z :=
  match ds with [] => [] | d :: ds => st :: scan (st * d)%Z ds end.

Lemma zprod_app a b : zprod (a ++ b) = (zprod a * zprod b)%Z.
Proof. induction a as [|x a IH]; simpl; [lia|]. rewrite IH. ring. Qed.
Lemma zprod_nonneg l : Forall (fun d => 0 <= d)%Z l -> (0 <= zprod l)%Z.
Proof. induction 1; simpl; [lia|nia]. Qed.
Lemma zprod_max_pos l : (1 <= zprod (map (Z.max 1) l))%Z.
Proof.
  induction l as [|d l IH]; simpl; [lia|]. assert (1 <= Z.max 1 d)%Z by lia.
  generalize dependent (Z.max 1 d). intros. nia.
Qed.
Lemma zprod_le_max l : Forall (fun d => 0 <= d)%Z l -> (zprod l <= zprod (map (Z.max 1) l))%Z.
Proof.
  induction 1 as [|d l Hd Hl IH]; simpl; [lia|].
  pose proof (zprod_nonneg l Hl). pose proof (zprod_max_pos l).
  assert (d <= Z.max 1 d)%Z by lia. apply Z.mul_le_mono_nonneg; lia.
Qed.

Lemma offset_bounds ds idx : in_dim ds idx -> (0 <= offset ds idx < Z.max 1 (zprod ds))%Z.
Proof.
  induction 1 as [|d i ds idx Hi H IH]; simpl; [lia|].
  destruct (Z.eqb_spec (zprod ds) 0) as [E|E].
  - rewrite E in *. assert (offset ds idx = 0)%Z by lia.
    exfalso. clear IH. revert E. clear - H.
    induction H as [|d i ds idx Hi H IH]; simpl; [done|]. intros E.
    apply Z.mul_eq_0 in E as [->|E]; [lia|auto].
  - assert (1 <= zprod ds)%Z. { assert (0 <= zprod ds)%Z; [|lia]. apply zprod_nonneg.
      clear -H. induction H; constructor; auto; lia. }
    nia.
Qed.
Lemma in_dim_pos ds idx : in_dim ds idx -> (1 <= zprod ds)%Z.
Proof. induction 1; simpl; [lia|nia]. Qed.
Lemma inc_spec ds idx : in_dim ds idx ->
  in_dim ds (inc ds idx) /\
  offset ds (inc ds idx) = (if offset ds idx + 1 <? zprod ds then offset ds idx + 1 else 0)%Z.
Proof.
  induction 1 as [|d i ds idx Hi H IH]; simpl; [by split; [constructor|]|].
  pose proof (offset_bounds _ _ H) as Hb. pose proof (in_dim_pos _ _ H) as Hp. fold (in_dim ds idx) in H.
  destruct (Z.ltb_spec (i + 1) d).
  - split; [constructor; [lia|done]|]. simpl.
    destruct (Z.ltb_spec (i + d * offset ds idx + 1) (d * zprod ds)); [lia|nia].
  - destruct IH as [IH1 IH2]. split; [constructor; [lia|done]|]. simpl. rewrite IH2.
    assert (i = d - 1)%Z as -> by lia.
    destruct (Z.ltb_spec (offset ds idx + 1) (zprod ds)), (Z.ltb_spec (d - 1 + d * offset ds idx + 1) (d * zprod ds)); nia.
Qed.

Lemma shape_index_increment_spec d0 ds idx : in_dim ds idx -> Forall (fun d => d <= INT_MAX)%Z ds ->
  vec_shape_index_increment (d0 :: ds) (length ds) idx = Ok (inc ds idx).
Proof.
  intros H Hmax. unfold vec_shape_index_increment.
  cut (forall ds1 (zs : list Z), length zs = length ds1 ->
    for_brk (length zs) (length ds) (fun j idx =>
      let! v := rd idx j in
      let! v := int_add v 1 in
      let! idx := wr idx j v in
      let! d := rd (d0 :: ds1 ++ ds) (S j) in
      if (v <? d)%Z then Ok (Break idx)
      else let! idx := wr idx j 0%Z in Ok (Next idx)) (zs ++ idx) = Ok (zs ++ inc ds idx)).
  { intros Hc. apply (Hc [] []). done. }
  induction H as [|d i ds idx Hi H IH]; intros ds1 zs Hl; [done|].
  inversion Hmax as [|?? Hd Hds]; subst.
  cbn [length for_brk inc].
  assert (rd (zs ++ i :: idx) (length zs) = Ok i) as ->.
  { apply rd_Ok. rewrite lookup_app_r, Nat.sub_diag by lia. done. }
  cbn [bind]. rewrite int_add_in by (unfold INT_MIN, INT_MAX in *; lia). cbn [bind].
  rewrite wr_Ok by (rewrite app_length; simpl; lia). cbn [bind].
  assert (rd (d0 :: ds1 ++ d :: ds) (S (length zs)) = Ok d) as ->.
  { apply rd_Ok. simpl. rewrite Hl, lookup_app_r, Nat.sub_diag by lia. done. }
  cbn [bind]. rewrite insert_app_r_alt, Nat.sub_diag by lia. simpl (<[0:=_]> _).
  destruct (Z.ltb_spec (i + 1) d); [done|].
  rewrite wr_Ok by (rewrite app_length; simpl; lia). cbn [bind].
  rewrite insert_app_r_alt, Nat.sub_diag by lia. simpl (<[0:=_]> _).
  specialize (IH Hds (ds1 ++ [d]) (zs ++ [0%Z])). rewrite !app_length in IH. simpl in IH.
  rewrite <- !app_assoc in IH. simpl in IH. rewrite Nat.add_1_r in IH. apply IH. lia.
Qed.

Lemma strided_loc_spec ds idx st : in_dim ds idx -> (0 <= st)%Z -> (st * offset ds idx <= INT_MAX)%Z ->
  vec_strided_loc idx (scan st ds) (length ds) = Ok (st * offset ds idx)%Z.
Proof.
  intros H Hst Hmax. unfold vec_strided_loc.
  cut (forall (p1 p2 : list Z) acc, length p1 = length p2 -> (0 <= acc)%Z -> (acc + st * offset ds idx <= INT_MAX)%Z ->
    for_ (length p1) (length ds) (fun i loc =>
      let! s := rd (p2 ++ scan st ds) i in
      let! k := rd (p1 ++ idx) i in
      let! p := int_mul s k in
      int_add loc p) acc = Ok (acc + st * offset ds idx)%Z).
  { intros Hc. apply (Hc [] []); [done|lia|lia]. }
  clear Hmax. revert st Hst. induction H as [|d i ds idx Hi H IH]; intros st Hst p1 p2 acc Hl Ha Hm.
  - simpl. f_equal. lia.
  - cbn [length for_ scan offset] in *.
    pose proof (offset_bounds _ _ H) as Hb.
    assert (0 <= st * d)%Z by nia. assert (0 <= st * d * offset ds idx)%Z by nia. assert (0 <= st * i)%Z by nia.
    assert (rd (p2 ++ st :: scan (st * d) ds) (length p1) = Ok st) as ->.
    { apply rd_Ok. rewrite Hl, lookup_app_r, Nat.sub_diag by lia. done. }
    assert (rd (p1 ++ i :: idx) (length p1) = Ok i) as ->.
    { apply rd_Ok. rewrite lookup_app_r, Nat.sub_diag by lia. done. }
    cbn [bind].
    rewrite int_mul_in by (unfold INT_MIN; lia). cbn [bind].
    rewrite int_add_in by (unfold INT_MIN; lia). cbn [bind].
    specialize (IH (st * d)%Z ltac:(lia) (p1 ++ [i]) (p2 ++ [st]) (acc + st * i)%Z).
    rewrite !app_length in IH. simpl in IH. rewrite <- !app_assoc in IH. simpl in IH.
    rewrite Nat.add_1_r in IH. rewrite IH by lia. f_equal. lia.
Qed.

Lemma strides_spec d ds : Forall (fun d => 0 <= d)%Z (d :: ds) -> (zprod (map (Z.max 1) (d :: ds)) <= INT_MAX)%Z ->
  vec_strides (d :: ds) (length ds) = Ok (scan d ds).
Proof.
  intros Hpos Hmax. unfold vec_strides.
  cut (forall (pre acc : list Z) st, length pre = length acc -> (0 <= st)%Z ->
     (st * zprod (map (Z.max 1) (d :: ds)) <= INT_MAX)%Z ->
    exists st', for_ (length acc) (length ds) (fun i '(strides, stride) =>
      let! d := rd (pre ++ d :: ds) i in
      let! stride := int_mul stride d in
      let! strides := wr strides i stride in
      Ok (strides, stride)) (acc ++ alloc (length ds), st) = Ok (acc ++ scan (st * d) ds, st')).
  { intros Hc. destruct (Hc [] [] 1%Z) as [st' Hf]; [done|lia|lia|]. simpl in Hf. rewrite Hf. simpl.
    f_equal. f_equal. lia. }
  clear Hmax. revert d Hpos. induction ds as [|d' ds IH]; intros d Hpos pre acc st Hl Hst Hm.
  - simpl. eexists. done.
  - inversion Hpos as [|?? Hd Hpos']; subst. inversion Hpos' as [|?? Hd' Hds]; subst.
    pose proof (zprod_max_pos (d' :: ds)) as Hp.
    assert (E : zprod (map (Z.max 1) (d :: d' :: ds)) = (Z.max 1 d * zprod (map (Z.max 1) (d' :: ds)))%Z) by done.
    rewrite E in Hm. clear E.
    set (P := zprod (map (Z.max 1) (d' :: ds))) in *.
    assert (d * P <= Z.max 1 d * P)%Z by (apply Z.mul_le_mono_nonneg_r; lia).
    assert (st * d * P <= INT_MAX)%Z by nia. assert (0 <= st * d)%Z by nia.
    cbn [length for_].
    assert (rd (pre ++ d :: d' :: ds) (length acc) = Ok d) as ->.
    { apply rd_Ok. rewrite lookup_app_r, Hl, Nat.sub_diag by lia. done. }
    cbn [bind]. rewrite int_mul_in by (unfold INT_MIN; nia). cbn [bind].
    unfold alloc. rewrite wr_snoc. cbn [bind].
    destruct (IH d' Hpos' (pre ++ [d]) (acc ++ [(st * d)%Z]) (st * d)%Z) as [st' Hf].
    + rewrite !app_length. simpl. lia.
    + done.
    + done.
    + exists st'. rewrite app_length in Hf. simpl in Hf. rewrite Nat.add_1_r in Hf.
      rewrite <- !app_assoc in Hf. simpl in Hf. simpl scan. rewrite <- app_assoc. exact Hf.
Qed.

Lemma shape_elem_n_spec d ds : Forall (fun d => 0 <= d)%Z (d :: ds) -> (zprod (map (Z.max 1) (d :: ds)) <= INT_MAX)%Z ->
  shape_elem_n (d :: ds) = Ok (zprod ds).
Proof.
  intros Hpos Hmax. unfold shape_elem_n. simpl length. rewrite Nat.sub_succ, Nat.sub_0_r.
  inversion Hpos as [|?? Hd Hds]; subst.
  assert (Hm : (1 * zprod (map (Z.max 1) ds) <= INT_MAX)%Z).
  { pose proof (zprod_max_pos ds). simpl in Hmax.
    assert (1 * zprod (map (Z.max 1) ds) <= Z.max 1 d * zprod (map (Z.max 1) ds))%Z by (apply Z.mul_le_mono_nonneg_r; lia). lia. }
  clear Hpos Hmax Hd.
  cut (forall (pre : list Z) acc, (0 <= acc)%Z -> (acc * zprod (map (Z.max 1) ds) <= INT_MAX)%Z ->
    for_ (S (length pre)) (length ds) (fun i n => let! d := rd (d :: pre ++ ds) i in int_mul n d) acc = Ok (acc * zprod ds)%Z).
  { intros Hc. rewrite (Hc []); [f_equal; lia|lia|lia]. }
  clear Hm. induction Hds as [|d' ds Hd Hds IH]; intros pre acc Ha Hm; [simpl; f_equal; lia|].
  cbn [length for_].
  assert (rd (d :: pre ++ d' :: ds) (S (length pre)) = Ok d') as ->.
  { apply rd_Ok. simpl. rewrite lookup_app_r, Nat.sub_diag by lia. done. }
  cbn [bind]. simpl in Hm. pose proof (zprod_max_pos ds) as Hp.
  set (P := zprod (map (Z.max 1) ds)) in *.
  assert (d' * P <= Z.max 1 d' * P)%Z by (apply Z.mul_le_mono_nonneg_r; lia).
  assert (acc * d' * P <= INT_MAX)%Z by nia. assert (0 <= acc * d')%Z by nia.
  rewrite int_mul_in by (unfold INT_MIN; nia). cbn [bind].
  specialize (IH (pre ++ [d']) (acc * d')%Z). rewrite app_length in IH. simpl in IH.
  rewrite Nat.add_1_r, <- app_assoc in IH. simpl in IH. rewrite IH by lia. simpl. f_equal. lia.
Qed.

Lemma in_dim_zero ds : Forall (fun d => 1 <= d)%Z ds -> in_dim ds (replicate (length ds) 0%Z).
Proof. induction 1; simpl; constructor; [lia|done]. Qed.
Lemma offset_zero ds : offset ds (replicate (length ds) 0%Z) = 0%Z.
Proof. induction ds; simpl; [done|]. rewrite IHds. lia. Qed.
Lemma zprod_pos_all ds : Forall (fun d => 0 <= d)%Z ds -> (1 <= zprod ds)%Z -> Forall (fun d => 1 <= d)%Z ds.
Proof.
  induction 1 as [|d ds Hd Hds IH]; intros H; simpl in *; constructor.
  - destruct (decide (d = 0)%Z); [subst; lia|lia].
  - apply IH. pose proof (zprod_nonneg ds Hds). nia.
Qed.
Lemma zprod_max_ge ds d : In d ds -> (d <= zprod (map (Z.max 1) ds))%Z.
Proof.
  induction ds as [|d' ds IH]; intros H; [done|]. pose proof (zprod_max_pos ds).
  assert (1 * zprod (map (Z.max 1) ds) <= Z.max 1 d' * zprod (map (Z.max 1) ds))%Z by (apply Z.mul_le_mono_nonneg_r; lia).
  assert (d' * 1 <= Z.max 1 d' * zprod (map (Z.max 1) ds))%Z.
  { transitivity (Z.max 1 d' * 1)%Z; [apply Z.mul_le_mono_nonneg_r; lia|apply Z.mul_le_mono_nonneg_l; lia]. }
  destruct H as [->|H]; simpl; [|apply IH in H]; lia.
Qed.

(** The outer loop visits column after column. *)
Lemma shape_loop_spec {S} d ds (inner : Z -> S -> res S) (I : nat -> S -> Prop) s0 :
  dim_ok (d :: ds) -> I 0 s0 ->
  (forall e s, (Z.of_nat e < zprod ds)%Z -> I e s ->
     exists s', inner (d * Z.of_nat e)%Z s = Ok s' /\ I (Datatypes.S e) s') ->
  exists s', shape_loop (d :: ds) inner s0 = Ok s' /\ I (Z.to_nat (zprod ds)) s'.
Proof.
  intros (_ & Hpos & Hmax) H0 Hstep. unfold shape_loop.
  simpl length. rewrite Nat.sub_succ, Nat.sub_0_r.
  rewrite strides_spec by done. cbn [bind]. rewrite shape_elem_n_spec by done. cbn [bind].
  inversion Hpos as [|?? Hd Hds]; subst.
  destruct (Z.leb_spec (zprod ds) 0) as [Hz|Hz].
  { replace (Z.to_nat (zprod ds)) with 0 by lia. simpl. eauto. }
  destruct (for_inv (fun e (st : S * list Z) => I e st.1 /\ (in_dim ds st.2) /\
      (Z.of_nat e < zprod ds -> offset ds st.2 = Z.of_nat e)%Z) 0 (Z.to_nat (zprod ds))
      (fun _ '(s, idx) =>
        let! loc := vec_strided_loc idx (scan d ds) (length ds) in
        let! s := inner loc s in
        let! idx := vec_shape_index_increment (d :: ds) (length ds) idx in
        Ok (s, idx)) (s0, alloc (length ds))) as ([s' idx'] & Hf & HI & _).
  - simpl. split; [done|]. split.
    + apply in_dim_zero. apply zprod_pos_all; [done|lia].
    + intros _. apply offset_zero.
  - intros e [s idx] He (HI & Hin & Hoff). simpl in *. specialize (Hoff ltac:(lia)).
    assert (Hle : (d * zprod ds <= INT_MAX)%Z).
    { pose proof (zprod_le_max (d :: ds) Hpos). simpl in *. lia. }
    assert (d * Z.of_nat e <= d * zprod ds)%Z by (apply Z.mul_le_mono_nonneg_l; lia).
    rewrite strided_loc_spec; [|done|done|rewrite Hoff; lia]. cbn [bind]. rewrite Hoff.
    destruct (Hstep e s ltac:(lia) HI) as (s' & -> & HI'). cbn [bind].
    rewrite shape_index_increment_spec; [|done|].
    2:{ apply Forall_forall. intros x Hx. apply elem_of_list_In in Hx.
        assert (Hx2 : (x <= zprod (map (Z.max 1) (d :: ds)))%Z) by (apply zprod_max_ge; by right).
        simpl in Hx2. lia. }
    cbn [bind]. eexists. split; [done|]. simpl. destruct (inc_spec ds idx Hin) as [Hi Ho].
    split; [done|]. split; [done|]. intros Hlt. rewrite Ho, Hoff.
    destruct (Z.ltb_spec (Z.of_nat e + 1) (zprod ds)); lia.
  - rewrite Hf. simpl in *. eauto.
Qed.
