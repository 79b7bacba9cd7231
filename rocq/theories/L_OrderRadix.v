(** * Lemmas: radix ordering *)
From Verif Require Import Base M_Order Spec_Order L_OrderSpec L_OrderSort L_OrderIns L_OrderScatter.
From Coq Require Import Sorting.Sorted.

#[local] Arguments Z.mul : simpl never.
#[local] Arguments Z.add : simpl never.
#[local] Arguments Z.sub : simpl never.
#[local] Arguments Z.pow : simpl never.
#[local] Arguments Z.of_nat : simpl never.

(** ** A window of 256 counts *)
Definition window (c0 : list nat) (off : nat) (F : nat -> nat) (c : list nat) : Prop :=
  length c = length c0 /\
  (forall b, b < 256 -> c !! (off + b) = Some (F b)) /\
  (forall j, j < off \/ off + 256 <= j -> c !! j = c0 !! j).

Lemma window_init c0 off : off + 256 <= length c0 ->
  (forall j, off <= j < length c0 -> c0 !! j = Some 0) -> window c0 off (fun _ => 0) c0.
Proof. intros H Hz. split; [done|]. split; [|done]. intros b Hb. apply Hz. lia. Qed.

Lemma window_wr c0 off F c b v : window c0 off F c -> b < 256 ->
  exists c', wr c (off + b) v = Ok c' /\ window c0 off (fun b' => if b' =? b then v else F b') c'.
Proof.
  intros (Hl & Hw & Ho) Hb.
  assert (off + b < length c) by (eapply lookup_lt_Some; by apply Hw).
  rewrite wr_Ok by done. eexists. split; [reflexivity|]. split; [by rewrite insert_length|]. split.
  - intros b' Hb'. destruct (Nat.eqb_spec b' b) as [->|Hne].
    + by apply list_lookup_insert.
    + rewrite list_lookup_insert_ne by lia. by apply Hw.
  - intros j Hj. rewrite list_lookup_insert_ne by lia. by apply Ho.
Qed.

Lemma window_rd c0 off F c b : window c0 off F c -> b < 256 -> rd c (off + b) = Ok (F b).
Proof. intros (Hl & Hw & Ho) Hb. apply rd_Ok. by apply Hw. Qed.

Lemma window_ext c0 off F G c : (forall b, b < 256 -> F b = G b) -> window c0 off F c -> window c0 off G c.
Proof. intros H (Hl & Hw & Ho). split; [done|]. split; [|done]. intros b Hb. rewrite <- H by done. by apply Hw. Qed.

Lemma window_done c0 off c : (forall j, off <= j < length c0 -> c0 !! j = Some 0) ->
  window c0 off (fun _ => 0) c -> c = c0.
Proof.
  intros Hz (Hl & Hw & Ho). apply list_eq. intros j.
  destruct (decide (j < off \/ off + 256 <= j)) as [Hj|Hj]; [by apply Ho|].
  rewrite Hz.
  - replace j with (off + (j - off)) by lia. apply Hw. lia.
  - assert (j < length c); [|lia]. replace j with (off + (j - off)) by lia.
    eapply lookup_lt_Some. apply Hw. lia.
Qed.

(** the part of the working memory above a window *)
Lemma window_above c0 off F c off' : (forall j, off <= j < length c0 -> c0 !! j = Some 0) ->
  window c0 off F c -> off + 256 <= off' -> forall j, off' <= j < length c -> c !! j = Some 0.
Proof.
  intros Hz (Hl & Hw & Ho) H j Hj. rewrite Ho by lia. apply Hz. lia.
Qed.

Lemma rdZ_off {A} (l : list A) off (b : nat) : rdZ l (Z.of_nat off + Z.of_nat b) = rd l (off + b).
Proof. rewrite <- Nat2Z.inj_add. apply rdZ_nat. Qed.
Lemma wrZ_off {A} (l : list A) off (b : nat) v : wrZ l (Z.of_nat off + Z.of_nat b) v = wr l (off + b) v.
Proof. rewrite <- Nat2Z.inj_add. apply wrZ_nat. Qed.

(** ** Bytes of a key *)
Section bytes.
  Context (mp : nat).
  Definition byteat (p : nat) (x : Z) : Z := extract_byte x (pass_shift mp p).
  Definition hi (p : nat) (x : Z) : Z := (x / 2 ^ (8 * Z.of_nat (mp - p)))%Z.

  Lemma byteat_eq p x : byteat p x = ((x / 2 ^ (8 * Z.of_nat (mp - 1 - p))) mod 256)%Z.
  Proof.
    unfold byteat, extract_byte, pass_shift. change 255%Z with (Z.ones 8).
    rewrite Z.land_ones by lia. rewrite Z.shiftr_div_pow2 by lia.
    replace (Z.of_nat ((mp - 1 - p) * 8)) with (8 * Z.of_nat (mp - 1 - p))%Z by lia. done.
  Qed.
  Lemma byteat_range p x : (0 <= byteat p x < 256)%Z.
  Proof. rewrite byteat_eq. apply Z.mod_pos_bound. lia. Qed.

  Lemma hi_S p x : p < mp -> hi (S p) x = (hi p x * 256 + byteat p x)%Z.
  Proof.
    intros Hp. rewrite byteat_eq. unfold hi.
    replace (mp - S p) with (mp - 1 - p) by lia.
    replace (8 * Z.of_nat (mp - p))%Z with (8 * Z.of_nat (mp - 1 - p) + 8)%Z by lia.
    rewrite Z.pow_add_r by lia. change (2 ^ 8)%Z with 256%Z.
    rewrite <- Z.div_div by (try apply Z.pow_pos_nonneg; try apply Z.pow_nonzero; lia).
    rewrite (Z.mul_comm (_ / 256)), <- Z.div_mod by lia. done.
  Qed.
  Lemma hi_max x : hi mp x = x.
  Proof. unfold hi. rewrite Nat.sub_diag. simpl. by rewrite Z.div_1_r. Qed.
  Lemma hi_0 x : (0 <= x < 2 ^ (8 * Z.of_nat mp))%Z -> hi 0 x = 0%Z.
  Proof. intros H. unfold hi. rewrite Nat.sub_0_r. by apply Z.div_small. Qed.
  Lemma hi_lt p x y : (hi p x < hi p y)%Z -> (x < y)%Z.
  Proof.
    intros H. destruct (Z.lt_ge_cases x y) as [?|Hge]; [done|]. exfalso.
    unfold hi in H. assert (2 ^ (8 * Z.of_nat (mp - p)) > 0)%Z.
    { apply Z.lt_gt, Z.pow_pos_nonneg; lia. }
    pose proof (Z_div_le y x _ H0 Hge). lia.
  Qed.

  Context (K : Z -> Z).
  Definition agree (p : nat) (os : list Z) : Prop :=
    forall a b, a ∈ os -> b ∈ os -> hi p (K a) = hi p (K b).
  Definition byte_agree (p : nat) (os : list Z) : Prop :=
    forall a b, a ∈ os -> b ∈ os -> byteat p (K a) = byteat p (K b).
  Definition skips_ok (skips : list bool) (os : list Z) : Prop :=
    length skips = mp /\ forall p, skips !! p = Some true -> byte_agree p os.

  Lemma agree_S p os : p < mp -> agree p os -> byte_agree p os -> agree (S p) os.
  Proof. intros Hp Ha Hb a b Hx Hy. rewrite !hi_S by done. rewrite (Ha a b), (Hb a b); done. Qed.

  Lemma skip_while_spec skips os : skips_ok skips os -> forall fuel p,
    mp - p <= fuel -> p <= mp -> agree p os ->
    exists p', skip_while fuel mp skips p = Ok p' /\ p <= p' <= mp /\ agree p' os.
  Proof.
    intros [Hl Hs]. induction fuel as [|fuel IH]; intros p Hf Hp Ha; simpl.
    - destruct (Nat.ltb_spec p mp); [lia|]. exists p. done.
    - destruct (Nat.ltb_spec p mp) as [Hlt|Hge]; [|exists p; done].
      destruct (lookup_lt_is_Some_2 skips p) as [s Hs']; [lia|].
      rewrite (proj2 (rd_Ok _ _ _) Hs'). simpl. destruct s.
      + destruct (IH (S p)) as (p' & E & Hr & Ha'); [lia|lia| |].
        * apply agree_S; [done|done|]. by apply Hs.
        * exists p'. split; [done|]. split; [lia|done].
      + exists p. done.
  Qed.

  (** ** Skipped passes *)
  Lemma skip_pass_spec elt bytes skips : length skips = mp -> length bytes = mp ->
    exists skips' n, skip_pass mp elt bytes skips = Ok (skips', n) /\ length skips' = mp /\
      (forall p, skips' !! p = Some true -> skips !! p = Some true /\ bytes !! p = Some (byteat p elt)) /\
      (n = 0 -> forall p, skips' !! p <> Some true).
  Proof.
    intros Hl Hb. unfold skip_pass.
    match goal with |- exists s n, for_ 0 mp ?body ?st = _ /\ _ =>
      destruct (for_inv
        (fun i '(s', n) => length s' = mp /\
           (forall p, p < i -> s' !! p = Some true -> skips !! p = Some true /\ bytes !! p = Some (byteat p elt)) /\
           (forall p, i <= p -> s' !! p = skips !! p) /\
           exists c, n + c = mp /\ c <= i /\ (c = i -> forall p, p < i -> s' !! p = Some false))
        0 mp body st) as ([s' n] & E & H1 & H2 & H3 & c & H4 & H5 & H6) end.
    - split; [done|]. split; [intros; lia|]. split; [done|]. exists 0. split; [lia|]. split; [lia|]. intros; lia.
    - intros i [s' n] Hi (H1 & H2 & H3 & c & H4 & H5 & H6).
      destruct (lookup_lt_is_Some_2 s' i) as [s Hs]; [lia|].
      rewrite (proj2 (rd_Ok _ _ _) Hs). simpl. destruct s.
      + destruct (lookup_lt_is_Some_2 bytes i) as [b Hbi]; [lia|].
        rewrite (proj2 (rd_Ok _ _ _) Hbi). simpl. rewrite wr_Ok by lia. simpl.
        eexists. split; [reflexivity|]. cbn beta iota. rewrite insert_length. split; [done|]. split; [|split].
        * intros p Hp. destruct (decide (p = i)) as [->|Hne].
          -- rewrite list_lookup_insert by lia. intros [= He]. apply Z.eqb_eq in He.
             split; [rewrite <- H3 by lia; done|]. rewrite Hbi. f_equal. done.
          -- rewrite list_lookup_insert_ne by done. apply H2. lia.
        * intros p Hp. rewrite list_lookup_insert_ne by lia. apply H3. lia.
        * exists c. split; [lia|]. split; [lia|]. intros; lia.
      + eexists. split; [reflexivity|]. cbn beta iota. split; [done|]. split; [|split].
        * intros p Hp. destruct (decide (p = i)) as [->|Hne]; [congruence|]. apply H2. lia.
        * intros p Hp. apply H3. lia.
        * exists (S c). split; [lia|]. split; [lia|]. intros Hc p Hp.
          destruct (decide (p = i)) as [->|Hne]; [done|]. apply H6; lia.
    - exists s', n. split; [done|]. split; [done|]. split.
      + intros p Hp. apply H2; [|done]. apply lookup_lt_Some in Hp. lia.
      + intros -> p Hp. pose proof (lookup_lt_Some _ _ _ Hp). rewrite H6 in Hp; [done|lia|lia].
  Qed.

  Lemma compute_skips_spec os : os <> [] -> (forall a, a ∈ os -> (0 <= K a < 2 ^ (8 * Z.of_nat mp))%Z) ->
    exists pass skips, compute_skips mp (map K os) = Ok (pass, skips) /\ skips_ok skips os /\
      pass <= mp /\ agree pass os.
  Proof.
    intros Hne HK. unfold compute_skips. rewrite map_length.
    assert (0 < length os) by (destruct os; [done|simpl; lia]).
    destruct (lookup_lt_is_Some_2 os 0) as [o0 H0]; [lia|].
    rewrite (rd_fmap K os 0 o0 H0). simpl bind.
    set (bytes := map _ (seq 0 mp)).
    assert (Hb : length bytes = mp) by (subst bytes; by rewrite map_length, seq_length).
    assert (Hbl : forall p b, bytes !! p = Some b -> b = byteat p (K o0)).
    { intros p b Hp. subst bytes. rewrite list_lookup_fmap in Hp.
      destruct (seq 0 mp !! p) as [q|] eqn:Eq; [|done]. apply lookup_seq in Eq as [-> _].
      simpl in Hp. by injection Hp as <-. }
    match goal with |- exists pass skips, bind (for_brk 1 _ ?body ?st) _ = _ /\ _ =>
      destruct (for_brk_inv
        (fun i s => length s = mp /\ forall p, s !! p = Some true -> forall j a, j < i -> os !! j = Some a ->
             byteat p (K a) = byteat p (K o0))
        (fun s => length s = mp /\ forall p, s !! p = Some true -> forall a, a ∈ os -> 
             byteat p (K a) = byteat p (K o0))
        1 (length os - 1) body st) as (skips & E & Hl & Hs) end.
    - rewrite replicate_length. split; [done|]. intros p _ j a Hj Ha. replace j with 0 in Ha by lia. congruence.
    - intros i s Hi [Hl Hs]. destruct (lookup_lt_is_Some_2 os i) as [a Ha]; [lia|].
      rewrite (rd_fmap K os i a Ha). simpl.
      destruct (skip_pass_spec (K a) bytes s Hl Hb) as (s' & n & E & Hl' & Hs' & Hn).
      rewrite E. simpl. destruct (Nat.eqb_spec n 0) as [En|En].
      + right. eexists. split; [reflexivity|]. split; [done|]. intros p Hp. by destruct (Hn En p).
      + left. eexists. split; [reflexivity|]. split; [done|]. intros p Hp j c Hj Hc.
        destruct (Hs' p Hp) as [Hsp Hbp]. destruct (decide (j = i)) as [->|Hne'].
        * apply Hbl in Hbp. congruence.
        * eapply (Hs p Hsp j); [lia|done].
    - intros s [Hl Hs]. split; [done|]. intros p Hp a Ha. apply elem_of_list_lookup in Ha as (j & Hj).
      apply (Hs p Hp j); [|done]. apply lookup_lt_Some in Hj. lia.
    - rewrite E. simpl.
      assert (Hok : skips_ok skips os).
      { split; [done|]. intros p Hp a b Ha Hb'. by rewrite (Hs p Hp a Ha), (Hs p Hp b Hb'). }
      destruct (skip_while_spec skips os Hok mp 0) as (pass & E' & Hr & Ha); [lia|lia| |].
      + intros a b Ha Hb'. rewrite !hi_0; [done|by apply HK|by apply HK].
      + rewrite E'. simpl. exists pass, skips. split; [done|]. split; [done|]. split; [lia|done].
  Qed.
End bytes.

(** ** One pass *)
Definition us256 : list Z := map Z.of_nat (seq 0 256).
Lemma us256_lookup k : k < 256 -> us256 !! k = Some (Z.of_nat k).
Proof. intros H. unfold us256. rewrite list_lookup_fmap, lookup_seq_lt by done. done. Qed.
Lemma us256_NoDup : NoDup us256.
Proof.
  unfold us256. apply NoDup_fmap_2; [intros x y H; lia|]. apply NoDup_ListNoDup, seq_NoDup.
Qed.
Lemma us256_elem u : u ∈ us256 <-> (0 <= u < 256)%Z.
Proof.
  unfold us256. rewrite elem_of_list_fmap. split.
  - intros (i & -> & Hi). apply elem_of_seq in Hi. lia.
  - intros H. exists (Z.to_nat u). split; [lia|]. apply elem_of_seq. lia.
Qed.
Lemma us256_length : length us256 = 256.
Proof. done. Qed.

Lemma bcnt_full {A} (beta : A -> Z) u l : bcnt beta u l = length l -> forall a, a ∈ l -> beta a = u.
Proof.
  unfold bcnt, bkt. induction l as [|x l IH]; intros H a Ha; [by apply elem_of_nil in Ha|].
  rewrite filter_cons in H. destruct (decide (beta x = u)) as [E|E].
  - simpl in H. apply elem_of_cons in Ha as [->|Ha]; [done|]. apply IH; [lia|done].
  - exfalso. simpl in H. pose proof (filter_length (fun a => beta a = u) l). lia.
Qed.
Lemma bcnt_other {A} (beta : A -> Z) u l : (forall a, a ∈ l -> beta a <> u) -> bcnt beta u l = 0.
Proof.
  intros H. unfold bcnt. destruct (bkt beta u l) as [|x k] eqn:E; [done|]. exfalso.
  assert (Hx : x ∈ bkt beta u l) by (rewrite E; by left). apply bkt_elem in Hx as [Hx Hl].
  by apply (H x).
Qed.

Section window_ops.
  Context {A : Type} (beta : A -> Z).
  Hypothesis Hrange : forall a, (0 <= beta a < 256)%Z.

  Definition cst (os : list A) (b : nat) : nat :=
    length (concat (map (fun v => bkt beta v os) (take b us256))).
  Lemma cst_0 os : cst os 0 = 0.
  Proof. done. Qed.
  Lemma cst_S os b : b < 256 -> cst os (S b) = cst os b + bcnt beta (Z.of_nat b) os.
  Proof.
    intros H. unfold cst. rewrite (take_S_r _ _ (Z.of_nat b)) by (by apply us256_lookup).
    rewrite map_app, concat_app, app_length. simpl. rewrite app_nil_r. done.
  Qed.
  Lemma cst_mono os b c : b <= c -> c <= 256 -> cst os b <= cst os c.
  Proof. induction 1 as [|c H IH]; intros Hc; [done|]. rewrite cst_S by lia. specialize (IH ltac:(lia)). lia. Qed.
  Lemma cst_256 os : cst os 256 = length os.
  Proof.
    unfold cst. rewrite take_ge by (rewrite us256_length; lia).
    apply Permutation_length, buckets_perm; [apply us256_NoDup|]. intros a _. by apply us256_elem.
  Qed.
  Lemma cst_layout os : layout beta (fun u => cst os (Z.to_nat u)) os us256.
  Proof.
    intros k u Hk _. pose proof (lookup_lt_Some _ _ _ Hk) as Hlt. rewrite us256_length in Hlt.
    rewrite us256_lookup in Hk by done. injection Hk as <-. by rewrite Nat2Z.id.
  Qed.
  Lemma cst_sep os : sep beta (fun u => cst os (Z.to_nat u)) os.
  Proof.
    eapply layout_sep; [apply us256_NoDup|apply cst_layout|]. intros u Hu.
    unfold bcnt in Hu. destruct (bkt beta u os) as [|x k] eqn:E; [simpl in Hu; lia|].
    assert (Hx : x ∈ bkt beta u os) by (rewrite E; by left). apply bkt_elem in Hx as [<- _]. by apply us256_elem.
  Qed.

  Definition bn (a : A) : nat := Z.to_nat (beta a).
  Lemma bn_Z a : beta a = Z.of_nat (bn a).
  Proof. unfold bn. rewrite Z2Nat.id; [done|apply Hrange]. Qed.
  Lemma bn_lt a : bn a < 256.
  Proof. unfold bn. pose proof (Hrange a). lia. Qed.

  Lemma accumulate_spec os c0 off c : window c0 off (fun b => bcnt beta (Z.of_nat b) os) c ->
    exists c', radix_accumulate off c = Ok (c', length os) /\
      window c0 off (fun b => if bcnt beta (Z.of_nat b) os =? 0 then 0 else cst os b) c'.
  Proof.
    intros W. unfold radix_accumulate, UINT8_MAX_SIZE.
    match goal with |- exists c', for_ 0 256 ?body ?st = _ /\ _ =>
      destruct (for_inv
        (fun i '(c', cum) => cum = cst os i /\
          window c0 off (fun b => if b <? i then (if bcnt beta (Z.of_nat b) os =? 0 then 0 else cst os b)
                                  else bcnt beta (Z.of_nat b) os) c')
        0 256 body st) as ([c' cum] & E & -> & W') end.
    - split; [done|]. eapply window_ext; [|exact W]. intros b _. simpl. done.
    - intros i [c' cum] Hi [-> W'].
      rewrite (window_rd _ _ _ _ i W') by lia. rewrite Nat.ltb_irrefl. simpl bind.
      rewrite cst_S by lia.
      destruct (Nat.eqb_spec (bcnt beta (Z.of_nat i) os) 0) as [Ez|Ez].
      + eexists. split; [reflexivity|]. split; [lia|]. eapply window_ext; [|exact W'].
        intros b Hb. cbn beta. destruct (Nat.ltb_spec b i), (Nat.ltb_spec b (S i)); try lia; try done.
        assert (b = i) as -> by lia. by rewrite Ez.
      + destruct (window_wr _ _ _ _ i (cst os i) W') as (c'' & E & W''); [lia|]. rewrite E. simpl.
        eexists. split; [reflexivity|]. split; [done|]. eapply window_ext; [|exact W''].
        intros b Hb. cbn beta. destruct (Nat.eqb_spec b i) as [->|Hne].
        * destruct (Nat.ltb_spec i (S i)); [|lia]. by destruct (Nat.eqb_spec (bcnt beta (Z.of_nat i) os) 0).
        * destruct (Nat.ltb_spec b i), (Nat.ltb_spec b (S i)); try lia; done.
    - exists c'. rewrite E, cst_256. split; [done|]. eapply window_ext; [|exact W'].
      intros b Hb. cbn beta. destruct (Nat.ltb_spec b (0 + 256)); [done|lia].
  Qed.
End window_ops.

Definition mok (n : nat) (m : radix_mem) : Prop :=
  length (rm_x_aux m) = n /\ length (rm_o_aux m) = n /\ length (rm_bytes m) = n.

Section pass.
  Context (mp : nat) (K : Z -> Z) (pass : nat) (n : nat).
  Let beta (a : Z) : Z := byteat mp pass (K a).
  Let Hrange : forall a, (0 <= beta a < 256)%Z := fun a => byteat_range mp pass (K a).

  Lemma histogram_spec os off mem :
    length os <= n -> mok n mem -> off + 256 <= length (rm_counts mem) ->
    (forall j, off <= j < length (rm_counts mem) -> rm_counts mem !! j = Some 0) ->
    exists b mem', radix_histogram (pass_shift mp pass) (map K os) off mem = Ok (b, mem') /\
      mok n mem' /\ window (rm_counts mem) off (fun b => bcnt beta (Z.of_nat b) os) (rm_counts mem') /\
      (forall i a, os !! i = Some a -> rm_bytes mem' !! i = Some (beta a)) /\
      (os <> [] -> exists a, a ∈ os /\ b = beta a).
  Proof.
    intros Hn Hm Hoff Hz. unfold radix_histogram. rewrite map_length.
    match goal with |- exists b m, for_ 0 _ ?body ?st = _ /\ _ =>
      destruct (for_inv
        (fun i '(b, mem') => mok n mem' /\
          window (rm_counts mem) off (fun b => bcnt beta (Z.of_nat b) (take i os)) (rm_counts mem') /\
          (forall j a, j < i -> os !! j = Some a -> rm_bytes mem' !! j = Some (beta a)) /\
          (0 < i -> exists a, a ∈ os /\ b = beta a))
        0 (length os) body st) as ([b mem'] & E & H1 & H2 & H3 & H4) end.
    - split; [done|]. split; [|split; intros; lia]. by apply window_init.
    - intros i [b mem'] Hi (Hm' & W & Hb & _).
      destruct (lookup_lt_is_Some_2 os i) as [a Ha]; [lia|].
      rewrite (rd_fmap K os i a Ha). simpl bind.
      change (extract_byte (K a) (pass_shift mp pass)) with (beta a).
      destruct Hm' as (Hm1 & Hm2 & Hm3). rewrite wr_Ok by lia. simpl bind.
      rewrite (bn_Z beta Hrange a), rdZ_off.
      pose proof (bn_lt beta Hrange a) as Hlt.
      rewrite (window_rd _ _ _ _ _ W Hlt). simpl bind. rewrite wrZ_off.
      destruct (window_wr _ _ _ _ (bn beta a) (S (bcnt beta (Z.of_nat (bn beta a)) (take i os))) W Hlt)
        as (c' & E & W').
      rewrite E. simpl. eexists. split; [reflexivity|]. cbn beta iota. cbn [rm_counts rm_bytes rm_x_aux rm_o_aux].
      split; [|split; [|split]].
      + unfold mok. simpl. rewrite insert_length. done.
      + eapply window_ext; [|exact W']. intros b' Hb'. cbn beta.
        rewrite (take_S_r _ _ a) by done. rewrite bcnt_snoc.
        destruct (Nat.eqb_spec b' (bn beta a)) as [->|Hne].
        * rewrite <- bn_Z by done. rewrite decide_True by done. lia.
        * rewrite decide_False; [lia|]. rewrite (bn_Z beta Hrange a). lia.
      + intros j c Hj Hc. destruct (decide (j = i)) as [->|Hne].
        * rewrite list_lookup_insert by lia. rewrite <- bn_Z by done. congruence.
        * rewrite list_lookup_insert_ne by done. apply Hb; [lia|done].
      + intros _. exists a. split; [by eapply elem_of_list_lookup_2|]. by rewrite <- bn_Z.
    - rewrite E. exists b, mem'. split; [done|]. split; [done|]. simpl in H2.
      rewrite take_ge in H2 by lia. split; [done|]. split.
      + intros i a Ha. apply H3; [|done]. apply lookup_lt_Some in Ha. lia.
      + intros Hne. apply H4. destruct os; [done|simpl; lia].
  Qed.

  Lemma place_spec os off mem c0 :
    length os <= n -> mok n mem ->
    window c0 off (fun b => if bcnt beta (Z.of_nat b) os =? 0 then 0 else cst beta os b) (rm_counts mem) ->
    (forall i a, os !! i = Some a -> rm_bytes mem !! i = Some (beta a)) ->
    exists mem', radix_place (map K os) os off mem = Ok mem' /\ mok n mem' /\
      window c0 off (fun b => if bcnt beta (Z.of_nat b) os =? 0 then 0 else cst beta os (S b)) (rm_counts mem') /\
      let os' := concat (map (fun v => bkt beta v os) us256) in
      take (length os) (rm_o_aux mem') = os' /\ take (length os) (rm_x_aux mem') = map K os'.
  Proof.
    intros Hn Hm W Hb. unfold radix_place. rewrite map_length.
    assert (Hlen : length (concat (map (fun v => bkt beta v os) us256)) = length os).
    { apply Permutation_length, buckets_perm; [apply us256_NoDup|]. intros a _. by apply us256_elem. }
    match goal with |- exists m, for_ 0 _ ?body ?st = _ /\ _ =>
      destruct (for_inv
        (fun i mem' => mok n mem' /\ rm_bytes mem' = rm_bytes mem /\
          window c0 off (fun b => if bcnt beta (Z.of_nat b) os =? 0 then 0
             else cst beta os b + bcnt beta (Z.of_nat b) (take i os)) (rm_counts mem') /\
          placed beta id (fun u => cst beta os (Z.to_nat u)) (take i os) (rm_o_aux mem') /\
          placed beta K (fun u => cst beta os (Z.to_nat u)) (take i os) (rm_x_aux mem'))
        0 (length os) body st) as (mem' & E & H1 & H2 & H3 & H4 & H5) end.
    - split; [done|]. split; [done|]. split; [|split; apply placed_nil].
      eapply window_ext; [|exact W]. intros b _. cbn beta. unfold bcnt at 3. simpl.
      by rewrite Nat.add_0_r.
    - intros i mem' Hi (Hm' & Hbb & W' & Ho & Hx).
      destruct (lookup_lt_is_Some_2 os i) as [a Ha]; [lia|].
      assert (Hby : rm_bytes mem' !! i = Some (beta a)) by (rewrite Hbb; by apply Hb).
      rewrite (proj2 (rd_Ok _ _ _) Hby). simpl bind.
      rewrite (bn_Z beta Hrange a), rdZ_off.
      pose proof (bn_lt beta Hrange a) as Hlt.
      rewrite (window_rd _ _ _ _ _ W' Hlt). simpl bind. rewrite wrZ_off. rewrite <- bn_Z by done.
      assert (Hpos : 0 < bcnt beta (beta a) os) by (apply bcnt_pos; by eapply elem_of_list_lookup_2).
      destruct (Nat.eqb_spec (bcnt beta (beta a) os) 0) as [?|_]; [lia|].
      set (loc := cst beta os (bn beta a) + bcnt beta (beta a) (take i os)).
      destruct (window_wr _ _ _ _ (bn beta a) (S loc) W' Hlt) as (c' & E & W'').
      rewrite E. simpl bind. rewrite (proj2 (rd_Ok _ _ _) Ha). simpl bind.
      assert (Hcnt : bcnt beta (beta a) (take (S i) os) <= bcnt beta (beta a) os).
      { rewrite <- (take_drop (S i) os) at 2. unfold bcnt. rewrite bkt_app, app_length. lia. }
      rewrite (take_S_r _ _ a) in Hcnt by done. rewrite bcnt_snoc, decide_True in Hcnt by done.
      assert (Hloc : loc < length os).
      { subst loc. rewrite <- (cst_256 beta Hrange os).
        pose proof (cst_mono beta os (S (bn beta a)) 256). rewrite cst_S in H by done.
        rewrite <- bn_Z in H by done. specialize (H ltac:(lia) ltac:(lia)). lia. }
      destruct Hm' as (Hm1 & Hm2 & Hm3).
      rewrite wr_Ok by lia. simpl bind. rewrite (rd_fmap K os i a Ha). simpl bind.
      rewrite wr_Ok by lia. simpl bind. eexists. split; [reflexivity|].
      cbn [rm_counts rm_bytes rm_x_aux rm_o_aux].
      split; [|split; [done|split; [|split]]].
      + unfold mok. simpl. rewrite !insert_length. done.
      + eapply window_ext; [|exact W'']. intros b' Hb'. cbn beta.
        rewrite (take_S_r _ _ a) by done. rewrite bcnt_snoc.
        destruct (Nat.eqb_spec b' (bn beta a)) as [->|Hne].
        * rewrite <- bn_Z by done. rewrite decide_True by done.
          destruct (Nat.eqb_spec (bcnt beta (beta a) os) 0); [lia|]. subst loc. lia.
        * rewrite decide_False; [by rewrite Nat.add_0_r|]. rewrite (bn_Z beta Hrange a). lia.
      + apply (placed_step beta id (fun u => cst beta os (Z.to_nat u)) os i a);
          [by apply cst_sep|done|rewrite Hm2; fold (bn beta a); fold loc; lia|done].
      + apply (placed_step beta K (fun u => cst beta os (Z.to_nat u)) os i a);
          [by apply cst_sep|done|rewrite Hm1; fold (bn beta a); fold loc; lia|done].
    - rewrite E. exists mem'. split; [done|]. split; [done|]. simpl in H3, H4, H5.
      rewrite take_ge in H3, H4, H5 by lia. split.
      + eapply window_ext; [|exact H3]. intros b Hb'. cbn beta. rewrite cst_S by done. done.
      + cbv zeta. split.
        * rewrite (placed_final beta id _ os _ us256 (cst_layout beta os) H4 Hlen). apply map_id.
        * apply (placed_final beta K _ os _ us256 (cst_layout beta os) H5 Hlen).
  Qed.
End pass.

(** ** The recursion *)
Lemma seg_app {A} (l1 l2 l3 : list A) : seg (l1 ++ l2 ++ l3) (length l1) (length l2) = l2.
Proof. unfold seg. by rewrite drop_app, take_app. Qed.
Lemma put_seg_app {A} (l1 l2 l3 s : list A) : length s = length l2 ->
  put_seg (l1 ++ l2 ++ l3) (length l1) s = l1 ++ s ++ l3.
Proof.
  intros H. unfold put_seg. rewrite take_app. f_equal. f_equal.
  rewrite <- drop_drop, drop_app, H. by rewrite drop_app.
Qed.

Lemma bkt_inc beta u os : StronglySorted Z.lt os -> StronglySorted Z.lt (bkt beta u os).
Proof. apply ss_sublist. apply filter_sublist. Qed.

Section recurse.
  Context (mp : nat) (K : Z -> Z) (skips : list bool) (n : nat).
  Notation kcmp := (fun a b => (K a ?= K b)%Z).

  Lemma og_agree_max os : os <> [] -> StronglySorted Z.lt os -> agree mp K mp os -> og kcmp os [os].
  Proof.
    intros Hne Hs Ha. apply og_single; [done|done|]. intros x y Hx Hy.
    specialize (Ha x y Hx Hy). rewrite !hi_max in Ha. rewrite Ha. apply Z.compare_refl.
  Qed.

  Lemma skips_ok_sub os os' : (forall a, a ∈ os' -> a ∈ os) -> skips_ok mp K skips os -> skips_ok mp K skips os'.
  Proof.
    intros H [Hl Hs]. split; [done|]. intros p Hp a b Ha Hb. apply (Hs p Hp); by apply H.
  Qed.

  Lemma radix_recurse_spec fuel : forall pass os off mem g,
    mp - pass <= fuel -> pass < mp -> StronglySorted Z.lt os -> agree mp K pass os ->
    skips_ok mp K skips os -> mok n mem -> length os <= n ->
    off + 256 * (mp - pass) <= length (rm_counts mem) ->
    (forall j, off <= j < length (rm_counts mem) -> rm_counts mem !! j = Some 0) ->
    gwf g -> room g (length os) ->
    exists bs mem' g',
      order_radix_recurse mp skips fuel pass (map K os) os off mem g
        = Ok (map K (concat bs), concat bs, mem', g') /\
      og kcmp os bs /\ pushed g (map length bs) g' /\ mok n mem' /\ rm_counts mem' = rm_counts mem.
  Proof.
    induction fuel as [|fuel IH]; intros pass os off mem g Hf Hp Hinc Hag Hsk Hm Hn Hoff Hz W R; [lia|].
    cbn [order_radix_recurse]. rewrite map_length.
    destruct (Nat.leb_spec (length os) ORDER_INSERTION_BOUNDARY) as [Hsmall|Hbig].
    { destruct (order_insertion_spec K os g Hinc W R) as (bs & g' & E & Hog & Hpu).
      rewrite E. simpl. exists bs, mem, g'. done. }
    unfold ORDER_INSERTION_BOUNDARY in Hbig.
    assert (Hne : os <> []) by (intros ->; simpl in Hbig; lia).
    set (beta := fun a => byteat mp pass (K a)).
    assert (Hrange : forall a, (0 <= beta a < 256)%Z) by (intros a; apply byteat_range).
    (* the next pass *)
    assert (Hnext : exists next, skip_while mp mp skips (S pass) = Ok next /\ S pass <= next <= mp /\
              forall os', (forall a, a ∈ os' -> a ∈ os) -> agree mp K (S pass) os' -> agree mp K next os').
    { destruct (skip_while_spec mp K skips [] (skips_ok_sub os [] ltac:(intros a Ha; by apply elem_of_nil in Ha) Hsk)
        mp (S pass)) as (next & E & Hr & _); [lia|lia| |].
      { intros a b Ha. by apply elem_of_nil in Ha. }
      exists next. split; [done|]. split; [done|]. intros os' Hsub Hag'.
      destruct (skip_while_spec mp K skips os' (skips_ok_sub os os' Hsub Hsk) mp (S pass))
        as (next' & E' & _ & Hag''); [lia|lia|done|].
      rewrite E in E'. injection E' as <-. done. }
    destruct Hnext as (next & Enext & Hrn & Hnext). rewrite Enext. cbn [bind]. clear Enext.
    destruct (histogram_spec mp K pass n os off mem) as (last & mem1 & E1 & Hm1 & W1 & Hb1 & Hlast);
      [done|done|lia|done|].
    rewrite E1. cbn [bind]. clear E1. destruct (Hlast Hne) as (al & Hal & ->). clear Hlast.
    fold beta in W1, Hb1 |- *. change (byteat mp pass (K al)) with (beta al).
    rewrite (bn_Z beta Hrange al), rdZ_off.
    pose proof (bn_lt beta Hrange al) as Hblt.
    rewrite (window_rd _ _ _ _ _ W1 Hblt). cbn [bind]. rewrite wrZ_off.
    destruct (Nat.eqb_spec (bcnt beta (Z.of_nat (bn beta al)) os) (length os)) as [Eall|Eall].
    - (* all the same byte *)
      rewrite <- bn_Z in Eall by done. pose proof (bcnt_full beta _ os Eall) as Hsame.
      destruct (window_wr _ _ _ _ (bn beta al) 0 W1 Hblt) as (c2 & E2 & W2). rewrite E2. cbn [bind]. clear E2.
      assert (Hc2 : c2 = rm_counts mem).
      { apply (window_done (rm_counts mem) off); [done|]. eapply window_ext; [|exact W2].
        intros b Hb. cbn beta. destruct (Nat.eqb_spec b (bn beta al)) as [->|Hnb]; [done|].
        apply bcnt_other. intros a Ha He. rewrite (Hsame a Ha), (bn_Z beta Hrange al) in He. lia. }
      subst c2.
      assert (HagS : agree mp K next os).
      { apply Hnext; [done|]. apply agree_S; [done|done|]. intros a b Ha Hb.
        change (beta a = beta b). by rewrite (Hsame a Ha), (Hsame b Hb). }
      destruct Hm1 as (Hm1a & Hm1b & Hm1c).
      destruct (Nat.eqb_spec next mp) as [->|Hnm].
      + destruct (maybe_push_spec (length os) g W) as (g' & E & Hpu); [lia|eapply room_le; [|exact R]; lia|].
        rewrite E. cbn [bind]. exists [os], (RMem (rm_x_aux mem1) (rm_o_aux mem1) (rm_bytes mem1) (rm_counts mem)), g'.
        cbn [concat]. rewrite app_nil_r. split; [done|].
        split; [by apply og_agree_max|]. split; [done|]. split; [done|]. done.
      + destruct (IH next os (off + UINT8_MAX_SIZE * (next - pass))
           (RMem (rm_x_aux mem1) (rm_o_aux mem1) (rm_bytes mem1) (rm_counts mem)) g)
          as (bs & mem' & g' & E & Hog & Hpu & Hmk & Hcs); try done.
        * lia.
        * lia.
        * cbn [rm_counts]. unfold UINT8_MAX_SIZE. lia.
        * cbn [rm_counts]. intros j Hj. apply Hz. unfold UINT8_MAX_SIZE in Hj. lia.
        * exists bs, mem', g'. done.
    - clear al Hal Hblt Eall.
      destruct (accumulate_spec beta Hrange os _ off _ W1) as (c2 & E2 & W2). rewrite E2. cbn [bind]. clear E2.
      set (mem2 := RMem _ _ _ c2).
      destruct (place_spec mp K pass n os off mem2 (rm_counts mem)) as (mem3 & E3 & Hm3 & W3 & Ho3 & Hx3);
        [done|done|done|done|].
      rewrite E3. cbn [bind]. clear E3 mem2. fold beta in W3, Ho3, Hx3.
      set (os' := concat (map (fun v => bkt beta v os) us256)) in *.
      rewrite Ho3, Hx3.
      assert (Hperm : os' ≡ₚ os).
      { apply buckets_perm; [apply us256_NoDup|]. intros a _. by apply us256_elem. }
      (* buckets from [i] on *)
      set (rest := fun i => concat (map (fun v => bkt beta v os) (drop i us256))).
      assert (Hrest : forall i, i < 256 -> rest i = bkt beta (Z.of_nat i) os ++ rest (S i)).
      { intros i Hi. unfold rest. rewrite (drop_S _ (Z.of_nat i)) by (by apply us256_lookup). done. }
      match goal with |- exists bs m g', bind (for_brk 0 _ ?body ?st) _ = _ /\ _ =>
        destruct (for_brk_inv
          (fun i '(p_x, p_o, mem', g', last) => exists bs,
             p_o = concat bs ++ rest i /\ p_x = map K p_o /\ last = cst beta os i /\ length (concat bs) = last /\
             og kcmp (concat (map (fun v => bkt beta v os) (take i us256))) bs /\
             pushed g (map length bs) g' /\ mok n mem' /\
             window (rm_counts mem) off (fun b => if b <? i then 0 else
                if bcnt beta (Z.of_nat b) os =? 0 then 0 else cst beta os (S b)) (rm_counts mem'))
          (fun '(p_x, p_o, mem', g', last) => exists bs,
             p_o = concat bs /\ p_x = map K p_o /\ og kcmp os bs /\
             pushed g (map length bs) g' /\ mok n mem' /\ rm_counts mem' = rm_counts mem)
          0 UINT8_MAX_SIZE body st) as ([[[[p_x p_o] mem'] g'] lst] & E & HQ) end.
      + exists []. split; [done|]. split; [done|]. split; [done|]. split; [done|]. split; [apply og_nil|].
        split; [by apply pushed_refl|]. split; [done|]. eapply window_ext; [|exact W3]. done.
      + intros i [[[[p_x p_o] mem'] g'] lst] Hi (bs & -> & -> & -> & Hlb & Hog & Hpu & Hm' & W').
        change (0 + UINT8_MAX_SIZE) with 256 in Hi.
        destruct (Nat.leb_spec (length os) (cst beta os i)) as [Hfull|Hnf].
        * (* all remaining buckets are empty *)
          assert (Hemp : forall b, i <= b < 256 -> bcnt beta (Z.of_nat b) os = 0).
          { intros b Hb. pose proof (cst_mono beta os (S b) 256 ltac:(lia) ltac:(lia)) as H1.
            pose proof (cst_mono beta os i b ltac:(lia) ltac:(lia)) as H2.
            rewrite cst_256, cst_S in H1 by (done || lia). lia. }
          assert (Hre : forall k, i + k <= 256 -> rest i = rest (i + k)).
          { induction k as [|k IHk]; intros Hk; [by rewrite Nat.add_0_r|].
            rewrite IHk by lia. rewrite (Hrest (i + k)) by lia.
            replace (i + S k) with (S (i + k)) by lia.
            assert (Hnil : bkt beta (Z.of_nat (i + k)) os = []).
            { apply nil_length_inv. apply Hemp. lia. }
            by rewrite Hnil. }
          assert (Hr0 : rest i = []).
          { rewrite (Hre (256 - i)) by lia. replace (i + (256 - i)) with 256 by lia. done. }
          right. eexists. split; [reflexivity|]. cbn beta iota. exists bs. rewrite Hr0, app_nil_r.
          split; [done|]. split; [done|]. split.
          { eapply og_permute; [|exact Hog]. rewrite <- Hperm. unfold os'.
            rewrite <- (take_drop i us256) at 2. rewrite map_app, concat_app.
            change (concat (map (fun v => bkt beta v os) (drop i us256))) with (rest i).
            by rewrite Hr0, app_nil_r. }
          split; [done|]. split; [done|].
          apply (window_done _ off); [done|]. eapply window_ext; [|exact W']. intros b Hb. cbn beta.
          destruct (Nat.ltb_spec b i); [done|]. rewrite Hemp by lia. done.
        * rewrite (window_rd _ _ _ _ i W') by lia. rewrite Nat.ltb_irrefl. cbn [bind].
          rewrite (Hrest i) by lia.
          destruct (Nat.eqb_spec (bcnt beta (Z.of_nat i) os) 0) as [Ez|Ez].
          { left. rewrite Nat.eqb_refl.
            assert (Hnil : bkt beta (Z.of_nat i) os = []) by (by apply nil_length_inv).
            eexists. split; [reflexivity|]. cbn beta iota. exists bs. rewrite Hnil.
            split; [done|]. split; [done|]. rewrite cst_S, Ez by lia. split; [lia|]. split; [done|].
            split.
            { rewrite (take_S_r _ _ (Z.of_nat i)) by (apply us256_lookup; lia).
              rewrite map_app, concat_app. cbn [map concat]. rewrite Hnil, !app_nil_r. done. }
            split; [done|]. split; [done|]. eapply window_ext; [|exact W']. intros b Hb. cbn beta.
            destruct (Nat.ltb_spec b i), (Nat.ltb_spec b (S i)); try lia; try done.
            assert (b = i) as -> by lia. rewrite Ez. done. }
          rewrite cst_S by lia.
          destruct (Nat.eqb_spec (cst beta os i + bcnt beta (Z.of_nat i) os) 0) as [?|_]; [lia|].
          destruct (window_wr _ _ _ _ i 0 W') as (c4 & E4 & W4); [lia|]. rewrite E4. cbn [bind]. clear E4.
          replace (cst beta os i + bcnt beta (Z.of_nat i) os - cst beta os i)
            with (bcnt beta (Z.of_nat i) os) by lia.
          set (B := bkt beta (Z.of_nat i) os).
          assert (HB : bcnt beta (Z.of_nat i) os = length B) by done.
          assert (HBne : B <> []) by (intros HB0; rewrite HB, HB0 in Ez; done).
          assert (HBinc : StronglySorted Z.lt B) by (by apply bkt_inc).
          assert (HBin : forall a, a ∈ B -> a ∈ os) by (intros a Ha; by apply bkt_elem in Ha as [_ ?]).
          assert (HBag : agree mp K next B).
          { apply Hnext; [done|]. apply agree_S; [done| |].
            - intros a b Ha Hb. apply Hag; by apply HBin.
            - intros a b Ha Hb. apply bkt_elem in Ha as [Ha _]. apply bkt_elem in Hb as [Hb _].
              change (beta a = beta b). congruence. }
          assert (Hcross : forall x y, x ∈ concat (map (fun v => bkt beta v os) (take i us256)) -> y ∈ B ->
                    (K x ?= K y)%Z = Lt).
          { intros x y Hx Hy. apply Z.compare_lt_iff. apply (hi_lt mp (S pass)).
            rewrite !hi_S by done. apply in_concat_block in Hx as (blk & Hblk & Hx).
            apply elem_of_list_fmap in Hblk as (v & -> & Hv).
            apply elem_of_take in Hv as (k & Hk & Hki). rewrite us256_lookup in Hk by lia. injection Hk as <-.
            apply bkt_elem in Hx as [Hbx Hx]. apply bkt_elem in Hy as [Hby Hy].
            rewrite (Hag x y Hx Hy). change (byteat mp pass (K x)) with (beta x).
            change (byteat mp pass (K y)) with (beta y). lia. }
          assert (Hos_take : concat (map (fun v => bkt beta v os) (take (S i) us256))
                    = concat (map (fun v => bkt beta v os) (take i us256)) ++ B).
          { rewrite (take_S_r _ _ (Z.of_nat i)) by (apply us256_lookup; lia).
            rewrite map_app, concat_app. cbn [map concat]. by rewrite app_nil_r. }
          assert (Hroom : room g' (length B)).
          { eapply pushed_room; [exact Hpu|]. eapply room_le; [|exact R]. rewrite map_length.
            pose proof (og_nblocks _ _ _ Hog) as Hnb. rewrite <- (og_length _ _ _ Hog), Hlb in Hnb.
            pose proof (cst_mono beta os (S i) 256 ltac:(lia) ltac:(lia)) as H1.
            rewrite cst_256, cst_S in H1 by (done || lia). lia. }
          assert (Hwin : window (rm_counts mem) off (fun b => if b <? S i then 0 else
                if bcnt beta (Z.of_nat b) os =? 0 then 0 else cst beta os (S b)) c4).
          { eapply window_ext; [|exact W4]. intros b Hb. cbn beta.
            destruct (Nat.eqb_spec b i) as [->|Hnb].
            - destruct (Nat.ltb_spec i (S i)); [done|lia].
            - destruct (Nat.ltb_spec b i), (Nat.ltb_spec b (S i)); try lia; done. }
          assert (Hdone : forall g'' , pushed g' [length B] g'' -> og kcmp B [B] ->
             exists bs0, (concat bs ++ B ++ rest (S i) = concat bs0 ++ rest (S i)) /\
               length (concat bs0) = cst beta os i + length B /\
               og kcmp (concat (map (fun v => bkt beta v os) (take (S i) us256))) bs0 /\
               pushed g (map length bs0) g'').
          { intros g'' Hp'' HogB. exists (bs ++ [B]). rewrite concat_app. cbn [concat].
            rewrite app_nil_r, <- app_assoc. split; [done|]. split; [rewrite app_length; lia|].
            split.
            - rewrite Hos_take. by apply og_app.
            - rewrite map_app. by eapply pushed_trans. }
          left. destruct (Nat.eqb_spec (bcnt beta (Z.of_nat i) os) 1) as [E1|E1];
            [|destruct (Nat.eqb_spec next mp) as [Enm|Enm]].
          -- destruct (maybe_push_spec 1 g') as (g'' & E & Hp''); [apply Hpu|lia|by rewrite <- E1|].
             rewrite E. cbn [bind]. eexists. split; [reflexivity|]. cbn beta iota.
             destruct (Hdone g'') as (bs0 & Hc0 & Hl0 & Hog0 & Hpu0); [by rewrite <- HB, E1| |].
             { rewrite HB in E1. destruct B as [|b0 [|? ?]] eqn:EB; try done.
               apply og_single; [done|done|]. intros x y Hx Hy.
               apply elem_of_list_singleton in Hx as ->. apply elem_of_list_singleton in Hy as ->.
               apply Z.compare_refl. }
             exists bs0. fold B. rewrite Hc0. split; [done|]. split; [done|].
             rewrite <- HB in Hl0. split; [done|]. split; [done|].
             split; [done|]. split; [done|]. split; [done|]. done.
          -- destruct (maybe_push_spec (length B) g') as (g'' & E & Hp''); [apply Hpu|lia| |].
             { eapply room_le; [|exact Hroom]. lia. }
             rewrite HB, E. cbn [bind]. eexists. split; [reflexivity|]. cbn beta iota.
             destruct (Hdone g'') as (bs0 & Hc0 & Hl0 & Hog0 & Hpu0); [done| |].
             { apply og_agree_max; [done|done|]. rewrite Enm in HBag. done. }
             exists bs0. fold B. rewrite Hc0. split; [done|]. split; [done|].
             split; [done|]. split; [done|].
             split; [done|]. split; [done|]. split; [done|]. done.
          -- set (mem4 := RMem _ _ _ c4).
             assert (Hseg : seg (concat bs ++ B ++ rest (S i)) (cst beta os i) (bcnt beta (Z.of_nat i) os) = B).
             { rewrite HB, <- Hlb. apply seg_app. }
             assert (Hsegx : seg (map K (concat bs ++ B ++ rest (S i))) (cst beta os i) (bcnt beta (Z.of_nat i) os)
                       = map K B).
             { rewrite HB, <- Hlb, !map_app. rewrite <- (map_length K (concat bs)), <- (map_length K B). apply seg_app. }
             fold B. rewrite Hseg, Hsegx.
             destruct W4 as (W4a & W4b & W4c).
             destruct (IH next B (off + UINT8_MAX_SIZE * (next - pass)) mem4 g')
               as (bsB & mem5 & g'' & E & HogB & HpuB & HmB & HcsB); try done.
             ++ lia.
             ++ lia.
             ++ by apply (skips_ok_sub os).
             ++ rewrite <- HB. pose proof (filter_length (fun a => beta a = Z.of_nat i) os).
                unfold bcnt, bkt. lia.
             ++ subst mem4. cbn [rm_counts]. unfold UINT8_MAX_SIZE. lia.
             ++ subst mem4. cbn [rm_counts]. intros j Hj. unfold UINT8_MAX_SIZE in Hj.
                rewrite W4c by lia. apply Hz. lia.
             ++ apply Hpu.
             ++ rewrite E. cbn [bind]. eexists. split; [reflexivity|]. cbn beta iota.
                exists (bs ++ bsB). rewrite concat_app.
                assert (HlB : length (concat bsB) = length B) by (by apply og_length in HogB).
                split.
                { rewrite <- Hlb, put_seg_app by done. by rewrite <- app_assoc. }
                split.
                { rewrite <- Hlb. rewrite put_seg_app by done. rewrite !map_app.
                  rewrite <- (map_length K (concat bs)), put_seg_app by (by rewrite !map_length). done. }
                split; [lia|]. split; [rewrite app_length; lia|].
                split; [rewrite Hos_take; by apply og_app|].
                split; [rewrite map_app; by eapply pushed_trans|]. split; [done|].
                rewrite HcsB. done.
      + intros [[[[p_x p_o] mem'] g'] lst] (bs & -> & -> & -> & Hlb & Hog & Hpu & Hm' & W').
        change (0 + UINT8_MAX_SIZE) with 256 in *. exists bs.
        assert (Hr0 : rest 256 = []) by done. rewrite Hr0, app_nil_r. split; [done|]. split; [done|].
        split.
        { eapply og_permute; [exact Hperm|]. rewrite take_ge in Hog by (rewrite us256_length; lia). done. }
        split; [done|]. split; [done|]. apply (window_done _ off); [done|].
        eapply window_ext; [|exact W']. intros b Hb. cbn beta. destruct (Nat.ltb_spec b 256); [done|lia].
      + rewrite E. cbn [bind]. destruct HQ as (bs & -> & -> & Hog & Hpu & Hm' & Hc).
        exists bs, mem', g'. done.
  Qed.
End recurse.

Lemma order_radix_spec mp K n os mem g :
  (forall a, a ∈ os -> (0 <= K a < 2 ^ (8 * Z.of_nat mp))%Z) ->
  os <> [] -> StronglySorted Z.lt os -> mok n mem -> length os <= n ->
  256 * mp <= length (rm_counts mem) ->
  (forall j, j < length (rm_counts mem) -> rm_counts mem !! j = Some 0) ->
  gwf g -> room g (length os) ->
  exists bs mem' g',
    order_radix mp (map K os) os mem g = Ok (map K (concat bs), concat bs, mem', g') /\
    og (fun a b => (K a ?= K b)%Z) os bs /\ pushed g (map length bs) g' /\ mok n mem' /\
    rm_counts mem' = rm_counts mem.
Proof.
  intros HK Hne Hs Hm Hn Hc Hz W R. unfold order_radix.
  destruct (compute_skips_spec mp K os Hne HK) as (pass & skips & E & Hok & Hp & Hag).
  rewrite E. cbn [bind]. clear E. destruct (Nat.eqb_spec pass mp) as [->|Hnp].
  - rewrite map_length.
    assert (0 < length os) by (destruct os; [done|simpl; lia]).
    destruct (maybe_push_spec (length os) g W) as (g' & E & Hpu); [lia| |].
    { eapply room_le; [|exact R]. lia. }
    rewrite E. cbn [bind]. exists [os], mem, g'. cbn [concat]. rewrite app_nil_r. split; [done|].
    split; [by apply (og_agree_max mp)|]. done.
  - destruct (radix_recurse_spec mp K skips n mp pass os 0 mem g)
      as (bs & mem' & g' & E & H); try done.
    + lia.
    + lia.
    + lia.
    + intros j Hj. apply Hz. lia.
    + exists bs, mem', g'. done.
Qed.
