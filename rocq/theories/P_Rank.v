(** * C29: ranks *)
From Verif Require Import Base M_Double M_Scalar M_Object M_Proxy M_OrderChr M_OrderDf M_Rank.
From Verif Require Import Spec_Order Spec_OrderRow L_OrderSpec L_Missing P_Order.
From Coq Require Import Sorting.Sorted.
#[local] Arguments Z.mul : simpl never.
#[local] Arguments Z.add : simpl never.
#[local] Arguments Z.sub : simpl never.
#[local] Arguments Z.to_nat : simpl never.
#[local] Arguments Z.of_nat : simpl never.

(** ** Specification *)
(** The number of locations in [pool] with a property. *)
Definition count (f : Z -> bool) (pool : list Z) : nat := length (List.filter f pool).
Definition is_lt (c : comparison) : bool := match c with Lt => true | _ => false end.
Definition is_eq (c : comparison) : bool := match c with Eq => true | _ => false end.
(** No earlier location in [pool] is tied with [b]. *)
Definition first_of (cmp : Z -> Z -> comparison) (pool : list Z) (b : Z) : bool :=
  forallb (fun c => negb ((c <? b)%Z && is_eq (cmp c b))) pool.
(** The rank of the value at location [a] among those at the locations [pool]:
    1 + the number of smaller values; the number of values which are not
    larger; 1 + the number of values which are smaller, or tied and earlier;
    1 + the number of distinct smaller values. *)
Definition rank_of (t : ties) (cmp : Z -> Z -> comparison) (pool : list Z) (a : Z) : nat :=
  match t with
  | TIES_min => 1 + count (fun b => is_lt (cmp b a)) pool
  | TIES_max => count (fun b => is_lt (cmp b a) || is_eq (cmp b a)) pool
  | TIES_sequential => 1 + count (fun b => is_lt (cmp b a) || (is_eq (cmp b a) && (b <? a)%Z)) pool
  | TIES_dense => 1 + count (fun b => is_lt (cmp b a) && first_of cmp pool b) pool
  end.
(** Whether no column has a missing value at location [a]. *)
Definition col_complete (a : Z) (c : ocol) : bool :=
  match c with
  | OLgl l | OInt l => negb (at_loc NA_INTEGER l a =? NA_INTEGER)%Z
  | ODbl l => is_number (at_loc 0%Z l a)
  | OCpl l => is_number (at_loc (0%Z, 0%Z) l a).1 && is_number (at_loc (0%Z, 0%Z) l a).2
  | OChr l => match at_loc None l a with Some _ => true | None => false end
  end.
Definition complete_at (p : oproxy) (a : Z) : bool := forallb (col_complete a) (proxy_cols p).
(** The result: missing for the incomplete rows if these are not ranked,
    otherwise the rank among the ranked rows. *)
Definition ranks (t : ties) (incomplete_na : bool) (cmp : Z -> Z -> comparison) (p : oproxy) (out : list Z) : Prop :=
  let n := oproxy_size p in
  let ranked a := negb incomplete_na || complete_at p a in
  out = map (fun a => if ranked a then Z.of_nat (rank_of t cmp (List.filter ranked (locs n)) a) else NA_INTEGER) (locs n).

(** ** Counting *)
Lemma count_app f l k : count f (l ++ k) = count f l + count f k.
Proof. unfold count. by rewrite List.filter_app, app_length. Qed.
Lemma count_all f l : (forall x, x ∈ l -> f x = true) -> count f l = length l.
Proof.
  unfold count. induction l as [|x l IH]; intros H; [done|]. cbn. rewrite H by left. cbn. f_equal. apply IH. intros y Hy. apply H. by right.
Qed.
Lemma count_none f l : (forall x, x ∈ l -> f x = false) -> count f l = 0.
Proof.
  unfold count. induction l as [|x l IH]; intros H; [done|]. cbn. rewrite H by left. apply IH. intros y Hy. apply H. by right.
Qed.
Lemma count_perm f l k : l ≡ₚ k -> count f l = count f k.
Proof.
  unfold count. induction 1 as [|x l k H IH|x y l|l k m H IH H' IH']; cbn; [done| | |lia].
  - destruct (f x); cbn; lia.
  - by destruct (f x), (f y).
Qed.
Lemma count_ext f g l : (forall x, x ∈ l -> f x = g x) -> count f l = count g l.
Proof.
  unfold count. induction l as [|x l IH]; intros H; [done|]. cbn. rewrite H by left.
  destruct (g x); cbn; rewrite IH; auto; intros y Hy; apply H; by right.
Qed.
Lemma count_map f g l : count f (map g l) = count (fun x => f (g x)) l.
Proof. unfold count. induction l as [|x l IH]; [done|]. cbn. destruct (f (g x)); cbn; by rewrite IH. Qed.

Lemma forallb_perm {A} (f : A -> bool) l k : l ≡ₚ k -> forallb f l = forallb f k.
Proof. induction 1 as [|x l k H IH|x y l|l k m H IH H' IH']; cbn; [done|by rewrite IH|by destruct (f x), (f y)|congruence]. Qed.
Lemma first_of_spec cmp pool b : first_of cmp pool b = true <-> forall c, c ∈ pool -> (c < b)%Z -> cmp c b <> Eq.
Proof.
  unfold first_of. rewrite forallb_forall. setoid_rewrite <- elem_of_list_In. split.
  - intros H c Hc Hlt E. specialize (H c Hc). rewrite E in H. destruct (Z.ltb_spec c b); [done|lia].
  - intros H c Hc. specialize (H c Hc). destruct (Z.ltb_spec c b); [|done]. cbn. destruct (cmp c b); [by specialize (H ltac:(lia))|done|done].
Qed.

Section rank.
  Context (cmp : Z -> Z -> comparison) (T : tpo cmp) (n : nat) (bs : list (list Z)) (G : og cmp (locs n) bs).

  Lemma elem_block i b a : bs !! i = Some b -> a ∈ b -> a ∈ concat bs.
  Proof. intros Hi Ha. apply in_concat_block. exists b. split; [by eapply elem_of_list_lookup_2|done]. Qed.

  Lemma blocks_split i b : bs !! i = Some b ->
    bs = take i bs ++ b :: drop (S i) bs /\
    (forall a c, a ∈ b -> c ∈ concat (take i bs) -> cmp c a = Lt) /\
    (forall a c, a ∈ b -> c ∈ b -> cmp c a = Eq) /\
    (forall a c, a ∈ b -> c ∈ concat (drop (S i) bs) -> cmp c a = Gt) /\ StronglySorted Z.lt b.
  Proof.
    intros Hi. assert (E : bs = take i bs ++ b :: drop (S i) bs) by (symmetry; by apply take_drop_middle).
    split; [done|]. pose proof (og_lt _ _ _ G) as S. rewrite E in S. apply ss_app in S. destruct S as (_ & S2 & S3).
    apply StronglySorted_inv in S2. destruct S2 as [_ F]. repeat split.
    - intros a c Ha Hc. apply in_concat_block in Hc. destruct Hc as (b' & Hb' & Hc). apply (S3 b' b); [done|left|done|done].
    - intros a c Ha Hc. pose proof (Forall_lookup_1 _ _ _ _ (og_eq _ _ _ G) Hi) as H. cbn in H. by apply H.
    - intros a c Ha Hc. apply in_concat_block in Hc. destruct Hc as (b' & Hb' & Hc). apply (tp_lt_gt _ T).
      rewrite Forall_forall in F. apply (F b'); [done|done|done].
    - apply (Forall_lookup_1 _ _ _ _ (og_inc _ _ _ G) Hi).
  Qed.

  Lemma count_blocks f i b : bs !! i = Some b ->
    count f (locs n) = count f (concat (take i bs)) + (count f b + count f (concat (drop (S i) bs))).
  Proof.
    intros Hi. destruct (blocks_split i b Hi) as (E & _). rewrite <- (count_perm f _ _ (og_perm _ _ _ G)). rewrite E at 1.
    rewrite concat_app. cbn [concat]. by rewrite !count_app.
  Qed.

  Lemma count_first : forall l, (forall b, b ∈ l -> b ∈ bs) -> count (fun c => first_of cmp (locs n) c) (concat l) = length l.
  Proof.
    induction l as [|b l IH]; intros Hl; [done|]. cbn [concat length]. rewrite count_app, IH by (intros; apply Hl; by right).
    destruct (elem_of_list_lookup_1 bs b (Hl b ltac:(left))) as [i Hi]. destruct (blocks_split i b Hi) as (E & H1 & H2 & H3 & S).
    assert (Hne : b <> []). { pose proof (Forall_lookup_1 _ _ _ _ (og_ne _ _ _ G) Hi) as H. exact H. }
    destruct b as [|h b]; [done|]. apply StronglySorted_inv in S. destruct S as [S F]. rewrite Forall_forall in F.
    change (h :: b) with ([h] ++ b). rewrite count_app.
    assert (count (fun c => first_of cmp (locs n) c) [h] = 1) as ->.
    { unfold count. cbn. assert (first_of cmp (locs n) h = true) as ->; [|done]. apply first_of_spec. intros c Hc Hlt He.
      rewrite <- (og_perm _ _ _ G), E, concat_app in Hc. apply elem_of_app in Hc. destruct Hc as [Hc|Hc]; [rewrite (H1 h c) in He; [done|left|done]|].
      cbn [concat] in Hc. apply elem_of_app in Hc. destruct Hc as [Hc|Hc]; [|rewrite (H3 h c) in He; [done|left|done]].
      apply elem_of_cons in Hc. destruct Hc as [->|Hc]; [lia|]. specialize (F c Hc). lia. }
    rewrite count_none; [lia|]. intros c Hc. apply not_true_iff_false. rewrite first_of_spec. intros H.
    apply (H h); [|by apply F|apply H2; [by right|left]].
    rewrite <- (og_perm _ _ _ G). apply in_concat_block. exists (h :: b). split; [by eapply elem_of_list_lookup_2|left].
  Qed.

  Lemma count_before (b : list Z) : StronglySorted Z.lt b -> forall j a, b !! j = Some a -> count (fun c => (c <? a)%Z) b = j.
  Proof.
    intros S j a Ha. assert (E : b = take j b ++ a :: drop (Datatypes.S j) b) by (symmetry; by apply take_drop_middle).
    rewrite E in S. apply ss_app in S. destruct S as (_ & S2 & S3). apply StronglySorted_inv in S2. destruct S2 as [_ F]. rewrite Forall_forall in F.
    rewrite E at 1. rewrite count_app, count_all, (count_none _ (a :: _)).
    - rewrite take_length. apply lookup_lt_Some in Ha. lia.
    - intros x Hx. apply Z.ltb_ge. apply elem_of_cons in Hx. destruct Hx as [->|Hx]; [lia|]. specialize (F x Hx). lia.
    - intros x Hx. apply Z.ltb_lt. apply S3; [done|left].
  Qed.

  Definition rank_val (t : ties) (i j : nat) : nat :=
    match t with
    | TIES_min => 1 + length (concat (take i bs))
    | TIES_max => length (concat (take (S i) bs))
    | TIES_sequential => 1 + length (concat (take i bs)) + j
    | TIES_dense => 1 + i
    end.
  Lemma rank_val_ok t i b j a : bs !! i = Some b -> b !! j = Some a -> rank_of t cmp (locs n) a = rank_val t i j.
  Proof.
    intros Hi Hj. destruct (blocks_split i b Hi) as (E & H1 & H2 & H3 & S). assert (Ha : a ∈ b) by by eapply elem_of_list_lookup_2.
    destruct t; cbn [rank_of rank_val]; rewrite (count_blocks _ i b Hi).
    - rewrite count_all, !count_none; [lia|..]; intros x Hx; [by rewrite (H3 a)|by rewrite (H2 a)|by rewrite (H1 a)].
    - rewrite (count_all _ (concat (take i bs))), (count_all _ b), count_none; [|intros x Hx; by rewrite (H3 a)|intros x Hx; by rewrite (H2 a)|intros x Hx; by rewrite (H1 a)].
      erewrite take_S_r by done. rewrite concat_app, app_length. cbn. rewrite app_nil_r. lia.
    - rewrite count_all, (count_none _ (concat (drop _ _))); [|intros x Hx; by rewrite (H3 a)|intros x Hx; by rewrite (H1 a)].
      rewrite (count_ext _ (fun c => (c <? a)%Z) b) by (intros x Hx; by rewrite (H2 a)).
      rewrite (count_before b S j a Hj). lia.
    - rewrite (count_none _ b), (count_none _ (concat (drop _ _))); [|intros x Hx; by rewrite (H3 a)|intros x Hx; by rewrite (H2 a)].
      rewrite (count_ext _ (fun c => first_of cmp (locs n) c)) by (intros x Hx; by rewrite (H1 a)).
      rewrite count_first.
      + rewrite take_length. apply lookup_lt_Some in Hi. lia.
      + intros c Hc. rewrite E. apply elem_of_app. by left.
  Qed.

  (** ** The loops *)
  Definition block_written (i : nat) (val : nat -> nat) (v v' : list Z) : Prop :=
    forall b, bs !! i = Some b ->
    length v' = length v /\ (forall j a, b !! j = Some a -> v' !! Z.to_nat (a - 1) = Some (Z.of_nat (val j))) /\
    (forall q, (forall a, a ∈ b -> q <> Z.to_nat (a - 1)) -> v' !! q = v !! q).

  Lemma in_locs a : a ∈ concat bs -> (1 <= a <= Z.of_nat n)%Z.
  Proof.
    intros H. rewrite (og_perm _ _ _ G) in H. unfold locs in H. apply elem_of_list_fmap in H. destruct H as (i & -> & Hi).
    apply elem_of_seq in Hi. lia.
  Qed.
  Lemma nodup_blocks : NoDup (concat bs).
  Proof.
    rewrite (og_perm _ _ _ G). unfold locs. apply NoDup_fmap_2; [intros x y; lia|apply NoDup_seq].
  Qed.
  Lemma concat_lookup i b j a : bs !! i = Some b -> b !! j = Some a -> concat bs !! (length (concat (take i bs)) + j) = Some a.
  Proof.
    intros Hi Hj.
    assert (concat bs = concat (take i bs) ++ b ++ concat (drop (S i) bs)) as ->.
    { transitivity (concat (take i bs ++ b :: drop (S i) bs)); [by rewrite take_drop_middle|]. by rewrite concat_app. }
    rewrite lookup_app_r by lia. rewrite lookup_app_l by (apply lookup_lt_Some in Hj; lia). rewrite <- Hj. f_equal. lia.
  Qed.

  Lemma inner_const i b r v : bs !! i = Some b -> length v = n ->
    exists v', for_ 0 (length b) (fun _ '((k, v) : nat * list Z) =>
      let! l := rd (concat bs) k in
      let! v := wrZ v (l - 1) (Z.of_nat r) in
      Ok (S k, v)) (length (concat (take i bs)), v) = Ok (length (concat (take (S i) bs)), v') /\
    block_written i (fun _ => r) v v'.
  Proof.
    intros Hi Hv.
    destruct (for_inv (fun j '((k, v') : nat * list Z) => k = length (concat (take i bs)) + j /\ length v' = length v /\
      (forall j' a, j' < j -> b !! j' = Some a -> v' !! Z.to_nat (a - 1) = Some (Z.of_nat r)) /\
      (forall q, (forall a, a ∈ b -> q <> Z.to_nat (a - 1)) -> v' !! q = v !! q)) 0 (length b) (fun _ '((k, v) : nat * list Z) =>
      let! l := rd (concat bs) k in
      let! v := wrZ v (l - 1) (Z.of_nat r) in
      Ok (S k, v)) (length (concat (take i bs)), v)) as ([k v'] & -> & Hk & L & H1 & H2).
    - split; [lia|]. split; [done|]. split; [intros; lia|done].
    - intros j [k v'] Hj (-> & L & H1 & H2). destruct (lookup_lt_is_Some_2 b j) as [a Ha]; [lia|].
      rewrite (proj2 (rd_Ok _ _ _) (concat_lookup i b j a Hi Ha)). cbn [bind].
      pose proof (in_locs a (elem_block i b a Hi (elem_of_list_lookup_2 _ _ _ Ha))) as Hr.
      unfold wrZ. destruct (Z.ltb_spec (a - 1) 0); [lia|]. rewrite wr_Ok by lia. cbn [bind]. eexists. split; [reflexivity|].
      split; [lia|]. split; [by rewrite insert_length|]. split.
      + intros j' a' Hj' Ha'. destruct (decide (Z.to_nat (a' - 1) = Z.to_nat (a - 1))) as [Eq|Ne].
        * rewrite Eq. apply list_lookup_insert. lia.
        * rewrite list_lookup_insert_ne by done. apply (H1 j'); [|done]. destruct (decide (j' = j)) as [->|]; [|lia]. congruence.
      + intros q Hq. rewrite list_lookup_insert_ne; [by apply H2|]. intros E. apply (Hq a); [by eapply elem_of_list_lookup_2|done].
    - exists v'. split.
      + do 2 f_equal. erewrite take_S_r by done. rewrite concat_app, app_length. cbn. rewrite app_nil_r. lia.
      + intros b' Hb'. assert (b' = b) as -> by congruence. split; [done|]. split; [|done]. intros j a Ha. apply (H1 j); [|done].
        by apply lookup_lt_Some in Ha.
  Qed.
  Lemma inner_seq i b r v : bs !! i = Some b -> length v = n ->
    exists v', for_ 0 (length b) (fun _ '((k, rank, v) : nat * nat * list Z) =>
      let! l := rd (concat bs) k in
      let! v := wrZ v (l - 1) (Z.of_nat rank) in
      Ok (S k, S rank, v)) (length (concat (take i bs)), r, v) = Ok (length (concat (take (S i) bs)), r + length b, v') /\
    block_written i (fun j => r + j) v v'.
  Proof.
    intros Hi Hv. destruct (blocks_split i b Hi) as (_ & _ & _ & _ & SS).
    destruct (for_inv (fun j '((k, rank, v') : nat * nat * list Z) => k = length (concat (take i bs)) + j /\ rank = r + j /\ length v' = length v /\
      (forall j' a, j' < j -> b !! j' = Some a -> v' !! Z.to_nat (a - 1) = Some (Z.of_nat (r + j'))) /\
      (forall q, (forall a, a ∈ b -> q <> Z.to_nat (a - 1)) -> v' !! q = v !! q)) 0 (length b) (fun _ '((k, rank, v) : nat * nat * list Z) =>
      let! l := rd (concat bs) k in
      let! v := wrZ v (l - 1) (Z.of_nat rank) in
      Ok (S k, S rank, v)) (length (concat (take i bs)), r, v)) as ([[k rank] v'] & -> & Hk & Hr & L & H1 & H2).
    - split; [lia|]. split; [lia|]. split; [done|]. split; [intros; lia|done].
    - intros j [[k rank] v'] Hj (-> & -> & L & H1 & H2). destruct (lookup_lt_is_Some_2 b j) as [a Ha]; [lia|].
      rewrite (proj2 (rd_Ok _ _ _) (concat_lookup i b j a Hi Ha)). cbn [bind].
      pose proof (in_locs a (elem_block i b a Hi (elem_of_list_lookup_2 _ _ _ Ha))) as Hr.
      unfold wrZ. destruct (Z.ltb_spec (a - 1) 0); [lia|]. rewrite wr_Ok by lia. cbn [bind]. eexists. split; [reflexivity|].
      split; [lia|]. split; [lia|]. split; [by rewrite insert_length|]. split.
      + intros j' a' Hj' Ha'. pose proof (in_locs a' (elem_block i b a' Hi (elem_of_list_lookup_2 _ _ _ Ha'))) as Hr'.
        destruct (decide (j' = j)) as [->|Ne].
        * assert (a' = a) as -> by congruence. apply list_lookup_insert. lia.
        * assert (a' < a)%Z by (apply (ss_lookup _ _ j' j _ _ SS); [lia|done|done]).
          rewrite list_lookup_insert_ne by lia. apply (H1 j'); [lia|done].
      + intros q Hq. rewrite list_lookup_insert_ne; [by apply H2|]. intros E. apply (Hq a); [by eapply elem_of_list_lookup_2|done].
    - exists v'. split.
      + rewrite Hr. do 2 f_equal. f_equal. erewrite take_S_r by done. rewrite concat_app, app_length. cbn. rewrite app_nil_r. lia.
      + intros b' Hb'. assert (b' = b) as -> by congruence. split; [done|]. split; [|done]. intros j a Ha. apply (H1 j); [|done].
        by apply lookup_lt_Some in Ha.
  Qed.

  Lemma disjoint_blocks i i' b b' a : bs !! i = Some b -> bs !! i' = Some b' -> i < i' -> a ∈ b -> a ∈ b' -> False.
  Proof.
    intros Hi Hi' Hlt Ha Ha'. pose proof (ss_lookup _ _ i i' _ _ (og_lt _ _ _ G) Hlt Hi Hi' a a Ha Ha') as H. rewrite (tp_refl _ T) in H. done.
  Qed.

  Lemma outer (start : nat -> nat) (val : nat -> nat -> nat) body v0 : length v0 = n ->
    (forall i b v, bs !! i = Some b -> length v = n ->
      exists v', body i (length (concat (take i bs)), start i, v) = Ok (length (concat (take (S i) bs)), start (S i), v') /\
      block_written i (val i) v v') ->
    exists k r v, for_ 0 (length bs) body (0, start 0, v0) = Ok (k, r, v) /\ length v = n /\
      forall i b j a, bs !! i = Some b -> b !! j = Some a -> v !! Z.to_nat (a - 1) = Some (Z.of_nat (val i j)).
  Proof.
    intros Hv Hb.
    destruct (for_inv (fun i '((k, r, v) : nat * nat * list Z) => k = length (concat (take i bs)) /\ r = start i /\ length v = n /\
      forall i' b j a, i' < i -> bs !! i' = Some b -> b !! j = Some a -> v !! Z.to_nat (a - 1) = Some (Z.of_nat (val i' j)))
      0 (length bs) body (0, start 0, v0)) as ([[k r] v] & E & -> & -> & L & H).
    - split; [done|]. split; [done|]. split; [done|]. intros; lia.
    - intros i [[k r] v] Hi (-> & -> & L & H). destruct (lookup_lt_is_Some_2 bs i) as [b Hbi]; [lia|].
      destruct (Hb i b v Hbi L) as (v' & E & W). eexists. split; [exact E|]. destruct (W b Hbi) as (L' & W1 & W2).
      split; [done|]. split; [done|]. split; [lia|]. intros i' b' j a Hi' Hb' Ha. destruct (decide (i' = i)) as [->|].
      + assert (b' = b) as -> by congruence. by apply W1.
      + rewrite W2; [apply (H i' b'); [lia|done|done]|]. intros a' Ha' Eq.
        assert (a ∈ b') by by eapply elem_of_list_lookup_2.
        pose proof (in_locs a' (elem_block i b a' Hbi Ha')). pose proof (in_locs a (elem_block i' b' a Hb' ltac:(done))).
        assert (a' = a) as -> by lia. apply (disjoint_blocks i' i b' b a); [done|done|lia|done|done].
    - eexists _, _, v. split; [exact E|]. split; [done|]. intros i b j a Hi Ha. apply (H i b j a); [|done|done].
      by apply lookup_lt_Some in Hi.
  Qed.

  Lemma all_written (v : list Z) t : length v = n ->
    (forall i b j a, bs !! i = Some b -> b !! j = Some a -> v !! Z.to_nat (a - 1) = Some (Z.of_nat (rank_val t i j))) ->
    v = map (fun a => Z.of_nat (rank_of t cmp (locs n) a)) (locs n).
  Proof.
    intros L H. apply list_eq. intros q. destruct (decide (q < n)) as [Hq|Hq].
    - assert (Hl : locs n !! q = Some (Z.of_nat q + 1)%Z).
      { unfold locs. change (map ?f ?l) with (f <$> l). rewrite list_lookup_fmap, lookup_seq_lt by lia. done. }
      rewrite (map_lookup0 _ _ _ _ Hl). assert (Hin : (Z.of_nat q + 1)%Z ∈ concat bs).
      { rewrite (og_perm _ _ _ G). by eapply elem_of_list_lookup_2. }
      apply in_concat_block in Hin. destruct Hin as (b & Hb & Ha). apply elem_of_list_lookup in Hb. destruct Hb as [i Hi].
      apply elem_of_list_lookup in Ha. destruct Ha as [j Hj]. rewrite (rank_val_ok t i b j _ Hi Hj).
      pose proof (H i b j _ Hi Hj) as E. replace (Z.to_nat (Z.of_nat q + 1 - 1)) with q in E by lia. done.
    - rewrite !lookup_ge_None_2; [done|unfold locs; rewrite !map_length, seq_length; lia|lia].
  Qed.

  Lemma rd_size i b : bs !! i = Some b -> rd (map length bs) i = Ok (length b).
  Proof. intros H. apply rd_Ok. by apply map_lookup0. Qed.
  Lemma concat_S i b : bs !! i = Some b -> length (concat (take (S i) bs)) = length (concat (take i bs)) + length b.
  Proof. intros Hi. erewrite take_S_r by done. rewrite concat_app, app_length. cbn. rewrite app_nil_r. lia. Qed.

  Theorem loops_ok t : 
    match t with
    | TIES_min => vec_rank_min (concat bs) (map length bs) (alloc n)
    | TIES_max => vec_rank_max (concat bs) (map length bs) (alloc n)
    | TIES_sequential => vec_rank_sequential (concat bs) (map length bs) (alloc n)
    | TIES_dense => vec_rank_dense (concat bs) (map length bs) (alloc n)
    end = Ok (map (fun a => Z.of_nat (rank_of t cmp (locs n) a)) (locs n)).
  Proof.
    assert (La : length (alloc n) = n) by apply replicate_length.
    destruct t.
    - unfold vec_rank_min. rewrite map_length.
      edestruct (outer (fun i => 1 + length (concat (take i bs))) (rank_val TIES_min)) as (k & r & v & E & L & H); [exact La| |
        cbn [take concat length plus] in E; rewrite E; cbn [bind]; f_equal; by apply all_written].
      intros i b v Hi Hv. cbn beta iota. rewrite (rd_size i b Hi). cbn [bind].
      destruct (inner_const i b (1 + length (concat (take i bs))) v Hi Hv) as (v' & E & W). setoid_rewrite E. cbn [bind].
      exists v'. split; [|done]. do 2 f_equal. f_equal. rewrite (concat_S i b Hi). lia.
    - unfold vec_rank_max. rewrite map_length.
      edestruct (outer (fun i => length (concat (take i bs))) (rank_val TIES_max)) as (k & r & v & E & L & H); [exact La| |
        cbn [take concat length plus] in E; rewrite E; cbn [bind]; f_equal; by apply all_written].
      intros i b v Hi Hv. cbn beta iota. rewrite (rd_size i b Hi). cbn [bind]. cbn zeta.
      destruct (inner_const i b (length (concat (take i bs)) + length b) v Hi Hv) as (v' & E & W). setoid_rewrite E. cbn [bind].
      exists v'. split; [do 2 f_equal; f_equal; by rewrite (concat_S i b Hi)|]. change (rank_val TIES_max i) with (fun _ : nat => length (concat (take (S i) bs))). by rewrite (concat_S i b Hi).
    - unfold vec_rank_sequential. rewrite map_length.
      edestruct (outer (fun i => 1 + length (concat (take i bs))) (rank_val TIES_sequential)) as (k & r & v & E & L & H); [exact La| |
        cbn [take concat length plus] in E; rewrite E; cbn [bind]; f_equal; by apply all_written].
      intros i b v Hi Hv. cbn beta iota. rewrite (rd_size i b Hi). cbn [bind].
      destruct (inner_seq i b (1 + length (concat (take i bs))) v Hi Hv) as (v' & E & W). setoid_rewrite E. cbn [bind].
      exists v'. split; [|done]. do 2 f_equal. f_equal. rewrite (concat_S i b Hi). lia.
    - unfold vec_rank_dense. rewrite map_length.
      edestruct (outer (fun i => 1 + i) (rank_val TIES_dense)) as (k & r & v & E & L & H); [exact La| |
        cbn [take concat length plus] in E; rewrite E; cbn [bind]; f_equal; by apply all_written].
      intros i b v Hi Hv. cbn beta iota. rewrite (rd_size i b Hi). cbn [bind].
      destruct (inner_const i b (1 + i) v Hi Hv) as (v' & E & W). setoid_rewrite E. cbn [bind].
      exists v'. split; [|done]. done.
  Qed.
End rank.

(** ** Complete rows *)
Lemma ocol_vec_length c : length (v_data (ocol_vec c)) = ocol_length c.
Proof. destruct c; cbn; apply map_length. Qed.
Lemma ocol_vec_wf c : vec_wf (ocol_vec c).
Proof. destruct c; unfold vec_wf; cbn; apply Forall_forall; intros e He; apply elem_of_list_fmap in He; by destruct He as (? & -> & _). Qed.
Lemma isnan_number x : isnan x = negb (is_number x).
Proof. unfold is_number, dbl_classify. destruct (isnan x); cbn; [|done]. by destruct (_ =? _)%Z. Qed.
Lemma col_missing c n i : ocol_length c = n -> i < n ->
  exists e, v_data (ocol_vec c) !! i = Some e /\ elt_is_missing e = negb (col_complete (Z.of_nat i + 1) c).
Proof.
  intros L Hi. assert (Hz : forall A (d : A) l a, l !! i = Some a -> at_loc d l (Z.of_nat i + 1) = a).
  { intros A d l a H. unfold at_loc. replace (Z.to_nat (Z.of_nat i + 1 - 1)) with i by lia. by apply nth_lookup_Some. }
  destruct c as [l|l|l|l|l]; cbn in L; (destruct (lookup_lt_is_Some_2 l i) as [a Ha]; [lia|]);
    eexists; (split; [cbn; apply map_lookup0; exact Ha|]); cbn [col_complete]; rewrite (Hz _ _ _ _ Ha); cbn [elt_is_missing].
  - by rewrite negb_involutive.
  - by rewrite negb_involutive.
  - apply isnan_number.
  - unfold cpl_is_missing, dbl_is_missing. rewrite !isnan_number. by rewrite negb_andb.
  - by destruct a.
Qed.

Lemma incomplete_at p i : Forall (fun c => ocol_length c = oproxy_size p) (proxy_cols p) -> i < oproxy_size p ->
  row_is_incomplete (proxy_row (oproxy_proxy p) i) = negb (complete_at p (Z.of_nat i + 1)).
Proof.
  intros H Hi. unfold proxy_row.
  assert (E : M_Proxy.proxy_cols (oproxy_proxy p) = map ocol_vec (proxy_cols p)) by (by destruct p). rewrite E. clear E.
  unfold complete_at. induction H as [|c cs Hc H IH]; [done|]. cbn [map forallb].
  destruct (col_missing c _ i Hc Hi) as (e & He & Hm). unfold cols_row in *. cbn. rewrite He. cbn. rewrite Hm.
  destruct (col_complete _ c); [exact IH|done].
Qed.

Lemma detect_ok p : Forall (fun c => ocol_length c = oproxy_size p) (proxy_cols p) ->
  vec_detect_complete (oproxy_proxy p) = Ok (map (fun i => b2i (complete_at p (Z.of_nat i + 1))) (seq 0 (oproxy_size p))).
Proof.
  intros H. assert (Es : proxy_size (oproxy_proxy p) = oproxy_size p) by (destruct p; [apply ocol_vec_length|done]).
  rewrite vec_detect_complete_rows.
  - rewrite Es. f_equal. apply map_ext_in. intros i Hi. apply in_seq in Hi. rewrite incomplete_at by (done || lia). by rewrite negb_involutive.
  - unfold proxy_wf. rewrite Es. assert (E : M_Proxy.proxy_cols (oproxy_proxy p) = map ocol_vec (proxy_cols p)) by (by destruct p). rewrite E.
    apply Forall_forall. intros v Hv. apply elem_of_list_fmap in Hv. destruct Hv as (c & -> & Hc). split; [apply ocol_vec_wf|].
    rewrite ocol_vec_length. rewrite Forall_forall in H. by apply H.
Qed.

Lemma lgl_all_ok (g : nat -> bool) n : r_lgl_all (map (fun i => b2i (g i)) (seq 0 n)) = Ok (forallb g (seq 0 n)).
Proof.
  unfold r_lgl_all. rewrite map_length, seq_length.
  destruct (for_brk_inv (fun i (s : bool) => s = true /\ forall j, j < i -> g j = true) (fun s => s = forallb g (seq 0 n)) 0 n
    (fun i (_ : bool) => let! v := rd (map (fun i => b2i (g i)) (seq 0 n)) i in
      if (v =? 0)%Z then Ok (Break false) else Ok (Next true)) true) as (s & E & ->).
  - split; [done|]. intros; lia.
  - intros i s Hi [-> H]. assert (rd (map (fun i => b2i (g i)) (seq 0 n)) i = Ok (b2i (g i))) as ->.
    { apply rd_Ok. apply (map_lookup0 (fun i => b2i (g i))). apply lookup_seq_lt. lia. }
    cbn [bind]. destruct (g i) eqn:Eg; cbn.
    + left. exists true. split; [done|]. split; [done|]. intros j Hj. destruct (decide (j = i)) as [->|]; [done|]. apply H. lia.
    + right. exists false. split; [done|]. symmetry. apply not_true_iff_false. rewrite forallb_forall. intros Ha.
      rewrite Ha in Eg; [done|]. apply in_seq. lia.
  - intros s [-> H]. symmetry. apply forallb_forall. intros j Hj. apply in_seq in Hj. apply H. lia.
  - exact E.
Qed.

(** ** Keeping the complete rows *)
Lemma keep_spec {A} (g : nat -> bool) (d : A) (x : list A) : forall s,
  keep (map (fun i => b2i (g i)) (seq s (length x))) x = map (fun i => nth (i - s) x d) (List.filter g (seq s (length x))).
Proof.
  induction x as [|a x IH]; intros s; [done|]. cbn [length seq map]. unfold keep in *. cbn.
  assert (E : forall f : nat -> A, map f (List.filter g (seq (S s) (length x))) = map f (List.filter g (seq (S s) (length x)))) by done.
  rewrite IH.
  assert (E2 : map (fun i => nth (i - S s) x d) (List.filter g (seq (S s) (length x))) =
    map (fun i => nth (i - s) (a :: x) d) (List.filter g (seq (S s) (length x)))).
  { apply map_ext_in. intros i Hi. apply List.filter_In in Hi. destruct Hi as [Hi _]. apply in_seq in Hi.
    replace (i - s) with (S (i - S s)) by lia. done. }
  destruct (g s); cbn; [|exact E2]. f_equal; [|exact E2]. by rewrite Nat.sub_diag.
Qed.

(** The complete locations, and the location in [x] of a location in the sliced [x]. *)
Definition pool_of (g : Z -> bool) (n : nat) : list Z := List.filter g (locs n).
Definition phi (pool : list Z) (k : Z) : Z := nth (Z.to_nat (k - 1)) pool 0%Z.

Lemma pool_nat (g : Z -> bool) n : pool_of g n = map (fun i => Z.of_nat i + 1)%Z (List.filter (fun i => g (Z.of_nat i + 1)%Z) (seq 0 n)).
Proof.
  unfold pool_of, locs. induction (seq 0 n) as [|i l IH]; [done|]. cbn. destruct (g _); cbn; by rewrite IH.
Qed.
Lemma keep_length {A} (g : Z -> bool) (x : list A) n : length x = n ->
  length (keep (map (fun i => b2i (g (Z.of_nat i + 1)%Z)) (seq 0 n)) x) = length (pool_of g n).
Proof.
  intros <-. destruct x as [|a x]; [done|]. rewrite (keep_spec (fun i => g (Z.of_nat i + 1)%Z) a). by rewrite pool_nat, !map_length.
Qed.
Lemma keep_at {A} (g : Z -> bool) (x : list A) n d k : length x = n -> k < length (pool_of g n) ->
  at_loc d (keep (map (fun i => b2i (g (Z.of_nat i + 1)%Z)) (seq 0 n)) x) (Z.of_nat k + 1) = at_loc d x (phi (pool_of g n) (Z.of_nat k + 1)).
Proof.
  intros <- Hk. rewrite (keep_spec (fun i => g (Z.of_nat i + 1)%Z) d). unfold at_loc, phi.
  replace (Z.to_nat (Z.of_nat k + 1 - 1)) with k by lia. rewrite pool_nat in *. rewrite map_length in Hk.
  set (l := List.filter _ _) in *. destruct (lookup_lt_is_Some_2 l k Hk) as [i Hi].
  rewrite (nth_lookup_Some (map (fun i => nth (i - 0) x d) l) k d (nth i x d)).
  2:{ rewrite (map_lookup0 _ _ _ _ Hi). by rewrite Nat.sub_0_r. }
  rewrite (nth_lookup_Some (map (fun i => Z.of_nat i + 1)%Z l) k 0%Z (Z.of_nat i + 1)%Z) by by apply (map_lookup0 (fun i => Z.of_nat i + 1)%Z).
  f_equal. lia.
Qed.
Lemma locs_lookup n q : q < n -> locs n !! q = Some (Z.of_nat q + 1)%Z.
Proof. intros H. unfold locs. apply (map_lookup0 (fun i => Z.of_nat i + 1)%Z). by apply lookup_seq_lt. Qed.
Lemma locs_length n : length (locs n) = n.
Proof. unfold locs. by rewrite map_length, seq_length. Qed.
Lemma locs_elem n a : a ∈ locs n <-> (1 <= a <= Z.of_nat n)%Z.
Proof.
  unfold locs. change (map ?f ?l) with (f <$> l). rewrite elem_of_list_fmap. setoid_rewrite elem_of_seq. split.
  - intros (i & -> & Hi). lia.
  - intros H. exists (Z.to_nat (a - 1)). lia.
Qed.
Lemma pool_map (pool : list Z) : pool = map (phi pool) (locs (length pool)).
Proof.
  apply list_eq. intros q. destruct (decide (q < length pool)) as [Hq|Hq].
  - rewrite (map_lookup0 _ _ _ _ (locs_lookup _ _ Hq)). unfold phi. destruct (lookup_lt_is_Some_2 pool q Hq) as [a Ha]. rewrite Ha. f_equal.
    symmetry. apply nth_lookup_Some. rewrite <- Ha. f_equal. lia.
  - rewrite !lookup_ge_None_2; [done|rewrite map_length, locs_length; lia|lia].
Qed.
Lemma locs_sorted n : StronglySorted Z.lt (locs n).
Proof.
  unfold locs. generalize 0. induction n as [|n IH]; intros s; cbn; constructor; [apply IH|].
  apply Forall_forall. intros a Ha. apply elem_of_list_fmap in Ha. destruct Ha as (i & -> & Hi). apply elem_of_seq in Hi. lia.
Qed.
Lemma list_filter_sublist {A} (g : A -> bool) l : sublist (List.filter g l) l.
Proof. induction l as [|a l IH]; cbn; [done|]. destruct (g a); [by apply sublist_skip|by apply sublist_cons]. Qed.
Lemma pool_sorted g n : StronglySorted Z.lt (pool_of g n).
Proof. apply (ss_sublist _ _ (locs n)); [apply list_filter_sublist|apply locs_sorted]. Qed.
Lemma phi_lookup pool k : (1 <= k <= Z.of_nat (length pool))%Z -> pool !! Z.to_nat (k - 1) = Some (phi pool k).
Proof. intros H. unfold phi. destruct (lookup_lt_is_Some_2 pool (Z.to_nat (k - 1))) as [a Ha]; [lia|]. by rewrite (nth_lookup_Some _ _ _ _ Ha). Qed.
Lemma phi_mono g n a b : let m := Z.of_nat (length (pool_of g n)) in (1 <= a <= m)%Z -> (1 <= b <= m)%Z ->
  (phi (pool_of g n) a <? phi (pool_of g n) b)%Z = (a <? b)%Z.
Proof.
  intros m Ha Hb. pose proof (pool_sorted g n) as S. pose proof (phi_lookup _ a Ha) as La. pose proof (phi_lookup _ b Hb) as Lb.
  destruct (Z.ltb_spec a b) as [H|H].
  - apply Z.ltb_lt. apply (ss_lookup _ _ (Z.to_nat (a - 1)) (Z.to_nat (b - 1)) _ _ S); [lia|done|done].
  - apply Z.ltb_ge. destruct (decide (a = b)) as [->|]; [lia|].
    pose proof (ss_lookup _ _ (Z.to_nat (b - 1)) (Z.to_nat (a - 1)) _ _ S ltac:(lia) Lb La). lia.
Qed.

(** Ranks in the sliced [x] are the ranks among the complete locations. *)
Lemma rank_of_phi t (cmp cmp' : Z -> Z -> comparison) g n k : let pool := pool_of g n in
  (forall a b, a ∈ locs (length pool) -> b ∈ locs (length pool) -> cmp' a b = cmp (phi pool a) (phi pool b)) -> k ∈ locs (length pool) ->
  rank_of t cmp' (locs (length pool)) k = rank_of t cmp pool (phi pool k).
Proof.
  intros pool H Hk.
  assert (Hcnt : forall f f', (forall a, a ∈ locs (length pool) -> f' a = f (phi pool a)) -> count f' (locs (length pool)) = count f pool).
  { intros f f' Hf. rewrite (pool_map pool) at 2. rewrite count_map. by apply count_ext. }
  assert (Hlt : forall a, a ∈ locs (length pool) -> (a <? k)%Z = (phi pool a <? phi pool k)%Z).
  { intros a Ha. symmetry. apply phi_mono; by apply locs_elem. }
  destruct t; cbn [rank_of].
  - f_equal. apply Hcnt. intros a Ha. by rewrite H.
  - apply Hcnt. intros a Ha. by rewrite H.
  - f_equal. apply Hcnt. intros a Ha. rewrite H by done. by rewrite Hlt.
  - f_equal. apply Hcnt. intros a Ha. rewrite H by done. f_equal. unfold first_of.
    assert (Hpool : forall c, c ∈ pool <-> exists c', c = phi pool c' /\ c' ∈ locs (length pool)).
    { intros c. pose proof (pool_map pool) as E. split.
      - intros Hc. rewrite E in Hc. by apply elem_of_list_fmap in Hc.
      - intros Hc. rewrite E. by apply elem_of_list_fmap. }
    apply eq_true_iff_eq. rewrite !forallb_forall. setoid_rewrite <- elem_of_list_In. split.
    + intros F c Hc. apply Hpool in Hc. destruct Hc as (c' & -> & Hc'). specialize (F c' Hc').
      rewrite <- (H c' a) by done. assert (M : (phi pool c' <? phi pool a)%Z = (c' <? a)%Z) by (apply phi_mono; by apply locs_elem). by rewrite M.
    + intros F c Hc. specialize (F (phi pool c) ltac:(apply Hpool; by exists c)). rewrite <- (H c a) in F by done.
      assert (M : (phi pool c <? phi pool a)%Z = (c <? a)%Z) by (apply phi_mono; by apply locs_elem). by rewrite M in F.
Qed.

Definition lgl_of (p : oproxy) : list Z := map (fun i => b2i (complete_at p (Z.of_nat i + 1)%Z)) (seq 0 (oproxy_size p)).
Definition pool_p (p : oproxy) : list Z := pool_of (complete_at p) (oproxy_size p).

Lemma keep_size p : oproxy_size (oproxy_keep (lgl_of p) p) = length (pool_p p).
Proof.
  destruct p as [c|cols n].
  - destruct c as [l|l|l|l|l]; [exact (keep_length (complete_at (OVec (OLgl l))) l _ eq_refl)|
      exact (keep_length (complete_at (OVec (OInt l))) l _ eq_refl)|exact (keep_length (complete_at (OVec (ODbl l))) l _ eq_refl)|
      exact (keep_length (complete_at (OVec (OCpl l))) l _ eq_refl)|exact (keep_length (complete_at (OVec (OChr l))) l _ eq_refl)].
  - apply (keep_length (complete_at (ODf cols n)) (lgl_of (ODf cols n)) n). unfold lgl_of. by rewrite map_length, seq_length.
Qed.
Lemma keep_cols p : proxy_cols (oproxy_keep (lgl_of p) p) = map (ocol_keep (lgl_of p)) (proxy_cols p).
Proof. by destruct p. Qed.
Lemma keep_Forall {A} (P : A -> Prop) lgl x : Forall P x -> Forall P (keep lgl x).
Proof.
  intros H. unfold keep. revert lgl. induction H as [|a x Ha H IH]; intros [|v lgl]; cbn; try done. destruct (v =? 1)%Z; [constructor; [done|]|]; apply IH.
Qed.
Lemma keep_col_ok p c : col_ok (oproxy_size p) c -> col_ok (length (pool_p p)) (ocol_keep (lgl_of p) c).
Proof.
  intros [L H]. destruct c as [l|l|l|l|l]; cbn in *; (split; [by apply keep_length|by apply keep_Forall]).
Qed.
Lemma keep_input x p tls : order_input x p tls -> order_input x (oproxy_keep (lgl_of p) p) tls.
Proof.
  intros (H1 & H2 & H3 & H4). split; [|split; [|split; [|done]]].
  - rewrite keep_size, keep_cols. apply Forall_forall. intros c Hc. apply elem_of_list_fmap in Hc. destruct Hc as (c' & -> & Hc').
    apply keep_col_ok. rewrite Forall_forall in H1. by apply H1.
  - rewrite keep_size. unfold pool_p, pool_of. pose proof (sublist_length _ _ (list_filter_sublist (complete_at p) (locs (oproxy_size p)))) as H.
    rewrite locs_length in H. lia.
  - rewrite keep_cols, map_length. done.
Qed.
Lemma keep_col_vcmp p c l nd a b : ocol_length c = oproxy_size p -> a ∈ locs (length (pool_p p)) -> b ∈ locs (length (pool_p p)) ->
  col_vcmp l nd (ocol_keep (lgl_of p) c) a b = col_vcmp l nd c (phi (pool_p p) a) (phi (pool_p p) b).
Proof.
  intros L Ha Hb. apply locs_elem in Ha, Hb.
  assert (E : forall A (d : A) (x : list A) a, length x = oproxy_size p -> (1 <= a <= Z.of_nat (length (pool_p p)))%Z ->
    at_loc d (keep (lgl_of p) x) a = at_loc d x (phi (pool_p p) a)).
  { intros A d x a' Lx Ha'. replace a' with (Z.of_nat (Z.to_nat (a' - 1)) + 1)%Z by lia. apply keep_at; [done|]. unfold pool_p in Ha'. lia. }
  destruct c as [x|x|x|x|x]; cbn in L |- *; unfold by_loc; by rewrite !E.
Qed.
Lemma keep_vcmp x p d l nd a b : Forall (fun c => ocol_length c = oproxy_size p) (proxy_cols p) ->
  a ∈ locs (length (pool_p p)) -> b ∈ locs (length (pool_p p)) ->
  order_vcmp x (oproxy_keep (lgl_of p) p) d l nd a b = order_vcmp x p d l nd (phi (pool_p p) a) (phi (pool_p p) b).
Proof.
  intros H Ha Hb. unfold order_vcmp. rewrite keep_cols, map_length.
  generalize (zip (flags_of x (length (proxy_cols p)) d) (flags_of x (length (proxy_cols p)) l)) as fl.
  induction H as [|c cs Hc H IH]; intros [|[d0 l0] fl]; cbn; try done. rewrite (keep_col_vcmp p) by done. by rewrite IH.
Qed.

(** ** The theorem *)
Lemma rows_vcmp_tpo nd cols : tpo (rows_vcmp nd cols).
Proof.
  induction cols as [|[c [d l]] cols IH]; [apply tpo_const|]. apply (tpo_then (fun a b => dir d (col_vcmp l nd c a b)) (rows_vcmp nd cols)); [|done].
  apply tpo_dir. destruct c as [x|x|x|x|x]; cbn [col_vcmp]; unfold by_loc.
  - apply (tpo_preimage _ _ (int_vcmp_tpo l)).
  - apply (tpo_preimage _ _ (int_vcmp_tpo l)).
  - apply (tpo_preimage _ _ (dbl_vcmp_tpo l nd)).
  - apply (tpo_preimage _ _ (cpl_vcmp_tpo l nd)).
  - apply (tpo_preimage _ _ (chr_vcmp_tpo l)).
Qed.
Lemma groups_og cmp n o gs : tpo cmp -> is_order cmp n o -> is_group_sizes cmp o gs ->
  exists bs, og cmp (locs n) bs /\ o = concat bs /\ gs = map length bs.
Proof.
  intros T [P S] (bs & <- & <- & Hne & Heq & Hlt). exists bs. split; [|done]. split; try done.
  apply Forall_forall. intros b Hb. apply elem_of_list_lookup in Hb. destruct Hb as [i Hi].
  rewrite <- (take_drop_middle bs i b Hi), concat_app in S. apply ss_app in S. destruct S as (_ & S & _). cbn [concat] in S.
  apply ss_app in S. destruct S as (S & _ & _). eapply ss_impl; [|exact S]. intros a c Ha Hc [H|[_ H]]; [|done].
  pose proof (Forall_lookup_1 _ _ _ _ Heq Hi a c Ha Hc). congruence.
Qed.

(** The loop that spreads the ranks over the complete rows. *)
Lemma spread_ok (g : Z -> bool) (r : Z -> Z) n :
  let lgl := map (fun i => b2i (g (Z.of_nat i + 1)%Z)) (seq 0 n) in
  exists j, for_ 0 n (fun i '((out, j) : list Z * nat) =>
      let! c := rd lgl i in
      if negb (c =? 0)%Z then
        let! r := rd (map r (pool_of g n)) j in
        let! out := wr out i r in
        Ok (out, S j)
      else
        let! out := wr out i NA_INTEGER in
        Ok (out, j)) (alloc n, 0) = Ok (map (fun a => if g a then r a else NA_INTEGER) (locs n), j).
Proof.
  intros lgl. set (F := fun a => if g a then r a else NA_INTEGER).
  destruct (for_inv (fun i '((out, j) : list Z * nat) => out = map F (locs i) ++ replicate (n - i) 0%Z /\ j = length (pool_of g i)) 0 n
    (fun i '((out, j) : list Z * nat) =>
      let! c := rd lgl i in
      if negb (c =? 0)%Z then
        let! r := rd (map r (pool_of g n)) j in
        let! out := wr out i r in
        Ok (out, S j)
      else
        let! out := wr out i NA_INTEGER in
        Ok (out, j)) (alloc n, 0)) as ([out j] & E & -> & ->).
  - split; [cbn; by rewrite Nat.sub_0_r|done].
  - intros i [out j] Hi (-> & ->). assert (Hl : lgl !! i = Some (b2i (g (Z.of_nat i + 1)%Z))) by (apply (map_lookup0 (fun i => b2i (g (Z.of_nat i + 1)%Z))), lookup_seq_lt; lia).
    rewrite (proj2 (rd_Ok _ _ _) Hl). cbn [bind].
    assert (Eloc : locs (S i) = locs i ++ [(Z.of_nat i + 1)%Z]) by (unfold locs; rewrite seq_S, map_app; done).
    assert (Lm : length (map F (locs i)) = i) by (by rewrite map_length, locs_length).
    assert (W : forall v, F (Z.of_nat i + 1)%Z = v ->
      wr (map F (locs i) ++ replicate (n - i) 0%Z) i v = Ok (map F (locs (S i)) ++ replicate (n - S i) 0%Z)).
    { intros v Hv. pose proof (wr_put (map F (locs i)) 0%Z (n - i) v ltac:(lia)) as W. rewrite Lm in W. rewrite W, Eloc, map_app. cbn. rewrite Hv.
      do 3 f_equal. lia. }
    assert (Epool : pool_of g (S i) = pool_of g i ++ (if g (Z.of_nat i + 1)%Z then [(Z.of_nat i + 1)%Z] else [])).
    { unfold pool_of. rewrite Eloc, List.filter_app. cbn. by destruct (g _). }
    destruct (g (Z.of_nat i + 1)%Z) eqn:Eg.
    + assert (negb (b2i true =? 0)%Z = true) as -> by done. assert (Hr : map r (pool_of g n) !! length (pool_of g i) = Some (r (Z.of_nat i + 1)%Z)).
      { apply map_lookup0. assert (En : exists rest, pool_of g n = pool_of g (S i) ++ rest).
        { replace n with (S i + (n - S i)) by lia. generalize (n - S i) as q. intros q. unfold pool_of, locs. rewrite seq_app, map_app, List.filter_app. eauto. }
        destruct En as [rest ->]. rewrite Epool. rewrite <- app_assoc. rewrite lookup_app_r by lia. by rewrite Nat.sub_diag. }
      rewrite (proj2 (rd_Ok _ _ _) Hr). cbn [bind]. rewrite W by (unfold F; by rewrite Eg). cbn [bind]. eexists. split; [reflexivity|].
      split; [done|]. rewrite Epool, app_length. cbn. lia.
    + assert (negb (b2i false =? 0)%Z = false) as -> by done. rewrite W by (unfold F; by rewrite Eg). cbn [bind]. eexists. split; [reflexivity|].
      split; [done|]. rewrite Epool, app_length. cbn. lia.
  - eexists. rewrite Nat.sub_diag in E. cbn [replicate] in E. rewrite app_nil_r in E. exact E.
Qed.

Lemma rank_unfold fuel x p t d l nd tls o sizes : tls = tls -> order_input x p tls ->
  vec_order_info fuel x p d l nd tls = Ok (o, sizes) ->
  let cmp := order_vcmp x p d l nd in
  match t with
  | TIES_min => vec_rank_min o sizes (alloc (oproxy_size p))
  | TIES_max => vec_rank_max o sizes (alloc (oproxy_size p))
  | TIES_sequential => vec_rank_sequential o sizes (alloc (oproxy_size p))
  | TIES_dense => vec_rank_dense o sizes (alloc (oproxy_size p))
  end = Ok (map (fun a => Z.of_nat (rank_of t cmp (locs (oproxy_size p)) a)) (locs (oproxy_size p))).
Proof.
  intros _ Hin E cmp. unfold vec_order_info in E.
  destruct (vec_order_info_impl _ _ _ _ _ _ _ _) as [[[o' gs] tls']| |] eqn:E'; [|done|done]. cbn [bind] in E.
  destruct (C27_order_info_sound _ _ _ _ _ _ _ _ _ Hin E') as (Ho & Hg & Hs & _). destruct (Hs eq_refl) as [gs' ->].
  assert (o' = o /\ gs' = sizes) as [-> ->] by (cbn in E; split; congruence).
  assert (T : tpo cmp) by apply rows_vcmp_tpo.
  destruct (groups_og _ _ _ _ T Ho Hg) as (bs & G & -> & ->). by apply loops_ok.
Qed.

Lemma forallb_locs g n : forallb (fun i => g (Z.of_nat i + 1)%Z) (seq 0 n) = forallb g (locs n).
Proof. unfold locs. induction (seq 0 n) as [|i s IH]; [done|]. cbn. by rewrite IH. Qed.
Lemma filter_all {A} (g : A -> bool) s : forallb g s = true -> List.filter g s = s.
Proof. induction s as [|a s IH]; [done|]. cbn. destruct (g a); [|done]. intros H. f_equal. by apply IH. Qed.

Theorem C29_rank_sound fuel x p t incomplete_na decreasing na_largest nan_distinct tls out :
  order_input x p tls ->
  vec_rank fuel x p t incomplete_na decreasing na_largest nan_distinct tls = Ok out ->
  ranks t incomplete_na (order_vcmp x p decreasing na_largest nan_distinct) p out.
Proof.
  intros Hin E. unfold vec_rank in E. assert (Hlen : Forall (fun c => ocol_length c = oproxy_size p) (proxy_cols p)).
  { destruct Hin as (H & _). eapply Forall_impl; [exact H|]. intros c Hc. apply Hc. }
  unfold ranks. set (n := oproxy_size p) in *. set (cmp := order_vcmp x p decreasing na_largest nan_distinct).
  destruct incomplete_na; cbn [negb orb].
  2:{ cbn [bind] in E. destruct (vec_order_info _ _ _ _ _ _ _) as [[o sizes]| |] eqn:Eo; [|done|done]. cbn [bind] in E.
      rewrite (rank_unfold _ _ _ t _ _ _ _ _ _ eq_refl Hin Eo) in E. cbn [bind] in E.
      rewrite (filter_all (fun _ => true)) by (by apply forallb_forall). injection E as <-. done. }
  change (out = map (fun a => if complete_at p a then Z.of_nat (rank_of t cmp (List.filter (complete_at p) (locs n)) a) else NA_INTEGER) (locs n)).
  rewrite (detect_ok p Hlen) in E. cbn [bind] in E. rewrite (lgl_all_ok (fun i => complete_at p (Z.of_nat i + 1)%Z)) in E. cbn [bind] in E.
  rewrite forallb_locs in E. fold n in E. destruct (forallb (complete_at p) (locs n)) eqn:Eall.
  - cbn [bind] in E. destruct (vec_order_info _ _ _ _ _ _ _) as [[o sizes]| |] eqn:Eo; [|done|done]. cbn [bind] in E.
    rewrite (rank_unfold _ _ _ t _ _ _ _ _ _ eq_refl Hin Eo) in E. cbn [bind] in E.
    rewrite (filter_all _ _ Eall). injection E as <-. apply map_ext_in. intros a Ha. rewrite forallb_forall in Eall. by rewrite (Eall a Ha).
  - change (map (fun i => b2i (complete_at p (Z.of_nat i + 1)%Z)) (seq 0 n)) with (lgl_of p) in E. cbn [bind] in E.
    destruct (vec_order_info _ _ _ _ _ _ _) as [[o sizes]| |] eqn:Eo; [|done|done]. cbn [bind] in E.
    rewrite (rank_unfold _ _ _ t _ _ _ _ _ _ eq_refl (keep_input _ _ _ Hin) Eo) in E. cbn [bind] in E. rewrite keep_size in E.
    assert (Em : map (fun a => Z.of_nat (rank_of t (order_vcmp x (oproxy_keep (lgl_of p) p) decreasing na_largest nan_distinct)
        (locs (length (pool_p p))) a)) (locs (length (pool_p p)))
      = map (fun a => Z.of_nat (rank_of t cmp (pool_p p) a)) (pool_p p)).
    { transitivity (map (fun a => Z.of_nat (rank_of t cmp (pool_p p) a)) (map (phi (pool_p p)) (locs (length (pool_p p))))); [|by rewrite <- pool_map].
      rewrite map_map. apply map_ext_in. intros a Ha. apply elem_of_list_In in Ha. f_equal.
      apply (rank_of_phi t cmp _ (complete_at p) n); [|done]. intros b c Hb Hc. by apply keep_vcmp. }
    rewrite Em in E. destruct (spread_ok (complete_at p) (fun a => Z.of_nat (rank_of t cmp (pool_p p) a)) n) as [j Ej].
    cbn zeta in Ej. change (pool_of (complete_at p) n) with (pool_p p) in Ej. unfold lgl_of in E. fold n in E. rewrite Ej in E. cbn [bind] in E.
    injection E as <-. done.
Qed.

(** Ranking succeeds whenever ordering is known to. *)
Theorem C29_rank_total fuel x p t incomplete_na decreasing na_largest nan_distinct tls :
  order_input x p tls -> flags_valid x decreasing -> flags_valid x na_largest ->
  (forall j c, 1 <= j -> proxy_cols p !! j = Some c -> is_cpl c = false) -> length (proxy_cols p) <= fuel ->
  exists out, vec_rank fuel x p t incomplete_na decreasing na_largest nan_distinct tls = Ok out.
Proof.
  intros Hin Vd Vl Hc Hf. assert (Hlen : Forall (fun c => ocol_length c = oproxy_size p) (proxy_cols p)).
  { destruct Hin as (H & _). eapply Forall_impl; [exact H|]. intros c Hc'. apply Hc'. }
  assert (Hord : forall p', order_input x p' tls -> (forall j c, 1 <= j -> proxy_cols p' !! j = Some c -> is_cpl c = false) ->
    length (proxy_cols p') <= fuel -> exists o sizes, vec_order_info fuel x p' decreasing na_largest nan_distinct tls = Ok (o, sizes)).
  { intros p' Hin' Hc' Hf'. destruct (C27_order_info_total fuel x p' _ _ nan_distinct true tls Hin' Vd Vl Hc' Hf') as ([[o gs] t'] & E & _).
    unfold vec_order_info. rewrite E. cbn [bind]. eauto. }
  unfold vec_rank. destruct incomplete_na.
  2:{ cbn [bind]. destruct (Hord p Hin Hc Hf) as (o & sizes & Eo). rewrite Eo. cbn [bind].
      rewrite (rank_unfold _ _ _ t _ _ _ _ _ _ eq_refl Hin Eo). eauto. }
  rewrite (detect_ok p Hlen). cbn [bind]. rewrite (lgl_all_ok (fun i => complete_at p (Z.of_nat i + 1)%Z)). cbn [bind].
  destruct (forallb _ _).
  - cbn [bind]. destruct (Hord p Hin Hc Hf) as (o & sizes & Eo). rewrite Eo. cbn [bind].
    rewrite (rank_unfold _ _ _ t _ _ _ _ _ _ eq_refl Hin Eo). eauto.
  - cbn [bind]. change (map (fun i => b2i (complete_at p (Z.of_nat i + 1)%Z)) (seq 0 (oproxy_size p))) with (lgl_of p).
    destruct (Hord (oproxy_keep (lgl_of p) p)) as (o & sizes & Eo).
    + by apply keep_input.
    + rewrite keep_cols. intros j c Hj Hc'. apply list_lookup_fmap_inv in Hc'. destruct Hc' as (c' & -> & Hc').
      specialize (Hc j c' Hj Hc'). by destruct c'.
    + by rewrite keep_cols, map_length.
    + rewrite Eo. cbn [bind]. rewrite (rank_unfold _ _ _ t _ _ _ _ _ _ eq_refl (keep_input _ _ _ Hin) Eo). cbn [bind].
      rewrite keep_size.
      set (r := fun a => Z.of_nat (rank_of t (order_vcmp x p decreasing na_largest nan_distinct) (pool_p p) a)).
      assert (Em : map (fun a => Z.of_nat (rank_of t (order_vcmp x (oproxy_keep (lgl_of p) p) decreasing na_largest nan_distinct)
          (locs (length (pool_p p))) a)) (locs (length (pool_p p))) = map r (pool_p p)).
      { transitivity (map r (map (phi (pool_p p)) (locs (length (pool_p p))))); [|by rewrite <- pool_map].
        rewrite map_map. apply map_ext_in. intros a Ha. apply elem_of_list_In in Ha. unfold r. f_equal.
        apply (rank_of_phi t _ _ (complete_at p) (oproxy_size p)); [|done]. intros b c Hb Hc'. by apply keep_vcmp. }
      rewrite Em. destruct (spread_ok (complete_at p) r (oproxy_size p)) as [j Ej]. cbn zeta in Ej.
      change (pool_of (complete_at p) (oproxy_size p)) with (pool_p p) in Ej. unfold lgl_of. rewrite Ej. cbn [bind]. eauto.
Qed.

(** ** Examples *)
(** Columns (2, NA, 1, 2, 2) and ("a", "b", NA, "ab", "a"), the second decreasing. *)
Example C29_ex t : vec_rank 2 (XDf [1; 1]) (ODf ex_cols 5) t false [false; true] [true] true (fun _ => 0%Z) =
  Ok match t with
     | TIES_min => [3; 5; 1; 2; 3] | TIES_max => [4; 5; 1; 2; 4]
     | TIES_sequential => [3; 5; 1; 2; 4] | TIES_dense => [3; 4; 1; 2; 3]
     end%Z.
Proof. destruct t; reflexivity. Qed.
Example C29_ex_na t : vec_rank 2 (XDf [1; 1]) (ODf ex_cols 5) t true [false; true] [true] true (fun _ => 0%Z) =
  Ok match t with
     | TIES_min => [2; NA_INTEGER; NA_INTEGER; 1; 2] | TIES_max => [3; NA_INTEGER; NA_INTEGER; 1; 3]
     | TIES_sequential => [2; NA_INTEGER; NA_INTEGER; 1; 3] | TIES_dense => [2; NA_INTEGER; NA_INTEGER; 1; 2]
     end%Z.
Proof. destruct t; reflexivity. Qed.

Print Assumptions C29_rank_sound.
Print Assumptions C29_rank_total.
