(** * Lemmas: ordering of integer, logical and double vectors and chunks *)
From Verif Require Import Base M_Double M_Scalar M_Order Spec_Order L_Dbl L_OrderSpec L_OrderSort L_OrderIns
  L_OrderScatter L_OrderRadix L_OrderCount L_OrderKeys.
From Coq Require Import Sorting.Sorted.
#[local] Arguments Z.mul : simpl never.
#[local] Arguments Z.add : simpl never.
#[local] Arguments Z.sub : simpl never.

(** working memory for [n] elements and [np] radix passes *)
Definition wok (n np : nat) (w : work) : Prop :=
  mok n (w_radix w) /\ 256 * np <= length (rm_counts (w_radix w)) /\
  exists L, (INT_ORDER_COUNTING_RANGE_BOUNDARY < Z.of_nat L)%Z /\ w_static w = replicate L 0.

Lemma zero_counts_ok n m : mok n m -> mok n (zero_counts m) /\
  length (rm_counts (zero_counts m)) = length (rm_counts m) /\
  (forall j, j < length (rm_counts (zero_counts m)) -> rm_counts (zero_counts m) !! j = Some 0).
Proof.
  intros H. split; [done|]. unfold zero_counts. cbn [rm_counts]. rewrite replicate_length. split; [done|].
  intros j Hj. by apply lookup_replicate_2.
Qed.

Lemma ones_rev (os : list Z) : map length (map (fun x : Z => [x]) (rev os)) = replicate (length os) 1.
Proof.
  rewrite map_map. cbn [length]. rewrite <- (rev_length os).
  induction (rev os); simpl; [done|]. by f_equal.
Qed.

Lemma map_at_loc {A} (d : A) (l : list A) : map (at_loc d l) (locs (length l)) = l.
Proof.
  apply list_eq. intros i. rewrite list_lookup_fmap. destruct (decide (i < length l)) as [Hi|Hi].
  - rewrite locs_lookup by done. cbn [fmap option_fmap option_map]. unfold at_loc.
    destruct (lookup_lt_is_Some_2 l i Hi) as [v Hv]. rewrite Hv.
    replace (Z.to_nat (Z.of_nat i + 1 - 1)) with i by lia. f_equal. by apply nth_lookup_Some.
  - rewrite (lookup_ge_None_2 (locs _)) by (rewrite locs_length; lia). rewrite lookup_ge_None_2 by lia. done.
Qed.
Lemma at_loc_Forall {A} (d : A) (P : A -> Prop) (l : list A) a : Forall P l -> a ∈ locs (length l) -> P (at_loc d l a).
Proof.
  intros H Ha. rewrite <- (map_at_loc d l) in H at 1. rewrite Forall_forall in H. apply H.
  by apply elem_of_list_fmap_1.
Qed.

Section entry.
  Context (n np : nat) (decreasing na_last : bool).

  Section ints.
    Context (f : Z -> Z).
    Notation cmp := (fun a b => dir decreasing (int_vcmp (xorb decreasing na_last) (f a) (f b))).

    Lemma int_cmp_tpo : tpo cmp.
    Proof. apply (tpo_preimage f (fun x y => dir decreasing (int_vcmp (xorb decreasing na_last) x y))).
      apply tpo_dir. apply int_vcmp_tpo. Qed.

    Lemma int_key_og os bs : (forall a, a ∈ os -> is_int (f a)) ->
      og (fun a b => (int_key decreasing na_last (f a) ?= int_key decreasing na_last (f b))%Z) os bs -> og cmp os bs.
    Proof.
      intros Hf Hog. eapply og_cmp_ext; [|exact Hog]. intros a b Ha Hb. cbn beta.
      apply int_key_cmp; by apply Hf.
    Qed.

    Lemma int_order_chunk_impl_spec os w g :
      StronglySorted Z.lt os -> (forall a, a ∈ os -> is_int (f a)) -> wok n np w -> 4 <= np -> length os <= n ->
      gwf g -> room g (length os) ->
      exists bs w' g', int_order_chunk_impl decreasing na_last (map f os) os w g = Ok (concat bs, w', g') /\
        og cmp os bs /\ pushed g (map length bs) g' /\ wok n np w'.
    Proof.
      intros Hs Hf Hw Hnp Hn W R. unfold int_order_chunk_impl. rewrite map_length.
      destruct (Nat.leb_spec (length os) ORDER_INSERTION_BOUNDARY) as [Hle|Hgt].
      - rewrite int_adjust_spec by done. cbn [bind].
        destruct (order_insertion_spec (fun a => int_key decreasing na_last (f a)) os g Hs W R) as (bs & g' & E & Hog & Hp).
        rewrite E. cbn [bind]. exists bs, w, g'. split; [done|]. split; [by apply int_key_og|]. done.
      - destruct (compute_range_spec (map f os)) as (x_min & range & E & Hrange).
        { apply Forall_forall. intros v Hv. apply elem_of_list_fmap in Hv as (a & -> & Ha). by apply Hf. }
        rewrite E. cbn [bind]. clear E. destruct Hw as (Hm & Hc & L & HL & Hst).
        destruct (Z.ltb_spec range INT_ORDER_COUNTING_RANGE_BOUNDARY) as [Hr|Hr].
        + destruct (Hrange Hr) as (Hmin & Hr1 & Hall). rewrite Hst.
          destruct (counting_spec f os x_min range L decreasing na_last Hs Hr1 ltac:(lia) ltac:(lia)) with
            (initialized := true) (p_o := os) (p_o_aux := rm_o_aux (w_radix w)) (g := g)
            as (bs & aux' & g' & E & Hog & Hp & Hl); try done.
          * intros a Ha. rewrite Forall_forall in Hall. apply Hall. by apply elem_of_list_fmap_1.
          * split; [done|]. destruct Hm as (_ & Hm & _). lia.
          * rewrite E. cbn [bind]. exists bs, (with_counting w aux' (replicate L 0)), g'. split; [done|].
            split; [done|]. split; [done|]. destruct Hm as (Hm1 & Hm2 & Hm3).
            split; [|split; [done|by exists L]]. split; [done|]. split; [|done]. cbn. lia.
        + rewrite int_adjust_spec by done. cbn [bind].
          destruct (zero_counts_ok n _ Hm) as (Hm' & Hlc & Hz).
          destruct (order_radix_spec INT_MAX_RADIX_PASS (fun a => int_key decreasing na_last (f a)) n os
            (zero_counts (w_radix w)) g) as (bs & mem' & g' & E & Hog & Hp & Hmk & Hcs); try done.
          * intros a Ha. apply int_key_range. by apply Hf.
          * intros ->. simpl in Hgt. unfold ORDER_INSERTION_BOUNDARY in Hgt. lia.
          * rewrite Hlc. unfold INT_MAX_RADIX_PASS. lia.
          * rewrite E. cbn [bind]. exists bs, (with_radix w mem'), g'. split; [done|]. split; [by apply int_key_og|].
            split; [done|]. split; [done|]. cbn. rewrite Hcs, Hlc. split; [done|]. by exists L.
    Qed.

    Lemma int_order_chunk_spec os w g :
      StronglySorted Z.lt os -> (forall a, a ∈ os -> is_int (f a)) -> wok n np w -> 4 <= np -> length os <= n ->
      gwf g -> room g (length os) ->
      exists bs w' g', int_order_chunk decreasing na_last (map f os) os w g = Ok (concat bs, w', g') /\
        og cmp os bs /\ pushed g (map length bs) g' /\ wok n np w'.
    Proof.
      intros Hs Hf Hw Hnp Hn W R. unfold int_order_chunk, int_sortedness.
      destruct (sortedness_spec (fun x y => int_cmp x y (direction_of decreasing) (na_order_of na_last)) f cmp
        int_cmp_tpo os g) as (s & g1 & E & Hsort); try done.
      { intros a b _ _. apply int_cmp_vcmp. }
      rewrite E. cbn [bind]. clear E. destruct s.
      - destruct Hsort as (bs & Hc & Hog & Hp). cbn [ord_resolve_sortedness_chunk bind].
        exists bs, w, g1. by rewrite Hc.
      - destruct Hsort as (Hog & Hp). cbn [ord_resolve_sortedness_chunk]. rewrite map_length.
        rewrite ord_reverse_chunk_spec. cbn [bind]. exists (map (fun x => [x]) (rev os)), w, g1.
        rewrite concat_singletons. split; [done|]. split; [done|]. split; [|done].
        by rewrite ones_rev.
      - destruct (int_order_chunk_impl_spec os w g1) as (bs & w' & g' & E & Hog & Hp & Hw'); try done.
        + apply Hsort.
        + by eapply pushed_room; [exact Hsort|].
        + exists bs, w', g'. split; [done|]. split; [done|]. split; [|done].
          by apply (pushed_trans g [] g1 _ g').
    Qed.

    (** *** the whole vector *)
    Lemma int_order_impl_spec m o w g :
      (forall a, a ∈ locs m -> is_int (f a)) ->
      length (or_data o) = m -> or_initialized o = false -> wok n np w -> 4 <= np -> m <= n ->
      gwf g -> room g m ->
      exists bs w' g', int_order_impl (map f (locs m)) decreasing na_last o w g = Ok (Order (concat bs) true, w', g') /\
        og cmp (locs m) bs /\ pushed g (map length bs) g' /\ wok n np w'.
    Proof.
      intros Hf Hlo Hini Hw Hnp Hn W R.
      assert (Hinit : init_order o = Ok (Order (locs m) true)).
      { rewrite init_order_spec, Hlo; [done|]. by rewrite Hini. }
      pose proof (locs_inc m) as Hs. pose proof (locs_length m) as Hlen.
      rewrite <- Hlen in R, Hn.
      unfold int_order_impl. rewrite map_length.
      destruct (int_order_chunk_impl_spec (locs m) w g Hs Hf Hw Hnp Hn W R) as (bs & w' & g' & E & Hres).
      unfold int_order_chunk_impl in E. rewrite map_length in E.
      destruct (Nat.leb_spec (length (locs m)) ORDER_INSERTION_BOUNDARY) as [Hle|Hgt].
      - rewrite Hinit. cbn [bind or_data or_initialized]. exists bs, w', g'. split; [|done].
        destruct (int_adjust decreasing na_last (map f (locs m))) as [px| |]; cbn [bind] in E |- *; [|done|done].
        destruct (order_insertion px (locs m) g) as [[[p1 p2] g2]| |]; cbn [bind] in E |- *; [|done|done].
        injection E as -> -> ->. done.
      - destruct (compute_range_spec (map f (locs m))) as (x_min & range & Er & Hrange).
        { apply Forall_forall. intros v Hv. apply elem_of_list_fmap in Hv as (a & -> & Ha). by apply Hf. }
        rewrite Er in E |- *. cbn [bind] in E |- *. clear Er.
        destruct (Z.ltb_spec range INT_ORDER_COUNTING_RANGE_BOUNDARY) as [Hr|Hr].
        + clear E Hres bs w' g'. destruct Hw as (Hm & Hc & L & HL & Hst).
          destruct (Hrange Hr) as (Hmin & Hr1 & Hall). rewrite Hst.
          destruct (counting_spec f (locs m) x_min range L decreasing na_last Hs Hr1 ltac:(lia) ltac:(lia)) with
            (initialized := false) (p_o := or_data o) (p_o_aux := rm_o_aux (w_radix w)) (g := g)
            as (bs & aux' & g' & E & Hog & Hp & Hl); try done.
          * intros a Ha. rewrite Forall_forall in Hall. apply Hall. by apply elem_of_list_fmap_1.
          * rewrite Hlen. done.
          * rewrite E. cbn [bind]. exists bs, (with_counting w aux' (replicate L 0)), g'. split; [done|].
            split; [done|]. split; [done|]. destruct Hm as (Hm1 & Hm2 & Hm3).
            split; [|split; [done|by exists L]]. split; [done|]. split; [|done]. cbn. lia.
        + rewrite Hinit. cbn [bind or_data or_initialized]. exists bs, w', g'. split; [|done].
          destruct (int_adjust decreasing na_last (map f (locs m))) as [px| |]; cbn [bind] in E |- *; [|done|done].
          destruct (order_radix INT_MAX_RADIX_PASS px (locs m) (zero_counts (w_radix w)) g)
            as [[[[p1 p2] m2] g2]| |]; cbn [bind] in E |- *; [|done|done].
          injection E as -> <- ->. done.
    Qed.

    Lemma int_order_spec m o w g :
      (forall a, a ∈ locs m -> is_int (f a)) ->
      length (or_data o) = m -> or_initialized o = false -> wok n np w -> 4 <= np -> m <= n ->
      gwf g -> room g m ->
      exists bs w' g', int_order (map f (locs m)) decreasing na_last o w g = Ok (Order (concat bs) true, w', g') /\
        og cmp (locs m) bs /\ pushed g (map length bs) g' /\ wok n np w'.
    Proof.
      intros Hf Hlo Hini Hw Hnp Hn W R. unfold int_order, int_sortedness.
      destruct (sortedness_spec (fun x y => int_cmp x y (direction_of decreasing) (na_order_of na_last)) f cmp
        int_cmp_tpo (locs m) g) as (s & g1 & E & Hsort); try done.
      { intros a b _ _. apply int_cmp_vcmp. }
      { apply locs_inc. }
      { by rewrite locs_length. }
      rewrite E. cbn [bind]. clear E. rewrite map_length, locs_length. destruct s.
      - destruct Hsort as (bs & Hc & Hog & Hp). cbn [ord_resolve_sortedness]. rewrite int_incr_spec by done. cbn [bind].
        exists bs, w, g1. by rewrite Hc.
      - destruct Hsort as (Hog & Hp). cbn [ord_resolve_sortedness].
        rewrite ord_reverse_spec by done. cbn [bind]. exists (map (fun x => [x]) (rev (locs m))), w, g1.
        rewrite concat_singletons. split; [done|]. split; [done|]. split; [|done]. by rewrite ones_rev.
      - destruct (int_order_impl_spec m o w g1) as (bs & w' & g' & E & Hog & Hp & Hw'); try done.
        + apply Hsort.
        + by eapply pushed_room; [exact Hsort|].
        + exists bs, w', g'. split; [done|]. split; [done|]. split; [|done].
          by apply (pushed_trans g [] g1 _ g').
    Qed.
  End ints.

  Section dbls.
    Context (nan_distinct : bool) (f : Z -> dbl).
    Notation cmp := (fun a b => dir decreasing (dbl_vcmp (xorb decreasing na_last) nan_distinct (f a) (f b))).

    Lemma dbl_cmp_tpo : tpo cmp.
    Proof. apply (tpo_preimage f (fun x y => dir decreasing (dbl_vcmp (xorb decreasing na_last) nan_distinct x y))).
      apply tpo_dir. apply dbl_vcmp_tpo. Qed.

    Lemma dbl_order_body_spec os w g :
      StronglySorted Z.lt os -> (forall a, a ∈ os -> dbl_wf (f a)) -> wok n np w -> 8 <= np -> length os <= n ->
      gwf g -> room g (length os) ->
      exists bs w' g', dbl_order_body decreasing na_last nan_distinct (map f os) os w g = Ok (concat bs, w', g') /\
        og cmp os bs /\ pushed g (map length bs) g' /\ wok n np w'.
    Proof.
      intros Hs Hf Hw Hnp Hn W R. unfold dbl_order_body. rewrite dbl_adjust_spec. cbn [bind]. rewrite map_length.
      assert (Hkog : forall bs, og (fun a b => (dbl_adjust_elt decreasing na_last nan_distinct (f a)
          ?= dbl_adjust_elt decreasing na_last nan_distinct (f b))%Z) os bs -> og cmp os bs).
      { intros bs Hog. eapply og_cmp_ext; [|exact Hog]. intros a b Ha Hb. cbn beta.
        apply dbl_key_cmp; by apply Hf. }
      destruct (Nat.leb_spec (length os) ORDER_INSERTION_BOUNDARY) as [Hle|Hgt].
      - destruct (order_insertion_spec (fun a => dbl_adjust_elt decreasing na_last nan_distinct (f a)) os g Hs W R)
          as (bs & g' & E & Hog & Hp).
        rewrite E. cbn [bind]. exists bs, w, g'. split; [done|]. split; [by apply Hkog|]. done.
      - destruct Hw as (Hm & Hc & L & HL & Hst).
        destruct (zero_counts_ok n _ Hm) as (Hm' & Hlc & Hz).
        destruct (order_radix_spec DBL_MAX_RADIX_PASS (fun a => dbl_adjust_elt decreasing na_last nan_distinct (f a)) n os
            (zero_counts (w_radix w)) g) as (bs & mem' & g' & E & Hog & Hp & Hmk & Hcs); try done.
        + intros a Ha. apply dbl_key_range. by apply Hf.
        + intros ->. simpl in Hgt. unfold ORDER_INSERTION_BOUNDARY in Hgt. lia.
        + rewrite Hlc. unfold DBL_MAX_RADIX_PASS. lia.
        + rewrite E. cbn [bind]. exists bs, (with_radix w mem'), g'. split; [done|]. split; [by apply Hkog|].
          split; [done|]. split; [done|]. cbn. rewrite Hcs, Hlc. split; [done|]. by exists L.
    Qed.

    Lemma dbl_order_chunk_impl_spec os w g :
      StronglySorted Z.lt os -> (forall a, a ∈ os -> dbl_wf (f a)) -> wok n np w -> 8 <= np -> length os <= n ->
      gwf g -> room g (length os) ->
      exists bs w' g', dbl_order_chunk_impl decreasing na_last nan_distinct (map f os) os w g = Ok (concat bs, w', g') /\
        og cmp os bs /\ pushed g (map length bs) g' /\ wok n np w'.
    Proof.
      intros Hs Hf Hw Hnp Hn W R. unfold dbl_order_chunk_impl, dbl_sortedness.
      destruct (sortedness_spec (fun x y => dbl_cmp x y (direction_of decreasing) (na_order_of na_last)
         (if nan_distinct then na_order_of na_last else 0%Z)) f cmp
        dbl_cmp_tpo os g) as (s & g1 & E & Hsort); try done.
      { intros a b _ _. apply dbl_cmp_vcmp. }
      rewrite E. cbn [bind]. clear E. destruct s.
      - destruct Hsort as (bs & Hc & Hog & Hp). cbn [ord_resolve_sortedness_chunk bind].
        exists bs, w, g1. by rewrite Hc.
      - destruct Hsort as (Hog & Hp). cbn [ord_resolve_sortedness_chunk]. rewrite map_length.
        rewrite ord_reverse_chunk_spec. cbn [bind]. exists (map (fun x => [x]) (rev os)), w, g1.
        rewrite concat_singletons. split; [done|]. split; [done|]. split; [|done]. by rewrite ones_rev.
      - destruct (dbl_order_body_spec os w g1) as (bs & w' & g' & E & Hog & Hp & Hw'); try done.
        + apply Hsort.
        + by eapply pushed_room; [exact Hsort|].
        + exists bs, w', g'. split; [done|]. split; [done|]. split; [|done].
          by apply (pushed_trans g [] g1 _ g').
    Qed.

    Lemma dbl_order_impl_spec m o w g :
      (forall a, a ∈ locs m -> dbl_wf (f a)) ->
      length (or_data o) = m -> or_initialized o = false -> wok n np w -> 8 <= np -> m <= n ->
      gwf g -> room g m ->
      exists bs w' g', dbl_order_impl (map f (locs m)) decreasing na_last nan_distinct o w g = Ok (Order (concat bs) true, w', g') /\
        og cmp (locs m) bs /\ pushed g (map length bs) g' /\ wok n np w'.
    Proof.
      intros Hf Hlo Hini Hw Hnp Hn W R. unfold dbl_order_impl, dbl_sortedness.
      assert (Hinit : init_order o = Ok (Order (locs m) true)).
      { rewrite init_order_spec, Hlo; [done|]. by rewrite Hini. }
      destruct (sortedness_spec (fun x y => dbl_cmp x y (direction_of decreasing) (na_order_of na_last)
         (if nan_distinct then na_order_of na_last else 0%Z)) f cmp
        dbl_cmp_tpo (locs m) g) as (s & g1 & E & Hsort); try done.
      { intros a b _ _. apply dbl_cmp_vcmp. }
      { apply locs_inc. }
      { by rewrite locs_length. }
      rewrite E. cbn [bind]. clear E. rewrite map_length, locs_length. destruct s.
      - destruct Hsort as (bs & Hc & Hog & Hp). cbn [ord_resolve_sortedness]. rewrite int_incr_spec by done. cbn [bind].
        exists bs, w, g1. by rewrite Hc.
      - destruct Hsort as (Hog & Hp). cbn [ord_resolve_sortedness].
        rewrite ord_reverse_spec by done. cbn [bind]. exists (map (fun x => [x]) (rev (locs m))), w, g1.
        rewrite concat_singletons. split; [done|]. split; [done|]. split; [|done]. by rewrite ones_rev.
      - rewrite Hinit. cbn [bind or_data or_initialized].
        destruct (dbl_order_body_spec (locs m) w g1) as (bs & w' & g' & E & Hog & Hp & Hw'); try done.
        + apply locs_inc.
        + by rewrite locs_length.
        + apply Hsort.
        + rewrite locs_length. by eapply pushed_room; [exact Hsort|].
        + rewrite E. cbn [bind]. exists bs, w', g'. split; [done|]. split; [done|]. split; [|done].
          by apply (pushed_trans g [] g1 _ g').
    Qed.
  End dbls.
End entry.
