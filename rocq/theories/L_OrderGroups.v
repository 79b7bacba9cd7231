(** * Lemmas: ordering within the groups of a previous column; complex vectors *)
From Verif Require Import Base M_Double M_Scalar M_Order M_OrderChr Spec_Order L_Dbl L_OrderSpec L_OrderSort
  L_OrderIns L_OrderScatter L_OrderRadix L_OrderCount L_OrderKeys L_OrderEntry.
From Coq Require Import Sorting.Sorted.
#[local] Arguments Z.mul : simpl never.
#[local] Arguments Z.add : simpl never.
#[local] Arguments Z.sub : simpl never.

(** the number of groups with ties *)
Definition n_tied (bs : list (list Z)) : nat := length (filter (fun b => length b <> 1) bs).

Lemma n_tied_snoc bs b : n_tied (bs ++ [b]) = if length b =? 1 then n_tied bs else S (n_tied bs).
Proof.
  unfold n_tied. rewrite filter_app, app_length, filter_cons, filter_nil.
  destruct (Nat.eqb_spec (length b) 1); [rewrite decide_False by lia|rewrite decide_True by done]; simpl; lia.
Qed.
Lemma n_tied_pos cmp os bs : og cmp os bs -> length bs <> length os -> 0 < n_tied bs.
Proof.
  intros H. rewrite <- (og_length _ _ _ H). destruct H as [_ N _ _ _]. unfold n_tied.
  induction bs as [|b bs IH]; simpl; [done|]. intros Hl. apply Forall_cons in N as [Hb N].
  rewrite filter_cons. destruct (decide (length b <> 1)) as [E|E]; simpl; [lia|].
  apply IH; [done|]. intros E'. apply Hl. rewrite app_length. lia.
Qed.

Section loop.
  Context {St : Type} (chunk : nat -> list Z -> St -> work -> group_infos ->
                               res (list Z * St * work * group_infos)).
  Context (step : St -> St) (cmp2 : Z -> Z -> comparison) (n np : nat) (bs : list (list Z)).
  Hypothesis Hrefl : forall a, cmp2 a a = Eq.
  Hypothesis Hne : Forall (fun b => b <> []) bs.
  Hypothesis Hchunk : forall i b s w g, bs !! i = Some b -> wok n np w -> gwf g -> room g (length b) ->
    exists cs w' g', chunk (length (concat (take i bs))) b s w g = Ok (concat cs, step s, w', g') /\
      og cmp2 b cs /\ pushed g (map length cs) g' /\ wok n np w'.

  Lemma forall2_og_length cs bss : Forall2 (fun b cs => og cmp2 b cs) cs bss ->
    length (concat (concat bss)) = length (concat cs) /\ length (concat bss) <= length (concat cs).
  Proof.
    induction 1 as [|b c cs bss H HF [IH1 IH2]]; simpl; [done|].
    rewrite concat_app, !app_length. rewrite (og_length _ _ _ H), IH1. split; [done|].
    pose proof (og_nblocks _ _ _ H). lia.
  Qed.

  Lemma groups_loop_spec sizes s w g :
    take (length bs) sizes = map length bs -> wok n np w -> gwf g -> room g (length (concat bs)) ->
    exists bss w' g', groups_loop chunk sizes (length bs) (concat bs) s w g =
        Ok (concat (concat bss), Nat.iter (n_tied bs) step s, w', g') /\
      Forall2 (fun b cs => og cmp2 b cs) bs bss /\ pushed g (map length (concat bss)) g' /\ wok n np w'.
  Proof.
    intros Hsz Hw Hg Hr. unfold groups_loop.
    match goal with |- exists bss w' g', bind (for_ 0 _ ?body ?st) _ = _ /\ _ =>
      destruct (for_inv
        (fun i '(p_o, s', w', g', pos) => wok n np w' /\ pos = length (concat (take i bs)) /\
           s' = Nat.iter (n_tied (take i bs)) step s /\
           exists bss, Forall2 (fun b cs => og cmp2 b cs) (take i bs) bss /\
             p_o = concat (concat bss) ++ concat (drop i bs) /\ pushed g (map length (concat bss)) g')
        0 (length bs) body st) as ([[[[p_o s'] w'] g'] pos] & E & H1 & H2 & H3 & bss & H4 & H5 & H6) end.
    - split; [done|]. split; [done|]. split; [done|]. exists []. split; [constructor|]. split; [done|].
      by apply pushed_refl.
    - intros i [[[[p_o s'] w'] g'] pos] Hi (Hw' & Hpos & Hs & bss & HF & Hpo & Hp). cbn beta iota.
      destruct (lookup_lt_is_Some_2 bs i) as [b Hb]; [lia|].
      assert (Hszi : sizes !! i = Some (length b)).
      { rewrite <- (lookup_take sizes (length bs) i) by lia. rewrite Hsz, list_lookup_fmap, Hb. done. }
      rewrite (proj2 (rd_Ok _ _ _) Hszi). cbn [bind].
      assert (Htk : take (S i) bs = take i bs ++ [b]) by (by apply take_S_r).
      assert (Hdr : drop i bs = b :: drop (S i) bs) by (by apply drop_S).
      assert (Hb0 : b <> []). { apply (proj1 (Forall_forall _ _) Hne b). by eapply elem_of_list_lookup_2. }
      assert (Hbl : length b <> 0) by (by destruct b).
      destruct (forall2_og_length _ _ HF) as [HL1 HL2].
      assert (Hroom : room g' (length b)).
      { eapply pushed_room; [exact Hp|]. rewrite map_length. eapply room_le; [|exact Hr].
        rewrite <- (take_drop i bs) at 1. rewrite Hdr, concat_app, app_length. simpl. rewrite app_length. lia. }
      assert (Hpos' : forall k, k = length b -> pos + k = length (concat (take (S i) bs))).
      { intros k ->. rewrite Htk, concat_app, app_length. simpl. rewrite app_nil_r. lia. }
      destruct (Nat.eqb_spec (length b) 1) as [E1|E1].
      + destruct (maybe_push_spec 1 g') as (g2 & E & Hp2); [apply Hp|lia|eapply room_le; [|exact Hroom]; lia|].
        rewrite E. cbn [bind]. eexists. split; [reflexivity|]. cbn beta iota. split; [done|].
        split; [by apply Hpos'|]. rewrite Htk, n_tied_snoc. rewrite (proj2 (Nat.eqb_eq _ _) E1). split; [done|].
        exists (bss ++ [[b]]). destruct b as [|a [|? ?]]; try done.
        split; [|split].
        * apply Forall2_app; [done|]. constructor; [|constructor].
          apply og_single; [done|apply ss_single|]. intros x y Hx Hy.
          apply elem_of_list_singleton in Hx as ->. apply elem_of_list_singleton in Hy as ->. apply Hrefl.
        * rewrite Hpo, Hdr, !concat_app. simpl. by rewrite <- app_assoc.
        * rewrite concat_app, map_app. eapply pushed_trans; [exact Hp|exact Hp2].
      + assert (Hlen : length p_o = length (concat bs)).
        { rewrite Hpo, app_length, HL1, <- app_length, <- concat_app, take_drop. done. }
        destruct (Nat.ltb_spec (length p_o) (pos + length b)) as [Hlt|_].
        { exfalso. rewrite (Hpos' _ eq_refl), Hlen in Hlt.
          rewrite <- (take_drop (S i) bs) in Hlt at 1. rewrite concat_app, app_length in Hlt. lia. }
        assert (Hposl : pos = length (concat (concat bss))) by lia.
        assert (Hseg : seg p_o pos (length b) = b).
        { rewrite Hpo, Hposl, Hdr. simpl. apply seg_app. }
        rewrite Hseg.
        destruct (Hchunk i b s' w' g' Hb Hw') as (cs & w2 & g2 & E & Hog & Hp2 & Hw2); [apply Hp|done|].
        rewrite Hpos, E. cbn [bind]. eexists. split; [reflexivity|]. cbn beta iota. rewrite <- Hpos. split; [done|].
        split; [by apply Hpos'|]. rewrite Htk, n_tied_snoc, (proj2 (Nat.eqb_neq _ _) E1). split; [by rewrite Hs|].
        exists (bss ++ [cs]). split; [|split].
        * apply Forall2_app; [done|]. by constructor.
        * rewrite Hpo, Hposl, Hdr, !concat_app. simpl. rewrite app_nil_r.
          rewrite put_seg_app by (by rewrite (og_length _ _ _ Hog)). by rewrite <- app_assoc.
        * rewrite concat_app, map_app. eapply pushed_trans; [exact Hp|]. simpl. by rewrite app_nil_r.
    - rewrite E. cbn [bind]. exists bss, w', g'. simpl in H2, H3, H4, H5.
      rewrite take_ge in H3, H4 by done. rewrite drop_ge in H5 by done. simpl in H5. rewrite app_nil_r in H5.
      rewrite H5, H3. done.
  Qed.
End loop.

(** ** State after a whole column *)
Record gdone (g : group_infos) (bs : list (list Z)) (g' : group_infos) : Prop := Gdone {
  gd_ignore : g_ignore_groups g' = g_ignore_groups g;
  gd_force : g_force_groups g' = g_force_groups g;
  gd_max : g_max_data_size g' = g_max_data_size g;
  gd_wf : gwf g';
  gd_sizes : g_ignore_groups g = false -> gsizes g' = map length bs }.

Lemma pushed_gdone g (bs : list (list Z)) g' : gsizes g = [] -> pushed g (map length bs) g' -> gdone g bs g'.
Proof.
  intros Hs []. split; try done. intros Hi. rewrite pu_sizes, Hi, Hs. done.
Qed.

Lemma gwf_set_ignore g b : gwf g -> gwf (groups_set_ignore g b).
Proof. done. Qed.

Lemma gsizes_take g (bs : list (list Z)) : gwf g -> gsizes g = map length bs ->
  gi_n_groups (groups_current g) = length bs /\ take (length bs) (gi_data (groups_current g)) = map length bs.
Proof.
  intros W H. pose proof (gsizes_length g W) as Hl. rewrite H, map_length in Hl. split; [done|].
  unfold gsizes, gi_sizes in H. by rewrite Hl.
Qed.

Lemma extract_chunk_spec {A} (f : Z -> A) m os : (forall a, a ∈ os -> a ∈ locs m) ->
  extract_chunk (map f (locs m)) os = Ok (map f os).
Proof.
  induction os as [|a os IH]; intros H; simpl; [done|].
  assert (Ha : (1 <= a <= Z.of_nat m)%Z) by (apply locs_elem, H; by left).
  replace (a - 1)%Z with (Z.of_nat (Z.to_nat (a - 1))) by lia. rewrite rdZ_nat.
  rewrite (rd_fmap f (locs m) _ a).
  - cbn [bind]. rewrite IH by (intros b Hb; apply H; by right). done.
  - rewrite locs_lookup by lia. f_equal. lia.
Qed.

(** ** Complex vectors *)
Lemma cpl_norm_parts z : dbl_classify (cpl_normalise_missing z).1 = dbl_classify (cpl_parts z).1 /\
  dbl_classify (cpl_normalise_missing z).2 = dbl_classify (cpl_parts z).2 /\
  (dbl_classify (cpl_parts z).1 = DblNumber -> (cpl_normalise_missing z).1 = (cpl_parts z).1) /\
  (dbl_classify (cpl_parts z).2 = DblNumber -> (cpl_normalise_missing z).2 = (cpl_parts z).2).
Proof.
  destruct z as [r i]. unfold cpl_normalise_missing, cpl_parts, is_number. cbn [fst snd].
  destruct (dbl_classify r) eqn:Er, (dbl_classify i) eqn:Ei; simpl; rewrite ?Er, ?Ei; done.
Qed.
Lemma cpl_norm_wf z : dbl_wf z.1 -> dbl_wf z.2 ->
  dbl_wf (cpl_normalise_missing z).1 /\ dbl_wf (cpl_normalise_missing z).2.
Proof.
  intros H1 H2. unfold cpl_normalise_missing. destruct (dbl_classify z.1), (dbl_classify z.2); simpl; done.
Qed.
Lemma dbl_vcmp_classes nl nd x x' y y' : dbl_classify x = dbl_classify x' -> dbl_classify y = dbl_classify y' ->
  (dbl_classify x' = DblNumber -> x = x') -> (dbl_classify y' = DblNumber -> y = y') ->
  dbl_vcmp nl nd x y = dbl_vcmp nl nd x' y'.
Proof.
  intros Hx Hy Ex Ey. unfold dbl_vcmp. rewrite Hx, Hy.
  destruct (dbl_classify x') , (dbl_classify y'); try done. by rewrite Ex, Ey.
Qed.
Lemma dir_then d a b : dir d (cmp_then a b) = cmp_then (dir d a) (dir d b).
Proof. by destruct d, a. Qed.
Lemma dir_refl d c : c = Eq -> dir d c = Eq.
Proof. intros ->. by destruct d. Qed.

Definition cpl_cmp_re decreasing na_last nan_distinct (f : Z -> dbl * dbl) a b :=
  dir decreasing (dbl_vcmp (xorb decreasing na_last) nan_distinct
    (cpl_normalise_missing (f a)).1 (cpl_normalise_missing (f b)).1).
Definition cpl_cmp_im decreasing na_last nan_distinct (f : Z -> dbl * dbl) a b :=
  dir decreasing (dbl_vcmp (xorb decreasing na_last) nan_distinct
    (cpl_normalise_missing (f a)).2 (cpl_normalise_missing (f b)).2).
Lemma cpl_cmp_parts d l nd f a b :
  cmp_then (cpl_cmp_re d l nd f a b) (cpl_cmp_im d l nd f a b) =
  dir d (cpl_vcmp (xorb d l) nd (f a) (f b)).
Proof.
  unfold cpl_cmp_re, cpl_cmp_im, cpl_vcmp. rewrite dir_then.
  destruct (cpl_norm_parts (f a)) as (A1 & A2 & A3 & A4). destruct (cpl_norm_parts (f b)) as (B1 & B2 & B3 & B4).
  f_equal; f_equal; by apply dbl_vcmp_classes.
Qed.
Lemma cpl_cmp_im_refl d l nd f a : cpl_cmp_im d l nd f a a = Eq.
Proof. apply dir_refl. apply tp_refl. apply dbl_vcmp_tpo. Qed.

(** groups without ties stay as they are *)
Lemma og_no_ties cmp1 cmp2 os bs : og cmp1 os bs -> length bs = length os -> (forall a, cmp2 a a = Eq) ->
  og (fun x y => cmp_then (cmp1 x y) (cmp2 x y)) os bs.
Proof.
  intros H Hl Hr. pose proof (og_all_single _ _ _ H Hl) as E.
  assert (HF : Forall2 (fun b cs => og cmp2 b cs) bs (map (fun b => [b]) bs)).
  { rewrite E. clear -Hr. induction (concat bs) as [|a l IH]; simpl; constructor; [|done].
    apply og_single; [done|apply ss_single|]. intros x y Hx Hy.
    apply elem_of_list_singleton in Hx as ->. apply elem_of_list_singleton in Hy as ->. apply Hr. }
  pose proof (og_refine _ _ _ _ _ H HF) as R. by rewrite concat_singletons in R.
Qed.

Section cpl.
  Context (n np : nat) (decreasing na_last nan_distinct : bool) (f : Z -> dbl * dbl).
  Notation cmp := (fun a b => dir decreasing (cpl_vcmp (xorb decreasing na_last) nan_distinct (f a) (f b))).

  Lemma cpl_order_spec m o w g :
    (forall a, a ∈ locs m -> dbl_wf (f a).1 /\ dbl_wf (f a).2) ->
    length (or_data o) = m -> or_initialized o = false -> wok n np w -> 8 <= np -> m <= n ->
    gwf g -> gsizes g = [] -> m <= g_max_data_size g ->
    exists bs w' g', cpl_order (map f (locs m)) decreasing na_last nan_distinct o w g =
        Ok (Order (concat bs) true, w', g') /\
      og cmp (locs m) bs /\ gdone g bs g' /\ wok n np w'.
  Proof.
    intros Hf Ho Hi Hw Hnp Hm Hg Hs Hmax. unfold cpl_order.
    set (reset := g_ignore_groups g).
    set (g1 := if reset then groups_set_ignore g false else g).
    assert (Hg1 : gwf g1 /\ gsizes g1 = [] /\ g_ignore_groups g1 = false /\ g_max_data_size g1 = g_max_data_size g
                  /\ g_force_groups g1 = g_force_groups g).
    { subst g1 reset. destruct (g_ignore_groups g) eqn:E; done. }
    destruct Hg1 as (W1 & S1 & I1 & M1 & F1).
    rewrite map_map.
    destruct (dbl_order_impl_spec n np decreasing na_last nan_distinct (fun a => (cpl_normalise_missing (f a)).1)
                m o w g1) as (bs & w1 & g2 & E & Hog & Hp & Hw1); try done.
    { intros a Ha. apply cpl_norm_wf; by apply Hf. }
    { intros _. rewrite S1. simpl. lia. }
    rewrite E. cbn [bind].
    set (g3 := if reset then groups_set_ignore g2 true else g2).
    assert (Hg3 : gwf g3 /\ gsizes g3 = map length bs /\ g_ignore_groups g3 = g_ignore_groups g /\
                  g_max_data_size g3 = g_max_data_size g /\ g_force_groups g3 = g_force_groups g).
    { destruct Hp. assert (gsizes g2 = map length bs) by (rewrite pu_sizes, I1, S1; done).
      subst g3 reset. destruct (g_ignore_groups g) eqn:E3; (split; [done|]); (split; [done|]); cbn; (split; [congruence|]); split; congruence. }
    destruct Hg3 as (W3 & S3 & I3 & M3 & F3).
    destruct (gsizes_take g3 bs W3 S3) as [Hn Htk]. rewrite Hn, map_length, locs_length.
    assert (Hext : forall os' cs, og (fun a b => cmp_then (cpl_cmp_re decreasing na_last nan_distinct f a b)
                                   (cpl_cmp_im decreasing na_last nan_distinct f a b)) os' cs -> og cmp os' cs).
    { intros os' cs. apply og_cmp_ext. intros x y _ _. apply cpl_cmp_parts. }
    destruct (Nat.eqb_spec (length bs) m) as [Em|Em].
    - exists bs, w1, g3. split; [done|]. split; [|split; [|done]].
      + apply Hext. apply og_no_ties; [exact Hog|by rewrite locs_length|apply cpl_cmp_im_refl].
      + by split.
    - cbn [or_data or_initialized].
      assert (Hin : forall a, a ∈ concat bs -> a ∈ locs m).
      { intros a Ha. by rewrite (og_perm _ _ _ Hog) in Ha. }
      rewrite (extract_chunk_spec f m) by done. cbn [bind]. rewrite map_map.
      set (g4 := groups_swap g3).
      assert (Hg4 : gwf g4 /\ g_ignore_groups g4 = g_ignore_groups g /\ g_max_data_size g4 = g_max_data_size g /\
                 g_force_groups g4 = g_force_groups g /\ (g_ignore_groups g = false -> gsizes g4 = [])).
      { subst g4. destruct (g_ignore_groups g) eqn:Eg.
        - unfold groups_swap. rewrite I3. done.
        - destruct (groups_swap_spec g3 W3 I3) as (A & B & C & D & F & _). split; [done|].
          split; [done|]. split; [congruence|]. split; [congruence|]. done. }
      destruct Hg4 as (W4 & I4 & M4 & F4 & S4).
      match goal with |- context [groups_loop ?c _ _ _ _ _ _] => set (ch := c) end.
      destruct (groups_loop_spec ch (fun s => s) (cpl_cmp_im decreasing na_last nan_distinct f) n np bs)
        with (sizes := gi_data (groups_current g3)) (s := tt) (w := w1) (g := g4)
        as (bss & w5 & g5 & E5 & HF & Hp5 & Hw5); try done.
      { apply cpl_cmp_im_refl. }
      { apply Hog. }
      { intros i b s w' g' Hb Hw' Hg' Hr'. subst ch. cbn beta.
        assert (Hbin : b ∈ bs) by (by eapply elem_of_list_lookup_2).
        assert (Hsub : forall a, a ∈ b -> a ∈ locs m). { intros a Ha. apply Hin, in_concat_block. eauto. }
        assert (Hseg : seg (map (fun a => (cpl_normalise_missing (f a)).2) (concat bs)) (length (concat (take i bs))) (length b)
                       = map (fun a => (cpl_normalise_missing (f a)).2) b).
        { rewrite <- (take_drop_middle bs i b Hb) at 1. rewrite concat_app. simpl. rewrite !map_app.
          rewrite <- (map_length (fun a => (cpl_normalise_missing (f a)).2) (concat (take i bs))).
          rewrite <- (map_length (fun a => (cpl_normalise_missing (f a)).2) b) at 1. apply seg_app. }
        rewrite Hseg.
        destruct (dbl_order_chunk_impl_spec n np decreasing na_last nan_distinct
           (fun a => (cpl_normalise_missing (f a)).2) b w' g') as (cs & w2 & g2' & E2 & Hog2 & Hp2 & Hw2); try done.
        - by apply (proj1 (Forall_forall _ _) (og_inc _ _ _ Hog)).
        - intros a Ha. apply cpl_norm_wf; apply Hf; by apply Hsub.
        - transitivity (length (concat bs)).
          + rewrite <- (take_drop_middle bs i b Hb), concat_app. simpl. rewrite !app_length. lia.
          + rewrite (og_length _ _ _ Hog), locs_length. done.
        - rewrite E2. cbn [bind]. exists cs, w2, g2'. by destruct s. }
      { intros Hi4. rewrite S4 by congruence. simpl. rewrite (og_length _ _ _ Hog), locs_length. lia. }
      rewrite E5. cbn [bind]. exists (concat bss), w5, g5. split; [done|]. split; [|split; [|done]].
      + apply Hext. by eapply og_refine.
      + destruct Hp5. split; try congruence. intros Hi0. rewrite pu_sizes, I4, Hi0, S4; done.
  Qed.
End cpl.
