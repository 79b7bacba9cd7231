(** * Lemmas: initialising, reversing and insertion ordering *)
From Verif Require Import Base M_Double M_Scalar M_Order Spec_Order L_OrderSpec L_OrderSort.
From Coq Require Import Sorting.Sorted.

Lemma locs_length n : length (locs n) = n.
Proof. unfold locs. by rewrite map_length, seq_length. Qed.
Lemma locs_lookup n i : i < n -> locs n !! i = Some (Z.of_nat i + 1)%Z.
Proof. intros H. unfold locs. rewrite list_lookup_fmap, lookup_seq_lt by done. done. Qed.
Lemma locs_inc n : StronglySorted Z.lt (locs n).
Proof.
  unfold locs. generalize 0. induction n as [|n IH]; intros i; simpl; constructor; [apply IH|].
  apply Forall_forall. intros x Hx. apply elem_of_list_fmap in Hx as (j & -> & Hj).
  apply elem_of_seq in Hj. lia.
Qed.
Lemma locs_elem n a : a ∈ locs n <-> (1 <= a <= Z.of_nat n)%Z.
Proof.
  unfold locs. rewrite elem_of_list_fmap. split.
  - intros (i & -> & Hi). apply elem_of_seq in Hi. lia.
  - intros H. exists (Z.to_nat (a - 1)). split; [lia|]. apply elem_of_seq. lia.
Qed.

Lemma int_incr_spec n p : length p = n -> int_incr n p = Ok (locs n).
Proof.
  intros Hl. unfold int_incr.
  match goal with |- for_ 0 n ?body ?s = _ =>
    destruct (for_inv (fun i p' => length p' = n /\ forall j, j < i -> p' !! j = Some (Z.of_nat j + 1)%Z)
      0 n body s) as (p' & E & Hlen & H) end.
  - split; [done|]. intros; lia.
  - intros i s Hi [Hlen H]. rewrite wr_Ok by lia. eexists. split; [reflexivity|].
    rewrite insert_length. split; [done|]. intros j Hj.
    destruct (decide (j = i)) as [->|Hne].
    + apply list_lookup_insert. lia.
    + rewrite list_lookup_insert_ne by done. apply H. lia.
  - rewrite E. f_equal. apply list_eq. intros j. destruct (decide (j < n)) as [Hj|Hj].
    + rewrite H by lia. by rewrite locs_lookup.
    + rewrite !lookup_ge_None_2; [done| |]; rewrite ?locs_length; lia.
Qed.

Lemma init_order_spec o : (or_initialized o = true -> or_data o = locs (length (or_data o))) ->
  init_order o = Ok (Order (locs (length (or_data o))) true).
Proof.
  intros H. unfold init_order. destruct o as [d [|]]; simpl in *; [by rewrite <- H|].
  by rewrite int_incr_spec.
Qed.

Lemma rev_lookup_lt {A} (l : list A) j : j < length l -> rev l !! j = l !! (length l - 1 - j).
Proof.
  intros H. rewrite rev_alt. fold (reverse l). rewrite reverse_lookup by done. f_equal. lia.
Qed.

Lemma ord_reverse_spec n p : length p = n -> ord_reverse n p = Ok (rev (locs n)).
Proof.
  intros Hl. unfold ord_reverse.
  assert (Hh : n / 2 * 2 <= n) by (rewrite Nat.mul_comm; apply Nat.mul_div_le; lia).
  assert (Hm : n = n / 2 * 2 + n mod 2) by (pose proof (Nat.div_mod_eq n 2); lia).
  assert (Hm2 : n mod 2 < 2) by (apply Nat.mod_upper_bound; lia).
  set (h := n / 2) in *. set (r := n mod 2) in *. clearbody h r.
  match goal with |- bind (for_ 0 h ?body ?s) _ = _ =>
    destruct (for_inv (fun i p' => length p' = n /\
       forall j, j < i \/ n - i <= j < n -> p' !! j = Some (Z.of_nat n - Z.of_nat j)%Z)
      0 h body s) as (p' & E & Hlen & H) end.
  - split; [done|]. intros; lia.
  - intros i s Hi [Hlen H]. rewrite wr_Ok by lia. simpl. rewrite wr_Ok by (rewrite insert_length; lia).
    eexists. split; [reflexivity|].
    rewrite !insert_length. split; [done|]. intros j Hj.
    destruct (decide (j = n - 1 - i)) as [->|Hne].
    + rewrite list_lookup_insert by (rewrite insert_length; lia). f_equal. lia.
    + rewrite list_lookup_insert_ne by done. destruct (decide (j = i)) as [->|Hne2].
      * rewrite list_lookup_insert by lia. f_equal. lia.
      * rewrite list_lookup_insert_ne by done. apply H. lia.
  - rewrite E. simpl.
    assert (Hrev : forall q, length q = n ->
      (forall j, j < n -> q !! j = Some (Z.of_nat n - Z.of_nat j)%Z) -> q = rev (locs n)).
    { intros q Hq Hj. apply list_eq. intros j. destruct (decide (j < n)) as [Hjn|Hjn].
      - rewrite Hj by done. rewrite rev_lookup_lt by (rewrite locs_length; lia).
        rewrite locs_length, locs_lookup by lia. f_equal. lia.
      - rewrite !lookup_ge_None_2; [done| |]; rewrite ?rev_length, ?locs_length; lia. }
    destruct (Nat.eqb_spec r 0) as [Er|Er]; simpl negb; cbv iota.
    + f_equal. apply Hrev; [done|]. intros j Hj. apply H. lia.
    + rewrite wr_Ok by lia. f_equal. apply Hrev; [by rewrite insert_length|]. intros j Hj.
      destruct (decide (j = h)) as [->|Hne].
      * rewrite list_lookup_insert by lia. f_equal. lia.
      * rewrite list_lookup_insert_ne by done. apply H. lia.
Qed.

Lemma ord_reverse_chunk_spec p : ord_reverse_chunk (length p) p = Ok (rev p).
Proof.
  unfold ord_reverse_chunk. set (n := length p).
  assert (Hm : n = n / 2 * 2 + n mod 2) by (pose proof (Nat.div_mod_eq n 2); lia).
  assert (Hm2 : n mod 2 < 2) by (apply Nat.mod_upper_bound; lia).
  set (h := n / 2) in *. set (r := n mod 2) in *. clearbody h r.
  match goal with |- for_ 0 h ?body ?s = _ =>
    destruct (for_inv (fun i p' => length p' = n /\
       forall j, j < n -> p' !! j = if decide (j < i \/ n - i <= j) then p !! (n - 1 - j) else p !! j)
      0 h body s) as (p' & E & Hlen & H) end.
  - split; [done|]. intros. rewrite decide_False by lia. done.
  - intros i s Hi [Hlen H].
    destruct (lookup_lt_is_Some_2 p i) as [a Ha]; [lia|].
    destruct (lookup_lt_is_Some_2 p (n - 1 - i)) as [b Hb]; [lia|].
    assert (Hsa : s !! i = Some a) by (rewrite H, decide_False by lia; done).
    assert (Hsb : s !! (n - 1 - i) = Some b) by (rewrite H, decide_False by lia; done).
    rewrite (proj2 (rd_Ok s i a) Hsa). simpl. rewrite (proj2 (rd_Ok s (n - 1 - i) b) Hsb). simpl.
    rewrite wr_Ok by lia. simpl. rewrite wr_Ok by (rewrite insert_length; lia).
    eexists. split; [reflexivity|].
    rewrite !insert_length. split; [done|]. intros j Hj.
    destruct (decide (j = n - 1 - i)) as [->|Hne].
    + rewrite list_lookup_insert by (rewrite insert_length; lia). rewrite decide_True by lia.
      rewrite <- Ha. f_equal. lia.
    + rewrite list_lookup_insert_ne by done. destruct (decide (j = i)) as [->|Hne2].
      * rewrite list_lookup_insert by lia. rewrite decide_True by lia. done.
      * rewrite list_lookup_insert_ne by done. rewrite H by done.
        destruct (decide (j < i \/ n - i <= j)); [rewrite decide_True by lia|rewrite decide_False by lia]; done.
  - rewrite E. f_equal. apply list_eq. intros j. destruct (decide (j < n)) as [Hj|Hj].
    + rewrite rev_lookup_lt by done. rewrite H by done. fold n.
      destruct (decide (j < 0 + h \/ n - (0 + h) <= j)); [done|]. f_equal. lia.
    + rewrite !lookup_ge_None_2; [done| |]; rewrite ?rev_length; lia.
Qed.

(** ** Insertion ordering *)
Definition lexlt (K : Z -> Z) (a b : Z) : Prop := (K a < K b)%Z \/ (K a = K b /\ (a < b)%Z).

Section insertion.
  Context (K : Z -> Z).

  Lemma insertion_while_spec a left : forall h rest,
    exists left1 moved h',
      insertion_while (K a) (length left) (map K (left ++ h :: rest)) (left ++ h :: rest)
        = Ok (length left1, map K (left1 ++ h' :: moved ++ rest), left1 ++ h' :: moved ++ rest) /\
      left = left1 ++ moved /\ Forall (fun c => (K a < K c)%Z) moved /\
      (forall c, last left1 = Some c -> (K c <= K a)%Z).
  Proof.
    induction left as [|c left IH] using rev_ind; intros h rest.
    - exists [], [], h. simpl. repeat split; try done.
    - rewrite app_length. simpl length. rewrite Nat.add_1_r. cbn [insertion_while].
      assert (Hlk : ((left ++ [c]) ++ h :: rest) !! length left = Some c).
      { rewrite <- app_assoc. simpl. by rewrite list_lookup_middle. }
      rewrite (rd_fmap K _ _ c Hlk). simpl bind.
      destruct (Z.leb_spec (K c) (K a)) as [Hle|Hlt].
      + exists (left ++ [c]), [], h. rewrite app_length. simpl. rewrite Nat.add_1_r.
        split; [done|]. split; [by rewrite app_nil_r|]. split; [done|].
        intros c' Hc'. rewrite last_snoc in Hc'. by injection Hc' as <-.
      + rewrite (proj2 (rd_Ok _ _ _) Hlk). simpl bind.
        assert (Hlen : length left + 1 < length ((left ++ [c]) ++ h :: rest)).
        { rewrite !app_length. simpl. lia. }
        rewrite wr_Ok by (rewrite map_length; lia). simpl bind.
        rewrite wr_Ok by lia. simpl bind.
        assert (Hins : <[length left + 1:=c]> ((left ++ [c]) ++ h :: rest) = left ++ c :: c :: rest).
        { replace (length left + 1) with (length (left ++ [c]) + 0) by (rewrite app_length; simpl; lia).
          rewrite insert_app_r. simpl. by rewrite <- app_assoc. }
        rewrite <- list_fmap_insert, Hins.
        change (K <$> (left ++ c :: c :: rest)) with (map K (left ++ c :: c :: rest)).
        destruct (IH c (c :: rest)) as (left1 & moved & h' & E & -> & Hf & Hl).
        rewrite E. exists left1, (moved ++ [c]), h'. rewrite <- !app_assoc. simpl.
        split; [done|]. split; [done|]. split; [|done].
        apply Forall_app. split; [done|]. by repeat constructor.
  Qed.

  Lemma lexlt_trans a b c : lexlt K a b -> lexlt K b c -> lexlt K a c.
  Proof. unfold lexlt. lia. Qed.

  Lemma push_runs_spec os g : os <> [] -> StronglySorted (lexlt K) os -> gwf g -> room g (length os) ->
    exists bs g', push_runs (map K os) g = Ok g' /\ concat bs = os /\
      og (fun a b => (K a ?= K b)%Z) os bs /\ pushed g (map length bs) g'.
  Proof.
    intros Hne Hs W R. unfold push_runs. rewrite map_length.
    assert (0 < length os) by (destruct os; [done|simpl; lia]).
    destruct (lookup_lt_is_Some_2 os 0) as [o0 H0]; [lia|].
    assert (Ht1 : take 1 os = [o0]) by (by rewrite (take_S_r _ _ o0)).
    rewrite (rd_fmap K os 0 o0 H0). simpl bind.
    match goal with |- exists bs g', bind (for_ 1 _ ?body ?st) _ = _ /\ _ =>
      destruct (for_inv
        (fun i '(previous, group_size, g') => exists p bs cur,
            os !! (i - 1) = Some p /\ previous = K p /\ group_size = length cur /\
            p ∈ cur /\ og (fun a b => (K a ?= K b)%Z) (take i os) (bs ++ [cur]) /\
            concat (bs ++ [cur]) = take i os /\ pushed g (map length bs) g')
        1 (length os - 1) body st) as ([[prev gs] g'] & E & HQ) end.
    { exists o0, [], [o0]. split; [done|]. split; [done|]. split; [done|].
      split; [by left|]. split; [|split; [by rewrite Ht1|by apply pushed_refl]].
      rewrite Ht1. apply og_single; [done|apply ss_single|]. intros x y Hx Hy.
      apply elem_of_list_singleton in Hx as ->. apply elem_of_list_singleton in Hy as ->.
      apply Z.compare_refl. }
    { intros i [[prev gs] g'] Hi (p & bs & cur & Hp & -> & -> & Hpc & Hog & Hcat & Hpu).
      destruct (lookup_lt_is_Some_2 os i) as [a Ha]; [lia|].
      rewrite (rd_fmap K os i a Ha). simpl bind.
      assert (Hpa : lexlt K p a) by (eapply (ss_lookup _ os (i - 1) i); [done|lia|done|done]).
      destruct (Z.eqb_spec (K a) (K p)) as [Hz|Hz].
      - eexists. split; [reflexivity|]. cbn beta iota.
        exists a, bs, (cur ++ [a]). change (S i - 1) with (i - 0); rewrite Nat.sub_0_r.
        split; [done|]. split; [done|]. split; [rewrite app_length; simpl; lia|].
        split; [apply elem_of_app; right; by left|].
        rewrite (take_S_r _ _ a) by done.
        split; [|split; [|done]].
        + eapply og_snoc_eq; [apply tpo_Zcompare|exact Hog|exact Hpc| |].
          * cbn beta. rewrite Hz. apply Z.compare_refl.
          * intros x Hx. assert (Hxt : x ∈ take i os) by (by eapply og_last_block).
            apply elem_of_list_lookup in Hxt as (j & Hj). apply lookup_take_Some in Hj as [Hj Hlt].
            assert (lexlt K x a) as [Hlx|[_ Hlx]] by (eapply (ss_lookup _ os j i); done); [|done].
            exfalso. pose proof (og_eq _ _ _ Hog) as He. apply Forall_app in He as [_ He].
            apply Forall_cons in He as [He _]. specialize (He x p Hx Hpc). cbn beta in He.
            apply Z.compare_eq in He. lia.
        + rewrite <- Hcat, !concat_app. simpl. rewrite !app_nil_r. by rewrite app_assoc.
      - destruct (maybe_push_spec (length cur) g') as (g'' & E & Hp''); [apply Hpu| | |].
        + destruct cur; [by apply elem_of_nil in Hpc|simpl; lia].
        + eapply pushed_room; [exact Hpu|]. rewrite map_length.
          eapply room_le; [|exact R].
          pose proof (og_nblocks _ _ _ Hog) as Hn. rewrite app_length, take_length in Hn. simpl in Hn. lia.
        + rewrite E. simpl. eexists. split; [reflexivity|]. cbn beta iota.
          exists a, (bs ++ [cur]), [a]. change (S i - 1) with (i - 0); rewrite Nat.sub_0_r.
          split; [done|]. split; [done|]. split; [done|]. split; [by left|].
          rewrite (take_S_r _ _ a) by done.
          split; [|split].
          * eapply og_snoc_lt; [apply tpo_Zcompare|exact Hog|exact Hpc|].
            cbn beta. apply Z.compare_lt_iff. destruct Hpa as [?|[? ?]]; [done|lia].
          * rewrite concat_app, Hcat. done.
          * rewrite map_app. by eapply pushed_trans. }
    rewrite E. simpl. clear E.
    destruct HQ as (p & bs & cur & Hp & -> & -> & Hpc & Hog & Hcat & Hpu).
    rewrite take_ge in Hog, Hcat by lia.
    destruct (maybe_push_spec (length cur) g') as (g'' & E & Hp''); [apply Hpu| | |].
    + destruct cur; [by apply elem_of_nil in Hpc|simpl; lia].
    + eapply pushed_room; [exact Hpu|]. rewrite map_length.
      eapply room_le; [|exact R].
      pose proof (og_nblocks _ _ _ Hog) as Hn. rewrite app_length in Hn. simpl in Hn. lia.
    + exists (bs ++ [cur]), g''. split; [done|]. split; [done|].
      split; [done|]. rewrite map_app. by eapply pushed_trans.
  Qed.

  Lemma order_insertion_spec os g : StronglySorted Z.lt os -> gwf g -> room g (length os) ->
    exists bs g', order_insertion (map K os) os g = Ok (map K (concat bs), concat bs, g') /\
      og (fun a b => (K a ?= K b)%Z) os bs /\ pushed g (map length bs) g'.
  Proof.
    intros Hs W R. unfold order_insertion. rewrite map_length.
    destruct (Nat.eqb_spec (length os) 0) as [E0|E0].
    { apply nil_length_inv in E0 as ->. exists [], g. split; [done|]. split; [apply og_nil|by apply pushed_refl]. }
    match goal with |- exists bs g', bind (for_ 1 _ ?body ?st) _ = _ /\ _ =>
      destruct (for_inv
        (fun i '(p_x, p_o) => exists l, p_x = map K (l ++ drop i os) /\ p_o = l ++ drop i os /\
            length l = i /\ l ≡ₚ take i os /\ StronglySorted (lexlt K) l)
        1 (length os - 1) body st) as ([p_x p_o] & E & HQ) end.
    { destruct os as [|o0 ost]; [done|]. exists [o0]. simpl. rewrite drop_0.
      repeat (split; [done|]). apply ss_single. }
    { intros i [p_x p_o] Hi (l & -> & -> & Hl & Hp & Hss).
      destruct (lookup_lt_is_Some_2 os i) as [a Ha]; [lia|].
      rewrite (drop_S _ a) by done.
      assert (Hlk : (l ++ a :: drop (S i) os) !! i = Some a) by (rewrite <- Hl; by rewrite list_lookup_middle).
      rewrite (rd_fmap K _ i a Hlk). simpl bind. rewrite (proj2 (rd_Ok _ _ _) Hlk). simpl bind.
      destruct (insertion_while_spec a l a (drop (S i) os)) as (left1 & moved & h' & E & -> & Hf & Hlast).
      rewrite Hl in E. rewrite E. simpl bind. clear E Hlk.
      rewrite wr_Ok by (rewrite map_length, !app_length; simpl; lia). simpl bind.
      rewrite wr_Ok by (rewrite !app_length; simpl; lia). simpl bind.
      rewrite <- list_fmap_insert.
      assert (Hins : <[length left1:=a]> (left1 ++ h' :: moved ++ drop (S i) os) =
                     (left1 ++ a :: moved) ++ drop (S i) os).
      { replace (length left1) with (length left1 + 0) by lia. rewrite insert_app_r. simpl.
        by rewrite <- app_assoc. }
      rewrite Hins. eexists. split; [reflexivity|]. cbn beta iota.
      exists (left1 ++ a :: moved). split; [done|]. split; [done|].
      assert (Hbefore : forall x, x ∈ left1 ++ moved -> (x < a)%Z).
      { intros x Hx. rewrite Hp in Hx. by eapply ss_lt_take_drop. }
      apply ss_app in Hss as (S1 & S2 & S3).
      split; [rewrite app_length in Hl |- *; simpl; lia|]. split.
      - rewrite (take_S_r _ _ a) by done. rewrite <- Hp.
        rewrite <- app_assoc. apply Permutation_app; [done|]. apply Permutation_cons_append.
      - assert (Hleft : forall x, x ∈ left1 -> lexlt K x a).
        { intros x Hx. destruct (last left1) as [c|] eqn:El; [|apply last_None in El; subst; by apply elem_of_nil in Hx].
          pose proof (Hlast c eq_refl) as Hc. apply last_Some in El as [l' ->].
          assert (K x <= K a)%Z.
          { apply elem_of_app in Hx as [Hx|Hx].
            - apply ss_app in S1 as (_ & _ & S1). specialize (S1 x c Hx). unfold lexlt in S1.
              destruct S1 as [?|[? ?]]; [by left|lia|lia].
            - apply elem_of_list_singleton in Hx as ->. done. }
          assert (x < a)%Z by (apply Hbefore; apply elem_of_app; by left).
          unfold lexlt. lia. }
        assert (Hmoved : forall x, x ∈ moved -> lexlt K a x).
        { intros x Hx. left. by apply (proj1 (Forall_forall _ _) Hf). }
        apply ss_app. split; [done|]. split.
        + constructor; [done|]. apply Forall_forall. done.
        + intros x y Hx Hy. apply elem_of_cons in Hy as [->|Hy]; [by apply Hleft|].
          eapply lexlt_trans; [by apply Hleft|by apply Hmoved]. }
    rewrite E. simpl. clear E. destruct HQ as (l & -> & -> & Hl & Hp & Hss).
    replace (1 + (length os - 1)) with (length os) in * by lia.
    replace (S (length os - 1)) with (length os) in * by lia.
    rewrite drop_all, app_nil_r. rewrite take_ge in Hp by lia.
    destruct (push_runs_spec l g) as (bs & g' & E & Hcat & Hog & Hpu); [|done|done|by rewrite Hl|].
    { intros ->. simpl in Hl. lia. }
    rewrite E. simpl. exists bs, g'. rewrite Hcat. split; [done|]. split; [|done].
    by eapply og_permute.
  Qed.
End insertion.
