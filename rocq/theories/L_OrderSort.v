(** * Lemmas: group tracking, sortedness detection, reversal and insertion *)
From Verif Require Import Base M_Double M_Scalar M_Order Spec_Order L_OrderSpec.
From Coq Require Import Sorting.Sorted.

(** ** Group tracking *)
Definition gi_sizes (i : group_info) : list nat := take (gi_n_groups i) (gi_data i).
Definition gsizes (g : group_infos) : list nat := gi_sizes (groups_current g).
Definition groups_other (g : group_infos) : group_info :=
  if g_current g then g_info0 g else g_info1 g.

Definition gi_wf (m : nat) (i : group_info) : Prop :=
  gi_n_groups i <= length (gi_data i) <= m.
Definition gwf (g : group_infos) : Prop :=
  gi_wf (g_max_data_size g) (g_info0 g) /\ gi_wf (g_max_data_size g) (g_info1 g) /\
  (Z.of_nat (g_max_data_size g) <= INT_MAX)%Z.

Definition room (g : group_infos) (n : nat) : Prop :=
  g_ignore_groups g = false -> length (gsizes g) + n <= g_max_data_size g.

(** [g'] is [g] after pushing the sizes [ls] *)
Record pushed (g : group_infos) (ls : list nat) (g' : group_infos) : Prop := Pushed {
  pu_ignore : g_ignore_groups g' = g_ignore_groups g;
  pu_force : g_force_groups g' = g_force_groups g;
  pu_max : g_max_data_size g' = g_max_data_size g;
  pu_current : g_current g' = g_current g;
  pu_other : groups_other g' = groups_other g;
  pu_wf : gwf g';
  pu_sizes : gsizes g' = if g_ignore_groups g then gsizes g else gsizes g ++ ls }.

Lemma pushed_refl g : gwf g -> pushed g [] g.
Proof. intros H. split; try done. rewrite app_nil_r. by destruct (g_ignore_groups g). Qed.

Lemma pushed_trans g ls g' ls' g'' : pushed g ls g' -> pushed g' ls' g'' -> pushed g (ls ++ ls') g''.
Proof.
  intros [] []. split; try congruence.
  rewrite pu_sizes1, pu_ignore0, pu_sizes0. destruct (g_ignore_groups g); [done|]. by rewrite app_assoc.
Qed.

Lemma pushed_room g ls g' n : pushed g ls g' -> room g (length ls + n) -> room g' n.
Proof.
  intros [] R H. unfold room in R. rewrite pu_ignore0 in H. specialize (R H).
  rewrite pu_sizes0, H, pu_max0, app_length. lia.
Qed.

Lemma room_le g n m : m <= n -> room g n -> room g m.
Proof. intros H R E. specialize (R E). lia. Qed.

Lemma gsizes_length g : gwf g -> length (gsizes g) = gi_n_groups (groups_current g).
Proof.
  intros (H0 & H1 & _). unfold gsizes, gi_sizes, groups_current. rewrite take_length.
  unfold gi_wf in *. destruct (g_current g); lia.
Qed.

Lemma groups_set_current_current g i : groups_current (groups_set_current g i) = i.
Proof. unfold groups_set_current, groups_current. by destruct g as [? ? ? [|] ? ?]. Qed.

Lemma push_spec size g : gwf g -> 0 < size -> g_ignore_groups g = false ->
  length (gsizes g) + 1 <= g_max_data_size g ->
  exists g', groups_size_push size g = Ok g' /\ pushed g [size] g'.
Proof.
  intros W Hs Hi Hr. rewrite (gsizes_length g W) in Hr.
  pose proof W as (W0 & W1 & Wm).
  unfold groups_size_push. rewrite (proj2 (Nat.eqb_neq size 0)) by lia.
  set (i := groups_current g) in *.
  assert (Wi : gi_wf (g_max_data_size g) i) by (subst i; unfold groups_current; by destruct (g_current g)).
  set (i' := if _ =? _ then _ else i).
  assert (Hi' : gi_n_groups i' = gi_n_groups i /\ gi_n_groups i < length (gi_data i') /\
                length (gi_data i') <= g_max_data_size g /\
                take (gi_n_groups i) (gi_data i') = gi_sizes i).
  { subst i'. destruct Wi as [Wa Wb]. destruct (Nat.eqb_spec (length (gi_data i)) (gi_n_groups i)) as [E|E].
    - set (sz := Z.to_nat _).
      assert (gi_n_groups i < sz /\ sz <= g_max_data_size g) as [Hz1 Hz2].
      { subst sz. unfold groups_realloc_size, GROUP_DATA_SIZE_DEFAULT, u64, two64, INT_MAX in *.
        destruct (Z.eqb_spec (Z.of_nat (length (gi_data i))) 0) as [E0|E0].
        - destruct (Z.ltb_spec (Z.of_nat (g_max_data_size g)) 100000); lia.
        - rewrite Z.mod_small by lia.
          destruct (Z.ltb_spec (Z.of_nat (g_max_data_size g)) (Z.of_nat (length (gi_data i)) * 2)); lia. }
      unfold group_realloc. cbn [gi_n_groups gi_data]. rewrite resize_length.
      split; [done|]. split; [lia|]. split; [lia|].
      unfold gi_sizes. rewrite resize_ge by lia. rewrite take_app_le by lia. done.
    - split; [done|]. split; [lia|]. split; [lia|]. done. }
  destruct Hi' as (Hn & Hlt & Hle & Htk). clearbody i'.
  rewrite Hn, wr_Ok by done. simpl.
  set (inew := GI _ _ _).
  eexists. split; [reflexivity|].
  assert (Wn : gi_wf (g_max_data_size g) inew).
  { subst inew. unfold gi_wf. simpl. rewrite insert_length. lia. }
  assert (Hsz : gi_sizes inew = gi_sizes i ++ [size]).
  { subst inew. unfold gi_sizes at 1. cbn [gi_n_groups gi_data].
    erewrite take_S_r by (apply list_lookup_insert; done).
    by rewrite take_insert by lia; rewrite Htk. }
  unfold groups_set_current. subst i. split.
  1-4: by destruct (g_current g).
  - unfold groups_other. by destruct (g_current g) eqn:E; simpl; rewrite ?E.
  - unfold gwf. destruct (g_current g) eqn:E; simpl; auto.
  - rewrite Hi. unfold gsizes, groups_current in *. by destruct (g_current g) eqn:E; simpl; rewrite ?E.
Qed.

Lemma maybe_push_spec size g : gwf g -> 0 < size -> room g 1 ->
  exists g', groups_size_maybe_push size g = Ok g' /\ pushed g [size] g'.
Proof.
  intros W Hs R. unfold groups_size_maybe_push. destruct (g_ignore_groups g) eqn:E.
  - exists g. split; [done|]. split; try done. by rewrite E.
  - apply push_spec; try done. by apply R.
Qed.

(** Setting back the number of groups. *)
Lemma rollback_spec g ls g' m : gwf g -> pushed g ls g' ->
  pushed g [] (groups_set_current g' (GI (gi_data (groups_current g')) (gi_n_groups (groups_current g)) m)).
Proof.
  intros W [H1 H2 H3 H4 H5 H6 H7].
  set (n := gi_n_groups (groups_current g)).
  assert (Hn : n = length (gsizes g)) by (subst n; by rewrite gsizes_length).
  assert (Hle : n <= length (gsizes g')).
  { rewrite H7. destruct (g_ignore_groups g); [lia|]. rewrite app_length. lia. }
  assert (Htk : take n (gi_data (groups_current g')) = gsizes g).
  { transitivity (take n (gsizes g')).
    - unfold gsizes, gi_sizes. rewrite take_take. f_equal. rewrite gsizes_length in Hle by done. lia.
    - rewrite H7, Hn. destruct (g_ignore_groups g); [by rewrite take_ge|]. by rewrite take_app. }
  assert (Wn : gi_wf (g_max_data_size g') (GI (gi_data (groups_current g')) n m)).
  { unfold gi_wf. simpl. rewrite gsizes_length in Hle by done. destruct H6 as (W0 & W1 & _).
    unfold gi_wf, groups_current in *. destruct (g_current g'); lia. }
  unfold groups_set_current. split.
  1-4: by destruct (g_current g').
  - unfold groups_other in *. by destruct (g_current g') eqn:E; simpl; rewrite ?E.
  - destruct H6 as (W0 & W1 & W2). unfold gwf. destruct (g_current g') eqn:E; simpl; auto.
  - rewrite app_nil_r. transitivity (gsizes g); [|by destruct (g_ignore_groups g)].
    rewrite <- Htk. unfold gsizes at 1, groups_current at 1.
    destruct (g_current g') eqn:E; simpl; rewrite ?E; by unfold gi_sizes; simpl.
Qed.

Lemma push_ones_spec n g : gwf g -> room g n ->
  exists g', for_ 0 n (fun _ g => groups_size_maybe_push 1 g) g = Ok g' /\ pushed g (replicate n 1) g'.
Proof.
  intros W R.
  destruct (for_inv (fun i g' => pushed g (replicate i 1) g') 0 n
              (fun _ g => groups_size_maybe_push 1 g) g) as (g' & E & H).
  - by apply pushed_refl.
  - intros i s Hi H. destruct (maybe_push_spec 1 s) as (s' & E & H'); [apply H|lia| |].
    + eapply pushed_room; [exact H|]. rewrite replicate_length. eapply room_le; [|exact R]. lia.
    + exists s'. split; [done|]. replace (S i) with (i + 1) by lia.
      rewrite replicate_add. by eapply pushed_trans.
  - exists g'. done.
Qed.

Lemma groups_swap_spec g : gwf g -> g_ignore_groups g = false ->
  let g' := groups_swap g in
  gwf g' /\ g_ignore_groups g' = false /\ g_force_groups g' = g_force_groups g /\
  g_max_data_size g' = g_max_data_size g /\ gsizes g' = [] /\
  g_current g' = negb (g_current g) /\ groups_other g' = groups_current g.
Proof.
  intros (W0 & W1 & Wm) Hi. cbv zeta. unfold groups_swap. rewrite Hi.
  destruct g as [i0 i1 m cur f ig]. simpl in *. subst ig.
  destruct cur; unfold groups_current, groups_set_current, groups_other; simpl.
  - destruct (Nat.ltb_spec (length (gi_data i0)) (length (gi_data i1))); simpl;
      (split; [|done]); split; [|done|..]; unfold gi_wf in *; simpl; rewrite ?resize_length; try lia;
      split; simpl; auto; lia.
  - destruct (Nat.ltb_spec (length (gi_data i1)) (length (gi_data i0))); simpl;
      (split; [|done]); split; [done|..]; split; auto; unfold gi_wf in *; simpl; rewrite ?resize_length; lia.
Qed.

(** ** Sortedness *)
Lemma ss_lt_take_drop (os : list Z) i a x :
  StronglySorted Z.lt os -> os !! i = Some a -> x ∈ take i os -> (x < a)%Z.
Proof.
  intros S Ha Hx. apply elem_of_list_lookup in Hx as (j & Hj).
  apply lookup_take_Some in Hj as [Hj Hlt]. by eapply ss_lookup.
Qed.

Lemma rd_fmap {A B} (f : A -> B) l i a : l !! i = Some a -> rd (map f l) i = Ok (f a).
Proof. intros H. apply rd_Ok. rewrite list_lookup_fmap, H. done. Qed.

Section sortedness.
  Context {A : Type} (ecmp : A -> A -> Z) (f : Z -> A) (cmp : Z -> Z -> comparison).
  Hypothesis T : tpo cmp.

  (** [bs ++ [cur]]: groups of the locations seen so far *)
  Lemma og_last_block os bs cur y : og cmp os (bs ++ [cur]) -> y ∈ cur -> y ∈ os.
  Proof.
    intros H Hy. rewrite <- (og_perm _ _ _ H), concat_app. simpl. rewrite app_nil_r.
    apply elem_of_app. by right.
  Qed.

  Lemma sortedness_spec os g :
    (forall a b, a ∈ os -> b ∈ os ->
       match cmp a b with Lt => (ecmp (f a) (f b) < 0)%Z | Eq => ecmp (f a) (f b) = 0%Z
                     | Gt => (0 < ecmp (f a) (f b))%Z end) ->
    StronglySorted Z.lt os -> gwf g -> room g (length os) ->
    exists s g', check_sortedness ecmp (map f os) g = Ok (s, g') /\
      match s with
      | IsSorted => exists bs, concat bs = os /\ og cmp os bs /\ pushed g (map length bs) g'
      | IsReversed => og cmp os (map (fun x => [x]) (rev os)) /\ pushed g (replicate (length os) 1) g'
      | IsUnsorted => pushed g [] g'
      end.
  Proof.
    intros Hc Hs W R. unfold check_sortedness. rewrite map_length.
    destruct (Nat.eqb_spec (length os) 0) as [E0|E0].
    { exists IsSorted, g. split; [done|]. exists []. apply nil_length_inv in E0 as ->. split; [done|].
      split; [apply og_nil|by apply pushed_refl]. }
    destruct (Nat.eqb_spec (length os) 1) as [E1|E1].
    { destruct os as [|a [|b os]]; simpl in *; try lia.
      destruct (maybe_push_spec 1 g W) as (g' & E & Hp); [lia|done|]. rewrite E. simpl.
      exists IsSorted, g'. split; [done|]. exists [[a]]. split; [done|]. split; [|done].
      apply og_single; [done|done|]. intros x y Hx Hy.
      apply elem_of_list_singleton in Hx as ->. apply elem_of_list_singleton in Hy as ->. by apply tp_refl. }
    destruct (lookup_lt_is_Some_2 os 0) as [o0 H0]; [lia|].
    assert (Ht1 : take 1 os = [o0]) by (by rewrite (take_S_r _ _ o0)).
    rewrite (rd_fmap f os 0 o0 H0). simpl bind.
    match goal with |- exists s g', bind (for_brk 1 _ ?body ?st) _ = _ /\ _ =>
      destruct (for_brk_inv
        (fun i '(previous, count) => exists p, os !! (i - 1) = Some p /\ previous = f p /\ count = i - 1 /\ 1 <= i /\
            StronglySorted (fun a b => cmp b a = Lt) (take i os))
        (fun '(previous, count) => 
            (count = length os - 1 /\ StronglySorted (fun a b => cmp b a = Lt) os) \/
            (count < length os - 1 /\ (count = 0 -> previous = f o0)))
        1 (length os - 1) body st) as ([prev count] & E & HQ) end.
    { exists o0. split; [done|]. split; [done|]. split; [done|]. split; [done|]. rewrite Ht1. apply ss_single. }
    { intros i [prev count] Hi (p & Hp & -> & -> & _ & Hss).
      destruct (lookup_lt_is_Some_2 os i) as [a Ha]; [lia|].
      rewrite (rd_fmap f os i a Ha). simpl.
      assert (Hain : a ∈ os) by (by eapply elem_of_list_lookup_2).
      assert (Hpin : p ∈ os) by (by eapply elem_of_list_lookup_2).
      pose proof (Hc a p Hain Hpin) as Hcc.
      destruct (Z.leb_spec 0 (ecmp (f a) (f p))) as [Hle|Hgt].
      - right. eexists. split; [reflexivity|]. right. split; [lia|]. intros Hz.
        replace (i - 1) with 0 in Hp by lia. rewrite H0 in Hp. congruence.
      - left. eexists. split; [reflexivity|].
        exists a. change (S i - 1) with (i - 0); rewrite ?Nat.sub_0_r. split; [done|]. split; [done|]. split; [lia|]. split; [lia|].
        rewrite (take_S_r _ _ a) by done. apply ss_app. split; [done|]. split; [apply ss_single|].
        intros x y Hx Hy. apply elem_of_list_singleton in Hy as ->.
        assert (Hap : cmp a p = Lt) by (destruct (cmp a p); [lia|done|lia]).
        apply elem_of_list_lookup in Hx as (j & Hj). apply lookup_take_Some in Hj as [Hj Hlt].
        destruct (decide (j = i - 1)) as [->|Hne].
        + rewrite Hp in Hj. by injection Hj as <-.
        + eapply tp_lt; [done|exact Hap|].
          eapply (ss_lookup _ _ j (i - 1) _ _ Hss); [lia| |].
          * by rewrite lookup_take by lia.
          * by rewrite lookup_take by lia. }
    { intros [prev count] (p & Hp & -> & -> & _ & Hss). left. split; [lia|].
      rewrite take_ge in Hss by lia. done. }
    rewrite E. simpl. clear E.
    destruct (Nat.eqb_spec count (length os - 1)) as [Ec|Ec].
    { destruct HQ as [[_ Hss]|[Hlt _]]; [|lia].
      destruct (push_ones_spec (length os) g W R) as (g' & E & Hp).
      rewrite E. simpl. exists IsReversed, g'. split; [done|]. split; [|done].
      by apply og_reversed. }
    destruct HQ as [[Hx _]|[Hlt Hp0]]; [lia|].
    destruct (Nat.eqb_spec count 0) as [Ec0|Ec0]; simpl negb; cbv iota.
    2: { exists IsUnsorted, g. split; [done|]. by apply pushed_refl. }
    rewrite (Hp0 Ec0). clear prev Hp0.
    match goal with |- exists s g', bind (for_brk 1 _ ?body ?st) _ = _ /\ _ =>
      destruct (for_brk_inv
        (fun i '(unsorted, previous, group_size, g') => exists p bs cur,
            unsorted = false /\ os !! (i - 1) = Some p /\ previous = f p /\ group_size = length cur /\
            p ∈ cur /\ og cmp (take i os) (bs ++ [cur]) /\ concat (bs ++ [cur]) = take i os /\
            pushed g (map length bs) g')
        (fun '(unsorted, previous, group_size, g') =>
           if unsorted : bool then pushed g [] g' else
           exists bs cur, group_size = length cur /\
            og cmp os (bs ++ [cur]) /\ concat (bs ++ [cur]) = os /\
            pushed g (map length bs) g')
        1 (length os - 1) body st) as ([[[uns prev] gs] g'] & E & HQ) end.
    { exists o0, [], [o0]. split; [done|]. split; [done|]. split; [done|]. split; [done|].
      split; [by left|]. split; [|split; [by rewrite Ht1|by apply pushed_refl]].
      rewrite Ht1. apply og_single; [done|apply ss_single|]. intros x y Hx Hy.
      apply elem_of_list_singleton in Hx as ->. apply elem_of_list_singleton in Hy as ->. by apply tp_refl. }
    { intros i [[[uns prev] gs] g'] Hi (p & bs & cur & -> & Hp & -> & -> & Hpc & Hog & Hcat & Hpu).
      destruct (lookup_lt_is_Some_2 os i) as [a Ha]; [lia|].
      rewrite (rd_fmap f os i a Ha). simpl bind.
      assert (Hain : a ∈ os) by (by eapply elem_of_list_lookup_2).
      assert (Hpin : p ∈ os) by (by eapply elem_of_list_lookup_2).
      pose proof (Hc a p Hain Hpin) as Hcc.
      assert (Hcur : forall x, x ∈ cur -> (x < a)%Z).
      { intros x Hx. eapply ss_lt_take_drop; [exact Hs|exact Ha|]. by eapply og_last_block. }
      destruct (Z.ltb_spec (ecmp (f a) (f p)) 0) as [Hlt0|Hge].
      { right. eexists. split; [reflexivity|]. simpl. by eapply rollback_spec. }
      left. destruct (Z.eqb_spec (ecmp (f a) (f p)) 0) as [Hz|Hz].
      - eexists. split; [reflexivity|]. cbn beta iota.
        exists a, bs, (cur ++ [a]). change (S i - 1) with (i - 0); rewrite ?Nat.sub_0_r.
        split; [done|]. split; [done|]. split; [done|]. split; [rewrite app_length; simpl; lia|].
        split; [apply elem_of_app; right; by left|].
        rewrite (take_S_r _ _ a) by done.
        split; [|split; [|done]].
        + eapply og_snoc_eq; [done|exact Hog|exact Hpc| |done].
          apply tp_eq_sym; [done|]. destruct (cmp a p); [done|lia|lia].
        + rewrite <- Hcat, !concat_app. simpl. rewrite !app_nil_r. by rewrite app_assoc.
      - destruct (maybe_push_spec (length cur) g') as (g'' & E & Hp''); [apply Hpu| | |].
        + destruct cur; [by apply elem_of_nil in Hpc|simpl; lia].
        + eapply pushed_room; [exact Hpu|]. rewrite map_length.
          eapply room_le; [|exact R].
          pose proof (og_nblocks _ _ _ Hog) as Hn. rewrite app_length, take_length in Hn. simpl in Hn. lia.
        + rewrite E. simpl. eexists. split; [reflexivity|]. cbn beta iota.
          exists a, (bs ++ [cur]), [a]. change (S i - 1) with (i - 0); rewrite ?Nat.sub_0_r.
          split; [done|]. split; [done|]. split; [done|]. split; [done|]. split; [by left|].
          rewrite (take_S_r _ _ a) by done.
          split; [|split].
          * eapply og_snoc_lt; [done|exact Hog|exact Hpc|].
            apply tp_gt_lt; [done|]. destruct (cmp a p); [lia|lia|done].
          * rewrite concat_app, Hcat. done.
          * rewrite map_app. by eapply pushed_trans. }
    { intros [[[uns prev] gs] g'] (p & bs & cur & -> & Hp & -> & -> & Hpc & Hog & Hcat & Hpu).
      rewrite take_ge in Hog, Hcat by lia. exists bs, cur. done. }
    rewrite E. simpl. clear E. destruct uns.
    { exists IsUnsorted, g'. done. }
    destruct HQ as (bs & cur & -> & Hog & Hcat & Hpu).
    destruct (maybe_push_spec (length cur) g') as (g'' & E & Hp''); [apply Hpu| | |].
    + destruct cur; [|simpl; lia]. pose proof (og_ne _ _ _ Hog) as Hne.
      apply Forall_app in Hne as [_ Hne]. by apply Forall_cons in Hne as [Hne _].
    + eapply pushed_room; [exact Hpu|]. rewrite map_length.
      eapply room_le; [|exact R].
      pose proof (og_nblocks _ _ _ Hog) as Hn. rewrite app_length in Hn. simpl in Hn. lia.
    + rewrite E. simpl. exists IsSorted, g''. split; [done|]. exists (bs ++ [cur]). split; [done|].
      split; [done|]. rewrite map_app. by eapply pushed_trans.
  Qed.
End sortedness.
