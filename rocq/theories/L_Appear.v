(** * Lemmas: ordering strings by appearance *)
From Verif Require Import Base M_Double M_Scalar M_Order M_OrderChr M_Appear Spec_Order Spec_Appear L_Dbl L_OrderSpec
  L_OrderSort L_OrderIns L_OrderScatter L_OrderRadix L_OrderCount L_OrderKeys L_OrderEntry L_OrderGroups L_OrderChr L_OrderTl.
From Coq Require Import Sorting.Sorted.
#[local] Arguments Z.mul : simpl never.
#[local] Arguments Z.add : simpl never.
#[local] Arguments Z.sub : simpl never.

(** ** First positions *)
Lemma first_pos_in x s : s ∈ x -> x !! first_pos x s = Some s.
Proof.
  induction x as [|y x IH]; intros H; [by apply elem_of_nil in H|]. simpl.
  destruct (decide (y = s)) as [->|E]; [by rewrite bool_decide_true|]. rewrite bool_decide_false by done.
  simpl. apply IH. by apply elem_of_cons in H as [->|?].
Qed.
Lemma first_pos_take x j s : s ∈ take j x -> first_pos x s < j.
Proof.
  revert j. induction x as [|y x IH]; intros [|j] H; simpl in H; try (by apply elem_of_nil in H). simpl.
  destruct (decide (y = s)) as [->|E]; [rewrite bool_decide_true by done; lia|]. rewrite bool_decide_false by done.
  apply elem_of_cons in H as [->|H]; [done|]. apply IH in H. lia.
Qed.
Lemma first_pos_new x j s : x !! j = Some s -> s ∉ take j x -> first_pos x s = j.
Proof.
  revert j. induction x as [|y x IH]; intros [|j] H Hn; simpl in *; try done.
  - injection H as ->. by rewrite bool_decide_true.
  - apply not_elem_of_cons in Hn as [Hn1 Hn2]. rewrite bool_decide_false by done. f_equal. by apply IH.
Qed.
Lemma first_pos_inj x s t : s ∈ x -> t ∈ x -> first_pos x s = first_pos x t -> s = t.
Proof. intros Hs Ht E. apply first_pos_in in Hs, Ht. congruence. Qed.

(** ** Saving *)
(** what is recorded after seeing the unique strings [U] *)
Record tl_kept (tls0 : truelengths) (U : list (list Z)) (i : tl_info) : Prop := TLKept {
  tk_nu : ti_n_uniques i = length U; tk_u : take (length U) (ti_uniques i) = U;
  tk_s : exists S, ti_n_strings i = length S /\ take (length S) (ti_strings i) = S /\
    take (length S) (ti_truelengths i) = map tls0 S /\
    (forall s, s ∈ S <-> s ∈ U /\ (0 < tls0 s)%Z) /\ length S <= length U;
  tk_z : ti_n_sizes i = 0; tk_m : ti_max_string_size i = 0 }.

Lemma save_kept_spec N tls0 U i elt : (Z.of_nat N <= INT_MAX)%Z -> tlwf N i -> tl_kept tls0 U i -> length U < N ->
  elt ∉ U -> (0 <= tls0 elt)%Z ->
  exists i',
    (let! i := if (0 <? tls0 elt)%Z then truelength_save_string elt (tls0 elt) i else Ok i in
     truelength_save_unique elt i) = Ok i' /\ tlwf N i' /\ tl_kept tls0 (U ++ [elt]) i'.
Proof.
  intros HN W Hseen HU Hnew Htl.
  assert (H1 : exists i1, (if (0 <? tls0 elt)%Z then truelength_save_string elt (tls0 elt) i else Ok i) = Ok i1 /\
    tlwf N i1 /\ ti_uniques i1 = ti_uniques i /\ ti_n_uniques i1 = ti_n_uniques i /\ ti_sizes i1 = ti_sizes i /\
    ti_sizes_aux i1 = ti_sizes_aux i /\ ti_n_sizes i1 = ti_n_sizes i /\ ti_max_string_size i1 = ti_max_string_size i /\
    exists S, ti_n_strings i1 = length S /\ take (length S) (ti_strings i1) = S /\
    take (length S) (ti_truelengths i1) = map tls0 S /\
    (forall s, s ∈ S <-> s ∈ U ++ [elt] /\ (0 < tls0 s)%Z) /\ length S <= length (U ++ [elt])).
  { destruct (tk_s _ _ _ Hseen) as (S & HnS & HS & HT & HSin & HSl).
    destruct (Z.ltb_spec 0 (tls0 elt)) as [Hpos|Hpos].
    - unfold truelength_save_string. destruct W as [Wm Ws Wt Wu Wz Wa].
      destruct (grow_wr [] elt (ti_strings i) (ti_n_strings i) N) as (l' & E & Ht & Hl & Hll); [lia..|].
      destruct (grow_wr 0%Z (tls0 elt) (ti_truelengths i) (ti_n_strings i) N) as (t' & E' & Ht' & Hl' & Hll'); [lia..|].
      rewrite Wm.
      assert (exists l0 t0, (if ti_n_strings i =? length (ti_strings i)
         then (resize (realloc_size (length (ti_strings i)) N) [] (ti_strings i),
               resize (realloc_size (length (ti_strings i)) N) 0%Z (ti_truelengths i))
         else (ti_strings i, ti_truelengths i)) = (l0, t0) /\ wr l0 (ti_n_strings i) elt = Ok l' /\
         wr t0 (ti_n_strings i) (tls0 elt) = Ok t') as (l0 & t0 & -> & E0 & E0').
      { rewrite Wt in E', Hll'. destruct (ti_n_strings i =? length (ti_strings i)); eauto. }
      rewrite E0. cbn [bind]. rewrite E0'. cbn [bind]. eexists. split; [reflexivity|]. cbn.
      split; [constructor; cbn; try done; try lia; rewrite ?Hll, ?Hll', ?Wt; done|].
      do 6 (split; [done|]). exists (S ++ [elt]). rewrite HnS in Ht, Ht' |- *.
      rewrite app_length, Nat.add_1_r. split; [done|]. split; [by rewrite Ht, HS|]. split; [by rewrite Ht', HT, map_app|].
      split; [|rewrite app_length; simpl; lia].
      intros s. rewrite !elem_of_app, HSin, !elem_of_list_singleton. split; [intros [[? ?]| ->]; auto|intros [[?|?] ?]; auto].
    - exists i. split; [done|]. split; [done|]. do 6 (split; [done|]). exists S. do 3 (split; [done|]).
      split; [|rewrite app_length; lia].
      intros s. rewrite elem_of_app, elem_of_list_singleton, HSin. split; [intros [? ?]; auto|].
      intros [[?| ->] ?]; [auto|lia]. }
  destruct H1 as (i1 & E1 & W1 & Hu & Hnu & Hz & Hza & Hnz & Hmx & HS). rewrite E1. cbn [bind]. clear E1.
  unfold truelength_save_unique. destruct W1 as [Wm Ws Wt Wu Wz Wa]. rewrite Wm.
  destruct Hseen as [K1 K2 _ K4 K5].
  destruct (grow_wr [] elt (ti_uniques i1) (ti_n_uniques i1) N) as (l' & E & Ht & Hl & Hll); [lia..|].
  rewrite E. cbn [bind]. clear E. eexists. split; [reflexivity|].
  split; [constructor; cbn; try done; lia|].
  rewrite Hnu, K1, Hu in Ht.
  constructor; cbn; rewrite ?app_length, ?Nat.add_1_r; simpl length; rewrite ?Nat.add_1_r; try congruence.
  destruct HS as (S & ? & ? & ? & ? & HSl). exists S. rewrite app_length, Nat.add_1_r in HSl. done.
Qed.

(** ** Resetting *)
Lemma reset_kept_spec N tls0 U tls i : tlwf N i -> tl_kept tls0 U i -> (forall s, s ∈ U -> (0 <= tls0 s)%Z) ->
  (forall s, s ∉ U -> tls s = tls0 s) ->
  exists tls' i', truelength_reset tls i = Ok (tls', i') /\ tlwf N i' /\ tl_clean i' /\ forall s, tls' s = tls0 s.
Proof.
  intros W [Hnu Hu (Sv & HnS & HS & HT & HSin & HSl) _ _] Htl Hout. unfold truelength_reset.
  destruct W as [Wm Ws Wt Wu Wz Wa].
  match goal with |- context[for_ 0 (ti_n_uniques i) ?body tls] =>
    destruct (for_inv (fun j (t : truelengths) => (forall k s, k < j -> U !! k = Some s -> t s = 0%Z) /\ (forall s, s ∉ U -> t s = tls0 s))
      0 (ti_n_uniques i) body tls) as (t1 & E & Hz & Ho) end.
  { split; [lia|done]. }
  { intros j t Hj [Hr Ho]. destruct (lookup_lt_is_Some_2 U j) as [s Hs]; [lia|].
    rewrite (proj2 (rd_Ok _ _ s)) by (rewrite <- Hu in Hs; by apply lookup_take_Some in Hs as [? _]).
    cbn [bind]. eexists. split; [reflexivity|]. split.
    - intros k s' Hk Hs'. destruct (decide (s' = s)) as [->|Hne]; [by rewrite set_tl_eq|].
      rewrite set_tl_ne by done. apply (Hr k); [|done]. destruct (decide (k = j)) as [->|?]; [congruence|lia].
    - intros s' Hs'. rewrite set_tl_ne; [by apply Ho|]. intros ->. apply Hs'. by eapply elem_of_list_lookup_2. }
  rewrite E. cbn [bind]. clear E.
  assert (H1 : forall s, t1 s = if bool_decide (s ∈ U) then 0%Z else tls0 s).
  { intros s. destruct (decide (s ∈ U)) as [Hs|Hs].
    - rewrite bool_decide_true by done. apply elem_of_list_lookup in Hs as (k & Hk).
      apply (Hz k); [|done]. apply lookup_lt_Some in Hk. lia.
    - rewrite bool_decide_false by done. by apply Ho. }
  match goal with |- context[for_ 0 (ti_n_strings i) ?body t1] =>
    destruct (for_inv (fun j (t : truelengths) => (forall k s, k < j -> Sv !! k = Some s -> t s = tls0 s) /\
        (forall s, s ∉ Sv -> t s = t1 s))
      0 (ti_n_strings i) body t1) as (t2 & E & Hz2 & Ho2) end.
  { split; [lia|done]. }
  { intros j t Hj [Hr Ho']. destruct (lookup_lt_is_Some_2 Sv j) as [s Hs]; [lia|].
    rewrite (proj2 (rd_Ok _ _ s)) by (rewrite <- HS in Hs; by apply lookup_take_Some in Hs as [? _]). cbn [bind].
    assert (Ht : ti_truelengths i !! j = Some (tls0 s)).
    { assert (take (length Sv) (ti_truelengths i) !! j = Some (tls0 s)) as HH.
      { rewrite HT, list_lookup_fmap, Hs. done. }
      by apply lookup_take_Some in HH as [? _]. }
    rewrite (proj2 (rd_Ok _ _ _) Ht). cbn [bind].
    eexists. split; [reflexivity|]. split.
    - intros k s' Hk Hs'. destruct (decide (s' = s)) as [->|Hne]; [by rewrite set_tl_eq|].
      rewrite set_tl_ne by done. apply (Hr k); [|done]. destruct (decide (k = j)) as [->|?]; [congruence|lia].
    - intros s' Hs'. rewrite set_tl_ne; [by apply Ho'|]. intros ->. apply Hs'. by eapply elem_of_list_lookup_2. }
  rewrite E. cbn [bind]. eexists _, _. split; [reflexivity|]. split; [constructor; cbn; try done; lia|]. split; [done|].
  intros s. destruct (decide (s ∈ Sv)) as [Hs|Hs].
  - apply elem_of_list_lookup in Hs as (k & Hk). apply (Hz2 k); [|done]. apply lookup_lt_Some in Hk. lia.
  - rewrite Ho2 by done. rewrite H1. case_bool_decide as Hb; [|done].
    specialize (Htl s Hb). destruct (decide (0 < tls0 s)%Z) as [?|?]; [|lia]. exfalso. apply Hs, HSin. done.
Qed.

Section appear.
  Context (p_x : list (list Z)).
  Let n := length p_x.
  Let os := locs n.
  Let f (a : Z) : list Z := at_loc [] p_x a.
  Let key (s : list Z) : Z := Z.of_nat (first_pos p_x s).
  Let beta (a : Z) : Z := key (f a).

  Lemma os_lookup j : j < n -> os !! j = Some (Z.of_nat j + 1)%Z.
  Proof. apply locs_lookup. Qed.
  Lemma f_loc j s : p_x !! j = Some s -> f (Z.of_nat j + 1) = s.
  Proof.
    intros H. unfold f, at_loc. replace (Z.to_nat (Z.of_nat j + 1 - 1)) with j by lia. by apply nth_lookup_Some.
  Qed.
  Lemma f_in a : a ∈ os -> f a ∈ p_x.
  Proof.
    intros H. apply elem_of_list_lookup in H as (j & Hj). pose proof (lookup_lt_Some _ _ _ Hj) as Hl.
    unfold os in Hl. rewrite locs_length in Hl. rewrite os_lookup in Hj by done. injection Hj as <-.
    destruct (lookup_lt_is_Some_2 p_x j Hl) as [s Hs]. rewrite (f_loc j s Hs). by eapply elem_of_list_lookup_2.
  Qed.
  Lemma key_inj s t : s ∈ p_x -> t ∈ p_x -> key s = key t -> s = t.
  Proof. intros Hs Ht E. apply (first_pos_inj p_x); [done|done|]. unfold key in E. lia. Qed.

  Lemma cnt_step j s t : p_x !! j = Some s -> t ∈ p_x ->
    bcnt beta (key t) (take (S j) os) = bcnt beta (key t) (take j os) + (if decide (t = s) then 1 else 0).
  Proof.
    intros Hs Ht. rewrite (take_S_r _ _ (Z.of_nat j + 1)%Z) by (apply os_lookup; by apply lookup_lt_Some in Hs).
    rewrite bcnt_snoc. f_equal. unfold beta. rewrite (f_loc j s Hs).
    destruct (decide (t = s)) as [->|E]; [by rewrite decide_True|]. rewrite decide_False; [done|].
    intros HE. apply E, key_inj; [done| |done]. by eapply elem_of_list_lookup_2.
  Qed.

  Lemma count_spec N tls0 i : (Z.of_nat N <= INT_MAX)%Z -> n <= N -> tlwf N i -> tl_clean i ->
    (forall s, s ∈ p_x -> (0 <= tls0 s)%Z) ->
    exists U tls i', chr_appearance_count p_x tls0 i = Ok (tls, i') /\ tlwf N i' /\ tl_kept tls0 U i' /\
      StronglySorted (fun s t => first_pos p_x s < first_pos p_x t) U /\ (forall s, s ∈ U <-> s ∈ p_x) /\ length U <= n /\
      (forall s, tls s = if bool_decide (s ∈ U) then (- Z.of_nat (bcnt beta (key s) os))%Z else tls0 s).
  Proof.
    intros HN Hlen W (C1 & C2 & C3 & C4) Htl. unfold chr_appearance_count.
    match goal with |- exists U tls i', for_ 0 _ ?body ?st = _ /\ _ =>
      destruct (for_inv
        (fun j '(tls, i') => exists U, tlwf N i' /\ tl_kept tls0 U i' /\
           StronglySorted (fun s t => first_pos p_x s < first_pos p_x t) U /\ (forall s, s ∈ U <-> s ∈ take j p_x) /\
           length U <= j /\
           (forall s, tls s = if bool_decide (s ∈ U) then (- Z.of_nat (bcnt beta (key s) (take j os)))%Z else tls0 s))
        0 (length p_x) body st) as ([tls i'] & E & U & HU) end.
    - exists []. split; [done|]. split.
      { constructor; simpl; try done. exists []. rewrite C1. simpl. do 3 (split; [done|]). split; [|lia].
        intros s. rewrite !elem_of_nil. tauto. }
      split; [constructor|]. split; [intros s; by rewrite take_0, !elem_of_nil|]. split; [simpl; lia|].
      intros s. rewrite bool_decide_false; [done|]. apply not_elem_of_nil.
    - intros j [tls i'] Hj (U & W' & Hseen & Hnd & HU & Hl & Htls).
      destruct (lookup_lt_is_Some_2 p_x j) as [elt Helt]; [lia|].
      rewrite (proj2 (rd_Ok _ _ _) Helt). cbn [bind].
      assert (Hpx : elt ∈ p_x) by (by eapply elem_of_list_lookup_2).
      assert (HUin : forall s, s ∈ U -> s ∈ p_x).
      { intros s Hs. apply HU in Hs. apply elem_of_list_lookup in Hs as (k & Hk). apply lookup_take_Some in Hk as [Hk _].
        by eapply elem_of_list_lookup_2. }
      rewrite (Htls elt). destruct (decide (elt ∈ U)) as [Hin|Hin].
      * rewrite bool_decide_true by done.
        assert (Hpos : 0 < bcnt beta (key elt) (take j os)).
        { apply HU in Hin. apply elem_of_list_lookup in Hin as (k & Hk). apply lookup_take_Some in Hk as [Hk Hkj].
          pose proof (bcnt_pos beta (Z.of_nat k + 1)%Z (take j os)) as HH. assert (Eb : beta (Z.of_nat k + 1) = key elt) by (unfold beta; by rewrite (f_loc k elt Hk)).
          rewrite Eb in HH.
          apply HH. eapply elem_of_list_lookup_2 with k. rewrite lookup_take by done. apply os_lookup. unfold n. lia. }
        destruct (Z.ltb_spec (- Z.of_nat (bcnt beta (key elt) (take j os))) 0); [|lia].
        eexists. split; [reflexivity|]. exists U. do 3 (split; [done|]). split; [|split; [lia|]].
        { intros s. rewrite (take_S_r _ _ _ Helt), elem_of_app, <- HU.
          rewrite elem_of_list_singleton. split; [auto|]. intros [?|[= ->]]; done. }
        intros s. destruct (decide (s = elt)) as [->|Hne].
        { rewrite set_tl_eq, bool_decide_true by done. rewrite (cnt_step j elt elt Helt Hpx), decide_True by done. lia. }
        rewrite set_tl_ne by done. rewrite Htls. case_bool_decide as Hs; [|done].
        rewrite (cnt_step j elt s Helt (HUin s Hs)), decide_False by done. f_equal. lia.
      * rewrite bool_decide_false by done.
        assert (H0 : (0 <= tls0 elt)%Z) by (by apply Htl).
        destruct (Z.ltb_spec (tls0 elt) 0); [lia|].
        destruct (save_kept_spec N tls0 U i' elt HN W' Hseen ltac:(lia) Hin H0) as (i2 & E & W2 & Hs2).
        revert E. destruct (if (0 <? tls0 elt)%Z then _ else _) as [i1| |]; cbn [bind]; [|done|done].
        intros ->. cbn [bind].
        eexists. split; [reflexivity|]. exists (U ++ [elt]). do 2 (split; [done|]).
        assert (Hnt : elt ∉ take j p_x) by (by rewrite <- HU).
        split.
        { apply ss_app. split; [done|]. split; [repeat constructor|]. intros s t Hs Ht.
          apply elem_of_list_singleton in Ht as ->. rewrite (first_pos_new p_x j elt Helt Hnt).
          apply HU in Hs. by apply first_pos_take in Hs. }
        split. { intros s. rewrite (take_S_r _ _ _ Helt), !elem_of_app, <- HU, !elem_of_list_singleton. done. }
        split; [rewrite app_length; simpl; lia|].
        intros s. destruct (decide (s = elt)) as [->|Hne].
        { rewrite set_tl_eq, bool_decide_true by (apply elem_of_app; right; by left).
          rewrite (cnt_step j elt elt Helt Hpx), decide_True by done.
          assert (bcnt beta (key elt) (take j os) = 0) as ->; [|done].
          destruct (bkt beta (key elt) (take j os)) as [|a k] eqn:Eb; [unfold bcnt; by rewrite Eb|]. exfalso.
          assert (Ha : a ∈ bkt beta (key elt) (take j os)) by (rewrite Eb; by left).
          apply bkt_elem in Ha as [Hb Ha]. apply elem_of_list_lookup in Ha as (k' & Hk'). apply lookup_take_Some in Hk' as [Hk' Hlt].
          rewrite os_lookup in Hk' by (unfold n; lia). injection Hk' as <-.
          destruct (lookup_lt_is_Some_2 p_x k') as [s' Hs']; [lia|].
          unfold beta in Hb. rewrite (f_loc k' s' Hs') in Hb.
          apply key_inj in Hb; [|by eapply elem_of_list_lookup_2|done]. subst s'. apply Hnt.
          eapply elem_of_list_lookup_2 with k'. by rewrite lookup_take. }
        rewrite set_tl_ne by done. rewrite Htls.
        assert (Hiff : s ∈ U ++ [elt] <-> s ∈ U) by (rewrite elem_of_app, elem_of_list_singleton; tauto).
        rewrite (bool_decide_ext _ _ Hiff). case_bool_decide as Hs; [|done].
        rewrite (cnt_step j elt s Helt (HUin s Hs)), decide_False by done. f_equal. lia.
    - cbn [Nat.add] in HU. exists U, tls, i'. split; [exact E|].
      rewrite !take_ge in HU by (unfold os; rewrite ?locs_length; done). tauto.
  Qed.

  Section uniques.
  Context (U : list (list Z)).
  Hypothesis HS : StronglySorted (fun s t => first_pos p_x s < first_pos p_x t) U.
  Hypothesis HU : forall s, s ∈ U <-> s ∈ p_x.
  Let us := map key U.
  Let st := start beta os us.

  Lemma U_NoDup : NoDup U.
  Proof using HS.
    clear HU. induction HS as [|s U' S IH F]; [constructor|]. apply NoDup_cons. split; [|auto].
    intros Hin. rewrite Forall_forall in F. specialize (F s Hin). lia.
  Qed.
  Lemma us_NoDup : NoDup us.
  Proof using HS.
    clear HU. unfold us. clear us st. induction HS as [|s U' S IH F]; [constructor|]. simpl. apply NoDup_cons. split; [|auto].
    intros Hin. apply elem_of_list_fmap in Hin as (t & Et & Ht). rewrite Forall_forall in F. specialize (F t Ht).
    unfold key in Et. lia.
  Qed.
  Lemma beta_us a : a ∈ os -> beta a ∈ us.
  Proof using HU. intros Ha. unfold us, beta. apply elem_of_list_fmap_1. apply HU. by apply f_in. Qed.
  Lemma cnt_pos s : s ∈ U -> 0 < bcnt beta (key s) os.
  Proof using HU.
    intros Hs. apply HU in Hs. apply elem_of_list_lookup in Hs as (k & Hk).
    pose proof (bcnt_pos beta (Z.of_nat k + 1)%Z os) as HH.
    assert (Eb : beta (Z.of_nat k + 1) = key s) by (unfold beta; by rewrite (f_loc k s Hk)). rewrite Eb in HH.
    apply HH. apply elem_of_list_lookup_2 with k. apply os_lookup. by apply lookup_lt_Some in Hk.
  Qed.
  Lemma nebs_U : nebs beta os us = map (fun s => bkt beta (key s) os) U.
  Proof using HU.
    assert (H : forall V, (forall s, s ∈ V -> 0 < bcnt beta (key s) os) ->
      nebs beta os (map key V) = map (fun s => bkt beta (key s) os) V).
    { induction V as [|s V IH]; intros HV; [done|]. cbn [map]. change (key s :: map key V) with ([key s] ++ map key V).
      rewrite nebs_app, nebs_single, IH by (intros t Ht; apply HV; by right).
      specialize (HV s ltac:(by left)). destruct (Nat.eqb_spec (bcnt beta (key s) os) 0); [lia|done]. }
    apply H. intros s Hs. by apply cnt_pos.
  Qed.
  Lemma og_appear : og (appear_cmp p_x) os (nebs beta os us).
  Proof using HS HU.
    apply og_buckets.
    - apply locs_inc.
    - apply us_NoDup.
    - apply beta_us.
    - unfold us. assert (H : forall V, StronglySorted (fun s t => first_pos p_x s < first_pos p_x t) V ->
        StronglySorted (fun u v => forall a b, a ∈ os -> b ∈ os -> beta a = u -> beta b = v -> appear_cmp p_x a b = Lt) (map key V)).
      { induction 1 as [|s V S IH F]; simpl; constructor; [done|]. apply Forall_forall. intros v Hv a b Ha Hb E1 E2.
        apply elem_of_list_fmap in Hv as (t & -> & Ht). rewrite Forall_forall in F. specialize (F t Ht).
        unfold appear_cmp. apply Nat.compare_lt_iff. unfold beta, key, f in E1, E2. lia. }
      by apply H.
    - intros a b Ha Hb E. unfold appear_cmp. apply Nat.compare_eq_iff. unfold beta, key, f in E. lia.
  Qed.
  Lemma U_length : length U <= n.
  Proof using HS HU.
    pose proof (og_nblocks _ _ _ og_appear) as H. rewrite nebs_U, map_length in H. unfold os in H. by rewrite locs_length in H.
  Qed.

  Lemma starts_spec N tls0 tls i g : tlwf N i -> tl_kept tls0 U i -> gwf g -> room g n ->
    (forall s, tls s = if bool_decide (s ∈ U) then (- Z.of_nat (bcnt beta (key s) os))%Z else tls0 s) ->
    exists tls' g' c, chr_appearance_starts i tls g = Ok (tls', g', c) /\
      pushed g (map (fun s => bcnt beta (key s) os) U) g' /\
      (forall s, s ∈ U -> tls' s = Z.of_nat (st (key s))) /\ (forall s, s ∉ U -> tls' s = tls0 s).
  Proof using HS HU.
    intros W [Hnu Hu _ _ _] Hg Hr Htls. unfold chr_appearance_starts. pose proof U_length as HUn.
    match goal with |- exists a b c, for_ 0 _ ?body ?s0 = _ /\ _ =>
      destruct (for_inv
        (fun j '(t, g', c) => pushed g (map (fun s => bcnt beta (key s) os) (take j U)) g' /\
           c = Z.of_nat (length (concat (map (fun v => bkt beta v os) (take j us)))) /\
           (forall k s, U !! k = Some s -> t s = if k <? j then Z.of_nat (st (key s)) else (- Z.of_nat (bcnt beta (key s) os))%Z) /\
           (forall s, s ∉ U -> t s = tls0 s))
        0 (ti_n_uniques i) body s0) as ([[t g'] c] & E & Hp & Hc & Ht & Ho) end.
    - split; [by apply pushed_refl|]. split; [done|]. split.
      + intros k s Hk. rewrite Htls, bool_decide_true by (by eapply elem_of_list_lookup_2). done.
      + intros s Hs. rewrite Htls, bool_decide_false by done. done.
    - intros j [[t g'] c] Hj (Hp & Hc & Ht & Ho). destruct (lookup_lt_is_Some_2 U j) as [s Hs]; [lia|].
      rewrite (proj2 (rd_Ok _ _ s)) by (rewrite <- Hu in Hs; by apply lookup_take_Some in Hs as [? _]). cbn [bind].
      rewrite (Ht j s Hs), Nat.ltb_irrefl. rewrite Z.opp_involutive, Nat2Z.id.
      pose proof (cnt_pos s ltac:(by eapply elem_of_list_lookup_2)) as Hpos.
      destruct (maybe_push_spec (bcnt beta (key s) os) g') as (g2 & E2 & Hp2); [by destruct Hp|done| |].
      { eapply pushed_room; [exact Hp|]. rewrite map_length, take_length. eapply room_le; [|exact Hr]. lia. }
      rewrite E2. cbn [bind]. eexists. split; [reflexivity|].
      assert (Hus : us !! j = Some (key s)) by (unfold us; rewrite list_lookup_fmap, Hs; done).
      split; [|split; [|split]].
      + rewrite (take_S_r _ _ _ Hs), map_app. eapply pushed_trans; [exact Hp|exact Hp2].
      + rewrite (take_S_r _ _ _ Hus), map_app, concat_app, app_length. cbn [map concat]. rewrite app_nil_r.
        unfold bcnt. lia.
      + intros k s' Hk. destruct (decide (s' = s)) as [->|Hne].
        * rewrite set_tl_eq. pose proof (NoDup_lookup _ _ _ _ U_NoDup Hk Hs) as ->.
          destruct (Nat.ltb_spec j (S j)); [|lia]. rewrite Hc. f_equal. symmetry. apply start_take; [apply us_NoDup|done].
        * rewrite set_tl_ne by done. rewrite (Ht k s' Hk).
          assert (k <> j) by (intros ->; congruence).
          destruct (Nat.ltb_spec k j), (Nat.ltb_spec k (S j)); try lia; done.
      + intros s' Hs'. rewrite set_tl_ne; [by apply Ho|]. intros ->. apply Hs'. by eapply elem_of_list_lookup_2.
    - cbn [Nat.add] in Hp, Hc, Ht. rewrite Hnu in Hp. rewrite take_ge in Hp by done.
      exists t, g', c. split; [exact E|]. split; [exact Hp|]. split; [|exact Ho].
      intros s Hs. apply elem_of_list_lookup in Hs as (k & Hk). rewrite (Ht k s Hk).
      apply lookup_lt_Some in Hk. destruct (Nat.ltb_spec k (ti_n_uniques i)); [done|lia].
  Qed.

  Lemma place_spec tls0 tls (h : Z -> Z) value dst :
    (forall j, j < n -> value j = Ok (h (Z.of_nat j + 1)%Z)) -> n <= length dst ->
    (forall s, s ∈ U -> tls s = Z.of_nat (st (key s))) -> (forall s, s ∉ U -> tls s = tls0 s) ->
    exists dst' tls', chr_appearance_place p_x value dst tls = Ok (dst', tls') /\ length dst' = length dst /\
      take n dst' = map h (concat (nebs beta os us)) /\ (forall s, s ∉ U -> tls' s = tls0 s).
  Proof using HS HU.
    intros Hv Hd Ht Ho. unfold chr_appearance_place.
    assert (Hol : length os = n) by (unfold os; apply locs_length).
    match goal with |- exists a b, for_ 0 _ ?body ?s0 = _ /\ _ =>
      destruct (for_inv
        (fun j '(d, t) => length d = length dst /\ placed beta h st (take j os) d /\
           (forall s, s ∈ U -> t s = Z.of_nat (st (key s) + bcnt beta (key s) (take j os))) /\
           (forall s, s ∉ U -> t s = tls0 s))
        0 (length p_x) body s0) as ([d t] & E & Hl & Hp & _ & Ho') end.
    - split; [done|]. split; [rewrite take_0; apply placed_nil|]. split; [|done].
      intros s Hs. rewrite (Ht s Hs). rewrite take_0. unfold bcnt, bkt. rewrite filter_nil. cbn [length]. lia.
    - intros j [d t] Hj (Hl & Hp & Htj & Hoj). destruct (lookup_lt_is_Some_2 p_x j) as [s Hs]; [lia|].
      rewrite (proj2 (rd_Ok _ _ _) Hs). cbn [bind].
      assert (Hpx : s ∈ p_x) by (by eapply elem_of_list_lookup_2).
      assert (HsU : s ∈ U) by (by apply HU).
      rewrite Hv by (unfold n; lia). cbn [bind]. rewrite (Htj s HsU), wrZ_nat.
      set (a := (Z.of_nat j + 1)%Z) in *.
      assert (Ha : os !! j = Some a) by (apply os_lookup; unfold n; lia).
      assert (Eb : beta a = key s) by (unfold beta, a; by rewrite (f_loc j s Hs)).
      assert (Hb : st (key s) + bcnt beta (key s) (take j os) < length d).
      { pose proof (start_bound beta os us a us_NoDup beta_us ltac:(by eapply elem_of_list_lookup_2)) as HB.
        rewrite Eb in HB. fold st in HB.
        assert (bcnt beta (key s) (take (S j) os) <= bcnt beta (key s) os).
        { unfold bcnt, bkt. pose proof (take_drop (S j) os) as Htd. rewrite <- Htd at 2. rewrite filter_app, app_length. lia. }
        rewrite (cnt_step j s s Hs Hpx), decide_True in H by done. lia. }
      rewrite wr_Ok by done. cbn [bind]. eexists. split; [reflexivity|].
      split; [by rewrite insert_length|]. split; [|split].
      + rewrite <- Eb. apply placed_step; [|done|by rewrite Eb|done].
        apply start_sep; [apply us_NoDup|apply beta_us].
      + intros s' Hs'. destruct (decide (s' = s)) as [->|Hne].
        * rewrite set_tl_eq, (cnt_step j s s Hs Hpx), decide_True by done. lia.
        * rewrite set_tl_ne by done. rewrite (Htj s' Hs'), (cnt_step j s s' Hs), decide_False by (try done; by apply HU).
          f_equal. lia.
      + intros s' Hs'. rewrite set_tl_ne; [by apply Hoj|]. by intros ->.
    - cbn [Nat.add] in Hp. exists d, t. split; [exact E|]. split; [done|]. split; [|done].
      rewrite take_ge in Hp by (rewrite Hol; done). rewrite concat_nebs, <- Hol.
      apply (placed_final beta h st); [|done|].
      + apply start_layout, us_NoDup.
      + apply Permutation_length, buckets_perm; [apply us_NoDup|apply beta_us].
  Qed.
  End uniques.

  (** ** The whole function *)
  Lemma appearance_spec N tls0 i g initialized p_o aux :
    (Z.of_nat N <= INT_MAX)%Z -> n <= N -> tlwf N i -> tl_clean i -> gwf g -> room g n ->
    (forall s, s ∈ p_x -> (0 <= tls0 s)%Z) -> length p_o = n -> (initialized = true -> n <= length aux) ->
    exists bs aux' g' tls i',
      chr_appearance_counting p_x initialized p_o aux g tls0 i =
        Ok (if initialized then map (at_loc 0%Z p_o) (concat bs) else concat bs, aux', g', tls, i') /\
      og (appear_cmp p_x) os bs /\ pushed g (map length bs) g' /\ tlwf N i' /\ tl_clean i' /\ (forall s, tls s = tls0 s).
  Proof.
    intros HN Hn W C Hg Hr Htl Hpo Haux. unfold chr_appearance_counting.
    destruct (count_spec N tls0 i HN Hn W C Htl) as (U & tls1 & i1 & E1 & W1 & K1 & HS & HU & HUn & Ht1).
    rewrite E1. cbn [bind].
    destruct (starts_spec U HS HU N tls0 tls1 i1 g W1 K1 Hg Hr Ht1) as (tls2 & g2 & c & E2 & Hp2 & Ht2 & Ho2).
    rewrite E2. cbn [bind]. clear E1 E2.
    set (bs := nebs beta os (map key U)).
    assert (Hlen : map length bs = map (fun s => bcnt beta (key s) os) U).
    { unfold bs. rewrite (nebs_U U HU), map_map. done. }
    assert (Hog : og (appear_cmp p_x) os bs) by (by apply og_appear).
    destruct initialized.
    - destruct (place_spec U HS HU tls0 tls2 (at_loc 0%Z p_o) (fun i => rd p_o i) aux) as (d & tls3 & E3 & Hl3 & Hd3 & Ho3); [|by apply Haux|done|done|].
      { intros j Hj. apply rd_Ok. destruct (lookup_lt_is_Some_2 p_o j) as [v Hv]; [lia|]. rewrite Hv. f_equal.
        unfold at_loc. replace (Z.to_nat (Z.of_nat j + 1 - 1)) with j by lia. symmetry. by apply nth_lookup_Some. }
      rewrite E3. cbn [bind].
      destruct (reset_kept_spec N tls0 U tls3 i1 W1 K1) as (tls4 & i4 & E4 & W4 & C4 & Ht4); [|done|].
      { intros s Hs. apply Htl. by apply HU. }
      rewrite E4. cbn [bind]. eexists bs, _, g2, tls4, i4. split; [|rewrite Hlen; done].
      change (length p_x) with n. rewrite Hd3, drop_ge, app_nil_r by lia. reflexivity.
    - destruct (place_spec U HS HU tls0 tls2 (fun a => a) (fun i => Ok (Z.of_nat i + 1)%Z) p_o) as (d & tls3 & E3 & Hl3 & Hd3 & Ho3); [done|lia|done|done|].
      rewrite E3. cbn [bind].
      destruct (reset_kept_spec N tls0 U tls3 i1 W1 K1) as (tls4 & i4 & E4 & W4 & C4 & Ht4); [|done|].
      { intros s Hs. apply Htl. by apply HU. }
      rewrite E4. cbn [bind]. eexists bs, _, g2, tls4, i4. split; [|rewrite Hlen; done].
      rewrite take_ge, map_id in Hd3 by lia. by rewrite Hd3.
  Qed.
End appear.
