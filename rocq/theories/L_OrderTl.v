(** * Lemmas: marking strings with their rank, and ordering strings by it *)
From Verif Require Import Base M_Double M_Scalar M_Order M_OrderChr Spec_Order L_Dbl L_OrderSpec L_OrderSort
  L_OrderIns L_OrderScatter L_OrderRadix L_OrderCount L_OrderKeys L_OrderEntry L_OrderGroups L_OrderChr.
From Coq Require Import Sorting.Sorted.
#[local] Arguments Z.mul : simpl never.
#[local] Arguments Z.add : simpl never.
#[local] Arguments Z.sub : simpl never.

Lemma realloc_size_spec n n_max : n < n_max -> (Z.of_nat n_max <= INT_MAX)%Z -> n < realloc_size n n_max <= n_max.
Proof.
  intros H Hm. unfold realloc_size, truelength_realloc_size, TRUELENGTH_SIZE_ALLOC_DEFAULT.
  destruct (Z.eqb_spec (Z.of_nat n) 0) as [E|E].
  - destruct (Z.ltb_spec 10000 (Z.of_nat n_max)); lia.
  - unfold u64. rewrite Z.mod_small by (unfold INT_MAX, two64 in *; lia).
    destruct (Z.ltb_spec (Z.of_nat n_max) (Z.of_nat n * 2)); lia.
Qed.

(** pushing onto an array that grows up to [n_max] *)
Lemma grow_wr {A} (d v : A) l n n_max : n <= length l <= n_max -> n < n_max -> (Z.of_nat n_max <= INT_MAX)%Z ->
  exists l', wr (if n =? length l then resize (realloc_size (length l) n_max) d l else l) n v = Ok l' /\
    take (S n) l' = take n l ++ [v] /\ n < length l' <= n_max /\
    length l' = (if n =? length l then realloc_size (length l) n_max else length l).
Proof.
  intros Hl Hn Hm. destruct (Nat.eqb_spec n (length l)) as [E|E].
  - pose proof (realloc_size_spec (length l) n_max ltac:(lia) Hm) as Hr.
    rewrite wr_Ok by (rewrite resize_length; lia). eexists. split; [reflexivity|].
    rewrite insert_length, resize_length. split; [|lia].
    rewrite (take_S_r _ _ v) by (apply list_lookup_insert; rewrite resize_length; lia).
    rewrite take_insert by lia. f_equal. rewrite take_resize_le by lia. rewrite resize_le by lia. done.
  - rewrite wr_Ok by lia. eexists. split; [reflexivity|]. rewrite insert_length. split; [|lia].
    rewrite (take_S_r _ _ v) by (apply list_lookup_insert; lia). by rewrite take_insert by lia.
Qed.

(** the truelength information: [U] the unique strings seen, [S] those whose
    truelength was saved *)
Record tlwf (N : nat) (i : tl_info) : Prop := TLwf {
  tw_max : ti_n_max i = N;
  tw_strings : ti_n_strings i <= length (ti_strings i) <= N;
  tw_tls : length (ti_truelengths i) = length (ti_strings i);
  tw_uniques : ti_n_uniques i <= length (ti_uniques i) <= N;
  tw_sizes : ti_n_sizes i <= length (ti_sizes i) <= N;
  tw_aux : length (ti_sizes_aux i) = length (ti_sizes i) }.
Definition tl_clean (i : tl_info) : Prop :=
  ti_n_strings i = 0 /\ ti_n_uniques i = 0 /\ ti_n_sizes i = 0 /\ ti_max_string_size i = 0.

Lemma new_truelength_wf N : tlwf N (new_truelength_info N) /\ tl_clean (new_truelength_info N).
Proof. split; [|done]. constructor; simpl; lia. Qed.

(** what is recorded after seeing the unique strings [U] *)
Record tl_seen (tls0 : truelengths) (U : list (list Z)) (i : tl_info) : Prop := TLSeen {
  tse_nu : ti_n_uniques i = length U; tse_u : take (length U) (ti_uniques i) = U;
  tse_nz : ti_n_sizes i = length U; tse_z : take (length U) (ti_sizes i) = map length U;
  tse_max : Forall (fun s => length s <= ti_max_string_size i) U;
  tse_s : exists S, ti_n_strings i = length S /\ take (length S) (ti_strings i) = S /\
    take (length S) (ti_truelengths i) = map tls0 S /\
    (forall s, s ∈ S <-> s ∈ U /\ (0 < tls0 s)%Z) /\ length S <= length U }.

Lemma set_tl_eq tls s v : set_truelength tls s v s = v.
Proof. unfold set_truelength. by rewrite bool_decide_true. Qed.
Lemma set_tl_ne tls s v s' : s' <> s -> set_truelength tls s v s' = tls s'.
Proof. intros H. unfold set_truelength. by rewrite bool_decide_false. Qed.

Lemma save_all_spec N tls0 U i elt : (Z.of_nat N <= INT_MAX)%Z -> tlwf N i -> tl_seen tls0 U i -> length U < N ->
  elt ∉ U -> (0 <= tls0 elt)%Z ->
  exists i',
    (let! i := if (0 <? tls0 elt)%Z then truelength_save_string elt (tls0 elt) i else Ok i in
     let i := if ti_max_string_size i <? length elt
              then TLI (ti_strings i) (ti_truelengths i) (ti_n_strings i) (ti_uniques i) (ti_n_uniques i)
                     (ti_sizes i) (ti_sizes_aux i) (ti_n_sizes i) (length elt) (ti_n_max i)
              else i in
     let! i := truelength_save_unique elt i in
     truelength_save_size (length elt) i) = Ok i' /\ tlwf N i' /\ tl_seen tls0 (U ++ [elt]) i'.
Proof.
  intros HN W Hseen HU Hnew Htl.
  assert (H1 : exists i1, (if (0 <? tls0 elt)%Z then truelength_save_string elt (tls0 elt) i else Ok i) = Ok i1 /\
    tlwf N i1 /\ ti_uniques i1 = ti_uniques i /\ ti_n_uniques i1 = ti_n_uniques i /\ ti_sizes i1 = ti_sizes i /\
    ti_sizes_aux i1 = ti_sizes_aux i /\ ti_n_sizes i1 = ti_n_sizes i /\ ti_max_string_size i1 = ti_max_string_size i /\
    exists S, ti_n_strings i1 = length S /\ take (length S) (ti_strings i1) = S /\
    take (length S) (ti_truelengths i1) = map tls0 S /\
    (forall s, s ∈ S <-> s ∈ U ++ [elt] /\ (0 < tls0 s)%Z) /\ length S <= length (U ++ [elt])).
  { destruct (tse_s _ _ _ Hseen) as (S & HnS & HS & HT & HSin & HSl).
    destruct (Z.ltb_spec 0 (tls0 elt)) as [Hpos|Hpos].
    - unfold truelength_save_string. destruct W as [Wm Ws Wt Wu Wz Wa].
      destruct (grow_wr [] elt (ti_strings i) (ti_n_strings i) N) as (l' & E & Ht & Hl & Hll); [lia..|].
      destruct (grow_wr 0%Z (tls0 elt) (ti_truelengths i) (ti_n_strings i) N) as (t' & E' & Ht' & Hl' & Hll'); [lia..|].
      rewrite Wm.
      assert (exists l0 t0, (if ti_n_strings i =? length (ti_strings i)
         then (resize (realloc_size (length (ti_strings i)) N) [] (ti_strings i),
               resize (realloc_size (length (ti_strings i)) N) 0%Z (ti_truelengths i))
         else (ti_strings i, ti_truelengths i)) = (l0, t0) /\ wr l0 (ti_n_strings i) elt = Ok l' /\
         wr t0 (ti_n_strings i) (tls0 elt) = Ok t') as (l0 & t0 & -> & E0 & E0').
      { rewrite Wt in E', Hll'. destruct (ti_n_strings i =? length (ti_strings i)); eauto. }
      rewrite E0. cbn [bind]. rewrite E0'. cbn [bind]. eexists. split; [reflexivity|]. cbn.
      split; [constructor; cbn; try done; try lia; rewrite ?Hll, ?Hll', ?Wt; done|].
      do 6 (split; [done|]). exists (S ++ [elt]). rewrite HnS in Ht, Ht' |- *.
      rewrite app_length, Nat.add_1_r. split; [done|]. split; [by rewrite Ht, HS|]. split; [by rewrite Ht', HT, map_app|].
      split; [|rewrite app_length; simpl; lia].
      intros s. rewrite !elem_of_app, HSin, !elem_of_list_singleton. split; [intros [[? ?]| ->]; auto|intros [[?|?] ?]; auto].
    - exists i. split; [done|]. split; [done|]. do 6 (split; [done|]). exists S. do 3 (split; [done|]).
      split; [|rewrite app_length; lia].
      intros s. rewrite elem_of_app, elem_of_list_singleton, HSin. split; [intros [? ?]; auto|].
      intros [[?| ->] ?]; [auto|lia]. }
  destruct H1 as (i1 & E1 & W1 & Hu & Hnu & Hz & Hza & Hnz & Hmx & HS). rewrite E1. cbn [bind]. clear E1.
  set (i2 := if ti_max_string_size i1 <? length elt then _ else i1).
  assert (H2 : tlwf N i2 /\ ti_strings i2 = ti_strings i1 /\ ti_truelengths i2 = ti_truelengths i1 /\
    ti_n_strings i2 = ti_n_strings i1 /\ ti_uniques i2 = ti_uniques i /\ ti_n_uniques i2 = ti_n_uniques i /\
    ti_sizes i2 = ti_sizes i /\ ti_n_sizes i2 = ti_n_sizes i /\
    length elt <= ti_max_string_size i2 /\ ti_max_string_size i <= ti_max_string_size i2).
  { unfold i2. destruct (Nat.ltb_spec (ti_max_string_size i1) (length elt)); cbn.
    - destruct W1. split; [by constructor|]. intuition lia.
    - intuition lia. }
  clearbody i2. destruct H2 as (W2 & Hs2 & Ht2 & Hns2 & Hu2 & Hnu2 & Hz2 & Hnz2 & Hm1 & Hm2).
  unfold truelength_save_unique. destruct W2 as [Wm Ws Wt Wu Wz Wa]. rewrite Wm.
  pose proof (tse_nu _ _ _ Hseen). pose proof (tse_nz _ _ _ Hseen).
  destruct (grow_wr [] elt (ti_uniques i2) (ti_n_uniques i2) N) as (l' & E & Ht & Hl & Hll); [lia..|].
  rewrite E. cbn [bind]. clear E. unfold truelength_save_size. cbn [ti_n_sizes ti_sizes ti_sizes_aux ti_n_max].
  destruct (grow_wr 0 (length elt) (ti_sizes i2) (ti_n_sizes i2) N) as (z' & E & Hzt & Hzl & Hzll); [lia..|].
  assert (exists z0 a0, (if ti_n_sizes i2 =? length (ti_sizes i2)
      then (resize (realloc_size (length (ti_sizes i2)) N) 0 (ti_sizes i2),
            resize (realloc_size (length (ti_sizes i2)) N) 0 (ti_sizes_aux i2))
      else (ti_sizes i2, ti_sizes_aux i2)) = (z0, a0) /\ wr z0 (ti_n_sizes i2) (length elt) = Ok z' /\
      length a0 = length z') as (z0 & a0 & -> & E0 & Ha0).
  { rewrite Hzll. destruct (ti_n_sizes i2 =? length (ti_sizes i2)); eauto.
    eexists _, _. split; [reflexivity|]. split; [done|]. by rewrite resize_length. }
  rewrite E0. cbn [bind]. eexists. split; [reflexivity|].
  split; [constructor; cbn; try done; lia|].
  rewrite Hnu2, H in Ht. rewrite Hnz2, H0 in Hzt. rewrite Hu2 in Ht. rewrite Hz2 in Hzt.
  constructor; cbn; rewrite ?app_length, ?Nat.add_1_r; simpl length; rewrite ?Nat.add_1_r.
  - congruence.
  - by rewrite Ht, (tse_u _ _ _ Hseen).
  - congruence.
  - rewrite Hzt, (tse_z _ _ _ Hseen). by rewrite map_app.
  - apply Forall_app. split; [|by repeat constructor]. eapply Forall_impl; [exact (tse_max _ _ _ Hseen)|]. cbn. intros; lia.
  - destruct HS as (S & ? & ? & ? & ? & HSl). exists S. rewrite Hs2, Ht2, Hns2.
    rewrite app_length, Nat.add_1_r in HSl. done.
Qed.

(** ** Marking *)
Definition tls_ok (tls : truelengths) (p_x : list rstr) : Prop := forall s, Some s ∈ p_x -> (0 <= tls s)%Z.

Lemma chr_mark_uniques_spec N p_x tls0 i : (Z.of_nat N <= INT_MAX)%Z -> length p_x <= N -> tlwf N i -> tl_clean i ->
  tls_ok tls0 p_x ->
  exists U tls i', chr_mark_uniques p_x tls0 i = Ok (tls, i') /\ tlwf N i' /\ tl_seen tls0 U i' /\
    NoDup U /\ (forall s, s ∈ U <-> Some s ∈ p_x) /\ length U <= length p_x /\
    (forall s, tls s = if bool_decide (s ∈ U) then (-1)%Z else tls0 s).
Proof.
  intros HN Hlen W (C1 & C2 & C3 & C4) Htl. unfold chr_mark_uniques.
  match goal with |- exists U tls i', for_ 0 _ ?body ?st = _ /\ _ =>
    destruct (for_inv
      (fun j '(tls, i') => exists U, tlwf N i' /\ tl_seen tls0 U i' /\ NoDup U /\ (forall s, s ∈ U <-> Some s ∈ take j p_x) /\
         length U <= j /\ (forall s, tls s = if bool_decide (s ∈ U) then (-1)%Z else tls0 s))
      0 (length p_x) body st) as ([tls i'] & E & U & HU) end.
  - exists []. split; [done|]. split.
    { constructor; simpl; try done. exists []. rewrite C1. simpl. do 3 (split; [done|]). split; [|lia].
      intros s. rewrite !elem_of_nil. tauto. }
    split; [constructor|]. split; [intros s; by rewrite take_0, !elem_of_nil|]. split; [simpl; lia|].
    intros s. rewrite bool_decide_false; [done|]. apply not_elem_of_nil.
  - intros j [tls i'] Hj (U & W' & Hseen & Hnd & HU & Hl & Htls).
    destruct (lookup_lt_is_Some_2 p_x j) as [elt Helt]; [lia|].
    rewrite (proj2 (rd_Ok _ _ _) Helt). cbn [bind]. destruct elt as [elt|].
    + rewrite (Htls elt). destruct (decide (elt ∈ U)) as [Hin|Hin].
      * rewrite bool_decide_true by done. cbn [Z.ltb Z.compare]. eexists. split; [reflexivity|]. exists U.
        do 3 (split; [done|]). split; [|split; [lia|done]]. intros s. rewrite (take_S_r _ _ _ Helt), elem_of_app, <- HU.
        rewrite elem_of_list_singleton. split; [auto|]. intros [?|[= ->]]; done.
      * rewrite bool_decide_false by done.
        assert (H0 : (0 <= tls0 elt)%Z) by (apply Htl; by eapply elem_of_list_lookup_2).
        destruct (Z.ltb_spec (tls0 elt) 0); [lia|].
        destruct (save_all_spec N tls0 U i' elt HN W' Hseen ltac:(lia) Hin H0) as (i2 & E & W2 & Hs2).
        revert E. destruct (if (0 <? tls0 elt)%Z then _ else _) as [i1| |]; cbn [bind]; [|done|done].
        destruct (truelength_save_unique _ _) as [i3| |]; cbn [bind]; [|done|done]. intros ->. cbn [bind].
        eexists. split; [reflexivity|]. exists (U ++ [elt]). do 2 (split; [done|]). split.
        { apply NoDup_app. split; [done|]. split; [|apply NoDup_singleton]. intros s Hs Hs'.
          apply elem_of_list_singleton in Hs' as ->. done. }
        split. { intros s. rewrite (take_S_r _ _ _ Helt), !elem_of_app, <- HU, !elem_of_list_singleton.
          split; (intros [?|?]; [auto|right; congruence]). }
        split; [rewrite app_length; simpl; lia|].
        intros s. destruct (decide (s = elt)) as [->|Hne].
        { rewrite set_tl_eq, bool_decide_true; [done|]. apply elem_of_app. right. by left. }
        rewrite set_tl_ne by done. rewrite Htls. apply (f_equal (fun b : bool => if b then (-1)%Z else tls0 s)).
        apply bool_decide_ext. rewrite elem_of_app, elem_of_list_singleton. tauto.
    + eexists. split; [reflexivity|]. exists U. do 3 (split; [done|]). split; [|split; [lia|done]].
      intros s. rewrite (take_S_r _ _ _ Helt), elem_of_app, <- HU, elem_of_list_singleton. split; [auto|]. by intros [?|?].
  - exists U, tls, i'. split; [exact E|]. rewrite Nat.add_0_l in HU. rewrite take_ge in HU by done. tauto.
Qed.

(** after sorting the uniques into [S], each has its rank as truelength *)
Record tl_marked (tls0 : truelengths) (p_x : list rstr) (S : list (list Z)) (tls : truelengths) (i : tl_info) : Prop := TLM {
  tm_seen : tl_seen tls0 S i;
  tm_sorted : StronglySorted str_lt S;
  tm_in : forall s, s ∈ S <-> Some s ∈ p_x;
  tm_rank : forall j s, S !! j = Some s -> tls s = (- Z.of_nat j - 1)%Z;
  tm_out : forall s, s ∉ S -> tls s = tls0 s;
  tm_len : length S <= length p_x }.

Lemma ss_lt_NoDup S : StronglySorted str_lt S -> NoDup S.
Proof.
  induction 1 as [|s S HS IH Hs]; [constructor|]. apply NoDup_cons. split; [|done]. intros Hin.
  rewrite Forall_forall in Hs. by apply (str_lt_irrefl s), Hs.
Qed.

Lemma take_app_len {A} (l1 l2 : list A) : take (length l1) (l1 ++ l2) = l1.
Proof. by rewrite take_app. Qed.

Lemma chr_mark_sorted_uniques_spec N np p_x w tls0 i : (Z.of_nat N <= INT_MAX)%Z -> length p_x <= N -> tlwf N i -> tl_clean i ->
  tls_ok tls0 p_x -> Forall (fun x => forall s, x = Some s -> str_wf s) p_x -> wok N np w ->
  exists S tls i' w', chr_mark_sorted_uniques p_x w tls0 i = Ok (tls, i', w') /\ tlwf N i' /\
    tl_marked tls0 p_x S tls i' /\ wok N np w'.
Proof.
  intros HN Hlen W HC Htl Hwf Hw. unfold chr_mark_sorted_uniques.
  destruct (chr_mark_uniques_spec N p_x tls0 i HN Hlen W HC Htl) as (U & tls & i1 & E & W1 & Hseen & Hnd & HU & HUl & Htls).
  rewrite E. cbn [bind]. clear E. destruct Hseen as [Hnu Hu Hnz Hz Hmx Hsav]. destruct W1 as [Wm Ws Wt Wu Wz Wa].
  destruct (Nat.ltb_spec (length (ti_uniques i1)) (ti_n_uniques i1)); [lia|].
  destruct (Nat.ltb_spec (length (ti_sizes i1)) (ti_n_uniques i1)); [lia|]. cbn [orb].
  rewrite Hnu, Hu, Hz. destruct Hw as ((Hm1 & Hm2 & Hm3) & Hw2).
  destruct (chr_order_radix_spec (ti_max_string_size i1) U
    (CMem (replicate (length p_x) []) (ti_sizes_aux i1) (rm_bytes (w_radix w)))) as (S & mem & E & Hp & Hss & Hs1 & Hs2 & Hs3).
  { done. }
  { apply Forall_forall. intros s Hs. apply HU in Hs. rewrite Forall_forall in Hwf. by eapply Hwf. }
  { done. }
  { split; [cbn; rewrite replicate_length; lia|]. split; cbn; lia. }
  rewrite E. cbn [bind]. clear E. cbn in Hs1, Hs2, Hs3.
  pose proof (Permutation_length Hp) as HpL. rewrite <- HpL.
  match goal with |- context[for_ 0 (length S) ?body tls] =>
    destruct (for_inv
      (fun j (t : truelengths) => (forall k s, k < j -> S !! k = Some s -> t s = (- Z.of_nat k - 1)%Z) /\ (forall s, s ∉ S -> t s = tls0 s))
      0 (length S) body tls) as (tls' & E & Hr & Ho) end.
  { split; [lia|]. intros s Hs. rewrite Htls, bool_decide_false; [done|]. by rewrite <- Hp. }
  { intros j t Hj [Hr Ho]. destruct (lookup_lt_is_Some_2 S j) as [s Hs]; [lia|].
    rewrite (proj2 (rd_Ok _ _ s)) by (by apply lookup_app_l_Some). cbn [bind]. eexists. split; [reflexivity|].
    pose proof (ss_lt_NoDup _ Hss) as HSnd. split.
    - intros k s' Hk Hs'. destruct (decide (s' = s)) as [->|Hne].
      + rewrite set_tl_eq. by rewrite (NoDup_lookup _ _ _ _ HSnd Hs Hs').
      + rewrite set_tl_ne by done. apply Hr; [|done]. destruct (decide (k = j)) as [->|?]; [congruence|lia].
    - intros s' Hs'. rewrite set_tl_ne; [by apply Ho|]. intros ->. apply Hs'. by eapply elem_of_list_lookup_2. }
  rewrite E. cbn [bind]. eexists S, tls', _, _. split; [reflexivity|].
  assert (Hdu : length (S ++ drop (length S) (ti_uniques i1)) = length (ti_uniques i1)).
  { rewrite app_length, drop_length. lia. }
  assert (Hdz : length (map length S ++ drop (length S) (ti_sizes i1)) = length (ti_sizes i1)).
  { rewrite app_length, drop_length, map_length. lia. }
  split; [|split].
  - constructor; cbn; try done; rewrite ?Hdu, ?Hdz; try done; lia.
  - constructor; try done; [|intros s; by rewrite Hp|intros j s Hs; eapply Hr; [|done]; apply lookup_lt_Some in Hs; lia|lia].
    constructor; cbn.
    + lia.
    + apply take_app_len.
    + lia.
    + rewrite <- (map_length length S) at 1. apply take_app_len.
    + rewrite Hp. done.
    + destruct Hsav as (Sv & ? & ? & ? & HSv & ?). exists Sv. do 3 (split; [done|]). split; [|lia].
      intros s. by rewrite Hp.
  - split; [|done]. split; [done|]. split; [done|]. cbn. lia.
Qed.

Lemma truelength_reset_spec N tls0 p_x S tls i : tlwf N i -> tls_ok tls0 p_x -> tl_marked tls0 p_x S tls i ->
  exists tls' i', truelength_reset tls i = Ok (tls', i') /\ tlwf N i' /\ tl_clean i' /\ forall s, tls' s = tls0 s.
Proof.
  intros W Htl [[Hnu Hu _ _ _ (Sv & HnS & HS & HT & HSin & HSl)] Hss Hin Hrank Hout Hlen]. unfold truelength_reset.
  destruct W as [Wm Ws Wt Wu Wz Wa].
  match goal with |- context[for_ 0 (ti_n_uniques i) ?body tls] =>
    destruct (for_inv (fun j (t : truelengths) => (forall k s, k < j -> S !! k = Some s -> t s = 0%Z) /\ (forall s, s ∉ S -> t s = tls0 s))
      0 (ti_n_uniques i) body tls) as (t1 & E & Hz & Ho) end.
  { split; [lia|done]. }
  { intros j t Hj [Hr Ho]. destruct (lookup_lt_is_Some_2 S j) as [s Hs]; [lia|].
    rewrite (proj2 (rd_Ok _ _ s)) by (rewrite <- Hu in Hs; by apply lookup_take_Some in Hs as [? _]).
    cbn [bind]. eexists. split; [reflexivity|]. split.
    - intros k s' Hk Hs'. destruct (decide (s' = s)) as [->|Hne]; [by rewrite set_tl_eq|].
      rewrite set_tl_ne by done. apply (Hr k); [|done]. destruct (decide (k = j)) as [->|?]; [congruence|lia].
    - intros s' Hs'. rewrite set_tl_ne; [by apply Ho|]. intros ->. apply Hs'. by eapply elem_of_list_lookup_2. }
  rewrite E. cbn [bind]. clear E.
  assert (H1 : forall s, t1 s = if bool_decide (s ∈ S) then 0%Z else tls0 s).
  { intros s. destruct (decide (s ∈ S)) as [Hs|Hs].
    - rewrite bool_decide_true by done. apply elem_of_list_lookup in Hs as (k & Hk).
      apply (Hz k); [|done]. apply lookup_lt_Some in Hk. lia.
    - rewrite bool_decide_false by done. by apply Ho. }
  match goal with |- context[for_ 0 (ti_n_strings i) ?body t1] =>
    destruct (for_inv (fun j (t : truelengths) => (forall k s, k < j -> Sv !! k = Some s -> t s = tls0 s) /\
        (forall s, s ∉ Sv -> t s = t1 s))
      0 (ti_n_strings i) body t1) as (t2 & E & Hz2 & Ho2) end.
  { split; [lia|done]. }
  { intros j t Hj [Hr Ho']. destruct (lookup_lt_is_Some_2 Sv j) as [s Hs]; [lia|].
    rewrite (proj2 (rd_Ok _ _ s)) by (rewrite <- HS in Hs; by apply lookup_take_Some in Hs as [? _]). cbn [bind].
    assert (Ht : ti_truelengths i !! j = Some (tls0 s)).
    { assert (take (length Sv) (ti_truelengths i) !! j = Some (tls0 s)) as HH.
      { rewrite HT, list_lookup_fmap, Hs. done. }
      by apply lookup_take_Some in HH as [? _]. }
    rewrite (proj2 (rd_Ok _ _ _) Ht). cbn [bind].
    eexists. split; [reflexivity|]. split.
    - intros k s' Hk Hs'. destruct (decide (s' = s)) as [->|Hne]; [by rewrite set_tl_eq|].
      rewrite set_tl_ne by done. apply (Hr k); [|done]. destruct (decide (k = j)) as [->|?]; [congruence|lia].
    - intros s' Hs'. rewrite set_tl_ne; [by apply Ho'|]. intros ->. apply Hs'. by eapply elem_of_list_lookup_2. }
  rewrite E. cbn [bind]. eexists _, _. split; [reflexivity|]. split; [|split; [done|]].
  { constructor; cbn; try done; lia. }
  intros s. destruct (decide (s ∈ Sv)) as [Hs|Hs].
  - apply elem_of_list_lookup in Hs as (k & Hk). apply (Hz2 k); [|done]. apply lookup_lt_Some in Hk. lia.
  - rewrite Ho2, H1 by done. destruct (decide (s ∈ S)) as [Hs'|Hs'].
    + rewrite bool_decide_true by done. assert (0 <= tls0 s)%Z by (apply Htl; by apply Hin).
      destruct (decide (0 < tls0 s)%Z); [|lia]. exfalso. apply Hs, HSin. done.
    + by rewrite bool_decide_false.
Qed.

(** nothing was marked: nothing happens *)
Lemma truelength_reset_clean tls i : tl_clean i -> exists i', truelength_reset tls i = Ok (tls, i').
Proof. intros (C1 & C2 & _). unfold truelength_reset. rewrite C1, C2. simpl. eauto. Qed.

(** ** Ordering strings *)
Section chr.
  Context (N np : nat) (decreasing na_last : bool).
  Hypothesis HN : (Z.of_nat N <= INT_MAX)%Z.
  Context (f : Z -> rstr).
  Notation cmp := (fun a b => dir decreasing (chr_vcmp (xorb decreasing na_last) (f a) (f b))).

  Lemma chr_cmp_tpo : tpo cmp.
  Proof. apply (tpo_preimage f (fun x y => dir decreasing (chr_vcmp (xorb decreasing na_last) x y))).
    apply tpo_dir. apply chr_vcmp_tpo. Qed.

  Lemma chr_cmp_vcmp x y :
    match dir decreasing (chr_vcmp (xorb decreasing na_last) x y) with
    | Lt => (chr_cmp x y (direction_of decreasing) (na_order_of na_last) < 0)%Z
    | Eq => chr_cmp x y (direction_of decreasing) (na_order_of na_last) = 0%Z
    | Gt => (0 < chr_cmp x y (direction_of decreasing) (na_order_of na_last))%Z
    end.
  Proof.
    unfold chr_cmp, chr_vcmp, direction_of, na_order_of. destruct x as [a|], y as [b|]; cbn.
    - change (bytes_eqb a b) with (str_ptr_eqb (Some a) (Some b)). rewrite strcmp_vcmp.
      destruct (str_ptr_eqb (Some a) (Some b)) eqn:E.
      + apply str_ptr_eqb_spec in E as [= ->]. rewrite (proj2 (bytes_vcmp_Eq b b)) by done.
        by destruct decreasing.
      + destruct (bytes_vcmp a b) eqn:Ec.
        * apply bytes_vcmp_Eq in Ec as ->. by rewrite (proj2 (str_ptr_eqb_spec (Some b) (Some b))) in E.
        * destruct decreasing; cbn; lia.
        * destruct decreasing; cbn; lia.
    - destruct decreasing, na_last; cbn; lia.
    - destruct decreasing, na_last; cbn; lia.
    - destruct decreasing; cbn; lia.
  Qed.

  Lemma rank_cmp tls0 p_x S tls i a b : tl_marked tls0 p_x S tls i -> (Z.of_nat (length p_x) <= INT_MAX)%Z ->
    f a ∈ p_x -> f b ∈ p_x ->
    let key x := match x with None => NA_INTEGER | Some s => (- tls s)%Z end in
    is_int (key (f a)) /\
    int_vcmp (xorb decreasing na_last) (key (f a)) (key (f b)) = chr_vcmp (xorb decreasing na_last) (f a) (f b).
  Proof.
    intros [_ Hss Hin Hrank _ Hlen] Hmax Ha Hb key.
    assert (Hk : forall s, Some s ∈ p_x -> exists j, S !! j = Some s /\ key (Some s) = (Z.of_nat j + 1)%Z /\ j < length S).
    { intros s Hs. apply Hin, elem_of_list_lookup in Hs as (j & Hj). exists j. split; [done|]. subst key. cbn beta iota.
      rewrite (Hrank j s Hj). split; [lia|]. by eapply lookup_lt_Some. }
    assert (Hna : forall j, j < length S -> (Z.of_nat j + 1 =? NA_INTEGER)%Z = false).
    { intros j Hj. unfold NA_INTEGER, INT_MIN. lia. }
    unfold int_vcmp, chr_vcmp. destruct (f a) as [s|], (f b) as [t|]; cbn beta iota.
    - destruct (Hk s Ha) as (j & Hj & Ej & Hjl), (Hk t Hb) as (k & Hkk & Ek & Hkl). rewrite Ej, Ek, !Hna by done.
      split. { unfold is_int, INT_MIN, INT_MAX in *. lia. }
      destruct (Z.compare_spec (Z.of_nat j + 1) (Z.of_nat k + 1)) as [E|E|E].
      + assert (j = k) as -> by lia. assert (s = t) as -> by congruence. symmetry. by apply bytes_vcmp_Eq.
      + symmetry. change (str_lt s t). eapply (ss_lookup _ _ j k); try done. lia.
      + assert (str_lt t s) as Hlt by (eapply (ss_lookup _ _ k j); try done; lia).
        unfold str_lt in Hlt. rewrite (tp_sym _ bytes_vcmp_tpo t s), Hlt. done.
    - destruct (Hk s Ha) as (j & Hj & Ej & Hjl). rewrite Ej, Hna by done. split; [|done].
      unfold is_int, INT_MIN, INT_MAX in *. lia.
    - destruct (Hk t Hb) as (j & Hj & Ej & Hjl). rewrite Ej, Hna by done. split; [|done].
      unfold is_int, key, NA_INTEGER, INT_MIN, INT_MAX in *. lia.
    - split; [|done]. unfold is_int, key, NA_INTEGER, INT_MIN, INT_MAX in *. lia.
  Qed.

  Lemma chr_order_chunk_spec p_x tls0 S tls i os w g :
    tl_marked tls0 p_x S tls i -> length p_x <= N -> (forall a, a ∈ os -> f a ∈ p_x) ->
    StronglySorted Z.lt os -> wok N np w -> 4 <= np -> length os <= N -> gwf g -> room g (length os) ->
    exists bs w' g', chr_order_chunk decreasing na_last (map f os) os tls w g = Ok (concat bs, w', g') /\
      og cmp os bs /\ pushed g (map length bs) g' /\ wok N np w'.
  Proof.
    intros Hmk Hpl Hfin Hs Hw Hnp Hn W R. unfold chr_order_chunk, chr_sortedness.
    destruct (sortedness_spec (fun x y => chr_cmp x y (direction_of decreasing) (na_order_of na_last)) f cmp
      chr_cmp_tpo os g) as (s & g1 & E & Hsort); try done.
    { intros a b _ _. apply chr_cmp_vcmp. }
    rewrite E. cbn [bind]. clear E. destruct s.
    - destruct Hsort as (bs & Hc & Hog & Hp). cbn [ord_resolve_sortedness_chunk bind].
      exists bs, w, g1. by rewrite Hc.
    - destruct Hsort as (Hog & Hp). cbn [ord_resolve_sortedness_chunk]. rewrite map_length.
      rewrite ord_reverse_chunk_spec. cbn [bind]. exists (map (fun x => [x]) (rev os)), w, g1.
      rewrite concat_singletons. split; [done|]. split; [done|]. split; [|done]. by rewrite ones_rev.
    - unfold chr_extract_ordering. rewrite map_map.
      set (key := fun a => match f a with None => NA_INTEGER | Some s => (- tls s)%Z end).
      destruct (int_order_chunk_impl_spec N np decreasing na_last key os w g1) as (bs & w' & g' & E & Hog & Hp & Hw'); try done.
      + intros a Ha. eapply (rank_cmp tls0 p_x S tls i a a); eauto. lia.
      + apply Hsort.
      + by eapply pushed_room; [exact Hsort|].
      + exists bs, w', g'. split; [done|]. split; [|split; [|done]].
        * eapply og_cmp_ext; [|exact Hog]. intros a b Ha Hb. cbn beta. f_equal.
          eapply (rank_cmp tls0 p_x S tls i a b); eauto. lia.
        * by apply (pushed_trans g [] g1 _ g').
  Qed.

  Lemma chr_order_spec m o w g tls i :
    (forall a, a ∈ locs m -> forall s, f a = Some s -> str_wf s /\ (0 <= tls s)%Z) ->
    length (or_data o) = m -> or_initialized o = false -> wok N np w -> 4 <= np -> m <= N ->
    gwf g -> room g m -> tlwf N i -> tl_clean i ->
    exists bs w' g' tls' i', chr_order (map f (locs m)) decreasing na_last o w g tls i = Ok (Order (concat bs) true, w', g', tls', i') /\
      og cmp (locs m) bs /\ pushed g (map length bs) g' /\ wok N np w' /\
      (forall s, tls' s = tls s) /\ tlwf N i' /\ tl_clean i'.
  Proof.
    intros Hf Hlo Hini Hw Hnp Hn W R Wi Ci. unfold chr_order, chr_order_internal, chr_sortedness.
    destruct (sortedness_spec (fun x y => chr_cmp x y (direction_of decreasing) (na_order_of na_last)) f cmp
      chr_cmp_tpo (locs m) g) as (s & g1 & E & Hsort); try done.
    { intros a b _ _. apply chr_cmp_vcmp. }
    { apply locs_inc. }
    { by rewrite locs_length. }
    rewrite E. cbn [bind]. clear E. rewrite map_length, locs_length.
    assert (Hclean : exists i', truelength_reset tls i = Ok (tls, i') /\ tlwf N i' /\ tl_clean i').
    { destruct Ci as (C1 & C2 & C3 & C4). unfold truelength_reset. rewrite C1, C2. simpl. eexists. split; [done|].
      split; [|done]. destruct Wi. constructor; cbn; try done; lia. }
    destruct Hclean as (i0 & Ei0 & Wi0 & Ci0). destruct s.
    - destruct Hsort as (bs & Hc & Hog & Hp). cbn [ord_resolve_sortedness]. rewrite int_incr_spec by done. cbn [bind].
      rewrite Ei0. cbn [bind]. exists bs, w, g1, tls, i0. by rewrite Hc.
    - destruct Hsort as (Hog & Hp). cbn [ord_resolve_sortedness].
      rewrite ord_reverse_spec by done. cbn [bind]. rewrite Ei0. cbn [bind].
      exists (map (fun x => [x]) (rev (locs m))), w, g1, tls, i0.
      rewrite concat_singletons. split; [done|]. split; [done|]. split; [|done]. by rewrite ones_rev.
    - set (p_x := map f (locs m)).
      assert (Hpl : length p_x = m) by (subst p_x; by rewrite map_length, locs_length).
      assert (Hok : tls_ok tls p_x).
      { intros s Hs. apply elem_of_list_fmap in Hs as (a & Ea & Ha). by apply (Hf a Ha s). }
      destruct (chr_mark_sorted_uniques_spec N np p_x w tls i HN) as (S & tls1 & i1 & w1 & E & Wi1 & Hmk & Hw1); try done; [lia| |].
      { apply Forall_forall. intros x Hx s ->. apply elem_of_list_fmap in Hx as (a & Ea & Ha). by apply (Hf a Ha s). }
      rewrite E. cbn [bind]. clear E. unfold chr_extract_ordering. subst p_x. rewrite map_map.
      set (key := fun a => match f a with None => NA_INTEGER | Some s => (- tls1 s)%Z end).
      assert (Hin : forall a, a ∈ locs m -> f a ∈ map f (locs m)) by (intros a Ha; by apply elem_of_list_fmap_1).
      destruct (int_order_impl_spec N np decreasing na_last key m o w1 g1) as (bs & w' & g' & E & Hog & Hp & Hw'); try done.
      + intros a Ha. eapply (rank_cmp tls (map f (locs m)) S tls1 i1 a a); eauto. lia.
      + apply Hsort.
      + by eapply pushed_room; [exact Hsort|].
      + rewrite E. cbn [bind].
        destruct (truelength_reset_spec N tls _ S tls1 i1 Wi1 Hok Hmk) as (tls2 & i2 & E2 & Wi2 & Ci2 & Htls).
        rewrite E2. cbn [bind]. exists bs, w', g', tls2, i2. split; [done|]. split; [|split; [|done]].
        * eapply og_cmp_ext; [|exact Hog]. intros a b Ha Hb. cbn beta. f_equal.
          eapply (rank_cmp tls (map f (locs m)) S tls1 i1 a b); eauto. lia.
        * by apply (pushed_trans g [] g1 _ g').
  Qed.
End chr.
