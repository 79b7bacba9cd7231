(** * Lemmas: count, duplicate detection, groups, over an abstract element type *)
From Verif Require Import Base M_Growable M_Hash M_Dict L_Proxy L_DictNum L_Dict L_Growable L_DictOps.
From Coq Require Import ZifyBool ZifyNat.

Lemma lengthgets_take x n : n <= length x -> lengthgets x n = take n x.
Proof. intros H. unfold lengthgets. replace (n - length x) with 0 by lia. apply app_nil_r. Qed.

Section ops.
  Context {A B : Type} (eqb : A -> A -> bool) (sem : A -> B) (dom : A -> Prop) (hf : A -> Z).
  Context (eqb_spec : forall a b, dom a -> dom b -> eqb a b = true <-> sem a = sem b).
  Context (hf_spec : forall a b, dom a -> dom b -> sem a = sem b -> hf a = hf b).

  Notation dinv := (dinv eqb sem dom hf).
  Notation firsts := (firsts eqb).
  Notation X x := (map sem x).
  Notation visit_step := (visit_step eqb sem dom hf eqb_spec hf_spec).

  (** Locations before [m] that equal location [j] *)
  Definition eqat (x : list A) (i j : nat) : bool :=
    match x !! i, x !! j with Some a, Some b => eqb a b | _, _ => false end.
  Definition occ (x : list A) (m j : nat) : list nat := List.filter (fun i => eqat x i j) (seq 0 m).

  Lemma eqat_spec x i j : Forall dom x -> i < length x -> j < length x ->
    eqat x i j = true <-> X x !! i = X x !! j.
  Proof.
    intros Hx Hi Hj. unfold eqat.
    destruct (lookup_lt_is_Some_nth x i Hi) as [a Ea]. destruct (lookup_lt_is_Some_nth x j Hj) as [b Eb].
    rewrite Ea, Eb, !list_lookup_fmap, Ea, Eb. simpl.
    rewrite Forall_lookup in Hx. rewrite eqb_spec; [|by apply (Hx i)|by apply (Hx j)].
    split; [by intros ->|by intros [= ->]].
  Qed.
  Lemma occ_S x m j : occ x (S m) j = occ x m j ++ (if eqat x m j then [m] else []).
  Proof. unfold occ. rewrite seq_S, List.filter_app. done. Qed.
  Lemma occ_elem x m j i : Forall dom x -> m <= length x -> j < length x ->
    i ∈ occ x m j <-> i < m /\ X x !! i = X x !! j.
  Proof.
    intros Hx Hm Hj. unfold occ. rewrite elem_of_list_In, filter_In, in_seq. split.
    - intros [H1 H2]. split; [lia|]. apply eqat_spec; [done|lia|done|done].
    - intros [H1 H2]. split; [lia|]. apply eqat_spec; [done|lia|done|done].
  Qed.
  Lemma occ_NoDup x m j : NoDup (occ x m j).
  Proof. apply NoDup_ListNoDup, List.NoDup_filter, seq_NoDup. Qed.
  Lemma occ_first x m : Forall dom x -> m < length x -> is_first (X x) m -> occ x m m = [].
  Proof.
    intros Hx Hm F. destruct (occ x m m) as [|i l] eqn:E; [done|].
    assert (Hi : i ∈ occ x m m) by (rewrite E; left).
    apply occ_elem in Hi as [Hi Ei]; [|done|lia|done]. by destruct (F i Hi).
  Qed.
  Lemma occ_length x m j : length (occ x m j) <= m.
  Proof. induction m as [|m IH]; [done|]. rewrite occ_S, app_length. destruct (eqat x m j); simpl; lia. Qed.
  Lemma eqat_refl x m : Forall dom x -> m < length x -> eqat x m m = true.
  Proof. intros. by apply eqat_spec. Qed.

  Lemma firstb_eq x j : Forall dom x -> j < length x -> firstb eqb x j = true <-> is_first (X x) j.
  Proof. apply (firstb_spec eqb sem dom eqb_spec). Qed.
  Lemma firstb_neq x j : Forall dom x -> j < length x -> ~ is_first (X x) j -> firstb eqb x j = false.
  Proof. intros Hx Hj H. apply Bool.not_true_is_false. by rewrite firstb_eq. Qed.

  (** The index of a first occurrence among the first occurrences. *)
  Lemma firsts_index x m f : Forall dom x -> f < m -> m <= length x -> is_first (X x) f ->
    firsts x m !! length (firsts x f) = Some f.
  Proof.
    intros Hx Hf Hm F. induction m as [|m IH]; [lia|].
    rewrite firsts_S. destruct (decide (f = m)) as [->|].
    - rewrite (proj2 (firstb_eq x m Hx ltac:(lia)) F). rewrite lookup_app_r by done. by rewrite Nat.sub_diag.
    - apply lookup_app_l_Some. apply IH; lia.
  Qed.
  Lemma firsts_index_inv x m k f : Forall dom x -> m <= length x -> firsts x m !! k = Some f ->
    f < m /\ is_first (X x) f /\ k = length (firsts x f).
  Proof.
    intros Hx Hm E. assert (Hf : f ∈ firsts x m) by (apply elem_of_list_lookup; eauto).
    apply (firsts_elem eqb sem dom eqb_spec) in Hf as [Hf F]; [|done|done]. split_and!; try done.
    pose proof (firsts_index x m f Hx Hf Hm F) as E'.
    eapply NoDup_lookup; [apply (firsts_NoDup eqb x m)|done|done].
  Qed.
  Lemma firsts_index_inj x f g : Forall dom x -> f < length x -> g < length x ->
    is_first (X x) f -> is_first (X x) g -> length (firsts x f) = length (firsts x g) -> f = g.
  Proof.
    intros Hx Hf Hg Ff Fg E. pose proof (firsts_index x (length x) f Hx Hf ltac:(lia) Ff) as E1.
    pose proof (firsts_index x (length x) g Hx Hg ltac:(lia) Fg) as E2. rewrite E in E1. congruence.
  Qed.
  Lemma firsts_index_lt x m f : Forall dom x -> f < m -> m <= length x -> is_first (X x) f ->
    length (firsts x f) < length (firsts x m).
  Proof. intros. eapply lookup_lt_Some. by apply firsts_index. Qed.

  (** ** duplicate_detect *)
  Lemma vec_duplicate_detect_spec x : Forall dom x -> fits x ->
    exists out, vec_duplicate_detect eqb x (map hf x) = Ok out /\ length out = length x /\
      forall i, i < length x ->
        (out !! i = Some 1%Z /\ exists j, j < length x /\ j <> i /\ X x !! j = X x !! i) \/
        (out !! i = Some 0%Z /\ forall j, j < length x -> j <> i -> X x !! j <> X x !! i).
  Proof.
    intros Hx Hl. unfold vec_duplicate_detect. set (n := length x) in *.
    destruct (new_dictionary_inv eqb sem dom hf x Hx Hl) as (d0 & -> & I0 & _). simpl.
    match goal with |- context [for_ 0 n ?body ?s0] =>
      destruct (for_inv (fun m '(d, out, ph) => dinv x d m /\ length out = n /\ length ph = n /\
         (forall i, i < m -> exists s f, ph !! i = Some (Z.of_nat s) /\ d_key d !! s = Some (Z.of_nat f) /\
             f <= i /\ is_first (X x) f /\ X x !! f = X x !! i) /\
         (forall i, i < n -> out !! i = Some (if decide (i < m) then if firstb eqb x i then 0%Z else 1%Z else 0%Z)))
         0 n body s0) as ([[d out] ph] & -> & I & Ho & Hp & HP & HO) end.
    { split_and!; [done|apply replicate_length|apply replicate_length|intros; lia|].
      intros i Hi. rewrite lookup_replicate_2 by done. destruct (decide (i < 0)); [lia|done]. }
    { intros i [[d1 out] ph] Hi (I1 & Ho & Hp & HP & HO).
      destruct (visit_step x d1 i I1) as (d2 & s & f & key & -> & I2 & Hsz & Hs & Ek & Hf & Ff & Ef & Hmono & Hc); [lia|].
      simpl. rewrite wr_Ok by lia. simpl.
      assert (HP' : forall k, k < S i -> exists s' f, <[i:=Z.of_nat s]> ph !! k = Some (Z.of_nat s') /\
          d_key d2 !! s' = Some (Z.of_nat f) /\ f <= k /\ is_first (X x) f /\ X x !! f = X x !! k).
      { intros k Hk. destruct (decide (k = i)) as [->|].
        - exists s, f. rewrite list_lookup_insert by lia. done.
        - rewrite list_lookup_insert_ne by done. destruct (HP k) as (s' & f' & E1 & E2 & R); [lia|].
          exists s', f'. split; [done|]. split; [by apply Hmono|done]. }
      destruct Hc as [(-> & -> & _)|(-> & Hlt & ->)].
      - simpl. eexists. split; [reflexivity|]. cbv beta iota. rewrite insert_length. split_and!; try done.
        intros k Hk. rewrite HO by done. f_equal. destruct (decide (k = i)) as [->|].
        + rewrite decide_False by lia. rewrite decide_True by lia.
          by rewrite (proj2 (firstb_eq x i Hx ltac:(lia)) Ff).
        + destruct (decide (k < i)); [rewrite decide_True by lia|rewrite decide_False by lia]; done.
      - rewrite key_empty. rewrite wr_Ok by lia. simpl.
        eexists. split; [reflexivity|]. cbv beta iota. rewrite !insert_length. split_and!; try done.
        intros k Hk. destruct (decide (k = i)) as [->|].
        + rewrite list_lookup_insert by lia. rewrite decide_True by lia.
          rewrite (firstb_neq x i Hx); [done|lia|]. intros F. by apply (F f).
        + rewrite list_lookup_insert_ne, HO by done. f_equal.
          destruct (decide (k < i)); [rewrite decide_True by lia|rewrite decide_False by lia]; done. }
    simpl in *. pose proof (di_len _ _ _ _ _ _ _ I) as Hlen.
    rewrite (for_fill _ (fun _ => DICT_EMPTY)) by done. simpl.
    (* slots identify classes *)
    assert (Hslot : forall i j si sj, i < n -> j < n -> ph !! i = Some (Z.of_nat si) -> ph !! j = Some (Z.of_nat sj) ->
              si = sj <-> X x !! i = X x !! j).
    { intros i j si sj Hi Hj Ei Ej. destruct (HP i Hi) as (s1 & f1 & E1 & K1 & _ & F1 & Q1).
      destruct (HP j Hj) as (s2 & f2 & E2 & K2 & _ & F2 & Q2).
      assert (s1 = si) as -> by (rewrite Ei in E1; injection E1; lia).
      assert (s2 = sj) as -> by (rewrite Ej in E2; injection E2; lia). split.
      - intros <-. rewrite K1 in K2. assert (f1 = f2) as -> by (injection K2; lia). congruence.
      - intros E. assert (f1 = f2) as -> by (apply (first_unique (X x)); [done|done|congruence]).
        by apply (di_uniq _ _ _ _ _ _ _ I si sj f2). }
    set (sz := Z.to_nat (d_size d)) in *.
    match goal with |- context [for_down 0 n ?body ?s0] =>
      destruct (for_down_inv (fun m '(d2, out) => length (d_key d2) = sz /\ length out = n /\
         (forall s, s < sz -> (d_key d2 !! s = Some DICT_EMPTY /\ forall k, m <= k < n -> ph !! k <> Some (Z.of_nat s)) \/
            (exists k, m <= k < n /\ d_key d2 !! s = Some (Z.of_nat k) /\ ph !! k = Some (Z.of_nat s))) /\
         (forall i, i < n -> (out !! i = Some 1%Z /\ exists j, j < n /\ j <> i /\ X x !! j = X x !! i) \/
            (out !! i = Some 0%Z /\ is_first (X x) i /\ (m <= i -> forall j, i < j < n -> X x !! j <> X x !! i))))
         0 n body s0) as ([d2 out2] & -> & _ & Ho2 & _ & HO2) end.
    { split_and!; simpl; try done.
      - by rewrite map_length, seq_length.
      - intros s Hs. left. split; [|intros; lia]. rewrite list_lookup_fmap, lookup_seq_lt by done. done.
      - intros i Hi. rewrite HO by done. rewrite decide_True by done. destruct (firstb eqb x i) eqn:Eb.
        + right. split; [done|]. split; [by apply firstb_eq|]. intros; lia.
        + left. split; [done|]. destruct (HP i Hi) as (s & f & _ & _ & Hf & F & Q). exists f. split; [lia|]. split; [|done].
          intros ->. apply firstb_eq in F; [congruence|done|done]. }
    { intros i [d2 out2] Hi (Hl2 & Ho2 & HK & HO2).
      destruct (HP i) as (s & f & E & K & Hf & F & Q); [lia|].
      rewrite (proj2 (rd_Ok _ _ _) E). simpl. rewrite rdZ_nat.
      assert (Hs : s < sz) by (apply lookup_lt_Some in K; lia).
      destruct (HK s Hs) as [[Ke Hn]|(k & Hk & Kk & Ek)].
      - rewrite (proj2 (rd_Ok _ _ _) Ke). simpl. unfold dict_put. rewrite wrZ_nat, wr_Ok by lia. simpl.
        eexists. split; [reflexivity|]. simpl. rewrite insert_length. split_and!; try done.
        + intros s' Hs'. destruct (decide (s' = s)) as [->|Hne].
          * right. exists i. rewrite list_lookup_insert by lia. split; [lia|done].
          * rewrite list_lookup_insert_ne by done. destruct (HK s' Hs') as [[Ke' Hn']|(k & Hk & Kk & Ek)].
            -- left. split; [done|]. intros k Hk. destruct (decide (k = i)) as [->|]; [|apply Hn'; lia].
               rewrite E. intros [= Q']. lia.
            -- right. exists k. split; [lia|done].
        + intros k Hk. destruct (HO2 k Hk) as [H1|(H1 & H2 & H3)]; [by left|]. right. split_and!; try done.
          intros Hik j Hj. destruct (decide (k = i)) as [->|]; [|apply H3; lia].
          intros Eq. destruct (HP j ltac:(lia)) as (sj & fj & Esj & _).
          apply (Hn j ltac:(lia)). rewrite Esj. do 2 f_equal.
          by apply (Hslot j i sj s); [lia|lia|done|done|].
      - rewrite (proj2 (rd_Ok _ _ _) Kk). simpl. rewrite key_empty. rewrite wr_Ok by lia. simpl.
        eexists. split; [reflexivity|]. cbv beta iota. rewrite insert_length. split_and!; try done.
        + intros s' Hs'. destruct (HK s' Hs') as [[Ke' Hn']|(k' & Hk' & Kk' & Ek')].
          * left. split; [done|]. intros k' Hk'. destruct (decide (k' = i)) as [->|]; [|apply Hn'; lia].
            rewrite E. intros [= Q']. assert (s' = s) by lia. subst s'. rewrite Kk in Ke'. unfold DICT_EMPTY in Ke'. injection Ke'. lia.
          * right. exists k'. split; [lia|done].
        + intros j Hj. destruct (decide (j = i)) as [->|].
          * left. rewrite list_lookup_insert by lia. split; [done|]. exists k. split_and!; [lia|lia|].
            by apply (Hslot k i s s); [lia|lia|done|done|].
          * rewrite list_lookup_insert_ne by done. destruct (HO2 j Hj) as [H1|(H1 & H2 & H3)]; [by left|].
            right. split_and!; try done. intros Hij j' Hj'. apply H3; lia. }
    simpl. exists out2. split; [done|]. split; [done|]. intros i Hi.
    destruct (HO2 i Hi) as [H1|(H1 & H2 & H3)]; [by left|]. right. split; [done|]. intros j Hj Hne.
    destruct (decide (j < i)); [by apply H2|]. apply H3; lia.
  Qed.

  (** ** group_id *)
  Lemma group_id_loop_spec g0 x : Forall dom x -> fits x ->
    exists d out, group_id_loop eqb g0 x (map hf x) = Ok (d, out) /\ dinv x d (length x) /\ length out = length x /\
      forall i, i < length x -> exists f, f <= i /\ is_first (X x) f /\ X x !! f = X x !! i /\
        out !! i = Some (g0 + Z.of_nat (length (firsts x f)))%Z.
  Proof.
    intros Hx Hl. unfold group_id_loop.
    destruct (new_dictionary_inv eqb sem dom hf x Hx Hl) as (d0 & -> & I0 & _). simpl.
    match goal with |- context [for_ 0 (length x) ?body ?s0] =>
      destruct (for_inv (fun m '(d, g, out) => dinv x d m /\ length out = length x /\
        g = (g0 + Z.of_nat (length (firsts x m)))%Z /\
        forall i, i < m -> exists f, f <= i /\ is_first (X x) f /\ X x !! f = X x !! i /\
          out !! i = Some (g0 + Z.of_nat (length (firsts x f)))%Z)
         0 (length x) body s0) as ([[d g] out] & -> & I & Ho & _ & HO) end.
    - split_and!; [done|apply replicate_length|simpl; lia|intros; lia].
    - intros i [[d1 g1] out] Hi (I1 & Ho & -> & HO).
      destruct (visit_step x d1 i I1) as (d2 & s & f & key & -> & I2 & Hsz & Hs & Ek & Hf & Ff & Ef & Hmono & Hc); [lia|].
      simpl. destruct Hc as [(-> & -> & _)|(-> & Hlt & ->)].
      + simpl. rewrite wr_Ok by lia. simpl. eexists. split; [reflexivity|]. cbv beta iota. rewrite insert_length. split_and!; try done.
        * rewrite firsts_S, (proj2 (firstb_eq x i Hx ltac:(lia)) Ff), app_length. simpl. lia.
        * intros k Hk. destruct (decide (k = i)) as [->|].
          -- exists i. rewrite list_lookup_insert by lia. done.
          -- rewrite list_lookup_insert_ne by done. apply HO. lia.
      + rewrite key_empty. rewrite rdZ_nat. destruct (HO f Hlt) as (f' & Hf' & Ff' & Ef' & Eo).
        assert (f' = f) as -> by (by apply (first_unique (X x))).
        rewrite (proj2 (rd_Ok _ _ _) Eo). simpl. rewrite wr_Ok by lia. simpl.
        eexists. split; [reflexivity|]. cbv beta iota. rewrite insert_length. split_and!; try done.
        * rewrite firsts_S, (firstb_neq x i Hx ltac:(lia)); [by rewrite app_nil_r|]. intros F. by apply (F f).
        * intros k Hk. destruct (decide (k = i)) as [->|].
          -- exists f. rewrite list_lookup_insert by lia. done.
          -- rewrite list_lookup_insert_ne by done. apply HO. lia.
    - simpl. exists d, out. split_and!; try done.
  Qed.
End ops.
