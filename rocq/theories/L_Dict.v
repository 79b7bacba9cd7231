(** * Lemmas: the hash table invariant and its lookup/visit operations *)
From Verif Require Import Base M_Growable M_Hash M_Dict L_Proxy L_DictNum.
From Coq Require Import ZifyBool ZifyNat.

(** [P] holds of exactly [k] numbers. *)
Definition cardinal (P : nat -> Prop) (k : nat) : Prop :=
  exists ls, NoDup ls /\ (forall j, j ∈ ls <-> P j) /\ length ls = k.

Lemma cardinal_fun P j k : cardinal P j -> cardinal P k -> j = k.
Proof.
  intros (l & Hl & El & <-) (l' & Hl' & El' & <-).
  apply Permutation_length, NoDup_Permutation; [done|done|]. intros x. by rewrite El, El'.
Qed.

Lemma NoDup_bounded_length (l : list nat) n : NoDup l -> (forall x, x ∈ l -> x < n) -> length l <= n.
Proof.
  intros Hn Hb. rewrite <- (seq_length n 0). apply submseteq_length, NoDup_submseteq; [done|].
  intros x Hx. apply elem_of_seq. specialize (Hb x Hx). lia.
Qed.

(** ** First occurrences *)
Definition is_first {B} (X : list B) (i : nat) : Prop := forall j, j < i -> X !! j <> X !! i.

Section dict.
  Context {A B : Type} (eqb : A -> A -> bool) (sem : A -> B) (dom : A -> Prop) (hf : A -> Z).
  Context (eqb_spec : forall a b, dom a -> dom b -> eqb a b = true <-> sem a = sem b).
  Context (hf_spec : forall a b, dom a -> dom b -> sem a = sem b -> hf a = hf b).

  Notation dict := (@dict A).

  (** Is element [j] of [x] different from all elements before [i]? *)
  Definition new_at (x : list A) (i : nat) (b : A) : bool := forallb (fun a => negb (eqb a b)) (take i x).
  Definition firstb (x : list A) (j : nat) : bool :=
    match x !! j with Some b => new_at x j b | None => false end.
  Definition firsts (x : list A) (m : nat) : list nat := List.filter (firstb x) (seq 0 m).

  Lemma fmap_lookup x i a : x !! i = Some a -> map sem x !! i = Some (sem a).
  Proof. intros H. rewrite list_lookup_fmap, H. done. Qed.

  Lemma new_at_spec x i b : Forall dom x -> dom b ->
    new_at x i b = true <-> forall j, j < i -> map sem x !! j <> Some (sem b).
  Proof.
    intros Hx Hb. unfold new_at. rewrite forallb_forall. split.
    - intros H j Hj E. rewrite list_lookup_fmap in E. destruct (x !! j) as [a|] eqn:Ea; [|done].
      injection E as E. assert (Ha : dom a) by (rewrite Forall_lookup in Hx; by apply (Hx j)).
      specialize (H a). rewrite (proj2 (eqb_spec a b Ha Hb) E) in H. assert (negb true = true); [|done]. apply H.
      apply elem_of_list_In, elem_of_list_lookup. exists j. by rewrite lookup_take.
    - intros H a Ha. apply elem_of_list_In, elem_of_list_lookup in Ha as [j Hj].
      apply lookup_take_Some in Hj as [Hj Hlt].
      assert (Ha : dom a) by (rewrite Forall_lookup in Hx; by apply (Hx j)).
      destruct (eqb a b) eqn:E; [|done]. apply eqb_spec in E; [|done|done].
      exfalso. apply (H j Hlt). by rewrite (fmap_lookup x j a), E.
  Qed.
  Lemma firstb_spec x j : Forall dom x -> j < length x -> firstb x j = true <-> is_first (map sem x) j.
  Proof.
    intros Hx Hj. unfold firstb. destruct (lookup_lt_is_Some_nth x j Hj) as [b Eb]. rewrite Eb.
    assert (dom b) by (rewrite Forall_lookup in Hx; by apply (Hx j)).
    rewrite new_at_spec by done. unfold is_first. by rewrite (fmap_lookup x j b).
  Qed.
  Lemma firsts_elem x m j : Forall dom x -> m <= length x ->
    j ∈ firsts x m <-> j < m /\ is_first (map sem x) j.
  Proof.
    intros Hx Hm. unfold firsts. rewrite elem_of_list_In, filter_In, in_seq. split.
    - intros [H1 H2]. split; [lia|]. apply firstb_spec; [done|lia|done].
    - intros [H1 H2]. split; [lia|]. apply firstb_spec; [done|lia|done].
  Qed.
  Lemma firsts_S x m : firsts x (S m) = firsts x m ++ (if firstb x m then [m] else []).
  Proof. unfold firsts. rewrite seq_S, List.filter_app. simpl. done. Qed.
  Lemma firsts_NoDup x m : NoDup (firsts x m).
  Proof. apply NoDup_ListNoDup, List.NoDup_filter, seq_NoDup. Qed.
  Lemma firsts_length x m : length (firsts x m) <= m.
  Proof. induction m as [|m IH]; [done|]. rewrite firsts_S, app_length. destruct (firstb x m); simpl; lia. Qed.

  (** Every element equals a first one. *)
  Lemma first_exists x i : Forall dom x -> i < length x ->
    exists f, f <= i /\ is_first (map sem x) f /\ map sem x !! f = map sem x !! i.
  Proof.
    intros Hx. induction i as [i IH] using lt_wf_ind. intros Hi.
    destruct (firstb x i) eqn:E.
    - exists i. apply firstb_spec in E; [|done|done]. done.
    - unfold firstb in E. destruct (lookup_lt_is_Some_nth x i Hi) as [b Eb]. rewrite Eb in E.
      assert (Hb : dom b) by (rewrite Forall_lookup in Hx; by apply (Hx i)).
      assert (Hex : exists j, j < i /\ map sem x !! j = Some (sem b)).
      { unfold new_at in E. clear IH. 
        assert (Hne : ~ (forall a, In a (take i x) -> negb (eqb a b) = true))
          by (rewrite <- forallb_forall; congruence).
        clear E. assert (HF : Forall dom (take i x)) by (by apply Forall_take).
        assert (HE : Exists (fun a => eqb a b = true) (take i x)).
        { induction (take i x) as [|a l IHl]; [exfalso; apply Hne; done|].
          destruct (eqb a b) eqn:Eab; [by left|]. right. inversion HF; subst. apply IHl; [|done].
          intros H. apply Hne. intros c [<-|Hc]; [by rewrite Eab|by apply H]. }
        apply Exists_exists in HE as (a & Ha & Eab). apply elem_of_list_lookup in Ha as [j Hj].
        apply lookup_take_Some in Hj as [Hj Hlt].
        assert (Hda : dom a) by (rewrite Forall_lookup in Hx; by apply (Hx j)).
        exists j. split; [done|]. rewrite (fmap_lookup x j a) by done. f_equal. by apply eqb_spec. }
      destruct Hex as (j & Hj & Ej). destruct (IH j Hj) as (f & Hf & Ff & Ef); [lia|].
      exists f. split; [lia|]. split; [done|]. rewrite Ef, Ej. by rewrite (fmap_lookup x i b).
  Qed.

  Lemma first_unique (X : list B) f g : is_first X f -> is_first X g -> X !! f = X !! g -> f = g.
  Proof.
    intros Hf Hg E. destruct (Nat.lt_trichotomy f g) as [H|[H|H]]; [|done|].
    - by destruct (Hg f H).
    - destruct (Hf g H). done.
  Qed.

  (** ** The invariant: the table over [x] after the elements before [m]. *)
  Record dinv (x : list A) (d : dict) (m : nat) : Prop := {
    di_dom : Forall dom x;
    di_vec : d_vec d = x;
    di_hash : d_hash d = map hf x;
    di_size : exists e, (4 <= e <= 31)%Z /\ d_size d = (2 ^ e)%Z;
    di_big : (Z.of_nat (length x) < d_size d)%Z;
    di_len : length (d_key d) = Z.to_nat (d_size d);
    di_m : m <= length x;
    di_key : forall s k, d_key d !! s = Some k ->
      k = DICT_EMPTY \/
      exists j a, k = Z.of_nat j /\ j < m /\ x !! j = Some a /\ is_first (map sem x) j /\
        exists t, t < Z.to_nat (d_size d) /\ s = slot (d_size d) (hf a) t /\
          forall t', t' < t -> d_key d !! slot (d_size d) (hf a) t' <> Some DICT_EMPTY;
    di_all : forall j, j < m -> is_first (map sem x) j -> exists s, d_key d !! s = Some (Z.of_nat j);
    di_uniq : forall s s' j, d_key d !! s = Some (Z.of_nat j) -> d_key d !! s' = Some (Z.of_nat j) -> s = s';
    di_used : d_used d = Z.of_nat (length (firsts x m))
  }.

  Lemma new_dictionary_inv x : Forall dom x -> (Z.of_nat (length x) <= R_LEN_T_MAX)%Z ->
    exists d, new_dictionary_opts x (map hf x) false = Ok d /\ dinv x d 0 /\
      d_key d = replicate (Z.to_nat (d_size d)) DICT_EMPTY.
  Proof.
    intros Hx Hl. unfold new_dictionary_opts.
    destruct (dict_key_size_spec (Z.of_nat (length x))) as (e & He & -> & Hn & _); [lia|]. simpl.
    eexists. split; [reflexivity|]. split; [|done].
    constructor; simpl; try done.
    - by exists e.
    - apply replicate_length.
    - lia.
    - intros s k E. apply lookup_replicate in E as [-> _]. by left.
    - intros; lia.
    - intros s s' j E. apply lookup_replicate in E as [E _]. unfold DICT_EMPTY in E. lia.
  Qed.
  Lemma new_dictionary_partial x : exists d, new_dictionary_opts x (map hf x) true = Ok d /\
    d_vec d = x /\ d_hash d = map hf x.
  Proof. eexists. split; [reflexivity|done]. Qed.

  (** There is always an empty slot. *)
  Lemma dinv_empty x d m : dinv x d m -> exists s, d_key d !! s = Some DICT_EMPTY.
  Proof.
    intros I. destruct (decide (Exists (fun k => k = DICT_EMPTY) (d_key d))) as [H|H].
    - apply Exists_exists in H as (k & Hk & ->). by apply elem_of_list_lookup in Hk.
    - exfalso. pose proof (di_big _ _ _ I) as Hbig. pose proof (di_len _ _ _ I) as Hlen.
      assert (Hk : forall s k, d_key d !! s = Some k -> exists j, k = Z.of_nat j /\ j < m).
      { intros s k E. destruct (di_key _ _ _ I s k E) as [->|(j & a & -> & Hj & _)]; [|eauto].
        exfalso. apply H. apply Exists_exists. exists DICT_EMPTY. split; [|done]. apply elem_of_list_lookup. eauto. }
      assert (Hle : length (map Z.to_nat (d_key d)) <= m).
      { apply NoDup_bounded_length.
        - apply NoDup_alt. intros i j k Ei Ej. rewrite list_lookup_fmap in Ei, Ej.
          destruct (d_key d !! i) as [ki|] eqn:Eki; [|done]. destruct (d_key d !! j) as [kj|] eqn:Ekj; [|done].
          destruct (Hk _ _ Eki) as (a & -> & _). destruct (Hk _ _ Ekj) as (b & -> & _).
          simpl in *. rewrite Nat2Z.id in *. assert (a = b) by congruence. subst b.
          by apply (di_uniq _ _ _ I i j a).
        - intros k Hin. apply elem_of_list_fmap in Hin as (z & -> & Hz). apply elem_of_list_lookup in Hz as [s Hs].
          destruct (Hk _ _ Hs) as (j & -> & Hj). lia. }
      rewrite map_length in Hle. pose proof (di_m _ _ _ I). lia.
  Qed.

  (** ** Lookup *)
  Lemma dict_hash_with_spec x d m y i b (dy : dict) :
    dinv x d m -> d_hash dy = map hf y -> d_vec dy = y -> y !! i = Some b -> dom b ->
    exists s, dict_hash_with eqb d dy i = Ok (Z.of_nat s) /\ s < Z.to_nat (d_size d) /\
      (exists t, t < Z.to_nat (d_size d) /\ s = slot (d_size d) (hf b) t /\
         forall t', t' < t -> d_key d !! slot (d_size d) (hf b) t' <> Some DICT_EMPTY) /\
      ((d_key d !! s = Some DICT_EMPTY /\ forall j, j < m -> map sem x !! j <> Some (sem b)) \/
       (exists j, d_key d !! s = Some (Z.of_nat j) /\ j < m /\ is_first (map sem x) j /\
          map sem x !! j = Some (sem b))).
  Proof.
    intros I Hh Hv Hi Hb. unfold dict_hash_with.
    rewrite Hh, (proj2 (rd_Ok (map hf y) i (hf b))) by (rewrite list_lookup_fmap, Hi; done). simpl.
    destruct (di_size _ _ _ I) as (e & He & Es). pose proof (di_len _ _ _ I) as Hlen.
    pose proof (di_big _ _ _ I) as Hbig. pose proof (di_dom _ _ _ I) as Hdom.
    assert (Hpos : (0 < 2 ^ e)%Z) by (apply Z.pow_pos_nonneg; lia).
    set (n := Z.to_nat (d_size d)) in *.
    set (Q := fun r : option Z => exists s, r = Some (Z.of_nat s) /\ s < n /\
        (exists t, t < n /\ s = slot (d_size d) (hf b) t /\
           forall t', t' < t -> d_key d !! slot (d_size d) (hf b) t' <> Some DICT_EMPTY) /\
        ((d_key d !! s = Some DICT_EMPTY /\ forall j, j < m -> map sem x !! j <> Some (sem b)) \/
         (exists j, d_key d !! s = Some (Z.of_nat j) /\ j < m /\ is_first (map sem x) j /\
            map sem x !! j = Some (sem b)))).
    match goal with |- context [for_brk 0 n ?f None] => set (body := f) end.
    assert (HL : exists r, for_brk 0 n body None = Ok r /\ Q r).
    { apply (for_brk_inv (fun k (_ : option Z) => forall t, t < k -> exists j a,
               d_key d !! slot (d_size d) (hf b) t = Some (Z.of_nat j) /\ x !! j = Some a /\ sem a <> sem b) Q).
      - intros; lia.
      - intros k st Hk HI.
        assert (Hsl : slot (d_size d) (hf b) k < n) by (unfold n; rewrite Es; apply slot_lt; lia).
        destruct (lookup_lt_is_Some_nth (d_key d) (slot (d_size d) (hf b) k)) as [kv Ekv]; [lia|].
        assert (Hnb : ((1 <? k) && (dict_probe (d_size d) (hf b) (Z.of_nat k) =? hf b)%Z) = false).
        { apply andb_false_iff. destruct (decide (k <= 1)); [left; lia|]. right. apply Z.eqb_neq. intros Ep.
          rewrite Es, dict_probe_slot in Ep by (rewrite <- ?Es; lia).
          assert (Hh0 : slot (2 ^ e) (hf b) 0 = slot (2 ^ e) (hf b) k).
          { unfold slot at 1. simpl. rewrite Z.add_0_r. rewrite <- Ep at 1.
            pose proof (slot_lt e (hf b) k ltac:(lia)). rewrite Z.mod_small by lia. lia. }
          apply slot_inj in Hh0; [lia|lia|rewrite <- Es; lia|rewrite <- Es; lia]. }
        unfold body.
        assert (Hp : dict_probe (d_size d) (hf b) (Z.of_nat k) = Z.of_nat (slot (d_size d) (hf b) k))
          by (rewrite Es; apply dict_probe_slot; rewrite <- ?Es; lia).
        rewrite Hnb, Hp. rewrite rdZ_nat, (proj2 (rd_Ok _ _ kv) Ekv). simpl.
        destruct (di_key _ _ _ I _ _ Ekv) as [->|(j & a & -> & Hj & Ea & Fj & _)].
        + right. eexists. split; [reflexivity|]. eexists. split; [reflexivity|]. split; [done|]. split.
          * exists k. split; [lia|]. split; [done|]. intros t' Ht'. destruct (HI t' Ht') as (j & a & -> & _).
            unfold DICT_EMPTY. intros [= E]. lia.
          * left. split; [done|]. intros j Hj Ej.
            destruct (first_exists x j) as (f & Hf & Ff & Ef); [done|pose proof (di_m _ _ _ I); lia|].
            destruct (di_all _ _ _ I f) as (s & Es'); [lia|done|].
            destruct (di_key _ _ _ I _ _ Es') as [E|(j' & a & E & Hj' & Ea & Fj & t & Ht & -> & Hocc)];
              [unfold DICT_EMPTY in E; lia|].
            assert (j' = f) as -> by lia.
            assert (Hab : sem a = sem b).
            { rewrite (fmap_lookup x f a Ea) in Ef. congruence. }
            assert (Hda : dom a) by (rewrite Forall_lookup in Hdom; by apply (Hdom f)).
            rewrite (hf_spec a b) in * by done.
            destruct (Nat.lt_trichotomy t k) as [Htk|[->|Htk]].
            -- destruct (HI t Htk) as (j2 & a2 & E2 & Ea2 & Hne). rewrite E2 in Es'.
               assert (j2 = f) by (injection Es'; lia). subst j2. congruence.
            -- rewrite Ekv in Es'. unfold DICT_EMPTY in Es'. injection Es'. lia.
            -- by destruct (Hocc k Htk).
        + destruct (Z.eqb_spec (Z.of_nat j) DICT_EMPTY) as [E|_]; [unfold DICT_EMPTY in E; lia|].
          rewrite rdZ_nat, (di_vec _ _ _ I), (proj2 (rd_Ok x j a) Ea). simpl.
          rewrite Hv, (proj2 (rd_Ok y i b) Hi). simpl.
          assert (Hda : dom a) by (rewrite Forall_lookup in Hdom; by apply (Hdom j)).
          destruct (eqb a b) eqn:Eab.
          * right. apply eqb_spec in Eab; [|done|done]. eexists. split; [reflexivity|]. eexists. split; [reflexivity|].
            split; [done|]. split.
            -- exists k. split; [lia|]. split; [done|]. intros t' Ht'. destruct (HI t' Ht') as (j2 & a2 & -> & _).
               unfold DICT_EMPTY. intros [= E]. lia.
            -- right. exists j. split_and!; try done. by rewrite (fmap_lookup x j a), Eab.
          * left. eexists. split; [reflexivity|]. intros t Ht. destruct (decide (t = k)) as [->|]; [|apply HI; lia].
            exists j, a. split_and!; try done. intros Hs. apply eqb_spec in Hs; [congruence|done|done].
      - intros st HI. exfalso. destruct (dinv_empty x d m I) as [s0 Hs0].
        assert (Hs0' : s0 < Z.to_nat (2 ^ e)) by (apply lookup_lt_Some in Hs0; rewrite <- Es; lia).
        destruct (slot_surj e (hf b) s0) as (k & Hk & Ek); [lia|done|].
        destruct (HI k) as (j & a & E & _); [unfold n; rewrite Es; lia|].
        rewrite Es, Ek, Hs0 in E. unfold DICT_EMPTY in E. injection E. lia. }
    destruct HL as (r & -> & s & -> & Hs). simpl. exists s. split; [done|]. exact Hs.
  Qed.

  (** Looking up never fails (no "Dictionary is full"). *)

  (** An element equal to an earlier one changes nothing. *)
  Lemma dinv_skip x d m : dinv x d m -> m < length x -> ~ is_first (map sem x) m -> dinv x d (S m).
  Proof.
    intros I Hm Hf. destruct I. constructor; try done.
    - intros s k E. destruct (di_key0 s k E) as [->|(j & a & -> & Hj & R)]; [by left|].
      right. exists j, a. split; [done|]. split; [lia|done].
    - intros j Hj Fj. apply di_all0; [|done]. destruct (decide (j = m)) as [->|]; [done|lia].
    - rewrite firsts_S. destruct (firstb x m) eqn:E; [|by rewrite app_nil_r].
      apply firstb_spec in E; [done|done|done].
  Qed.

  (** A new element stored in the empty slot found by the lookup. *)
  Lemma dinv_put x d m (s : nat) b : dinv x d m -> x !! m = Some b -> is_first (map sem x) m ->
    d_key d !! s = Some DICT_EMPTY ->
    (exists t, t < Z.to_nat (d_size d) /\ s = slot (d_size d) (hf b) t /\ forall t', t' < t -> d_key d !! slot (d_size d) (hf b) t' <> Some DICT_EMPTY) ->
    exists d', dict_put d (Z.of_nat s) m = Ok d' /\ dinv x d' (S m) /\ d_key d' = <[s := Z.of_nat m]> (d_key d) /\ d_size d' = d_size d.
  Proof.
    intros I Hb Fm Es (t & Ht & Hst & Hocc). unfold dict_put.
    assert (Hs : s < length (d_key d)) by (by eapply lookup_lt_Some).
    assert (Hm : m < length x) by (by eapply lookup_lt_Some).
    rewrite wrZ_nat, wr_Ok by done. simpl. eexists. split; [reflexivity|]. split; [|done].
    assert (Hmono : forall s', d_key d !! s' <> Some DICT_EMPTY ->
              <[s:=Z.of_nat m]> (d_key d) !! s' <> Some DICT_EMPTY).
    { intros s' H. destruct (decide (s' = s)) as [->|]; [|by rewrite list_lookup_insert_ne].
      rewrite list_lookup_insert by done. unfold DICT_EMPTY. intros [= E]. lia. }
    assert (Hu : forall s' j, j <> m -> <[s:=Z.of_nat m]> (d_key d) !! s' = Some (Z.of_nat j) ->
              s' <> s /\ d_key d !! s' = Some (Z.of_nat j)).
    { intros s' j Hj E. destruct (decide (s' = s)) as [->|].
      - rewrite list_lookup_insert in E by done. injection E. lia.
      - by rewrite list_lookup_insert_ne in E. }
    destruct I. constructor; simpl; try done.
    - by rewrite insert_length.
    - intros s' k E. destruct (decide (s' = s)) as [->|Hne].
      + rewrite list_lookup_insert in E by done. injection E as <-. right. exists m, b.
        split_and!; try done; [lia|]. exists t. split_and!; try done. intros t' Ht'. by apply Hmono, Hocc.
      + rewrite list_lookup_insert_ne in E by done.
        destruct (di_key0 s' k E) as [->|(j & a & -> & Hj & Ea & Fj & t0 & Ht0 & Est & Hocc0)]; [by left|].
        right. exists j, a. split_and!; try done; [lia|]. exists t0. split_and!; try done.
        intros t' Ht'. by apply Hmono, Hocc0.
    - intros j Hj Fj. destruct (decide (j = m)) as [->|].
      + exists s. by rewrite list_lookup_insert.
      + destruct (di_all0 j) as [s' Es']; [lia|done|]. exists s'. rewrite list_lookup_insert_ne; [done|].
        intros <-. rewrite Es in Es'. unfold DICT_EMPTY in Es'. injection Es'. lia.
    - intros s1 s2 j E1 E2. destruct (decide (j = m)) as [->|Hne].
      + assert (Hold : forall s', d_key d !! s' <> Some (Z.of_nat m)).
        { intros s' E. destruct (di_key0 _ _ E) as [E'|(j & a & E' & Hj & _)]; [unfold DICT_EMPTY in E'; lia|lia]. }
        destruct (decide (s1 = s)) as [->|]; [|rewrite list_lookup_insert_ne in E1 by done; by destruct (Hold s1)].
        destruct (decide (s2 = s)) as [->|]; [done|rewrite list_lookup_insert_ne in E2 by done; by destruct (Hold s2)].
      + apply (di_uniq0 s1 s2 j); by apply Hu.
    - rewrite firsts_S. rewrite (proj2 (firstb_spec x m di_dom0 Hm) Fm), app_length, di_used0. simpl.
      pose proof (firsts_length x m). destruct di_size0 as (e & He & Ee).
      assert (2 ^ e <= 2 ^ 31)%Z by (apply Z.pow_le_mono_r; lia).
      unfold u32, two32. rewrite Z.mod_small by lia. lia.
  Qed.

  (** ** Visiting element [m]: returns the slot of its class. *)
  Lemma dict_visit_spec x d m : dinv x d m -> m < length x ->
    exists d' s f key, dict_visit eqb d m = Ok (d', Z.of_nat s, key) /\ dinv x d' (S m) /\ d_size d' = d_size d /\ s < Z.to_nat (d_size d) /\
      d_key d' !! s = Some (Z.of_nat f) /\ f <= m /\ is_first (map sem x) f /\ map sem x !! f = map sem x !! m /\
      (forall s' j, d_key d !! s' = Some (Z.of_nat j) -> d_key d' !! s' = Some (Z.of_nat j)) /\
      ((key = DICT_EMPTY /\ f = m /\ d_key d !! s = Some DICT_EMPTY /\ d_key d' = <[s := Z.of_nat m]> (d_key d)) \/
       (key = Z.of_nat f /\ f < m /\ d' = d)).
  Proof.
    intros I Hm. destruct (lookup_lt_is_Some_nth x m Hm) as [b Eb].
    assert (Hb : dom b) by (pose proof (di_dom _ _ _ I) as Hd; rewrite Forall_lookup in Hd; by apply (Hd m)).
    unfold dict_visit, dict_hash_scalar.
    destruct (dict_hash_with_spec x d m x m b d) as (s & -> & Hs & Hreach & Hcase);
      [done|apply (di_hash _ _ _ I)|apply (di_vec _ _ _ I)|done|done|]. simpl. rewrite rdZ_nat.
    destruct Hcase as [[Es Hnew]|(f & Es & Hf & Ff & Ef)].
    - rewrite (proj2 (rd_Ok _ _ _) Es). simpl.
      assert (Fm : is_first (map sem x) m).
      { intros j Hj. rewrite (fmap_lookup x m b Eb). by apply Hnew. }
      destruct (dinv_put x d m s b I Eb Fm Es Hreach) as (d' & -> & I' & Hk & Hsz). simpl.
      exists d', s, m, DICT_EMPTY. split_and!; try done.
      + rewrite Hk, list_lookup_insert; [done|]. by eapply lookup_lt_Some.
      + intros s' j E. rewrite Hk. rewrite list_lookup_insert_ne; [done|]. intros <-. rewrite Es in E.
        unfold DICT_EMPTY in E. injection E. lia.
      + by left.
    - rewrite (proj2 (rd_Ok _ _ _) Es). simpl.
      destruct (Z.eqb_spec (Z.of_nat f) DICT_EMPTY) as [E|_]; [unfold DICT_EMPTY in E; lia|].
      exists d, s, f, (Z.of_nat f). split_and!; try done.
      + apply dinv_skip; [done|done|]. intros Fm. apply (Fm f Hf). by rewrite Ef, (fmap_lookup x m b).
      + lia.
      + by rewrite Ef, (fmap_lookup x m b).
      + by right.
  Qed.

  (** ** Loading a whole vector *)
  Lemma dict_load_spec x d : dinv x d 0 -> exists d', dict_load eqb d (length x) = Ok d' /\ dinv x d' (length x).
  Proof.
    intros I. unfold dict_load.
    apply (for_inv (fun m d => dinv x d m)); [done|].
    intros i d0 Hi I0. destruct (dict_visit_spec x d0 i I0) as (d' & s & f & key & -> & I' & _); [lia|].
    simpl. eauto.
  Qed.
End dict.
