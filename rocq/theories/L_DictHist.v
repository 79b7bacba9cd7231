(** * Lemmas: the hash table under any insertion history *)
From Verif Require Import Base M_Growable M_Hash M_Dict L_Proxy L_DictNum L_Dict.
From Coq Require Import ZifyBool ZifyNat.

Section hist.
  Context {A B : Type} (eqb : A -> A -> bool) (sem : A -> B) (dom : A -> Prop) (hf : A -> Z).
  Context (eqb_spec : forall a b, dom a -> dom b -> eqb a b = true <-> sem a = sem b).
  Context (hf_spec : forall a b, dom a -> dom b -> sem a = sem b -> hf a = hf b).

  (** Elements [J] of [x] have been stored, each in the empty slot its own lookup returned. *)
  Inductive history (x : list A) (h : list Z) : @dict A -> list nat -> Prop :=
  | hist_new d : new_dictionary_opts x h false = Ok d -> history x h d []
  | hist_put d J i s d' : history x h d J -> dict_hash_scalar eqb d i = Ok s ->
      rdZ (d_key d) s = Ok DICT_EMPTY -> dict_put d s i = Ok d' -> history x h d' (i :: J).

  Record hinv (x : list A) (d : @dict A) (J : list nat) : Prop := {
    hi_dom : Forall dom x;
    hi_vec : d_vec d = x;
    hi_hash : d_hash d = map hf x;
    hi_size : exists e, (4 <= e <= 31)%Z /\ d_size d = (2 ^ e)%Z;
    hi_big : (Z.of_nat (length x) < d_size d)%Z;
    hi_len : length (d_key d) = Z.to_nat (d_size d);
    hi_key : forall s k, d_key d !! s = Some k ->
      k = DICT_EMPTY \/
      exists j a, k = Z.of_nat j /\ j ∈ J /\ x !! j = Some a /\
        exists t, t < Z.to_nat (d_size d) /\ s = slot (d_size d) (hf a) t /\
          forall t', t' < t -> d_key d !! slot (d_size d) (hf a) t' <> Some DICT_EMPTY;
    hi_all : forall j, j ∈ J -> exists s, d_key d !! s = Some (Z.of_nat j);
    hi_uniq : forall s s' j, d_key d !! s = Some (Z.of_nat j) -> d_key d !! s' = Some (Z.of_nat j) -> s = s'
  }.

  Lemma hinv_empty x d J : hinv x d J -> exists s, d_key d !! s = Some DICT_EMPTY.
  Proof.
    intros I. destruct (decide (Exists (fun k => k = DICT_EMPTY) (d_key d))) as [H|H].
    - apply Exists_exists in H as (k & Hk & ->). by apply elem_of_list_lookup in Hk.
    - exfalso. pose proof (hi_big _ _ _ I) as Hbig. pose proof (hi_len _ _ _ I) as Hlen.
      assert (Hk : forall s k, d_key d !! s = Some k -> exists j, k = Z.of_nat j /\ j < length x).
      { intros s k E. destruct (hi_key _ _ _ I s k E) as [->|(j & a & -> & Hj & Ea & _)].
        - exfalso. apply H. apply Exists_exists. exists DICT_EMPTY. split; [|done]. apply elem_of_list_lookup. eauto.
        - exists j. split; [done|]. by eapply lookup_lt_Some. }
      assert (Hle : length (map Z.to_nat (d_key d)) <= length x).
      { apply NoDup_bounded_length.
        - apply NoDup_alt. intros i j k Ei Ej. rewrite list_lookup_fmap in Ei, Ej.
          destruct (d_key d !! i) as [ki|] eqn:Eki; [|done]. destruct (d_key d !! j) as [kj|] eqn:Ekj; [|done].
          destruct (Hk _ _ Eki) as (a & -> & _). destruct (Hk _ _ Ekj) as (b & -> & _).
          simpl in *. rewrite Nat2Z.id in *. assert (a = b) by congruence. subst b.
          by apply (hi_uniq _ _ _ I i j a).
        - intros k Hin. apply elem_of_list_fmap in Hin as (z & -> & Hz). apply elem_of_list_lookup in Hz as [s Hs].
          destruct (Hk _ _ Hs) as (j & -> & Hj). lia. }
      rewrite map_length in Hle. lia.
  Qed.

  Lemma hist_lookup x d J y i b (dy : @dict A) :
    hinv x d J -> d_hash dy = map hf y -> d_vec dy = y -> y !! i = Some b -> dom b ->
    exists s, dict_hash_with eqb d dy i = Ok (Z.of_nat s) /\ s < Z.to_nat (d_size d) /\
      (exists t, t < Z.to_nat (d_size d) /\ s = slot (d_size d) (hf b) t /\
         forall t', t' < t -> d_key d !! slot (d_size d) (hf b) t' <> Some DICT_EMPTY) /\
      ((d_key d !! s = Some DICT_EMPTY /\ forall j a, j ∈ J -> x !! j = Some a -> sem a <> sem b) \/
       (exists j a, d_key d !! s = Some (Z.of_nat j) /\ j ∈ J /\ x !! j = Some a /\ sem a = sem b)).
  Proof.
    intros I Hh Hv Hi Hb. unfold dict_hash_with.
    rewrite Hh, (proj2 (rd_Ok (map hf y) i (hf b))) by (rewrite list_lookup_fmap, Hi; done). simpl.
    destruct (hi_size _ _ _ I) as (e & He & Es). pose proof (hi_len _ _ _ I) as Hlen.
    pose proof (hi_big _ _ _ I) as Hbig. pose proof (hi_dom _ _ _ I) as Hdom.
    assert (Hpos : (0 < 2 ^ e)%Z) by (apply Z.pow_pos_nonneg; lia).
    set (n := Z.to_nat (d_size d)) in *.
    set (Q := fun r : option Z => exists s, r = Some (Z.of_nat s) /\ s < n /\
        (exists t, t < n /\ s = slot (d_size d) (hf b) t /\
           forall t', t' < t -> d_key d !! slot (d_size d) (hf b) t' <> Some DICT_EMPTY) /\
        ((d_key d !! s = Some DICT_EMPTY /\ forall j a, j ∈ J -> x !! j = Some a -> sem a <> sem b) \/
         (exists j a, d_key d !! s = Some (Z.of_nat j) /\ j ∈ J /\ x !! j = Some a /\ sem a = sem b))).
    match goal with |- context [for_brk 0 n ?f None] => set (body := f) end.
    assert (HL : exists r, for_brk 0 n body None = Ok r /\ Q r).
    { apply (for_brk_inv (fun k (_ : option Z) => forall t, t < k -> exists j a,
               d_key d !! slot (d_size d) (hf b) t = Some (Z.of_nat j) /\ x !! j = Some a /\ sem a <> sem b) Q).
      - intros; lia.
      - intros k st Hk HI.
        assert (Hsl : slot (d_size d) (hf b) k < n) by (unfold n; rewrite Es; apply slot_lt; lia).
        destruct (lookup_lt_is_Some_nth (d_key d) (slot (d_size d) (hf b) k)) as [kv Ekv]; [lia|].
        assert (Hnb : ((1 <? k) && (dict_probe (d_size d) (hf b) (Z.of_nat k) =? hf b)%Z) = false).
        { apply andb_false_iff. destruct (decide (k <= 1)); [left; lia|]. right. apply Z.eqb_neq. intros Ep.
          rewrite Es, dict_probe_slot in Ep by (rewrite <- ?Es; lia).
          assert (Hh0 : slot (2 ^ e) (hf b) 0 = slot (2 ^ e) (hf b) k).
          { unfold slot at 1. simpl. rewrite Z.add_0_r. rewrite <- Ep at 1.
            pose proof (slot_lt e (hf b) k ltac:(lia)). rewrite Z.mod_small by lia. lia. }
          apply slot_inj in Hh0; [lia|lia|rewrite <- Es; lia|rewrite <- Es; lia]. }
        unfold body.
        assert (Hp : dict_probe (d_size d) (hf b) (Z.of_nat k) = Z.of_nat (slot (d_size d) (hf b) k))
          by (rewrite Es; apply dict_probe_slot; rewrite <- ?Es; lia).
        rewrite Hnb, Hp. rewrite rdZ_nat, (proj2 (rd_Ok _ _ kv) Ekv). simpl.
        destruct (hi_key _ _ _ I _ _ Ekv) as [->|(j & a & -> & Hj & Ea & _)].
        + right. eexists. split; [reflexivity|]. eexists. split; [reflexivity|]. split; [done|]. split.
          * exists k. split; [lia|]. split; [done|]. intros t' Ht'. destruct (HI t' Ht') as (j & a & -> & _).
            unfold DICT_EMPTY. intros [= E]. lia.
          * left. split; [done|]. intros f a' Hf Ea' Hab.
            destruct (hi_all _ _ _ I f Hf) as (s & Es').
            destruct (hi_key _ _ _ I _ _ Es') as [E|(j' & a & E & Hj' & Ea & t & Ht & -> & Hocc)];
              [unfold DICT_EMPTY in E; lia|].
            assert (j' = f) as -> by lia. assert (a' = a) as -> by congruence.
            assert (Hda : dom a) by (rewrite Forall_lookup in Hdom; by apply (Hdom f)).
            rewrite (hf_spec a b) in * by done.
            destruct (Nat.lt_trichotomy t k) as [Htk|[->|Htk]].
            -- destruct (HI t Htk) as (j2 & a2 & E2 & Ea2 & Hne). rewrite E2 in Es'.
               assert (j2 = f) by (injection Es'; lia). subst j2. congruence.
            -- rewrite Ekv in Es'. unfold DICT_EMPTY in Es'. injection Es'. lia.
            -- by destruct (Hocc k Htk).
        + destruct (Z.eqb_spec (Z.of_nat j) DICT_EMPTY) as [E|_]; [unfold DICT_EMPTY in E; lia|].
          rewrite rdZ_nat, (hi_vec _ _ _ I), (proj2 (rd_Ok x j a) Ea). simpl.
          rewrite Hv, (proj2 (rd_Ok y i b) Hi). simpl.
          assert (Hda : dom a) by (rewrite Forall_lookup in Hdom; by apply (Hdom j)).
          destruct (eqb a b) eqn:Eab.
          * right. apply eqb_spec in Eab; [|done|done]. eexists. split; [reflexivity|]. eexists. split; [reflexivity|].
            split; [done|]. split.
            -- exists k. split; [lia|]. split; [done|]. intros t' Ht'. destruct (HI t' Ht') as (j2 & a2 & -> & _).
               unfold DICT_EMPTY. intros [= E]. lia.
            -- right. exists j, a. split_and!; done.
          * left. eexists. split; [reflexivity|]. intros t Ht. destruct (decide (t = k)) as [->|]; [|apply HI; lia].
            exists j, a. split_and!; try done. intros Hs. apply eqb_spec in Hs; [congruence|done|done].
      - intros st HI. exfalso. destruct (hinv_empty x d J I) as [s0 Hs0].
        assert (Hs0' : s0 < Z.to_nat (2 ^ e)) by (apply lookup_lt_Some in Hs0; rewrite <- Es; lia).
        destruct (slot_surj e (hf b) s0) as (k & Hk & Ek); [lia|done|].
        destruct (HI k) as (j & a & E & _); [unfold n; rewrite Es; lia|].
        rewrite Es, Ek, Hs0 in E. unfold DICT_EMPTY in E. injection E. lia. }
    destruct HL as (r & -> & s & -> & Hs). simpl. exists s. split; [done|]. exact Hs.
  Qed.

  Lemma history_hinv x d J : Forall dom x -> (Z.of_nat (length x) <= R_LEN_T_MAX)%Z ->
    history x (map hf x) d J -> hinv x d J.
  Proof.
    intros Hx Hl H. induction H as [d E|d J i s d' _ I Eh Ek Ep].
    - destruct (new_dictionary_inv eqb sem dom hf x Hx Hl) as (d0 & E0 & I0 & Ek0).
      assert (d0 = d) as -> by congruence. destruct I0. constructor; try done.
      + intros s k Es. rewrite Ek0 in Es. apply lookup_replicate in Es as [-> _]. by left.
      + intros j Hj. by apply elem_of_nil in Hj.
    - unfold dict_hash_scalar in Eh.
      assert (Hi : i < length x).
      { unfold dict_hash_with in Eh. rewrite (hi_hash _ _ _ I) in Eh.
        destruct (rd (map hf x) i) as [v| |] eqn:Er; [|done|done]. apply rd_Ok in Er.
        apply lookup_lt_Some in Er. by rewrite map_length in Er. }
      destruct (lookup_lt_is_Some_nth x i Hi) as [b Eb].
      assert (Hb : dom b) by (rewrite Forall_lookup in Hx; by apply (Hx i)).
      destruct (hist_lookup x d J x i b d I (hi_hash _ _ _ I) (hi_vec _ _ _ I) Eb Hb)
        as (s' & Es' & Hs' & (t & Ht & Hst & Hocc) & Hcase).
      assert (s = Z.of_nat s') as -> by congruence. rewrite rdZ_nat in Ek. apply rd_Ok in Ek.
      destruct Hcase as [[_ Hno]|(j & a & E & _)].
      2:{ rewrite E in Ek. unfold DICT_EMPTY in Ek. injection Ek. lia. }
      assert (Hs : s' < length (d_key d)) by (by eapply lookup_lt_Some).
      unfold dict_put in Ep. rewrite wrZ_nat, wr_Ok in Ep by done. simpl in Ep. injection Ep as <-.
      assert (Hmono : forall s, d_key d !! s <> Some DICT_EMPTY ->
                <[s':=Z.of_nat i]> (d_key d) !! s <> Some DICT_EMPTY).
      { intros s H. destruct (decide (s = s')) as [->|]; [|by rewrite list_lookup_insert_ne].
        rewrite list_lookup_insert by done. unfold DICT_EMPTY. intros [= E]. lia. }
      assert (HiJ : ~ i ∈ J). { intros HJ. by apply (Hno i b). }
      assert (Hold : forall s, d_key d !! s <> Some (Z.of_nat i)).
      { intros s E. destruct (hi_key _ _ _ I _ _ E) as [E'|(j & a & E' & Hj & _)]; [unfold DICT_EMPTY in E'; lia|].
        assert (j = i) as -> by lia. done. }
      pose proof (hi_len _ _ _ I). destruct I. constructor; simpl; try done.
      + by rewrite insert_length.
      + intros s k E. destruct (decide (s = s')) as [->|Hne].
        * rewrite list_lookup_insert in E by done. injection E as <-. right. exists i, b.
          split_and!; try done; [by left|]. exists t. split_and!; try done. intros t' Ht'. by apply Hmono, Hocc.
        * rewrite list_lookup_insert_ne in E by done.
          destruct (hi_key0 s k E) as [->|(j & a & -> & Hj & Ea & t0 & Ht0 & Est & Hocc0)]; [by left|].
          right. exists j, a. split_and!; try done; [by right|]. exists t0. split_and!; try done.
          intros t' Ht'. by apply Hmono, Hocc0.
      + intros j Hj. apply elem_of_cons in Hj as [->|Hj].
        * exists s'. by rewrite list_lookup_insert.
        * destruct (hi_all0 j Hj) as [s Es]. exists s. rewrite list_lookup_insert_ne; [done|]. intros <-.
          rewrite Es in Ek. unfold DICT_EMPTY in Ek. injection Ek. lia.
      + intros s1 s2 j E1 E2. destruct (decide (s1 = s')) as [->|H1], (decide (s2 = s')) as [->|H2]; [done| | |].
        * rewrite list_lookup_insert in E1 by done. rewrite list_lookup_insert_ne in E2 by done.
          injection E1 as E1. assert (j = i) as -> by lia. by destruct (Hold s2).
        * rewrite list_lookup_insert in E2 by done. rewrite list_lookup_insert_ne in E1 by done.
          injection E2 as E2. assert (j = i) as -> by lia. by destruct (Hold s1).
        * rewrite list_lookup_insert_ne in E1, E2 by done. by apply (hi_uniq0 s1 s2 j).
  Qed.
End hist.
