(** * Lemmas: vec_group_rle over an abstract element type *)
From Verif Require Import Base M_Growable M_Hash M_Dict L_Proxy L_DictNum L_Dict L_Growable L_DictOps L_DictOps2 L_DictOps3.
From Coq Require Import ZifyBool ZifyNat.

Definition adjacent_distinct {A} (l : list A) : Prop :=
  forall r a b, l !! r = Some a -> l !! S r = Some b -> a <> b.

Lemma adjacent_distinct_snoc {A} (l : list A) a b : adjacent_distinct (l ++ [a]) -> a <> b ->
  adjacent_distinct ((l ++ [a]) ++ [b]).
Proof.
  intros H Hab r u v E1 E2.
  destruct (decide (S r < length (l ++ [a]))) as [Hlt|Hge].
  - rewrite lookup_app_l in E1 by lia. rewrite lookup_app_l in E2 by lia. by apply (H r).
  - pose proof (lookup_lt_Some _ _ _ E2) as Hlt. rewrite app_length in Hlt. simpl in Hlt.
    assert (Hr : S r = length (l ++ [a])) by lia.
    rewrite lookup_app_r in E2 by lia. replace (S r - length (l ++ [a])) with 0 in E2 by lia. injection E2 as <-.
    rewrite lookup_app_l in E1 by lia. rewrite app_length in Hr. simpl in Hr.
    rewrite lookup_app_r in E1 by lia. replace (r - length l) with 0 in E1 by lia. injection E1 as <-. done.
Qed.

Section ops.
  Context {A B : Type} (eqb : A -> A -> bool) (sem : A -> B) (dom : A -> Prop) (hf : A -> Z).
  Context (eqb_spec : forall a b, dom a -> dom b -> eqb a b = true <-> sem a = sem b).
  Context (hf_spec : forall a b, dom a -> dom b -> sem a = sem b -> hf a = hf b).

  Notation dinv := (dinv eqb sem dom hf).
  Notation firsts := (firsts eqb).
  Notation X x := (map sem x).
  Notation visit_step := (visit_step eqb sem dom hf eqb_spec hf_spec).

  Lemma take_snoc_lookup {T} (l : list T) k gs (v : T) :
    take (S k) l = gs ++ [v] -> length gs = k -> l !! k = Some v /\ take k l = gs /\ k < length l.
  Proof.
    intros E H. assert (Hk : k < length l).
    { apply (f_equal length) in E. rewrite take_length, app_length in E. cbn [length] in E. lia. }
    destruct (lookup_lt_is_Some_nth l k Hk) as [w Ew]. rewrite (take_S_r _ _ _ Ew) in E.
    apply app_inj_tail in E as [E1 ->]. done.
  Qed.

  (** The group identifier list: position [i] holds 1 + the index of the class of [x[i]]. *)
  Definition group_ids (x : list A) (out : list Z) : Prop :=
    length out = length x /\
    forall i, i < length x -> exists f, f <= i /\ is_first (X x) f /\ X x !! f = X x !! i /\
      out !! i = Some (1 + Z.of_nat (length (firsts x f)))%Z.

  Lemma group_ids_eq x out i j : Forall dom x -> group_ids x out -> i < length x -> j < length x ->
    out !! i = out !! j <-> X x !! i = X x !! j.
  Proof.
    intros Hx [Hl H] Hi Hj. destruct (H i Hi) as (f & Hf & Ff & Ef & ->), (H j Hj) as (g & Hg & Fg & Eg & ->). split.
    - intros E. assert (f = g) as ->; [|congruence].
      apply (firsts_index_inj eqb sem dom eqb_spec x f g Hx); try done; try lia. injection E. lia.
    - intros E. assert (f = g) as -> by (apply (first_unique (X x)); [done|done|congruence]). done.
  Qed.

  Lemma vec_group_rle_spec x : Forall dom x -> fits x ->
    exists ids g l, group_ids x ids /\
      vec_group_rle eqb x (map hf x) = Ok (g, l, Z.of_nat (length (firsts x (length x)))) /\
      length g = length l /\ rle_decode g l = ids /\ Forall (fun z => (1 <= z)%Z) l /\ adjacent_distinct g.
  Proof.
    intros Hx Hl.
    destruct (group_id_loop_spec eqb sem dom hf eqb_spec hf_spec 1 x Hx Hl) as (dd & ids & _ & _ & Hids & HG).
    assert (GI : group_ids x ids) by (split; [done|]; intros i Hi; destruct (HG i Hi) as (f & ?); exists f; naive_solver).
    exists ids. unfold vec_group_rle. set (n := length x) in *.
    destruct (new_dictionary_inv eqb sem dom hf x Hx Hl) as (d0 & -> & I0 & E0). simpl.
    destruct (Nat.eqb_spec n 0) as [Hn|Hn].
    { assert (x = []) as -> by (by apply nil_length_inv). unfold n. simpl. exists [], [].
      split_and!; try done. destruct ids; done. }
    destruct (lookup_lt_is_Some_nth x 0 ltac:(lia)) as [b0 Eb0].
    assert (Hb0 : dom b0) by (rewrite Forall_lookup in Hx; by apply (Hx 0)).
    unfold dict_hash_scalar.
    destruct (dict_hash_with_spec eqb sem dom hf eqb_spec hf_spec x d0 0 x 0 b0 d0 I0
      (di_hash _ _ _ _ _ _ _ I0) (di_vec _ _ _ _ _ _ _ I0) Eb0 Hb0) as (s0 & -> & Hs0 & Ht0 & Hc0). simpl.
    destruct Hc0 as [[Es0 _]|(j & _ & Hj & _)]; [|lia].
    assert (F0 : is_first (X x) 0) by (intros j Hj; lia).
    destruct (dinv_put eqb sem dom hf eqb_spec hf_spec x d0 0 s0 b0 I0 Eb0 F0 Es0 Ht0) as (d1 & -> & I1 & Ek1 & Hsz1). simpl.
    rewrite wrZ_nat, wr_Ok by (by rewrite replicate_length). simpl.
    destruct n as [|n'] eqn:En; [done|]. simpl.
    assert (Eid0 : ids !! 0 = Some 1%Z).
    { destruct (HG 0 ltac:(lia)) as (f & Hf & _ & _ & E). assert (f = 0) as -> by lia. done. }
    rewrite Nat.sub_0_r.
    match goal with |- context [for_ 1 n' ?body ?st] =>
      destruct (for_inv (fun i '(d, mp, g, l, il, loc) => dinv x d i /\ d_size d = d_size d0 /\
          length g = S n' /\ length l = S n' /\ length mp = Z.to_nat (d_size d0) /\ loc = S il /\ S il <= i /\
          (exists gs ls gl ll, take (S il) g = gs ++ [gl] /\ take (S il) l = ls ++ [ll] /\
              length gs = il /\ length ls = il /\ rle_decode (gs ++ [gl]) (ls ++ [ll]) = take i ids /\
              ids !! (i - 1) = Some gl /\ Forall (fun z => (1 <= z)%Z) (ls ++ [ll]) /\ adjacent_distinct (gs ++ [gl])) /\
          (forall s j, d_key d !! s = Some (Z.of_nat j) -> exists r v, mp !! s = Some (Z.of_nat r) /\ r < loc /\ g !! r = Some v /\ ids !! j = Some v))
        1 n' body st) as ([[[[[d mp] g] l] il] loc] & -> & I & Hsz & Hgl & Hll & Hmp & -> & Hil & (gs & ls & gl & ll & Eg & El & Hgs & Hls & Edec & Elast & Hpos & Hadj) & _) end.
    { split_and!; try done.
      - simpl. by rewrite replicate_length.
      - simpl. by rewrite replicate_length.
      - by rewrite insert_length, replicate_length.
      - exists [], [], 1%Z, 1%Z. simpl. split_and!; try done.
        + by rewrite (take_S_r _ _ _ Eid0).
        + by repeat constructor.
      - intros s j E. destruct (key_first eqb sem dom hf eqb_spec hf_spec _ _ _ _ _ I1 E) as [Hj _]. assert (j = 0) as -> by lia.
        assert (s = s0) as ->.
        { rewrite Ek1 in E. destruct (decide (s = s0)) as [|Hne]; [done|]. rewrite list_lookup_insert_ne in E by done.
          destruct (key_first eqb sem dom hf eqb_spec hf_spec _ _ _ _ _ I0 E). lia. }
        exists 0, 1%Z. rewrite list_lookup_insert by (by rewrite replicate_length). simpl. split_and!; try done; lia. }
    { intros i [[[[[d mp] g] l] il] loc] Hi (I & Hsz & Hgl & Hll & Hmp & -> & Hil & (gs & ls & gl & ll & Eg & El & Hgs & Hls & Edec & Elast & Hpos & Hadj) & HM).
      rewrite (di_vec _ _ _ _ _ _ _ I).
      destruct (lookup_lt_is_Some_nth x (i - 1) ltac:(lia)) as [a Ea].
      destruct (lookup_lt_is_Some_nth x i ltac:(lia)) as [b Eb].
      rewrite (proj2 (rd_Ok _ _ _) Ea). simpl. rewrite (proj2 (rd_Ok _ _ _) Eb). simpl.
      pose proof Hx as Hx'. rewrite Forall_lookup in Hx'.
      pose proof (eqb_spec a b (Hx' _ _ Ea) (Hx' _ _ Eb)) as Heq.
      destruct (take_snoc_lookup l il ls ll El Hls) as (Ell & Htl & Hill).
      destruct (take_snoc_lookup g il gs gl Eg Hgs) as (Egl & Htg & _).
      destruct (lookup_lt_is_Some_nth ids i ltac:(lia)) as [v Ev].
      destruct (eqb a b) eqn:Eab.
      - assert (Hsame : X x !! (i - 1) = X x !! i).
        { rewrite !list_lookup_fmap, Ea, Eb. simpl. f_equal. by apply Heq. }
        rewrite (proj2 (rd_Ok _ _ _) Ell). simpl. rewrite wr_Ok by lia. simpl.
        eexists. split; [reflexivity|]. cbv beta iota. rewrite insert_length.
        assert (Hv : v = gl).
        { apply (group_ids_eq x ids (i - 1) i Hx GI) in Hsame; [congruence|lia|lia]. }
        split_and!; try done; [|lia|].
        + apply dinv_skip; [done|done|done|lia|]. intros F. apply (F (i - 1)); [lia|done].
        + exists gs, ls, gl, (ll + 1)%Z. split_and!; try done.
          * rewrite take_S_insert by lia. by rewrite Htl.
          * rewrite rle_decode_snoc in Edec |- * by congruence.
            apply Forall_app in Hpos as [_ Hp]. inversion Hp; subst.
            replace (Z.to_nat (ll + 1)) with (Z.to_nat ll + 1) by lia.
            rewrite replicate_add, app_assoc, Edec. simpl. by rewrite (take_S_r _ _ _ Ev).
          * rewrite Nat.sub_0_r. rewrite Ev; by rewrite Hv.
          * apply Forall_app in Hpos as [Hp1 Hp]. inversion Hp; subst. apply Forall_app; split; [done|].
            constructor; [lia|done].
      - assert (Hdiff : X x !! (i - 1) <> X x !! i).
        { rewrite !list_lookup_fmap, Ea, Eb. simpl. intros [= E]. apply Heq in E. done. }
        assert (Hv : gl <> v).
        { intros ->. apply Hdiff. apply (group_ids_eq x ids (i - 1) i Hx GI); [lia|lia|congruence]. }
        rewrite wr_Ok by lia. simpl.
        destruct (visit_step x d i I) as (d2 & s & f & key & -> & I2 & Hsz2 & Hs & Ek & Hf & Ff & Ef & Hmono & Hc); [lia|].
        simpl. assert (Hs' : s < length mp) by (rewrite Hmp, <- Hsz; done).
        assert (Evf : ids !! f = Some v).
        { rewrite <- Ev. apply (group_ids_eq x ids f i Hx GI); [lia|lia|done]. }
        assert (Hgoal : forall mp', length mp' = Z.to_nat (d_size d0) ->
          (forall s j, d_key d2 !! s = Some (Z.of_nat j) -> exists r v', mp' !! s = Some (Z.of_nat r) /\ r < S (S il) /\
             <[S il := v]> g !! r = Some v' /\ ids !! j = Some v') ->
          exists s', Ok (d2, mp', <[S il := v]> g, <[S il := 1%Z]> l, S il, S (S il)) = Ok s' /\
          (let '(d, mp, g, l, il, loc) := s' in dinv x d (S i) /\ d_size d = d_size d0 /\
          length g = S n' /\ length l = S n' /\ length mp = Z.to_nat (d_size d0) /\ loc = S il /\ S il <= S i /\
          (exists gs ls gl ll, take (S il) g = gs ++ [gl] /\ take (S il) l = ls ++ [ll] /\
              length gs = il /\ length ls = il /\ rle_decode (gs ++ [gl]) (ls ++ [ll]) = take (S i) ids /\
              ids !! (S i - 1) = Some gl /\ Forall (fun z => (1 <= z)%Z) (ls ++ [ll]) /\ adjacent_distinct (gs ++ [gl])) /\
          (forall s j, d_key d !! s = Some (Z.of_nat j) -> exists r v, mp !! s = Some (Z.of_nat r) /\ r < loc /\ g !! r = Some v /\ ids !! j = Some v))).
        { intros mp' Hmp' HM'. eexists. split; [reflexivity|]. cbv beta iota. rewrite !insert_length.
          split_and!; try done; [congruence|lia|].
          exists (gs ++ [gl]), (ls ++ [ll]), v, 1%Z. rewrite !take_S_insert by lia.
          rewrite Eg, El, !app_length. simpl.
          split_and!; try done; try lia.
          - rewrite rle_decode_snoc by (rewrite !app_length; simpl; lia). rewrite Edec. simpl. by rewrite (take_S_r _ _ _ Ev).
          - by rewrite Nat.sub_0_r.
          - apply Forall_app; split; [done|]. by repeat constructor.
          - by apply adjacent_distinct_snoc. }
        assert (Hold : forall s' j, d_key d !! s' = Some (Z.of_nat j) -> exists r v', mp !! s' = Some (Z.of_nat r) /\ r < S (S il) /\
             <[S il := v]> g !! r = Some v' /\ ids !! j = Some v').
        { intros s' j E. destruct (HM s' j E) as (r & v' & E1 & Hr & E2 & E3). exists r, v'.
          rewrite list_lookup_insert_ne by lia. split_and!; try done. lia. }
        destruct Hc as [(-> & -> & Hemp & Hk2)|(-> & Hlt & ->)].
        + simpl. rewrite wrZ_nat, wr_Ok by done. simpl.
          assert (Hused : d_used d2 = v).
          { rewrite (di_used _ _ _ _ _ _ _ I2), (firsts_S eqb x i).
            rewrite (proj2 (firstb_eq eqb sem dom eqb_spec x i Hx ltac:(lia)) Ff), app_length. simpl.
            destruct (HG i ltac:(lia)) as (f & Hfi & Fi & Efi & Ei).
            assert (f = i) as -> by (apply (first_unique (X x)); done). rewrite Ei in Ev. injection Ev as <-. lia. }
          rewrite Hused, wr_Ok by lia. simpl. apply Hgoal; [by rewrite insert_length|].
          intros s' j E. destruct (decide (s' = s)) as [->|Hne].
          * exists (S il), v. rewrite !list_lookup_insert by lia. rewrite Ek in E.
            assert (i = j) as <- by (injection E; lia). split_and!; try done. lia.
          * rewrite list_lookup_insert_ne by done. apply Hold. rewrite Hk2, list_lookup_insert_ne in E by done. done.
        + rewrite key_empty. destruct (HM s f Ek) as (r & v' & E1 & Hr & E2 & E3).
          rewrite rdZ_nat, (proj2 (rd_Ok _ _ _) E1). simpl. rewrite rdZ_nat, (proj2 (rd_Ok _ _ _) E2). simpl.
          assert (v' = v) as -> by congruence. rewrite wr_Ok by lia. simpl. by apply Hgoal. }
    simpl. exists (gs ++ [gl]), (ls ++ [ll]). split; [done|].
    rewrite !lengthgets_take by lia. rewrite Eg, El.
    replace (1 + n') with (S n') in * by lia.
    rewrite (di_used _ _ _ _ _ _ _ I). split_and!; try done.
    - rewrite !app_length. simpl. lia.
    - rewrite Edec. apply take_ge. lia.
  Qed.
End ops.
