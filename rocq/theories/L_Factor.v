(** * Lemmas: dictionary functions and slices of character vectors *)
From Verif Require Import Base M_Double M_Scalar M_Hash M_Object M_Proxy M_Growable M_Dict M_DictApi M_Cast M_Slice M_Subscript M_Rep M_Chop M_Factor.
From Verif Require Import Spec_Value Spec_Equal Spec_Missing Spec_Dict Spec_Slice Spec_Cast Spec_Subscript Spec_Rep Spec_Chop Spec_Factor.
From Verif Require Import L_Dbl L_Slice L_Value L_SliceVal L_Rep L_Recycle L_Chop L_Chop2 P_Slice P_Dict P_Subscript P_Chop L_Chop3.
From Coq Require Import Lia ZifyBool ZifyNat.
#[local] Arguments Z.mul : simpl never.
#[local] Arguments Z.add : simpl never.
#[local] Arguments Z.sub : simpl never.
#[local] Arguments Z.to_nat : simpl never.
#[local] Arguments Z.of_nat : simpl never.
#[local] Arguments Z.pow : simpl never.

Lemma str_ptr_eqb_false a b : str_ptr_eqb a b = false <-> a <> b.
Proof. rewrite <- str_ptr_eqb_spec. by destruct (str_ptr_eqb a b). Qed.

Lemma chr_row xs i s : xs !! i = Some s -> proxy_row (chr_proxy xs) i = [EChr s].
Proof. intros H. unfold proxy_row, cols_row. simpl. by rewrite list_lookup_fmap, H. Qed.
Lemma chr_size xs : proxy_size (chr_proxy xs) = length xs.
Proof. simpl. apply map_length. Qed.
Lemma chr_dictable xs : strs_ok xs -> (Z.of_nat (length xs) <= R_LEN_T_MAX)%Z -> dictable (chr_proxy xs).
Proof.
  intros Hs Hl. unfold dictable, proxy_ok, proxy_wf, proxy_plain, hashable, short, cols_in_range, cols_plain, vec_wf. rewrite chr_size. simpl.
  split_and!; try (apply Forall_singleton); simpl; rewrite ?map_length; try done.
  - split; [|done]. apply Forall_map, Forall_forall. done.
  - apply Forall_map. eapply Forall_impl; [apply Hs|]. intros [b|]; done.
  - apply Forall_map, Forall_forall. done.
  - apply Forall_map, Forall_forall. done.
  - by apply Forall_singleton.
Qed.
Lemma chr_rows_equal xs i a ys j b : xs !! i = Some a -> ys !! j = Some b ->
  rows_equal (chr_proxy xs) i (chr_proxy ys) j <-> a = b.
Proof.
  intros Hi Hj. unfold rows_equal, row_same. rewrite (chr_row _ _ _ Hi), (chr_row _ _ _ Hj). simpl. split; [congruence|by intros ->].
Qed.

(** [z] is the position of the first occurrence of [s] in [hay]. *)
Definition pos_in (hay : list rstr) (s : rstr) (z : Z) : Prop :=
  (z = NA_INTEGER /\ s ∉ hay) \/
  exists j, z = (Z.of_nat j + 1)%Z /\ hay !! j = Some s /\ forall k, k < j -> hay !! k <> Some s.

Lemma chr_match_spec addr ns hay : strs_ok ns -> strs_ok hay ->
  (Z.of_nat (length ns) <= R_LEN_T_MAX)%Z -> (Z.of_nat (length hay) <= R_LEN_T_MAX)%Z ->
  exists out, chr_match addr ns hay = Ok out /\ Forall2 (pos_in hay) ns out.
Proof.
  intros H1 H2 H3 H4.
  destruct (C09_match addr (chr_proxy ns) (chr_proxy hay)) as (out & E & L & H); [by apply chr_dictable..|].
  exists out. split; [done|]. rewrite chr_size in *. apply Forall2_same_length_lookup. split; [done|].
  intros i s z Hs Hz. assert (Hi : i < length ns) by by apply lookup_lt_Some in Hs.
  destruct (H i Hi) as (z' & Ez & Hm). assert (z' = z) as -> by congruence. destruct Hm as [[-> Hn]|(j & -> & Hj & He & Hf)].
  - left. split; [done|]. intros (j & Hj)%elem_of_list_lookup. apply Hn. exists j. rewrite chr_size.
    split; [by apply lookup_lt_Some in Hj|]. by apply (chr_rows_equal _ _ _ _ _ _ Hj Hs).
  - right. exists j. rewrite chr_size in Hj. split; [done|]. apply lookup_lt_is_Some in Hj as [b Hb].
    apply (chr_rows_equal _ _ _ _ _ _ Hb Hs) in He as ->. split; [done|]. intros k Hk Hks.
    apply (Hf k Hk). by apply (chr_rows_equal _ _ _ _ _ _ Hks Hs).
Qed.

(** ** Slices *)
Lemma value_chr_chr xs : value_chr (chr_value xs) = xs.
Proof. unfold value_chr, chr_value. rewrite map_map. simpl. by rewrite map_id. Qed.
Lemma chr_value_ok xs : (Z.of_nat (length xs) <= INT_MAX)%Z -> value_ok (chr_value xs).
Proof. intros H. constructor; [|done|by rewrite map_length]. apply Forall_map, Forall_forall. done. Qed.
Lemma value_chr_sliced xs locs out : sliced locs (chr_value xs) out -> value_chr out = map (pick None xs) locs.
Proof.
  intros H. inversion H; subst. unfold value_chr. rewrite map_map. apply map_ext. intros i. unfold pick.
  destruct (i =? NA_INTEGER)%Z; [done|]. change (vtype_na TChr) with (EChr None). by rewrite map_nth.
Qed.

Lemma vec_slice_locs v locs : value_ok v -> Forall (fun l => 1 <= l <= value_size v)%Z locs ->
  exists out, vec_slice v (IInt (locs, None)) = Ok out /\ sliced locs v out.
Proof.
  intros Hv Hl. pose proof (value_size_range v Hv) as Hr. set (n := Z.to_nat (value_size v)).
  assert (En : value_size v = Z.of_nat n) by (unfold n; lia).
  destruct (C23_int (locs, None) n default_opts) as [_ H]; simpl.
  - eapply Forall_impl; [apply Hl|]. simpl. unfold is_int, INT_MAX, INT_MIN in *. intros; lia.
  - done.
  - lia.
  - intros [_ (e & H1 & H2 & H3)]. rewrite Forall_forall in Hl. specialize (Hl e H1). lia.
  - assert (E : int_as_location (locs, None) (Z.of_nat n) default_opts = Ok (locs, None)).
    { rewrite H.
      - unfold kept. simpl. do 2 f_equal. rewrite Forall_forall in Hl. clear -Hl En.
        induction locs as [|l locs IH]; [done|]. rewrite filter_cons, decide_True.
        + f_equal. apply IH. intros. apply Hl. by right.
        + pose proof (Hl l ltac:(left)). unfold int_keep. simpl.
          destruct (Z.eqb_spec l NA_INTEGER); [unfold NA_INTEGER, INT_MIN in *; lia|]. destruct (Z.eqb_spec l 0); [lia|].
          destruct (Z.ltb_spec (Z.of_nat n) (Z.abs l)); [lia|done].
      - unfold int_bad. simpl. rewrite Forall_forall in Hl. intros [[? _]|[[? _]|[[? _]|[[_ (e & H1 & H2 & H3)]|[? _]]]]]; try done.
        specialize (Hl e H1). lia.
      - unfold abs_of_na. simpl. intuition done. }
    unfold vec_slice. cbn [vec_as_location_opts]. rewrite En, E. cbn [bind fst].
    apply C24_slice; [done| |done]. split; [|done]. simpl. eapply Forall_impl; [apply Hl|]. simpl. intros; right; lia.
Qed.

(** ** Distinct elements *)
Lemma chr_unique_spec addr xs : strs_ok xs -> strs_fit xs ->
  exists out, chr_unique addr xs = Ok out /\ first_appearances xs out.
Proof.
  intros Ho [Hl Hd]. unfold chr_unique.
  destruct (C07_unique_loc_partial addr (chr_proxy xs)) as (loc & E & HL & HS); [by apply chr_dictable| |].
  { intros k (ls & Hnd & Hls & <-). rewrite <- (map_length (fun i => default (None : rstr) (xs !! i)) ls).
    rewrite chr_size in Hls. apply Hd.
    - apply NoDup_fmap_2_strong; [|done]. intros i j Hi Hj. apply Hls in Hi as [Hi Fi], Hj as [Hj Fj].
      apply lookup_lt_is_Some in Hi as [a Ha], Hj as [b Hb]. cbn beta. rewrite Ha, Hb. simpl. intros ->.
      destruct (Nat.lt_trichotomy i j) as [H|[H|H]]; [|done|]; exfalso.
      + apply (Fj i H). by apply (chr_rows_equal _ _ _ _ _ _ Ha Hb).
      + apply (Fi j H). by apply (chr_rows_equal _ _ _ _ _ _ Hb Ha).
    - intros s. rewrite elem_of_list_fmap. intros (i & -> & Hi). apply Hls in Hi as [Hi _].
      apply lookup_lt_is_Some in Hi as [a Ha]. cbn beta. rewrite Ha. simpl. by eapply elem_of_list_lookup_2. }
  rewrite E. cbn [bind]. rewrite chr_size in HL.
  assert (Hloc : forall k, k ∈ loc <-> exists i s, k = (Z.of_nat i + 1)%Z /\ xs !! i = Some s /\ forall j, j < i -> xs !! j <> Some s).
  { intros k. rewrite HL. split.
    - intros (i & -> & Hi & Fi). apply lookup_lt_is_Some in Hi as [s Hs]. exists i, s. split_and!; [done..|].
      intros j Hj Hjs. apply (Fi j Hj). by apply (chr_rows_equal _ _ _ _ _ _ Hjs Hs).
    - intros (i & s & -> & Hs & Hf). exists i. split; [done|]. split; [by apply lookup_lt_Some in Hs|].
      intros j Hj Hr. assert (Hlt : j < length xs) by (apply lookup_lt_Some in Hs; lia). apply lookup_lt_is_Some in Hlt as [b Hb].
      apply (chr_rows_equal _ _ _ _ _ _ Hb Hs) in Hr as ->. by apply (Hf j). }
  destruct (vec_slice_locs (chr_value xs) loc) as (out & E2 & Hsl).
  { apply chr_value_ok. unfold R_LEN_T_MAX in Hl. done. }
  { apply Forall_forall. intros k (i & s & -> & Hs & _)%Hloc. apply lookup_lt_Some in Hs. unfold chr_value. simpl. rewrite map_length. lia. }
  rewrite E2. cbn [bind]. eexists. split; [done|]. rewrite (value_chr_sliced _ _ _ Hsl).
  assert (Hpick : forall i, i < length xs -> pick (None : rstr) xs (Z.of_nat i + 1) = default (None : rstr) (xs !! i)).
  { intros i Hi. unfold pick. destruct (Z.eqb_spec (Z.of_nat i + 1) NA_INTEGER); [unfold NA_INTEGER, INT_MIN in *; lia|].
    rewrite nth_lookup. by replace (Z.to_nat (Z.of_nat i + 1 - 1)) with i by lia. }
  assert (Hat : forall k, k ∈ loc -> exists i (s : rstr), k = (Z.of_nat i + 1)%Z /\ xs !! i = Some s /\ (forall j, j < i -> xs !! j <> Some s) /\ pick None xs k = s).
  { intros k (i & s & -> & Hs & Hf)%Hloc. exists i, s. split_and!; [done..|]. rewrite Hpick by (by apply lookup_lt_Some in Hs). by rewrite Hs. }
  split_and!.
  - apply NoDup_alt. intros a b s Ha Hb. rewrite list_lookup_fmap in Ha, Hb.
    destruct (loc !! a) as [ka|] eqn:Ea; [|done]. destruct (loc !! b) as [kb|] eqn:Eb; [|done]. simpl in Ha, Hb.
    destruct (Hat ka) as (i & s1 & -> & H1 & F1 & P1); [by eapply elem_of_list_lookup_2|].
    destruct (Hat kb) as (j & s2 & -> & H2 & F2 & P2); [by eapply elem_of_list_lookup_2|].
    assert (s1 = s2) as -> by congruence. assert (i = j) as <-.
    { destruct (Nat.lt_trichotomy i j) as [H|[H|H]]; [by destruct (F2 i)|done|by destruct (F1 j)]. }
    destruct (Nat.lt_trichotomy a b) as [H|[H|H]]; [|done|].
    + pose proof (HS _ _ _ _ H Ea Eb). lia.
    + pose proof (HS _ _ _ _ H Eb Ea). lia.
  - intros s. rewrite elem_of_list_fmap. split.
    + intros (k & -> & Hk). destruct (Hat k Hk) as (i & s & -> & Hs & _ & ->). by eapply elem_of_list_lookup_2.
    + intros Hs. apply elem_of_list_lookup in Hs as [i0 Hi0].
      assert (exists i, xs !! i = Some s /\ forall j, j < i -> xs !! j <> Some s) as (i & Hi & Hf).
      { revert Hi0. induction (lt_wf i0) as [i0 _ IH]. intros Hi0.
        destruct (decide (Forall (fun x => x <> s) (take i0 xs))) as [Hn|Hn].
        - exists i0. split; [done|]. intros j Hj Hjs. rewrite Forall_forall in Hn. apply (Hn s); [|done].
          apply elem_of_list_lookup. exists j. by rewrite lookup_take.
        - apply not_Forall_Exists in Hn; [|solve_decision]. apply Exists_exists in Hn as (x & Hx & Hxs).
          apply elem_of_list_lookup in Hx as [j Hj]. apply lookup_take_Some in Hj as [Hj Hji]. apply (IH j Hji).
          rewrite Hj. f_equal. by apply dec_stable. }
      exists (Z.of_nat i + 1)%Z. split; [rewrite Hpick by (by apply lookup_lt_Some in Hi); by rewrite Hi|].
      apply Hloc. by exists i, s.
  - intros a b s1 s2 Hab Ha Hb. rewrite list_lookup_fmap in Ha, Hb.
    destruct (loc !! a) as [ka|] eqn:Ea; [|done]. destruct (loc !! b) as [kb|] eqn:Eb; [|done]. simpl in Ha, Hb.
    pose proof (HS _ _ _ _ Hab Ea Eb) as Hlt.
    destruct (Hat ka) as (i & t1 & -> & H1 & F1 & P1); [by eapply elem_of_list_lookup_2|].
    destruct (Hat kb) as (j & t2 & -> & H2 & F2 & P2); [by eapply elem_of_list_lookup_2|].
    assert (t1 = s1) as -> by congruence. assert (t2 = s2) as -> by congruence.
    exists i. split; [done|]. intros q Hq. destruct (le_lt_dec j q); [lia|]. by destruct (F2 q).
Qed.

Lemma vec_c_chr x y : (Z.of_nat (length (x ++ y)) <= INT_MAX)%Z ->
  exists v, vec_c Ok (Some (chr_value [])) [Some (chr_value x); Some (chr_value y)] = Ok (Some v) /\ value_chr v = x ++ y.
Proof.
  intros Hn. rewrite app_length in Hn.
  assert (Ex : value_size (chr_value x) = Z.of_nat (length x)) by (unfold chr_value; simpl; by rewrite map_length).
  assert (Ey : value_size (chr_value y) = Z.of_nat (length y)) by (unfold chr_value; simpl; by rewrite map_length).
  set (xs := [Some (chr_value x); Some (chr_value y)]).
  assert (Et : sizes0 xs = [Z.of_nat (length x); Z.of_nat (length y)]) by (unfold sizes0, xs; cbn [map]; by rewrite Ex, Ey).
  assert (Hok : forall z, (Z.of_nat (length z) <= INT_MAX)%Z -> P_Chop.c_ok Ok (chr_value []) (Some (chr_value z))).
  { intros z Hz. split; [by apply chr_value_ok|]. split; [done|]. intros _. exists (chr_value z). split; [done|].
    split_and!; [by apply chr_value_ok..| |done|done]. constructor. }
  destruct (C25_c Ok (chr_value []) xs) as (out & E & Ho & Hp & Hsz & Hrow).
  - apply chr_value_ok. done.
  - rewrite Et. simpl. lia.
  - constructor.
  - apply Forall_cons. split; [apply Hok; lia|]. apply Forall_singleton. apply Hok; lia.
  - exists out. split; [done|]. rewrite Et in Hsz, Hrow. inversion Hp as [? ? ? data nb| |]; subst. simpl in Hsz.
    apply list_eq_same_length with (n := length x + length y).
    { by rewrite app_length. }
    { simpl. rewrite map_length. lia. }
    intros i a b Hi Ha Hb.
    assert (Hcase : exists j z k, xs !! j = Some (Some (chr_value z)) /\ z !! k = Some b /\
       (Z.of_nat i + 1 = total (take j [Z.of_nat (length x); Z.of_nat (length y)]) + (Z.of_nat k + 1))%Z).
    { destruct (decide (i < length x)).
      - exists 0, x, i. split; [done|]. rewrite lookup_app_l in Hb by done. split; [done|]. simpl. lia.
      - exists 1, y, (i - length x). split; [done|]. rewrite lookup_app_r in Hb by lia. split; [done|]. simpl. lia. }
    destruct Hcase as (j & z & k & Hj & Hk & Ei).
    destruct (Hrow j (chr_value z) (chr_value z) (Z.of_nat k + 1)%Z) as (r & R1 & R2); [done|done| |].
    { unfold chr_value. simpl. rewrite map_length. apply lookup_lt_Some in Hk. lia. }
    rewrite <- Ei in R1. unfold full, chr_value in R1, R2. simpl in R1, R2.
    assert (Epick : pick (EChr None) data (Z.of_nat i + 1) = pick (EChr None) (map EChr z) (Z.of_nat k + 1)).
    { inversion R1; subst. inversion R2; subst. congruence. }
    unfold pick in Epick. destruct (Z.eqb_spec (Z.of_nat i + 1) NA_INTEGER); [unfold NA_INTEGER, INT_MIN in *; lia|].
    destruct (Z.eqb_spec (Z.of_nat k + 1) NA_INTEGER); [unfold NA_INTEGER, INT_MIN in *; lia|].
    rewrite !nth_lookup in Epick. replace (Z.to_nat (Z.of_nat i + 1 - 1)) with i in Epick by lia.
    replace (Z.to_nat (Z.of_nat k + 1 - 1)) with k in Epick by lia. rewrite list_lookup_fmap, Hk in Epick. simpl in Epick.
    simpl in Ha. rewrite list_lookup_fmap in Ha. destruct (data !! i) as [e|]; [|done]. simpl in Epick, Ha. subst e. congruence.
Qed.

Lemma levels_union_spec addr x y : strs_ok x -> strs_ok y -> strs_fit (x ++ y) ->
  exists out, levels_union addr x y = Ok out /\ first_appearances (x ++ y) out.
Proof.
  intros Hx Hy Hf. unfold levels_union. destruct (vec_c_chr x y) as (v & -> & Ev); [apply Hf|]. cbn [bind]. rewrite Ev.
  apply chr_unique_spec; [|done]. by apply Forall_app.
Qed.

(** ** First appearances *)
Lemma first_pos {A} `{EqDecision A} (xs : list A) s : s ∈ xs -> exists i, xs !! i = Some s /\ forall j, xs !! j = Some s -> i <= j.
Proof.
  induction xs as [|x xs IH]; [by intros ?%elem_of_nil|]. intros H. destruct (decide (x = s)) as [->|Hn].
  - exists 0. split; [done|]. lia.
  - apply elem_of_cons in H as [?|H]; [congruence|]. destruct (IH H) as (i & Hi & Hf). exists (S i). split; [done|].
    intros [|j] Hj; simpl in Hj; [congruence|]. apply Hf in Hj. lia.
Qed.
Section appearances.
  Context {A : Type} `{EqDecision A}.
  Implicit Types xs ys a b out : list A.
  (** Appearing before. *)
  Definition before xs s t : Prop := exists p, xs !! p = Some s /\ forall q, xs !! q = Some t -> p < q.
  Lemma before_asym xs s t : t ∈ xs -> before xs s t -> before xs t s -> False.
  Proof. intros Ht (p & Hp & H1) (q & Hq & H2). specialize (H1 q Hq). specialize (H2 p Hp). lia. Qed.
  Lemma ordered_unique xs a : forall b, NoDup a -> NoDup b -> (forall s, s ∈ a <-> s ∈ b) -> (forall s, s ∈ a -> s ∈ xs) ->
      (forall i j s t, i < j -> a !! i = Some s -> a !! j = Some t -> before xs s t) ->
      (forall i j s t, i < j -> b !! i = Some s -> b !! j = Some t -> before xs s t) -> a = b.
  Proof.
    induction a as [|x a IH]; intros [|y b] Na Nb Hab Hx Ha Hb; [done| | |].
    - exfalso. apply (not_elem_of_nil y). apply Hab. left.
    - exfalso. apply (not_elem_of_nil x). apply Hab. left.
    - assert (x = y) as <-.
      { destruct (decide (x = y)) as [|Hn]; [done|]. exfalso.
        assert (Hy : y ∈ a). { assert (y ∈ x :: a) as [?|?]%elem_of_cons by (apply Hab; left); congruence. }
        assert (Hx' : x ∈ b). { assert (x ∈ y :: b) as [?|?]%elem_of_cons by (apply Hab; left); congruence. }
        apply elem_of_list_lookup in Hy as [j Hj]. apply elem_of_list_lookup in Hx' as [i Hi].
        apply (before_asym xs x y); [apply Hx; right; by eapply elem_of_list_lookup_2| |].
        - by apply (Ha 0 (S j)); [lia|..].
        - by apply (Hb 0 (S i)); [lia|..]. }
      apply NoDup_cons in Na as [Nx Na]. apply NoDup_cons in Nb as [Ny Nb]. f_equal. apply IH; try done.
      + intros s. specialize (Hab s). rewrite !elem_of_cons in Hab. split; intros Hs.
        * destruct (proj1 Hab (or_intror Hs)); [congruence|done].
        * destruct (proj2 Hab (or_intror Hs)); [congruence|done].
      + intros s Hs. apply Hx. by right.
      + intros i j s t Hij H1 H2. by apply (Ha (S i) (S j)); [lia|..].
      + intros i j s t Hij H1 H2. by apply (Hb (S i) (S j)); [lia|..].
  Qed.
  Lemma first_appearances_unique xs a b : first_appearances xs a -> first_appearances xs b -> a = b.
  Proof.
    intros (A1 & A2 & A3) (B1 & B2 & B3). apply (ordered_unique xs); try done.
    - intros s. by rewrite A2, B2.
    - intros s. apply A2.
  Qed.
  Lemma first_appearances_nodup xs : NoDup xs -> first_appearances xs xs.
  Proof.
    intros H. split_and!; [done..|]. intros i j s t Hij Hi Hj. exists i. split; [done|]. intros q Hq.
    by rewrite (NoDup_lookup _ _ _ _ H Hq Hj).
  Qed.
  (** The elements of [ys] that are new. *)
  Lemma first_appearances_ext xs ys out : first_appearances xs out ->
    exists r, first_appearances (xs ++ ys) (out ++ r) /\ (forall s, s ∈ r -> s ∈ ys).
  Proof.
    revert out. induction ys as [|y ys IH] using rev_ind; intros out H.
    - exists []. rewrite !app_nil_r. split; [done|]. intros s ?%elem_of_nil; done.
    - destruct (IH _ H) as (r & (N1 & N2 & N3) & Hr). destruct (decide (y ∈ xs ++ ys)) as [Hy|Hy].
      + exists r. split; [|intros s Hs; apply elem_of_app; left; by apply Hr]. rewrite app_assoc. split_and!; [done| |].
        * intros s. rewrite N2, (elem_of_app (xs ++ ys)), elem_of_list_singleton. split; [by left|]. intros [?| ->]; done.
        * intros i j s t Hij Hi Hj. destruct (N3 i j s t Hij Hi Hj) as (p & Hp & Hq). exists p. split; [by apply lookup_app_l_Some|].
          intros q [Hq'|[Hge Hq']]%lookup_app_Some; [by apply Hq|]. apply lookup_lt_Some in Hp. lia.
      + exists (r ++ [y]). split.
        2:{ intros s [Hs|Hs]%elem_of_app; apply elem_of_app; [left; by apply Hr|by right]. }
        rewrite !app_assoc. split_and!.
        * apply NoDup_app. split_and!; [done| |apply NoDup_singleton]. intros s Hs ->%elem_of_list_singleton. apply Hy. by apply N2.
        * intros s. rewrite !(elem_of_app (out ++ r)), N2, (elem_of_app (xs ++ ys)). done.
        * intros i j s t Hij Hi Hj.
          assert (Hi' : (out ++ r) !! i = Some s).
          { apply lookup_app_Some in Hi as [?|[Hge Hi]]; [done|]. apply list_lookup_singleton_Some in Hi as [? _].
            apply lookup_lt_Some in Hj. rewrite app_length in Hj. simpl in Hj. lia. }
          apply lookup_app_Some in Hj as [Hj|[Hge Hj]].
          -- destruct (N3 i j s t Hij Hi' Hj) as (p & Hp & Hq). exists p. split; [by apply lookup_app_l_Some|].
             intros q [Hq'|[Hge Hq']]%lookup_app_Some; [by apply Hq|]. apply lookup_lt_Some in Hp. lia.
          -- apply list_lookup_singleton_Some in Hj as [_ <-].
             assert (Hs : s ∈ xs ++ ys) by (apply N2; by eapply elem_of_list_lookup_2).
             apply elem_of_list_lookup in Hs as [p Hp]. exists p. split; [by apply lookup_app_l_Some|].
             intros q [Hq'|[Hge' Hq']]%lookup_app_Some; [by apply elem_of_list_lookup_2 in Hq'|]. apply lookup_lt_Some in Hp. lia.
  Qed.
  Lemma first_appearances_prefix xs ys out : NoDup xs -> first_appearances (xs ++ ys) out -> exists r, out = xs ++ r.
  Proof.
    intros H1 H2. destruct (first_appearances_ext xs ys xs (first_appearances_nodup _ H1)) as (r & H3 & _).
    exists r. by eapply first_appearances_unique.
  Qed.
  Lemma first_appearances_self xs : NoDup xs -> first_appearances (xs ++ xs) xs.
  Proof.
    intros H. split_and!; [done| |].
    - intros s. rewrite elem_of_app. tauto.
    - intros i j s t Hij Hi Hj. exists i. split; [by apply lookup_app_l_Some|]. intros q Hq.
      destruct (first_appearances_nodup xs H) as (_ & _ & N). apply lookup_app_Some in Hq as [Hq|[Hge Hq]].
      + by rewrite (NoDup_lookup _ _ _ _ H Hq Hj).
      + apply lookup_lt_Some in Hi. lia.
  Qed.
  Lemma first_appearances_app xs ys a b :
    first_appearances xs a -> first_appearances (a ++ ys) b -> first_appearances (xs ++ ys) b.
  Proof.
    intros H1 (B1 & B2 & B3). pose proof H1 as (A1 & A2 & A3). split_and!; [done| |].
    - intros s. rewrite B2, !elem_of_app, A2. done.
    - intros i j s t Hij Hi Hj. destruct (B3 i j s t Hij Hi Hj) as (p & Hp & Hq).
      apply lookup_app_Some in Hp as [Hp|[Hge Hp]].
      + (* [s] is old *)
        assert (Hs : s ∈ xs) by (apply A2; by eapply elem_of_list_lookup_2).
        destruct (decide (t ∈ xs)) as [Ht|Ht].
        * apply A2 in Ht as Ht'. apply elem_of_list_lookup in Ht' as [q Hq'].
          assert (Hpq : p < q) by (apply Hq; by apply lookup_app_l_Some).
          destruct (A3 p q s t Hpq Hp Hq') as (u & Hu & Hv). exists u. split; [by apply lookup_app_l_Some|].
          intros w [Hw|[Hge Hw]]%lookup_app_Some; [by apply Hv|]. apply lookup_lt_Some in Hu. lia.
        * destruct (first_pos xs s Hs) as (u & Hu & _). exists u. split; [by apply lookup_app_l_Some|].
          intros w [Hw|[Hge Hw]]%lookup_app_Some; [by apply elem_of_list_lookup_2 in Hw|]. apply lookup_lt_Some in Hu. lia.
      + (* [s] is in [ys] *)
        assert (Ht : t ∉ a). { intros Ht. apply elem_of_list_lookup in Ht as [q Hq']. assert (p < q) by (apply Hq; by apply lookup_app_l_Some).
          apply lookup_lt_Some in Hq'. lia. }
        destruct (decide (s ∈ xs)) as [Hs|Hs].
        * destruct (first_pos xs s Hs) as (u & Hu & _). exists u. split; [by apply lookup_app_l_Some|].
          intros w [Hw|[Hge' Hw]]%lookup_app_Some; [destruct Ht; apply A2; by eapply elem_of_list_lookup_2|]. apply lookup_lt_Some in Hu. lia.
        * exists (length xs + (p - length a)). split; [rewrite lookup_app_r by lia; by replace (length xs + (p - length a) - length xs) with (p - length a) by lia|].
          intros w [Hw|[Hge' Hw]]%lookup_app_Some; [destruct Ht; apply A2; by eapply elem_of_list_lookup_2|].
          assert (p < length a + (w - length xs)); [|lia]. apply Hq. rewrite lookup_app_r by lia.
          by replace (length a + (w - length xs) - length a) with (w - length xs) by lia.
  Qed.
End appearances.
