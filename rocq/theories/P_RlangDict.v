(** * Property C46: the dictionary of rlang is a map *)
From Verif Require Import Base M_RlangDict.
From Coq Require Import ZifyBool ZifyNat.
#[local] Arguments Z.of_nat : simpl never.
#[local] Arguments Z.to_nat : simpl never.
#[local] Arguments Z.add : simpl never.
#[local] Arguments Z.sub : simpl never.
#[local] Arguments Z.mul : simpl never.

(** ** Specification: a map is the list of its entries, with distinct keys, in order
    of insertion. *)
Section spec.
  Context {V : Type}.
  Fixpoint assoc (m : list (Z * V)) (k : Z) : option V :=
    match m with [] => None | (k', v) :: m => if (k' =? k)%Z then Some v else assoc m k end.
  Inductive dop := Put (k : Z) (v : V) | Poke (k : Z) (v : V) | Del (k : Z) | Has (k : Z) | Get (k : Z) | Resize (size : Z) | Prevent (b : bool).
  Inductive dout := OBool (b : bool) | OVal (v : option V) | ONone.
  Definition has (m : list (Z * V)) (k : Z) : bool := match assoc m k with Some _ => true | None => false end.
  Definition spec_step (m : list (Z * V)) (o : dop) : list (Z * V) * dout :=
    match o with
    | Put k v => if has m k then (m, OBool false) else (m ++ [(k, v)], OBool true)
    | Poke k v => (if has m k then map (fun e => if (e.1 =? k)%Z then (k, v) else e) m else m ++ [(k, v)], OVal (assoc m k))
    | Del k => (List.filter (fun e => negb (e.1 =? k)%Z) m, OBool (has m k))
    | Has k => (m, OBool (has m k))
    | Get k => (m, OVal (assoc m k))
    | Resize _ | Prevent _ => (m, ONone)
    end.
  Fixpoint spec_run (m : list (Z * V)) (os : list dop) : list (Z * V) * list dout :=
    match os with
    | [] => (m, [])
    | o :: os => let '(m, x) := spec_step m o in let '(m, xs) := spec_run m os in (m, x :: xs)
    end.
End spec.
Arguments dop : clear implicits. Arguments dout : clear implicits.

(** The operations on the table; [Prevent] sets [prevent_resize]. *)
Section run.
  Context {V : Type} (hash : Z -> Z).
  Definition dict_step (d : @r_dict V) (o : dop V) : res (r_dict * dout V) :=
    match o with
    | Put k v => let! (d, b) := r_dict_put hash d k v in Ok (d, OBool b)
    | Poke k v => let! (d, x) := r_dict_poke hash d k v in Ok (d, OVal x)
    | Del k => let! (d, b) := r_dict_del hash d k in Ok (d, OBool b)
    | Has k => let! b := r_dict_has hash d k in Ok (d, OBool b)
    | Get k => let! x := r_dict_get0 hash d k in Ok (d, OVal x)
    | Resize size => let! d := r_dict_resize hash FUEL d size in Ok (d, ONone)
    | Prevent b => Ok (Dict (d_buckets d) (d_n_entries d) b, ONone)
    end.
  Fixpoint dict_run (d : @r_dict V) (os : list (dop V)) : res (r_dict * list (dout V)) :=
    match os with
    | [] => Ok (d, [])
    | o :: os => let! (d, x) := dict_step d o in let! (d, xs) := dict_run d os in Ok (d, x :: xs)
    end.
End run.

(** ** Numbers *)
Lemma float_small n : (n < 2 ^ 24)%Z -> float_of n = n.
Proof. intros H. unfold float_of. by assert ((n <? 2 ^ 24)%Z = true) as -> by lia. Qed.
Lemma float_near n : (2 ^ 24 <= n)%Z -> (15 * n <= 16 * float_of n <= 17 * n)%Z.
Proof.
  intros H. unfold float_of. assert ((n <? 2 ^ 24)%Z = false) as -> by lia.
  assert (L : (24 <= Z.log2 n)%Z) by (apply Z.log2_le_pow2; lia).
  set (e := (Z.log2 n - 23)%Z). assert (He : (1 <= e)%Z) by (unfold e; lia).
  assert (P : (2 ^ e * 2 ^ 23 <= n)%Z).
  { rewrite <- Z.pow_add_r by lia. replace (e + 23)%Z with (Z.log2 n) by (unfold e; lia). apply Z.log2_spec. lia. }
  assert (P0 : (0 < 2 ^ e)%Z) by (apply Z.pow_pos_nonneg; lia).
  pose proof (Z.div_mod n (2 ^ e) ltac:(lia)) as D. pose proof (Z.mod_pos_bound n (2 ^ e) P0) as M.
  set (q := (n / 2 ^ e)%Z) in *. set (r := (n mod 2 ^ e)%Z) in *. set (t := (2 ^ e)%Z) in *.
  change (2 ^ 23)%Z with 8388608%Z in P.
  destruct (_ || _)%bool; nia.
Qed.
(** One more entry cannot fill a table of twice the size. *)
Lemma float_grow n nb j : (1 <= nb)%Z -> (0 <= n)%Z -> (4 * float_of n <= 3 * nb)%Z -> (0 <= j <= n + 1)%Z -> (4 * float_of j <= 3 * (2 * nb))%Z.
Proof.
  intros H1 H2 H3 H4. change (2 ^ 24)%Z with 16777216%Z in *.
  assert (A : forall x, (0 <= x)%Z -> (float_of x = x /\ x < 16777216)%Z \/ (16777216 <= x /\ 15 * x <= 16 * float_of x <= 17 * x)%Z).
  { intros x Hx. destruct (decide (x < 2 ^ 24)%Z); [left; split; [by apply float_small|lia]|right; split; [lia|]; apply float_near; lia]. }
  destruct (A n H2) as [[E1 B1]|[B1 B2]], (A j ltac:(lia)) as [[E2 C1]|[C1 C2]]; lia.
Qed.
Lemma round_ge fuel : forall size out, (0 < out)%Z -> (size <= out * 2 ^ Z.of_nat fuel)%Z -> (size <= round_power_2 fuel size out)%Z.
Proof.
  induction fuel as [|fuel IH]; intros size out Ho Hs; cbn [round_power_2]; [replace (2 ^ Z.of_nat 0)%Z with 1%Z in Hs by done; lia|].
  destruct (Z.ltb_spec out size); [|lia]. apply IH; [lia|].
  replace (Z.of_nat (S fuel)) with (1 + Z.of_nat fuel)%Z in Hs by lia. rewrite Z.pow_add_r in Hs by lia. lia.
Qed.
Lemma size_round_ge size : (0 < size)%Z -> (size <= size_round_power_2 size)%Z.
Proof.
  intros H. apply round_ge; [lia|]. rewrite Z2Nat.id by apply Z.log2_up_nonneg.
  destruct (decide (size = 1)%Z) as [->|N]; [done|]. pose proof (Z.log2_up_spec size ltac:(lia)). lia.
Qed.

(** ** Tables *)
Section proofs.
  Context {V : Type} (hash : Z -> Z).
  Implicit Types (d : @r_dict V) (m : list (Z * V)).

  Lemma assoc_in m k v : NoDup m.*1 -> assoc m k = Some v <-> (k, v) ∈ m.
  Proof.
    induction m as [|[k' v'] m IH]; cbn; intros ND; [split; [done|intros He; by apply elem_of_nil in He]|]. apply NoDup_cons in ND as [N ND].
    rewrite elem_of_cons. destruct (Z.eqb_spec k' k) as [->|Hn].
    - split; [intros [= ->]; by left|intros [[= ->]|H]; [done|]]. exfalso. apply N. apply elem_of_list_fmap. by exists (k, v).
    - rewrite IH by done. split; [by right|intros [[= E1 E2]|He]; [by subst|done]].
  Qed.
  Lemma assoc_none m k : assoc m k = None <-> k ∉ m.*1.
  Proof.
    induction m as [|[k' v'] m IH]; cbn; [split; [intros _ He; by apply elem_of_nil in He|done]|]. rewrite elem_of_cons.
    destruct (Z.eqb_spec k' k) as [->|Hn]; [split; [done|intros H; exfalso; apply H; by left]|]. rewrite IH. split; [intros H [E|E]; [done|done]|intros H E; apply H; by right].
  Qed.
  Lemma chain_find_some (c : list (Z * V)) k j : chain_find c k = Some j -> exists v, c !! j = Some (k, v).
  Proof.
    revert j. induction c as [|[k' v'] c IH]; cbn; [done|]. intros j. destruct (Z.eqb_spec k' k) as [->|Hn].
    - intros [= <-]. by exists v'.
    - destruct (chain_find c k) as [j'|]; [|done]. intros [= <-]. cbn. by apply IH.
  Qed.
  Lemma chain_find_none (c : list (Z * V)) k : chain_find c k = None -> k ∉ c.*1.
  Proof.
    induction c as [|[k' v'] c IH]; cbn; [intros _ H; by apply elem_of_nil in H|]. destruct (Z.eqb_spec k' k) as [->|Hn]; [done|].
    destruct (chain_find c k); [done|]. intros _. rewrite elem_of_cons. intros [E|E]; [done|]. by apply IH.
  Qed.

  Record rel d m : Prop := Rel {
    r_pos : (0 < d_n_buckets d)%Z;
    r_hash : forall i c k v, d_buckets d !! i = Some c -> (k, v) ∈ c -> dict_hash hash d k = Z.of_nat i;
    r_perm : concat (d_buckets d) ≡ₚ m;
    r_nodup : NoDup m.*1;
    r_count : (Z.of_nat (length m) <= d_n_entries d)%Z }.

  Lemma concat_split (bs : list (list (Z * V))) i c : bs !! i = Some c -> exists R, concat bs ≡ₚ c ++ R /\ forall c', concat (<[i := c']> bs) ≡ₚ c' ++ R.
  Proof.
    intros H. exists (concat (take i bs) ++ concat (drop (S i) bs)).
    assert (Hl := lookup_lt_Some _ _ _ H). split.
    - rewrite <- (take_drop_middle bs i c H) at 1. rewrite concat_app. cbn [concat]. rewrite !app_assoc. apply Permutation_app_tail. apply Permutation_app_comm.
    - intros c'. rewrite insert_take_drop by done. rewrite concat_app. cbn [concat]. rewrite !app_assoc. apply Permutation_app_tail. apply Permutation_app_comm.
  Qed.
  Lemma hash_lt d k : (0 < d_n_buckets d)%Z -> (0 <= dict_hash hash d k < Z.of_nat (length (d_buckets d)))%Z.
  Proof. intros H. unfold dict_hash. apply Z.mod_pos_bound. done. Qed.
  (** What [dict_find_node_info] finds. *)
  Lemma find_ok d m k : rel d m -> exists i c R, (Z.of_nat i = dict_hash hash d k)%Z /\ d_buckets d !! i = Some c /\
    dict_find_node_info hash d k = Ok (Z.of_nat i, c, chain_find c k) /\ m ≡ₚ c ++ R /\ (forall c', concat (<[i := c']> (d_buckets d)) ≡ₚ c' ++ R) /\
    match chain_find c k with
    | Some j => exists v, c !! j = Some (k, v) /\ assoc m k = Some v
    | None => assoc m k = None
    end.
  Proof.
    intros [P H PM ND C]. pose proof (hash_lt d k P) as B. set (i := Z.to_nat (dict_hash hash d k)).
    destruct (lookup_lt_is_Some_2 (d_buckets d) i ltac:(lia)) as [c Hc]. destruct (concat_split _ _ _ Hc) as (R & E1 & E2).
    exists i, c, R. split; [lia|]. split; [done|]. split.
    { unfold dict_find_node_info. replace (dict_hash hash d k) with (Z.of_nat i) by lia. rewrite rdZ_nat. assert (Hc2 := Hc). apply rd_Ok in Hc2. rewrite Hc2. done. }
    assert (EM : m ≡ₚ c ++ R) by (by rewrite <- PM). split; [done|]. split; [done|].
    destruct (chain_find c k) as [j|] eqn:F.
    - apply chain_find_some in F as [v Hv]. exists v. split; [done|]. apply assoc_in; [done|].
      apply (elem_of_Permutation_proper _ _ _ EM). apply elem_of_app. left. by eapply elem_of_list_lookup_2.
    - apply chain_find_none in F. apply assoc_none. intros Hk. apply elem_of_list_fmap in Hk as ([k' v] & Ek & Hk). cbn in Ek. subst k'.
      apply (elem_of_Permutation_proper _ _ _ (symmetry PM)) in Hk. apply elem_of_list_In, in_concat in Hk as (c' & Hc' & Hk). apply elem_of_list_In in Hc'. apply elem_of_list_In in Hk.
      apply elem_of_list_lookup in Hc' as [i' Hi']. pose proof (H i' c' k v Hi' Hk) as E. assert (i' = i) as -> by lia.
      assert (c' = c) as -> by congruence. apply F. apply elem_of_list_fmap. by exists (k, v).
  Qed.

  Lemma keys_perm m m' : m ≡ₚ m' -> NoDup m.*1 -> NoDup m'.*1.
  Proof. intros P. by rewrite P. Qed.
  Lemma buckets_wr d i c : i < length (d_buckets d) -> wrZ (d_buckets d) (Z.of_nat i) c = Ok (<[i := c]> (d_buckets d)).
  Proof. intros H. rewrite wrZ_nat. by apply wr_Ok. Qed.
  (** Replacing the chain of bucket [i] by one whose keys hash to [i] *)
  Lemma rel_update d m i c' R m' n p : rel d m -> i < length (d_buckets d) -> (forall c', concat (<[i := c']> (d_buckets d)) ≡ₚ c' ++ R) ->
    (forall k v, (k, v) ∈ c' -> dict_hash hash d k = Z.of_nat i) -> c' ++ R ≡ₚ m' -> NoDup m'.*1 -> (Z.of_nat (length m') <= n)%Z ->
    rel (Dict (<[i := c']> (d_buckets d)) n p) m'.
  Proof.
    intros [P H PM ND C] Hi HR Hk E ND' Hn. split; cbn [d_buckets d_n_entries].
    - unfold d_n_buckets in *. cbn. by rewrite insert_length.
    - intros i0 c k v Hc Hin. unfold dict_hash, d_n_buckets in *. cbn in *. rewrite insert_length.
      destruct (decide (i0 = i)) as [->|Hne].
      + rewrite list_lookup_insert in Hc by done. injection Hc as <-. by eapply Hk.
      + rewrite list_lookup_insert_ne in Hc by done. by eapply H.
    - by rewrite HR.
    - done.
    - done.
  Qed.
  Lemma nb_insert d i c n p : d_n_buckets (Dict (<[i := c]> (d_buckets d)) n p) = d_n_buckets d.
  Proof. unfold d_n_buckets. cbn. by rewrite insert_length. Qed.
  Lemma has_assoc m k : has m k = match assoc m k with Some _ => true | None => false end.
  Proof. done. Qed.
  Lemma nodup_snoc m k v : NoDup m.*1 -> assoc m k = None -> NoDup (m ++ [(k, v)]).*1.
  Proof.
    intros ND N. rewrite fmap_app. cbn. apply NoDup_app. split; [done|]. split; [|apply NoDup_singleton]. intros x Hx He.
    apply elem_of_list_singleton in He. subst x. by apply assoc_none in N.
  Qed.

  (** Adding a key to a table: the table before a resize *)
  Definition pushed d i (c : list (Z * V)) k v := Dict (<[i := c ++ [(k, v)]]> (d_buckets d)) (d_n_entries d + 1) (d_prevent_resize d).
  Lemma push_rel d m i c R k v : rel d m -> Z.of_nat i = dict_hash hash d k -> d_buckets d !! i = Some c -> m ≡ₚ c ++ R ->
    (forall c', concat (<[i := c']> (d_buckets d)) ≡ₚ c' ++ R) -> assoc m k = None -> rel (pushed d i c k v) (m ++ [(k, v)]).
  Proof.
    intros HR Ei Hc E1 E2 N. assert (Hl := lookup_lt_Some _ _ _ Hc). destruct (HR) as [P H PM ND C]. eapply rel_update; [exact HR|done|exact E2| | | |].
    - intros k' v' Hin. apply elem_of_app in Hin as [Hin|Hin]; [by eapply H|]. apply elem_of_list_singleton in Hin. injection Hin as -> ->. done.
    - rewrite E1. rewrite <- !app_assoc. apply Permutation_app_head. apply Permutation_app_comm.
    - by apply nodup_snoc.
    - rewrite app_length. cbn. lia.
  Qed.
  (** No resize: whatever [resize] is *)
  Lemma put_small resize d m k v : rel d m -> assoc m k = None ->
    (d_prevent_resize d = true \/ (4 * float_of (d_n_entries d + 1) <= 3 * d_n_buckets d)%Z) ->
    exists d', r_dict_put_ hash resize d k v = Ok (d', true) /\ rel d' (m ++ [(k, v)]) /\ d_n_entries d' = (d_n_entries d + 1)%Z /\ d_n_buckets d' = d_n_buckets d /\ d_prevent_resize d' = d_prevent_resize d.
  Proof.
    intros HR N L. destruct (find_ok d m k HR) as (i & c & R & Ei & Hc & F & E1 & E2 & E3). rewrite N in E3.
    assert (Hl := lookup_lt_Some _ _ _ Hc). exists (pushed d i c k v). split.
    - unfold r_dict_put_. rewrite F. cbn [bind]. destruct (chain_find c k); [by destruct E3 as (? & ? & ?)|].
      unfold dict_push_. rewrite buckets_wr by done. cbn [bind]. unfold load_exceeds. rewrite nb_insert. cbn [d_prevent_resize d_n_entries].
      assert ((negb (d_prevent_resize d) && (3 * d_n_buckets d <? 4 * float_of (d_n_entries d + 1))%Z)%bool = false) as -> by (destruct L as [->|L]; [done|lia]). done.
    - split; [by eapply push_rel|]. cbn. split; [done|]. split; [apply nb_insert|done].
  Qed.

  (** ** Resizing *)
  Lemma new_rel size : (0 < size)%Z -> exists d, r_new_dict size = Ok d /\ rel d [] /\ d_n_entries d = 0%Z /\ d_prevent_resize d = false /\ (size <= d_n_buckets d)%Z.
  Proof.
    intros H. unfold r_new_dict. assert ((size <=? 0)%Z = false) as -> by lia. eexists. split; [done|]. pose proof (size_round_ge size H) as G.
    split; [|split; [done|split; [done|unfold d_n_buckets; cbn; rewrite replicate_length; lia]]]. split; cbn [d_buckets d_n_entries].
    - unfold d_n_buckets. cbn. rewrite replicate_length. lia.
    - intros i c k v Hc Hin. apply lookup_replicate in Hc as [-> _]. by apply elem_of_nil in Hin.
    - clear. by induction (Z.to_nat (size_round_power_2 size)).
    - constructor.
    - done.
  Qed.
  (** The double loop of a resize, when every put succeeds and keeps [J]. *)
  Lemma resize_loop (put : r_dict -> Z -> V -> res (r_dict * bool)) (J : r_dict -> list (Z * V) -> Prop) d new :
    (forall n l k v l2, concat (d_buckets d) = l ++ (k, v) :: l2 -> J n l -> exists n' b, put n k v = Ok (n', b) /\ J n' (l ++ [(k, v)])) -> J new [] ->
    exists d', for_ 0 (length (d_buckets d)) (fun i new =>
          let! bucket := rd (d_buckets d) i in
          for_ 0 (length bucket) (fun j new =>
            let! (key, value) := rd bucket j in
            let! (new, _) := put new key value in Ok new) new) new = Ok d' /\ J d' (concat (d_buckets d)).
  Proof.
    intros HP HJ.
    destruct (for_inv (fun i n => J n (concat (take i (d_buckets d)))) 0 (length (d_buckets d)) (fun i new =>
          let! bucket := rd (d_buckets d) i in
          for_ 0 (length bucket) (fun j new =>
            let! (key, value) := rd bucket j in
            let! (new, _) := put new key value in Ok new) new) new) as (d' & E & HJ'); [done| |].
    - intros i n Hi Hn. destruct (lookup_lt_is_Some_2 (d_buckets d) i ltac:(lia)) as [c Hc]. assert (Hc2 := Hc). apply rd_Ok in Hc2. rewrite Hc2. cbn [bind].
      destruct (for_inv (fun j n => J n (concat (take i (d_buckets d)) ++ take j c)) 0 (length c) (fun j new =>
            let! (key, value) := rd c j in
            let! (new, _) := put new key value in Ok new) n) as (n' & E & HJ'); [by rewrite app_nil_r| |].
      + intros j n1 Hj Hn1. destruct (lookup_lt_is_Some_2 c j ltac:(lia)) as [[k v] Hk]. assert (Hk2 := Hk). apply rd_Ok in Hk2. rewrite Hk2. cbn [bind].
        destruct (HP n1 (concat (take i (d_buckets d)) ++ take j c) k v (drop (S j) c ++ concat (drop (S i) (d_buckets d)))) as (n2 & b & E2 & HJ2); [|done|].
        * rewrite <- (take_drop_middle (d_buckets d) i c Hc) at 1. rewrite concat_app. cbn [concat]. rewrite <- app_assoc. f_equal.
          rewrite <- (take_drop_middle c j (k, v) Hk) at 1. rewrite <- app_assoc. done.
        * rewrite E2. cbn [bind]. exists n2. split; [done|]. rewrite (take_S_r c j (k, v)) by done. by rewrite app_assoc.
      + exists n'. split; [exact E|]. rewrite (take_S_r _ i c) by done. rewrite concat_app. cbn [concat]. rewrite app_nil_r. rewrite Nat.add_0_l, (take_ge c) in HJ' by lia. done.
    - exists d'. split; [exact E|]. by rewrite Nat.add_0_l, take_ge in HJ' by lia.
  Qed.
  Lemma assoc_split m l k v l2 : m = l ++ (k, v) :: l2 -> NoDup m.*1 -> assoc l k = None.
  Proof.
    intros -> ND. apply assoc_none. intros Hk. rewrite fmap_app in ND. apply NoDup_app in ND as (_ & ND & _). apply (ND k Hk). cbn. apply elem_of_list_here.
  Qed.
  Definition lok d : Prop := (4 * float_of (d_n_entries d) <= 3 * d_n_buckets d)%Z.
  Lemma rel_concat d m : rel d m -> NoDup (concat (d_buckets d)).*1.
  Proof. intros [P H PM ND C]. by rewrite PM. Qed.
  Lemma rel_perm d m m' : rel d m -> m ≡ₚ m' -> rel d m'.
  Proof. intros [P H PM ND C] E. split; [done|done|by rewrite PM|by rewrite <- E|by rewrite <- E]. Qed.
  (** Doubling a table that has room for its entries then. *)
  Lemma resize_grow fuel d m : rel d m -> (forall j, 0 <= j <= Z.of_nat (length m) -> 4 * float_of j <= 3 * (2 * d_n_buckets d))%Z ->
    exists d', r_dict_resize hash (S fuel) d (-1) = Ok d' /\ rel d' m /\ d_n_entries d' = Z.of_nat (length m) /\ lok d' /\ d_prevent_resize d' = false.
  Proof.
    intros HR HL. assert (HR0 := HR). destruct HR as [P H PM ND C]. cbn [r_dict_resize]. assert ((-1 <? 0)%Z = true) as -> by done.
    destruct (new_rel (d_n_buckets d * 2) ltac:(lia)) as (new & -> & Rn & En & Pn & Ln). cbn [bind].
    destruct (resize_loop (r_dict_put_ hash (r_dict_resize hash fuel)) (fun n l => rel n l /\ d_n_entries n = Z.of_nat (length l) /\ (d_n_buckets d * 2 <= d_n_buckets n)%Z /\ d_prevent_resize n = false)
      d new) as (d' & E & Rd & Ed & Ld & Pd).
    - intros n l k v l2 E (Rl & El & Ll & Pl). assert (length (concat (d_buckets d)) = length m) as EL by (by rewrite PM). rewrite E, app_length in EL. cbn in EL.
      destruct (put_small (r_dict_resize hash fuel) n l k v Rl) as (n' & E1 & R1 & E2 & E3 & E4).
      + eapply assoc_split; [exact E|by eapply rel_concat].
      + right. specialize (HL (d_n_entries n + 1)%Z ltac:(lia)). lia.
      + exists n', true. split; [done|]. split; [done|]. rewrite E2, E3, E4, app_length. cbn. split; [lia|]. by split; [lia|].
    - split; [done|]. rewrite En. split; [done|]. by split; [lia|].
    - exists d'. split; [exact E|]. split; [by eapply rel_perm|]. assert (length (concat (d_buckets d)) = length m) as EL by (by rewrite PM).
      split; [lia|]. split; [|done]. unfold lok. specialize (HL (d_n_entries d') ltac:(lia)). lia.
  Qed.
  Lemma put_ok fuel d m k v : rel d m -> assoc m k = None -> d_prevent_resize d = true \/ lok d ->
    exists d', r_dict_put_ hash (r_dict_resize hash (S fuel)) d k v = Ok (d', true) /\ rel d' (m ++ [(k, v)]) /\ (d_prevent_resize d = false -> lok d' /\ d_prevent_resize d' = false) /\
      (d_n_entries d = Z.of_nat (length m) -> d_n_entries d' = Z.of_nat (length (m ++ [(k, v)]))).
  Proof.
    intros HR N L. destruct (decide (d_prevent_resize d = true \/ (4 * float_of (d_n_entries d + 1) <= 3 * d_n_buckets d)%Z)) as [S|S].
    - destruct (put_small (r_dict_resize hash (Datatypes.S fuel)) d m k v HR N S) as (d' & E1 & R1 & E2 & E3 & E4). exists d'. split; [done|]. split; [done|]. split; [|rewrite app_length; cbn; lia].
      intros Pr. destruct S as [S|S]; [congruence|]. unfold lok. by rewrite E2, E3, E4.
    - assert (Pr : d_prevent_resize d = false) by (destruct (d_prevent_resize d); [exfalso; apply S; by left|done]).
      assert (Lo : lok d) by (destruct L as [L|L]; [congruence|done]).
      destruct (find_ok d m k HR) as (i & c & R & Ei & Hc & F & E1 & E2 & E3). rewrite N in E3. assert (Hl := lookup_lt_Some _ _ _ Hc).
      assert (Rp := push_rel d m i c R k v HR Ei Hc E1 E2 N). assert (Hpos := r_pos _ _ HR). assert (Hcnt := r_count _ _ HR).
      destruct (resize_grow fuel (pushed d i c k v) (m ++ [(k, v)]) Rp) as (d' & Er & Rd & En & Ld & Pd).
      { intros j Hj. unfold pushed. rewrite nb_insert. rewrite app_length in Hj. cbn in Hj. apply (float_grow (d_n_entries d)); [lia|lia|exact Lo|lia]. }
      exists d'. split; [|by split]. unfold r_dict_put_. rewrite F. cbn [bind]. destruct (chain_find c k); [by destruct E3 as (? & ? & ?)|].
      unfold dict_push_. rewrite buckets_wr by done. cbn [bind]. fold (pushed d i c k v).
      assert ((negb (d_prevent_resize (pushed d i c k v)) && load_exceeds (pushed d i c k v))%bool = true) as ->.
      { unfold pushed, load_exceeds. rewrite nb_insert. cbn [d_prevent_resize d_n_entries]. rewrite Pr. cbn. apply Z.ltb_lt. destruct (decide (4 * float_of (d_n_entries d + 1) <= 3 * d_n_buckets d)%Z); [|lia]. exfalso. apply S. by right. }
      by rewrite Er.
  Qed.
  (** Any resize of any table *)
  Lemma resize_any fuel d m size : rel d m -> size <> 0%Z -> exists d', r_dict_resize hash (S (S fuel)) d size = Ok d' /\ rel d' m /\ lok d' /\ d_n_entries d' = Z.of_nat (length m).
  Proof.
    intros HR Hs. assert (HR0 := HR). destruct HR as [P H PM ND C]. cbn [r_dict_resize]. set (sz := if (size <? 0)%Z then _ else _).
    assert (Hz : (0 < sz)%Z) by (unfold sz; destruct (Z.ltb_spec size 0); lia).
    destruct (new_rel sz Hz) as (new & -> & Rn & En & Pn & Ln). cbn [bind].
    destruct (resize_loop (r_dict_put_ hash (r_dict_resize hash (S fuel))) (fun n l => rel n l /\ lok n /\ d_prevent_resize n = false /\ d_n_entries n = Z.of_nat (length l)) d new) as (d' & E & Rd & Ld & Pd & Nd).
    - intros n l k v l2 E (Rl & Ll & Pl & Nl). destruct (put_ok fuel n l k v Rl) as (n' & E1 & R1 & Lx & Nx); [eapply assoc_split; [exact E|by eapply rel_concat]|by right|].
      exists n', true. split; [done|]. split; [done|]. destruct (Lx Pl) as [L1 L2]. split; [done|]. split; [done|]. by apply Nx.
    - split; [done|]. split; [|by rewrite En]. unfold lok. rewrite En, float_small by done. lia.
    - exists d'. split; [exact E|]. split; [by eapply rel_perm|]. split; [done|]. rewrite Nd. by rewrite PM.
  Qed.
  (** [n_entries] is the number of entries, no more. *)
  Definition exact d m : Prop := d_n_entries d = Z.of_nat (length m).
  Lemma push_any d m i c R k v : rel d m -> Z.of_nat i = dict_hash hash d k -> d_buckets d !! i = Some c -> m ≡ₚ c ++ R ->
    (forall c', concat (<[i := c']> (d_buckets d)) ≡ₚ c' ++ R) -> assoc m k = None ->
    exists d', dict_push hash d (Z.of_nat i) c k v = Ok d' /\ rel d' (m ++ [(k, v)]) /\ (exact d m -> exact d' (m ++ [(k, v)])).
  Proof.
    intros HR Ei Hc E1 E2 N. assert (Hl := lookup_lt_Some _ _ _ Hc). assert (Rp := push_rel d m i c R k v HR Ei Hc E1 E2 N).
    unfold dict_push, dict_push_. rewrite buckets_wr by done. cbn [bind]. fold (pushed d i c k v). destruct (_ && _)%bool; [|eexists; split; [done|]; split; [done|]; unfold exact, pushed; rewrite app_length; cbn; lia].
    destruct (resize_any 0 (pushed d i c k v) _ (-1) Rp) as (d' & E & Rd & _ & Nd); [done|]. exists d'. by split.
  Qed.

  (** ** One operation *)
  Lemma map_assoc_other (l : list (Z * V)) k v : k ∉ l.*1 -> map (fun e => if (e.1 =? k)%Z then (k, v) else e) l = l.
  Proof.
    induction l as [|[k' v'] l IH]; cbn; [done|]. rewrite elem_of_cons. intros N. destruct (Z.eqb_spec k' k) as [->|Hn]; [exfalso; apply N; by left|]. rewrite IH; [done|]. intros H. apply N. by right.
  Qed.
  Lemma filter_other (l : list (Z * V)) k : k ∉ l.*1 -> List.filter (fun e => negb (e.1 =? k)%Z) l = l.
  Proof.
    induction l as [|[k' v'] l IH]; cbn; [done|]. rewrite elem_of_cons. intros N. destruct (Z.eqb_spec k' k) as [->|Hn]; [exfalso; apply N; by left|]. cbn. rewrite IH; [done|]. intros H. apply N. by right.
  Qed.
  Lemma filter_perm (f : Z * V -> bool) l l' : l ≡ₚ l' -> List.filter f l ≡ₚ List.filter f l'.
  Proof. induction 1 as [|x l l' P IH|x y l|l l2 l3 P IH P2 IH2]; cbn; [done| | |by etrans]; [destruct (f x); [by constructor|done]|destruct (f x), (f y); try done; constructor]. Qed.
  Lemma filter_le (f : Z * V -> bool) l : length (List.filter f l) <= length l.
  Proof. induction l as [|x l IH]; cbn; [lia|]. destruct (f x); cbn; lia. Qed.
  Lemma filter_keys (f : Z * V -> bool) l : NoDup l.*1 -> NoDup (List.filter f l).*1.
  Proof.
    induction l as [|[k v] l IH]; cbn; [done|]. intros ND. apply NoDup_cons in ND as [N ND]. destruct (f (k, v)); [|by apply IH]. cbn. apply NoDup_cons. split; [|by apply IH].
    intros H. apply N. apply elem_of_list_fmap in H as (e & -> & He). apply elem_of_list_In, List.filter_In in He as [He _]. apply elem_of_list_In in He. apply elem_of_list_fmap. by exists e.
  Qed.
  (** A chain with its node for [k] in the middle *)
  Lemma chain_at (c R m : list (Z * V)) j k v : m ≡ₚ c ++ R -> NoDup m.*1 -> c !! j = Some (k, v) -> k ∉ (take j c).*1 /\ k ∉ (drop (S j) c ++ R).*1.
  Proof.
    intros E ND Hj. apply (keys_perm _ _ E) in ND. rewrite <- (take_drop_middle c j (k, v) Hj) in ND. rewrite <- app_assoc in ND. cbn [app] in ND. rewrite fmap_app in ND. cbn in ND.
    apply NoDup_app in ND as (_ & N1 & N2). apply NoDup_cons in N2 as [N2 _]. split; [|done]. intros H. apply (N1 k H). apply elem_of_list_here.
  Qed.
  Definition op_ok (o : dop V) : Prop := match o with Resize size => size <> 0%Z | _ => True end.
  Definition no_del (o : dop V) : Prop := match o with Del _ => False | _ => True end.
  Lemma step_ok d m o : rel d m -> op_ok o -> exists d', dict_step hash d o = Ok (d', (spec_step m o).2) /\ rel d' (spec_step m o).1 /\
    (no_del o -> exact d m -> exact d' (spec_step m o).1).
  Proof.
    intros HR Ho. destruct o as [k v|k v|k|k|k|size|b]; cbn [dict_step spec_step].
    - destruct (find_ok d m k HR) as (i & c & R & Ei & Hc & F & E1 & E2 & E3). unfold r_dict_put, r_dict_put_, has. rewrite F. cbn [bind].
      destruct (chain_find c k) as [j|].
      + destruct E3 as (v' & _ & ->). by exists d.
      + rewrite E3. fold (dict_push (V := V) hash). destruct (push_any d m i c R k v HR Ei Hc E1 E2 E3) as (d' & -> & Rd & Xd). exists d'. cbn. by split.
    - destruct (find_ok d m k HR) as (i & c & R & Ei & Hc & F & E1 & E2 & E3). unfold r_dict_poke, has. rewrite F. cbn [bind]. assert (Hl := lookup_lt_Some _ _ _ Hc).
      destruct (chain_find c k) as [j|].
      + destruct E3 as (v' & Hj & ->). assert (Hj2 := Hj). apply rd_Ok in Hj2. rewrite Hj2. cbn [bind]. assert (Hjl := lookup_lt_Some _ _ _ Hj).
        rewrite wr_Ok by done. cbn [bind]. rewrite buckets_wr by done. cbn [bind fst snd]. eexists. split; [done|]. split; [|intros _; unfold exact; cbn; by rewrite map_length].
        destruct (chain_at c R m j k v' E1 (r_nodup _ _ HR) Hj) as [N1 N2].
        assert (EM : <[j := (k, v)]> c ++ R ≡ₚ map (fun e => if (e.1 =? k)%Z then (k, v) else e) m).
        { transitivity (map (fun e : Z * V => if (e.1 =? k)%Z then (k, v) else e) (c ++ R)); [|by apply Permutation_map].
          rewrite insert_take_drop by done. rewrite <- (take_drop_middle c j (k, v') Hj) at 3. rewrite <- !app_assoc. cbn [app]. rewrite map_app. cbn [map fst].
          rewrite Z.eqb_refl. rewrite (map_assoc_other (take j c)) by done. by rewrite (map_assoc_other (drop (S j) c ++ R)) by done. }
        eapply rel_update; [exact HR|done|exact E2| |exact EM| |].
        * intros k' v0 Hin. apply elem_of_list_lookup in Hin as [j' Hj']. destruct (decide (j' = j)) as [->|Hne].
          -- rewrite list_lookup_insert in Hj' by done. injection Hj' as <- <-. done.
          -- rewrite list_lookup_insert_ne in Hj' by done. eapply (r_hash _ _ HR); [exact Hc|]. by eapply elem_of_list_lookup_2.
        * assert ((map (fun e : Z * V => if (e.1 =? k)%Z then (k, v) else e) m).*1 = m.*1) as ->; [|apply (r_nodup _ _ HR)].
          clear. induction m as [|[k' v'] m IH]; cbn; [done|]. rewrite IH. by destruct (Z.eqb_spec k' k) as [->|].
        * rewrite map_length. apply (r_count _ _ HR).
      + rewrite E3. destruct (push_any d m i c R k v HR Ei Hc E1 E2 E3) as (d' & -> & Rd & Xd). exists d'. cbn. by split.
    - destruct (find_ok d m k HR) as (i & c & R & Ei & Hc & F & E1 & E2 & E3). unfold r_dict_del, has. rewrite F. cbn [bind]. assert (Hl := lookup_lt_Some _ _ _ Hc).
      destruct (chain_find c k) as [j|].
      + destruct E3 as (v' & Hj & ->). rewrite buckets_wr by done. cbn [bind fst snd]. eexists. split; [done|]. split; [|done].
        destruct (chain_at c R m j k v' E1 (r_nodup _ _ HR) Hj) as [N1 N2].
        assert (EM : (take j c ++ drop (S j) c) ++ R ≡ₚ List.filter (fun e => negb (e.1 =? k)%Z) m).
        { transitivity (List.filter (fun e : Z * V => negb (e.1 =? k)%Z) (c ++ R)); [|by apply filter_perm].
          rewrite <- (take_drop_middle c j (k, v') Hj) at 3. rewrite <- !app_assoc. cbn [app]. rewrite List.filter_app. cbn [List.filter fst].
          rewrite Z.eqb_refl. cbn [negb]. rewrite (filter_other (take j c)) by done. by rewrite (filter_other (drop (S j) c ++ R)) by done. }
        eapply rel_update; [exact HR|done|exact E2| |exact EM| |].
        * intros k' v0 Hin. eapply (r_hash _ _ HR); [exact Hc|]. apply elem_of_app in Hin as [Hin|Hin].
          -- apply elem_of_take in Hin as (j' & Hj' & _). by eapply elem_of_list_lookup_2.
          -- apply elem_of_list_lookup in Hin as [j' Hj']. rewrite lookup_drop in Hj'. by eapply elem_of_list_lookup_2.
        * apply filter_keys, (r_nodup _ _ HR).
        * assert (length (List.filter (fun e : Z * V => negb (e.1 =? k)%Z) m) <= length m) by apply filter_le. pose proof (r_count _ _ HR). lia.
      + rewrite E3. exists d. split; [done|]. cbn [fst snd]. rewrite filter_other; [by split|]. by apply assoc_none.
    - destruct (find_ok d m k HR) as (i & c & R & Ei & Hc & F & E1 & E2 & E3). unfold r_dict_has, has. rewrite F. cbn [bind]. exists d.
      destruct (chain_find c k) as [j|]; [by destruct E3 as (v' & _ & ->)|by rewrite E3].
    - destruct (find_ok d m k HR) as (i & c & R & Ei & Hc & F & E1 & E2 & E3). unfold r_dict_get0. rewrite F. cbn [bind]. exists d.
      destruct (chain_find c k) as [j|]; [|by rewrite E3]. destruct E3 as (v' & Hj & ->). apply rd_Ok in Hj. by rewrite Hj.
    - destruct (resize_any 0 d m size HR Ho) as (d' & E & Rd & _ & Nd). exists d'. unfold FUEL. rewrite E. by split.
    - eexists. split; [done|]. split; [|done]. destruct HR as [P H PM ND C]. by split.
  Qed.

  Lemma run_ok os : forall d m, rel d m -> Forall op_ok os -> exists d', dict_run hash d os = Ok (d', (spec_run m os).2) /\ rel d' (spec_run m os).1 /\
    (Forall no_del os -> exact d m -> exact d' (spec_run m os).1).
  Proof.
    induction os as [|o os IH]; intros d m HR F; [by exists d|]. inversion F as [|? ? Ho F2]; subst. cbn [dict_run spec_run].
    destruct (step_ok d m o HR Ho) as (d1 & -> & R1 & X1). cbn [bind]. destruct (spec_step m o) as [m1 x]. cbn [fst snd] in *.
    destruct (IH d1 m1 R1 F2) as (d2 & -> & R2 & X2). cbn [bind]. destruct (spec_run m1 os) as [m2 xs]. exists d2. cbn [fst snd] in *. split; [done|]. split; [done|].
    intros ND X. inversion ND; subst. apply X2; [done|]. by apply X1.
  Qed.
  (** After any operations on a new table, every answer is that of the map. *)
  Theorem C46_dict size os : (0 < size)%Z -> Forall op_ok os ->
    exists d0 d, r_new_dict size = Ok d0 /\ dict_run hash d0 os = Ok (d, (spec_run [] os).2).
  Proof.
    intros Hs F. destruct (new_rel size Hs) as (d0 & E & HR & _). destruct (run_ok os d0 [] HR F) as (d & Ed & _). by exists d0, d.
  Qed.

  (** ** Iterating *)
  Definition rest (it : @r_dict_it V) : list (Z * V) :=
    match it_buckets it with None => [] | Some bs => it_node it ++ concat (drop (S (it_i it)) bs) end.
  Lemma advance_ok fuel : forall (bs : list (list (Z * V))) i node, length bs - i <= S fuel -> i < length bs ->
    it_advance fuel bs i node = Ok None /\ node ++ concat (drop (S i) bs) = [] \/
    exists i' kv node', it_advance fuel bs i node = Ok (Some (i', kv :: node')) /\ i' < length bs /\ node ++ concat (drop (S i) bs) = kv :: node' ++ concat (drop (S i') bs).
  Proof.
    induction fuel as [|fuel IH]; intros bs i [|kv node] Hf Hi; cbn [it_advance app].
    - left. assert (length bs <=? S i = true) as -> by lia. split; [done|]. by rewrite drop_ge by lia.
    - right. exists i, kv, node. done.
    - destruct (Nat.leb_spec (length bs) (S i)).
      + left. split; [done|]. by rewrite drop_ge by lia.
      + destruct (lookup_lt_is_Some_2 bs (S i) ltac:(lia)) as [c Hc]. assert (Hc2 := Hc). apply rd_Ok in Hc2. rewrite Hc2. cbn [bind].
        rewrite (drop_S _ c) by done. cbn [concat]. apply IH; lia.
    - right. exists i, kv, node. done.
  Qed.
  Definition it_ok (it : @r_dict_it V) : Prop := match it_buckets it with None => True | Some bs => it_i it < length bs end.
  Lemma next_ok it : it_ok it -> exists it', it_ok it' /\ match rest it with
    | [] => r_dict_next it = Ok (it', None)
    | kv :: l => r_dict_next it = Ok (it', Some kv) /\ rest it' = l
    end.
  Proof.
    unfold it_ok, rest, r_dict_next. destruct (it_buckets it) as [bs|] eqn:E; intros Hi; [|exists it; by rewrite E].
    destruct (advance_ok (length bs) bs (it_i it) (it_node it) ltac:(lia) Hi) as [[-> ->]|(i' & kv & node' & -> & Hi' & ->)]; cbn [bind].
    - by exists (It None (it_i it) []).
    - exists (It (Some bs) i' node'). done.
  Qed.
  Lemma as_df_ok fuel : forall it i out, it_ok it -> length (rest it) < fuel -> i + length (rest it) <= length out ->
    as_df_loop fuel it i out = Ok (take i out ++ map Some (rest it) ++ drop (i + length (rest it)) out).
  Proof.
    induction fuel as [|fuel IH]; intros it i out Hi Hf Hl; [lia|]. cbn [as_df_loop]. destruct (next_ok it Hi) as (it' & Hi' & N).
    destruct (rest it) as [|kv l]; [rewrite N; cbn; by rewrite Nat.add_0_r, take_drop|]. destruct N as [-> El]. cbn [bind length map] in *.
    rewrite wr_Ok by lia. cbn [bind]. rewrite IH; [|done|rewrite El; lia|rewrite El, insert_length; lia]. rewrite El.
    rewrite (take_S_r _ i (Some kv)) by (by rewrite list_lookup_insert by lia). rewrite take_insert by lia. rewrite drop_insert_gt by lia. rewrite <- app_assoc. cbn [app].
    by replace (i + S (length l)) with (S i + length l) by lia.
  Qed.
  Lemma as_df_list_ok d m : rel d m -> exists l, l ≡ₚ m /\ r_dict_as_df_list d = Ok (map Some l ++ replicate (Z.to_nat (d_n_entries d) - length m) None).
  Proof.
    intros [P H PM ND C]. exists (concat (d_buckets d)). split; [done|]. unfold r_dict_as_df_list, r_new_dict_iterator. unfold d_n_buckets in P.
    destruct (d_buckets d) as [|b bs] eqn:Eb; [cbn in P; lia|]. cbn [length Nat.eqb rd lookup list_lookup bind].
    assert (EL : length (concat (b :: bs)) = length m) by (by rewrite PM).
    assert (ER : rest (It (Some (b :: bs)) 0 b) = concat (b :: bs)) by done.
    rewrite as_df_ok; rewrite ?ER; [|cbn; lia|lia|rewrite replicate_length; lia]. rewrite drop_replicate. cbn [take app]. rewrite EL. done.
  Qed.
  (** The entries, in some order; deleted ones leave a [NULL] at the end. *)
  Theorem C46_entries size os d0 d out : r_new_dict size = Ok d0 -> Forall op_ok os -> dict_run hash d0 os = Ok (d, out) ->
    exists l n, l ≡ₚ (spec_run [] os).1 /\ r_dict_as_df_list d = Ok (map Some l ++ replicate n None) /\ (Forall no_del os -> n = 0).
  Proof.
    intros E F Er. assert (Hs : (0 < size)%Z) by (unfold r_new_dict in E; destruct (Z.leb_spec size 0); [done|lia]).
    destruct (new_rel size Hs) as (d0' & E' & HR & En & _). rewrite E in E'. injection E' as <-. destruct (run_ok os d0 [] HR F) as (d' & Ed & R & X). rewrite Er in Ed. injection Ed as <- Eo.
    destruct (as_df_list_ok d _ R) as (l & Pl & El). exists l, (Z.to_nat (d_n_entries d) - length (spec_run [] os).1). split; [done|]. split; [done|].
    intros ND. specialize (X ND). unfold exact in X. rewrite X; [lia|]. by rewrite En.
  Qed.
  (** Asking for a key that is not there is an error. *)
  Theorem C46_get size os d0 d out k : r_new_dict size = Ok d0 -> Forall op_ok os -> dict_run hash d0 os = Ok (d, out) ->
    r_dict_get hash d k = match assoc (spec_run [] os).1 k with Some v => Ok v | None => Err "Can't find key in dictionary." end.
  Proof.
    intros E F Er. assert (Hs : (0 < size)%Z) by (unfold r_new_dict in E; destruct (Z.leb_spec size 0); [done|lia]).
    destruct (new_rel size Hs) as (d0' & E' & HR & En & _). rewrite E in E'. injection E' as <-. destruct (run_ok os d0 [] HR F) as (d' & Ed & R & X). rewrite Er in Ed. injection Ed as <- Eo.
    destruct (step_ok d _ (Get k) R I) as (d2 & Eg & _). cbn [dict_step spec_step snd] in Eg. unfold r_dict_get. destruct (r_dict_get0 hash d k) as [x| |]; [|done|done]. cbn [bind] in *. by injection Eg as _ ->.
  Qed.
  Theorem C46_size size : (size <= 0)%Z <-> r_new_dict (V := V) size = Err "`size` of dictionary must be positive.".
  Proof. unfold r_new_dict. destruct (Z.leb_spec size 0); split; try done; lia. Qed.
  (** The table is never more than three quarters full when it may grow. *)
  Theorem C46_load size os d0 d out : r_new_dict size = Ok d0 -> Forall (fun o => match o with Put _ _ => True | _ => False end) os -> dict_run hash d0 os = Ok (d, out) ->
    (4 * float_of (Z.of_nat (length (spec_run [] os).1)) <= 3 * d_n_buckets d)%Z.
  Proof.
    intros E F Er. assert (Hs : (0 < size)%Z) by (unfold r_new_dict in E; destruct (Z.leb_spec size 0); [done|lia]).
    destruct (new_rel size Hs) as (d0' & E' & HR & En & Pr & Ln). rewrite E in E'. injection E' as <-.
    assert (G : forall os d m d' out, rel d m -> exact d m -> lok d -> d_prevent_resize d = false -> Forall (fun o => match o with Put _ _ => True | _ => False end) os ->
      dict_run hash d os = Ok (d', out) -> lok d' /\ exact d' (spec_run m os).1).
    { clear. intros os. induction os as [|o os IH]; intros d m d' out HR X L Pr F Er; [cbn in Er; by injection Er as <- <-|]. inversion F as [|? ? Ho F2]; subst. destruct o as [k v| | | | | |]; try done.
      cbn [dict_run dict_step spec_run spec_step] in *. unfold has. destruct (assoc m k) as [v'|] eqn:A.
      - destruct (step_ok d m (Put k v) HR I) as (d1 & Es & R1 & X1). cbn [dict_step spec_step fst snd] in Es, R1, X1. unfold has in *. rewrite A in Es, R1, X1. cbn [fst snd] in *.
        assert (Es2 : r_dict_put hash d k v = Ok (d, false)).
        { unfold r_dict_put, r_dict_put_. destruct (find_ok d m k HR) as (i & c & R & Ei & Hc & F' & E1 & E2 & E3). rewrite F'. cbn [bind]. destruct (chain_find c k); [done|congruence]. }
        rewrite Es2 in Er. cbn [bind] in Er. destruct (dict_run hash d os) as [[d2 xs]| |] eqn:E2; try done. cbn [bind] in Er. injection Er as <- <-.
        destruct (IH d m d2 xs HR X L Pr F2 E2) as [B1 B2]. by destruct (spec_run m os).
      - destruct (put_ok 1 d m k v HR A ltac:(by right)) as (d1 & Ep & R1 & L1 & N1). change (r_dict_put_ hash (r_dict_resize hash 2) d k v) with (r_dict_put hash d k v) in Ep. rewrite Ep in Er. cbn [bind] in Er.
        destruct (L1 Pr) as [L1' P1]. destruct (dict_run hash d1 os) as [[d2 xs]| |] eqn:E2; try done. cbn [bind] in Er. injection Er as <- <-.
        destruct (IH d1 (m ++ [(k, v)]) d2 xs R1 (N1 X) L1' P1 F2 E2) as [B1 B2]. by destruct (spec_run (m ++ [(k, v)]) os). }
    destruct (G os d0 [] d out HR ltac:(done) ltac:(unfold lok; rewrite En, float_small by done; lia) Pr F Er) as [L X]. unfold lok in L. unfold exact in X. by rewrite <- X.
  Qed.
End proofs.

(** A deleted entry is still counted: the list of the entries has a [NULL]. *)
Theorem C46_del_refuted : exists (hash : Z -> Z) (size : Z) (os : list (dop Z)) d0 d out, r_new_dict size = Ok d0 /\ Forall op_ok os /\ dict_run hash d0 os = Ok (d, out) /\
  (spec_run [] os).1 = [(8, 80)]%Z /\ r_dict_as_df_list d = Ok [Some (8, 80)%Z; None].
Proof.
  exists id, 4%Z, [Put 7%Z 70%Z; Put 8%Z 80%Z; Del 7%Z]. eexists _, _, _. split; [reflexivity|]. split; [repeat constructor|]. split; [vm_compute; reflexivity|]. split; [reflexivity|]. vm_compute. reflexivity.
Qed.
(** A resize forgets that resizing was to be prevented: with four buckets, the
    fourth entry makes the table grow, although it was told not to. *)
Theorem C46_prevent_refuted : exists (hash : Z -> Z) (os : list (dop Z)) d0 d out, r_new_dict 4 = Ok d0 /\ Forall op_ok os /\ os !! 0 = Some (Prevent true) /\
  dict_run hash d0 os = Ok (d, out) /\ d_prevent_resize d = false /\ d_n_buckets d = 8%Z.
Proof.
  exists id, [Prevent true; Resize 4; Put 1 1; Put 2 2; Put 3 3; Put 4 4]%Z. eexists _, _, _. split; [reflexivity|]. split; [repeat constructor; done|]. split; [reflexivity|]. split; [vm_compute; reflexivity|]. done.
Qed.
(** Colliding keys, a growing table, an overwritten and a deleted entry *)
Example C46_example :
  let os := [Put 1 10; Put 9 90; Put 1 11; Poke 9 91; Put 17 170; Put 3 30; Del 17; Get 17; Get 9; Has 1; Resize 1; Get 3]%Z in
  Forall op_ok os /\ (spec_run [] os).2 = [OBool true; OBool true; OBool false; OVal (Some 90%Z); OBool true; OBool true; OBool true; OVal None; OVal (Some 91%Z); OBool true; ONone; OVal (Some 30%Z)] /\
  exists d0 d, r_new_dict 2 = Ok d0 /\ dict_run (fun k => k mod 8)%Z d0 os = Ok (d, (spec_run [] os).2) /\ r_dict_as_df_list d = Ok [Some (1, 10); Some (9, 91); Some (3, 30)]%Z.
Proof.
  intros os. split; [repeat constructor; done|]. split; [reflexivity|]. eexists _, _. split; [reflexivity|]. split; [vm_compute; reflexivity|]. vm_compute. reflexivity.
Qed.
Print Assumptions C46_dict.
Print Assumptions C46_entries.
Print Assumptions C46_get.
Print Assumptions C46_size.
Print Assumptions C46_load.
Print Assumptions C46_del_refuted.
Print Assumptions C46_prevent_refuted.
