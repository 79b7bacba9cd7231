(** * Lemmas: the loops of src/fill.c *)
From Verif Require Import Base M_Double M_Scalar M_Object M_Proxy M_Slice M_Runs M_Fill Spec_Missing Spec_Fill.
From Coq Require Import ZifyBool ZifyNat.

Lemma prev_valid_unique miss n i j q : prev_valid miss n i j -> prev_valid miss n i q -> j = q.
Proof.
  intros (H1 & H2 & H3) (G1 & G2 & G3). destruct (decide (j < q)); [exfalso; apply G2, H3; lia|].
  destruct (decide (q < j)); [exfalso; apply H2, G3; lia|lia].
Qed.
Lemma next_valid_unique miss n i j q : next_valid miss n i j -> next_valid miss n i q -> j = q.
Proof.
  intros (H1 & H2 & H3) (G1 & G2 & G3). destruct (decide (j < q)); [exfalso; apply H2, G3; lia|].
  destruct (decide (q < j)); [exfalso; apply G2, H3; lia|lia].
Qed.

Section fill.
  Context (miss : nat -> Prop) (n : nat) (na : list Z) (Hna : indicates n miss na) (leading : bool) (max : option Z).
  Context (Hmax : match max with Some m => (0 <= m)%Z | None => True end).

  Lemma na_cases i : i < n -> (miss i /\ rd na i = Ok 1%Z) \/ (~ miss i /\ rd na i = Ok 0%Z).
  Proof. destruct Hna as [_ H]. intros Hi. destruct (H i Hi) as [[? ?]|[? ?]]; [left|right]; (split; [done|by apply rd_Ok]). Qed.
  Lemma miss_dec i : i < n -> miss i \/ ~ miss i.
  Proof. intros Hi. destruct (na_cases i Hi); tauto. Qed.

  Definition written (down : bool) (lo hi : nat) (p : list Z) : Prop :=
    length p = n /\ forall k, lo <= k < hi -> exists l, p !! k = Some (Z.of_nat l + 1)%Z /\ filled down leading max n miss k l.
  Definition nfok (nf : Z) (d : Z) : Prop := match max with None => True | Some m => nf = Z.min m d end.

  Lemma written_up down lo i p l : written down lo i p -> lo <= i < n -> filled down leading max n miss i l ->
    wr p i (Z.of_nat l + 1)%Z = Ok (<[i:=(Z.of_nat l + 1)%Z]> p) /\ written down lo (S i) (<[i:=(Z.of_nat l + 1)%Z]> p).
  Proof.
    intros [Hl H] Hi Hf. split; [apply wr_Ok; lia|]. split; [by rewrite insert_length|]. intros k Hk.
    destruct (decide (k = i)) as [->|Hne]; [exists l; split; [apply list_lookup_insert; lia|done]|].
    rewrite list_lookup_insert_ne by done. apply H. lia.
  Qed.
  Lemma written_down down hi i p l : written down (S i) hi p -> i < n -> filled down leading max n miss i l ->
    wr p i (Z.of_nat l + 1)%Z = Ok (<[i:=(Z.of_nat l + 1)%Z]> p) /\ written down i hi (<[i:=(Z.of_nat l + 1)%Z]> p).
  Proof.
    intros [Hl H] Hi Hf. split; [apply wr_Ok; lia|]. split; [by rewrite insert_length|]. intros k Hk.
    destruct (decide (k = i)) as [->|Hne]; [exists l; split; [apply list_lookup_insert; lia|done]|].
    rewrite list_lookup_insert_ne by done. apply H. lia.
  Qed.
  Lemma takes_from i j (l : nat) : (l = j /\ within max i j) \/ (l = i /\ ~ within max i j) -> takes max i j l.
  Proof. intros [[-> H]|[-> H]]; split; tauto. Qed.

  (** *** Filling downwards *)
  Lemma filled_src_down i j l : i < n -> prev_valid miss n i j ->
    (l = j /\ within max i j) \/ (l = i /\ ~ within max i j) -> filled true leading max n miss i l.
  Proof.
    intros Hi Hp Hw. pose proof Hp as (Hj & _ & _). split; [lia|]. split.
    { intros j' Hj'. rewrite (prev_valid_unique _ _ _ _ _ Hj' Hp). by apply takes_from. }
    split; intros Hno; by destruct (Hno j).
  Qed.
  Lemma filled_src_up i j l : i < n -> next_valid miss n i j ->
    (l = j /\ within max i j) \/ (l = i /\ ~ within max i j) -> filled false leading max n miss i l.
  Proof.
    intros Hi Hp Hw. pose proof Hp as (Hj & _ & _). split; [lia|]. split.
    { intros j' Hj'. rewrite (next_valid_unique _ _ _ _ _ Hj' Hp). by apply takes_from. }
    split; intros Hno; by destruct (Hno j).
  Qed.
  Lemma filled_alt_down i j l : i < n -> leading = true -> (forall k, k <= i -> miss k) -> next_valid miss n i j ->
    (l = j /\ within max i j) \/ (l = i /\ ~ within max i j) -> filled true leading max n miss i l.
  Proof.
    intros Hi HL Hm Hp Hw. pose proof Hp as (Hj & _ & _). split; [lia|]. split.
    { intros j' (? & H & _). destruct H. by apply Hm. }
    split; [|intros _ [?|Hno]; [congruence|by destruct (Hno j)]]. intros _ _ j' Hj'.
    rewrite (next_valid_unique _ _ _ _ _ Hj' Hp). by apply takes_from.
  Qed.
  Lemma filled_alt_up i j l : i < n -> leading = true -> (forall k, i <= k < n -> miss k) -> prev_valid miss n i j ->
    (l = j /\ within max i j) \/ (l = i /\ ~ within max i j) -> filled false leading max n miss i l.
  Proof.
    intros Hi HL Hm Hp Hw. pose proof Hp as (Hj & _ & _). split; [lia|]. split.
    { intros j' (? & H & _). destruct H. by apply Hm. }
    split; [|intros _ [?|Hno]; [congruence|by destruct (Hno j)]]. intros _ _ j' Hj'.
    rewrite (prev_valid_unique _ _ _ _ _ Hj' Hp). by apply takes_from.
  Qed.
  Lemma filled_none_down i l : i < n -> l < n -> (forall k, k <= i -> miss k) -> (leading = false \/ forall k, k < n -> miss k) ->
    miss l -> filled true leading max n miss i l.
  Proof.
    intros Hi Hl Hm HL Hml. split; [lia|]. split.
    { intros j' (? & H & _). destruct H. by apply Hm. }
    split; [|done]. intros _ HL' j (Hj & H & _). destruct HL as [?|HL]; [congruence|]. destruct H. apply HL. lia.
  Qed.
  Lemma filled_none_up i l : i < n -> l < n -> (forall k, i <= k < n -> miss k) -> (leading = false \/ forall k, k < n -> miss k) ->
    miss l -> filled false leading max n miss i l.
  Proof.
    intros Hi Hl Hm HL Hml. split; [lia|]. split.
    { intros j' (? & H & _). destruct H. by apply Hm. }
    split; [|done]. intros _ HL' j (Hj & H & _). destruct HL as [?|HL]; [congruence|]. destruct H. apply HL. lia.
  Qed.

  Lemma within_nf i q nf : q <= i -> nfok nf (Z.of_nat i - 1 - Z.of_nat q) ->
    match max with Some m => (nf =? m)%Z = false -> within max i q | None => within max i q end.
  Proof using Hmax. unfold nfok, within. destruct max; [|done]. intros. lia. Qed.
  Lemma not_within_nf m i q nf : max = Some m -> q <= i -> nfok nf (Z.of_nat i - 1 - Z.of_nat q) ->
    (nf =? m)%Z = true -> q < i -> ~ within max i q.
  Proof using Hmax. unfold nfok, within. intros ->. intros. lia. Qed.

  (** Where the search stops. *)
  Lemma fill_first_spec : exists s, fill_first na n = Ok (Z.of_nat s) /\
    ((s < n /\ ~ miss s /\ forall k, k < s -> miss k) \/ (s = 0 /\ forall k, k < n -> miss k)).
  Proof.
    destruct (for_brk_inv (fun i loc => loc = 0%Z /\ forall k, k < i -> miss k)
      (fun loc => exists s, loc = Z.of_nat s /\ ((s < n /\ ~ miss s /\ forall k, k < s -> miss k) \/ (s = 0 /\ forall k, k < n -> miss k)))
      0 n (fun i loc => let! b := rd na i in if (b =? 0)%Z then Ok (Break (Z.of_nat i)) else Ok (Next loc)) 0%Z) as (loc & E & s & -> & H).
    - split; [done|]. intros; lia.
    - intros i loc Hi [-> Hm]. destruct (na_cases i) as [[Hi' ->]|[Hi' ->]]; [lia| |]; cbn [bind Z.eqb].
      + left. eexists. split; [done|]. split; [done|]. intros k Hk. destruct (decide (k = i)) as [->|]; [done|]. apply Hm. lia.
      + right. eexists. split; [done|]. exists i. split; [done|]. left. split; [lia|]. done.
    - intros loc [-> Hm]. exists 0. split; [done|]. right. done.
    - eauto.
  Qed.
  Lemma fill_last_spec : (exists s, fill_last na n = Ok (Z.of_nat s) /\ s < n /\ ~ miss s /\ forall k, s < k < n -> miss k) \/
    (fill_last na n = Ok (Z.of_nat n - 1)%Z /\ forall k, k < n -> miss k).
  Proof.
    destruct (for_brk_inv (fun i loc => loc = (Z.of_nat n - 1)%Z /\ forall k, n - i <= k < n -> miss k)
      (fun loc => (exists s, loc = Z.of_nat s /\ s < n /\ ~ miss s /\ forall k, s < k < n -> miss k) \/ (loc = (Z.of_nat n - 1)%Z /\ forall k, k < n -> miss k))
      0 n (fun i loc => let! b := rd na (n - 1 - i) in if (b =? 0)%Z then Ok (Break (Z.of_nat (n - 1 - i))) else Ok (Next loc)) (Z.of_nat n - 1)%Z)
      as (loc & E & H).
    - split; [done|]. intros; lia.
    - intros i loc Hi [-> Hm]. destruct (na_cases (n - 1 - i)) as [[Hi' ->]|[Hi' ->]]; [lia| |]; cbn [bind Z.eqb].
      + left. eexists. split; [done|]. split; [done|]. intros k Hk. destruct (decide (k = n - 1 - i)) as [->|]; [done|]. apply Hm. lia.
      + right. eexists. split; [done|]. left. exists (n - 1 - i). split; [done|]. split; [lia|]. split; [done|]. intros k Hk. apply Hm. lia.
    - intros loc [-> Hm]. right. split; [done|]. intros k Hk. apply Hm. lia.
    - unfold fill_last. rewrite E. destruct H as [(s & -> & H)|[-> H]]; [left|right]; eauto.
  Qed.

  (** Main loop state before row [i]. *)
  Definition dstate (i : nat) (loc nf : Z) : Prop :=
    (exists q, loc = Z.of_nat q /\ q < i /\ ~ miss q /\ (forall k, q < k < i -> miss k) /\ nfok nf (Z.of_nat i - 1 - Z.of_nat q)) \/
    (loc = 0%Z /\ (forall k, k < i -> miss k) /\ (leading = false \/ ~ miss 0 \/ forall k, k < n -> miss k)) \/
    (loc = Z.of_nat i /\ ~ miss i).
  Lemma dstep_valid i p : i < n -> ~ miss i -> written true 0 i p ->
    exists p', wr p i (Z.of_nat i + 1)%Z = Ok p' /\ written true 0 (S i) p' /\ dstate (S i) (Z.of_nat i) 0.
  Proof using Hmax.
    intros Hi Hm Hw. assert (Hf : filled true leading max n miss i i).
    { apply (filled_src_down i i); [done|split; [lia|]; split; [done|lia]|]. left. split; [done|]. unfold within. destruct max; [lia|done]. }
    destruct (written_up true 0 i p i Hw ltac:(lia) Hf) as [E Hw']. eexists. split; [exact E|]. split; [done|].
    left. exists i. split; [done|]. split; [lia|]. split; [done|]. split; [lia|]. unfold nfok. destruct max; [lia|done].
  Qed.
  Lemma dstep_take i loc nf p : i < n -> miss i -> written true 0 i p -> dstate i loc nf ->
    match max with Some m => (nf =? m)%Z = false | None => True end ->
    exists p', wr p i (loc + 1)%Z = Ok p' /\ written true 0 (S i) p' /\ dstate (S i) loc (nf + 1).
  Proof using Hmax.
    intros Hi Hm Hw Hd Hnf.
    destruct Hd as [(q & -> & Hq & Hmq & Hk & Hn)|[(-> & Hk & HL)|(-> & Hx)]]; [| |done].
    - assert (Hf : filled true leading max n miss i q).
      { apply (filled_src_down i q); [done| |].
        - split; [lia|]. split; [done|]. intros k Hki. destruct (decide (k = i)) as [->|]; [done|]. apply Hk. lia.
        - left. split; [done|]. pose proof (within_nf i q nf ltac:(lia) Hn) as Hwi. destruct max; [by apply Hwi|done]. }
      destruct (written_up true 0 i p q Hw ltac:(lia) Hf) as [E Hw']. eexists. split; [exact E|]. split; [done|].
      left. exists q. split; [done|]. split; [lia|]. split; [done|]. split.
      + intros k Hki. destruct (decide (k = i)) as [->|]; [done|]. apply Hk. lia.
      + unfold nfok in *. destruct max; [lia|done].
    - assert (Hk' : forall k, k <= i -> miss k) by (intros k Hki; destruct (decide (k = i)) as [->|]; [done|]; apply Hk; lia).
      assert (Hf : filled true leading max n miss i 0).
      { apply filled_none_down; [done|lia|done| |apply Hk'; lia]. destruct HL as [?|[H0|?]]; [by left| |by right]. destruct H0. apply Hk'. lia. }
      destruct (written_up true 0 i p 0 Hw ltac:(lia) Hf) as [E Hw']. eexists. split; [exact E|]. split; [done|].
      right. left. split; [done|]. split; [intros k Hki; apply Hk'; lia|done].
  Qed.
  Lemma dstep_own i loc nf m p : i < n -> miss i -> written true 0 i p -> dstate i loc nf ->
    max = Some m -> (nf =? m)%Z = true ->
    exists p', wr p i (Z.of_nat i + 1)%Z = Ok p' /\ written true 0 (S i) p' /\ dstate (S i) loc nf.
  Proof using Hmax.
    intros Hi Hm Hw Hd Em Hnf.
    destruct Hd as [(q & -> & Hq & Hmq & Hk & Hn)|[(-> & Hk & HL)|(-> & Hx)]]; [| |done].
    - assert (Hf : filled true leading max n miss i i).
      { apply (filled_src_down i q); [done| |].
        - split; [lia|]. split; [done|]. intros k Hki. destruct (decide (k = i)) as [->|]; [done|]. apply Hk. lia.
        - right. split; [done|]. apply (not_within_nf m i q nf); [done|lia|done|done|lia]. }
      destruct (written_up true 0 i p i Hw ltac:(lia) Hf) as [E Hw']. eexists. split; [exact E|]. split; [done|].
      left. exists q. split; [done|]. split; [lia|]. split; [done|]. split.
      + intros k Hki. destruct (decide (k = i)) as [->|]; [done|]. apply Hk. lia.
      + unfold nfok in *. rewrite Em in *. lia.
    - assert (Hk' : forall k, k <= i -> miss k) by (intros k Hki; destruct (decide (k = i)) as [->|]; [done|]; apply Hk; lia).
      assert (Hf : filled true leading max n miss i i).
      { apply filled_none_down; [done|lia|done| |done]. destruct HL as [?|[H0|?]]; [by left| |by right]. destruct H0. apply Hk'. lia. }
      destruct (written_up true 0 i p i Hw ltac:(lia) Hf) as [E Hw']. eexists. split; [exact E|]. split; [done|].
      right. left. split; [done|]. split; [intros k Hki; apply Hk'; lia|done].
  Qed.

  (** Going upwards: the state before row [i - 1], rows [i..] being written. *)
  Definition ustate (i : nat) (loc nf : Z) : Prop :=
    (exists q, loc = Z.of_nat q /\ i <= q < n /\ ~ miss q /\ (forall k, i <= k < q -> miss k) /\ nfok nf (Z.of_nat q - Z.of_nat i)) \/
    (loc = (Z.of_nat n - 1)%Z /\ (forall k, i <= k < n -> miss k) /\ (leading = false \/ ~ miss (n - 1) \/ forall k, k < n -> miss k)) \/
    (loc = (Z.of_nat i - 1)%Z /\ 0 < i /\ ~ miss (i - 1)).
  Lemma ustep_valid i p : i < n -> ~ miss i -> written false (S i) n p ->
    exists p', wr p i (Z.of_nat i + 1)%Z = Ok p' /\ written false i n p' /\ ustate i (Z.of_nat i) 0.
  Proof using Hmax.
    intros Hi Hm Hw. assert (Hf : filled false leading max n miss i i).
    { apply (filled_src_up i i); [done|split; [lia|]; split; [done|lia]|]. left. split; [done|]. unfold within. destruct max; [lia|done]. }
    destruct (written_down false n i p i Hw ltac:(lia) Hf) as [E Hw']. eexists. split; [exact E|]. split; [done|].
    left. exists i. split; [done|]. split; [lia|]. split; [done|]. split; [lia|]. unfold nfok. destruct max; [lia|done].
  Qed.
  Lemma within_nf_up i q nf : i < q -> nfok nf (Z.of_nat q - Z.of_nat (S i)) ->
    match max with Some m => (nf =? m)%Z = false -> within max i q | None => within max i q end.
  Proof using Hmax. unfold nfok, within. destruct max; [|done]. intros. lia. Qed.
  Lemma ustep_take i loc nf p : i < n -> miss i -> written false (S i) n p -> ustate (S i) loc nf ->
    match max with Some m => (nf =? m)%Z = false | None => True end ->
    exists p', wr p i (loc + 1)%Z = Ok p' /\ written false i n p' /\ ustate i loc (nf + 1).
  Proof using Hmax.
    intros Hi Hm Hw Hd Hnf.
    destruct Hd as [(q & -> & Hq & Hmq & Hk & Hn)|[(-> & Hk & HL)|(-> & Hx & Hx')]].
    3:{ exfalso. apply Hx'. by replace (S i - 1) with i by lia. }
    - assert (Hf : filled false leading max n miss i q).
      { apply (filled_src_up i q); [done| |].
        - split; [lia|]. split; [done|]. intros k Hki. destruct (decide (k = i)) as [->|]; [done|]. apply Hk. lia.
        - left. split; [done|]. pose proof (within_nf_up i q nf ltac:(lia) Hn) as Hwi. destruct max; [by apply Hwi|done]. }
      destruct (written_down false n i p q Hw ltac:(lia) Hf) as [E Hw']. eexists. split; [exact E|]. split; [done|].
      left. exists q. split; [done|]. split; [lia|]. split; [done|]. split.
      + intros k Hki. destruct (decide (k = i)) as [->|]; [done|]. apply Hk. lia.
      + unfold nfok in *. destruct max; [lia|done].
    - assert (Hk' : forall k, i <= k < n -> miss k) by (intros k Hki; destruct (decide (k = i)) as [->|]; [done|]; apply Hk; lia).
      assert (Hf : filled false leading max n miss i (n - 1)).
      { apply filled_none_up; [done|lia|done| |apply Hk'; lia]. destruct HL as [?|[H0|?]]; [by left| |by right]. destruct H0. apply Hk'. lia. }
      destruct (written_down false n i p (n - 1) Hw ltac:(lia) Hf) as [E Hw'].
      replace (Z.of_nat n - 1 + 1)%Z with (Z.of_nat (n - 1) + 1)%Z by lia. eexists. split; [exact E|]. split; [done|].
      right. left. split; [done|]. split; [intros k Hki; apply Hk'; lia|done].
  Qed.
  Lemma ustep_own i loc nf m p : i < n -> miss i -> written false (S i) n p -> ustate (S i) loc nf ->
    max = Some m -> (nf =? m)%Z = true ->
    exists p', wr p i (Z.of_nat i + 1)%Z = Ok p' /\ written false i n p' /\ ustate i loc nf.
  Proof using Hmax.
    intros Hi Hm Hw Hd Em Hnf.
    destruct Hd as [(q & -> & Hq & Hmq & Hk & Hn)|[(-> & Hk & HL)|(-> & Hx & Hx')]].
    3:{ exfalso. apply Hx'. by replace (S i - 1) with i by lia. }
    - assert (Hf : filled false leading max n miss i i).
      { apply (filled_src_up i q); [done| |].
        - split; [lia|]. split; [done|]. intros k Hki. destruct (decide (k = i)) as [->|]; [done|]. apply Hk. lia.
        - right. split; [done|]. unfold nfok, within in *. rewrite Em in *. lia. }
      destruct (written_down false n i p i Hw ltac:(lia) Hf) as [E Hw']. eexists. split; [exact E|]. split; [done|].
      left. exists q. split; [done|]. split; [lia|]. split; [done|]. split.
      + intros k Hki. destruct (decide (k = i)) as [->|]; [done|]. apply Hk. lia.
      + unfold nfok in *. rewrite Em in *. lia.
    - assert (Hk' : forall k, i <= k < n -> miss k) by (intros k Hki; destruct (decide (k = i)) as [->|]; [done|]; apply Hk; lia).
      assert (Hf : filled false leading max n miss i i).
      { apply filled_none_up; [done|lia|done| |done]. destruct HL as [?|[H0|?]]; [by left| |by right]. destruct H0. apply Hk'. lia. }
      destruct (written_down false n i p i Hw ltac:(lia) Hf) as [E Hw']. eexists. split; [exact E|]. split; [done|].
      right. left. split; [done|]. split; [intros k Hki; apply Hk'; lia|done].
  Qed.
End fill.

Section loops.
  Context (miss : nat -> Prop) (n : nat) (na : list Z) (Hna : indicates n miss na) (leading : bool).
  Notation written := (written miss n leading).
  Notation dstate := (dstate miss n leading).
  Notation ustate := (ustate miss n leading).

  Lemma written_none max down p k : length p = n -> written max down k k p.
  Proof. intros H. split; [done|]. intros; lia. Qed.

  Lemma down_loop s p : s <= n -> written None true 0 s p -> dstate None s (Z.of_nat s) 0 ->
    exists st, for_ s (n - s) (fun i '(loc, p_loc) =>
      let! b := rd na i in
      let loc := if (b =? 0)%Z then Z.of_nat i else loc in
      let! p_loc := wr p_loc i (loc + 1)%Z in
      Ok (loc, p_loc)) (Z.of_nat s, p) = Ok st /\ written None true 0 n st.2.
  Proof using Hna.
    intros Hs Hw Hd.
    destruct (for_inv (fun i (st : Z * list Z) => written None true 0 i st.2 /\ dstate None i st.1 0) s (n - s)
      (fun i '(loc, p_loc) =>
      let! b := rd na i in
      let loc := if (b =? 0)%Z then Z.of_nat i else loc in
      let! p_loc := wr p_loc i (loc + 1)%Z in
      Ok (loc, p_loc)) (Z.of_nat s, p)) as (st & E & HI & _).
    - done.
    - intros i [loc q] Hi [Hw' Hd']. cbn [fst snd] in *.
      destruct (na_cases _ _ _ Hna i) as [[Hm ->]|[Hm ->]]; [lia| |]; cbn [bind Z.eqb].
      + destruct (dstep_take miss n leading None I i loc 0 q) as (p' & -> & Hw2 & Hd2); [lia|done|done|done|done|].
        cbn [bind]. eexists. split; [done|]. cbn [fst snd]. split; [done|]. done.
      + destruct (dstep_valid miss n leading None I i q) as (p' & -> & Hw2 & Hd2); [lia|done|done|].
        cbn [bind]. eexists. split; [done|]. done.
    - exists st. split; [done|]. by replace (s + (n - s)) with n in HI by lia.
  Qed.
  Lemma down_max_loop m s p : (0 <= m)%Z -> s <= n -> written (Some m) true 0 s p -> dstate (Some m) s (Z.of_nat s) 0 ->
    exists st, for_ s (n - s) (fill_max_body na m) (Z.of_nat s, 0%Z, p) = Ok st /\ written (Some m) true 0 n st.2.
  Proof using Hna.
    intros Hm0 Hs Hw Hd.
    destruct (for_inv (fun i (st : Z * Z * list Z) => written (Some m) true 0 i st.2 /\ dstate (Some m) i st.1.1 st.1.2) s (n - s)
      (fill_max_body na m) (Z.of_nat s, 0%Z, p)) as (st & E & HI & _).
    - done.
    - intros i [[loc nf] q] Hi [Hw' Hd']. cbn [fst snd] in *. unfold fill_max_body.
      destruct (na_cases _ _ _ Hna i) as [[Hm ->]|[Hm ->]]; [lia| |]; cbn [bind Z.eqb].
      + destruct (nf =? m)%Z eqn:Enf.
        * destruct (dstep_own miss n leading (Some m) Hm0 i loc nf m q) as (p' & -> & Hw2 & Hd2); [lia|done..|].
          cbn [bind]. eexists. split; [done|]. done.
        * destruct (dstep_take miss n leading (Some m) Hm0 i loc nf q) as (p' & -> & Hw2 & Hd2); [lia|done..|].
          cbn [bind]. eexists. split; [done|]. done.
      + destruct (dstep_valid miss n leading (Some m) Hm0 i q) as (p' & -> & Hw2 & Hd2); [lia|done|done|].
        cbn [bind]. eexists. split; [done|]. done.
    - exists st. split; [done|]. by replace (s + (n - s)) with n in HI by lia.
  Qed.
  Lemma up_loop s (loc0 : Z) p : loc0 = (Z.of_nat s - 1)%Z -> s <= n -> written None false s n p -> ustate None s loc0 0 ->
    exists st, for_down 0 s (fun i '(loc, p_loc) =>
      let! b := rd na i in
      let loc := if (b =? 0)%Z then Z.of_nat i else loc in
      let! p_loc := wr p_loc i (loc + 1)%Z in
      Ok (loc, p_loc)) (loc0, p) = Ok st /\ written None false 0 n st.2.
  Proof using Hna.
    intros -> Hs Hw Hd.
    destruct (for_down_inv (fun i (st : Z * list Z) => written None false i n st.2 /\ ustate None i st.1 0) 0 s
      (fun i '(loc, p_loc) =>
      let! b := rd na i in
      let loc := if (b =? 0)%Z then Z.of_nat i else loc in
      let! p_loc := wr p_loc i (loc + 1)%Z in
      Ok (loc, p_loc)) (Z.of_nat s - 1, p)%Z) as (st & E & HI & _).
    - done.
    - intros i [loc q] Hi [Hw' Hd']. cbn [fst snd] in *.
      destruct (na_cases _ _ _ Hna i) as [[Hm ->]|[Hm ->]]; [lia| |]; cbn [bind Z.eqb].
      + destruct (ustep_take miss n leading None I i loc 0 q) as (p' & -> & Hw2 & Hd2); [lia|done|done|done|done|].
        cbn [bind]. eexists. split; [done|]. cbn [fst snd]. split; [done|]. done.
      + destruct (ustep_valid miss n leading None I i q) as (p' & -> & Hw2 & Hd2); [lia|done|done|].
        cbn [bind]. eexists. split; [done|]. done.
    - exists st. split; done.
  Qed.
  Lemma up_max_loop m s (loc0 : Z) p : (0 <= m)%Z -> loc0 = (Z.of_nat s - 1)%Z -> s <= n -> written (Some m) false s n p -> ustate (Some m) s loc0 0 ->
    exists st, for_down 0 s (fill_max_body na m) (loc0, 0%Z, p) = Ok st /\ written (Some m) false 0 n st.2.
  Proof using Hna.
    intros Hm0 -> Hs Hw Hd.
    destruct (for_down_inv (fun i (st : Z * Z * list Z) => written (Some m) false i n st.2 /\ ustate (Some m) i st.1.1 st.1.2) 0 s
      (fill_max_body na m) (Z.of_nat s - 1, 0, p)%Z) as (st & E & HI & _).
    - done.
    - intros i [[loc nf] q] Hi [Hw' Hd']. cbn [fst snd] in *. unfold fill_max_body.
      destruct (na_cases _ _ _ Hna i) as [[Hm ->]|[Hm ->]]; [lia| |]; cbn [bind Z.eqb].
      + destruct (nf =? m)%Z eqn:Enf.
        * destruct (ustep_own miss n leading (Some m) Hm0 i loc nf m q) as (p' & -> & Hw2 & Hd2); [lia|done..|].
          cbn [bind]. eexists. split; [done|]. done.
        * destruct (ustep_take miss n leading (Some m) Hm0 i loc nf q) as (p' & -> & Hw2 & Hd2); [lia|done..|].
          cbn [bind]. eexists. split; [done|]. done.
      + destruct (ustep_valid miss n leading (Some m) Hm0 i q) as (p' & -> & Hw2 & Hd2); [lia|done|done|].
        cbn [bind]. eexists. split; [done|]. done.
    - exists st. split; done.
  Qed.

  (** The edges. *)
  Lemma back_fill s p : leading = true -> s < n -> ~ miss s -> (forall k, k < s -> miss k) -> length p = n ->
    exists p', for_down 0 s (fun i p_loc => wr p_loc i (Z.of_nat s + 1)%Z) p = Ok p' /\ written None true 0 s p'.
  Proof using.
    intros HL Hs Hms Hm Hl.
    apply (for_down_inv (fun i p => written None true i s p)).
    - by apply written_none.
    - intros i q Hi Hw. simpl in Hi.
      assert (Hf : filled true leading None n miss i s).
      { apply (filled_alt_down miss n leading None i s); [lia|done|intros; apply Hm; lia| |by left].
        split; [lia|]. split; [done|]. intros; apply Hm; lia. }
      destruct (written_down miss n leading None true s i q s Hw ltac:(lia) Hf) as [E Hw']. rewrite E. eauto.
  Qed.
  Lemma back_fill_max m s p : (0 <= m)%Z -> leading = true -> s < n -> ~ miss s -> (forall k, k < s -> miss k) -> length p = n ->
    exists st, for_down 0 s (fill_edge m (Z.of_nat s)) (0%Z, p) = Ok st /\ written (Some m) true 0 s st.2.
  Proof using.
    intros Hm0 HL Hs Hms Hm Hl.
    destruct (for_down_inv (fun i (st : Z * list Z) => written (Some m) true i s st.2 /\ st.1 = Z.min m (Z.of_nat s - Z.of_nat i)) 0 s
      (fill_edge m (Z.of_nat s)) (0%Z, p)) as (st & E & HI & _).
    - split; [by apply written_none|]. simpl. lia.
    - intros i [nf q] Hi [Hw Hnf]. simpl in Hi. cbn [fst snd] in *. unfold fill_edge.
      assert (Hx : forall l, (l = s /\ within (Some m) i s) \/ (l = i /\ ~ within (Some m) i s) -> filled true leading (Some m) n miss i l).
      { intros l. apply filled_alt_down; [lia|done|intros; apply Hm; lia|]. split; [lia|]. split; [done|]. intros; apply Hm; lia. }
      destruct (nf =? m)%Z eqn:Enf.
      + destruct (written_down miss n leading (Some m) true s i q i Hw ltac:(lia)) as [-> Hw'].
        { apply Hx. right. split; [done|]. unfold within. lia. }
        cbn [bind]. eexists. split; [done|]. cbn [fst snd]. split; [done|lia].
      + destruct (written_down miss n leading (Some m) true s i q s Hw ltac:(lia)) as [-> Hw'].
        { apply Hx. left. split; [done|]. unfold within. lia. }
        cbn [bind]. eexists. split; [done|]. cbn [fst snd]. split; [done|lia].
    - eauto.
  Qed.
  Lemma forward_fill s p : leading = true -> s < n -> ~ miss s -> (forall k, s < k < n -> miss k) -> length p = n ->
    exists p', for_ (S s) (n - S s) (fun i p_loc => wr p_loc i (Z.of_nat s + 1)%Z) p = Ok p' /\ written None false (S s) n p'.
  Proof using.
    intros HL Hs Hms Hm Hl.
    destruct (for_inv (fun i p => written None false (S s) i p) (S s) (n - S s) (fun i p_loc => wr p_loc i (Z.of_nat s + 1)%Z) p) as (p' & E & HI).
    - by apply written_none.
    - intros i q Hi Hw.
      assert (Hf : filled false leading None n miss i s).
      { apply (filled_alt_up miss n leading None i s); [lia|done|intros; apply Hm; lia| |by left].
        split; [lia|]. split; [done|]. intros; apply Hm; lia. }
      destruct (written_up miss n leading None false (S s) i q s Hw ltac:(lia) Hf) as [E Hw']. rewrite E. eauto.
    - exists p'. split; [done|]. by replace (S s + (n - S s)) with n in HI by lia.
  Qed.
  Lemma forward_fill_max m s p : (0 <= m)%Z -> leading = true -> s < n -> ~ miss s -> (forall k, s < k < n -> miss k) -> length p = n ->
    exists st, for_ (S s) (n - S s) (fill_edge m (Z.of_nat s)) (0%Z, p) = Ok st /\ written (Some m) false (S s) n st.2.
  Proof using.
    intros Hm0 HL Hs Hms Hm Hl.
    destruct (for_inv (fun i (st : Z * list Z) => written (Some m) false (S s) i st.2 /\ st.1 = Z.min m (Z.of_nat i - 1 - Z.of_nat s)) (S s) (n - S s)
      (fill_edge m (Z.of_nat s)) (0%Z, p)) as (st & E & HI & _).
    - split; [by apply written_none|]. simpl fst. lia.
    - intros i [nf q] Hi [Hw Hnf]. cbn [fst snd] in *. unfold fill_edge.
      assert (Hx : forall l, (l = s /\ within (Some m) i s) \/ (l = i /\ ~ within (Some m) i s) -> filled false leading (Some m) n miss i l).
      { intros l. apply filled_alt_up; [lia|done|intros; apply Hm; lia|]. split; [lia|]. split; [done|]. intros; apply Hm; lia. }
      destruct (nf =? m)%Z eqn:Enf.
      + destruct (written_up miss n leading (Some m) false (S s) i q i Hw ltac:(lia)) as [-> Hw'].
        { apply Hx. right. split; [done|]. unfold within. lia. }
        cbn [bind]. eexists. split; [done|]. cbn [fst snd]. split; [done|lia].
      + destruct (written_up miss n leading (Some m) false (S s) i q s Hw ltac:(lia)) as [-> Hw'].
        { apply Hx. left. split; [done|]. unfold within. lia. }
        cbn [bind]. eexists. split; [done|]. cbn [fst snd]. split; [done|lia].
    - exists st. split; [done|]. by replace (S s + (n - S s)) with n in HI by lia.
  Qed.

  Lemma down_spec p : length p = n -> exists p', vec_fill_missing_down na n leading p = Ok p' /\ written None true 0 n p'.
  Proof using Hna.
    intros Hl. unfold vec_fill_missing_down.
    assert (Hfin : forall s p, s <= n -> written None true 0 s p -> dstate None s (Z.of_nat s) 0 ->
      exists p', (let! (_, p_loc) := for_ (Z.to_nat (Z.of_nat s)) (n - Z.to_nat (Z.of_nat s)) (fun i '(loc, p_loc) =>
        let! b := rd na i in
        let loc := if (b =? 0)%Z then Z.of_nat i else loc in
        let! p_loc := wr p_loc i (loc + 1)%Z in
        Ok (loc, p_loc)) (Z.of_nat s, p) in Ok p_loc) = Ok p' /\ written None true 0 n p').
    { intros s q Hs Hw Hd. rewrite Nat2Z.id. destruct (down_loop s q Hs Hw Hd) as ([l p'] & -> & H). cbn [bind]. eauto. }
    destruct leading eqn:EL.
    - destruct (fill_first_spec miss n na Hna) as (s & -> & H). cbn [bind].
      destruct H as [(Hs & Hms & Hk)|(-> & Hk)].
      + rewrite Nat2Z.id. destruct (back_fill s p) as (p' & -> & Hw); [congruence|done..|]. cbn [bind]. rewrite EL in *.
        apply Hfin; [lia|done|]. right. right. done.
      + simpl Z.to_nat. cbn [for_down bind]. apply (Hfin 0); [lia|split; [done|intros; lia]|]. right. left.
        split; [done|]. split; [lia|]. by right; right.
    - cbn [bind]. apply (Hfin 0); [lia|split; [done|intros; lia]|]. right. left. split; [done|]. split; [lia|]. by left.
  Qed.

  Lemma down_max_spec m p : (0 <= m)%Z -> length p = n ->
    exists p', vec_fill_missing_down_with_max_fill na n leading m p = Ok p' /\ written (Some m) true 0 n p'.
  Proof using Hna.
    intros Hm0 Hl. unfold vec_fill_missing_down_with_max_fill.
    assert (Hfin : forall s p, s <= n -> written (Some m) true 0 s p -> dstate (Some m) s (Z.of_nat s) 0 ->
      exists p', (let! (_, p_loc) := for_ (Z.to_nat (Z.of_nat s)) (n - Z.to_nat (Z.of_nat s)) (fill_max_body na m) (Z.of_nat s, 0%Z, p) in Ok p_loc) = Ok p' /\
        written (Some m) true 0 n p').
    { intros s q Hs Hw Hd. rewrite Nat2Z.id. destruct (down_max_loop m s q Hm0 Hs Hw Hd) as ([l p'] & -> & H). cbn [bind]. eauto. }
    destruct leading eqn:EL.
    - destruct (fill_first_spec miss n na Hna) as (s & -> & H). cbn [bind].
      destruct H as [(Hs & Hms & Hk)|(-> & Hk)].
      + rewrite Nat2Z.id. destruct (back_fill_max m s p) as ([nf p'] & -> & Hw); [done|congruence|done..|]. cbn [bind]. rewrite EL in *.
        apply Hfin; [lia|done|]. right. right. done.
      + simpl Z.to_nat. cbn [for_down bind]. apply (Hfin 0); [lia|split; [done|intros; lia]|]. right. left.
        split; [done|]. split; [lia|]. by right; right.
    - cbn [bind]. apply (Hfin 0); [lia|split; [done|intros; lia]|]. right. left. split; [done|]. split; [lia|]. by left.
  Qed.
  Lemma up_spec p : length p = n -> exists p', vec_fill_missing_up na n leading p = Ok p' /\ written None false 0 n p'.
  Proof using Hna.
    intros Hl. unfold vec_fill_missing_up.
    assert (Hfin : forall s loc p, loc = (Z.of_nat s - 1)%Z -> s <= n -> written None false s n p -> ustate None s loc 0 ->
      exists p', (let! (_, p_loc) := for_down 0 (Z.to_nat (loc + 1)) (fun i '(loc, p_loc) =>
        let! b := rd na i in
        let loc := if (b =? 0)%Z then Z.of_nat i else loc in
        let! p_loc := wr p_loc i (loc + 1)%Z in
        Ok (loc, p_loc)) (loc, p) in Ok p_loc) = Ok p' /\ written None false 0 n p').
    { intros s loc q Es Hs Hw Hd. replace (Z.to_nat (loc + 1)) with s by lia.
      destruct (up_loop s loc q Es Hs Hw Hd) as ([l p'] & -> & H). cbn [bind]. eauto. }
    destruct leading eqn:EL.
    - destruct (fill_last_spec miss n na Hna) as [(s & -> & Hs & Hms & Hk)|(-> & Hk)]; cbn [bind].
      + replace (Z.to_nat (Z.of_nat s + 1)) with (S s) by lia.
        destruct (forward_fill s p) as (p' & -> & Hw); [congruence|done..|]. cbn [bind]. rewrite EL in *.
        apply (Hfin (S s)); [lia|lia|done|]. right. right. split; [lia|]. split; [lia|]. by replace (S s - 1) with s by lia.
      + replace (Z.to_nat (Z.of_nat n - 1 + 1)) with n by lia. rewrite Nat.sub_diag. cbn [for_ bind].
        apply (Hfin n); [lia|lia|split; [done|intros; lia]|]. right. left. split; [done|]. split; [lia|]. by right; right.
    - cbn [bind]. apply (Hfin n); [lia|lia|split; [done|intros; lia]|]. right. left. split; [done|]. split; [lia|]. by left.
  Qed.
  Lemma up_max_spec m p : (0 <= m)%Z -> length p = n ->
    exists p', vec_fill_missing_up_with_max_fill na n leading m p = Ok p' /\ written (Some m) false 0 n p'.
  Proof using Hna.
    intros Hm0 Hl. unfold vec_fill_missing_up_with_max_fill.
    assert (Hfin : forall s loc p, loc = (Z.of_nat s - 1)%Z -> s <= n -> written (Some m) false s n p -> ustate (Some m) s loc 0 ->
      exists p', (let! (_, p_loc) := for_down 0 (Z.to_nat (loc + 1)) (fill_max_body na m) (loc, 0%Z, p) in Ok p_loc) = Ok p' /\
        written (Some m) false 0 n p').
    { intros s loc q Es Hs Hw Hd. replace (Z.to_nat (loc + 1)) with s by lia.
      destruct (up_max_loop m s loc q Hm0 Es Hs Hw Hd) as ([l p'] & -> & H). cbn [bind]. eauto. }
    destruct leading eqn:EL.
    - destruct (fill_last_spec miss n na Hna) as [(s & -> & Hs & Hms & Hk)|(-> & Hk)]; cbn [bind].
      + replace (Z.to_nat (Z.of_nat s + 1)) with (S s) by lia.
        destruct (forward_fill_max m s p) as ([nf p'] & -> & Hw); [done|congruence|done..|]. cbn [bind]. rewrite EL in *.
        apply (Hfin (S s)); [lia|lia|done|]. right. right. split; [lia|]. split; [lia|]. by replace (S s - 1) with s by lia.
      + replace (Z.to_nat (Z.of_nat n - 1 + 1)) with n by lia. rewrite Nat.sub_diag. cbn [for_ bind].
        apply (Hfin n); [lia|lia|split; [done|intros; lia]|]. right. left. split; [done|]. split; [lia|]. by right; right.
    - cbn [bind]. apply (Hfin n); [lia|lia|split; [done|intros; lia]|]. right. left. split; [done|]. split; [lia|]. by left.
  Qed.
End loops.
