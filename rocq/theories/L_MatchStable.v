(** * Lemmas: the recorded matches in the order of needles *)
From Verif Require Import Base M_Double M_Scalar M_OrderChr M_OrderDf M_Rank M_Match Spec_Order Spec_OrderRow L_OrderSpec P_Order P_Rank.
From Verif Require Import L_MatchJoint L_MatchKeys L_MatchCont.
From Coq Require Import Sorting.Sorted.
#[local] Arguments Z.mul : simpl never.
#[local] Arguments Z.add : simpl never.
#[local] Arguments Z.sub : simpl never.
#[local] Arguments Z.to_nat : simpl never.
#[local] Arguments Z.of_nat : simpl never.

Lemma locs_S n : locs (S n) = locs n ++ [(Z.of_nat n + 1)%Z].
Proof. unfold locs. by rewrite seq_S, map_app. Qed.
Lemma ss_nodup {A} (R : A -> A -> Prop) l : (forall x, ~ R x x) -> StronglySorted R l -> NoDup l.
Proof.
  intros Hi S. induction S as [|a l S IH F]; constructor; [|done]. intros Ha. eapply Forall_forall in F; [|exact Ha]. by apply (Hi a).
Qed.
Lemma ss_filter {A} (R : A -> A -> Prop) f l : StronglySorted R l -> StronglySorted R (List.filter f l).
Proof.
  intros S. induction S as [|a l S IH F]; [constructor|]. cbn. destruct (f a); [|done]. constructor; [done|].
  apply Forall_forall. intros x Hx. apply elem_of_list_In, filter_In in Hx as [Hx _]. apply elem_of_list_In in Hx. by eapply Forall_forall in F.
Qed.

Lemma filter_at {A} (d : A) (P : A -> bool) R :
  map (at_loc d R) (List.filter (fun p => P (at_loc d R p)) (locs (length R))) = List.filter P R.
Proof.
  induction R as [|x R IH] using rev_ind; [done|]. rewrite app_length. cbn [length]. rewrite Nat.add_1_r, locs_S, !List.filter_app, map_app.
  assert (E : forall p, In p (locs (length R)) -> at_loc d (R ++ [x]) p = at_loc d R p).
  { intros p Hp. apply elem_of_list_In, elem_locs in Hp. unfold at_loc. apply app_nth1. lia. }
  f_equal.
  - rewrite <- IH. rewrite (filter_ext_in _ (fun p => P (at_loc d R p))) by (intros p Hp; by rewrite E).
    apply map_ext_in. intros p Hp. apply E. by apply filter_In in Hp as [Hp _].
  - assert (Ex : at_loc d (R ++ [x]) (Z.of_nat (length R) + 1) = x).
    { unfold at_loc. replace (Z.to_nat _) with (length R) by lia. by rewrite nth_middle. }
    cbn [List.filter]. rewrite Ex. destruct (P x); [|done]. cbn. by rewrite Ex.
Qed.

Lemma blocks_by_key (key : Z -> Z) n N o :
  (forall p, p ∈ locs n -> (0 <= key p < Z.of_nat N)%Z) -> is_order (fun a b => key a ?= key b)%Z n o ->
  o = concat (map (fun l => List.filter (fun p => key p =? Z.of_nat l)%Z (locs n)) (seq 0 N)).
Proof.
  intros Hk Ho. assert (T : tpo (fun a b => (key a ?= key b)%Z)) by apply tpo_Zcompare. eapply is_order_unique; [exact T|exact Ho|].
  assert (El : forall k p, p ∈ concat (map (fun l => List.filter (fun p => key p =? Z.of_nat l)%Z (locs n)) (seq 0 k)) <->
    p ∈ locs n /\ (0 <= key p < Z.of_nat k)%Z).
  { induction k as [|k IH]; intros p.
    - cbn. rewrite elem_of_nil. lia.
    - rewrite seq_S, map_app, concat_app, elem_of_app, IH. cbn [map concat Nat.add]. rewrite app_nil_r.
      rewrite (elem_of_list_In (List.filter _ _)), filter_In, <- elem_of_list_In, Z.eqb_eq. split.
      + intros [[H1 H2]|[H1 H2]]; (split; [done|lia]).
      + intros [H1 H2]. destruct (decide (key p = Z.of_nat k)); [by right|left]. split; [done|lia]. }
  assert (SS : forall k, StronglySorted (fun a b => (key a ?= key b)%Z = Lt \/ ((key a ?= key b)%Z = Eq /\ (a < b)%Z))
    (concat (map (fun l => List.filter (fun p => key p =? Z.of_nat l)%Z (locs n)) (seq 0 k)))).
  { induction k as [|k IH]; [constructor|]. rewrite seq_S, map_app, concat_app. cbn [map concat Nat.add]. rewrite app_nil_r. apply ss_app.
    split; [done|]. split.
    - eapply ss_impl; [|apply (ss_filter Z.lt); apply locs_sorted]. intros x y Hx Hy Hxy. right. split; [|done].
      apply elem_of_list_In, filter_In in Hx as [_ Hx]. apply elem_of_list_In, filter_In in Hy as [_ Hy]. apply Z.eqb_eq in Hx, Hy. apply Z.compare_eq_iff. lia.
    - intros x y Hx Hy. apply El in Hx as [_ Hx]. apply elem_of_list_In, filter_In in Hy as [_ Hy]. apply Z.eqb_eq in Hy. left. apply Z.compare_lt_iff. lia. }
  split; [|apply SS]. apply NoDup_Permutation.
  - eapply ss_nodup; [|apply SS]. intros x [Hx|[_ Hx]]; [|lia]. by rewrite Z.compare_refl in Hx.
  - eapply ss_nodup; [|apply locs_sorted]. intros x; lia.
  - intros p. rewrite El. split; [tauto|]. intros Hp. split; [done|]. by apply Hk.
Qed.

Lemma vec_order_ints fuel (x : list Z) tls : Forall is_int x -> (Z.of_nat (length x) <= INT_MAX)%Z -> (forall s, 0 <= tls s)%Z -> 1 <= fuel ->
  exists o, vec_order fuel XVec (OVec (OInt x)) [false] [false] true tls = Ok o /\
    is_order (fun a b => at_loc 0%Z x a ?= at_loc 0%Z x b)%Z (length x) o.
Proof.
  intros Hx Hn Ht Hf. assert (I : order_input XVec (OVec (OInt x)) tls).
  { split; [|split; [done|split; [done|done]]]. cbn. constructor; [|constructor]. by split. }
  assert (V : flags_valid XVec [false]) by (by left).
  destruct (C27_order_total fuel _ _ _ _ true tls I V V) as [[o E] _].
  { intros j c Hj Hc. cbn in Hc. apply list_lookup_singleton_Some in Hc as [-> _]. lia. }
  { done. }
  exists o. split; [exact E|]. eapply is_order_ext; [|exact (C27_order_sound _ _ _ _ _ _ _ _ I E)]. intros a b Ha Hb.
  pose proof (order_plain (OVec (OInt x)) true a b) as P. cbn [proxy_ox] in P. rewrite P. cbn. unfold by_loc.
  rewrite !(at_loc_default NA_INTEGER 0%Z) by done. rewrite int_vcmp_Z by (apply at_loc_forall; done || lia). by destruct (_ ?= _)%Z.
Qed.

Lemma blocks_perm (R : list (Z * (Z * Z))) N : Forall (fun x : Z * (Z * Z) => 0 <= x.1 < Z.of_nat N)%Z R ->
  concat (map (fun l => List.filter (fun x => x.1 =? Z.of_nat l)%Z R) (seq 0 N)) ≡ₚ R.
Proof.
  intros HR. induction HR as [|x R Hx F IH].
  - generalize 0. induction N as [|N IH]; intros k; [done|]. cbn. apply IH.
  - transitivity (x :: concat (map (fun l => List.filter (fun x => x.1 =? Z.of_nat l)%Z R) (seq 0 N))); [|by constructor]. clear IH F.
    assert (X : forall k, concat (map (fun l => List.filter (fun x0 => x0.1 =? Z.of_nat l)%Z (x :: R)) (seq 0 k)) ≡ₚ
      (if (x.1 <? Z.of_nat k)%Z then [x] else []) ++ concat (map (fun l => List.filter (fun x0 => x0.1 =? Z.of_nat l)%Z R) (seq 0 k))).
    { induction k as [|k IH]; [cbn; destruct (Z.ltb_spec x.1 (Z.of_nat 0)); [lia|done]|]. rewrite seq_S, !map_app, !concat_app, IH. cbn [map concat Nat.add].
      rewrite !app_nil_r. cbn [List.filter].
      destruct (Z.eqb_spec x.1 (Z.of_nat k)), (Z.ltb_spec x.1 (Z.of_nat k)), (Z.ltb_spec x.1 (Z.of_nat (S k))); try lia; cbn [app].
      - symmetry. apply Permutation_middle.
      - done.
      - done. }
    rewrite X. rewrite (proj2 (Z.ltb_lt _ _)) by lia. done.
Qed.

Section entries_in_order.
  (** [R]: needle, first match, size. *)
  Context (R : list (Z * (Z * Z))) (N : nat).
  Context (HR : Forall (fun x : Z * (Z * Z) => 0 <= x.1 < Z.of_nat N)%Z R).
  Definition by_needle : list (Z * (Z * Z)) := concat (map (fun l => List.filter (fun x => x.1 =? Z.of_nat l)%Z R) (seq 0 N)).
  Notation d0 := (0%Z, (0%Z, 0%Z)).

  Lemma at_loc_map {A B} (f : A -> B) d l a : at_loc (f d) (map f l) a = f (at_loc d l a).
  Proof. unfold at_loc. apply map_nth. Qed.

  Lemma in_needle_order o : is_order (fun a b => at_loc 0%Z (map fst R) a ?= at_loc 0%Z (map fst R) b)%Z (length R) o ->
    map (at_loc d0 R) o = by_needle.
  Proof.
    intros Ho. assert (E : forall a, at_loc 0%Z (map fst R) a = (at_loc d0 R a).1) by (intros a; apply (at_loc_map fst d0)).
    rewrite (blocks_by_key (fun p => (at_loc d0 R p).1) (length R) N o).
    - unfold by_needle. rewrite concat_map, map_map. f_equal. apply map_ext. intros l.
      apply (filter_at d0 (fun x => x.1 =? Z.of_nat l)%Z).
    - intros p Hp. apply elem_locs in Hp. assert (In (at_loc d0 R p) R) as Hin by (unfold at_loc; apply nth_In; lia).
      apply elem_of_list_In in Hin. by eapply Forall_forall in HR.
    - eapply is_order_ext; [|exact Ho]. intros a b _ _. cbv beta. by rewrite !E.
  Qed.
  Lemma by_needle_length : length by_needle = length R.
  Proof. apply Permutation_length. by apply blocks_perm. Qed.

  Lemma needle_order_ok fuel ms m tls : m_first ms = map (fun x => x.2.1) R -> m_size ms = map (fun x => x.2.2) R -> m_loc ms = map fst R ->
    (Z.of_nat N <= INT_MAX)%Z -> (Z.of_nat (length R) <= INT_MAX)%Z -> (forall s, 0 <= tls s)%Z -> 1 <= fuel -> is_any m = false ->
    exists o, vec_order fuel XVec (OVec (OInt (m_loc ms))) [false] [false] true tls = Ok o /\
      (forall i x, by_needle !! i = Some x -> x_entry ms m o i = Ok (x.2.1, x.2.2, x.1)) /\
      (forall i x, by_needle !! i = Some x -> exists l, rd o i = Ok l /\ rdZ (m_loc ms) (l - 1) = Ok x.1).
  Proof.
    intros E1 E2 E3 HN Hn Ht Hf Hany.
    destruct (vec_order_ints fuel (m_loc ms) tls) as (o & Eo & Ho); [|rewrite E3, map_length; done|done|done|].
    { rewrite E3. apply Forall_map. eapply Forall_impl; [exact HR|]. intros x Hx. cbn in Hx |- *. unfold is_int, INT_MIN, INT_MAX in *. lia. }
    exists o. split; [done|]. rewrite E3, map_length in Ho. pose proof (in_needle_order o Ho) as B. destruct Ho as [P _].
    assert (X : forall i x, by_needle !! i = Some x -> exists a, o !! i = Some a /\ R !! Z.to_nat (a - 1) = Some x /\ (1 <= a)%Z).
    { intros i x Hx. rewrite <- B in Hx. apply list_lookup_fmap_Some in Hx as (a & Ha & ->). exists a. split; [done|].
      assert (Hin : a ∈ locs (length R)) by (rewrite <- P; by eapply elem_of_list_lookup_2). apply elem_locs in Hin. split; [|lia].
      unfold at_loc. destruct (lookup_lt_is_Some_2 R (Z.to_nat (a - 1))) as [y Hy]; [lia|]. rewrite Hy. f_equal. symmetry. by apply nth_lookup_Some. }
    assert (RZ : forall (l : list Z) (f : Z * (Z * Z) -> Z) a x, l = map f R -> R !! Z.to_nat (a - 1) = Some x -> (1 <= a)%Z -> rdZ l (a - 1) = Ok (f x)).
    { intros l f a x -> Hx Ha. replace (a - 1)%Z with (Z.of_nat (Z.to_nat (a - 1))) by lia. rewrite rdZ_nat. apply rd_Ok. by rewrite list_lookup_fmap, Hx. }
    split; intros i x Hx; destruct (X i x Hx) as (a & Ha & Hr & Hpos).
    - unfold x_entry. rewrite Hany. rewrite (proj2 (rd_Ok _ _ _) Ha). cbn [bind].
      rewrite (RZ _ _ a x E1 Hr Hpos), (RZ _ _ a x E2 Hr Hpos), (RZ _ _ a x E3 Hr Hpos). done.
    - exists a. split; [by apply rd_Ok|]. by apply (RZ _ fst).
  Qed.
End entries_in_order.
