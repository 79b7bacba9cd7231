(** * Lemmas: the order of the intervals and the loops over it *)
From Verif Require Import Base M_Double M_Scalar M_Object M_Proxy M_OrderChr M_OrderDf M_Rank M_Interval.
From Verif Require Import Spec_Order Spec_OrderRow Spec_Interval L_OrderSpec L_OrderChr L_Dbl L_Interval L_IntervalRow P_Order P_Rank.
From Coq Require Import Sorting.Sorted.
#[local] Arguments Z.mul : simpl never.
#[local] Arguments Z.add : simpl never.
#[local] Arguments Z.sub : simpl never.
#[local] Arguments Z.to_nat : simpl never.
#[local] Arguments Z.of_nat : simpl never.

(** Valid bounds: of the same size and types (none complex); each interval is
    missing at both ends, or complete at both ends. *)
Definition bounds_ok (s e : oproxy) : Prop :=
  oproxy_size s = oproxy_size e /\ (Z.of_nat (oproxy_size s) <= INT_MAX)%Z /\
  Forall (col_ok (oproxy_size s)) (proxy_cols s) /\ Forall (col_ok (oproxy_size s)) (proxy_cols e) /\
  map ocol_kind (proxy_cols s) = map ocol_kind (proxy_cols e) /\ Forall (fun c => ocol_kind c <> 3%Z) (proxy_cols s).
Definition interval_input (s e : oproxy) (tls : truelengths) : Prop :=
  bounds_ok s e /\ (forall x, 0 <= tls x)%Z /\
  forall a, (1 <= a <= Z.of_nat (oproxy_size s))%Z ->
    (missing_at s a = true /\ missing_at e a = true) \/ (complete_at s a = true /\ complete_at e a = true).
(** The missing intervals and the others. *)
Definition missing_locs (s : oproxy) : list Z := List.filter (missing_at s) (locs (oproxy_size s)).
Definition usable_locs (s : oproxy) : list Z := List.filter (fun a => negb (missing_at s a)) (locs (oproxy_size s)).

Lemma kinds_ncpl cs ds : map ocol_kind cs = map ocol_kind ds -> Forall (fun c => ocol_kind c <> 3%Z) cs -> Forall (fun c => ocol_kind c <> 3%Z) ds.
Proof.
  revert ds. induction cs as [|c cs IH]; intros [|d ds] H F; try done. cbn in H. injection H as H1 H2. apply Forall_cons in F as [F1 F].
  constructor; [congruence|by apply IH].
Qed.
Lemma filter_split {A} (f : A -> bool) (R : A -> A -> Prop) l : StronglySorted R l ->
  (forall a b, a ∈ l -> b ∈ l -> f a = false -> f b = true -> ~ R a b) ->
  l = List.filter f l ++ List.filter (fun a => negb (f a)) l.
Proof.
  induction 1 as [|a l SS IH F]; intros H; [done|]. cbn. destruct (f a) eqn:Ea; cbn.
  - f_equal. apply IH. intros x y Hx Hy. apply H; by right.
  - rewrite IH at 1 by (intros x y Hx Hy; apply H; by right).
    assert (List.filter f l = []) as ->; [|done]. clear IH. destruct (List.filter f l) as [|b k] eqn:Ef; [done|]. exfalso.
    assert (Hb : In b (List.filter f l)) by (rewrite Ef; by left). apply List.filter_In in Hb as [Hb Fb]. apply elem_of_list_In in Hb.
    apply (H a b); [left|by right|done|done|]. rewrite Forall_forall in F. by apply F.
Qed.
Lemma elem_filter {A} (f : A -> bool) l x : x ∈ List.filter f l <-> x ∈ l /\ f x = true.
Proof. rewrite !elem_of_list_In. apply List.filter_In. Qed.
Lemma filter_perm {A} (f : A -> bool) (l k : list A) : l ≡ₚ k -> List.filter f l ≡ₚ List.filter f k.
Proof. induction 1 as [|x l k H IH|x y l|l k m H1 IH1 H2 IH2]; cbn; [done|destruct (f x); [by constructor|done]|destruct (f x), (f y); try done; constructor|by etransitivity]. Qed.

Section order.
  Context (s e : oproxy) (tls : truelengths) (H : interval_input s e tls).
  Let n := oproxy_size s.
  Let S a := point_at s a.
  Let E a := point_at e a.

  Lemma usable_complete a : (1 <= a <= Z.of_nat n)%Z -> missing_at s a = false -> complete_at s a = true /\ complete_at e a = true.
  Proof. intros Ha Hm. destruct H as (_ & _ & Hr). destruct (Hr a Ha) as [[Hx _]|Hx]; [congruence|done]. Qed.
  Lemma missing_both a : (1 <= a <= Z.of_nat n)%Z -> missing_at s a = true -> missing_at e a = true.
  Proof.
    intros Ha Hm. destruct H as ((_ & _ & _ & _ & Hk & _) & _ & Hr). destruct (Hr a Ha) as [[_ Hx]|[Hx _]]; [done|].
    unfold missing_at, complete_at in *. destruct (proxy_cols s) as [|c cs].
    - by destruct (proxy_cols e).
    - exfalso. cbn in Hm, Hx. by destruct (col_complete a c).
  Qed.

  Lemma flags_zip d1 l1 d2 l2 cs ds :
    zip (cs ++ ds) (zip (replicate (length cs) d1 ++ replicate (length ds) d2) (replicate (length cs) l1 ++ replicate (length ds) l2)) =
    flagged d1 l1 cs ++ flagged d2 l2 ds.
  Proof.
    induction cs as [|c cs IH]; cbn; [|by f_equal]. induction ds as [|d ds IH]; cbn; [done|by f_equal].
  Qed.

  (** the comparison of the locations: by start, then by (decreasing) end *)
  Definition icmp (desc : bool) (a b : Z) : comparison := cmp_then (row_vcmp (S a) (S b)) (dir desc (row_vcmp (E a) (E b))).

  Lemma interval_order_ok fuel (desc : bool) : length (proxy_cols s ++ proxy_cols e) <= fuel ->
    exists us, interval_order fuel s e (if desc then [false; true] else [false]) (if desc then [false; true] else [false]) n tls = Ok (missing_locs s ++ us) /\
      us ≡ₚ usable_locs s /\ StronglySorted (fun a b => icmp desc a b = Lt \/ (icmp desc a b = Eq /\ (a < b)%Z)) us.
  Proof.
    intros Hf. destruct H as ((Hsz & HN & Oc & Od & Hk & Hn) & Ht & Hr). pose proof (kinds_ncpl _ _ Hk Hn) as Hn'.
    set (x := XDf [length (proxy_cols s); length (proxy_cols e)]). set (p := ODf (proxy_cols s ++ proxy_cols e) n).
    set (fl := if desc then [false; true] else [false]).
    assert (Hin : order_input x p tls).
    { split; [cbn; by apply Forall_app|]. split; [done|]. split; [|done]. cbn. rewrite app_length. lia. }
    assert (Hv : flags_valid x fl) by (unfold fl, flags_valid; destruct desc; [by right|by left]).
    destruct (C27_order_total fuel x p fl fl false tls Hin Hv Hv) as [[o Eo] _]; [|done|].
    { intros j c _ Hc. cbn in Hc. assert (Hcc : Forall (fun c => ocol_kind c <> 3%Z) (proxy_cols s ++ proxy_cols e)) by (by apply Forall_app).
      pose proof (Forall_lookup_1 _ _ _ _ Hcc Hc) as Hx. cbn in Hx. by destruct c. }
    pose proof (C27_order_sound _ _ _ _ _ _ _ _ Hin Eo) as [P SS].
    assert (Ec : forall a b, order_vcmp x p fl fl false a b =
      cmp_then (rows_vcmp false (flagged false false (proxy_cols s)) a b) (rows_vcmp false (flagged desc desc (proxy_cols e)) a b)).
    { intros a b. rewrite <- rows_app. unfold order_vcmp. cbn [p proxy_cols]. rewrite <- flags_zip. f_equal. f_equal.
      assert (Ef : flags_of x (length (proxy_cols s ++ proxy_cols e)) fl = replicate (length (proxy_cols s)) false ++ replicate (length (proxy_cols e)) desc).
      { unfold fl, flags_of, x. destruct desc; cbn.
        - by rewrite app_nil_r.
        - rewrite app_length. by rewrite replicate_add. }
      by rewrite Ef. }
    assert (Hloc : forall a, a ∈ o -> (1 <= a <= Z.of_nat n)%Z).
    { intros a Ha. rewrite P in Ha. unfold locs in Ha. apply elem_of_list_fmap in Ha. destruct Ha as (i & -> & Hi). apply elem_of_seq in Hi. cbn in Hi. lia. }
    assert (Emm : forall a b, a ∈ o -> b ∈ o -> missing_at s a = true -> missing_at s b = true -> order_vcmp x p fl fl false a b = Eq).
    { intros a b Ha Hb Ma Mb. rewrite Ec, (rows_missing_eq _ _ _ a b Hn Ma Mb). cbn.
      apply rows_missing_eq; [done|apply missing_both|apply missing_both]; auto. }
    assert (Emu : forall a b, a ∈ o -> b ∈ o -> missing_at s a = true -> missing_at s b = false -> order_vcmp x p fl fl false a b = Lt).
    { intros a b Ha Hb Ma Mb. destruct (usable_complete b (Hloc b Hb) Mb) as [Cb _]. rewrite Ec. unfold missing_at, complete_at in *.
      destruct (proxy_cols s) as [|c cs]; [done|]. apply Forall_cons in Hn as [Hn1 _]. cbn in Ma, Cb. apply andb_true_iff in Ma as [Ma _].
      apply andb_true_iff in Cb as [Cb _]. apply negb_true_iff in Ma. cbn [flagged map rows_vcmp]. by rewrite (col_missing_lt c a b). }
    assert (T : tpo (order_vcmp x p fl fl false)) by apply rows_vcmp_tpo.
    exists (List.filter (fun a => negb (missing_at s a)) o).
    assert (Esplit : o = List.filter (missing_at s) o ++ List.filter (fun a => negb (missing_at s a)) o).
    { apply (filter_split _ _ _ SS). intros a b Ha Hb Ua Mb. pose proof (tp_lt_gt _ T _ _ (Emu b a Hb Ha Mb Ua)) as Hg. rewrite Hg. intros [?|[? _]]; done. }
    assert (Em : List.filter (missing_at s) o = missing_locs s).
    { apply (ss_unique Z.lt); [lia| | |].
      - apply (ss_impl (fun a b => order_vcmp x p fl fl false a b = Lt \/ (order_vcmp x p fl fl false a b = Eq /\ (a < b)%Z))).
        + intros a b Ha Hb [Hl|[_ Hl]]; [|done]. apply elem_filter in Ha as [Ha Ma]. apply elem_filter in Hb as [Hb Mb].
          rewrite (Emm a b) in Hl by done. done.
        + eapply ss_sublist; [apply list_filter_sublist|exact SS].
      - eapply ss_sublist; [apply list_filter_sublist|apply locs_sorted].
      - by apply filter_perm. }
    split; [|split].
    - unfold interval_order. change (ocols s) with (proxy_cols s). change (ocols e) with (proxy_cols e). fold x p fl.
      rewrite Eo. f_equal. rewrite Esplit at 1. by rewrite Em.
    - unfold usable_locs. by apply filter_perm.
    - eapply ss_impl; [|eapply ss_sublist; [apply list_filter_sublist|exact SS]]. intros a b Ha Hb. cbn beta.
      apply elem_filter in Ha as [Ha Ma]. apply elem_filter in Hb as [Hb Mb]. apply negb_true_iff in Ma, Mb.
      destruct (usable_complete a (Hloc a Ha) Ma) as [Ca Ca']. destruct (usable_complete b (Hloc b Hb) Mb) as [Cb Cb'].
      assert (order_vcmp x p fl fl false a b = icmp desc a b) as ->; [|done].
      rewrite Ec, !rows_flagged by done. done.
  Qed.

  (** ** Comparisons *)
  Lemma usable_range a : a ∈ usable_locs s -> (1 <= a <= Z.of_nat n)%Z /\ complete_at s a = true /\ complete_at e a = true.
  Proof.
    intros Ha. apply elem_filter in Ha as [Ha Hm]. apply locs_elem in Ha. split; [done|]. apply negb_true_iff in Hm. by apply usable_complete.
  Qed.
  Lemma len_s : Forall (fun c => ocol_length c = oproxy_size s) (proxy_cols s).
  Proof. destruct H as ((_ & _ & Oc & _) & _). eapply Forall_impl; [exact Oc|]. by intros c [? _]. Qed.
  Lemma len_e : Forall (fun c => ocol_length c = oproxy_size e) (proxy_cols e).
  Proof. destruct H as ((Hs & _ & _ & Od & _) & _). rewrite <- Hs. eapply Forall_impl; [exact Od|]. by intros c [? _]. Qed.
  Lemma cmp_es a b : a ∈ usable_locs s -> b ∈ usable_locs s -> fn_compare e (a - 1) s (b - 1) = Ok (c2z (row_vcmp (E a) (S b))).
  Proof.
    intros Ha Hb. destruct (usable_range a Ha) as (Ra & Sa & Ea). destruct (usable_range b Hb) as (Rb & Sb & Eb).
    destruct H as ((Hsz & HN & Oc & Od & Hk & Hn) & Ht & Hr). pose proof (kinds_ncpl _ _ Hk Hn) as Hn'.
    unfold fn_compare. rewrite (orows_at e a len_e) by (rewrite <- Hsz; done). cbn [bind]. rewrite (orows_at s b len_s) by done. cbn [bind].
    by eapply row_compare_vcmp.
  Qed.
  Lemma cmp_ee a b : a ∈ usable_locs s -> b ∈ usable_locs s -> fn_compare e (a - 1) e (b - 1) = Ok (c2z (row_vcmp (E a) (E b))).
  Proof.
    intros Ha Hb. destruct (usable_range a Ha) as (Ra & Sa & Ea). destruct (usable_range b Hb) as (Rb & Sb & Eb).
    destruct H as ((Hsz & HN & Oc & Od & Hk & Hn) & Ht & Hr). pose proof (kinds_ncpl _ _ Hk Hn) as Hn'.
    unfold fn_compare. rewrite (orows_at e a len_e) by (rewrite <- Hsz; done). cbn [bind]. rewrite (orows_at e b len_e) by (rewrite <- Hsz; done). cbn [bind].
    by eapply row_compare_vcmp.
  Qed.
  Lemma cmp_ss a b : a ∈ usable_locs s -> b ∈ usable_locs s -> fn_compare s (a - 1) s (b - 1) = Ok (c2z (row_vcmp (S a) (S b))).
  Proof.
    intros Ha Hb. destruct (usable_range a Ha) as (Ra & Sa & Ea). destruct (usable_range b Hb) as (Rb & Sb & Eb).
    destruct H as ((Hsz & HN & Oc & Od & Hk & Hn) & Ht & Hr).
    unfold fn_compare. rewrite (orows_at s a len_s) by done. cbn [bind]. rewrite (orows_at s b len_s) by done. cbn [bind].
    by eapply row_compare_vcmp.
  Qed.
  Lemma miss_at a : (1 <= a <= Z.of_nat n)%Z -> fn_is_missing s (a - 1) = Ok (missing_at s a).
  Proof. intros Ha. unfold fn_is_missing. rewrite (orows_at s a len_s) by done. cbn [bind]. by rewrite row_missing_at. Qed.

  (** ** Skipping the missing intervals *)
  Lemma skip_missing {A} (us : list Z) (f g : nat -> A) x0 : us ≡ₚ usable_locs s -> x0 = f 0 -> (forall k, g k = f (Datatypes.S k)) ->
    for_brk 0 n (fun k '((i, x) : nat * A) =>
      let! o := rd (missing_locs s ++ us) k in
      let! m := fn_is_missing s (o - 1) in
      if negb m then Ok (Break (i, x)) else Ok (Next (Datatypes.S i, g k))) (0, x0) = Ok (length (missing_locs s), f (length (missing_locs s))).
  Proof.
    intros P -> Hg. set (ms := missing_locs s).
    assert (Hlen : length ms + length us = n).
    { rewrite <- (locs_length n). rewrite P. unfold ms, missing_locs, usable_locs. fold n. induction (locs n) as [|a l IH]; [done|]. cbn. destruct (missing_at s a); cbn; lia. }
    edestruct (for_brk_inv (fun k '((i, x) : nat * A) => i = k /\ x = f k /\ k <= length ms) (fun st => st = (length ms, f (length ms)))
      0 n (fun k '((i, x) : nat * A) =>
      let! o := rd (ms ++ us) k in
      let! m := fn_is_missing s (o - 1) in
      if negb m then Ok (Break (i, x)) else Ok (Next (Datatypes.S i, g k))) (0, f 0)) as (st & -> & ->); [| | |done].
    - split; [done|]. split; [done|lia].
    - intros k [i x] Hk (-> & -> & Hle). destruct (decide (k < length ms)) as [Hlt|Hge].
      + left. destruct (lookup_lt_is_Some_2 ms k Hlt) as [a Ha].
        assert (rd (ms ++ us) k = Ok a) as -> by (apply rd_Ok; by rewrite lookup_app_l). cbn [bind].
        assert (Ha' : a ∈ ms) by (by eapply elem_of_list_lookup_2). apply elem_filter in Ha' as [Ha' Hm].
        rewrite miss_at by (by apply locs_elem). cbn [bind]. rewrite Hm. cbn. eexists. split; [done|]. split; [done|]. split; [done|lia].
      + right. assert (k = length ms) as -> by lia. destruct (lookup_lt_is_Some_2 us 0) as [a Ha]; [lia|].
        assert (rd (ms ++ us) (length ms) = Ok a) as -> by (apply rd_Ok; rewrite lookup_app_r by lia; by rewrite Nat.sub_diag). cbn [bind].
        assert (Ha' : a ∈ us) by (by eapply elem_of_list_lookup_2). rewrite P in Ha'. apply elem_filter in Ha' as [Ha' Hm].
        rewrite miss_at by (by apply locs_elem). cbn [bind]. apply negb_true_iff in Hm. rewrite Hm. cbn. by eexists.
    - intros [i x] (-> & -> & Hle). assert (0 + n = length ms) as -> by lia. done.
  Qed.
End order.
