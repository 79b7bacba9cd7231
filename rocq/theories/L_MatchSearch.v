(** * Lemmas: binary searches for matches *)
From Verif Require Import Base M_Double M_Scalar M_Match.
#[local] Arguments Z.mul : simpl never.
#[local] Arguments Z.add : simpl never.
#[local] Arguments Z.sub : simpl never.
#[local] Arguments Z.to_nat : simpl never.
#[local] Arguments Z.of_nat : simpl never.

Lemma midpoint_bounds l u : (l <= u -> l <= midpoint l u <= u)%Z.
Proof.
  intros H. unfold midpoint. rewrite Z.quot_div_nonneg by lia.
  pose proof (Z.div_pos (u - l) 2 ltac:(lia) ltac:(lia)).
  pose proof (Z.div_le_upper_bound (u - l) 2 (u - l) ltac:(lia) ltac:(lia)). lia.
Qed.

(** [f] are the values seen by the search between [lo] and [hi]. *)
Definition sees (v o : list Z) (lo hi : Z) (f : Z -> Z) : Prop := forall p, (lo <= p <= hi)%Z -> rd_o v o p = Ok (f p).

Lemma sees_sub v o lo hi lo' hi' f : (lo <= lo')%Z -> (hi' <= hi)%Z -> sees v o lo hi f -> sees v o lo' hi' f.
Proof. intros H1 H2 H p Hp. apply H. lia. Qed.

Lemma lower_dup_loop val v o f fuel : forall l u, sees v o l u f -> (u - l + 1 <= Z.of_nat fuel)%Z -> (l <= u + 1)%Z ->
  (forall p q, (l <= p)%Z -> (p <= q)%Z -> (q <= u)%Z -> f p = val -> f q = val) ->
  exists r, int_locate_lower_duplicate_loop fuel val v o l u = Ok r /\ (l <= r <= u + 1)%Z /\
    forall p, (l <= p <= u)%Z -> (f p = val <-> (r <= p)%Z).
Proof.
  induction fuel as [|fuel IH]; intros l u Hs Hf Hlu Hm; cbn [int_locate_lower_duplicate_loop].
  - destruct (Z.leb_spec l u); [lia|]. exists l. split; [done|]. split; [lia|]. intros; lia.
  - destruct (Z.leb_spec l u) as [Hle|Hle]; [|exists l; split; [done|]; split; [lia|]; intros; lia].
    pose proof (midpoint_bounds l u Hle) as Hmid. cbn zeta. rewrite (Hs _ Hmid). cbn [bind]. unfold int_equal_na_equal.
    set (m := midpoint l u) in *. destruct (Z.eqb_spec val (f m)) as [E|E].
    + destruct (IH l (m - 1)%Z) as (r & Er & Hr & H); [apply (sees_sub _ _ l u); lia || done|lia|lia|intros p q ? ? ?; apply Hm; lia|].
      exists r. split; [done|]. split; [lia|]. intros p Hp. destruct (Z.leb_spec p (m - 1)); [apply H; lia|].
      split; [lia|]. intros _. apply (Hm m p); lia || done.
    + destruct (IH (m + 1)%Z u) as (r & Er & Hr & H); [apply (sees_sub _ _ l u); lia || done|lia|lia|intros p q ? ? ?; apply Hm; lia|].
      exists r. split; [done|]. split; [lia|]. intros p Hp. destruct (Z.leb_spec (m + 1) p); [apply H; lia|].
      split; [|lia]. intros Ep. exfalso. apply E. symmetry. apply (Hm p m); lia || done.
Qed.

Lemma lower_duplicate_ok val v o f l u : sees v o l u f -> (l <= u + 1)%Z ->
  (forall p q, (l <= p)%Z -> (p <= q)%Z -> (q <= u)%Z -> f p = val -> f q = val) ->
  exists r, int_locate_lower_duplicate val v o l u = Ok r /\ (l <= r <= u + 1)%Z /\
    forall p, (l <= p <= u)%Z -> (f p = val <-> (r <= p)%Z).
Proof. intros. apply lower_dup_loop; try done. unfold range_fuel. lia. Qed.

Lemma upper_dup_loop val v o f fuel : forall l u, sees v o l u f -> (u - l + 1 <= Z.of_nat fuel)%Z -> (l <= u + 1)%Z ->
  (forall p q, (l <= p)%Z -> (p <= q)%Z -> (q <= u)%Z -> f q = val -> f p = val) ->
  exists r, int_locate_upper_duplicate_loop fuel val v o l u = Ok r /\ (l - 1 <= r <= u)%Z /\
    forall p, (l <= p <= u)%Z -> (f p = val <-> (p <= r)%Z).
Proof.
  induction fuel as [|fuel IH]; intros l u Hs Hf Hlu Hm; cbn [int_locate_upper_duplicate_loop].
  - destruct (Z.leb_spec l u); [lia|]. exists u. split; [done|]. split; [lia|]. intros; lia.
  - destruct (Z.leb_spec l u) as [Hle|Hle]; [|exists u; split; [done|]; split; [lia|]; intros; lia].
    pose proof (midpoint_bounds l u Hle) as Hmid. cbn zeta. rewrite (Hs _ Hmid). cbn [bind]. unfold int_equal_na_equal.
    set (m := midpoint l u) in *. destruct (Z.eqb_spec val (f m)) as [E|E].
    + destruct (IH (m + 1)%Z u) as (r & Er & Hr & H); [apply (sees_sub _ _ l u); lia || done|lia|lia|intros p q ? ? ?; apply Hm; lia|].
      exists r. split; [done|]. split; [lia|]. intros p Hp. destruct (Z.leb_spec (m + 1) p); [apply H; lia|].
      split; [lia|]. intros _. apply (Hm p m); lia || done.
    + destruct (IH l (m - 1)%Z) as (r & Er & Hr & H); [apply (sees_sub _ _ l u); lia || done|lia|lia|intros p q ? ? ?; apply Hm; lia|].
      exists r. split; [done|]. split; [lia|]. intros p Hp. destruct (Z.leb_spec p (m - 1)); [apply H; lia|].
      split; [|lia]. intros Ep. exfalso. apply E. symmetry. apply (Hm m p); lia || done.
Qed.

Lemma upper_duplicate_ok val v o f l u : sees v o l u f -> (l <= u + 1)%Z ->
  (forall p q, (l <= p)%Z -> (p <= q)%Z -> (q <= u)%Z -> f q = val -> f p = val) ->
  exists r, int_locate_upper_duplicate val v o l u = Ok r /\ (l - 1 <= r <= u)%Z /\
    forall p, (l <= p <= u)%Z -> (f p = val <-> (p <= r)%Z).
Proof. intros. apply upper_dup_loop; try done. unfold range_fuel. lia. Qed.

Lemma upper_inc_loop v o f fuel : forall l u, sees v o l u f -> (u - l + 1 <= Z.of_nat fuel)%Z -> (l <= u + 1)%Z ->
  (forall p q, (l <= p)%Z -> (p <= q)%Z -> (q <= u)%Z -> f q = 0%Z -> f p = 0%Z) ->
  exists r, int_locate_upper_incomplete_loop fuel v o l u = Ok r /\ (l - 1 <= r <= u)%Z /\
    forall p, (l <= p <= u)%Z -> (f p = 0%Z <-> (p <= r)%Z).
Proof.
  induction fuel as [|fuel IH]; intros l u Hs Hf Hlu Hm; cbn [int_locate_upper_incomplete_loop].
  - destruct (Z.leb_spec l u); [lia|]. exists u. split; [done|]. split; [lia|]. intros; lia.
  - destruct (Z.leb_spec l u) as [Hle|Hle]; [|exists u; split; [done|]; split; [lia|]; intros; lia].
    pose proof (midpoint_bounds l u Hle) as Hmid. cbn zeta. rewrite (Hs _ Hmid). cbn [bind].
    set (m := midpoint l u) in *. destruct (Z.eqb_spec (f m) 0) as [E|E]; cbn [negb].
    + destruct (IH (m + 1)%Z u) as (r & Er & Hr & H); [apply (sees_sub _ _ l u); lia || done|lia|lia|intros p q ? ? ?; apply Hm; lia|].
      exists r. split; [done|]. split; [lia|]. intros p Hp. destruct (Z.leb_spec (m + 1) p); [apply H; lia|].
      split; [lia|]. intros _. apply (Hm p m); lia || done.
    + destruct (IH l (m - 1)%Z) as (r & Er & Hr & H); [apply (sees_sub _ _ l u); lia || done|lia|lia|intros p q ? ? ?; apply Hm; lia|].
      exists r. split; [done|]. split; [lia|]. intros p Hp. destruct (Z.leb_spec p (m - 1)); [apply H; lia|].
      split; [|lia]. intros Ep. exfalso. apply E. apply (Hm m p); lia || done.
Qed.

Lemma upper_incomplete_ok v o f l u : sees v o l u f -> (l <= u + 1)%Z ->
  (forall p q, (l <= p)%Z -> (p <= q)%Z -> (q <= u)%Z -> f q = 0%Z -> f p = 0%Z) ->
  exists r, int_locate_upper_incomplete v o l u = Ok r /\ (l - 1 <= r <= u)%Z /\
    forall p, (l <= p <= u)%Z -> (f p = 0%Z <-> (p <= r)%Z).
Proof. intros. apply upper_inc_loop; try done. unfold range_fuel. lia. Qed.

(** The bounds of the values equal to [val]: smaller ones before, larger ones after. *)
Definition match_bounds (f : Z -> Z) (val lo hi l u : Z) : Prop :=
  (lo <= l)%Z /\ (u <= hi)%Z /\ (l <= u + 1)%Z /\
  forall p, (lo <= p <= hi)%Z -> (f p < val <-> p < l)%Z /\ (val < f p <-> u < p)%Z.

Lemma int_compare_cases a b :
  (int_compare_na_equal a b = 1 /\ b < a)%Z \/ (int_compare_na_equal a b = -1 /\ a < b)%Z \/ (int_compare_na_equal a b = 0 /\ a = b)%Z.
Proof.
  unfold int_compare_na_equal, int_compare_scalar, b2i. destruct (Z.ltb_spec b a), (Z.ltb_spec a b); lia.
Qed.

Lemma locate_match_loop val v o f fuel : forall l u, sees v o l u f -> (u - l + 1 <= Z.of_nat fuel)%Z -> (l <= u + 1)%Z ->
  (forall p q, (l <= p)%Z -> (p <= q)%Z -> (q <= u)%Z -> (f p <= f q)%Z) ->
  exists l' u', int_locate_match_loop fuel val v o l u = Ok (l', u') /\ match_bounds f val l u l' u'.
Proof.
  induction fuel as [|fuel IH]; intros l u Hs Hf Hlu Hm; cbn [int_locate_match_loop].
  - destruct (Z.leb_spec l u); [lia|]. exists l, u. split; [done|]. unfold match_bounds. split; [lia|]. split; [lia|]. split; [lia|]. intros; lia.
  - destruct (Z.leb_spec l u) as [Hle|Hle];
      [|exists l, u; split; [done|]; unfold match_bounds; split; [lia|]; split; [lia|]; split; [lia|]; intros; lia].
    pose proof (midpoint_bounds l u Hle) as Hmid. cbn zeta. rewrite (Hs _ Hmid). cbn [bind].
    set (m := midpoint l u) in *. destruct (int_compare_cases val (f m)) as [[-> H]|[[-> H]|[-> H]]]; cbn.
    + destruct (IH (m + 1)%Z u) as (l' & u' & E & H1 & H2 & H3 & HH); [apply (sees_sub _ _ l u); lia || done|lia|lia|intros p q ? ? ?; apply Hm; lia|].
      exists l', u'. split; [done|]. split; [lia|]. split; [lia|]. split; [lia|]. intros p Hp.
      destruct (Z.leb_spec (m + 1) p); [apply HH; lia|]. pose proof (Hm p m ltac:(lia) ltac:(lia) ltac:(lia)). lia.
    + destruct (IH l (m - 1)%Z) as (l' & u' & E & H1 & H2 & H3 & HH); [apply (sees_sub _ _ l u); lia || done|lia|lia|intros p q ? ? ?; apply Hm; lia|].
      exists l', u'. split; [done|]. split; [lia|]. split; [lia|]. split; [lia|]. intros p Hp.
      destruct (Z.leb_spec p (m - 1)); [apply HH; lia|]. pose proof (Hm m p ltac:(lia) ltac:(lia) ltac:(lia)). lia.
    + destruct (lower_duplicate_ok (f m) v o f l m) as (l' & E1 & B1 & H1); [apply (sees_sub _ _ l u); lia || done|lia| |].
      { intros p q ? ? ? Ep. pose proof (Hm p q ltac:(lia) ltac:(lia) ltac:(lia)). pose proof (Hm q m ltac:(lia) ltac:(lia) ltac:(lia)). lia. }
      destruct (upper_duplicate_ok (f m) v o f m u) as (u' & E2 & B2 & H2); [apply (sees_sub _ _ l u); lia || done|lia| |].
      { intros p q ? ? ? Ep. pose proof (Hm p q ltac:(lia) ltac:(lia) ltac:(lia)). pose proof (Hm m p ltac:(lia) ltac:(lia) ltac:(lia)). lia. }
      pose proof (proj1 (H1 m ltac:(lia)) eq_refl). pose proof (proj1 (H2 m ltac:(lia)) eq_refl).
      exists l', u'. rewrite E1. cbn [bind]. rewrite E2. cbn [bind]. split; [done|]. split; [lia|]. split; [lia|]. split; [lia|].
      intros p Hp. destruct (Z.leb_spec p m).
      * pose proof (H1 p ltac:(lia)). pose proof (Hm p m ltac:(lia) ltac:(lia) ltac:(lia)). lia.
      * pose proof (H2 p ltac:(lia)). pose proof (Hm m p ltac:(lia) ltac:(lia) ltac:(lia)). lia.
Qed.

Lemma locate_match_ok val v o f l u : sees v o l u f -> (l <= u + 1)%Z ->
  (forall p q, (l <= p)%Z -> (p <= q)%Z -> (q <= u)%Z -> (f p <= f q)%Z) ->
  exists l' u', int_locate_match val v o l u = Ok (l', u') /\ match_bounds f val l u l' u'.
Proof. intros. apply locate_match_loop; try done. unfold range_fuel. lia. Qed.
