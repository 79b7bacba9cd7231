(** * Lemmas: comparing rows of the haystack by the filter columns *)
From Verif Require Import Base M_Double M_Scalar M_Slice M_Object M_Proxy M_OrderChr M_OrderDf M_Rank M_Match Spec_Order Spec_OrderRow Spec_Match L_OrderSpec P_Order P_Rank.
From Verif Require Import L_MatchJoint L_MatchKeys L_MatchCont.
#[local] Arguments Z.mul : simpl never.
#[local] Arguments Z.add : simpl never.
#[local] Arguments Z.sub : simpl never.
#[local] Arguments Z.to_nat : simpl never.
#[local] Arguments Z.of_nat : simpl never.

(** Lexicographic over the columns that have a filter; smaller values are better
    for ["min"]. *)
Definition fcmp1 (f : mfilter) (x : list Z) (a b : Z) : comparison :=
  match f with
  | FILTER_none => Eq
  | FILTER_max => (at_loc 0 x a ?= at_loc 0 x b)%Z
  | FILTER_min => CompOpp (at_loc 0 x a ?= at_loc 0 x b)%Z
  end.
Fixpoint fcmp (hs : list (list Z)) (fs : list mfilter) (a b : Z) : comparison :=
  match hs, fs with
  | x :: hs, f :: fs => cmp_then (fcmp1 f x a b) (fcmp hs fs a b)
  | _, _ => Eq
  end.

Lemma fcmp_tpo hs : forall fs, tpo (fcmp hs fs).
Proof.
  induction hs as [|x hs IH]; intros [|f fs]; try apply tpo_const.
  apply (tpo_then (fcmp1 f x) (fcmp hs fs)); [|apply IH]. destruct f; cbn [fcmp1].
  all: try apply tpo_const.
  all: try apply (tpo_Zcompare (at_loc 0%Z x)).
  apply (tpo_dir true (fun a b => at_loc 0%Z x a ?= at_loc 0%Z x b)%Z). apply (tpo_Zcompare (at_loc 0%Z x)).
Qed.
Lemma fcmp_none hs fs a b : any_filters fs = false -> fcmp hs fs a b = Eq.
Proof.
  revert fs. induction hs as [|x hs IH]; intros [|f fs]; try done. cbn. destruct f; [|done|done]. cbn. apply IH.
Qed.
Lemma fcmp_Eq hs : forall fs a b, (forall c x f, hs !! c = Some x -> fs !! c = Some f -> f <> FILTER_none -> at_loc 0%Z x a = at_loc 0%Z x b) -> fcmp hs fs a b = Eq.
Proof.
  induction hs as [|x hs IH]; intros [|f fs] a b HH; try done. cbn [fcmp]. rewrite (IH fs a b).
  - assert (fcmp1 f x a b = Eq) as ->; [|done]. destruct f; [done| |].
    + cbn. rewrite (HH 0 x FILTER_min) by done. by rewrite Z.compare_refl.
    + cbn. rewrite (HH 0 x FILTER_max) by done. apply Z.compare_refl.
  - intros c y g Hy Hg. apply (HH (S c)); done.
Qed.
(** If the columns before the last agree, the last one decides. *)
Lemma fcmp_app h1 : forall f1 h2 f2 a b, length h1 = length f1 -> fcmp (h1 ++ h2) (f1 ++ f2) a b = cmp_then (fcmp h1 f1 a b) (fcmp h2 f2 a b).
Proof.
  induction h1 as [|x h1 IH]; intros [|f f1] h2 f2 a b L; try done. cbn [app fcmp]. rewrite IH by (cbn in L; lia). by destruct (fcmp1 f x a b).
Qed.

Lemma int_compare_Z a b : int_compare_na_equal a b = cmp_code (a ?= b)%Z.
Proof.
  unfold int_compare_na_equal, int_compare_scalar, b2i. destruct (Z.compare_spec a b) as [->|C|C].
  - by rewrite Z.ltb_irrefl.
  - rewrite (proj2 (Z.ltb_lt _ _) C), (proj2 (Z.ltb_ge b a)) by lia. done.
  - rewrite (proj2 (Z.ltb_lt _ _) C), (proj2 (Z.ltb_ge a b)) by lia. done.
Qed.

Lemma matches_compare_ok hs fs n a b : int_cols n hs -> length fs = length hs -> (1 <= a <= Z.of_nat n)%Z -> (1 <= b <= Z.of_nat n)%Z ->
  p_matches_df_compare_na_equal hs (a - 1) (b - 1) fs = Ok (cmp_code (fcmp hs fs a b)).
Proof.
  intros I L Ha Hb. unfold p_matches_df_compare_na_equal.
  match goal with |- for_brk 0 _ ?body 0%Z = _ =>
    destruct (for_brk_inv (fun i (s : Z) => s = 0%Z /\ fcmp hs fs a b = fcmp (drop i hs) (drop i fs) a b)
      (fun s => s = cmp_code (fcmp hs fs a b)) 0 (length hs) body 0%Z) as (r & E & Hr) end.
  - done.
  - intros i s Hi [-> HI]. destruct (lookup_lt_is_Some_2 hs i) as [x Hx]; [lia|]. destruct (lookup_lt_is_Some_2 fs i) as [f Hf]; [lia|].
    rewrite (proj2 (rd_Ok hs i x) Hx), (proj2 (rd_Ok fs i f) Hf). cbn [bind].
    destruct (proj1 (Forall_lookup _ _) I _ _ Hx) as [Lx _].
    rewrite !(rdZ_at_loc 0%Z) by lia. cbn [bind]. rewrite HI, (drop_S _ _ _ Hx), (drop_S _ _ _ Hf). cbn [fcmp]. rewrite int_compare_Z.
    destruct f; cbn [fcmp1].
    + left. exists 0%Z. done.
    + destruct (at_loc 0%Z x a ?= at_loc 0%Z x b)%Z; cbn [cmp_code cmp_then CompOpp].
      * left. exists 0%Z. done.
      * right. exists 1%Z. done.
      * right. exists (-1)%Z. done.
    + destruct (at_loc 0%Z x a ?= at_loc 0%Z x b)%Z; cbn [cmp_code cmp_then].
      * left. exists 0%Z. done.
      * right. exists (-1)%Z. done.
      * right. exists 1%Z. done.
  - intros s [-> HI]. rewrite HI. cbn [Nat.add]. rewrite !drop_ge by lia. done.
  - exact (eq_trans E (f_equal Ok Hr)).
Qed.

Lemma matches_equal_ok hs fs n a b : int_cols n hs -> length fs = length hs -> (1 <= a <= Z.of_nat n)%Z -> (1 <= b <= Z.of_nat n)%Z ->
  p_matches_df_equal_na_equal hs (a - 1) (b - 1) fs = Ok (match fcmp hs fs a b with Eq => true | _ => false end).
Proof.
  intros I L Ha Hb. unfold p_matches_df_equal_na_equal.
  match goal with |- for_brk 0 _ ?body _ = _ =>
    destruct (for_brk_inv (fun i (s : bool) => s = true /\ fcmp hs fs a b = fcmp (drop i hs) (drop i fs) a b)
      (fun s => s = match fcmp hs fs a b with Eq => true | _ => false end) 0 (length hs) body true) as (r & E & Hr) end.
  - done.
  - intros i s Hi [-> HI]. destruct (lookup_lt_is_Some_2 hs i) as [x Hx]; [lia|]. destruct (lookup_lt_is_Some_2 fs i) as [f Hf]; [lia|].
    rewrite (proj2 (rd_Ok hs i x) Hx), (proj2 (rd_Ok fs i f) Hf). cbn [bind].
    destruct (proj1 (Forall_lookup _ _) I _ _ Hx) as [Lx _].
    rewrite !(rdZ_at_loc 0%Z) by lia. cbn [bind]. rewrite HI, (drop_S _ _ _ Hx), (drop_S _ _ _ Hf). cbn [fcmp]. unfold int_equal_na_equal.
    destruct f; cbn [fcmp1 filter_is_none].
    + left. exists true. done.
    + destruct (Z.eqb_spec (at_loc 0%Z x a) (at_loc 0%Z x b)) as [->|Ne]; cbn [negb].
      * rewrite Z.compare_refl. left. exists true. done.
      * right. exists false. split; [done|]. destruct (Z.compare_spec (at_loc 0%Z x a) (at_loc 0%Z x b)); done.
    + destruct (Z.eqb_spec (at_loc 0%Z x a) (at_loc 0%Z x b)) as [->|Ne]; cbn [negb].
      * rewrite Z.compare_refl. left. exists true. done.
      * right. exists false. split; [done|]. destruct (Z.compare_spec (at_loc 0%Z x a) (at_loc 0%Z x b)); done.
  - intros s [-> HI]. rewrite HI. cbn [Nat.add]. rewrite !drop_ge by lia. done.
  - exact (eq_trans E (f_equal Ok Hr)).
Qed.
