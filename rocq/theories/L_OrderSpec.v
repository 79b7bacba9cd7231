(** * Lemmas: total preorders and ordered groups of locations *)
From Verif Require Import Base M_Double M_Scalar Spec_Order.
From Coq Require Import Sorting.Sorted.

(** ** Total preorders given by a comparison *)
Record tpo {A} (cmp : A -> A -> comparison) : Prop := Tpo {
  tp_sym : forall x y, cmp y x = CompOpp (cmp x y);
  tp_eq_l : forall x y z, cmp x y = Eq -> cmp x z = cmp y z;
  tp_lt : forall x y z, cmp x y = Lt -> cmp y z = Lt -> cmp x z = Lt }.

Section tpo.
  Context {A} (cmp : A -> A -> comparison) (T : tpo cmp).
  Lemma tp_refl x : cmp x x = Eq.
  Proof. pose proof (tp_sym _ T x x) as H. destruct (cmp x x); simpl in H; congruence. Qed.
  Lemma tp_eq_sym x y : cmp x y = Eq -> cmp y x = Eq.
  Proof. intros H. rewrite (tp_sym _ T x y), H. done. Qed.
  Lemma tp_eq_r x y z : cmp x y = Eq -> cmp z x = cmp z y.
  Proof.
    intros H. rewrite (tp_sym _ T x z), (tp_sym _ T y z).
    f_equal. by apply tp_eq_l.
  Qed.
  Lemma tp_eq_trans x y z : cmp x y = Eq -> cmp y z = Eq -> cmp x z = Eq.
  Proof. intros H1 H2. by rewrite (tp_eq_l _ T _ _ _ H1). Qed.
  Lemma tp_gt_lt x y : cmp x y = Gt -> cmp y x = Lt.
  Proof. intros H. rewrite (tp_sym _ T x y), H. done. Qed.
  Lemma tp_lt_gt x y : cmp x y = Lt -> cmp y x = Gt.
  Proof. intros H. rewrite (tp_sym _ T x y), H. done. Qed.
End tpo.

Lemma tpo_Zcompare {A} (K : A -> Z) : tpo (fun a b => (K a ?= K b)%Z).
Proof.
  split; intros.
  - by rewrite Z.compare_antisym.
  - apply Z.compare_eq in H. by rewrite H.
  - rewrite Z.compare_lt_iff in *. lia.
Qed.

Lemma tpo_dir {A} d (cmp : A -> A -> comparison) : tpo cmp -> tpo (fun x y => dir d (cmp x y)).
Proof.
  intros T. split; intros; destruct d; simpl in *.
  - by rewrite (tp_sym _ T x y).
  - by rewrite (tp_sym _ T x y).
  - f_equal. apply (tp_eq_l _ T). destruct (cmp x y); simpl in *; congruence.
  - by apply (tp_eq_l _ T).
  - assert (cmp y x = Lt).
    { apply tp_gt_lt; [done|]. destruct (cmp x y); simpl in *; congruence. }
    assert (cmp z y = Lt).
    { apply tp_gt_lt; [done|]. destruct (cmp y z); simpl in *; congruence. }
    rewrite (tp_lt_gt _ T z x); [done|]. by eapply tp_lt.
  - by eapply tp_lt.
Qed.

Lemma tpo_preimage {A B} (f : B -> A) (cmp : A -> A -> comparison) :
  tpo cmp -> tpo (fun x y => cmp (f x) (f y)).
Proof. intros T. split; intros; [by apply tp_sym | by apply tp_eq_l | by eapply tp_lt]. Qed.

Lemma tpo_then {A} (c d : A -> A -> comparison) :
  tpo c -> tpo d -> tpo (fun x y => cmp_then (c x y) (d x y)).
Proof.
  intros T U. split; intros; unfold cmp_then in *.
  - rewrite (tp_sym _ T x y). destruct (c x y); simpl; [by apply tp_sym| |]; done.
  - destruct (c x y) eqn:E; [|discriminate..]. rewrite (tp_eq_l _ T _ _ z E).
    by rewrite (tp_eq_l _ U _ _ z H).
  - destruct (c x y) eqn:E; [| |discriminate].
    + rewrite (tp_eq_l _ T _ _ z E). destruct (c y z); [|done..]. by eapply tp_lt.
    + destruct (c y z) eqn:E2; [| |discriminate].
      * by rewrite <- (tp_eq_r _ T _ _ x E2), E.
      * by rewrite (tp_lt _ T _ _ _ E E2).
Qed.

Lemma tpo_const {A} : tpo (fun _ _ : A => Eq).
Proof. by split. Qed.

(** ** Value comparisons are total preorders *)
Lemma int_vcmp_tpo b : tpo (int_vcmp b).
Proof.
  split; intros x y; unfold int_vcmp.
  - destruct (Z.eqb_spec x NA_INTEGER), (Z.eqb_spec y NA_INTEGER); simpl; try done;
      try (by destruct b). apply Z.compare_antisym.
  - intros z. destruct (Z.eqb_spec x NA_INTEGER), (Z.eqb_spec y NA_INTEGER),
      (Z.eqb_spec z NA_INTEGER); simpl; try done; try (by destruct b).
    rewrite Z.compare_eq_iff. by intros ->.
  - intros z. destruct (Z.eqb_spec x NA_INTEGER), (Z.eqb_spec y NA_INTEGER),
      (Z.eqb_spec z NA_INTEGER); simpl; try done; try (by destruct b).
    rewrite !Z.compare_lt_iff. lia.
Qed.

Lemma dbl_vcmp_tpo b d : tpo (dbl_vcmp b d).
Proof.
  split; intros x y; unfold dbl_vcmp.
  - destruct (dbl_classify x), (dbl_classify y), b, d; simpl; try done; apply Z.compare_antisym.
  - intros z. destruct (dbl_classify x), (dbl_classify y), (dbl_classify z), b, d; simpl; try done.
    all: rewrite Z.compare_eq_iff; by intros ->.
  - intros z. destruct (dbl_classify x), (dbl_classify y), (dbl_classify z), b, d; simpl; try done.
    all: rewrite !Z.compare_lt_iff; lia.
Qed.

Lemma bytes_vcmp_tpo : tpo bytes_vcmp.
Proof.
  split.
  - induction x as [|x l IH]; intros [|y m]; simpl; [done..|].
    rewrite Z.compare_antisym. destruct (x ?= y)%Z; simpl; auto.
  - induction x as [|x l IH]; intros [|y m] [|z n]; simpl; try done.
    destruct (Z.compare_spec x y); try done. subst. intros H.
      destruct (y ?= z)%Z; [|done..]. auto.
  - induction x as [|x l IH]; intros [|y m] [|z n]; simpl; try done.
    destruct (Z.compare_spec x y), (Z.compare_spec y z); subst; try done.
    + rewrite Z.compare_refl. apply IH.
    + destruct (Z.compare_spec y z); try done; lia.
    + destruct (Z.compare_spec x z); try done; lia.
    + destruct (Z.compare_spec x z); try done; lia.
Qed.

Lemma bytes_vcmp_Eq a b : bytes_vcmp a b = Eq <-> a = b.
Proof.
  revert b. induction a as [|x l IH]; intros [|y m]; simpl; try done.
  destruct (Z.compare_spec x y); subst; split; try done; try (intros [=]; lia).
  - intros H. f_equal. by apply IH.
  - intros [= ->]. by apply IH.
Qed.

Lemma chr_vcmp_tpo b : tpo (chr_vcmp b).
Proof.
  split.
  - intros [x|] [y|]; simpl; try done; try by destruct b. apply (tp_sym _ bytes_vcmp_tpo).
  - intros [x|] [y|] [z|]; simpl; try done; try by destruct b. apply (tp_eq_l _ bytes_vcmp_tpo).
  - intros [x|] [y|] [z|]; simpl; try done; try by destruct b. apply (tp_lt _ bytes_vcmp_tpo).
Qed.

Lemma cpl_vcmp_tpo b d : tpo (cpl_vcmp b d).
Proof.
  unfold cpl_vcmp. apply (tpo_then (fun x y => dbl_vcmp b d (cpl_parts x).1 (cpl_parts y).1)
    (fun x y => dbl_vcmp b d (cpl_parts x).2 (cpl_parts y).2));
  [apply (tpo_preimage (fun x => (cpl_parts x).1)) | apply (tpo_preimage (fun x => (cpl_parts x).2))];
  apply dbl_vcmp_tpo.
Qed.

(** ** Strongly sorted lists *)
Lemma ss_app {A} (R : A -> A -> Prop) l1 l2 :
  StronglySorted R (l1 ++ l2) <->
  StronglySorted R l1 /\ StronglySorted R l2 /\ (forall x y, x ∈ l1 -> y ∈ l2 -> R x y).
Proof.
  induction l1 as [|a l IH]; simpl.
  - split; [|by intros (_ & ? & _)]. intros H. split; [constructor|]. split; [done|].
    intros x y Hx. by apply elem_of_nil in Hx.
  - split.
    + intros H. apply StronglySorted_inv in H as [H1 H2]. apply IH in H1 as (Ha & Hb & Hc).
      rewrite Forall_app in H2. destruct H2 as [H2 H3]. split; [by constructor|]. split; [done|].
      intros x y Hx Hy. apply elem_of_cons in Hx as [->|Hx]; [|by apply Hc].
      by apply (proj1 (Forall_forall _ _) H3).
    + intros (H1 & H2 & H3). apply StronglySorted_inv in H1 as [Ha Hb]. constructor.
      * apply IH. split; [done|]. split; [done|]. intros x y Hx Hy. apply H3; [by right|done].
      * apply Forall_app. split; [done|]. apply Forall_forall. intros y Hy. apply H3; [by left|done].
Qed.

Lemma ss_single {A} (R : A -> A -> Prop) a : StronglySorted R [a].
Proof. repeat constructor. Qed.

Lemma ss_impl {A} (R Q : A -> A -> Prop) l :
  (forall x y, x ∈ l -> y ∈ l -> R x y -> Q x y) -> StronglySorted R l -> StronglySorted Q l.
Proof.
  intros H S. induction S as [|a l S IH F]; [constructor|].
  constructor.
  - apply IH. intros x y Hx Hy. apply H; by right.
  - apply Forall_forall. intros y Hy. apply H; [by left|by right|].
    by apply (proj1 (Forall_forall _ _) F).
Qed.

Lemma ss_sublist {A} (R : A -> A -> Prop) l k : sublist l k -> StronglySorted R k -> StronglySorted R l.
Proof.
  induction 1 as [|x l k H IH|x l k H IH]; intros S; [done| |].
  - apply StronglySorted_inv in S as [S F]. constructor; [by apply IH|].
    apply Forall_forall. intros y Hy. apply (proj1 (Forall_forall _ _) F).
    clear -H Hy. revert Hy. induction H as [|z l k H IH|z l k H IH]; [done| |].
    + rewrite !elem_of_cons. tauto.
    + rewrite elem_of_cons. tauto.
  - apply StronglySorted_inv in S as [S F]. by apply IH.
Qed.

Lemma filter_sublist {A} (P : A -> Prop) `{!forall x, Decision (P x)} (l : list A) : sublist (filter P l) l.
Proof.
  induction l as [|a l IH]; [done|]. rewrite filter_cons. destruct (decide (P a)).
  - by apply sublist_skip.
  - by apply sublist_cons.
Qed.

Lemma ss_lookup {A} (R : A -> A -> Prop) l i j x y :
  StronglySorted R l -> i < j -> l !! i = Some x -> l !! j = Some y -> R x y.
Proof.
  intros S. revert i j. induction S as [|a l S IH F]; intros i j H Hi Hj; [done|].
  destruct j as [|j]; [lia|]. simpl in Hj. destruct i as [|i].
  - simpl in Hi. injection Hi as <-. apply (proj1 (Forall_forall _ _) F).
    by eapply elem_of_list_lookup_2.
  - simpl in Hi. apply (IH i j); [lia|done|done].
Qed.

Lemma ss_unique {A} (R : A -> A -> Prop) l k :
  (forall x y, R x y -> R y x -> False) ->
  StronglySorted R l -> StronglySorted R k -> l ≡ₚ k -> l = k.
Proof.
  intros HR S. revert k. induction S as [|a l S IH F]; intros k Sk P.
  - by apply Permutation_nil_l in P.
  - destruct k as [|b k]; [by apply Permutation_length in P|].
    apply StronglySorted_inv in Sk as [Sk Fk].
    assert (a = b) as <-.
    { assert (Ha : a ∈ b :: k) by (rewrite <- P; by left).
      assert (Hb : b ∈ a :: l) by (rewrite P; by left).
      apply elem_of_cons in Ha as [Ha|Ha]; [done|]. apply elem_of_cons in Hb as [Hb|Hb]; [done|].
      exfalso. apply (HR a b); [by apply (proj1 (Forall_forall _ _) F) | by apply (proj1 (Forall_forall _ _) Fk)]. }
    f_equal. apply IH; [done|]. by apply (Permutation_cons_inv (a:=a)).
Qed.

Lemma is_order_unique cmp n o1 o2 :
  tpo cmp -> is_order cmp n o1 -> is_order cmp n o2 -> o1 = o2.
Proof.
  intros T [P1 S1] [P2 S2]. eapply ss_unique; [|exact S1|exact S2|by rewrite P1, P2].
  intros x y [H|[H ?]] [H'|[H' ?]].
  - rewrite (tp_lt_gt _ T _ _ H) in H'. done.
  - rewrite (tp_lt_gt _ T _ _ H) in H'. done.
  - rewrite (tp_eq_sym _ T _ _ H) in H'. done.
  - lia.
Qed.

(** ** Ordered groups *)
Record og (cmp : Z -> Z -> comparison) (os : list Z) (bs : list (list Z)) : Prop := Og {
  og_perm : concat bs ≡ₚ os;
  og_ne : Forall (fun b => b <> []) bs;
  og_inc : Forall (StronglySorted Z.lt) bs;
  og_eq : Forall (fun b => forall x y, x ∈ b -> y ∈ b -> cmp x y = Eq) bs;
  og_lt : StronglySorted (fun b c => forall x y, x ∈ b -> y ∈ c -> cmp x y = Lt) bs }.

Lemma in_concat_block {A} (bs : list (list A)) x : x ∈ concat bs <-> exists b, b ∈ bs /\ x ∈ b.
Proof. rewrite elem_of_list_In, in_concat. setoid_rewrite elem_of_list_In. firstorder. Qed.

Section og.
  Context (cmp : Z -> Z -> comparison).

  Lemma og_nil : og cmp [] [].
  Proof. split; simpl; constructor. Qed.

  Lemma og_single os : os <> [] -> StronglySorted Z.lt os ->
    (forall x y, x ∈ os -> y ∈ os -> cmp x y = Eq) -> og cmp os [os].
  Proof.
    intros H1 H2 H3. split; simpl; [by rewrite app_nil_r| | | |]; repeat constructor; done.
  Qed.

  Lemma og_app os1 bs1 os2 bs2 :
    og cmp os1 bs1 -> og cmp os2 bs2 ->
    (forall x y, x ∈ os1 -> y ∈ os2 -> cmp x y = Lt) ->
    og cmp (os1 ++ os2) (bs1 ++ bs2).
  Proof.
    intros [P1 N1 I1 E1 L1] [P2 N2 I2 E2 L2] H. split.
    - by rewrite concat_app, P1, P2.
    - by apply Forall_app.
    - by apply Forall_app.
    - by apply Forall_app.
    - apply ss_app. split; [done|]. split; [done|]. intros b c Hb Hc x y Hx Hy.
      apply H; [rewrite <- P1|rewrite <- P2]; apply in_concat_block; eauto.
  Qed.

  Lemma og_permute os os' bs : os ≡ₚ os' -> og cmp os bs -> og cmp os' bs.
  Proof. intros P [P1 N1 I1 E1 L1]. split; [by rewrite P1|done..]. Qed.

  Lemma og_cmp_ext cmp2 os bs :
    (forall x y, x ∈ os -> y ∈ os -> cmp x y = cmp2 x y) -> og cmp os bs -> og cmp2 os bs.
  Proof.
    intros H [P N I E L].
    assert (HH : forall b c x y, b ∈ bs -> c ∈ bs -> x ∈ b -> y ∈ c -> cmp x y = cmp2 x y).
    { intros. apply H; rewrite <- P; apply in_concat_block; eauto. }
    split; [done..| |].
    - apply Forall_forall. intros b Hb x y Hx Hy.
      rewrite <- (HH b b) by done. by apply (proj1 (Forall_forall _ _) E b Hb).
    - eapply ss_impl; [|exact L]. intros b c Hb Hc HR x y Hx Hy.
      rewrite <- (HH b c) by done. by apply HR.
  Qed.

  Lemma og_is_order os bs n : os ≡ₚ locs n -> og cmp os bs -> is_order cmp n (concat bs).
  Proof.
    intros Hp [P N I E L]. split; [by rewrite P|]. clear P Hp.
    induction bs as [|b bs IH]; simpl; [constructor|].
    apply Forall_cons in N as [_ N]. apply Forall_cons in I as [Ib I].
    apply Forall_cons in E as [Eb E]. apply StronglySorted_inv in L as [L Lb].
    apply ss_app. split; [|split].
    - eapply ss_impl; [|exact Ib]. intros x y Hx Hy Hlt. right. auto.
    - by apply IH.
    - intros x y Hx Hy. left. apply in_concat_block in Hy as (c & Hc & Hy).
      by apply (proj1 (Forall_forall _ _) Lb c).
  Qed.

  Lemma og_is_group_sizes os bs : og cmp os bs -> is_group_sizes cmp (concat bs) (map length bs).
  Proof. intros [P N I E L]. exists bs. done. Qed.

  Lemma og_length os bs : og cmp os bs -> length (concat bs) = length os.
  Proof. intros [P _ _ _ _]. by apply Permutation_length. Qed.

  Lemma og_nblocks os bs : og cmp os bs -> length bs <= length os.
  Proof.
    intros H. rewrite <- (og_length _ _ H). destruct H as [_ N _ _ _].
    induction bs as [|b bs IH]; simpl; [done|]. apply Forall_cons in N as [Hb N].
    rewrite app_length. specialize (IH N). destruct b; [done|]. simpl. lia.
  Qed.

  (** every group being of size one means that the number of groups is the
      number of locations *)
  Lemma og_all_single os bs : og cmp os bs -> length bs = length os -> bs = map (fun x => [x]) (concat bs).
  Proof.
    intros H. rewrite <- (og_length _ _ H). destruct H as [_ N _ _ _].
    induction bs as [|b bs IH]; simpl; [done|]. apply Forall_cons in N as [Hb N].
    rewrite app_length. intros Hl.
    assert (length bs <= length (concat bs)).
    { clear -N. induction bs as [|b bs IH]; simpl; [done|]. apply Forall_cons in N as [Hb N].
      rewrite app_length. specialize (IH N). destruct b; [done|]. simpl. lia. }
    destruct b as [|x [|? ?]]; simpl in *; [done| |lia].
    f_equal. apply IH; [done|lia].
  Qed.

  Hypothesis T : tpo cmp.

  Lemma og_snoc_eq os bs cur y a :
    og cmp os (bs ++ [cur]) -> y ∈ cur -> cmp y a = Eq -> (forall x, x ∈ cur -> (x < a)%Z) ->
    og cmp (os ++ [a]) (bs ++ [cur ++ [a]]).
  Proof.
    intros [P N I E L] Hy Ha Hlt.
    apply Forall_app in N as [N Nc]. apply Forall_app in I as [I Ic]. apply Forall_app in E as [E Ec].
    apply Forall_cons in Ec as [Ec _]. apply Forall_cons in Ic as [Ic _].
    apply ss_app in L as (L1 & L2 & L3).
    split.
    - rewrite <- P, !concat_app. simpl. rewrite !app_nil_r. by rewrite app_assoc.
    - apply Forall_app. split; [done|]. repeat constructor. by destruct cur.
    - apply Forall_app. split; [done|]. constructor; [|constructor].
      apply ss_app. split; [done|]. split; [apply ss_single|].
      intros x z Hx Hz. apply elem_of_list_singleton in Hz as ->. by apply Hlt.
    - apply Forall_app. split; [done|]. constructor; [|constructor].
      assert (Hc : forall x, x ∈ cur ++ [a] -> cmp y x = Eq).
      { intros x Hx. apply elem_of_app in Hx as [Hx|Hx]; [by apply Ec|].
        by apply elem_of_list_singleton in Hx as ->. }
      intros x z Hx Hz. eapply tp_eq_trans; [done| |by apply Hc].
      apply tp_eq_sym; [done|]. by apply Hc.
    - apply ss_app. split; [done|]. split; [apply ss_single|].
      intros b c Hb Hc x z Hx Hz. apply elem_of_list_singleton in Hc as ->.
      apply elem_of_app in Hz as [Hz|Hz].
      + apply (L3 b cur); [done|by left|done|done].
      + apply elem_of_list_singleton in Hz as ->. rewrite <- (tp_eq_r _ T _ _ x Ha).
        apply (L3 b cur); [done|by left|done|done].
  Qed.

  Lemma og_snoc_lt os bs cur y a :
    og cmp os (bs ++ [cur]) -> y ∈ cur -> cmp y a = Lt ->
    og cmp (os ++ [a]) ((bs ++ [cur]) ++ [[a]]).
  Proof.
    intros H Hy Ha. apply og_app; [done| |].
    - apply og_single; [done|apply ss_single|]. intros x z Hx Hz.
      apply elem_of_list_singleton in Hx as ->. apply elem_of_list_singleton in Hz as ->.
      by apply tp_refl.
    - intros x z Hx Hz. apply elem_of_list_singleton in Hz as ->.
      destruct H as [P N I E L]. rewrite <- P in Hx. rewrite concat_app in Hx. simpl in Hx.
      rewrite app_nil_r in Hx. apply elem_of_app in Hx as [Hx|Hx].
      + apply in_concat_block in Hx as (b & Hb & Hx). apply ss_app in L as (_ & _ & L3).
        eapply tp_lt; [done| |exact Ha]. apply (L3 b cur); [done|by left|done|done].
      + apply Forall_app in E as [_ E]. apply Forall_cons in E as [E _].
        rewrite (tp_eq_l _ T x y); [done|]. by apply E.
  Qed.

  (** A strictly decreasing list of locations, reversed. *)
  Lemma og_reversed os :
    StronglySorted (fun a b => cmp b a = Lt) os -> og cmp os (map (fun x => [x]) (rev os)).
  Proof.
    induction 1 as [|a l S IH F]; simpl; [apply og_nil|].
    rewrite map_app. simpl. eapply og_permute; [|apply og_app; [exact IH| |]].
    - symmetry. apply Permutation_cons_append.
    - apply og_single; [done|apply ss_single|]. intros x z Hx Hz.
      apply elem_of_list_singleton in Hx as ->. apply elem_of_list_singleton in Hz as ->.
      by apply tp_refl.
    - intros x z Hx Hz. apply elem_of_list_singleton in Hz as ->.
      by apply (proj1 (Forall_forall _ _) F).
  Qed.
End og.

Lemma concat_singletons {A} (l : list A) : concat (map (fun x => [x]) l) = l.
Proof. induction l; simpl; by f_equal. Qed.

(** Ordering inside each group by a further comparison. *)
Lemma og_refine cmp1 cmp2 os bs bss :
  og cmp1 os bs -> Forall2 (fun b cs => og cmp2 b cs) bs bss ->
  og (fun x y => cmp_then (cmp1 x y) (cmp2 x y)) os (concat bss).
Proof.
  intros H HF. apply (og_permute _ (concat bs) os); [apply H|]. destruct H as [_ N I E L].
  induction HF as [|b cs bs bss Hb HF IH]; simpl; [apply og_nil|].
  apply Forall_cons in N as [_ N]. apply Forall_cons in I as [Ib I].
  apply Forall_cons in E as [Eb E]. apply StronglySorted_inv in L as [L Lb].
  apply og_app; [|by apply IH|].
  - eapply og_cmp_ext; [|exact Hb]. intros x y Hx Hy. cbn beta. by rewrite (Eb x y).
  - intros x y Hx Hy. apply in_concat_block in Hy as (c & Hc & Hy).
    by rewrite (proj1 (Forall_forall _ _) Lb c Hc x y).
Qed.
