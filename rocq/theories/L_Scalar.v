(** * Lemmas about elements: equality, comparison, missingness *)
From Verif Require Import Base M_Double M_Scalar M_Object M_Proxy Spec_Value.
From Verif Require Export L_Dbl L_Object.
From Coq Require Import ZifyBool ZifyNat.
Ltac Zify.zify_post_hook ::= Z.div_mod_to_equations.

(** ** Equality of elements *)
Lemma elt_equal_spec x y :
  is_plain x -> is_plain y -> elt_in_range x -> elt_in_range y ->
  elt_equal_na_equal x y = true <-> elt_sem x = elt_sem y.
Proof.
  intros Hx Hy Rx Ry.
  destruct x as [a|a|a|ar ai|a|a|a], y as [b|b|b|br bi|b|b|b]; simpl in *; try done; try (split; congruence).
  - unfold lgl_equal_na_equal. rewrite Z.eqb_eq. split; [intros ->; done|intros [= H]; by apply int_sem_inj].
  - unfold int_equal_na_equal. rewrite Z.eqb_eq. split; [intros ->; done|intros [= H]; by apply int_sem_inj].
  - rewrite dbl_equal_spec by done. split; congruence.
  - unfold cpl_equal_na_equal. destruct Rx, Ry. rewrite andb_true_iff, !dbl_equal_spec by done.
    split; [intros []|intros [=]]; split_and?; congruence.
  - unfold chr_equal_na_equal. rewrite str_ptr_eqb_spec. split; congruence.
  - unfold raw_equal_na_equal. rewrite Z.eqb_eq. split; congruence.
  - rewrite equal_object_bare by done. split; congruence.
Qed.

Lemma elt_missing_spec x : elt_in_range x -> elt_is_missing x = true <-> missing_sem x.
Proof.
  intros R. destruct x as [a|a|a|ar ai|a|a|a]; simpl in *.
  - unfold lgl_is_missing. rewrite Z.eqb_eq, int_sem_none. done.
  - unfold int_is_missing. rewrite Z.eqb_eq, int_sem_none. done.
  - unfold dbl_is_missing. rewrite isnan_sem by done. destruct (dbl_sem a); split; intuition congruence.
  - unfold cpl_is_missing, dbl_is_missing. destruct R. rewrite orb_true_iff, !isnan_sem by done.
    destruct (dbl_sem ar), (dbl_sem ai); split; intuition congruence.
  - unfold chr_is_missing. apply str_ptr_eqb_spec.
  - done.
  - destruct a; split; done.
Qed.

(** Propagating equality *)
Lemma elt_equal_propagate_spec x y :
  elt_type x = elt_type y -> elt_in_range x -> elt_in_range y ->
  elt_equal_na_propagate x y =
  if elt_is_missing x || elt_is_missing y then NA_LOGICAL else b2i (elt_equal_na_equal x y).
Proof.
  intros Ht Rx Ry.
  destruct x as [a|a|a|ar ai|a|a|a], y as [b|b|b|br bi|b|b|b]; simpl in *; try done.
  - unfold dbl_equal_na_propagate, dbl_equal_na_equal, dbl_is_missing, dbl_classify.
    destruct (isnan a) eqn:Ha, (isnan b) eqn:Hb; simpl; try done.
  - unfold cpl_equal_na_propagate, cpl_is_missing, cpl_equal_na_equal, dbl_equal_na_propagate,
      dbl_is_missing, dbl_equal_na_equal, dbl_classify.
    destruct (isnan ar), (isnan ai), (isnan br), (isnan bi); simpl; try done;
      try (destruct (c_deq ar br); done); try (destruct (c_deq ai bi); done).
    destruct (c_deq ar br), (c_deq ai bi); done.
Qed.

(** ** Comparison of elements *)
Lemma int_compare_spec x y :
  int_compare_scalar x y = (if x <? y then -1 else if y <? x then 1 else 0)%Z.
Proof. unfold int_compare_scalar, b2i. destruct (Z.ltb_spec x y), (Z.ltb_spec y x); lia. Qed.
Lemma strcmp_spec a b :
  (c_strcmp a b = -1 /\ bytes_lt a b)%Z \/ (c_strcmp a b = 0 /\ a = b)%Z \/ (c_strcmp a b = 1 /\ bytes_lt b a)%Z.
Proof.
  revert b. induction a as [|x a IH]; destruct b as [|y b]; simpl.
  - auto.
  - left. split; [done|constructor].
  - right; right. split; [done|constructor].
  - destruct (Z.ltb_spec x y); [left; split; [done|by constructor]|].
    destruct (Z.ltb_spec y x); [right; right; split; [done|by constructor]|].
    assert (x = y) as -> by lia.
    destruct (IH b) as [[-> ?]|[[-> ->]|[-> ?]]]; [left|right;left|right;right]; split; try done; by constructor.
Qed.
Lemma bytes_lt_irrefl a : ~ bytes_lt a a.
Proof. induction a; intros H; inversion H; subst; [lia|tauto]. Qed.
Lemma bytes_lt_trans a b c : bytes_lt a b -> bytes_lt b c -> bytes_lt a c.
Proof.
  intros H. revert c. induction H as [y b|x y a b Hxy|x a b Hab IH]; intros c Hc; inversion Hc; subst.
  - constructor.
  - constructor.
  - apply bytes_lt_head; lia.
  - by apply bytes_lt_head.
  - by apply bytes_lt_head.
  - apply bytes_lt_tail; auto.
Qed.

Lemma dsem_lt_trans a b c : dsem_lt a b -> dsem_lt b c -> dsem_lt a c.
Proof. intros H1 H2; inversion H1; subst; inversion H2; subst; constructor; lia. Qed.
Lemma dsem_lt_irrefl a : ~ dsem_lt a a.
Proof. intros H; inversion H; subst; lia. Qed.
Lemma opt_lt_trans {A} (R : A -> A -> Prop) : (forall a b c, R a b -> R b c -> R a c) ->
  forall a b c, opt_lt R a b -> opt_lt R b c -> opt_lt R a c.
Proof. intros HR a b c H1 H2; inversion H1; subst; inversion H2; subst; constructor; eauto. Qed.
Lemma opt_lt_irrefl {A} (R : A -> A -> Prop) : (forall a, ~ R a a) -> forall a, ~ opt_lt R a a.
Proof. intros HR a H; inversion H; subst; by eapply HR. Qed.

Lemma elt_lt_trans a b c : elt_lt a b -> elt_lt b c -> elt_lt a c.
Proof.
  intros H1 H2; inversion H1; subst; inversion H2; subst; constructor;
    eauto using opt_lt_trans, Z.lt_trans, dsem_lt_trans, bytes_lt_trans.
Qed.
Lemma elt_lt_irrefl a : ~ elt_lt a a.
Proof.
  intros H; inversion H as [? ? H'|? ? H'|? ? H'|? ? H']; subst;
    [eapply opt_lt_irrefl, H'; apply Z.lt_irrefl | eapply opt_lt_irrefl, H'; apply Z.lt_irrefl
    | by eapply dsem_lt_irrefl | eapply opt_lt_irrefl, H'; apply bytes_lt_irrefl ].
Qed.
Lemma elt_lt_sem_l a a' b : elt_sem a = elt_sem a' -> elt_lt a b -> elt_lt a' b.
Proof.
  intros E H; inversion H; subst; destruct a'; simpl in E; try discriminate; injection E as E;
    constructor; by rewrite <- ?E.
Qed.
Lemma elt_lt_sem_r a b b' : elt_sem b = elt_sem b' -> elt_lt a b -> elt_lt a b'.
Proof.
  intros E H; inversion H; subst; destruct b'; simpl in E; try discriminate; injection E as E;
    constructor; by rewrite <- ?E.
Qed.
Lemma elt_lt_not_sem a b : elt_sem a = elt_sem b -> ~ elt_lt a b.
Proof. intros E H. by apply (elt_lt_irrefl b), (elt_lt_sem_l a). Qed.
Lemma elt_lt_asym a b : elt_lt a b -> ~ elt_lt b a.
Proof. intros H1 H2. eapply elt_lt_irrefl, elt_lt_trans; eauto. Qed.

Definition elt_comparable (e : elt) : bool := vtype_comparable (elt_type e).

(** Three-way outcome of a comparison *)
Definition cmp_is (lt eq gt : Prop) (c : Z) : Prop :=
  (c = -1 /\ lt)%Z \/ (c = 0 /\ eq)%Z \/ (c = 1 /\ gt)%Z.

Lemma elt_compare_spec x y :
  elt_type x = elt_type y -> elt_comparable x = true -> elt_in_range x -> elt_in_range y ->
  exists c, elt_compare_na_equal x y = Ok c /\
    cmp_is (elt_lt x y) (elt_sem x = elt_sem y) (elt_lt y x) c.
Proof.
  intros Ht Hc Rx Ry. unfold cmp_is.
  destruct x as [a|a|a|ar ai|a|a|a], y as [b|b|b|br bi|b|b|b]; simpl in *; try done;
    (eexists; split; [reflexivity|]) || idtac.
  - unfold lgl_compare_na_equal. rewrite int_compare_spec.
    destruct (Z.ltb_spec a b), (Z.ltb_spec b a); try lia;
      [left|right;right|right;left]; split; try done; try constructor;
      unfold int_sem, is_int, INT_MIN in *; change (-2^31)%Z with (-2147483648)%Z;
      try (destruct (Z.eqb_spec a (-2147483648)), (Z.eqb_spec b (-2147483648)); try lia; constructor; lia).
    assert (a = b) as -> by lia. done.
  - unfold int_compare_na_equal. rewrite int_compare_spec.
    destruct (Z.ltb_spec a b), (Z.ltb_spec b a); try lia;
      [left|right;right|right;left]; split; try done; try constructor;
      unfold int_sem, is_int, INT_MIN in *; change (-2^31)%Z with (-2147483648)%Z;
      try (destruct (Z.eqb_spec a (-2147483648)), (Z.eqb_spec b (-2147483648)); try lia; constructor; lia).
    assert (a = b) as -> by lia. done.
  - unfold dbl_compare_na_equal. rewrite !dbl_classify_spec by done.
    destruct (dbl_sem a) eqn:Ea, (dbl_sem b) eqn:Eb; simpl;
      try (right; left; split; congruence);
      try (left; split; [done|]; constructor; rewrite Ea, Eb; constructor);
      try (right; right; split; [done|]; constructor; rewrite Ea, Eb; constructor).
    unfold dbl_compare_scalar, c_dgt. rewrite (c_dlt_spec a b v v0), (c_dlt_spec b a v0 v) by done.
    unfold b2i.
    destruct (Z.ltb_spec v0 v), (Z.ltb_spec v v0); try lia;
      [right;right|left|right;left]; split; try done;
      try (constructor; rewrite Ea, Eb; constructor; lia).
    assert (v = v0) as -> by lia. done.
  - unfold chr_compare_na_equal, chr_equal_na_equal, chr_is_missing.
    destruct a as [a|], b as [b|]; simpl.
    + unfold chr_compare_scalar.
      destruct (bytes_eqb a b) eqn:E.
      * apply bytes_eqb_spec in E as ->. eexists; split; [done|]. right; left. done.
      * assert (a <> b) by (rewrite <- bytes_eqb_spec; congruence).
        destruct (strcmp_spec a b) as [[-> ?]|[[-> ->]|[-> ?]]]; simpl; try done;
          eexists; (split; [reflexivity|]); [left|right;right]; split; try done; by do 2 constructor.
    + eexists; split; [done|]. right; right. split; [done|]. by do 2 constructor.
    + eexists; split; [done|]. left. split; [done|]. by do 2 constructor.
    + eexists; split; [done|]. right; left. done.
Qed.

Lemma elt_compare_propagate_spec x y :
  elt_type x = elt_type y ->
  elt_compare_na_propagate x y =
  if elt_comparable x && (elt_is_missing x || elt_is_missing y) then Ok NA_INTEGER
  else elt_compare_na_equal x y.
Proof.
  intros Ht.
  destruct x as [a|a|a|ar ai|a|a|a], y as [b|b|b|br bi|b|b|b]; simpl in *; try done.
  - unfold lgl_compare_na_propagate. by destruct (lgl_is_missing a || lgl_is_missing b).
  - unfold int_compare_na_propagate. by destruct (int_is_missing a || int_is_missing b).
  - unfold dbl_compare_na_propagate, dbl_is_missing, dbl_compare_na_equal, dbl_classify.
    destruct (isnan a), (isnan b); done.
  - unfold chr_compare_na_propagate, chr_compare_na_equal.
    destruct (chr_is_missing a) eqn:Ea, (chr_is_missing b) eqn:Eb; try done.
Qed.
