(** * Lemmas: rows of interval bounds *)
From Verif Require Import Base M_Double M_Scalar M_Object M_Proxy M_OrderChr M_OrderDf M_Rank M_Interval.
From Verif Require Import Spec_Order Spec_OrderRow Spec_Interval L_OrderSpec L_OrderChr L_Dbl L_Interval P_Order P_Rank.
From Coq Require Import Sorting.Sorted.
#[local] Arguments Z.mul : simpl never.
#[local] Arguments Z.add : simpl never.
#[local] Arguments Z.sub : simpl never.
#[local] Arguments Z.to_nat : simpl never.
#[local] Arguments Z.of_nat : simpl never.

(** ** The bounds at a location *)
Definition elt_at (c : ocol) (a : Z) : elt :=
  match c with
  | OLgl l => ELgl (at_loc NA_INTEGER l a)
  | OInt l => EInt (at_loc NA_INTEGER l a)
  | ODbl l => EDbl (at_loc 0%Z l a)
  | OCpl l => ECpl (at_loc (0%Z, 0%Z) l a).1 (at_loc (0%Z, 0%Z) l a).2
  | OChr l => EChr (at_loc None l a)
  end.
Definition point_at (p : oproxy) (a : Z) : list elt := map (fun c => elt_at c a) (proxy_cols p).
Definition missing_at (p : oproxy) (a : Z) : bool := forallb (fun c => negb (col_complete a c)) (proxy_cols p).
Definition ocol_kind (c : ocol) : Z := match c with OLgl _ => 0 | OInt _ => 1 | ODbl _ => 2 | OCpl _ => 3 | OChr _ => 4 end%Z.

(** ** The comparison is a total preorder *)
Lemma elt_vcmp_tpo : tpo elt_vcmp.
Proof.
  split.
  - intros [] []; cbn; try done; [apply (tp_sym _ (int_vcmp_tpo false))|apply (tp_sym _ (int_vcmp_tpo false))|
      apply (tp_sym _ (dbl_vcmp_tpo false false))|apply (tp_sym _ (chr_vcmp_tpo false))].
  - intros [] [] []; cbn; try done; [apply (tp_eq_l _ (int_vcmp_tpo false))|apply (tp_eq_l _ (int_vcmp_tpo false))|
      apply (tp_eq_l _ (dbl_vcmp_tpo false false))|apply (tp_eq_l _ (chr_vcmp_tpo false))].
  - intros [] [] []; cbn; try done; [apply (tp_lt _ (int_vcmp_tpo false))|apply (tp_lt _ (int_vcmp_tpo false))|
      apply (tp_lt _ (dbl_vcmp_tpo false false))|apply (tp_lt _ (chr_vcmp_tpo false))].
Qed.
Lemma row_vcmp_tpo : tpo row_vcmp.
Proof.
  pose proof elt_vcmp_tpo as T. split.
  - induction x as [|a x IH]; intros [|b y]; cbn; try done. rewrite (tp_sym _ T a b). destruct (elt_vcmp a b); cbn; [apply IH|done|done].
  - induction x as [|a x IH]; intros [|b y] [|c z]; cbn; try done. unfold cmp_then. destruct (elt_vcmp a b) eqn:E1; [|done|done].
    intros H. rewrite (tp_eq_l _ T _ _ c E1). by rewrite (IH y z H).
  - induction x as [|a x IH]; intros [|b y] [|c z]; cbn; try done. unfold cmp_then. destruct (elt_vcmp a b) eqn:E1; [| |done].
    + intros H. rewrite (tp_eq_l _ T _ _ c E1). destruct (elt_vcmp b c); [|done|done]. by apply IH.
    + intros _. destruct (elt_vcmp b c) eqn:E2; [| |done].
      * by rewrite <- (tp_eq_r _ T _ _ a E2), E1.
      * by rewrite (tp_lt _ T _ _ _ E1 E2).
Qed.

(** ** Rows of the model *)
Lemma rows_at p i : Forall (fun c => ocol_length c = oproxy_size p) (proxy_cols p) -> i < oproxy_size p ->
  proxy_row (oproxy_proxy p) i = point_at p (Z.of_nat i + 1).
Proof.
  intros H Hi. unfold proxy_row.
  assert (Ec : M_Proxy.proxy_cols (oproxy_proxy p) = map ocol_vec (proxy_cols p)) by (by destruct p). rewrite Ec. clear Ec.
  unfold point_at, cols_row. induction H as [|c cs Hc H IH]; [done|]. cbn [map omap list_omap]. cbn.
  assert (v_data (ocol_vec c) !! i = Some (elt_at c (Z.of_nat i + 1))) as ->.
  { assert (Hz : forall A (d : A) l, length l = oproxy_size p -> l !! i = Some (at_loc d l (Z.of_nat i + 1))).
    { intros A d l Hl. unfold at_loc. replace (Z.to_nat (Z.of_nat i + 1 - 1)) with i by lia.
      destruct (lookup_lt_is_Some_2 l i) as [v Hv]; [lia|]. rewrite Hv. f_equal. symmetry. by apply nth_lookup_Some. }
    destruct c as [l|l|l|l|l]; cbn in Hc |- *.
    - by apply (map_lookup0 ELgl), Hz.
    - by apply (map_lookup0 EInt), Hz.
    - by apply (map_lookup0 EDbl), Hz.
    - by apply (map_lookup0 (fun z => ECpl z.1 z.2)), Hz.
    - by apply (map_lookup0 EChr), Hz. }
  f_equal. exact IH.
Qed.
Lemma orows_at p a : Forall (fun c => ocol_length c = oproxy_size p) (proxy_cols p) -> (1 <= a <= Z.of_nat (oproxy_size p))%Z ->
  rdZ (orows p) (a - 1) = Ok (point_at p a).
Proof.
  intros H Ha. unfold rdZ. destruct (Z.ltb_spec (a - 1) 0); [lia|]. apply rd_Ok. unfold orows, proxy_rows.
  assert (Es : proxy_size (oproxy_proxy p) = oproxy_size p) by (destruct p; [apply ocol_vec_length|done]). rewrite Es.
  rewrite (map_lookup0 (proxy_row (oproxy_proxy p)) _ _ (Z.to_nat (a - 1))).
  - f_equal. rewrite rows_at by (done || lia). f_equal. lia.
  - apply lookup_seq_lt. lia.
Qed.
Lemma row_missing_at p a : row_is_missing (point_at p a) = missing_at p a.
Proof.
  unfold point_at, missing_at. induction (proxy_cols p) as [|c cs IH]; [done|]. cbn.
  assert (elt_is_missing (elt_at c a) = negb (col_complete a c)) as ->.
  { destruct c; cbn [elt_at elt_is_missing col_complete]; rewrite ?negb_involutive; try done.
    - apply isnan_number.
    - unfold cpl_is_missing, dbl_is_missing. by rewrite !isnan_number, negb_andb.
    - match goal with |- context [at_loc None ?l a] => by destruct (at_loc None l a) end. }
  rewrite negb_involutive. destruct (col_complete a c); [done|exact IH].
Qed.

(** ** Comparing complete rows *)
Lemma elt_compare_vcmp c d a b n m : ocol_kind c = ocol_kind d -> ocol_kind c <> 3%Z -> col_ok n c -> col_ok m d ->
  col_complete a c = true -> col_complete b d = true ->
  elt_compare_na_equal (elt_at c a) (elt_at d b) = Ok (c2z (elt_vcmp (elt_at c a) (elt_at d b))).
Proof.
  intros Hk Hc [_ Oc] [_ Od] Ca Cb.
  assert (Hint : forall x y, negb (x =? NA_INTEGER)%Z = true -> negb (y =? NA_INTEGER)%Z = true ->
    int_compare_scalar x y = c2z (int_vcmp false x y)).
  { intros x y Hx Hy. unfold int_vcmp. apply negb_true_iff in Hx, Hy. rewrite Hx, Hy. unfold int_compare_scalar, b2i.
    destruct (Z.compare_spec x y), (Z.ltb_spec y x), (Z.ltb_spec x y); cbn; try lia. }
  destruct c as [l|l|l|l|l], d as [k|k|k|k|k]; cbn in Hk, Hc, Ca, Cb; try lia; cbn [elt_at elt_compare_na_equal elt_vcmp].
  - f_equal. by apply Hint.
  - f_equal. by apply Hint.
  - f_equal. revert Ca Cb. generalize (at_loc 0%Z l a) (at_loc 0%Z k b). intros x y Cx Cy. unfold dbl_compare_na_equal, dbl_vcmp.
    unfold is_number in Cx, Cy. destruct (dbl_classify x) eqn:Ex; [|done|done]. destruct (dbl_classify y) eqn:Ey; [|done|done].
    assert (Nx : isnan x = false) by (rewrite isnan_number; unfold is_number; by rewrite Ex).
    assert (Ny : isnan y = false) by (rewrite isnan_number; unfold is_number; by rewrite Ey).
    unfold dbl_compare_scalar, c_dgt, c_dlt. rewrite Nx, Ny. cbn [negb andb]. unfold b2i.
    destruct (Z.compare_spec (dbl_value x) (dbl_value y)), (Z.ltb_spec (dbl_value y) (dbl_value x)), (Z.ltb_spec (dbl_value x) (dbl_value y)); cbn; lia.
  - destruct (at_loc None l a) as [x|]; [|done]. destruct (at_loc None k b) as [y|]; [|done]. cbn [chr_vcmp].
    unfold chr_compare_na_equal, chr_equal_na_equal, chr_is_missing. cbn.
    destruct (bytes_eqb x y) eqn:Eq.
    + apply bytes_eqb_spec in Eq as ->. by rewrite (proj2 (bytes_vcmp_Eq y y)).
    + unfold chr_compare_scalar. rewrite strcmp_vcmp. destruct (bytes_vcmp x y) eqn:Ev; [|done|done].
      apply bytes_vcmp_Eq in Ev as ->. rewrite (proj2 (bytes_eqb_spec y y)) in Eq by done. done.
Qed.

Lemma row_compare_vcmp cs ds a b n m : map ocol_kind cs = map ocol_kind ds -> Forall (fun c => ocol_kind c <> 3%Z) cs ->
  Forall (col_ok n) cs -> Forall (col_ok m) ds -> forallb (col_complete a) cs = true -> forallb (col_complete b) ds = true ->
  row_compare (map (fun c => elt_at c a) cs) (map (fun c => elt_at c b) ds) =
    Ok (c2z (row_vcmp (map (fun c => elt_at c a) cs) (map (fun c => elt_at c b) ds))).
Proof.
  revert ds. induction cs as [|c cs IH]; intros [|d ds] Hk Hc Oc Od Ca Cb; cbn in Hk; try done.
  injection Hk as Hk1 Hk2. apply Forall_cons in Hc as [Hc1 Hc]. apply Forall_cons in Oc as [Oc1 Oc]. apply Forall_cons in Od as [Od1 Od].
  cbn in Ca, Cb. apply andb_true_iff in Ca as [Ca1 Ca]. apply andb_true_iff in Cb as [Cb1 Cb].
  cbn [map row_compare row_vcmp]. rewrite (elt_compare_vcmp c d a b n m) by done. cbn [bind].
  destruct (elt_vcmp _ _); cbn; [by apply IH|done|done].
Qed.

(** ** The order *)
Lemma dir_then d x y : dir d (cmp_then x y) = cmp_then (dir d x) (dir d y).
Proof. by destruct d, x. Qed.
Lemma cmp_then_assoc x y z : cmp_then (cmp_then x y) z = cmp_then x (cmp_then y z).
Proof. by destruct x. Qed.
Lemma col_vcmp_elt l c a b : ocol_kind c <> 3%Z -> col_complete a c = true -> col_complete b c = true ->
  col_vcmp l false c a b = elt_vcmp (elt_at c a) (elt_at c b).
Proof.
  intros Hk Ca Cb. destruct c as [x|x|x|x|x]; cbn in Hk, Ca, Cb; try lia; cbn [col_vcmp elt_at elt_vcmp]; unfold by_loc.
  - unfold int_vcmp. apply negb_true_iff in Ca, Cb. by rewrite Ca, Cb.
  - unfold int_vcmp. apply negb_true_iff in Ca, Cb. by rewrite Ca, Cb.
  - unfold dbl_vcmp, is_number in *. destruct (dbl_classify (at_loc 0%Z x a)); [|done|done]. by destruct (dbl_classify (at_loc 0%Z x b)).
  - destruct (at_loc None x a); [|done]. by destruct (at_loc None x b).
Qed.
Definition flagged (d l : bool) (cs : list ocol) : list (ocol * (bool * bool)) := map (fun c => (c, (d, l))) cs.
Lemma rows_flagged d l cs a b : Forall (fun c => ocol_kind c <> 3%Z) cs ->
  forallb (col_complete a) cs = true -> forallb (col_complete b) cs = true ->
  rows_vcmp false (flagged d l cs) a b = dir d (row_vcmp (map (fun c => elt_at c a) cs) (map (fun c => elt_at c b) cs)).
Proof.
  intros Hc Ca Cb. induction Hc as [|c cs Hc1 Hc IH]; [by destruct d|]. cbn in Ca, Cb.
  apply andb_true_iff in Ca as [Ca1 Ca]. apply andb_true_iff in Cb as [Cb1 Cb].
  cbn [flagged map rows_vcmp row_vcmp]. rewrite dir_then, (col_vcmp_elt l c a b) by done. unfold flagged in IH. by rewrite IH.
Qed.
Lemma rows_app nd cs ds a b : rows_vcmp nd (cs ++ ds) a b = cmp_then (rows_vcmp nd cs a b) (rows_vcmp nd ds a b).
Proof. induction cs as [|[c [d l]] cs IH]; [done|]. cbn [app rows_vcmp]. by rewrite IH, cmp_then_assoc. Qed.
(** missing values tie, and are first *)
Lemma col_missing_eq l c a b : ocol_kind c <> 3%Z -> col_complete a c = false -> col_complete b c = false -> col_vcmp l false c a b = Eq.
Proof.
  intros Hk Ca Cb. destruct c as [x|x|x|x|x]; cbn in Hk, Ca, Cb; try lia; cbn [col_vcmp]; unfold by_loc.
  - unfold int_vcmp. apply negb_false_iff in Ca, Cb. by rewrite Ca, Cb.
  - unfold int_vcmp. apply negb_false_iff in Ca, Cb. by rewrite Ca, Cb.
  - unfold dbl_vcmp, is_number in *. destruct (dbl_classify (at_loc 0%Z x a)); [done|..]; by destruct (dbl_classify (at_loc 0%Z x b)).
  - destruct (at_loc None x a); [done|]. by destruct (at_loc None x b).
Qed.
Lemma col_missing_lt c a b : ocol_kind c <> 3%Z -> col_complete a c = false -> col_complete b c = true -> col_vcmp false false c a b = Lt.
Proof.
  intros Hk Ca Cb. destruct c as [x|x|x|x|x]; cbn in Hk, Ca, Cb; try lia; cbn [col_vcmp]; unfold by_loc.
  - unfold int_vcmp. apply negb_false_iff in Ca. apply negb_true_iff in Cb. by rewrite Ca, Cb.
  - unfold int_vcmp. apply negb_false_iff in Ca. apply negb_true_iff in Cb. by rewrite Ca, Cb.
  - unfold dbl_vcmp, is_number in *. destruct (dbl_classify (at_loc 0%Z x a)); [done|..]; by destruct (dbl_classify (at_loc 0%Z x b)).
  - destruct (at_loc None x a); [done|]. by destruct (at_loc None x b).
Qed.
Lemma rows_missing_eq d l cs a b : Forall (fun c => ocol_kind c <> 3%Z) cs ->
  forallb (fun c => negb (col_complete a c)) cs = true -> forallb (fun c => negb (col_complete b c)) cs = true ->
  rows_vcmp false (flagged d l cs) a b = Eq.
Proof.
  intros Hc Ca Cb. induction Hc as [|c cs Hc1 Hc IH]; [done|]. cbn in Ca, Cb.
  apply andb_true_iff in Ca as [Ca1 Ca]. apply andb_true_iff in Cb as [Cb1 Cb]. apply negb_true_iff in Ca1, Cb1.
  cbn [flagged map rows_vcmp]. rewrite (col_missing_eq l c a b) by done. unfold flagged in IH. rewrite IH by done. by destruct d.
Qed.
