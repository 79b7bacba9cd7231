(** * Lemmas: joint ranks compare like the values of needles and haystack *)
From Verif Require Import Base M_Double M_Scalar M_Slice M_Object M_Proxy M_OrderChr M_OrderDf M_Rank M_Match.
From Verif Require Import Spec_Order Spec_OrderRow Spec_Match L_Dbl L_OrderSpec L_OrderGroups L_OrderChr L_Interval L_IntervalRow P_Order P_Rank L_MatchJoint.
From Coq Require Import Sorting.Sorted.
#[local] Arguments Z.mul : simpl never.
#[local] Arguments Z.add : simpl never.
#[local] Arguments Z.sub : simpl never.
#[local] Arguments Z.to_nat : simpl never.
#[local] Arguments Z.of_nat : simpl never.

(** ** Comparing values of two columns *)
Lemma rdZ_at_loc {A} (d : A) l a : (1 <= a <= Z.of_nat (length l))%Z -> rdZ l (a - 1) = Ok (at_loc d l a).
Proof.
  intros Ha. destruct (lookup_lt_is_Some_2 l (Z.to_nat (a - 1))) as [v Hv]; [lia|].
  unfold rdZ. rewrite (proj2 (Z.ltb_ge (a - 1) 0)) by lia. unfold at_loc. rewrite (nth_lookup_Some _ _ _ _ Hv). by apply rd_Ok.
Qed.
Lemma at_loc_forall {A} (d : A) l a (P : A -> Prop) : Forall P l -> (1 <= a <= Z.of_nat (length l))%Z -> P (at_loc d l a).
Proof.
  intros H Ha. destruct (lookup_lt_is_Some_2 l (Z.to_nat (a - 1))) as [v Hv]; [lia|]. unfold at_loc. rewrite (nth_lookup_Some _ _ _ _ Hv).
  exact (proj1 (Forall_lookup _ _) H _ _ Hv).
Qed.

Lemma int_compare_vcmp x y : is_int x -> is_int y -> int_compare_scalar x y = cmp_code (int_vcmp false x y).
Proof.
  unfold is_int, int_vcmp, int_compare_scalar, b2i, NA_INTEGER, INT_MIN, INT_MAX, cmp_code. intros Hx Hy.
  destruct (Z.eqb_spec x (-2147483648)), (Z.eqb_spec y (-2147483648)), (Z.ltb_spec y x), (Z.ltb_spec x y); cbn; try lia;
    destruct (Z.compare_spec x y); lia.
Qed.
Lemma dbl_compare_vcmp nd x y : dbl_order_compare_na_equal x y nd = cmp_code (dbl_vcmp false nd x y).
Proof.
  unfold dbl_order_compare_na_equal, dbl_vcmp. destruct (dbl_classify x) eqn:Ex, (dbl_classify y) eqn:Ey; try done; try (by destruct nd).
  assert (Nx : isnan x = false) by (rewrite isnan_number; unfold is_number; by rewrite Ex).
  assert (Ny : isnan y = false) by (rewrite isnan_number; unfold is_number; by rewrite Ey).
  unfold dbl_compare_scalar, c_dgt, c_dlt. rewrite Nx, Ny. cbn [negb andb]. unfold b2i.
  destruct (Z.compare_spec (dbl_value x) (dbl_value y)), (Z.ltb_spec (dbl_value y) (dbl_value x)), (Z.ltb_spec (dbl_value x) (dbl_value y)); cbn; lia.
Qed.
Lemma cpl_compare_vcmp nd x y : cpl_order_compare_na_equal x y nd = cmp_code (cpl_vcmp false nd x y).
Proof.
  unfold cpl_order_compare_na_equal, cpl_vcmp. rewrite !dbl_compare_vcmp.
  destruct (cpl_norm_parts x) as (A1 & A2 & A3 & A4). destruct (cpl_norm_parts y) as (B1 & B2 & B3 & B4).
  rewrite (dbl_vcmp_classes false nd (cpl_normalise_missing x).1 (cpl_parts x).1 (cpl_normalise_missing y).1 (cpl_parts y).1) by done.
  rewrite (dbl_vcmp_classes false nd (cpl_normalise_missing x).2 (cpl_parts x).2 (cpl_normalise_missing y).2 (cpl_parts y).2) by done.
  by destruct (dbl_vcmp false nd (cpl_parts x).1 (cpl_parts y).1).
Qed.
Lemma chr_compare_vcmp x y : chr_compare_na_equal x y = Ok (cmp_code (chr_vcmp false x y)).
Proof.
  destruct x as [x|], y as [y|]; [|done|done|done]. unfold chr_compare_na_equal, chr_equal_na_equal, chr_is_missing. cbn.
  destruct (bytes_eqb x y) eqn:Eq.
  - apply bytes_eqb_spec in Eq as ->. by rewrite (proj2 (bytes_vcmp_Eq y y)).
  - unfold chr_compare_scalar. rewrite strcmp_vcmp. destruct (bytes_vcmp x y) eqn:Ev; [|done|done].
    apply bytes_vcmp_Eq in Ev as ->. rewrite (proj2 (bytes_eqb_spec y y)) in Eq by done. done.
Qed.

Lemma col_compare_vcmp nd x y n m a b : same_type x y -> col_ok n x -> col_ok m y -> (1 <= a <= Z.of_nat n)%Z -> (1 <= b <= Z.of_nat m)%Z ->
  p_order_compare_na_equal x (a - 1) y (b - 1) nd = Ok (cmp_code (pair_vcmp nd x y a b)).
Proof.
  intros Hk [L1 O1] [L2 O2] Ha Hb. destruct x as [x|x|x|x|x], y as [y|y|y|y|y]; cbn in Hk; try done; cbn in L1, L2, O1, O2;
    cbn [p_order_compare_na_equal pair_vcmp].
  - rewrite !(rdZ_at_loc NA_INTEGER) by lia. cbn [bind]. f_equal. apply int_compare_vcmp; apply at_loc_forall; done || lia.
  - rewrite !(rdZ_at_loc NA_INTEGER) by lia. cbn [bind]. f_equal. apply int_compare_vcmp; apply at_loc_forall; done || lia.
  - rewrite !(rdZ_at_loc (0%Z : dbl)) by lia. cbn [bind]. f_equal. apply dbl_compare_vcmp.
  - rewrite !(rdZ_at_loc ((0%Z, 0%Z) : dbl * dbl)) by lia. cbn [bind]. f_equal. apply cpl_compare_vcmp.
  - rewrite !(rdZ_at_loc (None : rstr)) by lia. cbn [bind]. apply chr_compare_vcmp.
Qed.

Lemma df_compare_vcmp nd xs ys n m a b : Forall2 same_type xs ys -> Forall (col_ok n) xs -> Forall (col_ok m) ys ->
  (1 <= a <= Z.of_nat n)%Z -> (1 <= b <= Z.of_nat m)%Z ->
  p_df_order_compare_na_equal xs (a - 1) ys (b - 1) nd = Ok (cmp_code (pairs_vcmp nd xs ys a b)).
Proof.
  intros Hk Ox Oy Ha Hb. unfold p_df_order_compare_na_equal.
  destruct (for_brk_inv (fun i (s : Z) => s = 0%Z /\ pairs_vcmp nd xs ys a b = pairs_vcmp nd (drop i xs) (drop i ys) a b)
    (fun s => s = cmp_code (pairs_vcmp nd xs ys a b)) 0 (length xs)
    (fun col _ => let! x_col := rd xs col in let! y_col := rd ys col in
       let! cmp := p_order_compare_na_equal x_col (a - 1) y_col (b - 1) nd in
       if (cmp =? 0)%Z then Ok (Next 0%Z) else Ok (Break cmp)) 0%Z) as (r & E & Hr).
  - done.
  - intros i s Hi [-> HI]. destruct (lookup_lt_is_Some_2 xs i) as [x Hx]; [lia|].
    destruct (Forall2_lookup_l _ _ _ _ _ Hk Hx) as (y & Hy & Hxy).
    rewrite (proj2 (rd_Ok xs i x) Hx), (proj2 (rd_Ok ys i y) Hy). cbn [bind].
    rewrite (col_compare_vcmp nd x y n m); [|done|exact (proj1 (Forall_lookup _ _) Ox _ _ Hx)|exact (proj1 (Forall_lookup _ _) Oy _ _ Hy)|done|done].
    cbn [bind]. rewrite HI, (drop_S _ _ _ Hx), (drop_S _ _ _ Hy). cbn [pairs_vcmp].
    destruct (pair_vcmp nd x y a b); cbn [cmp_code cmp_then].
    + left. exists 0%Z. done.
    + right. exists (-1)%Z. done.
    + right. exists 1%Z. done.
  - intros s [-> HI]. rewrite HI. cbn [Nat.add]. rewrite drop_ge by lia. done.
  - exact (eq_trans E (f_equal Ok Hr)).
Qed.

(** ** The columns one after the other *)
Definition col_app (x y : ocol) : ocol :=
  match x, y with
  | OLgl x, OLgl y => OLgl (x ++ y)
  | OInt x, OInt y => OInt (x ++ y)
  | ODbl x, ODbl y => ODbl (x ++ y)
  | OCpl x, OCpl y => OCpl (x ++ y)
  | OChr x, OChr y => OChr (x ++ y)
  | _, _ => x
  end.
Definition plain (cols : list ocol) : list (ocol * (bool * bool)) := map (fun c => (c, (false, false))) cols.
Definition joint_vcmp (nd : bool) (xs ys : list ocol) : Z -> Z -> comparison := rows_vcmp nd (plain (zip_with col_app xs ys)).

Lemma at_loc_app_l {A} (d : A) x y a : (1 <= a <= Z.of_nat (length x))%Z -> at_loc d (x ++ y) a = at_loc d x a.
Proof. intros H. unfold at_loc. rewrite app_nth1 by lia. done. Qed.
Lemma at_loc_app_r {A} (d : A) x y b : (1 <= b)%Z -> at_loc d (x ++ y) (Z.of_nat (length x) + b) = at_loc d y b.
Proof. intros H. unfold at_loc. rewrite app_nth2 by lia. f_equal. lia. Qed.

Lemma col_app_ll nd x y n a b : same_type x y -> ocol_length x = n -> (1 <= a <= Z.of_nat n)%Z -> (1 <= b <= Z.of_nat n)%Z ->
  col_vcmp false nd (col_app x y) a b = col_vcmp false nd x a b.
Proof. intros Hk L Ha Hb. destruct x, y; cbn in Hk; try done; cbn in L |- *; unfold by_loc; rewrite !at_loc_app_l by (unfold dbl, rstr in *; lia); done. Qed.
Lemma col_app_rr nd x y n a b : same_type x y -> ocol_length x = n -> (1 <= a)%Z -> (1 <= b)%Z ->
  col_vcmp false nd (col_app x y) (Z.of_nat n + a) (Z.of_nat n + b) = col_vcmp false nd y a b.
Proof. intros Hk L Ha Hb. subst n. destruct x, y; cbn in Hk; try done; cbn; unfold by_loc; rewrite !at_loc_app_r by (unfold dbl, rstr in *; lia); done. Qed.
Lemma col_app_lr nd x y n a b : same_type x y -> ocol_length x = n -> (1 <= a <= Z.of_nat n)%Z -> (1 <= b)%Z ->
  col_vcmp false nd (col_app x y) a (Z.of_nat n + b) = pair_vcmp nd x y a b.
Proof. intros Hk L Ha Hb. subst n. destruct x as [l|l|l|l|l], y as [k|k|k|k|k]; cbn in Hk; try done; cbn in Ha |- *; unfold by_loc; unfold dbl, rstr in *; (rewrite at_loc_app_r by lia); (rewrite at_loc_app_l by lia); done. Qed.

Lemma joint_ll nd xs ys n a b : Forall2 same_type xs ys -> Forall (fun c => ocol_length c = n) xs -> (1 <= a <= Z.of_nat n)%Z -> (1 <= b <= Z.of_nat n)%Z ->
  joint_vcmp nd xs ys a b = rows_vcmp nd (plain xs) a b.
Proof.
  intros Hk HL Ha Hb. unfold joint_vcmp. induction Hk as [|x y xs ys Hxy Hk IH]; [done|]. apply Forall_cons in HL as [H1 HL].
  cbn. rewrite (col_app_ll nd x y n) by done. f_equal. by apply IH.
Qed.
Lemma joint_rr nd xs ys n a b : Forall2 same_type xs ys -> Forall (fun c => ocol_length c = n) xs -> (1 <= a)%Z -> (1 <= b)%Z ->
  joint_vcmp nd xs ys (Z.of_nat n + a) (Z.of_nat n + b) = rows_vcmp nd (plain ys) a b.
Proof.
  intros Hk HL Ha Hb. unfold joint_vcmp. induction Hk as [|x y xs ys Hxy Hk IH]; [done|]. apply Forall_cons in HL as [H1 HL].
  cbn. rewrite (col_app_rr nd x y n) by done. f_equal. by apply IH.
Qed.
Lemma joint_lr nd xs ys n a b : Forall2 same_type xs ys -> Forall (fun c => ocol_length c = n) xs -> (1 <= a <= Z.of_nat n)%Z -> (1 <= b)%Z ->
  joint_vcmp nd xs ys a (Z.of_nat n + b) = pairs_vcmp nd xs ys a b.
Proof.
  intros Hk HL Ha Hb. unfold joint_vcmp. induction Hk as [|x y xs ys Hxy Hk IH]; [done|]. apply Forall_cons in HL as [H1 HL].
  cbn. rewrite (col_app_lr nd x y n) by done. f_equal. by apply IH.
Qed.
Lemma pairs_self nd ys a b : rows_vcmp nd (plain ys) a b = pairs_vcmp nd ys ys a b.
Proof. induction ys as [|y ys IH]; [done|]. cbn. f_equal; [by destruct y|exact IH]. Qed.

Lemma order_plain p nd a b : order_vcmp (proxy_ox p) p [false] [false] nd a b = rows_vcmp nd (plain (proxy_cols p)) a b.
Proof.
  unfold order_vcmp. f_equal. assert (E : forall n, flags_of (proxy_ox p) n [false] = replicate n false) by (by destruct p).
  rewrite !E. unfold plain. induction (proxy_cols p) as [|c cs IH]; [done|]. cbn. f_equal. exact IH.
Qed.

(** ** Joint ranks of a column of needles and one of the haystack *)
(** Well-formed columns of the same type. *)
Definition pair_input (x y : oproxy) (n m : nat) : Prop :=
  oproxy_size x = n /\ oproxy_size y = m /\ Forall (col_ok n) (proxy_cols x) /\ Forall (col_ok m) (proxy_cols y) /\
  Forall2 same_type (proxy_cols x) (proxy_cols y) /\ match x, y with OVec _, OVec _ | ODf _ _, ODf _ _ => True | _, _ => False end /\
  (forall j c, 1 <= j -> proxy_cols x !! j = Some c -> is_cpl c = false).

(** [rx] and [ry] compare like the values. *)
Definition ranks_ok (nd : bool) (x y : oproxy) (n m : nat) (rx ry : list Z) : Prop :=
  length rx = n /\ length ry = m /\
  Forall (fun r => INT_MIN < r <= INT_MAX)%Z rx /\ Forall (fun r => INT_MIN < r <= INT_MAX)%Z ry /\
  (forall a b, (1 <= a <= Z.of_nat n)%Z -> (1 <= b <= Z.of_nat m)%Z -> (at_loc 0%Z rx a ?= at_loc 0%Z ry b)%Z = key_vcmp nd x y a b) /\
  (forall a b, (1 <= a <= Z.of_nat n)%Z -> (1 <= b <= Z.of_nat n)%Z -> (at_loc 0%Z rx a ?= at_loc 0%Z rx b)%Z = key_vcmp nd x x a b) /\
  (forall a b, (1 <= a <= Z.of_nat m)%Z -> (1 <= b <= Z.of_nat m)%Z -> (at_loc 0%Z ry a ?= at_loc 0%Z ry b)%Z = key_vcmp nd y y a b).

Lemma proxy_ox_input p n tls : oproxy_size p = n -> Forall (col_ok n) (proxy_cols p) -> (Z.of_nat n <= INT_MAX)%Z -> (forall s, 0 <= tls s)%Z ->
  order_input (proxy_ox p) p tls.
Proof.
  intros <- H1 H2 H3. split; [done|]. split; [done|]. split; [|done]. destruct p; cbn; [done|]. by rewrite sum_ones.
Qed.
Lemma in_blocks_of cmp cmp' n o gs : is_order cmp n o -> is_group_sizes cmp o gs ->
  (forall a b, (1 <= a <= Z.of_nat n)%Z -> (1 <= b <= Z.of_nat n)%Z -> cmp' a b = cmp a b) ->
  exists bs, in_blocks cmp' n bs /\ concat bs = o /\ map length bs = gs.
Proof.
  intros [HP _] (bs & <- & <- & H1 & H2 & H3) Hc. exists bs. split; [|done].
  assert (Hin : forall b a, b ∈ bs -> a ∈ b -> (1 <= a <= Z.of_nat n)%Z).
  { intros b a Hb Ha. apply elem_locs. rewrite <- HP. apply in_concat_block. eauto. }
  split; [done|]. split; [done|]. split.
  - rewrite Forall_forall in H2 |- *. intros b Hb u v Hu Hv. rewrite Hc by (by eapply Hin). by apply (H2 b).
  - clear HP H1 H2. induction H3 as [|b bs S IH F]; [constructor|]. constructor.
    + apply IH. intros b' a Hb'. apply Hin. by apply elem_of_list_further.
    + rewrite Forall_forall in F |- *. intros c Hcin u v Hu Hv. rewrite Hc; [by apply (F c)|eapply Hin; [|exact Hu]; apply elem_of_list_here|
        eapply Hin; [|exact Hv]; by apply elem_of_list_further].
Qed.

Lemma same_type_cpl x y : same_type x y -> is_cpl y = is_cpl x.
Proof. by destruct x, y. Qed.

Theorem joint_xtfrm_ok fuel x y n m nd tls : pair_input x y n m -> (Z.of_nat n <= INT_MAX)%Z -> (Z.of_nat m <= INT_MAX)%Z ->
  (forall s, 0 <= tls s)%Z -> length (proxy_cols x) <= fuel ->
  exists rx ry, vec_joint_xtfrm fuel x y n m nd tls = Ok (rx, ry) /\ ranks_ok nd x y n m rx ry.
Proof.
  intros (Sx & Sy & Ox & Oy & Hk & Hs & Hc) Hn Hm Htls Hf.
  assert (Lxy : length (proxy_cols x) = length (proxy_cols y)) by (by eapply Forall2_length).
  pose proof (proxy_ox_input x n tls Sx Ox Hn Htls) as Ix. pose proof (proxy_ox_input y m tls Sy Oy Hm Htls) as Iy.
  assert (V : forall p, flags_valid (proxy_ox p) [false]) by (intros p; by left).
  assert (Hcy : forall j c, 1 <= j -> proxy_cols y !! j = Some c -> is_cpl c = false).
  { intros j c Hj Hy. destruct (Forall2_lookup_r _ _ _ _ _ Hk Hy) as (c' & Hx & Ht). rewrite (same_type_cpl _ _ Ht). by eapply Hc. }
  destruct (C27_order_info_total fuel _ x _ _ nd true tls Ix (V x) (V x) Hc Hf) as ([[ox gx] tx] & Ex & (Rx1 & Rx2 & Rx3 & _)).
  destruct (C27_order_info_total fuel _ y _ _ nd true tls Iy (V y) (V y) Hcy ltac:(lia)) as ([[oy gy] ty] & Ey & (Ry1 & Ry2 & Ry3 & _)).
  destruct (Rx3 eq_refl) as [gsx ->]. destruct (Ry3 eq_refl) as [gsy ->]. rewrite Sx in Rx1. rewrite Sy in Ry1.
  assert (Lx : Forall (fun c => ocol_length c = n) (proxy_cols x)) by (eapply Forall_impl; [exact Ox|]; by intros c []).
  set (jc := joint_vcmp nd (proxy_cols x) (proxy_cols y)).
  destruct (in_blocks_of _ jc n ox gsx Rx1 Rx2) as (bx & BX & <- & <-).
  { intros a b Ha Hb. rewrite order_plain. by apply (joint_ll nd _ _ n). }
  destruct (in_blocks_of _ (fun a b => jc (Z.of_nat n + a) (Z.of_nat n + b))%Z m oy gsy Ry1 Ry2) as (bz & BY & <- & <-).
  { intros a b Ha Hb. rewrite order_plain. apply (joint_rr nd _ _ n); done || lia. }
  assert (T : tpo jc) by apply rows_vcmp_tpo.
  destruct (joint_ok jc T n m bx bz BX BY ltac:(lia) x y nd) as (rx & ry & E & L1 & L2 & Hcmp & Hb).
  { intros a b Ha Hb. unfold jc. rewrite (joint_lr nd _ _ n) by (done || lia).
    destruct x as [cx|cx sx], y as [cy|cy sy]; try done; cbn [joint_compare proxy_cols] in *.
    - rewrite (col_compare_vcmp nd cx cy n m); [|by inversion Hk|by inversion Ox|by inversion Oy|done|done]. f_equal. f_equal. cbn.
      by destruct (pair_vcmp nd cx cy a b).
    - by apply (df_compare_vcmp nd cx cy n m). }
  exists rx, ry. split.
  { unfold vec_joint_xtfrm, vec_order_info. rewrite Ex. cbn [bind default from_option id]. rewrite Ey. cbn [bind default from_option id]. exact E. }
  assert (Jx : forall a, (1 <= a <= Z.of_nat n)%Z -> jrank n rx ry a = at_loc 0%Z rx a).
  { intros a Ha. unfold jrank. rewrite (proj2 (Z.leb_le _ _)) by lia. done. }
  assert (Jy : forall a, (1 <= a <= Z.of_nat m)%Z -> jrank n rx ry (Z.of_nat n + a) = at_loc 0%Z ry a).
  { intros a Ha. unfold jrank. rewrite (proj2 (Z.leb_gt _ _)) by lia. f_equal. lia. }
  split; [done|]. split; [done|]. split; [|split; [|split; [|split]]].
  - apply Forall_lookup. intros i r Hr. assert (Hi : i < n) by (rewrite <- L1; by eapply lookup_lt_Some).
    pose proof (Hb (Z.of_nat i + 1)%Z ltac:(unfold jvalid; lia)) as H. rewrite Jx in H by lia.
    unfold at_loc in H. replace (Z.to_nat (Z.of_nat i + 1 - 1)) with i in H by lia. by rewrite (nth_lookup_Some _ _ _ _ Hr) in H.
  - apply Forall_lookup. intros i r Hr. assert (Hi : i < m) by (rewrite <- L2; by eapply lookup_lt_Some).
    pose proof (Hb (Z.of_nat n + (Z.of_nat i + 1))%Z ltac:(unfold jvalid; lia)) as H. rewrite Jy in H by lia.
    unfold at_loc in H. replace (Z.to_nat (Z.of_nat i + 1 - 1)) with i in H by lia. by rewrite (nth_lookup_Some _ _ _ _ Hr) in H.
  - intros a b Ha Hb'. rewrite <- (Jx a), <- (Jy b), Hcmp by (done || unfold jvalid; lia). unfold jc, key_vcmp. apply (joint_lr nd _ _ n); done || lia.
  - intros a b Ha Hb'. rewrite <- (Jx a), <- (Jx b), Hcmp by (done || unfold jvalid; lia). unfold jc, key_vcmp. rewrite (joint_ll nd _ _ n) by done. apply pairs_self.
  - intros a b Ha Hb'. rewrite <- (Jy a), <- (Jy b), Hcmp by (done || unfold jvalid; lia). unfold jc, key_vcmp. rewrite (joint_rr nd _ _ n) by (done || lia). apply pairs_self.
Qed.
