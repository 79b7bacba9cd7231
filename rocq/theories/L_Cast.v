(** * Lemmas about casts between numeric vectors. *)
From Verif Require Import Base M_Double M_Scalar M_Object M_Proxy M_Cast Spec_Value Spec_Cast L_Dbl.

#[local] Arguments Z.mul : simpl never.
#[local] Arguments Z.add : simpl never.
#[local] Arguments Z.sub : simpl never.
#[local] Arguments Z.pow : simpl never.

Lemma dscale_pos : (0 < dscale)%Z.
Proof. unfold dscale. apply Z.pow_pos_nonneg; lia. Qed.
Lemma dscale_eq : dscale = (2 ^ 1074)%Z.
Proof. reflexivity. Qed.
#[global] Opaque dscale.

Section scalar.
  Open Scope Z_scope.
  Lemma num_isnan x v : dbl_wf x -> dbl_sem x = SNum v -> isnan x = false /\ dbl_value x = v.
  Proof.
    intros Hx E. assert (isnan x = false) as Hn by (rewrite isnan_sem, E by done; done).
    rewrite dbl_value_spec in E by done. by injection E as ->.
  Qed.
  Lemma c_deq_int_spec x v i : dbl_wf x -> dbl_sem x = SNum v -> c_deq_int x i = (v =? i * dscale).
  Proof. intros Hx E. destruct (num_isnan x v Hx E) as [Hn Hv]. unfold c_deq_int. by rewrite Hn, Hv. Qed.
  Lemma c_dle_int_spec x v i : dbl_wf x -> dbl_sem x = SNum v -> c_dle_int x i = (v <=? i * dscale).
  Proof. intros Hx E. destruct (num_isnan x v Hx E) as [Hn Hv]. unfold c_dle_int. by rewrite Hn, Hv. Qed.
  Lemma c_dge_int_spec x v i : dbl_wf x -> dbl_sem x = SNum v -> c_dge_int x i = (i * dscale <=? v).
  Proof. intros Hx E. destruct (num_isnan x v Hx E) as [Hn Hv]. unfold c_dge_int. by rewrite Hn, Hv. Qed.
  Lemma c_dgt_int_spec x v i : dbl_wf x -> dbl_sem x = SNum v -> c_dgt_int x i = (i * dscale <? v).
  Proof. intros Hx E. destruct (num_isnan x v Hx E) as [Hn Hv]. unfold c_dgt_int. by rewrite Hn, Hv. Qed.
  Lemma nan_cmp x i : isnan x = true ->
    c_deq_int x i = false /\ c_dle_int x i = false /\ c_dge_int x i = false.
  Proof. intros H. unfold c_deq_int, c_dle_int, c_dge_int. by rewrite H. Qed.

  Lemma quot_exact i : (i * dscale) ÷ dscale = i.
  Proof. apply Z.quot_mul. pose proof dscale_pos. lia. Qed.
  Lemma c_int_of_dbl_exact x i : dbl_wf x -> dbl_sem x = SNum (i * dscale) -> is_int i ->
    c_int_of_dbl x = Ok i.
  Proof.
    intros Hx E Hi. destruct (num_isnan _ _ Hx E) as [Hn Hv]. unfold c_int_of_dbl. rewrite Hn, Hv, quot_exact.
    unfold is_int in Hi. by rewrite (proj2 (Z.leb_le INT_MIN i)), (proj2 (Z.leb_le i INT_MAX)) by lia.
  Qed.
  (** A double strictly between INT_MIN and INT_MAX + 1 truncates to an int. *)
  Lemma c_int_of_dbl_range x v : dbl_wf x -> dbl_sem x = SNum v ->
    INT_MIN * dscale < v < (INT_MAX + 1) * dscale ->
    exists t, c_int_of_dbl x = Ok t /\ t = v ÷ dscale /\ INT_MIN < t <= INT_MAX.
  Proof.
    intros Hx E Hv. destruct (num_isnan _ _ Hx E) as [Hn Hvx]. unfold c_int_of_dbl. rewrite Hn, Hvx.
    pose proof dscale_pos as Hp.
    assert (INT_MIN < v ÷ dscale <= INT_MAX) as Ht.
    { destruct (Z.le_gt_cases 0 v) as [Hv0|Hv0].
      - rewrite Z.quot_div_nonneg by lia. split.
        + assert (0 <= v / dscale) by (apply Z.div_pos; lia). unfold INT_MIN. lia.
        + assert (v / dscale < INT_MAX + 1) by (apply Z.div_lt_upper_bound; lia). lia.
      - replace v with (- (- v)) by lia. rewrite Z.quot_opp_l by lia.
        rewrite Z.quot_div_nonneg by lia. split.
        + assert (- v / dscale < - INT_MIN) by (apply Z.div_lt_upper_bound; lia). lia.
        + assert (0 <= - v / dscale) by (apply Z.div_pos; lia). unfold INT_MAX. lia. }
    exists (v ÷ dscale). rewrite (proj2 (Z.leb_le _ _)), (proj2 (Z.leb_le _ _)) by lia. done.
  Qed.

  (** The bit pattern of an int as double. *)
  Lemma dbl_of_exact_spec i : Z.abs i <= 2 ^ 52 -> dbl_wf (dbl_of_int i) /\ dbl_sem (dbl_of_int i) = SNum (i * dscale).
  Proof.
    intros Hi. unfold dbl_of_int.
    destruct (Z.eqb_spec i 0) as [->|Hne].
    { split; [unfold dbl_wf, pos_zero, two64; lia|]. vm_compute. done. }
    set (a := Z.abs i). assert (Ha : 0 < a <= 2 ^ 52) by (unfold a; lia).
    set (k := Z.log2 a).
    destruct (Z.log2_spec a ltac:(lia)) as [Hk1 Hk2]. fold k in Hk1, Hk2.
    assert (Hk0 : 0 <= k) by apply Z.log2_nonneg.
    assert (Hk52 : k <= 52).
    { unfold k. apply Z.le_trans with (Z.log2 (2^52)); [apply Z.log2_le_mono; lia|]. done. }
    assert (E52 : 2 ^ 52 = 2 ^ k * 2 ^ (52 - k)) by (rewrite <- Z.pow_add_r by lia; f_equal; lia).
    assert (Hpk : 0 < 2 ^ (52 - k)) by (apply Z.pow_pos_nonneg; lia).
    rewrite Z.pow_succ_r in Hk2 by lia.
    set (f := a * 2 ^ (52 - k) - two52).
    assert (Hf : 0 <= f < two52).
    { unfold f. rewrite two52_pow. nia. }
    set (mag := (1023 + k) * two52 + f).
    assert (Hmag : 0 <= mag < two63) by (unfold two63; unfold two52 in *; unfold mag; lia).
    assert (Hval : mag_value mag = a * dscale).
    { unfold mag_value.
      assert (mag / two52 = 1023 + k) as ->.
      { unfold mag. rewrite Z.div_add_l by (unfold two52; lia). rewrite (Z.div_small f) by lia. lia. }
      assert (mag mod two52 = f) as ->.
      { unfold mag. rewrite Z.add_comm, Z.mod_add by (unfold two52; lia). apply Z.mod_small. lia. }
      destruct (Z.eqb_spec (1023 + k) 0); [lia|].
      replace (two52 + f) with (a * 2 ^ (52 - k)) by (unfold f; lia).
      rewrite <- Z.mul_assoc, <- Z.pow_add_r by lia. rewrite dscale_eq. f_equal. f_equal. lia. }
    assert (Hexp : mag / two52 < 2047).
    { apply Z.div_lt_upper_bound; [unfold two52; lia|]. unfold mag, two52 in *. lia. }
    destruct (Z.ltb_spec i 0) as [Hneg|Hpos].
    - assert (Hm : dbl_mag (two63 + mag) = mag).
      { unfold dbl_mag. rewrite Z.add_comm. replace (mag + two63) with (mag + 1 * two63) by lia.
        rewrite Z.mod_add by (unfold two63; lia). apply Z.mod_small. lia. }
      assert (Hwf : dbl_wf (two63 + mag)) by (unfold dbl_wf, two63, two64 in *; lia).
      assert (Hn : isnan (two63 + mag) = false).
      { unfold isnan, dbl_exp. rewrite Hm. destruct (Z.eqb_spec (mag / two52) 2047); [lia|done]. }
      split; [done|]. rewrite dbl_value_spec by done. f_equal. unfold dbl_value. rewrite Hm, Hval.
      unfold dbl_sign. rewrite (proj2 (Z.leb_le _ _)) by lia. lia.
    - assert (Hm : dbl_mag mag = mag) by (apply Z.mod_small; lia).
      assert (Hwf : dbl_wf mag) by (unfold dbl_wf, two63, two64 in *; lia).
      assert (Hn : isnan mag = false).
      { unfold isnan, dbl_exp. rewrite Hm. destruct (Z.eqb_spec (mag / two52) 2047); [lia|done]. }
      split; [done|]. rewrite dbl_value_spec by done. f_equal. unfold dbl_value. rewrite Hm, Hval.
      unfold dbl_sign. rewrite (proj2 (Z.leb_gt _ _)) by lia. lia.
  Qed.

  Lemma dbl_of_int_spec i : is_int i -> dbl_wf (dbl_of_int i) /\ dbl_sem (dbl_of_int i) = SNum (i * dscale).
  Proof. intros Hi. apply dbl_of_exact_spec. unfold is_int, INT_MIN, INT_MAX in Hi. change (2 ^ 52) with 4503599627370496. lia. Qed.

  Lemma na_real_sem : dbl_sem NA_REAL = SNa.
  Proof. vm_compute. done. Qed.
  Lemma na_real_wf : dbl_wf NA_REAL.
  Proof. unfold dbl_wf, NA_REAL, two64. lia. Qed.
  Lemma int_num_na : int_num NA_INTEGER = SNa.
  Proof. done. Qed.
  Lemma int_num_val x : x <> NA_INTEGER -> int_num x = SNum (x * dscale).
  Proof.
    intros H. unfold int_num, int_sem. change (-2^31) with NA_INTEGER.
    destruct (Z.eqb_spec x NA_INTEGER); [done|]. by rewrite dscale_eq.
  Qed.
End scalar.

(** A cast loop whose body is exact for representable elements and lossy for
    others. *)
Lemma cast_loop_spec {A B} (f : A -> res (option B)) (good : A -> Prop) (R : A -> B -> Prop) xs :
  (forall x, x ∈ xs -> (good x /\ exists b, f x = Ok (Some b) /\ R x b) \/ (~ good x /\ f x = Ok None)) ->
  (Forall good xs /\ exists ys, cast_loop f xs = Ok (Some ys) /\ Forall2 R xs ys)
  \/ (~ Forall good xs /\ cast_loop f xs = Ok None).
Proof.
  induction xs as [|x xs IH]; intros H; simpl.
  { left. split; [constructor|]. exists []. split; [done|constructor]. }
  destruct (H x) as [(Hg & b & -> & Hb)|[Hg ->]]; [left| |]; simpl.
  - destruct IH as [(Hgs & ys & -> & Hys)|[Hgs ->]]; [intros y Hy; apply H; by right| |]; simpl.
    + left. split; [by constructor|]. exists (b :: ys). split; [done|by constructor].
    + right. split; [|done]. intros Hf. by inversion Hf.
  - right. split; [|done]. intros Hf. by inversion Hf.
Qed.

Section elements.
  Open Scope Z_scope.

  Lemma lgl_wf_int x : lgl_wf x -> is_int x.
  Proof. unfold lgl_wf, is_int, NA_LOGICAL, INT_MIN, INT_MAX. lia. Qed.
  Lemma dscale_mul_eq a b : a * dscale = b * dscale <-> a = b.
  Proof. pose proof dscale_pos. nia. Qed.

  (** int_as_logical *)
  Lemma int_lgl_spec xs : Forall is_int xs ->
    let good := fun x => representable NTLgl (int_num x) in
    (Forall good xs /\ exists ys, int_as_logical xs = Ok (Some ys) /\ Forall2 (fun x y => y = x /\ lgl_wf y) xs ys)
    \/ (~ Forall good xs /\ int_as_logical xs = Ok None).
  Proof.
    intros Hx. apply cast_loop_spec. intros x Hin.
    destruct (Z.eqb_spec x NA_INTEGER) as [->|Hna].
    { left. split; [done|]. eexists. split; [done|]. split; [done|]. unfold lgl_wf. auto. }
    unfold representable. rewrite int_num_val by done. rewrite <- dscale_eq.
    destruct (Z.eqb_spec x 0) as [->|H0]; [left|destruct (Z.eqb_spec x 1) as [->|H1]; [left|right]]; simpl.
    - split; [left; lia|]. eexists. split; [done|]. unfold lgl_wf. auto.
    - split; [right; lia|]. eexists. split; [done|]. unfold lgl_wf. auto.
    - split; [|done]. pose proof dscale_pos. nia.
  Qed.

  (** dbl_as_logical *)
  Lemma dbl_lgl_spec xs : Forall dbl_wf xs ->
    let good := fun x => representable NTLgl (dbl_sem x) in
    (Forall good xs /\ exists ys, dbl_as_logical xs = Ok (Some ys) /\
       Forall2 (fun x y => int_num y = as_missing NTLgl (dbl_sem x) /\ lgl_wf y) xs ys)
    \/ (~ Forall good xs /\ dbl_as_logical xs = Ok None).
  Proof.
    intros Hx. apply cast_loop_spec. intros x Hin.
    rewrite Forall_forall in Hx. specialize (Hx x Hin).
    rewrite isnan_sem by done. destruct (dbl_sem x) as [| |v] eqn:E.
    1,2: left; split; [done|]; eexists; split; [done|]; split; [done|unfold lgl_wf; auto].
    rewrite !(c_deq_int_spec x v) by done. unfold representable. rewrite <- dscale_eq.
    destruct (Z.eqb_spec v (0 * dscale)) as [->|H0]; [left|
      destruct (Z.eqb_spec v (1 * dscale)) as [->|H1]; [left|right]]; simpl.
    - split; [left; lia|]. rewrite (c_int_of_dbl_exact x 0) by (done || unfold is_int, INT_MIN, INT_MAX; lia).
      eexists. split; [done|]. split; [done|unfold lgl_wf; auto].
    - split; [right; lia|]. rewrite (c_int_of_dbl_exact x 1) by (done || unfold is_int, INT_MIN, INT_MAX; lia).
      eexists. split; [done|]. rewrite int_num_val by done. split; [done|unfold lgl_wf; auto].
    - split; [|done]. lia.
  Qed.

  (** dbl_as_integer *)
  Lemma dbl_int_spec xs : Forall dbl_wf xs ->
    let good := fun x => representable NTInt (dbl_sem x) in
    (Forall good xs /\ exists ys, dbl_as_integer xs = Ok (Some ys) /\
       Forall2 (fun x y => int_num y = as_missing NTInt (dbl_sem x) /\ is_int y) xs ys)
    \/ (~ Forall good xs /\ dbl_as_integer xs = Ok None).
  Proof.
    intros Hx. apply cast_loop_spec. intros x Hin.
    rewrite Forall_forall in Hx. specialize (Hx x Hin). pose proof dscale_pos as Hp.
    destruct (isnan x) eqn:En.
    { destruct (nan_cmp x INT_MIN En) as (_ & -> & _). destruct (nan_cmp x (INT_MAX + 1) En) as (_ & _ & ->). simpl.
      rewrite isnan_sem in En by done. left. destruct (dbl_sem x); try done.
      all: split; [done|]; eexists; split; [done|]; split; [done|unfold is_int, INT_MIN, INT_MAX, NA_INTEGER, INT_MIN; lia]. }
    rewrite isnan_sem in En by done. destruct (dbl_sem x) as [| |v] eqn:E; try done.
    rewrite (c_dle_int_spec x v), (c_dge_int_spec x v) by done.
    unfold representable. rewrite <- dscale_eq. change (2 ^ 31) with (INT_MAX + 1).
    destruct (Z.leb_spec v (INT_MIN * dscale)) as [Hlo|Hlo]; simpl.
    { right. split; [|done]. intros (i & -> & Hi). unfold INT_MIN, INT_MAX in *. nia. }
    destruct (Z.leb_spec ((INT_MAX + 1) * dscale) v) as [Hhi|Hhi]; simpl.
    { right. split; [|done]. intros (i & -> & Hi). unfold INT_MIN, INT_MAX in *. nia. }
    destruct (c_int_of_dbl_range x v) as (t & -> & Ht & Hr); [done|done|lia|]. simpl.
    rewrite (c_deq_int_spec x v) by done.
    destruct (Z.eqb_spec v (t * dscale)) as [Ev|Nv]; simpl.
    - left. split; [exists t; split; [done|]; unfold INT_MIN, INT_MAX in *; lia|].
      eexists. split; [done|]. split; [|unfold is_int; lia]. rewrite int_num_val by (unfold NA_INTEGER; lia).
      by rewrite Ev.
    - right. split; [|done]. intros (i & -> & Hi). rewrite quot_exact in Ht. by subst t.
  Qed.

  (** logical / integer to double *)
  Lemma int_dbl_spec xs : Forall is_int xs ->
    exists ys, int_as_double xs = Ok (Some ys) /\ Forall2 (fun x y => dbl_sem y = int_num x /\ dbl_wf y) xs ys.
  Proof.
    intros Hx. destruct (cast_loop_spec (fun elt => Ok (Some (if (elt =? NA_INTEGER)%Z then NA_REAL else dbl_of_int elt)))
      (fun _ => True) (fun x y => dbl_sem y = int_num x /\ dbl_wf y) xs) as [[_ H]|[H _]].
    - intros x Hin. left. split; [done|]. eexists. split; [done|].
      rewrite Forall_forall in Hx. specialize (Hx x Hin).
      destruct (Z.eqb_spec x NA_INTEGER) as [->|Hne].
      + rewrite na_real_sem. split; [done|apply na_real_wf].
      + destruct (dbl_of_int_spec x Hx) as [Hw ->]. by rewrite int_num_val.
    - done.
    - exfalso. apply H. by apply Forall_forall.
  Qed.
  Lemma lgl_dbl_spec xs : lgl_as_double xs = int_as_double xs.
  Proof. done. Qed.
  Lemma lgl_int_spec xs : lgl_as_integer xs = Ok (Some xs).
  Proof.
    unfold lgl_as_integer. induction xs as [|x xs IH]; simpl; [done|]. rewrite IH. simpl.
    change NA_INTEGER with NA_LOGICAL. by destruct (Z.eqb_spec x NA_LOGICAL) as [->|].
  Qed.

  (** The R methods refuse whatever the C code found lossy. *)
  Lemma r_logical_integer_err xs : Forall is_int xs ->
    ~ Forall (fun x => representable NTLgl (int_num x)) xs -> exists e, r_logical_integer xs = Err e.
  Proof.
    intros Hx Hn. unfold r_logical_integer.
    destruct (existsb _ xs) eqn:E; [eauto|]. exfalso. apply Hn.
    apply Forall_forall. intros x Hin. apply not_true_iff_false in E. rewrite existsb_exists in E.
    destruct (Z.eqb_spec x NA_INTEGER) as [->|H]; [done|]. unfold representable. rewrite int_num_val, <- dscale_eq by done.
    destruct (Z.eqb_spec x 0) as [->|H0]; [left; lia|]. destruct (Z.eqb_spec x 1) as [->|H1]; [right; lia|].
    exfalso. apply E. exists x. split; [by apply elem_of_list_In|]. lia.
  Qed.
  Lemma r_logical_double_err xs : Forall dbl_wf xs ->
    ~ Forall (fun x => representable NTLgl (dbl_sem x)) xs -> exists e, r_logical_double xs = Err e.
  Proof.
    intros Hx Hn. unfold r_logical_double.
    destruct (existsb _ xs) eqn:E; [eauto|]. exfalso. apply Hn.
    rewrite Forall_forall in Hx |- *. intros x Hin. specialize (Hx x Hin).
    apply not_true_iff_false in E. rewrite existsb_exists in E.
    destruct (dbl_sem x) as [| |v] eqn:Ex; [done|done|]. unfold representable. rewrite <- dscale_eq.
    destruct (Z.eq_dec v 0) as [->|H0]; [by left|]. destruct (Z.eq_dec v dscale) as [->|H1]; [by right|].
    exfalso. apply E. exists x. split; [by apply elem_of_list_In|].
    rewrite !(c_deq_int_spec x v), dbl_classify_spec, Ex by done. simpl. lia.
  Qed.
  Lemma r_integer_double_go_spec xs : Forall dbl_wf xs ->
    exists b ys, r_integer_double_go xs = Ok (b, ys) /\
      (b = false -> Forall (fun x => representable NTInt (dbl_sem x)) xs).
  Proof.
    induction xs as [|x xs IH]; intros Hx.
    { exists false, []. split; [done|]. by constructor. }
    inversion_clear Hx as [|? ? Hw Hws]. destruct IH as (b & ys & Eg & Hb); [done|].
    cbn [r_integer_double_go]. pose proof dscale_pos as Hp. unfold r_as_integer.
    destruct (isnan x) eqn:En.
    { cbn [bind]. rewrite Eg. cbn [bind fst snd]. eexists _, _. split; [done|].
      simpl. intros ->. constructor; [|by apply Hb]. rewrite isnan_sem in En by done. by destruct (dbl_sem x). }
    rewrite isnan_sem in En by done. destruct (dbl_sem x) as [| |v] eqn:E; try done.
    rewrite (c_dle_int_spec x v), (c_dge_int_spec x v) by done.
    destruct (Z.leb_spec ((INT_MAX + 1) * dscale) v) as [Hhi|Hhi]; simpl.
    { rewrite Eg. simpl. eexists _, _. split; [done|]. intros H. discriminate. }
    destruct (Z.leb_spec v (INT_MIN * dscale)) as [Hlo|Hlo]; simpl.
    { rewrite Eg. simpl. eexists _, _. split; [done|]. intros H. discriminate. }
    destruct (c_int_of_dbl_range x v) as (t & -> & Ht & Hr); [done|done|lia|]. simpl. rewrite Eg. simpl.
    eexists _, _. split; [done|]. rewrite (c_deq_int_spec x v) by done.
    destruct (Z.eqb_spec t NA_INTEGER) as [?|_]; [unfold NA_INTEGER in *; lia|]. simpl.
    destruct (Z.eqb_spec v (t * dscale)) as [Ev|Nv]; simpl; [|discriminate].
    intros ->. constructor; [|by apply Hb]. rewrite E. simpl. exists t. rewrite <- dscale_eq. split; [done|].
    change (2 ^ 31) with (INT_MAX + 1). unfold INT_MIN, INT_MAX in *. lia.
  Qed.
  Lemma r_integer_double_err xs : Forall dbl_wf xs ->
    ~ Forall (fun x => representable NTInt (dbl_sem x)) xs -> exists e, r_integer_double xs = Err e.
  Proof.
    intros Hx Hn. unfold r_integer_double. destruct (r_integer_double_go_spec xs Hx) as (b & ys & -> & Hb).
    simpl. destruct b; [eauto|]. by destruct Hn; apply Hb.
  Qed.
End elements.
