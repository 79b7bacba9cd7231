(** * C60: sizes given as arguments and sizes of elements *)
From Verif Require Import Base M_Double M_Scalar M_Cast M_Sizes Spec_Value Spec_Cast Spec_Sizes L_Dbl L_Cast L_Sizes.
#[local] Open Scope Z_scope.
#[local] Opaque dscale.

(** Full statement: for every argument, the size is the whole number that the
    argument stands for, and there is an error if it stands for none from 0
    to 2^31 - 1.  It is proved for arguments other than doubles below -2^63
    and is false for those (C60_short_length_refuted). *)
Theorem C60_short_length_partial d :
  sdata_wf d -> ~ far_below d ->
  match vec_as_short_length (SArg d None) with
  | Ok k => stands_for d k /\ 0 <= k <= 2 ^ 31 - 1
  | Err _ => forall k, stands_for d k -> ~ 0 <= k <= 2 ^ 31 - 1
  | UB _ => False
  end.
Proof.
  intros Hwf Hfar. unfold vec_as_short_length, vec_as_ssize. cbn [sa_object sa_data bind].
  pose proof dscale_pos as HS.
  destruct d as [v|v|].
  - destruct (Nat.eqb_spec (length v) 1) as [Hl|Hl]; cbn [negb bind].
    2: { intros k Hk. inversion Hk; subst. done. }
    destruct v as [|x [|]]; try done. cbn [rd lookup list_lookup bind].
    apply Forall_inv in Hwf. destruct (dbl_sem x) as [| |v] eqn:Es.
    1,2: assert (Hn : isnan x = true) by (pose proof (isnan_sem x Hwf) as HH; rewrite Es in HH; done);
      unfold c_deq_int, c_fractional; rewrite Hn; cbn; intros k Hk; apply stands_dbl_inv in Hk; congruence.
    rewrite (c_deq_int_spec _ _ _ Hwf Es), (fractional_spec _ _ Hwf Es), (c_dgt_int_spec _ _ _ Hwf Es).
    assert (Hst : forall k, stands_for (SDbl [x]) k -> v = k * dscale).
    { intros k Hk. apply stands_dbl_inv in Hk. congruence. }
    destruct (Z.eqb_spec v (NA_INTEGER * dscale)) as [->|Hna]; cbn [bind].
    { intros k Hk Hr. apply Hst in Hk. rewrite dscale_mul_eq in Hk. unfold NA_INTEGER, INT_MIN in *. lia. }
    destruct (Z.eqb_spec (v mod dscale) 0) as [Hw|Hw]; cbn [negb bind].
    2: { intros k Hk Hr. apply Hw, whole_spec. exists k. by apply Hst. }
    apply whole_spec in Hw as [k0 ->].
    destruct (Z.ltb_spec (R_SSIZE_MAX * dscale) (k0 * dscale)) as [Hbig|Hbig]; cbn [bind].
    { intros k Hk Hr. apply Hst in Hk; rewrite dscale_mul_eq in Hk. subst k0. apply Z.mul_lt_mono_pos_r in Hbig; [|done].
      unfold R_SSIZE_MAX in *. lia. }
    apply Z.mul_le_mono_pos_r in Hbig; [|done].
    assert (Hlow : - 2 ^ 63 - 1 < k0).
    { apply Z.nle_gt. intros HH. apply Hfar. exists x, (k0 * dscale). split; [done|]. split; [done|].
      rewrite <- dscale_eq. apply Z.mul_le_mono_nonneg_r; lia. }
    rewrite (int64_ok _ _ Hwf Es).
    2: { apply Z.mul_lt_mono_pos_r; [done|]. unfold INT64_MIN. lia. }
    2: { apply Z.mul_lt_mono_pos_r; [done|]. unfold INT64_MAX, R_SSIZE_MAX in *. lia. }
    rewrite quot_exact. cbn [bind].
    assert (Hk0 : forall k, stands_for (SDbl [x]) k -> k = k0).
    { intros k Hk. apply Hst in Hk; rewrite dscale_mul_eq in Hk. done. }
    destruct (Z.ltb_spec k0 0); [intros k Hk; apply Hk0 in Hk; lia|].
    destruct (Z.ltb_spec INT_MAX k0); [intros k Hk; apply Hk0 in Hk; unfold INT_MAX in *; lia|].
    split; [constructor; by apply dbl_is_eq|unfold INT_MAX in *; lia].
  - destruct (Nat.eqb_spec (length v) 1) as [Hl|Hl]; cbn [negb bind].
    2: { intros k Hk. inversion Hk; subst. done. }
    destruct v as [|x [|]]; try done. cbn [rd lookup list_lookup bind].
    destruct (Z.eqb_spec x NA_INTEGER) as [->|Hna]; cbn [bind].
    { intros k Hk. inversion Hk; subst. unfold NA_INTEGER, INT_MIN in *. lia. }
    destruct (Z.ltb_spec x 0); [intros k Hk; inversion Hk; subst; lia|].
    destruct (Z.ltb_spec INT_MAX x); [intros k Hk; inversion Hk; subst; unfold INT_MAX in *; lia|].
    split; [constructor; unfold NA_INTEGER, INT_MIN in *; lia|unfold INT_MAX in *; lia].
  - cbn. intros k Hk. inversion Hk.
Qed.
(** An object is cast to double first. *)
Theorem C60_short_length_object d v :
  vec_as_short_length (SArg d (Some (Some v))) = vec_as_short_length (SArg (SDbl v) None) /\
  exists e, vec_as_short_length (SArg d (Some None)) = Err e.
Proof. split; [reflexivity|eexists; reflexivity]. Qed.
(** Infinity is equal to its [floor()], and only large numbers are caught
    before the conversion. *)
Theorem C60_short_length_refuted : exists x, sdata_wf (SDbl [x]) /\ far_below (SDbl [x]) /\
  exists m, vec_as_short_length (SArg (SDbl [x]) None) = UB m.
Proof.
  exists (two63 + 2047 * two52). split; [constructor; [done|constructor]|].
  split.
  - exists (two63 + 2047 * two52), (- (2 ^ 52 * 2 ^ 2046)). split; [done|]. split; [reflexivity|].
    vm_compute. discriminate.
  - eexists. vm_compute. reflexivity.
Qed.

(** Full statement: for every argument, the size is the whole number that the
    argument stands for, and there is an error if it stands for none up to
    2^52.  It is false for doubles below -2^63, for missing doubles and for
    missing integers (C60_arg_nan_refuted, C60_arg_na_refuted). *)
Theorem C60_arg_partial d o :
  sdata_wf d -> ~ far_below d -> ~ missing_dbl d -> d <> SInt [- 2 ^ 31] ->
  match r_arg_as_ssize (SArg d o) with
  | Ok k => stands_for d k /\ k <= 2 ^ 52
  | Err _ => forall k, stands_for d k -> ~ k <= 2 ^ 52
  | UB _ => False
  end.
Proof.
  intros Hwf Hfar Hmis HNA. unfold r_arg_as_ssize. cbn [sa_data bind].
  pose proof dscale_pos as HS.
  destruct d as [v|v|].
  - destruct (Nat.eqb_spec (length v) 1) as [Hl|Hl]; cbn [negb bind].
    2: { intros k Hk. inversion Hk; subst. done. }
    destruct v as [|x [|]]; try done. cbn [rd lookup list_lookup bind].
    apply Forall_inv in Hwf. destruct (dbl_sem x) as [| |v] eqn:Es.
    1,2: destruct Hmis; exists x; auto.
    rewrite (c_dgt_int_spec _ _ _ Hwf Es).
    assert (Hst : forall k, stands_for (SDbl [x]) k -> v = k * dscale).
    { intros k Hk. apply stands_dbl_inv in Hk. congruence. }
    destruct (Z.ltb_spec (R_SSIZE_MAX * dscale) v) as [Hbig|Hbig]; cbn [bind].
    { intros k Hk Hr. apply Hst in Hk. subst v. apply Z.mul_lt_mono_pos_r in Hbig; [|done].
      unfold R_SSIZE_MAX in *. lia. }
    rewrite (int64_ok _ _ Hwf Es).
    2: { apply Z.nle_gt. intros HH. apply Hfar. exists x, v. split; [done|]. split; [done|].
         rewrite <- dscale_eq. unfold INT64_MIN in HH. lia. }
    2: { assert (R_SSIZE_MAX * dscale < (INT64_MAX + 1) * dscale) by
           (apply Z.mul_lt_mono_pos_r; [done|unfold INT64_MAX, R_SSIZE_MAX; lia]). lia. }
    cbn [bind]. rewrite (c_deq_int_spec _ _ _ Hwf Es).
    destruct (Z.eqb_spec v ((v ÷ dscale) * dscale)) as [Hw|Hw]; cbn [negb].
    + split; [constructor; apply dbl_is_eq; congruence|].
      rewrite Hw in Hbig. apply Z.mul_le_mono_pos_r in Hbig; [|done]. unfold R_SSIZE_MAX in *. lia.
    + intros k Hk Hr. apply Hst in Hk. apply Hw. rewrite Hk. by rewrite quot_exact.
  - destruct (Nat.eqb_spec (length v) 1) as [Hl|Hl]; cbn [negb bind].
    2: { intros k Hk. inversion Hk; subst. done. }
    destruct v as [|x [|]]; try done. cbn [rd lookup list_lookup].
    apply Forall_inv in Hwf. split; [constructor; congruence|]. unfold is_int, INT_MAX in *. lia.
  - intros k Hk. inversion Hk.
Qed.
(** A missing double is converted to an integer. *)
Theorem C60_arg_nan_refuted : exists x, sdata_wf (SDbl [x]) /\ missing_dbl (SDbl [x]) /\
  forall A vec_size (xs : @lst A), ls_is_list xs = true ->
    exists m, ffi_list_all_size vec_size xs (SArg (SDbl [x]) None) = UB m.
Proof.
  exists NA_REAL. split; [constructor; [done|constructor]|]. split; [exists NA_REAL; split; [done|by left]|].
  intros A vs xs Hl. unfold ffi_list_all_size. rewrite Hl. eexists. reflexivity.
Qed.
(** A missing integer is taken as a number. *)
Theorem C60_arg_na_refuted : forall A vec_size,
  @ffi_list_all_size A vec_size (Lst true [] 0) (SArg (SInt [- 2 ^ 31]) None) = Ok true.
Proof. reflexivity. Qed.

(** ** Elements *)
Section elts.
  Context {A : Type} (vec_size : A -> res Z).

  Lemma int_of_ssize_id s : is_int s -> int_of_ssize s = s.
  Proof. unfold is_int, int_of_ssize, INT_MIN, INT_MAX, two32. intros H. rewrite Z.mod_small; lia. Qed.

  Lemma fill_ok {B} (g : Z -> B) (d : B) (f : A -> res Z) (elts : list A) n : (n <= length elts)%nat ->
    forall todo pre done, take n elts = done ++ todo -> length pre = length done ->
    for_ (length pre) (length todo) (fun i out =>
      let! elt := rd elts i in let! s := f elt in wr out i (g s)) (pre ++ replicate (length todo) d) =
    (let! r := mapR f todo in Ok (pre ++ map g r)).
  Proof.
    intros Hn. induction todo as [|w todo IH]; intros pre dn Hx Hl; [by cbn; rewrite !app_nil_r|].
    cbn [length for_ mapR].
    assert (Hrd : rd elts (length pre) = Ok w).
    { apply rd_Ok. assert (Hlt : (length pre < n)%nat).
      { apply (f_equal length) in Hx. rewrite take_length, app_length in Hx. simpl in Hx. lia. }
      rewrite <- (lookup_take elts n) by done. rewrite Hx, Hl. by apply list_lookup_middle. }
    rewrite Hrd. cbn [bind]. destruct (f w) as [b|e|e]; cbn [bind]; [|reflexivity..].
    rewrite wr_Ok by (rewrite app_length; simpl; lia). cbn [bind].
    rewrite insert_app_r_alt by lia. rewrite Nat.sub_diag. cbn [replicate insert list_insert].
    specialize (IH (pre ++ [g b]) (dn ++ [w])). rewrite !app_length, <- !app_assoc in IH. cbn [app length] in IH.
    replace (length pre + 1)%nat with (S (length pre)) in IH by lia. rewrite IH.
    - destruct (mapR f todo); cbn [bind]; [|reflexivity..]. cbn [map]. by rewrite <- app_assoc.
    - done.
    - lia.
  Qed.
  Lemma list_sizes_eq x : ls_is_list x = true -> (ls_size x <= length (ls_elts x))%nat ->
    list_sizes vec_size x = (let! r := mapR vec_size (take (ls_size x) (ls_elts x)) in Ok (map int_of_ssize r)).
  Proof.
    intros Hl Hs. unfold list_sizes. rewrite Hl. cbn [negb].
    pose proof (fill_ok int_of_ssize 0 vec_size (ls_elts x) (ls_size x) Hs (take (ls_size x) (ls_elts x)) [] [] eq_refl eq_refl) as H.
    cbn [length app] in H. rewrite take_length, Nat.min_l in H by done. exact H.
  Qed.

  (** The sizes of the elements, in order, for lists without dimensions and
      proxies and elements that are no long vectors *)
  Theorem C60_list_sizes_partial elts out :
    (forall x s, x ∈ elts -> vec_size x = Ok s -> 0 <= s <= 2 ^ 31 - 1) ->
    list_sizes vec_size (Lst true elts (length elts)) = Ok out <->
    Forall2 (fun x s => vec_size x = Ok s) elts out.
  Proof.
    intros Hb. rewrite list_sizes_eq by done. cbn [ls_size ls_elts]. rewrite firstn_all.
    assert (Hid : forall r, mapR vec_size elts = Ok r -> map int_of_ssize r = r).
    { intros r Hr. apply mapR_Ok in Hr. clear - Hr Hb. induction Hr as [|x s l r Hx _ IH]; [done|].
      cbn [map]. rewrite IH by (intros; eapply Hb; [by apply elem_of_list_further|done]).
      rewrite int_of_ssize_id; [done|]. pose proof (Hb x s ltac:(by left) Hx). unfold is_int, INT_MIN, INT_MAX. lia. }
    rewrite <- mapR_Ok. destruct (mapR vec_size elts) as [r|e|e]; cbn [bind]; [rewrite (Hid r) by done|..]; split; congruence.
  Qed.

  (** All elements have the size; elements after one of another size are not
      looked at. *)
  Theorem C60_all_size xs size b :
    list_all_size vec_size xs size = Ok b <->
    if b then Forall (fun x => vec_size x = Ok size) xs
    else exists pre x post s, xs = pre ++ x :: post /\ Forall (fun x => vec_size x = Ok size) pre /\
      vec_size x = Ok s /\ s <> size.
  Proof.
    unfold list_all_size.
    assert (H : forall post pre, xs = pre ++ post ->
      for_brk (length pre) (length post) (fun i _ =>
        let! x := rd xs i in let! x_size := vec_size x in
        if negb (x_size =? size) then Ok (Break false) else Ok (Next true)) true = Ok b <->
      if b then Forall (fun x => vec_size x = Ok size) post
      else exists mid x post' s, post = mid ++ x :: post' /\ Forall (fun x => vec_size x = Ok size) mid /\
        vec_size x = Ok s /\ s <> size).
    { induction post as [|x post IH]; intros pre Hx.
      { simpl. destruct b; split; intros H; try done. destruct H as (mid & ? & ? & ? & E & _). by destruct mid. }
      cbn [length for_brk].
      assert (Hrd : rd xs (length pre) = Ok x) by (apply rd_Ok; rewrite Hx; by apply list_lookup_middle).
      rewrite Hrd. cbn [bind]. specialize (IH (pre ++ [x])). rewrite app_length in IH. cbn [length] in IH.
      replace (length pre + 1)%nat with (S (length pre)) in IH by lia.
      destruct (vec_size x) as [s|e|e] eqn:Es; cbn [bind].
      - destruct (Z.eqb_spec s size) as [->|Hne]; cbn [negb bind].
        + rewrite IH by (rewrite Hx, <- app_assoc; done). destruct b.
          * split; [by constructor|by inversion 1].
          * split.
            -- intros (mid & y & post' & s & -> & HF & H1 & H2). exists (x :: mid), y, post', s. split; [done|].
               split; [by constructor|done].
            -- intros ([|z mid] & y & post' & s & E & HF & H1 & H2).
               ++ simplify_eq/=. congruence.
               ++ simplify_eq/=. inversion HF; subst. exists mid, y, post', s. done.
        + destruct b; split; try done.
          * intros HF. inversion HF; subst. congruence.
          * intros _. exists [], x, post, s. done.
      - split; [done|]. destruct b; [inversion 1; congruence|].
        intros ([|z mid] & y & post' & s & E & HF & H1 & H2); simplify_eq/=; [congruence|]. inversion HF; congruence.
      - split; [done|]. destruct b; [inversion 1; congruence|].
        intros ([|z mid] & y & post' & s & E & HF & H1 & H2); simplify_eq/=; [congruence|]. inversion HF; congruence. }
    apply (H xs []). done.
  Qed.
  Lemma all_loop (P : A -> res unit) (xs : list A) :
    (exists u, for_ 0 (length xs) (fun i _ => let! x := rd xs i in P x) tt = Ok u) <-> Forall (fun x => exists u, P x = Ok u) xs.
  Proof.
    assert (H : forall post pre, xs = pre ++ post ->
      (exists u, for_ (length pre) (length post) (fun i _ => let! x := rd xs i in P x) tt = Ok u) <-> Forall (fun x => exists u, P x = Ok u) post).
    { induction post as [|x post IH]; intros pre Hx; [simpl; split; eauto|].
      cbn [length for_].
      assert (Hrd : rd xs (length pre) = Ok x) by (apply rd_Ok; rewrite Hx; by apply list_lookup_middle).
      rewrite Hrd. cbn [bind]. specialize (IH (pre ++ [x])). rewrite app_length in IH. cbn [length] in IH.
      replace (length pre + 1)%nat with (S (length pre)) in IH by lia.
      destruct (P x) as [[]|e|e] eqn:Es; cbn [bind].
      - rewrite IH by (rewrite Hx, <- app_assoc; done). split; [intros; constructor; eauto|by inversion 1].
      - split; [by intros []|]. inversion 1 as [|? ? [u Hu]]. congruence.
      - split; [by intros []|]. inversion 1 as [|? ? [u Hu]]. congruence. }
    apply (H xs []). done.
  Qed.
  (** The check passes exactly if all elements have the size. *)
  Theorem C60_check_all_size xs size :
    (exists u, list_check_all_size vec_size xs size = Ok u) <-> Forall (fun x => vec_size x = Ok size) xs.
  Proof.
    unfold list_check_all_size. rewrite all_loop. apply Forall_iff. intros x. unfold vec_check_size.
    destruct (vec_size x) as [s| |]; cbn [bind]; [|by split; [intros []|]..].
    destruct (Z.eqb_spec s size) as [->|]; cbn [negb]; split; [done|eauto|by intros []|congruence].
  Qed.
  (** The same for being vectors *)
  Theorem C60_all_vectors (obj_is_vector : A -> bool) xs :
    (exists b, list_all_vectors obj_is_vector xs = Ok b /\ (b = true <-> Forall (fun x => obj_is_vector x = true) xs)) /\
    ((exists u, list_check_all_vectors obj_is_vector xs = Ok u) <-> Forall (fun x => obj_is_vector x = true) xs).
  Proof.
    split.
    - unfold list_all_vectors.
      assert (H : forall post pre, xs = pre ++ post -> exists b,
        for_brk (length pre) (length post) (fun i _ =>
          let! x := rd xs i in if negb (obj_is_vector x) then Ok (Break false) else Ok (Next true)) true = Ok b /\
        (b = true <-> Forall (fun x => obj_is_vector x = true) post)).
      { induction post as [|x post IH]; intros pre Hx; [exists true; by split|].
        cbn [length for_brk].
        assert (Hrd : rd xs (length pre) = Ok x) by (apply rd_Ok; rewrite Hx; by apply list_lookup_middle).
        rewrite Hrd. cbn [bind]. specialize (IH (pre ++ [x])). rewrite app_length in IH. cbn [length] in IH.
        replace (length pre + 1)%nat with (S (length pre)) in IH by lia.
        destruct (obj_is_vector x) eqn:Ev; cbn [negb].
        - destruct IH as (b & E & Hb); [by rewrite Hx, <- app_assoc|]. exists b. split; [done|]. rewrite Hb.
          split; [by constructor|by inversion 1].
        - exists false. split; [done|]. split; [done|]. inversion 1; congruence. }
      apply (H xs []). done.
    - unfold list_check_all_vectors. rewrite all_loop. apply Forall_iff. intros x.
      destruct (obj_is_vector x); [split; eauto|]. split; [intros [u Hu]|]; discriminate.
  Qed.

  Fixpoint lead (sizes : list Z) : nat :=
    match sizes with [] => 0 | s :: r => if s =? 0 then 0 else S (lead r) end.
  Lemma lead_spec sizes : (lead sizes <= length sizes)%nat /\
    map (fun s => negb (s =? 0)) (take (lead sizes) sizes) = replicate (lead sizes) true /\
    (lead sizes = length sizes <-> forallb (fun s => negb (s =? 0)) sizes = true) /\
    (forall s, sizes !! lead sizes = Some s -> s = 0).
  Proof.
    induction sizes as [|s r (H1 & H2 & H3 & H4)]; [done|]. simpl. destruct (Z.eqb_spec s 0) as [->|Hs]; simpl.
    - split; [lia|]. split; [done|]. split; [done|]. intros s [= <-]. done.
    - split; [lia|]. split; [apply Z.eqb_neq in Hs; by rewrite ?Hs, H2|]. apply Z.eqb_neq in Hs. rewrite ?Hs. split; [|done].
      rewrite <- H3. split; intros; [lia|congruence].
  Qed.
  Lemma first_ok elts : forall post ps pre, elts = pre ++ post ->
    Forall2 (fun x s => vec_size x = Ok s) post ps ->
    for_brk (length pre) (length post) (fun i _ =>
      let! elt := rd elts i in let! s := vec_size elt in
      if s =? 0 then Ok (Break i) else Ok (Next (S i))) (length pre) = Ok (length pre + lead ps)%nat.
  Proof.
    induction post as [|x post IH]; intros ps pre Hx HF; inversion HF as [|? s ? ps' Hs HF']; subst.
    { cbn. f_equal. lia. }
    cbn [length for_brk]. unfold rd at 1. rewrite list_lookup_middle by done. cbn [bind]. rewrite Hs. cbn [bind lead].
    destruct (Z.eqb_spec s 0); cbn [bind]; [f_equal; lia|].
    specialize (IH ps' (pre ++ [x])). rewrite app_length, <- app_assoc in IH. cbn [length app] in IH.
    replace (length pre + 1)%nat with (S (length pre)) in IH by lia. rewrite IH by done. f_equal. lia.
  Qed.
  (** The elements of size other than 0 are kept, if all elements are vectors
      and the list has no dimensions and no proxy. *)
  Theorem C60_drop_empty_partial elts sizes :
    Forall2 (fun x s => vec_size x = Ok s) elts sizes ->
    list_drop_empty vec_size (Lst true elts (length elts)) =
      Ok (if forallb (fun s => negb (s =? 0)) sizes then None else Some (map (fun s => negb (s =? 0)) sizes)).
  Proof.
    intros HF. unfold list_drop_empty. cbn [ls_is_list negb ls_size ls_elts].
    pose proof (Forall2_length _ _ _ HF) as Hlen.
    pose proof (first_ok elts elts sizes [] eq_refl HF) as E1. cbn [length Nat.add] in E1. rewrite E1. cbn [bind]. clear E1.
    destruct (lead_spec sizes) as (H1 & H2 & H3 & H4). set (i := lead sizes) in *.
    destruct (Nat.eqb_spec i (length elts)) as [Hi|Hi].
    { destruct H3 as [H3 _]. rewrite H3 by lia. done. }
    assert (Hfb : forallb (fun s => negb (s =? 0)) sizes = false).
    { destruct (forallb _ sizes) eqn:E; [|done]. exfalso. apply Hi. rewrite Hlen. by apply H3. }
    rewrite Hfb. set (n := length elts) in *.
    destruct (for_inv (fun k keep => keep = replicate k true ++ replicate (n - k) false) 0 i
      (fun j keep => wr keep j true) (replicate n false)) as (keep & E2 & Hk).
    { by rewrite Nat.sub_0_r. }
    { intros k keep Hk ->. rewrite wr_Ok by (rewrite app_length, !replicate_length; lia). eexists. split; [done|].
      rewrite (replicate_S_end k true), <- app_assoc.
      rewrite insert_app_r_alt by (rewrite replicate_length; lia). rewrite replicate_length, Nat.sub_diag.
      replace (n - k)%nat with (S (n - S k)) by lia. cbn [replicate insert list_insert].
      done. }
    cbn [Nat.add] in Hk. rewrite E2. cbn [bind]. subst keep.
    rewrite wr_Ok by (rewrite app_length, !replicate_length; lia). cbn [bind].
    rewrite insert_app_r_alt by (rewrite replicate_length; lia). rewrite replicate_length, Nat.sub_diag.
    replace (n - i)%nat with (S (n - S i)) by lia. cbn [replicate insert list_insert].
    pose proof (fill_ok (fun s => negb (s =? 0)) false vec_size elts n ltac:(lia) (drop (S i) elts)
      (replicate i true ++ [false]) (take (S i) elts)) as E3.
    rewrite app_length, replicate_length in E3. cbn [length] in E3.
    replace (i + 1)%nat with (S i) in E3 by lia. rewrite drop_length in E3. fold n in E3.
    rewrite <- app_assoc in E3. cbn [app] in E3. rewrite E3.
    - assert (HM : mapR vec_size (drop (S i) elts) = Ok (drop (S i) sizes)) by (apply mapR_Ok; by apply Forall2_drop).
      rewrite HM. cbn [bind]. do 2 f_equal. rewrite <- app_assoc. cbn [app].
      destruct (lookup_lt_is_Some_2 sizes i ltac:(lia)) as [s Hs]. pose proof (H4 _ Hs) as ->.
      rewrite <- (take_drop_middle sizes i 0 Hs) at 2. rewrite map_app, H2. done.
    - unfold n. rewrite firstn_all. by rewrite take_drop.
    - rewrite take_length. lia.
  Qed.
End elts.

(** A long vector as an element *)
Theorem C60_list_sizes_long_refuted : exists (elts : list Z) out,
  list_sizes Ok (Lst true elts (length elts)) = Ok out /\ ~ Forall2 (fun x s => Ok x = Ok s) elts out.
Proof.
  exists [2 ^ 31], [- 2 ^ 31]. split; [reflexivity|]. intros H. apply Forall2_cons_1 in H as [[= E] _].
Qed.
(** A list with 2 rows and 2 columns: only the elements of the first column
    count. *)
Theorem C60_dim_refuted : exists (elts : list Z) n,
  list_sizes Ok (Lst true elts n) = Ok [1; 1] /\ list_all_size Ok elts 1 = Ok false /\
  list_drop_empty Ok (Lst true elts n) = Ok None /\ 0 ∈ elts.
Proof. exists [1; 1; 0; 5], 2%nat. split; [reflexivity|]. split; [reflexivity|]. split; [reflexivity|]. apply elem_of_list_lookup. by exists 2%nat. Qed.
(** A list whose proxy has more rows than it has elements: the loop reads past
    the elements. *)
Theorem C60_proxy_refuted : exists (elts : list Z) n m,
  list_sizes Ok (Lst true elts n) = UB m.
Proof. exists [1], 2%nat. eexists. reflexivity. Qed.

(** ** Examples *)
Definition ex_size (x : Z) : res Z := if x <? 0 then Err "scalar" else Ok x.
Example C60_example_dbl :
  sdata_wf (SDbl [dbl_of_int 3]) /\ ~ far_below (SDbl [dbl_of_int 3]) /\ ~ missing_dbl (SDbl [dbl_of_int 3]) /\
  vec_as_short_length (SArg (SDbl [dbl_of_int 3]) None) = Ok 3 /\ r_arg_as_ssize (SArg (SDbl [dbl_of_int (-3)]) None) = Ok (-3).
Proof.
  destruct (dbl_of_int_spec 3) as [Hwf Hs]; [done|].
  split; [by constructor|]. split.
  { intros (x & v & [= <-] & E & Hv). rewrite Hs in E. injection E as <-. rewrite <- dscale_eq in Hv.
    pose proof dscale_pos. apply Z.mul_le_mono_pos_r in Hv; [lia|done]. }
  split; [intros (x & [= <-] & [E|E]); rewrite Hs in E; done|].
  split; vm_compute; reflexivity.
Qed.
Example C60_example_sizes : list_sizes ex_size (Lst true [2; 0; 7] 3) = Ok [2; 0; 7] /\
  list_sizes ex_size (Lst true [2; -1; 7] 3) = Err "scalar".
Proof. split; reflexivity. Qed.
Example C60_example_all : list_all_size ex_size [2; 2; 3; -1] 2 = Ok false /\
  list_all_size ex_size [2; -1; 3] 2 = Err "scalar" /\ list_all_size ex_size [2; 2] 2 = Ok true /\
  list_check_all_size ex_size [2; 2] 2 = Ok tt.
Proof. repeat split; reflexivity. Qed.
Example C60_example_vectors : list_all_vectors (fun x => 0 <=? x) [2; -1; 7] = Ok false.
Proof. reflexivity. Qed.
Example C60_example_drop : Forall2 (fun x s => ex_size x = Ok s) [2; 0; 7; 0] [2; 0; 7; 0] /\
  list_drop_empty ex_size (Lst true [2; 0; 7; 0] 4) = Ok (Some [true; false; true; false]).
Proof. split; [repeat constructor|reflexivity]. Qed.

Print Assumptions C60_short_length_partial.
Print Assumptions C60_short_length_object.
Print Assumptions C60_short_length_refuted.
Print Assumptions C60_arg_partial.
Print Assumptions C60_arg_nan_refuted.
Print Assumptions C60_arg_na_refuted.
Print Assumptions C60_list_sizes_partial.
Print Assumptions C60_list_sizes_long_refuted.
Print Assumptions C60_dim_refuted.
Print Assumptions C60_proxy_refuted.
Print Assumptions C60_all_size.
Print Assumptions C60_check_all_size.
Print Assumptions C60_all_vectors.
Print Assumptions C60_drop_empty_partial.
