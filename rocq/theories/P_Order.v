(** * C27: ordering *)
From Verif Require Import Base M_Double M_Scalar M_Order M_OrderChr M_OrderDf Spec_Order Spec_OrderRow L_Dbl L_OrderSpec
  L_OrderSort L_OrderIns L_OrderScatter L_OrderRadix L_OrderCount L_OrderKeys L_OrderEntry L_OrderGroups L_OrderChr L_OrderTl
  L_OrderDf.
From Coq Require Import Sorting.Sorted.
#[local] Arguments Z.mul : simpl never.
#[local] Arguments Z.add : simpl never.
#[local] Arguments Z.sub : simpl never.
#[local] Arguments Z.to_nat : simpl never.

(** ** What the arguments mean *)
(** The columns of the ordering proxy. *)
Definition proxy_cols (p : oproxy) : list ocol := match p with OVec c => [c] | ODf cols _ => cols end.

(** A flag for each column of the proxy: a single flag is for all columns;
    otherwise there is one for each column of the data frame [x], and it is
    for all the columns which that column takes in the proxy. *)
Definition flags_of (x : ox) (ncols : nat) (v : list bool) : list bool :=
  match x, v with
  | _, [b] => replicate ncols b
  | XVec, _ => []
  | XDf e, _ => concat (zip_with (fun b k => replicate k b) v e)
  end.
(** The lengths of flags that are accepted. *)
Definition flags_valid (x : ox) (v : list bool) : Prop :=
  length v = 1 \/ match x with XVec => False | XDf e => length v = length e end.

#[local] Instance flags_valid_dec x v : Decision (flags_valid x v).
Proof. unfold flags_valid. destruct x; apply _. Defined.

(** How rows compare under the given arguments. *)
Definition order_vcmp (x : ox) (p : oproxy) (decreasing na_largest : list bool) (nan_distinct : bool) : Z -> Z -> comparison :=
  let cols := proxy_cols p in
  rows_vcmp nan_distinct
    (zip cols (zip (flags_of x (length cols) decreasing) (flags_of x (length cols) na_largest))).

(** Well-formed input: columns of the same size (a size R can represent), a
    data frame [x] has the columns that the proxy has after flattening; no
    [CHARSXP] has a negative truelength. *)
Definition order_input (x : ox) (p : oproxy) (tls : truelengths) : Prop :=
  Forall (col_ok (oproxy_size p)) (proxy_cols p) /\ (Z.of_nat (oproxy_size p) <= INT_MAX)%Z /\
  match x with XVec => True | XDf e => length (proxy_cols p) = sum_list e end /\
  (forall s, 0 <= tls s)%Z.

(** ** Flags *)
Lemma flags_concat_length (v : list bool) (e : list nat) : length v = length e ->
  length (concat (zip_with (fun b k => replicate k b) v e)) = sum_list e.
Proof.
  revert e. induction v as [|b v IH]; intros [|k e] H; simpl in *; try done.
  rewrite app_length, replicate_length, IH; [done|lia].
Qed.
Lemma flag_nth v ncols b j : (length v = 1 -> v = [b]) -> length v = 1 \/ length v = ncols -> j < ncols ->
  flag v j = nth j (if length v =? 1 then replicate ncols b else v) false.
Proof.
  intros Hb Hl Hj. unfold flag. destruct (Nat.eqb_spec (length v) 1) as [E|E]; [|done].
  rewrite (Hb E). cbn. by rewrite nth_replicate_lt || (symmetry; rewrite nth_lookup, lookup_replicate_2; done).
Qed.

(** the flags that the C code computes: all of length one or one per column *)
Definition full (ncols : nat) (v : list bool) : list bool := match v with [b] => replicate ncols b | _ => v end.

Lemma flags_full x ncols v : flags_valid x v -> match x with XVec => True | XDf e => ncols = sum_list e end ->
  match x with XVec => length v = 1 | XDf _ => True end ->
  length (flags_of x ncols v) = ncols.
Proof.
  intros Hv He Hx. unfold flags_of, flags_valid in *.
  assert (HH : match x with XVec => False | XDf e => length v = length e end -> v = [] \/ 2 <= length v ->
    length (match x with XVec => [] | XDf e => concat (zip_with (fun b k => replicate k b) v e) end) = ncols).
  { destruct x as [|e]; [done|]. intros Hl _. by rewrite flags_concat_length. }
  destruct v as [|b [|b' v]]; simpl in *.
  - destruct x as [|e]; [lia|]. apply HH; [lia|by left].
  - destruct x; by rewrite replicate_length.
  - destruct x as [|e]; [lia|]. apply HH; [lia|right; lia].
Qed.

Lemma expand_arg_full (v : list bool) (e : list nat) : length v = 1 \/ length v = length e ->
  (length (expand_arg v e) = 1 \/ length (expand_arg v e) = sum_list e) /\
  full (sum_list e) (expand_arg v e) = flags_of (XDf e) (sum_list e) v.
Proof.
  intros Hv. unfold expand_arg. destruct (Nat.eqb_spec (length v) 1) as [E|E].
  - destruct v as [|b [|b' v]]; simpl in *; try lia. auto.
  - assert (Hl : length v = length e) by lia. pose proof (flags_concat_length v e Hl) as HL. split; [by right|].
    assert (flags_of (XDf e) (sum_list e) v = concat (zip_with (fun b k => replicate k b) v e)) as ->.
    { destruct v as [|b [|b' v]]; try done. }
    unfold full. destruct (concat (zip_with (fun b k => replicate k b) v e)) as [|b [|b' w]] eqn:Ec; try done.
    simpl in HL. by rewrite <- HL.
Qed.

Lemma all_ones e : forallb (fun k => k =? 1) e = true -> e = replicate (length e) 1.
Proof.
  induction e as [|k e IH]; simpl; [done|]. intros [H1 H2]%andb_prop. apply Nat.eqb_eq in H1 as ->. by rewrite <- IH.
Qed.
Lemma zip_ones (v : list bool) : concat (zip_with (fun b k => replicate k b) v (replicate (length v) 1)) = v.
Proof. induction v; simpl; [done|]. by f_equal. Qed.
Lemma sum_ones k : sum_list (replicate k 1) = k.
Proof. induction k; simpl; [done|]. by rewrite IHk. Qed.

(** after expansion and recycling *)
Lemma flags_spec x p (d l : list bool) : flags_valid x d -> flags_valid x l ->
  match x with XVec => True | XDf e => length (proxy_cols p) = sum_list e end ->
  exists d' l' d'' l'', vec_order_expand_args x d l = Ok (d', l') /\ recycle_flags d' l' = Ok (d'', l'') /\
    length d'' = length l'' /\ (length d'' = 1 \/ length d'' = length (proxy_cols p)) /\
    full (length (proxy_cols p)) d'' = flags_of x (length (proxy_cols p)) d /\
    full (length (proxy_cols p)) l'' = flags_of x (length (proxy_cols p)) l.
Proof.
  intros Hd Hl Hx. set (N := length (proxy_cols p)) in *.
  assert (Hrec : forall d' l', length d' = 1 \/ length d' = N -> length l' = 1 \/ length l' = N ->
    exists d'' l'', recycle_flags d' l' = Ok (d'', l'') /\ length d'' = length l'' /\
      (length d'' = 1 \/ length d'' = N) /\ full N d'' = full N d' /\ full N l'' = full N l').
  { intros d' l' H1 H2. unfold recycle_flags. destruct (Nat.eqb_spec (length d') (length l')) as [E|E].
    { exists d', l'. done. }
    destruct (Nat.eqb_spec (length d') 1) as [E1|E1].
    - destruct d' as [|b [|]]; simpl in E1; try lia. cbn [rd lookup bind]. simpl in E.
      exists (replicate (length l') b), l'. split; [done|]. rewrite replicate_length. split; [done|].
      split; [done|]. split; [|done]. cbn [full]. destruct H2 as [H2|H2]; [lia|]. rewrite H2.
      destruct N as [|[|k]]; done.
    - destruct (Nat.eqb_spec (length l') 1) as [E2|E2]; [|lia].
      destruct l' as [|b [|]]; simpl in E2; try lia. cbn [rd lookup bind].
      exists d', (replicate (length d') b). split; [done|]. rewrite replicate_length. split; [done|].
      split; [lia|]. split; [done|]. cbn [full]. destruct H1 as [H1|H1]; [lia|]. rewrite H1.
      destruct N as [|[|k]]; done. }
  assert (Hex : exists d' l', vec_order_expand_args x d l = Ok (d', l') /\
    (length d' = 1 \/ length d' = N) /\ (length l' = 1 \/ length l' = N) /\
    full N d' = flags_of x N d /\ full N l' = flags_of x N l).
  { destruct x as [|e]; unfold flags_valid in Hd, Hl.
    - destruct Hd as [Hd|[]], Hl as [Hl|[]]. cbn [vec_order_expand_args]. rewrite Hd, Hl. cbn. exists d, l.
      split; [done|]. split; [by left|]. split; [by left|].
      destruct d as [|b [|]]; simpl in Hd; try lia. destruct l as [|b' [|]]; simpl in Hl; try lia. done.
    - cbn [vec_order_expand_args].
      assert (Hone : forall v : list bool, length v = 1 -> full N v = flags_of (XDf e) N v).
      { intros [|b [|]] Hv; simpl in Hv; try lia. done. }
      destruct ((length d =? 1) && (length l =? 1)) eqn:E12.
      { apply andb_prop in E12 as [E1 E2]. apply Nat.eqb_eq in E1, E2. exists d, l. auto 10. }
      assert (Hchk : forall v : list bool, length v = 1 \/ length v = length e ->
                negb (length v =? 1) && negb (length v =? length e) = false).
      { intros v [-> | ->]; [done|]. rewrite Nat.eqb_refl. by rewrite andb_false_r. }
      rewrite (Hchk d Hd), (Hchk l Hl).
      destruct (forallb (fun k => k =? 1) e) eqn:Eall.
      + pose proof (all_ones e Eall) as He. assert (HN : N = length e) by (rewrite Hx, He at 1; by rewrite sum_ones).
        assert (Hfull : forall v : list bool, length v = 1 \/ length v = length e -> full N v = flags_of (XDf e) N v).
        { intros v [Hv|Hv]; [by apply Hone|]. destruct v as [|b [|b' v]]; [done|done|].
          cbn [full flags_of]. rewrite He, <- Hv. symmetry. apply zip_ones. }
        exists d, l. split; [done|]. rewrite HN in *. auto 10.
      + eexists _, _. split; [reflexivity|]. rewrite Hx.
        destruct (expand_arg_full d e Hd) as [A1 A2], (expand_arg_full l e Hl) as [B1 B2]. auto. }
  destruct Hex as (d' & l' & E & H1 & H2 & H3 & H4). destruct (Hrec d' l' H1 H2) as (d'' & l'' & E' & H5 & H6 & H7 & H8).
  exists d', l', d'', l''. rewrite H7, H8. done.
Qed.

Lemma flags_invalid x (d l : list bool) : ~ (flags_valid x d /\ flags_valid x l) ->
  exists e, vec_order_expand_args x d l = Err e.
Proof.
  intros H. unfold flags_valid in H. destruct x as [|e]; cbn [vec_order_expand_args].
  - destruct (Nat.eqb_spec (length d) 1); cbn; [|eauto]. destruct (Nat.eqb_spec (length l) 1); cbn; [|eauto].
    exfalso. apply H. auto.
  - destruct (Nat.eqb_spec (length d) 1), (Nat.eqb_spec (length l) 1), (Nat.eqb_spec (length d) (length e)),
      (Nat.eqb_spec (length l) (length e)); cbn; eauto; exfalso; apply H; auto.
Qed.

(** [na_last] and the comparison *)
Lemma na_last_flag (d l : list bool) j : length d = length l -> j < length d ->
  nth j (vec_order_compute_na_last l d) false = xorb (nth j d false) (nth j l false).
Proof.
  unfold vec_order_compute_na_last. revert l j. induction d as [|a d IH]; intros [|b l] j H Hj; simpl in *; try lia.
  destruct j as [|j]; [by destruct a, b|]. apply IH; lia.
Qed.
Lemma na_last_length (d l : list bool) : length d = length l -> length (vec_order_compute_na_last l d) = length d.
Proof.
  unfold vec_order_compute_na_last. revert l. induction d as [|a d IH]; intros [|b l] H; simpl in *; try lia.
  f_equal. apply IH. lia.
Qed.
Lemma full_nth N v j : length v = 1 \/ length v = N -> j < N -> nth j (full N v) false = flag v j.
Proof.
  intros Hv Hj. unfold flag, full. destruct v as [|b [|b' v]]; simpl in *.
  - done.
  - apply nth_lookup_Some. by apply lookup_replicate_2.
  - done.
Qed.

Lemma rows_prefix_aux nd cols (D L : list bool) pd pl :
  length D = length cols -> length L = length cols -> forall k, k <= length cols ->
  (forall j, j < length cols -> flag pd j = nth j D false /\ xorb (flag pd j) (flag pl j) = nth j L false) ->
  forall a b, kprefix nd cols pd pl k a b = rows_vcmp nd (take k (zip cols (zip D L))) a b.
Proof.
  intros HD HL k Hk Hf a b. induction k as [|k IH]; [done|]. cbn [kprefix]. rewrite IH by lia.
  destruct (lookup_lt_is_Some_2 cols k) as [c Hc]; [lia|].
  destruct (lookup_lt_is_Some_2 D k) as [d Hd]; [lia|].
  destruct (lookup_lt_is_Some_2 L k) as [l Hl]; [lia|].
  assert (Hz : zip cols (zip D L) !! k = Some (c, (d, l))).
  { rewrite lookup_zip_with, Hc. cbn. by rewrite lookup_zip_with, Hd, Hl. }
  rewrite (take_S_r _ _ _ Hz).
  assert (Hsnoc : forall l0 e f g, rows_vcmp nd (l0 ++ [(e, (f, g))]) a b =
            cmp_then (rows_vcmp nd l0 a b) (dir f (col_vcmp g nd e a b))).
  { intros l0 e f g. induction l0 as [|[c0 [f0 g0]] l0 IH0]; simpl.
    - by destruct (dir f _).
    - rewrite IH0. by destruct (dir f0 _). }
  rewrite Hsnoc. f_equal. unfold kcol. rewrite Hc. destruct (Hf k) as [E1 E2]; [lia|].
  rewrite E2, E1. by rewrite (nth_lookup_Some _ _ _ _ Hd), (nth_lookup_Some _ _ _ _ Hl).
Qed.

(** ** What the internal functions compute, in terms of the arguments *)
Lemma col_counts_le cols m0 : m0 <= fold_left (fun m c => if m <? col_n_counts c then col_n_counts c else m) cols m0 /\
  Forall (fun c => col_n_counts c <= fold_left (fun m c => if m <? col_n_counts c then col_n_counts c else m) cols m0) cols.
Proof.
  revert m0. induction cols as [|c cols IH]; intros m0; simpl; [done|].
  set (m1 := if m0 <? col_n_counts c then col_n_counts c else m0).
  destruct (IH m1) as [H1 H2].
  assert (m0 <= m1 /\ col_n_counts c <= m1) as [? ?].
  { subst m1. destruct (Nat.ltb_spec m0 (col_n_counts c)); lia. }
  split; [lia|]. constructor; [lia|done].
Qed.
Lemma proxy_counts p : Forall (fun c => col_n_counts c <= vec_compute_n_bytes_lazy_counts p) (proxy_cols p).
Proof. destruct p as [c|cols n]; cbn; [by repeat constructor|]. apply col_counts_le. Qed.

Lemma fresh_work_gen n np L : (INT_ORDER_COUNTING_RANGE_BOUNDARY < Z.of_nat L)%Z ->
  wok n np (Work (RMem (replicate n 0%Z) (replicate n 0%Z) (replicate n 0%Z) (replicate (UINT8_MAX_SIZE * np) 0)) (replicate L 0)).
Proof.
  intros HL. split; [split; [|split]; cbn [rm_x_aux rm_o_aux rm_bytes w_radix]; by rewrite replicate_length|].
  split; [cbn [rm_counts w_radix]; by rewrite replicate_length|]. by exists L.
Qed.
Lemma fresh_work n np : wok n np (Work (RMem (replicate n 0%Z) (replicate n 0%Z) (replicate n 0%Z) (replicate (UINT8_MAX_SIZE * np) 0))
  (replicate (Z.to_nat (INT_ORDER_COUNTING_RANGE_BOUNDARY + 1)) 0)).
Proof. apply fresh_work_gen. rewrite Z2Nat.id; unfold INT_ORDER_COUNTING_RANGE_BOUNDARY; lia. Qed.
Lemma fresh_groups n f i : (Z.of_nat n <= INT_MAX)%Z -> gwf (new_group_infos n f i) /\ gsizes (new_group_infos n f i) = [].
Proof. intros H. split; [|done]. split; [split; cbn; lia|]. split; [split; cbn; lia|done]. Qed.

(** the result of ordering, before the group sizes are read *)
Definition good (nd : bool) (cols : list ocol) (pd pl : list bool) (n : nat) (tls : truelengths) (gs : bool)
    (r : order * work * group_infos * truelengths * tl_info) : Prop :=
  let '(o, _, g, tls', _) := r in
  exists bs, og (kprefix nd cols pd pl (length cols)) (locs n) bs /\ or_data o = concat bs /\ gwf g /\
    (gs = true -> gsizes g = map length bs) /\ (forall s, tls' s = tls s).

Lemma kprefix1 nd c d l a b : kprefix nd [c] [d] [l] 1 a b = dir d (col_vcmp (xorb d l) nd c a b).
Proof. reflexivity. Qed.

Lemma one_flag (v : list bool) : length v = 1 -> exists b, v = [b].
Proof. destruct v as [|b [|b' v]]; simpl; intros; try lia. eauto. Qed.

Lemma flag_rd0 (v : list bool) N : length v = 1 \/ length v = S N -> rd v 0 = Ok (flag v 0).
Proof.
  intros Hv. apply rd_Ok. unfold flag. destruct v as [|b v]; simpl in *; [lia|]. by destruct (_ =? _).
Qed.

Section switch.
  Context (p : oproxy) (nd : bool) (tls : truelengths) (pd pl : list bool) (gs : bool).
  Let n := oproxy_size p.
  Let cols := proxy_cols p.
  Let np := vec_compute_n_bytes_lazy_counts p.
  Hypothesis Hcols : Forall (col_ok (oproxy_size p)) (proxy_cols p).
  Hypothesis HN : (Z.of_nat (oproxy_size p) <= INT_MAX)%Z.
  Hypothesis Htls : forall s, (0 <= tls s)%Z.
  Hypothesis Hpd : length pd = 1 \/ length pd = length (proxy_cols p).
  Hypothesis Hpl : length pl = 1 \/ length pl = length (proxy_cols p).
  Context (w0 : work).
  Hypothesis Hw0 : wok (oproxy_size p) (vec_compute_n_bytes_lazy_counts p) w0.
  Let ign := if gs then false else match p with ODf _ _ => false | OVec _ => true end.
  Let run fuel := vec_order_switch fuel p pd pl nd (new_order n) w0 (new_group_infos n gs ign) tls (new_truelength_info n).

  Lemma cols_both : Forall (fun c => col_ok n c /\ col_n_counts c <= np) cols.
  Proof.
    apply Forall_forall. intros c Hc. split; [by apply (proj1 (Forall_forall _ _) Hcols)|].
    by apply (proj1 (Forall_forall _ _) (proxy_counts p)).
  Qed.

  Lemma df_first c0 cs : p = ODf (c0 :: cs) (oproxy_size p) ->
    exists s bs, vec_order_base_switch c0 (flag pd 0) (flag pl 0) nd (new_order n) w0 (new_group_infos n gs ign) tls (new_truelength_info n)
      = Ok (ds_o s, ds_w s, ds_g s, ds_tls s, ds_ti s) /\ ds_i s = 1%Z /\ ds_rerun s = false /\
      ds_decreasing s = flag pd 0 /\ ds_na_last s = flag pl 0 /\ dinv n np nd cols pd pl tls gs s 1 false bs.
  Proof.
    intros Hp. assert (Hcs : cols = c0 :: cs) by (unfold cols; rewrite Hp; done).
    pose proof cols_both as Hb. rewrite Hcs in Hb. apply Forall_cons in Hb as [[Hc1 Hc2] _].
    destruct (fresh_groups n gs ign HN) as [Wg Sg]. destruct (new_truelength_wf n) as [Wt Ct].
    destruct (base_switch_spec n np nd HN c0 (flag pd 0) (flag pl 0) (new_order n) w0 (new_group_infos n gs ign) tls (new_truelength_info n))
      as (bs & w' & g' & tls' & ti' & E & Hog & Hg & Hw & Ht & Wt' & Ct'); try done.
    { cbn. by rewrite replicate_length. }
    exists (DfState 1 false (flag pd 0) (flag pl 0) (Order (concat bs) true) w' g' tls' ti'), bs.
    split; [done|]. do 4 (split; [done|]).
    assert (Hign0 : ign = false). { subst ign. rewrite Hp. by destruct gs. }
    destruct Hg as [G1 G2 G3 G4 G5]. constructor; cbn; try done.
    - rewrite Hcs. simpl. split; [done|]. split; [done|]. lia.
    - eapply og_cmp_ext; [|exact Hog]. intros a b _ _. cbn. unfold kcol. rewrite Hcs. done.
    - rewrite G3. done.
    - intros _. rewrite G1. done.
    - intros _. rewrite G5; done.
  Qed.

  Lemma df_zero c : p = ODf [] (oproxy_size p) -> exists r, df_order [] pd pl nd c (new_order n) w0 (new_group_infos n gs ign) tls (new_truelength_info n) = Ok r /\
    good nd [] pd pl n tls gs r.
  Proof.
    intros Hp. unfold df_order, df_order_internal. cbn [length].
    assert (H1 : negb (length pd =? 1) && negb (length pd =? 0) = false).
    { rewrite Hp in Hpd. destruct Hpd as [-> | ->]; done. }
    assert (H2 : negb (length pl =? 1) && negb (length pl =? 0) = false).
    { rewrite Hp in Hpl. destruct Hpl as [-> | ->]; done. }
    rewrite H1, H2. cbn [Nat.eqb]. rewrite init_order_spec by done. cbn [bind or_data new_order]. rewrite replicate_length.
    destruct (fresh_groups n gs ign HN) as [Wg Sg].
    destruct (Nat.eqb_spec n 0) as [En|En]; cbn [negb].
    - cbn [bind]. eexists. split; [reflexivity|]. exists []. rewrite En. split; [apply og_nil|]. split; [done|]. split; [done|].
      split; [done|]. done.
    - destruct (maybe_push_spec n (new_group_infos n gs ign) Wg) as (g' & E & Hp'); [lia|intros _; cbn; lia|].
      rewrite E. cbn [bind]. eexists. split; [reflexivity|]. exists [locs n]. split.
      { apply og_single; [|apply locs_inc|done]. intros E0. apply (f_equal length) in E0. rewrite locs_length in E0. simpl in E0. lia. }
      split; [by rewrite concat_cons, app_nil_r|]. split; [apply Hp'|]. split; [|done].
      intros ->. rewrite (pu_sizes _ _ _ Hp'). cbn. by rewrite locs_length.
  Qed.

  Lemma df_ends cs0 s' bs' : cols = cs0 -> dend n nd cs0 pd pl tls gs s' bs' ->
    exists r, (let! (o, w, g, t, ti) := Ok (ds_o s', ds_w s', ds_g s', ds_tls s', ds_ti s') in
      let! (t, ti) := truelength_reset t ti in Ok (o, w, g, t, ti)) = Ok r /\ good nd cs0 pd pl n tls gs r.
  Proof.
    intros Hc [E1 E2 E3 E4 E5 E6]. cbn [bind]. destruct (truelength_reset_clean (ds_tls s') (ds_ti s') E6) as (ti' & ->).
    cbn [bind]. eexists. split; [reflexivity|]. exists bs'. split; [done|]. rewrite E2. done.
  Qed.

  (** not a data frame *)
  Lemma switch_vec fuel c : p = OVec c -> exists r, run fuel = Ok r /\ good nd cols pd pl n tls gs r.
  Proof.
    intros Hp. assert (Hcs : cols = [c]) by (unfold cols; by rewrite Hp).
    assert (exists d l0, pd = [d] /\ pl = [l0]) as (d & l & Ed & El).
    { rewrite Hp in Hpd, Hpl. cbn in Hpd, Hpl. destruct (one_flag pd) as [d Ed]; [lia|]. destruct (one_flag pl) as [l Ea]; [lia|]. eauto. }
    assert (Hrun : run fuel = vec_order_base_switch c d l nd (new_order n) w0 (new_group_infos n gs ign) tls (new_truelength_info n)).
    { unfold run, vec_order_switch. rewrite Hp at 1. rewrite Ed, El. done. }
    rewrite Hrun.
    destruct (fresh_groups n gs ign HN) as [Wg Sg]. destruct (new_truelength_wf n) as [Wt Ct].
    pose proof cols_both as Hb. rewrite Hcs in Hb. apply Forall_cons in Hb as [[Hc1 Hc2] _].
    destruct (base_switch_spec n np nd HN c d l (new_order n) w0 (new_group_infos n gs ign) tls (new_truelength_info n))
      as (bs & w' & g' & tls' & ti' & E & Hog & Hg & Hw & Ht & Wt' & Ct'); try done.
    { cbn. by rewrite replicate_length. }
    rewrite E. eexists. split; [reflexivity|]. exists bs. rewrite Hcs, Ed, El. split; [exact Hog|].
    split; [done|]. split; [apply Hg|]. split; [|done]. intros Hgs. apply Hg. cbn. unfold ign. by rewrite Hgs.
  Qed.

  (** a data frame with columns *)
  Lemma switch_df fuel c0 cs : p = ODf (c0 :: cs) (oproxy_size p) ->
    exists s bs, ds_i s = 1%Z /\ ds_rerun s = false /\ dinv n np nd (c0 :: cs) pd pl tls gs s 1 false bs /\
      run fuel = (let! (o, w, g, t, ti) :=
                    let! s := df_loop (c0 :: cs) pd pl nd fuel s in Ok (ds_o s, ds_w s, ds_g s, ds_tls s, ds_ti s) in
                  let! (t, ti) := truelength_reset t ti in Ok (o, w, g, t, ti)).
  Proof.
    intros Hp. assert (Hcs : cols = c0 :: cs) by (unfold cols; by rewrite Hp).
    assert (Hlen : length (proxy_cols p) = S (length cs)) by (by rewrite Hp).
    destruct (df_first c0 cs Hp) as (s & bs & E & Ei & Err & Ed & El & V). exists s, bs.
    split; [done|]. split; [done|]. rewrite Hcs in V. split; [done|].
    assert (Hrun : run fuel = df_order (c0 :: cs) pd pl nd fuel (new_order n) w0 (new_group_infos n gs ign) tls (new_truelength_info n)).
    { unfold run, vec_order_switch. rewrite Hp at 1. done. }
    rewrite Hrun. unfold df_order, df_order_internal. cbn [length].
    rewrite Hlen in Hpd, Hpl.
    assert (H1 : negb (length pd =? 1) && negb (length pd =? S (length cs)) = false).
    { destruct Hpd as [-> | ->]; [done|]. rewrite Nat.eqb_refl. by rewrite andb_false_r. }
    assert (H2 : negb (length pl =? 1) && negb (length pl =? S (length cs)) = false).
    { destruct Hpl as [-> | ->]; [done|]. rewrite Nat.eqb_refl. by rewrite andb_false_r. }
    rewrite H1, H2. cbn [Nat.eqb]. change (rd (c0 :: cs) 0) with (Ok c0). cbn [bind].
    rewrite (flag_rd0 pd (length cs)) by done. cbn [bind].
    rewrite (flag_rd0 pl (length cs)) by done. cbn [bind].
    rewrite E. cbn [bind].
    replace (DfState 1 false (flag pd 0) (flag pl 0) (ds_o s) (ds_w s) (ds_g s) (ds_tls s) (ds_ti s)) with s
      by (destruct s; cbn in *; congruence). done.
  Qed.

  Lemma run_zero fuel : p = ODf [] (oproxy_size p) -> exists r, run fuel = Ok r /\ good nd cols pd pl n tls gs r.
  Proof.
    intros Hp. destruct (df_zero fuel Hp) as (r & E & Hg). exists r. split.
    - unfold run, vec_order_switch. rewrite Hp at 1. exact E.
    - unfold cols. rewrite Hp at 1. exact Hg.
  Qed.

  Lemma df_case : (exists c, p = OVec c) \/ p = ODf [] (oproxy_size p) \/ exists c0 cs, p = ODf (c0 :: cs) (oproxy_size p).
  Proof. destruct p as [c|[|c0 cs] m]; cbn; eauto. Qed.

  (** every result is right *)
  Lemma switch_ok fuel r : run fuel = Ok r -> good nd cols pd pl n tls gs r.
  Proof.
    intros Er. destruct df_case as [[c Hp]|[Hp|(c0 & cs & Hp)]].
    - destruct (switch_vec fuel c Hp) as (r' & E & Hg). congruence.
    - destruct (run_zero fuel Hp) as (r' & E & Hg). congruence.
    - assert (Hcs : cols = c0 :: cs) by (unfold cols; by rewrite Hp).
      destruct (switch_df fuel c0 cs Hp) as (s & bs & _ & _ & V & E). rewrite E in Er. clear E.
      destruct (df_loop (c0 :: cs) pd pl nd fuel s) as [s'| |] eqn:El'; [|done|done].
      pose proof cols_both as Hb. rewrite Hcs in Hb. rewrite Hp in Hpd, Hpl. cbn [proxy_cols] in Hpd, Hpl.
      destruct (df_loop_ok n np nd (c0 :: cs) pd pl tls HN Hb Hpd Hpl Htls gs fuel s 1 false bs s' V El') as (bs' & De).
      destruct (df_ends (c0 :: cs) s' bs' Hcs De) as (r' & Er' & Hg). cbn [bind] in Er', Er. rewrite Hcs. congruence.
  Qed.

  (** there is one, if no column after the first is complex *)
  Lemma switch_total fuel : (forall j c, 1 <= j -> proxy_cols p !! j = Some c -> is_cpl c = false) -> length (proxy_cols p) <= fuel ->
    exists r, run fuel = Ok r /\ good nd cols pd pl n tls gs r.
  Proof.
    intros Hnc Hfuel. destruct df_case as [[c Hp]|[Hp|(c0 & cs & Hp)]].
    - by apply (switch_vec fuel c).
    - by apply run_zero.
    - assert (Hcs : cols = c0 :: cs) by (unfold cols; by rewrite Hp).
      destruct (switch_df fuel c0 cs Hp) as (s & bs & _ & _ & V & E). rewrite E. clear E.
      pose proof cols_both as Hb. rewrite Hcs in Hb. rewrite Hp in Hpd, Hpl, Hnc, Hfuel. cbn [proxy_cols] in Hpd, Hpl, Hnc, Hfuel.
      destruct (df_loop_total n np nd (c0 :: cs) pd pl tls HN Hb Hpd Hpl Htls gs fuel s 1 bs V Hnc) as (s' & bs' & El' & De); [lia|].
      rewrite El'. destruct (df_ends (c0 :: cs) s' bs' Hcs De) as (r' & Er' & Hg). cbn [bind] in Er' |- *. rewrite Hcs. exists r'. done.
  Qed.
End switch.

(** ** The theorems *)
Definition order_result (x : ox) (p : oproxy) (decreasing na_largest : list bool) (nan_distinct group_sizes : bool)
    (tls : truelengths) (r : list Z * option (list nat) * truelengths) : Prop :=
  let cmp := order_vcmp x p decreasing na_largest nan_distinct in
  let '(o, sizes, tls') := r in
  is_order cmp (oproxy_size p) o /\
  match sizes with Some gs => is_group_sizes cmp o gs | None => True end /\
  (group_sizes = true -> exists gs, sizes = Some gs) /\
  (forall s, tls' s = tls s).

Lemma info_unfold fuel x p d l nd gs tls d' l' d'' l'' :
  vec_order_expand_args x d l = Ok (d', l') -> recycle_flags d' l' = Ok (d'', l'') ->
  exists w0, wok (oproxy_size p) (vec_compute_n_bytes_lazy_counts p) w0 /\
  vec_order_info_impl fuel x p d l nd gs tls =
    (let! (o, _, g, tls, _) :=
       vec_order_switch fuel p d'' (vec_order_compute_na_last l'' d'') nd (new_order (oproxy_size p)) w0
         (new_group_infos (oproxy_size p) gs (if gs then false else match p with ODf _ _ => false | OVec _ => true end))
         tls (new_truelength_info (oproxy_size p)) in
     Ok (or_data o, if gs then Some (gsizes g) else None, tls)).
Proof.
  intros E1 E2. unfold vec_order_info_impl. rewrite E1. cbn [bind]. rewrite E2. cbn [bind].
  eexists. split; [apply fresh_work|]. done.
Qed.

Lemma good_result x p d l nd gs tls d'' l'' r : order_input x p tls -> flags_valid x d -> flags_valid x l ->
  length d'' = length l'' -> length d'' = 1 \/ length d'' = length (proxy_cols p) ->
  full (length (proxy_cols p)) d'' = flags_of x (length (proxy_cols p)) d ->
  full (length (proxy_cols p)) l'' = flags_of x (length (proxy_cols p)) l ->
  good nd (proxy_cols p) d'' (vec_order_compute_na_last l'' d'') (oproxy_size p) tls gs r ->
  exists r', (let! (o, _, g, tls, _) := Ok r in Ok (or_data o, if gs then Some (gsizes g) else None, tls)) = Ok r' /\
    order_result x p d l nd gs tls r'.
Proof.
  intros Hin Vd Vl Hl1 Hl2 Fd Fl. set (N := length (proxy_cols p)) in *.
  destruct r as [[[[o w] g] tls'] ti]. intros (bs & Hog & Ho & Wg & Hs & Ht). cbn [bind]. eexists. split; [reflexivity|].
  assert (Hcmp : forall a b, kprefix nd (proxy_cols p) d'' (vec_order_compute_na_last l'' d'') N a b = order_vcmp x p d l nd a b).
  { intros a b. unfold order_vcmp. fold N. rewrite <- Fd, <- Fl.
    assert (Hfl : forall v : list bool, length v = 1 \/ length v = N -> length (full N v) = N).
    { intros [|b0 [|b1 v]] [Hv|Hv]; simpl in *; try lia; try by rewrite replicate_length. }
    rewrite (rows_prefix_aux nd (proxy_cols p) (full N d'') (full N l'')).
    - f_equal. apply take_ge. rewrite zip_with_length. lia.
    - by apply Hfl.
    - apply Hfl. by rewrite <- Hl1.
    - done.
    - intros j Hj. rewrite !full_nth by (try done; by rewrite <- Hl1). split; [done|].
      assert (Hna : flag (vec_order_compute_na_last l'' d'') j = xorb (flag d'' j) (flag l'' j)).
      { unfold flag. rewrite na_last_length by done. rewrite <- Hl1. rewrite na_last_flag; [done|done|].
        destruct (Nat.eqb_spec (length d'') 1); lia. }
      rewrite Hna. by destruct (flag d'' j), (flag l'' j). }
  assert (Hog' : og (order_vcmp x p d l nd) (locs (oproxy_size p)) bs).
  { eapply og_cmp_ext; [|exact Hog]. intros a b _ _. apply Hcmp. }
  cbn [order_result]. rewrite Ho. split; [by eapply og_is_order|]. split; [|split; [|done]].
  - destruct gs; [|done]. rewrite Hs by done. by eapply og_is_group_sizes.
  - intros ->. eauto.
Qed.

(** Whatever [vec_order_info()] returns is the stable order of the rows, with
    the sizes of the groups of equal rows, and the truelengths of all strings
    are as before. *)
Theorem C27_order_info_sound fuel x p decreasing na_largest nan_distinct group_sizes tls r :
  order_input x p tls ->
  vec_order_info_impl fuel x p decreasing na_largest nan_distinct group_sizes tls = Ok r ->
  order_result x p decreasing na_largest nan_distinct group_sizes tls r.
Proof.
  intros Hin Er. pose proof Hin as (Hc & HN & He & Htls).
  destruct (decide (flags_valid x decreasing /\ flags_valid x na_largest)) as [[Vd Vl]|Hnv].
  - destruct (flags_spec x p decreasing na_largest Vd Vl He) as (d' & l' & d'' & l'' & E1 & E2 & H1 & H2 & H3 & H4).
    destruct (info_unfold fuel x p _ _ nan_distinct group_sizes tls _ _ _ _ E1 E2) as (w0 & Hw0 & E). rewrite E in Er. clear E.
    destruct (vec_order_switch _ _ _ _ _ _ _ _ _ _) as [r0| |] eqn:Es; [|done|done].
    pose proof (switch_ok p nan_distinct tls d'' (vec_order_compute_na_last l'' d'') group_sizes Hc HN Htls H2
      ltac:(rewrite na_last_length by done; exact H2) w0 Hw0 fuel r0 Es) as Hg.
    destruct (good_result x p decreasing na_largest nan_distinct group_sizes tls d'' l'' r0 Hin Vd Vl H1 H2 H3 H4 Hg) as (r' & E' & Hr).
    assert (r = r') as -> by congruence. done.
  - destruct (flags_invalid x decreasing na_largest Hnv) as (e & E). unfold vec_order_info_impl in Er. rewrite E in Er. done.
Qed.

(** It returns if the flags have valid lengths and no column after the first
    is complex. *)
Theorem C27_order_info_total fuel x p decreasing na_largest nan_distinct group_sizes tls :
  order_input x p tls -> flags_valid x decreasing -> flags_valid x na_largest ->
  (forall j c, 1 <= j -> proxy_cols p !! j = Some c -> is_cpl c = false) -> length (proxy_cols p) <= fuel ->
  exists r, vec_order_info_impl fuel x p decreasing na_largest nan_distinct group_sizes tls = Ok r /\
         order_result x p decreasing na_largest nan_distinct group_sizes tls r.
Proof.
  intros Hin Vd Vl Hnc Hfuel. pose proof Hin as (Hc & HN & He & Htls).
  destruct (flags_spec x p decreasing na_largest Vd Vl He) as (d' & l' & d'' & l'' & E1 & E2 & H1 & H2 & H3 & H4).
  destruct (info_unfold fuel x p _ _ nan_distinct group_sizes tls _ _ _ _ E1 E2) as (w0 & Hw0 & E). rewrite E. clear E.
  destruct (switch_total p nan_distinct tls d'' (vec_order_compute_na_last l'' d'') group_sizes Hc HN Htls H2
    ltac:(rewrite na_last_length by done; exact H2) w0 Hw0 fuel Hnc Hfuel) as (r0 & -> & Hg).
  by apply (good_result x p decreasing na_largest nan_distinct group_sizes tls d'' l'' r0 Hin Vd Vl H1 H2 H3 H4).
Qed.

(** Flags of other lengths are an error. *)
Theorem C27_order_info_flags fuel x p decreasing na_largest nan_distinct group_sizes tls :
  ~ (flags_valid x decreasing /\ flags_valid x na_largest) ->
  exists e, vec_order_info_impl fuel x p decreasing na_largest nan_distinct group_sizes tls = Err e.
Proof. intros Hnv. destruct (flags_invalid x decreasing na_largest Hnv) as (e & E). exists e. unfold vec_order_info_impl. by rewrite E. Qed.

(** ** Vectors of locations *)
Lemma map_lookup0 {A B} (f : A -> B) l i a : l !! i = Some a -> map f l !! i = Some (f a).
Proof. revert i. induction l as [|b l IH]; intros [|i] H; try done; cbn in *; [congruence|by apply IH]. Qed.
Lemma wr_put {A} (acc : list A) d k v : 0 < k -> wr (acc ++ replicate k d) (length acc) v = Ok ((acc ++ [v]) ++ replicate (k - 1) d).
Proof.
  intros Hk. destruct k as [|k]; [lia|]. rewrite wr_Ok by (rewrite app_length; simpl; lia).
  rewrite insert_app_r_alt by lia. rewrite Nat.sub_diag. simpl. rewrite Nat.sub_0_r. by rewrite <- app_assoc.
Qed.
Lemma rd_mid {A} (a : list A) b v c : rd (a ++ (b ++ v :: c)) (length a + length b) = Ok v.
Proof.
  apply rd_Ok. rewrite lookup_app_r by lia. rewrite lookup_app_r by lia.
  replace (length a + length b - length a - length b) with 0 by lia. done.
Qed.

Lemma copy_group (a b c : list Z) :
  for_ 0 (length b) (fun j '((elt, start) : list Z * nat) =>
    let! v := rd (a ++ b ++ c) start in
    let! elt := wr elt j v in
    Ok (elt, S start)) (replicate (length b) 0%Z, length a) = Ok (b, length a + length b).
Proof.
  destruct (for_inv (fun i (st : list Z * nat) => st = (take i b ++ replicate (length b - i) 0%Z, length a + i)) 0 (length b)
    (fun j '((elt, start) : list Z * nat) =>
      let! v := rd (a ++ b ++ c) start in let! elt := wr elt j v in Ok (elt, S start))
    (replicate (length b) 0%Z, length a)) as (st & E & Hst).
  - simpl. by rewrite Nat.sub_0_r, Nat.add_0_r.
  - intros i st Hi ->. destruct (lookup_lt_is_Some_2 b i) as [v Hv]; [lia|].
    assert (Hr : rd (a ++ b ++ c) (length a + i) = Ok v).
    { apply rd_Ok. rewrite lookup_app_r by lia. replace (length a + i - length a) with i by lia. by rewrite lookup_app_l by lia. }
    rewrite Hr. cbn [bind].
    pose proof (wr_put (take i b) 0%Z (length b - i) v) as Hw. rewrite take_length_le in Hw by lia. rewrite Hw by lia.
    cbn [bind]. eexists. split; [reflexivity|]. rewrite <- (take_S_r _ _ _ Hv). f_equal; [|lia]. do 2 f_equal. lia.
  - rewrite E, Hst. rewrite Nat.add_0_l. by rewrite take_ge, Nat.sub_diag, app_nil_r by lia.
Qed.

Lemma sorted_groups_loop (bs : list (list Z)) : Forall (fun b => b <> []) bs ->
  for_ 0 (length (map length bs)) (fun i '((key_loc, loc, start) : list Z * list (list Z) * nat) =>
    let! k := rd (concat bs) start in
    let! key_loc := wr key_loc i k in
    let! size := rd (map length bs) i in
    let! (elt, start) :=
      for_ 0 size (fun j '((elt, start) : list Z * nat) =>
        let! v := rd (concat bs) start in
        let! elt := wr elt j v in
        Ok (elt, S start)) (replicate size 0%Z, start) in
    let! loc := wr loc i elt in
    Ok (key_loc, loc, start)) (replicate (length (map length bs)) 0%Z, replicate (length (map length bs)) [], 0)
  = Ok (map (hd 0%Z) bs, bs, length (concat bs)).
Proof.
  intros Hne. rewrite map_length. set (body := fun (i : nat) (_ : list Z * list (list Z) * nat) => _).
  destruct (for_inv (fun i (st : list Z * list (list Z) * nat) =>
      st = (map (hd 0%Z) (take i bs) ++ replicate (length bs - i) 0%Z, take i bs ++ replicate (length bs - i) [], length (concat (take i bs))))
    0 (length bs) body (replicate (length bs) 0%Z, replicate (length bs) [], 0)) as (st & E & Hst).
  - simpl. by rewrite Nat.sub_0_r.
  - intros i st Hi ->. destruct (lookup_lt_is_Some_2 bs i) as [b Hb]; [lia|]. unfold body.
    assert (Hbs : concat bs = concat (take i bs) ++ b ++ concat (drop (S i) bs)).
    { rewrite <- (take_drop_middle bs i b Hb) at 1. by rewrite concat_app. }
    assert (Hb0 : b <> []) by (exact (proj1 (Forall_lookup _ _) Hne i b Hb)).
    destruct b as [|v b]; [done|].
    assert (Hr : rd (concat bs) (length (concat (take i bs))) = Ok v).
    { rewrite Hbs. pose proof (rd_mid (concat (take i bs)) [] v (b ++ concat (drop (S i) bs))) as H.
      rewrite Nat.add_0_r in H. exact H. }
    rewrite Hr. cbn [bind].
    pose proof (wr_put (map (hd 0%Z) (take i bs)) 0%Z (length bs - i) v) as Hw. rewrite map_length, take_length_le in Hw by lia.
    rewrite Hw by lia. cbn [bind].
    assert (Hsz : rd (map length bs) i = Ok (length (v :: b))) by (apply rd_Ok; by apply (map_lookup0 length)).
    rewrite Hsz. cbn [bind].
    pose proof (copy_group (concat (take i bs)) (v :: b) (concat (drop (S i) bs))) as Hc. rewrite <- Hbs in Hc.
    rewrite Hc. cbn [bind].
    pose proof (wr_put (take i bs) [] (length bs - i) (v :: b)) as Hw2. rewrite take_length_le in Hw2 by lia.
    rewrite Hw2 by lia. cbn [bind]. eexists. split; [reflexivity|].
    rewrite (take_S_r _ _ _ Hb), map_app, concat_app, app_length. simpl. rewrite app_nil_r.
    replace (length bs - S i) with (length bs - i - 1) by lia. done.
  - rewrite E, Hst, Nat.add_0_l. rewrite take_ge, Nat.sub_diag, !app_nil_r by lia. done.
Qed.

(** [vec_order()]: an order vector. *)
Theorem C27_order_sound fuel x p decreasing na_largest nan_distinct tls o :
  order_input x p tls -> vec_order fuel x p decreasing na_largest nan_distinct tls = Ok o ->
  is_order (order_vcmp x p decreasing na_largest nan_distinct) (oproxy_size p) o.
Proof.
  intros Hin E. unfold vec_order in E.
  destruct (vec_order_info_impl _ _ _ _ _ _ _ _) as [[[o' gs] tls']| |] eqn:E'; [|done|done]. cbn [bind] in E.
  assert (o' = o) as -> by congruence.
  pose proof (C27_order_info_sound _ _ _ _ _ _ _ _ _ Hin E') as H. apply H.
Qed.

(** The groups of equal rows in order, with the first row of each. *)
Definition sorted_groups (cmp : Z -> Z -> comparison) (n : nat) (key_loc : list Z) (loc : list (list Z)) : Prop :=
  is_order cmp n (concat loc) /\
  Forall (fun b => forall x y, x ∈ b -> y ∈ b -> cmp x y = Eq) loc /\
  StronglySorted (fun b c => forall x y, x ∈ b -> y ∈ c -> cmp x y = Lt) loc /\
  Forall2 (fun k b => exists r, b = k :: r) key_loc loc.

Lemma sorted_groups_of cmp n o gs : is_order cmp n o -> is_group_sizes cmp o gs ->
  exists key_loc loc, sorted_groups cmp n key_loc loc /\
  for_ 0 (length gs) (fun i '((key_loc, loc, start) : list Z * list (list Z) * nat) =>
    let! k := rd o start in
    let! key_loc := wr key_loc i k in
    let! size := rd gs i in
    let! (elt, start) :=
      for_ 0 size (fun j '((elt, start) : list Z * nat) =>
        let! v := rd o start in
        let! elt := wr elt j v in
        Ok (elt, S start)) (replicate size 0%Z, start) in
    let! loc := wr loc i elt in
    Ok (key_loc, loc, start)) (replicate (length gs) 0%Z, replicate (length gs) [], 0)
  = Ok (key_loc, loc, length o).
Proof.
  intros Ho (bs & <- & <- & Hne & Ht & Hs). exists (map (hd 0%Z) bs), bs. split.
  - split; [done|]. split; [done|]. split; [done|]. clear -Hne. induction Hne as [|b bs Hb Hbs IH]; cbn [map]; constructor; [|done].
    destruct b as [|v b]; [done|]. by exists b.
  - by apply sorted_groups_loop.
Qed.

Theorem C27_sorted_groups_sound fuel x p decreasing na_largest nan_distinct tls key_loc loc :
  order_input x p tls -> vec_locate_sorted_groups fuel x p decreasing na_largest nan_distinct tls = Ok (key_loc, loc) ->
  sorted_groups (order_vcmp x p decreasing na_largest nan_distinct) (oproxy_size p) key_loc loc.
Proof.
  intros Hin E. unfold vec_locate_sorted_groups, vec_order_info in E.
  destruct (vec_order_info_impl _ _ _ _ _ _ _ _) as [[[o' gs] tls']| |] eqn:E'; [|done|done]. cbn [bind] in E.
  destruct (C27_order_info_sound _ _ _ _ _ _ _ _ _ Hin E') as (Ho & Hg & Hs & _). destruct (Hs eq_refl) as [gs' ->].
  cbn [default from_option id] in E.
  destruct (sorted_groups_of _ _ _ _ Ho Hg) as (kl & lc & Hsg & El). cbn [bind] in E. rewrite El in E. cbn [bind] in E. 
  assert (kl = key_loc /\ lc = loc) as [-> ->] by (split; congruence). done.
Qed.

Theorem C27_order_total fuel x p decreasing na_largest nan_distinct tls :
  order_input x p tls -> flags_valid x decreasing -> flags_valid x na_largest ->
  (forall j c, 1 <= j -> proxy_cols p !! j = Some c -> is_cpl c = false) -> length (proxy_cols p) <= fuel ->
  (exists o, vec_order fuel x p decreasing na_largest nan_distinct tls = Ok o) /\
  (exists key_loc loc, vec_locate_sorted_groups fuel x p decreasing na_largest nan_distinct tls = Ok (key_loc, loc)).
Proof.
  intros Hin Vd Vl Hnc Hf. split.
  - destruct (C27_order_info_total fuel x p _ _ nan_distinct false tls Hin Vd Vl Hnc Hf) as ([[o gs] t] & E & _).
    exists o. unfold vec_order. by rewrite E.
  - destruct (C27_order_info_total fuel x p _ _ nan_distinct true tls Hin Vd Vl Hnc Hf) as ([[o gs] t] & E & (Ho & Hg & Hs & _)).
    destruct (Hs eq_refl) as [gs' ->]. destruct (sorted_groups_of _ _ _ _ Ho Hg) as (kl & lc & Hsg & El).
    exists kl, lc. unfold vec_locate_sorted_groups, vec_order_info. rewrite E. cbn [bind default from_option id]. rewrite El. done.
Qed.
(** ** Examples *)
(** A data frame with an integer and a character column; the first increasing
    with the missing value last, the second decreasing. *)
Definition ex_cols : list ocol :=
  [OInt [2%Z; NA_INTEGER; 1%Z; 2%Z; 2%Z];
   OChr [Some [97%Z]; Some [98%Z]; None; Some [97%Z; 98%Z]; Some [97%Z]]].
Example ex_order_input : order_input (XDf [1; 1]) (ODf ex_cols 5) (fun _ => 0%Z).
Proof.
  split; [|split; [cbn; unfold INT_MAX; lia|split; [done|intros; lia]]].
  repeat constructor; try done; try (intros s [= <-]; repeat constructor; lia); unfold is_int, INT_MIN, INT_MAX, NA_INTEGER; lia.
Qed.
Example ex_order_flags : flags_valid (XDf [1; 1]) [false; true] /\ flags_valid (XDf [1; 1]) [true].
Proof. split; [by right|by left]. Qed.
Example ex_order : vec_order_info 2 (XDf [1; 1]) (ODf ex_cols 5) [false; true] [true] true (fun _ => 0%Z)
  = Ok ([3; 4; 1; 5; 2]%Z, [1; 1; 2; 1]).
Proof. reflexivity. Qed.
Example ex_sorted_groups : vec_locate_sorted_groups 2 (XDf [1; 1]) (ODf ex_cols 5) [false; true] [true] true (fun _ => 0%Z)
  = Ok ([3; 4; 1; 2]%Z, [[3]; [4]; [1; 5]; [2]]%Z).
Proof. reflexivity. Qed.

(** ** Refutations: complex columns after the first *)
(** The first pass over a complex column decrements the column index once for
    each tied group (src/order.c:3902-3910), not once.  After an integer
    column with three tied groups the index is negative, and the next column
    is read out of bounds. *)
Definition dbl_pow2 (k : Z) : dbl := (4607182418800017408 + k * 4503599627370496)%Z.
Definition bad_cols : list ocol :=
  [OInt [1; 1; 2; 2; 3; 3]%Z;
   OCpl [(dbl_pow2 1, dbl_pow2 1); (dbl_pow2 1, dbl_pow2 2); (dbl_pow2 1, dbl_pow2 1);
         (dbl_pow2 1, dbl_pow2 2); (dbl_pow2 1, dbl_pow2 1); (dbl_pow2 1, dbl_pow2 2)]].
Lemma bad_input : order_input (XDf [1; 1]) (ODf bad_cols 6) (fun _ => 0%Z).
Proof.
  split; [|split; [cbn; unfold INT_MAX; lia|split; [done|intros; lia]]].
  repeat constructor; try done; unfold is_int, INT_MIN, INT_MAX, NA_INTEGER; lia.
Qed.
Theorem C27_complex_oob_refuted : exists x p, order_input x p (fun _ => 0%Z) /\
  flags_valid x [false] /\ flags_valid x [true] /\
  forall fuel, vec_order (3 + fuel) x p [false] [true] true (fun _ => 0%Z) = UB "out-of-bounds read".
Proof.
  exists (XDf [1; 1]), (ODf bad_cols 6). split; [apply bad_input|]. split; [by left|]. split; [by left|].
  intros fuel. reflexivity.
Qed.

(** With two complex columns and two tied groups the loop never ends. *)
Definition loop_cols : list ocol :=
  [OCpl [(dbl_pow2 1, dbl_pow2 1); (dbl_pow2 1, dbl_pow2 1); (dbl_pow2 2, dbl_pow2 1); (dbl_pow2 2, dbl_pow2 1)];
   OCpl [(dbl_pow2 5, dbl_pow2 1); (dbl_pow2 5, dbl_pow2 2); (dbl_pow2 6, dbl_pow2 3); (dbl_pow2 6, dbl_pow2 1)]].
Definition loop_state (i : Z) (again : bool) (w : work) (tls : truelengths) : df_state :=
  let info := GI [2; 2; 0; 0] 2 2 in
  DfState i again false true (Order [1; 2; 3; 4]%Z true) w
    (Groups info info 4 (negb again) false false) tls (new_truelength_info 4).
Lemma loop_forever w tls fuel : forall again : bool,
  df_loop loop_cols [false] [true] true fuel (loop_state (if again then 0 else 1)%Z again w tls) = UB "out of fuel".
Proof.
  induction fuel as [|fuel IH]; intros again; [by destruct again|].
  destruct again; [apply (IH false)|apply (IH true)].
Qed.
Lemma loop_input : order_input (XDf [1; 1]) (ODf loop_cols 4) (fun _ => 0%Z).
Proof.
  split; [|split; [cbn; unfold INT_MAX; lia|split; [done|intros; lia]]].
  repeat constructor; try done.
Qed.
Theorem C27_complex_loop_refuted : exists x p, order_input x p (fun _ => 0%Z) /\
  flags_valid x [false] /\ flags_valid x [true] /\
  forall fuel, vec_order fuel x p [false] [true] true (fun _ => 0%Z) = UB "out of fuel".
Proof.
  exists (XDf [1; 1]), (ODf loop_cols 4). split; [apply loop_input|]. split; [by left|]. split; [by left|].
  intros fuel.
  assert (H : forall w, vec_order_switch fuel (ODf loop_cols 4) [false] [true] true (new_order 4) w (new_group_infos 4 false false)
                (fun _ => 0%Z) (new_truelength_info 4) = UB "out of fuel").
  { intros w. pose proof (loop_forever w (fun _ => 0%Z) fuel false) as H.
    transitivity (
      let! (o, w, g, tls, ti) :=
        (let! (o, w, g, tls, ti) := vec_order_base_switch (OCpl [(dbl_pow2 1, dbl_pow2 1); (dbl_pow2 1, dbl_pow2 1); (dbl_pow2 2, dbl_pow2 1); (dbl_pow2 2, dbl_pow2 1)])
                  false true true (new_order 4) w (new_group_infos 4 false false) (fun _ => 0%Z) (new_truelength_info 4) in
         let! s := df_loop loop_cols [false] [true] true fuel (DfState 1 false false true o w g tls ti) in
         Ok (ds_o s, ds_w s, ds_g s, ds_tls s, ds_ti s)) in
      let! (tls, ti) := truelength_reset tls ti in Ok (o, w, g, tls, ti)); [reflexivity|].
    assert (E : vec_order_base_switch (OCpl [(dbl_pow2 1, dbl_pow2 1); (dbl_pow2 1, dbl_pow2 1); (dbl_pow2 2, dbl_pow2 1); (dbl_pow2 2, dbl_pow2 1)])
                  false true true (new_order 4) w (new_group_infos 4 false false) (fun _ => 0%Z) (new_truelength_info 4)
                = Ok (Order [1; 2; 3; 4]%Z true, w, Groups (GI [2; 2; 0; 0] 2 2) (GI [2; 2; 0; 0] 2 2) 4 true false false,
                      fun _ => 0%Z, new_truelength_info 4)) by reflexivity.
    rewrite E. cbn [bind].
    unfold loop_state in H. cbn [negb] in H. rewrite H. done. }
  unfold vec_order, vec_order_info_impl.
  change (vec_order_expand_args (XDf [1; 1]) [false] [true]) with (Ok ([false], [true])). cbn [bind].
  change (recycle_flags [false] [true]) with (Ok ([false], [true])). cbn [bind].
  change (vec_order_compute_na_last [true] [false]) with [true]. cbn [oproxy_size]. rewrite H. done.
Qed.

Print Assumptions C27_order_info_sound.
Print Assumptions C27_order_info_total.
Print Assumptions C27_order_info_flags.
Print Assumptions C27_order_sound.
Print Assumptions C27_order_total.
Print Assumptions C27_sorted_groups_sound.
Print Assumptions C27_complex_oob_refuted.
Print Assumptions C27_complex_loop_refuted.
