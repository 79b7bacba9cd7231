(** * Lemmas: ordering vectors of any type and data frames *)
From Verif Require Import Base M_Double M_Scalar M_Order M_OrderChr M_OrderDf Spec_Order Spec_OrderRow L_Dbl L_OrderSpec
  L_OrderSort L_OrderIns L_OrderScatter L_OrderRadix L_OrderCount L_OrderKeys L_OrderEntry L_OrderGroups L_OrderChr L_OrderTl.
From Coq Require Import Sorting.Sorted.
#[local] Arguments Z.mul : simpl never.
#[local] Arguments Z.add : simpl never.
#[local] Arguments Z.sub : simpl never.

Definition tls_nonneg (tls : truelengths) : Prop := forall s, (0 <= tls s)%Z.

Lemma by_loc_map {A} (d : A) (l : list A) n : length l = n -> map (at_loc d l) (locs n) = l.
Proof. intros <-. apply map_at_loc. Qed.

Section base.
  Context (n np : nat) (nd : bool).
  Hypothesis HN : (Z.of_nat n <= INT_MAX)%Z.

  Lemma base_switch_spec c d l o w g tls ti :
    col_ok n c -> col_n_counts c <= np -> length (or_data o) = n -> or_initialized o = false -> wok n np w ->
    gwf g -> gsizes g = [] -> n <= g_max_data_size g -> tls_nonneg tls -> tlwf n ti -> tl_clean ti ->
    exists bs w' g' tls' ti',
      vec_order_base_switch c d l nd o w g tls ti = Ok (Order (concat bs) true, w', g', tls', ti') /\
      og (fun a b => dir d (col_vcmp (xorb d l) nd c a b)) (locs n) bs /\ gdone g bs g' /\ wok n np w' /\
      (forall s, tls' s = tls s) /\ tlwf n ti' /\ tl_clean ti'.
  Proof.
    intros [Hlen Hok] Hnp Ho Hi Hw Wg Hs Hmax Htl Wt Ct.
    assert (R : room g n) by (intros _; rewrite Hs; simpl; lia).
    destruct c as [x|x|x|x|x]; cbn [vec_order_base_switch col_n_counts ocol_length] in *.
    - destruct (int_order_spec n np d l (at_loc NA_INTEGER x) n o w g) as (bs & w' & g' & E & H1 & H2 & H3); try done.
      { intros a Ha. apply at_loc_Forall; [done|]. by rewrite Hlen. }
      rewrite by_loc_map in E by done. rewrite E. cbn [bind]. exists bs, w', g', tls, ti. split; [done|]. split; [done|]. split; [by apply pushed_gdone|]. done.
    - destruct (int_order_spec n np d l (at_loc NA_INTEGER x) n o w g) as (bs & w' & g' & E & H1 & H2 & H3); try done.
      { intros a Ha. apply at_loc_Forall; [done|]. by rewrite Hlen. }
      rewrite by_loc_map in E by done. rewrite E. cbn [bind]. exists bs, w', g', tls, ti. split; [done|]. split; [done|]. split; [by apply pushed_gdone|]. done.
    - destruct (dbl_order_impl_spec n np d l nd (at_loc (A:=dbl) 0%Z x) n o w g) as (bs & w' & g' & E & H1 & H2 & H3); try done.
      { intros a Ha. apply (at_loc_Forall (A:=dbl) 0%Z dbl_wf x); [done|]. by rewrite Hlen. }
      rewrite by_loc_map in E by done. rewrite E. cbn [bind]. exists bs, w', g', tls, ti. split; [done|]. split; [done|]. split; [by apply pushed_gdone|]. done.
    - destruct (cpl_order_spec n np d l nd (at_loc (A:=dbl*dbl) (0%Z, 0%Z) x) n o w g) as (bs & w' & g' & E & H1 & H2 & H3); try done.
      { intros a Ha. apply (at_loc_Forall (A:=dbl*dbl) (0%Z, 0%Z) (fun z => dbl_wf z.1 /\ dbl_wf z.2)); [done|]. by rewrite Hlen. }
      rewrite by_loc_map in E by done. rewrite E. cbn [bind]. exists bs, w', g', tls, ti. done.
    - destruct (chr_order_spec n np d l HN (at_loc (A:=rstr) None x) n o w g tls ti) as (bs & w' & g' & tls' & i' & E & H1 & H2 & H3); try done.
      { intros a Ha. pose proof (at_loc_Forall (A:=rstr) None _ x a Hok) as H. cbn beta in H. rewrite Hlen in H. intros s Hs'.
        split; [by apply (H Ha)|apply Htl]. }
      rewrite by_loc_map in E by done. rewrite E. exists bs, w', g', tls', i'. split; [done|]. split; [done|]. split; [by apply pushed_gdone|]. done.
  Qed.

  (** the key by which one pass over a column refines the groups *)
  Definition pass_cmp (c : ocol) (d l rr : bool) : Z -> Z -> comparison :=
    match c with
    | OCpl x => if rr then cpl_cmp_re d l nd (at_loc (A:=dbl*dbl) (0%Z, 0%Z) x) else cpl_cmp_im d l nd (at_loc (A:=dbl*dbl) (0%Z, 0%Z) x)
    | _ => fun a b => dir d (col_vcmp (xorb d l) nd c a b)
    end.
  Lemma pass_cmp_refl c d l rr a : pass_cmp c d l rr a a = Eq.
  Proof.
    destruct c; cbn [pass_cmp col_vcmp]; unfold by_loc.
    - apply dir_refl, (tp_refl _ (int_vcmp_tpo _)).
    - apply dir_refl, (tp_refl _ (int_vcmp_tpo _)).
    - apply dir_refl, (tp_refl _ (dbl_vcmp_tpo _ _)).
    - destruct rr; [|apply cpl_cmp_im_refl]. apply dir_refl, (tp_refl _ (dbl_vcmp_tpo _ _)).
    - apply dir_refl, (tp_refl _ (chr_vcmp_tpo _)).
  Qed.

  Definition pass_step (c : ocol) (rr : bool) (i : Z) : Z := if is_cpl c && rr then (i - 1)%Z else i.

  (** what a chunk needs of the truelengths *)
  Definition chunk_tls (c : ocol) (tls : truelengths) : Prop :=
    match c with OChr x => exists tls0 S ti, tl_marked tls0 x S tls ti | _ => True end.

  Lemma df_chunk_spec c d l rr tls pos b i w g :
    col_ok n c -> col_n_counts c <= np -> chunk_tls c tls -> StronglySorted Z.lt b -> (forall a, a ∈ b -> a ∈ locs n) ->
    wok n np w -> length b <= n -> gwf g -> room g (length b) ->
    exists cs w' g', df_chunk c d l nd rr tls pos b i w g = Ok (concat cs, pass_step c rr i, w', g') /\
      og (pass_cmp c d l rr) b cs /\ pushed g (map length cs) g' /\ wok n np w'.
  Proof.
    intros [Hlen Hok] Hnp Htl Hs Hin Hw Hb Wg R.
    destruct c as [x|x|x|x|x]; cbn [df_chunk col_n_counts ocol_length pass_cmp] in *.
    - pose proof (extract_chunk_spec (at_loc NA_INTEGER x) n b Hin) as Ex. rewrite by_loc_map in Ex by done. rewrite Ex. cbn [bind]. clear Ex.
      destruct (int_order_chunk_spec n np d l (at_loc NA_INTEGER x) b w g) as (cs & w' & g' & E & H); try done.
      { intros a Ha. apply at_loc_Forall; [done|]. rewrite Hlen. by apply Hin. }
      rewrite E. cbn [bind]. exists cs, w', g'. done.
    - pose proof (extract_chunk_spec (at_loc NA_INTEGER x) n b Hin) as Ex. rewrite by_loc_map in Ex by done. rewrite Ex. cbn [bind]. clear Ex.
      destruct (int_order_chunk_spec n np d l (at_loc NA_INTEGER x) b w g) as (cs & w' & g' & E & H); try done.
      { intros a Ha. apply at_loc_Forall; [done|]. rewrite Hlen. by apply Hin. }
      rewrite E. cbn [bind]. exists cs, w', g'. done.
    - pose proof (extract_chunk_spec (at_loc (A:=dbl) 0%Z x) n b Hin) as Ex. rewrite by_loc_map in Ex by done. rewrite Ex. cbn [bind]. clear Ex.
      destruct (dbl_order_chunk_impl_spec n np d l nd (at_loc (A:=dbl) 0%Z x) b w g) as (cs & w' & g' & E & H); try done.
      { intros a Ha. apply (at_loc_Forall (A:=dbl) 0%Z dbl_wf x); [done|]. rewrite Hlen. by apply Hin. }
      rewrite E. cbn [bind]. exists cs, w', g'. done.
    - pose proof (extract_chunk_spec (at_loc (A:=dbl*dbl) (0%Z, 0%Z) x) n b Hin) as Ex. rewrite by_loc_map in Ex by done. rewrite Ex. cbn [bind]. clear Ex.
      assert (Hwf : forall a, a ∈ b -> dbl_wf (cpl_normalise_missing (at_loc (A:=dbl*dbl) (0%Z, 0%Z) x a)).1 /\
                                     dbl_wf (cpl_normalise_missing (at_loc (A:=dbl*dbl) (0%Z, 0%Z) x a)).2).
      { intros a Ha. pose proof (at_loc_Forall (A:=dbl*dbl) (0%Z, 0%Z) (fun z => dbl_wf z.1 /\ dbl_wf z.2) x a Hok) as H.
        cbn beta in H. rewrite Hlen in H. by apply cpl_norm_wf; apply H, Hin. }
      unfold pass_step. cbn [is_cpl andb]. destruct rr; cbn [bind]; rewrite map_map.
      + destruct (dbl_order_chunk_impl_spec n np d l nd (fun a => (cpl_normalise_missing (at_loc (A:=dbl*dbl) (0%Z, 0%Z) x a)).1) b w g)
          as (cs & w' & g' & E & H); try done.
        { intros a Ha. by apply Hwf. }
        rewrite E. cbn [bind]. exists cs, w', g'. done.
      + destruct (dbl_order_chunk_impl_spec n np d l nd (fun a => (cpl_normalise_missing (at_loc (A:=dbl*dbl) (0%Z, 0%Z) x a)).2) b w g)
          as (cs & w' & g' & E & H); try done.
        { intros a Ha. by apply Hwf. }
        rewrite E. cbn [bind]. exists cs, w', g'. done.
    - destruct Htl as (tls0 & S & ti & Hmk).
      pose proof (extract_chunk_spec (at_loc (A:=rstr) None x) n b Hin) as Ex. rewrite by_loc_map in Ex by done. rewrite Ex. cbn [bind]. clear Ex.
      destruct (chr_order_chunk_spec n np d l HN (at_loc (A:=rstr) None x) x tls0 S tls ti b w g) as (cs & w' & g' & E & H); try done.
      { lia. }
      { intros a Ha. rewrite <- (by_loc_map (A:=rstr) None x n Hlen) at 2. apply elem_of_list_fmap_1. by apply Hin. }
      rewrite E. cbn [bind]. exists cs, w', g'. done.
  Qed.
End base.

(** ** The loop over the columns *)
Definition flag (p : list bool) (j : nat) : bool := nth (if length p =? 1 then 0 else j) p false.

Section df.
  Context (n np : nat) (nd : bool) (cols : list ocol) (pd pl : list bool) (tls0 : truelengths).
  Hypothesis HN : (Z.of_nat n <= INT_MAX)%Z.
  Hypothesis Hcols : Forall (fun c => col_ok n c /\ col_n_counts c <= np) cols.
  Hypothesis Hpd : length pd = 1 \/ length pd = length cols.
  Hypothesis Hpl : length pl = 1 \/ length pl = length cols.
  Hypothesis Htls0 : tls_nonneg tls0.

  (** comparison by column [j] *)
  Definition kcol (j : nat) (a b : Z) : comparison :=
    match cols !! j with
    | Some c => dir (flag pd j) (col_vcmp (xorb (flag pd j) (flag pl j)) nd c a b)
    | None => Eq
    end.
  Definition kre (j : nat) (a b : Z) : comparison :=
    match cols !! j with Some c => pass_cmp nd c (flag pd j) (flag pl j) true a b | None => Eq end.
  Fixpoint kprefix (m : nat) (a b : Z) : comparison :=
    match m with O => Eq | S m => cmp_then (kprefix m a b) (kcol m a b) end.
  Definition kstate (m : nat) (half : bool) (a b : Z) : comparison :=
    if half then cmp_then (kprefix m a b) (kre m a b) else kprefix m a b.

  Lemma kcol_refl j a : kcol j a a = Eq.
  Proof.
    unfold kcol. destruct (cols !! j) as [c|]; [|done]. apply dir_refl. destruct c; cbn [col_vcmp]; unfold by_loc.
    - apply (tp_refl _ (int_vcmp_tpo _)).
    - apply (tp_refl _ (int_vcmp_tpo _)).
    - apply (tp_refl _ (dbl_vcmp_tpo _ _)).
    - apply (tp_refl _ (cpl_vcmp_tpo _ _)).
    - apply (tp_refl _ (chr_vcmp_tpo _)).
  Qed.
  Lemma kprefix_Eq m j a b : kprefix m a b = Eq -> j < m -> kcol j a b = Eq.
  Proof.
    induction m as [|m IH]; intros H Hj; [lia|]. cbn [kprefix] in H. unfold cmp_then in H.
    destruct (kprefix m a b) eqn:E; try done. destruct (decide (j = m)) as [->|?]; [done|]. apply IH; [done|lia].
  Qed.
  (** the parts of a complex column *)
  Lemma kcol_parts j c a b rr : cols !! j = Some c -> kcol j a b = Eq ->
    pass_cmp nd c (flag pd j) (flag pl j) rr a b = Eq.
  Proof.
    intros Hc H. unfold kcol in H. rewrite Hc in H. destruct c as [x|x|x|x|x]; try done. cbn [pass_cmp col_vcmp] in *.
    unfold by_loc in H. rewrite <- (cpl_cmp_parts _ _ nd (at_loc (A:=dbl*dbl) (0%Z, 0%Z) x)) in H. unfold cmp_then in H.
    destruct (cpl_cmp_re _ _ _ _ a b) eqn:E; try done. by destruct rr.
  Qed.
  Lemma kcol_cpl j x a b : cols !! j = Some (OCpl x) ->
    kcol j a b = cmp_then (pass_cmp nd (OCpl x) (flag pd j) (flag pl j) true a b)
                          (pass_cmp nd (OCpl x) (flag pd j) (flag pl j) false a b).
  Proof. intros Hc. unfold kcol. rewrite Hc. cbn [pass_cmp col_vcmp]. unfold by_loc. by rewrite cpl_cmp_parts. Qed.

  Lemma then_redundant c e : (c = Eq -> e = Eq) -> cmp_then c e = c.
  Proof. intros H. destruct c; simpl; [by apply H|done..]. Qed.
  Lemma then_assoc a b c : cmp_then (cmp_then a b) c = cmp_then a (cmp_then b c).
  Proof. by destruct a. Qed.

  (** no ties left: later columns change nothing *)
  Lemma og_finish m bs : og (kprefix m) (locs n) bs -> length bs = n -> forall k, og (kprefix (k + m)) (locs n) bs.
  Proof.
    intros H Hl k. induction k as [|k IH]; [done|].
    eapply og_cmp_ext; [|apply (og_no_ties (kprefix (k + m)) (kcol (k + m)))]; [done|done|by rewrite locs_length|].
    intros a. apply kcol_refl.
  Qed.

  (** the loop invariant: columns before [m] are done; if [half], the real part
      of the complex column [m] too *)
  Record dinv (force : bool) (s : df_state) (m : nat) (half : bool) (bs : list (list Z)) : Prop := Dinv {
    dv_pos : if half then (ds_i s <= Z.of_nat m)%Z /\ (exists x, cols !! m = Some (OCpl x))
             else ds_i s = Z.of_nat m /\ ds_rerun s = false /\ m <= length cols;
    dv_d : length pd = 1 -> ds_decreasing s = flag pd 0;
    dv_l : length pl = 1 -> ds_na_last s = flag pl 0;
    dv_og : og (kstate m half) (locs n) bs;
    dv_o : ds_o s = Order (concat bs) true;
    dv_w : wok n np (ds_w s);
    dv_g : gwf (ds_g s);
    dv_force : g_force_groups (ds_g s) = force;
    dv_max : n <= g_max_data_size (ds_g s);
    dv_ign : m < length cols \/ force = true -> g_ignore_groups (ds_g s) = false;
    dv_sizes : g_ignore_groups (ds_g s) = false -> gsizes (ds_g s) = map length bs;
    dv_tls : forall x, ds_tls s x = tls0 x;
    dv_wti : tlwf n (ds_ti s);
    dv_cti : tl_clean (ds_ti s) }.

  Lemma flag_read (p : list bool) (cur : bool) i : (length p = 1 -> cur = flag p 0) -> length p = 1 \/ length p = length cols ->
    i < length cols -> (if length p =? 1 then Ok cur else rdZ p (Z.of_nat i)) = Ok (flag p i).
  Proof.
    intros Hc Hp Hi. unfold flag. destruct (Nat.eqb_spec (length p) 1) as [E|E].
    - rewrite Hc by done. unfold flag. by rewrite E.
    - rewrite rdZ_nat. destruct (lookup_lt_is_Some_2 p i) as [b Hb]; [lia|].
      rewrite (proj2 (rd_Ok _ _ _) Hb). by rewrite (nth_lookup_Some _ _ _ _ Hb).
  Qed.

  Lemma iter_step c rr k i : Nat.iter k (pass_step c rr) i = (if is_cpl c && rr then i - Z.of_nat k else i)%Z.
  Proof.
    unfold pass_step. destruct (is_cpl c && rr).
    - induction k as [|k IH]; simpl; [lia|]. rewrite IH. lia.
    - induction k as [|k IH]; simpl; [done|]. done.
  Qed.

  (** one iteration *)
  Lemma df_step_spec force s m half bs i : dinv force s m half bs -> ds_i s = Z.of_nat i -> i < length cols -> length bs <> n ->
    exists s' m' half' bs', df_step cols pd pl nd s = Ok s' /\ dinv force s' m' half' bs' /\
      (* a column that is not complex is finished at once *)
      (half = false -> (exists c, cols !! i = Some c /\ is_cpl c = false) -> m' = S m /\ half' = false).
  Proof.
    intros [Vp Vd Vl Vog Vo Vw Vg Vf Vm Vi Vs Vt Vwt Vct] Ei Hi Hbs.
    assert (Hm : m < length cols).
    { destruct half; [|lia]. destruct Vp as (_ & x & Hx). by eapply lookup_lt_Some. }
    pose proof (Vi (or_introl Hm)) as Hign. pose proof (Vs Hign) as Hsz.
    destruct (gsizes_take (ds_g s) bs Vg Hsz) as [Hng Htk].
    unfold df_step. rewrite Ei, (flag_read pd), (flag_read pl) by done. cbn [bind].
    destruct (lookup_lt_is_Some_2 cols i Hi) as [c Hc].
    rewrite rdZ_nat, (proj2 (rd_Ok _ _ _) Hc). cbn [bind]. rewrite Hng, Vo. cbn [or_data or_initialized].
    set (rr := if is_cpl c then negb (ds_rerun s) else ds_rerun s).
    assert (Hcok : col_ok n c /\ col_n_counts c <= np).
    { rewrite Forall_forall in Hcols. apply Hcols. by eapply elem_of_list_lookup_2. }
    destruct Hcok as [Hcok Hcnp].
    (* truelengths *)
    assert (Htl : exists tls ti w,
      match c with OChr l => chr_mark_sorted_uniques l (ds_w s) (ds_tls s) (ds_ti s) | _ => Ok (ds_tls s, ds_ti s, ds_w s) end
        = Ok (tls, ti, w) /\ chunk_tls c tls /\ wok n np w /\
      exists tls' ti', match c with OChr _ => truelength_reset tls ti | _ => Ok (tls, ti) end = Ok (tls', ti') /\
        (forall x, tls' x = tls0 x) /\ tlwf n ti' /\ tl_clean ti').
    { destruct c as [x|x|x|x|x]; try (eexists _, _, _; split; [reflexivity|]; split; [done|]; split; [done|];
        eexists _, _; split; [reflexivity|]; done).
      destruct Hcok as [Hlen Hok]. cbn [ocol_length] in Hlen.
      assert (Hok' : tls_ok (ds_tls s) x) by (intros t _; rewrite Vt; apply Htls0).
      destruct (chr_mark_sorted_uniques_spec n np x (ds_w s) (ds_tls s) (ds_ti s) HN) as (S & tls & ti & w & E & Wt & Hmk & Hw);
        try done; [lia|].
      destruct (truelength_reset_spec n (ds_tls s) x S tls ti Wt Hok' Hmk) as (tls' & ti' & E' & Wt' & Ct' & Ht').
      exists tls, ti, w. split; [done|]. split; [by exists (ds_tls s), S, ti|]. split; [done|].
      exists tls', ti'. split; [done|]. split; [|done]. intros y. by rewrite Ht', Vt. }
    destruct Htl as (tls & ti & w & -> & Hct & Hw & tls' & ti' & Ereset & Ht' & Wt' & Ct'). cbn [bind].
    set (last := (Z.of_nat i =? Z.of_nat (length cols) - 1)%Z && negb (g_force_groups (ds_g s)) && negb rr).
    set (g1 := if last then groups_set_ignore (ds_g s) true else ds_g s).
    set (g2 := groups_swap g1).
    assert (Hg2 : gwf g2 /\ g_force_groups g2 = force /\ n <= g_max_data_size g2 /\ g_ignore_groups g2 = last /\
                  (last = false -> gsizes g2 = [])).
    { subst g2 g1. destruct last.
      - unfold groups_swap. cbn [groups_set_ignore g_ignore_groups]. done.
      - destruct (groups_swap_spec (ds_g s) Vg Hign) as (A & B & C & D & F & _). split; [done|]. split; [congruence|].
        split; [congruence|]. done. }
    destruct Hg2 as (W2 & F2 & M2 & I2 & S2).
    assert (Hin : forall a, a ∈ concat bs -> a ∈ locs n).
    { intros a Ha. by rewrite (og_perm _ _ _ Vog) in Ha. }
    destruct (groups_loop_spec (df_chunk c (flag pd i) (flag pl i) nd rr tls) (pass_step c rr)
        (pass_cmp nd c (flag pd i) (flag pl i) rr) n np bs)
      with (sizes := gi_data (groups_current (ds_g s))) (s := Z.of_nat i) (w := w) (g := g2)
      as (bss & w5 & g5 & E5 & HF & Hp5 & Hw5); try done.
    { intros a. apply pass_cmp_refl. }
    { apply Vog. }
    { intros j b z w' g' Hb Hw' Hg' Hr'. apply df_chunk_spec; try done.
      - apply (proj1 (Forall_forall _ _) (og_inc _ _ _ Vog)). by eapply elem_of_list_lookup_2.
      - intros a Ha. apply Hin, in_concat_block. exists b. split; [by eapply elem_of_list_lookup_2|done].
      - transitivity (length (concat bs)).
        + rewrite <- (take_drop_middle bs j b Hb), concat_app. simpl. rewrite !app_length. lia.
        + rewrite (og_length _ _ _ Vog), locs_length. done. }
    { intros Hi4. rewrite S2 by congruence. simpl. rewrite (og_length _ _ _ Vog), locs_length. lia. }
    rewrite E5. cbn [bind]. clear E5. rewrite Ereset. cbn [bind]. rewrite iter_step.
    pose proof (og_refine _ _ _ _ _ Vog HF) as Hog'.
    set (s' := DfState _ _ _ _ _ _ _ _ _).
    (* where the invariant stands after the pass *)
    assert (Hk : n_tied bs > 0) by (eapply n_tied_pos; [exact Vog|by rewrite locs_length]).
    assert (Hfin : forall (m' : nat) (half' : bool),
      (if half' then (ds_i s' <= Z.of_nat m')%Z /\ (exists x, cols !! m' = Some (OCpl x))
       else ds_i s' = Z.of_nat m' /\ ds_rerun s' = false /\ m' <= length cols) ->
      (forall a b, cmp_then (kstate m half a b) (pass_cmp nd c (flag pd i) (flag pl i) rr a b) = kstate m' half' a b) ->
      (m' < length cols -> last = false) -> dinv force s' m' half' (concat bss)).
    { intros m' half' H1 H2 H3. constructor; try done.
      - intros E. subst s'. cbn. unfold flag. by rewrite E.
      - intros E. subst s'. cbn. unfold flag. by rewrite E.
      - eapply og_cmp_ext; [|exact Hog']. intros a b _ _. cbn beta. apply H2.
      - apply Hp5.
      - subst s'. cbn. by rewrite (pu_force _ _ _ Hp5).
      - subst s'. cbn. by rewrite (pu_max _ _ _ Hp5).
      - subst s'. cbn. rewrite (pu_ignore _ _ _ Hp5), I2. intros [Hlt|Hforce]; [by apply H3|].
        subst last. rewrite Vf, Hforce. cbn. by rewrite andb_false_r.
      - subst s'. cbn. rewrite (pu_ignore _ _ _ Hp5). intros Hg. rewrite (pu_sizes _ _ _ Hp5), Hg, S2 by congruence. done. }
    exists s'.
    destruct half.
    - (* real part done *)
      destruct Vp as (Hle & x & Hx).
      destruct (decide (i = m)) as [->|Hne].
      + assert (c = OCpl x) as -> by congruence. cbn [is_cpl andb] in *. destruct rr eqn:Err.
        * (* the real part again *)
          exists m, true, (concat bss). split; [done|]. split; [|done]. apply Hfin.
          -- subst s'. cbn. split; [lia|]. by exists x.
          -- intros a b. cbn [kstate]. unfold kre. rewrite Hx. apply then_redundant. unfold cmp_then.
             destruct (kprefix m a b); [|done..]. done.
          -- intros _. subst last. cbn. by rewrite andb_false_r.
        * exists (S m), false, (concat bss). split; [done|]. split; [|done]. apply Hfin.
          -- subst s'. cbn. split; [lia|]. split; [done|lia].
          -- intros a b. cbn [kstate kprefix]. rewrite then_assoc. f_equal. unfold kre. rewrite Hx.
             by rewrite (kcol_cpl m x).
          -- intros Hlt. subst last. rewrite (proj2 (Z.eqb_neq _ _)) by lia. done.
      + (* an earlier column again *)
        exists m, true, (concat bss). split; [done|]. split; [|done]. apply Hfin.
        * subst s'. cbn. split; [|by exists x]. destruct (is_cpl c && rr); lia.
        * intros a b. cbn [kstate]. apply then_redundant. intros H. unfold cmp_then in H.
          destruct (kprefix m a b) eqn:E; try done. apply kcol_parts; [done|]. apply (kprefix_Eq m); [done|lia].
        * intros _. subst last. rewrite (proj2 (Z.eqb_neq _ _)) by lia. done.
    - destruct Vp as (Him & Hrr & _). assert (i = m) as -> by lia.
      destruct (is_cpl c) eqn:Ecpl.
      + destruct c as [x|x|x|x|x]; try done. subst rr. rewrite Hrr in *. cbn [negb] in *.
        exists m, true, (concat bss). split; [done|]. split.
        * apply Hfin.
          -- subst s'. cbn. rewrite ?Hrr. cbn [negb]. split; [lia|]. by exists x.
          -- intros a b. cbn [kstate]. unfold kre. by rewrite Hc.
          -- intros _. subst last. rewrite ?Hrr. cbn [negb]. by rewrite andb_false_r.
        * intros _ (c & Hc' & Hcc). rewrite Hc in Hc'. by injection Hc' as <-.
      + subst rr. rewrite Hrr in *. exists (S m), false, (concat bss). split; [done|]. split; [|done]. apply Hfin.
        * subst s'. cbn. split; [lia|]. split; [done|lia].
        * intros a b. cbn [kstate kprefix]. f_equal. unfold kcol. rewrite Hc. by destruct c.
        * intros Hlt. subst last. rewrite (proj2 (Z.eqb_neq _ _)) by lia. done.
  Qed.

  (** what the loop ends with *)
  Record dend (force : bool) (s : df_state) (bs : list (list Z)) : Prop := Dend {
    de_og : og (kprefix (length cols)) (locs n) bs;
    de_o : ds_o s = Order (concat bs) true;
    de_g : gwf (ds_g s);
    de_sizes : force = true -> gsizes (ds_g s) = map length bs;
    de_tls : forall x, ds_tls s x = tls0 x;
    de_ti : tl_clean (ds_ti s) }.

  Lemma dinv_end force s m half bs : dinv force s m half bs ->
    (Z.of_nat (length cols) <= ds_i s)%Z \/ gi_n_groups (groups_current (ds_g s)) = n /\ m < length cols ->
    dend force s bs.
  Proof.
    intros V Hend. pose proof V as [Vp _ _ Vog Vo _ Vg _ _ Vi Vs Vt _ Vct].
    assert (Hog : og (kprefix (length cols)) (locs n) bs).
    { destruct Hend as [Hend|[Hend Hm]].
      - destruct half.
        + destruct Vp as (Hle & x & Hx). apply lookup_lt_Some in Hx. lia.
        + destruct Vp as (Ei & _ & Hle). assert (m = length cols) as -> by lia. done.
      - pose proof (Vs (Vi (or_introl Hm))) as Hsz. destruct (gsizes_take _ _ Vg Hsz) as [Hng _].
        assert (Hl : length bs = n) by congruence.
        destruct half.
        + destruct Vp as (_ & x & Hx).
          assert (og (kprefix (S m)) (locs n) bs).
          { eapply og_cmp_ext; [|apply (og_no_ties (kstate m true) (pass_cmp nd (OCpl x) (flag pd m) (flag pl m) false))];
              [|done|by rewrite locs_length|intros; apply pass_cmp_refl].
            intros a b _ _. cbn [kstate kprefix]. rewrite then_assoc. f_equal. unfold kre. rewrite Hx. by rewrite (kcol_cpl m x). }
          replace (length cols) with (length cols - S m + S m) by lia. by apply og_finish.
        + replace (length cols) with (length cols - m + m) by lia. by apply og_finish. }
    constructor; try done. intros Hf. apply Vs, Vi. by right.
  Qed.

  Lemma dinv_size force s m half bs : dinv force s m half bs -> length (or_data (ds_o s)) = n.
  Proof. intros V. rewrite (dv_o _ _ _ _ _ V). cbn. by rewrite (og_length _ _ _ (dv_og _ _ _ _ _ V)), locs_length. Qed.
  Lemma dinv_lt force s m half bs : dinv force s m half bs -> (ds_i s < Z.of_nat (length cols))%Z -> m < length cols.
  Proof.
    intros V H. pose proof (dv_pos _ _ _ _ _ V) as Vp. destruct half; [|lia].
    destruct Vp as (_ & x & Hx). by eapply lookup_lt_Some.
  Qed.

  (** any result is right *)
  Lemma df_loop_ok force fuel : forall s m half bs s', dinv force s m half bs ->
    df_loop cols pd pl nd fuel s = Ok s' -> exists bs', dend force s' bs'.
  Proof.
    induction fuel as [|fuel IH]; intros s m half bs s' V E; cbn [df_loop] in E.
    - destruct (Z.ltb_spec (ds_i s) (Z.of_nat (length cols))) as [Hlt|Hge].
      + rewrite (dinv_size _ _ _ _ _ V) in E. destruct (Nat.eqb_spec (gi_n_groups (groups_current (ds_g s))) n) as [En|En]; [|done].
        injection E as <-. exists bs. eapply dinv_end; [done|]. right. split; [done|]. by eapply dinv_lt.
      + injection E as <-. exists bs. eapply dinv_end; [done|]. by left.
    - destruct (Z.ltb_spec (ds_i s) (Z.of_nat (length cols))) as [Hlt|Hge].
      + rewrite (dinv_size _ _ _ _ _ V) in E. destruct (Nat.eqb_spec (gi_n_groups (groups_current (ds_g s))) n) as [En|En].
        { injection E as <-. exists bs. eapply dinv_end; [done|]. right. split; [done|]. by eapply dinv_lt. }
        destruct (decide (0 <= ds_i s)%Z) as [H0|H0].
        * destruct (df_step_spec force s m half bs (Z.to_nat (ds_i s)) V) as (s1 & m1 & half1 & bs1 & E1 & V1 & _); [lia|lia| |].
          { intros Hl. apply En. pose proof (dinv_lt _ _ _ _ _ V Hlt) as Hm.
            destruct (gsizes_take (ds_g s) bs (dv_g _ _ _ _ _ V)) as [Hng _]; [|congruence].
            apply (dv_sizes _ _ _ _ _ V), (dv_ign _ _ _ _ _ V). by left. }
          rewrite E1 in E. cbn [bind] in E. by eapply IH.
        * exfalso. revert E. unfold df_step. unfold rdZ.
          destruct (Z.ltb_spec (ds_i s) 0) as [_|?]; [|lia].
          destruct (length pd =? 1); [|by intros ?]. cbn [bind]. destruct (length pl =? 1); by intros ?.
      + injection E as <-. exists bs. eapply dinv_end; [done|]. by left.
  Qed.

  (** without a complex column after the first, the loop ends *)
  Lemma df_loop_total force fuel : forall s m bs, dinv force s m false bs ->
    (forall j c, m <= j -> cols !! j = Some c -> is_cpl c = false) -> length cols - m <= fuel ->
    exists s' bs', df_loop cols pd pl nd fuel s = Ok s' /\ dend force s' bs'.
  Proof.
    induction fuel as [|fuel IH]; intros s m bs V Hnc Hfuel; cbn [df_loop].
    - pose proof (dv_pos _ _ _ _ _ V) as (Ei & _ & Hle). rewrite Ei.
      destruct (Z.ltb_spec (Z.of_nat m) (Z.of_nat (length cols))) as [Hlt|Hge]; [lia|].
      exists s, bs. split; [done|]. eapply dinv_end; [done|]. left. lia.
    - pose proof (dv_pos _ _ _ _ _ V) as (Ei & _ & Hle). rewrite Ei.
      destruct (Z.ltb_spec (Z.of_nat m) (Z.of_nat (length cols))) as [Hlt|Hge].
      + rewrite (dinv_size _ _ _ _ _ V). destruct (Nat.eqb_spec (gi_n_groups (groups_current (ds_g s))) n) as [En|En].
        { exists s, bs. split; [done|]. eapply dinv_end; [done|]. right. split; [done|lia]. }
        destruct (df_step_spec force s m false bs m V) as (s1 & m1 & half1 & bs1 & E1 & V1 & Hs1); [lia|lia| |].
        { intros Hl. apply En.
          destruct (gsizes_take (ds_g s) bs (dv_g _ _ _ _ _ V)) as [Hng _]; [|congruence].
          apply (dv_sizes _ _ _ _ _ V), (dv_ign _ _ _ _ _ V). left. lia. }
        destruct (lookup_lt_is_Some_2 cols m) as [c Hc]; [lia|].
        destruct Hs1 as [-> ->]; [done|exists c; split; [done|by apply (Hnc m c)]|].
        rewrite E1. cbn [bind]. apply (IH s1 (S m) bs1 V1); [|lia]. intros j c' Hj. apply Hnc. lia.
      + exists s, bs. split; [done|]. eapply dinv_end; [done|]. left. lia.
  Qed.
End df.
