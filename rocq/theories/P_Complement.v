(** * C32: the complement of intervals *)
From Verif Require Import Base M_Double M_Scalar M_Object M_Proxy M_OrderChr M_OrderDf M_Rank M_Interval.
From Verif Require Import Spec_Order Spec_OrderRow Spec_Interval L_OrderSpec L_Interval L_IntervalRow L_IntervalLoop L_IntervalGap P_Order P_Rank P_Interval.
From Coq Require Import Sorting.Sorted.
#[local] Arguments Z.mul : simpl never.
#[local] Arguments Z.add : simpl never.
#[local] Arguments Z.sub : simpl never.
#[local] Arguments Z.to_nat : simpl never.
#[local] Arguments Z.of_nat : simpl never.

(** A valid bound: one complete row, of the types of the intervals. *)
Definition bound_ok (s : oproxy) (b : option oproxy) : Prop :=
  match b with
  | None => True
  | Some b => oproxy_size b = 1 /\ Forall (col_ok 1) (proxy_cols b) /\ map ocol_kind (proxy_cols b) = map ocol_kind (proxy_cols s) /\ complete_at b 1 = true
  end.
Definition bound_at (b : option oproxy) : option (list elt) := (fun b => point_at b 1) <$> b.

(** ** The arrays *)
Definition arr (max : nat) (l : list Z) (a : list Z * nat) : Prop :=
  a.2 = length l /\ exists r, a.1 = l ++ replicate r 0%Z /\ length l + r = max.
Lemma put_ok max l a v : arr max l a -> length l < max -> exists a', put a v = Ok a' /\ arr max (l ++ [v]) a'.
Proof.
  intros (E2 & r & E1 & Hr) Hl. unfold put. rewrite E1, E2. rewrite wr_Ok by (rewrite app_length, replicate_length; lia). cbn [bind].
  eexists. split; [reflexivity|]. destruct r as [|r]; [lia|]. split; cbn [fst snd]; [rewrite app_length; cbn; lia|].
  exists r. rewrite app_length. cbn [length]. split; [|lia]. rewrite insert_app_r_alt by lia. rewrite Nat.sub_diag. cbn. by rewrite <- app_assoc.
Qed.
Lemma arr_take max l a : arr max l a -> take a.2 a.1 = l.
Proof. intros (E2 & r & E1 & _). rewrite E1, E2. apply take_app. Qed.
Lemma arr_nil max : arr max [] (alloc max, 0).
Proof. split; [done|]. by exists max. Qed.

(** ** Gaps as two lists *)
Lemma zip_gaps_some {V} (l : V) M R : M <> [] ->
  zip (l :: match R with Some _ => map snd M | None => removelast (map snd M) end) (map fst M ++ match R with Some r => [r] | None => [] end) = gaps (Some l) M R.
Proof.
  revert l. induction M as [|[s e] M IH]; intros l Hne; [done|]. destruct M as [|m M].
  - by destruct R.
  - specialize (IH e). change (gaps (Some l) ((s, e) :: m :: M) R) with ((l, s) :: gaps (Some e) (m :: M) R). rewrite <- IH by done.
    destruct R; done.
Qed.
Lemma zip_gaps {V} (L : option V) M R : M <> [] ->
  zip (match L with Some l => [l] | None => [] end ++ match R with Some _ => map snd M | None => removelast (map snd M) end)
    (match L with Some _ => map fst M | None => tail (map fst M) end ++ match R with Some r => [r] | None => [] end) = gaps L M R.
Proof.
  intros Hne. destruct L as [l|]; [by apply zip_gaps_some|]. destruct M as [|[s e] M]; [done|]. destruct M as [|m M]; [by destruct R|].
  change (gaps None ((s, e) :: m :: M) R) with (gaps (Some e) (m :: M) R). rewrite <- zip_gaps_some by done. by destruct R.
Qed.

Section complement.
  Context (s e : oproxy) (tls : truelengths) (H : interval_input s e tls).
  Notation S' := (point_at s). Notation E' := (point_at e).
  Notation T := row_vcmp_tpo.
  Notation vlt := (vlt row_vcmp). Notation vle := (vle row_vcmp).
  Notation ivs := (map (fun g : Z * Z => (S' g.1, E' g.2))).
  (** the merged intervals *)
  Context (G : list (Z * Z)) (HG : chain row_vcmp (ivs G)) (HU : forall g, g ∈ G -> g.1 ∈ usable_locs s /\ g.2 ∈ usable_locs s).

  Lemma G_lt g : g ∈ G -> vlt (S' g.1) (E' g.2).
  Proof. intros Hg. destruct HG as [F _]. rewrite Forall_forall in F. apply (F (S' g.1, E' g.2)). apply elem_of_list_fmap. by exists g. Qed.
  Lemma G_sorted i j g h : i < j -> G !! i = Some g -> G !! j = Some h -> vlt (E' g.2) (S' h.1).
  Proof.
    intros Hij Hg Hh. destruct HG as [_ SS]. apply (ss_lookup _ _ i j (S' g.1, E' g.2) (S' h.1, E' h.2) SS Hij).
    - rewrite list_lookup_fmap, Hg. done.
    - rewrite list_lookup_fmap, Hh. done.
  Qed.

  Lemma bound_rows b : bound_ok s (Some b) -> orows b = [point_at b 1].
  Proof.
    intros (Hs & F & _). assert (Es : proxy_size (oproxy_proxy b) = oproxy_size b) by (destruct b; [apply ocol_vec_length|done]).
    unfold orows, proxy_rows. rewrite Es, Hs. cbn [seq map]. rewrite rows_at; [done| |lia]. rewrite Hs. eapply Forall_impl; [exact F|]. by intros c [? _].
  Qed.
  Lemma bound_row0 b : bound_ok s (Some b) -> rdZ (orows b) 0 = Ok (point_at b 1).
  Proof. intros Hb. rewrite bound_rows by done. done. Qed.
  Lemma check_bound_ok b : bound_ok s b -> check_bound b = Ok tt.
  Proof.
    destruct b as [b|]; [|done]. intros (Hs & F & _ & Hc). unfold check_bound. rewrite Hs. cbn [Nat.eqb negb]. rewrite detect_ok.
    - rewrite Hs. cbn [bind seq map rd lookup list_lookup]. replace (Z.of_nat 0 + 1)%Z with 1%Z by lia. by rewrite Hc.
    - rewrite Hs. eapply Forall_impl; [exact F|]. by intros c [? _].
  Qed.
  Lemma cmp_bs b a : bound_ok s (Some b) -> a ∈ usable_locs s -> cmp_bound (Some b) s (a - 1) = Ok (c2z (row_vcmp (point_at b 1) (S' a))).
  Proof.
    intros Hb Ha. destruct (usable_range s e tls H a Ha) as (Ra & Sa & Ea). cbn [cmp_bound]. unfold fn_compare. rewrite bound_row0 by done. cbn [bind].
    destruct Hb as (Hs & F & Hk' & Hc). pose proof (len_s s e tls H) as Hl.
    destruct H as ((Hsz & HN & Oc & Od & Hk & Hn) & Ht & Hr). rewrite (orows_at s a Hl) by done. cbn [bind].
    eapply row_compare_vcmp; try done. by eapply kinds_ncpl.
  Qed.
  Lemma cmp_be b a : bound_ok s (Some b) -> a ∈ usable_locs s -> cmp_bound (Some b) e (a - 1) = Ok (c2z (row_vcmp (point_at b 1) (E' a))).
  Proof.
    intros Hb Ha. destruct (usable_range s e tls H a Ha) as (Ra & Sa & Ea). cbn [cmp_bound]. unfold fn_compare. rewrite bound_row0 by done. cbn [bind].
    destruct Hb as (Hs & F & Hk' & Hc). pose proof (len_e s e tls H) as Hl.
    destruct H as ((Hsz & HN & Oc & Od & Hk & Hn) & Ht & Hr). rewrite (orows_at e a Hl) by (rewrite <- Hsz; done). cbn [bind].
    eapply row_compare_vcmp; try done; [congruence|]. by eapply kinds_ncpl.
  Qed.
  Lemma cmp_bb b c : bound_ok s (Some b) -> bound_ok s (Some c) -> fn_compare b 0 c 0 = Ok (c2z (row_vcmp (point_at b 1) (point_at c 1))).
  Proof.
    intros Hb Hc. unfold fn_compare. rewrite !bound_row0 by done. cbn [bind].
    destruct Hb as (Hs & F & Hk' & Hcb), Hc as (Hs2 & F2 & Hk2 & Hc2). destruct H as ((Hsz & HN & Oc & Od & Hk & Hn) & Ht & Hr).
    eapply row_compare_vcmp; try done; [congruence|]. by eapply kinds_ncpl.
  Qed.

  (** ** The loops over the bounds *)
  Definition left_in (v : list elt) (A : list (Z * Z)) (be : Z) : Prop :=
    (be = Z.of_nat (length A) /\ Forall (fun g => vlt (E' g.2) v) A) \/
    (exists A' m, A = A' ++ [m] /\ be = Z.of_nat (length A') /\ vle v (E' m.2)).
  Definition right_in (v : list elt) (n : nat) (B : list (Z * Z)) (af : Z) : Prop :=
    (af = (Z.of_nat n - 1)%Z /\ Forall (fun g => vlt v (S' g.1)) B) \/
    (exists m B', B = m :: B' /\ af = Z.of_nat n /\ vle (S' m.1) v).

  Lemma lower_loop_ok b : bound_ok s (Some b) -> let v := point_at b 1 in
    exists A X be, G = A ++ X /\ lower_loop s e (map fst G) (map snd G) (Some b) (length G) = Ok (length A, (Z.of_nat (length A) - 1)%Z, be) /\
      Forall (fun g => vle (S' g.1) v) A /\ Forall (fun g => vlt v (S' g.1)) X /\ left_in v A be.
  Proof.
    intros Hb v. unfold lower_loop.
    set (I := fun (k : nat) (st : nat * Z * Z) => k <= length G /\ st.1.1 = k /\ st.1.2 = (Z.of_nat k - 1)%Z /\
      Forall (fun g => vle (S' g.1) v) (take k G) /\ left_in v (take k G) st.2).
    edestruct (for_brk_inv I (fun st => I st.1.1 st /\ Forall (fun g => vlt v (S' g.1)) (drop st.1.1 G)) 0 (length G))
      as ([[i af] be] & E & (Hk & _ & Haf & F & Hin) & FX); [| | |exists (take i G), (drop i G), be; cbn [fst snd] in *; rewrite take_drop].
    4:{ split; [done|]. rewrite take_length, Nat.min_l by done. split; [rewrite E; by rewrite Haf|]. done. }
    - split; [lia|]. split; [done|]. split; [done|]. split; [constructor|]. left. split; [done|constructor].
    - intros k [[i af] be] Hk (Hk' & Ei & Eaf & F & Hin). cbn [fst snd] in *. subst i af.
      destruct (lookup_lt_is_Some_2 G k) as [g Hg]; [lia|]. destruct (HU g) as [U1 U2]; [by eapply elem_of_list_lookup_2|].
      assert (rd (map fst G) k = Ok g.1) as -> by (apply rd_Ok; rewrite list_lookup_fmap, Hg; done). cbn [bind].
      assert (rd (map snd G) k = Ok g.2) as -> by (apply rd_Ok; rewrite list_lookup_fmap, Hg; done). cbn [bind].
      rewrite (cmp_be b g.2 Hb U2). cbn [bind]. fold v.
      assert (Htk : take (Datatypes.S k) G = take k G ++ [g]) by (by apply take_S_r).
      assert (Hgl : vlt (S' g.1) (E' g.2)) by (apply G_lt; by eapply elem_of_list_lookup_2).
      assert (Hlast : forall A' m, take k G = A' ++ [m] -> vlt (E' m.2) (S' g.1)).
      { intros A' m Ht. assert (Hl : length A' < k) by (apply (f_equal length) in Ht; rewrite take_length, app_length in Ht; cbn in Ht; lia).
        apply (G_sorted (length A') k m g Hl); [|done]. rewrite <- (lookup_take G k) by done. rewrite Ht, lookup_app_r by lia. by rewrite Nat.sub_diag. }
      assert (Hlen : length (take k G) = k) by (rewrite take_length; lia).
      destruct (Z.eqb_spec (c2z (row_vcmp v (E' g.2))) 1) as [Ec|Ec].
      + left. eexists. split; [reflexivity|]. assert (Hgv : vlt (E' g.2) v).
        { unfold Spec_Interval.vlt. rewrite (tp_sym _ T). destruct (row_vcmp v (E' g.2)); done. }
        split; [lia|]. split; [done|]. cbn [fst snd]. split; [lia|]. rewrite Htk. split.
        * apply Forall_app. split; [done|]. repeat constructor. apply vlt_vle. by apply (vlt_trans _ T _ (E' g.2)).
        * destruct Hin as [[-> F2]|(A' & m & Ht & -> & Hm)].
          -- left. rewrite app_length, Hlen. cbn. split; [lia|]. apply Forall_app. split; [done|]. by repeat constructor.
          -- exfalso. apply (vle_vlt _ T v (E' m.2)); [done|]. specialize (Hlast A' m Ht).
             apply (vlt_trans _ T _ (S' g.1)); [done|]. by apply (vlt_trans _ T _ (E' g.2)).
      + rewrite (cmp_bs b g.1 Hb U1). cbn [bind]. fold v. assert (Hvg : vle v (E' g.2)) by (unfold Spec_Interval.vle; intros Hx; rewrite Hx in Ec; done).
        destruct (Z.leb_spec 0 (c2z (row_vcmp v (S' g.1)))) as [Ec2|Ec2].
        * left. eexists. split; [reflexivity|]. assert (Hgv : vle (S' g.1) v).
          { unfold Spec_Interval.vle. rewrite (tp_sym _ T). by destruct (row_vcmp v (S' g.1)). }
          split; [lia|]. split; [done|]. cbn [fst snd]. split; [lia|]. rewrite Htk. split; [apply Forall_app; split; [done|by repeat constructor]|].
          right. exists (take k G), g. split; [done|]. split; [|done]. destruct Hin as [[-> F2]|(A' & m & Ht & -> & Hm)]; [done|]. exfalso.
          apply (vle_vlt _ T v (E' m.2)); [done|]. by apply (vlt_le_trans _ T _ (S' g.1)); [apply (Hlast A')|].
        * right. eexists. split; [reflexivity|]. cbn [fst snd]. split; [done|].
          assert (Hvs : vlt v (S' g.1)) by (unfold Spec_Interval.vlt; by destruct (row_vcmp v (S' g.1))).
          rewrite (drop_S _ _ _ Hg). constructor; [done|]. apply Forall_forall. intros h Hh. apply elem_of_list_lookup in Hh as [j Hj]. rewrite lookup_drop in Hj.
          apply (vlt_trans _ T _ (S' g.1)); [done|]. apply (vlt_trans _ T _ (E' g.2)); [done|]. apply (G_sorted k (Datatypes.S k + j)); [lia|done|done].
    - intros [[i af] be] HI. pose proof HI as (_ & Ei & _). cbn [fst] in Ei |- *. subst i. split; [exact HI|]. rewrite drop_ge by lia. constructor.
  Qed.

  Lemma upper_loop_ok b : bound_ok s (Some b) -> let v := point_at b 1 in
    exists Y B af, G = Y ++ B /\ upper_loop s e (map fst G) (map snd G) (Some b) (length G) = Ok (length Y, af, Z.of_nat (length Y)) /\
      Forall (fun g => vle v (E' g.2)) B /\ Forall (fun g => vlt (E' g.2) v) Y /\ right_in v (length Y) B af.
  Proof.
    intros Hb v. unfold upper_loop.
    set (I := fun (k : nat) (st : nat * Z * Z) => k <= length G /\ st.2 = Z.of_nat st.1.1 /\ st.1.1 = length G - k /\
      Forall (fun g => vle v (E' g.2)) (drop (length G - k) G) /\ right_in v (length G - k) (drop (length G - k) G) st.1.2).
    edestruct (for_brk_inv I (fun st => I (length G - st.1.1) st /\ st.1.1 <= length G /\ Forall (fun g => vlt (E' g.2) v) (take st.1.1 G)) 0 (length G))
      as ([[i af] be] & E & (_ & Ebe & _ & F & Hin) & Hi & FX); [| | |exists (take i G), (drop i G), af; cbn [fst snd] in *; rewrite take_drop].
    4:{ replace (length G - (length G - i)) with i in F, Hin by lia. rewrite take_length, Nat.min_l by done. subst be. done. }
    - split; [lia|]. split; [done|]. split; [cbn; lia|]. rewrite Nat.sub_0_r, drop_all. split; [constructor|]. left. split; [done|constructor].
    - intros k [[i af] be] Hk (Hk' & Ebe & Ei & F & Hin). cbn [fst snd] in *.
      destruct i as [|i]; [lia|]. replace (length G - k) with (Datatypes.S i) in F, Hin by lia.
      replace (length G - Datatypes.S k) with i in * by lia.
      destruct (lookup_lt_is_Some_2 G i) as [g Hg]; [lia|]. destruct (HU g) as [U1 U2]; [by eapply elem_of_list_lookup_2|].
      replace (Z.of_nat (Datatypes.S i) - 1)%Z with (Z.of_nat i) by lia. rewrite !rdZ_nat.
      assert (rd (map fst G) i = Ok g.1) as -> by (apply rd_Ok; rewrite list_lookup_fmap, Hg; done). cbn [bind].
      assert (rd (map snd G) i = Ok g.2) as -> by (apply rd_Ok; rewrite list_lookup_fmap, Hg; done). cbn [bind].
      rewrite (cmp_bs b g.1 Hb U1). cbn [bind]. fold v.
      assert (Hgl : vlt (S' g.1) (E' g.2)) by (apply G_lt; by eapply elem_of_list_lookup_2).
      assert (Hnext : forall m B', drop (Datatypes.S i) G = m :: B' -> vlt (E' g.2) (S' m.1)).
      { intros m B' Hd. apply (G_sorted i (Datatypes.S i) g m); [lia|done|]. assert (Hx : drop (Datatypes.S i) G !! 0 = Some m) by (by rewrite Hd).
        rewrite lookup_drop in Hx. by rewrite Nat.add_0_r in Hx. }
      replace (Datatypes.S i - 1) with i by lia.
      destruct (Z.eqb_spec (c2z (row_vcmp v (S' g.1))) (-1)) as [Ec|Ec].
      + left. eexists. split; [reflexivity|]. assert (Hgv : vlt v (S' g.1)) by (unfold Spec_Interval.vlt; by destruct (row_vcmp v (S' g.1))).
        split; [lia|]. cbn [fst snd]. split; [lia|]. replace (length G - Datatypes.S k) with i by lia. split; [done|]. rewrite (drop_S _ _ _ Hg). split.
        * constructor; [|done]. apply vlt_vle. by apply (vlt_trans _ T _ (S' g.1)).
        * destruct Hin as [[-> F2]|(m & B' & Hd & -> & Hm)].
          -- left. split; [lia|]. by constructor.
          -- exfalso. apply (vle_vlt _ T (S' m.1) v); [done|]. apply (vlt_trans _ T _ (S' g.1)); [done|]. apply (vlt_trans _ T _ (E' g.2)); [done|]. by eapply Hnext.
      + rewrite (cmp_be b g.2 Hb U2). cbn [bind]. fold v.
        assert (Hgv : vle (S' g.1) v) by (unfold Spec_Interval.vle; rewrite (tp_sym _ T); by destruct (row_vcmp v (S' g.1))).
        destruct (Z.leb_spec (c2z (row_vcmp v (E' g.2))) 0) as [Ec2|Ec2].
        * left. eexists. split; [reflexivity|]. assert (Hge : vle v (E' g.2)) by (unfold Spec_Interval.vle; intros Hx; rewrite Hx in Ec2; cbn in Ec2; lia).
          split; [lia|]. cbn [fst snd]. split; [lia|]. replace (length G - Datatypes.S k) with i by lia. split; [done|]. rewrite (drop_S _ _ _ Hg).
          split; [by constructor|]. right. exists g, (drop (Datatypes.S i) G). split; [done|]. split; [|done].
          destruct Hin as [[-> F2]|(m & B' & Hd & -> & Hm)]; [lia|]. exfalso. apply (vle_vlt _ T (S' m.1) v); [done|].
          apply (vle_lt_trans _ T _ (E' g.2)); [done|]. by eapply Hnext.
        * right. eexists. split; [reflexivity|]. cbn [fst snd]. unfold I. replace (length G - (length G - Datatypes.S i)) with (Datatypes.S i) by lia.
          cbn [fst snd]. split; [split; [lia|done]|]. split; [lia|].
          assert (Hev : vlt (E' g.2) v). { unfold Spec_Interval.vlt. rewrite (tp_sym _ T). destruct (row_vcmp v (E' g.2)); cbn in Ec2; done || lia. }
          apply Forall_forall. intros h Hh. apply elem_of_list_lookup in Hh as [j Hj]. pose proof (lookup_lt_Some _ _ _ Hj) as Hjl. rewrite take_length in Hjl.
          rewrite lookup_take in Hj by lia. destruct (Nat.eq_dec j i) as [->|Hne]; [congruence|].
          apply (vlt_trans _ T _ (S' g.1)); [apply (G_sorted j i); [lia|done|done]|]. by apply (vlt_trans _ T _ (E' g.2)).
    - intros [[i af] be] HI. pose proof HI as (_ & _ & Ei & _). cbn [fst snd] in *. assert (i = 0) as -> by lia. cbn [take].
      replace (length G - 0) with (0 + length G) by lia. split; [done|]. split; [lia|constructor].
  Qed.

  (** ** The gaps *)
  Definition opt {A} (o : option A) : list A := match o with Some x => [x] | None => [] end.
  Definition used {A} (o : option A) : bool := match o with Some _ => true | None => false end.
  Definition pre_rows (b : option oproxy) (append : bool) : list (list elt) := if append then default [] (orows <$> b) else [].
  Context (A M B : list (Z * Z)) (EG : G = A ++ M ++ B).
  (** what is known of a bound: where it is, and the value next to it *)
  Definition lower_st (lower : option oproxy) (af be : Z) : Prop :=
    match lower with
    | None => A = []
    | Some b => bound_ok s (Some b) /\ af = (Z.of_nat (length A) - 1)%Z /\ Forall (fun g => vle (S' g.1) (point_at b 1)) A /\ left_in (point_at b 1) A be
    end.
  Definition upper_st (upper : option oproxy) (af be : Z) : Prop :=
    match upper with
    | None => B = []
    | Some b => bound_ok s (Some b) /\ be = Z.of_nat (length (A ++ M)) /\ Forall (fun g => vle (point_at b 1) (E' g.2)) B /\ right_in (point_at b 1) (length (A ++ M)) B af
    end.
  Lemma at_mend i g : G !! i = Some g -> rdZ (map snd G) (Z.of_nat i) = Ok g.2.
  Proof. intros Hg. rewrite rdZ_nat. apply rd_Ok. rewrite list_lookup_fmap, Hg. done. Qed.
  Lemma at_mstart i g : G !! i = Some g -> rdZ (map fst G) (Z.of_nat i) = Ok g.1.
  Proof. intros Hg. rewrite rdZ_nat. apply rd_Ok. rewrite list_lookup_fmap, Hg. done. Qed.
  Lemma G_A A' m : A = A' ++ [m] -> G !! length A' = Some m.
  Proof. intros EA. rewrite EG, EA, <- app_assoc, lookup_app_r, Nat.sub_diag by lia. done. Qed.
  Lemma G_M g0 M' : M = g0 :: M' -> G !! length A = Some g0.
  Proof. intros EM. rewrite EG, EM, lookup_app_r, Nat.sub_diag by lia. done. Qed.
  Lemma G_last M' g0 : M = M' ++ [g0] -> G !! (length (A ++ M) - 1) = Some g0.
  Proof.
    intros EM. rewrite EG, EM, !app_length. cbn [length]. rewrite lookup_app_r by lia. rewrite lookup_app_l by (rewrite app_length; cbn; lia).
    rewrite lookup_app_r by lia. replace (_ - _ - _) with 0 by lia. done.
  Qed.
  Lemma G_B m B' : B = m :: B' -> G !! length (A ++ M) = Some m.
  Proof. intros EB. rewrite EG, EB, app_assoc, lookup_app_r, Nat.sub_diag by lia. done. Qed.

  (** the value next to [lower] *)
  Lemma lower_value b af be : lower_st (Some b) af be ->
    exists l1 append L, left_of row_vcmp (Some (point_at b 1)) (ivs A) (Some L) /\ pre_rows (Some b) append ++ map E' l1 = [L] /\ length l1 <= length A /\ Forall (fun a => a ∈ usable_locs s) l1 /\ ((append = true /\ l1 = [] /\ (be =? af)%Z = false) \/ (exists x, append = false /\ l1 = [x] /\ (be =? af)%Z = true /\ rdZ (map snd G) be = Ok x)).
  Proof.
    intros (Hb & -> & F & [[-> F2]|(A' & m & EA & -> & Hm)]).
    - exists [], true, (point_at b 1). split; [split; [|left; split; [done|]]; rewrite Forall_fmap; done|]. split; [cbn; by rewrite (bound_rows b Hb)|].
      split; [cbn; lia|]. split; [constructor|]. left. split; [done|]. split; [done|]. lia.
    - exists [m.2], false, (E' m.2). split; [split; [by rewrite Forall_fmap|right; exists (ivs A'), (S' m.1, E' m.2); rewrite EA, map_app; done]|].
      split; [done|]. split; [rewrite EA, app_length; cbn; lia|]. pose proof (G_A A' m EA) as Hg.
      split; [repeat constructor; apply (HU m); by eapply elem_of_list_lookup_2|]. right. exists m.2. split; [done|]. split; [done|].
      split; [rewrite EA, app_length; cbn; lia|]. by apply at_mend.
  Qed.
  Lemma upper_value b af be : upper_st (Some b) af be ->
    exists l3 append R, right_of row_vcmp (Some (point_at b 1)) (ivs B) (Some R) /\ map S' l3 ++ pre_rows (Some b) append = [R] /\ length l3 <= length B /\ Forall (fun a => a ∈ usable_locs s) l3 /\ ((append = true /\ l3 = [] /\ (be =? af)%Z = false) \/ (exists x, append = false /\ l3 = [x] /\ (be =? af)%Z = true /\ rdZ (map fst G) be = Ok x)).
  Proof.
    intros (Hb & -> & F & [[-> F2]|(m & B' & EB & -> & Hm)]).
    - exists [], true, (point_at b 1). split; [split; [|left; split; [done|]]; rewrite Forall_fmap; done|]. split; [cbn; by rewrite (bound_rows b Hb)|].
      split; [cbn; lia|]. split; [constructor|]. left. split; [done|]. split; [done|]. lia.
    - exists [m.1], false, (S' m.1). split; [split; [by rewrite Forall_fmap|right; exists (S' m.1, E' m.2), (ivs B'); rewrite EB; done]|].
      split; [done|]. split; [rewrite EB; cbn; lia|]. pose proof (G_B m B' EB) as Hg.
      split; [repeat constructor; apply (HU m); by eapply elem_of_list_lookup_2|]. right. exists m.1. split; [done|]. split; [done|].
      split; [lia|]. by apply at_mstart.
  Qed.

  Lemma slice_ok p l : Forall (fun c => ocol_length c = oproxy_size p) (proxy_cols p) -> oproxy_size p = oproxy_size s ->
    Forall (fun a => a ∈ usable_locs s) l -> slice_rows (orows p) l = Ok (map (point_at p) l).
  Proof.
    intros Hl Hs. induction 1 as [|a l Ha F IH]; [done|]. cbn [slice_rows foldr]. destruct (usable_range s e tls H a Ha) as (Ra & _).
    rewrite (orows_at p a Hl) by (by rewrite Hs). cbn [bind]. fold (slice_rows (orows p) l). rewrite IH. done.
  Qed.

  (** one or more intervals between the bounds *)
  Lemma lower_stage lower af be max1 max2 g0 M' : lower_st lower af be -> M = g0 :: M' -> length A <= max1 -> (lower <> None -> 0 < max2) ->
    let use_lower := match lower with Some _ => true | None => false end in
    exists l1 append L ls le,
      (if use_lower then lower_gap (map fst G) (map snd G) af be (alloc max1, 0) (alloc max2, 0) else Ok ((alloc max1, 0), (alloc max2, 0), false)) = Ok (ls, le, append) /\
      arr max1 l1 ls /\ arr max2 (if use_lower then [g0.1] else []) le /\ left_of row_vcmp (bound_at lower) (ivs A) L /\ used L = used lower /\
      pre_rows lower append ++ map E' l1 = opt L /\ length l1 <= length A /\ Forall (fun a => a ∈ usable_locs s) l1.
  Proof.
    intros Hst EM Hm1 Hm2. destruct lower as [b|].
    2:{ cbn in Hst. exists [], false, None, (alloc max1, 0), (alloc max2, 0). split; [done|]. split; [apply arr_nil|]. split; [apply arr_nil|].
        split; [split; [by rewrite Hst|done]|]. split; [done|]. split; [done|]. split; [cbn; lia|constructor]. }
    pose proof Hst as (_ & Eaf & _). destruct (lower_value b af be Hst) as (l1 & append & L & HL & Hrow & Hlen & Fu & Hc).
    cbn zeta. unfold lower_gap. specialize (Hm2 ltac:(done)).
    assert (Hms : rdZ (map fst G) (af + 1) = Ok g0.1) by (replace (af + 1)%Z with (Z.of_nat (length A)) by lia; apply at_mstart; by eapply G_M).
    destruct (put_ok max2 [] (alloc max2, 0) g0.1 (arr_nil max2) Hm2) as (le & Ele & Hle).
    destruct Hc as [(-> & -> & ->)|(x & -> & -> & -> & Ex)].
    - cbn [bind]. rewrite Hms. cbn [bind]. replace (g0.1 - 1 + 1)%Z with g0.1 by lia. rewrite Ele. cbn [bind].
      eexists [], true, (Some L), _, le. split; [reflexivity|]. split; [apply arr_nil|]. split; [exact Hle|]. done.
    - rewrite Ex. cbn [bind]. rewrite Hms. cbn [bind]. replace (g0.1 - 1 + 1)%Z with g0.1 by lia. replace (x - 1 + 1)%Z with x by lia.
      cbn in Hlen. destruct (put_ok max1 [] (alloc max1, 0) x (arr_nil max1)) as (ls & Els & Hls); [cbn; lia|]. rewrite Els. cbn [bind]. rewrite Ele. cbn [bind].
      exists [x], false, (Some L), ls, le. split; [reflexivity|]. split; [exact Hls|]. split; [exact Hle|]. done.
  Qed.
  Lemma removelast_take {X} (l : list X) : removelast l = take (length l - 1) l.
  Proof. induction l as [|x l IH]; [done|]. destruct l as [|y l]; [done|]. change (removelast (x :: y :: l)) with (x :: removelast (y :: l)). rewrite IH. cbn. by rewrite Nat.sub_0_r. Qed.
  Lemma inner_stage l1 l2 ls le max1 max2 g0 M' : M = g0 :: M' -> arr max1 l1 ls -> arr max2 l2 le ->
    length l1 + length M' <= max1 -> length l2 + length M' <= max2 ->
    exists ls' le', inner_gaps (map fst G) (map snd G) (length A) (length (A ++ M)) ls le = Ok (ls', le') /\
      arr max1 (l1 ++ removelast (map snd M)) ls' /\ arr max2 (l2 ++ tail (map fst M)) le'.
  Proof.
    intros EM H1 H2 Hm1 Hm2. unfold inner_gaps. destruct (Nat.ltb_spec (length A) (length (A ++ M))) as [_|Hx]; [|rewrite app_length, EM in Hx; cbn in Hx; lia].
    rewrite <- rdZ_nat. rewrite (at_mend _ _ (G_M g0 M' EM)). cbn [bind].
    edestruct (for_inv (fun i '((ls, le, pe) : (list Z * nat) * (list Z * nat) * Z) => exists k g, i = Datatypes.S (length A) + k /\ k <= length M' /\
      M !! k = Some g /\ pe = (g.2 - 1)%Z /\ arr max1 (l1 ++ take k (map snd M)) ls /\ arr max2 (l2 ++ take k (map fst M')) le)
      (Datatypes.S (length A)) (length (A ++ M) - Datatypes.S (length A))) as ([[ls' le'] pe] & E & k & g & Ek & Hk & _ & _ & Hls & Hle);
      [| |rewrite E; cbn [bind]; exists ls', le'; split; [done|]].
    3:{ assert (k = length M') as -> by (rewrite app_length, EM in Ek; cbn [length] in Ek; lia). rewrite removelast_take, map_length, EM. cbn [length].
        replace (Datatypes.S (length M') - 1) with (length M') by lia. rewrite EM in Hls. split; [done|]. cbn [map tail]. rewrite take_ge in Hle by (rewrite map_length; lia). done. }
    - exists 0, g0. split; [lia|]. split; [lia|]. split; [by rewrite EM|]. split; [done|]. cbn [take]. rewrite !app_nil_r. done.
    - intros i [[ls' le'] pe] Hi (k & g & -> & Hk & Hg & -> & Hls & Hle). rewrite app_length, EM in Hi. cbn [length] in Hi.
      destruct (lookup_lt_is_Some_2 M' k) as [h Hh]; [lia|].
      assert (HGh : G !! (Datatypes.S (length A) + k) = Some h).
      { rewrite EG, lookup_app_r by lia. replace (Datatypes.S (length A) + k - length A) with (Datatypes.S k) by lia. rewrite EM. transitivity ((M' ++ B) !! k); [done|]. rewrite lookup_app_l by lia. done. }
      rewrite <- !rdZ_nat, (at_mstart _ _ HGh), (at_mend _ _ HGh). cbn [bind].
      replace (g.2 - 1 + 1)%Z with g.2 by lia. replace (h.1 - 1 + 1)%Z with h.1 by lia.
      destruct (put_ok max1 _ ls' g.2 Hls) as (ls2 & -> & Hls2); [rewrite app_length, take_length, map_length, EM; cbn [length]; lia|]. cbn [bind].
      destruct (put_ok max2 _ le' h.1 Hle) as (le2 & -> & Hle2); [rewrite app_length, take_length, map_length; lia|]. cbn [bind].
      eexists. split; [reflexivity|]. exists (Datatypes.S k), h. split; [lia|]. split; [lia|]. split; [by rewrite EM|]. split; [done|].
      rewrite (take_S_r (map snd M) k g.2) by (rewrite list_lookup_fmap, Hg; done). rewrite (take_S_r (map fst M') k h.1) by (rewrite list_lookup_fmap, Hh; done).
      rewrite !app_assoc. done.
  Qed.
  Lemma upper_stage upper af be l1 l2 ls le max1 max2 : upper_st upper af be -> M <> [] ->
    arr max1 (l1 ++ removelast (map snd M)) ls -> arr max2 l2 le -> (upper <> None -> length l1 + length M <= max1) -> length l2 + length B <= max2 ->
    let use_upper := match upper with Some _ => true | None => false end in
    exists l3 append R ls' le',
      (if use_upper then upper_gap (map fst G) (map snd G) af be ls le else Ok (ls, le, false)) = Ok (ls', le', append) /\
      arr max1 (l1 ++ if use_upper then map snd M else removelast (map snd M)) ls' /\ arr max2 (l2 ++ l3) le' /\
      right_of row_vcmp (bound_at upper) (ivs B) R /\ used R = used upper /\
      map S' l3 ++ pre_rows upper append = opt R /\ Forall (fun a => a ∈ usable_locs s) l3.
  Proof.
    intros Hst Hne H1 H2 Hm1 Hm2. destruct upper as [b|].
    2:{ cbn in Hst. exists [], false, None, ls, le. split; [done|]. split; [done|]. rewrite app_nil_r. split; [done|].
        split; [split; [by rewrite Hst|done]|]. split; [done|]. split; [done|constructor]. }
    pose proof Hst as (_ & Ebe & _). destruct (upper_value b af be Hst) as (l3 & append & R & HR & Hrow & Hlen & Fu & Hc).
    cbn zeta. unfold upper_gap. specialize (Hm1 ltac:(done)).
    destruct (exists_last Hne) as (M0 & gl & EM).
    assert (Hme : rdZ (map snd G) (be - 1) = Ok gl.2).
    { replace (be - 1)%Z with (Z.of_nat (length (A ++ M) - 1)); [apply at_mend; by eapply G_last|]. rewrite EM, !app_length in *. cbn [length] in *. lia. }
    rewrite Hme. cbn [bind]. replace (gl.2 - 1 + 1)%Z with gl.2 by lia.
    assert (Hrl : removelast (map snd M) = map snd M0) by (rewrite EM, map_app; cbn; apply removelast_last). rewrite Hrl in H1.
    destruct (put_ok max1 _ ls gl.2 H1) as (ls' & Els & Hls); [rewrite app_length, map_length; rewrite EM, app_length in Hm1; cbn in Hm1; lia|].
    rewrite <- app_assoc in Hls. assert (Hms : map snd M0 ++ [gl.2] = map snd M) by (rewrite EM, map_app; done). rewrite Hms in Hls.
    destruct Hc as [(-> & -> & ->)|(x & -> & -> & -> & Ex)].
    - cbn [bind]. rewrite Els. cbn [bind]. exists [], true, (Some R), ls', le. split; [reflexivity|]. split; [done|]. rewrite app_nil_r. done.
    - rewrite Ex. cbn [bind]. rewrite Els. cbn [bind]. replace (x - 1 + 1)%Z with x by lia. cbn in Hlen.
      destruct (put_ok max2 _ le x H2) as (le' & -> & Hle); [lia|]. cbn [bind]. exists [x], false, (Some R), ls', le'. done.
  Qed.

  Lemma between_ok lower upper laf lbe uaf ube : lower_st lower laf lbe -> upper_st upper uaf ube -> M <> [] ->
    let use_lower := match lower with Some _ => true | None => false end in
    let use_upper := match upper with Some _ => true | None => false end in
    let max1 := if use_upper then length G else length G - 1 in
    let max2 := if use_lower then length G else length G - 1 in
    exists L R, left_of row_vcmp (bound_at lower) (ivs A) L /\ right_of row_vcmp (bound_at upper) (ivs B) R /\ exists starts ends,
      (let! (ls, le, append_lower) :=
        if use_lower then lower_gap (map fst G) (map snd G) laf lbe (alloc max1, 0) (alloc max2, 0) else Ok ((alloc max1, 0), (alloc max2, 0), false) in
      let! (ls, le) := inner_gaps (map fst G) (map snd G) (length A) (length (A ++ M)) ls le in
      let! (ls, le, append_upper) :=
        if use_upper then upper_gap (map fst G) (map snd G) uaf ube ls le else Ok (ls, le, false) in
      let! out_start := slice_rows (orows e) (take ls.2 ls.1) in
      let! out_end := slice_rows (orows s) (take le.2 le.1) in
      Ok ((if append_lower then default [] (orows <$> lower) else []) ++ out_start,
          out_end ++ (if append_upper then default [] (orows <$> upper) else []))) = Ok (starts, ends) /\ starts = opt L ++ match R with Some _ => map snd (ivs M) | None => removelast (map snd (ivs M)) end /\ ends = match L with Some _ => map fst (ivs M) | None => tail (map fst (ivs M)) end ++ opt R.
  Proof.
    intros Hlo Hup Hne ul uu max1 max2. destruct M as [|g0 M'] eqn:EM; [done|]. rewrite <- EM in *.
    assert (HN : length G = length A + length M + length B) by (rewrite EG, !app_length; lia).
    assert (HM : length M = Datatypes.S (length M')) by (by rewrite EM).
    destruct (lower_stage lower laf lbe max1 max2 g0 M' Hlo EM) as (l1 & al & L & ls & le & E1 & Hls & Hle & HL & HsL & HrL & Hl1 & Fu1).
    { unfold max1, uu. destruct upper; lia. }
    { unfold max2, ul. destruct lower; [lia|done]. }
    exists L. fold ul in E1, Hle. rewrite E1. cbn [bind].
    edestruct (inner_stage l1 _ ls le max1 max2 g0 M' EM Hls Hle) as (ls2 & le2 & E2 & Hls2 & Hle2).
    { unfold max1, uu. destruct upper; lia. }
    { unfold max2, ul. destruct lower; cbn [length]; lia. }
    rewrite E2. cbn [bind].
    edestruct (upper_stage upper uaf ube l1 _ ls2 le2 max1 max2 Hup Hne Hls2 Hle2) as (l3 & au & R & ls3 & le3 & E3 & Hls3 & Hle3 & HR & HsR & HrR & Fu3).
    { unfold max1, uu. destruct upper; [lia|done]. }
    { rewrite app_length, EM. cbn [map tail]. rewrite map_length. unfold max2, ul. destruct lower; cbn [length]; lia. }
    exists R. split; [done|]. split; [done|]. fold uu in E3, Hls3. rewrite E3. cbn [bind].
    rewrite (arr_take _ _ _ Hls3), (arr_take _ _ _ Hle3).
    assert (Hsz : oproxy_size s = oproxy_size e) by (by destruct H as ((Hsz & _) & _)).
    assert (FM2 : Forall (fun a => a ∈ usable_locs s) (map snd M)).
    { apply Forall_fmap, Forall_forall. intros g Hg. apply (HU g). rewrite EG, !elem_of_app. tauto. }
    assert (FM1 : Forall (fun a => a ∈ usable_locs s) (map fst M)).
    { apply Forall_fmap, Forall_forall. intros g Hg. apply (HU g). rewrite EG, !elem_of_app. tauto. }
    rewrite (slice_ok e); [|by apply (len_e s e tls)|done|].
    2:{ apply Forall_app. split; [done|]. destruct uu; [done|]. rewrite removelast_take. by apply Forall_take. }
    cbn [bind]. rewrite (slice_ok s); [|by apply (len_s s e tls)|done|].
    2:{ rewrite !Forall_app. split; [|done]. rewrite EM in FM1 |- *. cbn [map tail] in FM1 |- *. apply Forall_cons in FM1 as [F1 F2]. split; [|done].
        destruct ul; repeat constructor. done. }
    cbn [bind]. eexists _, _. split; [reflexivity|]. fold (pre_rows lower al) (pre_rows upper au). split.
    - rewrite map_app, app_assoc, HrL. f_equal. destruct upper as [u|], R as [R|]; try done; unfold uu; [by rewrite map_map, map_map|].
      rewrite !removelast_take, !map_length, !firstn_map, !map_map. done.
    - rewrite !map_app, <- app_assoc, HrR. rewrite EM. destruct lower as [b|], L as [L|]; try done; unfold ul; cbn [map tail app fst]; by rewrite !map_map.
  Qed.

  (** no interval between the bounds *)
  Lemma lone_ok b u laf lbe uaf ube : lower_st (Some b) laf lbe -> upper_st (Some u) uaf ube -> M = [] ->
    exists L R, left_of row_vcmp (Some (point_at b 1)) (ivs A) (Some L) /\ right_of row_vcmp (Some (point_at u 1)) (ivs B) (Some R) /\
    (let! (ls, le, append_lower, append_upper) :=
        lone_gap (map fst G) (map snd G) laf lbe uaf ube false false (alloc (length G), 0) (alloc (length G), 0) in
      let! out_start := slice_rows (orows e) (take ls.2 ls.1) in
      let! out_end := slice_rows (orows s) (take le.2 le.1) in
      Ok ((if append_lower then default [] (orows <$> Some b) else []) ++ out_start,
          out_end ++ (if append_upper then default [] (orows <$> Some u) else []))) = Ok ([L], [R]).
  Proof.
    intros Hlo Hup EM. pose proof Hlo as (_ & Elaf & _). pose proof Hup as (_ & Eube & _).
    destruct (lower_value b laf lbe Hlo) as (l1 & al & L & HL & HrL & Hl1 & Fu1 & Hc1).
    destruct (upper_value u uaf ube Hup) as (l3 & au & R & HR & HrR & Hl3 & Fu3 & Hc3). exists L, R. split; [done|]. split; [done|].
    unfold lone_gap. rewrite EM, app_nil_r in Eube.
    assert (HN : length G = length A + length B) by (rewrite EG, EM, !app_length; cbn; lia).
    assert (Hsz : oproxy_size s = oproxy_size e) by (by destruct H as ((Hsz & _) & _)).
    set (N := length G) in *. pose proof (arr_nil N) as H0.
    assert (Hcode : exists ls le same, (lbe =? laf)%Z && (ube =? uaf)%Z && (lbe =? ube)%Z = same /\ arr N l1 ls /\ arr N l3 le /\ same = false /\
      (if negb al && negb same then let! x := rdZ (map snd G) lbe in put (alloc N, 0) (x - 1 + 1) else Ok (alloc N, 0)) = Ok ls /\
      (if negb au && negb same then let! x := rdZ (map fst G) ube in put (alloc N, 0) (x - 1 + 1) else Ok (alloc N, 0)) = Ok le).
    { assert (Hsame : (lbe =? laf)%Z && (ube =? uaf)%Z && (lbe =? ube)%Z = false).
      { destruct (Z.eqb_spec lbe laf); [|done]. destruct (Z.eqb_spec lbe ube); [lia|]. by rewrite andb_false_r. }
      assert (exists ls, arr N l1 ls /\ (if negb al && negb false then let! x := rdZ (map snd G) lbe in put (alloc N, 0) (x - 1 + 1) else Ok (alloc N, 0)) = Ok ls) as (ls & Hls & Els).
      { destruct Hc1 as [(-> & -> & _)|(x & -> & -> & _ & Ex)]; [by eexists|]. rewrite Ex. cbn [negb andb bind]. replace (x - 1 + 1)%Z with x by lia. cbn in Hl1.
        destruct (put_ok N [] (alloc N, 0) x H0) as (a & Ea & Ha); [cbn; lia|]. by exists a. }
      assert (exists le, arr N l3 le /\ (if negb au && negb false then let! x := rdZ (map fst G) ube in put (alloc N, 0) (x - 1 + 1) else Ok (alloc N, 0)) = Ok le) as (le & Hle & Ele).
      { destruct Hc3 as [(-> & -> & _)|(x & -> & -> & _ & Ex)]; [by eexists|]. rewrite Ex. cbn [negb andb bind]. replace (x - 1 + 1)%Z with x by lia. cbn in Hl3.
        destruct (put_ok N [] (alloc N, 0) x H0) as (a & Ea & Ha); [cbn; lia|]. by exists a. }
      exists ls, le, false. done. }
    destruct Hcode as (ls & le & same & Esame & Hls & Hle & -> & Els & Ele).
    assert (Hfin : forall al' au', al' = al -> au' = au -> (let! out_start := slice_rows (orows e) (take ls.2 ls.1) in
      let! out_end := slice_rows (orows s) (take le.2 le.1) in
      Ok ((if al' then default [] (orows <$> Some b) else []) ++ out_start,
          out_end ++ (if au' then default [] (orows <$> Some u) else []))) = Ok ([L], [R])).
    { intros ? ? -> ->. rewrite (arr_take _ _ _ Hls), (arr_take _ _ _ Hle).
      rewrite (slice_ok e); [|by apply (len_e s e tls)|done|done]. cbn [bind]. rewrite (slice_ok s); [|by apply (len_s s e tls)|done|done]. cbn [bind].
      fold (pre_rows (Some b) al) (pre_rows (Some u) au). by rewrite HrL, HrR. }
    destruct Hc1 as [(-> & -> & E1)|(x & -> & -> & E1 & Ex)], Hc3 as [(-> & -> & E3)|(y & -> & -> & E3 & Ey)]; rewrite E1, E3, ?Ex, ?Ey in *; cbn [bind negb andb] in *.
    - injection Els as <-. injection Ele as <-. by apply (Hfin true true).
    - injection Els as <-. rewrite Ele. cbn [bind]. by apply (Hfin true false).
    - rewrite Els. cbn [bind]. injection Ele as <-. by apply (Hfin false true).
    - rewrite Esame. cbn [negb]. rewrite Els. cbn [bind]. rewrite Ele. cbn [bind]. by apply (Hfin false false).
  Qed.
End complement.

Lemma inner_none ms me i size ls le : size <= i -> inner_gaps ms me i size ls le = Ok (ls, le).
Proof.
  intros Hi. unfold inner_gaps. destruct (Nat.ltb_spec i size); [lia|]. cbn [bind]. replace (size - i) with 0 by lia. done.
Qed.

(** C32.  With valid intervals, none of them empty, and valid bounds the
    function succeeds and gives the complement. *)
Theorem C32_complement fuel s e lower upper tls :
  interval_input s e tls -> length (proxy_cols s ++ proxy_cols e) <= fuel ->
  (forall a, a ∈ usable_locs s -> vlt row_vcmp (point_at s a) (point_at e a)) ->
  bound_ok s lower -> bound_ok s upper ->
  exists starts ends, vec_interval_complement fuel s e lower upper tls = Ok (starts, ends) /\ length starts = length ends /\
    is_complement row_vcmp (point_at s) (point_at e) (bound_at lower) (bound_at upper) (usable_locs s) (zip starts ends).
Proof.
  intros H Hf Hlt Hbl Hbu. pose proof row_vcmp_tpo as T.
  unfold vec_interval_complement. rewrite (check_bound_ok s lower Hbl), (check_bound_ok s upper Hbu). cbn [bind].
  set (special := match lower, upper with Some l, Some u => (0 <=? c2z (row_vcmp (point_at l 1) (point_at u 1)))%Z | _, _ => false end).
  assert (Hsp : match lower, upper with Some l, Some u => let! c := fn_compare l 0 u 0 in Ok (0 <=? c)%Z | _, _ => Ok false end = Ok special).
  { unfold special. destruct lower as [l|], upper as [u|]; try done. by rewrite (cmp_bb s e tls H l u Hbl Hbu). }
  rewrite Hsp. cbn [bind].
  assert (Hempty : (forall p, ~ (above row_vcmp (point_at s) (bound_at lower) (usable_locs s) p /\ below row_vcmp (point_at e) (bound_at upper) (usable_locs s) p /\
      ~ covered row_vcmp (point_at s) (point_at e) (usable_locs s) p)) ->
    is_complement row_vcmp (point_at s) (point_at e) (bound_at lower) (bound_at upper) (usable_locs s) (zip (@nil (list elt)) (@nil (list elt)))).
  { intros Hn. split; [|split; constructor]. intros p. split; [|by intros Hx%Hn]. intros (o & Ho & _). by apply elem_of_nil in Ho. }
  destruct special eqn:Es; unfold special in Es.
  { eexists [], []. split; [done|]. split; [done|]. apply Hempty. intros p. destruct lower as [l|], upper as [u|]; try done.
    cbn [bound_at above below fmap option_fmap option_map]. intros (H1 & H2 & _). apply Z.leb_le in Es.
    pose proof (vle_lt_trans _ T _ _ _ H1 H2) as Hx. unfold vlt in Hx. rewrite Hx in Es. cbn in Es. lia. }
  destruct (C31_groups fuel s e true true false tls H Hf) as (gs & r & Er & Ho & Hg & _).
  unfold out_groups in Ho. cbv zeta in Ho. rewrite app_nil_r in Ho. subst r. rewrite Er. cbn [bind].
  set (G := map fst gs).
  assert (E1 : map (fun g : Z * Z * list Z => g.1.1) gs = map fst G) by (unfold G; by rewrite map_map).
  assert (E2 : map (fun g : Z * Z * list Z => g.1.2) gs = map snd G) by (unfold G; by rewrite map_map).
  rewrite E1, E2. rewrite map_length. clear E1 E2 Er.
  set (S' := point_at s) in *. set (E' := point_at e) in *. set (K := map (fun g : Z * Z => (S' g.1, E' g.2)) G).
  pose proof Hg as (P & Fg & SSg). rewrite Forall_forall in Fg.
  assert (Hmem : forall g a, g ∈ gs -> a ∈ g.2 -> a ∈ usable_locs s).
  { intros g a Hgin Ha. rewrite <- P. apply in_concat_block. exists g.2. split; [|done]. apply elem_of_list_fmap. by exists g. }
  assert (HU : forall g, g ∈ G -> g.1 ∈ usable_locs s /\ g.2 ∈ usable_locs s).
  { intros g Hgin. apply elem_of_list_fmap in Hgin as ([[a b] mem] & -> & Hgin). destruct (Fg _ Hgin) as (Ha & Hb & _). cbn. split; by eapply Hmem. }
  assert (HK : chain row_vcmp K).
  { split.
    - unfold K, G. rewrite map_map. apply Forall_fmap, Forall_forall. intros [[a b] mem] Hgin. cbn. destruct (Fg _ Hgin) as (Ha & _ & Hm & _).
      destruct (Hm a Ha) as [_ H2]. apply (vlt_le_trans _ T _ (E' a)); [|done]. apply Hlt. by eapply (Hmem _ a Hgin).
    - unfold K, G. rewrite map_map. clear -SSg. induction SSg as [|g l SS IH F]; cbn; [constructor|]. constructor; [done|].
      apply Forall_fmap. eapply Forall_impl; [exact F|]. intros h Hh. exact Hh. }
  (* the specification on the merged intervals *)
  assert (HKa : forall p, above row_vcmp S' (bound_at lower) (usable_locs s) p <-> aboveK row_vcmp (bound_at lower) K p).
  { intros p. destruct lower as [l|]; [done|]. cbn. split.
    - intros (a & Ha & Hp). rewrite <- P in Ha. apply in_concat_block in Ha as (b & Hb & Ha). apply elem_of_list_fmap in Hb as ([[x y] mem] & -> & Hgin).
      exists (S' x, E' y). split; [apply elem_of_list_fmap; exists (x, y); split; [done|]; apply elem_of_list_fmap; by exists (x, y, mem)|].
      cbn. destruct (Fg _ Hgin) as (_ & _ & Hm & _). apply (vle_trans _ T _ (S' a)); [by apply Hm|done].
    - intros (m & Hm & Hp). apply elem_of_list_fmap in Hm as (g & -> & Hgin). exists g.1. split; [by apply HU|done]. }
  assert (HKb : forall p, below row_vcmp E' (bound_at upper) (usable_locs s) p <-> belowK row_vcmp (bound_at upper) K p).
  { intros p. destruct upper as [l|]; [done|]. cbn. split.
    - intros (a & Ha & Hp). rewrite <- P in Ha. apply in_concat_block in Ha as (b & Hb & Ha). apply elem_of_list_fmap in Hb as ([[x y] mem] & -> & Hgin).
      exists (S' x, E' y). split; [apply elem_of_list_fmap; exists (x, y); split; [done|]; apply elem_of_list_fmap; by exists (x, y, mem)|].
      cbn. destruct (Fg _ Hgin) as (_ & _ & Hm & _). apply (vlt_le_trans _ T _ (E' a)); [done|by apply Hm].
    - intros (m & Hm & Hp). apply elem_of_list_fmap in Hm as (g & -> & Hgin). exists g.2. split; [by apply HU|done]. }
  assert (HKc : forall p, covered row_vcmp S' E' (usable_locs s) p <-> cov row_vcmp K p).
  { intros p. rewrite (groups_covered row_vcmp T S' E' true _ gs p Hg). unfold cov, K, G. rewrite map_map. split.
    - intros (g & Hgin & Hw). exists (S' g.1.1, E' g.1.2). split; [apply elem_of_list_fmap; by exists g|done].
    - intros (m & Hm & Hw). apply elem_of_list_fmap in Hm as (g & -> & Hgin). by exists g. }
  assert (Hdone : forall A M B L R, G = A ++ M ++ B -> let iv := map (fun g : Z * Z => (S' g.1, E' g.2)) in
    left_of row_vcmp (bound_at lower) (iv A) L -> right_of row_vcmp (bound_at upper) (iv B) R -> fits row_vcmp L (iv M) R ->
    iv M <> [] \/ (bound_at lower <> None /\ bound_at upper <> None) ->
    is_complement row_vcmp S' E' (bound_at lower) (bound_at upper) (usable_locs s) (gaps L (iv M) R)).
  { intros A M B L R EG iv HL HR Hfit Hne. assert (EK : K = iv A ++ iv M ++ iv B) by (unfold K; rewrite EG, !map_app; done).
    destruct (gaps_ok row_vcmp T L (iv M) R Hfit) as [F SS]. split; [|split; [done|done]]. intros p. rewrite HKa, HKb, HKc, EK. rewrite EK in HK.
    by apply (complement_gaps row_vcmp T). }
  clear Hmem Hlt P Fg SSg Hsp. cbv zeta.
  set (ul := match lower with Some _ => true | None => false end). set (uu := match upper with Some _ => true | None => false end).
  (* the position of the bounds *)
  assert (HA : exists A X laf lbe, G = A ++ X /\
    (if ul then lower_loop s e (map fst G) (map snd G) lower (length G) else Ok (0, (-1)%Z, 0%Z)) = Ok (length A, laf, lbe) /\
    lower_st s e A lower laf lbe /\ (forall v, bound_at lower = Some v -> Forall (fun g : Z * Z => vlt row_vcmp v (S' g.1)) X)).
  { unfold ul. destruct lower as [b|].
    - destruct (lower_loop_ok s e tls H G HK HU b Hbl) as (A & X & be & EG & El & F1 & F2 & Hin). exists A, X, (Z.of_nat (length A) - 1)%Z, be.
      split; [done|]. split; [done|]. split; [done|]. intros v [= <-]. done.
    - exists [], G, (-1)%Z, 0%Z. done. }
  assert (HB : exists Y B uaf ube, G = Y ++ B /\
    (if uu then upper_loop s e (map fst G) (map snd G) upper (length G) else Ok (length G, (Z.of_nat (length G) - 1)%Z, Z.of_nat (length G))) = Ok (length Y, uaf, ube) /\
    (match upper with None => B = [] | Some b => ube = Z.of_nat (length Y) /\ Forall (fun g : Z * Z => vle row_vcmp (point_at b 1) (E' g.2)) B /\ right_in s (point_at b 1) (length Y) B uaf end) /\
    (forall v, bound_at upper = Some v -> Forall (fun g : Z * Z => vlt row_vcmp (E' g.2) v) Y)).
  { unfold uu. destruct upper as [b|].
    - destruct (upper_loop_ok s e tls H G HK HU b Hbu) as (Y & B & af & EG & El & F1 & F2 & Hin). exists Y, B, af, (Z.of_nat (length Y)).
      split; [done|]. split; [done|]. split; [done|]. intros v [= <-]. done.
    - exists G, [], (Z.of_nat (length G) - 1)%Z, (Z.of_nat (length G)). rewrite app_nil_r. done. }
  destruct HA as (A & X & laf & lbe & EA & Elo & Hlo & HX). destruct HB as (Y & B & uaf & ube & EB & Eup & Hup & HY).
  rewrite Elo. cbn [bind]. rewrite Eup. cbn [bind].
  pose proof (G_sorted s e G HK) as HGs.
  assert (Hord : forall C D g h, G = C ++ D -> g ∈ C -> h ∈ D -> vlt row_vcmp (E' g.2) (S' h.1)).
  { intros C D g h EG Hgi Hhi. apply elem_of_list_lookup in Hgi as [i Hi]. apply elem_of_list_lookup in Hhi as [j Hj]. pose proof (lookup_lt_Some _ _ _ Hi) as Hlt.
    apply (HGs i (length C + j) g h); [lia| |]; rewrite EG; [by rewrite lookup_app_l|rewrite lookup_app_r by lia; by replace (length C + j - length C) with j by lia]. }
  destruct (le_lt_dec (length A) (length Y)) as [Hle|Hgt].
  - (* [G = A ++ M ++ B] *)
    assert (HM : exists M, Y = A ++ M /\ X = M ++ B).
    { exists (drop (length A) Y). assert (HAY : take (length A) Y = A).
      { transitivity (take (length A) G); [rewrite EB; by rewrite take_app_le|rewrite EA; by rewrite take_app]. }
      assert (EY : Y = A ++ drop (length A) Y) by (rewrite <- HAY at 1; by rewrite take_drop). split; [done|].
      apply (app_inv_head A). rewrite <- EA, EB. rewrite EY at 1. by rewrite <- app_assoc. }
    destruct HM as (M & EY & EX). assert (EG : G = A ++ M ++ B) by (by rewrite EA, EX).
    set (iv := map (fun g : Z * Z => (S' g.1, E' g.2))) in *.
    assert (Hup' : upper_st s e A M B upper uaf ube).
    { destruct upper as [b|]; [|done]. destruct Hup as (Hu1 & Hu2 & Hu3). rewrite EY in Hu1, Hu3. done. }
    assert (Hfit : forall L R, left_of row_vcmp (bound_at lower) (iv A) L -> right_of row_vcmp (bound_at upper) (iv B) R -> fits row_vcmp L (iv M) R).
    { intros L R HL HR.
      assert (HLc : forall l, L = Some l -> bound_at lower = Some l \/ exists m, m ∈ A /\ l = E' m.2).
      { intros l ->. destruct (bound_at lower) as [v|]; [|by destruct HL]. destruct HL as (_ & [[-> _]|(A' & m & HAm & _ & [= ->])]); [by left|].
        right. assert (Hm : m ∈ iv A) by (rewrite HAm; apply elem_of_app; right; left). apply elem_of_list_fmap in Hm as (g & -> & Hgi). by exists g. }
      assert (HRc : forall r, R = Some r -> bound_at upper = Some r \/ exists m, m ∈ B /\ r = S' m.1).
      { intros r ->. destruct (bound_at upper) as [v|]; [|by destruct HR]. destruct HR as (_ & [[-> _]|(m & B' & HBm & _ & [= ->])]); [by left|].
        right. assert (Hm : m ∈ iv B) by (rewrite HBm; left). apply elem_of_list_fmap in Hm as (g & -> & Hgi). by exists g. }
      split; [|split; [|split]].
      - unfold K, iv in HK. rewrite EG, !map_app in HK. destruct HK as [F SS]. apply Forall_app in F as [_ F]. apply Forall_app in F as [F _].
        apply ss_app in SS as (_ & SS & _). apply ss_app in SS as (SS & _ & _). done.
      - intros l Hl. apply Forall_fmap, Forall_forall. intros g Hgi. cbn. destruct (HLc l Hl) as [Hv|(m & Hm & ->)].
        + specialize (HX l Hv). rewrite EX, Forall_forall in HX. apply HX, elem_of_app. by left.
        + apply (Hord A (M ++ B)); [done|done|]. apply elem_of_app. by left.
      - intros r Hr. apply Forall_fmap, Forall_forall. intros g Hgi. cbn. destruct (HRc r Hr) as [Hv|(m & Hm & ->)].
        + specialize (HY r Hv). rewrite EY, Forall_forall in HY. apply HY, elem_of_app. by right.
        + apply (Hord (A ++ M) B); [by rewrite <- app_assoc| |done]. apply elem_of_app. by right.
      - intros l r Hl Hr. destruct (HLc l Hl) as [Hv|(m & Hm & ->)], (HRc r Hr) as [Hu|(m' & Hm' & ->)].
        + destruct lower as [b|]; [|done]. destruct upper as [u|]; [|done]. injection Hv as <-. injection Hu as <-. unfold vlt.
          destruct (row_vcmp (point_at b 1) (point_at u 1)); [|done|]; cbn in Es; done.
        + specialize (HX l Hv). rewrite EX, Forall_forall in HX. apply HX, elem_of_app. by right.
        + specialize (HY r Hu). rewrite EY, Forall_forall in HY. apply HY, elem_of_app. by left.
        + apply (Hord A (M ++ B)); [done|done|]. apply elem_of_app. by right. }
    destruct M as [|g0 M'] eqn:EM.
    + (* no interval between the bounds *)
      rewrite app_nil_r in EY. subst Y. destruct (Nat.ltb_spec (length A) (length A)) as [Hx|_]; [lia|]. rewrite !andb_false_r, andb_true_r. cbn [bind].
      rewrite inner_none by lia. cbn [bind].
      destruct lower as [b|]; [destruct upper as [u|]|]; unfold ul, uu; cbn [andb bind].
      * destruct (lone_ok s e tls H G HU A [] B EG b u laf lbe uaf ube Hlo Hup' eq_refl) as (L & R & HL & HR & Ecode).
        exists [L], [R]. split; [exact Ecode|]. split; [done|]. change (zip [L] [R]) with (gaps (Some L) (iv []) (Some R)).
        apply (Hdone A [] B); [done|done|done|by apply Hfit|by right].
      * eexists [], []. split; [done|]. split; [done|]. apply Hempty. intros p. rewrite HKa, HKb, HKc. cbn.
        cbn in Hup'. rewrite Hup' in EB. rewrite app_nil_r in EB. destruct Hlo as (_ & _ & F & _). rewrite Forall_forall in F.
        intros (H1 & (m & Hm & H2) & Hn). apply Hn. exists m. split; [done|]. apply elem_of_list_fmap in Hm as (g & -> & Hgi). split; [|done].
        cbn. apply (vle_trans _ T _ (point_at b 1)); [|done]. apply F. by rewrite <- EB.
      * cbn in Hlo. subst A. cbn in EG, EB. eexists [], []. split; [done|]. split; [done|]. apply Hempty. intros p. rewrite HKa, HKb, HKc.
        intros ((m & Hm & H1) & H2 & Hn). apply Hn. exists m. split; [done|]. split; [done|]. apply elem_of_list_fmap in Hm as (g & -> & Hgi). cbn.
        destruct upper as [u|]; [|by rewrite EB, Hup in Hgi; apply elem_of_nil in Hgi]. destruct Hup as (_ & F & _). rewrite Forall_forall in F.
        cbn in H2. apply (vlt_le_trans _ T _ (point_at u 1)); [done|]. apply F. by rewrite <- EB.
    + rewrite <- EM in *. assert (HMne : M <> []) by (by rewrite EM).
      destruct (Nat.ltb_spec (length A) (length Y)) as [_|Hx]; [|rewrite EY, EM, app_length in Hx; cbn in Hx; lia].
      rewrite !andb_true_r, andb_false_r.
      destruct (between_ok s e tls H G HU A M B EG lower upper laf lbe uaf ube Hlo Hup' HMne) as (L & R & HL & HR & starts & ends & Ecode & Est & Een).
      exists starts, ends. split.
      { clear Elo Eup. rewrite <- Ecode. fold ul uu. rewrite EY. destruct (if ul then _ else _) as [[[ls le] al]| |]; [|done|done]. cbn [bind].
        destruct (inner_gaps _ _ _ _ _ _) as [[ls2 le2]| |]; [|done|done]. cbn [bind]. destruct (if uu then _ else _) as [[[ls3 le3] au]| |]; done. }
      assert (HivM : iv M <> []) by (by rewrite EM). split.
      * rewrite Est, Een, !app_length. destruct L, R; cbn [opt length]; rewrite ?removelast_take, ?take_length, ?map_length, ?EM; cbn; rewrite ?map_length; lia.
      * rewrite Est, Een. change (opt L) with (match L with Some l => [l] | None => [] end). change (opt R) with (match R with Some r => [r] | None => [] end).
        rewrite zip_gaps by done. apply (Hdone A M B); [done|done|done|by apply Hfit|by left].
  - (* both bounds in the same interval *)
    destruct lower as [b|]; [|cbn in Hlo; subst A; cbn in Hgt; lia].
    destruct upper as [u|]; [|cbn in Hup; subst B; rewrite app_nil_r in EB; subst Y; rewrite EA, app_length in Hgt; lia].
    destruct Hlo as (_ & Elaf & FA & Hin). destruct Hup as (Eube & FB & Hinu). set (v := point_at b 1) in *. set (w := point_at u 1) in *.
    assert (Hvw : vlt row_vcmp v w) by (unfold vlt; destruct (row_vcmp v w); cbn in Es; done).
    destruct (lookup_lt_is_Some_2 A (length Y) Hgt) as [m Hm].
    assert (HmA : m ∈ A) by (by eapply elem_of_list_lookup_2).
    assert (HGm : G !! length Y = Some m) by (rewrite EA; by apply lookup_app_l_Some).
    assert (HmB : exists B', B = m :: B').
    { rewrite EB, lookup_app_r, Nat.sub_diag in HGm by lia. destruct B as [|x B']; [done|]. injection HGm as ->. by exists B'. }
    destruct HmB as [B' ->]. apply Forall_cons in FB as [Fm FB]. rewrite Forall_forall in FA. pose proof (FA m HmA) as Sm.
    assert (HlA : length A = Datatypes.S (length Y)).
    { destruct (Nat.eq_dec (length A) (Datatypes.S (length Y))) as [|Hne]; [done|]. exfalso.
      destruct (lookup_lt_is_Some_2 A (Datatypes.S (length Y))) as [m2 Hm2]; [lia|].
      assert (HG2 : G !! Datatypes.S (length Y) = Some m2) by (rewrite EA; by apply lookup_app_l_Some).
      apply (vle_vlt _ T w (E' m.2)); [done|]. apply (vlt_le_trans _ T _ (S' m2.1)); [apply (HGs (length Y) (Datatypes.S (length Y))); [lia|done|done]|].
      apply (vle_trans _ T _ v); [|by apply vlt_vle]. apply FA. by eapply elem_of_list_lookup_2. }
    assert (Elbe : lbe = Z.of_nat (length Y)).
    { destruct Hin as [[-> F]|(A' & m' & -> & -> & _)]; [|rewrite app_length in HlA; cbn in HlA; lia]. exfalso. rewrite Forall_forall in F.
      apply (vle_vlt _ T w (E' m.2)); [done|]. apply (vlt_trans _ T _ v); [by apply F|done]. }
    assert (Euaf : uaf = Z.of_nat (length Y)).
    { destruct Hinu as [[-> F]|(m' & B'' & _ & -> & _)]; [|done]. exfalso. apply Forall_cons in F as [F _].
      apply (vle_vlt _ T (S' m.1) v); [done|]. by apply (vlt_trans _ T _ w). }
    destruct (Nat.ltb_spec (length A) (length Y)) as [Hx|_]; [lia|]. unfold ul, uu. cbn [andb bind negb]. rewrite inner_none by lia. cbn [bind].
    unfold lone_gap. rewrite Elaf, Elbe, Eube, Euaf. replace (Z.of_nat (length A) - 1)%Z with (Z.of_nat (length Y)) by lia. rewrite !Z.eqb_refl.
    rewrite (at_mend G _ _ HGm), (at_mstart G _ _ HGm). cbn [bind andb negb]. rewrite ?Z.eqb_refl. cbn [andb negb bind take slice_rows foldr].
    eexists [], []. split; [done|]. split; [done|]. apply Hempty. intros p. rewrite HKa, HKb, HKc. cbn. intros (H1 & H2 & Hn). apply Hn.
    exists (S' m.1, E' m.2). split; [apply elem_of_list_fmap; exists m; split; [done|by eapply elem_of_list_lookup_2]|]. split; cbn.
    + by apply (vle_trans _ T _ v).
    + by apply (vlt_le_trans _ T _ w).
Qed.

(** ** Examples *)
(** The intervals [1, 3), [5, 7), missing, [3, 4), [6, 9), [1, 2), missing of
    [P_Interval]; bounds 2 (in an interval) and 12. *)
Definition ex_bound (z : Z) : option oproxy := Some (OVec (M_OrderDf.OInt [z])).
Example C32_ex_input :
  (forall a, a ∈ usable_locs ex_start -> vlt row_vcmp (point_at ex_start a) (point_at ex_end a)) /\
  bound_ok ex_start (ex_bound 2) /\ bound_ok ex_start (ex_bound 12) /\ bound_ok ex_start None.
Proof.
  split; [|split; [|split; [|done]]].
  - intros a Ha. change (usable_locs ex_start) with [1; 2; 4; 5; 6]%Z in Ha. rewrite !elem_of_cons in Ha.
    decompose [or] Ha; subst; try done. by match goal with H : _ ∈ [] |- _ => apply elem_of_nil in H end.
  - split; [done|]. split; [|done]. apply Forall_singleton. split; [done|]. apply Forall_singleton. unfold is_int, INT_MIN, INT_MAX. lia.
  - split; [done|]. split; [|done]. apply Forall_singleton. split; [done|]. apply Forall_singleton. unfold is_int, INT_MIN, INT_MAX. lia.
Qed.
Example C32_ex : vec_interval_complement 2 ex_start ex_end (ex_bound 2) (ex_bound 12) (fun _ => 0%Z) =
  Ok ([[EInt 4]; [EInt 9]], [[EInt 5]; [EInt 12]])%Z.
Proof. reflexivity. Qed.
Example C32_ex_none : vec_interval_complement 2 ex_start ex_end None None (fun _ => 0%Z) = Ok ([[EInt 4]], [[EInt 5]])%Z.
Proof. reflexivity. Qed.
Example C32_ex_inside : vec_interval_complement 2 ex_start ex_end (ex_bound 6) (ex_bound 8) (fun _ => 0%Z) = Ok ([], []).
Proof. reflexivity. Qed.
Example C32_ex_before : vec_interval_complement 2 ex_start ex_end (ex_bound (-3)) (ex_bound 0) (fun _ => 0%Z) = Ok ([[EInt (-3)]], [[EInt 0]])%Z.
Proof. reflexivity. Qed.

Print Assumptions C32_complement.
