(** * Lemmas: [expand_compact_indices()] gives the specified outcome *)
From Verif Require Import Base M_Double M_Scalar M_Slice M_Object M_Proxy M_OrderChr M_OrderDf M_Rank M_Match Spec_Order Spec_OrderRow Spec_Match L_Unique L_OrderSpec P_Order P_Rank.
From Verif Require Import L_MatchJoint L_MatchKeys L_MatchCont L_MatchStable L_MatchOps L_MatchSteps L_MatchExpand L_MatchOutcome.
From Coq Require Import Sorting.Sorted.
#[local] Arguments Z.mul : simpl never.
#[local] Arguments Z.add : simpl never.
#[local] Arguments Z.sub : simpl never.
#[local] Arguments Z.to_nat : simpl never.
#[local] Arguments Z.of_nat : simpl never.

Section result.
  Context (fuel : nat) (xo : xopts) (ms : mstate) (N H : nat) (tls : truelengths) (opts : mopts).
  Context (hl : Z -> Z) (ent : nat -> list (Z * Z)) (kp : nat -> Z -> bool).
  Context (HL : forall p, (0 <= p < Z.of_nat H)%Z -> rdZ (xo_o_haystack xo) p = Ok (hl p + 1)%Z).
  Context (HLr : forall p, (0 <= p < Z.of_nat H)%Z -> (0 <= hl p < Z.of_nat H)%Z).
  Context (ENT : forall l, l < N -> (exists x, ent l = [x] /\ is_signal x) \/
    (Forall (is_hit H) (ent l) /\ exists pre lst, ent l = pre ++ [lst] /\ kp l lst.1 = true)).
  Context (KP : forall l x, l < N -> x ∈ ent l -> is_hit H x -> x_keep xo ms x.1 (Z.of_nat l) = Ok (kp l x.1)).
  Context (O1 : xo_incomplete xo = o_incomplete opts) (O2 : xo_no_match xo = o_no_match opts) (O3 : xo_remaining xo = o_remaining opts)
          (O4 : xo_multiple xo = o_multiple opts) (O5 : xo_relationship xo = o_relationship opts).
  Notation m := (xo_multiple xo).
  Notation Raw := (raw hl ent kp).
  Notation Choice := (choice xo H hl ent kp).
  Notation Sig := (sig ent).
  Notation Ops := (ops xo N hl ent kp).
  Notation Total := (total N ent).
  Context (RND : forall l, l < N -> NoDup (Raw l)).
  Context (SIGI : forall l, l < N -> sigb ent l = true -> tracks_incomplete (o_incomplete opts) = true).
  Context (V1 : forall v, o_incomplete opts = INC_value v -> is_int v) (V2 : forall v, o_no_match opts = NM_value v -> is_int v).
  Context (HN : (Z.of_nat N <= INT_MAX)%Z) (HH : (Z.of_nat H <= INT_MAX)%Z) (HT : forall s, (0 <= tls s)%Z) (HF : 2 <= fuel).
  Context (SRT : xo_any_non_equi xo = false -> forall l, l < N -> StronglySorted Z.lt (Raw l)).
  (** The recorded matches. *)
  Definition recorded : Prop :=
    if is_any m then length (m_first ms) = N /\ forall l v, m_first ms !! l = Some v -> ent l = [(v, 1%Z)]
    else exists R, m_first ms = map (fun x => x.2.1) R /\ m_size ms = map (fun x => x.2.2) R /\ m_loc ms = map fst R /\
      Forall (fun x : Z * (Z * Z) => 0 <= x.1 < Z.of_nat N)%Z R /\
      forall l, l < N -> map snd (List.filter (fun x => x.1 =? Z.of_nat l)%Z R) = ent l.
  Context (REC : recorded).
  Context (ONE : one m = true -> (Total <= INT_MAX)%Z).

  Lemma by_needle_E R : (forall l, l < N -> map snd (List.filter (fun x => x.1 =? Z.of_nat l)%Z R) = ent l) -> by_needle R N = E N ent.
  Proof.
    intros HR. unfold by_needle, E. f_equal. apply map_ext_in. intros l Hl. apply in_seq in Hl. rewrite <- HR by lia.
    clear. induction R as [|x R IH]; [done|]. cbn. destruct (Z.eqb_spec x.1 (Z.of_nat l)) as [E|]; [|done]. cbn. rewrite <- IH. f_equal. rewrite <- E. by destruct x as [? [? ?]].
  Qed.
  Lemma sum_E : sumZ (map (fun x => x.2.2) (E N ent)) = Total.
  Proof.
    unfold E, total. assert (X : forall k, sumZ (map (fun x : Z * (Z * Z) => x.2.2) (concat (map (fun l => map (pair (Z.of_nat l)) (ent l)) (seq 0 k)))) =
      sumZ (map (fun l => sumZ (map snd (ent l))) (seq 0 k))); [|apply X].
    induction k as [|k IH]; [done|]. rewrite seq_S, !map_app, concat_app, map_app, !sumZ_app, IH. cbn [map concat Nat.add]. rewrite app_nil_r, map_map, sumZ_single. done.
  Qed.

  (** The size of the output and the order of the recorded matches. *)
  Lemma sizes_ok : let r := (let! size_out :=
      if one_match_per_needle m then Ok (Z.of_nat N)
      else
        let! size_out := for_ 0 (length (m_first ms)) (fun i acc => let! v := rd (m_size ms) i in Ok (acc + v)%Z) 0%Z in
        if (R_LEN_T_MAX <? size_out)%Z then Err "Match procedure results in an allocation larger than 2^31-1 elements."%string else Ok size_out in
      let! o_loc := if is_any m then Ok [] else vec_order fuel XVec (OVec (OInt (m_loc ms))) [false] [false] true tls in
      Ok (size_out, o_loc)) in
    (one_match_per_needle m = false /\ (R_LEN_T_MAX < Total)%Z /\ r = Err "Match procedure results in an allocation larger than 2^31-1 elements."%string) \/
    ((one_match_per_needle m = false -> (Total <= R_LEN_T_MAX)%Z) /\
     exists size_out o_loc, r = Ok (size_out, o_loc) /\ length (m_first ms) = length (E N ent) /\ length (rows Ops) <= Z.to_nat size_out /\
      (length (rows Ops) <= Z.to_nat INT_MAX) /\
      (forall i x, E N ent !! i = Some x -> x_entry ms m o_loc i = Ok (x.2.1, x.2.2, x.1)) /\
      (one m = true -> forall i x, E N ent !! i = Some x -> exists l, rd o_loc i = Ok l /\ rdZ (m_loc ms) (l - 1) = Ok x.1)).
  Proof.
    cbn zeta. unfold recorded in REC. destruct (is_any m) eqn:Ea.
    - right. assert (E0 : one_match_per_needle m = true) by (by destruct m). assert (E1 : one m = false) by (by destruct m). rewrite E0, E1. split; [done|].
      destruct REC as [L He]. eexists _, _. split; [done|]. rewrite Nat2Z.id.
      assert (Ent : forall l, l < N -> exists v, m_first ms !! l = Some v /\ ent l = [(v, 1%Z)]).
      { intros l Hl. destruct (lookup_lt_is_Some_2 (m_first ms) l) as [v Hv]; [lia|]. exists v. split; [done|]. by apply He. }
      assert (Ex : forall k, k <= N -> length (concat (map (fun l => map (pair (Z.of_nat l)) (ent l)) (seq 0 k))) = k /\
        forall i x, concat (map (fun l => map (pair (Z.of_nat l)) (ent l)) (seq 0 k)) !! i = Some x -> exists v, m_first ms !! i = Some v /\ x = (Z.of_nat i, (v, 1%Z))).
      { induction k as [|k IH]; intros Hk; [done|]. destruct IH as [IL IX]; [lia|]. rewrite seq_S, map_app, concat_app, app_length. cbn [map concat Nat.add]. rewrite app_nil_r, map_length.
        destruct (Ent k ltac:(lia)) as (v & Hv & ->). cbn [map length]. split; [lia|]. intros i x Hx. apply lookup_app_Some in Hx as [Hx|[Hi Hx]]; [by apply IX|].
        rewrite IL in Hi, Hx. apply list_lookup_singleton_Some in Hx as [Hi' <-]. assert (i = k) as -> by lia. by exists v. }
      destruct (Ex N (le_n N)) as [EL EX]. split; [unfold E; lia|].
      assert (Rl : length (rows Ops) <= N).
      { apply (rows_len_one xo N H hl ent kp opts HLr ENT O1 O2 RND). intros l Hl. unfold raw1. rewrite E1, raw_len. destruct (Ent l Hl) as (v & _ & Ev).
        unfold kept. rewrite Ev. destruct (existsb is_sig _); cbn; [lia|]. destruct (kp l v); cbn; lia. }
      split; [done|]. split; [lia|]. split; [|done].
      intros i x Hx. destruct (EX i x Hx) as (v & Hv & ->). unfold x_entry. rewrite Ea. cbn [bind]. rewrite rdZ_nat, (proj2 (rd_Ok _ _ _) Hv). done.
    - destruct REC as (R & F1 & F2 & F3 & HR & HE). pose proof (by_needle_E R HE) as BE. pose proof (blocks_perm R N HR) as BP. fold (by_needle R N) in BP. rewrite BE in BP.
      assert (LR : length R = length (E N ent)) by (by rewrite BP).
      assert (Hloop : for_ 0 (length (m_first ms)) (fun i acc => let! v := rd (m_size ms) i in Ok (acc + v)%Z) 0%Z = Ok Total).
      { rewrite F1, map_length, <- sum_E, (sumZ_perm _ _ (Permutation_map (fun x : Z * (Z * Z) => x.2.2) BP)). destruct (for_inv (fun i acc => acc = sumZ (take i (map (fun x : Z * (Z * Z) => x.2.2) R))) 0 (length R)
          (fun i acc => let! v := rd (m_size ms) i in Ok (acc + v)%Z) 0%Z) as (v & Ev & ->).
        - done.
        - intros i acc Hi ->. destruct (lookup_lt_is_Some_2 R i) as [x Hx]; [lia|]. assert (Hm : map (fun x : Z * (Z * Z) => x.2.2) R !! i = Some x.2.2) by (by rewrite list_lookup_fmap, Hx).
          rewrite F2, (proj2 (rd_Ok _ _ _) Hm). cbn [bind]. eexists; split; [done|]. rewrite (take_S_r _ _ _ Hm), sumZ_app, sumZ_single. done.
        - rewrite Ev. cbn [Nat.add]. by rewrite take_ge by (rewrite map_length; lia). }
      pose proof (entries_len xo N H hl ent kp opts HLr ENT O1 O2 RND) as EL.
      assert (Order : (Total <= INT_MAX)%Z -> exists o, vec_order fuel XVec (OVec (OInt (m_loc ms))) [false] [false] true tls = Ok o /\
        (forall i x, E N ent !! i = Some x -> x_entry ms m o i = Ok (x.2.1, x.2.2, x.1)) /\
        (forall i x, E N ent !! i = Some x -> exists l, rd o i = Ok l /\ rdZ (m_loc ms) (l - 1) = Ok x.1)).
      { intros Ht. destruct (needle_order_ok R N HR fuel ms m tls F1 F2 F3 HN) as (o & Eo & X1 & X2); [lia|done|lia|done|]. rewrite BE in X1, X2. by exists o. }
      pose proof (rows_len xo N H hl ent kp opts HLr ENT O1 O2 RND) as RL.
      rewrite Hloop. cbn [bind]. destruct (one_match_per_needle m) eqn:E0.
      + assert (E1 : one m = true) by (by destruct m). right. split; [done|]. specialize (ONE E1). destruct (Order ONE) as (o & Eo & X1 & X2). cbn [bind]. rewrite Eo. cbn [bind].
        eexists _, _. split; [done|]. split; [rewrite F1, map_length; done|]. rewrite Nat2Z.id.
        split; [|split; [lia|by split]]. apply (rows_len_one xo N H hl ent kp opts HLr ENT O1 O2 RND). intros l Hl. unfold raw1. rewrite E1. destruct (fold_left _ _ _); cbn; lia.
      + destruct (Z.ltb_spec R_LEN_T_MAX Total) as [Hlt|Hle].
        * left. done.
        * right. split; [done|]. unfold R_LEN_T_MAX in Hle. destruct Order as (o & Eo & X1 & X2); [done|]. cbn [bind]. rewrite Eo. cbn [bind].
          eexists _, _. split; [done|]. split; [rewrite F1, map_length; done|]. split; [lia|]. split; [lia|by split].
  Qed.

  Lemma one_choice : one m = true -> forall a, length (Choice a) <= 1.
  Proof. intros E1 a. unfold choice, raw1. rewrite E1. destruct (fold_left _ _ _); cbn; [apply Nat.le_refl|apply Nat.le_0_l]. Qed.
  Lemma many_checked : many_needle N Choice -> checks_needles m = true /\ one m = false.
  Proof.
    intros (a & Ha & Hc). apply elem_locs in Ha. destruct (one m) eqn:E1; [pose proof (one_choice E1 a); lia|]. split; [|done].
    unfold recorded in REC. destruct (is_any m) eqn:Ea; [|by destruct m]. exfalso. destruct REC as [L He].
    replace a with (Z.of_nat (n_of a) + 1)%Z in Hc by (unfold n_of; lia). rewrite (choice_perm xo N H hl ent kp HLr ENT RND) in Hc by (unfold n_of; lia).
    rewrite map_length in Hc. unfold raw1 in Hc. rewrite E1, raw_len in Hc. destruct (lookup_lt_is_Some_2 (m_first ms) (n_of a)) as [v Hv]; [unfold n_of; lia|].
    unfold kept in Hc. rewrite (He _ _ Hv) in Hc. destruct (existsb is_sig _); cbn in Hc; [lia|]. destruct (kp _ v); cbn in Hc; lia.
  Qed.
  Lemma rows_int : Forall (fun x => is_int x.1 /\ is_int x.2) (rows Ops).
  Proof.
    rewrite (rows_ops xo N H hl ent kp HLr ENT) by done. apply Forall_forall. intros x Hx. apply elem_of_list_In, in_concat in Hx as (q & Hq & Hx).
    apply in_map_iff in Hq as (l & <- & Hl). apply in_seq in Hl.
    assert (I1 : is_int (Z.of_nat l + 1)) by (unfold is_int, INT_MIN, INT_MAX in *; lia).
    unfold raw_rows in Hx. destruct (sigb ent l).
    { rewrite O1 in Hx. destruct (o_incomplete opts); try done. destruct Hx as [<-|[]]. split; [done|]. by apply V1. }
    destruct (raw1 xo hl ent kp l) as [|h hs0] eqn:Er.
    { rewrite O2 in Hx. destruct (o_no_match opts); try done. destruct Hx as [<-|[]]. split; [done|]. by apply V2. }
    apply in_map_iff in Hx as (h0 & <- & Hh). split; [done|]. rewrite <- Er in Hh. apply elem_of_list_In in Hh.
    apply (raw1_range xo N H hl ent kp HLr ENT RND) in Hh; [|lia]. unfold is_int, INT_MIN, INT_MAX in *. cbn. lia.
  Qed.
  Lemma zip_rows (l : list (Z * Z)) v (U : list Z) : zip (map fst l ++ replicate (length U) v) (map snd l ++ U) = l ++ map (pair v) U.
  Proof.
    induction l as [|x l IH].
    - cbn [map app]. induction U as [|u U IH]; [done|]. cbn. f_equal. apply IH.
    - cbn [map app zip zip_with]. rewrite IH. by destruct x.
  Qed.

  Theorem expand_ok : outcome N H opts Sig Choice Total Total (expand_compact_indices fuel xo ms N H tls).
  Proof.
    unfold expand_compact_indices.
    destruct sizes_ok as [(E0 & Ht & Er)|(Hle & size_out & o_loc & Er & LE & Ln & Li & XE & XN)].
    { destruct (one_match_per_needle m) eqn:E1; [done|].
      match type of Er with (let! _ := ?A in _) = _ => destruct A as [tot| |]; cbn [bind] in Er |- *; [|injection Er as ->; left; by rewrite <- O4|done] end.
      match type of Er with (let! _ := ?A in _) = _ => destruct A as [o| |]; cbn [bind] in Er |- *; [done| |done] end. injection Er as ->. left. by rewrite <- O4. }
    match type of Er with (let! _ := ?A in _) = _ => destruct A as [tot| |]; cbn [bind] in Er |- *; [|done|done] end.
    match type of Er with (let! _ := ?A in _) = _ => destruct A as [o| |]; cbn [bind] in Er |- *; [|done|done] end. injection Er as -> ->.
    set (n := Z.to_nat size_out) in *. rewrite LE.
    change (X (alloc n) (alloc n) 0 false false (checks_needles m) NA_INTEGER (checks_haystack m (xo_relationship xo))
      (checks_haystack m (xo_relationship xo) || retain_remaining (xo_remaining xo))
      (if checks_haystack m (xo_relationship xo) || retain_remaining (xo_remaining xo) then replicate H false else []) NA_INTEGER [])
      with (init m (xo_relationship xo) (retain_remaining (xo_remaining xo)) n H).
    rewrite (steps_ok xo ms o_loc N H hl HL HLr ent kp ENT KP XE XN).
    2: { intros E1. split; [|done]. cbn. unfold checks_n. by destruct m. }
    fold Ops.
    pose proof (run_ops_ok m (xo_relationship xo) (retain_remaining (xo_remaining xo)) n H Ops (ops_fine xo N H hl ent kp HLr ENT RND)
      (checks_sorted xo N H hl ent kp HLr ENT RND) Ln) as RO.
    destruct (run_ops m (xo_relationship xo) (retain_remaining (xo_remaining xo)) Ops _) as [s|e|u]; cbn [bind]; [|clear Ln|done].
    2: { (* an error *)
      cbn [outcome]. destruct RO as [He|[(C & M & Rs)|(D & Rs)]].
      - apply (in_ops xo N H hl ent kp ENT RND) in He as (l & Hl & He). destruct (needle_facts xo N H hl ent kp HLr ENT l Hl) as (_ & _ & _ & Hn & _).
        apply Hn in He as [(S & He)|(S & R & Hm & He)].
        + right. left. rewrite O1 in He. pose proof (SIGI l Hl S) as Tr. destruct (o_incomplete opts); try done. split; [done|]. split; [|done].
          exists (Z.of_nat l + 1)%Z. split; [apply elem_locs; lia|]. unfold sig. by rewrite n_of_S.
        + right. right. left. split; [by rewrite <- O2|]. split; [|done]. exists (Z.of_nat l + 1)%Z. split; [apply elem_locs; lia|].
          unfold sig. rewrite n_of_S. split; [done|]. by apply (choice_nil xo N H hl ent kp HLr ENT RND).
      - assert (E1 : one m = false) by (unfold checks_n in C; by destruct m). apply (many_ops xo N H hl ent kp HLr ENT RND E1) in M.
        rewrite O4, O5 in Rs. unfold violation. tauto.
      - apply (many_hs xo N H hl ent kp HLr ENT RND) in D. rewrite O5 in Rs. unfold violation. tauto. }
    destruct RO as [SI NE]. destruct SI as [? SIo SIn SIh _ SIan SInn _ SIah SInh SIt SId _ [SIw SIw'] SIen SIeh].
    assert (An : x_any_multiple_needles s = true <-> many_needle N Choice).
    { split.
      - intros Ha. destruct (SIan Ha) as [C M]. apply (many_ops xo N H hl ent kp HLr ENT RND); [unfold checks_n in C; by destruct m|done].
      - intros M. destruct (many_checked M) as [C E1]. destruct (x_any_multiple_needles s); [done|]. destruct (SInn C eq_refl) as [NM _]. exfalso. apply NM.
        by apply (many_ops xo N H hl ent kp HLr ENT RND). }
    assert (Ah : checks_haystack m (xo_relationship xo) = true -> x_any_multiple_haystack s = true <-> many_haystack N Choice).
    { intros C. rewrite <- (many_hs xo N H hl ent kp HLr ENT RND). split.
      - intros Ha. by apply SIah in Ha as [_ Ha].
      - intros D. destruct (x_any_multiple_haystack s); [done|]. exfalso. apply D. by apply SInh. }
    rewrite SIn, SIh. destruct (all_rows_perm xo N H hl ent kp opts HLr ENT O1 O2 RND) as [AP AF].
    assert (Reo : (if x_any_multiple_needles s && xo_any_non_equi xo then reorder_haystack fuel (map fst (rows Ops)) (map snd (rows Ops)) tls
      else Ok (map snd (rows Ops))) = Ok (map snd (all_rows xo N H hl ent kp opts))).
    { destruct (x_any_multiple_needles s && xo_any_non_equi xo) eqn:Eb.
      - apply reorder_ok; [apply rows_int|unfold INT_MAX in *; lia|done|done|done|by apply (all_rows_sorted xo N H hl ent kp opts)].
      - do 2 f_equal. apply (all_rows_same xo N H hl ent kp opts HLr ENT O1 O2 RND). intros l Hl. unfold raw1. destruct (one m) eqn:E1.
        { destruct (fold_left _ _ _); repeat constructor. }
        destruct (xo_any_non_equi xo) eqn:En; [|by apply SRT]. rewrite andb_true_r in Eb.
        assert (Hc : length (Raw l) <= 1).
        { destruct (decide (length (Raw l) <= 1)) as [|Hc]; [done|]. exfalso. enough (x_any_multiple_needles s = true) by congruence. apply An.
          exists (Z.of_nat l + 1)%Z. split; [apply elem_locs; lia|]. rewrite (choice_perm xo N H hl ent kp HLr ENT RND l Hl), map_length. unfold raw1. rewrite E1. lia. }
        destruct (Raw l) as [|x [|y q]]; [constructor|repeat constructor|cbn in Hc; lia]. }
    rewrite Reo. cbn [bind]. rewrite AF.
    assert (Hdet : retain_remaining (xo_remaining xo) = true -> length (x_detect s) = H /\ undetected (x_detect s) H = unmatched N H Choice).
    { intros Hr. assert (Ht : x_track s = true).
      { rewrite SIt. destruct (x_any_multiple_haystack s); [done|]. unfold track0. by rewrite Hr, orb_true_r. }
      destruct (SId Ht) as [Ld Hd]. split; [done|]. by apply (unmatched_ops xo N H hl ent kp HLr ENT RND). }
    pose proof (append_remaining_ok (xo_remaining xo) (x_detect s) H (map fst (all_rows xo N H hl ent kp opts)) (map snd (all_rows xo N H hl ent kp opts))
      (fun Hr => proj1 (Hdet Hr))) as AR.
    destruct (append_remaining _ _ _ _ _) as [[out_n out_h]|e|u]; cbn [bind]; [| |done].
    2: { destruct AR as (Rr & Ru & ->). do 8 right. split; [by rewrite <- O3|]. split; [|done]. rewrite (proj2 (Hdet ltac:(by rewrite Rr))) in Ru. done. }
    destruct AR as (Re & -> & ->). cbn [outcome].
    assert (Hrem : match xo_remaining xo with REM_value v => undetected (x_detect s) H = unmatched N H Choice | _ => True end).
    { destruct (xo_remaining xo); try done. by apply Hdet. }
    split; [|split; [|split; [|split; [done|]]]].
    - intros e. intros [V|[V|[V|[V|[V|[V|[V|[V|V]]]]]]]].
      + destruct V as (E0 & Hgt & _). rewrite O4 in Hle. specialize (Hle E0). lia.
      + destruct V as (Ei & (a & Ha & Sa) & _). apply elem_locs in Ha. apply (NE "incomplete needle"%string).
        apply (in_ops xo N H hl ent kp ENT RND). exists (n_of a). split; [unfold n_of; lia|].
        destruct (needle_facts xo N H hl ent kp HLr ENT (n_of a)) as (_ & _ & _ & Hn & _); [unfold n_of; lia|]. apply Hn. left. rewrite O1, Ei. done.
      + destruct V as (Em & (a & Ha & Sa & Ca) & _). apply elem_locs in Ha. apply (NE "needle without match"%string).
        apply (in_ops xo N H hl ent kp ENT RND). exists (n_of a). split; [unfold n_of; lia|].
        destruct (needle_facts xo N H hl ent kp HLr ENT (n_of a)) as (_ & _ & _ & Hn & _); [unfold n_of; lia|]. apply Hn. right. rewrite O2, Em.
        split; [done|]. split; [|done]. apply (choice_nil xo N H hl ent kp HLr ENT RND); [unfold n_of; lia|].
        replace (Z.of_nat (n_of a) + 1)%Z with a by (unfold n_of; lia). done.
      + destruct V as (Em & M & _). apply An in M. apply SIen in M as (X1 & _). rewrite O4 in X1. done.
      + destruct V as (Em & M & _). apply An in M. apply SIen in M as (_ & X2 & _). rewrite O5 in X2. done.
      + destruct V as (Em & M & _). apply An in M. apply SIen in M as (_ & _ & X3). rewrite O5 in X3. done.
      + destruct V as (Em & M & _). apply Ah in M; [|rewrite O5, Em; done]. apply SIeh in M. rewrite O5 in M. congruence.
      + destruct V as (Em & M & _). apply Ah in M; [|rewrite O5, Em; done]. apply SIeh in M. rewrite O5 in M. congruence.
      + destruct V as (Em & M & _). rewrite <- O3 in Em. apply M. rewrite <- (proj2 (Hdet ltac:(by rewrite Em))). by apply Re.
    - unfold result_rows. rewrite <- O3. fold (all_rows xo N H hl ent kp opts). destruct (xo_remaining xo) as [| |v].
      + rewrite !app_nil_r. pose proof (zip_rows (all_rows xo N H hl ent kp opts) 0%Z []) as Zp. cbn in Zp. by rewrite !app_nil_r in Zp.
      + rewrite !app_nil_r. pose proof (zip_rows (all_rows xo N H hl ent kp opts) 0%Z []) as Zp. cbn in Zp. by rewrite !app_nil_r in Zp.
      + rewrite zip_rows, Hrem. done.
    - rewrite !app_length, !map_length. destruct (xo_remaining xo); [done|done|]. by rewrite replicate_length.
    - intros w. rewrite SIw'. unfold warned, warns. rewrite <- O4, <- O5. destruct w.
      + by rewrite An.
      + split.
        * intros (Er & Ha & Hh). apply An in Ha. split; [done|]. split; [done|]. apply Ah; [|done]. rewrite Er. cbn. by apply many_checked.
        * intros (Er & Ha & Hh). split; [done|]. split; [by apply An|]. apply Ah; [|done]. rewrite Er. cbn. by apply many_checked.
  Qed.
End result.
