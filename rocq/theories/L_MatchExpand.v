(** * Lemmas: from the recorded matches to the result *)
From Verif Require Import Base M_Double M_Scalar M_Slice M_Object M_Proxy M_OrderChr M_OrderDf M_Rank M_Match Spec_Order Spec_OrderRow Spec_Match L_Unique L_OrderSpec P_Order P_Rank.
From Verif Require Import L_MatchJoint L_MatchKeys L_MatchCont L_MatchStable L_MatchOps L_MatchSteps.
From Coq Require Import Sorting.Sorted.
From stdpp Require sorting.
#[local] Arguments Z.mul : simpl never.
#[local] Arguments Z.add : simpl never.
#[local] Arguments Z.sub : simpl never.
#[local] Arguments Z.to_nat : simpl never.
#[local] Arguments Z.of_nat : simpl never.

(** ** Locations without match *)
Definition undetected (detect : list bool) (n : nat) : list Z :=
  List.filter (fun h => negb (at_loc true detect h)) (locs n).
Lemma undetected_S (detect : list bool) (k : nat) (d : bool) : detect !! k = Some d ->
  undetected detect (S k) = undetected detect k ++ if d then [] else [(Z.of_nat k + 1)%Z].
Proof.
  intros Hd. unfold undetected. rewrite locs_S, List.filter_app. f_equal. cbn [List.filter].
  replace (at_loc true detect (Z.of_nat k + 1)) with d; [by destruct d|].
  unfold at_loc. replace (Z.to_nat _) with k by lia. symmetry. by apply nth_lookup_Some.
Qed.

Lemma append_remaining_ok rem detect H out_n out_h : (retain_remaining rem = true -> length detect = H) ->
  match append_remaining rem detect H out_n out_h with
  | Ok (n, h) => (rem = REM_error -> undetected detect H = []) /\
      n = out_n ++ match rem with REM_value v => replicate (length (undetected detect H)) v | _ => [] end /\
      h = out_h ++ match rem with REM_value v => undetected detect H | _ => [] end
  | Err e => rem = REM_error /\ undetected detect H <> [] /\ e = "remaining haystack location"%string
  | UB _ => False
  end.
Proof.
  intros HL. unfold append_remaining. destruct rem as [| |v].
  - rewrite !app_nil_r. done.
  - specialize (HL eq_refl).
    assert (X : match for_ 0 H (fun i _ => let! d := rd detect i in if negb d then Err "remaining haystack location"%string else Ok tt) tt with
      | Ok _ => undetected detect H = [] | Err e => undetected detect H <> [] /\ e = "remaining haystack location"%string | UB _ => False end).
    { assert (Y : forall k, k <= H -> match for_ 0 k (fun i _ => let! d := rd detect i in if negb d then Err "remaining haystack location"%string else Ok tt) tt with
      | Ok _ => undetected detect k = [] | Err e => undetected detect k <> [] /\ e = "remaining haystack location"%string | UB _ => False end).
      { induction k as [|k IH]; intros Hk; [done|]. specialize (IH ltac:(lia)). rewrite for_snoc.
        destruct (lookup_lt_is_Some_2 detect k) as [d Hd]; [lia|]. rewrite (undetected_S _ _ _ Hd).
        destruct (for_ 0 k _ tt) as [[]|e|]; cbn [bind].
        - cbn [Nat.add]. rewrite (proj2 (rd_Ok _ _ _) Hd). cbn [bind]. rewrite IH. by destruct d.
        - destruct IH as [IH ->]. split; [|done]. intros Q. apply app_eq_nil in Q as [Q _]. done.
        - done. }
      by apply Y. }
    destruct (for_ 0 H _ tt) as [[]|e|]; cbn [bind]; [|tauto|done]. rewrite !app_nil_r. done.
  - specialize (HL eq_refl).
    destruct (for_inv (fun i n => n = length (undetected detect i)) 0 H
      (fun i n => let! d := rd detect i in Ok (if negb d then S n else n)) 0) as (n & En & ->).
    { done. }
    { intros i n Hi ->. destruct (lookup_lt_is_Some_2 detect i) as [d Hd]; [lia|]. rewrite (proj2 (rd_Ok _ _ _) Hd). cbn [bind].
      eexists; split; [done|]. rewrite (undetected_S _ _ _ Hd), app_length. destruct d; cbn; lia. }
    rewrite En. cbn [bind]. cbn [Nat.add].
    set (U := undetected detect H).
    destruct (for_inv (fun i (st : list Z * nat) => exists pad, st.1 = out_h ++ undetected detect i ++ pad /\ st.2 = length out_h + length (undetected detect i) /\
        length (undetected detect i) + length pad = length U /\ (i <= H)) 0 H
      (fun i '((out, j) : list Z * nat) =>
        let! d := rd detect i in
        if negb d then let! out := wr out j (Z.of_nat i + 1)%Z in Ok (out, S j) else Ok (out, j))
      (out_h ++ alloc (length U), length out_h)) as ([out j] & Eo & (pad & E1 & E2 & E3 & _)).
    { exists (alloc (length U)). cbn. unfold alloc. rewrite replicate_length. split; [done|]. lia. }
    { intros i [out j] Hi (pad & E1 & E2 & E3 & Hle). cbn [fst snd] in E1, E2. subst out j.
      destruct (lookup_lt_is_Some_2 detect i) as [d Hd]; [lia|]. rewrite (proj2 (rd_Ok _ _ _) Hd). cbn [bind].
      pose proof (undetected_S _ _ _ Hd) as US. destruct d; cbn [negb].
      - eexists; split; [done|]. exists pad. rewrite US, app_nil_r. cbn [fst snd]. split; [done|]. split; [done|]. split; [done|lia].
      - assert (Hpad : length (undetected detect (S i)) <= length U).
        { unfold U. replace H with (S i + (H - S i)) by lia. unfold undetected at 2, locs. rewrite seq_app, map_app, List.filter_app, app_length.
          unfold undetected, locs. lia. }
        rewrite US, app_length in Hpad. cbn [length] in Hpad. destruct pad as [|q pad]; [cbn in E3; lia|]. cbn [length] in E3.
        rewrite wr_Ok by (rewrite !app_length; cbn; lia). cbn [bind]. eexists; split; [done|]. exists pad. cbn [fst snd].
        split; [|rewrite US, app_length; cbn; lia].
        rewrite insert_app_r_alt by lia. replace (length out_h + length (undetected detect i) - length out_h) with (length (undetected detect i) + 0) by lia.
        rewrite insert_app_r, US, <- app_assoc. done. }
    rewrite Eo. cbn [bind]. cbn [fst snd Nat.add] in *. split; [done|]. split; [done|].
    assert (pad = []) as -> by (destruct pad; [done|]; cbn in E3; unfold U in E3; lia). by rewrite app_nil_r in E1.
Qed.

(** ** Rows ordered by needle and location *)
Definition pair_le (x y : Z * Z) : Prop := (x.1 < y.1)%Z \/ (x.1 = y.1 /\ (x.2 <= y.2)%Z).
Lemma reorder_ok fuel (P Q : list (Z * Z)) tls : Forall (fun x => is_int x.1 /\ is_int x.2) P -> (Z.of_nat (length P) <= INT_MAX)%Z ->
  (forall s, 0 <= tls s)%Z -> 2 <= fuel -> P ≡ₚ Q -> StronglySorted pair_le Q ->
  reorder_haystack fuel (map fst P) (map snd P) tls = Ok (map snd Q).
Proof.
  intros HP Hn Ht Hf HQ SQ. unfold reorder_haystack. rewrite map_length.
  destruct (ints_order_ok fuel (length P) [map fst P; map snd P] tls) as (o & Eo & Ho); [|done|done|done|].
  { constructor; [|constructor; [|constructor]]; (split; [by rewrite map_length|]); apply Forall_map; (eapply Forall_impl; [exact HP|]); intros x [H1 H2]; done. }
  rewrite Eo. cbn [bind]. destruct Ho as [Po So].
  assert (Lo : length o = length P) by (rewrite Po, locs_length; done).
  set (d0 := (0%Z, 0%Z)).
  assert (Eq : map (at_loc d0 P) o = Q).
  { assert (AS : AntiSymm eq pair_le) by (intros [a b] [c d] [H1|[H1 H2]] [H3|[H3 H4]]; cbn in *; try lia; f_equal; lia).
    apply (sorting.StronglySorted_unique pair_le).
    - clear -So. assert (X : forall l, StronglySorted (fun a b => lexcmp [map fst P; map snd P] a b = Lt \/ (lexcmp [map fst P; map snd P] a b = Eq /\ (a < b)%Z)) l ->
        StronglySorted pair_le (map (at_loc d0 P) l)).
      { intros l S. induction S as [|a l S IH F]; [constructor|]. cbn [map]. constructor; [done|]. apply Forall_map. eapply Forall_impl; [exact F|].
        intros b Hb. cbn [lexcmp] in Hb. rewrite !(at_loc_map fst d0), !(at_loc_map snd d0) in Hb. unfold pair_le. unfold cmp_then in Hb.
        destruct (Z.compare_spec (at_loc d0 P a).1 (at_loc d0 P b).1), (Z.compare_spec (at_loc d0 P a).2 (at_loc d0 P b).2); destruct Hb as [Hb|[Hb _]]; try done; lia. }
      by apply X.
    - done.
    - rewrite Po, <- HQ. clear. induction P as [|x P IH] using rev_ind; [done|]. rewrite app_length. cbn [length]. rewrite Nat.add_1_r, locs_S, map_app.
      apply Permutation_app.
      + transitivity (map (at_loc d0 P) (locs (length P))); [|exact IH]. rewrite (map_ext_in (at_loc d0 (P ++ [x])) (at_loc d0 P)); [done|]. intros a Ha. apply elem_of_list_In, elem_locs in Ha. unfold at_loc. apply app_nth1. lia.
      + cbn. unfold at_loc. replace (Z.to_nat _) with (length P) by lia. by rewrite nth_middle. }
  destruct (for_inv (fun i o' => exists pre suf, o' = pre ++ suf /\ suf = drop i o /\ pre = take i (map snd Q)) 0 (length P)
    (fun i o => let! l := rd o i in let! v := rdZ (map snd P) (l - 1) in wr o i v) o) as (o' & Eo' & (pre & suf & E1 & E2 & E3)).
  { exists [], o. done. }
  { intros i o' Hi (pre & suf & -> & -> & ->). assert (LQ : length (map snd Q) = length P) by (rewrite map_length, HQ; done).
    assert (Lt : length (take i (map snd Q)) = i) by (rewrite take_length; lia).
    destruct (lookup_lt_is_Some_2 o i) as [a Ha]; [lia|]. pose proof (drop_S _ _ _ Ha) as D. rewrite D.
    rewrite (proj2 (rd_Ok _ i a)) by (rewrite lookup_app_r, Lt, Nat.sub_diag by lia; done). cbn [bind].
    assert (Hin : a ∈ locs (length P)) by (rewrite <- Po; by eapply elem_of_list_lookup_2). apply elem_locs in Hin.
    assert (Hv : rdZ (map snd P) (a - 1) = Ok (at_loc d0 P a).2).
    { replace (a - 1)%Z with (Z.of_nat (Z.to_nat (a - 1))) by lia. rewrite rdZ_nat. apply rd_Ok. unfold at_loc. rewrite list_lookup_fmap.
      destruct (lookup_lt_is_Some_2 P (Z.to_nat (a - 1))) as [y Hy]; [lia|]. rewrite Hy. cbn. do 2 f_equal. symmetry. by apply nth_lookup_Some. }
    rewrite Hv. cbn [bind]. rewrite wr_Ok by (rewrite app_length, Lt; cbn; lia). eexists; split; [done|].
    exists (take i (map snd Q) ++ [(at_loc d0 P a).2]), (drop (S i) o). split; [|split; [done|]].
    - rewrite insert_app_r_alt by lia. rewrite Lt, Nat.sub_diag. cbn. by rewrite <- app_assoc.
    - symmetry. apply take_S_r. rewrite <- Eq, map_map. by rewrite list_lookup_fmap, Ha. }
  rewrite Eo'. f_equal. cbn [Nat.add] in *. subst. rewrite drop_ge by lia. rewrite app_nil_r. apply take_ge. rewrite !map_length. lia.
Qed.
