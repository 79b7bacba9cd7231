(** * C30: [vec_locate_matches()] *)
From Verif Require Import Base M_Double M_Scalar M_Slice M_Object M_Proxy M_OrderChr M_OrderDf M_Rank M_Match Spec_Order Spec_OrderRow Spec_Match L_Unique L_OrderSpec P_Order P_Rank.
From Verif Require Import L_MatchJoint L_MatchKeys L_MatchCont L_MatchStable L_MatchRec L_MatchLocate L_MatchRecord L_MatchFilter L_MatchNeedle L_MatchEnv L_MatchOps L_MatchGlue.
From Coq Require Import Sorting.Sorted.
#[local] Arguments Z.mul : simpl never.
#[local] Arguments Z.add : simpl never.
#[local] Arguments Z.sub : simpl never.
#[local] Arguments Z.to_nat : simpl never.
#[local] Arguments Z.of_nat : simpl never.

(** One condition (filter) for all columns or one for each. *)
Definition by_col {A} (l : list A) (n : nat) : list A := match l with [a] => replicate n a | _ => l end.
Definition sized {A} (l : list A) (n : nat) : Prop := length l = 1 \/ length l = n.

(** The inputs: at least one column, the columns of the needles and the haystack
    have the same types and hold R values; columns that are themselves data
    frames are only matched by [==]. *)
Record match_input (fuel : nat) (xs ys : list oproxy) (N H : nat) (condition : list mop) (filter : list mfilter) (opts : mopts) (tls : truelengths) : Prop := MatchInput {
  mi_cols : Forall2 (fun x y => pair_input x y N H) xs ys; mi_some : 0 < length xs;
  mi_cond : sized condition (length xs); mi_filter : sized filter (length xs);
  mi_bare : forall c x, xs !! c = Some x -> nth c (by_col condition (length xs)) OPS_eq <> OPS_eq -> exists v, x = OVec v;
  mi_N : (Z.of_nat N <= INT_MAX)%Z; mi_H : (Z.of_nat H <= INT_MAX)%Z; mi_tls : forall s, (0 <= tls s)%Z;
  mi_f1 : Forall (fun x => length (proxy_cols x) <= fuel) xs; mi_f2 : length xs <= fuel; mi_f3 : 2 <= fuel;
  mi_inc : forall v, o_incomplete opts = INC_value v -> is_int v; mi_nm : forall v, o_no_match opts = NM_value v -> is_int v;
  (** [multiple = "first"] and ["last"] record all matches without checking their number. *)
  mi_one : one (o_multiple opts) = true ->
    (count_rows N (matches_of (o_incomplete opts) (o_nan_distinct opts) (by_col condition (length xs)) xs ys H) <= INT_MAX)%Z }.

(** ** Values *)
Lemma dbl_miss x : is_number x = false <-> dbl_classify x <> DblNumber.
Proof. unfold is_number. by destruct (dbl_classify x). Qed.
Lemma pair_complete nd x y a b : same_type x y -> pair_vcmp nd x y a b = Eq -> col_complete a x = col_complete b y.
Proof.
  destruct x as [x|x|x|x|x], y as [y|y|y|y|y]; try done; intros _; cbn.
  - unfold int_vcmp. by destruct (_ =? _)%Z, (_ =? _)%Z.
  - unfold int_vcmp. by destruct (_ =? _)%Z, (_ =? _)%Z.
  - unfold dbl_vcmp, is_number. by destruct (dbl_classify (at_loc 0%Z x a)), (dbl_classify (at_loc 0%Z y b)).
  - unfold cpl_vcmp, cpl_parts, dbl_vcmp, is_number. destruct (at_loc (0%Z, 0%Z) x a) as [x1 x2], (at_loc (0%Z, 0%Z) y b) as [y1 y2]. cbn [fst snd].
    destruct (dbl_classify x1) eqn:E1, (dbl_classify x2) eqn:E2, (dbl_classify y1) eqn:E3, (dbl_classify y2) eqn:E4; cbn; rewrite ?E1, ?E2, ?E3, ?E4; cbn; try done; by destruct nd.
  - unfold chr_vcmp. by destruct (at_loc None x a), (at_loc None y b).
Qed.
Lemma pair_small nd x y a b : same_type x y -> col_complete a x = true -> col_complete b y = false -> pair_vcmp nd x y a b = Gt.
Proof.
  destruct x as [x|x|x|x|x], y as [y|y|y|y|y]; try done; intros _; cbn.
  - unfold int_vcmp. by destruct (_ =? _)%Z, (_ =? _)%Z.
  - unfold int_vcmp. by destruct (_ =? _)%Z, (_ =? _)%Z.
  - unfold dbl_vcmp, is_number. by destruct (dbl_classify (at_loc 0%Z x a)), (dbl_classify (at_loc 0%Z y b)).
  - unfold cpl_vcmp, cpl_parts, dbl_vcmp, is_number. destruct (at_loc (0%Z, 0%Z) x a) as [x1 x2], (at_loc (0%Z, 0%Z) y b) as [y1 y2]. cbn [fst snd].
    destruct (dbl_classify x1) eqn:E1, (dbl_classify x2) eqn:E2, (dbl_classify y1) eqn:E3, (dbl_classify y2) eqn:E4; cbn; rewrite ?E1, ?E2, ?E3, ?E4; cbn; try done; by destruct nd.
  - unfold chr_vcmp. by destruct (at_loc None x a), (at_loc None y b).
Qed.
Lemma same_type_refl x : same_type x x.
Proof. by destruct x. Qed.
Lemma key_complete nd x y a b : Forall2 same_type (proxy_cols x) (proxy_cols y) -> key_vcmp nd x y a b = Eq -> complete_at x a = complete_at y b.
Proof.
  unfold key_vcmp, complete_at. intros F. induction F as [|c d cs ds Hc F IH]; [done|]. cbn [pairs_vcmp forallb].
  destruct (pair_vcmp nd c d a b) eqn:E; cbn [cmp_then]; [|done|done]. intros E2. by rewrite (pair_complete nd c d a b Hc E), IH.
Qed.
Lemma key_small nd x y a b : Forall2 same_type (proxy_cols (OVec x)) (proxy_cols y) -> complete_at (OVec x) a = true -> complete_at y b = false -> key_vcmp nd (OVec x) y a b = Gt.
Proof.
  intros F. assert (exists d, proxy_cols y = [d] /\ same_type x d) as (d & Ed & Hd).
  { cbn in F. inversion F as [|? d ? l Hd F2 E1 E2]. subst. inversion F2. by exists d. }
  unfold key_vcmp, complete_at. rewrite Ed. cbn. rewrite !andb_true_r. intros Hx Hy. by rewrite (pair_small nd x d a b Hd Hx Hy).
Qed.
Lemma same_refl cs : Forall2 same_type cs cs.
Proof. induction cs; constructor; [apply same_type_refl|done]. Qed.

(** ** Ranks and completeness by column *)
Lemma xtfrm_cols fuel xs ys N H nd tls : Forall2 (fun x y => pair_input x y N H) xs ys -> (Z.of_nat N <= INT_MAX)%Z -> (Z.of_nat H <= INT_MAX)%Z ->
  (forall s, 0 <= tls s)%Z -> Forall (fun x => length (proxy_cols x) <= fuel) xs ->
  exists ns hs, df_joint_xtfrm_by_col fuel xs ys N H nd tls = Ok (ns, hs) /\ length ns = length xs /\ length hs = length xs /\
    forall c x y, xs !! c = Some x -> ys !! c = Some y -> exists rx ry, ns !! c = Some rx /\ hs !! c = Some ry /\ ranks_ok nd x y N H rx ry.
Proof.
  intros F HN HH HT. induction F as [|x y xs ys P F IH]; intros HF.
  - exists [], []. by repeat split.
  - inversion HF as [|? ? Hf HF2]; subst. destruct (IH HF2) as (ns & hs & E & L1 & L2 & HI). destruct (joint_xtfrm_ok fuel x y N H nd tls P HN HH HT Hf) as (rx & ry & Er & Hr).
    exists (rx :: ns), (ry :: hs). cbn [df_joint_xtfrm_by_col]. rewrite Er. cbn [bind]. rewrite E. cbn [bind]. split; [done|]. cbn [length].
    split; [lia|]. split; [lia|]. intros [|c] x0 y0 Hx Hy; cbn in Hx, Hy |- *; [|by apply HI].
    injection Hx as <-. injection Hy as <-. by exists rx, ry.
Qed.
Lemma detect_cols xs n : Forall (fun x => oproxy_size x = n /\ Forall (col_ok n) (proxy_cols x)) xs ->
  exists cs, df_detect_complete_by_col xs = Ok cs /\ length cs = length xs /\
    forall c x l v, cs !! c = Some v -> xs !! c = Some x -> (0 <= l < Z.of_nat n)%Z -> rdZ v l = Ok (b2i (complete_at x (l + 1))).
Proof.
  intros F. induction F as [|x xs [Hs Hc] F IH]; [by exists []|]. destruct IH as (cs & E & L & HI).
  assert (Hl : Forall (fun c => ocol_length c = oproxy_size x) (proxy_cols x)).
  { rewrite Hs. eapply Forall_impl; [exact Hc|]. by intros c []. }
  exists (map (fun i => b2i (complete_at x (Z.of_nat i + 1))) (seq 0 n) :: cs). cbn [df_detect_complete_by_col]. rewrite (detect_ok x Hl), Hs. cbn [bind]. rewrite E. cbn [bind].
  split; [done|]. cbn [length]. split; [lia|]. intros [|c] x0 l v Hv Hx Hr; cbn in Hv, Hx; [|by apply (HI c)].
  injection Hv as <-. injection Hx as <-. replace l with (Z.of_nat (Z.to_nat l)) by lia. rewrite rdZ_nat. apply rd_Ok.
  rewrite list_lookup_fmap, lookup_seq_lt by lia. cbn. done.
Qed.
Lemma parse_ok {A} (l : list A) n what : sized l n -> parse_by_col l n what = Ok (by_col l n).
Proof.
  unfold sized, parse_by_col, by_col. destruct l as [|a [|b l]]; [|done|].
  - intros [E|<-]; done.
  - cbn [length]. intros [E|<-]; [done|]. by rewrite Nat.eqb_refl.
Qed.
Lemma by_col_length {A} (l : list A) n : sized l n -> length (by_col l n) = n.
Proof.
  unfold sized, by_col. destruct l as [|a [|b l]]; [| |].
  - by intros [E|<-].
  - intros _. by rewrite replicate_length.
  - by intros [E|<-].
Qed.

Lemma op_Zb_cmp o a b : op_Zb o a b = op_holds o (a ?= b)%Z.
Proof. destruct o; cbn; destruct (Z.compare_spec a b); cbn; lia. Qed.
Lemma eqb_cmp a b : (a =? b)%Z = is_eq (a ?= b)%Z.
Proof. destruct (Z.compare_spec a b); cbn; lia. Qed.

Section match_.
  Context (fuel : nat) (xs ys : list oproxy) (N H : nat) (condition : list mop) (filter : list mfilter) (opts : mopts) (tls : truelengths).
  Context (MI : match_input fuel xs ys N H condition filter opts tls).
  Notation ops := (by_col condition (length xs)).
  Notation fs := (by_col filter (length xs)).
  Notation nd := (o_nan_distinct opts).
  Notation inc := (o_incomplete opts).
  Notation Matches := (matches_of inc nd ops xs ys H).
  Notation ncol := (length xs).
  Definition nc_of (ps : list oproxy) (c : nat) (l : Z) : bool := match ps !! c with Some x => complete_at x (l + 1) | None => true end.

  Lemma cols_at c : c < ncol -> exists x y, xs !! c = Some x /\ ys !! c = Some y /\ pair_input x y N H.
  Proof.
    intros Hc. destruct (lookup_lt_is_Some_2 xs c Hc) as [x Hx]. destruct (Forall2_lookup_l _ _ _ _ _ (mi_cols _ _ _ _ _ _ _ _ _ MI) Hx) as (y & Hy & P). by exists x, y.
  Qed.
  Lemma same_cols c x y : xs !! c = Some x -> ys !! c = Some y -> Forall2 same_type (proxy_cols x) (proxy_cols y).
  Proof.
    intros Hx Hy. destruct (Forall2_lookup_l _ _ _ _ _ (mi_cols _ _ _ _ _ _ _ _ _ MI) Hx) as (y' & Hy' & P). assert (y' = y) as -> by congruence.
    by destruct P as (_ & _ & _ & _ & F & _).
  Qed.

  Section ranks.
    Context (ns hs ncm hcm : list (list Z)).
    Context (Ln : length ns = ncol) (Lh : length hs = ncol).
    Context (HR : forall c x y, xs !! c = Some x -> ys !! c = Some y -> exists rx ry, ns !! c = Some rx /\ hs !! c = Some ry /\ ranks_ok nd x y N H rx ry).
    Context (Lnc : length ncm = ncol) (Lhc : length hcm = ncol).
    Context (DN : forall c x l v, ncm !! c = Some v -> xs !! c = Some x -> (0 <= l < Z.of_nat N)%Z -> rdZ v l = Ok (b2i (complete_at x (l + 1)))).
    Context (DH : forall c x l v, hcm !! c = Some v -> ys !! c = Some x -> (0 <= l < Z.of_nat H)%Z -> rdZ v l = Ok (b2i (complete_at x (l + 1)))).

    Lemma at_col c : c < ncol -> exists x y, xs !! c = Some x /\ ys !! c = Some y /\ Forall2 same_type (proxy_cols x) (proxy_cols y) /\
      (forall l, nc_of xs c l = complete_at x (l + 1)) /\ (forall l, nc_of ys c l = complete_at y (l + 1)) /\
      (forall l k, (0 <= l < Z.of_nat N)%Z -> (0 <= k < Z.of_nat H)%Z -> (colv ns c l ?= colv hs c k)%Z = key_vcmp nd x y (l + 1) (k + 1)) /\
      (forall l k, (0 <= l < Z.of_nat N)%Z -> (0 <= k < Z.of_nat N)%Z -> (colv ns c l ?= colv ns c k)%Z = key_vcmp nd x x (l + 1) (k + 1)) /\
      (forall l k, (0 <= l < Z.of_nat H)%Z -> (0 <= k < Z.of_nat H)%Z -> (colv hs c l ?= colv hs c k)%Z = key_vcmp nd y y (l + 1) (k + 1)).
    Proof.
      intros Hc. destruct (cols_at c Hc) as (x & y & Hx & Hy & P). exists x, y. split; [done|]. split; [done|]. split; [by apply (same_cols c)|].
      destruct (HR c x y Hx Hy) as (rx & ry & Er & Ey & (R1 & R2 & R3 & R4 & R5 & R6 & R7)).
      unfold nc_of. rewrite Hx, Hy. split; [done|]. split; [done|].
      split; [|split]; intros l k Hl Hk; rewrite ?(colv_lookup _ _ _ _ Er), ?(colv_lookup _ _ _ _ Ey); [apply R5|apply R6|apply R7]; lia.
    Qed.
    Lemma ranks_input : rank_input ns hs ncm hcm N H fs ops (nc_of xs) (nc_of ys).
    Proof.
      assert (IC : int_cols N ns /\ int_cols H hs).
      { split; apply Forall_lookup; intros c r Hr.
        - assert (Hc : c < ncol) by (apply lookup_lt_Some in Hr; lia). destruct (cols_at c Hc) as (x & y & Hx & Hy & P).
          destruct (HR c x y Hx Hy) as (rx & ry & Er & Ey & (R1 & R2 & R3 & R4 & _)). rewrite Hr in Er. injection Er as ->. split; [done|]. eapply Forall_impl; [exact R3|]. cbn. unfold is_int. intros. lia.
        - assert (Hc : c < ncol) by (apply lookup_lt_Some in Hr; lia). destruct (cols_at c Hc) as (x & y & Hx & Hy & P).
          destruct (HR c x y Hx Hy) as (rx & ry & Er & Ey & (R1 & R2 & R3 & R4 & _)). rewrite Hr in Ey. injection Ey as ->. split; [done|]. eapply Forall_impl; [exact R4|]. cbn. unfold is_int. intros. lia. }
      destruct IC as [IC1 IC2]. destruct MI. split; try done.
      - lia.
      - lia.
      - lia.
      - rewrite Ln. by apply by_col_length.
      - rewrite Ln. by apply by_col_length.
      - lia.
      - intros c v l Hv Hl. destruct (at_col c) as (x & y & Hx & Hy & _ & E & _); [apply lookup_lt_Some in Hv; lia|]. rewrite E. by apply (DN c).
      - intros c v l Hv Hl. destruct (at_col c) as (x & y & Hx & Hy & _ & _ & E & _); [apply lookup_lt_Some in Hv; lia|]. rewrite E. by apply (DH c).
      - intros c l k Hc Hl Hk E. destruct (at_col c) as (x & y & Hx & Hy & F & E1 & E2 & C1 & C2 & C3); [lia|]. rewrite !E1. apply (key_complete nd); [apply same_refl|].
        rewrite <- C2 by done. rewrite E. apply Z.compare_refl.
      - intros c l k Hc Hl Hk E. destruct (at_col c) as (x & y & Hx & Hy & F & E1 & E2 & C1 & C2 & C3); [lia|]. rewrite E1, E2. apply (key_complete nd); [done|].
        rewrite <- C1 by done. rewrite E. apply Z.compare_refl.
      - intros c l k Hc Ho Hl Hk Hn Hd. destruct (at_col c) as (x & y & Hx & Hy & F & E1 & E2 & C1 & C2 & C3); [lia|]. rewrite E1 in Hn. rewrite E2 in Hd.
        destruct (mi_bare0 c x Hx Ho) as [v ->].
        specialize (C1 l k Hl Hk). rewrite (key_small nd v y _ _ F Hn Hd) in C1. by apply Z.compare_gt_iff in C1.
      - intros c l k Hc Ho Hl Hk Hd Hn. destruct (at_col c) as (x & y & Hx & Hy & F & E1 & E2 & C1 & C2 & C3); [lia|]. rewrite E2 in Hn, Hd.
        destruct (mi_bare0 c x Hx Ho) as [v ->]. assert (exists w, y = OVec w) as [w ->].
        { destruct (cols_at c) as (x' & y' & Hx' & Hy' & P); [lia|]. assert (x' = OVec v) as -> by congruence. assert (y' = y) as -> by congruence.
          destruct P as (_ & _ & _ & _ & _ & P & _). destruct y; [by eexists|done]. }
        specialize (C3 k l Hk Hl). rewrite (key_small nd w (OVec w) _ _ (same_refl _) Hn Hd) in C3. by apply Z.compare_gt_iff in C3.
    Qed.

    Lemma cond_cell c x y l h : xs !! c = Some x -> ys !! c = Some y -> (0 <= l < Z.of_nat N)%Z -> (0 <= h < Z.of_nat H)%Z ->
      condb ns hs opts ops (nc_of xs) (nc_of ys) c l h = cell_matches inc nd (nth c ops OPS_eq) x y (l + 1) (h + 1).
    Proof.
      intros Hx Hy Hl Hh. destruct (at_col c) as (x' & y' & Hx' & Hy' & F & E1 & E2 & C1 & _); [by apply lookup_lt_Some in Hx|].
      assert (x' = x) as -> by congruence. assert (y' = y) as -> by congruence. specialize (C1 l h Hl Hh).
      unfold condb, cell_matches. rewrite E1, E2, <- C1, op_Zb_cmp, eqb_cmp.
      destruct (complete_at x (l + 1)); [done|]. destruct inc; try done; f_equal; by destruct (nth c ops OPS_eq).
    Qed.
    Lemma rows_from k a b : (1 <= a <= Z.of_nat N)%Z -> (1 <= b <= Z.of_nat H)%Z -> k <= ncol ->
      forallb (fun c => condb ns hs opts ops (nc_of xs) (nc_of ys) c (a - 1) (b - 1)) (seq k (ncol - k)) = row_matches inc nd (drop k ops) (drop k xs) (drop k ys) a b.
    Proof.
      intros Ha Hb Hk. remember (ncol - k) as r eqn:Er. revert k Hk Er. induction r as [|r IH]; intros k Hk Er.
      - rewrite (drop_ge xs) by lia. cbn. by destruct (drop k ops).
      - destruct (cols_at k) as (x & y & Hx & Hy & _); [lia|].
        destruct (lookup_lt_is_Some_2 ops k) as [o Ho]; [rewrite by_col_length by apply (mi_cond _ _ _ _ _ _ _ _ _ MI); lia|].
        rewrite (drop_S _ _ _ Hx), (drop_S _ _ _ Hy), (drop_S _ _ _ Ho). cbn [seq forallb row_matches]. rewrite IH by lia.
        rewrite (cond_cell k x y) by (done || lia). rewrite (nth_lookup_Some _ _ _ _ Ho). by rewrite !Z.sub_add.
    Qed.
    Lemma mb_rows a b : a ∈ locs N -> b ∈ locs H -> mb ns hs opts ops (nc_of xs) (nc_of ys) (a - 1) (b - 1) = row_matches inc nd ops xs ys a b.
    Proof.
      intros Ha%elem_locs Hb%elem_locs. unfold mb. pose proof (rows_from 0 a b Ha Hb ltac:(lia)) as E. rewrite !drop_0, Nat.sub_0_r in E. by rewrite Ln.
    Qed.
    Lemma mts_matches a : a ∈ locs N -> mts ns hs H opts ops (nc_of xs) (nc_of ys) a = Matches a.
    Proof.
      intros Ha. unfold mts, matches_of. apply filter_ext_in. intros b Hb%elem_of_list_In. by apply mb_rows.
    Qed.
    Lemma inc_needle a : a ∈ locs N -> incb (length ns) (nc_of xs) (a - 1) = needle_incomplete xs a.
    Proof.
      intros Ha. unfold incb, needle_incomplete. rewrite Ln. apply eq_iff_eq_true. rewrite !existsb_exists. split.
      - intros (c & Hc & E). apply in_seq in Hc. destruct (cols_at c) as (x & y & Hx & _); [lia|]. exists x. split; [by eapply elem_of_list_In, elem_of_list_lookup_2|].
        unfold nc_of in E. rewrite Hx, Z.sub_add in E. done.
      - intros (x & Hx & E). apply elem_of_list_In, elem_of_list_lookup in Hx as (c & Hx). exists c. split; [apply in_seq; apply lookup_lt_Some in Hx; lia|].
        unfold nc_of. by rewrite Hx, Z.sub_add.
    Qed.
  End ranks.

  (** C30: the result of [vec_locate_matches()].  Each needle finds locations that
      match.  If filters are only used on the last column or on columns matched by
      [==], these are the best of the matches according to the filter on the last
      column.  Of what is found the result returns what [multiple] says, with the
      values of [incomplete], [no_match] and [remaining]; there is an error or a
      warning exactly when there is a reason for it. *)
  Theorem C30_locate_matches : exists (sig : Z -> bool) (found choice : Z -> list Z),
    (forall a, a ∈ locs N ->
      (sig a = true -> tracks_incomplete inc = true /\ needle_incomplete xs a = true) /\
      (tracks_incomplete inc = true -> needle_incomplete xs a = true -> OPS_eq ∉ ops -> sig a = true) /\
      sublist (found a) (Matches a) /\
      ((forall c, c < ncol - 1 -> nth c fs FILTER_none = FILTER_none \/ nth c ops OPS_eq = OPS_eq) ->
        forall y, last ys = Some y -> found a = best_of nd (nth (ncol - 1) fs FILTER_none) y (Matches a)) /\
      chosen (o_multiple opts) (found a) (choice a)) /\
    outcome N H opts sig choice (count_rows N found) (count_rows N Matches) (vec_locate_matches fuel xs ys N H condition filter opts tls).
  Proof.
    pose proof MI as [A1 A2 A3 A4 A5 A6 A7 A8 A9 A10 A11 A12 A13 A14].
    destruct (xtfrm_cols fuel xs ys N H nd tls A1 A6 A7 A8 A9) as (ns & hs & Ex & Ln & Lh & HR).
    destruct (detect_cols xs N) as (ncm & En & Lnc & DN).
    { apply Forall_lookup. intros c x Hx. destruct (cols_at c) as (x' & y & Hx' & Hy & P); [by apply lookup_lt_Some in Hx|]. assert (x' = x) as -> by congruence.
      by destruct P as (? & ? & ? & ? & _). }
    pose proof (Forall2_length _ _ _ A1) as Lxy.
    destruct (detect_cols ys H) as (hcm & Eh & Lhc & DH).
    { apply Forall_lookup. intros c y Hy. destruct (cols_at c) as (x & y' & Hx & Hy' & P); [apply lookup_lt_Some in Hy; lia|]. assert (y' = y) as -> by congruence.
      by destruct P as (? & ? & ? & ? & _). }
    rewrite <- Lxy in Lhc. pose proof (ranks_input ns hs ncm hcm Ln Lh HR Lnc Lhc DN DH) as RI.
    unfold vec_locate_matches. rewrite !parse_ok by done. cbn [bind]. rewrite (proj2 (Nat.eqb_neq _ _)) by lia. rewrite En. cbn [bind]. rewrite Eh. cbn [bind]. rewrite Ex. cbn [bind].
    assert (EM : forall a, a ∈ locs N -> mts ns hs H opts ops (nc_of xs) (nc_of ys) a = Matches a) by (intros a Ha; by apply (mts_matches ns hs ncm hcm)).
    assert (EC : count_rows N (mts ns hs H opts ops (nc_of xs) (nc_of ys)) = count_rows N Matches).
    { unfold count_rows. f_equal. apply map_ext_in. intros a Ha%elem_of_list_In. by rewrite EM. }
    destruct (df_locate_ok fuel ns hs ncm hcm N H opts fs ops tls _ _ RI A6 A7 A8 ltac:(lia) A11 A12 A13) as (sg & fd & ch & HS & HF & HB & OUT).
    { intros E. rewrite EC. by apply A14. }
    exists sg, fd, ch. split; [|by rewrite EC in OUT]. intros a Ha. destruct (HS a Ha) as [S1 S2], (HF a Ha) as (F1 & F2 & F3).
    rewrite (inc_needle ns hs ncm hcm Ln Lh HR Lnc Lhc DN DH a Ha) in S1, S2. split; [intros E; by apply andb_true_iff, S1|]. split.
    { intros T I Hn. destruct S2 as [?|(c & Hc & E)]; [by rewrite T, I|done|]. exfalso. apply Hn. rewrite <- E. 
      apply elem_of_list_In, nth_In. rewrite by_col_length by done. lia. }
    assert (SL : forall (p : Z -> bool), (forall h, h ∈ fd a <-> h ∈ Matches a /\ p h = true) -> fd a = List.filter p (Matches a)).
    { intros p Hp. apply (ss_unique Z.lt); [intros x y; lia|done|apply ss_filter, ss_filter, locs_sorted|].
      apply NoDup_Permutation; [apply (ss_nodup Z.lt); [intros x; lia|done]|apply (ss_nodup Z.lt); [intros x; lia|apply ss_filter, ss_filter, locs_sorted]|].
      intros h. by rewrite Hp, elem_of_list_In, (elem_of_list_In (List.filter _ _)), filter_In. }
    split; [|split].
    - rewrite (SL (fun h => bool_decide (h ∈ fd a))).
      + clear. induction (Matches a) as [|h L IH]; [done|]. cbn. destruct (bool_decide _); by constructor.
      + intros h. rewrite bool_decide_eq_true. split; [|tauto]. intros Hh. split; [|done]. rewrite <- EM by done. by apply F2.
    - intros simple y Hy. rewrite Ln in HB. specialize (HB simple a).
      assert (Hlast : ys !! (ncol - 1) = Some y) by (rewrite last_lookup in Hy; rewrite <- Hy; f_equal; lia).
      destruct (at_col ns hs ncm hcm Ln Lh HR Lnc Lhc DN DH (ncol - 1)) as (x & y' & Hx & Hy' & F & _ & _ & _ & _ & C3); [lia|]. assert (y' = y) as -> by congruence.
      assert (Hbest : forall h, h ∈ fd a <-> h ∈ Matches a /\ forall h', h' ∈ Matches a -> ~ better ns hs fs h' h).
      { intros h. rewrite (HB h Ha). by rewrite EM. }
      assert (Hrange : forall h, h ∈ Matches a -> (1 <= h <= Z.of_nat H)%Z).
      { intros h Hh. unfold matches_of in Hh. apply elem_of_list_In, filter_In in Hh as [Hh _]. by apply elem_locs, elem_of_list_In. }
      assert (Hcmp : forall h h', h ∈ Matches a -> h' ∈ Matches a -> key_vcmp nd y y h' h = (colv hs (ncol - 1) (h' - 1) ?= colv hs (ncol - 1) (h - 1))%Z).
      { intros h h' Hh Hh'. apply Hrange in Hh, Hh'. rewrite C3 by lia. by rewrite !Z.sub_add. }
      unfold better in Hbest. rewrite Ln in Hbest. unfold best_of. destruct (nth (ncol - 1) fs FILTER_none).
      + rewrite (SL (fun _ => true)); [|intros h; rewrite Hbest; tauto]. clear. induction (Matches a) as [|h L IH]; [done|]. cbn. by rewrite IH.
      + apply SL. intros h. rewrite Hbest, forallb_forall. split; intros [H1 H2]; (split; [done|]); intros h' Hh'.
        * apply elem_of_list_In in Hh'. rewrite (Hcmp h h') by done. specialize (H2 h' Hh'). destruct (Z.compare_spec (colv hs (ncol - 1) (h' - 1)) (colv hs (ncol - 1) (h - 1))); (lia || done).
        * specialize (H2 h' (proj1 (elem_of_list_In _ _) Hh')). rewrite (Hcmp h h') in H2 by done. destruct (Z.compare_spec (colv hs (ncol - 1) (h' - 1)) (colv hs (ncol - 1) (h - 1))); (lia || done).
      + apply SL. intros h. rewrite Hbest, forallb_forall. split; intros [H1 H2]; (split; [done|]); intros h' Hh'.
        * apply elem_of_list_In in Hh'. rewrite (Hcmp h h') by done. specialize (H2 h' Hh'). destruct (Z.compare_spec (colv hs (ncol - 1) (h' - 1)) (colv hs (ncol - 1) (h - 1))); (lia || done).
        * specialize (H2 h' (proj1 (elem_of_list_In _ _) Hh')). rewrite (Hcmp h h') in H2 by done. destruct (Z.compare_spec (colv hs (ncol - 1) (h' - 1)) (colv hs (ncol - 1) (h - 1))); (lia || done).
    - done.
  Qed.
End match_.

(** Without filter and with the default options, the result is exactly the pairs
    of locations that match, by needle and then by haystack location. *)
Theorem C30_pairs fuel xs ys N H condition opts tls : match_input fuel xs ys N H condition [FILTER_none] opts tls ->
  (count_rows N (matches_of (o_incomplete opts) (o_nan_distinct opts) (by_col condition (length xs)) xs ys H) <= INT_MAX)%Z ->
  tracks_incomplete (o_incomplete opts) = false -> o_no_match opts = NM_drop -> o_remaining opts = REM_drop ->
  o_multiple opts = MULTIPLE_all -> o_relationship opts = REL_none ->
  exists i j, vec_locate_matches fuel xs ys N H condition [FILTER_none] opts tls = Ok (i, j, []) /\ length i = length j /\
    zip i j = concat (map (fun a => map (pair a) (List.filter (row_matches (o_incomplete opts) (o_nan_distinct opts) (by_col condition (length xs)) xs ys a) (locs H))) (locs N)).
Proof.
  intros MI HC HI HM HR HA HL. destruct (C30_locate_matches fuel xs ys N H condition [FILTER_none] opts tls MI) as (sig & found & choice & HS & OUT).
  assert (EF : forall c n, nth c (by_col [FILTER_none] n) FILTER_none = FILTER_none).
  { intros c n. cbn. revert c. induction n as [|n IH]; intros [|c]; cbn; try done. }
  assert (exists y, last ys = Some y) as [y Hy].
  { destruct MI as [A1 A2 _ _ _ _ _ _ _ _ _ _ _ _]. apply Forall2_length in A1. destruct (last ys) eqn:El; [by eexists|]. apply last_None in El. subst. cbn in A1. lia. }
  assert (HC2 : forall a, a ∈ locs N -> sig a = false /\ choice a = matches_of (o_incomplete opts) (o_nan_distinct opts) (by_col condition (length xs)) xs ys H a).
  { intros a Ha. destruct (HS a Ha) as (S1 & _ & _ & SB & CH). split.
    - destruct (sig a); [|done]. destruct (S1 eq_refl) as [T _]. congruence.
    - rewrite HA in CH. cbn in CH. rewrite CH. rewrite (SB (fun c _ => or_introl (EF c _)) y Hy), EF. done. }
  assert (FE : count_rows N found = count_rows N (matches_of (o_incomplete opts) (o_nan_distinct opts) (by_col condition (length xs)) xs ys H)).
  { unfold count_rows. f_equal. apply map_ext_in. intros a Ha%elem_of_list_In. destruct (HC2 a Ha) as [_ E]. destruct (HS a Ha) as (_ & _ & _ & _ & CH). rewrite HA in CH. cbn in CH. by rewrite <- CH, E. }
  destruct (vec_locate_matches fuel xs ys N H condition [FILTER_none] opts tls) as [[[i j] w]|e|m] eqn:Ev; cbn in OUT; [| |done].
  - destruct OUT as (_ & Z1 & Z2 & Z3 & Z4). exists i, j. assert (w = []) as ->.
    { destruct w as [|x w]; [done|]. exfalso. specialize (proj1 (Z4 x) ltac:(apply elem_of_list_here)). destruct x; cbn; rewrite ?HA, ?HL; intros [? _]; done. }
    split; [done|]. split; [done|]. rewrite Z1. unfold result_rows. rewrite HR, app_nil_r. f_equal. apply map_ext_in. intros a Ha%elem_of_list_In.
    destruct (HC2 a Ha) as [E1 E2]. unfold needle_rows. rewrite E1, E2, HM. fold (matches_of (o_incomplete opts) (o_nan_distinct opts) (by_col condition (length xs)) xs ys H a).
    by destruct (matches_of _ _ _ _ _ _ a).
  - exfalso. destruct OUT as [(_ & Ht & _)|[(E & _)|[(E & _)|[(E & _)|[(E & _)|[(E & _)|[(E & _)|[(E & _)|(E & _)]]]]]]]]; try congruence.
    + unfold R_LEN_T_MAX in Ht. lia.
    + rewrite E in HI. done.
Qed.

(** ** Wrong arguments *)
Theorem C30_condition_size fuel xs ys N H condition filter opts tls : ~ sized condition (length xs) ->
  vec_locate_matches fuel xs ys N H condition filter opts tls = Err "`condition` must be length 1, or the same length as the number of columns of the input."%string.
Proof.
  intros Hs. unfold vec_locate_matches, parse_by_col, sized in *. destruct condition as [|a [|b l]]; cbn [length] in *.
  - rewrite (proj2 (Nat.eqb_neq _ _)) by lia. done.
  - tauto.
  - rewrite (proj2 (Nat.eqb_neq _ _)) by lia. done.
Qed.
Theorem C30_filter_size fuel xs ys N H condition filter opts tls : sized condition (length xs) -> ~ sized filter (length xs) ->
  vec_locate_matches fuel xs ys N H condition filter opts tls = Err "`filter` must be length 1, or the same length as the number of columns of the input."%string.
Proof.
  intros Hc Hs. unfold vec_locate_matches. rewrite parse_ok by done. cbn [bind]. unfold parse_by_col, sized in *. destruct filter as [|a [|b l]]; cbn [length] in *.
  - rewrite (proj2 (Nat.eqb_neq _ _)) by lia. done.
  - tauto.
  - rewrite (proj2 (Nat.eqb_neq _ _)) by lia. done.
Qed.
Theorem C30_no_columns fuel ys N H condition filter opts tls : sized condition 0 -> sized filter 0 ->
  vec_locate_matches fuel [] ys N H condition filter opts tls = Err "Must have at least 1 column to match on."%string.
Proof. intros H1 H2. unfold vec_locate_matches. cbn [length]. rewrite !parse_ok by done. done. Qed.

(** ** Examples *)
Definition no_tls : truelengths := fun _ => 0%Z.
Definition NA := NA_INTEGER.
(** Needles [(1, 3), (2, NA), (1, 0)], haystack [(1, 1), (1, 2), (NA, 2), (2, NA)];
    conditions [==] and [>=], filter [none] and [max]. *)
Definition ex_needles : list oproxy := [OVec (OInt [1; 2; 1]%Z); OVec (OInt [3; NA; 0]%Z)].
Definition ex_haystack : list oproxy := [OVec (OInt [1; 1; NA; 2]%Z); OVec (OInt [1; 2; 2; NA]%Z)].
Definition ex_opts (i : incomplete) (n : no_match) (r : remaining) (m : multiple) : mopts := MO i n r m REL_none false.
Lemma ex_input i n r m f : (forall v, i = INC_value v -> is_int v) -> (forall v, n = NM_value v -> is_int v) ->
  match_input 4 ex_needles ex_haystack 3 4 [OPS_eq; OPS_gte] f (ex_opts i n r m) no_tls \/ ~ sized f 2.
Proof.
  intros V1 V2. destruct (decide (length f = 1 \/ length f = 2)) as [Hf|Hf]; [left|by right].
  assert (CI : forall l : list Z, Forall is_int l -> col_ok (length l) (OInt l)) by (intros l Hl; by split).
  assert (P : forall x y : list Z, Forall is_int x -> Forall is_int y -> pair_input (OVec (OInt x)) (OVec (OInt y)) (length x) (length y)).
  { intros x y Hx Hy. split; [done|]. split; [done|]. split; [constructor; [by apply CI|constructor]|]. split; [constructor; [by apply CI|constructor]|].
    split; [repeat constructor|]. split; [done|]. intros [|[|j]] c Hj Hc; [lia|done|done]. }
  assert (I : forall z, (-2147483648 <= z <= 2147483647)%Z -> is_int z) by done.
  split; try done.
  - constructor; [|constructor; [|constructor]]; apply P; repeat constructor; apply I; unfold NA, NA_INTEGER, INT_MIN; lia.
  - cbn. lia.
  - by right.
  - intros [|[|c]] x Hx _; cbn in Hx; [injection Hx as <-; by eexists|injection Hx as <-; by eexists|done].
  - repeat constructor.
  - cbn. lia.
  - lia.
  - intros E. apply Z.leb_le. destruct i; vm_compute; done.
Qed.
Example ex_locate : vec_locate_matches 4 ex_needles ex_haystack 3 4 [OPS_eq; OPS_gte] [FILTER_none] (ex_opts INC_compare (NM_value NA) REM_drop MULTIPLE_all) no_tls =
  Ok ([1; 1; 2; 3]%Z, [1; 2; 4; NA]%Z, []).
Proof. vm_compute. reflexivity. Qed.
Example ex_filter : vec_locate_matches 4 ex_needles ex_haystack 3 4 [OPS_eq; OPS_gte] [FILTER_none; FILTER_max] (ex_opts INC_drop (NM_value 0) (REM_value NA) MULTIPLE_first) no_tls =
  Ok ([1; 3; NA; NA; NA]%Z, [2; 0; 1; 3; 4]%Z, []).
Proof. vm_compute. reflexivity. Qed.
(** The hypotheses of [C30_locate_matches] and [C30_pairs] hold for these. *)
Example ex_hypotheses : match_input 4 ex_needles ex_haystack 3 4 [OPS_eq; OPS_gte] [FILTER_none; FILTER_max] (ex_opts INC_drop (NM_value 0) (REM_value NA) MULTIPLE_first) no_tls.
Proof. destruct (ex_input INC_drop (NM_value 0) (REM_value NA) MULTIPLE_first [FILTER_none; FILTER_max]) as [?|Hf]; [done|intros v [= <-]; done|done|]. exfalso. apply Hf. by right. Qed.
Example ex_pairs : exists i j, vec_locate_matches 4 ex_needles ex_haystack 3 4 [OPS_eq; OPS_gte] [FILTER_none] (ex_opts INC_compare NM_drop REM_drop MULTIPLE_all) no_tls = Ok (i, j, []) /\
  zip i j = [(1, 1); (1, 2); (2, 4)]%Z.
Proof.
  assert (MI : match_input 4 ex_needles ex_haystack 3 4 [OPS_eq; OPS_gte] [FILTER_none] (ex_opts INC_compare NM_drop REM_drop MULTIPLE_all) no_tls).
  { destruct (ex_input INC_compare NM_drop REM_drop MULTIPLE_all [FILTER_none]) as [M|Hf]; [discriminate|discriminate|exact M|]. exfalso. apply Hf. by left. }
  pose proof (C30_pairs _ _ _ _ _ _ _ _ MI) as HP.
  destruct HP as (i & j & E & _ & Z1); [apply Z.leb_le; vm_compute; reflexivity|reflexivity|reflexivity|reflexivity|reflexivity|reflexivity|].
  exists i, j. split; [exact E|]. rewrite Z1. vm_compute. reflexivity.
Qed.

(** ** What does not hold *)
(** Incomplete needles are not always noticed: with [==], needles that are
    outside of the remaining range of the haystack are skipped, so that
    [incomplete = "error"] is no error, and the needle counts as unmatched. *)
Definition one_col (l : list Z) : list oproxy := [OVec (OInt l)].
Lemma one_col_input x y op f opts : Forall is_int x -> Forall is_int y -> (Z.of_nat (length x) <= INT_MAX)%Z -> (Z.of_nat (length y) <= INT_MAX)%Z ->
  (forall v, o_incomplete opts = INC_value v -> is_int v) -> (forall v, o_no_match opts = NM_value v -> is_int v) -> one (o_multiple opts) = false ->
  match_input 2 (one_col x) (one_col y) (length x) (length y) [op] [f] opts no_tls.
Proof.
  intros Hx Hy Nx Ny V1 V2 Ho. split; try done.
  - constructor; [|constructor]. split; [done|]. split; [done|]. split; [by repeat constructor|]. split; [by repeat constructor|].
    split; [repeat constructor|]. split; [done|]. intros [|[|j]] c Hj Hc; [lia|done|done].
  - cbn. lia.
  - by left.
  - by left.
  - intros [|c] v Hv _; cbn in Hv; [injection Hv as <-; by eexists|done].
  - repeat constructor.
  - cbn. lia.
  - congruence.
Qed.
Theorem C30_incomplete_refuted : exists x y opts a, match_input 2 (one_col x) (one_col y) (length x) (length y) [OPS_eq] [FILTER_none] opts no_tls /\
  o_incomplete opts = INC_error /\ a ∈ locs (length x) /\ needle_incomplete (one_col x) a = true /\
  vec_locate_matches 2 (one_col x) (one_col y) (length x) (length y) [OPS_eq] [FILTER_none] opts no_tls = Ok ([1; 2; 3]%Z, [NA; NA; NA], []).
Proof.
  exists [NA; 1; 2]%Z, [5]%Z, (ex_opts INC_error (NM_value NA) REM_drop MULTIPLE_all), 1%Z. split.
  - apply one_col_input; try done.
    + repeat constructor; done.
    + repeat constructor; done.
    + intros v [= <-]. done.
  - split; [done|]. split; [apply elem_locs; cbn; lia|]. split; [done|]. vm_compute. reflexivity.
Qed.
(** A filter is applied column by column while searching, so that with a filter on
    a column before the last a needle may not find any of its matches. *)
Theorem C30_filter_refuted : exists xs ys ops fs opts a b, match_input 2 xs ys 1 2 ops fs opts no_tls /\
  a ∈ locs 1 /\ b ∈ matches_of (o_incomplete opts) (o_nan_distinct opts) ops xs ys 2 a /\
  vec_locate_matches 2 xs ys 1 2 ops fs opts no_tls = Ok ([], [], []).
Proof.
  exists [OVec (OInt [0]%Z); OVec (OInt [2]%Z)], [OVec (OInt [1; 2]%Z); OVec (OInt [1; 3]%Z)], [OPS_lte; OPS_gte], [FILTER_max; FILTER_none],
    (ex_opts INC_compare NM_drop REM_drop MULTIPLE_all), 1%Z, 1%Z. split.
  - split; try done.
    + repeat constructor; try done; intros [|[|j]] c Hj Hc; try done; lia.
    + cbn. lia.
    + by right.
    + by right.
    + intros [|[|c]] x Hx _; cbn in Hx; [injection Hx as <-; by eexists|injection Hx as <-; by eexists|done].
    + repeat constructor.
  - split; [apply elem_locs; cbn; lia|]. split; [vm_compute; apply elem_of_list_here|]. vm_compute. reflexivity.
Qed.
(** Columns that are data frames and conditions other than [==]: the incomplete
    rows are not all in front of the complete ones, and an incomplete row of the
    haystack is returned for a complete needle. *)
Theorem C30_packed_refuted : exists x y opts i j a b, pair_input x y 1 3 /\
  vec_locate_matches 2 [x] [y] 1 3 [OPS_lte] [FILTER_none] opts no_tls = Ok (i, j, []) /\ (a, b) ∈ zip i j /\
  row_matches (o_incomplete opts) (o_nan_distinct opts) [OPS_lte] [x] [y] a b = false.
Proof.
  exists (ODf [OInt [5]%Z; OInt [9]%Z] 1), (ODf [OInt [6; NA; 1]%Z; OInt [NA; 1; 2]%Z] 3), (ex_opts INC_compare NM_drop REM_drop MULTIPLE_all), [1]%Z, [1]%Z, 1%Z, 1%Z.
  split.
  - repeat constructor; try done. intros [|[|[|j]]] c Hj Hc; cbn in Hc; try done; try lia; by injection Hc as <-.
  - split; [vm_compute; reflexivity|]. split; [apply elem_of_list_here|]. vm_compute. reflexivity.
Qed.

Print Assumptions C30_locate_matches.
Print Assumptions C30_pairs.
Print Assumptions C30_condition_size.
Print Assumptions C30_filter_size.
Print Assumptions C30_no_columns.
Print Assumptions C30_incomplete_refuted.
Print Assumptions C30_filter_refuted.
Print Assumptions C30_packed_refuted.
