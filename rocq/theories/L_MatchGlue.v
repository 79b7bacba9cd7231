(** * Lemmas: the outcome of [df_locate_matches()] *)
From Verif Require Import Base M_Double M_Scalar M_Slice M_Object M_Proxy M_OrderChr M_OrderDf M_Rank M_Match Spec_Order Spec_OrderRow Spec_Match L_Unique L_OrderSpec P_Order P_Rank.
From Verif Require Import L_MatchSearch L_MatchJoint L_MatchKeys L_MatchCont L_MatchRec L_MatchLocate L_MatchRecord L_MatchStable L_MatchOps L_MatchSteps L_MatchExpand L_MatchOutcome L_MatchResult L_MatchFilter L_MatchNeedle L_MatchEnv.
From Coq Require Import Sorting.Sorted.
#[local] Arguments Z.mul : simpl never.
#[local] Arguments Z.add : simpl never.
#[local] Arguments Z.sub : simpl never.
#[local] Arguments Z.to_nat : simpl never.
#[local] Arguments Z.of_nat : simpl never.

(** ** Places of ranges *)
Definition places (x : Z * Z) : list Z := map (fun j => x.1 + Z.of_nat j)%Z (seq 0 (Z.to_nat x.2)).
Definition all_places (xs : list (Z * Z)) : list Z := concat (map places xs).
Lemma places_elem x p : p ∈ places x <-> (x.1 <= p < x.1 + Z.max 0 x.2)%Z.
Proof.
  unfold places. rewrite elem_of_list_In, in_map_iff. split.
  - intros (j & <- & Hj). apply in_seq in Hj. lia.
  - intros Hp. exists (Z.to_nat (p - x.1)). rewrite in_seq. lia.
Qed.
Lemma all_places_elem xs p : p ∈ all_places xs <-> exists x, x ∈ xs /\ covers x p.
Proof.
  unfold all_places, covers. induction xs as [|x xs IH]; cbn [map concat].
  - split; [intros Hp; by apply elem_of_nil in Hp|intros (x & Hx & _); by apply elem_of_nil in Hx].
  - rewrite elem_of_app, IH, places_elem. split.
    + intros [Hp|(y & Hy & Hp)]; [exists x; split; [apply elem_of_list_here|lia]|exists y; split; [by apply elem_of_list_further|done]].
    + intros (y & [->|Hy]%elem_of_cons & Hp); [left; lia|right; eauto].
Qed.
Lemma ss_app_intro {A} (R : A -> A -> Prop) l k : StronglySorted R l -> StronglySorted R k -> (forall x y, x ∈ l -> y ∈ k -> R x y) -> StronglySorted R (l ++ k).
Proof.
  intros S1 S2 HR. induction S1 as [|a l S1 IH F]; [done|]. cbn. constructor.
  - apply IH. intros x y Hx. apply HR. by apply elem_of_list_further.
  - apply Forall_app. split; [done|]. apply Forall_forall. intros y Hy. apply HR; [apply elem_of_list_here|done].
Qed.
Lemma places_sorted x : StronglySorted Z.lt (places x).
Proof.
  unfold places. generalize 0 as i. induction (Z.to_nat x.2) as [|k IH]; intros i; [constructor|]. cbn [seq map]. constructor; [apply IH|].
  apply Forall_forall. intros y Hy. apply elem_of_list_In, in_map_iff in Hy as (j & <- & Hj). apply in_seq in Hj. lia.
Qed.
Lemma all_places_sorted xs : StronglySorted (fun x y => x.1 + x.2 <= y.1)%Z xs -> (forall x, x ∈ xs -> 1 <= x.2)%Z -> StronglySorted Z.lt (all_places xs).
Proof.
  unfold all_places. intros S. induction S as [|x xs S IH F]; intros Hp; [constructor|]. cbn [map concat]. apply ss_app_intro.
  - apply places_sorted.
  - apply IH. intros y Hy. apply Hp. by apply elem_of_list_further.
  - intros p q Hpx Hq. apply places_elem in Hpx. change (concat (map places xs)) with (all_places xs) in Hq. apply all_places_elem in Hq as (y & Hy & Hq).
    pose proof (proj1 (Forall_forall _ _) F y Hy) as Hle. cbv beta in Hle. unfold covers in Hq. specialize (Hp x ltac:(apply elem_of_list_here)). lia.
Qed.
Lemma range_hs_places hl xs : concat (map (range_hs hl) xs) = map hl (all_places xs).
Proof.
  unfold all_places. induction xs as [|x xs IH]; [done|]. cbn [map concat]. rewrite map_app, IH. f_equal. unfold range_hs, places. by rewrite map_map.
Qed.
Lemma all_places_length xs : (forall x, x ∈ xs -> 1 <= x.2)%Z -> Z.of_nat (length (all_places xs)) = sumZ (map snd xs).
Proof.
  unfold all_places. induction xs as [|x xs IH]; intros Hp; [done|]. cbn [map concat]. rewrite app_length, Nat2Z.inj_add.
  rewrite IH by (intros y Hy; apply Hp; by apply elem_of_list_further). change (sumZ (x.2 :: map snd xs)) with (x.2 + sumZ (map snd xs))%Z.
  unfold places. rewrite map_length, seq_length. specialize (Hp x ltac:(apply elem_of_list_here)). lia.
Qed.
Lemma ss_sublist {A} (R : A -> A -> Prop) l k : sublist l k -> StronglySorted R k -> StronglySorted R l.
Proof.
  intros S. induction S as [|x l k S IH|x l k S IH]; intros SS; [done| |].
  - inversion SS as [|? ? S1 F]; subst. constructor; [by apply IH|]. apply Forall_forall. intros y Hy. apply (proj1 (Forall_forall _ _) F).
    by eapply (elem_of_submseteq), sublist_submseteq.
  - inversion SS; subst. by apply IH.
Qed.
Lemma ss_map {A B} (R : A -> A -> Prop) (Q : B -> B -> Prop) (f : A -> B) l : StronglySorted R l ->
  (forall x y, x ∈ l -> y ∈ l -> R x y -> Q (f x) (f y)) -> StronglySorted Q (map f l).
Proof.
  intros S. induction S as [|a l S IH F]; intros HQ; [constructor|]. cbn. constructor.
  - apply IH. intros x y Hx Hy. apply HQ; by apply elem_of_list_further.
  - apply Forall_map, Forall_forall. intros y Hy. apply HQ; [apply elem_of_list_here|by apply elem_of_list_further|]. by apply (proj1 (Forall_forall _ _) F).
Qed.
Lemma sumZ_le {A} (f g : A -> Z) L : (forall x, x ∈ L -> f x <= g x)%Z -> (sumZ (map f L) <= sumZ (map g L))%Z.
Proof.
  induction L as [|x L IH]; intros HH; [done|]. cbn [map]. unfold sumZ in *. cbn [foldr].
  specialize (HH x ltac:(apply elem_of_list_here)) as H1. specialize (IH ltac:(intros y Hy; apply HH; by apply elem_of_list_further)). lia.
Qed.
Lemma sumZ_filter (b : Z * Z -> bool) (xs : list (Z * Z)) : (forall x, x ∈ xs -> 1 <= x.2)%Z ->
  (sumZ (map snd (List.filter b xs)) <= sumZ (map snd xs))%Z.
Proof.
  induction xs as [|x xs IH]; intros HH; [done|]. cbn [List.filter map]. pose proof (HH x ltac:(apply elem_of_list_here)).
  specialize (IH ltac:(intros y Hy; apply HH; by apply elem_of_list_further)). unfold sumZ in *. destruct (b x); cbn [map foldr]; lia.
Qed.
Lemma sumZ_pos xs : xs <> [] -> (forall x : Z * Z, x ∈ xs -> 1 <= x.2)%Z -> (1 <= sumZ (map snd xs))%Z.
Proof.
  intros Hne HH. assert (X : forall xs : list (Z * Z), (forall x : Z * Z, x ∈ xs -> 1 <= x.2)%Z -> (Z.of_nat (length xs) <= sumZ (map snd xs))%Z).
  { clear. induction xs as [|x xs IH]; intros HH; [done|]. specialize (IH ltac:(intros y Hy; apply HH; by apply elem_of_list_further)).
    pose proof (HH x ltac:(apply elem_of_list_here)). unfold sumZ in *. cbn [map foldr length]. lia. }
  specialize (X xs HH). destruct xs; [done|]. cbn [length] in X. lia.
Qed.

(** ** Totals only matter when all matches are returned *)
Lemma outcome_weaken N H opts sig choice lo hi lo' hi' r : (one_match_per_needle (o_multiple opts) = false -> lo' <= lo /\ hi <= hi')%Z ->
  outcome N H opts sig choice lo hi r -> outcome N H opts sig choice lo' hi' r.
Proof.
  intros HH. assert (V : forall t t' e, (one_match_per_needle (o_multiple opts) = false -> t <= t')%Z -> violation N H opts sig choice t e -> violation N H opts sig choice t' e).
  { intros t t' e Ht [V|V]; [|by right]. left. destruct V as (V1 & V2 & V3). split; [done|]. split; [|done]. specialize (Ht V1). lia. }
  destruct r as [[[on oh] w]|e|]; cbn; [| |done].
  - intros (H1 & H2). split; [|done]. intros e He. apply (H1 e). eapply V; [|exact He]. intros Hf. by apply HH.
  - apply V. intros Hf. by apply HH.
Qed.

(** ** First and last of the locations found *)
Lemma ext_spec last L o : fold_left (ext last) L (Some o) = Some (fold_left (pick last) L o).
Proof. revert o. induction L as [|x L IH]; intros o; [done|]. cbn. apply IH. Qed.
Lemma pick_spec last L : forall o, let r := fold_left (pick last) L o in r ∈ o :: L /\ forall y, y ∈ o :: L -> if last then (y <= r)%Z else (r <= y)%Z.
Proof.
  induction L as [|x L IH]; intros o; cbn [fold_left].
  - cbn. split; [apply elem_of_list_here|]. intros y Hy. apply elem_of_list_singleton in Hy as ->. destruct last; lia.
  - destruct (IH (pick last o x)) as [I1 I2]. cbv zeta in *. set (r := fold_left (pick last) L (pick last o x)) in *. split.
    + apply elem_of_cons in I1 as [->|I1]; [|by apply elem_of_list_further, elem_of_list_further].
      unfold pick. destruct last; [destruct (Z.max_spec o x) as [[_ ->]|[_ ->]]|destruct (Z.min_spec o x) as [[_ ->]|[_ ->]]];
        try apply elem_of_list_here; apply elem_of_list_further, elem_of_list_here.
    + assert (P0 : if last then (pick last o x <= r)%Z else (r <= pick last o x)%Z) by (apply I2, elem_of_list_here).
      intros y [->|[->|Hy]%elem_of_cons]%elem_of_cons; [| |apply I2; by apply elem_of_list_further]; unfold pick in P0; destruct last; lia.
Qed.
Lemma sorted_first h (l : list Z) : StronglySorted Z.lt l -> h ∈ l -> (forall y, y ∈ l -> h <= y)%Z -> match l with [] => [] | h :: _ => [h] end = [h].
Proof.
  intros S Hh Hmin. destruct S as [|a l S F]; [by apply elem_of_nil in Hh|]. f_equal.
  specialize (Hmin a ltac:(apply elem_of_list_here)). apply elem_of_cons in Hh as [->|Hh]; [done|].
  pose proof (proj1 (Forall_forall _ _) F h Hh) as X. cbv beta in X. lia.
Qed.
Lemma sorted_last h (l : list Z) : StronglySorted Z.lt l -> h ∈ l -> (forall y, y ∈ l -> y <= h)%Z -> match rev l with [] => [] | h :: _ => [h] end = [h].
Proof.
  intros S Hh Hmax. destruct (rev l) as [|a r] eqn:Er.
  - apply (f_equal (@rev Z)) in Er. rewrite rev_involutive in Er. subst. by apply elem_of_nil in Hh.
  - f_equal. apply (f_equal (@rev Z)) in Er. rewrite rev_involutive in Er. cbn in Er. subst l.
    assert (Ha : (a <= h)%Z) by (apply Hmax, elem_of_app; right; apply elem_of_list_here).
    apply elem_of_app in Hh as [Hh|Hh]; [|by apply elem_of_list_singleton in Hh].
    apply elem_of_list_lookup in Hh as [i Hi]. assert (h < a)%Z; [|lia].
    eapply (ss_lookup Z.lt _ i (length (rev r)) h a S).
    + by apply lookup_lt_Some in Hi.
    + rewrite lookup_app_l; [done|]. by apply lookup_lt_Some in Hi.
    + rewrite lookup_app_r by lia. by rewrite Nat.sub_diag.
Qed.

(** ** Base and extra entries *)
Lemma filter_zip (base : list (Z * Z)) : forall i l hd, base !! l = Some hd ->
  List.filter (fun x : Z * (Z * Z) => x.1 =? Z.of_nat (i + l))%Z (zip (map Z.of_nat (seq i (length base))) base) = [(Z.of_nat (i + l), hd)].
Proof.
  assert (X : forall (base : list (Z * Z)) i j, j < i -> List.filter (fun x : Z * (Z * Z) => x.1 =? Z.of_nat j)%Z (zip (map Z.of_nat (seq i (length base))) base) = []).
  { clear. induction base as [|b base IH]; intros i j Hj; [done|]. cbn. rewrite (proj2 (Z.eqb_neq _ _)) by lia. apply IH. lia. }
  induction base as [|b base IH]; intros i l hd Hl; [done|]. destruct l as [|l]; cbn in Hl |- *.
  - injection Hl as <-. rewrite Nat.add_0_r, Z.eqb_refl. f_equal. apply X. lia.
  - rewrite (proj2 (Z.eqb_neq _ _)) by lia. rewrite <- Nat.add_succ_comm. by apply IH.
Qed.

Section glue.
  Context (fuel : nat) (ns hs ncm hcm : list (list Z)) (N H : nat) (opts : mopts) (fs : list mfilter) (ops : list mop) (tls : truelengths).
  Context (nc hd : nat -> Z -> bool) (RI : rank_input ns hs ncm hcm N H fs ops nc hd).
  Context (HN : (Z.of_nat N <= INT_MAX)%Z) (HH : (Z.of_nat H <= INT_MAX)%Z) (HT : forall s, (0 <= tls s)%Z) (HF : length ns <= fuel) (HF2 : 2 <= fuel).
  Context (V1 : forall v, o_incomplete opts = INC_value v -> is_int v) (V2 : forall v, o_no_match opts = NM_value v -> is_int v).
  Notation ncol := (length ns).
  Notation op := (fun c => nth c ops OPS_eq).
  Notation fl := (fun c => nth c fs FILTER_none).
  Notation m := (o_multiple opts).

  (** The conditions, decided. *)
  Definition op_Zb (o : mop) (a b : Z) : bool :=
    match o with OPS_eq => (a =? b)%Z | OPS_lt => (a <? b)%Z | OPS_lte => (a <=? b)%Z | OPS_gt => (b <? a)%Z | OPS_gte => (b <=? a)%Z end.
  Definition condb (c : nat) (l h : Z) : bool :=
    if nc c l then hd c h && op_Zb (op c) (colv ns c l) (colv hs c h)
    else match o_incomplete opts with
         | INC_match => (colv ns c l =? colv hs c h)%Z
         | INC_compare => (colv ns c l =? colv hs c h)%Z && op_allows_eq (op c)
         | _ => false
         end.
  Definition mb (l h : Z) : bool := forallb (fun c => condb c l h) (seq 0 ncol).
  Lemma condb_spec c l h : condb c l h = true <-> cond op (o_incomplete opts) (colv ns) nc (colv hs) hd c l h.
  Proof.
    unfold condb, cond. destruct (nc c l).
    - rewrite andb_true_iff. unfold op_Zb, op_Z. destruct (nth c ops OPS_eq); by rewrite ?Z.eqb_eq, ?Z.ltb_lt, ?Z.leb_le.
    - destruct (o_incomplete opts); try done; by rewrite ?andb_true_iff, Z.eqb_eq.
  Qed.
  Definition mts (a : Z) : list Z := List.filter (fun h => mb (a - 1) (h - 1)) (locs H).

  Section found.
    (** What the search finds. *)
    Context (on oh ids : list Z) (cn : nat) (any : bool) (g : Z -> Z) (evs : list event).
    Notation e := (the_env ns hs ncm hcm opts fs ops on oh).
    Notation hl := (loc_of oh).
    Context (Hany : any = (if first_non_equi ops then true else false)) (Ph : oh ≡ₚ locs H) (Hcn : 1 <= cn).
    Context (Hst : any = false -> cn = 1 /\ forall p q, (0 <= p)%Z -> (p < q)%Z -> (q < Z.of_nat H)%Z ->
      lexcmp hs (hl p + 1) (hl q + 1) = Eq -> (hl p < hl q)%Z).
    Context (Hg : forall p, (0 <= p < Z.of_nat H)%Z -> (0 <= g p < Z.of_nat cn)%Z).
    Context (Hm : forall p q, (0 <= p)%Z -> (p <= q)%Z -> (q < Z.of_nat H)%Z -> (g p <= g q)%Z).
    Context (Hev : forall ev, ev ∈ evs -> (0 <= ev_loc ev < Z.of_nat N)%Z).
    Notation By := (by_container e ncol (Z.of_nat H) op fl hl (colv ns) nc (colv hs) hd cn g).
    Context (HB : forall l, (0 <= l < Z.of_nat N)%Z -> By l (at_needle l evs)).
    Notation es l := (at_needle (Z.of_nat l) evs).
    Notation tracked l := (tracks_incomplete (o_incomplete opts) && incb ncol nc l).

    Definition fc (p q : Z) : comparison := fcmp hs fs (hl p + 1) (hl q + 1).
    Lemma fc_tpo : tpo fc.
    Proof. apply (tpo_preimage (fun p => hl p + 1)%Z). apply fcmp_tpo. Qed.
    Lemma fc_none : any_filters fs = false -> forall p q, fc p q = Eq.
    Proof. intros E p q. by apply fcmp_none. Qed.
    Lemma fc_ok : any_filters (e_filters e) = true -> forall p q, (0 <= p < Z.of_nat H)%Z -> (0 <= q < Z.of_nat H)%Z ->
      exists a b, rdZ (e_o_haystack e) p = Ok a /\ rdZ (e_o_haystack e) q = Ok b /\
        p_matches_df_compare_na_equal (e_haystack e) (a - 1) (b - 1) (e_filters e) = Ok (cmp_code (fc p q)).
    Proof.
      intros _ p q Hp Hq. exists (hl p + 1)%Z, (hl q + 1)%Z. cbn [the_env e_o_haystack e_haystack e_filters].
      split; [by apply (place_rd oh H Ph)|]. split; [by apply (place_rd oh H Ph)|]. destruct RI.
      pose proof (place_range oh H Ph p Hp). pose proof (place_range oh H Ph q Hq).
      apply (matches_compare_ok hs fs H); [done|lia|lia|lia].
    Qed.
    Lemma fc_eq p p' : (forall c, c < ncol -> fl c <> FILTER_none -> colv hs c (hl p) = colv hs c (hl p')) -> fc p p' = Eq.
    Proof.
      intros HE. apply fcmp_Eq. intros c x f Hx Hf Hne. destruct RI. pose proof (lookup_lt_Some _ _ _ Hx).
      specialize (HE c ltac:(lia)). cbv beta in HE. rewrite (nth_lookup_Some _ _ _ _ Hf), !(colv_lookup _ _ _ _ Hx) in HE. by apply HE.
    Qed.
    Lemma fc_last p p' : (forall c, c < ncol - 1 -> fl c <> FILTER_none -> colv hs c (hl p) = colv hs c (hl p')) ->
      fc p p' = match fl (ncol - 1) with FILTER_none => Eq
        | FILTER_max => (colv hs (ncol - 1) (hl p) ?= colv hs (ncol - 1) (hl p'))%Z
        | FILTER_min => CompOpp (colv hs (ncol - 1) (hl p) ?= colv hs (ncol - 1) (hl p'))%Z end.
    Proof.
      intros HE. destruct RI.
      destruct (lookup_lt_is_Some_2 hs (ncol - 1)) as [x Hx]; [lia|]. destruct (lookup_lt_is_Some_2 fs (ncol - 1)) as [f Hf]; [lia|].
      cbv beta. rewrite (nth_lookup_Some _ _ _ _ Hf), !(colv_lookup _ _ _ _ Hx). unfold fc.
      assert (Eh : take (ncol - 1) hs ++ [x] = hs) by (rewrite <- (take_drop_middle hs _ _ Hx) at 2; rewrite (drop_ge hs) by lia; done).
      assert (Ef : take (ncol - 1) fs ++ [f] = fs) by (rewrite <- (take_drop_middle fs _ _ Hf) at 2; rewrite (drop_ge fs) by lia; done).
      rewrite <- Eh at 1. rewrite <- Ef at 1. rewrite fcmp_app by (rewrite !take_length; lia).
      rewrite (fcmp_Eq (take (ncol - 1) hs)); [by destruct f; cbn; try destruct (_ ?= _)%Z|].
      intros c y f' Hy Hf' Hne. apply lookup_take_Some in Hy as [Hy Hlt], Hf' as [Hf' _].
      specialize (HE c Hlt). cbv beta in HE. rewrite (nth_lookup_Some _ _ _ _ Hf'), !(colv_lookup _ _ _ _ Hy) in HE. by apply HE.
    Qed.

    Lemma needle_cases l : l < N ->
      (tracked (Z.of_nat l) = true /\ hits (es l) = [] /\ (has_inc (es l) = true \/ exists c, c < ncol /\ op c = OPS_eq)) \/
      (tracked (Z.of_nat l) = false /\ has_inc (es l) = false).
    Proof.
      intros Hl. pose proof (HB (Z.of_nat l) ltac:(lia)) as B. destruct (tracked (Z.of_nat l)) eqn:E.
      - left. apply andb_true_iff in E as [E1 E2]. split; [done|]. eapply (events_tracked e ncol (Z.of_nat H) op fl hl (colv ns) nc (colv hs) hd cn g (ri_col _ _ _ _ _ _ _ _ _ _ RI) Hcn Hg Hm); done.
      - right. split; [done|]. apply andb_false_iff in E. eapply (events_hits e ncol (Z.of_nat H) op fl hl (colv ns) nc (colv hs) hd cn g (ri_col _ _ _ _ _ _ _ _ _ _ RI) Hcn Hg Hm); done.
    Qed.
    Lemma hits_facts l : l < N ->
      StronglySorted (fun x y => x.1 + x.2 <= y.1)%Z (hits (es l)) /\
      (forall x, x ∈ hits (es l) -> (0 <= x.1)%Z /\ (1 <= x.2)%Z /\ (x.1 + x.2 <= Z.of_nat H)%Z) /\
      (forall x p, x ∈ hits (es l) -> covers x p -> mb (Z.of_nat l) (hl p) = true).
    Proof.
      intros Hl. pose proof (HB (Z.of_nat l) ltac:(lia)) as B. destruct (needle_cases l Hl) as [(_ & E & _)|[E _]].
      { rewrite E. split; [constructor|]. split; intros x; [|intros p]; intros Hx; by apply elem_of_nil in Hx. }
      apply andb_false_iff in E. destruct (events_hits e ncol (Z.of_nat H) op fl hl (colv ns) nc (colv hs) hd cn g (ri_col _ _ _ _ _ _ _ _ _ _ RI) Hcn Hg Hm _ _ B E) as (_ & E2 & E3 & _).
      split; [done|]. split.
      - intros x Hx. by destruct (E3 x Hx) as (? & ? & ? & _).
      - intros x p Hx Hc. destruct (E3 x Hx) as (_ & _ & _ & k & _ & HS). apply HS in Hc. apply sel_cond in Hc. destruct Hc as [_ Hc].
        unfold mb. apply forallb_forall. intros c Hc'. apply in_seq in Hc'. apply condb_spec. apply (Hc c). lia.
    Qed.
    Lemma evs_valid : Forall (valid_event N (Z.of_nat H)) evs.
    Proof.
      apply Forall_forall. intros ev Hin. pose proof (Hev ev Hin) as Hr. split; [done|]. destruct ev as [l|l a b]; [done|]. cbn [ev_loc] in Hr.
      destruct (hits_facts (Z.to_nat l) ltac:(lia)) as (_ & F & _). rewrite Z2Nat.id in F by lia.
      assert (In_ : (a, b - a + 1)%Z ∈ hits (at_needle l evs)).
      { unfold hits. apply elem_of_list_In, in_concat. exists [(a, b - a + 1)%Z]. split; [|by left]. apply in_map_iff. exists (EHit l a b). split; [done|].
        unfold at_needle. apply filter_In. split; [by apply elem_of_list_In|]. apply Z.eqb_refl. }
      specialize (F _ In_). cbn in F. lia.
    Qed.
    Lemma evs_unmixed l : unmixed (at_needle l evs).
    Proof.
      destruct (decide (0 <= l < Z.of_nat N)%Z) as [Hl|Hl].
      - intros Hi. destruct (needle_cases (Z.to_nat l) ltac:(lia)) as [(_ & E & _)|[_ E]]; rewrite Z2Nat.id in E by lia; [done|congruence].
      - assert (at_needle l evs = []) as ->; [|done]. unfold at_needle. 
        destruct (List.filter (fun ev => ev_loc ev =? l)%Z evs) as [|ev q] eqn:Eq; [done|]. exfalso.
        assert (In ev (List.filter (fun ev => ev_loc ev =? l)%Z evs)) as Hin by (rewrite Eq; by left).
        apply filter_In in Hin as [Hin El]. apply Z.eqb_eq in El. subst l. apply Hl, Hev. by apply elem_of_list_In.
    Qed.

    (** ** Entries and what is kept *)
    Definition ent (l : nat) : list (Z * Z) := if is_any m then [(any_first fc (es l), 1%Z)] else entries fc (es l).
    Definition kp (l : nat) (first : Z) : bool :=
      if is_any m then true else match best fc (es l) with Some b => ties fc b (first, 0%Z) | None => true end.
    Definition kps (l : nat) : list (Z * Z) := keepers fc (es l).
    Definition rawall (l : nat) : list Z := concat (map (range_hs hl) (kps l)).

    Lemma hit_in l x : l < N -> x ∈ hits (es l) -> is_hit H x.
    Proof. intros Hl Hx. destruct (hits_facts l Hl) as (_ & F & _). destruct (F x Hx) as (? & ? & ?). by split. Qed.
    (** The cases of a needle. *)
    Lemma ent_cases l : l < N ->
      (hits (es l) = [] /\ kps l = [] /\ ent l = [(if has_inc (es l) then SIGNAL_INCOMPLETE else SIGNAL_NO_MATCH, 1%Z)]) \/
      (has_inc (es l) = false /\ exists b, best fc (es l) = Some b /\ (exists h0, h0 ∈ hits (es l) /\ b = h0.1) /\ kps l <> [] /\ kps l = List.filter (ties fc b) (hits (es l)) /\
        ((is_any m = true /\ ent l = [(b, 1%Z)]) \/
         (is_any m = false /\ sublist (ent l) (hits (es l)) /\ kps l = List.filter (fun x => kp l x.1) (ent l) /\ exists pre lst, ent l = pre ++ [lst] /\ kp l lst.1 = true))).
    Proof.
      intros Hl. destruct (best_cases fc fc_tpo (es l)) as [[E1 E2]|(b & Eb & H0 & Hmax & Ek)].
      - left. split; [done|]. split; [done|]. unfold ent, any_first, entries, best. rewrite E1. by destruct (is_any m).
      - right. assert (Hne : hits (es l) <> []) by (destruct H0 as (h0 & H0 & _); intros E; rewrite E in H0; by apply elem_of_nil in H0).
        split. { destruct (needle_cases l Hl) as [(_ & E & _)|[_ E]]; done. }
        exists b. split; [done|]. split; [done|]. split; [intros E; by apply (keepers_nil fc fc_tpo) in E|]. split; [done|].
        destruct (is_any m) eqn:Em.
        + left. split; [done|]. unfold ent, any_first. by rewrite Em, Eb.
        + right. split; [done|]. unfold ent, kp, kps, keepers. rewrite Em, Eb. unfold best in Eb. unfold entries. destruct (hits (es l)) as [|h q]; [done|].
          destruct (run_hits_ok fc fc_tpo h q) as (k & ks & b' & Er & -> & _ & _ & Hf & (pre & lst & El & Ht) & Hsub). rewrite Er in Eb |- *. cbn [snd fst] in *. injection Eb as ->.
          split; [done|]. split; [by rewrite <- Hf|]. exists pre, lst. done.
    Qed.
    Lemma ent_ENT l : l < N -> (exists x, ent l = [x] /\ is_signal x) \/
      (Forall (is_hit H) (ent l) /\ exists pre lst, ent l = pre ++ [lst] /\ kp l lst.1 = true).
    Proof.
      intros Hl. destruct (ent_cases l Hl) as [(_ & _ & E)|(_ & b & Eb & (h0 & H0 & ->) & _ & _ & [[Em E]|(Em & Hs & _ & HL)])].
      - left. rewrite E. eexists. split; [done|]. split; [|done]. cbn. destruct (has_inc (es l)); [by left|by right].
      - right. pose proof (hit_in l h0 Hl H0) as (A1 & A2 & A3). rewrite E. split.
        + constructor; [|constructor]. unfold is_hit. cbn. lia.
        + exists [], (h0.1, 1%Z). split; [done|]. unfold kp. by rewrite Em.
      - right. split; [|done]. apply Forall_forall. intros x Hx. apply (hit_in l x Hl). by eapply elem_of_submseteq, sublist_submseteq.
    Qed.
    Notation Raw := (raw hl ent kp).
    Lemma kept_signal l x : ent l = [x] -> is_sig x = true -> kept ent kp l = [].
    Proof. intros E Hx. unfold kept. rewrite E. cbn. by rewrite Hx. Qed.
    Lemma kept_hits l : Forall (is_hit H) (ent l) -> kept ent kp l = List.filter (fun x => kp l x.1) (ent l).
    Proof. intros F. unfold kept. by rewrite (proj1 (hits_no_sig H ent l F)). Qed.
    (** The places kept. *)
    Lemma raw_cases l : l < N ->
      (Raw l = [] /\ rawall l = [] /\ hits (es l) = [] /\ sigb ent l = has_inc (es l)) \/
      (sigb ent l = false /\ has_inc (es l) = false /\ rawall l <> [] /\
        ((is_any m = true /\ exists h, Raw l = [h] /\ h ∈ rawall l) \/ (is_any m = false /\ Raw l = rawall l))).
    Proof.
      intros Hl. pose proof (ent_ENT l Hl) as EE. destruct (ent_cases l Hl) as [(Eh & Ek & E)|(Hi & b & Eb & (h0 & H0 & ->) & Hne & Ek & HC)].
      - left. assert (Hs : is_sig (if has_inc (es l) then SIGNAL_INCOMPLETE else SIGNAL_NO_MATCH, 1%Z) = true).
        { unfold is_sig. cbn [fst]. by destruct (has_inc (es l)). }
        split; [unfold raw; by rewrite (kept_signal l _ E Hs)|]. split; [unfold rawall; by rewrite Ek|]. split; [done|].
        unfold sigb. rewrite E. cbn. by destruct (has_inc (es l)).
      - right. assert (F : Forall (is_hit H) (ent l)).
        { destruct EE as [(x & E & [Hx _])|[F _]]; [|done]. exfalso. destruct HC as [[_ E']|(_ & Hs & _)].
          - rewrite E in E'. injection E' as ->. pose proof (hit_in l h0 Hl H0) as (A1 & _). cbn in Hx. unfold SIGNAL_INCOMPLETE, SIGNAL_NO_MATCH, NA_INTEGER, INT_MIN in Hx. lia.
          - assert (x ∈ hits (es l)) as Hin. { eapply elem_of_submseteq; [|by apply sublist_submseteq]. rewrite E. apply elem_of_list_here. }
            pose proof (hit_in l x Hl Hin) as (A1 & _). unfold SIGNAL_INCOMPLETE, SIGNAL_NO_MATCH, NA_INTEGER, INT_MIN in Hx. lia. }
        split; [apply (hits_no_sig H ent l F)|]. split; [done|].
        assert (Hall : forall x, x ∈ kps l -> x ∈ hits (es l)) by (intros x; apply (keepers_hits fc fc_tpo)).
        assert (Hh0 : h0 ∈ kps l).
        { rewrite Ek. apply elem_of_list_In, filter_In. split; [by apply elem_of_list_In|]. unfold ties. by rewrite (tp_refl _ fc_tpo). }
        assert (Hin : hl h0.1 ∈ rawall l).
        { unfold rawall. rewrite range_hs_places. apply elem_of_list_In, in_map, elem_of_list_In. apply all_places_elem. exists h0. split; [done|].
          pose proof (hit_in l h0 Hl H0) as (A1 & A2 & A3). unfold covers. lia. }
        split; [intros E; rewrite E in Hin; by apply elem_of_nil in Hin|].
        destruct HC as [[Em E]|(Em & Hs & Hk & _)].
        + left. split; [done|]. exists (hl h0.1). split; [|done]. unfold raw. rewrite (kept_hits l F), E. cbn [List.filter]. unfold kp. rewrite Em. cbn.
          unfold range_hs. cbn [fst snd]. change (Z.to_nat 1) with 1%nat. cbn [seq map app]. do 2 f_equal. lia.
        + right. split; [done|]. unfold raw, rawall. by rewrite (kept_hits l F), Hk.
    Qed.
    Lemma kps_sorted l : l < N -> StronglySorted Z.lt (all_places (kps l)).
    Proof.
      intros Hl. destruct (hits_facts l Hl) as (SS & F & _). apply all_places_sorted.
      - unfold kps, keepers. destruct (best fc (es l)); [by apply ss_filter|constructor].
      - intros x Hx. apply (keepers_hits fc fc_tpo) in Hx. by apply F.
    Qed.
    Lemma kps_place l p : l < N -> p ∈ all_places (kps l) -> (0 <= p < Z.of_nat H)%Z /\ mb (Z.of_nat l) (hl p) = true.
    Proof.
      intros Hl Hp. apply all_places_elem in Hp as (x & Hx & Hc). apply (keepers_hits fc fc_tpo) in Hx. destruct (hits_facts l Hl) as (_ & F & M).
      split; [|by apply (M x)]. specialize (F x Hx). unfold covers in Hc. lia.
    Qed.
    Lemma rawall_nodup l : l < N -> NoDup (rawall l).
    Proof.
      intros Hl. unfold rawall. rewrite range_hs_places. change (map hl) with (fmap (M := list) hl). apply NoDup_fmap_2_strong.
      - intros p q Hp Hq. apply (place_inj oh H Ph); by apply (kps_place l).
      - apply (ss_nodup Z.lt); [intros x; lia|]. by apply kps_sorted.
    Qed.
    Lemma rawall_elem l h : h ∈ rawall l <-> exists p, p ∈ all_places (kps l) /\ h = hl p.
    Proof.
      unfold rawall. rewrite range_hs_places, elem_of_list_In, in_map_iff. split; intros (p & H1 & H2); exists p; split; try done; by apply elem_of_list_In.
    Qed.
    Lemma mb_cond l h c : mb l h = true -> c < ncol -> cond op (o_incomplete opts) (colv ns) nc (colv hs) hd c l h.
    Proof. unfold mb. intros HF' Hc. apply condb_spec. rewrite forallb_forall in HF'. apply HF'. apply in_seq. lia. Qed.
    Lemma rawall_sorted l : any = false -> l < N -> StronglySorted Z.lt (rawall l).
    Proof.
      intros Ha Hl. unfold rawall. rewrite range_hs_places. eapply ss_map; [by apply kps_sorted|]. intros p q Hp Hq Hpq.
      apply (kps_place l _ Hl) in Hp as [P1 P2], Hq as [Q1 Q2]. destruct (Hst Ha) as [_ HS]. apply HS; [lia|done|lia|].
      apply lexcmp_Eq. intros c x Hx. assert (Hc : c < ncol) by (apply lookup_lt_Some in Hx; rewrite (ri_lh _ _ _ _ _ _ _ _ _ _ RI) in Hx; done).
      rewrite <- !(colv_lookup _ _ _ _ Hx). assert (Eo : op c = OPS_eq).
      { pose proof (first_non_equi_spec ops) as FS. rewrite Ha in Hany. destruct (first_non_equi ops); [done|].
        destruct (lookup_lt_is_Some_2 ops c) as [o Ho]; [by rewrite (ri_lo _ _ _ _ _ _ _ _ _ _ RI)|]. rewrite (nth_lookup_Some _ _ _ _ Ho). by apply (FS c). }
      pose proof (mb_cond _ _ c P2 Hc) as C1. pose proof (mb_cond _ _ c Q2 Hc) as C2.
      apply (cond_eq _ _ _ _ _ _ _ _ _ Eo) in C1, C2. congruence.
    Qed.

    (** ** The locations found *)
    Definition found (a : Z) : list Z := List.filter (fun h => bool_decide (h - 1 ∈ rawall (n_of a))%Z) (locs H).
    Lemma found_elem a h : h ∈ found a <-> (1 <= h <= Z.of_nat H)%Z /\ (h - 1)%Z ∈ rawall (n_of a).
    Proof. unfold found. rewrite elem_of_list_In, filter_In, <- elem_of_list_In, elem_locs, bool_decide_eq_true. done. Qed.
    Lemma found_sorted a : StronglySorted Z.lt (found a).
    Proof. apply ss_filter, locs_sorted. Qed.
    Lemma rawall_range l h : l < N -> h ∈ rawall l -> (0 <= h < Z.of_nat H)%Z.
    Proof. intros Hl Hh. apply rawall_elem in Hh as (p & Hp & ->). apply (kps_place l) in Hp as [Hp _]; [|done]. by apply (place_range oh H Ph). Qed.
    Lemma found_perm l : l < N -> found (Z.of_nat l + 1) ≡ₚ map (fun h => h + 1)%Z (rawall l).
    Proof.
      intros Hl. apply NoDup_Permutation.
      - apply (ss_nodup Z.lt); [intros x; lia|apply found_sorted].
      - change (map (fun h => h + 1)%Z) with (fmap (M := list) (fun h => h + 1)%Z). apply NoDup_fmap_2_strong; [intros; lia|by apply rawall_nodup].
      - intros h. rewrite found_elem, n_of_S. split.
        + intros [_ Hh]. rewrite elem_of_list_In, in_map_iff. exists (h - 1)%Z. split; [lia|]. by apply elem_of_list_In.
        + intros (h' & <- & Hh%elem_of_list_In)%elem_of_list_In%in_map_iff. rewrite Z.add_simpl_r. split; [|done]. pose proof (rawall_range l h' Hl Hh). lia.
    Qed.
    Lemma found_match a h : a ∈ locs N -> h ∈ found a -> h ∈ mts a.
    Proof.
      intros Ha%elem_locs [Hr Hh]%found_elem. unfold mts. apply elem_of_list_In, filter_In. split; [by apply elem_of_list_In, elem_locs|].
      apply rawall_elem in Hh as (p & Hp & E). apply (kps_place (n_of a)) in Hp as [_ M]; [|unfold n_of; lia]. rewrite E.
      by replace (a - 1)%Z with (Z.of_nat (n_of a)) by (unfold n_of; lia).
    Qed.

    Notation xo := (XO oh hs fs (o_incomplete opts) (o_no_match opts) (o_remaining opts) m (o_relationship opts) any).
    Notation Choice := (choice xo H hl ent kp).
    Lemma chosen_ok a : a ∈ locs N -> chosen m (found a) (Choice a).
    Proof.
      intros Ha%elem_locs. assert (El : exists l, l < N /\ a = (Z.of_nat l + 1)%Z) by (exists (n_of a); unfold n_of; lia). destruct El as (l & Hl & ->). clear Ha.
      pose proof (raw_cases l Hl) as RC.
      assert (FN : found (Z.of_nat l + 1) = [] <-> rawall l = []).
      { pose proof (found_perm l Hl) as P. split; intros E; rewrite E in P; [symmetry in P; apply Permutation_nil_r in P; by apply map_eq_nil in P|by apply Permutation_nil_r in P]. }
      assert (A1 : one m = false -> is_any m = false -> Choice (Z.of_nat l + 1) = found (Z.of_nat l + 1)).
      { intros E1 E2. unfold choice. cbn [xo_multiple]. rewrite E1. unfold found. rewrite n_of_S.
        assert (Raw l = rawall l) as ->; [|done]. destruct RC as [(-> & -> & _)|(_ & _ & _ & [[E _]|[_ E]])]; [done|congruence|done]. }
      assert (A2 : one m = true -> is_any m = false -> match m with MULTIPLE_last => True | _ => m = MULTIPLE_first end -> chosen m (found (Z.of_nat l + 1)) (Choice (Z.of_nat l + 1))).
      { intros E1 E2 Em. assert (ER : Raw l = rawall l).
        { destruct RC as [(-> & -> & _)|(_ & _ & _ & [[E _]|[_ E]])]; [done|congruence|done]. }
        unfold choice. cbn [xo_multiple]. rewrite E1. unfold raw1. cbn [xo_multiple]. rewrite E1, n_of_S, ER.
        destruct (rawall l) as [|r rs] eqn:Er.
        - rewrite (proj2 FN eq_refl). cbn. unfold chosen. destruct m; done.
        - cbn [fold_left ext]. rewrite ext_spec. cbn [map].
          destruct (pick_spec (is_last xo) rs r) as [I1 I2]. cbv zeta in I1, I2. set (q := fold_left (pick (is_last xo)) rs r) in *.
          assert (Hin : (q + 1)%Z ∈ found (Z.of_nat l + 1)).
          { apply found_elem. rewrite n_of_S, Z.add_simpl_r, Er. split; [|done]. rewrite <- Er in I1. pose proof (rawall_range l q Hl I1). lia. }
          assert (Hb : forall y, y ∈ found (Z.of_nat l + 1) -> if is_last xo then (y <= q + 1)%Z else (q + 1 <= y)%Z).
          { intros y Hy. apply found_elem in Hy as [_ Hy]. rewrite n_of_S, Er in Hy. specialize (I2 _ Hy). destruct (is_last xo); lia. }
          unfold is_last in Hb. cbn [xo_multiple] in Hb. unfold chosen. destruct m; try done.
          + symmetry. apply sorted_first; [apply found_sorted|done|done].
          + symmetry. apply sorted_last; [apply found_sorted|done|done]. }
      assert (A3 : is_any m = true -> match found (Z.of_nat l + 1) with [] => Choice (Z.of_nat l + 1) = [] | _ => exists h, h ∈ found (Z.of_nat l + 1) /\ Choice (Z.of_nat l + 1) = [h] end).
      { intros E2. assert (E1 : one m = false) by (by destruct m). destruct RC as [(Er & Ea & _)|(_ & _ & Hne & [[_ (h & Er & Hh)]|[E _]])]; [| |congruence].
        - rewrite (proj2 FN Ea). unfold choice. cbn [xo_multiple]. rewrite E1, n_of_S, Er.
          assert (X : forall L : list Z, List.filter (fun h => bool_decide (h - 1 ∈ ([] : list Z))%Z) L = []); [|apply X].
          induction L as [|x L IH]; [done|]. cbn. done.
        - assert (HX : exists h, h ∈ found (Z.of_nat l + 1) /\ Choice (Z.of_nat l + 1) = [h]).
          { exists (h + 1)%Z. pose proof (rawall_range l h Hl Hh). split.
            - apply found_elem. rewrite n_of_S, Z.add_simpl_r. split; [lia|done].
            - unfold choice. cbn [xo_multiple]. rewrite E1, n_of_S, Er. eapply (ss_unique Z.lt); [intros x y; lia|apply ss_filter, locs_sorted|repeat constructor|].
              apply NoDup_Permutation.
              + apply (ss_nodup Z.lt); [intros x; lia|apply ss_filter, locs_sorted].
              + apply NoDup_singleton.
              + intros x. rewrite elem_of_list_In, filter_In, <- elem_of_list_In, elem_locs, bool_decide_eq_true, !elem_of_list_singleton. lia. }
          destruct (found (Z.of_nat l + 1)) eqn:Ef; [|done]. exfalso. apply Hne. by apply FN. }
      clear RC. unfold chosen in *. destruct m; first [by apply A1 | by apply A2 | by apply A3].
    Qed.

    (** ** The number of recorded places *)
    Lemma found_length l : l < N -> length (found (Z.of_nat l + 1)) = length (all_places (kps l)).
    Proof. intros Hl. rewrite (found_perm l Hl), map_length. unfold rawall. by rewrite range_hs_places, map_length. Qed.
    Lemma sum_ent l : is_any m = false -> l < N ->
      (Z.max 1 (Z.of_nat (length (found (Z.of_nat l + 1)))) <= sumZ (map snd (ent l)) <= Z.max 1 (Z.of_nat (length (mts (Z.of_nat l + 1)))))%Z.
    Proof.
      intros Ea Hl. rewrite (found_length l Hl). destruct (ent_cases l Hl) as [(_ & -> & ->)|(_ & b & _ & _ & Hne & _ & [[Em _]|(_ & Hs & Hk & _)])]; [|congruence|].
      { cbn [map snd]. rewrite sumZ_single. cbn [all_places map concat length]. lia. }
      destruct (hits_facts l Hl) as (SS & HFa & HMa).
      assert (Sub : forall x, x ∈ ent l -> x ∈ hits (es l)) by (intros x Hx; by eapply elem_of_submseteq, sublist_submseteq).
      assert (Pos : forall x, x ∈ ent l -> (1 <= x.2)%Z) by (intros x Hx; by apply HFa, Sub).
      assert (Hn : ent l <> []) by (intros E; rewrite E in Hk; done). pose proof (sumZ_pos _ Hn Pos). split.
      - rewrite all_places_length. 2: { intros x Hx. apply HFa. by apply (keepers_hits fc fc_tpo). }
        rewrite Hk. pose proof (sumZ_filter (fun x => kp l x.1) (ent l) Pos). lia.
      - rewrite <- (all_places_length _ Pos).
        assert (length (map (fun p => hl p + 1)%Z (all_places (ent l))) <= length (mts (Z.of_nat l + 1))) as HX; [|rewrite map_length in HX; lia].
        assert (Pl : forall p, p ∈ all_places (ent l) -> (0 <= p < Z.of_nat H)%Z /\ mb (Z.of_nat l) (hl p) = true).
        { intros p Hp. apply all_places_elem in Hp as (x & Hx%Sub & Hc). split; [|by apply (HMa x)]. specialize (HFa x Hx). unfold covers in Hc. lia. }
        apply submseteq_length, NoDup_submseteq.
        + change (map (fun p => hl p + 1)%Z) with (fmap (M := list) (fun p => hl p + 1)%Z). apply NoDup_fmap_2_strong.
          * intros p q Hp Hq E. apply (place_inj oh H Ph); [by apply Pl|by apply Pl|lia].
          * apply (ss_nodup Z.lt); [intros x; lia|]. apply all_places_sorted; [by eapply ss_sublist|]. intros x Hx. apply HFa. by apply Sub.
        + intros h Hh. apply elem_of_list_In, in_map_iff in Hh as (p & <- & Hp%elem_of_list_In). apply Pl in Hp as [Hr Hp].
          pose proof (place_range oh H Ph p Hr). unfold mts. apply elem_of_list_In, filter_In. split; [apply elem_of_list_In, elem_locs; lia|].
          by rewrite !Z.add_simpl_r.
    Qed.
    Lemma total_bounds : is_any m = false -> (count_rows N found <= total N ent <= count_rows N mts)%Z.
    Proof.
      intros Ea. unfold count_rows, total. unfold locs. rewrite !map_map.
      change (foldr Z.add 0%Z) with sumZ. split; apply sumZ_le; intros l Hl; apply elem_of_list_In, in_seq in Hl; apply sum_ent; try done; lia.
    Qed.

    (** ** The result *)
    Section recorded.
      Context (s0 : mstate) (I1 : m_first s0 = replicate N SIGNAL_NO_MATCH)
        (I2 : is_any m = false -> m_size s0 = replicate N 1%Z /\ m_loc s0 = map Z.of_nat (seq 0 N))
        (I3 : has_filter_match fs m = true -> m_filter s0 = replicate N None).
      Context (ONE : one m = true -> (count_rows N mts <= INT_MAX)%Z).
      Lemma record_ok : exists s, apply_events e evs s0 = Ok s /\ recorded xo s N ent /\
        forall l x, l < N -> x ∈ ent l -> is_hit H x -> x_keep xo s x.1 (Z.of_nat l) = Ok (kp l x.1).
      Proof.
        destruct (decide (is_any m = true)) as [Ea|Ea].
        - assert (Em : e_multiple e = MULTIPLE_any) by (cbn; by destruct m).
          destruct (record_any e N (Z.of_nat H) fc fc_tpo fc_ok fc_none evs s0 Em evs_valid evs_unmixed I1) as (s & Es & L & Hs).
          exists s. split; [done|]. split.
          + unfold recorded. cbn [xo_multiple]. rewrite Ea. split; [done|]. intros l v Hv. apply Hs in Hv as ->. unfold ent. by rewrite Ea.
          + intros l x Hl Hx Hh. unfold x_keep, has_filter_match, kp. cbn [xo_filters xo_multiple]. by rewrite Ea, andb_false_r.
        - apply not_true_is_false in Ea. destruct (I2 Ea) as [J1 J2].
          assert (Em : e_multiple e <> MULTIPLE_any) by (cbn; intros E; by rewrite E in Ea).
          destruct (record_all e N (Z.of_nat H) fc fc_tpo fc_ok fc_none evs s0 Em evs_valid evs_unmixed I1 J1 J2) as (s & Es & base & extra & Lb & E1 & E2 & E3 & Fx & Hb).
          { intros A. cbn [the_env e_filters] in A. apply I3. unfold has_filter_match. by rewrite A, Ea. }
          exists s. split; [done|]. split.
          + unfold recorded. cbn [xo_multiple]. rewrite Ea. exists (zip (map Z.of_nat (seq 0 N)) base ++ extra).
            assert (Ls : length (map Z.of_nat (seq 0 N)) = length base) by (by rewrite map_length, seq_length).
            assert (Zf : map fst (zip (map Z.of_nat (seq 0 N)) base) = map Z.of_nat (seq 0 N)) by (apply fst_zip; lia).
            assert (Zs : map snd (zip (map Z.of_nat (seq 0 N)) base) = base) by (apply snd_zip; lia).
            rewrite !map_app, E1, E2, E3, Zf.
            assert (Y1 : map (fun x : Z * (Z * Z) => x.2.1) (zip (map Z.of_nat (seq 0 N)) base) = map fst base) by (rewrite <- Zs at 2; by rewrite map_map).
            assert (Y2 : map (fun x : Z * (Z * Z) => x.2.2) (zip (map Z.of_nat (seq 0 N)) base) = map snd base) by (rewrite <- Zs at 2; by rewrite map_map).
            rewrite Y1, Y2. split; [done|]. split; [done|]. split; [done|]. split.
            * apply Forall_app. split; [|done]. apply Forall_forall. intros x Hx. apply elem_of_list_In, (in_map fst) in Hx. rewrite Zf in Hx.
              apply in_map_iff in Hx as (k & <- & Hk). apply in_seq in Hk. lia.
            * intros l Hl. destruct (lookup_lt_is_Some_2 base l) as [hd0 Hhd]; [lia|]. rewrite List.filter_app, map_app.
              pose proof (filter_zip base 0 l hd0 Hhd) as FZ. rewrite Lb in FZ. cbn [Nat.add] in FZ. rewrite FZ. cbn [map snd app].
              destruct (Hb l hd0 Hhd) as [-> _]. unfold ent. by rewrite Ea.
          + intros l x Hl Hx Hh. unfold x_keep, kp. cbn [xo_filters xo_multiple xo_o_haystack xo_haystack]. rewrite Ea.
            destruct (has_filter_match fs m) eqn:Ef.
            * unfold has_filter_match in Ef. rewrite Ea in Ef. cbn [negb] in Ef. rewrite andb_true_r in Ef.
              destruct (lookup_lt_is_Some_2 base l) as [hd0 Hhd]; [lia|]. destruct (Hb l hd0 Hhd) as [_ HBf]. specialize (HBf Ef).
              rewrite rdZ_nat, (proj2 (rd_Ok _ _ _) HBf). cbn [bind].
              destruct (ent_cases l Hl) as [(_ & _ & E)|(_ & b & Eb & (h0 & H0 & Hb0) & _)].
              { exfalso. rewrite E in Hx. apply elem_of_list_singleton in Hx as ->. destruct Hh as [Hh _]. cbn in Hh.
                destruct (has_inc (es l)); unfold SIGNAL_INCOMPLETE, SIGNAL_NO_MATCH, NA_INTEGER, INT_MIN in Hh; lia. }
              rewrite Eb. destruct (Z.eqb_spec b x.1) as [Ebx|Nbx].
              { unfold ties. cbn [fst]. by rewrite Ebx, (tp_refl _ fc_tpo). }
              pose proof (hit_in l h0 Hl H0) as (B1 & B2 & B3). destruct Hh as (A1 & A2 & A3).
              rewrite (place_rd oh H Ph b) by lia. cbn [bind]. rewrite (place_rd oh H Ph x.1) by lia. cbn [bind].
              pose proof (place_range oh H Ph b ltac:(lia)). pose proof (place_range oh H Ph x.1 ltac:(lia)).
              rewrite (matches_equal_ok hs fs H); [done|apply (ri_hs _ _ _ _ _ _ _ _ _ _ RI)| |lia|lia].
              rewrite (ri_lf _ _ _ _ _ _ _ _ _ _ RI), (ri_lh _ _ _ _ _ _ _ _ _ _ RI). done.
            * f_equal. unfold has_filter_match in Ef. rewrite Ea in Ef. cbn [negb] in Ef. rewrite andb_true_r in Ef.
              destruct (best fc (es l)); [|done]. unfold ties. by rewrite (fc_none Ef).
      Qed.
      Lemma result_ok : exists s, apply_events e evs s0 = Ok s /\
        outcome N H opts (sig ent) Choice (count_rows N found) (count_rows N mts) (expand_compact_indices fuel xo s N H tls).
      Proof.
        destruct record_ok as (s & Es & REC & KP). exists s. split; [done|].
        assert (ER : forall l, l < N -> (Raw l = rawall l) \/ exists h, Raw l = [h] \/ Raw l = []).
        { intros l Hl. destruct (raw_cases l Hl) as [(E & _)|(_ & _ & _ & [[_ (h & E & _)]|[_ E]])]; [right; exists 0%Z; by right|right; exists h; by left|by left]. }
        apply (outcome_weaken N H opts (sig ent) Choice (total N ent) (total N ent)).
        { intros E1. apply total_bounds. by destruct m. }
        apply expand_ok; try done.
        - intros p Hp. by apply (place_rd oh H Ph).
        - intros p Hp. by apply (place_range oh H Ph).
        - apply ent_ENT.
        - intros l Hl. destruct (ER l Hl) as [->|(h & [->| ->])]; [by apply rawall_nodup|apply NoDup_singleton|constructor].
        - intros l Hl Hs. destruct (raw_cases l Hl) as [(_ & _ & _ & E)|(E & _)]; [|congruence]. rewrite Hs in E.
          destruct (needle_cases l Hl) as [(Ht & _)|[_ Ht]]; [|congruence]. by apply andb_true_iff in Ht as [Ht _].
        - cbn [xo_any_non_equi]. intros Ea l Hl. destruct (ER l Hl) as [->|(h & [->| ->])]; [by apply rawall_sorted|repeat constructor|constructor].
        - cbn [xo_multiple]. intros E1. specialize (ONE E1). pose proof (total_bounds ltac:(by destruct m)). lia.
      Qed.
    End recorded.

    (** ** What is found *)
    Lemma sig_facts a : a ∈ locs N -> (sig ent a = true -> tracked (a - 1) = true) /\
      (tracked (a - 1) = true -> found a = [] /\ (sig ent a = true \/ exists c, c < ncol /\ op c = OPS_eq)).
    Proof.
      intros Ha%elem_locs. assert (El : exists l, l < N /\ a = (Z.of_nat l + 1)%Z) by (exists (n_of a); unfold n_of; lia). destruct El as (l & Hl & ->). clear Ha.
      rewrite Z.add_simpl_r. unfold sig. rewrite n_of_S. split.
      - intros Hs. destruct (raw_cases l Hl) as [(_ & _ & _ & E)|(E & _)]; [|congruence]. rewrite Hs in E.
        destruct (needle_cases l Hl) as [(Ht & _)|[_ Ht]]; [done|congruence].
      - intros Ht. destruct (needle_cases l Hl) as [(_ & Hh & Hc)|[Ht' _]]; [|congruence].
        destruct (raw_cases l Hl) as [(_ & Er & _ & Es)|(_ & Hi & Hne & _)].
        + split.
          * pose proof (found_perm l Hl) as P. rewrite Er in P. by apply Permutation_nil_r in P.
          * rewrite Es. destruct Hc as [Hc|Hc]; [by left|by right].
        + exfalso. destruct (ent_cases l Hl) as [(_ & Ek & _)|(_ & b & _ & (h0 & H0 & _) & _)]; [by unfold rawall in Hne; rewrite Ek in Hne|].
          rewrite Hh in H0. by apply elem_of_nil in H0.
    Qed.
    Lemma mts_tracked a : tracked (a - 1) = true -> mts a = [].
    Proof.
      intros [Ht Hi]%andb_true_iff. destruct (mts a) as [|h q] eqn:Em; [done|]. exfalso. assert (Hh : h ∈ mts a) by (rewrite Em; apply elem_of_list_here).
      unfold mts in Hh. apply elem_of_list_In, filter_In in Hh as [_ Hh]. unfold incb in Hi. apply existsb_exists in Hi as (c & Hc & Hn). apply in_seq in Hc. apply negb_true_iff in Hn. pose proof (mb_cond _ _ c Hh ltac:(lia)) as C.
      unfold cond in C. rewrite Hn in C. unfold tracks_incomplete in Ht. by destruct (o_incomplete opts).
    Qed.
    Definition better (h' h : Z) : Prop :=
      match fl (ncol - 1) with FILTER_none => False | FILTER_max => (colv hs (ncol - 1) (h - 1) < colv hs (ncol - 1) (h' - 1))%Z
      | FILTER_min => (colv hs (ncol - 1) (h' - 1) < colv hs (ncol - 1) (h - 1))%Z end.
    Lemma found_simple a h : (forall c, c < ncol - 1 -> fl c = FILTER_none \/ op c = OPS_eq) -> a ∈ locs N ->
      h ∈ found a <-> h ∈ mts a /\ forall h', h' ∈ mts a -> ~ better h' h.
    Proof.
      intros simple Ha. destruct (tracked (a - 1)) eqn:Et.
      { pose proof (mts_tracked a Et) as ->. destruct (sig_facts a Ha) as [_ HS]. destruct (HS Et) as [-> _]. split; [intros Hh; by apply elem_of_nil in Hh|intros [Hh _]; by apply elem_of_nil in Hh]. }
      apply elem_locs in Ha. assert (El : exists l, l < N /\ a = (Z.of_nat l + 1)%Z) by (exists (n_of a); unfold n_of; lia). destruct El as (l & Hl & ->). clear Ha.
      rewrite Z.add_simpl_r in Et. apply andb_false_iff in Et.
      assert (MB : forall l h, mb l h = true <-> all_cond e ncol op (colv ns) nc (colv hs) hd l h).
      { intros l0 h0. unfold mb, all_cond. rewrite forallb_forall. split.
        - intros HX c Hc. apply condb_spec, HX, in_seq. lia.
        - intros HX c Hc. apply in_seq in Hc. apply condb_spec, HX. lia. }
      pose proof (kept_simple e ncol (Z.of_nat H) op fl hl (colv ns) nc (colv hs) hd cn g (ri_col _ _ _ _ _ _ _ _ _ _ RI) Hcn Hg Hm fc fc_tpo fc_eq mb MB simple fc_last (Z.of_nat l) (es l)) as KS.
      assert (KE : forall p, kept_at fc (es l) p <-> best_fit e ncol (Z.of_nat H) op fl hl (colv ns) nc (colv hs) hd (Z.of_nat l) p).
      { intros p. apply KS; [apply HB; lia|done]. }
      assert (Hmts : forall h, h ∈ mts (Z.of_nat l + 1) <-> (1 <= h <= Z.of_nat H)%Z /\ mb (Z.of_nat l) (h - 1) = true).
      { intros h0. unfold mts. by rewrite elem_of_list_In, filter_In, <- elem_of_list_In, elem_locs, Z.add_simpl_r. }
      assert (Hfit : forall p, fits e ncol (Z.of_nat H) op hl (colv ns) nc (colv hs) hd (Z.of_nat l) p <-> (0 <= p < Z.of_nat H)%Z /\ mb (Z.of_nat l) (hl p) = true).
      { intros p. unfold fits. by rewrite MB. }
      rewrite found_elem, n_of_S, rawall_elem, Hmts. split.
      - intros [Hr (p & Hp & E)]. apply all_places_elem in Hp. apply KE in Hp as [Hf Hc]. apply Hfit in Hf as [Hp Hf]. rewrite E. split; [done|].
        intros h' Hh'. apply Hmts in Hh' as [Hr' Hm']. destruct (place_surj oh H Ph (h' - 1)) as (q & Hq & Eq); [lia|].
        assert (Fq : fits e ncol (Z.of_nat H) op hl (colv ns) nc (colv hs) hd (Z.of_nat l) q) by (apply Hfit; by rewrite Eq).
        unfold better. unfold clause in Hc. rewrite E, <- Eq. destruct (nth (ncol - 1) fs FILTER_none); [tauto| |]; specialize (Hc q Fq); lia.
      - intros [[Hr Hf] Hb]. split; [done|]. destruct (place_surj oh H Ph (h - 1)) as (p & Hp & Ep); [lia|]. exists p. split; [|done].
        apply all_places_elem. apply KE. split; [apply Hfit; by rewrite Ep|].
        assert (Hx : forall q, fits e ncol (Z.of_nat H) op hl (colv ns) nc (colv hs) hd (Z.of_nat l) q -> ~ better (hl q + 1) h).
        { intros q Hq. apply Hfit in Hq as [Hq Hmq]. apply Hb, Hmts. rewrite Z.add_simpl_r. split; [|done]. pose proof (place_range oh H Ph q Hq). lia. }
        unfold better in Hx. unfold clause. destruct (nth (ncol - 1) fs FILTER_none); [done| |]; intros q Hq; specialize (Hx q Hq); rewrite Z.add_simpl_r, <- Ep in Hx; lia.
    Qed.
  End found.

  Notation tracked l := (tracks_incomplete (o_incomplete opts) && incb ncol nc l).
  Theorem df_locate_ok : (one m = true -> (count_rows N mts <= INT_MAX)%Z) -> exists (sg : Z -> bool) (fd ch : Z -> list Z),
    (forall a, a ∈ locs N -> (sg a = true -> tracked (a - 1) = true) /\
       (tracked (a - 1) = true -> sg a = true \/ exists c, c < ncol /\ op c = OPS_eq)) /\
    (forall a, a ∈ locs N -> StronglySorted Z.lt (fd a) /\ (forall h, h ∈ fd a -> h ∈ mts a) /\ chosen m (fd a) (ch a)) /\
    ((forall c, c < ncol - 1 -> fl c = FILTER_none \/ op c = OPS_eq) ->
      forall a h, a ∈ locs N -> h ∈ fd a <-> h ∈ mts a /\ forall h', h' ∈ mts a -> ~ better h' h) /\
    outcome N H opts sg ch (count_rows N fd) (count_rows N mts) (df_locate_matches fuel ns hs ncm hcm N H opts fs ops tls).
  Proof.
    intros ONE. destruct (events_exist fuel ns hs ncm hcm N H opts fs ops tls nc hd RI HN HH HT HF HF2)
      as (on & oh & ids & cn & any & g & evs & En & Eh & Hany & Ph & Hcn & Hst & Hg & Hm & Ea & Hev & HB).
    unfold df_locate_matches. rewrite En. cbn [bind]. rewrite Eh. cbn [bind].
    change (ME ns hs ncm hcm on oh (o_incomplete opts) m fs ops) with (the_env ns hs ncm hcm opts fs ops on oh). rewrite Ea.
    match goal with |- context [apply_events _ evs ?s0] => set (s0' := s0) end.
    destruct (result_ok on oh ids cn any g evs Hany Ph Hcn Hst Hg Hm Hev HB s0') as (s & Es & OUT).
    - done.
    - intros E. unfold s0'. cbn [m_size m_loc]. by rewrite E.
    - intros E. unfold s0'. cbn [m_filter]. by rewrite E.
    - done.
    - rewrite Es. cbn [bind]. eexists _, (found oh evs), _. split; [|split; [|split; [|exact OUT]]].
      + intros a Ha. destruct (sig_facts on oh ids cn any g evs Ph Hcn Hst Hg Hm HB a Ha) as [S1 S2]. split; [done|]. intros Ht. by apply S2.
      + intros a Ha. split; [apply found_sorted|]. split.
        * intros h. by apply (found_match on oh ids cn any g evs Hcn Hst Hg Hm HB).
        * by apply (chosen_ok on oh ids cn any g evs Ph Hcn Hst Hg Hm HB).
      + intros simple a h Ha. by apply (found_simple on oh ids cn any g evs Ph Hcn Hst Hg Hm HB).
  Qed.
End glue.
