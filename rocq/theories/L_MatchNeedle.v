(** * Lemmas: what the events of a needle mean *)
From Verif Require Import Base M_Double M_Scalar M_Match L_OrderSpec L_MatchSearch L_MatchJoint L_MatchRec L_MatchLocate L_MatchRecord.
From Coq Require Import Sorting.Sorted.
#[local] Arguments Z.mul : simpl never.
#[local] Arguments Z.add : simpl never.
#[local] Arguments Z.sub : simpl never.
#[local] Arguments Z.to_nat : simpl never.
#[local] Arguments Z.of_nat : simpl never.

(** ** The selection of one container *)
Section sel.
  Context (ncol : nat) (op : nat -> mop) (fl : nat -> mfilter) (inc : incomplete).
  Context (nv : nat -> Z -> Z) (nc : nat -> Z -> bool) (hv : nat -> Z -> Z) (hc : nat -> Z -> bool).
  Notation Cond := (cond op inc nv nc hv hc).
  Notation Sel := (sel op fl inc nv nc hv hc).

  Lemma cond_eq c l p : op c = OPS_eq -> Cond c l p -> nv c l = hv c p.
  Proof. unfold cond. intros ->. destruct (nc c l); [by intros [_ ?]|]. destruct inc; try done. by intros [? _]. Qed.

  Definition conds (k c : nat) (l p : Z) : Prop := forall c', c <= c' < c + k -> Cond c' l p.
  Lemma sel_cond k : forall c l P p, Sel k c l P p -> P p /\ conds k c l p.
  Proof.
    induction k as [|k IH]; intros c l P p; cbn [sel]; [intros Hp; split; [done|intros c' ?; lia]|].
    intros Hs. apply IH in Hs as [(Hp & Hc & _) Hs]. split; [done|]. intros c' Hc'. destruct (decide (c' = c)) as [->|]; [done|]. apply Hs. lia.
  Qed.
  (** The selected places agree on the columns with a filter. *)
  Lemma sel_filtered k : forall c l P p p' c', Sel k c l P p -> Sel k c l P p' -> c <= c' < c + k -> fl c' <> FILTER_none -> hv c' p = hv c' p'.
  Proof.
    induction k as [|k IH]; intros c l P p p' c' Hs Hs' Hc' Hf; [lia|]. cbn [sel] in Hs, Hs'. destruct (decide (c' = c)) as [->|].
    - apply sel_sub in Hs as (Hp & Hc & H1), Hs' as (Hp' & Hcp & H2). destruct (fl c); [done| |].
      + specialize (H1 p' Hp' Hcp). specialize (H2 p Hp Hc). lia.
      + specialize (H1 p' Hp' Hcp). specialize (H2 p Hp Hc). lia.
    - eapply (IH (S c)); [done|done|lia|done].
  Qed.
  (** Filters on [==] columns do not matter. *)
  Definition clause (c : nat) (Q : Z -> Prop) (p : Z) : Prop :=
    match fl c with
    | FILTER_none => True
    | FILTER_max => forall p', Q p' -> (hv c p' <= hv c p)%Z
    | FILTER_min => forall p', Q p' -> (hv c p <= hv c p')%Z
    end.
  Lemma clause_ext c Q Q' p : (forall p, Q p <-> Q' p) -> clause c Q p <-> clause c Q' p.
  Proof. intros E. unfold clause. destruct (fl c); [done| |]; split; intros HH p' Hp'; apply HH; by apply E. Qed.
  Lemma sel_simple k : forall c l P p, (forall c', c <= c' < c + k -> fl c' = FILTER_none \/ op c' = OPS_eq) ->
    Sel (S k) c l P p <-> P p /\ conds (S k) c l p /\ clause (c + k) (fun p' => P p' /\ conds (S k) c l p') p.
  Proof.
    induction k as [|k IH]; intros c l P p Hs.
    - cbn [sel]. unfold refine. rewrite Nat.add_0_r.
      assert (E : forall q, Cond c l q <-> conds 1 c l q).
      { intros q. split; [|intros HH; apply HH; lia]. intros HH c' Hc'. by replace c' with c by lia. }
      rewrite E. unfold clause. split; intros (H1 & H2 & H3); (split; [done|]; split; [done|]).
      + destruct (fl c); [done| |]; intros p' [Hp' Hc']; apply H3; [done|by apply E|done|by apply E].
      + destruct (fl c); [done| |]; intros p' Hp' Hc'; apply H3; (split; [done|by apply E]).
    - change (Sel (S (S k)) c l P p) with (Sel (S k) (S c) l (refine op fl inc nv nc hv hc c l P) p).
      rewrite (IH (S c)) by (intros; apply Hs; lia).
      assert (E : forall q, refine op fl inc nv nc hv hc c l P q <-> P q /\ Cond c l q).
      { intros q. unfold refine. split; [tauto|]. intros [Hq Hc]. split; [done|]. split; [done|]. destruct (Hs c ltac:(lia)) as [->|Eo]; [done|].
        assert (X : forall q', P q' -> Cond c l q' -> hv c q' = hv c q).
        { intros q' _ Hc'. apply (cond_eq c l _ Eo) in Hc, Hc'. congruence. }
        destruct (fl c); [done| |]; intros q' Hq' Hc'; rewrite (X q') by done; lia. }
      assert (E2 : forall q, P q /\ conds (S (S k)) c l q <-> (refine op fl inc nv nc hv hc c l P q /\ conds (S k) (S c) l q)).
      { intros q. rewrite E. split.
        - intros [Hq Hc]. split; [split; [done|apply Hc; lia]|]. intros c' Hc'. apply Hc. lia.
        - intros [[Hq Hc] Hcs]. split; [done|]. intros c' Hc'. destruct (decide (c' = c)) as [->|]; [done|]. apply Hcs. lia. }
      replace (S c + k) with (c + S k) by lia. rewrite (clause_ext (c + S k) _ _ p E2).
      split; intros HH.
      + destruct HH as (H1 & H2 & H3). destruct (proj2 (E2 p) (conj H1 H2)) as [H4 H5]. done.
      + destruct HH as (H1 & H2 & H3). destruct (proj1 (E2 p) (conj H1 H2)) as [H4 H5]. done.
  Qed.
End sel.

(** ** The hits of a needle *)
Section needle.
  Context (e : menv) (ncol : nat) (H : Z) (op : nat -> mop) (fl : nat -> mfilter).
  Context (hl : Z -> Z) (nv : nat -> Z -> Z) (nc : nat -> Z -> bool) (hw : nat -> Z -> Z) (hd : nat -> Z -> bool).
  Context (cn : nat) (g : Z -> Z).
  Context (Hcol : 0 < ncol) (Hcn : 1 <= cn).
  Context (Hg : forall p, (0 <= p < H)%Z -> (0 <= g p < Z.of_nat cn)%Z).
  Context (Hm : forall p q, (0 <= p)%Z -> (p <= q)%Z -> (q < H)%Z -> (g p <= g q)%Z).
  Notation inc := (e_incomplete e).
  Notation hv := (fun c p => hw c (hl p)).
  Notation hc := (fun c p => hd c (hl p)).
  Notation Good := (good ncol op fl inc nv nc hv hc).
  Notation Sel := (sel op fl inc nv nc hv hc ncol 0).
  Notation By := (by_container e ncol H op fl hl nv nc hw hd cn g).

  Definition incb (l : Z) : bool := existsb (fun c => negb (nc c l)) (seq 0 ncol).
  Lemma incb_spec l : incb l = true <-> incomplete_from ncol nc 0 l.
  Proof.
    unfold incb, incomplete_from. rewrite existsb_exists. split.
    - intros (c & Hc & E). apply in_seq in Hc. exists c. split; [lia|]. by destruct (nc c l).
    - intros (c & Hc & E). exists c. rewrite in_seq, E. split; [lia|done].
  Qed.
  Definition in_container (k : nat) (p : Z) : Prop := (0 <= p < H)%Z /\ g p = Z.of_nat k.
  Definition covers (x : Z * Z) (p : Z) : Prop := (x.1 <= p < x.1 + x.2)%Z.

  (** A needle treated as incomplete has no hits. *)
  Lemma events_tracked l es : By l es -> tracks_incomplete inc = true -> incb l = true ->
    hits es = [] /\ (has_inc es = true \/ exists c, c < ncol /\ op c = OPS_eq).
  Proof.
    intros (ess & L & -> & HE) Ht Hi%incb_spec.
    assert (X : forall k x, ess !! k = Some x -> x = [EInc l] \/ (x = [] /\ exists c', 0 <= c' < ncol /\ op c' = OPS_eq)).
    { intros k x Hx. destruct (HE k x Hx) as (lo & hi & _ & _ & _ & G & _). by apply G. }
    clear HE. split.
    - clear L. induction ess as [|x ess IH]; [done|]. cbn [concat]. rewrite hits_app, IH; [|intros k y Hy; by apply (X (S k))].
      rewrite app_nil_r. by destruct (X 0 x eq_refl) as [->|[-> _]].
    - destruct ess as [|x ess]; [cbn in L; lia|]. destruct (X 0 x eq_refl) as [->|[-> (c & Hc & Eo)]]; [by left|]. right. exists c. split; [lia|done].
  Qed.

  Lemma events_hits l es : By l es -> tracks_incomplete inc = false \/ incb l = false ->
    has_inc es = false /\
    StronglySorted (fun x y => x.1 + x.2 <= y.1)%Z (hits es) /\
    (forall x, x ∈ hits es -> (0 <= x.1)%Z /\ (1 <= x.2)%Z /\ (x.1 + x.2 <= H)%Z /\
      exists k, k < cn /\ forall p, covers x p <-> Sel l (in_container k) p) /\
    (forall k p, k < cn -> Sel l (in_container k) p -> exists x, x ∈ hits es /\ covers x p).
  Proof.
    intros (ess & L & -> & HE) Ht.
    assert (Ht' : tracks_incomplete inc = false \/ ~ incomplete_from ncol nc 0 l).
    { destruct Ht as [Ht|Ht]; [by left|]. right. rewrite <- incb_spec. by rewrite Ht. }
    assert (X : forall k x, ess !! k = Some x ->
      (exists a b, x = [EHit l a b] /\ (0 <= a <= b)%Z /\ (b < H)%Z /\ forall p, Sel l (in_container k) p <-> in_range a b p) \/
      (x = [] /\ forall p, ~ Sel l (in_container k) p)).
    { intros k x Hx. destruct (HE k x Hx) as (lo & hi & B1 & B2 & Hr & _ & G). specialize (G Ht'). rewrite Nat.sub_0_r in G.
      assert (ES : forall p, Sel l (in_container k) p <-> Sel l (in_range lo hi) p) by (apply sel_ext; intros p; by rewrite Hr).
      destruct G as [(a & b & E & C1 & C2 & HS)|[E HS]].
      - left. exists a, b. split; [done|]. split; [lia|]. split; [lia|]. intros p. by rewrite ES, HS.
      - right. split; [done|]. intros p. by rewrite ES. }
    clear HE Ht Ht'.
    assert (Y : forall ess i, i + length ess = cn -> (forall k x, ess !! k = Some x ->
        (exists a b, x = [EHit l a b] /\ (0 <= a <= b)%Z /\ (b < H)%Z /\ forall p, Sel l (in_container (i + k)) p <-> in_range a b p) \/
        (x = [] /\ forall p, ~ Sel l (in_container (i + k)) p)) ->
      has_inc (concat ess) = false /\ StronglySorted (fun x y => x.1 + x.2 <= y.1)%Z (hits (concat ess)) /\
      (forall x, x ∈ hits (concat ess) -> (0 <= x.1)%Z /\ (1 <= x.2)%Z /\ (x.1 + x.2 <= H)%Z /\
        exists k, i <= k < cn /\ forall p, covers x p <-> Sel l (in_container k) p) /\
      (forall k p, i <= k < cn -> Sel l (in_container k) p -> exists x, x ∈ hits (concat ess) /\ covers x p)).
    { clear ess L X. induction ess as [|x ess IH]; intros i L X.
      { cbn in L. split; [done|]. split; [constructor|]. split; [intros x Hx; by apply elem_of_nil in Hx|]. intros; lia. }
      cbn in L. destruct (IH (S i)) as (I1 & I2 & I3 & I4); [lia| |].
      { intros k y Hy. specialize (X (S k) y Hy). by rewrite <- Nat.add_succ_comm in X. }
      specialize (X 0 x eq_refl). rewrite Nat.add_0_r in X. cbn [concat].
      destruct X as [(a & b & -> & B1 & B2 & HS)|[-> HS]].
      - assert (Ca : forall p, covers (a, b - a + 1)%Z p <-> Sel l (in_container i) p).
        { intros p. rewrite HS. unfold covers, in_range. cbn. lia. }
        assert (E : hits ([EHit l a b] ++ concat ess) = (a, b - a + 1)%Z :: hits (concat ess)) by done.
        split; [done|]. rewrite E. split; [|split].
        + constructor; [done|]. apply Forall_forall. intros y Hy. destruct (I3 y Hy) as (J1 & J2 & J3 & k & Hk & Hc). cbn [fst snd].
          assert (P1 : Sel l (in_container i) b) by (apply Ca; unfold covers; cbn; lia).
          assert (P2 : Sel l (in_container k) y.1) by (apply Hc; unfold covers; lia).
          apply sel_sub in P1 as [Q1 G1], P2 as [Q2 G2]. destruct (Z.le_gt_cases y.1 b) as [Hle|]; [|lia].
          pose proof (Hm y.1 b ltac:(lia) Hle ltac:(lia)). lia.
        + intros y [->|Hy]%elem_of_cons.
          * cbn [fst snd]. split; [lia|]. split; [lia|]. split; [lia|]. exists i. split; [lia|done].
          * destruct (I3 y Hy) as (J1 & J2 & J3 & k & Hk & Hc). split; [done|]. split; [done|]. split; [done|]. exists k. split; [lia|done].
        + intros k p Hk HSp. destruct (decide (k = i)) as [->|].
          * exists (a, b - a + 1)%Z. split; [apply elem_of_list_here|]. by apply Ca.
          * destruct (I4 k p ltac:(lia) HSp) as (y & Hy & Hc). exists y. split; [by apply elem_of_list_further|done].
      - cbn [app]. split; [done|]. split; [done|]. split.
        + intros y Hy. destruct (I3 y Hy) as (J1 & J2 & J3 & k & Hk & Hc). split; [done|]. split; [done|]. split; [done|]. exists k. split; [lia|done].
        + intros k p Hk HSp. destruct (decide (k = i)) as [->|]; [by destruct (HS p)|]. apply (I4 k p); [lia|done]. }
    destruct (Y ess 0 ltac:(lia) X) as (Y1 & Y2 & Y3 & Y4). split; [done|]. split; [done|]. split.
    - intros x Hx. destruct (Y3 x Hx) as (J1 & J2 & J3 & k & Hk & Hc). split; [done|]. split; [done|]. split; [done|]. exists k. split; [lia|done].
    - intros k p Hk. apply Y4. lia.
  Qed.

  (** ** The places that are kept *)
  Context (fc : Z -> Z -> comparison) (T : tpo fc).
  Context (FE : forall p p', (forall c, c < ncol -> fl c <> FILTER_none -> hv c p = hv c p') -> fc p p' = Eq).
  Definition keepers (es : list event) : list (Z * Z) :=
    match best fc es with Some b => List.filter (ties fc b) (hits es) | None => [] end.
  Definition kept_at (es : list event) (p : Z) : Prop := exists x, x ∈ keepers es /\ covers x p.
  Definition all_cond (l h : Z) : Prop := forall c, c < ncol -> cond op inc nv nc hw hd c l h.

  Lemma best_cases es : (hits es = [] /\ keepers es = []) \/
    exists b, best fc es = Some b /\ (exists h0, h0 ∈ hits es /\ b = h0.1) /\ (forall h, h ∈ hits es -> fc h.1 b <> Gt) /\ keepers es = List.filter (ties fc b) (hits es).
  Proof.
    unfold keepers, best. destruct (hits es) as [|h hs]; [by left|]. right.
    destruct (run_hits_ok fc T h hs) as (k & ks & b & Er & _ & H0 & H1 & _). rewrite Er. cbn [snd]. exists b. done.
  Qed.
  Lemma keepers_hits es x : x ∈ keepers es -> x ∈ hits es.
  Proof.
    intros Hx. destruct (best_cases es) as [[_ E]|(b & _ & _ & _ & E)]; rewrite E in Hx; [by apply elem_of_nil in Hx|].
    apply elem_of_list_In, filter_In in Hx as [Hx _]. by apply elem_of_list_In.
  Qed.
  Lemma keepers_nil es : keepers es = [] <-> hits es = [].
  Proof.
    destruct (best_cases es) as [[E1 E2]|(b & _ & (h0 & H0 & ->) & _ & E)]; [by rewrite E1, E2|]. split.
    - intros E'. assert (h0 ∈ keepers es) as Hk; [|rewrite E' in Hk; by apply elem_of_nil in Hk].
      rewrite E. apply elem_of_list_In, filter_In. split; [by apply elem_of_list_In|]. unfold ties. by rewrite (tp_refl _ T).
    - intros E'. rewrite E' in H0. by apply elem_of_nil in H0.
  Qed.
  Lemma kept_matches l es p : By l es -> tracks_incomplete inc = false \/ incb l = false -> kept_at es p -> (0 <= p < H)%Z /\ all_cond l (hl p).
  Proof.
    intros B Ht (x & Hx%keepers_hits & Hc). destruct (events_hits l es B Ht) as (_ & _ & E3 & _).
    destruct (E3 x Hx) as (_ & _ & _ & k & Hk & HS). apply HS in Hc. apply sel_cond in Hc as [[Hp _] Hc]. split; [done|].
    intros c Hlt. apply Hc. lia.
  Qed.
  Lemma kept_eq l es x p p' : By l es -> tracks_incomplete inc = false \/ incb l = false -> x ∈ hits es -> covers x p -> covers x p' -> fc p p' = Eq.
  Proof.
    intros B Ht Hx H1 H2. destruct (events_hits l es B Ht) as (_ & _ & E3 & _). destruct (E3 x Hx) as (_ & _ & _ & k & Hk & HS). apply HS in H1, H2.
    apply FE. intros c Hc Hf. eapply (sel_filtered op fl inc nv nc hv hc); [exact H1|exact H2|lia|done].
  Qed.

  (** With simple filters all best matches are kept. *)
  Context (mb : Z -> Z -> bool) (MB : forall l h, mb l h = true <-> all_cond l h).
  Context (simple : forall c, c < ncol - 1 -> fl c = FILTER_none \/ op c = OPS_eq).
  Notation last := (ncol - 1).
  Definition fits (l p : Z) : Prop := (0 <= p < H)%Z /\ all_cond l (hl p).
  Definition best_fit (l p : Z) : Prop := fits l p /\ clause fl hv last (fits l) p.

  Lemma sel_fits l k p : Sel l (in_container k) p <-> in_container k p /\ all_cond l (hl p) /\ clause fl hv last (fun p' => in_container k p' /\ all_cond l (hl p')) p.
  Proof.
    pose proof (sel_simple op fl inc nv nc hv hc (ncol - 1) 0 l (in_container k) p) as E. replace (S (ncol - 1)) with ncol in E by lia.
    assert (A : forall q, all_cond l (hl q) <-> conds op inc nv nc hv hc ncol 0 l q).
    { intros q. unfold all_cond, conds. split; intros HH c Hc; apply HH; lia. }
    rewrite E by (intros; apply simple; lia). rewrite <- A. cbn [Nat.add].
    rewrite (clause_ext fl hv last (fun p' => in_container k p' /\ conds op inc nv nc hv hc ncol 0 l p') (fun p' => in_container k p' /\ all_cond l (hl p'))); [done|].
    intros q. by rewrite A.
  Qed.

  Lemma max_exists (K : Z -> Z) (L : list Z) : L <> [] -> exists x, x ∈ L /\ forall y, y ∈ L -> (K y <= K x)%Z.
  Proof.
    clear. induction L as [|a L IH]; [done|]. intros _. destruct L as [|b L].
    - exists a. split; [apply elem_of_list_here|]. intros y Hy. apply elem_of_list_singleton in Hy as ->. lia.
    - destruct IH as (x & Hx & Hmax); [done|]. destruct (Z.le_gt_cases (K a) (K x)) as [Hle|Hgt].
      + exists x. split; [by apply elem_of_list_further|]. intros y [->|Hy]%elem_of_cons; [done|by apply Hmax].
      + exists a. split; [apply elem_of_list_here|]. intros y [->|Hy]%elem_of_cons; [lia|]. specialize (Hmax y Hy). lia.
  Qed.
  (** A container with matches has selected ones. *)
  Lemma sel_exists l k p : k < cn -> in_container k p -> all_cond l (hl p) ->
    exists p', Sel l (in_container k) p' /\ match fl last with FILTER_none => p' = p | FILTER_max => (hv last p <= hv last p')%Z | FILTER_min => (hv last p' <= hv last p)%Z end.
  Proof.
    intros Hk Hp Hc.
    set (L := List.filter (fun q => (g q =? Z.of_nat k)%Z && mb l (hl q)) (map Z.of_nat (seq 0 (Z.to_nat H)))).
    assert (EL : forall q, q ∈ L <-> in_container k q /\ all_cond l (hl q)).
    { intros q. unfold L. rewrite elem_of_list_In, filter_In, in_map_iff, andb_true_iff, Z.eqb_eq, MB. unfold in_container. split.
      - intros [(i & <- & Hi) [H1 H2]]. apply in_seq in Hi. split; [split; [lia|done]|done].
      - intros [[H1 H2] H3]. split; [|done]. exists (Z.to_nat q). rewrite in_seq. split; lia. }
    assert (NL : L <> []) by (intros E; assert (p ∈ L) as X by (by apply EL); rewrite E in X; by apply elem_of_nil in X).
    destruct (fl last) eqn:Ef.
    - exists p. split; [|done]. apply sel_fits. split; [done|]. split; [done|]. unfold clause. by rewrite Ef.
    - destruct (max_exists (fun q => - hw last (hl q))%Z L NL) as (x & Hx & Hmax). exists x. pose proof (proj1 (EL x) Hx) as [X1 X2]. split.
      + apply sel_fits. split; [done|]. split; [done|]. unfold clause. rewrite Ef. intros p' Hp'%EL. specialize (Hmax p' Hp'). lia.
      + specialize (Hmax p (proj2 (EL p) (conj Hp Hc))). lia.
    - destruct (max_exists (fun q => hw last (hl q))%Z L NL) as (x & Hx & Hmax). exists x. pose proof (proj1 (EL x) Hx) as [X1 X2]. split.
      + apply sel_fits. split; [done|]. split; [done|]. unfold clause. rewrite Ef. intros p' Hp'%EL. specialize (Hmax p' Hp'). lia.
      + specialize (Hmax p (proj2 (EL p) (conj Hp Hc))). lia.
  Qed.

  Context (FL : forall p p', (forall c, c < ncol - 1 -> fl c <> FILTER_none -> hv c p = hv c p') ->
    fc p p' = match fl last with FILTER_none => Eq | FILTER_max => (hv last p ?= hv last p')%Z | FILTER_min => CompOpp (hv last p ?= hv last p')%Z end).
  Lemma fits_fc l p p' : fits l p -> fits l p' -> fc p p' = match fl last with FILTER_none => Eq | FILTER_max => (hv last p ?= hv last p')%Z | FILTER_min => CompOpp (hv last p ?= hv last p')%Z end.
  Proof.
    intros [_ H1] [_ H2]. apply FL. intros c Hc Hf. destruct (simple c Hc) as [E|E]; [done|].
    specialize (H1 c ltac:(lia)). specialize (H2 c ltac:(lia)). apply (cond_eq op inc nv nc hw hd c l _ E) in H1, H2. congruence.
  Qed.
  Lemma kept_simple l es p : By l es -> tracks_incomplete inc = false \/ incb l = false -> kept_at es p <-> best_fit l p.
  Proof.
    intros B Ht. destruct (events_hits l es B Ht) as (_ & _ & E3 & E4).
    assert (HF : forall x q, x ∈ hits es -> covers x q -> fits l q).
    { intros x q Hx Hc. destruct (E3 x Hx) as (_ & _ & _ & k & Hk & HS). apply HS in Hc. apply sel_fits in Hc. destruct Hc as ([Hq _] & Hc & _). by split. }
    assert (HX : forall q, fits l q -> exists x q', x ∈ hits es /\ covers x q' /\
      match fl last with FILTER_none => q' = q | FILTER_max => (hv last q <= hv last q')%Z | FILTER_min => (hv last q' <= hv last q)%Z end).
    { intros q [Hq Hc]. destruct (sel_exists l (Z.to_nat (g q)) q) as (q' & HS & Hle); [pose proof (Hg q Hq); lia| |done|].
      { split; [done|]. pose proof (Hg q Hq). lia. }
      destruct (E4 (Z.to_nat (g q)) q' ltac:(pose proof (Hg q Hq); lia) HS) as (x & Hx & Hcov). by exists x, q'. }
    assert (Hst : forall x, x ∈ hits es -> covers x x.1) by (intros x Hx; destruct (E3 x Hx) as (? & ? & ? & _); unfold covers; lia).
    split.
    - intros (x & Hx & Hcov). destruct (best_cases es) as [[E0 Ek]|(b & Eb & (h0 & H0 & ->) & Hmax & Ek)]; rewrite Ek in Hx; [by apply elem_of_nil in Hx|].
      apply elem_of_list_In, filter_In in Hx as [Hx%elem_of_list_In Htie]. unfold ties in Htie.
      assert (fc x.1 h0.1 = Eq) as C by (by destruct (fc x.1 h0.1)). clear Htie.
      assert (Fp : fits l p) by exact (HF x p Hx Hcov). assert (Fb : fits l h0.1) by (eapply HF; [exact H0|by apply Hst]).
      assert (Cp : fc p h0.1 = Eq) by (eapply tp_eq_trans; [done| |exact C]; eapply kept_eq; [done|done|exact Hx|done|by apply Hst]).
      split; [done|]. unfold clause. rewrite (fits_fc l p h0.1 Fp Fb) in Cp.
      assert (HM : forall q, fits l q -> match fl last with FILTER_none => True | FILTER_max => (hv last q <= hv last h0.1)%Z | FILTER_min => (hv last h0.1 <= hv last q)%Z end).
      { intros q Fq. destruct (HX q Fq) as (y & q' & Hy & Hcy & Hle). specialize (Hmax y Hy).
        assert (Fq' : fits l q') by exact (HF y q' Hy Hcy). assert (fc q' h0.1 <> Gt) as C'.
        { rewrite (tp_eq_l _ T q' y.1); [done|]. eapply kept_eq; [done|done|exact Hy|done|by apply Hst]. }
        rewrite (fits_fc l q' h0.1 Fq' Fb) in C'. cbv beta in *. destruct (fl last); [done| |].
        - destruct (Z.compare_spec (hw last (hl q')) (hw last (hl h0.1))); cbn in C'; lia || done.
        - destruct (Z.compare_spec (hw last (hl q')) (hw last (hl h0.1))); lia || done. }
      cbv beta in *. destruct (fl last); [done| |]; intros q Fq; specialize (HM q Fq);
        destruct (Z.compare_spec (hw last (hl p)) (hw last (hl h0.1))); cbn in Cp; lia || done.
    - intros [Fp Hcl]. destruct Fp as [Hp Hc].
      assert (HS : Sel l (in_container (Z.to_nat (g p))) p).
      { pose proof (Hg p Hp). apply sel_fits. split; [split; [done|lia]|]. split; [done|]. unfold clause in *. destruct (fl last); [done| |];
          intros q [[Hq _] Hcq]; by apply Hcl. }
      destruct (E4 (Z.to_nat (g p)) p ltac:(pose proof (Hg p Hp); lia) HS) as (x & Hx & Hcov). exists x. split; [|done].
      destruct (best_cases es) as [[E0 Ek]|(b & Eb & (h0 & H0 & ->) & Hmax & Ek)]; [rewrite E0 in Hx; by apply elem_of_nil in Hx|].
      rewrite Ek. apply elem_of_list_In, filter_In. split; [by apply elem_of_list_In|].
      assert (Fb : fits l h0.1) by (eapply HF; [exact H0|by apply Hst]). assert (Fx : fits l x.1) by (eapply HF; [exact Hx|by apply Hst]).
      assert (Ex : fc x.1 p = Eq) by (eapply kept_eq; [done|done|exact Hx|by apply Hst|done]).
      specialize (Hmax x Hx). unfold ties. rewrite (tp_eq_l _ T x.1 p) in Hmax |- * by done.
      rewrite (fits_fc l p h0.1) in Hmax |- * by done. unfold clause in Hcl. cbv beta in *. destruct (fl last); [done| |]; specialize (Hcl _ Fb); cbv beta in Hcl;
        destruct (Z.compare_spec (hw last (hl p)) (hw last (hl h0.1))); cbn in Hmax |- *; lia || done.
  Qed.
End needle.
