(** * Lemmas: the recursion that locates matches *)
From Verif Require Import Base M_Double M_Scalar M_Match L_MatchSearch.
#[local] Arguments Z.mul : simpl never.
#[local] Arguments Z.add : simpl never.
#[local] Arguments Z.sub : simpl never.
#[local] Arguments Z.to_nat : simpl never.
#[local] Arguments Z.of_nat : simpl never.

(** ** Events: what the recursion records *)
Inductive event := EInc (l : Z) | EHit (l lower upper : Z).
Definition ev_loc (ev : event) : Z := match ev with EInc l => l | EHit l _ _ => l end.
Definition apply_event (e : menv) (ev : event) (s : mstate) : res mstate :=
  match ev with EInc l => signal_incomplete l s | EHit l a b => record_match e l a b s end.
Fixpoint apply_events (e : menv) (evs : list event) (s : mstate) : res mstate :=
  match evs with [] => Ok s | ev :: evs => let! s := apply_event e ev s in apply_events e evs s end.
Definition at_needle (l : Z) (evs : list event) : list event := List.filter (fun ev => (ev_loc ev =? l)%Z) evs.

Lemma apply_events_app e a b s : apply_events e (a ++ b) s = let! s := apply_events e a s in apply_events e b s.
Proof. revert s. induction a as [|ev a IH]; intros s; [done|]. cbn. destruct (apply_event e ev s); cbn; [apply IH|done|done]. Qed.
Lemma at_needle_app l a b : at_needle l (a ++ b) = at_needle l a ++ at_needle l b.
Proof. apply List.filter_app. Qed.
Lemma at_needle_none l evs : (forall ev, ev ∈ evs -> ev_loc ev <> l) -> at_needle l evs = [].
Proof.
  induction evs as [|ev evs IH]; [done|]. intros H. cbn. destruct (Z.eqb_spec (ev_loc ev) l) as [E|E].
  - exfalso. apply (H ev); [apply elem_of_list_here|done].
  - apply IH. intros ev' H'. apply H. by apply elem_of_list_further.
Qed.

(** ** What a needle should find *)
Section spec.
  (** Number of columns; conditions, filters, incomplete; values and
      completeness of needles (by location) and haystack (by place in order). *)
  Context (ncol : nat) (op : nat -> mop) (fl : nat -> mfilter) (inc : incomplete).
  Context (nv : nat -> Z -> Z) (nc : nat -> Z -> bool) (hv : nat -> Z -> Z) (hc : nat -> Z -> bool).

  Definition op_Z (o : mop) (a b : Z) : Prop :=
    match o with OPS_eq => a = b | OPS_lt => (a < b)%Z | OPS_lte => (a <= b)%Z | OPS_gt => (b < a)%Z | OPS_gte => (b <= a)%Z end.
  Definition op_allows_eq (o : mop) : bool := match o with OPS_lt | OPS_gt => false | _ => true end.
  Definition cond (c : nat) (l p : Z) : Prop :=
    if nc c l then hc c p = true /\ op_Z (op c) (nv c l) (hv c p)
    else match inc with
         | INC_match => nv c l = hv c p
         | INC_compare => nv c l = hv c p /\ op_allows_eq (op c) = true
         | _ => False
         end.
  (** The places in [P] that satisfy the condition on a column, and of these
      the largest (smallest) values if there is a filter. *)
  Definition refine (c : nat) (l : Z) (P : Z -> Prop) (p : Z) : Prop :=
    P p /\ cond c l p /\
    match fl c with
    | FILTER_none => True
    | FILTER_max => forall p', P p' -> cond c l p' -> (hv c p' <= hv c p)%Z
    | FILTER_min => forall p', P p' -> cond c l p' -> (hv c p <= hv c p')%Z
    end.
  Fixpoint sel (k c : nat) (l : Z) (P : Z -> Prop) : Z -> Prop :=
    match k with O => P | S k => sel k (S c) l (refine c l P) end.

  Definition in_range (lo hi p : Z) : Prop := (lo <= p <= hi)%Z.

  Lemma refine_ext c l P Q : (forall p, P p <-> Q p) -> forall p, refine c l P p <-> refine c l Q p.
  Proof.
    intros H p. unfold refine. rewrite H. split; intros (H1 & H2 & H3); (split; [done|]; split; [done|]);
      destruct (fl c); [done| | |done| | ]; intros p' Hp'; apply H3; by apply H.
  Qed.
  Lemma sel_ext k : forall c l P Q, (forall p, P p <-> Q p) -> forall p, sel k c l P p <-> sel k c l Q p.
  Proof. induction k as [|k IH]; intros c l P Q H p; cbn; [apply H|]. apply IH. by apply refine_ext. Qed.
  Lemma sel_sub k : forall c l P p, sel k c l P p -> P p.
  Proof. induction k as [|k IH]; intros c l P p; cbn; [done|]. intros H%IH. apply H. Qed.
  Lemma refine_narrow c l (P Q : Z -> Prop) : (forall p, Q p -> P p) -> (forall p, P p -> cond c l p -> Q p) ->
    forall p, refine c l P p <-> refine c l Q p.
  Proof.
    intros H1 H2 p. unfold refine. split; intros (Hp & Hc & Hf); (split; [auto|]; split; [done|]);
      destruct (fl c); [done| | |done| | ]; intros p' Hp' Hc'; apply Hf; auto.
  Qed.
  Lemma sel_narrow k c l (P Q : Z -> Prop) : 0 < k -> (forall p, Q p -> P p) -> (forall p, P p -> cond c l p -> Q p) ->
    forall p, sel k c l P p <-> sel k c l Q p.
  Proof. intros Hk H1 H2 p. destruct k as [|k]; [lia|]. cbn. apply sel_ext. by apply refine_narrow. Qed.
  Lemma refine_none c l (P : Z -> Prop) : (forall p, P p -> ~ cond c l p) -> forall p, ~ refine c l P p.
  Proof. intros H p (H1 & H2 & _). by apply (H p). Qed.
  Lemma sel_none k c l (P : Z -> Prop) : 0 < k -> (forall p, P p -> ~ cond c l p) -> forall p, ~ sel k c l P p.
  Proof. intros Hk H p. destruct k as [|k]; [lia|]. cbn. intros Hs%sel_sub. by apply (refine_none c l P H p). Qed.

  (** The events of needle [l] from column [c] on in the places [lo..hi]. *)
  Definition incomplete_from (c : nat) (l : Z) : Prop := exists c', c <= c' < ncol /\ nc c' l = false.
  Definition good (c : nat) (l lo hi : Z) (es : list event) : Prop :=
    (tracks_incomplete inc = true -> incomplete_from c l ->
      es = [EInc l] \/ (es = [] /\ exists c', c <= c' < ncol /\ op c' = OPS_eq)) /\
    (tracks_incomplete inc = false \/ ~ incomplete_from c l ->
      (exists a b, es = [EHit l a b] /\ (lo <= a <= b)%Z /\ (b <= hi)%Z /\
         forall p, sel (ncol - c) c l (in_range lo hi) p <-> in_range a b p) \/
      (es = [] /\ forall p, ~ sel (ncol - c) c l (in_range lo hi) p)).

  Lemma good_narrow c l lo hi lo' hi' es : c < ncol -> (lo <= lo')%Z -> (hi' <= hi)%Z ->
    (forall p, in_range lo hi p -> cond c l p -> in_range lo' hi' p) -> good c l lo' hi' es -> good c l lo hi es.
  Proof.
    intros Hc H1 H2 Hn [G1 G2]. split; [done|]. intros Ht.
    assert (HE : forall p, sel (ncol - c) c l (in_range lo hi) p <-> sel (ncol - c) c l (in_range lo' hi') p).
    { apply sel_narrow; [lia| |done]. unfold in_range. intros; lia. }
    destruct (G2 Ht) as [(a & b & E & B1 & B2 & H)|[E H]].
    - left. exists a, b. split; [done|]. split; [lia|]. split; [lia|]. intros p. by rewrite HE.
    - right. split; [done|]. intros p. by rewrite HE.
  Qed.
  Lemma good_skip c l lo hi : c < ncol -> op c = OPS_eq -> (forall p, in_range lo hi p -> ~ cond c l p) -> good c l lo hi [].
  Proof.
    intros Hc Ho H. split.
    - intros _ _. right. split; [done|]. exists c. split; [lia|done].
    - intros _. right. split; [done|]. apply sel_none; [lia|done].
  Qed.
End spec.

(** ** The recursion *)
Section rec.
  Context (e : menv) (ncol : nat) (N H : Z) (op : nat -> mop) (fl : nat -> mfilter).
  (** Locations (from 0) by place in order; values and completeness by location. *)
  Context (nl hl : Z -> Z) (nv : nat -> Z -> Z) (nc : nat -> Z -> bool) (hw : nat -> Z -> Z) (hd : nat -> Z -> bool).
  (** Columns before [f] have condition [==]. *)
  Context (f : nat).
  Notation inc := (e_incomplete e).
  Notation hv := (fun c p => hw c (hl p)).
  Notation hc := (fun c p => hd c (hl p)).

  Definition tab (t : list (list Z)) (o : list Z) (M : Z) (v : nat -> Z -> Z) (loc : Z -> Z) : Prop :=
    length t = ncol /\ forall c x, t !! c = Some x -> forall p, (0 <= p < M)%Z -> rd_o x o p = Ok (v c (loc p)).

  Record env_ok : Prop := EnvOk {
    ok_n : tab (e_needles e) (e_o_needles e) N nv nl;
    ok_nc : tab (e_needles_complete e) (e_o_needles e) N (fun c l => b2i (nc c l)) nl;
    ok_h : tab (e_haystack e) (e_o_haystack e) H hw hl;
    ok_hc : tab (e_haystack_complete e) (e_o_haystack e) H (fun c l => b2i (hd c l)) hl;
    ok_no : forall p, (0 <= p < N)%Z -> rdZ (e_o_needles e) p = Ok (nl p + 1)%Z;
    ok_fc : forall c x q, e_needles_complete e !! c = Some x -> (0 <= q < N)%Z -> rdZ x (nl q) = Ok (b2i (nc c (nl q)));
    ok_inj : forall p q, (0 <= p < N)%Z -> (0 <= q < N)%Z -> nl p = nl q -> p = q;
    ok_op : length (e_ops e) = ncol /\ forall c o, e_ops e !! c = Some o -> o = op c;
    ok_fl : length (e_filters e) = ncol /\ forall c o, e_filters e !! c = Some o -> o = fl c;
    (** Equal ranks are equally complete. *)
    ok_cn : forall c p q, c < ncol -> (0 <= p < N)%Z -> (0 <= q < N)%Z -> nv c (nl p) = nv c (nl q) -> nc c (nl p) = nc c (nl q);
    ok_cx : forall c p q, c < ncol -> (0 <= p < N)%Z -> (0 <= q < H)%Z -> nv c (nl p) = hv c q -> nc c (nl p) = hc c q;
    (** For the other conditions incomplete values are smallest. *)
    ok_sx : forall c p q, c < ncol -> op c <> OPS_eq -> (0 <= p < N)%Z -> (0 <= q < H)%Z ->
      nc c (nl p) = true -> hc c q = false -> (hv c q < nv c (nl p))%Z;
    ok_sh : forall c p q, c < ncol -> op c <> OPS_eq -> (0 <= p < H)%Z -> (0 <= q < H)%Z ->
      hc c p = false -> hc c q = true -> (hv c p < hv c q)%Z;
    ok_f : forall c, c < f -> c < ncol -> op c = OPS_eq }.
  Context (OK : env_ok).

  (** Needles are in lexicographic order from a column on; the haystack columns
      are increasing where the columns before [f] agree. *)
  Definition n_sorted (c : nat) (lo hi : Z) : Prop :=
    forall p q c', (lo <= p)%Z -> (p <= q)%Z -> (q <= hi)%Z -> c <= c' < ncol ->
      (forall d, c <= d < c' -> nv d (nl p) = nv d (nl q)) -> (nv c' (nl p) <= nv c' (nl q))%Z.
  Definition h_sorted (c : nat) (lo hi : Z) : Prop :=
    forall p q c', (lo <= p)%Z -> (p <= q)%Z -> (q <= hi)%Z -> c <= c' < ncol ->
      (forall d, c <= d < c' -> d < f -> hv d p = hv d q) -> (hv c' p <= hv c' q)%Z.

  Notation Cond := (cond op inc nv nc hv hc).
  Notation Good := (good ncol op fl inc nv nc hv hc).

  Lemma rd_tab {A} (t : list A) c : length t = ncol -> c < ncol -> exists x, t !! c = Some x /\ rd t c = Ok x.
  Proof. intros L Hc. destruct (lookup_lt_is_Some_2 t c) as [x Hx]; [lia|]. exists x. split; [done|]. by apply rd_Ok. Qed.

  (** A loop over the needles. *)
  Lemma for_needles_events (g : Z -> list event) body lo hi : (0 <= lo)%Z -> (hi < N)%Z ->
    (forall q s, (lo <= q <= hi)%Z -> body (nl q) s = apply_events e (g q) s) ->
    forall s, for_needles (e_o_needles e) lo hi body s =
      apply_events e (concat (map (fun k => g (lo + Z.of_nat k)%Z) (seq 0 (Z.to_nat (hi - lo + 1))))) s.
  Proof.
    intros H0 H1 Hb. unfold for_needles.
    enough (HH : forall n k s, (k + n = Z.to_nat (hi - lo + 1)) ->
      for_ k n (fun k s => let! l := rdZ (e_o_needles e) (lo + Z.of_nat k) in body (l - 1)%Z s) s =
      apply_events e (concat (map (fun k => g (lo + Z.of_nat k)%Z) (seq k n))) s) by (intros s; apply HH; lia).
    induction n as [|n IH]; intros k s Hk; [done|]. cbn [for_ seq map concat].
    rewrite (ok_no OK) by lia. cbn [bind]. replace (nl (lo + Z.of_nat k) + 1 - 1)%Z with (nl (lo + Z.of_nat k)) by lia.
    rewrite Hb by lia. rewrite apply_events_app. destruct (apply_events e (g (lo + Z.of_nat k)%Z) s); cbn [bind]; [|done|done].
    apply IH. lia.
  Qed.

  (** Its events: [g q] for needle [q], where all events of [g q] are of needle [q]. *)
  Lemma loop_events_in (g : Z -> list event) lo hi ev :
    (forall q ev, (lo <= q <= hi)%Z -> ev ∈ g q -> ev_loc ev = nl q) ->
    ev ∈ concat (map (fun k => g (lo + Z.of_nat k)%Z) (seq 0 (Z.to_nat (hi - lo + 1)))) ->
    exists q, (lo <= q <= hi)%Z /\ ev_loc ev = nl q.
  Proof.
    intros Hg. rewrite elem_of_list_In, in_concat. intros (x & Hx & Hev). apply in_map_iff in Hx as (k & <- & Hk). apply in_seq in Hk.
    exists (lo + Z.of_nat k)%Z. split; [lia|]. apply Hg; [lia|]. by apply elem_of_list_In.
  Qed.
  Lemma loop_events_at (g : Z -> list event) lo hi q : (0 <= lo)%Z -> (hi < N)%Z ->
    (forall q ev, (lo <= q <= hi)%Z -> ev ∈ g q -> ev_loc ev = nl q) -> (lo <= q <= hi)%Z ->
    at_needle (nl q) (concat (map (fun k => g (lo + Z.of_nat k)%Z) (seq 0 (Z.to_nat (hi - lo + 1))))) = g q.
  Proof.
    intros H0 H1 Hg Hq.
    assert (Hall : forall q', (lo <= q' <= hi)%Z -> at_needle (nl q) (g q') = if decide (q' = q) then g q else []).
    { intros q' Hq'. destruct (decide (q' = q)) as [->|Ne].
      - clear -Hg Hq'. unfold at_needle. assert (Hall : forall ev, ev ∈ g q -> ev_loc ev = nl q) by (intros; by apply Hg).
        induction (g q) as [|ev l IH]; [done|]. cbn. rewrite (Hall ev) by apply elem_of_list_here. rewrite Z.eqb_refl. f_equal. apply IH.
        intros ev' He. apply Hall. by apply elem_of_list_further.
      - apply at_needle_none. intros ev He E. apply Ne. apply (ok_inj OK); [lia|lia|]. rewrite <- E. symmetry. by apply Hg. }
    enough (HH : forall n k, (k + n = Z.to_nat (hi - lo + 1)) -> (lo + Z.of_nat k <= q)%Z ->
      at_needle (nl q) (concat (map (fun k => g (lo + Z.of_nat k)%Z) (seq k n))) = g q) by (apply HH; lia).
    assert (HN : forall n k, (k + n = Z.to_nat (hi - lo + 1)) -> (q < lo + Z.of_nat k)%Z ->
      at_needle (nl q) (concat (map (fun k => g (lo + Z.of_nat k)%Z) (seq k n))) = []).
    { induction n as [|n IH]; intros k Hk Hlt; [done|]. cbn [seq map concat]. rewrite at_needle_app, Hall by lia.
      rewrite decide_False by lia. rewrite IH by lia. done. }
    induction n as [|n IH]; intros k Hk Hle; [lia|]. cbn [seq map concat]. rewrite at_needle_app, Hall by lia.
    destruct (decide (lo + Z.of_nat k = q)%Z) as [E|E].
    - rewrite HN by lia. apply app_nil_r.
    - rewrite IH by lia. done.
  Qed.

  (** One column: the interval of the places that satisfy the condition. *)
  Lemma column_ok c q lo hi vh vhc l u : c < ncol -> (0 <= q < N)%Z -> (0 <= lo)%Z -> (hi < H)%Z -> (lo <= hi + 1)%Z ->
    e_haystack_complete e !! c = Some vhc -> e_haystack e !! c = Some vh -> h_sorted c lo hi ->
    negb (nc c (nl q)) && tracks_incomplete inc = false ->
    match_bounds (hv c) (nv c (nl q)) lo hi l u ->
    exists l' u', adjust_bounds (op c) inc (nc c (nl q)) l u lo hi = (l', u') /\
      exists l'', skip_incomplete vhc (e_o_haystack e) (op c) (nc c (nl q)) l' u' = Ok l'' /\
        (lo <= l'' <= u' + 1)%Z /\ (u' <= hi)%Z /\ (op c = OPS_eq -> l'' = l /\ u' = u) /\
        forall p, in_range lo hi p -> (Cond c (nl q) p <-> in_range l'' u' p).
  Proof.
    intros Hc Hq Hlo Hhi Hle Hvhc Hvh Hs Ht (B1 & B2 & B3 & HB).
    assert (Hcx : forall p, in_range lo hi p -> nv c (nl q) = hv c p -> nc c (nl q) = hc c p).
    { intros p Hp. apply (ok_cx OK); [done|done|unfold in_range in *; lia]. }
    assert (Hsx : forall p, in_range lo hi p -> op c <> OPS_eq -> nc c (nl q) = true -> hc c p = false -> (hv c p < nv c (nl q))%Z).
    { intros p Hp Ho. apply (ok_sx OK); [done|done|done|unfold in_range in *; lia]. }
    unfold adjust_bounds. destruct (nc c (nl q)) eqn:Ec.
    - cbn [negb andb].
      assert (Hskip0 : op c = OPS_eq \/ op c = OPS_lt \/ op c = OPS_lte -> forall l' u', skip_incomplete vhc (e_o_haystack e) (op c) true l' u' = Ok l').
      { unfold skip_incomplete. intros [->|[->| ->]] l' u'; done. }
      assert (Hskip : op c = OPS_gt \/ op c = OPS_gte -> forall u', (lo <= u' + 1)%Z -> (u' <= hi)%Z ->
        exists l'', skip_incomplete vhc (e_o_haystack e) (op c) true lo u' = Ok l'' /\ (lo <= l'' <= u' + 1)%Z /\
          forall p, in_range lo u' p -> (hc c p = true <-> (l'' <= p)%Z)).
      { intros Ho u' Hu1 Hu2. unfold skip_incomplete. assert (Hog : mop_eqb (op c) OPS_gt || mop_eqb (op c) OPS_gte = true) by (by destruct Ho as [->| ->]).
        assert (Hone : op c <> OPS_eq) by (by destruct Ho as [->| ->]).
        rewrite Hog. cbn [andb]. destruct (Z.leb_spec lo u') as [Hl|Hl].
        2:{ exists lo. split; [done|]. split; [lia|]. unfold in_range. intros; lia. }
        rewrite (proj2 (ok_hc OK) c vhc Hvhc) by lia. cbn [bind].
        assert (Hdown : forall p p', (lo <= p)%Z -> (p <= p')%Z -> (p' <= u')%Z -> hc c p' = false -> hc c p = false).
        { intros p p' H1 H2 H3 E. destruct (hc c p) eqn:E'; [|done].
          pose proof (ok_sh OK c p' p Hc Hone ltac:(lia) ltac:(lia) E E') as Hlt.
          pose proof (Hs p p' c ltac:(lia) ltac:(lia) ltac:(lia) ltac:(lia) ltac:(intros; lia)). cbn beta in *. lia. }
        destruct (hd c (hl lo)) eqn:El; cbn [b2i].
        - change (1 =? 0)%Z with false. exists lo. split; [done|]. split; [lia|]. unfold in_range. intros p Hp. split; [lia|]. intros _.
          destruct (hd c (hl p)) eqn:Ep; [done|]. rewrite <- El. symmetry. apply (Hdown lo p); lia || done.
        - change (0 =? 0)%Z with true. cbn match.
          destruct (upper_incomplete_ok vhc (e_o_haystack e) (fun p => b2i (hd c (hl p))) lo u') as (r & Er & Hr & HH).
          { intros p Hp. apply (proj2 (ok_hc OK) c vhc Hvhc). lia. }
          { lia. }
          { intros p p' H1 H2 H3. cbn beta. destruct (hd c (hl p')) eqn:E; cbn [b2i]; [discriminate|]. intros _.
            by rewrite (Hdown p p' H1 H2 H3 E). }
          rewrite Er. cbn [bind]. exists (r + 1)%Z. split; [done|]. split; [lia|]. intros p Hp. specialize (HH p Hp). cbn beta in HH.
          destruct (hd c (hl p)); cbn [b2i] in HH; split; intros; lia || done. }
      assert (HC : forall p, Cond c (nl q) p <-> hc c p = true /\ op_Z (op c) (nv c (nl q)) (hv c p)).
      { intros p. unfold cond. by rewrite Ec. }
      destruct (op c) eqn:Eo; cbn [op_Z] in HC.
      + eexists _, _. split; [reflexivity|]. exists l. rewrite Hskip0 by auto. split; [done|]. split; [lia|]. split; [lia|]. split; [done|].
        intros p Hp. rewrite HC. unfold in_range in *. specialize (HB p Hp). split; [lia|]. intros Hin.
        assert (nv c (nl q) = hw c (hl p)) as Eq by lia. split; [|done]. symmetry. by apply Hcx.
      + eexists _, _. split; [reflexivity|]. destruct (Hskip ltac:(auto) (l - 1)%Z ltac:(lia) ltac:(lia)) as (l'' & -> & Hl'' & HH).
        exists l''. split; [done|]. split; [lia|]. split; [lia|]. split; [done|]. intros p Hp. rewrite HC. unfold in_range in *. specialize (HB p Hp).
        split.
        * intros [H1 H2]. assert (p < l)%Z by lia. split; [|lia]. apply HH; [lia|done].
        * intros Hin. split; [apply HH; lia|lia].
      + eexists _, _. split; [reflexivity|]. destruct (Hskip ltac:(auto) u ltac:(lia) ltac:(lia)) as (l'' & -> & Hl'' & HH).
        exists l''. split; [done|]. split; [lia|]. split; [lia|]. split; [done|]. intros p Hp. rewrite HC. unfold in_range in *. specialize (HB p Hp).
        split.
        * intros [H1 H2]. assert (p <= u)%Z by lia. split; [|lia]. apply HH; [lia|done].
        * intros Hin. split; [apply HH; lia|lia].
      + eexists _, _. split; [reflexivity|]. exists (u + 1)%Z. rewrite Hskip0 by auto. split; [done|]. split; [lia|]. split; [lia|]. split; [done|].
        intros p Hp. rewrite HC. pose proof (Hsx p Hp ltac:(done) eq_refl). unfold in_range in *. specialize (HB p Hp). split; [lia|].
        intros Hin. destruct (hd c (hl p)); [split; [done|lia]|]. cbn beta in *. lia.
      + eexists _, _. split; [reflexivity|]. exists l. rewrite Hskip0 by auto. split; [done|]. split; [lia|]. split; [lia|]. split; [done|].
        intros p Hp. rewrite HC. pose proof (Hsx p Hp ltac:(done) eq_refl). unfold in_range in *. specialize (HB p Hp). split; [lia|].
        intros Hin. destruct (hd c (hl p)); [split; [done|lia]|]. cbn beta in *. lia.
    - cbn [negb andb] in *.
      assert (Hskip0 : forall l' u', skip_incomplete vhc (e_o_haystack e) (op c) false l' u' = Ok l') by (by unfold skip_incomplete).
      assert (HC : forall p, Cond c (nl q) p <-> match inc with INC_match => nv c (nl q) = hv c p
        | INC_compare => nv c (nl q) = hv c p /\ op_allows_eq (op c) = true | _ => False end).
      { intros p. unfold cond. by rewrite Ec. }
      assert (Heq : forall p, in_range lo hi p -> (nv c (nl q) = hv c p <-> in_range l u p)).
      { intros p Hp. specialize (HB p Hp). unfold in_range in *. lia. }
      destruct (e_incomplete e) eqn:Ei; try done.
      + destruct (op c) eqn:Eo; cbn [op_allows_eq] in HC; (eexists _, _; split; [reflexivity|]; eexists; rewrite Hskip0; split; [reflexivity|]);
          (split; [lia|]; split; [lia|]; split; [done|]); intros p Hp; rewrite HC, Heq by done; unfold in_range in *; (split; intros; lia || (destruct_and?; done)).
      + assert (HR : forall p, in_range lo hi p -> (cond op INC_match nv nc hv hc c (nl q) p <-> in_range l u p)).
        { intros p Hp. rewrite HC. by apply Heq. }
        eexists _, _. split; [reflexivity|]. exists l. rewrite Hskip0. split; [done|]. split; [lia|]. split; [lia|]. split; [done|]. done.
  Qed.

  Notation Refine := (refine op fl inc nv nc hv hc).
  Notation Sel := (sel op fl inc nv nc hv hc).

  Lemma cond_const c q p : c < ncol -> negb (nc c (nl q)) || mop_eqb (op c) OPS_eq = true -> Cond c (nl q) p -> hv c p = nv c (nl q).
  Proof.
    intros Hc. unfold cond. destruct (nc c (nl q)); cbn [negb orb].
    - destruct (op c); try done. by intros _ [_ ->].
    - intros _. destruct (e_incomplete e); try done. by intros [-> _].
  Qed.

  Lemma filter_ok c q lo hi vh l u : c < ncol -> (0 <= q < N)%Z -> (0 <= lo)%Z -> (hi < H)%Z ->
    e_haystack e !! c = Some vh -> h_sorted c lo hi -> (lo <= l <= u)%Z -> (u <= hi)%Z ->
    (forall p, in_range lo hi p -> (Cond c (nl q) p <-> in_range l u p)) ->
    exists l' u', filter_bounds vh (e_o_haystack e) (fl c) (op c) (nc c (nl q)) l u = Ok (l', u') /\
      (lo <= l' <= u')%Z /\ (u' <= hi)%Z /\ (op c = OPS_eq -> l' = l /\ u' = u) /\
      forall p, Refine c (nl q) (in_range lo hi) p <-> in_range l' u' p.
  Proof.
    intros Hc Hq Hlo Hhi Hvh Hs Hl Hu HC.
    assert (Hvals : forall p, in_range l u p -> rd_o vh (e_o_haystack e) p = Ok (hv c p)).
    { intros p Hp. apply (proj2 (ok_h OK) c vh Hvh). unfold in_range in *. lia. }
    assert (Hmono : forall p p', (l <= p)%Z -> (p <= p')%Z -> (p' <= u)%Z -> (hv c p <= hv c p')%Z).
    { intros p p' H1 H2 H3. apply (Hs p p' c); [lia|lia|lia|lia|intros; lia]. }
    assert (HR : forall p, in_range l u p <-> in_range lo hi p /\ Cond c (nl q) p).
    { intros p. split; [intros Hp|intros [Hp Hp']; by apply HC]. assert (in_range lo hi p) by (unfold in_range in *; lia). split; [done|]. by apply HC. }
    destruct (negb (nc c (nl q)) || mop_eqb (op c) OPS_eq) eqn:Ek.
    - (* all values are equal *)
      assert (Hk : forall p, in_range lo hi p -> Cond c (nl q) p -> hv c p = nv c (nl q)) by (intros; by apply cond_const).
      exists l, u. split; [unfold filter_bounds; rewrite Ek; by destruct (fl c)|]. split; [lia|]. split; [lia|]. split; [done|].
      intros p. rewrite HR. unfold refine. split; [tauto|]. intros [Hp Hcp]. split; [done|]. split; [done|].
      destruct (fl c); [done| |]; intros p' Hp' Hcp'; rewrite (Hk p), (Hk p') by done; lia.
    - assert (Hone : op c <> OPS_eq) by (intros E; rewrite E in Ek; by rewrite orb_true_r in Ek).
      unfold filter_bounds. rewrite Ek. rewrite !Hvals by (unfold in_range; lia). cbn [bind].
      destruct (fl c) eqn:Ef.
      + exists l, u. split; [done|]. split; [lia|]. split; [lia|]. split; [done|]. intros p. rewrite HR. unfold refine. rewrite Ef. tauto.
      + destruct (Z.eqb_spec (hw c (hl l)) (hw c (hl u))) as [E|E]; cbn [negb].
        * exists l, u. split; [done|]. split; [lia|]. split; [lia|]. split; [done|]. intros p. rewrite HR. unfold refine. rewrite Ef.
          split; [tauto|]. intros Hp. split; [tauto|]. split; [tauto|]. intros p' Hp' Hcp'. apply HR in Hp.
          assert (Hp2 : in_range l u p') by (by apply HR). unfold in_range in Hp, Hp2.
          pose proof (Hmono p u ltac:(lia) ltac:(lia) ltac:(lia)). pose proof (Hmono l p' ltac:(lia) ltac:(lia) ltac:(lia)). cbn beta in *. lia.
        * destruct (upper_duplicate_ok (hw c (hl l)) vh (e_o_haystack e) (fun p => hw c (hl p)) l u) as (r & -> & Hr & HH).
          { intros p Hp. by apply Hvals. }
          { lia. }
          { intros p p' H1 H2 H3 E'. pose proof (Hmono l p ltac:(lia) ltac:(lia) ltac:(lia)). pose proof (Hmono p p' ltac:(lia) ltac:(lia) ltac:(lia)).
            cbn beta in *. lia. }
          cbn [bind]. pose proof (proj1 (HH l ltac:(lia)) eq_refl) as Hlr.
          exists l, r. split; [done|]. split; [lia|]. split; [lia|]. split; [done|]. intros p. unfold refine. rewrite Ef. split.
          -- intros (H1 & H2 & H3). assert (Hp : in_range l u p) by (by apply HR). unfold in_range in Hp |- *.
             assert (hw c (hl p) = hw c (hl l)); [|specialize (HH p Hp); cbn beta in HH; split; [lia|]; by apply HH].
             pose proof (proj1 (HR l) ltac:(unfold in_range; lia)) as [Q1 Q2]. specialize (H3 l Q1 Q2).
             pose proof (Hmono l p ltac:(lia) ltac:(lia) ltac:(lia)). cbn beta in *. lia.
          -- intros Hp. unfold in_range in Hp. assert (Hp2 : in_range l u p) by (unfold in_range; lia).
             pose proof (proj1 (HR p) Hp2) as [Q1 Q2]. split; [done|]. split; [done|]. intros p' P1 P2.
             assert (Hp3 : in_range l u p') by (by apply HR). unfold in_range in Hp3.
             pose proof (proj2 (HH p ltac:(lia)) ltac:(lia)) as E1. pose proof (Hmono l p' ltac:(lia) ltac:(lia) ltac:(lia)). cbn beta in *. lia.
      + destruct (Z.eqb_spec (hw c (hl l)) (hw c (hl u))) as [E|E]; cbn [negb].
        * exists l, u. split; [done|]. split; [lia|]. split; [lia|]. split; [done|]. intros p. rewrite HR. unfold refine. rewrite Ef.
          split; [tauto|]. intros Hp. split; [tauto|]. split; [tauto|]. intros p' Hp' Hcp'. apply HR in Hp.
          assert (Hp2 : in_range l u p') by (by apply HR). unfold in_range in Hp, Hp2.
          pose proof (Hmono p' u ltac:(lia) ltac:(lia) ltac:(lia)). pose proof (Hmono l p ltac:(lia) ltac:(lia) ltac:(lia)). cbn beta in *. lia.
        * destruct (lower_duplicate_ok (hw c (hl u)) vh (e_o_haystack e) (fun p => hw c (hl p)) l u) as (r & -> & Hr & HH).
          { intros p Hp. by apply Hvals. }
          { lia. }
          { intros p p' H1 H2 H3 E'. pose proof (Hmono p p' ltac:(lia) ltac:(lia) ltac:(lia)). pose proof (Hmono p' u ltac:(lia) ltac:(lia) ltac:(lia)).
            cbn beta in *. lia. }
          cbn [bind]. pose proof (proj1 (HH u ltac:(lia)) eq_refl) as Hlr.
          exists r, u. split; [done|]. split; [lia|]. split; [lia|]. split; [done|]. intros p. unfold refine. rewrite Ef. split.
          -- intros (H1 & H2 & H3). assert (Hp : in_range l u p) by (by apply HR). unfold in_range in Hp |- *.
             assert (hw c (hl p) = hw c (hl u)); [|specialize (HH p Hp); cbn beta in HH; split; [by apply HH|lia]].
             pose proof (proj1 (HR u) ltac:(unfold in_range; lia)) as [Q1 Q2]. specialize (H3 u Q1 Q2).
             pose proof (Hmono p u ltac:(lia) ltac:(lia) ltac:(lia)). cbn beta in *. lia.
          -- intros Hp. unfold in_range in Hp. assert (Hp2 : in_range l u p) by (unfold in_range; lia).
             pose proof (proj1 (HR p) Hp2) as [Q1 Q2]. split; [done|]. split; [done|]. intros p' P1 P2.
             assert (Hp3 : in_range l u p') by (by apply HR). unfold in_range in Hp3.
             pose proof (proj2 (HH p ltac:(lia)) ltac:(lia)) as E1. pose proof (Hmono p' u ltac:(lia) ltac:(lia) ltac:(lia)). cbn beta in *. lia.
  Qed.

  Lemma future_ok c q : c < ncol -> (0 <= q < N)%Z ->
    exists b, future_incomplete (e_needles_complete e) c (nl q) = Ok b /\ (b = true <-> incomplete_from ncol nc (S c) (nl q)).
  Proof.
    intros Hc Hq. unfold future_incomplete. pose proof (proj1 (ok_nc OK)) as L. rewrite L.
    destruct (for_brk_inv (fun i (s : bool) => s = false /\ forall j, S c <= j < i -> nc j (nl q) = true)
      (fun s => s = true <-> incomplete_from ncol nc (S c) (nl q)) (S c) (ncol - S c)
      (fun j _ => let! v := rd (e_needles_complete e) j in let! c0 := rdZ v (nl q) in
        if (c0 =? 0)%Z then Ok (Break true) else Ok (Next false)) false) as (b & E & Hb).
    - split; [done|]. intros; lia.
    - intros i s Hi [-> HI]. destruct (rd_tab (e_needles_complete e) i L ltac:(lia)) as (x & Hx & ->). cbn [bind].
      rewrite (ok_fc OK i x q Hx Hq). cbn [bind]. destruct (nc i (nl q)) eqn:Ei; cbn [b2i].
      + left. exists false. split; [done|]. split; [done|]. intros j Hj. destruct (decide (j = i)) as [->|]; [done|]. apply HI. lia.
      + right. exists true. split; [done|]. split; [|done]. intros _. exists i. split; [lia|done].
    - intros s [-> HI]. split; [done|]. intros (j & Hj & Ej). rewrite HI in Ej by lia. done.
    - exists b. split; [exact E|done].
  Qed.

  Lemma incomplete_split c l : c < ncol -> incomplete_from ncol nc c l <-> nc c l = false \/ incomplete_from ncol nc (S c) l.
  Proof.
    intros Hc. split.
    - intros (j & Hj & Ej). destruct (decide (j = c)) as [->|]; [by left|]. right. exists j. split; [lia|done].
    - intros [E|(j & Hj & Ej)]; [exists c; split; [lia|done]|exists j; split; [lia|done]].
  Qed.

  Theorem rec_ok fuel : forall c nlo nhi hlo hhi, c < ncol -> (0 <= nlo <= nhi)%Z -> (nhi < N)%Z ->
    (0 <= hlo)%Z -> (hhi < H)%Z -> (hlo <= hhi + 1)%Z -> n_sorted c nlo nhi -> h_sorted c hlo hhi ->
    (Z.of_nat (ncol - c) + (nhi - nlo + 1) <= Z.of_nat fuel)%Z ->
    exists evs, (forall s, df_locate_matches_recurse fuel e c nlo nhi hlo hhi s = apply_events e evs s) /\
      (forall ev, ev ∈ evs -> exists q, (nlo <= q <= nhi)%Z /\ ev_loc ev = nl q) /\
      forall q, (nlo <= q <= nhi)%Z -> Good c (nl q) hlo hhi (at_needle (nl q) evs).
  Proof.
    induction fuel as [|fuel IH]; intros c nlo nhi hlo hhi Hc Hn HnN Hh0 HhH Hh Sn Sh Hfuel; [lia|].
    destruct (rd_tab (e_ops e) c (proj1 (ok_op OK)) Hc) as (o' & Ho & Ro).
    pose proof (proj2 (ok_op OK) c o' Ho) as ->.
    destruct (rd_tab (e_filters e) c (proj1 (ok_fl OK)) Hc) as (fl' & Hfl & Rfl).
    pose proof (proj2 (ok_fl OK) c fl' Hfl) as ->.
    destruct (rd_tab _ c (proj1 (ok_n OK)) Hc) as (vn & Hvn & Rn).
    destruct (rd_tab _ c (proj1 (ok_nc OK)) Hc) as (vnc & Hvnc & Rnc).
    destruct (rd_tab _ c (proj1 (ok_h OK)) Hc) as (vh & Hvh & Rh).
    destruct (rd_tab _ c (proj1 (ok_hc OK)) Hc) as (vhc & Hvhc & Rhc).
    set (mid := midpoint nlo nhi). pose proof (midpoint_bounds nlo nhi ltac:(lia)) as Hmid. fold mid in Hmid.
    pose proof (proj2 (ok_n OK) c vn Hvn mid ltac:(lia)) as Rval.
    pose proof (proj2 (ok_nc OK) c vnc Hvnc mid ltac:(lia)) as Rcomp. cbn beta in Rcomp.
    assert (Snc : forall p q, (nlo <= p)%Z -> (p <= q)%Z -> (q <= nhi)%Z -> (nv c (nl p) <= nv c (nl q))%Z).
    { intros p q H1 H2 H3. apply (Sn p q c); [lia|lia|lia|lia|intros; lia]. }
    destruct (lower_duplicate_ok (nv c (nl mid)) vn (e_o_needles e) (fun p => nv c (nl p)) nlo mid) as (dlo & Edlo & Bdlo & Hdlo).
    { intros p Hp. apply (proj2 (ok_n OK) c vn Hvn). lia. }
    { lia. }
    { intros p q H1 H2 H3 E. pose proof (Snc p q ltac:(lia) ltac:(lia) ltac:(lia)). pose proof (Snc q mid ltac:(lia) ltac:(lia) ltac:(lia)). lia. }
    destruct (upper_duplicate_ok (nv c (nl mid)) vn (e_o_needles e) (fun p => nv c (nl p)) mid nhi) as (dhi & Edhi & Bdhi & Hdhi).
    { intros p Hp. apply (proj2 (ok_n OK) c vn Hvn). lia. }
    { lia. }
    { intros p q H1 H2 H3 E. pose proof (Snc p q ltac:(lia) ltac:(lia) ltac:(lia)). pose proof (Snc mid p ltac:(lia) ltac:(lia) ltac:(lia)). lia. }
    pose proof (proj1 (Hdlo mid ltac:(lia)) eq_refl) as Bl. pose proof (proj1 (Hdhi mid ltac:(lia)) eq_refl) as Bu.
    assert (Hdup : forall q, (dlo <= q <= dhi)%Z -> nv c (nl q) = nv c (nl mid)).
    { intros q Hq. destruct (Z.le_gt_cases q mid); [apply Hdlo; lia|apply Hdhi; lia]. }
    assert (Hlhs : forall q, (nlo <= q < dlo)%Z -> (nv c (nl q) < nv c (nl mid))%Z).
    { intros q Hq. pose proof (Snc q mid ltac:(lia) ltac:(lia) ltac:(lia)). pose proof (Hdlo q ltac:(lia)) as E. cbn beta in E. lia. }
    assert (Hrhs : forall q, (dhi < q <= nhi)%Z -> (nv c (nl mid) < nv c (nl q))%Z).
    { intros q Hq. pose proof (Snc mid q ltac:(lia) ltac:(lia) ltac:(lia)). pose proof (Hdhi q ltac:(lia)) as E. cbn beta in E. lia. }
    assert (Hncd : forall q, (dlo <= q <= dhi)%Z -> nc c (nl q) = nc c (nl mid)).
    { intros q Hq. apply (ok_cn OK); [lia|lia|lia|]. by apply Hdup. }
    assert (Hsub : forall lo hi, (nlo <= lo)%Z -> (hi <= nhi)%Z -> n_sorted c lo hi).
    { intros lo hi H1 H2 p q c' ? ? ?. apply Sn; lia. }
    assert (Hsubh : forall lo hi, (hlo <= lo)%Z -> (hi <= hhi)%Z -> h_sorted c lo hi).
    { intros lo hi H1 H2 p q c' ? ? ?. apply Sh; lia. }
    (* joining the events of the three parts *)
    assert (Hjoin : forall evm evl evr,
      (forall ev, ev ∈ evm -> exists q, (dlo <= q <= dhi)%Z /\ ev_loc ev = nl q) ->
      (forall ev, ev ∈ evl -> exists q, (nlo <= q < dlo)%Z /\ ev_loc ev = nl q) ->
      (forall ev, ev ∈ evr -> exists q, (dhi < q <= nhi)%Z /\ ev_loc ev = nl q) ->
      (forall q, (dlo <= q <= dhi)%Z -> Good c (nl q) hlo hhi (at_needle (nl q) evm)) ->
      (forall q, (nlo <= q < dlo)%Z -> Good c (nl q) hlo hhi (at_needle (nl q) evl)) ->
      (forall q, (dhi < q <= nhi)%Z -> Good c (nl q) hlo hhi (at_needle (nl q) evr)) ->
      (forall ev, ev ∈ evm ++ evl ++ evr -> exists q, (nlo <= q <= nhi)%Z /\ ev_loc ev = nl q) /\
      (forall q, (nlo <= q <= nhi)%Z -> Good c (nl q) hlo hhi (at_needle (nl q) (evm ++ evl ++ evr)))).
    { intros evm evl evr I1 I2 I3 G1 G2 G3. split.
      - intros ev Hev. rewrite !elem_of_app in Hev. destruct Hev as [Hev|[Hev|Hev]]; [apply I1 in Hev|apply I2 in Hev|apply I3 in Hev];
          destruct Hev as (q & Hq & E); exists q; (split; [lia|done]).
      - intros q Hq.
        assert (Hno : forall evs lo hi, (0 <= lo)%Z -> (hi <= nhi)%Z -> (forall ev, ev ∈ evs -> exists q, (lo <= q <= hi)%Z /\ ev_loc ev = nl q) ->
          (q < lo \/ hi < q)%Z -> at_needle (nl q) evs = []).
        { intros evs lo hi L1 L2 I Hq'. apply at_needle_none. intros ev Hev E. destruct (I ev Hev) as (q' & Hq2 & E').
          assert (q = q'); [|lia]. apply (ok_inj OK); [lia|lia|congruence]. }
        rewrite !at_needle_app. destruct (Z.lt_ge_cases q dlo) as [C1|C1].
        + rewrite (Hno evm dlo dhi), (Hno evr (dhi + 1)%Z nhi), app_nil_r; try lia; [apply G2; lia| |done].
          intros ev Hev. destruct (I3 ev Hev) as (q' & Hq' & E). exists q'. split; [lia|done].
        + destruct (Z.lt_ge_cases dhi q) as [C2|C2].
          * rewrite (Hno evm dlo dhi), (Hno evl nlo (dlo - 1)%Z); try lia; [apply G3; lia| |done].
            intros ev Hev. destruct (I2 ev Hev) as (q' & Hq' & E). exists q'. split; [lia|done].
          * rewrite (Hno evl nlo (dlo - 1)%Z), (Hno evr (dhi + 1)%Z nhi), !app_nil_r; try lia; [apply G1; lia| |].
            -- intros ev Hev. destruct (I3 ev Hev) as (q' & Hq' & E). exists q'. split; [lia|done].
            -- intros ev Hev. destruct (I2 ev Hev) as (q' & Hq' & E). exists q'. split; [lia|done]. }
    assert (HL : forall (b : bool) h', (nlo < dlo -> b = true -> hlo <= h' + 1)%Z -> (nlo < dlo -> b = true -> h' <= hhi)%Z ->
      (forall q p, (nlo <= q < dlo)%Z -> b = true -> in_range hlo hhi p -> Cond c (nl q) p -> (p <= h')%Z) ->
      (b = false -> op c = OPS_eq /\ forall q p, (nlo <= q < dlo)%Z -> in_range hlo hhi p -> ~ Cond c (nl q) p) ->
      exists evl, (forall s, (if (nlo <? dlo)%Z && b then df_locate_matches_recurse fuel e c nlo (dlo - 1) hlo h' s else Ok s) = apply_events e evl s) /\
        (forall ev, ev ∈ evl -> exists q, (nlo <= q < dlo)%Z /\ ev_loc ev = nl q) /\
        (forall q, (nlo <= q < dlo)%Z -> Good c (nl q) hlo hhi (at_needle (nl q) evl))).
    { intros b h' H1 H2 HC Hb. destruct (Z.ltb_spec nlo dlo) as [C|C]; cbn [andb].
      2:{ exists []. split; [done|]. split; [intros ev Hev; by apply elem_of_nil in Hev|]. intros; lia. }
      destruct b.
      - specialize (H1 C eq_refl). specialize (H2 C eq_refl).
        destruct (IH c nlo (dlo - 1)%Z hlo h') as (evs & E1 & E2 & E3); [lia|lia|lia|lia|lia|lia|apply Hsub; lia|apply Hsubh; lia|lia|].
        exists evs. split; [done|]. split.
        + intros ev Hev. destruct (E2 ev Hev) as (q & Hq & E). exists q. split; [lia|done].
        + intros q Hq. apply (good_narrow ncol op fl inc nv nc hv hc c (nl q) hlo hhi hlo h'); [done|lia|lia| |apply E3; lia].
          intros p Hp Hcp. pose proof (HC q p Hq eq_refl Hp Hcp). unfold in_range in *. lia.
      - destruct (Hb eq_refl) as [Hoe Hno]. exists []. split; [done|]. split; [intros ev Hev; by apply elem_of_nil in Hev|].
        intros q Hq. apply good_skip; [done|done|]. intros p Hp. by apply Hno. }
    assert (HRr : forall (b : bool) h', (dhi < nhi -> b = true -> h' <= hhi + 1)%Z -> (dhi < nhi -> b = true -> hlo <= h')%Z ->
      (forall q p, (dhi < q <= nhi)%Z -> b = true -> in_range hlo hhi p -> Cond c (nl q) p -> (h' <= p)%Z) ->
      (b = false -> op c = OPS_eq /\ forall q p, (dhi < q <= nhi)%Z -> in_range hlo hhi p -> ~ Cond c (nl q) p) ->
      exists evr, (forall s, (if (dhi <? nhi)%Z && b then df_locate_matches_recurse fuel e c (dhi + 1) nhi h' hhi s else Ok s) = apply_events e evr s) /\
        (forall ev, ev ∈ evr -> exists q, (dhi < q <= nhi)%Z /\ ev_loc ev = nl q) /\
        (forall q, (dhi < q <= nhi)%Z -> Good c (nl q) hlo hhi (at_needle (nl q) evr))).
    { intros b h' H1 H2 HC Hb. destruct (Z.ltb_spec dhi nhi) as [C|C]; cbn [andb].
      2:{ exists []. split; [done|]. split; [intros ev Hev; by apply elem_of_nil in Hev|]. intros; lia. }
      destruct b.
      - specialize (H1 C eq_refl). specialize (H2 C eq_refl).
        destruct (IH c (dhi + 1)%Z nhi h' hhi) as (evs & E1 & E2 & E3); [lia|lia|lia|lia|lia|lia|apply Hsub; lia|apply Hsubh; lia|lia|].
        exists evs. split; [done|]. split.
        + intros ev Hev. destruct (E2 ev Hev) as (q & Hq & E). exists q. split; [lia|done].
        + intros q Hq. apply (good_narrow ncol op fl inc nv nc hv hc c (nl q) hlo hhi h' hhi); [done|lia|lia| |apply E3; lia].
          intros p Hp Hcp. pose proof (HC q p Hq eq_refl Hp Hcp). unfold in_range in *. lia.
      - destruct (Hb eq_refl) as [Hoe Hno]. exists []. split; [done|]. split; [intros ev Hev; by apply elem_of_nil in Hev|].
        intros q Hq. apply good_skip; [done|done|]. intros p Hp. by apply Hno. }
    assert (Hfin : forall evm evl evr,
      (forall s, df_locate_matches_recurse (S fuel) e c nlo nhi hlo hhi s = (let! s := apply_events e evm s in let! s := apply_events e evl s in apply_events e evr s)) ->
      forall s, df_locate_matches_recurse (S fuel) e c nlo nhi hlo hhi s = apply_events e (evm ++ evl ++ evr) s).
    { intros evm evl evr HE s. rewrite HE, apply_events_app. destruct (apply_events e evm s); cbn [bind]; [|done|done]. by rewrite apply_events_app. }
    assert (Ec0 : negb (b2i (nc c (nl mid)) =? 0)%Z = nc c (nl mid)) by (by destruct (nc c (nl mid))).
    destruct (negb (nc c (nl mid)) && tracks_incomplete inc) eqn:Et.
    - (* an incomplete needle *)
      apply andb_prop in Et as Et'. destruct Et' as [Enc Etr]. apply negb_true_iff in Enc.
      set (g := fun q => [EInc (nl q)]).
      assert (Hg : forall q ev, (dlo <= q <= dhi)%Z -> ev ∈ g q -> ev_loc ev = nl q).
      { intros q ev _ ->%elem_of_list_singleton. done. }
      destruct (HL true hhi) as (evl & L1 & L2 & L3); [lia|lia|unfold in_range; lia|done|].
      destruct (HRr true hlo) as (evr & R1 & R2 & R3); [lia|lia|unfold in_range; lia|done|].
      set (evm := concat (map (fun k => g (dlo + Z.of_nat k)%Z) (seq 0 (Z.to_nat (dhi - dlo + 1))))).
      exists (evm ++ evl ++ evr). split; [|apply (Hjoin evm evl evr)]; [|exact (fun ev => loop_events_in g dlo dhi ev Hg)|done|done| |done|done].
      + apply Hfin. intros s. cbn [df_locate_matches_recurse]. fold mid.
        rewrite Ro. cbn [bind]. rewrite Rfl. cbn [bind]. rewrite Rn. cbn [bind]. rewrite Rnc. cbn [bind]. rewrite Rh. cbn [bind].
        rewrite Rhc. cbn [bind]. rewrite Rval. cbn [bind]. rewrite Rcomp. cbn [bind]. rewrite Edlo. cbn [bind]. rewrite Edhi. cbn [bind].
        rewrite Ec0, Et.
        rewrite (for_needles_events g signal_incomplete dlo dhi) by (lia || (intros q s' Hq; cbn; by destruct (signal_incomplete (nl q) s'))).
        fold evm. destruct (apply_events e evm s) as [s1|x|x]; cbn [bind]; [|done|done].
        rewrite <- L1, andb_true_r. destruct (if (nlo <? dlo)%Z then _ else _) as [s2|x|x]; cbn [bind]; [|done|done].
        by rewrite <- R1, andb_true_r.
      + intros q Hq. unfold evm. rewrite loop_events_at by (lia || done). split.
        * intros _ _. by left.
        * intros [E|E]; [congruence|]. exfalso. apply E. exists c. split; [lia|]. by rewrite Hncd.
    - destruct (locate_match_ok (nv c (nl mid)) vh (e_o_haystack e) (hv c) hlo hhi) as (l0 & u0 & E0 & B0).
      { intros p Hp. apply (proj2 (ok_h OK) c vh Hvh). lia. }
      { done. }
      { intros p p' H1 H2 H3. apply (Sh p p' c); [lia|lia|lia|lia|intros; lia]. }
      destruct (column_ok c mid hlo hhi vh vhc l0 u0 Hc ltac:(lia) Hh0 HhH Hh Hvhc Hvh Sh Et B0)
        as (l1 & u1 & E1 & l2 & E2 & B2 & B3 & Heq2 & HC).
      assert (HCq : forall q p, (dlo <= q <= dhi)%Z -> Cond c (nl q) p <-> Cond c (nl mid) p).
      { intros q p Hq. unfold cond. by rewrite (Hdup q Hq), (Hncd q Hq). }
      assert (HRq : forall q P p, (dlo <= q <= dhi)%Z -> Refine c (nl q) P p <-> Refine c (nl mid) P p).
      { intros q P p Hq. unfold refine. rewrite HCq by done. split; intros (A1 & A2 & A3); (split; [done|]; split; [done|]);
          (destruct (fl c); [done| |]); intros p' Hp' Hcp'; (apply A3; [done|]); by apply (HCq q). }
      (* the events of the needles of the group *)
      assert (HM : exists l3 u3 evm, (hlo <= l3 <= u3 + 1)%Z /\ (u3 <= hhi)%Z /\ (op c = OPS_eq -> l3 = l0 /\ u3 = u0) /\
        (forall s, (if (l2 <=? u1)%Z then
            let! (lower, upper) := filter_bounds vh (e_o_haystack e) (fl c) (op c) (nc c (nl mid)) l2 u1 in
            let! s :=
              if c <? length (e_needles e) - 1 then df_locate_matches_recurse fuel e (S c) dlo dhi lower upper s
              else for_needles (e_o_needles e) dlo dhi (fun l s => record_match e l lower upper s) s in
            Ok (lower, upper, s)
          else if (c <? length (e_needles e) - 1) && tracks_incomplete (e_incomplete e) then
            let! s := for_needles (e_o_needles e) dlo dhi (fun l s =>
              let! inc := future_incomplete (e_needles_complete e) c l in
              if (inc : bool) then signal_incomplete l s else Ok s) s in
            Ok (l2, u1, s)
          else Ok (l2, u1, s)) = (let! s := apply_events e evm s in Ok (l3, u3, s))) /\
        (forall ev, ev ∈ evm -> exists q, (dlo <= q <= dhi)%Z /\ ev_loc ev = nl q) /\
        (forall q, (dlo <= q <= dhi)%Z -> Good c (nl q) hlo hhi (at_needle (nl q) evm))).
      { rewrite (proj1 (ok_n OK)). destruct (Z.leb_spec l2 u1) as [Hl|Hl].
        - destruct (filter_ok c mid hlo hhi vh l2 u1 Hc ltac:(lia) Hh0 HhH Hvh Sh ltac:(lia) B3 HC) as (l3 & u3 & E3 & B4 & B5 & Heq3 & HR3).
          exists l3, u3. rewrite E3. cbn [bind].
          assert (Heq : op c = OPS_eq -> l3 = l0 /\ u3 = u0).
          { intros Hoe. destruct (Heq2 Hoe) as [<- <-]. by apply Heq3. }
          destruct (Nat.ltb_spec c (ncol - 1)) as [Hcn|Hcn].
          + destruct (IH (S c) dlo dhi l3 u3) as (evm & M1 & M2 & M3); [lia|lia|lia|lia|lia|lia| | |lia|].
            { intros p q c' H1 H2 H3 Hc' Hag. apply (Sn p q c'); [lia|lia|lia|lia|]. intros d Hd.
              destruct (decide (d = c)) as [->|]; [by rewrite (Hdup p), (Hdup q) by lia|apply Hag; lia]. }
            { intros p q c' H1 H2 H3 Hc' Hag. apply (Sh p q c'); [lia|lia|lia|lia|]. intros d Hd Hdf.
              destruct (decide (d = c)) as [->|]; [|apply Hag; lia].
              assert (Hoe : op c = OPS_eq) by (by apply (ok_f OK)).
              assert (Hk : forall p, in_range l3 u3 p -> hv c p = nv c (nl mid)).
              { intros p' Hp'. apply HR3 in Hp' as (_ & Hcp & _). apply cond_const; [done| |done]. rewrite Hoe. apply orb_true_r. }
              rewrite (Hk p), (Hk q) by (unfold in_range; lia). done. }
            exists evm. split; [lia|]. split; [lia|]. split; [done|]. split; [intros s; by rewrite M1|]. split; [done|].
            intros q Hq. destruct (M3 q Hq) as [G1 G2].
            assert (HS : forall p, Sel (ncol - c) c (nl q) (in_range hlo hhi) p <-> Sel (ncol - S c) (S c) (nl q) (in_range l3 u3) p).
            { replace (ncol - c) with (S (ncol - S c)) by lia. cbn [sel]. apply sel_ext. intros p. rewrite HRq by done. apply HR3. }
            split.
            * intros T [Ei|I]%incomplete_split; [|destruct (G1 T I) as [G|[G (c' & Hc' & Hoe)]]; [by left|right; split; [done|]; exists c'; split; [lia|done]]|done].
              exfalso. rewrite Hncd in Ei by done. rewrite Ei, T in Et. done.
            * intros T. destruct G2 as [(a & b & G & A1 & A2 & A3)|[G A3]].
              { destruct T as [T|T]; [by left|]. right. intros I. apply T. apply incomplete_split; [done|]. by right. }
              -- left. exists a, b. split; [done|]. split; [lia|]. split; [lia|]. intros p. rewrite HS. apply A3.
              -- right. split; [done|]. intros p. rewrite HS. apply A3.
          + set (g := fun q => [EHit (nl q) l3 u3]).
            assert (Hg : forall q ev, (dlo <= q <= dhi)%Z -> ev ∈ g q -> ev_loc ev = nl q).
            { intros q ev _ ->%elem_of_list_singleton. done. }
            eexists. split; [lia|]. split; [lia|]. split; [done|]. split.
            { intros s. rewrite (for_needles_events g) by (lia || (intros q s' Hq; cbn; by destruct (record_match e (nl q) l3 u3 s'))). reflexivity. }
            split; [exact (fun ev => loop_events_in g dlo dhi ev Hg)|].
            intros q Hq. rewrite loop_events_at by (lia || done). split.
            * intros T [Ei|(c' & Hc' & _)]%incomplete_split; [|lia|done].
              exfalso. rewrite Hncd in Ei by done. rewrite Ei, T in Et. done.
            * intros _. left. exists l3, u3. split; [done|]. split; [lia|]. split; [lia|].
              intros p. replace (ncol - c) with 1 by lia. cbn [sel]. rewrite HRq by done. apply HR3.
        - exists l2, u1.
          assert (Hno : forall q p, (dlo <= q <= dhi)%Z -> in_range hlo hhi p -> ~ Cond c (nl q) p).
          { intros q p Hq Hp Hcp. apply HCq in Hcp; [|done]. apply HC in Hcp; [|done]. unfold in_range in Hcp. lia. }
          destruct ((c <? ncol - 1) && tracks_incomplete inc) eqn:Ef.
          + apply andb_prop in Ef as [Ef1 Ef2]. apply Nat.ltb_lt in Ef1.
            set (fut := fun q => match future_incomplete (e_needles_complete e) c (nl q) with Ok true => true | _ => false end).
            assert (Hfut : forall q, (dlo <= q <= dhi)%Z -> future_incomplete (e_needles_complete e) c (nl q) = Ok (fut q) /\
              (fut q = true <-> incomplete_from ncol nc (S c) (nl q))).
            { intros q Hq. destruct (future_ok c q Hc ltac:(lia)) as (b & E & Hb). unfold fut. rewrite E. by destruct b. }
            set (g := fun q => if fut q then [EInc (nl q)] else []).
            assert (Hg : forall q ev, (dlo <= q <= dhi)%Z -> ev ∈ g q -> ev_loc ev = nl q).
            { intros q ev _. unfold g. destruct (fut q); [by intros ->%elem_of_list_singleton|by intros ?%elem_of_nil]. }
            eexists. split; [lia|]. split; [lia|]. split; [done|]. split.
            { intros s. rewrite (for_needles_events g) by (lia || (intros q s' Hq; destruct (Hfut q Hq) as [-> _]; cbn [bind]; unfold g;
                destruct (fut q); cbn; [by destruct (signal_incomplete (nl q) s')|done])). reflexivity. }
            split; [exact (fun ev => loop_events_in g dlo dhi ev Hg)|].
            intros q Hq. rewrite loop_events_at by (lia || done). destruct (Hfut q Hq) as [_ Hq2]. unfold g. split.
            * intros T [Ei|I]%incomplete_split; [| |done].
              -- exfalso. rewrite Hncd in Ei by done. rewrite Ei, T in Et. done.
              -- left. apply Hq2 in I. by rewrite I.
            * intros [T|T]; [congruence|]. right. split.
              -- destruct (fut q); [|done]. exfalso. apply T. apply incomplete_split; [done|]. right. by apply Hq2.
              -- apply sel_none; [lia|]. intros p. by apply Hno.
          + exists []. split; [lia|]. split; [lia|]. split; [done|]. split; [done|]. split; [intros ev Hev; by apply elem_of_nil in Hev|].
            intros q Hq. split.
            * intros T I. exfalso. rewrite T, andb_true_r in Ef. apply Nat.ltb_ge in Ef. apply incomplete_split in I as [Ei|(c' & Hc' & _)]; [|lia|done].
              rewrite Hncd in Ei by done. rewrite Ei, T in Et. done.
            * intros _. right. split; [done|]. apply sel_none; [lia|]. intros p. by apply Hno. }
      destruct HM as (l3 & u3 & evm & B4 & B5 & Heq3 & M1 & M2 & M3).
      destruct B0 as (A1 & A2 & A3 & A4).
      set (eq := mop_eqb (op c) OPS_eq).
      assert (Heqt : eq = true -> op c = OPS_eq) by (unfold eq; by destruct (op c)).
      assert (Hcs : forall q p, eq = true -> Cond c (nl q) p -> hv c p = nv c (nl q)).
      { intros q p Eq Hcp. apply cond_const; [done| |done]. fold eq. rewrite Eq. apply orb_true_r. }
      destruct (HL (negb eq || (hlo <? l3)%Z) (if eq then l3 - 1 else hhi)%Z) as (evl & L1 & L2 & L3).
      { intros _. destruct eq; cbn [negb orb]; [|lia]. intros ?%Z.ltb_lt. lia. }
      { intros _. destruct eq; cbn [negb orb]; [|lia]. intros ?%Z.ltb_lt. lia. }
      { intros q p Hq Hb Hp Hcp. destruct eq eqn:Eq; [|unfold in_range in Hp; lia]. pose proof (Hcs q p eq_refl Hcp) as Ev. pose proof (Hlhs q Hq).
        destruct (Heq3 (Heqt eq_refl)) as [-> _]. pose proof (A4 p Hp) as [HA _]. cbn beta in *. lia. }
      { intros Hb. destruct eq eqn:Eq; [|done]. cbn [negb orb] in Hb. apply Z.ltb_ge in Hb. split; [by apply Heqt|].
        intros q p Hq Hp Hcp. pose proof (Hcs q p eq_refl Hcp) as Ev. pose proof (Hlhs q Hq).
        destruct (Heq3 (Heqt eq_refl)) as [-> _]. pose proof (A4 p Hp) as [HA _]. unfold in_range in Hp. cbn beta in *. lia. }
      destruct (HRr (negb eq || (u3 <? hhi)%Z) (if eq then u3 + 1 else hlo)%Z) as (evr & R1 & R2 & R3).
      { intros _. destruct eq; cbn [negb orb]; [|lia]. intros ?%Z.ltb_lt. lia. }
      { intros _. destruct eq; cbn [negb orb]; [|lia]. intros ?%Z.ltb_lt. lia. }
      { intros q p Hq Hb Hp Hcp. destruct eq eqn:Eq; [|unfold in_range in Hp; lia]. pose proof (Hcs q p eq_refl Hcp) as Ev. pose proof (Hrhs q Hq).
        destruct (Heq3 (Heqt eq_refl)) as [_ ->]. pose proof (A4 p Hp) as [_ HA]. cbn beta in *. lia. }
      { intros Hb. destruct eq eqn:Eq; [|done]. cbn [negb orb] in Hb. apply Z.ltb_ge in Hb. split; [by apply Heqt|].
        intros q p Hq Hp Hcp. pose proof (Hcs q p eq_refl Hcp) as Ev. pose proof (Hrhs q Hq).
        destruct (Heq3 (Heqt eq_refl)) as [_ ->]. pose proof (A4 p Hp) as [_ HA]. unfold in_range in Hp. cbn beta in *. lia. }
      exists (evm ++ evl ++ evr). split; [|by apply (Hjoin evm evl evr)].
      apply Hfin. intros s. cbn [df_locate_matches_recurse]. fold mid.
      rewrite Ro. cbn [bind]. rewrite Rfl. cbn [bind]. rewrite Rn. cbn [bind]. rewrite Rnc. cbn [bind]. rewrite Rh. cbn [bind].
      rewrite Rhc. cbn [bind]. rewrite Rval. cbn [bind]. rewrite Rcomp. cbn [bind]. rewrite Edlo. cbn [bind]. rewrite Edhi. cbn [bind].
      rewrite Ec0, Et, E0. cbn [bind]. rewrite E1. rewrite E2. cbn [bind]. rewrite M1.
      destruct (apply_events e evm s) as [s1|x|x]; cbn [bind]; [|done|done]. fold eq.
      rewrite L1. destruct (apply_events e evl s1) as [s2|x|x]; cbn [bind]; [|done|done]. apply R1.
  Qed.
End rec.
