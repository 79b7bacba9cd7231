(** * Lemmas: from ranks of the columns to events *)
From Verif Require Import Base M_Double M_Scalar M_Slice M_Object M_Proxy M_OrderChr M_OrderDf M_Rank M_Match Spec_Order Spec_OrderRow Spec_Match L_Unique L_OrderSpec P_Order P_Rank.
From Verif Require Import L_MatchSearch L_MatchJoint L_MatchKeys L_MatchCont L_MatchRec L_MatchLocate L_MatchStable.
From Coq Require Import Sorting.Sorted.
#[local] Arguments Z.mul : simpl never.
#[local] Arguments Z.add : simpl never.
#[local] Arguments Z.sub : simpl never.
#[local] Arguments Z.to_nat : simpl never.
#[local] Arguments Z.of_nat : simpl never.

(** ** The location (from 0) at a place of an order *)
Definition loc_of (o : list Z) (p : Z) : Z := (at_loc 1 o (p + 1) - 1)%Z.
Section place.
  Context (o : list Z) (n : nat) (P : o ≡ₚ locs n).
  Lemma place_length : length o = n.
  Proof. rewrite P. apply P_Rank.locs_length. Qed.
  Lemma place_lookup p : (0 <= p < Z.of_nat n)%Z -> o !! Z.to_nat p = Some (loc_of o p + 1)%Z.
  Proof.
    intros Hp. pose proof place_length as L. destruct (lookup_lt_is_Some_2 o (Z.to_nat p)) as [v Hv]; [lia|].
    unfold loc_of, at_loc. rewrite Z.add_simpl_r, (nth_lookup_Some _ _ _ _ Hv), Hv. f_equal. lia.
  Qed.
  Lemma place_rd p : (0 <= p < Z.of_nat n)%Z -> rdZ o p = Ok (loc_of o p + 1)%Z.
  Proof. intros Hp. unfold rdZ. rewrite (proj2 (Z.ltb_ge p 0)) by lia. apply rd_Ok. by apply place_lookup. Qed.
  Lemma place_range p : (0 <= p < Z.of_nat n)%Z -> (0 <= loc_of o p < Z.of_nat n)%Z.
  Proof.
    intros Hp. pose proof (place_lookup p Hp) as E. apply elem_of_list_lookup_2 in E. apply (elem_of_Permutation_proper _ _ _ P), elem_locs in E. lia.
  Qed.
  Lemma place_nodup : NoDup o.
  Proof. rewrite P. apply (ss_nodup Z.lt); [intros x; lia|apply locs_sorted]. Qed.
  Lemma place_inj p q : (0 <= p < Z.of_nat n)%Z -> (0 <= q < Z.of_nat n)%Z -> loc_of o p = loc_of o q -> p = q.
  Proof.
    intros Hp Hq E. pose proof (place_lookup p Hp) as Ep. pose proof (place_lookup q Hq) as Eq. rewrite <- E in Eq.
    pose proof (NoDup_lookup _ _ _ _ place_nodup Ep Eq). lia.
  Qed.
  Lemma place_surj l : (0 <= l < Z.of_nat n)%Z -> exists p, (0 <= p < Z.of_nat n)%Z /\ loc_of o p = l.
  Proof.
    intros Hl. assert ((l + 1)%Z ∈ o) as Hin by (apply (elem_of_Permutation_proper _ _ _ P), elem_locs; lia). apply elem_of_list_lookup in Hin as [i Hi].
    pose proof (lookup_lt_Some _ _ _ Hi) as Hlt. rewrite place_length in Hlt. exists (Z.of_nat i). split; [lia|].
    pose proof (place_lookup (Z.of_nat i) ltac:(lia)) as E. rewrite Nat2Z.id, Hi in E. injection E. lia.
  Qed.
  Lemma place_sorted R p q : StronglySorted R o -> (0 <= p)%Z -> (p < q)%Z -> (q < Z.of_nat n)%Z -> R (loc_of o p + 1)%Z (loc_of o q + 1)%Z.
  Proof.
    intros S Hp Hpq Hq. eapply (ss_lookup R o (Z.to_nat p) (Z.to_nat q)); [done|lia| |]; apply place_lookup; lia.
  Qed.
End place.

(** ** Columns of ranks *)
Definition colv (cols : list (list Z)) (c : nat) (l : Z) : Z := at_loc 0%Z (nth c cols []) (l + 1).
Lemma colv_lookup cols c x l : cols !! c = Some x -> colv cols c l = at_loc 0%Z x (l + 1).
Proof. intros E. unfold colv. by rewrite (nth_lookup_Some _ _ _ _ E). Qed.

Record rank_input (ns hs ncm hcm : list (list Z)) (N H : nat) (fs : list mfilter) (ops : list mop)
    (nc hd : nat -> Z -> bool) : Prop := RankInput {
  ri_ns : int_cols N ns; ri_hs : int_cols H hs;
  ri_lh : length hs = length ns; ri_ln : length ncm = length ns; ri_lc : length hcm = length ns;
  ri_lf : length fs = length ns; ri_lo : length ops = length ns; ri_col : 0 < length ns;
  ri_nc : forall c x l, ncm !! c = Some x -> (0 <= l < Z.of_nat N)%Z -> rdZ x l = Ok (b2i (nc c l));
  ri_hc : forall c x l, hcm !! c = Some x -> (0 <= l < Z.of_nat H)%Z -> rdZ x l = Ok (b2i (hd c l));
  ri_cn : forall c l k, c < length ns -> (0 <= l < Z.of_nat N)%Z -> (0 <= k < Z.of_nat N)%Z -> colv ns c l = colv ns c k -> nc c l = nc c k;
  ri_cx : forall c l k, c < length ns -> (0 <= l < Z.of_nat N)%Z -> (0 <= k < Z.of_nat H)%Z -> colv ns c l = colv hs c k -> nc c l = hd c k;
  ri_sx : forall c l k, c < length ns -> nth c ops OPS_eq <> OPS_eq -> (0 <= l < Z.of_nat N)%Z -> (0 <= k < Z.of_nat H)%Z ->
    nc c l = true -> hd c k = false -> (colv hs c k < colv ns c l)%Z;
  ri_sh : forall c l k, c < length ns -> nth c ops OPS_eq <> OPS_eq -> (0 <= l < Z.of_nat H)%Z -> (0 <= k < Z.of_nat H)%Z ->
    hd c l = false -> hd c k = true -> (colv hs c l < colv hs c k)%Z }.

Section env.
  Context (fuel : nat) (ns hs ncm hcm : list (list Z)) (N H : nat) (opts : mopts) (fs : list mfilter) (ops : list mop) (tls : truelengths).
  Context (nc hd : nat -> Z -> bool) (RI : rank_input ns hs ncm hcm N H fs ops nc hd).
  Context (HN : (Z.of_nat N <= INT_MAX)%Z) (HH : (Z.of_nat H <= INT_MAX)%Z) (HT : forall s, (0 <= tls s)%Z) (HF : length ns <= fuel) (HF2 : 2 <= fuel).
  Notation ncol := (length ns).
  Notation op := (fun c => nth c ops OPS_eq).
  Notation fl := (fun c => nth c fs FILTER_none).
  Definition the_env (on oh : list Z) : menv := ME ns hs ncm hcm on oh (o_incomplete opts) (o_multiple opts) fs ops.

  Lemma rd_colv cols M o c x p : int_cols M cols -> o ≡ₚ locs M -> cols !! c = Some x -> (0 <= p < Z.of_nat M)%Z ->
    rd_o x o p = Ok (colv cols c (loc_of o p)).
  Proof.
    intros I P Hx Hp. unfold rd_o. rewrite (place_rd o M P p Hp). cbn [bind]. pose proof (place_range o M P p Hp).
    destruct (proj1 (Forall_lookup _ _) I _ _ Hx) as [Lx _]. rewrite (colv_lookup _ _ _ _ Hx). apply rdZ_at_loc. lia.
  Qed.
  Lemma rd_flag M (t : list (list Z)) (f : nat -> Z -> bool) o c x p : (forall c x l, t !! c = Some x -> (0 <= l < Z.of_nat M)%Z -> rdZ x l = Ok (b2i (f c l))) ->
    o ≡ₚ locs M -> t !! c = Some x -> (0 <= p < Z.of_nat M)%Z -> rd_o x o p = Ok (b2i (f c (loc_of o p))).
  Proof.
    intros HR P Hx Hp. unfold rd_o. rewrite (place_rd o M P p Hp). cbn [bind]. rewrite Z.add_simpl_r. apply (HR c); [done|]. by apply (place_range o M P).
  Qed.

  Lemma the_env_ok on oh : on ≡ₚ locs N -> oh ≡ₚ locs H ->
    env_ok (the_env on oh) ncol (Z.of_nat N) (Z.of_nat H) op fl (loc_of on) (loc_of oh) (colv ns) nc (colv hs) hd (first_other ops).
  Proof.
    intros Pn Ph. destruct RI. constructor; cbn [the_env e_needles e_haystack e_needles_complete e_haystack_complete e_o_needles e_o_haystack e_ops e_filters].
    - split; [done|]. intros c x Hx p Hp. by eapply rd_colv.
    - split; [done|]. intros c x Hx p Hp. by eapply (rd_flag N ncm nc).
    - split; [done|]. intros c x Hx p Hp. by eapply rd_colv.
    - split; [done|]. intros c x Hx p Hp. by eapply (rd_flag H hcm hd).
    - apply (place_rd on N Pn).
    - intros c x q Hx Hq. apply ri_nc0; [done|]. by apply (place_range on N Pn).
    - intros p q. apply (place_inj on N Pn).
    - split; [done|]. intros c o Ho. by rewrite (nth_lookup_Some _ _ _ _ Ho).
    - split; [done|]. intros c o Ho. by rewrite (nth_lookup_Some _ _ _ _ Ho).
    - intros c p q Hc Hp Hq. apply ri_cn0; [done|by apply (place_range on N Pn)..].
    - intros c p q Hc Hp Hq. apply ri_cx0; [done|by apply (place_range on N Pn)|by apply (place_range oh H Ph)].
    - intros c p q Hc Ho Hp Hq. apply ri_sx0; [done|done|by apply (place_range on N Pn)|by apply (place_range oh H Ph)].
    - intros c p q Hc Ho Hp Hq. apply ri_sh0; [done|done|by apply (place_range oh H Ph)..].
    - intros c Hc Hlt. pose proof (first_non_equi_spec ops) as FS. unfold first_other in Hc.
      destruct (lookup_lt_is_Some_2 ops c) as [o Ho]; [lia|]. rewrite (nth_lookup_Some _ _ _ _ Ho).
      destruct (first_non_equi ops) as [f|]; [|by apply (FS c)]. destruct FS as (_ & _ & FS). by apply (FS c o).
  Qed.

  (** What the search gets and finds. *)
  Lemma events_exist : exists on oh ids cn any (g : Z -> Z) evs,
    ints_order fuel ns N tls = Ok on /\ compute_nesting_container_info fuel hs H ops tls = Ok (oh, ids, cn, any) /\
    any = (if first_non_equi ops then true else false) /\ oh ≡ₚ locs H /\ 1 <= cn /\
    (any = false -> cn = 1 /\ forall p q, (0 <= p)%Z -> (p < q)%Z -> (q < Z.of_nat H)%Z ->
      lexcmp hs (loc_of oh p + 1) (loc_of oh q + 1) = Eq -> (loc_of oh p < loc_of oh q)%Z) /\
    (forall p, (0 <= p < Z.of_nat H)%Z -> (0 <= g p < Z.of_nat cn)%Z) /\
    (forall p q, (0 <= p)%Z -> (p <= q)%Z -> (q < Z.of_nat H)%Z -> (g p <= g q)%Z) /\
    (forall s, (if N =? 0 then Ok s else
       if cn =? 1 then df_locate_matches_recurse (length ns + N) (the_env on oh) 0 0 (Z.of_nat N - 1) 0 (Z.of_nat H - 1) s
       else df_locate_matches_with_containers (length ns + N) (the_env on oh) cn ids 0 (Z.of_nat N - 1) 0 (Z.of_nat H - 1) s) = apply_events (the_env on oh) evs s) /\
    (forall ev, ev ∈ evs -> (0 <= ev_loc ev < Z.of_nat N)%Z) /\
    forall l, (0 <= l < Z.of_nat N)%Z ->
      by_container (the_env on oh) ncol (Z.of_nat H) op fl (loc_of oh) (colv ns) nc (colv hs) hd cn g l (at_needle l evs).
  Proof.
    pose proof RI as [Ins Ihs Lh Ln Lc Lf Lo Hcol _ _ _ _ _ _].
    destruct (ints_order_ok fuel N ns tls Ins HN HT HF) as (on & En & [Pn Sn]).
    destruct (container_info_ok fuel hs H ops tls Ihs ltac:(lia) HH HT ltac:(lia) HF2) as (oh & ids & cn & any & Eh & Ea & Hcn & Ph & Hany & idf & Hr & Hid & Sh).
    set (g := fun p => idf (loc_of oh p + 1)%Z).
    assert (G1 : forall p, (0 <= p < Z.of_nat H)%Z -> (0 <= g p < Z.of_nat cn)%Z).
    { intros p Hp. apply Hr. pose proof (place_range oh H Ph p Hp). lia. }
    assert (G2 : forall p q, (0 <= p)%Z -> (p <= q)%Z -> (q < Z.of_nat H)%Z -> (g p <= g q)%Z).
    { intros p q Hp Hpq Hq. destruct (decide (p = q)) as [->|]; [lia|]. apply (place_sorted oh H Ph _ p q Sh); lia. }
    exists on, oh, ids, cn, any, g.
    assert (X : exists evs, (forall s, (if N =? 0 then Ok s else
       if cn =? 1 then df_locate_matches_recurse (length ns + N) (the_env on oh) 0 0 (Z.of_nat N - 1) 0 (Z.of_nat H - 1) s
       else df_locate_matches_with_containers (length ns + N) (the_env on oh) cn ids 0 (Z.of_nat N - 1) 0 (Z.of_nat H - 1) s) = apply_events (the_env on oh) evs s) /\
      (forall ev, ev ∈ evs -> (0 <= ev_loc ev < Z.of_nat N)%Z) /\
      forall l, (0 <= l < Z.of_nat N)%Z ->
        by_container (the_env on oh) ncol (Z.of_nat H) op fl (loc_of oh) (colv ns) nc (colv hs) hd cn g l (at_needle l evs)).
    { destruct (Nat.eqb_spec N 0) as [E0|N0].
      { exists []. split; [done|]. split; [intros ev Hev; by apply elem_of_nil in Hev|]. intros; lia. }
      destruct (locate_ok (the_env on oh) ncol (Z.of_nat N) (Z.of_nat H) op fl (loc_of on) (loc_of oh) (colv ns) nc (colv hs) hd (first_other ops)
        (the_env_ok on oh Pn Ph) Hcol ltac:(lia) ltac:(lia)) with (cn := cn) (g := g) (ids := ids) (fuel := length ns + N) as (evs & E & Hev & HB).
      - intros p q c' Hp Hpq Hq Hc' Hag. destruct (decide (p = q)) as [->|]; [lia|].
        pose proof (place_sorted on N Pn _ p q Sn ltac:(lia) ltac:(lia) ltac:(lia)) as HR. cbv beta in HR.
        destruct (lookup_lt_is_Some_2 ns c') as [x Hx]; [lia|]. rewrite !(colv_lookup _ _ _ _ Hx).
        eapply (lexcmp_le ns); [by destruct HR as [->|[-> _]]|exact Hx|].
        intros d y Hd Hy. specialize (Hag d ltac:(lia)). by rewrite !(colv_lookup _ _ _ _ Hy) in Hag.
      - done.
      - done.
      - intros lo hi Hlo Hhi Heq p q c' Hp Hpq Hq Hc' Hag. destruct (decide (p = q)) as [->|]; [lia|].
        pose proof (place_sorted oh H Ph _ p q Sh ltac:(lia) ltac:(lia) ltac:(lia)) as [_ HR].
        destruct (lookup_lt_is_Some_2 hs c') as [x Hx]; [lia|]. rewrite !(colv_lookup _ _ _ _ Hx).
        apply (HR (Heq p q ltac:(lia) ltac:(lia)) c' x Hx). intros d y Hd Hdf Hy. specialize (Hag d ltac:(lia) Hdf). cbv beta in Hag.
        by rewrite !(colv_lookup _ _ _ _ Hy) in Hag.
      - intros Hne p Hp. destruct (Hid Hne) as [Li Hat]. unfold rd_o. cbn [the_env e_o_haystack]. rewrite (place_rd oh H Ph p) by lia. cbn [bind].
        pose proof (place_range oh H Ph p ltac:(lia)). rewrite (rdZ_at_loc 0%Z) by lia. unfold g. rewrite Hat by lia. done.
      - lia.
      - exists evs. split; [exact E|]. split.
        + intros ev H1. destruct (Hev ev H1) as (q & Hq & ->). by apply (place_range on N Pn).
        + intros l Hl. destruct (place_surj on N Pn l Hl) as (q & Hq & <-). by apply HB. }
    destruct X as (evs & X1 & X2 & X3). exists evs. split; [done|]. split; [done|]. split; [done|]. split; [done|]. split; [done|]. split.
    { intros Hf. destruct (Hany Hf) as [[_ SS] ->]. split; [done|]. intros p q Hp Hpq Hq Eq.
      pose proof (place_sorted oh H Ph _ p q SS Hp Hpq Hq) as HR. cbv beta in HR. rewrite Eq in HR. destruct HR as [HR|[_ HR]]; [done|lia]. }
    split; [done|]. split; [done|]. split; [done|]. split; done.
  Qed.
End env.
