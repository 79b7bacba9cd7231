(** * C31, C33: interval groups and containers *)
From Verif Require Import Base M_Double M_Scalar M_Object M_Proxy M_OrderChr M_OrderDf M_Rank M_Interval.
From Verif Require Import Spec_Order Spec_OrderRow Spec_Interval L_OrderSpec L_Interval L_IntervalRow L_IntervalLoop P_Order P_Rank.
From Coq Require Import Sorting.Sorted.
#[local] Arguments Z.mul : simpl never.
#[local] Arguments Z.add : simpl never.
#[local] Arguments Z.sub : simpl never.
#[local] Arguments Z.to_nat : simpl never.
#[local] Arguments Z.of_nat : simpl never.

Lemma copy_mid (pre mid post : list Z) : copy_order (pre ++ mid ++ post) (Z.of_nat (length pre)) (Z.of_nat (length mid)) = Ok mid.
Proof.
  unfold copy_order. destruct (Z.ltb_spec (Z.of_nat (length pre)) 0); [lia|]. destruct (Z.ltb_spec (Z.of_nat (length mid)) 0); [lia|].
  destruct (Z.ltb_spec (Z.of_nat (length (pre ++ mid ++ post))) (Z.of_nat (length pre) + Z.of_nat (length mid))); [rewrite !app_length in *; lia|].
  cbn. rewrite !Nat2Z.id, drop_app, take_app. done.
Qed.

(** The groups [gs], then the missing group, as returned. *)
Definition out_groups (drop locations : bool) (ms : list Z) (gs : list (Z * Z * list Z)) (r : list Z * list Z * list (list Z)) : Prop :=
  let all := gs ++ (if drop then [] else match ms with [] => [] | a :: _ => [(a, List.last ms a, ms)] end) in
  r = (map (fun g => g.1.1) all, map (fun g => g.1.2) all, if locations then map snd all else []).

Section groups.
  Context (s e : oproxy) (tls : truelengths) (H : interval_input s e tls).
  Let n := oproxy_size s.
  Notation S' := (point_at s). Notation E' := (point_at e).
  Notation T := row_vcmp_tpo.
  Context (us : list Z) (P : us ≡ₚ usable_locs s)
    (SS : StronglySorted (fun a b => icmp s e false a b = Lt \/ (icmp s e false a b = Eq /\ (a < b)%Z)) us).
  Context (abutting locations : bool).
  Let ms := missing_locs s.
  Let order := ms ++ us.

  Lemma lens : length ms + length us = n.
  Proof.
    rewrite P. unfold ms, missing_locs, usable_locs. fold n. transitivity (length (locs n)); [|apply locs_length].
    induction (locs n) as [|a l IH]; [done|]. cbn. destruct (missing_at s a); cbn; lia.
  Qed.
  Lemma icmp_le d a b : icmp s e d a b = Lt \/ icmp s e d a b = Eq -> vle row_vcmp (S' a) (S' b).
  Proof. unfold icmp, vle. intros [Hl|Hl] Hg; rewrite Hg in Hl; done. Qed.
  Lemma us_le i j a b : i < j -> us !! i = Some a -> us !! j = Some b -> vle row_vcmp (S' a) (S' b).
  Proof. intros Hij Ha Hb. apply (icmp_le false). pose proof (ss_lookup _ _ i j a b SS Hij Ha Hb) as [?|[? _]]; tauto. Qed.

  Notation gok gs := (Forall (is_group row_vcmp S' E' abutting) gs /\
    StronglySorted (fun g h => apart row_vcmp abutting (E' g.1.2) (S' h.1.1)) gs).
  Notation st_of gs a b i :=
    (GState (Z.of_nat (length ms + length (concat (map snd gs)))) (Z.of_nat i - 1) (a - 1) (b - 1)
      (map (fun g : Z * Z * list Z => g.1.1) gs) (map (fun g : Z * Z * list Z => g.1.2) gs) (if locations then map snd gs else [])).
  Lemma push_ok gs a b mem rest i : us = concat (map snd gs) ++ mem ++ rest ->
    i = length ms + length (concat (map snd gs)) + length mem ->
    push_group locations order (Z.of_nat (length ms + length (concat (map snd gs)))) (Z.of_nat i - 1) (a - 1) (b - 1) (st_of gs a b i) =
    Ok (GState (Z.of_nat (length ms + length (concat (map snd gs)))) (Z.of_nat i - 1) (a - 1) (b - 1)
      (map (fun g : Z * Z * list Z => g.1.1) (gs ++ [(a, b, mem)])) (map (fun g : Z * Z * list Z => g.1.2) (gs ++ [(a, b, mem)]))
      (if locations then map snd (gs ++ [(a, b, mem)]) else [])).
  Proof.
    intros Hus ->. unfold push_group. cbn [g_order_start g_order_end g_start g_end g_loc_start g_loc_end g_loc]. rewrite !map_app. cbn [map].
    replace (a - 1 + 1)%Z with a by lia. replace (b - 1 + 1)%Z with b by lia. destruct locations; [|done].
    assert (Ho : order = (ms ++ concat (map snd gs)) ++ mem ++ rest) by (unfold order; by rewrite Hus, <- app_assoc).
    rewrite Ho, <- (app_length ms).
    replace (Z.of_nat (length (ms ++ concat (map snd gs)) + length mem) - 1 - Z.of_nat (length (ms ++ concat (map snd gs))) + 1)%Z
      with (Z.of_nat (length mem)) by lia.
    rewrite copy_mid. done.
  Qed.

  Lemma group_loop x us' : us = x :: us' ->
    exists gs a b mem, gok (gs ++ [(a, b, mem)]) /\ concat (map snd gs) ++ mem = us /\
    for_ (Datatypes.S (length ms)) (n - Datatypes.S (length ms)) (fun i (st : gstate) =>
      let! o := rd order i in
      let loc := (o - 1)%Z in
      let! c := fn_compare e (g_end st) s loc in
      let! st :=
        if (c <=? (if abutting then -1 else 0))%Z then
          let! st := push_group locations order (g_order_start st) (g_order_end st) (g_start st) (g_end st) st in
          Ok (GState (g_order_end st + 1) (g_order_end st) loc loc (g_loc_start st) (g_loc_end st) (g_loc st))
        else
          let! c := fn_compare e (g_end st) e loc in
          if (c =? -1)%Z then
            Ok (GState (g_order_start st) (g_order_end st) (g_start st) loc (g_loc_start st) (g_loc_end st) (g_loc st))
          else Ok st in
      Ok (GState (g_order_start st) (Z.of_nat i) (g_start st) (g_end st) (g_loc_start st) (g_loc_end st) (g_loc st)))
      (GState (Z.of_nat (length ms)) (Z.of_nat (length ms)) (x - 1) (x - 1) [] [] []) = Ok (st_of gs a b n).
  Proof.
    intros Hus. pose proof lens as Hl. assert (Hl' : length us = Datatypes.S (length us')) by (by rewrite Hus).
    edestruct (for_inv (fun i (st : gstate) => exists gs a b mem, gok (gs ++ [(a, b, mem)]) /\
      concat (map snd gs) ++ mem = take (i - length ms) us /\ st = st_of gs a b i) (Datatypes.S (length ms)) (n - Datatypes.S (length ms)))
      as (st & E & gs & a & b & mem & G & Hc & ->); [| |exists gs, a, b, mem; split; [exact G|]; split;
        [rewrite Hc; apply take_ge; lia|rewrite E; do 2 f_equal; lia]].
    - exists [], x, x, [x]. split; [|split].
      + split; [constructor; [apply group_one, T|constructor]|repeat constructor].
      + replace (Datatypes.S (length ms) - length ms) with 1 by lia. by rewrite Hus.
      + cbn [map concat length]. f_equal; try lia. by destruct locations.
    - intros i st Hi (gs & a & b & mem & G & Hc & ->).
      destruct (lookup_lt_is_Some_2 us (i - length ms)) as [y Hy]; [lia|].
      assert (rd order i = Ok y) as -> by (apply rd_Ok; unfold order; by rewrite lookup_app_r by lia). cbn [bind].
      cbn [g_order_start g_order_end g_start g_end g_loc_start g_loc_end g_loc].
      assert (Hg : is_group row_vcmp S' E' abutting (a, b, mem)).
      { destruct G as [G _]. apply Forall_app in G as [_ G]. by apply Forall_cons in G as [G _]. }
      destruct Hg as (Ha & Hb & _).
      assert (Hpre : forall z, z ∈ mem -> z ∈ take (i - length ms) us) by (intros z Hz; rewrite <- Hc; apply elem_of_app; by right).
      assert (Hin : forall z, z ∈ take (i - length ms) us -> z ∈ usable_locs s).
      { intros z Hz. rewrite <- P. rewrite <- (take_drop (i - length ms) us). apply elem_of_app. by left. }
      assert (Hyu : y ∈ usable_locs s) by (rewrite <- P; by eapply elem_of_list_lookup_2).
      assert (Hay : vle row_vcmp (S' a) (S' y)).
      { apply Hpre in Ha. apply elem_of_list_lookup in Ha as [j Hj]. pose proof (lookup_lt_Some _ _ _ Hj) as Hlt. rewrite take_length in Hlt.
        rewrite lookup_take in Hj by lia. apply (us_le j (i - length ms)); [lia|done|done]. }
      rewrite (cmp_es s e tls H b y) by auto. cbn [bind].
      assert (Hrest : us = concat (map snd gs) ++ mem ++ drop (i - length ms) us) by (rewrite app_assoc, Hc; by rewrite take_drop).
      assert (Hlen : length (concat (map snd gs)) + length mem = i - length ms) by (rewrite <- app_length, Hc, take_length; lia).
      assert (Htake : take (Datatypes.S i - length ms) us = take (i - length ms) us ++ [y]).
      { replace (Datatypes.S i - length ms) with (Datatypes.S (i - length ms)) by lia. by apply take_S_r. }
      destruct (_ <=? _)%Z eqn:Ecmp.
      + apply apart_cmp in Ecmp.
        rewrite (push_ok gs a b mem (drop (i - length ms) us) i Hrest) by lia. cbn [bind g_order_start g_order_end g_start g_end g_loc_start g_loc_end g_loc].
        eexists. split; [reflexivity|]. exists (gs ++ [(a, b, mem)]), y, y, [y]. split; [|split].
        * by apply (gok_close row_vcmp T).
        * rewrite Htake, <- Hc, map_app, concat_app. cbn. by rewrite app_nil_r.
        * rewrite !map_app, concat_app. cbn [map concat snd]. rewrite app_nil_r, app_length. f_equal; lia.
      + assert (Hn : ~ apart row_vcmp abutting (E' b) (S' y)) by (intros Hx; apply (apart_cmp row_vcmp) in Hx; congruence).
        rewrite (cmp_ee s e tls H b y) by auto. cbn [bind].
        pose proof (gok_extend row_vcmp T S' E' abutting gs a b mem y G Hn Hay) as G'.
        assert (Hc' : concat (map snd gs) ++ mem ++ [y] = take (Datatypes.S i - length ms) us) by (by rewrite Htake, app_assoc, Hc).
        destruct (_ =? _)%Z; eexists; (split; [reflexivity|]); eexists gs, a, _, (mem ++ [y]); (split; [exact G'|]); (split; [exact Hc'|]);
          cbn [g_order_start g_order_end g_start g_end g_loc_start g_loc_end g_loc]; f_equal; lia.
  Qed.
End groups.

Lemma last_lookup (l : list Z) a : l <> [] -> rdZ l (Z.of_nat (length l) - 1) = Ok (List.last l a).
Proof.
  intros Hne. unfold rdZ. destruct l as [|b l]; [done|]. destruct (Z.ltb_spec (Z.of_nat (length (b :: l)) - 1) 0); [cbn [length] in *; lia|].
  apply rd_Ok. replace (Z.to_nat (Z.of_nat (length (b :: l)) - 1)) with (length l) by (cbn [length]; lia). clear.
  revert b. induction l as [|c l IH]; intros b; [done|]. cbn [length]. change (List.last (b :: c :: l) a) with (List.last (c :: l) a). apply (IH c).
Qed.

(** C31.  For valid intervals the function succeeds.  Its groups are a partition
    of the intervals which are not missing, in the order of the intervals;
    they are as small as possible, could not be cut, and are apart from each
    other.  All missing intervals are the last group, or are dropped. *)
Theorem C31_groups fuel s e abutting drop locations tls :
  interval_input s e tls -> length (proxy_cols s ++ proxy_cols e) <= fuel ->
  exists gs r, vec_interval_group_info fuel s e abutting drop locations tls = Ok r /\
    out_groups drop locations (missing_locs s) gs r /\
    are_groups row_vcmp (point_at s) (point_at e) abutting (usable_locs s) gs /\
    StronglySorted (fun a b => icmp s e false a b = Lt \/ (icmp s e false a b = Eq /\ (a < b)%Z)) (concat (map snd gs)).
Proof.
  intros H Hf. destruct (interval_order_ok s e tls H fuel false Hf) as (us & Eo & P & SS).
  set (ms := missing_locs s). set (n := oproxy_size s). pose proof (lens s us P) as Hl. fold n ms in Hl.
  assert (Hgs : exists gs st, concat (map snd gs) = us /\ are_groups row_vcmp (point_at s) (point_at e) abutting (usable_locs s) gs /\
    g_loc_start st = map (fun g => g.1.1) gs /\ g_loc_end st = map (fun g => g.1.2) gs /\ g_loc st = (if locations then map snd gs else []) /\
    vec_interval_group_info fuel s e abutting drop locations tls =
      (let! st := if negb drop && (0 <=? Z.of_nat (length ms) - 1)%Z then
          let! a := rdZ (ms ++ us) 0 in
          let! b := rdZ (ms ++ us) (Z.of_nat (length ms) - 1) in
          push_group locations (ms ++ us) 0 (Z.of_nat (length ms) - 1) (a - 1) (b - 1) st
        else Ok st in
      Ok (g_loc_start st, g_loc_end st, g_loc st))).
  { unfold vec_interval_group_info. pose proof H as ((Hsz & _) & _). fold n. rewrite <- Hsz. fold n. rewrite Nat.eqb_refl. cbn [negb].
    change (interval_order fuel s e [false] [false] n tls = Ok (ms ++ us)) in Eo. rewrite Eo. cbn [bind].
    rewrite (skip_missing s e tls H us (fun k => (Z.of_nat k - 1)%Z) _ (-1)%Z P eq_refl) by (intros; lia). fold ms n. cbn [bind].
    destruct us as [|x us'] eqn:Eus.
    - cbn [length] in Hl. destruct (Nat.ltb_spec (length ms) n); [lia|]. cbn [bind]. replace (n - length ms) with 0 by lia. cbn [for_ bind].
      exists [], (GState 0 (-1) 0 (-1) [] [] []). split; [done|]. split; [split; [exact P|split; constructor]|].
      split; [done|]. split; [done|]. split; [by destruct locations|]. done.
    - destruct (group_loop s e tls H us ltac:(by rewrite Eus) ltac:(by rewrite Eus) abutting locations x us' Eus) as (gs & a & b & mem & G & Hc & El).
      fold ms n in El. cbn [length] in Hl. destruct (Nat.ltb_spec (length ms) n); [|lia].
      assert (rd (ms ++ x :: us') (length ms) = Ok x) as -> by (apply rd_Ok; by rewrite lookup_app_r, Nat.sub_diag by lia). cbn [bind].
      rewrite Eus in El. cbv zeta in El |- *. rewrite El. clear El. cbn [bind g_order_start g_order_end g_start g_end].
      assert (Hlen : length (concat (map snd gs)) + length mem = length us) by (by rewrite <- app_length, Hc).
      assert (Hne : 0 < length mem).
      { destruct G as [G _]. apply Forall_app in G as [_ G]. apply Forall_cons in G as [G _]. destruct G as (Ha & _). destruct mem; [by apply elem_of_nil in Ha|cbn; lia]. }
      rewrite Eus in Hlen. cbn [length] in Hlen.
      destruct (Z.leb_spec (Z.of_nat (length ms + length (concat (map snd gs)))) (Z.of_nat n - 1)); [|lia].
      pose proof (push_ok s us locations gs a b mem [] n) as Ep. fold ms in Ep. rewrite Eus in Ep. rewrite Ep; [|rewrite app_nil_r; congruence|lia]. cbn [bind].
      exists (gs ++ [(a, b, mem)]), (GState (Z.of_nat (length ms + length (concat (map snd gs)))) (Z.of_nat n - 1) (a - 1) (b - 1) (map (fun g => g.1.1) (gs ++ [(a, b, mem)])) (map (fun g => g.1.2) (gs ++ [(a, b, mem)])) (if locations then map snd (gs ++ [(a, b, mem)]) else [])). split; [rewrite map_app, concat_app; cbn; rewrite app_nil_r; congruence|].
      split; [split; [|exact G]|].
      + rewrite map_app, concat_app. cbn. rewrite app_nil_r, Hc, Eus. exact P.
      + split; [reflexivity|]. split; [reflexivity|]. split; [reflexivity|]. done. }
  destruct Hgs as (gs & st & Hc & Hg & E1 & E2 & E3 & ->). exists gs.
  destruct drop; cbn [negb andb].
  { cbn [bind]. eexists. split; [reflexivity|]. split; [|split; [done|by rewrite Hc]]. unfold out_groups. by rewrite app_nil_r, E1, E2, E3. }
  fold ms. destruct ms as [|m ms'] eqn:Ems.
  { cbn [length]. eexists. split; [reflexivity|]. split; [|split; [done|by rewrite Hc]]. unfold out_groups. by rewrite app_nil_r, E1, E2, E3. }
  rewrite <- Ems. assert (Hlm : 1 <= length ms) by (rewrite Ems; cbn; lia).
  destruct (Z.leb_spec 0 (Z.of_nat (length ms) - 1)); [|lia].
  assert (rdZ (ms ++ us) 0 = Ok m) as -> by (by rewrite Ems). cbn [bind].
  assert (rdZ (ms ++ us) (Z.of_nat (length ms) - 1) = Ok (List.last ms m)) as ->.
  { rewrite <- (last_lookup ms m) by (by rewrite Ems). unfold rdZ. destruct (_ <? 0)%Z; [done|]. unfold rd. by rewrite lookup_app_l by lia. }
  cbn [bind]. unfold push_group. rewrite E1, E2, E3.
  replace (m - 1 + 1)%Z with m by lia. replace (List.last ms m - 1 + 1)%Z with (List.last ms m) by lia.
  assert (Hcp : copy_order (ms ++ us) 0 (Z.of_nat (length ms) - 1 - 0 + 1) = Ok ms).
  { replace (Z.of_nat (length ms) - 1 - 0 + 1)%Z with (Z.of_nat (length ms)) by lia. apply (copy_mid [] ms us). }
  rewrite Hcp. cbn [bind]. destruct locations; cbn [bind g_loc_start g_loc_end g_loc]; eexists; (split; [reflexivity|]); (split; [|split; [done|by rewrite Hc]]);
    unfold out_groups; cbv zeta; replace (match ms with [] => [] | a :: _ => [(a, List.last ms a, ms)] end) with [(m, List.last ms m, ms)] by (by rewrite Ems);
    rewrite !map_app; cbn [map snd]; done.
Qed.

(** The groups have exactly the points of the intervals, and no point is in two
    of them. *)
Theorem C31_union fuel s e abutting drop locations tls starts ends loc :
  interval_input s e tls -> length (proxy_cols s ++ proxy_cols e) <= fuel ->
  vec_interval_group_info fuel s e abutting drop locations tls = Ok (starts, ends, loc) ->
  (drop = true \/ missing_locs s = []) ->
  (forall p, covered row_vcmp (point_at s) (point_at e) (usable_locs s) p <->
     exists k a b, starts !! k = Some a /\ ends !! k = Some b /\ within row_vcmp (point_at s a) (point_at e b) p) /\
  (forall p k l a b c d, starts !! k = Some a -> ends !! k = Some b -> starts !! l = Some c -> ends !! l = Some d ->
     within row_vcmp (point_at s a) (point_at e b) p -> within row_vcmp (point_at s c) (point_at e d) p -> k = l).
Proof.
  intros H Hf Er Hd. destruct (C31_groups fuel s e abutting drop locations tls H Hf) as (gs & r & E & Ho & Hg & _).
  rewrite E in Er. assert (r = (starts, ends, loc)) as -> by congruence. clear Er E.
  assert (Hs : starts = map (fun g => g.1.1) gs /\ ends = map (fun g => g.1.2) gs).
  { unfold out_groups in Ho. cbv zeta in Ho. assert (Hnil : (if drop then [] else match missing_locs s with [] => [] | a :: _ => [(a, List.last (missing_locs s) a, missing_locs s)] end) = []).
    { destruct Hd as [->|Hm]; [done|]. rewrite Hm. by destruct drop. }
    rewrite Hnil, app_nil_r in Ho. split; congruence. }
  destruct Hs as [-> ->].
  assert (Hl : forall k a b, map (fun g : Z * Z * list Z => g.1.1) gs !! k = Some a -> map (fun g : Z * Z * list Z => g.1.2) gs !! k = Some b ->
    exists g, gs !! k = Some g /\ a = g.1.1 /\ b = g.1.2).
  { intros k a b Ha Hb. change (map ?f ?l) with (f <$> l) in Ha, Hb. rewrite list_lookup_fmap in Ha, Hb. destruct (gs !! k) as [g|]; [|done]. cbn in Ha, Hb. exists g. split; [done|]. split; congruence. }
  split.
  - intros p. rewrite (groups_covered row_vcmp row_vcmp_tpo _ _ abutting _ gs p Hg). split.
    + intros (g & Hin & Hw). apply elem_of_list_lookup in Hin as [k Hk]. exists k, g.1.1, g.1.2.
      split; [by apply (map_lookup0 (fun g : Z * Z * list Z => g.1.1))|]. split; [by apply (map_lookup0 (fun g : Z * Z * list Z => g.1.2))|done].
    + intros (k & a & b & Ha & Hb & Hw). destruct (Hl k a b Ha Hb) as (g & Hk & -> & ->). exists g. split; [by eapply elem_of_list_lookup_2|done].
  - intros p k l a b c d Ha Hb Hc Hd' [W1 W2] [W3 W4]. destruct (Hl k a b Ha Hb) as (g & Hk & -> & ->). destruct (Hl l c d Hc Hd') as (h & Hl' & -> & ->).
    destruct Hg as (_ & _ & SS).
    assert (Hw : forall e s, apart row_vcmp abutting e s -> vle row_vcmp e s) by (intros x y; destruct abutting; [apply vlt_vle|done]).
    assert (Hfalse : forall x y, apart row_vcmp abutting x y -> vle row_vcmp y p -> vlt row_vcmp p x -> False).
    { intros x y Hap Hy Hx. apply (vle_vlt _ row_vcmp_tpo x p); [|done]. eapply (vle_trans _ row_vcmp_tpo); [by apply Hw|done]. }
    destruct (Nat.lt_trichotomy k l) as [Hkl|[Hkl|Hkl]]; [|done|]; exfalso.
    + by apply (Hfalse _ _ (ss_lookup _ _ k l g h SS Hkl Hk Hl')).
    + by apply (Hfalse _ _ (ss_lookup _ _ l k h g SS Hkl Hl' Hk)).
Qed.

(** ** Containers *)
(** C33.  The containers of the intervals which are not missing, by increasing
    start; of the intervals with the same bounds the first is returned.  If
    there are missing intervals, the first of them is the last container. *)
Theorem C33_containers fuel s e tls :
  interval_input s e tls -> length (proxy_cols s ++ proxy_cols e) <= fuel ->
  exists out, vec_interval_locate_containers fuel s e tls = Ok (out ++ match missing_locs s with [] => [] | a :: _ => [a] end) /\
    are_containers row_vcmp (point_at s) (point_at e) (usable_locs s) out.
Proof.
  intros H Hf. destruct (interval_order_ok s e tls H fuel true Hf) as (us & Eo & P & SS).
  set (ms := missing_locs s). set (n := oproxy_size s). pose proof (lens s us P) as Hl. fold n ms in Hl.
  change (interval_order fuel s e [false; true] [false; true] n tls = Ok (ms ++ us)) in Eo.
  assert (Hb : forall i j a b, i < j -> us !! i = Some a -> us !! j = Some b -> before row_vcmp (point_at s) (point_at e) a b).
  { intros i j a b Hij Ha Hb. pose proof (ss_lookup _ _ i j a b SS Hij Ha Hb) as Hx. cbn beta in Hx. unfold icmp, before, vlt in *.
    destruct (row_vcmp (point_at s a) (point_at s b)) eqn:E1; cbn in Hx; [|by left|by destruct Hx as [?|[? _]]].
    right. split; [done|]. rewrite (tp_sym _ row_vcmp_tpo (point_at e a) (point_at e b)).
    destruct (row_vcmp (point_at e a) (point_at e b)) eqn:E2; cbn in Hx |- *; destruct Hx as [Hx|[Hx Hx']]; try done; [right; done|by left]. }
  unfold vec_interval_locate_containers. pose proof H as ((Hsz & _) & _). fold n. rewrite <- Hsz. fold n. rewrite Nat.eqb_refl. cbn [negb].
  rewrite Eo. cbn [bind].
  rewrite (skip_missing s e tls H us (fun k => negb (k =? 0)) _ false P eq_refl) by done. fold ms n. cbn [bind].
  assert (Hend : forall out, (if negb (length ms =? 0) then let! o := rd (ms ++ us) 0 in Ok (out ++ [o]) else Ok out) = Ok (out ++ match ms with [] => [] | a :: _ => [a] end)).
  { intros out. destruct ms; cbn; [by rewrite app_nil_r|done]. }
  destruct us as [|x us'] eqn:Eus.
  { cbn [length] in Hl. destruct (Nat.ltb_spec (length ms) n); [lia|]. cbn [bind]. replace (n - length ms) with 0 by lia. cbn [for_ bind].
    exists []. cbv zeta. rewrite Hend. split; [done|]. split; [intros a Ha; by apply elem_of_nil in Ha|]. split; [|split; [constructor|intros a b Ha; by apply elem_of_nil in Ha]].
    intros b Hb'. rewrite <- P in Hb'. by apply elem_of_nil in Hb'. }
  rewrite <- Eus in *. assert (Hl' : length us = S (length us')) by (by rewrite Eus).
  destruct (Nat.ltb_spec (length ms) n); [|lia].
  assert (rd (ms ++ us) (length ms) = Ok x) as -> by (apply rd_Ok; rewrite lookup_app_r, Nat.sub_diag by lia; by rewrite Eus). cbn [bind].
  edestruct (for_inv (fun i '((c, out) : Z * list Z) => cok row_vcmp (point_at s) (point_at e) (take (i - length ms) us) out (c + 1))
    (S (length ms)) (n - S (length ms))) as ([c out] & E & Hc); [| |setoid_rewrite E; cbn [bind]; rewrite Hend; exists out; split; [done|]].
  - cbn beta iota. replace (S (length ms) - length ms) with 1 by lia. rewrite Eus. cbn [take]. replace (x - 1 + 1)%Z with x by lia. apply cok_one, row_vcmp_tpo.
  - intros i [c out] Hi Hc. destruct (lookup_lt_is_Some_2 us (i - length ms)) as [y Hy]; [lia|].
    assert (rd (ms ++ us) i = Ok y) as -> by (apply rd_Ok; by rewrite lookup_app_r by lia). cbn [bind].
    assert (Hin : forall z, z ∈ take (i - length ms) us -> z ∈ usable_locs s).
    { intros z Hz. rewrite <- P. rewrite <- (take_drop (i - length ms) us). apply elem_of_app. by left. }
    assert (Hyu : y ∈ usable_locs s) by (rewrite <- P; by eapply elem_of_list_lookup_2).
    assert (Hbef : forall z, z ∈ take (i - length ms) us -> before row_vcmp (point_at s) (point_at e) z y).
    { intros z Hz. apply elem_of_list_lookup in Hz as [j Hj]. pose proof (lookup_lt_Some _ _ _ Hj) as Hlt. rewrite take_length in Hlt.
      rewrite lookup_take in Hj by lia. apply (Hb j (i - length ms)); [lia|done|done]. }
    assert (Hcin : (c + 1)%Z ∈ take (i - length ms) us) by (destruct Hc as ((Hc1 & _) & Hc2 & _); by apply Hc1).
    pose proof (cmp_ss s e tls H (c + 1)%Z y ltac:(auto) Hyu) as Ess. replace (c + 1 - 1)%Z with c in Ess by lia. rewrite Ess. cbn [bind].
    assert (Htake : take (S i - length ms) us = take (i - length ms) us ++ [y]).
    { replace (S i - length ms) with (S (i - length ms)) by lia. by apply take_S_r. }
    pose proof (before_le row_vcmp _ _ _ _ (Hbef _ Hcin)) as Hle. unfold vle in Hle.
    assert ((c2z (row_vcmp (point_at s (c + 1)) (point_at s y)) =? 1)%Z = false) as -> by (by destruct (row_vcmp _ _)). cbn [negb].
    pose proof (cmp_ee s e tls H (c + 1)%Z y ltac:(auto) Hyu) as Eee. replace (c + 1 - 1)%Z with c in Eee by lia. rewrite Eee. cbn [bind].
    destruct (row_vcmp (point_at e (c + 1)) (point_at e y)) eqn:Ee; cbn [c2z Z.eqb Pos.eqb negb].
    + eexists. split; [reflexivity|]. cbn beta iota. rewrite Htake. apply cok_stay; [apply row_vcmp_tpo|done|done|]. unfold vle. rewrite (tp_sym _ row_vcmp_tpo (point_at e (c + 1))), Ee. done.
    + eexists. split; [reflexivity|]. cbn beta iota. rewrite Htake. replace (y - 1 + 1)%Z with y by lia. eapply cok_new; [apply row_vcmp_tpo|exact Hc|done|done].
    + eexists. split; [reflexivity|]. cbn beta iota. rewrite Htake. apply cok_stay; [apply row_vcmp_tpo|done|done|]. unfold vle. rewrite (tp_sym _ row_vcmp_tpo (point_at e (c + 1))), Ee. done.
  - destruct Hc as ((H1 & H2 & H3 & H4) & _). rewrite take_ge in H1, H2, H4 by lia. split; [intros a Ha; rewrite <- P; by apply H1|].
    split; [intros b Hb'; apply H2; by rewrite P|]. split; [done|]. intros a b Ha Hb'. apply H4; [done|]. by rewrite P.
Qed.

(** ** Examples *)
(** The intervals [1, 3), [5, 7), missing, [3, 4), [6, 9), [1, 2), missing. *)
Definition ex_start : oproxy := OVec (M_OrderDf.OInt [1; 5; NA_INTEGER; 3; 6; 1; NA_INTEGER]%Z).
Definition ex_end : oproxy := OVec (M_OrderDf.OInt [3; 7; NA_INTEGER; 4; 9; 2; NA_INTEGER]%Z).
Example C31_ex_input : interval_input ex_start ex_end (fun _ => 0%Z) /\ length (proxy_cols ex_start ++ proxy_cols ex_end) <= 2.
Proof.
  split; [|cbn; lia]. split.
  - split; [done|]. split; [done|]. split; [|split; [|split; [done|by repeat constructor]]].
    all: apply Forall_singleton; split; [done|]; cbn; repeat (apply Forall_cons; split; [unfold is_int, NA_INTEGER, INT_MIN, INT_MAX; lia|]); by apply Forall_nil.
  - split; [done|]. intros a Ha. change (Z.of_nat (oproxy_size ex_start)) with 7%Z in Ha.
    assert (Hc : a = 1%Z \/ a = 2%Z \/ a = 3%Z \/ a = 4%Z \/ a = 5%Z \/ a = 6%Z \/ a = 7%Z) by lia.
    decompose [or] Hc; subst a; (by left) || (by right).
Qed.
(** Abutting intervals merge, the missing ones come last. *)
Example C31_ex_merge : vec_interval_group_info 2 ex_start ex_end true false true (fun _ => 0%Z) =
  Ok ([6; 2; 3], [4; 5; 7], [[6; 1; 4]; [2; 5]; [3; 7]])%Z.
Proof. reflexivity. Qed.
(** They stay separate. *)
Example C31_ex_keep : vec_interval_group_info 2 ex_start ex_end false true true (fun _ => 0%Z) =
  Ok ([6; 4; 2], [1; 4; 5], [[6; 1]; [4]; [2; 5]])%Z.
Proof. reflexivity. Qed.
Example C33_ex : vec_interval_locate_containers 2 ex_start ex_end (fun _ => 0%Z) = Ok [1; 4; 2; 5; 3]%Z.
Proof. reflexivity. Qed.

Print Assumptions C31_groups.
Print Assumptions C31_union.
Print Assumptions C33_containers.
