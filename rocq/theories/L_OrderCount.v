(** * Lemmas: counting ordering of integers *)
From Verif Require Import Base M_Order Spec_Order L_OrderSpec L_OrderSort L_OrderIns L_OrderScatter.
From Coq Require Import Sorting.Sorted.
#[local] Arguments Z.mul : simpl never.
#[local] Arguments Z.add : simpl never.
#[local] Arguments Z.sub : simpl never.

Section buckets.
  Context {A : Type} (beta : A -> Z).
  (** the nonempty buckets *)
  Definition nebs (os : list A) (us : list Z) : list (list A) :=
    filter (fun b => b <> []) (map (fun v => bkt beta v os) us).
  Lemma nebs_app os us vs : nebs os (us ++ vs) = nebs os us ++ nebs os vs.
  Proof. unfold nebs. by rewrite map_app, filter_app. Qed.
  Lemma nebs_single os u : nebs os [u] = if bcnt beta u os =? 0 then [] else [bkt beta u os].
  Proof.
    unfold nebs, bcnt. simpl. rewrite filter_cons. destruct (bkt beta u os) as [|x k].
    - rewrite decide_False by tauto. done.
    - rewrite decide_True by done. done.
  Qed.
  Lemma concat_nebs os us : concat (nebs os us) = concat (map (fun v => bkt beta v os) us).
  Proof.
    induction us as [|u us IH]; [done|]. change (u :: us) with ([u] ++ us).
    rewrite nebs_app, nebs_single, concat_app, IH. simpl. unfold bcnt.
    destruct (bkt beta u os); [done|]. simpl. by rewrite app_nil_r.
  Qed.
  Lemma nebs_length os us : length (nebs os us) <= length (concat (map (fun v => bkt beta v os) us)).
  Proof.
    rewrite <- concat_nebs. assert (H : Forall (fun b => b <> []) (nebs os us)).
    { apply Forall_forall. intros b Hb. by apply elem_of_list_filter in Hb as [? _]. }
    induction H as [|b bs Hb _ IH]; [done|]. simpl. rewrite app_length. destruct b; [done|]. simpl. lia.
  Qed.

  (** where bucket [u] starts *)
  Fixpoint start (os : list A) (us : list Z) (u : Z) : nat :=
    match us with
    | [] => 0
    | v :: us => if decide (u = v) then 0 else bcnt beta v os + start os us u
    end.
  Lemma start_take os us : NoDup us -> forall k u, us !! k = Some u ->
    start os us u = length (concat (map (fun v => bkt beta v os) (take k us))).
  Proof.
    induction 1 as [|v us Hv Hnd IH]; intros k u Hk; [done|]. destruct k as [|k]; simpl in *.
    - injection Hk as ->. by rewrite decide_True.
    - rewrite decide_False. 2: { intros ->. apply Hv. by eapply elem_of_list_lookup_2. }
      rewrite app_length, (IH k u Hk). done.
  Qed.
  Lemma start_layout os us : NoDup us -> layout beta (start os us) os us.
  Proof. intros H k u Hk _. by apply start_take. Qed.
  Lemma start_sep os us : NoDup us -> (forall a, a ∈ os -> beta a ∈ us) -> sep beta (start os us) os.
  Proof.
    intros H Hin. eapply layout_sep; [done|by apply start_layout|]. intros u Hu. unfold bcnt in Hu.
    destruct (bkt beta u os) as [|x k] eqn:E; [simpl in Hu; lia|].
    assert (Hx : x ∈ bkt beta u os) by (rewrite E; by left). apply bkt_elem in Hx as [<- Hx]. by apply Hin.
  Qed.
  Lemma start_bound os us a : NoDup us -> (forall a, a ∈ os -> beta a ∈ us) -> a ∈ os ->
    start os us (beta a) + bcnt beta (beta a) os <= length os.
  Proof.
    intros Hnd Hin Ha. destruct (proj1 (elem_of_list_lookup us (beta a)) (Hin a Ha)) as (k & Hk).
    rewrite (start_take os us Hnd k _ Hk).
    rewrite <- (Permutation_length (buckets_perm beta us os Hnd Hin)).
    rewrite <- (take_drop k us) at 2. rewrite (drop_S _ (beta a)) by done.
    rewrite map_app, concat_app, app_length. cbn [map concat]. rewrite app_length. unfold bcnt. lia.
  Qed.
End buckets.

Lemma og_buckets (beta : Z -> Z) cmp us os :
  StronglySorted Z.lt os -> NoDup us -> (forall a, a ∈ os -> beta a ∈ us) ->
  StronglySorted (fun u v => forall a b, a ∈ os -> b ∈ os -> beta a = u -> beta b = v -> cmp a b = Lt) us ->
  (forall a b, a ∈ os -> b ∈ os -> beta a = beta b -> cmp a b = Eq) ->
  og cmp os (nebs beta os us).
Proof.
  intros Hs Hnd Hin Hlt Heq. split.
  - rewrite concat_nebs. by apply buckets_perm.
  - apply Forall_forall. intros b Hb. by apply elem_of_list_filter in Hb as [? _].
  - apply Forall_forall. intros b Hb. apply elem_of_list_filter in Hb as [_ Hb].
    apply elem_of_list_fmap in Hb as (v & -> & _). eapply ss_sublist; [apply filter_sublist|done].
  - apply Forall_forall. intros b Hb x y Hx Hy. apply elem_of_list_filter in Hb as [_ Hb].
    apply elem_of_list_fmap in Hb as (v & -> & _).
    apply bkt_elem in Hx as [Hx1 Hx2]. apply bkt_elem in Hy as [Hy1 Hy2]. apply Heq; [done|done|congruence].
  - unfold nebs. eapply ss_sublist; [apply filter_sublist|].
    clear Hnd Hin. induction Hlt as [|u us S IH F]; simpl; [constructor|].
    constructor; [done|]. apply Forall_forall. intros c Hc x y Hx Hy.
    apply elem_of_list_fmap in Hc as (v & -> & Hv). rewrite Forall_forall in F.
    apply bkt_elem in Hx as [Hx1 Hx2]. apply bkt_elem in Hy as [Hy1 Hy2]. by apply (F v Hv).
Qed.

(** content of the counts array *)
Definition cw (L : nat) (F : Z -> nat) (c : list nat) : Prop :=
  length c = L /\ forall u, (0 <= u < Z.of_nat L)%Z -> c !! Z.to_nat u = Some (F u).
Lemma cw_rd L F c u : cw L F c -> (0 <= u < Z.of_nat L)%Z -> rdZ c u = Ok (F u).
Proof.
  intros [_ H] Hu. unfold rdZ. destruct (Z.ltb_spec u 0); [lia|]. apply rd_Ok. by apply H.
Qed.
Lemma cw_wr L F c u v : cw L F c -> (0 <= u < Z.of_nat L)%Z ->
  exists c', wrZ c u v = Ok c' /\ cw L (fun w => if (w =? u)%Z then v else F w) c'.
Proof.
  intros [Hl H] Hu. unfold wrZ. destruct (Z.ltb_spec u 0); [lia|]. rewrite wr_Ok by lia.
  eexists. split; [reflexivity|]. split; [by rewrite insert_length|]. intros w Hw.
  destruct (Z.eqb_spec w u) as [->|Hne].
  - apply list_lookup_insert. lia.
  - rewrite list_lookup_insert_ne by lia. by apply H.
Qed.
Lemma cw_ext L F G c : (forall u, (0 <= u < Z.of_nat L)%Z -> F u = G u) -> cw L F c -> cw L G c.
Proof. intros H [Hl Hc]. split; [done|]. intros u Hu. rewrite <- H by done. by apply Hc. Qed.
Lemma cw_zero L c : cw L (fun _ => 0) c <-> c = replicate L 0.
Proof.
  split.
  - intros [Hl H]. apply list_eq. intros j. destruct (decide (j < L)) as [Hj|Hj].
    + rewrite lookup_replicate_2 by done. specialize (H (Z.of_nat j)). rewrite Nat2Z.id in H. apply H. lia.
    + rewrite !lookup_ge_None_2; [done|rewrite replicate_length; lia|lia].
  - intros ->. split; [by rewrite replicate_length|]. intros u Hu. apply lookup_replicate_2. lia.
Qed.

Section range.
  (** the first loop *)
  Lemma compute_range_first p_x : Forall is_int p_x ->
    exists lo hi k,
      for_brk 0 (length p_x) (fun i _ =>
        let! elt := rd p_x i in
        if (elt =? NA_INTEGER)%Z then Ok (Next (NA_INTEGER, NA_INTEGER, S i))
        else Ok (Break (elt, elt, S i))) (NA_INTEGER, NA_INTEGER, 0) = Ok (lo, hi, k) /\
      (lo = NA_INTEGER \/
       (lo = hi /\ is_int lo /\ lo <> NA_INTEGER /\ k <= length p_x /\
        Forall (fun v => v = NA_INTEGER \/ v = lo) (take k p_x))).
  Proof.
    intros Hi.
    match goal with |- exists lo hi k, for_brk 0 _ ?body ?st = _ /\ _ =>
      destruct (for_brk_inv
        (fun i '(lo, hi, k) => lo = NA_INTEGER /\ Forall (fun v => v = NA_INTEGER) (take i p_x))
        (fun '(lo, hi, k) => lo = NA_INTEGER \/
            (lo = hi /\ is_int lo /\ lo <> NA_INTEGER /\ k <= length p_x /\
             Forall (fun v => v = NA_INTEGER \/ v = lo) (take k p_x)))
        0 (length p_x) body st) as ([[lo hi] k] & E & HQ) end.
    - split; [done|]. constructor.
    - intros i [[lo hi] k] Hr [-> Hf]. destruct (lookup_lt_is_Some_2 p_x i) as [v Hv]; [lia|].
      rewrite (proj2 (rd_Ok _ _ _) Hv). cbn [bind]. destruct (Z.eqb_spec v NA_INTEGER) as [->|Hne].
      + left. eexists. split; [reflexivity|]. split; [done|]. rewrite (take_S_r _ _ _ Hv).
        apply Forall_app. split; [done|]. by constructor.
      + right. eexists. split; [reflexivity|]. right. split; [done|].
        split; [by eapply Forall_lookup_1 in Hi|]. split; [done|]. split; [lia|].
        rewrite (take_S_r _ _ _ Hv). apply Forall_app. split.
        * eapply Forall_impl; [exact Hf|]. intros x ->. by left.
        * constructor; [by right|done].
    - intros [[lo hi] k] [-> _]. by left.
    - exists lo, hi, k. done.
  Qed.

  Lemma compute_range_spec p_x : Forall is_int p_x ->
    exists x_min range, int_compute_range p_x = Ok (x_min, range) /\
      ((range < INT_ORDER_COUNTING_RANGE_BOUNDARY)%Z ->
        is_int x_min /\ (1 <= range)%Z /\
        Forall (fun v => v = NA_INTEGER \/ (x_min <= v < x_min + range)%Z) p_x).
  Proof.
    intros Hi. unfold int_compute_range.
    destruct (compute_range_first p_x Hi) as (lo & hi & k & E & HQ). rewrite E. cbn [bind]. clear E.
    destruct HQ as [->|(<- & Hlo & Hna & Hk & Hf)].
    { rewrite Z.eqb_refl. do 2 eexists. split; [reflexivity|]. unfold UINT32_MAX, INT_ORDER_COUNTING_RANGE_BOUNDARY. lia. }
    rewrite (proj2 (Z.eqb_neq _ _) Hna).
    match goal with |- exists x_min range, bind (for_ k _ ?body ?st) _ = _ /\ _ =>
      destruct (for_inv
        (fun j '(mn, mx) => is_int mn /\ is_int mx /\ mn <> NA_INTEGER /\ (mn <= mx)%Z /\
           Forall (fun v => v = NA_INTEGER \/ (mn <= v <= mx)%Z) (take j p_x))
        k (length p_x - k) body st) as ([mn mx] & E & HQ) end.
    - split; [done|]. split; [done|]. split; [done|]. split; [lia|].
      eapply Forall_impl; [exact Hf|]. intros x [->| ->]; [by left|]. right. lia.
    - intros j [mn mx] Hj (H1 & H2 & H3 & H4 & H5).
      destruct (lookup_lt_is_Some_2 p_x j) as [v Hv]; [lia|].
      rewrite (proj2 (rd_Ok _ _ _) Hv). cbn [bind]. rewrite (take_S_r _ _ _ Hv).
      assert (is_int v) by (by eapply Forall_lookup_1 in Hi).
      destruct (Z.eqb_spec v NA_INTEGER) as [->|Hne];
        [|destruct (Z.ltb_spec mx v); [|destruct (Z.ltb_spec v mn)]];
        (eexists; split; [reflexivity|]; repeat (split; [first [done|lia]|]); apply Forall_app; split;
          [eapply Forall_impl; [exact H5|]; intros x [->|?]; [by left|right; lia]|];
          constructor; [|done]; first [by left|right; lia]).
    - rewrite E. cbn [bind]. destruct HQ as (H1 & H2 & H3 & H4 & H5).
      rewrite take_ge in H5 by lia. do 2 eexists. split; [reflexivity|]. intros _.
      unfold is_int, NA_INTEGER, INT_MIN, INT_MAX in *.
      assert (Hu : u32 (mx - mn + 1) = (mx - mn + 1)%Z).
      { unfold u32, two32. apply Z.mod_small. lia. }
      rewrite Hu. split; [done|]. split; [lia|].
      eapply Forall_impl; [exact H5|]. intros x [->|?]; [by left|right; lia].
  Qed.
End range.

(** buckets of the counting order, and the order in which they are laid out *)
Definition cnt_beta (f : Z -> Z) (x_min range a : Z) : Z :=
  if (f a =? NA_INTEGER)%Z then range else (f a - x_min)%Z.
Definition cnt_ud (range : Z) (decreasing : bool) : list Z :=
  map (fun k => if decreasing then (range - 1 - Z.of_nat k)%Z else Z.of_nat k) (seq 0 (Z.to_nat range)).
Definition cnt_pre (range : Z) (na_last : bool) : list Z := if na_last then [] else [range].
Definition cnt_post (range : Z) (na_last : bool) : list Z := if na_last then [range] else [].
Definition cnt_us (range : Z) (decreasing na_last : bool) : list Z :=
  cnt_pre range na_last ++ cnt_ud range decreasing ++ cnt_post range na_last.
Definition cnt_cmp (f : Z -> Z) (decreasing na_last : bool) (a b : Z) : comparison :=
  dir decreasing (int_vcmp (xorb decreasing na_last) (f a) (f b)).

Section counting.
  Context (f : Z -> Z) (os : list Z) (x_min range : Z) (L : nat) (decreasing na_last : bool).
  Hypothesis Hos : StronglySorted Z.lt os.
  Hypothesis Hmin : is_int x_min.
  Hypothesis Hr1 : (1 <= range)%Z.
  Hypothesis HrL : (range < Z.of_nat L)%Z.
  Hypothesis HrB : (range <= INT_ORDER_COUNTING_RANGE_BOUNDARY)%Z.
  Hypothesis Hf : forall a, a ∈ os -> f a = NA_INTEGER \/ (x_min <= f a < x_min + range)%Z.

  Notation beta := (cnt_beta f x_min range).
  Notation R := (Z.to_nat range).
  Notation ud := (cnt_ud range decreasing).
  Notation pre := (cnt_pre range na_last).
  Notation post := (cnt_post range na_last).
  Notation us := (cnt_us range decreasing na_last).
  Notation cmp := (cnt_cmp f decreasing na_last).

  Lemma cnt_bucket a : a ∈ os -> bucket_of x_min range (f a) = Ok (beta a) /\ (0 <= beta a <= range)%Z.
  Proof.
    intros Ha. destruct (Hf a Ha) as [E|E]; unfold bucket_of, cnt_beta.
    - rewrite E, Z.eqb_refl. split; [done|lia].
    - destruct (Z.eqb_spec (f a) NA_INTEGER) as [?|?]; [split; [done|lia]|].
      unfold int_in_range, INT_ORDER_COUNTING_RANGE_BOUNDARY in *.
      rewrite (proj2 (Z.leb_le _ _)) by (unfold INT_MIN; lia).
      rewrite (proj2 (Z.leb_le _ _)) by (unfold INT_MAX; lia). simpl.
      unfold u32, two32. rewrite Z.mod_small by lia. split; [done|lia].
  Qed.

  Lemma ud_lookup k : k < R -> ud !! k = Some (if decreasing then (range - 1 - Z.of_nat k)%Z else Z.of_nat k).
  Proof.
    intros Hk. unfold cnt_ud. rewrite list_lookup_fmap, lookup_seq_lt by done. done.
  Qed.
  Lemma ud_length : length ud = R.
  Proof. unfold cnt_ud. by rewrite map_length, seq_length. Qed.
  Lemma ud_elem u : u ∈ ud <-> (0 <= u < range)%Z.
  Proof.
    unfold cnt_ud. rewrite elem_of_list_fmap. setoid_rewrite elem_of_seq. split.
    - intros (k & -> & Hk). destruct decreasing; lia.
    - intros Hu. destruct decreasing.
      + exists (Z.to_nat (range - 1 - u)). lia.
      + exists (Z.to_nat u). lia.
  Qed.
  Lemma us_NoDup : NoDup us.
  Proof.
    assert (Hud : NoDup ud).
    { unfold cnt_ud. apply NoDup_fmap_2_strong; [|apply NoDup_seq]. intros x y _ _. destruct decreasing; lia. }
    unfold cnt_us, cnt_pre, cnt_post. destruct na_last; simpl; rewrite ?app_nil_r.
    - apply NoDup_app. split; [done|]. split; [|apply NoDup_singleton]. intros u Hu Hx.
      apply elem_of_list_singleton in Hx as ->. apply ud_elem in Hu. lia.
    - apply NoDup_cons. split; [|done]. rewrite ud_elem. lia.
  Qed.
  Lemma us_elem u : u ∈ us <-> (0 <= u <= range)%Z.
  Proof.
    unfold cnt_us, cnt_pre, cnt_post. destruct na_last; simpl; rewrite ?app_nil_r.
    - rewrite elem_of_app, ud_elem, elem_of_list_singleton. lia.
    - rewrite elem_of_cons, ud_elem. lia.
  Qed.
  Lemma beta_us a : a ∈ os -> beta a ∈ us.
  Proof. intros Ha. apply us_elem. by apply cnt_bucket. Qed.
  Lemma us_cmp : StronglySorted (fun u v => forall a b, a ∈ os -> b ∈ os -> beta a = u -> beta b = v -> cmp a b = Lt) us.
  Proof.
    assert (Hud : StronglySorted (fun u v => forall a b, a ∈ os -> b ∈ os -> beta a = u -> beta b = v -> cmp a b = Lt) ud).
    { assert (HS : StronglySorted (fun u v => if decreasing then (v < u)%Z else (u < v)%Z) ud).
      { unfold cnt_ud. generalize 0. induction (Z.to_nat range) as [|m IH]; intros s; simpl; [constructor|].
        constructor; [apply IH|]. apply Forall_forall. intros v Hv.
        apply elem_of_list_fmap in Hv as (k & -> & Hk). apply elem_of_seq in Hk. destruct decreasing; lia. }
      eapply ss_impl; [|exact HS]. intros u v Hu Hv Huv a b Ha Hb Ea Eb.
      apply ud_elem in Hu. apply ud_elem in Hv. unfold cnt_cmp, int_vcmp. unfold cnt_beta in Ea, Eb.
      destruct (Z.eqb_spec (f a) NA_INTEGER); [lia|]. destruct (Z.eqb_spec (f b) NA_INTEGER); [lia|].
      unfold dir. destruct decreasing; [rewrite <- Z.compare_antisym|]; apply Z.compare_lt_iff; lia. }
    unfold cnt_us, cnt_pre, cnt_post. destruct na_last eqn:Ena; simpl; rewrite ?app_nil_r.
    - apply ss_app. split; [done|]. split; [apply ss_single|]. intros u v Hu Hv a b Ha Hb Ea Eb.
      apply elem_of_list_singleton in Hv as ->. apply ud_elem in Hu. unfold cnt_cmp, int_vcmp. unfold cnt_beta in Ea, Eb.
      destruct (Z.eqb_spec (f a) NA_INTEGER); [lia|]. destruct (Z.eqb_spec (f b) NA_INTEGER).
      + by destruct decreasing.
      + destruct (Hf b Hb); [done|lia].
    - constructor; [done|]. apply Forall_forall. intros v Hv a b Ha Hb Ea Eb.
      apply ud_elem in Hv. unfold cnt_cmp, int_vcmp. unfold cnt_beta in Ea, Eb.
      destruct (Z.eqb_spec (f b) NA_INTEGER); [lia|]. destruct (Z.eqb_spec (f a) NA_INTEGER).
      + by destruct decreasing.
      + destruct (Hf a Ha); [done|lia].
  Qed.
  Lemma beta_eq a b : a ∈ os -> b ∈ os -> beta a = beta b -> cmp a b = Eq.
  Proof.
    intros Ha Hb E. unfold cnt_cmp, int_vcmp. unfold cnt_beta in E.
    destruct (Z.eqb_spec (f a) NA_INTEGER), (Z.eqb_spec (f b) NA_INTEGER).
    - by destruct decreasing.
    - destruct (Hf b Hb); [done|lia].
    - destruct (Hf a Ha); [done|lia].
    - assert (f a = f b) as -> by lia. rewrite Z.compare_refl. by destruct decreasing.
  Qed.

  Definition cnt_fin (u : Z) : nat := if bcnt beta u os =? 0 then 0 else start beta os us u.

  Lemma bcnt_out u : ~ (0 <= u <= range)%Z -> bcnt beta u os = 0.
  Proof.
    intros H. unfold bcnt. destruct (bkt beta u os) as [|x k] eqn:E; [done|]. exfalso.
    assert (Hx : x ∈ bkt beta u os) by (rewrite E; by left). apply bkt_elem in Hx as [<- Hx].
    apply H. by apply cnt_bucket.
  Qed.

  Lemma cnt_place (V : nat -> res Z) aux c :
    (forall i a, os !! i = Some a -> V i = Ok a) ->
    length os <= length aux -> cw L cnt_fin c ->
    exists aux' c',
      for_ 0 (length os) (fun i '(aux, c) =>
         let! elt := rd (map f os) i in
         let! bucket := bucket_of x_min range elt in
         let! loc := rdZ c bucket in
         let! c := wrZ c bucket (S loc) in
         let! v := V i in
         let! aux := wr aux loc v in
         Ok (aux, c)) (aux, c) = Ok (aux', c') /\
      length aux' = length aux /\
      take (length os) aux' = concat (nebs beta os us) /\
      cw L (fun u => if bcnt beta u os =? 0 then 0 else start beta os us u + bcnt beta u os) c'.
  Proof.
    intros HV Haux Hc.
    match goal with |- exists aux' c', for_ 0 _ ?body ?st = _ /\ _ =>
      destruct (for_inv
        (fun i '(aux', c') => length aux' = length aux /\
          placed beta id (start beta os us) (take i os) aux' /\
          cw L (fun u => if bcnt beta u os =? 0 then 0 else start beta os us u + bcnt beta u (take i os)) c')
        0 (length os) body st) as ([aux' c'] & E & H1 & H2 & H3) end.
    - split; [done|]. split; [apply placed_nil|]. eapply cw_ext; [|exact Hc]. intros u Hu. cbn beta.
      unfold cnt_fin. destruct (bcnt beta u os =? 0); [done|]. unfold bcnt. simpl. lia.
    - intros i [aux' c'] Hi (Hl & Hp & Hw).
      destruct (lookup_lt_is_Some_2 os i) as [a Ha]; [lia|].
      assert (Hin : a ∈ os) by (by eapply elem_of_list_lookup_2).
      rewrite (rd_fmap f os i a Ha). cbn [bind]. destruct (cnt_bucket a Hin) as [Eb Hb].
      rewrite Eb. cbn [bind]. rewrite (cw_rd _ _ _ _ Hw) by lia. cbn [bind].
      assert (Hpos : 0 < bcnt beta (beta a) os) by (by apply bcnt_pos).
      destruct (Nat.eqb_spec (bcnt beta (beta a) os) 0) as [?|_]; [lia|].
      set (loc := start beta os us (beta a) + bcnt beta (beta a) (take i os)).
      destruct (cw_wr _ _ _ (beta a) (S loc) Hw) as (c'' & E & W); [lia|]. rewrite E. cbn [bind].
      rewrite (HV i a Ha). cbn [bind].
      assert (Hcnt : bcnt beta (beta a) (take (S i) os) <= bcnt beta (beta a) os).
      { rewrite <- (take_drop (S i) os) at 2. unfold bcnt. rewrite bkt_app, app_length. lia. }
      rewrite (take_S_r _ _ a) in Hcnt by done. rewrite bcnt_snoc, decide_True in Hcnt by done.
      pose proof (start_bound beta os us a us_NoDup beta_us Hin) as Hsb.
      assert (Hloc : loc < length aux') by (subst loc; lia).
      rewrite wr_Ok by done. cbn [bind]. eexists. split; [reflexivity|]. cbn beta iota.
      split; [by rewrite insert_length|]. split.
      + apply (placed_step beta id (start beta os us) os i a); [|done|done|done].
        apply start_sep; [apply us_NoDup|apply beta_us].
      + eapply cw_ext; [|exact W]. intros u Hu. cbn beta. rewrite (take_S_r _ _ a) by done. rewrite bcnt_snoc.
        destruct (Z.eqb_spec u (beta a)) as [->|Hne].
        * rewrite decide_True by done. destruct (Nat.eqb_spec (bcnt beta (beta a) os) 0); [lia|]. subst loc. lia.
        * rewrite decide_False by done. by rewrite Nat.add_0_r.
    - rewrite E. exists aux', c'. split; [done|]. split; [done|].
      simpl in H2, H3. rewrite take_ge in H2, H3 by lia. split; [|done].
      rewrite (placed_final beta id (start beta os us) os aux' us).
      + by rewrite map_id, concat_nebs.
      + apply start_layout. apply us_NoDup.
      + done.
      + apply Permutation_length, buckets_perm; [apply us_NoDup|apply beta_us].
  Qed.

  Lemma cnt_histogram : exists c,
    for_ 0 (length os) (fun i '(p_counts, na_count) =>
        let! elt := rd (map f os) i in
        if (elt =? NA_INTEGER)%Z then Ok (p_counts, S na_count)
        else
          let! bucket := bucket_of x_min range elt in
          let! p_counts := bump p_counts bucket in
          Ok (p_counts, na_count)) (replicate L 0, 0) = Ok (c, bcnt beta range os) /\
    cw L (fun u => if (u =? range)%Z then 0 else bcnt beta u os) c.
  Proof.
    match goal with |- exists c, for_ 0 _ ?body ?st = _ /\ _ =>
      destruct (for_inv
        (fun i '(c, na) => na = bcnt beta range (take i os) /\
          cw L (fun u => if (u =? range)%Z then 0 else bcnt beta u (take i os)) c)
        0 (length os) body st) as ([c na] & E & -> & H) end.
    - split; [done|]. eapply cw_ext; [|by apply cw_zero]. intros u _. cbn beta. by destruct (u =? range)%Z.
    - intros i [c na] Hi [-> Hw]. destruct (lookup_lt_is_Some_2 os i) as [a Ha]; [lia|].
      assert (Hin : a ∈ os) by (by eapply elem_of_list_lookup_2).
      rewrite (rd_fmap f os i a Ha). cbn [bind]. destruct (cnt_bucket a Hin) as [Eb Hb].
      rewrite (take_S_r _ _ a Ha).
      destruct (Z.eqb_spec (f a) NA_INTEGER) as [En|En].
      + assert (Eba : beta a = range) by (unfold cnt_beta; by rewrite En, Z.eqb_refl).
        eexists. split; [reflexivity|]. split; [rewrite bcnt_snoc, decide_True by done; lia|].
        eapply cw_ext; [|exact Hw]. intros u _. cbn beta.
        destruct (Z.eqb_spec u range); [done|]. rewrite bcnt_snoc, decide_False by congruence. lia.
      + assert (Eba : (beta a < range)%Z).
        { unfold cnt_beta. rewrite (proj2 (Z.eqb_neq _ _) En). destruct (Hf a Hin); [done|lia]. }
        rewrite Eb. cbn [bind]. unfold bump. rewrite (cw_rd _ _ _ _ Hw) by lia. cbn [bind].
        rewrite (proj2 (Z.eqb_neq (beta a) range)) by lia.
        destruct (cw_wr _ _ _ (beta a) (S (bcnt beta (beta a) (take i os))) Hw) as (c' & E & W); [lia|].
        rewrite E. cbn [bind]. eexists. split; [reflexivity|]. split.
        { rewrite bcnt_snoc, decide_False by lia. lia. }
        eapply cw_ext; [|exact W]. intros u _. cbn beta. destruct (Z.eqb_spec u (beta a)) as [->|Hne].
        * rewrite (proj2 (Z.eqb_neq (beta a) range)) by lia. rewrite bcnt_snoc, decide_True by done. lia.
        * destruct (Z.eqb_spec u range); [done|]. rewrite bcnt_snoc, decide_False by done. lia.
    - rewrite E. exists c. simpl in H |- *. rewrite take_ge in H by lia. rewrite take_ge by lia. done.
  Qed.

  (** bucket sizes turned into positions, for the buckets in [vs] *)
  Definition cnt_part (vs : list Z) (u : Z) : nat := if bool_decide (u ∈ vs) then cnt_fin u else bcnt beta u os.
  Definition cnt_cum (vs : list Z) : nat := length (concat (map (fun v => bkt beta v os) vs)).

  Lemma cum_snoc vs u : cnt_cum (vs ++ [u]) = cnt_cum vs + bcnt beta u os.
  Proof. unfold cnt_cum. rewrite map_app, concat_app, app_length. simpl. rewrite app_nil_r. done. Qed.

  Lemma acc_step g0 g vs u ws c : us = vs ++ u :: ws -> 
    pushed g0 (map length (nebs beta os vs)) g -> room g0 (length os) -> cw L (cnt_part vs) c -> bcnt beta u os <> 0 ->
    exists c' g', wrZ c u (cnt_cum vs) = Ok c' /\ groups_size_maybe_push (bcnt beta u os) g = Ok g' /\
      cw L (cnt_part (vs ++ [u])) c' /\ pushed g0 (map length (nebs beta os (vs ++ [u]))) g'.
  Proof.
    intros Hus Hp HR Hc Hn.
    assert (Hu : u ∈ us) by (rewrite Hus; apply elem_of_app; right; by left).
    assert (Hk : us !! length vs = Some u) by (rewrite Hus; by apply list_lookup_middle).
    pose proof (start_take beta os us us_NoDup _ _ Hk) as Hst. rewrite Hus, take_app in Hst.
    rewrite us_elem in Hu. destruct (cw_wr _ _ _ u (cnt_cum vs) Hc) as (c' & E & W); [lia|].
    assert (Hroom : room g 1).
    { eapply pushed_room; [exact Hp|]. rewrite map_length. eapply room_le; [|exact HR].
      pose proof (nebs_length beta os vs) as Hl.
      pose proof (Permutation_length (buckets_perm beta us os us_NoDup beta_us)) as Hl2.
      rewrite Hus, map_app, concat_app, app_length in Hl2. cbn [map concat] in Hl2.
      rewrite app_length in Hl2. unfold bcnt in Hn. lia. }
    destruct (maybe_push_spec (bcnt beta u os) g) as (g' & E' & Hp'); [apply Hp|lia|done|].
    exists c', g'. split; [done|]. split; [done|]. split.
    - eapply cw_ext; [|exact W]. intros w Hw. cbn beta. unfold cnt_part. destruct (Z.eqb_spec w u) as [->|Hne].
      + rewrite bool_decide_eq_true_2 by (apply elem_of_app; right; by left).
        unfold cnt_fin. destruct (Nat.eqb_spec (bcnt beta u os) 0); [done|].
        rewrite <- Hus in Hst. rewrite Hst. done.
      + assert (Hiff : w ∈ vs ++ [u] <-> w ∈ vs) by (rewrite elem_of_app, elem_of_list_singleton; tauto).
        by rewrite (bool_decide_ext _ _ Hiff).
    - rewrite nebs_app, map_app. eapply pushed_trans; [exact Hp|]. rewrite nebs_single.
      destruct (Nat.eqb_spec (bcnt beta u os) 0); [done|]. done.
  Qed.

  Lemma part_skip vs u : bcnt beta u os = 0 -> forall w, cnt_part (vs ++ [u]) w = cnt_part vs w.
  Proof.
    intros Hz w. unfold cnt_part. destruct (decide (w = u)) as [->|Hne].
    - rewrite (bool_decide_eq_true_2 (u ∈ vs ++ [u])) by (apply elem_of_app; right; by left).
      unfold cnt_fin. rewrite Hz. simpl. by destruct (bool_decide _).
    - assert (Hiff : w ∈ vs ++ [u] <-> w ∈ vs) by (rewrite elem_of_app, elem_of_list_singleton; tauto).
      by rewrite (bool_decide_ext _ _ Hiff).
  Qed.
  Lemma nebs_skip vs u : bcnt beta u os = 0 -> nebs beta os (vs ++ [u]) = nebs beta os vs.
  Proof. intros Hz. rewrite nebs_app, nebs_single, Hz. simpl. by rewrite app_nil_r. Qed.

  Lemma counting_spec (initialized : bool) p_o p_o_aux g :
    (if initialized then p_o = os /\ length os <= length p_o_aux
     else os = locs (length os) /\ length p_o = length os) ->
    gwf g -> room g (length os) ->
    exists bs p_o_aux' g',
      int_order_counting (map f os) x_min range initialized decreasing na_last p_o p_o_aux (replicate L 0) g
        = Ok (concat bs, p_o_aux', replicate L 0, g') /\
      og cmp os bs /\ pushed g (map length bs) g' /\ length p_o_aux' = length p_o_aux.
  Proof.
    intros Hini W HR. unfold int_order_counting. rewrite map_length.
    destruct (Z.ltb_spec INT_ORDER_COUNTING_RANGE_BOUNDARY range) as [?|_]; [lia|].
    destruct cnt_histogram as (c0 & E0 & W0). rewrite E0. cbn [bind]. clear E0.
    destruct (cw_wr _ _ _ range (bcnt beta range os) W0) as (c1 & E1 & W1); [lia|].
    rewrite E1. cbn [bind]. clear E1.
    assert (W1' : cw L (cnt_part []) c1).
    { eapply cw_ext; [|exact W1]. intros u Hu. cbn beta. unfold cnt_part. rewrite bool_decide_eq_false_2 by apply not_elem_of_nil.
      destruct (Z.eqb_spec u range) as [->|Hne]; done. }
    clear W0 W1 c0.
    (* missing values to the front *)
    match goal with |- exists bs a g', bind ?m _ = _ /\ _ =>
      assert (exists c g', m = Ok (c, cnt_cum pre, g') /\ cw L (cnt_part pre) c /\
                pushed g (map length (nebs beta os pre)) g') as (c2 & g2 & E2 & W2 & P2) end.
    { unfold cnt_pre. destruct na_last eqn:Ena; cbn [negb andb].
      - exists c1, g. split; [done|]. split; [done|]. by apply pushed_refl.
      - destruct (Nat.eqb_spec (bcnt beta range os) 0) as [Ez|Ez]; cbn [negb].
        + exists c1, g. split; [unfold cnt_cum; simpl; rewrite app_nil_r; fold (bcnt beta range os); by rewrite Ez|].
          split; [eapply cw_ext; [|exact W1']; intros u _; symmetry; by apply (part_skip [])|].
          change [range] with ([] ++ [range]). rewrite (nebs_skip [] range Ez). by apply pushed_refl.
        + destruct (acc_step g g [] range ud c1) as (c2 & g2 & E & E' & Hc & Hp); try done.
          * unfold cnt_us, cnt_pre, cnt_post. rewrite Ena. by rewrite app_nil_r.
          * by apply pushed_refl.
          * change (cnt_cum []) with 0 in E. rewrite E. cbn [bind]. rewrite E'. cbn [bind].
            exists c2, g2. split; [unfold cnt_cum; simpl; by rewrite app_nil_r|]. done. }
    rewrite E2. cbn [bind]. clear E2 W1' c1.
    (* accumulate *)
    match goal with |- exists bs a g', bind (for_ 0 _ ?body ?st) _ = _ /\ _ =>
      destruct (for_inv
        (fun k '(c, cm, j, g') => cw L (cnt_part (pre ++ take k ud)) c /\ cm = cnt_cum (pre ++ take k ud) /\
           j = (if decreasing then range - 1 - Z.of_nat k else Z.of_nat k)%Z /\
           pushed g (map length (nebs beta os (pre ++ take k ud))) g')
        0 (Z.to_nat range) body st) as ([[[c3 cm] j] g3] & E3 & W3 & -> & -> & P3) end.
    { rewrite app_nil_r. split; [done|]. split; [done|]. split; [destruct decreasing; lia|done]. }
    { intros k [[[c cm] j] g'] Hk (Hc & -> & -> & Hp).
      set (u := (if decreasing then range - 1 - Z.of_nat k else Z.of_nat k)%Z).
      assert (Hu : ud !! k = Some u) by (apply ud_lookup; lia).
      assert (Hur : (0 <= u < range)%Z) by (subst u; destruct decreasing; lia).
      assert (Hnext : (u + direction_of decreasing)%Z = (if decreasing then range - 1 - Z.of_nat (S k) else Z.of_nat (S k))%Z).
      { subst u. unfold direction_of. destruct decreasing; lia. }
      rewrite (cw_rd _ _ _ _ Hc) by lia. cbn [bind].
      assert (Hpart : cnt_part (pre ++ take k ud) u = bcnt beta u os).
      { unfold cnt_part. rewrite bool_decide_eq_false_2; [done|]. intros Hin.
        pose proof us_NoDup as Hnd. unfold cnt_us in Hnd.
        rewrite <- (take_drop_middle ud k u Hu) in Hnd. rewrite <- !app_assoc in Hnd. rewrite app_assoc in Hnd.
        apply NoDup_app in Hnd as (_ & Hnd & _). apply (Hnd u Hin). by left. }
      rewrite Hpart, (take_S_r _ _ _ Hu), app_assoc. 
      destruct (Nat.eqb_spec (bcnt beta u os) 0) as [Ez|Ez].
      - eexists. split; [reflexivity|]. cbn beta iota.
        split; [eapply cw_ext; [|exact Hc]; intros w _; symmetry; by apply part_skip|].
        rewrite cum_snoc, Ez, Nat.add_0_r. split; [done|]. split; [done|]. by rewrite nebs_skip.
      - destruct (acc_step g g' (pre ++ take k ud) u (drop (S k) ud ++ post) c) as (c' & g'' & E & E' & Hc' & Hp');
          try done.
        { unfold cnt_us. rewrite <- (take_drop_middle ud k u Hu) at 1. by rewrite <- !app_assoc. }
        rewrite E. cbn [bind]. rewrite E'. cbn [bind]. eexists. split; [reflexivity|]. cbn beta iota.
        split; [done|]. split; [by rewrite cum_snoc|]. done. }
    rewrite E3. cbn [bind]. clear E3. rewrite Nat.add_0_l in *.
    rewrite (take_ge ud) in * by (rewrite ud_length; done).
    (* missing values to the back *)
    match goal with |- exists bs a g', bind ?m _ = _ /\ _ =>
      assert (exists c g', m = Ok (c, g') /\ cw L cnt_fin c /\
                pushed g (map length (nebs beta os us)) g') as (c4 & g4 & E4 & W4 & P4) end.
    { assert (Hfin : forall c, cw L (cnt_part us) c -> cw L cnt_fin c).
      { intros c. apply cw_ext. intros u _. unfold cnt_part. destruct (bool_decide_reflect (u ∈ us)) as [?|Hn]; [done|].
        unfold cnt_fin. rewrite us_elem in Hn. by rewrite bcnt_out. }
      unfold cnt_us, cnt_post in *. destruct na_last eqn:Ena; cbn [negb andb].
      - destruct (Nat.eqb_spec (bcnt beta range os) 0) as [Ez|Ez]; cbn [negb].
        + exists c3, g3. split; [done|]. split.
          * apply Hfin. eapply cw_ext; [|exact W3]. intros w _. rewrite app_assoc. symmetry. by apply part_skip.
          * rewrite app_assoc, nebs_skip by done. done.
        + destruct (acc_step g g3 (cnt_pre range true ++ ud) range [] c3) as (c4 & g4 & E & E' & Hc & Hp); try done.
          * unfold cnt_us, cnt_post. rewrite Ena, <- !app_assoc. done.
          * rewrite E. cbn [bind]. rewrite E'. cbn [bind].
            exists c4, g4. split; [done|]. rewrite app_assoc. split; [|done].
            apply Hfin. by rewrite app_assoc.
      - rewrite app_nil_r in *. exists c3, g3. split; [done|]. split; [|done]. by apply Hfin. }
    rewrite E4. cbn [bind]. clear E4 W3 P3 W2 P2.
    (* place *)
    assert (Hlen : length (concat (nebs beta os us)) = length os).
    { rewrite concat_nebs. apply Permutation_length, buckets_perm; [apply us_NoDup|apply beta_us]. }
    assert (Hzero : forall c, cw L (fun u => if bcnt beta u os =? 0 then 0 else start beta os us u + bcnt beta u os) c ->
       replicate (Z.to_nat (range + 1)) 0 ++ drop (Z.to_nat (range + 1)) c = replicate L 0).
    { intros c Hc. apply cw_zero. destruct Hc as [Hl Hc]. split.
      { rewrite app_length, replicate_length, drop_length. lia. }
      intros u Hu. destruct (decide (u < range + 1)%Z) as [Hlt|Hge].
      - rewrite lookup_app_l by (rewrite replicate_length; lia). apply lookup_replicate_2. lia.
      - rewrite lookup_app_r by (rewrite replicate_length; lia). rewrite replicate_length, lookup_drop.
        replace (Z.to_nat (range + 1) + (Z.to_nat u - Z.to_nat (range + 1))) with (Z.to_nat u) by lia.
        rewrite Hc by done. rewrite bcnt_out by lia. done. }
    assert (Hog : og cmp os (nebs beta os us)).
    { apply og_buckets; [done|apply us_NoDup|apply beta_us|apply us_cmp|apply beta_eq]. }
    destruct initialized.
    - destruct Hini as [-> Haux].
      destruct (cnt_place (fun i => rd os i) p_o_aux c4) as (aux' & c5 & E5 & Hl & Ht & W5); [|done|done|].
      { intros i a Ha. by apply rd_Ok. }
      rewrite E5. cbn [bind]. rewrite (Hzero c5 W5), Ht, drop_ge, app_nil_r by lia.
      exists (nebs beta os us), aux', g4. done.
    - destruct Hini as [Hlocs Hpo].
      destruct (cnt_place (fun i => Ok (Z.of_nat i + 1)%Z) p_o c4) as (aux' & c5 & E5 & Hl & Ht & W5); [|lia|done|].
      { intros i a Ha. rewrite Hlocs in Ha. pose proof (lookup_lt_Some _ _ _ Ha) as Hlt. rewrite locs_length in Hlt.
        rewrite locs_lookup in Ha by done. congruence. }
      cbn [bind] in E5. rewrite E5. cbn [bind]. rewrite (Hzero c5 W5).
      rewrite take_ge in Ht by lia. rewrite Ht.
      exists (nebs beta os us), p_o_aux, g4. done.
  Qed.
End counting.
