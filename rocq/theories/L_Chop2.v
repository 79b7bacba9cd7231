(** * Lemmas about chopping and combining: the loops *)
From Verif Require Import Base M_Double M_Scalar M_Hash M_Object M_Proxy M_Cast M_Growable M_Slice M_Subscript M_Rep M_Chop
  Spec_Slice Spec_Rep Spec_Subscript Spec_Chop L_Proxy L_Slice L_SliceArray L_Assign L_Value L_SliceVal L_Rep L_Recycle L_Subscript L_Chop.
From Coq Require Import ZifyBool ZifyNat.
#[local] Arguments Z.mul : simpl never.
#[local] Arguments Z.add : simpl never.
#[local] Arguments Z.sub : simpl never.
#[local] Arguments Z.max : simpl never.

Lemma rd_at {A} (l : list A) i a : l !! i = Some a -> rd l i = Ok a.
Proof. apply rd_Ok. Qed.

(** ** The subscripts generated for chopping *)
Definition size_sub (sizes : list Z) (i : nat) (s : Z) : subscript := SSeq (total (take i sizes)) s 1.
Definition chop_subs (c : chop_indices) (n : Z) : list subscript :=
  match c with
  | CIdx idx => map SLoc idx
  | CSizes sizes => imap (size_sub sizes) sizes
  | CNone => map (fun k => SLoc [Z.of_nat k + 1]%Z) (seq 0 (Z.to_nat n))
  end.
Definition sizes_fit (c : chop_indices) : Prop :=
  match c with CSizes sizes => Forall (fun s => 0 <= s)%Z sizes /\ (total sizes <= INT_MAX)%Z | _ => True end.
Lemma chop_subs_length c n : length (chop_subs c n) = indices_out_size c n.
Proof. destruct c; simpl; [by rewrite map_length, seq_length|by rewrite map_length|by rewrite imap_length]. Qed.
Lemma total_take_le sizes i : Forall (fun s => 0 <= s)%Z sizes -> (0 <= total (take i sizes) <= total sizes)%Z.
Proof.
  intros H. rewrite <- (take_drop i sizes) at 3. rewrite total_app.
  pose proof (total_nonneg (take i sizes) ltac:(by apply Forall_take)). pose proof (total_nonneg (drop i sizes) ltac:(by apply Forall_drop)). lia.
Qed.
Lemma chop_loop_spec {A} (f : subscript -> res A) (g : subscript -> A) c n : sizes_fit c ->
  Forall (fun s => f s = Ok (g s)) (chop_subs c n) ->
  chop_loop f c (indices_out_size c n) = Ok (map g (chop_subs c n)).
Proof.
  intros Hfit Hf. unfold chop_loop. rewrite <- chop_subs_length.
  set (subs := chop_subs c n) in *.
  destruct (for_inv (fun i (st : list A * chop_state) => st.1 = map g (take i subs) /\ st.2.1 = i /\
     match c with CSizes sizes => (st.2.2.1 + st.2.2.2 = total (take i sizes))%Z | _ => True end)
    0 (length subs) (fun _ '(out, st) =>
      let! (index, st) := indices_next c st in
      let! elt := f index in
      Ok (out ++ [elt], st)) ([], chop_init)) as ([out st] & -> & Hout & _).
  - simpl. destruct c; done.
  - intros i [out [loc [p0 p1]]] Hi (E1 & E2 & E3). cbn [fst snd] in *. subst.
    destruct (lookup_lt_is_Some_nth subs i) as [s Hs]; [lia|].
    assert (Hnext : exists p0' p1', indices_next c (i, (p0, p1)) = Ok (s, (S i, (p0', p1'))) /\
      match c with CSizes sizes => (p0' + p1' = total (take (S i) sizes))%Z | _ => True end).
    { unfold subs in Hs. destruct c as [|idx|sizes]; simpl in Hs |- *.
      - rewrite list_lookup_fmap in Hs. destruct (seq 0 (Z.to_nat n) !! i) as [k|] eqn:Ek; [|done]. apply lookup_seq in Ek as [-> _].
        injection Hs as <-. eauto.
      - rewrite list_lookup_fmap in Hs. destruct (idx !! i) as [l|] eqn:El; [|done]. injection Hs as <-.
        rewrite (rd_at _ _ _ El). cbn [bind]. eauto.
      - rewrite list_lookup_imap in Hs. destruct (sizes !! i) as [s0|] eqn:El; [|done]. injection Hs as <-.
        destruct Hfit as [F1 F2]. pose proof (total_take_le sizes i F1) as Ht.
        unfold int_add. rewrite E3. unfold int_ok, INT_MIN. destruct (Z.leb_spec (-2147483648) (total (take i sizes))); [|lia].
        destruct (Z.leb_spec (total (take i sizes)) INT_MAX); [|lia]. cbn [andb bind].
        rewrite (rd_at _ _ _ El). cbn [bind]. do 2 eexists. split; [done|].
        rewrite (take_S_r _ _ _ El), total_app. simpl. lia. }
    destruct Hnext as (p0' & p1' & -> & Hp). cbn [bind]. rewrite Forall_forall in Hf. rewrite (Hf s) by (by eapply elem_of_list_lookup_2).
    cbn [bind]. eexists. split; [done|]. simpl. split; [|done]. rewrite (take_S_r _ _ _ Hs), map_app. done.
  - cbn [bind]. simpl in Hout. rewrite Hout, take_ge by lia. done.
Qed.
Lemma size_blocks_lookup sizes : forall st i,
  size_blocks st sizes !! i = (fun s => map (fun k => st + total (take i sizes) + Z.of_nat k + 1)%Z (seq 0 (Z.to_nat s))) <$> sizes !! i.
Proof.
  induction sizes as [|s sizes IH]; intros st i; simpl; [done|]. destruct i as [|i]; simpl.
  - f_equal. apply map_ext. intros k. unfold total. simpl. lia.
  - rewrite IH. destruct (sizes !! i); simpl; [|done]. f_equal. apply map_ext. intros k. unfold total. simpl. lia.
Qed.
Lemma size_subs_blocks sizes n : map expand (chop_subs (CSizes sizes) n) = size_blocks 0 sizes.
Proof.
  apply list_eq. intros i. rewrite size_blocks_lookup. cbn [chop_subs]. rewrite list_lookup_fmap, list_lookup_imap.
  destruct (sizes !! i); simpl; [|done]. f_equal. apply map_ext. intros k. lia.
Qed.

(** ** Chopping *)
Definition chop_ok (c : chop_indices) (n : Z) : Prop :=
  sizes_fit c /\ Forall (fun s => subscript_ok n s /\ forall i k, s <> SRep i k) (chop_subs c n).
Lemma append_loop {A} (chopped : list A) k : forall (elts : list (list A)), length elts = k -> length chopped = k ->
  for_ 0 k (fun j elts =>
     let! elt := rd elts j in
     let! piece := rd chopped j in
     wr elts j (elt ++ [piece])) elts = Ok (zip_with (fun e p => e ++ [p]) elts chopped).
Proof.
  intros elts Hl Hc.
  destruct (for_inv (fun j e => length e = k /\ forall i, e !! i = if decide (i < j) then zip_with (fun e p => e ++ [p]) elts chopped !! i else elts !! i)
    0 k (fun j elts => let! elt := rd elts j in let! piece := rd chopped j in wr elts j (elt ++ [piece])) elts) as (e & -> & He1 & He2).
  - split; [done|]. intros i. destruct (decide (i < 0)); [lia|done].
  - intros j e Hj (E1 & E2). simpl in *.
    destruct (lookup_lt_is_Some_nth elts j) as [x Hx]; [lia|]. destruct (lookup_lt_is_Some_nth chopped j) as [p Hp]; [lia|].
    assert (Hej : e !! j = Some x) by (rewrite E2; destruct (decide (j < j)); [lia|done]).
    rewrite (rd_at _ _ _ Hej). cbn [bind]. rewrite (rd_at _ _ _ Hp). cbn [bind]. rewrite wr_Ok by lia.
    eexists. split; [done|]. split; [by rewrite insert_length|]. intros i. destruct (decide (i = j)) as [->|Hne].
    + rewrite list_lookup_insert by lia. destruct (decide (j < S j)); [|lia]. rewrite lookup_zip_with, Hx, Hp. done.
    + rewrite list_lookup_insert_ne by done. rewrite E2. destruct (decide (i < j)), (decide (i < S j)); try done; lia.
  - f_equal. apply list_eq. intros i. rewrite He2. destruct (decide (i < 0 + k)) as [|Hge]; [done|].
    rewrite !lookup_ge_None_2; [done|rewrite zip_with_length; lia|lia].
Qed.
Lemma vec_chop_unsafe_spec x : forall c, value_ok x -> chop_ok c (value_size x) ->
  vec_chop_unsafe x c = Ok (map (fun s => slice_val (expand s) x) (chop_subs c (value_size x))).
Proof.
  induction x as [t data names|t dim data|n names cols IH] using value_ind'; intros c Hx [Hfit Hok].
  - cbn [vec_chop_unsafe]. apply (chop_loop_spec _ (fun s => slice_val (expand s) (VVec t data names))); [done|].
    eapply Forall_impl; [apply Hok|]. intros s [H1 H2]. apply vec_slice_spec; [done|done|]. intros k ->. by destruct (H2 NA_INTEGER k).
  - cbn [vec_chop_unsafe]. apply (chop_loop_spec _ (fun s => slice_val (expand s) (VArr t dim data))); [done|].
    eapply Forall_impl; [apply Hok|]. intros s [H1 H2]. apply vec_slice_spec; [done|done|]. intros k ->. by destruct (H2 NA_INTEGER k).
  - cbn [vec_chop_unsafe value_size] in *. rewrite (chop_loop_spec _ vec_subscript_size).
    2: done. 2: by apply Forall_forall.
    cbn [bind]. match goal with |- context [?f cols (replicate _ [])] => set (go := f) end.
    apply value_ok_df in Hx as (_ & _ & Hs & Hx). set (subs := chop_subs c (Z.of_nat n)) in *.
    assert (Hgo : forall cs elts, Forall (fun col => forall c, value_ok col -> chop_ok c (value_size col) ->
         vec_chop_unsafe col c = Ok (map (fun s => slice_val (expand s) col) (chop_subs c (value_size col)))) cs ->
      Forall (fun c => value_size c = Z.of_nat n) cs -> Forall value_ok cs -> length elts = length subs ->
      go cs elts = Ok (zip_with (fun e s => e ++ map (slice_val (expand s)) cs) elts subs)).
    { induction cs as [|col cs IHcs]; intros elts HI HS HV Hl; unfold go; fold go.
      - f_equal. apply list_eq. intros i. rewrite !lookup_zip_with. destruct (elts !! i) eqn:E1, (subs !! i) eqn:E2; simpl; try done.
        + by rewrite app_nil_r.
        + apply lookup_lt_Some in E1. apply lookup_ge_None in E2. lia.
      - apply Forall_cons in HI as [I1 I2], HS as [S1 S2], HV as [V1 V2]. rewrite I1; [|done|by rewrite S1].
        rewrite S1. fold subs. cbn [bind]. rewrite append_loop.
        2: { rewrite Hl. apply chop_subs_length. } 2: { rewrite map_length. apply chop_subs_length. }
        cbn [bind]. rewrite IHcs; [|done|done|done|rewrite zip_with_length, map_length; lia]. f_equal.
        apply list_eq. intros i. rewrite !lookup_zip_with, list_lookup_fmap. destruct (elts !! i), (subs !! i); simpl; try done.
        by rewrite <- app_assoc. }
    rewrite Hgo; [|done|done|done|by rewrite replicate_length, <- chop_subs_length]. cbn [bind]. f_equal.
    apply list_eq. intros i. rewrite lookup_zip_with, !list_lookup_fmap, lookup_zip_with.
    destruct (subs !! i) as [s|] eqn:Es; simpl.
    + rewrite lookup_replicate_2 by (rewrite <- chop_subs_length; by eapply lookup_lt_Some). simpl. do 2 f_equal.
      rewrite Forall_forall in Hok. destruct (Hok s) as [H1 _]; [by eapply elem_of_list_lookup_2|]. rewrite (subscript_size _ _ H1). lia.
    + done.
Qed.

(** ** Locations *)
Lemma kept_all {A} (p : A -> bool) (x : named A) : Forall (fun e => p e = true) x.1 -> (kept p x).1 = x.1.
Proof.
  intros H. unfold kept. cbn [fst]. induction H as [|e l He H IH]; [done|]. rewrite filter_cons_True by done. by rewrite IH.
Qed.
Lemma index_int_spec l nm (n : nat) : Forall is_int l -> named_ok (l, nm) -> (Z.of_nat n <= INT_MAX)%Z ->
  (Forall (loc_ok (Z.of_nat n)) l -> index_as_location (IInt (l, nm)) (Z.of_nat n) = Ok l) /\
  (~ Forall (loc_ok (Z.of_nat n)) l -> exists e, index_as_location (IInt (l, nm)) (Z.of_nat n) = Err e).
Proof.
  intros Hi Hnm Hn. unfold index_as_location.
  assert (Hb : int_bad chop_opts (Z.of_nat n) l <-> ~ Forall (loc_ok (Z.of_nat n)) l).
  { split.
    - intros H Hall. rewrite Forall_forall in Hall. destruct H as [[? _]|[[_ H]|[[_ (e & He & Hna & Hlt)]|[[_ (e & He & Hna & Hlt)]|[? _]]]]]; try done.
      + destruct (Hall _ H) as [H0|H0]; [done|lia].
      + destruct (Hall _ He) as [|]; [done|lia].
      + destruct (Hall _ He) as [|]; [done|lia].
    - intros H. apply not_Forall_Exists in H; [|intros e; unfold loc_ok; destruct (decide (e = NA_INTEGER)); [left; by left|];
        destruct (decide (1 <= e <= Z.of_nat n)%Z); [left; by right|right; tauto]].
      apply Exists_exists in H as (e & He & Hno). simpl in Hno. unfold loc_ok in Hno.
      destruct (decide (e = 0)%Z) as [->|]; [right; left; done|].
      destruct (decide (e < 0)%Z); [right; right; left; split; [done|]; exists e; split; [done|split; [tauto|done]]|].
      right; right; right; left. split; [done|]. exists e. split; [done|]. split; [tauto|]. lia. }
  destruct (int_as_location_spec (l, nm) n chop_opts Hi Hnm Hn) as [[H1 [e H2]]|[H1 H2]].
  { intros [? _]. done. }
  - cbn [fst] in *. rewrite H2. cbn [bind]. split; [|by eauto]. intros H. by apply Hb in H1.
  - cbn [fst] in *. split; [|intros H; exfalso; apply H1; by apply Hb]. intros H. rewrite H2 by (intros [? _]; done). cbn [bind]. f_equal.
    apply (kept_all _ (l, nm)). eapply Forall_impl; [apply H|]. intros e He. cbn beta in *. unfold int_keep. simpl.
    destruct (Z.eqb_spec e NA_INTEGER); [done|]. destruct (Z.eqb_spec e 0); [destruct He; [done|lia]|].
    destruct (Z.ltb_spec (Z.of_nat n) (Z.abs e)); done.
Qed.
Lemma list_as_locations_ok indices n locss : Forall2 (fun i l => index_as_location i n = Ok l) indices locss ->
  list_as_locations indices n = Ok locss.
Proof.
  intros H. unfold list_as_locations.
  destruct (for_inv (fun k out => out = take k locss) 0 (length indices)
    (fun k out => let! i := rd indices k in let! loc := index_as_location i n in Ok (out ++ [loc])) []) as (out & -> & ->).
  - done.
  - intros k out Hk ->. simpl in *. destruct (lookup_lt_is_Some_nth indices k) as [i Hi]; [lia|].
    destruct (Forall2_lookup_l _ _ _ _ _ H Hi) as (l & Hl & E). rewrite (rd_at _ _ _ Hi). cbn [bind]. rewrite E. cbn [bind].
    eexists. split; [done|]. by rewrite (take_S_r _ _ _ Hl).
  - f_equal. apply take_ge. simpl. by rewrite (Forall2_length _ _ _ H).
Qed.
Lemma for_err {S} (I : nat -> S -> Prop) body cnt s k : I 0 s -> k < cnt ->
  (forall i s, i < k -> I i s -> exists s', body i s = Ok s' /\ I (Datatypes.S i) s') ->
  (forall s, I k s -> exists e, body k s = Err e) -> exists e, for_ 0 cnt body s = Err e.
Proof.
  intros H0 Hk Hstep Herr.
  destruct (for_inv I 0 k body s H0) as (s' & E & Hs'). { intros i s0 Hi. apply Hstep. lia. }
  simpl in Hs'. destruct (Herr s' Hs') as [e He].
  assert (G : forall m lo s0 s1, for_ lo m body s0 = Ok s1 -> forall c, for_ lo (m + c) body s0 = for_ (lo + m) c body s1).
  { induction m as [|m IH]; intros lo s0 s1 Hm c; simpl in *; [injection Hm as ->; by rewrite Nat.add_0_r|].
    destruct (body lo s0) as [s2| |] eqn:Eb; simpl in *; try done. rewrite (IH _ _ _ Hm c). f_equal. lia. }
  replace cnt with (k + Datatypes.S (cnt - k - 1)) by lia. rewrite (G _ _ _ _ E). simpl. rewrite He. simpl. eauto.
Qed.

(** ** Initialising *)
Lemma shape_out_fits n v : (0 <= n)%Z -> value_ok v -> shape_fits n v -> out_fits n v.
Proof.
  intros Hn. induction v as [t data names|t dim data|k names cols IH] using value_ind'; intros Hv H.
  - constructor.
  - inversion H; subst. constructor. apply value_ok_arr in Hv as (_ & (_ & Hp & _) & _). apply Forall_cons in Hp as [_ Hp].
    pose proof (zprod_le_max _ Hp). pose proof (zprod_nonneg _ Hp).
    revert H1 H0 H2. generalize (zprod (map (Z.max 1) ds)) (zprod ds). intros a b. pose proof (Z.le_max_r 1 n). pose proof (Z.le_max_l 1 n).
    revert H0 H1. generalize (Z.max 1 n). nia.
  - apply shape_fits_df in H. apply value_ok_df in Hv as (_ & _ & _ & Hv). constructor.
    induction IH; constructor; apply Forall_cons in H as [? ?], Hv as [? ?]; auto.
Qed.
Lemma vec_init_spec p (n : nat) : value_ok p -> (Z.of_nat n <= INT_MAX)%Z -> shape_fits (Z.of_nat n) p ->
  vec_init p (Z.of_nat n) = Ok (slice_val (replicate n NA_INTEGER) p).
Proof.
  intros Hp Hn Hf. unfold vec_init. destruct (Z.ltb_spec (Z.of_nat n) 0); [lia|]. destruct (Z.ltb_spec INT_MAX (Z.of_nat n)); [lia|].
  unfold compact_rep. destruct (Z.ltb_spec (Z.of_nat n) 0); [lia|]. cbn [bind]. rewrite vec_slice_spec; [|done| |].
  - simpl. by rewrite Nat2Z.id.
  - split; [simpl; apply Forall_replicate; by left|]. split; [by left|lia].
  - intros m E. injection E as <-. apply shape_out_fits; [lia|done|done].
Qed.
