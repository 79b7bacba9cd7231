(** * Lemmas on assignment in memory *)
From Verif Require Import Base M_Owned Spec_Owned.

Lemma reach_head n h x : In x (reach (Datatypes.S n) h x).
Proof. by left. Qed.
Lemma in_concat_map {A} (f : A -> list nat) l z : In z (concat (map f l)) <-> exists c, In c l /\ In z (f c).
Proof.
  rewrite in_concat. split.
  - intros (m & Hm & Hz). apply in_map_iff in Hm as (c & <- & Hc). by exists c.
  - intros (c & Hc & Hz). exists (f c). split; [|done]. apply in_map_iff. by exists c.
Qed.

Lemma mapM_in {A B} (f : A -> option B) l ts c : mapM f l = Some ts -> In c l -> exists t, f c = Some t.
Proof.
  rewrite mapM_Some. intros HF Hc. apply elem_of_list_In, elem_of_list_lookup in Hc as [i Hi].
  destruct (Forall2_lookup_l _ _ _ _ _ HF Hi) as (t & _ & Ht). by exists t.
Qed.
Lemma mapM_ext' {A B} (f g : A -> option B) l : (forall c, In c l -> f c = g c) -> mapM f l = mapM g l.
Proof.
  induction l as [|c l IH]; intros H; [done|]. cbn. rewrite (H c) by (by left).
  destruct (g c); [|done]. cbn. rewrite IH; [done|]. intros. apply H. by right.
Qed.
Lemma concat_ext {A B} (f g : A -> list B) l : (forall c, In c l -> f c = g c) -> concat (map f l) = concat (map g l).
Proof. intros H. f_equal. by apply map_ext_in. Qed.

Lemma reach_lt n : forall h x t, value_at n h x = Some t -> forall z, In z (reach n h x) -> z < length h.
Proof.
  induction n as [|n IH]; intros h x t; [done|]. cbn [value_at reach]. destruct (h !! x) as [[k c a]|] eqn:E; [|done].
  intros Ht z [<-|Hz]; [by eapply lookup_lt_Some|]. unfold fields in Hz. cbn in Hz.
  apply in_concat_map in Hz as (y & Hy & Hz).
  assert (HM : k <> KVec /\ exists ts, mapM (value_at n h) c = Some ts).
  { destruct k; [by destruct Hy|..]; (split; [done|]); destruct (mapM (value_at n h) c) as [ts|]; first [by (exists ts)|done]. }
  destruct HM as (Hk & ts & HM). assert (Hy' : In y c) by (by destruct k).
  destruct (mapM_in _ _ _ _ HM Hy') as (t' & Ht'). by apply (IH _ _ _ Ht').
Qed.

Lemma frame n : forall h h' x, (forall z, In z (reach n h x) -> h' !! z = h !! z) ->
  value_at n h' x = value_at n h x /\ reach n h' x = reach n h x /\ rows n h' x = rows n h x /\ elements n h' x = elements n h x.
Proof.
  induction n as [|n IH]; intros h h' x H; [done|]. cbn [value_at reach rows elements] in *.
  rewrite (H x) by (by left). destruct (h !! x) as [[k c a]|]; [|done].
  assert (HF : k <> KVec -> forall y, In y c -> value_at n h' y = value_at n h y /\ reach n h' y = reach n h y /\ rows n h' y = rows n h y /\ elements n h' y = elements n h y).
  { intros Hk y Hy. apply IH. intros z Hz. apply H. right. apply in_concat_map. exists y. split; [|done]. by destruct k. }
  unfold fields. cbn. destruct k; [done|..]; repeat split;
    try (rewrite (mapM_ext' (value_at n h') (value_at n h)); [done|]; intros; by apply HF);
    try done; first [apply concat_ext|f_equal; apply concat_ext]; intros; by apply HF.
Qed.

Lemma rows_reach n : forall h x z, In z (rows n h x) -> In z (reach n h x).
Proof.
  induction n as [|n IH]; intros h x z; [done|]. cbn [rows reach]. intros [<-|Hz]; [by left|]. right.
  destruct (h !! x) as [[k c a]|]; [|done]. destruct k; try done; unfold fields; cbn;
    apply in_concat_map in Hz as (y & Hy & Hz); apply in_concat_map; exists y; (split; [done|]); by apply IH.
Qed.
Lemma elements_reach n : forall h x z, In z (elements n h x) -> In z (reach n h x).
Proof.
  induction n as [|n IH]; intros h x z; [done|]. cbn [elements reach]. intros Hz. right.
  destruct (h !! x) as [[k c a]|]; [|done]. destruct k; try done; unfold fields; cbn;
    apply in_concat_map in Hz as (y & Hy & Hz); apply in_concat_map; exists y; (split; [done|]); by apply IH.
Qed.
Lemma reach_split n : forall h x z, In z (reach n h x) -> In z (rows n h x) \/ In z (elements n h x).
Proof.
  induction n as [|n IH]; intros h x z; [by left|]. cbn [rows reach elements]. intros [<-|Hz]; [left; by left|].
  destruct (h !! x) as [[k c a]|]; [|done]. unfold fields in Hz. destruct k; cbn in Hz; try done; [right; done|..];
    apply in_concat_map in Hz as (y & Hy & Hz); (destruct (IH _ _ _ Hz); [left; right|right]);
    apply in_concat_map; by exists y.
Qed.

Lemma value_children n h x t : value_at (Datatypes.S n) h x = Some t ->
  match t with Tree k a d ts =>
    (k = KVec /\ h !! x = Some (Obj k d a) /\ ts = []) \/
    (k <> KVec /\ d = [] /\ exists c, h !! x = Some (Obj k c a) /\ mapM (value_at n h) c = Some ts)
  end.
Proof.
  cbn [value_at]. destruct (h !! x) as [[k c a]|] eqn:E; [|done].
  destruct k; [intros [= <-]; by left|..]; destruct (mapM (value_at n h) c) as [ts|] eqn:EM; try done; intros [= <-]; right;
    (split; [done|]; split; [done|]; by exists c).
Qed.
Lemma value_node n h x k c a ts : k <> KVec -> h !! x = Some (Obj k c a) -> mapM (value_at n h) c = Some ts ->
  value_at (Datatypes.S n) h x = Some (Tree k a [] ts).
Proof. intros Hk Hx HM. cbn [value_at]. rewrite Hx. destruct k; [done|..]; by rewrite HM. Qed.

(** ** Putting *)
Lemma last_put_snoc {A} idx (new : list A) i v j : forall d, length idx = length new ->
  last_put (idx ++ [i]) (new ++ [v]) j d = if bool_decide (i = Some j) then v else last_put idx new j d.
Proof.
  revert new. induction idx as [|i' idx IH]; intros [|v' new] d; cbn; try done. intros [= Hl]. by apply IH.
Qed.
Lemma put_length {A} idx (new old : list A) : length (put idx new old) = length old.
Proof. apply imap_length. Qed.
Lemma put_lookup {A} idx (new old : list A) j : put idx new old !! j = last_put idx new j <$> old !! j.
Proof. unfold put. by rewrite list_lookup_imap. Qed.
Lemma put_nil {A} (old : list A) : put [] [] old = old.
Proof. apply list_eq. intros j. rewrite put_lookup. cbn. by destruct (old !! j). Qed.
Lemma put_snoc {A} idx (new old : list A) i v : length idx = length new ->
  put (idx ++ [i]) (new ++ [v]) old = match i with Some j => <[j := v]> (put idx new old) | None => put idx new old end.
Proof.
  intros Hl. apply list_eq. intros j. rewrite put_lookup.
  assert (E : last_put (idx ++ [i]) (new ++ [v]) j <$> old !! j = (fun d => if bool_decide (i = Some j) then v else last_put idx new j d) <$> old !! j).
  { destruct (old !! j); [|done]. cbn. by rewrite last_put_snoc. }
  rewrite E. destruct i as [i|].
  - destruct (decide (i = j)) as [->|Hn].
    + rewrite bool_decide_true by done. destruct (old !! j) as [d|] eqn:Ed; cbn.
      * rewrite list_lookup_insert; [done|]. rewrite put_length. by eapply lookup_lt_Some.
      * rewrite list_insert_ge; [by rewrite put_lookup, Ed|]. rewrite put_length. by apply lookup_ge_None.
    + rewrite bool_decide_false by congruence. rewrite list_lookup_insert_ne by done. by rewrite put_lookup.
  - rewrite bool_decide_false by done. by rewrite put_lookup.
Qed.
Lemma last_put_rel {A B} (R : A -> B -> Prop) idx : forall new new' j d d', Forall2 R new new' -> R d d' ->
  R (last_put idx new j d) (last_put idx new' j d').
Proof.
  induction idx as [|i idx IH]; intros new new' j d d' HF Hd; [done|].
  destruct HF as [|v v' new new' Hv HF]; [done|]. cbn. apply IH; [done|]. by case_bool_decide.
Qed.
Lemma mapM_put {A B} (f : A -> option B) idx new new' old old' : mapM f new = Some new' -> mapM f old = Some old' ->
  mapM f (put idx new old) = Some (put idx new' old').
Proof.
  rewrite !mapM_Some. intros Hn Ho. apply Forall2_same_length_lookup. rewrite !put_length.
  split; [by eapply Forall2_length|]. intros j x y. rewrite !put_lookup.
  destruct (old !! j) as [d|] eqn:Ed; [|done]. destruct (old' !! j) as [d'|] eqn:Ed'; [|done]. cbn.
  intros [= <-] [= <-]. apply (last_put_rel (fun x y => f x = Some y)); [done|].
  by apply (Forall2_lookup_lr _ _ _ _ _ _ Ho Ed Ed').
Qed.
Lemma in_put {A} idx (new old : list A) z : In z (put idx new old) -> In z new \/ In z old.
Proof.
  rewrite <- !elem_of_list_In, !elem_of_list_lookup. intros [j Hj]. rewrite put_lookup in Hj.
  destruct (old !! j) as [d|] eqn:Ed; [|done]. injection Hj as <-.
  cut (last_put idx new j d = d \/ exists i, new !! i = Some (last_put idx new j d)).
  { intros [->|H]; [right; by exists j|by left]. }
  clear. revert new d. induction idx as [|i idx IH]; intros [|v new] d; try (by left). cbn.
  destruct (IH new (if bool_decide (i = Some j) then v else d)) as [->|[q Hq]].
  - case_bool_decide; [right; by exists 0|by left].
  - right. by exists (Datatypes.S q).
Qed.

Lemma fits_nth idx ts : forall ts' k t t', length ts = length ts' -> foldr and True (zip_with (fits idx) ts ts') ->
  ts !! k = Some t -> ts' !! k = Some t' -> fits idx t t'.
Proof.
  induction ts as [|u ts IH]; intros [|u' ts'] k t t' Hl HF; try done. cbn in HF. destruct HF as [H1 HF].
  destruct k as [|k]; cbn; [by intros [= <-] [= <-]|]. apply IH; [by injection Hl|done].
Qed.

(** ** The loop of a vector or a list *)
Lemma assign_loop idx value out ov o : forall h, value <> out -> h !! value = Some ov -> h !! out = Some o ->
  length (o_cells ov) = length idx -> (forall i, In (Some i) idx -> i < length (o_cells o)) ->
  for_ 0 (length idx) (assign_step idx value out) h =
  Ok (<[out := Obj (o_kind o) (put idx (o_cells ov) (o_cells o)) (o_attr o)]> h).
Proof.
  intros h Hne Hv Ho Hl Hb.
  assert (HI : exists h', for_ 0 (length idx) (assign_step idx value out) h = Ok h' /\
    h' = <[out := Obj (o_kind o) (put (take (length idx) idx) (take (length idx) (o_cells ov)) (o_cells o)) (o_attr o)]> h).
  { destruct (for_inv 
      (fun i h' => h' = <[out := Obj (o_kind o) (put (take i idx) (take i (o_cells ov)) (o_cells o)) (o_attr o)]> h)
      0 (length idx) (assign_step idx value out) h) as (h' & E & H).
    - rewrite !take_0, put_nil. destruct o. cbn. by rewrite list_insert_id.
    - intros i h' Hi ->. unfold assign_step.
      destruct (lookup_lt_is_Some_2 idx i) as [j Hj]; [lia|].
      destruct (lookup_lt_is_Some_2 (o_cells ov) i) as [c Hc]; [lia|].
      unfold rd. rewrite Hj. cbn [bind].
      rewrite (take_S_r _ _ _ Hj), (take_S_r _ _ _ Hc), put_snoc by (rewrite !take_length; lia).
      destruct j as [j|]; [|by eexists].
      rewrite list_lookup_insert_ne by done. rewrite Hv. cbn [bind]. rewrite Hc. cbn [bind].
      rewrite list_lookup_insert by (by eapply lookup_lt_Some). cbn [bind o_cells o_kind o_attr].
      assert (Hj' : j < length (o_cells o)) by (apply Hb, elem_of_list_In, elem_of_list_lookup; by exists i).
      rewrite wr_Ok by (by rewrite put_length). cbn [bind].
      rewrite wr_Ok by (rewrite insert_length; by eapply lookup_lt_Some).
      eexists. split; [done|]. by rewrite list_insert_insert.
    - exists h'. done. }
  destruct HI as (h' & -> & ->). rewrite firstn_all. rewrite <- Hl, firstn_all. done.
Qed.

(** ** Columns that are not shared *)
Lemma NoDup_concat_map {A} (f : A -> list nat) l : List.NoDup (concat (map f l)) ->
  (forall i a, l !! i = Some a -> List.NoDup (f a)) /\
  (forall i j a b z, l !! i = Some a -> l !! j = Some b -> i <> j -> In z (f a) -> In z (f b) -> False).
Proof.
  induction l as [|a l IH]; cbn; [done|]. intros H. apply NoDup_ListNoDup in H.
  apply NoDup_app in H as (H1 & H2 & H3). apply NoDup_ListNoDup in H1, H3. destruct (IH H3) as [I1 I2].
  assert (HD : forall j b z, l !! j = Some b -> In z (f a) -> In z (f b) -> False).
  { intros j b z Hj Ha Hb. apply (H2 z); [by apply elem_of_list_In|]. apply elem_of_list_In, in_concat_map. exists b.
    split; [|done]. apply elem_of_list_In, elem_of_list_lookup. by exists j. }
  split.
  - intros [|i] a0; cbn; [by intros [= <-]|apply I1].
  - intros [|i] [|j] a0 b0 z; cbn; try done.
    + intros [= <-] Hj _ ? ?. by eapply HD.
    + intros Hi [= <-] _ ? ?. by eapply HD.
    + intros Hi Hj Hn. apply (I2 i j); [done|done|]. congruence.
Qed.
