(** * Lemmas: linked lists on a heap *)
From Verif Require Import Base M_Pairlist Spec_Pairlist.

(** ** Part of a list, from [p] to [q] *)
Fixpoint seg (h : heap) (p : ptr) (al : list nat) (cs : list (sym * val)) (q : ptr) : Prop :=
  match al, cs with
  | [], [] => p = q
  | a :: al, (t, v) :: cs => p = Some a /\ exists p', h !! a = Some (Node t v p') /\ seg h p' al cs q
  | _, _ => False
  end.

Lemma seg_plist h p al cs : plist h p al cs <-> seg h p al cs None.
Proof.
  split.
  - induction 1; simpl; [done|]. split; [done|]. eauto.
  - revert p cs. induction al as [|a al IH]; intros p [|[t v] cs]; simpl; try done.
    + intros ->. constructor.
    + intros [-> (p' & E & H)]. econstructor; eauto.
Qed.

Lemma seg_app h p al1 al2 cs1 cs2 q :
  length al1 = length cs1 ->
  seg h p (al1 ++ al2) (cs1 ++ cs2) q <-> exists r, seg h p al1 cs1 r /\ seg h r al2 cs2 q.
Proof.
  revert p cs1. induction al1 as [|a al1 IH]; intros p [|[t v] cs1] Hl; simpl in *; try done.
  - split; [eauto|]. by intros (r & -> & ?).
  - split.
    + intros [-> (p' & E & H)]. apply IH in H as (r & H1 & H2); [|lia].
      exists r. split; [|done]. split; eauto.
    + intros (r & [-> (p' & E & H1)] & H2). split; [done|]. exists p'. split; [done|].
      apply IH; [lia|]. eauto.
Qed.
Lemma seg_length h p al cs q : seg h p al cs q -> length al = length cs.
Proof.
  revert p cs. induction al as [|a al IH]; intros p [|[t v] cs]; simpl; try done.
  intros [_ (p' & _ & H)]. f_equal. eauto.
Qed.
Lemma seg_split h p al1 al2 cs q :
  seg h p (al1 ++ al2) cs q ->
  exists cs1 cs2 r, cs = cs1 ++ cs2 /\ length cs1 = length al1 /\ seg h p al1 cs1 r /\ seg h r al2 cs2 q.
Proof.
  intros H. pose proof (seg_length _ _ _ _ _ H) as Hl. rewrite app_length in Hl.
  rewrite <- (take_drop (length al1) cs) in H.
  assert (length (take (length al1) cs) = length al1) by (rewrite take_length; lia).
  apply seg_app in H as (r & H1 & H2); [|lia].
  exists (take (length al1) cs), (drop (length al1) cs), r. rewrite take_drop. done.
Qed.
Lemma seg_det h p al1 cs1 al2 cs2 :
  seg h p al1 cs1 None -> seg h p al2 cs2 None -> al1 = al2 /\ cs1 = cs2.
Proof.
  revert p cs1 al2 cs2.
  induction al1 as [|a al1 IH]; intros p [|[t v] cs1] [|b al2] [|[u w] cs2]; simpl; try done.
  - intros -> [? _]. done.
  - intros [-> _] ?. done.
  - intros [-> (p' & E & H)] [[= <-] (p2 & E2 & H2)]. rewrite E in E2. simplify_eq.
    destruct (IH _ _ _ _ H H2) as [-> ->]. done.
Qed.
Lemma seg_nodup h p al cs : seg h p al cs None -> NoDup al.
Proof.
  revert p cs. induction al as [|a al IH]; intros p cs H; [constructor|].
  destruct cs as [|[t v] cs]; [done|].
  pose proof H as [-> (p' & E & H')]. constructor; [|eauto].
  intros Hin. apply elem_of_list_split in Hin as (l1 & l2 & ->).
  apply seg_split in H' as (c1 & c2 & r & -> & Hl & H1 & H2).
  destruct c2 as [|[t2 v2] c2]; [done|].
  pose proof H2 as [-> _].
  destruct (seg_det _ _ _ _ _ _ H H2) as [Ha _]. apply (f_equal length) in Ha.
  simpl in Ha. rewrite app_length in Ha. simpl in Ha. lia.
Qed.
Lemma seg_bound h p al cs q : seg h p al cs q -> Forall (fun a => a < length h) al.
Proof.
  revert p cs. induction al as [|a al IH]; intros p [|[t v] cs]; simpl; try done.
  intros [_ (p' & E & H)]. constructor; [by eapply lookup_lt_Some|]. eauto.
Qed.
Lemma seg_count h p al cs : seg h p al cs None -> length al <= length h.
Proof.
  intros H. pose proof (seg_nodup _ _ _ _ H) as Hn. pose proof (seg_bound _ _ _ _ _ H) as Hb.
  assert (al ⊆+ seq 0 (length h)) as Hs.
  { apply NoDup_submseteq; [done|]. intros x Hx. rewrite Forall_forall in Hb.
    apply elem_of_seq. specialize (Hb _ Hx). lia. }
  apply submseteq_length in Hs. by rewrite seq_length in Hs.
Qed.
(** The list depends on its own cells only. *)
Lemma seg_frame h h' p al cs q :
  (forall a, a ∈ al -> h' !! a = h !! a) -> seg h p al cs q -> seg h' p al cs q.
Proof.
  revert p cs. induction al as [|a al IH]; intros p [|[t v] cs]; simpl; try done.
  intros Hf [-> (p' & E & H)]. split; [done|]. exists p'. split.
  - rewrite Hf; [done|]. left.
  - apply IH; [|done]. intros b Hb. apply Hf. by right.
Qed.
Lemma seg_app_heap h ext p al cs q : seg h p al cs q -> seg (h ++ ext) p al cs q.
Proof.
  intros H. eapply seg_frame; [|done]. intros a Ha.
  pose proof (seg_bound _ _ _ _ _ H) as Hb. rewrite Forall_forall in Hb.
  apply lookup_app_l. auto.
Qed.
(** The cdr of the last cell is replaced. *)
Lemma seg_relink h p al a cs t v q q' n :
  NoDup (al ++ [a]) -> h !! a = Some n ->
  seg h p (al ++ [a]) (cs ++ [(t, v)]) q ->
  n = Node t v q /\ seg (<[a := Node t v q']> h) p (al ++ [a]) (cs ++ [(t, v)]) q'.
Proof.
  intros Hn En H. assert (length al = length cs) as Hl.
  { pose proof (seg_length _ _ _ _ _ H) as Hl. rewrite !app_length in Hl. simpl in Hl. lia. }
  apply seg_app in H as (r & H1 & H2); [|done].
  destruct H2 as [-> (p' & E & ->)]. rewrite E in En. simplify_eq. split; [done|].
  apply seg_app; [done|]. exists (Some a). split.
  - eapply seg_frame; [|done]. intros b Hb. apply list_lookup_insert_ne.
    intros <-. apply NoDup_app in Hn as (_ & Hn & _). apply (Hn a Hb). left.
  - split; [done|]. exists q'. split; [|done]. apply list_lookup_insert. by eapply lookup_lt_Some.
Qed.

(** ** Accessors *)
Lemma node_car_Some h a n : h !! a = Some n -> node_car h (Some a) = Ok (n_car n).
Proof. intros E. simpl. unfold rd. by rewrite E. Qed.
Lemma node_cdr_Some h a n : h !! a = Some n -> node_cdr h (Some a) = Ok (n_cdr n).
Proof. intros E. simpl. unfold rd. by rewrite E. Qed.
Lemma node_tag_Some h a n : h !! a = Some n -> node_tag h (Some a) = Ok (n_tag n).
Proof. intros E. simpl. unfold rd. by rewrite E. Qed.
Lemma poke_cdr_Some h a n q : h !! a = Some n ->
  poke_cdr h (Some a) q = Ok (<[a := Node (n_tag n) (n_car n) q]> h).
Proof. intros E. simpl. unfold rd. rewrite E. simpl. apply wr_Ok. by eapply lookup_lt_Some. Qed.
Lemma poke_car_Some h a n v : h !! a = Some n ->
  poke_car h (Some a) v = Ok (<[a := Node (n_tag n) v (n_cdr n)]> h).
Proof. intros E. simpl. unfold rd. rewrite E. simpl. apply wr_Ok. by eapply lookup_lt_Some. Qed.
Lemma poke_tag_Some h a n t : h !! a = Some n ->
  poke_tag h (Some a) t = Ok (<[a := Node t (n_car n) (n_cdr n)]> h).
Proof. intros E. simpl. unfold rd. rewrite E. simpl. apply wr_Ok. by eapply lookup_lt_Some. Qed.
Lemma lookup_end {A} (h : list A) n : (h ++ [n]) !! length h = Some n.
Proof. rewrite lookup_app_r by lia. by rewrite Nat.sub_diag. Qed.
Lemma insert_end {A} (h : list A) n m : <[length h := m]> (h ++ [n]) = h ++ [m].
Proof. rewrite insert_app_r_alt by lia. by rewrite Nat.sub_diag. Qed.

(** ** The copied cells *)
Fixpoint mk (b : nat) (cs : list (sym * val)) (s : ptr) : list node :=
  match cs with
  | [] => []
  | (t, v) :: r => Node t v (match r with [] => s | _ => Some (S b) end) :: mk (S b) r s
  end.
Lemma mk_length b cs s : length (mk b cs s) = length cs.
Proof. revert b. induction cs as [|[t v] cs IH]; intros b; simpl; [done|]. by rewrite IH. Qed.
Lemma mk_snoc b cs t v s :
  mk b (cs ++ [(t, v)]) s = mk b cs (Some (b + length cs)) ++ [Node t v s].
Proof.
  revert b. induction cs as [|[u w] cs IH]; intros b; simpl; [done|].
  rewrite IH. f_equal; [|by rewrite <- Nat.add_succ_comm].
  f_equal. destruct cs as [|[]]; simpl; [|done]. f_equal. lia.
Qed.
Lemma mk_seg h b cs s rest :
  length h = b -> cs <> [] ->
  seg (h ++ mk b cs s ++ rest) (Some b) (seq b (length cs)) cs s.
Proof.
  revert h b. induction cs as [|[t v] cs IH]; intros h b Hb Hne; [done|].
  simpl. split; [done|].
  exists (match cs with [] => s | _ => Some (S b) end). split.
  { subst b. rewrite lookup_app_r by lia. by rewrite Nat.sub_diag. }
  destruct cs as [|c cs]; [done|].
  specialize (IH (h ++ [Node t v (Some (S b))]) (S b)).
  rewrite <- app_assoc in IH. apply IH; [|done]. rewrite app_length. simpl. lia.
Qed.

(** ** [r_pairlist_clone_until] *)
Lemma clone_until_loop_ok f h cs0 t0 v0 al cs sent nd cur :
  seg h cur al cs sent ->
  Forall (fun a => Some a <> sent) al ->
  length al < f ->
  clone_until_loop f (h ++ mk (length h) (cs0 ++ [(t0, v0)]) cur) sent nd
    (Some (length h + length cs0)) cur =
  Ok (h ++ mk (length h) (cs0 ++ (t0, v0) :: cs) sent, nd, Some (length h + length cs0 + length cs)).
Proof.
  revert cs0 t0 v0 al cs cur. induction f as [|f IH]; intros cs0 t0 v0 al cs cur H Hs Hf; [lia|].
  destruct al as [|a al], cs as [|[t v] cs]; try done.
  - simpl in H. subst cur. cbn [clone_until_loop]. rewrite bool_decide_true by done.
    rewrite Nat.add_0_r. done.
  - pose proof H as [-> (p' & E & H')]. inversion Hs as [|? ? Hs1 Hs2]; subst.
    cbn [clone_until_loop]. rewrite bool_decide_false by done. rewrite bool_decide_false by done.
    assert (Hlt : a < length h) by by eapply lookup_lt_Some.
    assert (E1 : (h ++ mk (length h) (cs0 ++ [(t0, v0)]) (Some a)) !! a = Some (Node t v p'))
      by by rewrite lookup_app_l.
    rewrite (node_tag_Some _ _ _ E1), (node_car_Some _ _ _ E1), (node_cdr_Some _ _ _ E1).
    cbn [bind n_tag n_car n_cdr]. unfold new_node.
    set (h1 := h ++ mk _ _ _).
    rewrite (poke_tag_Some _ _ _ t (lookup_end h1 _)). rewrite insert_end. cbn [bind n_car n_cdr].
    rewrite bool_decide_false by done.
    assert (E2 : (h1 ++ [Node t v p']) !! (length h + length cs0) = Some (Node t0 v0 (Some a))).
    { subst h1. rewrite mk_snoc, app_assoc, lookup_app_l by (rewrite !app_length, mk_length; simpl; lia).
      rewrite lookup_app_r by (rewrite app_length, mk_length; lia).
      rewrite app_length, mk_length, Nat.sub_diag. done. }
    rewrite (poke_cdr_Some _ _ _ _ E2). cbn [bind n_car n_tag].
    assert (E3 : <[length h + length cs0 := Node t0 v0 (Some (length h1))]> (h1 ++ [Node t v p']) =
                 h ++ mk (length h) ((cs0 ++ [(t0, v0)]) ++ [(t, v)]) p').
    { rewrite (mk_snoc _ (cs0 ++ _)). subst h1.
      rewrite insert_app_l by (rewrite app_length, mk_length, app_length; simpl; lia).
      rewrite (app_assoc h). f_equal. rewrite !mk_snoc.
      rewrite insert_app_r. f_equal.
      pose proof (mk_length (length h) cs0 (Some (length h + length cs0))) as Hm.
      rewrite <- Hm at 1. rewrite insert_end. do 4 f_equal.
      rewrite !app_length. simpl. lia. }
    rewrite E3.
    assert (E4 : (h ++ mk (length h) ((cs0 ++ [(t0, v0)]) ++ [(t, v)]) p') !! length h1 = Some (Node t v p')).
    { rewrite mk_snoc, app_assoc.
      replace (length h1) with (length (h ++ mk (length h) (cs0 ++ [(t0, v0)])
        (Some (length h + length (cs0 ++ [(t0, v0)]))))).
      - apply lookup_end.
      - subst h1. rewrite !app_length, !mk_length. done. }
    rewrite (node_cdr_Some _ _ _ E4). cbn [bind n_cdr].
    assert (E5 : length h1 = length h + length (cs0 ++ [(t0, v0)])).
    { subst h1. rewrite app_length, mk_length. done. }
    rewrite E5. rewrite (IH (cs0 ++ [(t0, v0)]) t v al cs p'); [|done|done|simpl in Hf; lia].
    rewrite <- app_assoc. simpl. f_equal. f_equal. f_equal. rewrite app_length. simpl. lia.
Qed.

Lemma clone_until_ok f h p al cs sent :
  seg h p al cs sent ->
  Forall (fun a => Some a <> sent) al ->
  length al < f ->
  clone_until_loop f h sent p None p =
  Ok (h ++ mk (length h) cs sent,
      (if decide (cs = []) then p else Some (length h)),
      (if decide (cs = []) then None else Some (length h + length cs - 1))).
Proof.
  intros H Hs Hf. destruct al as [|a al], cs as [|[t v] cs]; try done.
  - simpl in H. subst. destruct f; [lia|]. cbn [clone_until_loop].
    rewrite bool_decide_true by done. simpl. rewrite app_nil_r. done.
  - destruct f as [|f]; [lia|]. pose proof H as [-> (p' & E & H')].
    inversion Hs as [|? ? Hs1 Hs2]; subst.
    cbn [clone_until_loop]. rewrite bool_decide_false by done. rewrite bool_decide_false by done.
    rewrite (node_tag_Some _ _ _ E), (node_car_Some _ _ _ E), (node_cdr_Some _ _ _ E).
    cbn [bind n_tag n_car n_cdr]. unfold new_node.
    rewrite (poke_tag_Some _ _ _ t (lookup_end h _)). rewrite insert_end. cbn [bind n_car n_cdr].
    rewrite bool_decide_true by done. cbn [bind].
    rewrite (node_cdr_Some _ _ _ (lookup_end h _)). cbn [bind n_cdr].
    pose proof (clone_until_loop_ok f h [] t v al cs sent (Some (length h)) p' H' Hs2) as HL.
    cbn [app length] in HL. rewrite Nat.add_0_r in HL.
    assert (HE : mk (length h) [(t, v)] p' = [Node t v p']) by done.
    rewrite HE in HL. rewrite HL by (simpl in Hf; lia).
    f_equal. destruct (decide _); [done|]. f_equal. f_equal. simpl. lia.
Qed.

(** ** One attribute is set *)
Lemma seg_head_notin h p al1 al2 cs1 cs2 r :
  seg h p al1 cs1 r -> seg h r al2 cs2 None -> Forall (fun a => Some a <> r) al1.
Proof.
  intros H1 H2. assert (H : seg h p (al1 ++ al2) (cs1 ++ cs2) None).
  { apply seg_app; [by eapply seg_length|eauto]. }
  apply seg_nodup in H. apply NoDup_app in H as (_ & Hd & _).
  apply Forall_forall. intros a Ha <-. apply (Hd a Ha).
  destruct al2 as [|b al2], cs2 as [|[t v] cs2]; try done. destruct H2 as [[= <-] _]. left.
Qed.
Lemma seg_count_l h p al1 al2 cs1 cs2 r :
  seg h p al1 cs1 r -> seg h r al2 cs2 None -> length al1 + length al2 <= length h.
Proof.
  intros H1 H2. rewrite <- app_length. eapply seg_count. apply seg_app; [by eapply seg_length|eauto].
Qed.
Lemma poke_mk_cdr h cs t v s q :
  poke_cdr (h ++ mk (length h) (cs ++ [(t, v)]) s) (Some (length h + length cs)) q =
  Ok (h ++ mk (length h) (cs ++ [(t, v)]) q).
Proof.
  rewrite !mk_snoc, !app_assoc.
  set (h1 := h ++ mk _ _ _). replace (length h + length cs) with (length h1)
    by (subst h1; rewrite app_length, mk_length; done).
  rewrite (poke_cdr_Some _ _ _ _ (lookup_end h1 _)). by rewrite insert_end.
Qed.
Lemma poke_mk_car h cs t v s w :
  poke_car (h ++ mk (length h) (cs ++ [(t, v)]) s) (Some (length h + length cs)) w =
  Ok (h ++ mk (length h) (cs ++ [(t, w)]) s).
Proof.
  rewrite !mk_snoc, !app_assoc.
  set (h1 := h ++ mk _ _ _). replace (length h + length cs) with (length h1)
    by (subst h1; rewrite app_length, mk_length; done).
  rewrite (poke_car_Some _ _ _ _ (lookup_end h1 _)). by rewrite insert_end.
Qed.
Lemma mk_seg_end h cs s al2 cs2 :
  cs <> [] -> seg h s al2 cs2 None ->
  seg (h ++ mk (length h) cs s) (Some (length h)) (seq (length h) (length cs) ++ al2) (cs ++ cs2) None.
Proof.
  intros Hne H2. apply seg_app; [by rewrite seq_length|]. exists s. split.
  - pose proof (mk_seg h (length h) cs s [] eq_refl Hne) as HH. by rewrite app_nil_r in HH.
  - by apply seg_app_heap.
Qed.

Lemma attrs_set_at_ok h p al1 a al2 cs1 t w cs2 value :
  seg h p al1 cs1 (Some a) -> seg h (Some a) (a :: al2) ((t, w) :: cs2) None ->
  exists ext q al', attrs_set_at h p (Some a) value = Ok (h ++ ext, q) /\
    seg (h ++ ext) q al' (cs1 ++ (t, value) :: cs2) None.
Proof.
  intros H1 H2. pose proof H2 as [_ (p' & E & H3)].
  assert (H4 : seg h p (al1 ++ [a]) (cs1 ++ [(t, w)]) p').
  { apply seg_app; [by eapply seg_length|]. exists (Some a). split; [done|]. simpl. eauto. }
  unfold attrs_set_at, pairlist_clone_until. rewrite (node_cdr_Some _ _ _ E). cbn [bind n_cdr].
  rewrite (clone_until_ok _ _ _ _ _ _ H4).
  - cbn [bind]. destruct (decide _) as [Hd|_]; [by destruct cs1|].
    replace (length h + length (cs1 ++ [(t, w)]) - 1) with (length h + length cs1)
      by (rewrite app_length; simpl; lia).
    rewrite poke_mk_car. cbn [bind]. eexists _, _, _. split; [reflexivity|].
    replace (cs1 ++ (t, value) :: cs2) with ((cs1 ++ [(t, value)]) ++ cs2) by by rewrite <- app_assoc.
    eapply mk_seg_end; [by destruct cs1|done].
  - eapply seg_head_notin; eauto.
  - pose proof (seg_count_l _ _ _ _ _ _ _ H4 H3). lia.
Qed.

Lemma attrs_zap_at_ok h p al1 a al2 cs1 t w cs2 :
  seg h p al1 cs1 (Some a) -> seg h (Some a) (a :: al2) ((t, w) :: cs2) None ->
  exists ext q al', attrs_zap_at h p (Some a) = Ok (h ++ ext, q) /\
    seg (h ++ ext) q al' (cs1 ++ cs2) None.
Proof.
  intros H1 H2. pose proof H2 as [_ (p' & E & H3)].
  unfold attrs_zap_at, pairlist_clone_until.
  rewrite (clone_until_ok _ _ _ _ _ _ H1).
  - cbn [bind]. destruct (decide _) as [Hd|Hd].
    + subst cs1. destruct al1 as [|]; [|done]. simpl in H1. subst p.
      rewrite bool_decide_true by done. simpl mk. rewrite app_nil_r.
      rewrite (node_cdr_Some _ _ _ E). cbn [bind n_cdr].
      exists [], p', al2. rewrite app_nil_r. done.
    + rewrite bool_decide_false by done.
      destruct (exists_last Hd) as (cs0 & [t0 v0] & ->).
      rewrite (node_cdr_Some (h ++ _) a (Node t w p')) by (rewrite lookup_app_l; [done|by eapply lookup_lt_Some]).
      cbn [bind n_cdr].
      replace (length h + length (cs0 ++ [(t0, v0)]) - 1) with (length h + length cs0)
        by (rewrite app_length; simpl; lia).
      rewrite poke_mk_cdr. cbn [bind]. eexists _, _, _. split; [reflexivity|].
      by eapply mk_seg_end.
  - eapply seg_head_notin; eauto.
  - pose proof (seg_count_l _ _ _ _ _ _ _ H1 H2). simpl in *. lia.
Qed.

Lemma attrib_set_loop_ok f h p al1 al2 cs1 cs2 tag value nd :
  seg h p al1 cs1 nd -> seg h nd al2 cs2 None ->
  Forall (fun c => c.1 <> tag) cs1 -> length al2 < f ->
  (attrib_set_loop f h p tag value nd = Ok None /\ Forall (fun c => c.1 <> tag) (cs1 ++ cs2)) \/
  (exists ext q al' cs', attrib_set_loop f h p tag value nd = Ok (Some (h ++ ext, q)) /\
     seg (h ++ ext) q al' cs' None /\ set_attr tag value (cs1 ++ cs2) cs').
Proof.
  revert al1 al2 cs1 cs2 nd. induction f as [|f IH]; intros al1 al2 cs1 cs2 nd H1 H2 Hc Hf; [lia|].
  destruct al2 as [|a al2], cs2 as [|[t w] cs2]; try done.
  - simpl in H2. subst nd. left. rewrite app_nil_r. split; [|done]. done.
  - pose proof H2 as [-> (p' & E & H3)]. cbn [attrib_set_loop]. rewrite bool_decide_false by done.
    rewrite (node_tag_Some _ _ _ E). cbn [bind n_tag].
    destruct (decide (t = tag)) as [->|Ht].
    + rewrite bool_decide_true by done. right. destruct (decide (value = VNull)) as [->|Hv].
      * rewrite bool_decide_true by done.
        destruct (attrs_zap_at_ok _ _ _ _ _ _ _ _ _ H1 H2) as (ext & q & al' & EE & HS).
        rewrite EE. cbn [bind]. eexists _, _, _, _. split; [reflexivity|]. split; [done|].
        by constructor.
      * rewrite bool_decide_false by done.
        destruct (attrs_set_at_ok _ _ _ _ _ _ _ _ _ value H1 H2) as (ext & q & al' & EE & HS).
        rewrite EE. cbn [bind]. eexists _, _, _, _. split; [reflexivity|]. split; [done|].
        by constructor.
    + rewrite bool_decide_false by done. rewrite (node_cdr_Some _ _ _ E). cbn [bind n_cdr].
      specialize (IH (al1 ++ [a]) al2 (cs1 ++ [(t, w)]) cs2 p').
      rewrite <- app_assoc in IH. apply IH; [|done| |simpl in Hf; lia].
      * apply seg_app; [by eapply seg_length|]. exists (Some a). split; [done|]. simpl. eauto.
      * apply Forall_app. split; [done|]. by repeat constructor.
Qed.

Lemma poke_attrib_ok os x o q : os !! x = Some o ->
  poke_attrib os x q = Ok (<[x := Obj (o_data o) q]> os).
Proof. intros E. unfold poke_attrib, rd. rewrite E. simpl. apply wr_Ok. by eapply lookup_lt_Some. Qed.
Lemma clone2_ok os x o : os !! x = Some o -> clone2 os x = Ok (os ++ [o], length os).
Proof.
  intros E. assert (Hlt : x < length os) by by eapply lookup_lt_Some.
  unfold clone2, rd. rewrite E. cbn [bind]. rewrite (poke_attrib_ok _ _ _ _ E). cbn [bind].
  rewrite list_lookup_insert by done. cbn [bind].
  rewrite (poke_attrib_ok _ x (Obj (o_data o) None)).
  2:{ rewrite lookup_app_l by by rewrite insert_length. by rewrite list_lookup_insert. }
  cbn [bind o_data]. rewrite insert_app_l by by rewrite insert_length.
  rewrite list_insert_insert. destruct o as [d q]. cbn [o_data o_attrib].
  rewrite (list_insert_id os) by done. rewrite insert_length.
  rewrite (poke_attrib_ok _ _ _ _ (lookup_end os _)). rewrite insert_end. done.
Qed.

(** ** Lists changed in place *)
Lemma compact_loop_ok f h hd K cK u w R cR nd :
  seg h (Some hd) (hd :: K) ((u, w) :: cK) nd -> seg h nd R cR None -> length R < f ->
  exists h' al, compact_loop f h (last (hd :: K)) nd = Ok h' /\
    seg h' (Some hd) (hd :: K ++ al) ((u, w) :: cK ++ filter (fun c => c.2 <> VNull) cR) None /\
    sublist al R /\ length h' = length h /\
    (forall a, a ∉ hd :: K ++ R -> h' !! a = h !! a).
Proof.
  revert h K cK R cR nd. induction f as [|f IH]; intros h K cK R cR nd H1 H2 Hf; [lia|].
  assert (Hnd : NoDup ((hd :: K) ++ R)).
  { eapply (seg_nodup h (Some hd)). apply seg_app; [by eapply seg_length|]. eauto. }
  destruct R as [|a R], cR as [|[t v] cR]; try done.
  - simpl in H2. subst nd. exists h, []. cbn [compact_loop]. rewrite bool_decide_true by done.
    rewrite !app_nil_r. split; [done|]. done.
  - pose proof H2 as [-> (p' & E & H3)]. cbn [compact_loop]. rewrite bool_decide_false by done.
    rewrite (node_car_Some _ _ _ E). cbn [bind n_car].
    destruct (decide (v = VNull)) as [->|Hv].
    + rewrite bool_decide_true by done. rewrite (node_cdr_Some _ _ _ E). cbn [bind n_cdr].
      destruct (exists_last (l := hd :: K)) as (K0 & k & EK); [done|].
      destruct (exists_last (l := (u, w) :: cK)) as (c0 & [tk vk] & Ec); [done|].
      rewrite EK in *. rewrite Ec in *. rewrite last_snoc.
      assert (Hk : h !! k = Some (Node tk vk (Some a))).
      { pose proof H1 as H1'. apply seg_app in H1' as (r & _ & [_ (q & Eq & Hq)]).
        - simpl in Hq. by subst q.
        - pose proof (seg_length _ _ _ _ _ H1) as HL. rewrite !app_length in HL. simpl in HL. lia. }
      rewrite (poke_cdr_Some _ _ _ _ Hk). cbn [bind n_tag n_car].
      assert (Hka : k <> a).
      { intros ->. apply NoDup_app in Hnd as (_ & Hd & _). apply (Hd a); [|left].
        apply elem_of_app. right. left. }
      assert (HkR : k ∉ R).
      { intros Hin. apply NoDup_app in Hnd as (_ & Hd & _). apply (Hd k); [|by right].
        apply elem_of_app. right. left. }
      rewrite (node_cdr_Some _ a (Node t VNull p')) by by rewrite list_lookup_insert_ne.
      cbn [bind n_cdr].
      destruct (seg_relink _ _ _ _ _ _ _ _ p' _ ltac:(by apply NoDup_app in Hnd as (? & _ & _)) Hk H1) as [_ H1'].
      rewrite <- EK, <- Ec in H1'.
      destruct (IH _ K cK R cR p' H1') as (h' & al & EE & HS & Hsub & Hlen & Hfr).
      * eapply seg_frame; [|done]. intros b Hb. apply list_lookup_insert_ne. by intros ->.
      * simpl in Hf. lia.
      * exists h', al. rewrite EK, last_snoc in EE. split; [done|]. split.
        { rewrite filter_cons_False by (simpl; by intros Hx). done. }
        split; [by apply sublist_cons|]. split; [by rewrite Hlen, insert_length|].
        intros b Hb.
        assert (b <> k).
        { intros ->. apply Hb. change (hd :: K ++ a :: R) with ((hd :: K) ++ a :: R). rewrite EK.
          rewrite !elem_of_app. left. right. left. }
        rewrite Hfr; [by apply list_lookup_insert_ne|].
        rewrite elem_of_cons, elem_of_app in Hb. rewrite elem_of_cons, elem_of_app.
        rewrite elem_of_cons in Hb. tauto.
    + rewrite bool_decide_false by done. cbn [bind].
      rewrite (node_cdr_Some _ _ _ E). cbn [bind n_cdr].
      destruct (IH h (K ++ [a]) (cK ++ [(t, v)]) R cR p') as (h' & al & EE & HS & Hsub & Hlen & Hfr).
      * change (hd :: K ++ [a]) with ((hd :: K) ++ [a]).
        change ((u, w) :: cK ++ [(t, v)]) with (((u, w) :: cK) ++ [(t, v)]).
        apply seg_app; [by eapply seg_length|]. exists (Some a). split; [done|]. simpl. eauto.
      * done.
      * simpl in Hf. lia.
      * exists h', (a :: al). change (hd :: K ++ [a]) with ((hd :: K) ++ [a]) in EE.
        rewrite last_snoc in EE. split; [done|].
        rewrite filter_cons_True by done. rewrite <- !app_assoc in HS. split; [done|].
        split; [by apply sublist_skip|]. split; [done|].
        intros b Hb. apply Hfr. by rewrite <- app_assoc.
Qed.

Lemma rev_loop_ok f h D cD R cR prev nd :
  seg h prev D cD None -> seg h nd R cR None -> NoDup (D ++ R) -> length R < f ->
  exists h' p, rev_loop f h prev nd = Ok (h', p) /\
    seg h' p (reverse R ++ D) (reverse cR ++ cD) None /\ length h' = length h /\
    (forall a, a ∉ R -> h' !! a = h !! a).
Proof.
  revert h D cD R cR prev nd. induction f as [|f IH]; intros h D cD R cR prev nd H1 H2 Hn Hf; [lia|].
  destruct R as [|a R], cR as [|[t v] cR]; try done.
  - simpl in H2. subst nd. exists h, prev. cbn [rev_loop]. rewrite bool_decide_true by done. done.
  - pose proof H2 as [-> (p' & E & H3)]. cbn [rev_loop]. rewrite bool_decide_false by done.
    rewrite (node_cdr_Some _ _ _ E). cbn [bind n_cdr]. rewrite (poke_cdr_Some _ _ _ _ E).
    cbn [bind n_tag n_car].
    assert (Hlt : a < length h) by by eapply lookup_lt_Some.
    apply NoDup_app in Hn as (HnD & Hd & HnR). inversion HnR as [|? ? HaR HnR']; subst.
    destruct (IH (<[a := Node t v prev]> h) (a :: D) ((t, v) :: cD) R cR (Some a) p')
      as (h' & p & EE & HS & Hlen & Hfr).
    + simpl. split; [done|]. exists prev. rewrite list_lookup_insert by done. split; [done|].
      eapply seg_frame; [|done]. intros b Hb. apply list_lookup_insert_ne. intros ->.
      apply (Hd b Hb). left.
    + eapply seg_frame; [|done]. intros b Hb. apply list_lookup_insert_ne. by intros ->.
    + simpl. constructor.
      * rewrite elem_of_app. intros [Hx|Hx]; [|done]. apply (Hd a Hx). left.
      * apply NoDup_app. split; [done|]. split; [|done]. intros x Hx Hx'. apply (Hd x Hx). by right.
    + simpl in Hf. lia.
    + exists h', p. split; [done|]. rewrite !reverse_cons, <- !app_assoc. split; [done|].
      split; [by rewrite Hlen, insert_length|].
      intros b Hb. rewrite elem_of_cons in Hb. rewrite Hfr by tauto.
      apply list_lookup_insert_ne. intros ->. tauto.
Qed.

Lemma find_loop_ok f h al cs nd tag :
  seg h nd al cs None -> length al < f ->
  (find_loop f h nd tag = Ok None /\ Forall (fun c => c.1 <> tag) cs) \/
  (exists i a v, find_loop f h nd tag = Ok (Some a) /\ al !! i = Some a /\ cs !! i = Some (tag, v) /\
     Forall (fun c => c.1 <> tag) (take i cs)).
Proof.
  revert al cs nd. induction f as [|f IH]; intros al cs nd H Hf; [lia|].
  destruct al as [|a al], cs as [|[t v] cs]; try done.
  - simpl in H. subst. left. done.
  - pose proof H as [-> (p' & E & H3)]. cbn [find_loop]. rewrite bool_decide_false by done.
    rewrite (node_tag_Some _ _ _ E). cbn [bind n_tag].
    destruct (decide (t = tag)) as [->|Ht].
    + rewrite bool_decide_true by done. right. exists 0, a, v. simpl. done.
    + rewrite bool_decide_false by done. rewrite (node_cdr_Some _ _ _ E). cbn [bind n_cdr].
      destruct (IH _ _ _ H3) as [[EE Hc]|(i & b & w & EE & E1 & E2 & Hc)]; [simpl in Hf; lia| |].
      * left. split; [done|]. by constructor.
      * right. exists (S i), b, w. split; [done|]. split; [done|]. split; [done|].
        simpl. by constructor.
Qed.

Lemma new_pairlist_ok h args n :
  n <= length args ->
  new_pairlist h args n =
    Ok (h ++ Node None VNull (if (0 <? n)%nat then Some (S (length h)) else None) ::
          mk (S (length h)) (take n args) None,
        if (0 <? n)%nat then Some (S (length h)) else None,
        if (0 <? n)%nat then Some (length h + n) else None).
Proof.
  intros Hn. unfold new_pairlist, new_node.
  assert (HL : forall m, m <= n ->
    for_ 0 m (fun i '(h, nd) =>
      let! (tag, v) := rd args i in
      let '(h, cdr) := (h ++ [Node None v None], Some (length h)) in
      let! h := poke_tag h cdr tag in
      let! h := poke_cdr h nd cdr in
      Ok (h, cdr)) (h ++ [Node None VNull None], Some (length h)) =
    Ok (h ++ mk (length h) ((None, VNull) :: take m args) None, Some (length h + m))).
  { induction m as [|m IH]; intros Hm.
    - simpl. rewrite Nat.add_0_r. done.
    - rewrite for_snoc, IH by lia. cbn [bind Nat.add].
      destruct (lookup_lt_is_Some_2 args m) as [[t v] Et]; [lia|].
      unfold rd at 1. rewrite Et. cbn [bind].
      set (h1 := h ++ mk _ _ _).
      rewrite (poke_tag_Some _ _ _ t (lookup_end h1 _)). rewrite insert_end. cbn [bind n_car n_cdr].
      assert (Hl1 : length h1 = length h + S m).
      { subst h1. rewrite app_length, mk_length. simpl. rewrite take_length. lia. }
      rewrite (take_S_r _ _ _ Et), app_comm_cons, mk_snoc.
      assert (Hex : exists cs0 t0 v0, (None, VNull) :: take m args = cs0 ++ [(t0, v0)] /\ length cs0 = m).
      { destruct (exists_last (l := ((None : sym), VNull) :: take m args)) as (c0 & [t0 v0] & Ec); [done|].
        exists c0, t0, v0. split; [done|]. apply (f_equal length) in Ec. rewrite app_length in Ec.
        simpl in Ec. rewrite take_length in Ec. lia. }
      destruct Hex as (c0 & t0 & v0 & Ec & Hc0). subst h1. rewrite Ec in *.
      assert (E1 : (h ++ mk (length h) (c0 ++ [(t0, v0)]) None) !! (length h + m) = Some (Node t0 v0 None)).
      { rewrite mk_snoc, app_assoc, <- Hc0.
        set (g := h ++ mk _ _ _). replace (length h + length c0) with (length g)
          by (subst g; rewrite app_length, mk_length; done). apply lookup_end. }
      rewrite (poke_cdr_Some _ _ (Node t0 v0 None)).
      2:{ rewrite lookup_app_l; [done|]. by eapply lookup_lt_Some. }
      cbn [bind n_tag n_car]. rewrite insert_app_l by by eapply lookup_lt_Some.
      pose proof (poke_mk_cdr h c0 t0 v0 None (Some (length h + S m))) as HP.
      rewrite Hc0 in HP. rewrite (poke_cdr_Some _ _ _ _ E1) in HP. cbn [n_tag n_car] in HP.
      injection HP as HP. rewrite Hl1, HP. rewrite app_length. simpl length. rewrite Hc0.
      rewrite <- app_assoc. replace (m + 1) with (S m) by lia. done. }
  rewrite HL by lia. cbn [bind]. clear HL.
  assert (Ht : (match take n args with [] => None | _ => Some (S (length h)) end) =
               if (0 <? n)%nat then Some (S (length h)) else None).
  { destruct n; [done|]. destruct args; [simpl in Hn; lia|]. done. }
  cbn [mk]. rewrite Ht.
  erewrite node_cdr_Some.
  2:{ rewrite lookup_app_r by lia. rewrite Nat.sub_diag. reflexivity. }
  cbn [bind n_cdr]. done.
Qed.

(** ** Copies of trees *)
Lemma rep_frame lo hi h h' v T :
  (forall a, lo <= a < hi -> h' !! a = h !! a) -> rep lo hi h v T -> rep lo hi h' v T.
Proof.
  intros Hf. revert v. induction T as [| |t c IHc d IHd]; intros v; simpl; [done..|].
  intros (a & n & -> & Ha & E & Et & Hc & Hd). exists a, n. rewrite (Hf a Ha). eauto 10.
Qed.
Lemma rep_widen lo hi lo' hi' h v T :
  lo' <= lo -> hi <= hi' -> rep lo hi h v T -> rep lo' hi' h v T.
Proof.
  intros H1 H2. revert v. induction T as [| |t c IHc d IHd]; intros v; simpl; [done..|].
  intros (a & n & -> & Ha & E & Et & Hc & Hd). exists a, n.
  split; [done|]. split; [lia|]. eauto 10.
Qed.
Fixpoint build (ts : list (sym * tree)) : tree :=
  match ts with [] => TNull | (t, c) :: ts => TNode t c (build ts) end.

Lemma rep_spine lo hi h p T :
  rep lo hi h (of_ptr p) T ->
  exists al cs ts, seg h p al cs None /\ T = build ts /\
    Forall2 (fun (c : sym * val) (u : sym * tree) => c.1 = u.1 /\ rep lo hi h c.2 u.2) cs ts /\
    Forall (fun u => height u.2 < height T) ts /\ length al < height T.
Proof.
  revert p. induction T as [|z|t c IHc d IHd]; intros p H.
  - destruct p; [done|]. exists [], [], []. simpl. split; [done|]. split; [done|]. split; [constructor|]. split; [constructor|]. lia.
  - by destruct p.
  - destruct H as (a & n & Ep & Ha & E & Et & Hc & Hd).
    destruct (IHd _ Hd) as (al & cs & ts & HS & -> & H2 & Hh & Hl).
    destruct p as [b|]; [|done]. injection Ep as ->. destruct n as [t' v q]. simpl in *. subst t'.
    exists (a :: al), ((t, v) :: cs), ((t, c) :: ts). simpl. split; [eauto|]. split; [done|].
    split; [by constructor|]. split; [|lia].
    constructor; [simpl; lia|]. eapply Forall_impl; [exact Hh|]. simpl. intros; lia.
Qed.

Lemma tree_walk_ok rec f :
  (forall h v T, rep 0 (length h) h v T -> height T <= f ->
     exists ext v', rec h v = Ok (h ++ ext, v') /\
       rep (length h) (length (h ++ ext)) (h ++ ext) v' T) ->
  forall fuel H rest al cs ts b,
    seg H rest al cs None -> NoDup al -> Forall (fun a => b <= a) al ->
    Forall2 (fun (c : sym * val) (u : sym * tree) => c.1 = u.1 /\ rep 0 b H c.2 u.2) cs ts ->
    b <= length H -> Forall (fun u => height u.2 <= f) ts -> length al < fuel ->
    exists H', tree_walk rec fuel H rest = Ok H' /\
      rep b (length H') H' (of_ptr rest) (build ts) /\ length H <= length H' /\
      (forall a, a < length H -> a ∉ al -> H' !! a = H !! a).
Proof.
  intros Hrec. induction fuel as [|fuel IH]; intros H rest al cs ts b HS Hn Hb H2 HbH Hh Hf; [lia|].
  destruct al as [|a al], cs as [|[t v] cs]; try done.
  - simpl in HS. subst rest. inversion H2; subst. exists H. cbn [tree_walk].
    rewrite bool_decide_true by done. split; [done|]. split; [done|]. split; [lia|]. done.
  - pose proof HS as [-> (p' & E & HS')].
    inversion H2 as [|? [t' u] ? ts' [Et Hu] H2' Eq1 Eq2]; subst. simpl in Et, Hu. subst t'.
    inversion Hn as [|? ? Han Hn']; subst. inversion Hb as [|? ? Hba Hb']; subst.
    inversion Hh as [|? ? Hhu Hh']; subst. simpl in Hhu.
    assert (HaH : a < length H) by by eapply lookup_lt_Some.
    assert (HalH : Forall (fun a => a < length H) al) by by eapply seg_bound.
    rewrite Forall_forall in HalH.
    cbn [tree_walk]. rewrite bool_decide_false by done. rewrite (node_car_Some _ _ _ E). cbn [bind n_car].
    assert (HH : exists H1 v1,
      (let! h := match v with
                 | VNode _ => let! (h, v0) := rec H v in poke_car h (Some a) v0
                 | _ => Ok H
                 end in
       let! rest := node_cdr h (Some a) in tree_walk rec fuel h rest) = tree_walk rec fuel H1 p' /\
      length H <= length H1 /\ H1 !! a = Some (Node t v1 p') /\
      (forall x, x < length H -> x <> a -> H1 !! x = H !! x) /\
      rep (length H) (length H1) H1 v1 u).
    { destruct v as [|c|z].
      - exists H, VNull. cbn [bind]. rewrite (node_cdr_Some _ _ _ E). split; [done|].
        split; [lia|]. split; [done|]. split; [done|].
        destruct u as [| |]; [done..|]. by destruct Hu as (? & ? & ? & _).
      - destruct (Hrec H (VNode c) u) as (ext & v' & EE & HR); [|done|].
        { eapply rep_widen; [| |exact Hu]; lia. }
        rewrite EE. cbn [bind].
        assert (E1 : (H ++ ext) !! a = Some (Node t (VNode c) p')) by by rewrite lookup_app_l.
        rewrite (poke_car_Some _ _ _ _ E1). cbn [bind n_tag n_cdr].
        exists (<[a := Node t v' p']> (H ++ ext)), v'.
        assert (E2 : <[a := Node t v' p']> (H ++ ext) !! a = Some (Node t v' p')).
        { apply list_lookup_insert. by eapply lookup_lt_Some. }
        rewrite (node_cdr_Some _ _ _ E2). split; [done|].
        split; [rewrite insert_length, app_length; lia|]. split; [done|]. split.
        + intros x Hx Hne. rewrite list_lookup_insert_ne by done. by apply lookup_app_l.
        + rewrite insert_length. eapply rep_frame; [|exact HR].
          intros x Hx. apply list_lookup_insert_ne. lia.
      - exists H, (VObj z). cbn [bind]. rewrite (node_cdr_Some _ _ _ E). split; [done|].
        split; [lia|]. split; [done|]. split; [done|].
        destruct u as [| |]; [done..|]. by destruct Hu as (? & ? & ? & _). }
    destruct HH as (H1 & v1 & -> & Hlen1 & E1 & Hfr1 & HR1).
    destruct (IH H1 p' al cs ts' b) as (H' & EE & HR & Hlen & Hfr).
    + eapply seg_frame; [|exact HS']. intros x Hx. apply Hfr1; [by apply HalH|]. by intros ->.
    + done.
    + done.
    + eapply Forall2_impl; [exact H2'|]. intros [? ?] [? ?] [? HR2]. split; [done|].
      eapply rep_frame; [|exact HR2]. intros x Hx. apply Hfr1; lia.
    + lia.
    + done.
    + simpl in Hf. lia.
    + exists H'. split; [done|]. split; [|split; [lia|]].
      * exists a, (Node t v1 p'). split; [done|]. split; [lia|].
        split; [rewrite Hfr by (lia || done); done|]. split; [done|]. split; [|done].
        simpl.
        eapply (rep_widen (length H) (length H1)); [lia|lia|].
        eapply rep_frame; [|exact HR1]. intros x Hx. apply Hfr; [lia|].
        intros Hin. apply HalH in Hin. lia.
      * intros x Hx Hni. rewrite elem_of_cons in Hni.
        rewrite Hfr by (lia || tauto). apply Hfr1; [done|]. tauto.
Qed.

Lemma prefix_of_agree (h H : heap) :
  length h <= length H -> (forall a, a < length h -> H !! a = h !! a) ->
  H = h ++ drop (length h) H.
Proof.
  intros Hl Ha. apply list_eq. intros i. destruct (decide (i < length h)) as [Hi|Hi].
  - rewrite Ha by done. by rewrite lookup_app_l.
  - rewrite lookup_app_r by lia. rewrite lookup_drop. f_equal. lia.
Qed.

Lemma node_tree_clone_ok fuel : forall h v T,
  rep 0 (length h) h v T -> height T <= fuel ->
  exists ext v', node_tree_clone fuel h v = Ok (h ++ ext, v') /\
    rep (length h) (length (h ++ ext)) (h ++ ext) v' T.
Proof.
  induction fuel as [|fuel IH]; intros h v T HR Hh.
  { destruct T; simpl in Hh; lia. }
  destruct v as [|a|z].
  - exists [], VNull. rewrite app_nil_r. split; [done|].
    destruct T as [| |]; [done..|]. by destruct HR as (? & ? & ? & _).
  - destruct (rep_spine _ _ _ (Some a) _ HR) as (al & cs & ts & HS & -> & H2 & Hhs & Hl).
    cbn [node_tree_clone].
    rewrite (clone_until_ok _ _ _ _ _ _ HS); [|by apply Forall_forall|lia].
    destruct al as [|b al], cs as [|[t v] cs]; try done.
    destruct (decide _) as [|_]; [done|]. cbn [bind].
    set (H := h ++ mk _ _ _).
    assert (Hne : (t, v) :: cs <> []) by done.
    pose proof (mk_seg h (length h) ((t, v) :: cs) None [] eq_refl Hne) as HS2.
    rewrite app_nil_r in HS2. fold H in HS2.
    pose proof (seg_length _ _ _ _ _ HS) as Hlen0.
    destruct (tree_walk_ok (node_tree_clone fuel) fuel IH (S fuel) H (Some (length h))
      (seq (length h) (length ((t, v) :: cs))) ((t, v) :: cs) ts (length h)) as (H' & EE & HR' & Hlen & Hfr).
    + done.
    + apply NoDup_seq.
    + apply Forall_forall. intros x Hx. apply elem_of_seq in Hx. lia.
    + eapply Forall2_impl; [exact H2|]. intros [? ?] [? ?] [? HR2]. split; [done|].
      eapply rep_frame; [|exact HR2]. intros x Hx. subst H. apply lookup_app_l. lia.
    + subst H. rewrite app_length. lia.
    + eapply Forall_impl; [exact Hhs|]. simpl. intros; lia.
    + rewrite seq_length. simpl in *. lia.
    + rewrite EE. cbn [bind].
      assert (HP : H' = h ++ drop (length h) H').
      { apply prefix_of_agree.
        - etrans; [|exact Hlen]. subst H. rewrite app_length. lia.
        - intros x Hx. rewrite Hfr.
          + subst H. by apply lookup_app_l.
          + subst H. rewrite app_length. lia.
          + rewrite elem_of_seq. lia. }
      exists (drop (length h) H'), (VNode (length h)). rewrite <- HP. done.
  - exists [], (VObj z). rewrite app_nil_r. split; [done|].
    destruct T as [| |]; [done..|]. by destruct HR as (? & ? & ? & _).
Qed.
