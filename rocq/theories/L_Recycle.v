(** * Lemmas about common sizes and recycling *)
From Verif Require Import Base M_Double M_Scalar M_Hash M_Object M_Proxy M_Slice M_Growable M_Runs M_Rep Spec_Slice Spec_Rep
  L_Proxy L_Slice L_SliceArray L_Assign L_Value L_SliceVal L_Rep.
From Coq Require Import ZifyBool ZifyNat.

Fixpoint foldM {A} (f : A -> A -> res A) (cur : A) (xs : list A) : res A :=
  match xs with [] => Ok cur | x :: xs => let! c := f cur x in foldM f c xs end.
Lemma reduce_foldM {A} (f : A -> A -> res A) cur xs : reduce f cur xs = foldM f cur xs.
Proof.
  unfold reduce. assert (G : forall ws pre cur, xs = pre ++ ws ->
    for_ (length pre) (length ws) (fun i cur => let! next := rd xs i in f cur next) cur = foldM f cur ws).
  { induction ws as [|x ws IH]; intros pre c E; [done|]. cbn [length for_ foldM].
    assert (rd xs (length pre) = Ok x) as -> by (apply rd_Ok; rewrite E, lookup_app_r, Nat.sub_diag by lia; done). cbn [bind].
    destruct (f c x) as [c'| |]; cbn [bind]; [|done|done].
    specialize (IH (pre ++ [x]) c'). rewrite app_length, Nat.add_1_r, <- app_assoc in IH. by apply IH. }
  by apply (G xs []).
Qed.

Definition matches (ns : list Z) (c : option value) : Prop :=
  match c with None => ns = [] | Some v => common_size ns (value_size v) end.
Lemma common_size_app ns s m : common_size ns s -> (m = s \/ m = 1)%Z -> common_size (ns ++ [m]) s.
Proof.
  intros [H1 H2] Hm. split; [apply in_or_app; by left|]. intros n Hn. apply in_app_or in Hn as [Hn|[<-|[]]]; [auto|lia].
Qed.
Lemma size_fold xs : forall ns c, matches ns c ->
  (exists r, foldM size2_common c xs = Ok r /\ matches (ns ++ sizes_of xs) r) \/
  (exists e, foldM size2_common c xs = Err e /\ incompatible (ns ++ sizes_of xs)).
Proof.
  induction xs as [|x xs IH]; intros ns c Hc.
  - left. exists c. split; [done|]. unfold sizes_of. simpl. by rewrite app_nil_r.
  - cbn [foldM]. destruct x as [vx|].
    2:{ assert (size2_common c None = Ok c) as -> by by destruct c. cbn [bind]. apply IH. done. }
    assert (Es : sizes_of (Some vx :: xs) = value_size vx :: sizes_of xs) by done.
    rewrite Es. replace (ns ++ value_size vx :: sizes_of xs) with ((ns ++ [value_size vx]) ++ sizes_of xs) by (by rewrite <- app_assoc).
    destruct c as [v|].
    + simpl size2_common. simpl in Hc. destruct (Z.eqb_spec (value_size v) (value_size vx)) as [E|E]; cbn [bind].
      { apply IH. apply common_size_app; [done|by left]. }
      destruct (Z.eqb_spec (value_size v) 1) as [E1|E1]; cbn [bind].
      { apply IH. simpl. split; [apply in_or_app; right; by left|]. intros n Hn.
        apply in_app_or in Hn as [Hn|[<-|[]]]; [|by left]. destruct Hc as [_ Hc]. destruct (Hc n Hn); right; lia. }
      destruct (Z.eqb_spec (value_size vx) 1) as [E2|E2]; cbn [bind].
      { apply IH. apply common_size_app; [done|by right]. }
      right. eexists. split; [done|]. exists (value_size v), (value_size vx). destruct Hc as [Hc _].
      rewrite !in_app_iff. simpl. tauto.
    + simpl size2_common. cbn [bind]. simpl in Hc. subst ns. apply IH. simpl. split; [by left|]. intros n [<-|[]]; by left.
Qed.
Lemma common_not_incompatible ns s : common_size ns s -> ~ incompatible ns.
Proof. intros [_ H] (a & b & Ha & Hb & H1 & H2 & H3). apply H in Ha, Hb. lia. Qed.
Lemma common_size_unique ns s t : common_size ns s -> common_size ns t -> s = t.
Proof. intros [H1 H2] [H3 H4]. apply H4 in H1. apply H2 in H3. lia. Qed.

Lemma size_common_spec xs absent :
  (sizes_of xs = [] /\ vec_size_common xs absent = Ok absent) \/
  (exists s, common_size (sizes_of xs) s /\ vec_size_common xs absent = Ok s) \/
  (incompatible (sizes_of xs) /\ exists e, vec_size_common xs absent = Err e).
Proof.
  unfold vec_size_common. rewrite reduce_foldM.
  destruct (size_fold xs [] None eq_refl) as [(r & -> & H)|(e & -> & H)]; simpl in H; cbn [bind].
  - destruct r as [v|]; simpl in H; [right; left; eauto|by left].
  - right. right. eauto.
Qed.

Lemma check_recycle_spec x s : (match x with Some v => value_ok v | None => True end) -> (0 <= s <= INT_MAX)%Z ->
  (match x with Some v => value_size v = s \/ value_size v = 1%Z | None => True end) ->
  exists y, vec_check_recycle x s = Ok y /\ recycled s x y.
Proof.
  intros Hv Hs H. destruct x as [v|]; [|by eexists]. unfold vec_check_recycle.
  destruct (Z.eqb_spec (value_size v) s) as [E|E].
  - eexists; split; [done|]. exists v. split; [done|]. by left.
  - destruct H as [H|H]; [done|]. destruct (Z.eqb_spec (value_size v) 1); [|done].
    unfold compact_rep. destruct (Z.ltb_spec s 0); [lia|]. cbn [bind].
    rewrite slice_rep1_spec by done. cbn [bind]. eexists; split; [done|]. eexists; split; [done|]. right.
    split; [done|]. split; [lia|]. by apply sliced_slice_val.
Qed.
Lemma check_recycle_err v s : (value_size v <> s) -> (value_size v <> 1%Z \/ s < 0)%Z -> exists e, vec_check_recycle (Some v) s = Err e.
Proof.
  intros H1 H2. unfold vec_check_recycle. destruct (Z.eqb_spec (value_size v) s); [done|].
  destruct (Z.eqb_spec (value_size v) 1); [|eauto]. unfold compact_rep. destruct (Z.ltb_spec s 0); [|lia]. cbn [bind]. eauto.
Qed.
Lemma recycle_opts_spec xs s : Forall (fun x => match x with Some v => value_ok v | None => True end) xs -> (0 <= s <= INT_MAX)%Z ->
  Forall (fun x => match x with Some v => value_size v = s \/ value_size v = 1%Z | None => True end) xs ->
  exists ys, vec_recycle_common_opts xs s = Ok ys /\ Forall2 (recycled s) xs ys.
Proof.
  intros Hv Hs H. unfold vec_recycle_common_opts. destruct (Z.ltb_spec s 0); [lia|].
  destruct (for_inv (fun i ys => length ys = length xs /\ Forall2 (recycled s) (take i xs) (take i ys) /\ drop i ys = drop i xs)
    0 (length xs) (fun i xs =>
         let! elt := rd xs i in
         let! elt := vec_check_recycle elt s in
         wr xs i elt) xs) as (ys & Hf & Hl & Hys & _).
  - simpl. split; [done|]. split; [constructor|done].
  - intros i ys Hi (Hl & Hys & Hd). destruct (lookup_lt_is_Some_nth xs i) as [x Hx]; [lia|].
    assert (Hyi : ys !! i = Some x).
    { rewrite <- (Nat.add_0_r i), <- lookup_drop, Hd, lookup_drop, Nat.add_0_r. done. }
    assert (rd ys i = Ok x) as -> by by apply rd_Ok. cbn [bind].
    destruct (check_recycle_spec x s) as (y & -> & Hy); [rewrite Forall_lookup in Hv; by apply (Hv i x)|done|rewrite Forall_lookup in H; by apply (H i x)|].
    cbn [bind]. rewrite wr_Ok by lia. eexists; split; [done|]. rewrite insert_length. split; [done|]. split.
    + rewrite (take_S_r _ _ _ Hx), (take_S_r _ _ y) by (apply list_lookup_insert; lia). rewrite take_insert by lia.
      apply Forall2_app; [done|]. constructor; [done|constructor].
    + rewrite drop_insert_gt by lia. rewrite <- (Nat.add_1_r i), <- !drop_drop. by rewrite Hd.
  - exists ys. split; [done|]. rewrite Nat.add_0_l, !take_ge in Hys by lia. done.
Qed.
