(** * Lemmas: joint ranks *)
From Verif Require Import Base M_Double M_Scalar M_Slice M_Object M_Proxy M_OrderChr M_OrderDf M_Rank M_Match.
From Verif Require Import Spec_Order Spec_OrderRow L_OrderSpec P_Order.
From Coq Require Import Sorting.Sorted.
#[local] Arguments Z.mul : simpl never.
#[local] Arguments Z.add : simpl never.
#[local] Arguments Z.sub : simpl never.
#[local] Arguments Z.to_nat : simpl never.
#[local] Arguments Z.of_nat : simpl never.

Lemma rd_app_mid {A} (pre : list A) v post : rd (pre ++ v :: post) (length pre) = Ok v.
Proof. apply rd_Ok. rewrite lookup_app_r by lia. by rewrite Nat.sub_diag. Qed.

Lemma at_loc_insert (r : list Z) (v l m : Z) : (1 <= v <= Z.of_nat (length r))%Z -> (1 <= l)%Z ->
  at_loc 0%Z (<[Z.to_nat (v - 1) := m]> r) l = if decide (l = v) then m else at_loc 0%Z r l.
Proof.
  intros Hv Hl. unfold at_loc. destruct (decide (l = v)) as [->|Ne].
  - apply nth_lookup_Some. apply list_lookup_insert. lia.
  - rewrite !nth_lookup. rewrite list_lookup_insert_ne by lia. done.
Qed.

(** The locations [b] get the rank. *)
Lemma rank_group_ok (b pre post : list Z) rank ranks : Forall (fun l => 1 <= l <= Z.of_nat (length ranks))%Z b ->
  exists ranks', rank_group (pre ++ b ++ post) (length b) rank (length pre) ranks = Ok (length pre + length b, ranks') /\
    length ranks' = length ranks /\
    forall l, (1 <= l)%Z -> at_loc 0%Z ranks' l = if decide (l ∈ b) then rank else at_loc 0%Z ranks l.
Proof.
  unfold rank_group. generalize 0 as k. revert pre ranks. induction b as [|v b IH]; intros pre ranks k Hb.
  - exists ranks. cbn. rewrite Nat.add_0_r. split; [done|]. split; [done|]. intros l _. rewrite decide_False; [done|apply not_elem_of_nil].
  - apply Forall_cons in Hb as [Hv Hb]. cbn [length for_ app]. rewrite rd_app_mid. cbn [bind].
    assert (E : wrZ ranks (v - 1) rank = Ok (<[Z.to_nat (v - 1) := rank]> ranks)).
    { unfold wrZ. rewrite (proj2 (Z.ltb_ge (v - 1) 0)) by lia. apply wr_Ok. lia. }
    rewrite E. cbn [bind].
    destruct (IH (pre ++ [v]) (<[Z.to_nat (v - 1) := rank]> ranks) (S k)) as (r' & E' & L & H).
    { eapply Forall_impl; [exact Hb|]. cbn beta. intros l. by rewrite insert_length. }
    replace ((pre ++ [v]) ++ b ++ post) with (pre ++ v :: b ++ post) in E' by (by rewrite <- app_assoc).
    rewrite app_length in E'. cbn [length] in E'. replace (length pre + 1) with (S (length pre)) in E' by lia.
    exists r'. rewrite E'. split; [f_equal; f_equal; lia|]. split; [rewrite L; apply insert_length|].
    intros l Hl. rewrite H by done. destruct (decide (l ∈ b)) as [Hin|Hin].
    + rewrite decide_True; [done|]. by apply elem_of_list_further.
    + rewrite at_loc_insert by done. destruct (decide (l = v)) as [->|Ne].
      * rewrite decide_True; [done|]. apply elem_of_list_here.
      * rewrite decide_False; [done|]. rewrite elem_of_cons. tauto.
Qed.

(** ** Blocks of equal locations in order *)
Definition in_blocks (cmp : Z -> Z -> comparison) (n : nat) (bs : list (list Z)) : Prop :=
  concat bs ≡ₚ locs n /\ Forall (fun b => b <> []) bs /\
  Forall (fun b => forall x y, x ∈ b -> y ∈ b -> cmp x y = Eq) bs /\
  StronglySorted (fun b c => forall x y, x ∈ b -> y ∈ c -> cmp x y = Lt) bs.

Lemma elem_locs n a : a ∈ locs n <-> (1 <= a <= Z.of_nat n)%Z.
Proof.
  unfold locs. rewrite elem_of_list_In, in_map_iff. split.
  - intros (i & <- & Hi). apply in_seq in Hi. lia.
  - intros H. exists (Z.to_nat (a - 1)). rewrite in_seq. lia.
Qed.

Section blocks.
  Context (cmp : Z -> Z -> comparison) (T : tpo cmp) (n : nat) (bs : list (list Z)) (B : in_blocks cmp n bs).
  Lemma bl_elem a : a ∈ concat bs <-> (1 <= a <= Z.of_nat n)%Z.
  Proof. destruct B as (P & _). rewrite P. apply elem_locs. Qed.
  Lemma bl_split i b : bs !! i = Some b -> concat bs = concat (take i bs) ++ b ++ concat (drop (S i) bs).
  Proof. intros E. rewrite <- (take_drop_middle bs i b E) at 1. rewrite concat_app. done. Qed.
  Lemma bl_take i b : bs !! i = Some b -> concat (take (S i) bs) = concat (take i bs) ++ b.
  Proof. intros E. rewrite (take_S_r _ _ _ E), concat_app. cbn. by rewrite app_nil_r. Qed.
  Lemma bl_undone i a : (1 <= a <= Z.of_nat n)%Z -> a ∉ concat (take i bs) -> a ∈ concat (drop i bs).
  Proof.
    intros Ha%bl_elem Hn. rewrite <- (take_drop i bs) in Ha. rewrite concat_app, elem_of_app in Ha. by destruct Ha.
  Qed.
  Lemma bl_range i b a : bs !! i = Some b -> a ∈ b -> (1 <= a <= Z.of_nat n)%Z.
  Proof. intros E Ha. apply bl_elem. rewrite (bl_split i b E), !elem_of_app. auto. Qed.
  Lemma bl_take_range i a : a ∈ concat (take i bs) -> (1 <= a <= Z.of_nat n)%Z.
  Proof. intros Ha. apply bl_elem. rewrite <- (take_drop i bs), concat_app, elem_of_app. auto. Qed.
  Lemma bl_eq i b x y : bs !! i = Some b -> x ∈ b -> y ∈ b -> cmp x y = Eq.
  Proof. destruct B as (_ & _ & E & _). intros H. exact (proj1 (Forall_lookup _ _) E i b H x y). Qed.
  Lemma bl_lt i b x y : bs !! i = Some b -> x ∈ b -> y ∈ concat (drop (S i) bs) -> cmp x y = Lt.
  Proof.
    destruct B as (_ & _ & _ & SS). intros H Hx Hy. apply in_concat_block in Hy as (c & Hc & Hy).
    apply elem_of_list_lookup in Hc as [j Hj]. rewrite lookup_drop in Hj.
    exact (ss_lookup _ _ i (S i + j) b c SS ltac:(lia) H Hj x y Hx Hy).
  Qed.
  Lemma bl_ne i b : bs !! i = Some b -> b <> [].
  Proof. destruct B as (_ & E & _). intros H. exact (proj1 (Forall_lookup _ _) E i b H). Qed.
  (** Elements not yet done are at or after the next block. *)
  Lemma bl_le i b x y : bs !! i = Some b -> x ∈ b -> (1 <= y <= Z.of_nat n)%Z -> y ∉ concat (take i bs) -> cmp x y = Eq \/ cmp x y = Lt.
  Proof.
    intros H Hx Hy Hn. pose proof (bl_undone i y Hy Hn) as Hd. rewrite (drop_S _ _ _ H) in Hd. cbn [concat] in Hd.
    apply elem_of_app in Hd as [Hd|Hd]; [left; by eapply bl_eq|right; by eapply bl_lt].
  Qed.
  Lemma bl_next i b x y : bs !! i = Some b -> x ∈ b -> (1 <= y <= Z.of_nat n)%Z -> y ∉ concat (take (S i) bs) -> cmp x y = Lt.
  Proof. intros H Hx Hy Hn. eapply bl_lt; [done|done|]. by apply bl_undone. Qed.
  Lemma bl_disjoint i b x : bs !! i = Some b -> x ∈ b -> x ∉ concat (take i bs).
  Proof.
    intros H Hx Hin. destruct B as (_ & _ & _ & SS). apply in_concat_block in Hin as (c & Hc & Hy).
    apply elem_of_list_lookup in Hc as [j Hj]. apply lookup_take_Some in Hj as [Hj Hlt].
    pose proof (ss_lookup _ _ j i c b SS Hlt Hj H x x Hy Hx) as E. rewrite (tp_refl _ T) in E. done.
  Qed.
  Lemma bl_count : length bs <= n.
  Proof.
    destruct B as (P & Hne & _). assert (length (concat bs) = n) as <-.
    { rewrite P. unfold locs. by rewrite map_length, seq_length. }
    clear -Hne. induction Hne as [|b bs Hb _ IH]; [done|]. cbn. rewrite app_length. destruct b; [done|]. cbn. lia.
  Qed.
  Lemma bl_group i b rank ranks : bs !! i = Some b -> length ranks = n ->
    exists ranks', rank_group (concat bs) (length b) rank (length (concat (take i bs))) ranks = Ok (length (concat (take (S i) bs)), ranks') /\
      length ranks' = n /\ forall l, (1 <= l)%Z -> at_loc 0%Z ranks' l = if decide (l ∈ b) then rank else at_loc 0%Z ranks l.
  Proof.
    intros H L. rewrite (bl_split i b H).
    destruct (rank_group_ok b (concat (take i bs)) (concat (drop (S i) bs)) rank ranks) as (r' & -> & L' & HH).
    { apply Forall_forall. intros a Ha. rewrite L. by eapply bl_range. }
    exists r'. rewrite (bl_take i b H), app_length. split; [done|]. split; [congruence|done].
  Qed.
  Lemma bl_head i b : bs !! i = Some b -> exists v, rd (concat bs) (length (concat (take i bs))) = Ok v /\ v ∈ b.
  Proof.
    intros H. rewrite (bl_split i b H). pose proof (bl_ne i b H). destruct b as [|v b]; [done|].
    exists v. cbn [app]. rewrite rd_app_mid. split; [done|apply elem_of_list_here].
  Qed.
End blocks.

(** ** Merging the groups of two vectors *)
Section joint.
  (** [jc] compares locations of the two vectors one after the other. *)
  Context (jc : Z -> Z -> comparison) (T : tpo jc) (nx ny : nat) (bx bz : list (list Z)).
  Notation sh := (fun a => Z.of_nat nx + a)%Z.
  Context (BX : in_blocks jc nx bx) (BY : in_blocks (fun a b => jc (sh a) (sh b)) ny bz).
  Context (Hn : (Z.of_nat nx + Z.of_nat ny <= 2 * INT_MAX)%Z).

  Definition jdone (i j : nat) (p : Z) : Prop := p ∈ concat (take i bx) \/ (p - Z.of_nat nx)%Z ∈ concat (take j bz).
  Definition jvalid (p : Z) : Prop := (1 <= p <= Z.of_nat nx + Z.of_nat ny)%Z.
  Definition jrank (xr yr : list Z) (p : Z) : Z := if (p <=? Z.of_nat nx)%Z then at_loc 0%Z xr p else at_loc 0%Z yr (p - Z.of_nat nx).
  Definition jinv (i j : nat) (xr yr : list Z) (rank : Z) : Prop :=
    length xr = nx /\ length yr = ny /\ i <= length bx /\ j <= length bz /\
    (INT_MIN < rank <= INT_MIN + 1 + Z.of_nat (i + j))%Z /\
    (forall a, jdone i j a -> (INT_MIN < jrank xr yr a < rank)%Z) /\
    (forall a b, jdone i j a -> jdone i j b -> (jrank xr yr a ?= jrank xr yr b)%Z = jc a b) /\
    (forall a b, jdone i j a -> jvalid b -> ~ jdone i j b -> jc a b = Lt).

  Let TY : tpo (fun a b => jc (sh a) (sh b)). Proof. exact (tpo_preimage sh jc T). Qed.

  Lemma jstep i j xr yr rank i' j' xr' yr' (U : Z -> Prop) : jinv i j xr yr rank ->
    length xr' = nx -> length yr' = ny -> i' <= length bx -> j' <= length bz -> i + j < i' + j' ->
    (forall p, jdone i' j' p <-> jdone i j p \/ U p) ->
    (forall p, U p -> jvalid p /\ ~ jdone i j p) ->
    (forall p, U p -> jrank xr' yr' p = rank) -> (forall p, jdone i j p -> jrank xr' yr' p = jrank xr yr p) ->
    (forall a b, U a -> U b -> jc a b = Eq) ->
    (forall a b, U a -> jvalid b -> ~ jdone i' j' b -> jc a b = Lt) ->
    jinv i' j' xr' yr' (rank + 1).
  Proof.
    intros (L1 & L2 & Hi & Hj & Hr & I1 & I2 & I3) L1' L2' Hi' Hj' Hij HD HU R1 R2 HE HL.
    split; [done|]. split; [done|]. split; [done|]. split; [done|]. split; [lia|]. split; [|split].
    - intros a [Ha|Ha]%HD; [rewrite R2 by done; pose proof (I1 a Ha); lia|rewrite R1 by done; lia].
    - intros a b [Ha|Ha]%HD [Hb|Hb]%HD.
      + rewrite !R2 by done. by apply I2.
      + rewrite (R2 a), (R1 b) by done. destruct (HU b Hb). rewrite (I3 a b) by done. apply Z.compare_lt_iff. pose proof (I1 a Ha). lia.
      + rewrite (R2 b), (R1 a) by done. destruct (HU a Ha). pose proof (I3 b a Hb ltac:(done) ltac:(done)) as E.
        rewrite (tp_lt_gt _ T _ _ E). apply Z.compare_gt_iff. pose proof (I1 b Hb). lia.
      + rewrite !R1 by done. rewrite Z.compare_refl. symmetry. by apply HE.
    - intros a b [Ha|Ha]%HD Hv Hnd; [|by apply HL]. apply I3; [done|done|]. intros Hb. apply Hnd, HD. by left.
  Qed.

  Lemma jdone_x i j b p : bx !! i = Some b -> jdone (S i) j p <-> jdone i j p \/ p ∈ b.
  Proof. intros H. unfold jdone. rewrite (bl_take bx i b H), elem_of_app. tauto. Qed.
  Lemma jdone_y i j b p : bz !! j = Some b -> jdone i (S j) p <-> jdone i j p \/ (p - Z.of_nat nx)%Z ∈ b.
  Proof. intros H. unfold jdone. rewrite (bl_take bz j b H), elem_of_app. tauto. Qed.

  (** Undone locations of [x] and [y]. *)
  Lemma undone_x i j p : (p <= Z.of_nat nx)%Z -> ~ jdone i j p -> p ∉ concat (take i bx).
  Proof. intros _ H Hin. apply H. by left. Qed.
  Lemma undone_y i j p : ~ jdone i j p -> (p - Z.of_nat nx)%Z ∉ concat (take j bz).
  Proof. intros H Hin. apply H. by right. Qed.
  Lemma x_fresh i j b p : bx !! i = Some b -> p ∈ b -> jvalid p /\ (p <= Z.of_nat nx)%Z /\ ~ jdone i j p.
  Proof.
    intros H Hp. pose proof (bl_range jc nx bx BX i b p H Hp). split; [unfold jvalid; lia|]. split; [lia|].
    intros [Hin|Hin]; [by apply (bl_disjoint jc T nx bx BX i b p H Hp)|].
    apply (bl_take_range _ ny bz BY) in Hin. lia.
  Qed.
  Lemma y_fresh i j b p : bz !! j = Some b -> (p - Z.of_nat nx)%Z ∈ b -> jvalid p /\ (Z.of_nat nx < p)%Z /\ ~ jdone i j p.
  Proof.
    intros H Hp. pose proof (bl_range _ ny bz BY j b _ H Hp). split; [unfold jvalid; lia|]. split; [lia|].
    intros [Hin|Hin]; [|by apply (bl_disjoint _ TY ny bz BY j b _ H Hp)].
    apply (bl_take_range jc nx bx BX) in Hin. lia.
  Qed.
  Lemma sh_sub p : (Z.of_nat nx + (p - Z.of_nat nx))%Z = p. Proof. lia. Qed.

  (** A group of [x] that is before the undone locations of [y]. *)
  Lemma jstep_x i j xr yr rank b : jinv i j xr yr rank -> bx !! i = Some b ->
    (forall a p, a ∈ b -> (Z.of_nat nx < p)%Z -> jvalid p -> ~ jdone i j p -> jc a p = Lt) ->
    exists xr', rank_group (concat bx) (length b) rank (length (concat (take i bx))) xr = Ok (length (concat (take (S i) bx)), xr') /\
      jinv (S i) j xr' yr (rank + 1).
  Proof.
    intros I H HL. pose proof I as (L1 & L2 & Hi & Hj & _).
    destruct (bl_group jc nx bx BX i b rank xr H L1) as (xr' & E & L' & HR).
    exists xr'. split; [done|]. apply (jstep i j xr yr rank (S i) j xr' yr (fun p => p ∈ b)); try done.
    - apply lookup_lt_Some in H. lia.
    - lia.
    - intros p. by apply jdone_x.
    - intros p Hp. destruct (x_fresh i j b p H Hp) as (? & ? & ?). done.
    - intros p Hp. destruct (x_fresh i j b p H Hp) as (V & Hle & ?). unfold jrank, jvalid in *.
      rewrite (proj2 (Z.leb_le _ _)) by lia. rewrite HR by lia. by rewrite decide_True.
    - intros p Hp. unfold jrank. destruct (Z.leb_spec p (Z.of_nat nx)) as [Hle|Hle]; [|done].
      destruct (decide (1 <= p)%Z) as [H1|H1].
      + rewrite HR by lia. rewrite decide_False; [done|]. intros Hb. by destruct (x_fresh i j b p H Hb) as (_ & _ & ?).
      + exfalso. destruct Hp as [Hp|Hp]; [apply (bl_take_range jc nx bx BX) in Hp; lia|apply (bl_take_range _ ny bz BY) in Hp; lia].
    - intros a c. by apply (bl_eq jc nx bx BX i b).
    - intros a p Ha V Hnd. destruct (Z.le_gt_cases p (Z.of_nat nx)) as [Hle|Hle].
      + apply (bl_next jc nx bx BX i b a p H Ha); [unfold jvalid in V; lia|]. by eapply undone_x.
      + apply HL; [done|lia|done|]. intros Hd. apply Hnd. rewrite (jdone_x i j b) by done. by left.
  Qed.
  Lemma jstep_y i j xr yr rank b : jinv i j xr yr rank -> bz !! j = Some b ->
    (forall a p, a ∈ b -> (p <= Z.of_nat nx)%Z -> jvalid p -> ~ jdone i j p -> jc (sh a) p = Lt) ->
    exists yr', rank_group (concat bz) (length b) rank (length (concat (take j bz))) yr = Ok (length (concat (take (S j) bz)), yr') /\
      jinv i (S j) xr yr' (rank + 1).
  Proof.
    intros I H HL. pose proof I as (L1 & L2 & Hi & Hj & _).
    destruct (bl_group _ ny bz BY j b rank yr H L2) as (yr' & E & L' & HR).
    exists yr'. split; [done|]. apply (jstep i j xr yr rank i (S j) xr yr' (fun p => (p - Z.of_nat nx)%Z ∈ b)); try done.
    - apply lookup_lt_Some in H. lia.
    - lia.
    - intros p. by apply jdone_y.
    - intros p Hp. destruct (y_fresh i j b p H Hp) as (? & ? & ?). done.
    - intros p Hp. destruct (y_fresh i j b p H Hp) as (V & Hle & ?). unfold jrank, jvalid in *.
      rewrite (proj2 (Z.leb_gt _ _)) by lia. rewrite HR by lia. by rewrite decide_True.
    - intros p Hp. unfold jrank. destruct (Z.leb_spec p (Z.of_nat nx)) as [Hle|Hle]; [done|].
      rewrite HR by lia. rewrite decide_False; [done|]. intros Hb. by destruct (y_fresh i j b p H Hb) as (_ & _ & ?).
    - intros a c Ha Hc. rewrite <- (sh_sub a), <- (sh_sub c). by apply (bl_eq _ ny bz BY j b _ _ H).
    - intros a p Ha V Hnd. rewrite <- (sh_sub a). destruct (Z.le_gt_cases p (Z.of_nat nx)) as [Hle|Hle].
      + apply HL; [done|lia|done|]. intros Hd. apply Hnd. rewrite (jdone_y i j b) by done. by left.
      + rewrite <- (sh_sub p). apply (bl_next _ ny bz BY j b _ _ H Ha); [unfold jvalid in V; lia|]. by eapply undone_y.
  Qed.
  (** A group of each. *)
  Lemma jstep_xy i j xr yr rank b c : jinv i j xr yr rank -> bx !! i = Some b -> bz !! j = Some c ->
    (forall a d, a ∈ b -> d ∈ c -> jc a (sh d) = Eq) ->
    exists xr' yr', rank_group (concat bx) (length b) rank (length (concat (take i bx))) xr = Ok (length (concat (take (S i) bx)), xr') /\
      rank_group (concat bz) (length c) rank (length (concat (take j bz))) yr = Ok (length (concat (take (S j) bz)), yr') /\
      jinv (S i) (S j) xr' yr' (rank + 1).
  Proof.
    intros I Hb Hc HE. pose proof I as (L1 & L2 & Hi & Hj & _).
    destruct (bl_group jc nx bx BX i b rank xr Hb L1) as (xr' & E & L' & HR).
    destruct (bl_group _ ny bz BY j c rank yr Hc L2) as (yr' & E' & L'' & HR').
    exists xr', yr'. split; [done|]. split; [done|].
    assert (HD : forall p, jdone (S i) (S j) p <-> jdone i j p \/ (p ∈ b \/ (p - Z.of_nat nx)%Z ∈ c)).
    { intros p. rewrite (jdone_x i (S j) b), (jdone_y i j c) by done. tauto. }
    assert (HE' : forall a d, a ∈ b -> (d - Z.of_nat nx)%Z ∈ c -> jc a d = Eq).
    { intros a d Ha Hd. rewrite <- (sh_sub d). by apply HE. }
    apply (jstep i j xr yr rank (S i) (S j) xr' yr' (fun p => p ∈ b \/ (p - Z.of_nat nx)%Z ∈ c)); try done.
    - apply lookup_lt_Some in Hb. lia.
    - apply lookup_lt_Some in Hc. lia.
    - lia.
    - intros p [Hp|Hp]; [destruct (x_fresh i j b p Hb Hp) as (? & ? & ?)|destruct (y_fresh i j c p Hc Hp) as (? & ? & ?)]; done.
    - intros p [Hp|Hp]; unfold jrank.
      + destruct (x_fresh i j b p Hb Hp) as (V & Hle & ?). unfold jvalid in *.
        rewrite (proj2 (Z.leb_le _ _)) by lia. rewrite HR by lia. by rewrite decide_True.
      + destruct (y_fresh i j c p Hc Hp) as (V & Hle & ?). unfold jvalid in *.
        rewrite (proj2 (Z.leb_gt _ _)) by lia. rewrite HR' by lia. by rewrite decide_True.
    - intros p Hp. unfold jrank. destruct (Z.leb_spec p (Z.of_nat nx)) as [Hle|Hle].
      + destruct (decide (1 <= p)%Z) as [H1|H1].
        * rewrite HR by lia. rewrite decide_False; [done|]. intros Hin. by destruct (x_fresh i j b p Hb Hin) as (_ & _ & ?).
        * exfalso. destruct Hp as [Hp|Hp]; [apply (bl_take_range jc nx bx BX) in Hp; lia|apply (bl_take_range _ ny bz BY) in Hp; lia].
      + rewrite HR' by lia. rewrite decide_False; [done|]. intros Hin. by destruct (y_fresh i j c p Hc Hin) as (_ & _ & ?).
    - intros a d [Ha|Ha] [Hd|Hd].
      + by apply (bl_eq jc nx bx BX i b).
      + by apply HE'.
      + apply (tp_eq_sym _ T). by apply HE'.
      + rewrite <- (sh_sub a), <- (sh_sub d). by apply (bl_eq _ ny bz BY j c _ _ Hc).
    - assert (HX : forall a p, a ∈ b -> jvalid p -> ~ jdone (S i) (S j) p -> jc a p = Lt).
      { intros a p Ha V Hnd. destruct (Z.le_gt_cases p (Z.of_nat nx)) as [Hle|Hle].
        - apply (bl_next jc nx bx BX i b a p Hb Ha); [unfold jvalid in V; lia|]. by eapply undone_x.
        - pose proof (bl_ne _ ny bz BY j c Hc). destruct c as [|d c]; [done|].
          rewrite (tp_eq_l _ T a (sh d) p) by (apply HE; [done|apply elem_of_list_here]).
          rewrite <- (sh_sub p). apply (bl_next _ ny bz BY j (d :: c) _ _ Hc (elem_of_list_here _ _)); [unfold jvalid in V; lia|]. by eapply undone_y. }
      intros a p [Ha|Ha] V Hnd; [by apply HX|].
      pose proof (bl_ne jc nx bx BX i b Hb). destruct b as [|d b]; [done|].
      rewrite <- (tp_eq_l _ T d a p) by (apply HE'; [apply elem_of_list_here|done]). apply HX; [apply elem_of_list_here|done|done].
  Qed.

  Lemma jrank_ok i j xr yr rank : jinv i j xr yr rank -> i + j <= length bx + length bz -> int_add (rank - 1) 1 = Ok rank.
  Proof.
    intros (_ & _ & _ & _ & Hr & _) Hij. pose proof (bl_count jc nx bx BX). pose proof (bl_count _ ny bz BY).
    unfold int_add. rewrite Z.sub_add. unfold int_ok, INT_MIN, INT_MAX in *.
    rewrite (proj2 (Z.leb_le _ _)) by lia. rewrite (proj2 (Z.leb_le _ _)) by lia. done.
  Qed.

  Context (x y : oproxy) (nd : bool).
  Definition cmp_code (c : comparison) : Z := match c with Lt => -1 | Eq => 0 | Gt => 1 end.
  Context (JC : forall a b, (1 <= a <= Z.of_nat nx)%Z -> (1 <= b <= Z.of_nat ny)%Z ->
    joint_compare x (a - 1) y (b - 1) nd = Ok (cmp_code (jc a (sh b)))).

  Lemma map_rd_length (bs : list (list Z)) i b : bs !! i = Some b -> rd (map length bs) i = Ok (length b).
  Proof. intros H. apply rd_Ok. by apply map_lookup0. Qed.

  Lemma loop_ok fuel : forall i j xr yr rank, jinv i j xr yr rank -> (length bx - i) + (length bz - j) <= fuel ->
    exists i' j' xr' yr' rank',
      joint_xtfrm_loop fuel x y nd (concat bx) (map length bx) (concat bz) (map length bz)
        (J i (length (concat (take i bx))) xr j (length (concat (take j bz))) yr rank) =
      Ok (J i' (length (concat (take i' bx))) xr' j' (length (concat (take j' bz))) yr' rank') /\
      jinv i' j' xr' yr' rank' /\ (i' = length bx \/ j' = length bz).
  Proof.
    induction fuel as [|fuel IH]; intros i j xr yr rank I Hf; pose proof I as (L1 & L2 & Hi & Hj & _).
    - exists i, j, xr, yr, rank. cbn [joint_xtfrm_loop j_i j_j]. rewrite !map_length.
      rewrite (proj2 (Nat.ltb_ge i (length bx))) by lia. cbn [andb]. split; [done|]. split; [done|lia].
    - cbn [joint_xtfrm_loop j_i j_j]. rewrite !map_length.
      destruct (Nat.ltb_spec i (length bx)) as [Hi'|Hi']; cbn [andb]; [destruct (Nat.ltb_spec j (length bz)) as [Hj'|Hj']|].
      2,3: exists i, j, xr, yr, rank; (split; [done|]; split; [done|lia]).
      destruct (lookup_lt_is_Some_2 bx i Hi') as [b Hb]. destruct (lookup_lt_is_Some_2 bz j Hj') as [c Hc].
      rewrite (map_rd_length bx i b Hb), (map_rd_length bz j c Hc). cbn [bind j_x_o_loc j_y_o_loc j_x_ranks j_y_ranks j_rank].
      destruct (bl_head jc nx bx BX i b Hb) as (v & -> & Hv). cbn [bind].
      destruct (bl_head _ ny bz BY j c Hc) as (w & -> & Hw). cbn [bind].
      rewrite JC by (by eapply (bl_range jc nx bx BX) || by eapply (bl_range _ ny bz BY)). cbn [bind].
      assert (Hbv : forall a, a ∈ b -> jc a v = Eq) by (intros; by apply (bl_eq jc nx bx BX i b)).
      assert (Hcw : forall a, a ∈ c -> jc (sh a) (sh w) = Eq) by (intros; by apply (bl_eq _ ny bz BY j c _ _ Hc)).
      destruct (jc v (sh w)) eqn:Ecmp; cbn [cmp_code].
      + change (0 =? -1)%Z with false. change (0 =? 1)%Z with false. cbn match.
        destruct (jstep_xy i j xr yr rank b c I Hb Hc) as (xr' & yr' & E1 & E2 & I').
        { intros a d Ha Hd. rewrite (tp_eq_l _ T _ _ _ (Hbv a Ha)). rewrite (tp_eq_r _ T _ _ v (Hcw d Hd)). done. }
        rewrite E1. cbn [bind]. rewrite E2. cbn [bind j_i j_x_o_loc j_x_ranks j_j j_y_o_loc j_y_ranks j_rank].
        pose proof (jrank_ok _ _ _ _ _ I' ltac:(lia)) as Er. rewrite Z.add_simpl_r in Er. rewrite Er. cbn [bind].
        apply IH; [done|lia].
      + change (-1 =? -1)%Z with true. cbn match.
        destruct (jstep_x i j xr yr rank b I Hb) as (xr' & E1 & I').
        { intros a p Ha Hp V Hnd. rewrite (tp_eq_l _ T _ _ _ (Hbv a Ha)). rewrite <- (sh_sub p).
          destruct (bl_le _ ny bz BY j c w (p - Z.of_nat nx)%Z Hc Hw) as [E|E].
          - unfold jvalid in V. lia.
          - by eapply undone_y.
          - cbn beta in E. rewrite <- (tp_eq_r _ T _ _ v E). done.
          - cbn beta in E. exact (tp_lt _ T _ _ _ Ecmp E). }
        rewrite E1. cbn [bind j_i j_x_o_loc j_x_ranks j_j j_y_o_loc j_y_ranks j_rank].
        pose proof (jrank_ok _ _ _ _ _ I' ltac:(lia)) as Er. rewrite Z.add_simpl_r in Er. rewrite Er. cbn [bind].
        apply IH; [done|lia].
      + change (1 =? -1)%Z with false. change (1 =? 1)%Z with true. cbn match.
        destruct (jstep_y i j xr yr rank c I Hc) as (yr' & E1 & I').
        { intros a p Ha Hp V Hnd. cbn beta. rewrite (tp_eq_l _ T _ _ _ (Hcw a Ha)).
          pose proof (tp_gt_lt _ T _ _ Ecmp) as Elt.
          destruct (bl_le jc nx bx BX i b v p Hb Hv) as [E|E].
          - unfold jvalid in V. lia.
          - by eapply undone_x.
          - rewrite <- (tp_eq_r _ T _ _ _ E). done.
          - exact (tp_lt _ T _ _ _ Elt E). }
        rewrite E1. cbn [bind j_i j_x_o_loc j_x_ranks j_j j_y_o_loc j_y_ranks j_rank].
        pose proof (jrank_ok _ _ _ _ _ I' ltac:(lia)) as Er. rewrite Z.add_simpl_r in Er. rewrite Er. cbn [bind].
        apply IH; [done|lia].
  Qed.

  Lemma rest_x k : forall i j xr yr rank, jinv i j xr yr rank -> i = length bx \/ j = length bz -> k = length bx - i ->
    exists xr' rank', for_ i k (fun i '((o_loc, v_ranks, rank) : nat * list Z * Z) =>
        let! group_size := rd (map length bx) i in
        let! (o_loc, v_ranks) := rank_group (concat bx) group_size rank o_loc v_ranks in
        let! rank := int_add rank 1 in
        Ok (o_loc, v_ranks, rank)) (length (concat (take i bx)), xr, rank) =
      Ok (length (concat (take (length bx) bx)), xr', rank') /\ jinv (length bx) j xr' yr rank'.
  Proof.
    induction k as [|k IH]; intros i j xr yr rank I Hd Hk; pose proof I as (L1 & L2 & Hi & Hj & _).
    - assert (i = length bx) as -> by lia. exists xr, rank. done.
    - destruct (lookup_lt_is_Some_2 bx i) as [b Hb]; [lia|]. destruct Hd as [Hd|Hd]; [lia|].
      destruct (jstep_x i j xr yr rank b I Hb) as (xr' & E1 & I').
      { intros a p Ha Hp V Hnd. exfalso. apply Hnd. right. rewrite Hd, take_ge by done. apply (bl_elem _ ny bz BY). unfold jvalid in V. lia. }
      cbn [for_]. rewrite (map_rd_length bx i b Hb). cbn [bind]. rewrite E1. cbn [bind].
      pose proof (jrank_ok _ _ _ _ _ I' ltac:(lia)) as Er. rewrite Z.add_simpl_r in Er. rewrite Er. cbn [bind].
      apply IH; [done|by right|lia].
  Qed.
  Lemma rest_y k : forall j xr yr rank, jinv (length bx) j xr yr rank -> k = length bz - j ->
    exists yr' rank', for_ j k (fun i '((o_loc, v_ranks, rank) : nat * list Z * Z) =>
        let! group_size := rd (map length bz) i in
        let! (o_loc, v_ranks) := rank_group (concat bz) group_size rank o_loc v_ranks in
        let! rank := int_add rank 1 in
        Ok (o_loc, v_ranks, rank)) (length (concat (take j bz)), yr, rank) =
      Ok (length (concat (take (length bz) bz)), yr', rank') /\ jinv (length bx) (length bz) xr yr' rank'.
  Proof.
    induction k as [|k IH]; intros j xr yr rank I Hk; pose proof I as (L1 & L2 & Hi & Hj & _).
    - assert (j = length bz) as -> by lia. exists yr, rank. done.
    - destruct (lookup_lt_is_Some_2 bz j) as [b Hb]; [lia|].
      destruct (jstep_y (length bx) j xr yr rank b I Hb) as (yr' & E1 & I').
      { intros a p Ha Hp V Hnd. exfalso. apply Hnd. left. rewrite take_ge by done. apply (bl_elem jc nx bx BX). unfold jvalid in V. lia. }
      cbn [for_]. rewrite (map_rd_length bz j b Hb). cbn [bind]. rewrite E1. cbn [bind].
      pose proof (jrank_ok _ _ _ _ _ I' ltac:(lia)) as Er. rewrite Z.add_simpl_r in Er. rewrite Er. cbn [bind].
      apply IH; [done|lia].
  Qed.

  Lemma joint_ok : exists xr yr,
    (let! s := joint_xtfrm_loop (length (map length bx) + length (map length bz)) x y nd (concat bx) (map length bx) (concat bz) (map length bz)
              (J 0 0 (alloc nx) 0 0 (alloc ny) (INT_MIN + 1)) in
     let! (_, x_ranks, rank) := joint_xtfrm_rest (concat bx) (map length bx) (j_i s) (j_x_o_loc s, j_x_ranks s, j_rank s) in
     let! (_, y_ranks, _) := joint_xtfrm_rest (concat bz) (map length bz) (j_j s) (j_y_o_loc s, j_y_ranks s, rank) in
     Ok (x_ranks, y_ranks)) = Ok (xr, yr) /\ length xr = nx /\ length yr = ny /\
    (forall a b, jvalid a -> jvalid b -> (jrank xr yr a ?= jrank xr yr b)%Z = jc a b) /\
    (forall a, jvalid a -> (INT_MIN < jrank xr yr a <= INT_MAX)%Z).
  Proof.
    assert (I0 : jinv 0 0 (alloc nx) (alloc ny) (INT_MIN + 1)).
    { assert (Hno : forall a, ~ jdone 0 0 a) by (intros a [Ha|Ha]; cbn in Ha; by apply elem_of_nil in Ha).
      split; [apply replicate_length|]. split; [apply replicate_length|]. split; [lia|]. split; [lia|]. split; [unfold INT_MIN; lia|].
      split; [intros a Ha; by apply Hno in Ha|]. split; [intros a b Ha; by apply Hno in Ha|intros a b Ha; by apply Hno in Ha]. }
    destruct (loop_ok (length (map length bx) + length (map length bz)) 0 0 _ _ _ I0) as (i & j & xr & yr & rank & E & I & Hd).
    { rewrite !map_length. lia. }
    change (length (concat (take 0 bx))) with 0 in E. change (length (concat (take 0 bz))) with 0 in E. rewrite E.
    cbn [bind j_i j_x_o_loc j_x_ranks j_j j_y_o_loc j_y_ranks j_rank]. unfold joint_xtfrm_rest.
    destruct (rest_x _ i j xr yr rank I Hd eq_refl) as (xr' & rank' & E' & I'). rewrite map_length. rewrite E'. cbn [bind].
    destruct (rest_y _ j xr' yr rank' I' eq_refl) as (yr' & rank'' & E'' & I''). rewrite map_length. rewrite E''. cbn [bind].
    exists xr', yr'. destruct I'' as (L1 & L2 & _ & _ & Hr & H1 & H2 & _). split; [done|]. split; [done|]. split; [done|].
    assert (HD : forall a, jvalid a -> jdone (length bx) (length bz) a).
    { intros a V. unfold jvalid in V. unfold jdone. rewrite !take_ge by done. destruct (Z.le_gt_cases a (Z.of_nat nx)).
      - left. apply (bl_elem jc nx bx BX). lia.
      - right. apply (bl_elem _ ny bz BY). lia. }
    split; [intros a b Va Vb; apply H2; by apply HD|]. intros a V. pose proof (H1 a (HD a V)).
    pose proof (bl_count jc nx bx BX). pose proof (bl_count _ ny bz BY). unfold INT_MIN, INT_MAX in *. lia.
  Qed.
End joint.
