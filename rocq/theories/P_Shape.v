(** * C40: common shapes and broadcasting *)
From Verif Require Import Base M_Slice M_Shape Spec_Slice.
#[local] Arguments Z.mul : simpl never.
#[local] Arguments Z.add : simpl never.
#[local] Arguments Z.sub : simpl never.
#[local] Arguments Z.to_nat : simpl never.
#[local] Arguments Z.of_nat : simpl never.

(** ** Specification *)
(** The extent of an axis (counted from 0); axes a vector does not have are 1. *)
Definition axis (d : list Z) (i : nat) : Z := nth i d 1%Z.
(** The recycling rule. *)
Definition recycled (a b c : Z) : Prop := (a = b /\ c = a) \/ (a = 1 /\ c = b)%Z \/ (b = 1 /\ c = a)%Z.
Definition compatible (a b : Z) : Prop := a = b \/ a = 1%Z \/ b = 1%Z.
(** The common shape: no rows, every other axis recycled. *)
Definition common_shape (x y c : list Z) : Prop :=
  length c = Nat.max (length x) (length y) /\ c !! 0 = Some 0%Z /\
  forall i, 1 <= i -> recycled (axis x i) (axis y i) (axis c i).

(** ** Common shape *)
Lemma dimension2_spec a b : match vec_dimension2 a b with
  | Ok c => recycled a b c | Err _ => ~ compatible a b | UB _ => False end.
Proof.
  unfold vec_dimension2, recycled, compatible. destruct (Z.eqb_spec a b); [auto|]. destruct (Z.eqb_spec a 1); [auto|].
  destruct (Z.eqb_spec b 1); [auto|]. lia.
Qed.
Lemma axis_lookup d i a : d !! i = Some a -> axis d i = a.
Proof. intros H. unfold axis. by apply nth_lookup_Some. Qed.
Lemma axis_beyond d i : length d <= i -> axis d i = 1%Z.
Proof. intros H. unfold axis. by apply nth_overflow. Qed.
Lemma recycled_1_l b : recycled 1 b b. Proof. unfold recycled. auto. Qed.
Lemma recycled_1_r a : recycled a 1 a. Proof. unfold recycled. auto. Qed.

(** a loop writing [out[i]] for [lo <= i < lo + cnt]; it ends with an error iff the body does *)
Lemma for_shape lo cnt (f : nat -> res Z) : forall out : list Z, lo + cnt <= length out ->
  (forall i, lo <= i < lo + cnt -> match f i with UB _ => False | _ => True end) ->
  match for_ lo cnt (fun i (out : list Z) => let! d := f i in wr out i d) out with
  | Ok out' => length out' = length out /\ (forall i, lo <= i < lo + cnt -> exists d, f i = Ok d /\ out' !! i = Some d) /\
      (forall i, ~ (lo <= i < lo + cnt) -> out' !! i = out !! i)
  | Err _ => exists i e, lo <= i < lo + cnt /\ f i = Err e
  | UB _ => False
  end.
Proof.
  revert lo. induction cnt as [|cnt IH]; intros lo out Hl Hf; cbn [for_].
  - split; [done|]. split; [intros; lia|done].
  - pose proof (Hf lo ltac:(lia)) as H0. destruct (f lo) as [d|e|] eqn:E; cbn [bind]; [|exists lo, e; split; [lia|done]|done].
    rewrite wr_Ok by lia. cbn [bind]. specialize (IH (S lo) (<[lo:=d]> out)).
    rewrite insert_length in IH.
    destruct (for_ (S lo) cnt _ _) as [out'|e|].
    + destruct IH as (L & A & B); [lia|intros; apply Hf; lia|]. split; [done|]. split.
      * intros i Hi. destruct (decide (i = lo)) as [->|]; [|apply A; lia]. exists d. split; [done|].
        rewrite B by lia. apply list_lookup_insert. lia.
      * intros i Hi. rewrite B by lia. apply list_lookup_insert_ne. lia.
    + destruct IH as (i & e' & Hi & Ei); [lia|intros; apply Hf; lia|]. exists i, e'. split; [lia|done].
    + apply IH; [lia|intros; apply Hf; lia].
Qed.

Lemma for_cong {S} lo cnt (f g : nat -> S -> res S) s : (forall i s, f i s = g i s) -> for_ lo cnt f s = for_ lo cnt g s.
Proof.
  intros H. revert lo s. induction cnt as [|cnt IH]; intros lo s; cbn [for_]; [done|]. rewrite H. destruct (g lo s); cbn [bind]; [apply IH|done|done].
Qed.
Lemma bind_assoc {A B C} (m : res A) (f : A -> res B) (g : B -> res C) : bind (bind m f) g = bind m (fun a => bind (f a) g).
Proof. by destruct m. Qed.

(** The result of combining the dimensions of two arrays: the recycling rule
    on every axis but the first, or an error when some axis is incompatible. *)
Theorem C40_shape2 x y : x <> [] -> y <> [] ->
  match vec_shape2 (Some x) (Some y) with
  | Ok (Some c) => common_shape x y c
  | Ok None => False
  | Err _ => exists i, 1 <= i < Nat.min (length x) (length y) /\ ~ compatible (axis x i) (axis y i)
  | UB _ => False
  end.
Proof.
  intros Hx Hy. assert (Lx : 1 <= length x) by (destruct x; [done|simpl; lia]). assert (Ly : 1 <= length y) by (destruct y; [done|simpl; lia]).
  unfold vec_shape2.
  set (mx := if length y <=? length x then (x, length x, length y) else (y, length y, length x)).
  assert (Hmx : exists m, mx = (m, length m, Nat.min (length x) (length y)) /\ length m = Nat.max (length x) (length y) /\
    (forall i, length x <= i -> m !! i = y !! i \/ length y <= i) /\ (forall i, length y <= i -> m !! i = x !! i \/ length x <= i)).
  { subst mx. destruct (Nat.leb_spec (length y) (length x)).
    - exists x. rewrite Nat.min_r, Nat.max_l by lia. split; [done|]. split; [done|]. split; [intros; right; lia|intros; by left].
    - exists y. rewrite Nat.min_l, Nat.max_r by lia. split; [done|]. split; [done|]. split; [intros; by left|intros; right; lia]. }
  destruct Hmx as (m & -> & Lm & Hmy & Hmx'). set (k := Nat.min (length x) (length y)) in *.
  destruct (Nat.eqb_spec (length m) 0); [lia|]. rewrite wr_Ok by (rewrite replicate_length; lia). cbn [bind].
  set (f := fun i => let! a := rd x i in let! b := rd y i in vec_dimension2 a b).
  assert (Hf : forall i, i < k -> exists a b, x !! i = Some a /\ y !! i = Some b /\ f i = vec_dimension2 a b).
  { intros i Hi. destruct (lookup_lt_is_Some_2 x i) as [a Ha]; [lia|]. destruct (lookup_lt_is_Some_2 y i) as [b Hb]; [lia|].
    exists a, b. split; [done|]. split; [done|]. unfold f. rewrite (proj2 (rd_Ok _ _ _) Ha). cbn [bind]. by rewrite (proj2 (rd_Ok _ _ _) Hb). }
  rewrite (for_cong 1 (k - 1) _ (fun i out => let! d := f i in wr out i d)).
  2:{ intros i s. unfold f. rewrite !bind_assoc. destruct (rd x i); cbn [bind]; [|done|done]. by rewrite !bind_assoc. }
  pose proof (for_shape 1 (k - 1) f (<[0:=0%Z]> (replicate (length m) 0%Z))) as H1. rewrite insert_length, replicate_length in H1.
  destruct (for_ 1 (k - 1) _ _) as [o1|e|]; cbn [bind].
  - destruct H1 as (L1 & A1 & B1); [lia| |].
    { intros i Hi. destruct (Hf i) as (a & b & _ & _ & ->); [lia|]. pose proof (dimension2_spec a b). by destruct (vec_dimension2 a b). }
    pose proof (for_shape (Nat.max 1 k) (length m - Nat.max 1 k) (fun i => rd m i) o1) as H2.
    destruct (for_ (Nat.max 1 k) (length m - Nat.max 1 k) _ _) as [o2|e|]; cbn [bind].
    + destruct H2 as (L2 & A2 & B2); [lia| |].
      { intros i Hi. destruct (lookup_lt_is_Some_2 m i) as [a Ha]; [lia|]. by rewrite (proj2 (rd_Ok _ _ _) Ha). }
      split; [lia|]. split.
      { rewrite B2, B1 by lia. apply list_lookup_insert. rewrite replicate_length. lia. }
      intros i Hi. destruct (decide (i < k)) as [Hk|Hk].
      * destruct (A1 i) as (d & Ed & Hd); [lia|]. destruct (Hf i Hk) as (a & b & Ha & Hb & Ef). rewrite Ef in Ed.
        assert (Ho : o2 !! i = Some d) by (rewrite B2 by lia; done).
        rewrite (axis_lookup _ _ _ Ha), (axis_lookup _ _ _ Hb), (axis_lookup _ _ _ Ho).
        pose proof (dimension2_spec a b) as H. by rewrite Ed in H.
      * destruct (decide (i < length m)) as [Hm|Hm].
        -- destruct (A2 i) as (d & Ed & Hd); [lia|]. apply rd_Ok in Ed. rewrite (axis_lookup _ _ _ Hd).
           destruct (decide (length x <= i)) as [Hxi|Hxi].
           ++ rewrite (axis_beyond x) by done. destruct (Hmy i Hxi) as [Em|?]; [|lia]. rewrite Em in Ed.
              rewrite (axis_lookup _ _ _ Ed). apply recycled_1_l.
           ++ rewrite (axis_beyond y) by lia. destruct (Hmx' i) as [Em|?]; [lia| |lia]. rewrite Em in Ed.
              rewrite (axis_lookup _ _ _ Ed). apply recycled_1_r.
        -- rewrite !axis_beyond by lia. apply recycled_1_l.
    + destruct H2 as (i & e' & Hi & Ei); [lia| |].
      { intros i Hi. destruct (lookup_lt_is_Some_2 m i) as [a Ha]; [lia|]. by rewrite (proj2 (rd_Ok _ _ _) Ha). }
      destruct (lookup_lt_is_Some_2 m i) as [a Ha]; [lia|]. by rewrite (proj2 (rd_Ok _ _ _) Ha) in Ei.
    + apply H2; [lia|]. intros i Hi. destruct (lookup_lt_is_Some_2 m i) as [a Ha]; [lia|]. by rewrite (proj2 (rd_Ok _ _ _) Ha).
  - destruct H1 as (i & e' & Hi & Ei); [lia| |].
    { intros i Hi. destruct (Hf i) as (a & b & _ & _ & ->); [lia|]. pose proof (dimension2_spec a b). by destruct (vec_dimension2 a b). }
    destruct (Hf i) as (a & b & Ha & Hb & Ef); [lia|]. exists i. split; [lia|].
    rewrite (axis_lookup _ _ _ Ha), (axis_lookup _ _ _ Hb). rewrite Ef in Ei. pose proof (dimension2_spec a b) as H. by rewrite Ei in H.
  - apply H1; [lia|]. intros i Hi. destruct (Hf i) as (a & b & _ & _ & ->); [lia|]. pose proof (dimension2_spec a b). by destruct (vec_dimension2 a b).
Qed.

(** A vector without dimensions takes the shape of the other; two such vectors
    have none. *)
Theorem C40_shape2_null x y :
  vec_shape2 None None = Ok None /\
  vec_shape2 None (Some (x :: y)) = Ok (Some (0%Z :: y)) /\
  vec_shape2 (Some (x :: y)) None = Ok (Some (0%Z :: y)).
Proof. done. Qed.

Lemma recycled_compatible a b c : recycled a b c -> compatible a b.
Proof. unfold recycled, compatible. tauto. Qed.
Lemma compatible_recycled a b : compatible a b -> exists c, recycled a b c.
Proof. unfold recycled, compatible. intros [?|[?|?]]; eauto 10. Qed.
Lemma recycled_fun a b c c' : recycled a b c -> recycled a b c' -> c = c'.
Proof. unfold recycled. lia. Qed.

(** The error is exactly incompatibility. *)
Theorem C40_shape2_errors x y : x <> [] -> y <> [] ->
  (exists e, vec_shape2 (Some x) (Some y) = Err e) <-> exists i, 1 <= i /\ ~ compatible (axis x i) (axis y i).
Proof.
  intros Hx Hy. pose proof (C40_shape2 x y Hx Hy) as H. destruct (vec_shape2 (Some x) (Some y)) as [[c|]|e|].
  - split; [intros [e E]; done|]. intros (i & Hi & Hn). exfalso. apply Hn. destruct H as (_ & _ & H). by eapply recycled_compatible, H.
  - done.
  - split; [|eauto]. intros _. destruct H as (i & Hi & Hn). exists i. split; [lia|done].
  - done.
Qed.

(** A common shape is determined by the two shapes. *)
Lemma common_shape_fun x y c c' : x <> [] -> common_shape x y c -> common_shape x y c' -> c = c'.
Proof.
  intros Hx (L & H0 & H) (L' & H0' & H'). apply list_eq. intros [|i]; [congruence|].
  destruct (decide (S i < length c)) as [Hi|Hi].
  - destruct (lookup_lt_is_Some_2 c (S i)) as [a Ha]; [lia|]. destruct (lookup_lt_is_Some_2 c' (S i)) as [b Hb]; [lia|].
    pose proof (H (S i) ltac:(lia)) as R. pose proof (H' (S i) ltac:(lia)) as R'.
    rewrite (axis_lookup _ _ _ Ha) in R. rewrite (axis_lookup _ _ _ Hb) in R'. rewrite Ha, Hb. f_equal. by eapply recycled_fun.
  - rewrite !lookup_ge_None_2 by lia. done.
Qed.

(** Symmetric. *)
Theorem C40_shape2_comm x y c : vec_shape2 x y = Ok c -> (x = Some [] \/ y = Some [] \/ vec_shape2 y x = Ok c).
Proof.
  destruct x as [[|d x]|], y as [[|d' y]|]; auto; intros E; right; right; try exact E.
  pose proof (C40_shape2 (d :: x) (d' :: y) ltac:(done) ltac:(done)) as H. pose proof (C40_shape2 (d' :: y) (d :: x) ltac:(done) ltac:(done)) as H'.
  rewrite E in H. destruct c as [c|]; [|done]. destruct (vec_shape2 (Some (d' :: y)) (Some (d :: x))) as [[c'|]|e|].
  - do 2 f_equal. apply (common_shape_fun (d :: x) (d' :: y)); [done| |done]. destruct H' as (L & H0 & H').
    split; [rewrite L; apply Nat.max_comm|]. split; [done|]. intros i Hi. specialize (H' i Hi). unfold recycled in *. tauto || lia.
  - done.
  - destruct H' as (i & Hi & Hn). exfalso. apply Hn. destruct H as (_ & _ & H). specialize (H i ltac:(lia)). unfold recycled, compatible in *. lia.
  - done.
Qed.

(** Associative, including definedness. *)
Theorem C40_shape2_assoc x y z : x <> Some [] -> y <> Some [] -> z <> Some [] -> forall c,
  (exists xy, vec_shape2 x y = Ok xy /\ vec_shape2 xy z = Ok c) <-> (exists yz, vec_shape2 y z = Ok yz /\ vec_shape2 x yz = Ok c).
Proof.
  assert (Hsome : forall d x d' y c, (vec_shape2 (Some (d :: x)) (Some (d' :: y)) = Ok (Some c)) <-> common_shape (d :: x) (d' :: y) c).
  { intros d x0 d' y0 c. pose proof (C40_shape2 (d :: x0) (d' :: y0) ltac:(done) ltac:(done)) as H. split.
    - intros E. by rewrite E in H.
    - intros Hc. destruct (vec_shape2 _ _) as [[c'|]|e|].
      + do 2 f_equal. by apply (common_shape_fun (d :: x0) (d' :: y0)).
      + done.
      + destruct H as (i & Hi & Hn). exfalso. apply Hn. destruct Hc as (_ & _ & Hc). eapply recycled_compatible, Hc. lia.
      + done. }
  assert (Hnone : forall d x d' y, vec_shape2 (Some (d :: x)) (Some (d' :: y)) <> Ok None).
  { intros d x0 d' y0 E. pose proof (C40_shape2 (d :: x0) (d' :: y0) ltac:(done) ltac:(done)) as H. by rewrite E in H. }
  assert (Hhead : forall (d d' : Z) x y c, common_shape (d :: x) (d' :: y) c -> exists c', c = 0%Z :: c').
  { intros d d' x0 y0 [|e c] (L & H0 & _); [done|]. cbn in H0. exists c. congruence. }
  assert (Hz : forall (d d' : Z) x y c, common_shape (d :: x) (d' :: y) c <-> common_shape (0%Z :: x) (d' :: y) c).
  { intros d d' x0 y0 c. unfold common_shape. split; intros (L & H0 & H); (split; [done|]); (split; [done|]); intros [|i] Hi; [lia|exact (H (S i) Hi)|lia|exact (H (S i) Hi)]. }
  assert (Hz' : forall (d d' : Z) x y c, common_shape (d :: x) (d' :: y) c <-> common_shape (d :: x) (0%Z :: y) c).
  { intros d d' x0 y0 c. unfold common_shape. split; intros (L & H0 & H); (split; [done|]); (split; [done|]); intros [|i] Hi; [lia|exact (H (S i) Hi)|lia|exact (H (S i) Hi)]. }
  intros Nx Ny Nz c. destruct x as [[|d x]|], y as [[|d' y]|], z as [[|d'' z]|]; try done.
  - (* three arrays *)
    split.
    + intros ([xy|] & E1 & E2); [|by apply Hnone in E1]. apply Hsome in E1. destruct (Hhead _ _ _ _ _ E1) as [xy' ->].
      destruct c as [c|]; [|by apply Hnone in E2]. apply Hsome in E2.
      destruct (vec_shape2 (Some (d' :: y)) (Some (d'' :: z))) as [yz|e|] eqn:E3.
      * exists yz. split; [done|]. destruct yz as [yz|]; [|by apply Hnone in E3]. apply Hsome in E3.
        destruct (Hhead _ _ _ _ _ E3) as [yz' ->]. apply Hsome.
        destruct E1 as (L1 & H1 & R1), E2 as (L2 & H2 & R2), E3 as (L3 & H3 & R3). split; [simpl in *; lia|]. split; [done|].
        intros i Hi. specialize (R1 i Hi). specialize (R2 i Hi). specialize (R3 i Hi). unfold recycled in *. lia.
      * pose proof (C40_shape2 (d' :: y) (d'' :: z) ltac:(done) ltac:(done)) as H. rewrite E3 in H. destruct H as (i & Hi & Hn).
        exfalso. apply Hn. destruct E1 as (_ & _ & R1), E2 as (_ & _ & R2). specialize (R1 i ltac:(lia)). specialize (R2 i ltac:(lia)).
        unfold recycled, compatible in *. lia.
      * pose proof (C40_shape2 (d' :: y) (d'' :: z) ltac:(done) ltac:(done)) as H. by rewrite E3 in H.
    + intros ([yz|] & E1 & E2); [|by apply Hnone in E1]. apply Hsome in E1. destruct (Hhead _ _ _ _ _ E1) as [yz' ->].
      destruct c as [c|]; [|by apply Hnone in E2]. apply Hsome in E2.
      destruct (vec_shape2 (Some (d :: x)) (Some (d' :: y))) as [xy|e|] eqn:E3.
      * exists xy. split; [done|]. destruct xy as [xy|]; [|by apply Hnone in E3]. apply Hsome in E3.
        destruct (Hhead _ _ _ _ _ E3) as [xy' ->]. apply Hsome.
        destruct E1 as (L1 & H1 & R1), E2 as (L2 & H2 & R2), E3 as (L3 & H3 & R3). split; [simpl in *; lia|]. split; [done|].
        intros i Hi. specialize (R1 i Hi). specialize (R2 i Hi). specialize (R3 i Hi). unfold recycled in *. lia.
      * pose proof (C40_shape2 (d :: x) (d' :: y) ltac:(done) ltac:(done)) as H. rewrite E3 in H. destruct H as (i & Hi & Hn).
        exfalso. apply Hn. destruct E1 as (_ & _ & R1), E2 as (_ & _ & R2). specialize (R1 i ltac:(lia)). specialize (R2 i ltac:(lia)).
        unfold recycled, compatible in *. lia.
      * pose proof (C40_shape2 (d :: x) (d' :: y) ltac:(done) ltac:(done)) as H. by rewrite E3 in H.
  - (* z has no dimensions *)
    split.
    + intros ([xy|] & E1 & E2); [|by apply Hnone in E1]. exists (Some (0%Z :: y)). split; [done|].
      pose proof E1 as E1'. apply Hsome in E1. destruct (Hhead _ _ _ _ _ E1) as [xy' ->]. cbn in E2.
      assert (c = Some (0%Z :: xy')) as -> by congruence. apply Hsome. by apply (Hz' _ d').
    + intros (yz & E1 & E2). cbn in E1. assert (yz = Some (0%Z :: y)) as -> by congruence. destruct c as [c|]; [|by apply Hnone in E2].
      exists (Some c). apply Hsome in E2. split; [apply Hsome; by apply (Hz' _ d')|]. destruct (Hhead _ _ _ _ _ E2) as [c' ->]. done.
  - (* y has no dimensions *)
    split.
    + intros (xy & E1 & E2). cbn in E1. assert (xy = Some (0%Z :: x)) as -> by congruence. exists (Some (0%Z :: z)). split; [done|].
      destruct c as [c|]; [|by apply Hnone in E2]. apply Hsome. apply Hsome in E2. apply (Hz d). by apply (Hz' _ d'').
    + intros (yz & E1 & E2). cbn in E1. assert (yz = Some (0%Z :: z)) as -> by congruence. exists (Some (0%Z :: x)). split; [done|].
      destruct c as [c|]; [|by apply Hnone in E2]. apply Hsome. apply Hsome in E2. apply (Hz d) in E2. by apply (Hz' _ d'') in E2.
  - split; intros (v & E1 & E2); cbn in E1; injection E1 as <-; cbn in E2; injection E2 as <-; by eexists.
  - (* x has no dimensions *)
    split.
    + intros (xy & E1 & E2). cbn in E1. assert (xy = Some (0%Z :: y)) as -> by congruence. destruct c as [c|]; [|by apply Hnone in E2].
      exists (Some c). apply Hsome in E2. split; [apply Hsome; by apply (Hz d')|]. destruct (Hhead _ _ _ _ _ E2) as [c' ->]. done.
    + intros ([yz|] & E1 & E2); [|by apply Hnone in E1]. exists (Some (0%Z :: y)). split; [done|].
      apply Hsome in E1. destruct (Hhead _ _ _ _ _ E1) as [yz' ->]. cbn in E2.
      assert (c = Some (0%Z :: yz')) as -> by congruence. apply Hsome. by apply (Hz d').
  - split; intros (v & E1 & E2); cbn in E1; injection E1 as <-; cbn in E2; injection E2 as <-; by eexists.
  - split; intros (v & E1 & E2); cbn in E1; injection E1 as <-; cbn in E2; injection E2 as <-; by eexists.
  - split; intros (v & E1 & E2); cbn in E1; injection E1 as <-; cbn in E2; injection E2 as <-; by eexists.
Qed.

(** ** Broadcasting *)
(** Reading array element [idx] of a result recycled from an array of
    dimensions [d]: an axis of extent 1 is read at its only position. *)
Definition clip (d idx : list Z) : list Z := zip_with (fun a i => if a =? 1 then 0 else i)%Z d idx.
(** Dimensions padded with 1s to [n] axes. *)
Definition padded (n : nat) (d : list Z) : list Z := map (axis d) (seq 0 n).
(** [out], of dimensions [c], is [x], of dimensions [d], recycled. *)
Definition broadcast {A} (d c : list Z) (x out : list A) : Prop :=
  Z.of_nat (length out) = zprod c /\
  forall idx, in_dim c idx ->
    exists v, out !! Z.to_nat (offset c idx) = Some v /\ x !! Z.to_nat (offset d (clip d idx)) = Some v.

Lemma flat_map_lookup {A B} (f : A -> list B) (n : nat) : forall l : list A, (forall a, a ∈ l -> length (f a) = n) ->
  length (flat_map f l) = n * length l /\
  forall i j a, j < n -> l !! i = Some a -> flat_map f l !! (j + n * i) = f a !! j.
Proof.
  induction l as [|a l IH]; intros Hn; cbn [flat_map].
  - split; [simpl; lia|]. intros i j a _ H. done.
  - assert (Ha : length (f a) = n) by (apply Hn; left). destruct IH as [L IH]; [intros; apply Hn; by right|].
    split; [rewrite app_length, L, Ha; simpl; lia|]. intros [|i] j b Hj Hb.
    + cbn in Hb. injection Hb as <-. rewrite Nat.mul_0_r, Nat.add_0_r. apply lookup_app_l. lia.
    + cbn in Hb. rewrite <- (IH i j b Hj Hb). rewrite lookup_app_r by lia. f_equal. lia.
Qed.

Lemma positions_spec : forall dim (ind : list (list Z)), length dim = length ind ->
  Z.of_nat (length (r_positions dim ind)) = zprod (map (fun i => Z.of_nat (length i)) ind) /\
  forall idx, in_dim (map (fun i => Z.of_nat (length i)) ind) idx ->
    r_positions dim ind !! Z.to_nat (offset (map (fun i => Z.of_nat (length i)) ind) idx) =
      Some (offset dim (zip_with (fun l i => nth (Z.to_nat i) l 0%Z) ind idx)) /\
    (0 <= offset (map (fun i => Z.of_nat (length i)) ind) idx)%Z.
Proof.
  induction dim as [|d dim IH]; intros [|l ind] Hl; [|done|done|].
  - split; [done|]. intros idx H. destruct idx; [|inversion H]. split; [done|]. cbn. lia.
  - destruct (IH ind) as [L P]; [simpl in Hl; lia|]. cbn [r_positions map zprod].
    destruct (flat_map_lookup (fun hi => map (fun lo => lo + d * hi)%Z l) (length l) (r_positions dim ind)) as [FL FP];
      [intros; apply map_length|].
    split; [rewrite FL; lia|]. intros idx H. inversion H as [|? i ? idx' Hi Hr]; subst. destruct (P idx' Hr) as [P1 P2].
    cbn [offset zip_with]. split; [|nia].
    replace (Z.to_nat (i + Z.of_nat (length l) * offset (map (fun i : list Z => Z.of_nat (length i)) ind) idx'))
      with (Z.to_nat i + length l * Z.to_nat (offset (map (fun i : list Z => Z.of_nat (length i)) ind) idx')) by nia.
    rewrite (FP _ (Z.to_nat i) _ ltac:(lia) P1). change (map ?f ?l) with (f <$> l). rewrite list_lookup_fmap.
    destruct (lookup_lt_is_Some_2 l (Z.to_nat i)) as [v Hv]; [lia|]. rewrite Hv. cbn. do 2 f_equal.
    symmetry. by apply nth_lookup_Some.
Qed.

Lemma subset_spec {A} (x : list A) (ps : list Z) : Forall (fun p => 0 <= p < Z.of_nat (length x))%Z ps ->
  exists out, foldr (fun p acc => let! v := rdZ x p in let! acc := acc in Ok (v :: acc)) (Ok []) ps = Ok out /\
    length out = length ps /\ forall i p, ps !! i = Some p -> exists v, out !! i = Some v /\ x !! Z.to_nat p = Some v.
Proof.
  induction 1 as [|p ps Hp Hps IH]; cbn [foldr].
  - exists []. split; [done|]. split; [done|]. intros i p H. done.
  - destruct IH as (out & E & L & H). destruct (lookup_lt_is_Some_2 x (Z.to_nat p)) as [v Hv]; [lia|].
    assert (rdZ x p = Ok v) as ->. { unfold rdZ. destruct (Z.ltb_spec p 0); [lia|]. by apply rd_Ok. }
    rewrite E. exists (v :: out). split; [done|]. split; [simpl; lia|]. intros [|i] q Hq; cbn in *; [|by apply H].
    injection Hq as <-. by exists v.
Qed.

Lemma offset_bound dim idx : in_dim dim idx -> (0 <= offset dim idx < zprod dim)%Z.
Proof. induction 1 as [|d i dim idx Hi H IH]; cbn [offset zprod]; [lia|]. nia. Qed.

Lemma offset_onto : forall C, Forall (fun a => 0 <= a)%Z C -> forall k, (Z.of_nat k < zprod C)%Z ->
  exists idx, in_dim C idx /\ Z.to_nat (offset C idx) = k.
Proof.
  induction C as [|c C IH]; intros HC k Hk; cbn [zprod] in Hk.
  - exists []. split; [constructor|]. cbn. change (Z.to_nat 0) with 0. lia.
  - inversion HC; subst. assert (c <> 0)%Z by (intros ->; lia).
    destruct (IH ltac:(done) (Z.to_nat (Z.of_nat k / c))) as (idx & Hi & E).
    { pose proof (Z.div_pos (Z.of_nat k) c). rewrite Z2Nat.id by lia. apply Z.div_lt_upper_bound; lia. }
    exists (Z.of_nat k mod c :: idx)%Z. pose proof (Z.mod_pos_bound (Z.of_nat k) c). split; [constructor; [lia|done]|].
    cbn [offset]. pose proof (offset_bound _ _ Hi). pose proof (Z.div_pos (Z.of_nat k) c).
    assert (offset C idx = Z.of_nat k / c)%Z as -> by (apply Z2Nat.inj; lia). pose proof (Z.div_mod (Z.of_nat k) c). lia.
Qed.

Lemma axis_cons d l i : axis (d :: l) (S i) = axis l i. Proof. done. Qed.
Lemma padded_lookup n d i : i < n -> padded n d !! i = Some (axis d i).
Proof. intros H. unfold padded. change (map ?f ?l) with (f <$> l). rewrite list_lookup_fmap, lookup_seq_lt by lia. done. Qed.
Lemma padded_length n d : length (padded n d) = n.
Proof. unfold padded. by rewrite map_length, seq_length. Qed.
Lemma padded_eq n d : length d <= n -> d ++ replicate (n - length d) 1%Z = padded n d.
Proof.
  intros H. apply list_eq. intros i. destruct (decide (i < n)) as [Hi|Hi].
  - rewrite padded_lookup by done. destruct (decide (i < length d)) as [Hd|Hd].
    + rewrite lookup_app_l by done. destruct (lookup_lt_is_Some_2 d i Hd) as [a Ha]. by rewrite (axis_lookup _ _ _ Ha).
    + rewrite lookup_app_r, lookup_replicate_2 by lia. by rewrite axis_beyond by lia.
  - rewrite !lookup_ge_None_2; [done|rewrite padded_length; lia|rewrite app_length, replicate_length; lia].
Qed.
Lemma n_dim2_padded x y : length x <= length y -> n_dim2_x x y = padded (length y) x.
Proof.
  intros H. unfold n_dim2_x. rewrite <- padded_eq by done. destruct (Nat.ltb_spec (length x) (length y)); [done|].
  replace (length y - length x) with 0 by lia. by rewrite app_nil_r.
Qed.
Lemma zprod_app a b : zprod (a ++ b) = (zprod a * zprod b)%Z.
Proof. induction a as [|d a IH]; cbn [app zprod]; [lia|]. rewrite IH. lia. Qed.
Lemma zprod_ones n : zprod (replicate n 1%Z) = 1%Z.
Proof. induction n as [|n IH]; cbn [replicate zprod]; [done|]. rewrite IH. lia. Qed.
Lemma zprod_padded n d : length d <= n -> zprod (padded n d) = zprod d.
Proof. intros H. rewrite <- padded_eq by done. rewrite zprod_app, zprod_ones. lia. Qed.

(** The result shape of broadcasting [d] to [t]: the rows of [d], every other axis of [t]. *)
Definition target (d t : list Z) : list Z := match t with [] => [] | _ :: t => axis d 0 :: t end.

Definition to_dims (n : Z) (d : dims) : list Z := match d with None => [n] | Some d => d end.

Lemma clip_self d idx : in_dim d idx -> clip d idx = idx.
Proof. induction 1 as [|a i d idx Hi H IH]; [done|]. unfold clip in *. cbn [zip_with]. rewrite IH. destruct (Z.eqb_spec a 1); [|done]. f_equal. lia. Qed.
Lemma broadcast_self {A} d (x : list A) : Z.of_nat (length x) = zprod d -> broadcast d d x x.
Proof.
  intros H. split; [done|]. intros idx Hi. rewrite (clip_self _ _ Hi). pose proof (offset_bound _ _ Hi).
  destruct (lookup_lt_is_Some_2 x (Z.to_nat (offset d idx))) as [v Hv]; [lia|]. by exists v.
Qed.

Theorem C40_broadcast {A} (x : list A) (xd : dims) (n : Z) (td : dims) :
  let d := to_dims (Z.of_nat (length x)) xd in
  let t := to_dims n td in
  d <> [] -> t <> [] -> Forall (fun a => 0 <= a)%Z d -> Forall (fun a => 0 <= a)%Z t -> Z.of_nat (length x) = zprod d ->
  match shape_broadcast x xd n td with
  | Ok (out, od) =>
      length d <= length t /\ (forall i, 1 <= i -> axis d i = axis t i \/ axis d i = 1%Z) /\
      to_dims (Z.of_nat (length out)) od = target d t /\ broadcast (padded (length t) d) (target d t) x out
  | Err _ => length t < length d \/ exists i, 1 <= i /\ axis d i <> axis t i /\ axis d i <> 1%Z
  | UB _ => False
  end.
Proof.
  intros d t Hd Ht Pd Pt Hx. unfold shape_broadcast. change (vec_dim (Z.of_nat (length x)) xd) with d. change (vec_dim n td) with t.
  destruct t as [|t0 t'] eqn:Et; [done|]. set (T := t0 :: t') in *. clear Ht.
  assert (Hself : broadcast d d x x) by by apply broadcast_self.
  destruct (decide (length d = 1 /\ length T = 1)) as [[H1 H2]|H12].
  { rewrite H1, H2. cbn [andb Nat.eqb]. destruct d as [|d0 [|]] eqn:Ed; try done. destruct t'; [|done].
    split; [cbn; lia|]. split; [intros [|i] Hi; [lia|]; left; cbn; by destruct i|]. split; [done|]. done. }
  assert ((length d =? 1) && (length T =? 1) = false) as ->.
  { destruct (Nat.eqb_spec (length d) 1), (Nat.eqb_spec (length T) 1); try done. tauto. }
  destruct (Nat.ltb_spec (length T) (length d)) as [Hlt|Hle]; [by left|].
  rewrite n_dim2_padded by done. set (m := length T) in *. set (D := padded m d).
  assert (LD : length D = m) by apply padded_length.
  assert (HD0 : D !! 0 = Some (axis d 0)) by (apply padded_lookup; subst m; cbn; lia).
  rewrite (proj2 (rd_Ok _ _ _) HD0). cbn [bind]. rewrite wr_Ok by (subst m; cbn; lia). cbn [bind].
  assert (Eins : <[0:=axis d 0]> T = target d T) by done. rewrite Eins. set (C := target d T).
  assert (LC : length C = m) by done.
  assert (HC : forall i, 1 <= i -> C !! i = T !! i) by (intros [|i] Hi; [lia|done]).
  assert (HC0 : C !! 0 = Some (axis d 0)) by done.
  set (okf := fun a b : Z => ((a =? b) || (a =? 1))%Z).
  destruct (existsb negb (zip_with okf D C)) eqn:Eok.
  { right. apply existsb_exists in Eok. destruct Eok as (b & Hb & Nb). apply elem_of_list_In, elem_of_list_lookup in Hb. destruct Hb as [i Hb].
    apply lookup_zip_with_Some in Hb. destruct Hb as (a & c & -> & Ha & Hc). unfold okf in Nb.
    destruct (Z.eqb_spec a c); [done|]. destruct (Z.eqb_spec a 1); [done|].
    destruct i as [|i]; [congruence|]. exists (S i). split; [lia|]. rewrite HC in Hc by lia. rewrite (axis_lookup _ _ _ Hc).
    assert (Hi : S i < m) by (apply lookup_lt_Some in Ha; lia). unfold D in Ha. rewrite padded_lookup in Ha by done.
    injection Ha as <-. done. }
  assert (Hok : forall i a c, D !! i = Some a -> C !! i = Some c -> a = c \/ a = 1%Z).
  { intros i a c Ha Hc. destruct (okf a c) eqn:E; [unfold okf in E; lia|]. exfalso.
    assert (existsb negb (zip_with okf D C) = true); [|congruence]. apply existsb_exists. exists false. split; [|done].
    apply elem_of_list_In, elem_of_list_lookup. exists i. apply lookup_zip_with_Some. eauto. }
  assert (Hax : forall i, 1 <= i -> axis d i = axis T i \/ axis d i = 1%Z).
  { intros i Hi. destruct (decide (i < m)) as [Hm|Hm]; [|right; apply axis_beyond; lia].
    destruct (lookup_lt_is_Some_2 T i Hm) as [c Hc]. rewrite (axis_lookup _ _ _ Hc). apply (Hok i); [by apply padded_lookup|by rewrite HC]. }
  assert (HxD : Z.of_nat (length x) = zprod D) by (unfold D; rewrite zprod_padded by done; done).
  set (recf := fun a b : Z => negb (a =? b)%Z).
  destruct (forallb negb (zip_with recf D C)) eqn:Erec.
  { assert (EDC : D = C).
    { apply list_eq. intros i. destruct (decide (i < m)) as [Hm|Hm]; [|rewrite !lookup_ge_None_2 by lia; done].
      destruct (lookup_lt_is_Some_2 D i) as [a Ha]; [lia|]. destruct (lookup_lt_is_Some_2 C i) as [c Hc]; [lia|].
      rewrite Ha, Hc. f_equal. rewrite forallb_forall in Erec. specialize (Erec (recf a c)).
      assert (negb (recf a c) = true); [|unfold recf in *; destruct (Z.eqb_spec a c); done].
      apply Erec. apply elem_of_list_In, elem_of_list_lookup. exists i. apply lookup_zip_with_Some. eauto. }
    split; [done|]. split; [done|]. split.
    - rewrite LD. destruct (Nat.eqb_spec (length d) m) as [El|El]; [|exact EDC].
      assert (Hdd : d = D) by (unfold D; rewrite <- padded_eq by done; rewrite El, Nat.sub_diag; cbn; by rewrite app_nil_r).
      rewrite <- EDC, <- Hdd. done.
    - rewrite <- EDC. by apply broadcast_self. }
  set (ind := zip_with _ _ _).
  assert (Lind : length ind = m) by (subst ind; rewrite !zip_with_length; lia).
  assert (Hind : forall i a c, D !! i = Some a -> C !! i = Some c ->
    ind !! i = Some (if (a =? c)%Z then seq_z a else replicate (Z.to_nat c) 0%Z)).
  { intros i a c Ha Hc. subst ind. apply lookup_zip_with_Some. exists (recf a c), (a, c). split.
    - unfold recf. cbn. by destruct (a =? c)%Z.
    - split; [apply lookup_zip_with_Some; eauto|]. apply lookup_zip_with_Some. eauto. }
  assert (PD : Forall (fun a => 0 <= a)%Z D).
  { apply Forall_lookup. intros i a Ha. assert (i < m) by (apply lookup_lt_Some in Ha; lia). destruct (decide (i < length d)) as [Hi|Hi].
    - unfold D in Ha. rewrite padded_lookup in Ha by done. injection Ha as <-.
      destruct (lookup_lt_is_Some_2 d i Hi) as [b Hb]. rewrite (axis_lookup _ _ _ Hb). by eapply Forall_lookup_1 in Pd.
    - unfold D in Ha. rewrite padded_lookup in Ha by done. injection Ha as <-. rewrite axis_beyond by lia. lia. }
  assert (PC : Forall (fun a => 0 <= a)%Z C).
  { apply Forall_cons. split; [|by inversion Pt]. eapply Forall_lookup_1 in PD; [|exact HD0]. done. }
  assert (Elen : map (fun i => Z.of_nat (length i)) ind = C).
  { apply list_eq. intros i. change (map ?f ?l) with (f <$> l). rewrite list_lookup_fmap.
    destruct (decide (i < m)) as [Hm|Hm]; [|rewrite !lookup_ge_None_2 by lia; done].
    destruct (lookup_lt_is_Some_2 D i) as [a Ha]; [lia|]. destruct (lookup_lt_is_Some_2 C i) as [c Hc]; [lia|].
    rewrite (Hind i a c Ha Hc), Hc. cbn. f_equal. pose proof (Forall_lookup_1 _ _ _ _ PC Hc) as P. cbn in P.
    destruct (Z.eqb_spec a c) as [->|]; [unfold seq_z; rewrite map_length, seq_length; lia|rewrite replicate_length; lia]. }
  destruct (positions_spec D ind) as [LP PP]; [lia|]. rewrite Elen in LP, PP.
  assert (Hclip : forall idx, in_dim C idx -> zip_with (fun l i => nth (Z.to_nat i) l 0%Z) ind idx = clip D idx /\ in_dim D (clip D idx)).
  { intros idx Hi. assert (Lidx : length idx = m) by (apply Forall2_length in Hi; lia).
    assert (E : zip_with (fun l i => nth (Z.to_nat i) l 0%Z) ind idx = clip D idx).
    { apply list_eq. intros i. destruct (decide (i < m)) as [Hm|Hm].
      - destruct (lookup_lt_is_Some_2 D i) as [a Ha]; [lia|]. destruct (lookup_lt_is_Some_2 C i) as [c Hc]; [lia|].
        destruct (lookup_lt_is_Some_2 idx i) as [j Hj]; [lia|]. pose proof (Forall2_lookup_lr _ _ _ _ _ _ Hi Hc Hj) as Hr. cbn in Hr.
        transitivity (Some (if a =? 1 then 0 else j)%Z).
        + apply lookup_zip_with_Some. eexists _, j. split; [|split; [by apply Hind|done]].
          destruct (Z.eqb_spec a c) as [->|Hne].
          * unfold seq_z. destruct (Z.eqb_spec c 1); [assert (j = 0%Z) as -> by lia; subst c; done|].
            symmetry. apply nth_lookup_Some. change (map ?f ?l) with (f <$> l). rewrite list_lookup_fmap, lookup_seq_lt by lia. cbn. f_equal. lia.
          * destruct (Hok i a c Ha Hc) as [?| ->]; [done|]. cbn. symmetry. apply nth_lookup_Some. apply lookup_replicate_2. lia.
        + symmetry. apply lookup_zip_with_Some. eauto.
      - rewrite !lookup_ge_None_2; [done| |]; [unfold clip|]; rewrite zip_with_length; lia. }
    split; [done|]. unfold in_dim, clip. apply Forall2_same_length_lookup. split; [rewrite zip_with_length; lia|].
    intros i a v Ha Hv. apply lookup_zip_with_Some in Hv. destruct Hv as (a' & j & -> & Ha' & Hj).
    assert (a' = a) as -> by congruence. destruct (lookup_lt_is_Some_2 C i) as [c Hc]; [apply lookup_lt_Some in Ha; lia|].
    pose proof (Forall2_lookup_lr _ _ _ _ _ _ Hi Hc Hj) as Hr. cbn in Hr.
    destruct (Hok i a c Ha Hc) as [->| ->]; [destruct (Z.eqb_spec c 1); lia|cbn; lia]. }
  assert (Hpos : Forall (fun p => 0 <= p < Z.of_nat (length x))%Z (r_positions D ind)).
  { apply Forall_lookup. intros k p Hk.
    assert (Hex : exists idx, in_dim C idx /\ Z.to_nat (offset C idx) = k).
    { apply lookup_lt_Some in Hk. apply offset_onto; [done|lia]. }
    destruct Hex as (idx & Hi & <-). destruct (PP idx Hi) as [P1 _]. destruct (Hclip idx Hi) as [Ec Hin].
    rewrite Hk, Ec in P1. assert (p = offset D (clip D idx)) as -> by congruence. rewrite HxD. by apply offset_bound. }
  destruct (subset_spec x _ Hpos) as (out & Eo & Lo & Ho). unfold r_array_subset. rewrite Eo. cbn [bind]. rewrite Elen.
  split; [done|]. split; [done|]. split; [done|]. split; [lia|].
  intros idx Hi. destruct (PP idx Hi) as [P1 _]. destruct (Ho _ _ P1) as (v & V1 & V2). exists v. split; [done|].
  destruct (Hclip idx Hi) as [Ec _]. by rewrite Ec in V2.
Qed.

(** ** Casting to the common shape always works *)
(** A vector without dimensions keeps having none when there is no common
    shape, and both arrays can be broadcast to their common shape. *)
Theorem C40_broadcast_common {A} (x : list A) (xd yd : dims) (c : list Z) :
  let d := to_dims (Z.of_nat (length x)) xd in
  xd <> Some [] -> yd <> Some [] -> Forall (fun a => 0 <= a)%Z d -> Forall (fun a => 0 <= a)%Z (default [] yd) ->
  Z.of_nat (length x) = zprod d ->
  (vec_shape2 xd yd = Ok (Some c) \/ vec_shape2 yd xd = Ok (Some c)) ->
  exists out od, shape_broadcast x xd 0 (Some c) = Ok (out, od) /\ to_dims (Z.of_nat (length out)) od = target d c /\
    broadcast (padded (length c) d) (target d c) x out.
Proof.
  intros d Nx Ny Pd Py Hx Hc.
  assert (Hcs : length d <= length c /\ c <> [] /\ Forall (fun a => 0 <= a)%Z c /\ forall i, 1 <= i -> axis d i = axis c i \/ axis d i = 1%Z).
  { assert (Hsh : match xd, yd with
      | None, None => False
      | None, Some (_ :: y) => c = 0%Z :: y
      | Some (_ :: x), None => c = 0%Z :: x
      | Some x, Some y => common_shape x y c
      | _, _ => False end).
    { destruct xd as [[|d0 xs]|], yd as [[|d1 ys]|]; try done; try by (cbn in Hc; destruct Hc; congruence).
      destruct Hc as [Hc|Hc].
      - pose proof (C40_shape2 (d0 :: xs) (d1 :: ys) ltac:(done) ltac:(done)) as H. by rewrite Hc in H.
      - pose proof (C40_shape2 (d1 :: ys) (d0 :: xs) ltac:(done) ltac:(done)) as H. rewrite Hc in H.
        destruct H as (L & H0 & H). split; [lia|]. split; [done|]. intros i Hi. specialize (H i Hi). unfold recycled in *. lia. }
    destruct xd as [[|d0 xs]|], yd as [[|d1 ys]|]; try done.
    - destruct Hsh as (L & H0 & H). split; [cbn in *; lia|]. split; [by destruct c|]. split.
      + apply Forall_lookup. intros [|i] a Ha; [assert (a = 0%Z) by congruence; lia|]. specialize (H (S i) ltac:(lia)).
        rewrite (axis_lookup _ _ _ Ha) in H.
        assert (Hpos : forall l, Forall (fun a => 0 <= a)%Z l -> forall j, (0 <= axis l j)%Z).
        { intros l Hl j. destruct (l !! j) as [v|] eqn:E; [rewrite (axis_lookup _ _ _ E); by eapply Forall_lookup_1 in Hl|].
          rewrite axis_beyond by (by apply lookup_ge_None). lia. }
        pose proof (Hpos _ Pd (S i)) as P1. pose proof (Hpos _ Py (S i)) as P2. cbn [to_dims default] in P1, P2. subst d. cbn [to_dims] in *.
        unfold recycled in H. cbn [from_option id] in P2. lia.
      + intros i Hi. specialize (H i Hi). subst d. cbn [to_dims]. unfold recycled in H. lia.
    - subst c. cbn. split; [lia|]. split; [done|]. split; [|intros [|i] Hi; [lia|by left]]. subst d. inversion Pd; subst. by constructor.
    - subst c. cbn. split; [lia|]. split; [done|]. split; [|intros [|[|i]] Hi; [lia|by right|by right]]. cbn in Py. inversion Py; subst. by constructor. }
  destruct Hcs as (Ll & Nc & Pc & Hax).
  pose proof (C40_broadcast x xd 0 (Some c)) as H. cbn zeta in H. fold d in H. cbn [to_dims] in H.
  assert (Nd : d <> []) by (subst d; destruct xd as [[|]|]; done).
  specialize (H Nd Nc Pd Pc Hx). destruct (shape_broadcast x xd 0 (Some c)) as [[out od]|e|].
  - exists out, od. destruct H as (_ & _ & H1 & H2). done.
  - destruct H as [?|(i & Hi & H1 & H2)]; [lia|]. destruct (Hax i Hi); done.
  - done.
Qed.

(** ** Examples *)
Example C40_ex_shape : vec_shape2 (Some [5; 1; 3])%Z (Some [2; 4])%Z = Ok (Some [0; 4; 3])%Z /\
  (exists e, vec_shape2 (Some [5; 2])%Z (Some [5; 3])%Z = Err e) /\ vec_shape2 (Some [7; 1])%Z (Some [3; 0])%Z = Ok (Some [0; 0])%Z.
Proof. split; [done|]. split; [by eexists|done]. Qed.
Example C40_ex_broadcast : shape_broadcast [10; 20]%Z (Some [2; 1])%Z 0 (Some [0; 3])%Z = Ok ([10; 20; 10; 20; 10; 20]%Z, Some [2; 3]%Z) /\
  shape_broadcast [10; 20]%Z None 0 (Some [0; 2])%Z = Ok ([10; 20; 10; 20]%Z, Some [2; 2]%Z) /\
  (exists e, shape_broadcast [10; 20]%Z (Some [1; 2])%Z 0 (Some [0; 3])%Z = Err e).
Proof. split; [done|]. split; [done|]. by eexists. Qed.

Print Assumptions C40_shape2.
Print Assumptions C40_shape2_null.
Print Assumptions C40_shape2_errors.
Print Assumptions C40_shape2_comm.
Print Assumptions C40_shape2_assoc.
Print Assumptions C40_broadcast.
Print Assumptions C40_broadcast_common.
