(** * Lemmas: ordering ranks and nesting containers *)
From Verif Require Import Base M_Double M_Scalar M_Slice M_Object M_Proxy M_OrderChr M_OrderDf M_Rank M_Match.
From Verif Require Import Spec_Order Spec_OrderRow L_OrderSpec P_Order P_Rank L_MatchSearch L_MatchJoint L_MatchKeys.
From Coq Require Import Sorting.Sorted.
#[local] Arguments Z.mul : simpl never.
#[local] Arguments Z.add : simpl never.
#[local] Arguments Z.sub : simpl never.
#[local] Arguments Z.to_nat : simpl never.
#[local] Arguments Z.of_nat : simpl never.

(** ** Ordering integer columns *)
Fixpoint lexcmp (cols : list (list Z)) (a b : Z) : comparison :=
  match cols with [] => Eq | c :: cols => cmp_then (at_loc 0%Z c a ?= at_loc 0%Z c b)%Z (lexcmp cols a b) end.
Lemma lexcmp_tpo cols : tpo (lexcmp cols).
Proof.
  induction cols as [|c cols IH]; [apply tpo_const|].
  apply (tpo_then (fun a b => at_loc 0%Z c a ?= at_loc 0%Z c b)%Z (lexcmp cols)); [|done]. apply tpo_Zcompare.
Qed.
Lemma lexcmp_app x y a b : lexcmp (x ++ y) a b = cmp_then (lexcmp x a b) (lexcmp y a b).
Proof. induction x as [|c x IH]; [done|]. cbn. rewrite IH. by destruct (at_loc 0%Z c a ?= at_loc 0%Z c b)%Z. Qed.
Lemma lexcmp_Eq cols a b : lexcmp cols a b = Eq <-> forall c x, cols !! c = Some x -> at_loc 0%Z x a = at_loc 0%Z x b.
Proof.
  induction cols as [|c cols IH]; cbn; [by split|]. unfold cmp_then. destruct (Z.compare_spec (at_loc 0%Z c a) (at_loc 0%Z c b)) as [E|E|E].
  - rewrite IH. split.
    + intros H [|i] x Hx; [cbn in Hx; congruence|]. by apply (H i).
    + intros H i x Hx. by apply (H (S i)).
  - split; [done|]. intros H. specialize (H 0 c eq_refl). lia.
  - split; [done|]. intros H. specialize (H 0 c eq_refl). lia.
Qed.
(** The first column where rows differ. *)
Lemma lexcmp_le cols a b : lexcmp cols a b <> Gt -> forall c x, cols !! c = Some x ->
  (forall d y, d < c -> cols !! d = Some y -> at_loc 0%Z y a = at_loc 0%Z y b) -> (at_loc 0%Z x a <= at_loc 0%Z x b)%Z.
Proof.
  induction cols as [|c0 cols IH]; cbn; [done|]. unfold cmp_then. intros Hne [|c] x Hx Hag; cbn in Hx.
  - injection Hx as <-. destruct (Z.compare_spec (at_loc 0%Z c0 a) (at_loc 0%Z c0 b)); lia || done.
  - specialize (Hag 0 c0 ltac:(lia) eq_refl) as E0. rewrite E0, Z.compare_refl in Hne. apply (IH Hne c x Hx).
    intros d y Hd Hy. apply (Hag (S d)); [lia|done].
Qed.

Definition int_cols (n : nat) (cols : list (list Z)) : Prop := Forall (fun c => length c = n /\ Forall is_int c) cols.

Lemma int_vcmp_Z x y : is_int x -> is_int y -> int_vcmp false x y = (x ?= y)%Z.
Proof.
  unfold is_int, int_vcmp, NA_INTEGER, INT_MIN, INT_MAX. intros Hx Hy.
  destruct (Z.eqb_spec x (-2147483648)), (Z.eqb_spec y (-2147483648)); cbn; destruct (Z.compare_spec x y); lia || done.
Qed.
Lemma at_loc_default {A} (d e : A) l a : (1 <= a <= Z.of_nat (length l))%Z -> at_loc d l a = at_loc e l a.
Proof. intros H. unfold at_loc. apply nth_indep. lia. Qed.

Lemma ints_vcmp n cols p a b : int_cols n cols -> p = ODf (map OInt cols) n -> (1 <= a <= Z.of_nat n)%Z -> (1 <= b <= Z.of_nat n)%Z ->
  order_vcmp (XDf (replicate (length cols) 1)) p [false] [false] true a b = lexcmp cols a b.
Proof.
  intros H -> Ha Hb. pose proof (order_plain (ODf (map OInt cols) n) true a b) as E. cbn [proxy_ox] in E. rewrite map_length in E. rewrite E.
  cbn [proxy_cols]. clear E. induction H as [|c cols [L O] H IH]; [done|]. cbn. unfold by_loc.
  rewrite !(at_loc_default NA_INTEGER 0%Z) by lia. rewrite int_vcmp_Z by (apply at_loc_forall; done || lia). f_equal. apply IH.
Qed.

Lemma is_order_ext cmp cmp' n o : (forall a b, (1 <= a <= Z.of_nat n)%Z -> (1 <= b <= Z.of_nat n)%Z -> cmp a b = cmp' a b) ->
  is_order cmp n o -> is_order cmp' n o.
Proof.
  intros H [P S]. split; [done|]. eapply ss_impl; [|exact S]. intros x y Hx Hy. rewrite P in Hx, Hy. apply elem_locs in Hx, Hy.
  by rewrite H.
Qed.

Lemma ints_input n cols tls : int_cols n cols -> (Z.of_nat n <= INT_MAX)%Z -> (forall s, 0 <= tls s)%Z ->
  order_input (XDf (replicate (length cols) 1)) (ODf (map OInt cols) n) tls.
Proof.
  intros H Hn Ht. split; [|split; [done|split; [|done]]].
  - apply Forall_map. eapply Forall_impl; [exact H|]. intros c [L O]. by split.
  - cbn [proxy_cols]. by rewrite map_length, sum_ones.
Qed.
Lemma ints_no_cpl (cols : list (list Z)) n j c : proxy_cols (ODf (map OInt cols) n) !! j = Some c -> is_cpl c = false.
Proof. cbn. intros H. apply list_lookup_fmap_Some in H as (x & _ & ->). done. Qed.

Lemma ints_order_ok fuel n cols tls : int_cols n cols -> (Z.of_nat n <= INT_MAX)%Z -> (forall s, 0 <= tls s)%Z -> length cols <= fuel ->
  exists o, ints_order fuel cols n tls = Ok o /\ is_order (lexcmp cols) n o.
Proof.
  intros H Hn Ht Hf. pose proof (ints_input n cols tls H Hn Ht) as I.
  assert (V : flags_valid (XDf (replicate (length cols) 1)) [false]) by (by left).
  destruct (C27_order_total fuel _ _ _ _ true tls I V V) as [[o E] _].
  { intros j c _. apply ints_no_cpl. }
  { cbn. by rewrite map_length. }
  exists o. split; [exact E|]. eapply is_order_ext; [|exact (C27_order_sound _ _ _ _ _ _ _ _ I E)]. intros a b Ha Hb. by eapply ints_vcmp.
Qed.
Lemma ints_info_ok fuel n cols tls : int_cols n cols -> (Z.of_nat n <= INT_MAX)%Z -> (forall s, 0 <= tls s)%Z -> length cols <= fuel ->
  exists bs, ints_order_info fuel cols n tls = Ok (concat bs, map length bs) /\ in_blocks (lexcmp cols) n bs /\ is_order (lexcmp cols) n (concat bs).
Proof.
  intros H Hn Ht Hf. pose proof (ints_input n cols tls H Hn Ht) as I.
  assert (V : flags_valid (XDf (replicate (length cols) 1)) [false]) by (by left).
  destruct (C27_order_info_total fuel _ _ _ _ true true tls I V V) as ([[o gs] t] & E & (R1 & R2 & R3 & _)).
  { intros j c _. apply ints_no_cpl. }
  { cbn. by rewrite map_length. }
  destruct (R3 eq_refl) as [g ->]. cbn [oproxy_size] in R1.
  destruct (in_blocks_of _ (lexcmp cols) n o g R1 R2) as (bs & B & <- & <-).
  { intros a b Ha Hb. symmetry. by eapply ints_vcmp. }
  exists bs. split; [|split; [done|]].
  - unfold ints_order_info, vec_order_info. rewrite E. done.
  - eapply is_order_ext; [|exact R1]. intros a b Ha Hb. by eapply ints_vcmp.
Qed.

(** ** Positions of the groups of a coarser comparison *)
Lemma in_blocks_nodup cmp n bs : in_blocks cmp n bs -> NoDup (concat bs).
Proof.
  intros (P & _). rewrite P. unfold locs. apply NoDup_ListNoDup. apply FinFun.Injective_map_NoDup; [intros i j; lia|apply seq_NoDup].
Qed.
Lemma block_position cmp n bs o p a j b : tpo cmp -> in_blocks cmp n bs -> o ≡ₚ locs n ->
  StronglySorted (fun x y => cmp x y <> Gt) o -> o !! p = Some a -> bs !! j = Some b -> a ∈ b ->
  length (concat (take j bs)) <= p < length (concat (take (S j) bs)).
Proof.
  intros T B P SS Hp Hj Ha. pose proof (in_blocks_nodup cmp n bs B) as ND.
  assert (HS : forall q x, o !! q = Some x -> (cmp x a = Lt -> q < p) /\ (cmp a x = Lt -> p < q)).
  { intros q x Hq. split; intros Hc.
    - destruct (Nat.lt_trichotomy q p) as [C|[->|C]]; [done| |].
      + assert (x = a) as -> by congruence. by rewrite (tp_refl _ T) in Hc.
      + pose proof (ss_lookup _ _ p q a x SS C Hp Hq) as G. cbv beta in G; rewrite (tp_sym _ T), Hc in G; done.
    - destruct (Nat.lt_trichotomy p q) as [C|[->|C]]; [done| |].
      + assert (x = a) as -> by congruence. by rewrite (tp_refl _ T) in Hc.
      + pose proof (ss_lookup _ _ q p x a SS C Hq Hp) as G. cbv beta in G; rewrite (tp_sym _ T), Hc in G; done. }
  assert (Hin : forall x, x ∈ concat bs -> exists q, o !! q = Some x).
  { intros x Hx. apply elem_of_list_lookup. rewrite P. destruct B as (PB & _). by rewrite <- PB. }
  pose proof (bl_split bs j b Hj) as Es. pose proof (lookup_lt_Some _ _ _ Hp) as Hpl.
  assert (Lo : length o = length (concat bs)) by (destruct B as (PB & _); by rewrite P, PB).
  split.
  - (* the earlier blocks are before p *)
    assert (Hl : length (concat (take j bs)) <= length (take p o)); [|rewrite take_length in Hl; lia].
    apply NoDup_incl_length.
    + apply NoDup_ListNoDup. rewrite Es in ND. by apply NoDup_app in ND as (? & _).
    + intros x Hx%elem_of_list_In. apply elem_of_list_In.
      destruct (Hin x) as [q Hq]; [rewrite Es; apply elem_of_app; by left|].
      apply in_concat_block in Hx as (c & Hc & Hx). apply elem_of_list_lookup in Hc as [i Hi]. apply lookup_take_Some in Hi as [Hi Hij].
      destruct B as (_ & _ & _ & SB). pose proof (ss_lookup _ _ i j c b SB Hij Hi Hj x a Hx Ha) as Hlt.
      apply (HS q x Hq) in Hlt. apply elem_of_list_lookup. exists q. by rewrite lookup_take.
  - assert (Hl : length (concat (drop (S j) bs)) <= length (drop (S p) o)).
    { apply NoDup_incl_length.
      + apply NoDup_ListNoDup. rewrite Es, app_assoc in ND. by apply NoDup_app in ND as (_ & _ & ?).
      + intros x Hx%elem_of_list_In. apply elem_of_list_In.
        destruct (Hin x) as [q Hq]; [rewrite Es, !elem_of_app; auto|].
        pose proof (bl_lt cmp n bs B j b a x Hj Ha Hx) as Hlt.
        apply (HS q x Hq) in Hlt. apply elem_of_list_lookup. exists (q - S p). rewrite lookup_drop. by replace (S p + (q - S p)) with q by lia. }
    rewrite drop_length in Hl.
    assert (E : length (concat bs) = length (concat (take (S j) bs)) + length (concat (drop (S j) bs))).
    { rewrite <- (take_drop (S j) bs) at 1. by rewrite concat_app, app_length. }
    lia.
Qed.

Lemma concat_take_le {A} (bs : list (list A)) i j : i <= j -> length (concat (take i bs)) <= length (concat (take j bs)).
Proof.
  intros H. rewrite <- (take_drop i (take j bs)), concat_app, app_length, take_take. replace (i `min` j) with i by lia. lia.
Qed.
Lemma concat_take_lt cmp n (bs : list (list Z)) i j b : in_blocks cmp n bs -> bs !! i = Some b -> i < j ->
  length (concat (take i bs)) < length (concat (take j bs)).
Proof.
  intros B Hi Hj. pose proof (concat_take_le bs (S i) j ltac:(lia)) as L. rewrite (bl_take bs i b Hi), app_length in L.
  pose proof (bl_ne _ _ _ B i b Hi). destruct b; [done|]. cbn in L. lia.
Qed.

(** ** Rows fully greater or equal *)
Lemma fully_ge_ok n x a b : int_cols n x -> (1 <= a <= Z.of_nat n)%Z -> (1 <= b <= Z.of_nat n)%Z ->
  exists r, df_compare_fully_ge x (a - 1) (b - 1) = Ok r /\
    (r = true -> forall c y, 1 <= c -> x !! c = Some y -> (at_loc 0%Z y b <= at_loc 0%Z y a)%Z).
Proof.
  intros H Ha Hb. unfold df_compare_fully_ge.
  apply (for_brk_inv
    (fun k r => r = true /\ forall c y, length x - k <= c -> 1 <= c -> x !! c = Some y -> (at_loc 0%Z y b <= at_loc 0%Z y a)%Z)
    (fun r : bool => r = true -> forall c y, 1 <= c -> x !! c = Some y -> (at_loc 0%Z y b <= at_loc 0%Z y a)%Z)).
  - split; [done|]. intros c y Hc _ Hy. apply lookup_lt_Some in Hy. lia.
  - intros k s Hk1 [-> Hk]. destruct (lookup_lt_is_Some_2 x (length x - 1 - k)) as [col Hc]; [lia|].
    rewrite (proj2 (rd_Ok _ _ _) Hc). cbn [bind]. destruct (proj1 (Forall_lookup _ _) H _ _ Hc) as [L _].
    rewrite !(rdZ_at_loc 0%Z) by lia. cbn [bind].
    unfold int_compare_na_equal, int_compare_scalar, b2i. 
    destruct (Z.ltb_spec (at_loc 0%Z col b) (at_loc 0%Z col a)), (Z.ltb_spec (at_loc 0%Z col a) (at_loc 0%Z col b)); cbn.
    1: lia.
    2: { right. exists false. split; [done|]. done. }
    all: left; eexists; split; [done|]; split; [done|]; intros c y Hc1 Hc2 Hy.
    all: destruct (decide (c = length x - 1 - k)) as [->|Ne]; [assert (y = col) as -> by congruence; lia|].
    all: apply (Hk c y); [lia|done|done].
  - intros r [-> R] _ c y Hc Hy. apply (R c y); [lia|done|done].
Qed.

Lemma find_container_ok n x a prev : int_cols n x -> (1 <= a <= Z.of_nat n)%Z ->
  Forall (fun r => 1 <= r + 1 <= Z.of_nat n)%Z prev ->
  exists id, find_container x (a - 1) prev = Ok id /\ id <= length prev /\
    forall r, prev !! id = Some r -> forall c y, 1 <= c -> x !! c = Some y -> (at_loc 0%Z y (r + 1) <= at_loc 0%Z y a)%Z.
Proof.
  intros H Ha Hp. unfold find_container.
  destruct (for_brk_inv (fun k (s : nat * unit) => s.1 = k)
    (fun s : nat * unit => s.1 <= length prev /\
      forall r, prev !! s.1 = Some r -> forall c y, 1 <= c -> x !! c = Some y -> (at_loc 0%Z y (r + 1) <= at_loc 0%Z y a)%Z)
    0 (length prev) (fun id '((_, _) : nat * unit) =>
    let! prev_row := rd prev id in
    let! ge := df_compare_fully_ge x (a - 1) prev_row in
    if (ge : bool) then Ok (Break (id, tt)) else Ok (Next (S id, tt))) (0, tt)) as ([id u] & E & H1 & H2).
  - done.
  - intros i [k u] Hi <-. cbn [fst] in *. destruct (lookup_lt_is_Some_2 prev k) as [r Hr]; [lia|].
    rewrite (proj2 (rd_Ok _ _ _) Hr). cbn [bind]. pose proof (proj1 (Forall_lookup _ _) Hp _ _ Hr) as Rr. cbn beta in Rr.
    destruct (fully_ge_ok n x a (r + 1) H Ha Rr) as (g & Eg & Hg). replace (r + 1 - 1)%Z with r in Eg by lia.
    rewrite Eg. cbn [bind]. destruct g.
    + right. eexists. split; [done|]. cbn [fst]. split; [lia|]. intros r' Hr'. assert (r' = r) as -> by congruence. by apply Hg.
    + left. eexists. split; [done|]. done.
  - intros [k u] Hk. cbn [fst] in *. subst k. split; [lia|]. intros r Hr. apply lookup_lt_Some in Hr. lia.
  - exists id. rewrite E. cbn [bind]. split; [done|]. by split.
Qed.

(** ** Container ids *)
Section containers.
  Context (hs : list (list Z)) (n f : nat) (H : int_cols n hs) (Hf : f < length hs) (bs : list (list Z)).
  Context (B : in_blocks (lexcmp hs) n bs).
  Notation T := (lexcmp_tpo hs).
  Notation cmpO := (lexcmp (take f hs)).
  Notation TO := (lexcmp_tpo (take f hs)).

  Lemma outer_inner a b : lexcmp hs a b = cmp_then (cmpO a b) (lexcmp (drop f hs) a b).
  Proof. rewrite <- lexcmp_app. by rewrite take_drop. Qed.
  Lemma outer_Eq a b : lexcmp hs a b = Eq -> cmpO a b = Eq.
  Proof. rewrite outer_inner. destruct (cmpO a b); cbn; done. Qed.
  Lemma outer_Lt a b : lexcmp hs a b = Lt -> cmpO a b <> Gt.
  Proof. rewrite outer_inner. destruct (cmpO a b); cbn; done. Qed.

  Definition inner_le (a b : Z) : Prop := forall c x, drop f hs !! c = Some x -> (at_loc 0%Z x a <= at_loc 0%Z x b)%Z.
  Lemma inner_le_trans a b c : inner_le a b -> inner_le b c -> inner_le a c.
  Proof. intros H1 H2 k x Hx. specialize (H1 k x Hx). specialize (H2 k x Hx). lia. Qed.
  Lemma inner_le_Eq a b : lexcmp hs a b = Eq -> inner_le a b.
  Proof. rewrite lexcmp_Eq. intros E c x Hx. rewrite lookup_drop in Hx. rewrite (E _ _ Hx). lia. Qed.
  Lemma inner_le_intro a b : cmpO a b = Eq -> lexcmp hs a b <> Gt ->
    (forall c y, 1 <= c -> drop f hs !! c = Some y -> (at_loc 0%Z y a <= at_loc 0%Z y b)%Z) -> inner_le a b.
  Proof.
    intros E Hne Hc [|c] x Hx; [|by apply (Hc (S c)); [lia|]]. rewrite lookup_drop in Hx.
    apply (lexcmp_le hs a b Hne _ x Hx). intros d y Hd Hy. apply (proj1 (lexcmp_Eq (take f hs) a b) E d). rewrite lookup_take by lia. done.
  Qed.

  (** Locations of the groups done are kept increasing in each container. *)
  Definition nested (D : Z -> Prop) (ids : list Z) : Prop :=
    forall a b, D a -> D b -> at_loc 0%Z ids a = at_loc 0%Z ids b -> cmpO a b = Eq -> lexcmp hs a b <> Gt -> inner_le a b.
  (** Rows kept for the outer group of a location. *)
  Definition kept (D : Z -> Prop) (ids : list Z) (prev : list Z) (l : Z) : Prop :=
    (forall k r, prev !! k = Some r -> D (r + 1)%Z /\ cmpO (r + 1) l = Eq) /\
    (forall a, D a -> cmpO a l = Eq -> exists r, prev !! Z.to_nat (at_loc 0%Z ids a) = Some r /\ inner_le a (r + 1)).

  Definition done_ (i : nat) : Z -> Prop := fun a => a ∈ concat (take i bs).
  Definition cinv (i : nat) (ids prev : list Z) (cn : nat) : Prop :=
    length ids = n /\ 1 <= cn /\ cn <= Nat.max 1 i /\ length prev <= cn /\
    (forall a, (1 <= a <= Z.of_nat n)%Z -> (0 <= at_loc 0%Z ids a < Z.of_nat cn)%Z) /\
    nested (done_ i) ids /\ (i = 0 -> prev = []) /\
    forall j b l, i = S j -> bs !! j = Some b -> l ∈ b -> kept (done_ i) ids prev l.

  (** One group, once rows of other outer groups are forgotten. *)
  Lemma container_step i b v ids prev cn : bs !! i = Some b -> v ∈ b ->
    length ids = n -> 1 <= cn -> cn <= Nat.max 1 i -> length prev <= cn ->
    (forall a, (1 <= a <= Z.of_nat n)%Z -> (0 <= at_loc 0%Z ids a < Z.of_nat cn)%Z) ->
    nested (done_ i) ids -> kept (done_ i) ids prev v -> length prev <= i ->
    exists id prev' cn' ids', find_container (drop f hs) (v - 1) prev = Ok id /\
      (if id =? length prev then
        let prev := prev ++ [(v - 1)%Z] in
        Ok (prev, if cn <? length prev then length prev else cn)
      else let! prev := wr prev id (v - 1)%Z in Ok (prev, cn)) = Ok (prev', cn') /\
      rank_group (concat bs) (length b) (Z.of_nat id) (length (concat (take i bs))) ids = Ok (length (concat (take (S i) bs)), ids') /\
      cinv (S i) ids' prev' cn' /\ length prev' <= S i.
  Proof.
    intros Hb Hv L C1 C2 LP RI NE KE Hpi.
    assert (Vr : (1 <= v <= Z.of_nat n)%Z) by (by eapply bl_range).
    assert (Hdone : forall a, done_ (S i) a <-> done_ i a \/ a ∈ b).
    { intros a. unfold done_. rewrite (bl_take bs i b Hb), elem_of_app. done. }
    assert (Dr : forall a, done_ i a -> (1 <= a <= Z.of_nat n)%Z) by (intros a; by eapply bl_take_range).
    assert (Dn : forall a, done_ i a -> a ∉ b).
    { intros a Ha Hin. by apply (bl_disjoint _ T n bs B i b a Hb Hin). }
    assert (Dl : forall a x, done_ i a -> x ∈ b -> lexcmp hs a x = Lt).
    { intros a x Ha Hx. unfold done_ in Ha. apply in_concat_block in Ha as (c & Hc & Ha). apply elem_of_list_lookup in Hc as [j Hj].
      apply lookup_take_Some in Hj as [Hj Hji]. destruct B as (_ & _ & _ & SS). exact (ss_lookup _ _ j i c b SS Hji Hj Hb a x Ha Hx). }
    assert (Hin : int_cols n (drop f hs)) by (by apply Forall_drop).
    destruct KE as [K1 K2].
    destruct (find_container_ok n (drop f hs) v prev Hin Vr) as (id & Eid & Hid & Hge).
    { apply Forall_lookup. intros k r Hr. apply Dr. by apply (K1 k). }
    destruct (bl_group _ n bs B i b (Z.of_nat id) ids Hb L) as (ids' & Er & L' & Hids).
    assert (IB : forall x, x ∈ b -> at_loc 0%Z ids' x = Z.of_nat id).
    { intros x Hx. rewrite Hids by (apply (bl_range _ n bs B i b x Hb) in Hx; lia). by rewrite decide_True. }
    assert (ID : forall a, done_ i a -> at_loc 0%Z ids' a = at_loc 0%Z ids a).
    { intros a Ha. rewrite Hids by (apply Dr in Ha; lia). rewrite decide_False; [done|by apply Dn]. }
    assert (BE : forall x y, x ∈ b -> y ∈ b -> lexcmp hs x y = Eq) by (intros x y; by eapply bl_eq).
    (* a row done with the container of the group *)
    assert (Key : forall a, done_ i a -> at_loc 0%Z ids a = Z.of_nat id -> cmpO a v = Eq -> inner_le a v).
    { intros a Ha Ea Eo. destruct (K2 a Ha Eo) as (r & Hr & Ler). rewrite Ea in Hr. rewrite Nat2Z.id in Hr.
      destruct (K1 _ _ Hr) as [Hrd Hro]. eapply inner_le_trans; [exact Ler|]. apply inner_le_intro; [done| |].
      - by rewrite (Dl _ _ Hrd Hv).
      - intros c y Hc Hy. by apply (Hge r Hr c y). }
    (* the rows kept *)
    assert (exists prev' cn', (if id =? length prev then
        let prev := prev ++ [(v - 1)%Z] in
        Ok (prev, if cn <? length prev then length prev else cn)
      else let! prev := wr prev id (v - 1)%Z in Ok (prev, cn)) = Ok (prev', cn') /\ cn <= cn' /\ cn' <= Nat.max 1 (S i) /\
        length prev' <= cn' /\ length prev' <= S i /\ id < length prev' /\
        prev' !! id = Some (v - 1)%Z /\ (forall k, k <> id -> prev' !! k = prev !! k)) as (prev' & cn' & Ep & Q1 & Q2 & Q3 & Q4 & Q5 & Q6 & Q7).
    { destruct (Nat.eqb_spec id (length prev)) as [->|Ne].
      - cbn zeta. rewrite app_length. cbn [length]. eexists _, _. split; [done|]. rewrite app_length. cbn [length].
        assert (X : forall q, q = (if cn <? length prev + 1 then length prev + 1 else cn) ->
          cn <= q /\ q <= Nat.max 1 (S i) /\ length prev + 1 <= q).
        { intros q ->. destruct (Nat.ltb_spec cn (length prev + 1)); lia. }
        destruct (X _ eq_refl) as (X1 & X2 & X3). split; [done|]. split; [done|]. split; [done|]. split; [lia|]. split; [lia|]. split.
        + rewrite lookup_app_r by lia. by rewrite Nat.sub_diag.
        + intros k Hk. destruct (decide (k < length prev)); [by apply lookup_app_l|].
          rewrite !lookup_ge_None_2; [done|lia|rewrite app_length; cbn; lia].
      - rewrite wr_Ok by lia. cbn [bind]. eexists _, _. split; [done|]. rewrite insert_length.
        split; [lia|]. split; [lia|]. split; [lia|]. split; [lia|]. split; [lia|]. split; [apply list_lookup_insert; lia|].
        intros k Hk. by apply list_lookup_insert_ne. }
    exists id, prev', cn', ids'. split; [done|]. split; [done|]. split; [done|]. split; [|done].
    split; [done|]. split; [lia|]. split; [lia|]. split; [done|]. split; [|split; [|split; [done|]]].
    - intros a Ha. rewrite Hids by lia. destruct (decide (a ∈ b)); [lia|]. specialize (RI a Ha). lia.
    - intros a c Ha Hc Eid' Eo Ne. rewrite Hdone in Ha, Hc. destruct Ha as [Ha|Ha], Hc as [Hc|Hc].
      + apply (NE a c); try done. by rewrite <- (ID a), <- (ID c).
      + rewrite (ID a Ha), (IB c Hc) in Eid'. eapply inner_le_trans; [|apply inner_le_Eq; by apply (BE v c)].
        apply (Key a Ha Eid'). eapply (tp_eq_trans _ TO); [exact Eo|]. apply outer_Eq. by apply BE.
      + rewrite (tp_lt_gt _ T _ _ (Dl c a Hc Ha)) in Ne. done.
      + apply inner_le_Eq. by apply BE.
    - intros j b' l [= <-] Hb' Hl. assert (b' = b) as -> by congruence.
      assert (Elv : cmpO l v = Eq) by (apply outer_Eq; by apply BE). split.
      + intros k r Hr. rewrite Hdone. destruct (decide (k = id)) as [->|Ne].
        * rewrite Q6 in Hr. injection Hr as <-. replace (v - 1 + 1)%Z with v by lia. split; [by right|]. by apply (tp_eq_sym _ TO).
        * rewrite Q7 in Hr by done. destruct (K1 k r Hr) as [Hd Ho]. split; [by left|]. eapply (tp_eq_trans _ TO); [exact Ho|].
          by apply (tp_eq_sym _ TO).
      + intros a Ha Eo. rewrite Hdone in Ha. destruct Ha as [Ha|Ha].
        * assert (Eo' : cmpO a v = Eq) by (eapply (tp_eq_trans _ TO); [exact Eo|done]).
          rewrite (ID a Ha). destruct (K2 a Ha Eo') as (r & Hr & Ler).
          destruct (decide (Z.to_nat (at_loc 0%Z ids a) = id)) as [Ei|Ne].
          -- rewrite Ei, Q6. eexists. split; [done|]. replace (v - 1 + 1)%Z with v by lia. apply Key; [done| |done].
             specialize (RI a (Dr a Ha)). lia.
          -- rewrite Q7 by done. by exists r.
        * rewrite (IB a Ha), Nat2Z.id, Q6. eexists. split; [done|]. replace (v - 1 + 1)%Z with v by lia. apply inner_le_Eq. by apply BE.
  Qed.

  (** *** Outer groups *)
  Context (ob : list (list Z)) (OB : in_blocks cmpO n ob) (SO : StronglySorted (fun x y => cmpO x y <> Gt) (concat bs)).
  Lemma outer_same k c x y : ob !! k = Some c -> x ∈ c -> (1 <= y <= Z.of_nat n)%Z -> cmpO x y = Eq -> y ∈ c.
  Proof.
    intros Hk Hx Hy E. apply (bl_elem _ n ob OB) in Hy. apply in_concat_block in Hy as (c' & Hc' & Hy).
    apply elem_of_list_lookup in Hc' as [k' Hk']. destruct OB as (_ & _ & _ & SS).
    destruct (Nat.lt_trichotomy k k') as [C|[->|C]].
    - by rewrite (ss_lookup _ _ k k' c c' SS C Hk Hk' x y Hx Hy) in E.
    - congruence.
    - pose proof (ss_lookup _ _ k' k c' c SS C Hk' Hk y x Hy Hx) as G. rewrite (tp_sym _ TO), E in G. done.
  Qed.
  Lemma outer_position p a j c : concat bs !! p = Some a -> ob !! j = Some c -> a ∈ c ->
    length (concat (take j ob)) <= p < length (concat (take (S j) ob)).
  Proof. intros Hp Hj Ha. eapply (block_position cmpO n ob (concat bs)); try done; [apply TO|]. by destruct B as (P & _). Qed.
  Lemma concat_position i b k v : bs !! i = Some b -> b !! k = Some v -> concat bs !! (length (concat (take i bs)) + k) = Some v.
  Proof.
    intros Hb Hk. rewrite (bl_split bs i b Hb). rewrite lookup_app_r by lia. rewrite Nat.add_comm, Nat.add_sub.
    rewrite lookup_app_l; [done|]. by eapply lookup_lt_Some.
  Qed.

  Definition oinv (i next ol : nat) : Prop :=
    next = length (concat (take ol ob)) /\ length (concat (take i bs)) <= next /\ (i = 0 -> ol = 0) /\
    forall j b, i = S j -> bs !! j = Some b -> exists k c, ol = S k /\ ob !! k = Some c /\ forall x, x ∈ b -> x ∈ c.

  Lemma outer_step i b v ids prev cn next ol : bs !! i = Some b -> b !! 0 = Some v -> cinv i ids prev cn -> oinv i next ol ->
    exists prev' next' ol',
      (if next =? length (concat (take i bs)) then let! g := rd (map length ob) ol in Ok ([], next + g, S ol) else Ok (prev, next, ol)) = Ok (prev', next', ol') /\
      kept (done_ i) ids prev' v /\ length prev' <= length prev /\ oinv (S i) next' ol'.
  Proof.
    intros Hb Hv (_ & _ & _ & _ & _ & _ & P0 & PK) (-> & Hs & O0 & OK).
    assert (Vb : v ∈ b) by (apply elem_of_list_lookup; by exists 0).
    pose proof (bl_range _ n bs B i b v Hb Vb) as Vr.
    pose proof Vr as Ve. apply (bl_elem _ n ob OB) in Ve. apply in_concat_block in Ve as (c & Hc & Vc).
    apply elem_of_list_lookup in Hc as [j Hj].
    assert (Bc : forall x, x ∈ b -> x ∈ c).
    { intros x Hx. apply (outer_same j c v x Hj Vc); [exact (bl_range _ n bs B i b x Hb Hx)|]. apply outer_Eq. exact (bl_eq _ n bs B i b v x Hb Vb Hx). }
    pose proof (concat_position i b 0 v Hb Hv) as Pv. rewrite Nat.add_0_r in Pv.
    pose proof (outer_position _ v j c Pv Hj Vc) as Hpos.
    assert (Hend : length (concat (take (S i) bs)) <= length (concat (take (S j) ob))).
    { rewrite (bl_take bs i b Hb), app_length. pose proof (lookup_lt_Some _ _ _ Hv) as Hl.
      destruct (lookup_lt_is_Some_2 b (length b - 1)) as [w Hw]; [lia|].
      pose proof (outer_position _ w j c (concat_position i b _ w Hb Hw) Hj (Bc w ltac:(apply elem_of_list_lookup; by eexists))). lia. }
    assert (Hnew : oinv (S i) (length (concat (take (S j) ob))) (S j)).
    { split; [done|]. split; [done|]. split; [done|]. intros j' b' [= <-] Hb'. assert (b' = b) as -> by congruence. by exists j, c. }
    destruct (Nat.eqb_spec (length (concat (take ol ob))) (length (concat (take i bs)))) as [E|Ne].
    - assert (ol = j) as ->.
      { destruct (Nat.lt_trichotomy ol j) as [C|[->|C]]; [|done|].
        - destruct (lookup_lt_is_Some_2 ob ol) as [d Hd]; [apply lookup_lt_Some in Hj; lia|].
          pose proof (concat_take_lt cmpO n ob ol j d OB Hd C). lia.
        - pose proof (concat_take_le ob (S j) ol ltac:(lia)). lia. }
      assert (Eg : rd (map length ob) j = Ok (length c)).
      { apply rd_Ok. rewrite list_lookup_fmap, Hj. done. }
      rewrite Eg. cbn [bind]. eexists _, _, _. split; [done|]. split; [|split; [cbn; lia|]].
      + split; [done|]. intros a Ha Eo. exfalso. unfold done_ in Ha. apply elem_of_list_lookup in Ha as [p Hp].
        assert (Hpa : concat bs !! p = Some a).
        { rewrite (bl_split bs i b Hb), lookup_app_l; [done|]. by eapply lookup_lt_Some. }
        pose proof (lookup_lt_Some _ _ _ Hp) as Hpl.
        assert (Ac : a ∈ c).
        { apply (outer_same j c v a Hj Vc); [|by apply (tp_eq_sym _ TO)]. eapply (bl_take_range _ n bs B i). apply elem_of_list_lookup. by exists p. }
        pose proof (outer_position p a j c Hpa Hj Ac). lia.
      + rewrite <- app_length, <- (bl_take ob j c Hj). done.
    - destruct i as [|i0]; [rewrite (O0 eq_refl) in Ne; cbn in Ne; done|].
      destruct (lookup_lt_is_Some_2 bs i0) as [b0 Hb0]; [apply lookup_lt_Some in Hb; lia|].
      destruct (OK i0 b0 eq_refl Hb0) as (k & c0 & -> & Hk & Hc0).
      pose proof (bl_ne _ n bs B i0 b0 Hb0) as Nb. 
      assert (Hl0 : length b0 <> 0) by (destruct b0; done).
      destruct (lookup_lt_is_Some_2 b0 (length b0 - 1)) as [w Hw]; [lia|].
      assert (Wb : w ∈ b0) by (apply elem_of_list_lookup; by eexists).
      pose proof (outer_position _ w k c0 (concat_position i0 b0 _ w Hb0 Hw) Hk (Hc0 w Wb)) as Hposw.
      pose proof (bl_take bs i0 b0 Hb0) as Et. assert (El : length (concat (take (S i0) bs)) = length (concat (take i0 bs)) + length b0) by (by rewrite Et, app_length).
      assert (k = j) as ->.
      { destruct (Nat.lt_trichotomy k j) as [C|[->|C]]; [|done|].
        - pose proof (concat_take_le ob (S k) j ltac:(lia)). lia.
        - pose proof (concat_take_le ob (S j) k ltac:(lia)). lia. }
      assert (c0 = c) as -> by congruence.
      eexists _, _, _. split; [done|]. split; [|split; [done|done]].
      destruct (PK i0 b0 w eq_refl Hb0 Wb) as [K1 K2].
      assert (Ewv : cmpO w v = Eq) by (eapply (bl_eq _ n ob OB); [exact Hj|by apply Hc0|done]).
      split.
      + intros q r Hr. destruct (K1 q r Hr) as [Hd Ho]. split; [done|]. by eapply (tp_eq_trans _ TO).
      + intros a Ha Eo. apply K2; [done|]. eapply (tp_eq_trans _ TO); [exact Eo|]. by apply (tp_eq_sym _ TO).
  Qed.
End containers.

Lemma container_ids_ok hs n f bs outer ob : int_cols n hs -> f < length hs -> in_blocks (lexcmp hs) n bs -> is_order (lexcmp hs) n (concat bs) ->
  (outer = None /\ f = 0 \/ outer = Some (map length ob) /\ in_blocks (lexcmp (take f hs)) n ob) ->
  exists ids cn, compute_nesting_container_ids (drop f hs) (concat bs) (map length bs) outer n = Ok (ids, cn) /\
    length ids = n /\ 1 <= cn /\ cn <= Nat.max 1 n /\
    (forall a, (1 <= a <= Z.of_nat n)%Z -> (0 <= at_loc 0%Z ids a < Z.of_nat cn)%Z) /\
    nested hs f (fun a => (1 <= a <= Z.of_nat n)%Z) ids.
Proof.
  intros H Hf B IO HO. unfold compute_nesting_container_ids.
  assert (Z0 : forall a, at_loc 0%Z (replicate n 0%Z) a = 0%Z).
  { intros a. unfold at_loc. destruct (nth_in_or_default (Z.to_nat (a - 1)) (replicate n 0%Z) 0%Z) as [I|E]; [|done].
    apply elem_of_list_In, elem_of_replicate in I. tauto. }
  assert (Lr : length (replicate n 0%Z) = n) by apply replicate_length.
  destruct (Nat.eqb_spec n 0) as [->|Hn].
  { cbn [orb]. eexists _, _. split; [done|]. split; [done|]. split; [lia|]. split; [lia|]. split; [intros; lia|]. intros a b Ha; lia. }
  cbn [orb]. destruct (Nat.eqb_spec (length (drop f hs)) 1) as [E1|N1].
  { eexists _, _. split; [done|]. split; [done|]. split; [lia|]. split; [lia|]. split; [intros a _; rewrite Z0; lia|].
    intros a b _ _ _ Eo Ne. apply inner_le_intro; [done|done|done|]. intros c y Hc Hy. apply lookup_lt_Some in Hy. lia. }
  assert (SO : StronglySorted (fun x y => lexcmp (take f hs) x y <> Gt) (concat bs)).
  { destruct IO as [_ SS]. eapply ss_impl; [|exact SS]. cbn. intros x y _ _ [E|[E _]]; [by apply outer_Lt|].
    by rewrite (outer_Eq _ _ _ _ E). }
  set (ids0 := replicate n 0%Z).
  match goal with |- context [for_ 0 _ ?body ?s0] =>
    destruct (for_inv (fun i s => cinv hs n f bs i (c_ids s) (c_prev s) (c_n s) /\ c_start s = length (concat (take i bs)) /\ length (c_prev s) <= i /\
      match outer with None => True | Some _ => oinv bs ob i (c_next s) (c_outer s) end) 0 (length (map length bs)) body s0) as (s & E & I)
  end.
  - cbn [c_ids c_prev c_n c_start c_next c_outer]. split; [|split; [done|split; [done|]]].
    + split; [done|]. split; [lia|]. split; [lia|]. split; [cbn; lia|]. split; [intros a _; unfold ids0; rewrite Z0; lia|]. split; [|by split].
      intros a b Ha. unfold done_ in Ha. cbn in Ha. by apply elem_of_nil in Ha.
    + destruct outer; [|done]. split; [done|]. split; [done|]. by split.
  - intros i s Hi (CI & Es & Lp & OI). rewrite map_length in Hi.
    destruct (lookup_lt_is_Some_2 bs i) as [b Hb]; [lia|].
    destruct (bl_head _ n bs B i b Hb) as (v0 & Ev0 & _).
    pose proof (bl_ne _ n bs B i b Hb) as Nb. destruct (b !! 0) as [v|] eqn:Hv; [|by destruct b].
    assert (Vb : v ∈ b) by (apply elem_of_list_lookup; by exists 0).
    assert (Ev : rd (concat bs) (length (concat (take i bs))) = Ok v).
    { apply rd_Ok. pose proof (concat_position hs f Hf bs i b 0 v Hb Hv) as Q. by rewrite Nat.add_0_r in Q. }
    rewrite Es.
    assert (exists prev' next' ol',
      match outer with
      | Some outer_group_sizes =>
          if c_next s =? length (concat (take i bs)) then
            let! g := rd outer_group_sizes (c_outer s) in Ok ([], c_next s + g, S (c_outer s))
          else Ok (c_prev s, c_next s, c_outer s)
      | None => Ok (c_prev s, c_next s, c_outer s)
      end = Ok (prev', next', ol') /\ kept hs f (done_ bs i) (c_ids s) prev' v /\ length prev' <= length (c_prev s) /\
      match outer with None => True | Some _ => oinv bs ob (S i) next' ol' end) as (prev' & next' & ol' & Eo & K & Lp' & OI').
    { destruct HO as [[-> ->]|[-> OB]].
      - eexists _, _, _. split; [done|]. split; [|done]. destruct CI as (_ & _ & _ & _ & _ & _ & P0 & PK). destruct i as [|i0].
        + rewrite P0 by done. split; [done|]. intros a Ha. unfold done_ in Ha. cbn in Ha. by apply elem_of_nil in Ha.
        + destruct (lookup_lt_is_Some_2 bs i0) as [b0 Hb0]; [lia|]. pose proof (bl_ne _ n bs B i0 b0 Hb0) as Nb0. destruct b0 as [|w b0]; [done|].
          exact (PK i0 _ w eq_refl Hb0 (elem_of_list_here _ _)).
      - by apply (outer_step hs n f Hf bs B ob OB SO i b v (c_ids s) (c_prev s) (c_n s)). }
    rewrite Eo. cbn [bind]. rewrite (proj2 (rd_Ok (map length bs) i (length b))) by (by rewrite list_lookup_fmap, Hb). cbn [bind].
    rewrite Ev. cbn [bind]. destruct CI as (C1 & C2 & C3 & C4 & C5 & C6 & _).
    destruct (container_step hs n f H Hf bs B i b v (c_ids s) prev' (c_n s) Hb Vb C1 C2 C3 ltac:(lia) C5 C6 K ltac:(lia))
      as (id & prev'' & cn' & ids' & E1 & E2 & E3 & CI' & Lp'').
    rewrite E1. cbn [bind]. cbn zeta in E2 |- *. rewrite E2. cbn [bind]. rewrite E3. cbn [bind]. eexists. split; [done|].
    cbn [c_ids c_prev c_n c_start c_next c_outer]. done.
  - rewrite E. cbn [bind]. destruct I as ((C1 & C2 & C3 & C4 & C5 & C6 & _) & _). rewrite map_length in C3, C6. cbn [Nat.add] in C3, C6.
    exists (c_ids s), (c_n s). split; [done|]. split; [done|]. split; [done|].
    pose proof (bl_count _ n bs B). split; [lia|]. split; [done|].
    intros a b Ha Hb. apply C6; unfold done_; rewrite firstn_all; by apply (bl_elem _ n bs B).
Qed.

(** ** Order of the haystack *)
Lemma haystack_proxy_ok hs n bs : in_blocks (lexcmp hs) n bs ->
  exists p, haystack_proxy_of (concat bs) (map length bs) n = Ok p /\ length p = n /\
    (forall a, (1 <= a <= Z.of_nat n)%Z -> (0 <= at_loc 0%Z p a < Z.of_nat n)%Z) /\
    forall a b, (1 <= a <= Z.of_nat n)%Z -> (1 <= b <= Z.of_nat n)%Z -> (at_loc 0%Z p a ?= at_loc 0%Z p b)%Z = lexcmp hs a b.
Proof.
  intros B. unfold haystack_proxy_of. pose proof (lexcmp_tpo hs) as T.
  match goal with |- context [for_ 0 _ ?body ?s0] =>
    destruct (for_inv (fun i (s : nat * list Z) => s.1 = length (concat (take i bs)) /\ length s.2 = n /\
      forall j b a, j < i -> bs !! j = Some b -> a ∈ b -> at_loc 0%Z s.2 a = Z.of_nat j) 0 (length (map length bs)) body s0) as ([st p] & E & _ & L & I)
  end.
  - split; [done|]. split; [apply replicate_length|]. lia.
  - intros i [st p] Hi (Est & L & I). cbn [fst snd] in *. subst st. rewrite map_length in Hi. destruct (lookup_lt_is_Some_2 bs i) as [b Hb]; [lia|].
    rewrite (proj2 (rd_Ok (map length bs) i (length b))) by (by rewrite list_lookup_fmap, Hb). cbn [bind].
    destruct (bl_group _ n bs B i b (Z.of_nat i) p Hb L) as (p' & E & L' & Hp). exists (length (concat (take (S i) bs)), p'). split; [done|].
    cbn [fst snd]. split; [done|]. split; [done|]. intros j c a Hj Hc Ha. rewrite Hp by (apply (bl_range _ n bs B j c a Hc) in Ha; lia).
    destruct (decide (j = i)) as [->|Ne].
    + assert (c = b) as -> by congruence. by rewrite decide_True.
    + rewrite decide_False; [apply (I j c); [lia|done|done]|]. intros Hin. apply (bl_disjoint _ T n bs B i b a Hb Hin).
      apply in_concat_block. exists c. split; [|done]. apply elem_of_list_lookup. exists j. by rewrite lookup_take by lia.
  - rewrite E. cbn [bind]. exists p. rewrite map_length in I. cbn [fst snd Nat.add] in *. split; [done|]. split; [done|].
    assert (X : forall a, (1 <= a <= Z.of_nat n)%Z -> exists j b, bs !! j = Some b /\ a ∈ b).
    { intros a Ha. apply (bl_elem _ n bs B) in Ha. apply in_concat_block in Ha as (b & Hb & Ha). apply elem_of_list_lookup in Hb as [j Hj]. by exists j, b. }
    pose proof (bl_count _ n bs B) as Hn. split.
    + intros a Ha. destruct (X a Ha) as (j & b & Hj & Hin). pose proof (lookup_lt_Some _ _ _ Hj). rewrite (I j b a) by done. lia.
    + intros a b Ha Hb. destruct (X a Ha) as (j & c & Hj & Hin), (X b Hb) as (k & d & Hk & Hin').
      rewrite (I j c a), (I k d b) by (done || by eapply lookup_lt_Some). destruct B as (_ & _ & EQ & SS).
      destruct (Z.compare_spec (Z.of_nat j) (Z.of_nat k)) as [C|C|C].
      * assert (j = k) as -> by lia. assert (d = c) as -> by congruence. symmetry. exact (proj1 (Forall_lookup _ _) EQ k c Hj a b Hin Hin').
      * symmetry. apply (ss_lookup _ _ j k c d SS); lia || done.
      * symmetry. rewrite (tp_sym _ T b a). assert (E' : lexcmp hs b a = Lt) by (apply (ss_lookup _ _ k j d c SS); lia || done). by rewrite E'.
Qed.

Lemma first_non_equi_spec ops :
  match first_non_equi ops with
  | None => forall c o, ops !! c = Some o -> o = OPS_eq
  | Some f => f < length ops /\ (exists o, ops !! f = Some o /\ o <> OPS_eq) /\ forall c o, c < f -> ops !! c = Some o -> o = OPS_eq
  end.
Proof.
  induction ops as [|o ops IH]; [done|]. cbn [first_non_equi]. destruct (mop_eqb o OPS_eq) eqn:E.
  - assert (o = OPS_eq) as -> by (destruct o; done). destruct (first_non_equi ops) as [f|]; cbn.
    + destruct IH as (H1 & (o & H2 & H3) & H4). split; [lia|]. split; [by exists o|]. intros [|c] o' Hc Ho; [cbn in Ho; congruence|].
      apply (H4 c); [lia|done].
    + intros [|c] o Ho; [cbn in Ho; congruence|]. by apply (IH c).
  - split; [cbn; lia|]. split; [exists o; split; [done|intros ->; done]|]. lia.
Qed.
Definition first_other (ops : list mop) : nat := default (length ops) (first_non_equi ops).

(** A container is increasing in the columns from [f] on where the columns before agree. *)
Definition hs_le (f : nat) (hs : list (list Z)) (a b : Z) : Prop :=
  forall c x, hs !! c = Some x -> (forall d y, d < c -> d < f -> hs !! d = Some y -> at_loc 0%Z y a = at_loc 0%Z y b) ->
    (at_loc 0%Z x a <= at_loc 0%Z x b)%Z.

Lemma nested_hs_le hs n f ids a b : f < length hs -> nested hs f (fun a => (1 <= a <= Z.of_nat n)%Z) ids ->
  (1 <= a <= Z.of_nat n)%Z -> (1 <= b <= Z.of_nat n)%Z -> at_loc 0%Z ids a = at_loc 0%Z ids b -> lexcmp hs a b <> Gt -> hs_le f hs a b.
Proof.
  intros Hf NE Ha Hb E Ne c x Hx Hag. destruct (decide (c < f)) as [C|C].
  - apply (lexcmp_le hs a b Ne c x Hx). intros d y Hd Hy. apply (Hag d y); [done|lia|done].
  - assert (Eo : lexcmp (take f hs) a b = Eq).
    { apply lexcmp_Eq. intros d y Hd. apply lookup_take_Some in Hd as [Hd Hdf]. apply (Hag d y); [lia|done|done]. }
    apply (NE a b Ha Hb E Eo Ne (c - f)). rewrite lookup_drop. by replace (f + (c - f)) with c by lia.
Qed.

Lemma container_info_ok fuel hs n ops tls : int_cols n hs -> length hs = length ops -> (Z.of_nat n <= INT_MAX)%Z -> (forall s, 0 <= tls s)%Z ->
  length hs <= fuel -> 2 <= fuel ->
  exists o ids cn any, compute_nesting_container_info fuel hs n ops tls = Ok (o, ids, cn, any) /\
    any = (if first_non_equi ops then true else false) /\ 1 <= cn /\ o ≡ₚ locs n /\
    (any = false -> is_order (lexcmp hs) n o /\ cn = 1) /\
    exists idf : Z -> Z, (forall a, (1 <= a <= Z.of_nat n)%Z -> (0 <= idf a < Z.of_nat cn)%Z) /\
      (cn <> 1 -> length ids = n /\ forall a, (1 <= a <= Z.of_nat n)%Z -> at_loc 0%Z ids a = idf a) /\
      StronglySorted (fun a b => (idf a <= idf b)%Z /\ (idf a = idf b -> hs_le (first_other ops) hs a b)) o.
Proof.
  intros H L Hn Ht Hf Hf2. unfold compute_nesting_container_info, first_other. pose proof (first_non_equi_spec ops) as FS.
  destruct (first_non_equi ops) as [f|].
  - destruct FS as (Hfl & _ & Hfe). change (default (length ops) (Some f)) with f.
    destruct (ints_info_ok fuel n hs tls H Hn Ht Hf) as (bs & E & B & IO). rewrite E. cbn [bind].
    assert (exists outer ob, (if negb (f =? 0) then let! (_, outer) := ints_order_info fuel (take f hs) n tls in Ok (Some outer) else Ok None) = Ok outer /\
      (outer = None /\ f = 0 \/ outer = Some (map length ob) /\ in_blocks (lexcmp (take f hs)) n ob)) as (outer & ob & Eo & HO).
    { destruct (Nat.eqb_spec f 0) as [->|Nf]; cbn [negb].
      - exists None, []. split; [done|]. by left.
      - destruct (ints_info_ok fuel n (take f hs) tls) as (ob & E' & B' & _); [by apply Forall_take|done|done|rewrite take_length; lia|].
        rewrite E'. cbn [bind]. eexists _, ob. split; [done|]. by right. }
    rewrite Eo. cbn [bind].
    destruct (container_ids_ok hs n f bs outer ob H ltac:(lia) B IO HO) as (ids & cn & E2 & Li & C1 & C2 & RI & NE). rewrite E2. cbn [bind].
    destruct (Nat.eqb_spec cn 1) as [->|Nc].
    + eexists _, _, _, _. split; [done|]. split; [done|]. split; [done|]. split; [by destruct IO|]. split; [done|].
      exists (at_loc 0%Z ids). split; [done|]. split; [done|]. destruct IO as [P SS]. eapply ss_impl; [|exact SS].
      intros a b Ha Hb Hab. rewrite P in Ha, Hb. apply elem_locs in Ha, Hb. pose proof (RI a Ha). pose proof (RI b Hb).
      split; [lia|]. intros Eid. eapply nested_hs_le; [lia|done|done|done|done|]. by destruct Hab as [->|[-> _]].
    + destruct (haystack_proxy_ok hs n bs B) as (p & Ep & Lp & Rp & Cp). rewrite Ep. cbn [bind].
      assert (I2 : int_cols n [ids; p]).
      { apply Forall_cons. split; [split; [done|]|apply Forall_cons; split; [split; [done|]|done]].
        - apply Forall_lookup. intros i x Hx. pose proof (lookup_lt_Some _ _ _ Hx). pose proof (RI (Z.of_nat i + 1)%Z ltac:(lia)) as R.
          unfold at_loc in R. replace (Z.to_nat (Z.of_nat i + 1 - 1)) with i in R by lia. rewrite (nth_lookup_Some _ _ _ _ Hx) in R.
          unfold is_int, INT_MIN. unfold INT_MAX in *. lia.
        - apply Forall_lookup. intros i x Hx. pose proof (lookup_lt_Some _ _ _ Hx). pose proof (Rp (Z.of_nat i + 1)%Z ltac:(lia)) as R.
          unfold at_loc in R. replace (Z.to_nat (Z.of_nat i + 1 - 1)) with i in R by lia. rewrite (nth_lookup_Some _ _ _ _ Hx) in R.
          unfold is_int, INT_MIN. unfold INT_MAX in *. lia. }
      destruct (ints_order_ok fuel n [ids; p] tls I2 Hn Ht Hf2) as (o & E3 & [P SS]). rewrite E3. cbn [bind].
      eexists _, _, _, _. split; [done|]. split; [done|]. split; [done|]. split; [done|]. split; [done|].
      exists (at_loc 0%Z ids). split; [done|]. split; [done|]. eapply ss_impl; [|exact SS].
      intros a b Ha Hb Hab. rewrite P in Ha, Hb. apply elem_locs in Ha, Hb. cbn [lexcmp] in Hab. unfold cmp_then in Hab.
      rewrite (Cp a b Ha Hb) in Hab.
      destruct (Z.compare_spec (at_loc 0%Z ids a) (at_loc 0%Z ids b)) as [C|C|C].
      * split; [lia|]. intros Eid. eapply nested_hs_le; [lia|done|done|done|done|]. by destruct (lexcmp hs a b); destruct Hab as [?|[? _]].
      * split; [lia|]. lia.
      * by destruct Hab as [?|[? _]].
  - change (default (length ops) None) with (length ops). destruct (ints_order_ok fuel n hs tls H Hn Ht Hf) as (o & E & IO). rewrite E. cbn [bind].
    eexists _, _, _, _. split; [done|]. split; [done|]. split; [done|]. split; [by destruct IO|]. split; [done|].
    exists (fun _ => 0%Z). split; [intros; lia|]. split; [done|]. destruct IO as [_ SS]. eapply ss_impl; [|exact SS].
    intros a b _ _ Hab. split; [lia|]. intros _ c x Hx Hag. apply (lexcmp_le hs a b ltac:(by destruct Hab as [->|[-> _]]) c x Hx).
    intros d y Hd Hy. apply (Hag d y); [done| |done]. apply lookup_lt_Some in Hy. lia.
Qed.
