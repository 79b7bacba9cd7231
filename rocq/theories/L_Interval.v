(** * Lemmas: groups, containers on ordered locations *)
From Verif Require Import Base M_Double M_Scalar M_Object M_Proxy M_OrderChr M_OrderDf M_Rank M_Interval.
From Verif Require Import Spec_Order Spec_Interval L_OrderSpec.
From Coq Require Import Sorting.Sorted.
#[local] Arguments Z.mul : simpl never.
#[local] Arguments Z.add : simpl never.
#[local] Arguments Z.sub : simpl never.
#[local] Arguments Z.to_nat : simpl never.
#[local] Arguments Z.of_nat : simpl never.

Definition c2z (c : comparison) : Z := match c with Lt => -1 | Eq => 0 | Gt => 1 end%Z.

Section points.
  Context {V : Type} (cmp : V -> V -> comparison) (T : tpo cmp).
  Notation vlt := (vlt cmp). Notation vle := (vle cmp).
  Lemma vle_refl x : vle x x.
  Proof. unfold Spec_Interval.vle. by rewrite (tp_refl _ T). Qed.
  Lemma vlt_vle x y : vlt x y -> vle x y.
  Proof. unfold Spec_Interval.vle, Spec_Interval.vlt. congruence. Qed.
  Lemma vle_nlt x y : vle x y <-> ~ vlt y x.
  Proof. unfold Spec_Interval.vle, Spec_Interval.vlt. rewrite (tp_sym _ T x y). destruct (cmp x y); cbn; split; congruence. Qed.
  Lemma vle_vlt x y : vle x y -> vlt y x -> False.
  Proof. intros H. by apply (proj1 (vle_nlt x y)). Qed.
  Lemma vle_cases x y : vle x y \/ vlt y x.
  Proof. unfold Spec_Interval.vle, Spec_Interval.vlt. rewrite (tp_sym _ T x y). destruct (cmp x y); cbn; auto; left; congruence. Qed.
  Lemma vle_trans x y z : vle x y -> vle y z -> vle x z.
  Proof.
    unfold Spec_Interval.vle. intros H1 H2. destruct (cmp x y) eqn:E; [by rewrite (tp_eq_l _ T _ _ z E)| |done].
    destruct (cmp y z) eqn:E2; [by rewrite <- (tp_eq_r _ T _ _ x E2), E|by rewrite (tp_lt _ T _ _ _ E E2)|done].
  Qed.
  Lemma vle_lt_trans x y z : vle x y -> vlt y z -> vlt x z.
  Proof. intros H1 H2. destruct (vle_cases z x) as [H|H]; [|done]. exfalso. apply (vle_vlt z y); [by eapply vle_trans|done]. Qed.
  Lemma vlt_le_trans x y z : vlt x y -> vle y z -> vlt x z.
  Proof. intros H1 H2. destruct (vle_cases z x) as [H|H]; [|done]. exfalso. apply (vle_vlt y x); [by eapply vle_trans|done]. Qed.
  Lemma vlt_irrefl x : ~ vlt x x.
  Proof. intros H. exact (vle_vlt _ _ (vle_refl x) H). Qed.
  Lemma vle_antisym x y : vle x y -> vle y x -> cmp x y = Eq.
  Proof. unfold Spec_Interval.vle. rewrite (tp_sym _ T x y). by destruct (cmp x y). Qed.
  Lemma vlt_trans x y z : vlt x y -> vlt y z -> vlt x z.
  Proof. intros. eapply vlt_le_trans; [done|by apply vlt_vle]. Qed.

  Context (S E : Z -> V).
  Notation covered := (covered cmp S E). Notation within := (within cmp).
  Notation is_group := (is_group cmp S E). Notation apart := (apart cmp).

  Lemma covered_app l k p : covered (l ++ k) p <-> covered l p \/ covered k p.
  Proof. unfold Spec_Interval.covered. setoid_rewrite elem_of_app. firstorder. Qed.
  Lemma covered_perm (l k : list Z) p : l ≡ₚ k -> covered l p -> covered k p.
  Proof. intros P (a & Ha & H). exists a. by rewrite <- P. Qed.

  Lemma apart_mono ab e s s' : apart ab e s -> vle s s' -> apart ab e s'.
  Proof. destruct ab; cbn; intros; [by eapply vlt_le_trans|by eapply vle_trans]. Qed.
  Lemma apart_cmp ab e s : (c2z (cmp e s) <=? (if (ab : bool) then -1 else 0))%Z = true <-> apart ab e s.
  Proof. destruct ab; cbn; unfold Spec_Interval.vle, Spec_Interval.vlt; destruct (cmp e s); cbn; split; congruence. Qed.
  Lemma not_apart ab e s : ~ apart ab e s -> vle s e /\ (ab = false -> vlt s e).
  Proof. destruct ab; cbn; intros H; [split; [|done]|split; [|intros _]].
    - by apply vle_nlt.
    - apply vlt_vle. destruct (vle_cases e s); [done|done].
    - destruct (vle_cases e s); [done|done].
  Qed.

  Lemma group_one ab a : is_group ab (a, a, [a]).
  Proof.
    split; [left|]. split; [left|]. split; [|split].
    - intros m Hm. apply elem_of_list_singleton in Hm as ->. split; apply vle_refl.
    - intros p Hp. exists a. split; [left|done].
    - intros _ p H1 H2. exists a. split; [left|done].
  Qed.
  Lemma group_snoc ab a b mem x : is_group ab (a, b, mem) -> ~ apart ab (E b) (S x) -> vle (S a) (S x) ->
    is_group ab (a, (if (c2z (cmp (E b) (E x)) =? -1)%Z then x else b), mem ++ [x]).
  Proof.
    intros (Ha & Hb & Hm & Hc & Hi) Hn Hs. apply not_apart in Hn. destruct Hn as [Hn Hn'].
    set (b' := if (c2z (cmp (E b) (E x)) =? -1)%Z then x else b).
    assert (Hb' : (b' = x /\ vlt (E b) (E x)) \/ (b' = b /\ vle (E x) (E b))).
    { unfold b', Spec_Interval.vlt. destruct (cmp (E b) (E x)) eqn:Eq; cbn; [right|left|right]; split; try done;
        apply vle_nlt; unfold Spec_Interval.vlt; congruence. }
    clearbody b'. split; [apply elem_of_app; by left|]. split.
    { apply elem_of_app. destruct Hb' as [[-> _]|[-> _]]; [right; left|by left]. }
    assert (Hbx : vle (E b) (E b')) by (destruct Hb' as [[-> H]|[-> H]]; [by apply vlt_vle|apply vle_refl]).
    assert (Hxb : vle (E x) (E b')) by (destruct Hb' as [[-> H]|[-> H]]; [apply vle_refl|done]).
    split; [|split].
    - intros m Hm'. apply elem_of_app in Hm'. destruct Hm' as [Hm'|Hm'].
      + destruct (Hm m Hm'). split; [done|by eapply vle_trans].
      + apply elem_of_list_singleton in Hm' as ->. done.
    - intros p [H1 H2]. apply covered_app. destruct (vle_cases (S x) p) as [H|H].
      + destruct (vle_cases (E x) p) as [H'|H'].
        * left. apply Hc. split; [done|]. destruct Hb' as [[-> _]|[-> _]]; [by destruct (vle_vlt _ _ H')|done].
        * right. exists x. split; [left|done].
      + left. apply Hc. split; [done|by eapply vlt_le_trans].
    - intros Hab p H1 H2. specialize (Hn' Hab). destruct (vle_cases p (S x)) as [H|H].
      + destruct (Hi Hab p H1 ltac:(by eapply vle_lt_trans)) as (m & Hm' & H'). exists m. split; [apply elem_of_app; by left|done].
      + destruct (vle_cases (E x) p) as [H'|H'].
        * destruct Hb' as [[-> _]|[-> _]]; [by destruct (vle_vlt _ _ H')|].
          destruct (Hi Hab p H1 H2) as (m & Hm' & H''). exists m. split; [apply elem_of_app; by left|done].
        * exists x. split; [apply elem_of_app; right; left|done].
  Qed.

  (** The points of the groups are those of their members. *)
  Lemma groups_covered ab l gs p : are_groups cmp S E ab l gs ->
    covered l p <-> exists g, g ∈ gs /\ within (S g.1.1) (E g.1.2) p.
  Proof.
    intros (P & F & _). rewrite Forall_forall in F. split.
    - intros (a & Ha & H1 & H2). rewrite <- P in Ha. apply in_concat_block in Ha. destruct Ha as (b & Hb & Ha).
      apply elem_of_list_fmap in Hb. destruct Hb as (g & -> & Hg). exists g. split; [done|].
      destruct g as [[x y] mem]. destruct (F _ Hg) as (_ & _ & Hm & _). destruct (Hm a Ha) as [H3 H4].
      split; [by eapply vle_trans|by eapply vlt_le_trans].
    - intros ([[x y] mem] & Hg & H). destruct (F _ Hg) as (_ & _ & _ & Hc & _). destruct (Hc p H) as (a & Ha & H').
      exists a. split; [|done]. rewrite <- P. apply in_concat_block. exists mem. split; [|done]. apply elem_of_list_fmap. by exists (x, y, mem).
  Qed.

  (** ** The grouping loop *)
  Notation gok ab gs := (Forall (is_group ab) gs /\ StronglySorted (fun g h => apart ab (E g.1.2) (S h.1.1)) gs).
  Lemma gok_extend ab gs a b mem x : gok ab (gs ++ [(a, b, mem)]) -> ~ apart ab (E b) (S x) -> vle (S a) (S x) ->
    gok ab (gs ++ [(a, (if (c2z (cmp (E b) (E x)) =? -1)%Z then x else b), mem ++ [x])]).
  Proof.
    intros [F SS] Hn Hs. apply Forall_app in F as [F F1]. apply Forall_cons in F1 as [F1 _]. split.
    - apply Forall_app. split; [done|]. constructor; [by apply group_snoc|constructor].
    - apply ss_app in SS. destruct SS as (S1 & _ & S3). apply ss_app. split; [done|]. split; [repeat constructor|].
      intros g h Hg Hh. apply elem_of_list_singleton in Hh as ->. exact (S3 g _ Hg ltac:(left)).
  Qed.
  Lemma gok_close ab gs a b mem x : gok ab (gs ++ [(a, b, mem)]) -> apart ab (E b) (S x) -> vle (S a) (S x) ->
    gok ab ((gs ++ [(a, b, mem)]) ++ [(x, x, [x])]).
  Proof.
    intros [F SS] Hn Hs. split.
    - apply Forall_app. split; [done|]. constructor; [apply group_one|constructor].
    - apply ss_app. split; [done|]. split; [repeat constructor|]. intros g h Hg Hh. apply elem_of_list_singleton in Hh as ->. cbn.
      apply elem_of_app in Hg. destruct Hg as [Hg|Hg].
      + apply ss_app in SS. destruct SS as (_ & _ & S3). eapply apart_mono; [exact (S3 g _ Hg ltac:(left))|done].
      + apply elem_of_list_singleton in Hg as ->. done.
  Qed.

  (** ** The containers loop *)
  (** the order of the locations: by start, then by decreasing end *)
  Definition before (a b : Z) : Prop :=
    vlt (S a) (S b) \/ (cmp (S a) (S b) = Eq /\ (vlt (E b) (E a) \/ (cmp (E a) (E b) = Eq /\ (a < b)%Z))).
  Lemma before_le a b : before a b -> vle (S a) (S b).
  Proof. intros [H|[H _]]; [by apply vlt_vle|]. unfold Spec_Interval.vle. congruence. Qed.
  Definition cok (pre out : list Z) (c : Z) : Prop :=
    are_containers cmp S E pre out /\ c ∈ out /\ (forall b, b ∈ pre -> vle (E b) (E c)).
  Lemma cok_one x : cok [x] [x] x.
  Proof.
    split; [split; [done|split; [|split]]|split; [left|]].
    - intros b Hb. exists b. split; [done|]. split; apply vle_refl.
    - repeat constructor.
    - intros a b Ha Hb _. apply elem_of_list_singleton in Ha as ->. apply elem_of_list_singleton in Hb as ->. rewrite !(tp_refl _ T). split; [done|]. split; [done|]. lia.
    - intros b Hb. apply elem_of_list_singleton in Hb as ->. apply vle_refl.
  Qed.
  Lemma cok_stay pre out c x : cok pre out c -> (forall a, a ∈ pre -> before a x) -> vle (E x) (E c) -> cok (pre ++ [x]) out c.
  Proof.
    intros ((H1 & H2 & H3 & H4) & Hc & Hm) Hb Hx. split; [split; [|split; [|split]]|split; [done|]].
    - intros a Ha. apply elem_of_app. left. by apply H1.
    - intros b Hb'. apply elem_of_app in Hb'. destruct Hb' as [Hb'|Hb']; [by apply H2|]. apply elem_of_list_singleton in Hb' as ->.
      exists c. split; [done|]. split; [|done]. apply before_le, Hb. by apply H1.
    - done.
    - intros a b Ha Hb' Hcon. apply elem_of_app in Hb'. destruct Hb' as [Hb'|Hb']; [by apply H4|]. apply elem_of_list_singleton in Hb' as ->.
      destruct Hcon as [C1 C2]. destruct (Hb a (H1 a Ha)) as [L|[L [L'|[L' L'']]]].
      + by destruct (vle_vlt _ _ C1).
      + by destruct (vle_vlt _ _ C2).
      + split; [done|]. split; [done|]. lia.
    - intros b Hb'. apply elem_of_app in Hb'. destruct Hb' as [Hb'|Hb']; [by apply Hm|]. by apply elem_of_list_singleton in Hb' as ->.
  Qed.
  Lemma cok_new pre out c x : cok pre out c -> (forall a, a ∈ pre -> before a x) -> vlt (E c) (E x) -> cok (pre ++ [x]) (out ++ [x]) x.
  Proof.
    intros ((H1 & H2 & H3 & H4) & Hc & Hm) Hb Hx.
    assert (Hlt : forall a, a ∈ pre -> vlt (E a) (E x)) by (intros a Ha; eapply vle_lt_trans; [by apply Hm|done]).
    assert (Hst : forall a, a ∈ pre -> vlt (S a) (S x)).
    { intros a Ha. specialize (Hlt a Ha). destruct (Hb a Ha) as [L|[L [L'|[L' _]]]]; [done| |].
      - exfalso. apply (vle_vlt (E x) (E a)); [by apply vlt_vle|done].
      - unfold Spec_Interval.vlt in Hlt. congruence. }
    split; [split; [|split; [|split]]|split].
    - intros a Ha. apply elem_of_app in Ha. apply elem_of_app. destruct Ha as [Ha|Ha]; [left; by apply H1|by right].
    - intros b Hb'. apply elem_of_app in Hb'. destruct Hb' as [Hb'|Hb'].
      + destruct (H2 b Hb') as (a & Ha & H). exists a. split; [apply elem_of_app; by left|done].
      + apply elem_of_list_singleton in Hb' as ->. exists x. split; [apply elem_of_app; right; left|]. split; apply vle_refl.
    - apply ss_app. split; [done|]. split; [repeat constructor|]. intros a b Ha Hb'. apply elem_of_list_singleton in Hb' as ->.
      split; [apply Hst|apply Hlt]; by apply H1.
    - intros a b Ha Hb' [C1 C2]. apply elem_of_app in Ha. apply elem_of_app in Hb'.
      destruct Ha as [Ha|Ha], Hb' as [Hb'|Hb']; [by apply H4| | |].
      + apply elem_of_list_singleton in Hb' as ->. destruct (vle_vlt _ _ C1). apply Hst. by apply H1.
      + apply elem_of_list_singleton in Ha as ->. destruct (vle_vlt _ _ C2). by apply Hlt.
      + apply elem_of_list_singleton in Ha as ->. apply elem_of_list_singleton in Hb' as ->. rewrite !(tp_refl _ T). split; [done|]. split; [done|]. lia.
    - apply elem_of_app. right. left.
    - intros b Hb'. apply elem_of_app in Hb'. destruct Hb' as [Hb'|Hb']; [by apply vlt_vle, Hlt|]. apply elem_of_list_singleton in Hb' as ->. apply vle_refl.
  Qed.
End points.
