(** * Lemmas: the gaps between intervals *)
From Verif Require Import Base M_Scalar Spec_Order Spec_Interval L_OrderSpec L_Interval.
From Coq Require Import Sorting.Sorted.

Section gaps.
  Context {V : Type} (cmp : V -> V -> comparison) (T : tpo cmp).
  Notation vlt := (vlt cmp). Notation vle := (vle cmp). Notation within := (within cmp).

  (** Intervals from left to right which do not touch. *)
  Definition chain (M : list (V * V)) : Prop := Forall (fun m => vlt m.1 m.2) M /\ StronglySorted (fun m k => vlt m.2 k.1) M.
  Definition cov (M : list (V * V)) (p : V) : Prop := exists m, m ∈ M /\ within m.1 m.2 p.
  Fixpoint gaps (L : option V) (M : list (V * V)) (R : option V) : list (V * V) :=
    match M with
    | [] => match L, R with Some l, Some r => [(l, r)] | _, _ => [] end
    | (s, e) :: M' => match L with Some l => [(l, s)] | None => [] end ++ gaps (Some e) M' R
    end.
  Definition geL (L : option V) (M : list (V * V)) (p : V) : Prop :=
    match L with Some l => vle l p | None => exists m, m ∈ M /\ vle m.1 p end.
  Definition ltR (R : option V) (M : list (V * V)) (p : V) : Prop :=
    match R with Some r => vlt p r | None => exists m, m ∈ M /\ vlt p m.2 end.
  Definition fits (L : option V) (M : list (V * V)) (R : option V) : Prop :=
    chain M /\ (forall l, L = Some l -> Forall (fun m => vlt l m.1) M) /\ (forall r, R = Some r -> Forall (fun m => vlt m.2 r) M) /\
    (forall l r, L = Some l -> R = Some r -> vlt l r).

  Lemma fits_cons L s e M R : fits L ((s, e) :: M) R -> fits (Some e) M R /\ vlt s e /\ Forall (fun m => vlt e m.1) M /\
    (forall l, L = Some l -> vlt l s) /\ (forall r, R = Some r -> vlt e r).
  Proof.
    intros ([F SS] & HL & HR & _). apply Forall_cons in F as [F1 F]. apply StronglySorted_inv in SS as [SS F2].
    assert (HR' : forall r, R = Some r -> vlt e r /\ Forall (fun m => vlt m.2 r) M) by (intros r Hr; specialize (HR r Hr); by apply Forall_cons in HR).
    split; [|split; [done|split; [done|split]]].
    - split; [done|]. split; [intros l [= <-]; done|]. split; [intros r Hr; by apply HR'|]. intros l r [= <-] Hr. by apply HR'.
    - intros l Hl. specialize (HL l Hl). by apply Forall_cons in HL as [HL _].
    - intros r Hr. by apply HR'.
  Qed.

  Lemma gaps_from M R l o : fits (Some l) M R -> o ∈ gaps (Some l) M R -> vle l o.1.
  Proof.
    revert l. induction M as [|[s e] M IH]; intros l Hf Ho; cbn in Ho.
    - destruct R; [|by apply elem_of_nil in Ho]. apply elem_of_list_singleton in Ho as ->. apply (vle_refl _ T).
    - destruct (fits_cons _ _ _ _ _ Hf) as (Hf' & Hse & _ & Hl & _). apply elem_of_cons in Ho as [->|Ho]; [apply (vle_refl _ T)|].
      specialize (IH e Hf' Ho). apply (vle_trans _ T _ e); [|done]. apply vlt_vle, (vlt_trans _ T _ s); [by apply Hl|done].
  Qed.
  Lemma gaps_ok L M R : fits L M R -> Forall (fun o => vlt o.1 o.2) (gaps L M R) /\ StronglySorted (fun o q => vlt o.2 q.1) (gaps L M R).
  Proof.
    revert L. induction M as [|[s e] M IH]; intros L Hf; cbn.
    - destruct Hf as (_ & _ & _ & H). destruct L as [l|], R as [r|]; split; repeat constructor. by apply H.
    - destruct (fits_cons _ _ _ _ _ Hf) as (Hf' & Hse & _ & Hl & _). destruct (IH (Some e) Hf') as [F SS]. destruct L as [l|]; [|done]. cbn [app].
      split; constructor; [by apply Hl|done|done|]. apply Forall_forall. intros q Hq. cbn. apply (vlt_le_trans _ T _ e); [done|]. by eapply gaps_from.
  Qed.

  Lemma cov_cons s e M p : cov ((s, e) :: M) p <-> within s e p \/ cov M p.
  Proof.
    unfold cov. split.
    - intros (m & Hm & H). apply elem_of_cons in Hm as [->|Hm]; [by left|right; by exists m].
    - intros [H|(m & Hm & H)]; [exists (s, e); split; [left|done]|exists m; split; [by right|done]].
  Qed.
  Lemma gaps_cov L M R p : fits L M R -> cov (gaps L M R) p <-> geL L M p /\ ltR R M p /\ ~ cov M p.
  Proof.
    revert L. induction M as [|[s e] M IH]; intros L Hf; cbn [gaps].
    - assert (Hn : forall q, ~ cov [] q) by (intros q (m & Hm & _); by apply elem_of_nil in Hm).
      destruct L as [l|], R as [r|]; cbn [geL ltR].
      + split.
        * intros (m & Hm & H1 & H2). apply elem_of_list_singleton in Hm as ->. split; [done|]. split; [done|]. apply Hn.
        * intros (H1 & H2 & _). exists (l, r). split; [left|done].
      + split; [by intros Hx%Hn|]. intros (_ & (m & Hm & _) & _). by apply elem_of_nil in Hm.
      + split; [by intros Hx%Hn|]. intros ((m & Hm & _) & _). by apply elem_of_nil in Hm.
      + split; [by intros Hx%Hn|]. intros ((m & Hm & _) & _). by apply elem_of_nil in Hm.
    - destruct (fits_cons _ _ _ _ _ Hf) as (Hf' & Hse & Hem & Hl & Hr). specialize (IH (Some e) Hf'). rewrite cov_cons. rewrite Forall_forall in Hem.
      assert (Hlt : vlt p e -> ~ cov M p).
      { intros Hp (m & Hm & H1 & _). apply (vle_vlt _ T m.1 p); [done|]. apply (vlt_trans _ T _ e); [done|by apply Hem]. }
      assert (HR1 : vlt p e -> ltR R ((s, e) :: M) p).
      { intros Hp. destruct R as [r|]; cbn; [apply (vlt_trans _ T _ e); [done|by apply Hr]|exists (s, e); split; [left|done]]. }
      assert (HR2 : vle e p -> ltR R M p <-> ltR R ((s, e) :: M) p).
      { intros Hp. destruct R as [r|]; cbn; [done|]. split.
        - intros (m & Hm & H). exists m. split; [by right|done].
        - intros (m & Hm & H). apply elem_of_cons in Hm as [->|Hm]; [by destruct (vle_vlt _ T _ _ Hp)|by exists m]. }
      assert (Hmain : vle e p -> cov (gaps (Some e) M R) p <-> ltR R ((s, e) :: M) p /\ ~ (within s e p \/ cov M p)).
      { intros Hp. rewrite IH. cbn [geL]. rewrite (HR2 Hp). split.
        - intros (_ & H1 & H2). split; [done|]. intros [[_ H]|H]; [by destruct (vle_vlt _ T _ _ Hp)|done].
        - intros (H1 & H2). split; [done|]. split; [done|]. intros H. apply H2. by right. }
      destruct L as [l|]; cbn [app geL].
      + rewrite cov_cons. assert (Hls : vlt l s) by by apply Hl. split.
        * intros [[H1 H2]|H].
          -- assert (Hp : vlt p e) by (apply (vlt_trans _ T _ s); done). split; [done|]. split; [by apply HR1|]. intros [[H _]|H]; [by destruct (vle_vlt _ T _ _ H)|by apply Hlt].
          -- assert (Hp : vle e p) by (apply IH in H; apply H). split; [|by apply Hmain].
             apply (vle_trans _ T _ e); [apply vlt_vle, (vlt_trans _ T _ s); done|done].
        * intros (H1 & H2 & H3). destruct (vle_cases _ T s p) as [Hs|Hs]; [|by left]. right.
          assert (Hp : vle e p). { destruct (vle_cases _ T e p) as [|Hx]; [done|]. destruct H3. by left. }
          by apply Hmain.
      + split.
        * intros H. assert (Hp : vle e p) by (apply IH in H; apply H). split; [|by apply Hmain]. exists (s, e). split; [left|].
          cbn. apply (vle_trans _ T _ e); [by apply vlt_vle|done].
        * intros ((m & Hm & H1) & H2 & H3).
          assert (Hs : vle s p).
          { apply elem_of_cons in Hm as [->|Hm]; [done|]. apply (vle_trans _ T _ m.1); [|done]. apply vlt_vle, (vlt_trans _ T _ e); [done|by apply Hem]. }
          assert (Hp : vle e p). { destruct (vle_cases _ T e p) as [|Hx]; [done|]. destruct H3. by left. }
          by apply Hmain.
  Qed.

  (** ** The intervals next to the bounds *)
  (** [K = A ++ M ++ B]: [A] starts at or before [lower], [M] after it and ends
      before [upper], [B] ends at or after [upper]. *)
  Definition left_of (lower : option V) (A : list (V * V)) (L : option V) : Prop :=
    match lower with
    | None => A = [] /\ L = None
    | Some v => Forall (fun m => vle m.1 v) A /\
        ((L = Some v /\ Forall (fun m => vlt m.2 v) A) \/ (exists A' m, A = A' ++ [m] /\ vle v m.2 /\ L = Some m.2))
    end.
  Definition right_of (upper : option V) (B : list (V * V)) (R : option V) : Prop :=
    match upper with
    | None => B = [] /\ R = None
    | Some v => Forall (fun m => vle v m.2) B /\
        ((R = Some v /\ Forall (fun m => vlt v m.1) B) \/ (exists m B', B = m :: B' /\ vle m.1 v /\ R = Some m.1))
    end.
  Lemma cov_app M N p : cov (M ++ N) p <-> cov M p \/ cov N p.
  Proof. unfold cov. setoid_rewrite elem_of_app. firstorder. Qed.

  Lemma left_geL v A L X p : left_of (Some v) A (Some L) -> chain (A ++ X) ->
    (vle v p /\ ~ cov A p) <-> vle L p.
  Proof.
    intros (F & HA) [Fc SS]. apply Forall_app in Fc as [Fc _]. apply ss_app in SS as (SS & _ & _).
    destruct HA as [[[= ->] F2]|(A' & m & -> & Hm & [= ->])].
    - split; [by intros [? _]|]. intros Hp. split; [done|]. intros (k & Hk & _ & H2). rewrite Forall_forall in F2.
      apply (vle_vlt _ T v p); [done|]. apply (vlt_trans _ T _ k.2); [done|by apply F2].
    - apply Forall_app in F as [_ F]. apply Forall_cons in F as [Fm _]. apply Forall_app in Fc as [_ Fc]. apply Forall_cons in Fc as [Fc _]. split.
      + intros [Hp Hn]. destruct (vle_cases _ T m.2 p) as [|Hx]; [done|]. destruct Hn. apply cov_app. right. exists m. split; [left|].
        split; [by apply (vle_trans _ T _ v)|done].
      + intros Hp. split; [by apply (vle_trans _ T _ m.2)|]. intros Hc. apply cov_app in Hc. apply ss_app in SS as (_ & _ & S3). destruct Hc as [(k & Hk & _ & H2)|(k & Hk & _ & H2)].
        * apply (vle_vlt _ T m.2 p); [done|]. apply (vlt_trans _ T _ k.2); [done|]. apply (vlt_trans _ T _ m.1); [|done]. apply S3; [done|left].
        * apply elem_of_list_singleton in Hk as ->. by apply (vle_vlt _ T m.2 p).
  Qed.
  Lemma right_ltR v B R X p : right_of (Some v) B (Some R) -> chain (X ++ B) ->
    (vlt p v /\ ~ cov B p) <-> vlt p R.
  Proof.
    intros (F & HA) [Fc SS]. apply Forall_app in Fc as [_ Fc]. apply ss_app in SS as (_ & SS & _).
    destruct HA as [[[= ->] F2]|(m & B' & -> & Hm & [= ->])].
    - split; [by intros [? _]|]. intros Hp. split; [done|]. intros (k & Hk & H1 & _). rewrite Forall_forall in F2.
      apply (vle_vlt _ T k.1 p); [done|]. apply (vlt_trans _ T _ v); [done|by apply F2].
    - apply Forall_cons in F as [Fm _]. apply Forall_cons in Fc as [Fc _]. apply StronglySorted_inv in SS as [_ F2]. rewrite Forall_forall in F2. split.
      + intros [Hp Hn]. destruct (vle_cases _ T m.1 p) as [Hx|]; [|done]. destruct Hn. exists m. split; [left|]. split; [done|]. by apply (vlt_le_trans _ T _ v).
      + intros Hp. split; [by apply (vlt_le_trans _ T _ m.1)|]. intros (k & Hk & H1 & _). apply (vle_vlt _ T k.1 p); [done|].
        apply elem_of_cons in Hk as [->|Hk]; [done|]. apply (vlt_trans _ T _ m.1); [done|]. apply (vlt_trans _ T _ m.2); [done|by apply F2].
  Qed.

  (** The gaps are the complement. *)
  Definition aboveK (lower : option V) (K : list (V * V)) (p : V) : Prop :=
    match lower with Some v => vle v p | None => exists m, m ∈ K /\ vle m.1 p end.
  Definition belowK (upper : option V) (K : list (V * V)) (p : V) : Prop :=
    match upper with Some v => vlt p v | None => exists m, m ∈ K /\ vlt p m.2 end.
  Lemma left_None v A : ~ left_of (Some v) A None.
  Proof. intros [_ [[? _]|(? & ? & _ & _ & ?)]]; done. Qed.
  Lemma right_None v B : ~ right_of (Some v) B None.
  Proof. intros [_ [[? _]|(? & ? & _ & _ & ?)]]; done. Qed.
  Lemma complement_gaps lower upper A M B L R : chain (A ++ M ++ B) -> left_of lower A L -> right_of upper B R -> fits L M R ->
    M <> [] \/ (lower <> None /\ upper <> None) ->
    forall p, cov (gaps L M R) p <-> aboveK lower (A ++ M ++ B) p /\ belowK upper (A ++ M ++ B) p /\ ~ cov (A ++ M ++ B) p.
  Proof.
    intros Hch HL HR Hf HM p. rewrite (gaps_cov L M R p Hf), !cov_app.
    assert (HchAM : chain ((A ++ M) ++ B)) by (by rewrite <- app_assoc).
    assert (HnA : forall q, ~ cov [] q) by (intros q (m & Hm & _); by apply elem_of_nil in Hm).
    destruct lower as [v|].
    - destruct L as [L|]; [|by destruct (left_None v A)]. pose proof (left_geL v A L (M ++ B) p HL Hch) as HLp. cbn [geL aboveK].
      destruct upper as [u|].
      + destruct R as [R|]; [|by destruct (right_None u B)]. pose proof (right_ltR u B R (A ++ M) p HR HchAM) as HRp. cbn [ltR belowK]. rewrite <- HLp, <- HRp. tauto.
      + destruct HR as [-> ->]. destruct HM as [HM|[_ HM]]; [|done]. rewrite app_nil_r in *. cbn [ltR belowK]. specialize (HnA p). rewrite <- HLp.
        assert (HA : (exists m, m ∈ A ++ M /\ vlt p m.2) <-> (exists m, m ∈ M /\ vlt p m.2)).
        { split; intros (m & Hm & H); [|exists m; split; [apply elem_of_app; by right|done]]. apply elem_of_app in Hm as [Hm|Hm]; [|by exists m].
          destruct M as [|k M]; [done|]. exists k. split; [left|]. destruct Hch as [F SS]. apply ss_app in SS as (_ & _ & S3).
          apply (vlt_trans _ T _ m.2); [done|]. apply (vlt_trans _ T _ k.1); [apply S3; [done|left]|]. rewrite Forall_forall in F. apply F, elem_of_app. right. left. }
        rewrite HA. tauto.
    - destruct HL as [-> ->]. destruct HM as [HM|[HM _]]; [|done]. cbn [app] in *. cbn [geL aboveK]. pose proof (HnA p) as HnA'.
      assert (HA : (exists m, m ∈ M ++ B /\ vle m.1 p) <-> (exists m, m ∈ M /\ vle m.1 p)).
      { split; intros (m & Hm & H); [|exists m; split; [apply elem_of_app; by left|done]]. apply elem_of_app in Hm as [Hm|Hm]; [by exists m|].
        destruct M as [|k M]; [done|]. exists k. split; [left|]. destruct Hch as [F SS]. apply ss_app in SS as (_ & _ & S3).
        apply (vle_trans _ T _ m.1); [|done]. apply vlt_vle. apply (vlt_trans _ T _ k.2); [|apply S3; [left|done]]. rewrite Forall_forall in F. apply F. left. }
      rewrite HA. destruct upper as [u|].
      + destruct R as [R|]; [|by destruct (right_None u B)]. pose proof (right_ltR u B R M p HR Hch) as HRp. cbn [ltR belowK]. rewrite <- HRp. tauto.
      + destruct HR as [-> ->]. cbn [ltR belowK]. rewrite app_nil_r. tauto.
  Qed.
End gaps.
