(** * Lemmas on the normalisation of encodings *)
From Verif Require Import Base M_Translate Spec_Translate.

Definition keepU (U : Prop) (h : heap) (x : nat) (h' : heap) : Prop :=
  length h <= length h' /\ forall y, y < length h -> y <> x \/ U -> h' !! y = h !! y.
Definition nonew (B : nat) (h h' : heap) : Prop := forall f, f < B -> referred h' f -> referred h f.

Lemma mapM_frame {A B} (f g : A -> option B) l ts :
  (forall z t, In z l -> f z = Some t -> g z = Some t) -> mapM f l = Some ts -> mapM g l = Some ts.
Proof.
  intros H. rewrite !mapM_Some. intros HF. induction HF as [|z t l ts Hz HF IH]; constructor.
  - apply H; [by left|done].
  - apply IH. intros. apply H; [by right|done].
Qed.

Lemma referred_field h y o x : h !! y = Some o -> In x (fields o) -> referred h x.
Proof. intros. by exists y, o. Qed.

Lemma value_frame U h x h' : keepU U h x h' -> (referred h x -> U) -> forall n y t, y <> x \/ U ->
  value_at n h y = Some t -> value_at n h' y = Some t.
Proof.
  intros [Hl Hk] HU. induction n as [|n IH]; intros y t Hy; [done|]. cbn [value_at].
  destruct (h !! y) as [o|] eqn:Eo; [|done].
  rewrite (Hk y) by (try done; by eapply lookup_lt_Some). rewrite Eo.
  assert (HC : forall z, referred h z -> z <> x \/ U).
  { intros z Hz. destruct (decide (z = x)) as [->|]; [right; by apply HU|by left]. }
  assert (HB : forall l, (forall z, In z l -> referred h z) -> forall ts, mapM (value_at n h) l = Some ts -> mapM (value_at n h') l = Some ts).
  { intros l Hr ts. apply mapM_frame. intros z t' Hz. apply IH, HC, Hr, Hz. }
  destruct (o_attrib o) as [a|] eqn:Ea.
  - assert (Hra : referred h a).
    { apply (referred_field h y o); [done|]. unfold fields. rewrite Ea. apply in_or_app. right. by left. }
    destruct (h !! a) as [oa|] eqn:Eoa; [|done].
    rewrite (Hk a); [|by eapply lookup_lt_Some|by apply HC]. rewrite Eoa.
    destruct oa as [b aa]. destruct b as [|l'|la| |]; [done..| |done|done]. destruct aa; [done|].
    destruct (mapM (value_at n h) la) as [ts|] eqn:El; [|done].
    rewrite (HB la) with (ts := ts); [|intros z Hz; apply (referred_field h a (Obj (BPairs la) None)); [done|unfold fields; simpl; by rewrite app_nil_r]|done].
    destruct (o_body o) as [|l'| | |] eqn:Eb; try done.
    destruct (mapM (value_at n h) l') as [ts'|] eqn:El'; [|done].
    rewrite (HB l') with (ts := ts'); [done| |done].
    intros z Hz. apply (referred_field h y o); [done|]. unfold fields. rewrite Eb. apply in_or_app. by left.
  - destruct (o_body o) as [|l'| | |] eqn:Eb; try done.
    destruct (mapM (value_at n h) l') as [ts'|] eqn:El'; [|done].
    rewrite (HB l') with (ts := ts'); [done| |done].
    intros z Hz. apply (referred_field h y o); [done|]. unfold fields. rewrite Eb. apply in_or_app. by left.
Qed.

Section steps.
  Context (roots : list nat).
  Notation keep h x h' := (keepU (in_use roots h x) h x h').
  (** No references to places before [B] are made. *)
  Record stepB (B : nat) (h : heap) (x : nat) (h' : heap) (x' : nat) : Prop := Step {
    st_keep : keep h x h';
    st_new : nonew B h h';
    st_closed : closed h';
    st_res : x' = x \/ length h <= x' }.
  Notation step h := (stepB (length h) h).
  Lemma step_refl h x : closed h -> step h x h x.
  Proof. intros H. split; [by split|by intros ???|done|by left]. Qed.
  Lemma keep_value h x h' n y t : keep h x h' -> y <> x \/ in_use roots h x ->
    value_at n h y = Some t -> value_at n h' y = Some t.
  Proof. intros Hk. apply (value_frame (in_use roots h x) h x h'); [done|]. intros. by right. Qed.
  Lemma keep_use h x h' : keep h x h' -> in_use roots h x -> in_use roots h' x.
  Proof.
    intros [Hl Hk] [H|(y & o & Ho & Hi)]; [by left|]. right. exists y, o. split; [|done].
    rewrite Hk; [done|by eapply lookup_lt_Some|]. right. right. by exists y, o.
  Qed.
  Lemma step_trans h x h1 x1 h2 x2 : step h x h1 x1 -> stepB (length h) h1 x1 h2 x2 -> step h x h2 x2.
  Proof.
    intros [K1 N1 C1 R1] [K2 N2 C2 R2]. pose proof (keep_use _ _ _ K1) as HU. destruct K1 as [L1 K1], K2 as [L2 K2]. split.
    - split; [lia|]. intros y Hy Hc. rewrite K2; [by apply K1|lia|].
      destruct R1 as [->|R1]; [|left; lia]. destruct Hc as [Hc|Hc]; [by left|right; by apply HU].
    - intros f Hf Hr. apply N1; [done|]. by apply N2.
    - done.
    - destruct R2 as [->|R2]; [done|]. right. lia.
  Qed.
  (** A step on an object that is in use leaves all others as they are. *)
  Lemma step_used h x h' x' y : step h x h' x' -> in_use roots h x -> step h y h' y.
  Proof.
    intros [[L K] N C R] HU. split; [|done|done|by left]. split; [done|]. intros z Hz _. apply K; [done|by right].
  Qed.
  Lemma step_weaken h x h' x' B : step h x h' x' -> B <= length h -> stepB B h x h' x'.
  Proof. intros [K N C R] HB. split; [done| |done|done]. intros f Hf. apply N. lia. Qed.
  Lemma step_trans' h x h1 x1 h2 x2 : step h x h1 x1 -> step h1 x1 h2 x2 -> step h x h2 x2.
  Proof. intros H1 H2. apply (step_trans _ _ _ _ _ _ H1). apply step_weaken; [done|apply H1]. Qed.
End steps.

Definition attr_at (h : heap) (att : option nat) (la : option (list nat)) : Prop :=
  match att, la with
  | None, None => True
  | Some a, Some l => h !! a = Some (Obj (BPairs l) None)
  | _, _ => False
  end.

Section norm.
  Context (roots : list nat) (tr : list Z -> enc -> list Z) (mr : heap -> nat -> bool).
  Context (Hmr : counts roots mr).
  Notation stepB := (stepB roots).
  Notation step h := (stepB (length h) h).

  Lemma clone_ok h x b att la : closed h -> h !! x = Some (Obj b att) -> attr_at h att la ->
    match b with BRef _ => False | _ => True end ->
    exists h1 x1 att1 new, r_clone h x = Ok (h1, x1) /\ h1 = h ++ new /\ length h <= x1 /\ h1 !! x1 = Some (Obj b att1) /\ attr_at h1 att1 la /\
      (forall a1, att1 = Some a1 -> a1 <> x1 /\ length h <= a1 < length h1) /\ nonew (length h) h h1 /\ closed h1 /\ ~ referred h1 x1.
  Proof.
    intros Hc Hx Ha Hb. unfold r_clone. rewrite (proj2 (rd_Ok _ _ _) Hx). cbn [bind o_body o_attrib].
    assert (HG : exists h1 x1 att1 new, match att with
        | None => Ok (h ++ [Obj b None], length h)
        | Some a => let! oa := rd h a in Ok (h ++ [Obj (o_body oa) None; Obj b (Some (length h))], length h + 1)
        end = Ok (h1, x1) /\ h1 = h ++ new /\ length h <= x1 /\ h1 !! x1 = Some (Obj b att1) /\ attr_at h1 att1 la /\
      (forall a1, att1 = Some a1 -> a1 <> x1 /\ length h <= a1 < length h1) /\ nonew (length h) h h1 /\ closed h1 /\ ~ referred h1 x1).
    { destruct att as [a|], la as [l|]; simpl in Ha; try done.
      - rewrite (proj2 (rd_Ok _ _ _) Ha). cbn [bind o_body].
        assert (HF : forall y o, (h ++ [Obj (BPairs l) None; Obj b (Some (length h))]) !! y = Some o ->
          forall f, In f (fields o) -> f = length h \/ f < length h /\ referred h f).
        { intros y o Ho f Hf. destruct (decide (y < length h)).
          - rewrite lookup_app_l in Ho by done. right. split; [by apply (Hc y o)|by apply (referred_field h y o)].
          - rewrite lookup_app_r in Ho by lia. destruct (y - length h) as [|[|k]]; simpl in Ho.
            + inversion Ho; subst o. unfold fields in Hf. simpl in Hf. rewrite app_nil_r in Hf. right.
              split; [apply (Hc a _ f Ha)|apply (referred_field h a _ f Ha)]; unfold fields; simpl; by rewrite app_nil_r.
            + inversion Ho; subst o. unfold fields in Hf. simpl in Hf. apply in_app_or in Hf. destruct Hf as [Hf|[Hf|[]]]; [|by left].
              right. split; [apply (Hc x _ f Hx)|apply (referred_field h x _ f Hx)]; unfold fields; simpl; apply in_or_app; by left.
            + destruct k; done. }
        eexists _, _, (Some (length h)), [Obj (BPairs l) None; Obj b (Some (length h))]. split; [done|]. split; [done|]. split; [lia|]. split.
        { rewrite lookup_app_r by lia. by replace (length h + 1 - length h) with 1 by lia. }
        split. { unfold attr_at. rewrite lookup_app_r by lia. by rewrite Nat.sub_diag. }
        split. { intros a1 E. inversion E; subst a1. rewrite app_length. simpl. lia. }
        split. { intros f Hf (y & o & Ho & Hi). destruct (HF y o Ho f Hi) as [->|[_ Hr]]; [lia|done]. }
        split. { intros y o f Ho Hi. rewrite app_length. simpl. destruct (HF y o Ho f Hi) as [->|[Hr _]]; lia. }
        intros (y & o & Ho & Hi). destruct (HF y o Ho _ Hi) as [E|[E _]]; lia.
      - assert (HF : forall y o, (h ++ [Obj b None]) !! y = Some o ->
          forall f, In f (fields o) -> f < length h /\ referred h f).
        { intros y o Ho f Hf. destruct (decide (y < length h)).
          - rewrite lookup_app_l in Ho by done. split; [by apply (Hc y o)|by apply (referred_field h y o)].
          - rewrite lookup_app_r in Ho by lia. destruct (y - length h) as [|k]; simpl in Ho; [|by destruct k].
            inversion Ho; subst o. split; [by apply (Hc x _ f Hx)|by apply (referred_field h x _ f Hx)]. }
        eexists _, _, None, [Obj b None]. split; [done|]. split; [done|]. split; [lia|]. split.
        { rewrite lookup_app_r by lia. by rewrite Nat.sub_diag. }
        split; [done|]. split; [done|].
        split. { intros f Hf (y & o & Ho & Hi). by destruct (HF y o Ho f Hi). }
        split. { intros y o f Ho Hi. rewrite app_length. simpl. destruct (HF y o Ho f Hi) as [Hr _]; lia. }
        intros (y & o & Ho & Hi). destruct (HF y o Ho _ Hi) as [E _]; lia. }
    destruct b; done || exact HG.
  Qed.

  (** [r_clone_referenced()] followed by a change of the object *)
  Lemma set_ok h x b att la : closed h -> h !! x = Some (Obj b att) -> attr_at h att la ->
    match b with BRef _ => False | _ => True end ->
    exists h1 x1 att1, r_clone_referenced mr h x = Ok (h1, x1) /\ h1 !! x1 = Some (Obj b att1) /\ attr_at h1 att1 la /\
      (forall y, y < length h -> h1 !! y = h !! y) /\ length h <= length h1 /\ (x1 = x \/ length h <= x1) /\
      (forall a1, att1 = Some a1 -> a1 <> x1 /\ (att = Some a1 \/ length h <= a1 < length h1)) /\
      forall o2 B, B <= length h -> (forall f, In f (fields o2) -> In f (fields (Obj b att)) \/ B <= f < length h1) ->
        stepB B h x (<[x1:=o2]> h1) x1.
  Proof.
    intros Hc Hx Ha Hb. unfold r_clone_referenced. destruct (mr h x) eqn:Em.
    - destruct (clone_ok h x b att la) as (h1 & x1 & att1 & new & -> & -> & H1 & H2 & H3 & H4 & H5 & H6 & H7); [done..|].
      exists (h ++ new), x1, att1. split; [done|]. split; [done|]. split; [done|].
      split. { intros y Hy. by rewrite lookup_app_l. }
      split. { rewrite app_length. lia. } split; [by right|].
      split. { intros a1 E. destruct (H4 a1 E). split; [done|]. right. done. }
      intros o2 B HB Ho2. pose proof (lookup_lt_Some _ _ _ H2) as Hlt. split.
      + split; [rewrite insert_length, app_length; lia|]. intros y Hy _. rewrite list_lookup_insert_ne by lia. by rewrite lookup_app_l.
      + intros f Hf (y & o & Ho & Hi). destruct (decide (y = x1)) as [->|Hn].
        * rewrite list_lookup_insert in Ho by done. inversion Ho; subst o.
          destruct (Ho2 f Hi) as [H|H]; [|lia]. by apply (referred_field h x (Obj b att)).
        * rewrite list_lookup_insert_ne in Ho by done. apply H5; [lia|]. by exists y, o.
      + intros y o f Ho Hi. rewrite insert_length. destruct (decide (y = x1)) as [->|Hn].
        * rewrite list_lookup_insert in Ho by done. inversion Ho; subst o. destruct (Ho2 f Hi) as [H|H]; [|lia].
          pose proof (Hc x _ f Hx H). rewrite app_length. lia.
        * rewrite list_lookup_insert_ne in Ho by done. by apply (H6 y o).
      + by right.
    - exists h, x, att. split; [done|]. split; [done|]. split; [done|]. split; [done|]. split; [done|]. split; [by left|].
      assert (HU : ~ in_use roots h x) by (intros HU; rewrite (Hmr h x HU) in Em; done).
      pose proof (lookup_lt_Some _ _ _ Hx) as Hlt.
      split. { intros a1 ->. split; [|by left]. intros ->. apply HU. right. apply (referred_field h x _ x Hx). unfold fields. simpl. apply in_or_app. right. by left. }
      intros o2 B HB Ho2. split.
      + split; [by rewrite insert_length|]. intros y Hy [Hn|Hn]; [by rewrite list_lookup_insert_ne|done].
      + intros f Hf (y & o & Ho & Hi). destruct (decide (y = x)) as [->|Hn].
        * rewrite list_lookup_insert in Ho by done. inversion Ho; subst o.
          destruct (Ho2 f Hi) as [H|H]; [|lia]. by apply (referred_field h x (Obj b att)).
        * rewrite list_lookup_insert_ne in Ho by done. by exists y, o.
      + intros y o f Ho Hi. rewrite insert_length. destruct (decide (y = x)) as [->|Hn].
        * rewrite list_lookup_insert in Ho by done. inversion Ho; subst o. destruct (Ho2 f Hi) as [H|H]; [|lia].
          by apply (Hc x _ f Hx).
        * rewrite list_lookup_insert_ne in Ho by done. by apply (Hc y o).
      + by left.
  Qed.
End norm.
