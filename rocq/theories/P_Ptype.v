(** * C35: common types; C38: common types and casts of data frames *)
From Coq Require Import Lia ZifyBool ZifyNat.
From Verif Require Import Base M_Double M_Scalar M_Object M_Proxy M_Slice M_Subscript M_Rep M_Shape M_Chop M_Factor M_Ptype.
From Verif Require Import Spec_Value Spec_Slice Spec_Factor Spec_Ptype L_Object L_Recycle L_Factor L_Value L_SliceVal L_Chop2 P_Shape P_Factor L_Ptype.
#[local] Arguments Z.mul : simpl never.
#[local] Arguments Z.add : simpl never.
#[local] Arguments Z.sub : simpl never.
#[local] Arguments Z.to_nat : simpl never.
#[local] Arguments Z.of_nat : simpl never.
#[local] Arguments Z.pow : simpl never.

Lemma no_cpl_df tib names cols : no_cpl (TyDf tib names cols) <-> Forall no_cpl cols.
Proof. cbn [no_cpl]. induction cols as [|c cols IH]; [by split|]. rewrite Forall_cons. tauto. Qed.
Lemma col_Forall {A} (P : A -> Prop) names cols n c : Forall P cols -> col names cols n = Some c -> P c.
Proof. intros H (i & _ & Hi)%col_Some. by eapply Forall_lookup_1. Qed.
Lemma Forall_col {A} (P : A -> Prop) names cols : NoDup names -> length names = length cols ->
  (forall n c, col names cols n = Some c -> P c) -> Forall P cols.
Proof.
  intros Hn Hl H. apply Forall_lookup_2. intros i c Hc. assert (is_Some (names !! i)) as [n Hi].
  { apply lookup_lt_is_Some. apply lookup_lt_Some in Hc. lia. }
  apply (H n). by eapply col_lookup.
Qed.
Lemma str_dims_ok k x d : ty_ok k x -> str_dims x = Some d -> d <> Some [].
Proof. destruct x as [ | |[] ?| | | | | | | ]; try done; intros ? [= <-]; done. Qed.
Lemma flat_ok k j x y a : (0 <= k)%Z -> (0 <= j)%Z -> ty_ok k x -> ty_ok j y -> flat x y a ->
  ty_ok (k + j) a /\ proto a = a /\ is_some_type a = true /\ is_df a = false.
Proof.
  intros Hk Hj Hx Hy H. inversion H as [t u v d e s Hb Es|? ? d e s Ed Ee Hc Es|l m|l| |? ? ? ? Hz Hz' Hn]; subst; try done.
  - pose proof (shape2_ok d e Hx Hy) as Hs. rewrite Es in Hs. destruct Hs as [Hs1 Hs2]. by rewrite Hs2.
  - pose proof (shape2_ok d e (str_dims_ok _ _ _ Hx Ed) (str_dims_ok _ _ _ Hy Ee)) as Hs. rewrite Es in Hs. destruct Hs as [Hs1 Hs2]. by rewrite Hs2.
  - destruct Hx as (N1 & O1 & L1), Hy as (N2 & O2 & L2). split_and!; [|done..]. split_and!; [by apply new_names_nodup|by apply new_names_ok|].
    rewrite app_length. pose proof (new_names_length l m). lia.
  - split_and!; [|done..]. eapply ty_ok_mono; [|exact Hx]. lia.
Qed.

(** ** The table, by kind *)
Lemma flat_str x y d e a : str_dims x = Some d -> str_dims y = Some e -> is_chr x || is_chr y = true ->
  flat x y a <-> exists s, vec_shape2 d e = Ok s /\ a = TyBare TChr s.
Proof.
  intros Hx Hy Hc. split.
  - intros H. inversion H as [t u v d0 e0 s Hb Es|? ? d0 e0 s Ed Ee Hc' Es|l m|l| |? ? ? ? Hz Hz' Hn]; subst; try done.
    + destruct t; try done. destruct u; try done. injection Hx as ->. injection Hy as ->. exists s. split; [done|]. destruct Hb as [[_ ->]|(? & ? & ? & _)]; done.
    + rewrite Hx in Ed. rewrite Hy in Ee. injection Ed as ->. injection Ee as ->. by exists s.
    + destruct x as [ | |[] ?| | | | | | | ]; done.
  - intros (s & Es & ->). by apply (f_str _ _ d e).
Qed.
Lemma flat_str_dims x y d e a : str_dims x = Some d -> str_dims y = Some e -> flat x y a ->
  exists s, vec_shape2 d e = Ok s /\ str_dims a = Some s /\ is_chr a = is_chr x || is_chr y.
Proof.
  intros Hx Hy H. destruct (is_chr x || is_chr y) eqn:Hc.
  - apply (flat_str x y d e) in H as (s & Es & ->); [|done..]. by exists s.
  - destruct x as [ | |[] ?|l|l| | | | | ]; try done; destruct y as [ | |[] ?|m|m| | | | | ]; try done; injection Hx as <-; injection Hy as <-; inversion H; subst; try done; by exists None.
Qed.
Definition is_date (x : ty) : bool := match x with TyDate => true | _ => false end.
Lemma flat_time x y a b c : zone x = Some a -> zone y = Some b ->
  flat x y c <-> c = if is_date x && is_date y then TyDate else TyPosixct (Some [zone2 a b]).
Proof.
  intros Hx Hy. split.
  - intros H. inversion H as [t u v d0 e0 s Hb Es|? ? d0 e0 s Ed Ee Hc' Es|l m|l| |? ? a' b' Hz Hz' Hn]; subst; try done.
    + destruct x as [ | |[] ?| | | | | | | ]; done.
    + rewrite Hx in Hz. rewrite Hy in Hz'. injection Hz as <-. injection Hz' as <-. destruct x as [ | |[] ?| | | |tz|tz| | ]; try done. by destruct y as [ | |[] ?| | | |uz|uz| | ]; try done; destruct Hn.
  - intros ->. destruct (is_date x && is_date y) eqn:E; [destruct x; try done; destruct y; try done; constructor|]. constructor; [done|done|]. by intros [-> ->].
Qed.
Lemma flat_zone x y a b c : zone x = Some a -> zone y = Some b -> flat x y c -> zone c = Some (zone2 a b) /\ is_date c = is_date x && is_date y.
Proof.
  intros Hx Hy H. apply (flat_time x y a b) in H; [|done..]. rewrite H. destruct (is_date x && is_date y) eqn:E; [|done]. split; [|done].
  destruct x; try done. destruct y; try done. injection Hx as <-. injection Hy as <-. simpl. by rewrite zone2_local.
Qed.
#[local] Instance vtype_eq_dec : EqDecision vtype.
Proof. solve_decision. Defined.
Inductive kinds : ty -> ty -> Prop :=
| k_bare t d u e : t <> TChr -> u <> TChr -> kinds (TyBare t d) (TyBare u e)
| k_str x y d e : str_dims x = Some d -> str_dims y = Some e -> kinds x y
| k_time x y a b : zone x = Some a -> zone y = Some b -> kinds x y.
Lemma flat_kinds x y a : flat x y a -> kinds x y.
Proof.
  intros H. inversion H as [t u v d0 e0 s Hb Es|? ? d0 e0 s Ed Ee Hc' Es|l m|l| |? ? a' b' Hz Hz' Hn]; subst.
  - destruct (decide (t = TChr)) as [->|Ht].
    + destruct Hb as [[<- ->]|(? & ? & ? & _)]; [|done]. by eapply k_str.
    + destruct (decide (u = TChr)) as [->|Hu]; [|by apply k_bare]. destruct Hb as [[-> _]|(? & ? & ? & ? & _)]; done.
  - by eapply k_str.
  - by eapply k_str.
  - by eapply k_str.
  - by eapply k_time.
  - by eapply k_time.
Qed.
Lemma flat_bare t d u e a : t <> TChr -> u <> TChr -> flat (TyBare t d) (TyBare u e) a <-> exists v s, bare_ptype2 t u = Ok v /\ vec_shape2 d e = Ok s /\ a = TyBare v s.
Proof.
  intros Ht Hu. split.
  - intros H. inversion H as [? ? v d0 e0 s Hb Es|? ? d0 e0 s Ed Ee Hc' Es|l m|l| |? ? a' b' Hz Hz' Hn]; subst; try done.
    + exists v, s. split_and!; [by apply bare_common_spec|done|done].
    + by destruct t.
  - intros (v & s & Hb & Es & ->). constructor; [by apply bare_common_spec|done].
Qed.
Lemma zone2_assoc a b c : zone2 (zone2 a b) c = zone2 a (zone2 b c).
Proof. unfold zone2. destruct (decide (a = empty_str)), (decide (b = empty_str)); try done; by rewrite decide_False. Qed.
Lemma kinds_str x y : kinds x y -> is_Some (str_dims x) <-> is_Some (str_dims y).
Proof.
  intros H. inversion H as [t d u e Ht Hu|? ? d e Hx Hy|? ? a b Hx Hy]; subst.
  - destruct t, u; try done; split; by intros [? ?].
  - rewrite Hx, Hy. by split; eexists.
  - destruct x as [ | |[] ?| | | |tz|tz| | ], y as [ | |[] ?| | | |uz|uz| | ]; try done; split; by intros [? ?].
Qed.
Lemma kinds_zone x y : kinds x y -> is_Some (zone x) <-> is_Some (zone y).
Proof.
  intros H. inversion H as [t d u e Ht Hu|? ? d e Hx Hy|? ? a b Hx Hy]; subst.
  - split; by intros [? ?].
  - destruct x as [ | |[] ?| | | |tz|tz| | ], y as [ | |[] ?| | | |uz|uz| | ]; try done; split; by intros [? ?].
  - rewrite Hx, Hy. by split; eexists.
Qed.
Lemma bare_assoc t u w v v' r : bare_ptype2 t u = Ok v -> bare_ptype2 u w = Ok v' ->
  (bare_ptype2 v w = Ok r -> (w <> TCpl \/ exists b, bare_ptype2 t v' = Ok b) -> bare_ptype2 t v' = Ok r) /\
  (bare_ptype2 t v' = Ok r -> (t <> TCpl \/ exists b, bare_ptype2 v w = Ok b) -> bare_ptype2 v w = Ok r).
Proof.
  intros H1 H2. destruct t, u; try discriminate H1; injection H1 as <-; destruct w; try discriminate H2; injection H2 as <-; simpl;
    (split; intros H3 H4; try exact H3; destruct H4 as [H4|[b H4]]; done).
Qed.
Lemma flat_assoc k x y z xy yz a : ty_ok k x -> ty_ok k y -> ty_ok k z -> flat x y xy -> flat y z yz ->
  (flat xy z a -> (no_cpl z \/ exists b, flat x yz b) -> flat x yz a) /\
  (flat x yz a -> (no_cpl x \/ exists b, flat xy z b) -> flat xy z a).
Proof.
  intros Ox Oy Oz Hxy Hyz. pose proof (flat_kinds _ _ _ Hxy) as Kxy. pose proof (flat_kinds _ _ _ Hyz) as Kyz.
  inversion Kxy as [t d u e Ht Hu|? ? d e Hx Hy|? ? zx zy Hx Hy]; subst.
  - inversion Kyz as [? ? w f _ Hw|? ? ? ? Hy _|? ? ? ? Hy _]; subst; [|by destruct u|done].
    apply flat_bare in Hxy as (v & s & Hv & Es & ->); [|done..]. apply flat_bare in Hyz as (v' & s' & Hv' & Es' & ->); [|done..].
    assert (Nv : v <> TChr) by (destruct t, u; try discriminate Hv; injection Hv as <-; done).
    assert (Nv' : v' <> TChr) by (destruct u, w; try discriminate Hv'; injection Hv' as <-; done).
    rewrite !flat_bare by done. pose proof (fun c => C40_shape2_assoc d e f Ox Oy Oz c) as HS. split.
    + intros (r & c & Hr & Ec & ->) Hn. exists r, c. assert (vec_shape2 d s' = Ok c) as ->.
      { destruct (proj1 (HS c) (ex_intro _ s (conj Es Ec))) as (s'' & E1 & E2). congruence. }
      split_and!; [|done..]. apply (proj1 (bare_assoc t u w v v' r Hv Hv') Hr). destruct Hn as [Hn|[b Hb]]; [by left|right].
      apply flat_bare in Hb as (? & ? & ? & _); [|done..]. by eexists.
    + intros (r & c & Hr & Ec & ->) Hn. exists r, c. assert (vec_shape2 s f = Ok c) as ->.
      { destruct (proj2 (HS c) (ex_intro _ s' (conj Es' Ec))) as (s'' & E1 & E2). congruence. }
      split_and!; [|done..]. apply (proj2 (bare_assoc t u w v v' r Hv Hv') Hr). destruct Hn as [Hn|[b Hb]]; [by left|right].
      apply flat_bare in Hb as (? & ? & ? & _); [|done..]. by eexists.
  - destruct (proj1 (kinds_str _ _ Kyz) ltac:(by eexists)) as [f Hz].
    destruct (flat_str_dims x y d e xy) as (s & Es & Hs & Cs); [done..|]. destruct (flat_str_dims y z e f yz) as (s' & Es' & Hs' & Cs'); [done..|].
    pose proof (fun c => C40_shape2_assoc d e f (str_dims_ok _ _ _ Ox Hx) (str_dims_ok _ _ _ Oy Hy) (str_dims_ok _ _ _ Oz Hz) c) as HS.
    assert (HS1 : forall c, vec_shape2 s f = Ok c <-> vec_shape2 d s' = Ok c).
    { intros c. split; intros Ec.
      - destruct (proj1 (HS c) (ex_intro _ s (conj Es Ec))) as (s'' & E1 & E2). congruence.
      - destruct (proj2 (HS c) (ex_intro _ s' (conj Es' Ec))) as (s'' & E1 & E2). congruence. }
    cut (flat xy z a <-> flat x yz a); [tauto|]. destruct (is_chr x || is_chr y || is_chr z) eqn:Hc.
    + rewrite (flat_str xy z s f), (flat_str x yz d s'); try done; [|rewrite Cs'; by destruct (is_chr x)|by rewrite Cs].
      split; intros (c & Ec & ->); exists c; (split; [by apply HS1|done]).
    + destruct (is_chr x) eqn:C1; [done|]. destruct (is_chr y) eqn:C2; [done|].
      destruct x as [ | |[] ?|l|l| | | | | ]; try done; destruct y as [ | |[] ?|m|m| | | | | ]; try done; try (by inversion Hxy);
        destruct z as [ | |[] ?|o|o| | | | | ]; try done; try (by inversion Hyz).
      * assert (xy = TyFactor (l ++ new_names l m)) as -> by (by inversion Hxy). assert (yz = TyFactor (m ++ new_names m o)) as -> by (by inversion Hyz).
        assert (E : (l ++ new_names l m) ++ new_names (l ++ new_names l m) o = l ++ new_names l (m ++ new_names m o)) by (by rewrite new_names_assoc, new_names_app, app_assoc).
        split; intros H; inversion H; subst; try done; [rewrite E|rewrite <- E]; constructor.
      * inversion Hxy; subst; try done. inversion Hyz; subst; try done.
  - destruct (proj1 (kinds_zone _ _ Kyz) ltac:(by eexists)) as [zz Hz].
    destruct (flat_zone x y zx zy xy) as [Z1 D1]; [done..|]. destruct (flat_zone y z zy zz yz) as [Z2 D2]; [done..|].
    cut (flat xy z a <-> flat x yz a); [tauto|]. rewrite (flat_time xy z _ _ _ Z1 Hz), (flat_time x yz _ _ _ Hx Z2), zone2_assoc, D1, D2, andb_assoc. done.
Qed.
Lemma flat_nodf x y a : flat x y a -> is_df x = false /\ is_df y = false.
Proof.
  intros H. apply flat_kinds in H. inversion H as [t d u e Ht Hu|? ? d e Hx Hy|? ? a' b Hx Hy]; subst; [done|..];
  destruct x as [ | |[] ?| | | |tz|tz| | ], y as [ | |[] ?| | | |uz|uz| | ]; done.
Qed.

Section ptype.
  Context (addr : rstr -> Z).
  Notation J := (vec_ptype2 addr).

  (** ** Cases *)
  Lemma J_absent_l k x y : ty_ok k y -> is_some_type x = false -> J x y = Ok (match y with TyNull => x | _ => proto y end).
  Proof. intros Hy Hx. destruct x; try done; destruct y; try done; exact (vec_ptype_spec k _ Hy). Qed.
  Lemma J_absent_r k x y : ty_ok k x -> is_some_type x = true -> is_some_type y = false -> J x y = Ok (proto x).
  Proof.
    intros Hx Tx Ty. assert (J x y = vec_ptype x) as ->; [|by apply (vec_ptype_spec k)].
    destruct x as [ | |[] ?| | | | | | | ]; try done; destruct y; done.
  Qed.
  Lemma ty_df_ind (P : ty -> Prop) : (forall x, (forall tib names cols, x = TyDf tib names cols -> Forall P cols) -> P x) -> forall x, P x.
  Proof.
    intros H x. induction x using ty_ind'; apply H; intros; try done. by simplify_eq.
  Qed.
  Inductive cases k j x y : Prop :=
  | c_absent_l : is_some_type x = false -> J x y = Ok (match y with TyNull => x | _ => proto y end) -> cases k j x y
  | c_absent_r : is_some_type x = true -> is_some_type y = false -> J x y = Ok (proto x) -> cases k j x y
  | c_flat : is_some_type x = true -> is_some_type y = true -> is_df x && is_df y = false ->
      (forall a, J x y = Ok a <-> flat x y a) -> (forall e, J x y <> UB e) -> cases k j x y
  | c_df tib xn xc tib' yn yc : x = TyDf tib xn xc -> y = TyDf tib' yn yc ->
      NoDup xn -> NoDup yn -> length xn = length xc -> length yn = length yc ->
      Forall (ty_ok k) xc -> Forall (ty_ok j) yc -> df_join addr tib tib' xn xc yn yc (J x y) -> cases k j x y.
  Lemma J_cases k j x y : (0 <= k)%Z -> (0 <= j)%Z -> (k + j <= 2 ^ 30)%Z -> ty_ok k x -> ty_ok j y -> cases k j x y.
  Proof.
    intros Hk Hj Hkj Hx Hy. destruct (is_some_type x) eqn:Tx; [|by apply c_absent_l, (J_absent_l j)].
    destruct (is_some_type y) eqn:Ty; [|by apply c_absent_r, (J_absent_r k)].
    destruct (is_df x && is_df y) eqn:Hd.
    - destruct x as [ | |?| | | | | |tib xn xc| ]; try done. destruct y as [ | |?| | | | | |tib' yn yc| ]; try done.
      pose proof (ptype2_df addr k j tib xn xc tib' yn yc ltac:(lia) ltac:(lia) Hx Hy) as H.
      apply ty_ok_df in Hx as (? & ? & ? & ? & ?), Hy as (? & ? & ? & ? & ?). by eapply c_df.
    - destruct (flat_spec addr k j x y) as [H1 H2]; [done..|]. by apply c_flat.
  Qed.
  Lemma J_total x : forall k j y, (0 <= k)%Z -> (0 <= j)%Z -> (k + j <= 2 ^ 30)%Z -> ty_ok k x -> ty_ok j y ->
    match J x y with Ok a => ty_ok (k + j) a /\ proto a = a | Err _ => True | UB _ => False end.
  Proof.
    induction x as [x IH] using ty_df_ind. intros k j y Hk Hj Hkj Hx Hy.
    assert (Px : ty_ok (k + j) (proto x)) by (eapply ty_ok_mono; [|by apply proto_ok]; lia).
    assert (Py : ty_ok (k + j) (proto y)) by (eapply ty_ok_mono; [|by apply proto_ok]; lia).
    destruct (J_cases k j x y) as [Tx E|Tx Ty E|Tx Ty Hd E E'|tib xn xc tib' yn yc -> -> Nx Ny Lx Ly Cx Cy HJ]; try done.
    - rewrite E. destruct x; try done; destruct y; try done; (split; [exact Py|apply proto_idem]).
    - rewrite E. split; [done|apply proto_idem].
    - destruct (J x y) as [a|e|e]; [|done|by apply (E' e)]. pose proof (proj1 (E a) eq_refl). by destruct (flat_ok k j x y a) as (? & ? & _).
    - specialize (IH _ _ _ eq_refl). rewrite Forall_forall in IH.
      destruct (J _ _) as [a|e|e]; [|done|].
      + destruct HJ as (oc & -> & Lo & Ho). pose proof (new_names_nodup xn yn Nx Ny) as No.
        assert (Hc : forall n r, col (xn ++ new_names xn yn) oc n = Some r -> ty_ok (k + j) r /\ proto r = r).
        { intros n r Hr. specialize (Ho n). rewrite Hr in Ho. destruct (col xn xc n) as [c|] eqn:Ec, (col yn yc n) as [d|] eqn:Ed; simpl in Ho; try done.
          - destruct Ho as (r' & [= <-] & Er). pose proof (col_Forall _ _ _ _ _ Cx Ec). pose proof (col_Forall _ _ _ _ _ Cy Ed).
            apply col_Some in Ec as (i & _ & Hc). specialize (IH c (elem_of_list_lookup_2 _ _ _ Hc) k j d). rewrite Er in IH. by apply IH.
          - injection Ho as ->. split; [|apply proto_idem]. eapply ty_ok_mono; [|apply proto_ok, (col_Forall _ _ _ _ _ Cx Ec)]. lia.
          - injection Ho as ->. split; [|apply proto_idem]. eapply ty_ok_mono; [|apply proto_ok, (col_Forall _ _ _ _ _ Cy Ed)]. lia. }
        apply ty_ok_df in Hx as (_ & Ox & _ & Bx & _), Hy as (_ & Oy & _ & By & _). split.
        * apply ty_ok_df. split_and!; [done|by apply new_names_ok|done| |].
          -- rewrite app_length. pose proof (new_names_length xn yn). lia.
          -- apply (Forall_col _ (xn ++ new_names xn yn)); [done|done|]. intros n c Hn. by apply (Hc n).
        * cbn [proto]. f_equal. apply (col_ext (xn ++ new_names xn yn)); [done|by rewrite map_length|done|]. intros n Hn.
          rewrite col_map. destruct (col _ oc n) as [c|] eqn:Ec; [|done]. simpl. f_equal. by apply (Hc n).
      + destruct HJ as (n & c & d & Ec & Ed & E). pose proof (col_Forall _ _ _ _ _ Cx Ec). pose proof (col_Forall _ _ _ _ _ Cy Ed).
        apply col_Some in Ec as (i & _ & Hc). specialize (IH c (elem_of_list_lookup_2 _ _ _ Hc) k j d). rewrite E in IH. by apply IH.
  Qed.

  (** ** Only the prototypes matter *)
  Lemma shaped_zero_l v d e a : d <> Some [] -> e <> Some [] -> vec_shaped_ptype v (zero_rows d) e = Ok a <-> vec_shaped_ptype v d e = Ok a.
  Proof.
    intros Hd He. unfold vec_shaped_ptype. pose proof (fun c => shape2_zero_l d e c Hd He) as H.
    destruct (vec_shape2 (zero_rows d) e) as [c| |]; [by rewrite (proj1 (H c) eq_refl)|..]; (destruct (vec_shape2 d e) as [c| |]; [by pose proof (proj2 (H c) eq_refl)|done..]).
  Qed.
  Lemma shaped_zero_r v d e a : d <> Some [] -> e <> Some [] -> vec_shaped_ptype v d (zero_rows e) = Ok a <-> vec_shaped_ptype v d e = Ok a.
  Proof.
    intros Hd He. unfold vec_shaped_ptype. pose proof (fun c => shape2_zero_r d e c Hd He) as H.
    destruct (vec_shape2 d (zero_rows e)) as [c| |]; [by rewrite (proj1 (H c) eq_refl)|..]; (destruct (vec_shape2 d e) as [c| |]; [by pose proof (proj2 (H c) eq_refl)|done..]).
  Qed.
  Lemma shape_zero d : d <> Some [] -> vec_shape (zero_rows d) = vec_shape d.
  Proof. by destruct d as [[|]|]. Qed.
  Lemma df_congr k j tib xn xc xc' tib' yn yc yc' a : (0 <= k)%Z -> (0 <= j)%Z -> (k + j <= 2 ^ 30)%Z ->
    ty_ok k (TyDf tib xn xc) -> ty_ok k (TyDf tib xn xc') -> ty_ok j (TyDf tib' yn yc) -> ty_ok j (TyDf tib' yn yc') ->
    (forall n c c', col xn xc n = Some c -> col xn xc' n = Some c' -> proto c = proto c') ->
    (forall n c c', col yn yc n = Some c -> col yn yc' n = Some c' -> proto c = proto c') ->
    (forall n c c' d d' r, col xn xc n = Some c -> col xn xc' n = Some c' -> col yn yc n = Some d -> col yn yc' n = Some d' -> J c d = Ok r -> J c' d' = Ok r) ->
    J (TyDf tib xn xc) (TyDf tib' yn yc) = Ok a -> J (TyDf tib xn xc') (TyDf tib' yn yc') = Ok a.
  Proof.
    intros Hk Hj Hkj Hx Hx' Hy Hy' Px Py HJ E.
    pose proof (ptype2_df addr k j tib xn xc tib' yn yc ltac:(lia) ltac:(lia) Hx Hy) as H.
    pose proof (ptype2_df addr k j tib xn xc' tib' yn yc' ltac:(lia) ltac:(lia) Hx' Hy') as H'.
    apply ty_ok_df in Hx as (Nx & _ & Lx & _ & Cx), Hx' as (_ & _ & Lx' & _ & Cx'), Hy as (Ny & _ & Ly & _ & Cy), Hy' as (_ & _ & Ly' & _ & Cy').
    rewrite E in H. destruct H as (oc & -> & Lo & Ho).
    assert (Sx : forall n, is_Some (col xn xc n) <-> is_Some (col xn xc' n)) by (intros n; by rewrite !col_is_Some).
    assert (Sy : forall n, is_Some (col yn yc n) <-> is_Some (col yn yc' n)) by (intros n; by rewrite !col_is_Some).
    assert (Hbad : forall n c' d', col xn xc' n = Some c' -> col yn yc' n = Some d' -> exists r, J c' d' = Ok r).
    { intros n c' d' Hc' Hd'. specialize (Ho n). destruct (proj2 (Sx n) ltac:(by eexists)) as [c Hc]. destruct (proj2 (Sy n) ltac:(by eexists)) as [d Hd].
      rewrite Hc, Hd in Ho. destruct Ho as (r & _ & Er). exists r. by eapply HJ. }
    destruct (J (TyDf tib xn xc') (TyDf tib' yn yc')) as [b|e|e].
    - destruct H' as (oc' & -> & Lo' & Ho'). do 2 f_equal. pose proof (new_names_nodup xn yn Nx Ny) as No.
      apply (col_ext (xn ++ new_names xn yn)); [done|done|done|]. intros n _. specialize (Ho n). specialize (Ho' n). specialize (Sx n). specialize (Sy n).
      destruct (col xn xc n) as [c|] eqn:Ec; [destruct (proj1 Sx ltac:(by eexists)) as [c' Ec']; rewrite Ec' in Ho'|
        destruct (col xn xc' n) as [c'|] eqn:Ec'; [by destruct (proj2 Sx ltac:(by eexists))|]];
      (destruct (col yn yc n) as [d|] eqn:Ed; [destruct (proj1 Sy ltac:(by eexists)) as [d' Ed']; rewrite Ed' in Ho'|
        destruct (col yn yc' n) as [d'|] eqn:Ed'; [by destruct (proj2 Sy ltac:(by eexists))|]]); simpl in Ho, Ho'.
      + destruct Ho as (r & -> & Er), Ho' as (r' & -> & Er'). f_equal. rewrite (HJ n c c' d d' r) in Er' by done. congruence.
      + rewrite Ho, Ho'. f_equal. symmetry. by eapply Px.
      + rewrite Ho, Ho'. f_equal. symmetry. by eapply Py.
      + by rewrite Ho, Ho'.
    - destruct H' as (n & c & d & Ec & Ed & E'). destruct (Hbad n c d Ec Ed) as [r Er]. congruence.
    - destruct H' as (n & c & d & Ec & Ed & E'). destruct (Hbad n c d Ec Ed) as [r Er]. congruence.
  Qed.
  Lemma J_proto_l x : forall k j y a, (0 <= k)%Z -> (0 <= j)%Z -> (k + j <= 2 ^ 30)%Z -> ty_ok k x -> ty_ok j y ->
    J (proto x) y = Ok a <-> J x y = Ok a.
  Proof.
    induction x as [x IH] using ty_df_ind. intros k j y a Hk Hj Hkj Hx Hy. destruct (is_df x && is_df y) eqn:Hd.
    - destruct x as [ | |?| | | | | |tib xn xc| ]; try done. destruct y as [ | |?| | | | | |tib' yn yc| ]; try done. specialize (IH _ _ _ eq_refl).
      rewrite Forall_forall in IH. pose proof (proto_ok k _ Hx) as Hx'. cbn [proto] in Hx' |- *.
      assert (Hc : forall n c c' d r, col xn xc n = Some c -> col xn (map proto xc) n = Some c' -> col yn yc n = Some d -> J c' d = Ok r <-> J c d = Ok r).
      { intros n c c' d r Hc Hc' Hd'. rewrite col_map, Hc in Hc'. injection Hc' as <-. apply ty_ok_df in Hx as (_ & _ & _ & _ & Cx), Hy as (_ & _ & _ & _ & Cy).
        apply (IH c) with (k := k) (j := j); [|done..|by eapply col_Forall|by eapply col_Forall]. apply col_Some in Hc as (i & _ & Hc). by eapply elem_of_list_lookup_2. }
      split; intros E; (eapply df_congr; [exact Hk|exact Hj|exact Hkj| | | | | | | |exact E]); try done.
      + intros n c c' H1 H2. rewrite col_map, H2 in H1. injection H1 as <-. apply proto_idem.
      + intros n c c' H1 H2. congruence.
      + intros n c c' d d' r H1 H2 H3 H4 Er. assert (d' = d) as -> by congruence. by apply (Hc n c' c d r).
      + intros n c c' H1 H2. rewrite col_map, H1 in H2. injection H2 as <-. by rewrite proto_idem.
      + intros n c c' H1 H2. congruence.
      + intros n c c' d d' r H1 H2 H3 H4 Er. assert (d' = d) as -> by congruence. by apply (Hc n c c' d r).
    - assert (Habs : is_some_type y = false -> J (proto x) y = J x y).
      { intros Ty. destruct (is_some_type x) eqn:Tx; [|by destruct x]. rewrite (J_absent_r k x), (J_absent_r k (proto x)); [by rewrite proto_idem|by apply proto_ok| |done..].
        destruct x as [ | |? [[]|]| | | |[]|[]| | ]; done. }
      destruct (is_some_type y) eqn:Ty; [|by rewrite Habs]. clear Habs.
      destruct x as [ | |t d|l|l| |tz|tz|tib xn xc| ]; try done.
      + rewrite proto_bare. destruct y as [ | |u e|m|m| |uz|uz|tib' yn yc| ]; try done; destruct t; try done; try (by apply shaped_zero_l); destruct u; try done; by apply shaped_zero_l.
      + destruct tz as [[|s tz]|]; try done.
      + destruct tz as [[|s tz]|]; try done.
      + by destruct y.
  Qed.
  Lemma J_proto_r x : forall k j y a, (0 <= k)%Z -> (0 <= j)%Z -> (k + j <= 2 ^ 30)%Z -> ty_ok k x -> ty_ok j y ->
    J x (proto y) = Ok a <-> J x y = Ok a.
  Proof.
    induction x as [x IH] using ty_df_ind. intros k j y a Hk Hj Hkj Hx Hy. destruct (is_df x && is_df y) eqn:Hd.
    - destruct x as [ | |?| | | | | |tib xn xc| ]; try done. destruct y as [ | |?| | | | | |tib' yn yc| ]; try done. specialize (IH _ _ _ eq_refl).
      rewrite Forall_forall in IH. pose proof (proto_ok j _ Hy) as Hy'. cbn [proto] in Hy' |- *.
      assert (Hc : forall n c d' d r, col xn xc n = Some c -> col yn yc n = Some d -> col yn (map proto yc) n = Some d' -> J c d' = Ok r <-> J c d = Ok r).
      { intros n c d' d r Hc Hd' Hd''. rewrite col_map, Hd' in Hd''. injection Hd'' as <-. apply ty_ok_df in Hx as (_ & _ & _ & _ & Cx), Hy as (_ & _ & _ & _ & Cy).
        apply (IH c) with (k := k) (j := j); [|done..|by eapply col_Forall|by eapply col_Forall]. apply col_Some in Hc as (i & _ & Hc). by eapply elem_of_list_lookup_2. }
      split; intros E; (eapply df_congr; [exact Hk|exact Hj|exact Hkj| | | | | | | |exact E]); try done.
      + intros n c c' H1 H2. congruence.
      + intros n c c' H1 H2. rewrite col_map, H2 in H1. injection H1 as <-. apply proto_idem.
      + intros n c c' d d' r H1 H2 H3 H4 Er. assert (c' = c) as -> by congruence. by apply (Hc n c d d' r).
      + intros n c c' H1 H2. congruence.
      + intros n c c' H1 H2. rewrite col_map, H1 in H2. injection H2 as <-. by rewrite proto_idem.
      + intros n c c' d d' r H1 H2 H3 H4 Er. assert (c' = c) as -> by congruence. by apply (Hc n c d' d r).
    - destruct (is_some_type x) eqn:Tx.
      2: { rewrite (J_absent_l j x y), (J_absent_l j x (proto y)); [|by apply proto_ok|done..]. rewrite proto_idem. by destruct y as [ | |? [[]|]| | | |[]|[]| | ]. }
      destruct (is_some_type y) eqn:Ty; [|by destruct y].
      destruct y as [ | |t d|l|l| |tz|tz|tib xn xc| ]; try done.
      + rewrite proto_bare. destruct x as [ | |u e|m|m| |uz|uz|tib' yn yc| ]; try done; try (destruct t; try done; by apply shaped_zero_r); destruct u; try done; destruct t; try done; by apply shaped_zero_r.
      + destruct tz as [[|s tz]|]; try done. destruct x as [ | |[] e|m|m| |uz|uz|tib' yn yc| ]; done.
      + destruct tz as [[|s tz]|]; try done. destruct x as [ | |[] e|m|m| |uz|uz|tib' yn yc| ]; done.
      + by destruct x as [ | |[] e|m|m| |uz|uz|tib' yn yc| ].
  Qed.

  (** ** Associativity *)
  Lemma J_not_null k j x y : (0 <= k)%Z -> (0 <= j)%Z -> (k + j <= 2 ^ 30)%Z -> ty_ok k x -> ty_ok j y -> J x y = Ok TyNull -> x = TyNull /\ y = TyNull.
  Proof.
    intros Hk Hj Hkj Hx Hy E. destruct (J_cases k j x y) as [Tx E1|Tx Ty E1|Tx Ty Hd E1 E'|tib xn xc tib' yn yc -> -> Nx Ny Lx Ly Cx Cy HJ]; try done.
    - rewrite E1 in E. injection E as E. destruct y as [ | |? [[]|]| | | |[]|[]| | ]; done.
    - rewrite E1 in E. injection E as E. destruct x as [ | |? [[]|]| | | |[]|[]| | ]; done.
    - apply E1 in E. by destruct (flat_ok k j x y TyNull) as (_ & _ & ? & _).
    - rewrite E in HJ. by destruct HJ as (? & ? & _).
  Qed.
  Lemma J_some k j x y a : (0 <= k)%Z -> (0 <= j)%Z -> (k + j <= 2 ^ 30)%Z -> ty_ok k x -> ty_ok j y -> is_some_type x = true -> is_some_type y = true ->
    J x y = Ok a -> is_some_type a = true /\ is_df x = is_df a /\ is_df y = is_df a.
  Proof.
    intros Hk Hj Hkj Hx Hy Hsx Hsy E. destruct (J_cases k j x y) as [Tx E1|Tx Ty E1|Tx Ty Hd E1 E'|tib xn xc tib' yn yc -> -> Nx Ny Lx Ly Cx Cy HJ]; try done; try congruence.
    - apply E1 in E. destruct (flat_ok k j x y a) as (_ & _ & ? & ->); [done..|]. by apply flat_nodf in E as [-> ->].
    - rewrite E in HJ. destruct HJ as (? & -> & _). done.
  Qed.
  Lemma J_assoc x : forall k y z xy yz a, (0 <= k)%Z -> (3 * k <= 2 ^ 30)%Z -> ty_ok k x -> ty_ok k y -> ty_ok k z ->
    J x y = Ok xy -> J y z = Ok yz ->
    (J xy z = Ok a -> (no_cpl z \/ exists b, J x yz = Ok b) -> J x yz = Ok a) /\
    (J x yz = Ok a -> (no_cpl x \/ exists b, J xy z = Ok b) -> J xy z = Ok a).
  Proof.
    induction x as [x IH] using ty_df_ind. intros k y z xy yz a Hk Hk3 Hx Hy Hz Exy Eyz.
    pose proof (J_total x k k y Hk Hk ltac:(lia) Hx Hy) as Txy. rewrite Exy in Txy. destruct Txy as [Hxy Pxy].
    pose proof (J_total y k k z Hk Hk ltac:(lia) Hy Hz) as Tyz. rewrite Eyz in Tyz. destruct Tyz as [Hyz Pyz].
    destruct (is_some_type x) eqn:Tx.
    2: { cut (J xy z = Ok a <-> J x yz = Ok a); [tauto|]. rewrite (J_absent_l k x y) in Exy by done. injection Exy as <-.
      destruct y as [ | |u e|m|m| |uz|uz|tib' yn yc| ] eqn:Ey.
      { rewrite (J_absent_l k TyNull z) in Eyz by done. assert (yz = proto z) as -> by (by destruct z; injection Eyz as <-).
        symmetry. apply (J_proto_r x k k); done || lia. }
      all: rewrite <- Ey in *; rewrite (J_proto_l y k k z a) by (done || lia); rewrite Eyz, (J_absent_l _ x yz Hyz) by done;
        (assert (yz <> TyNull) as Hn by (intros ->; apply (J_not_null k k) in Eyz as [E _]; [congruence|done || lia..]); rewrite Pyz; by destruct yz). }
    destruct (is_some_type y) eqn:Ty.
    2: { cut (J xy z = Ok a <-> J x yz = Ok a); [tauto|]. rewrite (J_absent_r k x y) in Exy by done. injection Exy as <-.
      rewrite (J_absent_l k y z) in Eyz by done. rewrite (J_proto_l x k k z a) by (done || lia). injection Eyz as <-.
      destruct z as [ | |u e|m|m| |uz|uz|tib' yn yc| ] eqn:Ez.
      { rewrite (J_absent_r k x TyNull), (J_absent_r k x y) by done. done. }
      all: rewrite <- Ez in *; symmetry; apply (J_proto_r x k k); done || lia. }
    destruct (J_some k k x y xy) as (Txy & Dx & Dy); [done || lia..|].
    destruct (is_some_type z) eqn:Tz.
    2: { cut (J xy z = Ok a <-> J x yz = Ok a); [tauto|]. rewrite (J_absent_r k y z) in Eyz by done. injection Eyz as <-.
      rewrite (J_proto_r x k k y a), (J_absent_r _ xy z Hxy), Pxy, Exy by (done || lia). done. }
    destruct (J_some k k y z yz) as (Tyz & Dy' & Dz); [done || lia..|].
    destruct (J_cases k k x y) as [?|?|_ _ Fxy Exy' _|tib xn xc tib' yn yc -> -> Nx Ny Lx Ly Cx Cy HJ]; try congruence; [done || lia..| |].
    - assert (Hfyz : is_df y && is_df z = false) by (destruct (is_df x), (is_df y), (is_df z); congruence).
      destruct (flat_spec addr k k y z) as [Eyz' _]; [done || lia..|].
      destruct (flat_spec addr (k + k) k xy z) as [E1 _]; [done || lia..|destruct (is_df xy), (is_df z); congruence|].
      destruct (flat_spec addr k (k + k) x yz) as [E2 _]; [done || lia..|destruct (is_df x), (is_df y), (is_df yz); congruence|].
      apply Exy' in Exy. apply Eyz' in Eyz. destruct (flat_assoc k x y z xy yz a Hx Hy Hz Exy Eyz) as [A1 A2]. rewrite !E1, !E2. split.
      + intros H Hn. apply A1; [done|]. destruct Hn as [Hn|[b Hn]]; [by left|right]. exists b. by apply E2.
      + intros H Hn. apply A2; [done|]. destruct Hn as [Hn|[b Hn]]; [by left|right]. exists b. by apply E1.
    - (* data frames *)
      rewrite Exy in HJ. destruct HJ as (oc & -> & Lo & Ho). destruct z as [ | |?| | | | | |tib'' zn zc| ]; try done; try (simpl in *; congruence).
      pose proof (ptype2_df addr k k tib' yn yc tib'' zn zc ltac:(lia) ltac:(lia) Hy Hz) as HJ. rewrite Eyz in HJ. destruct HJ as (pc & -> & Lp & Hp).
      pose proof (ptype2_df addr (k + k) k _ _ oc tib'' zn zc ltac:(lia) ltac:(lia) Hxy Hz) as H1.
      pose proof (ptype2_df addr k (k + k) tib xn xc _ _ pc ltac:(lia) ltac:(lia) Hx Hyz) as H2.
      pose proof Hz as (Nz & _ & Lz & _ & Cz)%ty_ok_df. pose proof Hxy as (Nxy & _ & _ & _ & Cxy)%ty_ok_df. pose proof Hyz as (Nyz & _ & _ & _ & Cyz)%ty_ok_df.
      specialize (IH _ _ _ eq_refl). rewrite Forall_forall in IH.
      assert (En : (xn ++ new_names xn yn) ++ new_names (xn ++ new_names xn yn) zn = xn ++ new_names xn (yn ++ new_names yn zn)) by (by rewrite new_names_assoc, new_names_app, app_assoc).
      (* a column of [x], one of [y], one of [z] *)
      assert (Hcol : forall n c d e cd de r, col xn xc n = Some c -> col yn yc n = Some d -> col zn zc n = Some e -> J c d = Ok cd -> J d e = Ok de ->
        (J cd e = Ok r -> (no_cpl e \/ exists b, J c de = Ok b) -> J c de = Ok r) /\ (J c de = Ok r -> (no_cpl c \/ exists b, J cd e = Ok b) -> J cd e = Ok r)).
      { intros n c d e cd de r H3 H4 H5 H6 H7. assert (Hin : c ∈ xc) by (apply col_Some in H3 as (i & _ & Hi); by eapply elem_of_list_lookup_2).
        by apply (IH c Hin k d e cd de r Hk Hk3 (col_Forall _ _ _ _ _ Cx H3) (col_Forall _ _ _ _ _ Cy H4) (col_Forall _ _ _ _ _ Cz H5)). }
      set (colL := fun n r => common_col J (col (xn ++ new_names xn yn) oc n) (col zn zc n) r).
      set (colR := fun n r => common_col J (col xn xc n) (col (yn ++ new_names yn zn) pc n) r).
      assert (Hfun : forall u v r r', common_col J u v r -> common_col J u v r' -> r = r').
      { intros [u|] [v|] r r' A B; simpl in A, B; try congruence. destruct A as (p & -> & Ep), B as (q & -> & Eq). congruence. }
      assert (Hcc : forall n r,
        (colL n r -> ((forall e, col zn zc n = Some e -> no_cpl e) \/ exists r, colR n r) -> colR n r) /\
        (colR n r -> ((forall e, col xn xc n = Some e -> no_cpl e) \/ exists r, colL n r) -> colL n r)).
      { intros n r. subst colL colR. cbv beta. specialize (Ho n). specialize (Hp n).
        assert (Okx : forall c, col xn xc n = Some c -> ty_ok k c) by (intros c Hc; exact (col_Forall _ _ _ _ _ Cx Hc)).
        assert (Oky : forall c, col yn yc n = Some c -> ty_ok k c) by (intros c Hc; exact (col_Forall _ _ _ _ _ Cy Hc)).
        assert (Okz : forall c, col zn zc n = Some c -> ty_ok k c) by (intros c Hc; exact (col_Forall _ _ _ _ _ Cz Hc)).
        specialize (Hcol n). destruct (col xn xc n) as [c|], (col yn yc n) as [d|], (col zn zc n) as [e|]; cbn [common_col] in Ho, Hp;
          try specialize (Okx _ eq_refl); try specialize (Oky _ eq_refl); try specialize (Okz _ eq_refl).
        - destruct Ho as (cd & -> & Ecd), Hp as (de & -> & Ede). cbn [common_col]. split.
          + intros (q & -> & Eq) Hn. exists q. split; [done|]. apply (Hcol c d e cd de q); try done. destruct Hn as [Hn|(? & q' & -> & Eq')]; [left; by apply Hn|right; by exists q'].
          + intros (q & -> & Eq) Hn. exists q. split; [done|]. apply (Hcol c d e cd de q); try done. destruct Hn as [Hn|(? & q' & -> & Eq')]; [left; by apply Hn|right; by exists q'].
        - destruct Ho as (cd & -> & Ecd). rewrite Hp. cbn [common_col]. pose proof (J_total c k k d Hk Hk ltac:(lia) Okx Oky) as T. rewrite Ecd in T. destruct T as [_ T].
          cut (r = Some (proto cd) <-> exists q, r = Some q /\ J c (proto d) = Ok q); [tauto|]. rewrite T. setoid_rewrite (fun a => J_proto_r c k k d a Hk Hk ltac:(lia) Okx Oky). split.
          + intros ->. by exists cd.
          + intros (q & -> & Eq). congruence.
        - rewrite Ho, Hp. cbn [common_col]. cut ((exists q, r = Some q /\ J (proto c) e = Ok q) <-> exists q, r = Some q /\ J c (proto e) = Ok q); [tauto|].
          setoid_rewrite (fun a => J_proto_r c k k e a Hk Hk ltac:(lia) Okx Okz). by setoid_rewrite (fun a => J_proto_l c k k e a Hk Hk ltac:(lia) Okx Okz).
        - rewrite Ho, Hp. cbn [common_col]. rewrite proto_idem. tauto.
        - destruct Hp as (de & -> & Ede). rewrite Ho. cbn [common_col]. pose proof (J_total d k k e Hk Hk ltac:(lia) Oky Okz) as T. rewrite Ede in T. destruct T as [_ T].
          cut (r = Some (proto de) <-> exists q, r = Some q /\ J (proto d) e = Ok q); [tauto|]. rewrite T. setoid_rewrite (fun a => J_proto_l d k k e a Hk Hk ltac:(lia) Oky Okz). split.
          + intros ->. by exists de.
          + intros (q & -> & Eq). congruence.
        - rewrite Ho, Hp. cbn [common_col]. rewrite proto_idem. tauto.
        - rewrite Ho, Hp. cbn [common_col]. rewrite proto_idem. tauto.
        - rewrite Ho, Hp. cbn [common_col]. tauto. }
      assert (Hbad : forall n c d, colL n None -> col (xn ++ new_names xn yn) oc n = Some c -> col zn zc n = Some d -> False).
      { subst colL. cbv beta. intros n c d A B C. rewrite B, C in A. by destruct A as (? & ? & _). }
      split.
      + intros E1 Hn. rewrite E1 in H1. destruct H1 as (ac & -> & La & Ha).
        assert (Hc : forall n, colR n (col ((xn ++ new_names xn yn) ++ new_names (xn ++ new_names xn yn) zn) ac n)).
        { intros n. apply (Hcc n); [apply Ha|]. destruct Hn as [Hn|[b Hb]]; [left|right].
          - apply no_cpl_df in Hn. intros e He. by eapply col_Forall.
          - rewrite Hb in H2. destruct H2 as (bc & _ & _ & Hb2). eexists. apply Hb2. }
        destruct (J (TyDf tib xn xc) (TyDf (tib' || tib'') (yn ++ new_names yn zn) pc)) as [b|e|e].
        * destruct H2 as (bc & -> & Lb & Hb). rewrite <- En in *. rewrite orb_assoc. do 2 f_equal. 
          apply (col_ext ((xn ++ new_names xn yn) ++ new_names (xn ++ new_names xn yn) zn)); [by apply new_names_nodup|done|done|]. intros n _. eapply Hfun; [apply Hb|apply Hc].
        * destruct H2 as (n & c & d & Ec & Ed & E). specialize (Hc n). subst colR. cbv beta in Hc. rewrite Ec, Ed in Hc. destruct Hc as (q & _ & Eq). congruence.
        * destruct H2 as (n & c & d & Ec & Ed & E). specialize (Hc n). subst colR. cbv beta in Hc. rewrite Ec, Ed in Hc. destruct Hc as (q & _ & Eq). congruence.
      + intros E2 Hn. rewrite E2 in H2. destruct H2 as (ac & -> & La & Ha).
        assert (Hc : forall n, colL n (col (xn ++ new_names xn (yn ++ new_names yn zn)) ac n)).
        { intros n. apply (Hcc n); [apply Ha|]. destruct Hn as [Hn|[b Hb]]; [left|right].
          - apply no_cpl_df in Hn. intros e He. by eapply col_Forall.
          - rewrite Hb in H1. destruct H1 as (bc & _ & _ & Hb2). eexists. apply Hb2. }
        destruct (J (TyDf (tib || tib') (xn ++ new_names xn yn) oc) (TyDf tib'' zn zc)) as [b|e|e].
        * destruct H1 as (bc & -> & Lb & Hb). rewrite En in *. rewrite orb_assoc. do 2 f_equal. 
          apply (col_ext (xn ++ new_names xn (yn ++ new_names yn zn))); [by apply new_names_nodup|done|done|]. intros n _. eapply Hfun; [apply Hb|apply Hc].
        * destruct H1 as (n & c & d & Ec & Ed & E). specialize (Hc n). subst colL. cbv beta in Hc. rewrite Ec, Ed in Hc. destruct Hc as (q & _ & Eq). congruence.
        * destruct H1 as (n & c & d & Ec & Ed & E). specialize (Hc n). subst colL. cbv beta in Hc. rewrite Ec, Ed in Hc. destruct Hc as (q & _ & Eq). congruence.
  Qed.

  (** ** Symmetry *)
  Lemma equiv_refl x : forall k, ty_ok k x -> ty_equiv x x.
  Proof.
    induction x as [x IH] using ty_df_ind. intros k Hx. destruct x as [ | |t d|l|l| |tz|tz|tib xn xc| ]; try done; try (by constructor).
    specialize (IH _ _ _ eq_refl). rewrite Forall_forall in IH. apply ty_ok_df in Hx as (Nx & _ & Lx & _ & Cx). constructor; try done.
    intros n c d Hc Hd. assert (d = c) as -> by congruence. pose proof (col_Forall _ _ _ _ _ Cx Hc). apply col_Some in Hc as (i & _ & Hc). eapply IH; [by eapply elem_of_list_lookup_2|done].
  Qed.
  Lemma new_names_comm xs ys : NoDup xs -> NoDup ys -> xs ++ new_names xs ys ≡ₚ ys ++ new_names ys xs.
  Proof.
    intros Hx Hy. apply NoDup_Permutation; [by apply new_names_nodup..|]. intros s. rewrite !elem_of_app, !new_names_elem.
    destruct (decide (s ∈ xs)), (decide (s ∈ ys)); tauto.
  Qed.
  Lemma flat_sym k j x y a : ty_ok k x -> ty_ok j y -> flat x y a -> exists b, flat y x b /\ ty_equiv a b.
  Proof.
    intros Hx Hy H. inversion H as [t u v d e s Hb Es|? ? d e s Ed Ee Hc Es|l m|l| |? ? a' b Hz Hz' Hn]; subst.
    - exists (TyBare v s). split; [|constructor]. constructor; [|by apply shape2_sym]. destruct Hb as [[-> ->]|(p & q & Hp & Hq & Hd & Hv)]; [by left|right].
      exists q, p. split_and!; [done|done|lia|]. by rewrite Nat.max_comm.
    - exists (TyBare TChr s). split; [|constructor]. apply (f_str _ _ e d); [done|done|by rewrite orb_comm|].
      apply shape2_sym; [exact (str_dims_ok k x d Hx Ed)|exact (str_dims_ok j y e Hy Ee)|done].
    - eexists. split; [constructor|]. constructor. apply new_names_comm; [apply Hx|apply Hy].
    - eexists. split; constructor.
    - eexists. split; constructor.
    - exists (TyPosixct (Some [zone2 b a'])). split; [by constructor; [..|tauto]|]. unfold zone2.
      destruct (decide (a' = empty_str)) as [->|Ha], (decide (b = empty_str)) as [->|Hb]; by constructor.
  Qed.
  Lemma J_sym x : forall k j y a, (0 <= k)%Z -> (0 <= j)%Z -> (k + j <= 2 ^ 30)%Z -> ty_ok k x -> ty_ok j y ->
    J x y = Ok a -> exists b, J y x = Ok b /\ ty_equiv a b.
  Proof.
    induction x as [x IH] using ty_df_ind. intros k j y a Hk Hj Hkj Hx Hy E.
    assert (Rx : ty_equiv (proto x) (proto x)) by (by eapply (equiv_refl _ k), proto_ok).
    assert (Ry : ty_equiv (proto y) (proto y)) by (by eapply (equiv_refl _ j), proto_ok).
    destruct (J_cases k j x y) as [Tx E1|Tx Ty E1|Tx Ty Hd E1 _|tib xn xc tib' yn yc -> -> Nx Ny Lx Ly Cx Cy HJ]; try done.
    - rewrite E1 in E. injection E as <-. destruct (is_some_type y) eqn:Ty.
      + rewrite (J_absent_r j y x) by done. eexists. split; [done|]. by destruct y.
      + rewrite (J_absent_l k y x) by done. destruct x; try done; destruct y; try done; eexists; (split; [done|]); constructor.
    - rewrite E1 in E. injection E as <-. rewrite (J_absent_l k y x) by done. eexists. split; [done|]. by destruct x.
    - apply E1 in E. destruct (flat_sym k j x y a) as (b & Hb & He); [done..|]. exists b. split; [|done].
      destruct (flat_spec addr j k y x) as [E2 _]; try done; [lia|by rewrite andb_comm|]. by apply E2.
    - rewrite E in HJ. destruct HJ as (oc & -> & Lo & Ho). pose proof (ptype2_df addr j k tib' yn yc tib xn xc ltac:(lia) ltac:(lia) Hy Hx) as H.
      specialize (IH _ _ _ eq_refl). rewrite Forall_forall in IH.
      assert (Hc : forall n c d, col xn xc n = Some c -> col yn yc n = Some d -> exists r r', J c d = Ok r /\ J d c = Ok r' /\ ty_equiv r r').
      { intros n c d Hc Hd. specialize (Ho n). rewrite Hc, Hd in Ho. destruct Ho as (r & _ & Er).
        destruct (IH c) with (k := k) (j := j) (y := d) (a := r) as (r' & E1 & E2); try done.
        - apply col_Some in Hc as (i & _ & Hc). by eapply elem_of_list_lookup_2.
        - by eapply (col_Forall (ty_ok k)).
        - by eapply (col_Forall (ty_ok j)).
        - by exists r, r'. }
      destruct (J (TyDf tib' yn yc) (TyDf tib xn xc)) as [b|e|e].
      + destruct H as (pc & -> & Lp & Hp). eexists. split; [done|]. rewrite (orb_comm tib' tib). constructor; [by apply new_names_comm|done|done|].
        intros n p q Hp' Hq. specialize (Ho n). specialize (Hp n). rewrite Hp' in Ho. rewrite Hq in Hp.
        destruct (col xn xc n) as [c|] eqn:Ec, (col yn yc n) as [d|] eqn:Ed; simpl in Ho, Hp; try done.
        * destruct Ho as (? & [= <-] & E1), Hp as (? & [= <-] & E2). destruct (Hc n c d Ec Ed) as (r & r' & ? & ? & ?). congruence.
        * injection Ho as ->. injection Hp as ->. eapply (equiv_refl _ k), proto_ok. by eapply (col_Forall (ty_ok k)).
        * injection Ho as ->. injection Hp as ->. eapply (equiv_refl _ j), proto_ok. by eapply (col_Forall (ty_ok j)).
      + destruct H as (n & d & c & Hd & Hc' & E1). destruct (Hc n c d Hc' Hd) as (r & r' & ? & ? & ?). congruence.
      + destruct H as (n & d & c & Hd & Hc' & E1). destruct (Hc n c d Hc' Hd) as (r & r' & ? & ? & ?). congruence.
  Qed.

  (** ** Idempotence *)
  Lemma J_idem x : forall k, (0 <= k)%Z -> (k + k <= 2 ^ 30)%Z -> ty_ok k x -> ty_plain x -> J x x = Ok (proto x).
  Proof.
    induction x as [x IH] using ty_df_ind. intros k Hk Hkk Hx Hp.
    destruct (J_cases k k x x) as [Tx E|Tx Ty E|Tx _ Hd E _|tib xn xc tib' yn yc -> [= <- <- <-] Nx _ Lx _ Cx _ HJ]; try done; try congruence.
    - rewrite E. by destruct x.
    - apply E. destruct x as [ | |t d|l|l| |tz|tz|tib xn xc| ]; try done.
      + rewrite proto_bare. constructor; [by left|by apply shape2_self].
      + cbn [proto]. rewrite <- (app_nil_r l) at 3. rewrite <- (new_names_self l). constructor.
      + constructor.
      + constructor.
      + destruct tz as [[|s [|]]|]; try done; cbn [proto].
        * assert (s = zone2 s s) as Es by (unfold zone2; by destruct (decide (s = empty_str))). rewrite Es at 3. by constructor; [..|intros [? _]].
        * change empty_str with (zone2 empty_str empty_str). by constructor; [..|intros [? _]].
    - specialize (IH _ _ _ eq_refl). rewrite Forall_forall in IH. apply ty_plain_df in Hp.
      assert (Hc : forall n c, col xn xc n = Some c -> J c c = Ok (proto c)).
      { intros n c Hc. pose proof (col_Forall _ _ _ _ _ Cx Hc). pose proof (col_Forall _ _ _ _ _ Hp Hc). apply col_Some in Hc as (i & _ & Hc).
        apply (IH c) with (k := k); try done. by eapply elem_of_list_lookup_2. }
      destruct (J _ _) as [a|e|e].
      + destruct HJ as (oc & -> & Lo & Ho). rewrite new_names_self, app_nil_r in *. rewrite orb_diag. cbn [proto]. do 2 f_equal.
        apply (col_ext xn); [done|done|by rewrite map_length|]. intros n Hn. rewrite col_map. specialize (Ho n).
        destruct (col xn xc n) as [c|] eqn:Ec; [|done]. destruct Ho as (r & -> & Er). rewrite (Hc n c Ec) in Er. simpl. congruence.
      + destruct HJ as (n & c & d & Ec & Ed & E). assert (d = c) as -> by congruence. rewrite (Hc n c Ec) in E. done.
      + destruct HJ as (n & c & d & Ec & Ed & E). assert (d = c) as -> by congruence. rewrite (Hc n c Ec) in E. done.
  Qed.
End ptype.

(** ** Casts of data frames *)
Section cast.
  Context (addr : rstr -> Z) (cast : value -> value -> res value).
  Notation C := (vec_cast addr cast).
  (** What column [t] of [to], named [n], becomes. *)
  Definition cast_col (size : nat) (xn : list rstr) (xc : list value) (n : rstr) (t : value) : res value :=
    match col xn xc n with Some c => C c t | None => vec_init t (Z.of_nat size) end.
  Definition each_col (one : rstr -> value -> res value) (ns : list rstr) (cs : list value) (r : res (list value)) : Prop :=
    match r with
    | Ok out => length out = length cs /\ forall j n c, ns !! j = Some n -> cs !! j = Some c -> exists r, out !! j = Some r /\ one n c = Ok r
    | Err e => exists j n c, ns !! j = Some n /\ cs !! j = Some c /\ one n c = Err e
    | UB e => exists j n c, ns !! j = Some n /\ cs !! j = Some c /\ one n c = UB e
    end.
  Definition fst_res {A B} (r : res (A * B)) : res A := let! p := r in Ok p.1.
  Lemma each_col_step {B} one n c ns cs (r : res (list value * B)) (g : B -> B) : each_col one ns cs (fst_res r) ->
    each_col one (n :: ns) (c :: cs) (fst_res (let! t := one n c in let! rest := r in Ok (t :: rest.1, g rest.2))).
  Proof.
    intros H. destruct (one n c) as [t|e|e] eqn:E; cbn [bind]; [|by exists 0, n, c..].
    destruct r as [[out b]|e|e]; unfold fst_res in *; cbn [bind fst snd] in *.
    - destruct H as [Hl H]. split; [simpl; lia|]. intros [|j] n' c' Hn Hc; simpl in Hn, Hc.
      + injection Hn as <-. injection Hc as <-. by exists t.
      + destruct (H j n' c' Hn Hc) as (r & Hr & Er). by exists r.
    - destruct H as (j & n' & c' & H1 & H2 & H3). by exists (S j), n', c'.
    - destruct H as (j & n' & c' & H1 & H2 & H3). by exists (S j), n', c'.
  Qed.
  Section loop.
    Context (size : nat) (xn : list rstr) (xc : list value) (Hnd : NoDup xn) (Hlen : length xn = length xc).
    Notation one := (cast_col size xn xc).
    Lemma cast_match_loop pos tc : forall tns i, Forall2 (pos_in xn) tns (drop i pos) -> length tns = length tc ->
      each_col one tns tc (fst_res (df_cast_match_ C size xc pos i tc)) /\
      forall r, df_cast_match_ C size xc pos i tc = Ok r -> r.2 = length (filter (fun n : rstr => n ∈ xn) tns).
    Proof.
      induction tc as [|t tc IH]; intros tns i Hp Hl.
      - destruct tns; [|done]. split; [|by intros r [= <-]]. split; [done|]. intros j n c _ Hc. by rewrite lookup_nil in Hc.
      - destruct tns as [|n tns]; [done|]. cbn [df_cast_match_]. apply Forall2_cons_inv_l in Hp as (z & zs & Hz & Hp & Ed).
        assert (Ez : pos !! i = Some z). { replace i with (i + 0) by lia. rewrite <- lookup_drop. by rewrite Ed. }
        assert (Ezs : drop (S i) pos = zs). { replace (S i) with (i + 1) by lia. by rewrite <- drop_drop, Ed. }
        rewrite (proj2 (rd_Ok _ _ _) Ez). cbn [bind].
        assert (Eo : (if (z =? NA_INTEGER)%Z then vec_init t (Z.of_nat size) else let! c := rdZ xc (z - 1) in C c t) = one n t /\ ((z =? NA_INTEGER)%Z = false <-> n ∈ xn)).
        { unfold cast_col. destruct Hz as [[-> Hz]|(j & -> & Hj & _)].
          - rewrite (proj2 (col_None xn xc n Hlen) Hz), Z.eqb_refl. by split.
          - destruct (Z.eqb_spec (Z.of_nat j + 1) NA_INTEGER); [unfold NA_INTEGER, INT_MIN in *; lia|].
            assert (is_Some (xc !! j)) as [d Hd]. { apply lookup_lt_is_Some. apply lookup_lt_Some in Hj. lia. }
            rewrite (col_lookup xn xc j n d) by done. split; [|by split; [intros _; eapply elem_of_list_lookup_2|]].
            assert (rdZ xc (Z.of_nat j + 1 - 1) = Ok d) as ->; [|done]. unfold rdZ. destruct (Z.ltb_spec (Z.of_nat j + 1 - 1) 0); [lia|].
            apply rd_Ok. by replace (Z.to_nat (Z.of_nat j + 1 - 1)) with j by lia. }
        destruct Eo as [Eo Ein]. rewrite Eo. destruct (IH tns (S i)) as [IH1 IH2]; [by rewrite Ezs|simpl in Hl; lia|]. split.
        + apply (each_col_step one n t tns tc (df_cast_match_ C size xc pos (S i) tc) (fun b => if (z =? NA_INTEGER)%Z then b else S b) IH1).
        + intros r. destruct (one n t); try done. cbn [bind]. destruct (df_cast_match_ C size xc pos (S i) tc) as [rest| |] eqn:Er; try done. cbn [bind].
          intros [= <-]. cbn [snd]. specialize (IH2 _ eq_refl). rewrite filter_cons. destruct (z =? NA_INTEGER)%Z.
          * rewrite decide_False; [done|]. intros Hn. by apply Ein in Hn.
          * rewrite decide_True by (by apply Ein). simpl. by rewrite IH2.
    Qed.
    Lemma cast_equal_loop tc : forall i, length (drop i xn) = length tc ->
      each_col one (drop i xn) tc (df_cast_loop_ C xc i tc).
    Proof.
      induction tc as [|t tc IH]; intros i Hl.
      - split; [done|]. intros j n c _ Hc. by rewrite lookup_nil in Hc.
      - rewrite drop_length in Hl. simpl in Hl. assert (Hi : i < length xn) by lia. apply lookup_lt_is_Some in Hi as [n Hn].
        assert (is_Some (xc !! i)) as [c Hc]. { apply lookup_lt_is_Some. lia. }
        cbn [df_cast_loop_]. rewrite (proj2 (rd_Ok _ _ _) Hc). cbn [bind]. rewrite (drop_S _ _ _ Hn).
        assert (Eo : C c t = one n t). { unfold cast_col. by rewrite (col_lookup xn xc i n c). }
        rewrite Eo. pose proof (IH (S i) ltac:(rewrite drop_length; lia)) as H.
        pose proof (each_col_step one n t (drop (S i) xn) tc (let! l := df_cast_loop_ C xc (S i) tc in Ok (l, tt)) id) as HS.
        destruct (one n t); cbn [bind] in *; destruct (df_cast_loop_ C xc (S i) tc); unfold fst_res in HS; cbn [bind fst snd] in *; by apply HS.
    Qed.
  End loop.

  Definition df_casted size xn xc tn tc (r : res value) : Prop :=
    match r with
    | Ok out => xn ⊆ tn /\ exists oc, out = VDf size tn oc /\ length oc = length tc /\
        forall j n t, tn !! j = Some n -> tc !! j = Some t -> exists r, oc !! j = Some r /\ cast_col size xn xc n t = Ok r
    | Err e => ~ xn ⊆ tn \/ exists j n t, tn !! j = Some n /\ tc !! j = Some t /\ cast_col size xn xc n t = Err e
    | UB e => exists j n t, tn !! j = Some n /\ tc !! j = Some t /\ cast_col size xn xc n t = UB e
    end.
  Theorem C38_cast size xn xc tsize tn tc :
    NoDup xn -> NoDup tn -> strs_ok xn -> strs_ok tn -> length xn = length xc -> length tn = length tc ->
    (Z.of_nat (length xn) <= INT_MAX)%Z -> (Z.of_nat (length tn) <= INT_MAX)%Z ->
    df_casted size xn xc tn tc (C (VDf size xn xc) (VDf tsize tn tc)).
  Proof.
    intros Nx Nt Ox Ot Lx Lt Bx Bt. cbn [vec_cast]. destruct (equal_object _ _) eqn:Eq.
    - apply chr_levels_equal in Eq. subst tn. pose proof (cast_equal_loop size xn xc Nx Lx tc 0 Lt) as H. rewrite drop_0 in H.
      destruct (df_cast_loop_ C xc 0 tc) as [oc|e|e]; cbn [bind].
      + destruct H as [Lo H]. split; [done|]. by exists oc.
      + by right.
      + done.
    - destruct (chr_match_spec addr tn xn) as (pos & Ep & Hp); [done|done|unfold R_LEN_T_MAX; lia..|]. rewrite Ep. cbn [bind].
      destruct (cast_match_loop size xn xc Nx Lx pos tc tn 0) as [H1 H2]; [by rewrite drop_0|done|].
      destruct (df_cast_match_ C size xc pos 0 tc) as [[oc len]|e|e]; unfold fst_res in H1; cbn [bind fst snd] in *; [|by right|done].
      specialize (H2 _ eq_refl). cbn [snd] in H2. destruct H1 as [Lo H1].
      assert (Hp' : filter (fun n : rstr => n ∈ xn) tn ⊆+ xn).
      { apply NoDup_submseteq; [by apply NoDup_filter|]. intros n Hn. by apply elem_of_list_filter in Hn as [? _]. }
      destruct (Nat.eqb_spec (length xc) len) as [El|El].
      + split; [|by exists oc]. apply submseteq_Permutation_length_eq in Hp'; [|lia]. intros n Hn. rewrite <- Hp' in Hn. by apply elem_of_list_filter in Hn as [_ ?].
      + assert (Hns : ~ xn ⊆ tn).
        { intros Hs. apply El. rewrite H2, <- Lx. apply Nat.le_antisymm; [|by apply submseteq_length]. apply submseteq_length, NoDup_submseteq; [done|].
          intros n Hn. rewrite elem_of_list_filter. auto. }
        unfold df_lossy_cast. assert (existsb (fun s => negb (r_in s tn)) xn = true) as ->; [|by left].
        destruct (existsb _ xn) eqn:Ex; [done|]. exfalso. apply Hns. intros n Hn. apply r_in_spec. destruct (r_in n tn) eqn:Er; [done|].
        assert (existsb (fun s => negb (r_in s tn)) xn = true); [|congruence]. apply existsb_exists. exists n. rewrite Er. split; [|done]. by apply elem_of_list_In.
  Qed.
  (** The columns that [x] does not have are filled with missing values. *)
  Theorem C38_cast_absent size xn xc n t : length xn = length xc -> n ∉ xn -> value_ok t -> (Z.of_nat size <= INT_MAX)%Z -> shape_fits (Z.of_nat size) t ->
    exists r, cast_col size xn xc n t = Ok r /\ sliced (replicate size NA_INTEGER) t r.
  Proof.
    intros Lx Hn Ht Hs Hf. unfold cast_col. rewrite (proj2 (col_None xn xc n Lx) Hn), vec_init_spec by done. eexists. split; [done|]. by apply sliced_slice_val.
  Qed.
End cast.

(** ** C35: the theorems *)
(** Levels and columns are few enough for the common
    type of two, or three, to be within the limit of C07. *)
Definition ok2 : ty -> Prop := ty_ok (2 ^ 29).
Definition ok3 : ty -> Prop := ty_ok (2 ^ 28).
Section C35.
  Context (addr : rstr -> Z).
  Notation J := (vec_ptype2 addr).
  (** NULL and unspecified are identities. *)
  Theorem C35_identity k x : ty_ok k x ->
    J TyNull x = Ok (proto x) /\ J x TyNull = Ok (proto x) /\
    (x <> TyNull -> J TyUnspecified x = Ok (proto x) /\ J x TyUnspecified = Ok (proto x)).
  Proof.
    intros Hx. split; [|split].
    - rewrite (J_absent_l addr k) by done. by destruct x.
    - destruct (is_some_type x) eqn:Tx; [by apply (J_absent_r addr k)|]. rewrite (J_absent_l addr k) by done. by destruct x.
    - intros Hn. split; [rewrite (J_absent_l addr k) by done; by destruct x|].
      destruct (is_some_type x) eqn:Tx; [by apply (J_absent_r addr k)|]. rewrite (J_absent_l addr k) by done. by destruct x.
  Qed.
  (** The common type of two vectors other than two data frames is that of the
      documented table; there is an error exactly when the table has no entry. *)
  Theorem C35_table_partial x y : ok2 x -> ok2 y -> is_some_type x = true -> is_some_type y = true -> is_df x && is_df y = false ->
    (forall a, J x y = Ok a <-> flat x y a) /\ ((exists e, J x y = Err e) <-> forall a, ~ flat x y a).
  Proof.
    intros Hx Hy Tx Ty Hd. destruct (flat_spec addr (2 ^ 29) (2 ^ 29) x y) as [H1 H2]; [done..|]. split; [done|]. split.
    - intros [e E] a Ha. apply H1 in Ha. congruence.
    - intros Hn. destruct (J x y) as [a|e|e]; [|by exists e|by destruct (H2 e)]. by destruct (Hn a (proj1 (H1 a) eq_refl)).
  Qed.
  (** The common type never has rows, and is of the same sort. *)
  Theorem C35_total_partial x y : ok2 x -> ok2 y ->
    match J x y with Ok a => ty_ok (2 ^ 30) a /\ proto a = a | Err _ => True | UB _ => False end.
  Proof. intros Hx Hy. by apply (J_total addr x (2 ^ 29) (2 ^ 29)). Qed.
  Theorem C35_symmetric_partial x y : ok2 x -> ok2 y ->
    (forall a, J x y = Ok a -> exists b, J y x = Ok b /\ ty_equiv a b) /\
    ((exists e, J x y = Err e) <-> exists e, J y x = Err e).
  Proof.
    intros Hx Hy. assert (H : forall x y, ok2 x -> ok2 y -> forall a, J x y = Ok a -> exists b, J y x = Ok b /\ ty_equiv a b).
    { clear. intros x y Hx Hy a. by apply (J_sym addr x (2 ^ 29) (2 ^ 29)). }
    split; [by apply H|]. pose proof (C35_total_partial x y Hx Hy) as T1. pose proof (C35_total_partial y x Hy Hx) as T2. split; intros [e E].
    - destruct (J y x) as [b|e'|e'] eqn:Eb; [|by exists e'|done]. destruct (H y x Hy Hx b Eb) as (? & ? & _). congruence.
    - destruct (J x y) as [b|e'|e'] eqn:Eb; [|by exists e'|done]. destruct (H x y Hx Hy b Eb) as (? & ? & _). congruence.
  Qed.
  Theorem C35_idempotent_partial x : ok2 x -> ty_plain x -> J x x = Ok (proto x).
  Proof. intros Hx Hp. by apply (J_idem addr x (2 ^ 29)). Qed.
  (** Both ways of combining three types agree when both are defined. *)
  Theorem C35_associative_partial x y z xy yz a b : ok3 x -> ok3 y -> ok3 z ->
    J x y = Ok xy -> J y z = Ok yz -> J xy z = Ok a -> J x yz = Ok b -> a = b.
  Proof.
    intros Hx Hy Hz E1 E2 E3 E4. destruct (J_assoc addr x (2 ^ 28) y z xy yz a) as [H _]; [done..|].
    rewrite (H E3) in E4; [congruence|]. right. by exists b.
  Qed.
  (** When [x] and [z] have no complex columns, one is defined when the other is. *)
  Theorem C35_associative_defined_partial x y z xy yz : ok3 x -> ok3 y -> ok3 z -> no_cpl x -> no_cpl z ->
    J x y = Ok xy -> J y z = Ok yz -> forall a, J xy z = Ok a <-> J x yz = Ok a.
  Proof.
    intros Hx Hy Hz Nx Nz E1 E2 a. destruct (J_assoc addr x (2 ^ 28) y z xy yz a) as [H1 H2]; [done..|]. split; auto.
  Qed.

  (** *** Many types *)
  (** No unspecified columns. *)
  Fixpoint specified (x : ty) : Prop :=
    match x with
    | TyUnspecified => False
    | TyDf _ _ cols => (fix go cols := match cols with [] => True | c :: cols => specified c /\ go cols end) cols
    | _ => True
    end.
  Lemma finalise_specified x : specified (vec_ptype_finalise x).
  Proof.
    induction x as [x IH] using ty_df_ind. destruct x as [ | |t d|l|l| |tz|tz|tib xn xc| ]; try done.
    specialize (IH _ _ _ eq_refl). cbn [vec_ptype_finalise specified]. induction xc as [|c xc IHc]; [done|].
    apply Forall_cons in IH as [IH1 IH2]. split; [done|]. by apply IHc.
  Qed.
  Theorem C35_common_specified xs a : vec_ptype_common addr TyNull xs = Ok a -> specified a.
  Proof.
    unfold vec_ptype_common. destruct (reduce _ _ _); try done. cbn [bind]. intros [= <-]. apply finalise_specified.
  Qed.
  Lemma foldM_proto c k cur xs : (0 <= c)%Z -> (0 <= k)%Z -> (c + k * Z.of_nat (length xs) <= 2 ^ 30)%Z -> ty_ok c cur -> proto cur = cur -> Forall (ty_ok k) xs ->
    match foldM J cur xs with Ok a => ty_ok (c + k * Z.of_nat (length xs)) a /\ proto a = a | Err _ => True | UB _ => False end.
  Proof.
    revert c cur. induction xs as [|x xs IH]; intros c cur Hc Hk Hb Hcur Hp Hxs; cbn [foldM].
    - split; [|done]. eapply ty_ok_mono; [|done]. simpl. lia.
    - apply Forall_cons in Hxs as [Hx Hxs]. cbn [length] in *. pose proof (J_total addr cur c k x Hc Hk ltac:(nia) Hcur Hx) as T.
      destruct (J cur x) as [a|e|e]; try done. cbn [bind]. destruct T as [Ha Pa]. specialize (IH (c + k)%Z a ltac:(lia) Hk ltac:(lia) Ha Pa Hxs).
      by replace (c + k * Z.of_nat (S (length xs)))%Z with (c + k + k * Z.of_nat (length xs))%Z by lia.
  Qed.
  Lemma foldM_app {A} (f : A -> A -> res A) cur xs ys : foldM f cur (xs ++ ys) = let! c := foldM f cur xs in foldM f c ys.
  Proof.
    revert cur. induction xs as [|x xs IH]; intros cur; [done|]. cbn [app foldM]. destruct (f cur x); cbn [bind]; [apply IH|done|done].
  Qed.
  (** NULLs can be left out, and so can unspecified vectors unless there are only
      NULLs besides. *)
  Theorem C35_common_null_partial k xs ys : (0 <= k)%Z -> (k * Z.of_nat (length (xs ++ ys)) <= 2 ^ 30)%Z -> Forall (ty_ok k) (xs ++ ys) ->
    vec_ptype_common addr TyNull (xs ++ TyNull :: ys) = vec_ptype_common addr TyNull (xs ++ ys) /\
    (Exists (fun x => x <> TyNull) (xs ++ ys) ->
     vec_ptype_common addr TyNull (xs ++ TyUnspecified :: ys) = vec_ptype_common addr TyNull (xs ++ ys)).
  Proof.
    intros Hk Hb Ho. apply Forall_app in Ho as [Hx Hy]. rewrite app_length in Hb. unfold vec_ptype_common. rewrite !reduce_foldM, !foldM_app.
    pose proof (foldM_proto 0 k TyNull xs ltac:(lia) Hk ltac:(lia) I eq_refl Hx) as T.
    assert (Hnull : forall zs, Forall (fun x => x = TyNull) zs -> foldM J TyNull zs = Ok TyNull).
    { clear. induction zs as [|z zs IH]; intros Hz; [done|]. apply Forall_cons in Hz as [-> Hz]. cbn [foldM]. by apply IH. }
    assert (Hnull' : forall c cur zs, (0 <= c)%Z -> (c + k * Z.of_nat (length zs) <= 2 ^ 30)%Z -> ty_ok c cur -> proto cur = cur -> Forall (ty_ok k) zs -> foldM J cur zs = Ok TyNull -> cur = TyNull /\ Forall (fun x => x = TyNull) zs).
    { clear - Hk. intros c cur zs. revert c cur. induction zs as [|z zs IH]; intros c cur Hc Hb Hcur Hp Hzs E; cbn [foldM] in E; [by injection E as ->|].
      apply Forall_cons in Hzs as [Hz Hzs]. cbn [length] in Hb. pose proof (J_total addr cur c k z Hc Hk ltac:(nia) Hcur Hz) as T.
      destruct (J cur z) as [a|e|e] eqn:Ea; try done. cbn [bind] in E. destruct T as [T1 T2]. apply (IH (c + k)%Z) in E as [-> E]; [|lia|lia|done..].
      apply (J_not_null addr c k) in Ea as [-> ->]; [by split; [|constructor]|done|done|nia|done..]. }
    destruct (foldM J TyNull xs) as [cur|e|e] eqn:Ecur; [|by split|done]. destruct T as [Hc Hp]. cbn [bind foldM].
    assert (Hid : forall x, is_some_type x = false -> cur <> TyNull -> J cur x = Ok cur).
    { intros x Tx Hn. destruct (is_some_type cur) eqn:Tc; [rewrite (J_absent_r addr _ cur x Hc), Hp by done; done|]. destruct cur; try done. by destruct x. }
    split.
    - assert (J cur TyNull = Ok cur) as ->; [|done]. destruct (is_some_type cur) eqn:Tc; [by apply Hid; [|intros ->]|]. by destruct cur.
    - intros Hex. assert (cur = TyNull \/ cur <> TyNull) as [->|Hn] by (destruct cur; auto); [|by rewrite Hid].
      cbn [vec_ptype2 vec_ptype bind]. (* only NULLs so far *)
      destruct (Hnull' 0%Z TyNull xs) as [_ Nx]; [lia|lia|done|done|done|done|].
      assert (Hey : Exists (fun x => x <> TyNull) ys).
      { apply Exists_app in Hex as [Hex|Hex]; [|done]. apply Exists_exists in Hex as (x & Hin & Hn). rewrite Forall_forall in Nx. by destruct (Hn (Nx x Hin)). }
      clear -Hy Hey. assert (foldM J TyUnspecified ys = foldM J TyNull ys) as ->; [|done]. induction ys as [|y ys IH]; [by apply Exists_nil in Hey|].
      apply Forall_cons in Hy as [Hy Hys]. cbn [foldM]. rewrite !(J_absent_l addr k) by done.
      destruct y; try done. cbn [bind proto]. apply IH; [done|]. apply Exists_cons in Hey as [?|?]; done.
  Qed.
End C35.

(** ** C38: common types of data frames *)
Theorem C38_ptype2 addr tib xn xc tib' yn yc : ty_ok (2 ^ 30) (TyDf tib xn xc) -> ty_ok (2 ^ 30) (TyDf tib' yn yc) ->
  match vec_ptype2 addr (TyDf tib xn xc) (TyDf tib' yn yc) with
  | Ok a => exists oc, a = TyDf (tib || tib') (xn ++ new_names xn yn) oc /\ length oc = length (xn ++ new_names xn yn) /\
      forall n, common_col (vec_ptype2 addr) (col xn xc n) (col yn yc n) (col (xn ++ new_names xn yn) oc n)
  | Err e => exists n c d, col xn xc n = Some c /\ col yn yc n = Some d /\ vec_ptype2 addr c d = Err e
  | UB e => exists n c d, col xn xc n = Some c /\ col yn yc n = Some d /\ vec_ptype2 addr c d = UB e
  end.
Proof. intros Hx Hy. exact (ptype2_df addr (2 ^ 30) (2 ^ 30) tib xn xc tib' yn yc ltac:(lia) ltac:(lia) Hx Hy). Qed.

(** ** Examples *)
(** [x] is a tibble with an integer matrix, a factor, a nested data frame; [y] a
    data frame with columns of other types, in another order, and one more. *)
Definition ex_d : rstr := Some [100]%Z.
Definition ex_x : ty := TyDf true [ex_a; ex_b; ex_c]
  [TyBare TInt (Some [4; 2]%Z); TyFactor [ex_a; ex_b]; TyDf false [ex_z] [TyPosixct None]].
Definition ex_y : ty := TyDf false [ex_c; ex_d; ex_b; ex_a]
  [TyDf false [ex_b; ex_z] [TyUnspecified; TyDate]; TyBare TList None; TyFactor [ex_c; ex_a]; TyBare TDbl None].
Definition ex_z' : ty := TyDf false [ex_d; ex_b] [TyUnspecified; TyBare TChr None].
Lemma ex_x_ok : ty_ok (2 ^ 28) ex_x.
Proof. repeat split; try ex_nodup; try ex_strs; try done; lia. Qed.
Lemma ex_y_ok : ty_ok (2 ^ 28) ex_y.
Proof. repeat split; try ex_nodup; try ex_strs; try done; lia. Qed.
Lemma ex_z_ok : ty_ok (2 ^ 28) ex_z'.
Proof. repeat split; try ex_nodup; try ex_strs; try done; lia. Qed.
Definition ex_xy : ty := TyDf true [ex_a; ex_b; ex_c; ex_d]
  [TyBare TDbl (Some [0; 2]%Z); TyFactor [ex_a; ex_b; ex_c];
   TyDf false [ex_z; ex_b] [TyPosixct (Some [empty_str]); TyUnspecified]; TyBare TList None].
Example C35_symmetric_example :
  ok2 ex_x /\ ok2 ex_y /\ vec_ptype2 ex_addr ex_x ex_y = Ok ex_xy /\
  vec_ptype2 ex_addr ex_y ex_x = Ok (TyDf true [ex_c; ex_d; ex_b; ex_a]
    [TyDf false [ex_b; ex_z] [TyUnspecified; TyPosixct (Some [empty_str])]; TyBare TList None; TyFactor [ex_c; ex_a; ex_b]; TyBare TDbl (Some [0; 2]%Z)]).
Proof.
  split; [eapply ty_ok_mono; [|exact ex_x_ok]; lia|]. split; [eapply ty_ok_mono; [|exact ex_y_ok]; lia|]. split; vm_compute; reflexivity.
Qed.
Example C35_idempotent_example : ok2 ex_x /\ ty_plain ex_x /\ vec_ptype2 ex_addr ex_x ex_x = Ok (proto ex_x) /\ proto ex_x <> ex_x.
Proof. split; [eapply ty_ok_mono; [|exact ex_x_ok]; lia|]. split; [repeat split|]. split; [vm_compute; reflexivity|done]. Qed.
Example C35_associative_example :
  ok3 ex_x /\ ok3 ex_y /\ ok3 ex_z' /\ no_cpl ex_x /\ no_cpl ex_z' /\ exists yz a,
  vec_ptype2 ex_addr ex_x ex_y = Ok ex_xy /\ vec_ptype2 ex_addr ex_y ex_z' = Ok yz /\
  vec_ptype2 ex_addr ex_xy ex_z' = Ok a /\ vec_ptype2 ex_addr ex_x yz = Ok a /\ a <> ex_xy.
Proof.
  split; [exact ex_x_ok|]. split; [exact ex_y_ok|]. split; [exact ex_z_ok|]. split; [repeat split; done|]. split; [repeat split; done|].
  eexists _, _. split; [vm_compute; reflexivity|]. split; [vm_compute; reflexivity|]. split; [vm_compute; reflexivity|]. split; [vm_compute; reflexivity|done].
Qed.
Example C35_table_example :
  ok2 (TyBare TInt (Some [3; 1; 2]%Z)) /\ ok2 (TyBare TCpl (Some [1; 5]%Z)) /\
  vec_ptype2 ex_addr (TyBare TInt (Some [3; 1; 2]%Z)) (TyBare TCpl (Some [1; 5]%Z)) = Ok (TyBare TCpl (Some [0; 5; 2]%Z)) /\
  flat (TyBare TInt (Some [3; 1; 2]%Z)) (TyBare TCpl (Some [1; 5]%Z)) (TyBare TCpl (Some [0; 5; 2]%Z)) /\
  (exists e, vec_ptype2 ex_addr (TyBare TInt (Some [3; 4]%Z)) (TyBare TCpl (Some [1; 5]%Z)) = Err e) /\
  vec_ptype2 ex_addr TyDate (TyPosixct (Some [ex_a; ex_b])) = Ok (TyPosixct (Some [ex_a])).
Proof.
  split_and!; [done|done|reflexivity| |by eexists|reflexivity]. constructor; [|reflexivity]. right. exists 1, 3. split_and!; [done|done|simpl; lia|done].
Qed.
Example C35_common_example :
  (5 * Z.of_nat (length [ex_x; ex_y; ex_z']) <= 2 ^ 30)%Z /\ Forall (ty_ok 5) [ex_x; ex_y; ex_z'] /\
  vec_ptype_common ex_addr TyNull [TyUnspecified; ex_x; TyNull; ex_y; TyUnspecified; ex_z'] = vec_ptype_common ex_addr TyNull [ex_x; ex_y; ex_z'] /\
  vec_ptype_common ex_addr TyNull [ex_x; ex_y; ex_z'] =
    Ok (TyDf true [ex_a; ex_b; ex_c; ex_d] [TyBare TDbl (Some [0; 2]%Z); TyBare TChr None;
      TyDf false [ex_z; ex_b] [TyPosixct (Some [empty_str]); TyBare TLgl None]; TyBare TList None]).
Proof.
  split; [simpl; lia|]. split; [|split; vm_compute; reflexivity].
  repeat (apply Forall_cons; split); [repeat split; try ex_nodup; try ex_strs; try done; simpl; lia..|apply Forall_nil_2].
Qed.

(** Three types may have a common type in one order but not in the other: logical
    and complex have none, but logical and integer is integer ... *)
Theorem C35_associative_defined_refuted : exists x y z xy yz a, ok3 x /\ ok3 y /\ ok3 z /\
  forall addr, vec_ptype2 addr x y = Ok xy /\ vec_ptype2 addr y z = Ok yz /\ vec_ptype2 addr xy z = Ok a /\ exists e, vec_ptype2 addr x yz = Err e.
Proof.
  exists (TyBare TLgl None), (TyBare TInt None), (TyBare TCpl None). do 3 eexists. split_and!; [done..|]. intros addr. split_and!; [done..|]. by eexists.
Qed.
(** ... and a factor and an ordered factor have none, but an ordered factor and a
    character vector do. *)
Theorem C35_associative_intermediate_refuted : exists x y z yz a, ok3 x /\ ok3 y /\ ok3 z /\
  forall addr, (exists e, vec_ptype2 addr x y = Err e) /\ vec_ptype2 addr y z = Ok yz /\ vec_ptype2 addr x yz = Ok a.
Proof.
  exists (TyFactor [ex_a]), (TyOrdered [ex_a]), (TyBare TChr None). do 2 eexists. split_and!; [split_and!; [ex_nodup|ex_strs|simpl; lia]..|done|].
  intros addr. split_and!; [by eexists|done..].
Qed.
(** The common type of two POSIXlt is POSIXct; of a time zone with more elements,
    only the first is kept. *)
Theorem C35_idempotent_refuted : exists x y a b, ok2 x /\ ok2 y /\ forall addr,
  vec_ptype2 addr x x = Ok a /\ a <> proto x /\ vec_ptype2 addr y y = Ok b /\ b <> proto y.
Proof.
  exists (TyPosixlt None), (TyPosixct (Some [ex_a; ex_b])). do 2 eexists. split; [done|]. split; [done|]. intros addr. split_and!; done.
Qed.
(** With duplicated column names, the order of the arguments decides if there is
    a common type: the second [a] is compared to the first, or not at all. *)
Theorem C35_symmetric_duplicates_refuted : exists xn xc yn yc b, length xn = length xc /\ length yn = length yc /\
  (exists e, vec_ptype2 ex_addr (TyDf false xn xc) (TyDf false yn yc) = Err e) /\
  vec_ptype2 ex_addr (TyDf false yn yc) (TyDf false xn xc) = Ok b.
Proof.
  exists [ex_a; ex_a], [TyBare TInt None; TyBare TChr None], [ex_a], [TyBare TInt None]. eexists. split_and!; [done|done| |vm_compute; reflexivity].
  eexists. vm_compute. reflexivity.
Qed.

(** Casting a data frame of two rows to one with a new matrix column and another
    order. *)
Definition ex_cast (x to : value) : res value :=
  match x, to with VVec t d n, VVec u _ _ => if vtype_eqb t u then Ok x else Err "incompatible" | _, _ => Err "other" end.
Example C38_cast_example :
  let x := VDf 2 [ex_a; ex_b] [VVec TInt [EInt 1; EInt 2]%Z None; VVec TLgl [ELgl 0; ELgl 1]%Z None] in
  let to := VDf 0 [ex_b; ex_c; ex_a] [VVec TLgl [] None; VArr TInt [0; 2]%Z []; VVec TInt [] None] in
  vec_cast ex_addr ex_cast x to = Ok (VDf 2 [ex_b; ex_c; ex_a]
    [VVec TLgl [ELgl 0; ELgl 1]%Z None; VArr TInt [2; 2]%Z [EInt NA_INTEGER; EInt NA_INTEGER; EInt NA_INTEGER; EInt NA_INTEGER]; VVec TInt [EInt 1; EInt 2]%Z None]) /\
  (exists e, vec_cast ex_addr ex_cast to x = Err e) /\
  NoDup [ex_b; ex_c; ex_a] /\ strs_ok [ex_b; ex_c; ex_a] /\ NoDup [ex_a; ex_b] /\ strs_ok [ex_a; ex_b].
Proof. split; [vm_compute; reflexivity|]. split; [eexists; vm_compute; reflexivity|]. split_and!; try ex_nodup; ex_strs. Qed.
Example C38_ptype2_example : ty_ok (2 ^ 30) ex_x /\ ty_ok (2 ^ 30) ex_y /\
  exists oc, vec_ptype2 ex_addr ex_x ex_y = Ok (TyDf true ([ex_a; ex_b; ex_c] ++ [ex_d]) oc).
Proof.
  split; [eapply ty_ok_mono; [|exact ex_x_ok]; lia|]. split; [eapply ty_ok_mono; [|exact ex_y_ok]; lia|]. eexists. vm_compute. reflexivity.
Qed.
(** With duplicated names in [to], the column [b] of [x] is dropped without an
    error: the first column of [x] is counted twice. *)
Theorem C38_cast_duplicates_refuted : exists size xn xc tsize tn tc oc,
  NoDup xn /\ length xn = length xc /\ length tn = length tc /\ ~ xn ⊆ tn /\
  vec_cast ex_addr ex_cast (VDf size xn xc) (VDf tsize tn tc) = Ok (VDf size tn oc).
Proof.
  exists 1, [ex_a; ex_b], [VVec TInt [EInt 1] None; VVec TInt [EInt 2] None], 0, [ex_a; ex_a], [VVec TInt [] None; VVec TInt [] None]. eexists.
  split_and!; [ex_nodup|done|done| |vm_compute; reflexivity]. intros H. specialize (H ex_b ltac:(by right; left)). rewrite ?elem_of_cons, ?elem_of_nil in H. intuition discriminate.
Qed.

Print Assumptions C35_identity.
Print Assumptions C35_table_partial.
Print Assumptions C35_total_partial.
Print Assumptions C35_symmetric_partial.
Print Assumptions C35_idempotent_partial.
Print Assumptions C35_associative_partial.
Print Assumptions C35_associative_defined_partial.
Print Assumptions C35_common_specified.
Print Assumptions C35_common_null_partial.
Print Assumptions C35_associative_defined_refuted.
Print Assumptions C35_associative_intermediate_refuted.
Print Assumptions C35_idempotent_refuted.
Print Assumptions C35_symmetric_duplicates_refuted.
Print Assumptions C38_ptype2.
Print Assumptions C38_cast.
Print Assumptions C38_cast_absent.
Print Assumptions C38_cast_duplicates_refuted.
