(** * Lemmas: the result of expanding the recorded matches *)
From Verif Require Import Base M_Double M_Scalar M_Slice M_Object M_Proxy M_OrderChr M_OrderDf M_Rank M_Match Spec_Order Spec_OrderRow Spec_Match L_Unique L_OrderSpec P_Order P_Rank.
From Verif Require Import L_MatchJoint L_MatchKeys L_MatchCont L_MatchStable L_MatchOps L_MatchSteps L_MatchExpand.
From Coq Require Import Sorting.Sorted.
#[local] Arguments Z.mul : simpl never.
#[local] Arguments Z.add : simpl never.
#[local] Arguments Z.sub : simpl never.
#[local] Arguments Z.to_nat : simpl never.
#[local] Arguments Z.of_nat : simpl never.

Section needle.
  Context (xo : xopts) (N H : nat) (hl : Z -> Z) (ent : nat -> list (Z * Z)) (kp : nat -> Z -> bool).
  Context (HLr : forall p, (0 <= p < Z.of_nat H)%Z -> (0 <= hl p < Z.of_nat H)%Z).
  Context (ENT : forall l, l < N -> (exists x, ent l = [x] /\ is_signal x) \/
    (Forall (is_hit H) (ent l) /\ exists pre lst, ent l = pre ++ [lst] /\ kp l lst.1 = true)).
  Notation m := (xo_multiple xo).
  Notation ops_of := (needle_ops xo hl ent kp).

  Definition kept (l : nat) : list (Z * Z) := if existsb is_sig (ent l) then [] else List.filter (fun x => kp l x.1) (ent l).
  (** The places of the haystack that are kept for a needle. *)
  Definition raw (l : nat) : list Z := concat (map (range_hs hl) (kept l)).
  Definition sigb (l : nat) : bool := existsb (fun x => x.1 =? SIGNAL_INCOMPLETE)%Z (ent l).
  Definition raw1 (l : nat) : list Z :=
    if one m then match fold_left (ext (is_last xo)) (raw l) None with Some h => [h] | None => [] end else raw l.
  Definition raw_rows (l : nat) : list (Z * Z) :=
    if sigb l then match xo_incomplete xo with INC_value v => [((Z.of_nat l + 1)%Z, v)] | _ => [] end
    else match raw1 l with
         | [] => match xo_no_match xo with NM_value v => [((Z.of_nat l + 1)%Z, v)] | _ => [] end
         | hs => map (fun h => (Z.of_nat l + 1, h + 1)%Z) hs
         end.

  Lemma hits_no_sig l : Forall (is_hit H) (ent l) -> existsb is_sig (ent l) = false /\ sigb l = false.
  Proof.
    unfold sigb. generalize (ent l). intros es F. induction F as [|x es Hx F [IH1 IH2]]; [done|]. cbn [existsb]. rewrite IH1, IH2.
    destruct (hit_not_sig H x Hx) as [E1 E2]. unfold is_sig. by rewrite E1, E2.
  Qed.
  Lemma signal_cases l x : ent l = [x] -> is_signal x -> kept l = [] /\ raw1 l = [] /\ ops_of l = sig_ops xo l x /\ sigb l = (x.1 =? SIGNAL_INCOMPLETE)%Z /\ is_sig x = true.
  Proof.
    intros E [Hx _]. assert (S : is_sig x = true).
    { unfold is_sig. destruct Hx as [->| ->]; by rewrite Z.eqb_refl, ?orb_true_r. }
    unfold kept, raw1, raw, sigb, needle_ops, kept. rewrite E. cbn [existsb map concat]. rewrite S, !orb_false_r. cbn [orb map concat fold_left].
    destruct (one m).
    { by repeat split. }
    unfold entry_ops. rewrite S, app_nil_r. by repeat split.
  Qed.
  Lemma hit_ops_eq l : Forall (is_hit H) (ent l) -> concat (map (entry_ops xo hl kp l) (ent l)) =
    concat (map (fun x => OpCheck (Z.of_nat l) x.2 :: map (OpRow (Z.of_nat l)) (range_hs hl x)) (kept l)).
  Proof.
    intros F. unfold kept. rewrite (proj1 (hits_no_sig l F)). clear -F. induction F as [|x es Hx F IH]; [done|]. cbn [map concat List.filter]. rewrite IH.
    unfold entry_ops, hit_ops. destruct (hit_not_sig H x Hx) as [E1 E2]. unfold is_sig. rewrite E1, E2. cbn [orb]. by destruct (kp l x.1).
  Qed.
  Lemma raw_len l : length (raw l) = sum_list (map (fun x => Z.to_nat x.2) (kept l)).
  Proof. unfold raw. induction (kept l) as [|x es IH]; [done|]. cbn [map concat sum_list]. rewrite app_length, IH. unfold range_hs at 1. by rewrite map_length, seq_length. Qed.
  Lemma hit_cases l : l < N -> Forall (is_hit H) (ent l) -> (exists pre lst, ent l = pre ++ [lst] /\ kp l lst.1 = true) ->
    raw l <> [] /\ raw1 l <> [] /\ sigb l = false /\
    ops_of l = if one m then map (OpRow (Z.of_nat l)) (raw1 l) else
      concat (map (fun x => OpCheck (Z.of_nat l) x.2 :: map (OpRow (Z.of_nat l)) (range_hs hl x)) (kept l)).
  Proof.
    intros Hl F (pre & lst & E & K). destruct (hits_no_sig l F) as [S1 S2].
    assert (R : raw l <> []).
    { intros Q. assert (L0 : length (raw l) = 0) by (by rewrite Q). rewrite raw_len in L0. unfold kept in L0. rewrite S1, E, List.filter_app in L0. cbn [List.filter] in L0.
      rewrite K, map_app in L0.
      assert (Hlst : is_hit H lst) by (eapply Forall_forall in F; [exact F|rewrite E; apply elem_of_app; right; apply elem_of_list_here]).
      destruct Hlst as (_ & L2 & _). revert L0. generalize (map (fun x : Z * Z => Z.to_nat x.2) (List.filter (fun x => kp l x.1) pre)). intros q.
      induction q as [|y q IHq]; cbn; intros L0; [lia|]. apply IHq. cbn. lia. }
    assert (K' : keeps hl kp l (ent l) = raw l) by (unfold keeps, raw, kept; by rewrite S1).
    assert (R1 : one m = true -> exists h, fold_left (ext (is_last xo)) (raw l) None = Some h).
    { intros _. destruct (raw l) as [|h hs']; [done|]. cbn [fold_left ext]. rewrite fold_ext. by eexists. }
    split; [done|]. split.
    { unfold raw1. destruct (one m); [|done]. destruct (R1 eq_refl) as [h ->]. done. }
    split; [done|]. unfold needle_ops, raw1. destruct (one m) eqn:Em.
    - destruct (R1 eq_refl) as [h Eh]. rewrite Eh. cbn [map]. rewrite <- K' in Eh.
      destruct (ent l) as [|x [|y es]] eqn:Ee; [by destruct pre| |by rewrite Eh].
      assert (is_sig x = false) as -> by (cbn in S1; by rewrite orb_false_r in S1). by rewrite Eh.
    - by apply hit_ops_eq.
  Qed.

  Lemma rows_map_row a l : rows (map (OpRow a) l) = map (fun h => (a + 1, h + 1)%Z) l.
  Proof. unfold rows. induction l as [|h l IH]; [done|]. cbn. by rewrite IH. Qed.
  Lemma hs_map_row a l : hs (map (OpRow a) l) = l.
  Proof. unfold hs. induction l as [|h l IH]; [done|]. cbn. by rewrite IH. Qed.
  Lemma checks_map_row a l : checks (map (OpRow a) l) = [].
  Proof. unfold checks. induction l as [|h l IH]; [done|]. cbn. by rewrite IH. Qed.
  Lemma err_map_row a l e : OpErr e ∉ map (OpRow a) l.
  Proof. intros He. apply elem_of_list_In, in_map_iff in He as (h & He & _). done. Qed.

  (** What the steps of a needle do. *)
  Lemma needle_facts l : l < N ->
    rows (ops_of l) = raw_rows l /\ hs (ops_of l) = raw1 l /\
    checks (ops_of l) = (if one m then [] else map (fun x => (Z.of_nat l, x.2)) (kept l)) /\
    (forall e, OpErr e ∈ ops_of l <->
      (sigb l = true /\ match xo_incomplete xo with INC_value _ | INC_drop => False | INC_error => e = "incomplete needle"%string | _ => e = "internal"%string end) \/
      (sigb l = false /\ raw1 l = [] /\ xo_no_match xo = NM_error /\ e = "needle without match"%string)) /\
    (sigb l = true -> raw1 l = []) /\
    Forall (fun x => 1 <= x.2)%Z (kept l) /\ Forall (fun h => 0 <= h < Z.of_nat H)%Z (raw l).
  Proof.
    intros Hl. unfold raw_rows. destruct (ENT l Hl) as [(x & E & Hx)|(F & K)].
    - destruct (signal_cases l x E Hx) as (K & R & O & S & _). rewrite O, R, K, S.
      assert (Rw : raw l = []) by (unfold raw; by rewrite K). rewrite Rw. destruct Hx as [[Hx|Hx] _].
      + unfold sig_ops. rewrite Hx. rewrite Z.eqb_refl.
        destruct (xo_incomplete xo), (one m); (split; [done|]; split; [done|]; split; [done|]; split; [|by repeat split]);
          intros e; rewrite ?elem_of_nil, ?elem_of_list_singleton; (split; [intros He; first [done | left; split; [done|congruence]] |
            intros [[_ He]|(He & _)]; first [done | by rewrite He]]).
      + unfold sig_ops. rewrite Hx. change (SIGNAL_NO_MATCH =? SIGNAL_INCOMPLETE)%Z with false. cbn iota.
        destruct (xo_no_match xo), (one m); (split; [done|]; split; [done|]; split; [done|]; split; [|by repeat split]);
          intros e; rewrite ?elem_of_nil, ?elem_of_list_singleton; (split; [intros He; first [done | right; split; [done|]; split; [done|]; split; congruence] |
            intros [[? He]|(_ & _ & He & He')]; first [done | by rewrite He']]).
    - destruct (hit_cases l Hl F K) as (R & R1 & S & O). rewrite S, O.
      assert (Kf : Forall (fun x => 1 <= x.2)%Z (kept l) /\ Forall (fun h => 0 <= h < Z.of_nat H)%Z (raw l)).
      { assert (Kh : Forall (is_hit H) (kept l)).
        { apply Forall_forall. intros x Hx. unfold kept in Hx. destruct (existsb is_sig (ent l)); [by apply elem_of_nil in Hx|].
          apply elem_of_list_In, filter_In in Hx as [Hx _]. apply elem_of_list_In in Hx. by eapply Forall_forall in F. }
        split; [eapply Forall_impl; [exact Kh|]; intros x (_ & X & _); done|]. unfold raw. clear -Kh HLr. induction Kh as [|x es Hx Kh IH]; [constructor|].
        cbn [map concat]. apply Forall_app. split; [|done]. apply Forall_forall. intros h Hh. eapply range_hs_range; done. }
      assert (Er : forall e, ~ ((false = true /\ match xo_incomplete xo with INC_value _ | INC_drop => False | INC_error => e = "incomplete needle"%string | _ => e = "internal"%string end) \/
        (false = false /\ raw1 l = [] /\ xo_no_match xo = NM_error /\ e = "needle without match"%string))).
      { intros e [[? _]|(_ & ? & _)]; done. }
      assert (Rr : match raw1 l with [] => match xo_no_match xo with NM_value v => [((Z.of_nat l + 1)%Z, v)] | _ => [] end
         | hs => map (fun h => (Z.of_nat l + 1, h + 1)%Z) hs end = map (fun h => (Z.of_nat l + 1, h + 1)%Z) (raw1 l)) by (by destruct (raw1 l)).
      rewrite Rr. destruct (one m) eqn:Em.
      + rewrite rows_map_row, hs_map_row, checks_map_row. split; [done|]. split; [done|]. split; [done|]. split; [|by split].
        intros e. split; [|intros He; by apply Er in He]. intros He. by apply err_map_row in He.
      + assert (E1 : raw1 l = raw l) by (unfold raw1; by rewrite Em). rewrite E1.
        split; [|split; [|split; [|split; [|by split]]]].
        * unfold raw. clear. induction (kept l) as [|x es IH]; [done|]. cbn [map concat]. rewrite rows_app, IH, map_app. f_equal. cbn. apply rows_map_row.
        * unfold raw. clear. induction (kept l) as [|x es IH]; [done|]. cbn [map concat]. rewrite hs_app, IH. f_equal. cbn. apply hs_map_row.
        * unfold raw. clear. induction (kept l) as [|x es IH]; [done|]. cbn [map concat]. rewrite checks_app, IH. cbn. f_equal. 
          change (concat (map op_checks (map (OpRow (Z.of_nat l)) (range_hs hl x)))) with (checks (map (OpRow (Z.of_nat l)) (range_hs hl x))). by rewrite checks_map_row.
        * intros e. split; [|by intros [[? _]|(_ & ? & _)]].
          intros He. exfalso. clear -He. induction (kept l) as [|x es IH]; [by apply elem_of_nil in He|]. cbn [map concat] in He.
             apply elem_of_app in He as [He|He]; [|by apply IH]. apply elem_of_cons in He as [He|He]; [done|]. by apply err_map_row in He.
  Qed.
End needle.

Definition sumZ (l : list Z) : Z := foldr Z.add 0%Z l.
Lemma sumZ_app a b : sumZ (a ++ b) = (sumZ a + sumZ b)%Z.
Proof. induction a as [|x a IH]; [done|]. cbn [app]. unfold sumZ in *. cbn [foldr]. rewrite IH. lia. Qed.
Lemma sumZ_single x : sumZ [x] = x.
Proof. unfold sumZ. cbn. lia. Qed.
Lemma sumZ_perm a b : a ≡ₚ b -> sumZ a = sumZ b.
Proof. intros P. induction P; unfold sumZ in *; cbn [foldr]; lia. Qed.

Definition n_of (a : Z) : nat := Z.to_nat (a - 1).
Lemma n_of_S l : n_of (Z.of_nat l + 1) = l.
Proof. unfold n_of. lia. Qed.

Section choice.
  Context (xo : xopts) (N H : nat) (hl : Z -> Z) (ent : nat -> list (Z * Z)) (kp : nat -> Z -> bool) (opts : mopts).
  Context (HLr : forall p, (0 <= p < Z.of_nat H)%Z -> (0 <= hl p < Z.of_nat H)%Z).
  Context (ENT : forall l, l < N -> (exists x, ent l = [x] /\ is_signal x) \/
    (Forall (is_hit H) (ent l) /\ exists pre lst, ent l = pre ++ [lst] /\ kp l lst.1 = true)).
  Context (O1 : xo_incomplete xo = o_incomplete opts) (O2 : xo_no_match xo = o_no_match opts).
  Notation m := (xo_multiple xo).
  Notation ops_of := (needle_ops xo hl ent kp).
  Notation Raw := (raw hl ent kp).
  Notation Raw1 := (raw1 xo hl ent kp).
  Notation Rows := (raw_rows xo hl ent kp).
  Notation Kept := (kept ent kp).
  Context (RND : forall l, l < N -> NoDup (Raw l)).
  Definition ops : list xop := concat (map ops_of (seq 0 N)).
  (** The locations returned for a needle, and the needles treated as incomplete. *)
  Definition choice (a : Z) : list Z :=
    if one m then map (fun h => h + 1)%Z (Raw1 (n_of a)) else List.filter (fun h => bool_decide (h - 1 ∈ Raw (n_of a))%Z) (locs H).
  Definition sig (a : Z) : bool := sigb ent (n_of a).
  Notation Nrows := (needle_rows opts sig choice).

  Lemma raw1_nodup l : l < N -> NoDup (Raw1 l).
  Proof.
    intros Hl. unfold raw1. destruct (one m); [|by apply RND]. destruct (fold_left _ _ _); [|constructor]. apply NoDup_singleton.
  Qed.
  Lemma choice_perm l : l < N -> choice (Z.of_nat l + 1) ≡ₚ map (fun h => h + 1)%Z (Raw1 l).
  Proof.
    intros Hl. unfold choice. rewrite n_of_S. unfold raw1. destruct (one m) eqn:Em; [done|].
    destruct (needle_facts xo N H hl ent kp HLr ENT l Hl) as (_ & _ & _ & _ & _ & _ & Hr).
    apply NoDup_Permutation.
    - eapply (ss_nodup Z.lt); [intros x; lia|]. apply ss_filter. apply locs_sorted.
    - apply NoDup_fmap_2; [intros x y; lia|]. by apply RND.
    - intros h. rewrite !elem_of_list_In, filter_In, in_map_iff, <- elem_of_list_In, bool_decide_eq_true. split.
      + intros [_ Hh]. exists (h - 1)%Z. split; [lia|]. by apply elem_of_list_In.
      + intros (h0 & <- & Hh). apply elem_of_list_In in Hh. eapply Forall_forall in Hr; [|exact Hh]. cbn in Hr.
        rewrite Z.add_simpl_r. split; [|done]. apply elem_locs. lia.
  Qed.
  Lemma choice_sorted a : StronglySorted Z.lt (choice a).
  Proof.
    unfold choice, raw1. destruct (one m); [|apply ss_filter; apply locs_sorted]. destruct (fold_left _ _ _); cbn; repeat constructor.
  Qed.
  Lemma choice_eq l : l < N -> StronglySorted Z.lt (Raw1 l) -> choice (Z.of_nat l + 1) = map (fun h => h + 1)%Z (Raw1 l).
  Proof.
    intros Hl S. eapply (ss_unique Z.lt); [intros x y; lia|apply choice_sorted| |by apply choice_perm].
    clear -S. induction S as [|a l0 S IH F]; [constructor|]. cbn. constructor; [done|]. apply Forall_map. eapply Forall_impl; [exact F|]. intros b. cbn. lia.
  Qed.
  Lemma choice_nil l : l < N -> choice (Z.of_nat l + 1) = [] <-> Raw1 l = [].
  Proof.
    intros Hl. pose proof (choice_perm l Hl) as P. split; intros E.
    - rewrite E in P. apply Permutation_nil_l in P. symmetry in P. by apply map_eq_nil in P.
    - rewrite E in P. by apply Permutation_nil_r in P.
  Qed.
  Lemma choice_elem l h : l < N -> h ∈ choice (Z.of_nat l + 1) <-> (h - 1)%Z ∈ Raw1 l.
  Proof.
    intros Hl. rewrite (choice_perm l Hl), elem_of_list_In, in_map_iff. split.
    - intros (h0 & <- & Hh). rewrite Z.add_simpl_r. by apply elem_of_list_In.
    - intros Hh. exists (h - 1)%Z. split; [lia|]. by apply elem_of_list_In.
  Qed.
  Lemma choice_range l h : l < N -> h ∈ choice (Z.of_nat l + 1) -> (1 <= h <= Z.of_nat H)%Z.
  Proof.
    intros Hl Hh. apply choice_elem in Hh; [|done]. 
    destruct (needle_facts xo N H hl ent kp HLr ENT l Hl) as (_ & _ & _ & _ & _ & _ & Hr).
    assert (X : forall x, x ∈ Raw1 l -> x ∈ Raw l).
    { intros x. unfold raw1. destruct (one m); [|done]. destruct (Raw l) as [|y ys]; [done|]. cbn [fold_left ext]. rewrite fold_ext.
      rewrite elem_of_list_singleton. intros ->. clear. revert y. induction ys as [|z ys IH]; intros y; [apply elem_of_list_here|]. cbn [fold_left].
      specialize (IH (pick (is_last xo) y z)). apply elem_of_cons in IH as [IH|IH].
      - rewrite IH. unfold pick. destruct (is_last xo).
        + destruct (Z.max_spec y z) as [[_ ->]|[_ ->]]; [apply elem_of_list_further|]; apply elem_of_list_here.
        + destruct (Z.min_spec y z) as [[_ ->]|[_ ->]]; [|apply elem_of_list_further]; apply elem_of_list_here.
      - apply elem_of_list_further. by apply elem_of_list_further. }
    apply X in Hh. eapply Forall_forall in Hr; [|exact Hh]. cbn in Hr. lia.
  Qed.

  (** Rows of a needle. *)
  Definition rows_of (l : nat) (c : list Z) : list (Z * Z) :=
    if sigb ent l then match o_incomplete opts with INC_value v => [((Z.of_nat l + 1)%Z, v)] | _ => [] end
    else match c with
         | [] => match o_no_match opts with NM_value v => [((Z.of_nat l + 1)%Z, v)] | _ => [] end
         | h :: c => map (pair (Z.of_nat l + 1)%Z) (h :: c)
         end.
  Lemma rows_of_perm (c c' : list Z) l : (c = [] <-> c' = []) -> (c ≡ₚ c') ->
    rows_of l c ≡ₚ rows_of l c' /\ map fst (rows_of l c) = map fst (rows_of l c').
  Proof.
    intros He P. unfold rows_of. destruct (sigb ent l); [done|]. destruct c as [|x c], c' as [|y c'].
    - done.
    - discriminate (proj1 He eq_refl).
    - discriminate (proj2 He eq_refl).
    - split; [by apply Permutation_map|]. rewrite !map_map. cbn. f_equal. apply Permutation_length in P. cbn in P. injection P as P.
      clear -P. revert c' P. induction c as [|a c IH]; intros [|b c'] P; try done. cbn. f_equal. apply IH. cbn in P. lia.
  Qed.
  Lemma raw_rows_eq l : Rows l = rows_of l (map (fun h => h + 1)%Z (Raw1 l)).
  Proof.
    unfold raw_rows, rows_of. rewrite O1, O2. destruct (sigb ent l); [done|]. destruct (Raw1 l) as [|h hs]; [done|]. cbn. by rewrite map_map.
  Qed.
  Lemma nrows_eq l : Nrows (Z.of_nat l + 1)%Z = rows_of l (choice (Z.of_nat l + 1)).
  Proof. unfold needle_rows, rows_of, sig. by rewrite n_of_S. Qed.
  Lemma nrows_perm l : l < N -> Nrows (Z.of_nat l + 1)%Z ≡ₚ Rows l /\ map fst (Nrows (Z.of_nat l + 1)%Z) = map fst (Rows l).
  Proof.
    intros Hl. rewrite nrows_eq, raw_rows_eq. apply rows_of_perm.
    - rewrite (choice_nil l Hl). split; [by intros ->|apply map_eq_nil].
    - by apply choice_perm.
  Qed.
  Lemma nrows_same l : l < N -> StronglySorted Z.lt (Raw1 l) -> Nrows (Z.of_nat l + 1)%Z = Rows l.
  Proof. intros Hl S. rewrite nrows_eq, raw_rows_eq, choice_eq; done. Qed.
  Lemma nrows_sorted a : StronglySorted (fun x y => x.1 = y.1 /\ (x.2 <= y.2)%Z) (Nrows a) /\ Forall (fun x => x.1 = a) (Nrows a).
  Proof.
    unfold needle_rows. destruct (sig a).
    { destruct (o_incomplete opts); split; repeat constructor. }
    pose proof (choice_sorted a) as S. destruct (choice a) as [|h c].
    { destruct (o_no_match opts); split; repeat constructor. }
    revert S. generalize (h :: c). clear. intros l S. split.
    - induction S as [|x l S IH F]; [constructor|]. cbn. constructor; [done|]. apply Forall_map. eapply Forall_impl; [exact F|]. intros b Hb. cbn. lia.
    - apply Forall_map. by apply Forall_true.
  Qed.

  (** All rows. *)
  Definition all_rows : list (Z * Z) := concat (map Nrows (locs N)).
  Lemma locs_map (A : Type) (f : Z -> A) : map f (locs N) = map (fun l => f (Z.of_nat l + 1)%Z) (seq 0 N).
  Proof. unfold locs. by rewrite map_map. Qed.
  Lemma rows_ops : rows ops = concat (map Rows (seq 0 N)).
  Proof.
    unfold ops. assert (X : forall k, k <= N -> rows (concat (map ops_of (seq 0 k))) = concat (map Rows (seq 0 k))).
    { induction k as [|k IH]; intros Hk; [done|]. rewrite seq_S, !map_app, !concat_app, rows_app, IH by lia. f_equal. cbn [map concat Nat.add]. rewrite !app_nil_r.
      by apply (needle_facts xo N H hl ent kp HLr ENT). }
    by apply X.
  Qed.
  Lemma hs_ops : hs ops = concat (map Raw1 (seq 0 N)).
  Proof.
    unfold ops. assert (X : forall k, k <= N -> hs (concat (map ops_of (seq 0 k))) = concat (map Raw1 (seq 0 k))).
    { induction k as [|k IH]; intros Hk; [done|]. rewrite seq_S, !map_app, !concat_app, hs_app, IH by lia. f_equal. cbn [map concat Nat.add]. rewrite !app_nil_r.
      by apply (needle_facts xo N H hl ent kp HLr ENT). }
    by apply X.
  Qed.
  Lemma checks_ops : checks ops = if one m then [] else concat (map (fun l => map (fun x => (Z.of_nat l, x.2)) (Kept l)) (seq 0 N)).
  Proof.
    unfold ops. assert (X : forall k, k <= N -> checks (concat (map ops_of (seq 0 k))) = if one m then [] else concat (map (fun l => map (fun x => (Z.of_nat l, x.2)) (Kept l)) (seq 0 k))).
    { induction k as [|k IH]; intros Hk; [by destruct (one m)|]. rewrite seq_S, !map_app, !concat_app, checks_app, IH by lia. cbn [map concat Nat.add]. rewrite !app_nil_r.
      destruct (needle_facts xo N H hl ent kp HLr ENT k) as (_ & _ & -> & _); [lia|]. by destruct (one m). }
    by apply X.
  Qed.
  Lemma in_ops op : op ∈ ops <-> exists l, l < N /\ op ∈ ops_of l.
  Proof.
    unfold ops. rewrite elem_of_list_In, in_concat. split.
    - intros (x & Hx & Ho). apply in_map_iff in Hx as (l & <- & Hl). apply in_seq in Hl. exists l. split; [lia|]. by apply elem_of_list_In.
    - intros (l & Hl & Ho). exists (ops_of l). split; [apply in_map_iff; exists l; split; [done|apply in_seq; lia]|by apply elem_of_list_In].
  Qed.

  Lemma all_rows_perm : rows ops ≡ₚ all_rows /\ map fst (rows ops) = map fst all_rows.
  Proof.
    rewrite rows_ops. unfold all_rows. rewrite locs_map.
    assert (X : forall k, k <= N -> concat (map Rows (seq 0 k)) ≡ₚ concat (map (fun l => Nrows (Z.of_nat l + 1)%Z) (seq 0 k)) /\
      map fst (concat (map Rows (seq 0 k))) = map fst (concat (map (fun l => Nrows (Z.of_nat l + 1)%Z) (seq 0 k)))).
    { induction k as [|k IH]; intros Hk; [done|]. destruct IH as [P E]; [lia|]. destruct (nrows_perm k ltac:(lia)) as [P1 E1].
      rewrite seq_S, !map_app, !concat_app, !map_app. cbn [map concat Nat.add]. rewrite !app_nil_r. split; [by apply Permutation_app|by rewrite E, E1]. }
    by apply X.
  Qed.
  Lemma all_rows_sorted : StronglySorted pair_le all_rows.
  Proof.
    unfold all_rows. rewrite locs_map.
    assert (X : forall k, StronglySorted pair_le (concat (map (fun l => Nrows (Z.of_nat l + 1)%Z) (seq 0 k))) /\
      Forall (fun x => x.1 < Z.of_nat k + 1)%Z (concat (map (fun l => Nrows (Z.of_nat l + 1)%Z) (seq 0 k)))).
    { induction k as [|k [IH F]]; [split; constructor|]. rewrite seq_S, map_app, concat_app. cbn [map concat Nat.add]. rewrite app_nil_r.
      destruct (nrows_sorted (Z.of_nat k + 1)) as [S1 F1]. split.
      - apply ss_app. split; [done|]. split; [eapply ss_impl; [|exact S1]; intros x y _ _ Hxy; by right|].
        intros x y Hx Hy. eapply Forall_forall in F; [|exact Hx]. eapply Forall_forall in F1; [|exact Hy]. cbn in F, F1. left. lia.
      - apply Forall_app. split; [eapply Forall_impl; [exact F|]|eapply Forall_impl; [exact F1|]]; intros x Hx; cbn in *; lia. }
    by apply X.
  Qed.
  Lemma all_rows_same : (forall l, l < N -> StronglySorted Z.lt (Raw1 l)) -> rows ops = all_rows.
  Proof.
    intros S. rewrite rows_ops. unfold all_rows. rewrite locs_map. f_equal. apply map_ext_in. intros l Hl. apply in_seq in Hl.
    symmetry. apply nrows_same; [lia|]. apply S. lia.
  Qed.

  (** Several matches of a needle. *)
  Lemma many_ops : one m = false -> many (checks ops) <-> many_needle N choice.
  Proof.
    intros H1. rewrite checks_ops, H1. unfold many_needle.
    assert (L : forall l, l < N -> length (choice (Z.of_nat l + 1)) = sum_list (map (fun x => Z.to_nat x.2) (Kept l)) /\ Forall (fun x => 1 <= x.2)%Z (Kept l)).
    { intros l Hl. rewrite (choice_perm l Hl), map_length. unfold raw1. rewrite H1, raw_len. split; [done|].
      by apply (needle_facts xo N H hl ent kp HLr ENT). }
    assert (Sm : forall es : list (Z * Z), Forall (fun x => 1 <= x.2)%Z es -> length es <= sum_list (map (fun x => Z.to_nat x.2) es)).
    { intros es F. induction F as [|x es Hx F IH]; [done|]. cbn. cbn in Hx. lia. }
    assert (Se : forall (es : list (Z * Z)) x, x ∈ es -> Z.to_nat x.2 <= sum_list (map (fun x => Z.to_nat x.2) es)).
    { intros es. induction es as [|y es IH]; intros x Hx; [by apply elem_of_nil in Hx|]. cbn. apply elem_of_cons in Hx as [->|Hx]; [lia|]. specialize (IH x Hx). lia. }
    split.
    - intros Hm. destruct (decide (Exists (fun l => 1 < length (choice (Z.of_nat l + 1))) (seq 0 N))) as [Ex|Nx].
      { apply Exists_exists in Ex as (l & Hl & Hc). apply elem_of_seq in Hl. exists (Z.of_nat l + 1)%Z. split; [apply elem_locs; lia|done]. }
      exfalso. assert (Hle : forall l, l < N -> length (choice (Z.of_nat l + 1)) <= 1).
      { intros l Hl. destruct (decide (1 < length (choice (Z.of_nat l + 1)))); [|lia]. exfalso. apply Nx. apply Exists_exists. exists l. split; [apply elem_of_seq; lia|done]. }
      destruct Hm as [(c & Hc & H2)|Hd].
      + apply elem_of_list_In, in_concat in Hc as (q & Hq & Hc). apply in_map_iff in Hq as (l & <- & Hl). apply in_seq in Hl.
        apply in_map_iff in Hc as (x & <- & Hx). apply elem_of_list_In in Hx. cbn in H2. destruct (L l ltac:(lia)) as [E _]. specialize (Hle l ltac:(lia)).
        specialize (Se _ _ Hx). lia.
      + apply Hd. assert (X : forall k, k <= N -> NoDup (map fst (concat (map (fun l => map (fun x : Z * Z => (Z.of_nat l, x.2)) (Kept l)) (seq 0 k)))) /\
          Forall (fun a => a < Z.of_nat k)%Z (map fst (concat (map (fun l => map (fun x : Z * Z => (Z.of_nat l, x.2)) (Kept l)) (seq 0 k))))).
        { induction k as [|k IH]; intros Hk; [split; constructor|]. destruct IH as [ND F]; [lia|]. rewrite seq_S, map_app, concat_app, map_app. cbn [map concat Nat.add]. rewrite app_nil_r, map_map. cbn [fst].
          destruct (L k ltac:(lia)) as [E Fk]. specialize (Hle k ltac:(lia)). specialize (Sm _ Fk). split.
          - apply NoDup_app. split; [done|]. split.
            + intros a Ha Hb. eapply Forall_forall in F; [|exact Ha]. apply elem_of_list_In, in_map_iff in Hb as (x & <- & _). cbn in F. lia.
            + destruct (Kept k) as [|x [|y es]]; [constructor|apply NoDup_singleton|cbn in Sm, E; lia].
          - apply Forall_app. split; [eapply Forall_impl; [exact F|]; intros a Ha; cbn in *; lia|]. apply Forall_map. apply Forall_true. intros x. lia. }
        by apply X.
    - intros (a & Ha & Hc). apply elem_locs in Ha. set (l := n_of a). assert (Ea : a = (Z.of_nat l + 1)%Z) by (unfold l, n_of; lia).
      assert (Hl : l < N) by (unfold l, n_of; lia). rewrite Ea in Hc. destruct (L l Hl) as [E F].
      assert (In l (seq 0 N)) as Hin by (apply in_seq; lia).
      destruct (decide (length (Kept l) <= 1)) as [Hk|Hk].
      + left. destruct (Kept l) as [|x [|y es]] eqn:Ek; [cbn in E; lia| |cbn in Hk; lia]. exists (Z.of_nat l, x.2). cbn in E. split; [|cbn; lia].
        apply elem_of_list_In, in_concat. eexists. split; [apply in_map_iff; exists l; split; [done|done]|]. rewrite Ek. by left.
      + right. intros ND. rewrite concat_map, map_map in ND.
        assert (E0 : map fst (map (fun x : Z * Z => (Z.of_nat l, x.2)) (Kept l)) = replicate (length (Kept l)) (Z.of_nat l)).
        { rewrite map_map. cbn [fst]. clear. induction (Kept l) as [|x es IH]; [done|]. cbn. by rewrite IH. }
        apply in_split in Hin as (s1 & s2 & Es). rewrite Es, map_app, concat_app in ND. apply NoDup_app in ND as (_ & _ & ND). cbn [map concat] in ND.
        apply NoDup_app in ND as (ND & _). rewrite E0 in ND. destruct (length (Kept l)) as [|[|k]]; [lia|lia|]. cbn in ND.
        apply NoDup_cons in ND as [ND _]. apply ND. apply elem_of_list_here.
  Qed.

  (** Several matches of a haystack location. *)
  Lemma many_hs : ~ NoDup (hs ops) <-> many_haystack N choice.
  Proof.
    rewrite hs_ops. split.
    - intros Hd. assert (X : forall k, k <= N -> NoDup (concat (map Raw1 (seq 0 k))) \/
        exists l l' h, l < k /\ l' < k /\ l <> l' /\ h ∈ Raw1 l /\ h ∈ Raw1 l').
      { induction k as [|k IH]; intros Hk; [left; constructor|]. destruct IH as [ND|(l & l' & h & H1 & H2 & H3 & H4 & H5)]; [lia| |].
        - destruct (decide (Exists (fun h => h ∈ concat (map Raw1 (seq 0 k))) (Raw1 k))) as [Ex|Nx].
          + right. apply Exists_exists in Ex as (h & Hh & Hc). apply elem_of_list_In, in_concat in Hc as (q & Hq & Hc).
            apply in_map_iff in Hq as (l & <- & Hl). apply in_seq in Hl. apply elem_of_list_In in Hc. exists l, k, h. repeat split; done || lia.
          + left. rewrite seq_S, map_app, concat_app. cbn [map concat Nat.add]. rewrite app_nil_r. apply NoDup_app. split; [done|]. split; [|apply raw1_nodup; lia].
            intros h Hc Hh. apply Nx. apply Exists_exists. by exists h.
        - right. exists l, l', h. repeat split; done || lia. }
      destruct (X N (le_n N)) as [ND|(l & l' & h & H1 & H2 & H3 & H4 & H5)]; [done|].
      exists (Z.of_nat l + 1)%Z, (Z.of_nat l' + 1)%Z, (h + 1)%Z. split; [apply elem_locs; lia|]. split; [apply elem_locs; lia|]. split; [lia|].
      split; (apply choice_elem; [done|]); by rewrite Z.add_simpl_r.
    - intros (a & b & h & Ha & Hb & Hne & H1 & H2) ND. apply elem_locs in Ha, Hb.
      assert (W : forall l l' h, l < l' -> l' < N -> h ∈ Raw1 l -> h ∈ Raw1 l' -> False).
      { intros l l' h0 Hll Hl' A B. assert (Es : seq 0 N = seq 0 l' ++ l' :: seq (S l') (N - S l')).
        { replace N with (l' + S (N - S l')) at 1 by lia. by rewrite seq_app. }
        rewrite Es, map_app, concat_app in ND. apply NoDup_app in ND as (_ & D & _). apply (D h0).
        - apply elem_of_list_In, in_concat. exists (Raw1 l). split; [apply in_map_iff; exists l; split; [done|apply in_seq; lia]|by apply elem_of_list_In].
        - cbn [map concat]. apply elem_of_app. by left. }
      replace a with (Z.of_nat (n_of a) + 1)%Z in H1 by (unfold n_of; lia). replace b with (Z.of_nat (n_of b) + 1)%Z in H2 by (unfold n_of; lia).
      apply choice_elem in H1; [|unfold n_of; lia]. apply choice_elem in H2; [|unfold n_of; lia].
      destruct (decide (n_of a < n_of b)).
      + eapply W; [| |exact H1|exact H2]; unfold n_of in *; lia.
      + eapply W; [| |exact H2|exact H1]; unfold n_of in *; lia.
  Qed.

  Lemma unmatched_ops detect : length detect = H -> (forall h d, detect !! h = Some d -> d = bool_decide (Z.of_nat h ∈ hs ops)) ->
    undetected detect H = unmatched N H choice.
  Proof.
    intros HLd Hd. unfold undetected, unmatched. apply filter_ext_in. intros h Hh. apply elem_of_list_In, elem_locs in Hh. f_equal.
    destruct (lookup_lt_is_Some_2 detect (Z.to_nat (h - 1))) as [d Ed]; [lia|]. unfold at_loc. rewrite (nth_lookup_Some _ _ _ _ Ed). rewrite (Hd _ _ Ed).
    replace (Z.of_nat (Z.to_nat (h - 1))) with (h - 1)%Z by lia. rewrite hs_ops. apply eq_true_iff_eq. rewrite bool_decide_eq_true, existsb_exists. split.
    - intros Hc. apply elem_of_list_In, in_concat in Hc as (q & Hq & Hc). apply in_map_iff in Hq as (l & <- & Hl). apply in_seq in Hl. apply elem_of_list_In in Hc.
      exists (Z.of_nat l + 1)%Z. split; [apply elem_of_list_In, elem_locs; lia|]. unfold chooses. apply bool_decide_eq_true. apply choice_elem; [lia|done].
    - intros (a & Ha & Hc). apply elem_of_list_In, elem_locs in Ha. unfold chooses in Hc. apply bool_decide_eq_true in Hc.
      replace a with (Z.of_nat (n_of a) + 1)%Z in Hc by (unfold n_of; lia). apply choice_elem in Hc; [|unfold n_of; lia].
      apply elem_of_list_In, in_concat. exists (Raw1 (n_of a)). split; [apply in_map_iff; exists (n_of a); split; [done|apply in_seq; unfold n_of; lia]|by apply elem_of_list_In].
  Qed.

  (** Conditions of [run_ops_ok]. *)
  Lemma raw1_range l h : l < N -> h ∈ Raw1 l -> (0 <= h < Z.of_nat H)%Z.
  Proof.
    intros Hl Hh. assert (Hc : (h + 1)%Z ∈ choice (Z.of_nat l + 1)) by (apply choice_elem; [done|]; by rewrite Z.add_simpl_r).
    apply choice_range in Hc; [lia|done].
  Qed.
  Lemma ops_fine : Forall (op_ok H) ops.
  Proof.
    apply Forall_forall. intros op Hop. destruct op as [a k|a h|a v|e]; cbn; [| |done|done].
    - assert (Hc : (a, k) ∈ checks ops).
      { unfold checks. apply elem_of_list_In, in_concat. exists [(a, k)]. split; [|by left]. apply in_map_iff. exists (OpCheck a k). split; [done|by apply elem_of_list_In]. }
      rewrite checks_ops in Hc. destruct (one m); [by apply elem_of_nil in Hc|]. apply elem_of_list_In, in_concat in Hc as (q & Hq & Hc).
      apply in_map_iff in Hq as (l & <- & _). apply in_map_iff in Hc as (x & [= <- _] & _). lia.
    - apply in_ops in Hop as (l & Hl & Hop). apply (raw1_range l); [done|].
      destruct (needle_facts xo N H hl ent kp HLr ENT l Hl) as (_ & <- & _). unfold hs. apply elem_of_list_In, in_concat. exists [h]. split; [|by left].
      apply in_map_iff. exists (OpRow a h). split; [done|by apply elem_of_list_In].
  Qed.
  Lemma checks_sorted : Sorted (fun a b : Z * Z => (a.1 <= b.1)%Z) (checks ops).
  Proof.
    apply StronglySorted_Sorted. rewrite checks_ops. destruct (one m); [constructor|].
    assert (X : forall k, StronglySorted (fun a b : Z * Z => (a.1 <= b.1)%Z) (concat (map (fun l => map (fun x => (Z.of_nat l, x.2)) (Kept l)) (seq 0 k))) /\
      Forall (fun a : Z * Z => a.1 < Z.of_nat k)%Z (concat (map (fun l => map (fun x => (Z.of_nat l, x.2)) (Kept l)) (seq 0 k)))).
    { induction k as [|k [IH F]]; [split; constructor|]. rewrite seq_S, map_app, concat_app. cbn [map concat Nat.add]. rewrite app_nil_r. split.
      - apply ss_app. split; [done|]. split.
        + clear. induction (Kept k) as [|x es IH]; [constructor|]. cbn. constructor; [done|]. apply Forall_map. apply Forall_true. intros y. cbn. lia.
        + intros x y Hx Hy. eapply Forall_forall in F; [|exact Hx]. apply elem_of_list_In, in_map_iff in Hy as (z & <- & _). cbn in *. lia.
      - apply Forall_app. split; [eapply Forall_impl; [exact F|]; intros x Hx; cbn in *; lia|]. apply Forall_map, Forall_true. intros x. cbn. lia. }
    by apply X.
  Qed.
  Definition total : Z := sumZ (map (fun l => sumZ (map snd (ent l))) (seq 0 N)).
  Lemma rows_len_one : (forall l, l < N -> length (Raw1 l) <= 1) -> length (rows ops) <= N.
  Proof.
    intros Hr. rewrite rows_ops. assert (X : forall k, k <= N -> length (concat (map Rows (seq 0 k))) <= k).
    { induction k as [|k IH]; intros Hk; [done|]. rewrite seq_S, map_app, concat_app, app_length. cbn [map concat Nat.add]. rewrite app_nil_r.
      specialize (IH ltac:(lia)). specialize (Hr k ltac:(lia)). unfold raw_rows at 2. destruct (sigb ent k); [destruct (xo_incomplete xo); cbn; lia|].
      destruct (Raw1 k) as [|h q]; [destruct (xo_no_match xo); cbn; lia|]. rewrite map_length. lia. }
    by apply X.
  Qed.
  Lemma ent_sum l : l < N -> (Z.of_nat (length (Rows l)) <= sumZ (map snd (ent l)))%Z /\ (Z.of_nat (length (ent l)) <= sumZ (map snd (ent l)))%Z /\ (1 <= sumZ (map snd (ent l)))%Z.
  Proof.
    intros Hl. destruct (ENT l Hl) as [(x & E & Hx)|(F & K)].
    - destruct (signal_cases xo hl ent kp l x E Hx) as (_ & R & _). unfold raw_rows. rewrite R, E. destruct Hx as [_ Hx]. cbn. rewrite Hx.
      split; [|lia]. destruct (sigb ent l); [destruct (xo_incomplete xo)|destruct (xo_no_match xo)]; cbn; lia.
    - destruct (hit_cases xo N H hl ent kp HLr ENT l Hl F K) as (R & R1 & S & _). unfold raw_rows. rewrite S.
      assert (Er : length (Raw1 l) <= length (Raw l)).
      { unfold raw1. destruct (one m); [|done]. destruct (Raw l) as [|h q]; [done|]. cbn [fold_left ext]. rewrite fold_ext. cbn. lia. }
      assert (Ek : (Z.of_nat (length (Raw l)) <= sumZ (map snd (ent l)))%Z /\ (Z.of_nat (length (ent l)) <= sumZ (map snd (ent l)))%Z).
      { rewrite raw_len. unfold kept. rewrite (proj1 (hits_no_sig H ent l F)). clear -F. induction F as [|x es (X1 & X2 & X3) F [IH1 IH2]]; [done|].
        cbn [List.filter map length]. unfold sumZ in *. cbn [foldr]. split; [|lia]. destruct (kp l x.1); cbn; lia. }
      assert (length (Raw l) <> 0) by (by destruct (Raw l)). split; [|lia].
      destruct (Raw1 l) as [|h q] eqn:E1; [done|]. rewrite map_length. lia.
  Qed.
  Lemma rows_len : (Z.of_nat (length (rows ops)) <= total)%Z.
  Proof.
    rewrite rows_ops. unfold total. assert (X : forall k, k <= N -> (Z.of_nat (length (concat (map Rows (seq 0 k)))) <= sumZ (map (fun l => sumZ (map snd (ent l))) (seq 0 k)))%Z).
    { induction k as [|k IH]; intros Hk; [done|]. rewrite seq_S, !map_app, concat_app, app_length, sumZ_app. cbn [map concat Nat.add]. rewrite app_nil_r.
      specialize (IH ltac:(lia)). destruct (ent_sum k ltac:(lia)) as [S _]. rewrite sumZ_single. lia. }
    by apply X.
  Qed.
  Lemma entries_len : (Z.of_nat (length (E N ent)) <= total)%Z.
  Proof.
    unfold total, E. assert (X : forall k, k <= N -> (Z.of_nat (length (concat (map (fun l => map (pair (Z.of_nat l)) (ent l)) (seq 0 k)))) <= sumZ (map (fun l => sumZ (map snd (ent l))) (seq 0 k)))%Z).
    { induction k as [|k IH]; intros Hk; [done|]. rewrite seq_S, !map_app, concat_app, app_length, sumZ_app. cbn [map concat Nat.add]. rewrite app_nil_r, map_length.
      specialize (IH ltac:(lia)). destruct (ent_sum k ltac:(lia)) as (_ & S & _). rewrite sumZ_single. lia. }
    by apply X.
  Qed.
End choice.
