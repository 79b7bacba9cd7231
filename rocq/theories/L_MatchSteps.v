(** * Lemmas: the loop over the recorded matches as a list of steps *)
From Verif Require Import Base M_Double M_Scalar M_Match L_Unique L_MatchOps.
#[local] Arguments Z.mul : simpl never.
#[local] Arguments Z.add : simpl never.
#[local] Arguments Z.sub : simpl never.
#[local] Arguments Z.to_nat : simpl never.
#[local] Arguments Z.of_nat : simpl never.

Section steps.
  Context (xo : xopts) (ms : mstate) (o_loc : list Z) (N H : nat) (hl : Z -> Z).
  Context (HL : forall p, (0 <= p < Z.of_nat H)%Z -> rdZ (xo_o_haystack xo) p = Ok (hl p + 1)%Z).
  Context (HLr : forall p, (0 <= p < Z.of_nat H)%Z -> (0 <= hl p < Z.of_nat H)%Z).
  Notation m := (xo_multiple xo).
  Notation rel := (xo_relationship xo).
  Notation retain := (retain_remaining (xo_remaining xo)).
  Notation run := (run_ops m rel retain).

  (** The recorded matches of each needle, and those that are kept in the end. *)
  Context (ent : nat -> list (Z * Z)) (kp : nat -> Z -> bool).
  Definition is_signal (x : Z * Z) : Prop := (x.1 = SIGNAL_INCOMPLETE \/ x.1 = SIGNAL_NO_MATCH) /\ x.2 = 1%Z.
  Definition is_hit (x : Z * Z) : Prop := (0 <= x.1)%Z /\ (1 <= x.2)%Z /\ (x.1 + x.2 <= Z.of_nat H)%Z.
  Context (ENT : forall l, l < N -> (exists x, ent l = [x] /\ is_signal x) \/
    (Forall is_hit (ent l) /\ exists pre lst, ent l = pre ++ [lst] /\ kp l lst.1 = true)).
  Context (KP : forall l x, l < N -> x ∈ ent l -> is_hit x -> x_keep xo ms x.1 (Z.of_nat l) = Ok (kp l x.1)).

  Definition E : list (Z * (Z * Z)) := concat (map (fun l => map (pair (Z.of_nat l)) (ent l)) (seq 0 N)).
  Context (XE : forall i x, E !! i = Some x -> x_entry ms m o_loc i = Ok (x.2.1, x.2.2, x.1)).
  Context (XN : one m = true -> forall i x, E !! i = Some x -> exists l, rd o_loc i = Ok l /\ rdZ (m_loc ms) (l - 1) = Ok x.1).

  Definition range_hs (x : Z * Z) : list Z := map (fun j => hl (x.1 + Z.of_nat j)) (seq 0 (Z.to_nat x.2)).
  Definition is_sig (x : Z * Z) : bool := (x.1 =? SIGNAL_INCOMPLETE)%Z || (x.1 =? SIGNAL_NO_MATCH)%Z.
  Definition sig_ops (l : nat) (x : Z * Z) : list xop :=
    if (x.1 =? SIGNAL_INCOMPLETE)%Z then
      match xo_incomplete xo with
      | INC_value v => [OpVal (Z.of_nat l) v] | INC_drop => [] | INC_error => [OpErr "incomplete needle"%string] | _ => [OpErr "internal"%string]
      end
    else
      match xo_no_match xo with NM_value v => [OpVal (Z.of_nat l) v] | NM_drop => [] | NM_error => [OpErr "needle without match"%string] end.
  Definition hit_ops (l : nat) (x : Z * Z) : list xop :=
    if kp l x.1 then OpCheck (Z.of_nat l) x.2 :: map (OpRow (Z.of_nat l)) (range_hs x) else [].
  Definition entry_ops (l : nat) (x : Z * Z) : list xop := if is_sig x then sig_ops l x else hit_ops l x.

  Lemma hit_not_sig x : is_hit x -> (x.1 =? SIGNAL_INCOMPLETE)%Z = false /\ (x.1 =? SIGNAL_NO_MATCH)%Z = false.
  Proof using. clear XN XE KP ENT HL HLr kp ent. unfold is_hit, SIGNAL_INCOMPLETE, SIGNAL_NO_MATCH, NA_INTEGER, INT_MIN. intros. split; apply Z.eqb_neq; lia. Qed.

  Lemma sig_step n_used i l x s : E !! i = Some (Z.of_nat l, x) -> is_signal x -> x_step xo ms o_loc n_used i s = run (sig_ops l x) s.
  Proof.
    intros Hi [Hs Hz]. unfold x_step, sig_ops. rewrite (XE i _ Hi). cbn [fst snd bind]. rewrite Hz. cbn [Z.eqb negb].
    destruct Hs as [->| ->].
    - rewrite Z.eqb_refl. cbn [negb Z.eqb Pos.eqb]. destruct (xo_incomplete xo); try done. cbn [run_ops run_op].
      destruct (x_store _ _ s); done.
    - change (SIGNAL_NO_MATCH =? SIGNAL_INCOMPLETE)%Z with false. cbn [negb Z.eqb Pos.eqb]. rewrite Z.eqb_refl. destruct (xo_no_match xo); try done. cbn [run_ops run_op].
      destruct (x_store _ _ s); done.
  Qed.

  Lemma rows_loop l first size s : (0 <= first)%Z -> (first + Z.of_nat size <= Z.of_nat H)%Z -> one m = false ->
    for_ 0 size (fun j s =>
          let! v := rdZ (xo_o_haystack xo) (first + Z.of_nat j) in
          let loc_haystack := (v - 1)%Z in
          let! s := x_store (l + 1) (loc_haystack + 1) s in
          let! s := note_haystack rel retain false loc_haystack s in
          Ok (x_next_out s)) s = run (map (OpRow l) (map (fun j => hl (first + Z.of_nat j)) (seq 0 size))) s.
  Proof.
    intros Hf Hs H1. assert (X : forall k, k <= size -> forall s, for_ (size - k) k (fun j s =>
          let! v := rdZ (xo_o_haystack xo) (first + Z.of_nat j) in
          let loc_haystack := (v - 1)%Z in
          let! s := x_store (l + 1) (loc_haystack + 1) s in
          let! s := note_haystack rel retain false loc_haystack s in
          Ok (x_next_out s)) s = run (map (OpRow l) (map (fun j => hl (first + Z.of_nat j)) (seq (size - k) k))) s).
    { induction k as [|k IH]; intros Hk s0; [done|]. cbn [for_ seq map run_ops]. rewrite HL by lia. cbn [bind].
      rewrite Z.add_simpl_r. unfold run_op at 1. rewrite H1. destruct (x_store _ _ s0) as [s1| |]; cbn [bind]; [|done|done].
      destruct (note_haystack _ _ _ _ s1) as [s2| |]; cbn [bind]; [|done|done].
      replace (S (size - S k)) with (size - k) by lia. apply IH. lia. }
    specialize (X size ltac:(lia) s). by rewrite Nat.sub_diag in X.
  Qed.

  Lemma hit_step_all n_used i l x s : one m = false -> l < N -> x ∈ ent l -> E !! i = Some (Z.of_nat l, x) -> is_hit x ->
    x_step xo ms o_loc n_used i s = run (hit_ops l x) s.
  Proof.
    intros H1 Hl Hin Hi Hx. unfold x_step, hit_ops. rewrite (XE i _ Hi). cbn [fst snd bind].
    destruct (hit_not_sig x Hx) as [-> ->]. rewrite (KP l x Hl Hin Hx). cbn [bind]. destruct (kp l x.1); cbn [negb]; [|done].
    cbn [run_ops run_op]. destruct Hx as (X1 & X2 & X3).
    destruct (check_needles m rel (Z.of_nat l) x.2 s) as [s1| |]; cbn [bind]; [|done|done].
    pose proof (rows_loop (Z.of_nat l) x.1 (Z.to_nat x.2) s1 X1 ltac:(lia) H1) as R. unfold one in H1.
    unfold range_hs. destruct m; try done.
  Qed.

  (** *** The first (last) location of all matches of a needle *)
  Definition pick (last : bool) (a b : Z) : Z := if last then Z.max a b else Z.min a b.
  Definition ext (last : bool) (o : option Z) (h : Z) : option Z := match o with None => Some h | Some a => Some (pick last a h) end.
  Definition is_last : bool := match m with MULTIPLE_last => true | _ => false end.
  Definition ov (o : option Z) : Z := default NA_INTEGER o.

  Lemma best_loop last first size o : (0 <= first)%Z -> (first + Z.of_nat size <= Z.of_nat H)%Z ->
    x_best last (xo_o_haystack xo) first (Z.of_nat size) o = Ok (fold_left (pick last) (map (fun j => hl (first + Z.of_nat j)) (seq 0 size)) o).
  Proof.
    intros Hf Hs. unfold x_best. rewrite Nat2Z.id.
    assert (X : forall k, k <= size -> forall o, for_ (size - k) k (fun j overall =>
      let! l := rdZ (xo_o_haystack xo) (first + Z.of_nat j) in
      let loc_haystack := (l - 1)%Z in
      Ok (if if last then (overall <? loc_haystack)%Z else (loc_haystack <? overall)%Z then loc_haystack else overall)) o =
      Ok (fold_left (pick last) (map (fun j => hl (first + Z.of_nat j)) (seq (size - k) k)) o)).
    { induction k as [|k IH]; intros Hk o0; [done|]. cbn [for_ seq map fold_left]. rewrite HL by lia. cbn [bind]. rewrite Z.add_simpl_r.
      replace (S (size - S k)) with (size - k) by lia. rewrite IH by lia. do 2 f_equal. unfold pick. destruct last.
      - destruct (Z.ltb_spec o0 (hl (first + Z.of_nat (size - S k)))); lia.
      - destruct (Z.ltb_spec (hl (first + Z.of_nat (size - S k))) o0); lia. }
    specialize (X size ltac:(lia) o). by rewrite Nat.sub_diag in X.
  Qed.
  Lemma fold_ext last l o : fold_left (ext last) l (Some o) = Some (fold_left (pick last) l o).
  Proof using. revert o. induction l as [|h l IH]; intros o; [done|]. cbn. apply IH. Qed.

  Definition keeps (l : nat) (es : list (Z * Z)) : list Z := concat (map range_hs (List.filter (fun x => kp l x.1) es)).

  (** The steps of a needle. *)
  Definition needle_ops (l : nat) : list xop :=
    if one m then
      match ent l with
      | [x] => if is_sig x then sig_ops l x else match fold_left (ext is_last) (keeps l [x]) None with Some h => [OpRow (Z.of_nat l) h] | None => [] end
      | es => match fold_left (ext is_last) (keeps l es) None with Some h => [OpRow (Z.of_nat l) h] | None => [] end
      end
    else concat (map (entry_ops l) (ent l)).

  Definition plain_state (s : xstate) : Prop := one m = true -> x_check_needles s = false /\ x_overall s = NA_INTEGER.

  (** One entry, with [multiple = "first"] or ["last"]. *)
  Lemma hit_step_one n_used i l x s o : one m = true -> l < N -> x ∈ ent l -> E !! i = Some (Z.of_nat l, x) -> is_hit x ->
    n_used = length E -> x_check_needles s = false -> x_overall s = ov o -> (forall a, o = Some a -> (0 <= a)%Z) ->
    let o' := if kp l x.1 then fold_left (ext is_last) (range_hs x) o else o in
    x_step xo ms o_loc n_used i s =
      if kp l x.1 then
        if (match E !! S i with Some y => negb (y.1 =? Z.of_nat l)%Z | None => true end) then
          match o' with Some h => run [OpRow (Z.of_nat l) h] (x_set_overall NA_INTEGER s) | None => Err "none"%string end
        else Ok (x_set_overall (ov o') s)
      else Ok s.
  Proof.
    intros H1 Hl Hin Hi Hx Hn Hc Ho Hpos. cbn zeta. unfold x_step. rewrite (XE i _ Hi). cbn [fst snd bind].
    destruct (hit_not_sig x Hx) as [-> ->]. rewrite (KP l x Hl Hin Hx). cbn [bind]. destruct (kp l x.1); cbn [negb]; [|done].
    unfold check_needles. rewrite Hc. cbn [bind]. destruct Hx as (X1 & X2 & X3).
    assert (Ebest : (let! overall :=
          if (x_overall s =? NA_INTEGER)%Z then let! l := rdZ (xo_o_haystack xo) x.1 in Ok (l - 1)%Z
          else Ok (x_overall s) in x_best is_last (xo_o_haystack xo) x.1 x.2 overall) = Ok (ov (fold_left (ext is_last) (range_hs x) o)) /\
          exists h, fold_left (ext is_last) (range_hs x) o = Some h).
    { replace x.2 with (Z.of_nat (Z.to_nat x.2)) by lia. unfold range_hs. destruct o as [a|].
      - rewrite Ho. cbn [ov default from_option id]. change (ov (Some a)) with a. rewrite (proj2 (Z.eqb_neq _ _)).
        2: { specialize (Hpos a eq_refl). unfold NA_INTEGER, INT_MIN. lia. }
        cbn [bind]. rewrite best_loop by lia. rewrite fold_ext. split; [done|]. by eexists.
      - rewrite Ho. change (ov None) with NA_INTEGER. rewrite Z.eqb_refl. rewrite HL by lia. cbn [bind]. rewrite Z.add_simpl_r.
        rewrite best_loop by lia. destruct (Z.to_nat x.2) as [|k] eqn:Ek; [lia|]. cbn [seq map fold_left ext].
        rewrite fold_ext. replace (x.1 + Z.of_nat 0)%Z with x.1 by lia. split; [|by eexists].
        assert (Pa : forall a, pick is_last a a = a) by (intros a; unfold pick; destruct is_last; lia). by rewrite Pa. }
    destruct Ebest as [Eb (h & Eh)]. rewrite Eh in Eb |- *. change (ov (Some h)) with h in *.
    assert (Eat : forall (b : bool), b = match E !! S i with Some y => negb (y.1 =? Z.of_nat l)%Z | None => true end ->
      (if i =? n_used - 1 then Ok true
          else
            let! l0 := rd o_loc (S i) in
            let! loc_needles_next := rdZ (m_loc ms) (l0 - 1) in
            Ok (negb (Z.of_nat l =? loc_needles_next)%Z)) = Ok b).
    { intros b ->. pose proof (lookup_lt_Some _ _ _ Hi) as Hil. destruct (Nat.eqb_spec i (n_used - 1)) as [Ei|Ni].
      - rewrite lookup_ge_None_2 by lia. done.
      - destruct (lookup_lt_is_Some_2 E (S i)) as [y Hy]; [lia|]. rewrite Hy. destruct (XN H1 _ _ Hy) as (l0 & -> & Hl0). cbn [bind].
        rewrite Hl0. cbn [bind]. by rewrite Z.eqb_sym. }
    set (b := match E !! S i with Some y => negb (y.1 =? Z.of_nat l)%Z | None => true end) in *. specialize (Eat b eq_refl).
    assert (Hb1 : forall (f : Z -> res xstate) (g : Z -> res Z), (let! overall :=
          if (x_overall s =? NA_INTEGER)%Z then let! l := rdZ (xo_o_haystack xo) x.1 in Ok (l - 1)%Z
          else Ok (x_overall s) in let! o := x_best is_last (xo_o_haystack xo) x.1 x.2 overall in f o) = f h).
    { intros f _. destruct (if (x_overall s =? NA_INTEGER)%Z then _ else _) as [v| |]; cbn [bind] in Eb |- *; [|done|done]. by rewrite Eb. }
    unfold is_last in Hb1. unfold one in H1.
    destruct m eqn:Em; try done.
    all: rewrite (Hb1 _ (fun _ => Ok 0%Z)); rewrite Eat; cbn [bind]; destruct b; [|done]; cbn [run_ops run_op].
    all: change (one MULTIPLE_first) with true; change (one MULTIPLE_last) with true.
    all: unfold x_store, x_set_overall; cbn [x_track x_check_haystack x_detect x_warnings x_any_multiple_haystack x_any_multiple_needles x_check_needles x_previous x_overall x_needles x_haystack x_loc_out].
    all: destruct (wr (x_needles s) (x_loc_out s) (Z.of_nat l + 1)%Z) as [w1| |]; cbn [bind]; [|done|done].
    all: destruct (wr (x_haystack s) (x_loc_out s) (h + 1)%Z) as [w2| |]; cbn [bind]; [|done|done].
    all: unfold note_haystack; cbn [x_track x_check_haystack x_detect x_warnings x_any_multiple_haystack x_any_multiple_needles x_check_needles x_previous x_overall x_needles x_haystack x_loc_out].
    all: destruct (x_track s); [|done].
    all: match goal with |- context [bind ?q ?k] => destruct q as [[[[q1 q2] q3] q4]| |]; cbn [bind]; [|done|done] end.
    all: destruct (wrZ (x_detect s) h true) as [w3| |]; cbn [bind]; done.
  Qed.

  (** *** All entries of a needle *)
  Lemma for_run {A} (es : list A) (g : A -> list xop) body : forall st s,
    (forall j x, es !! j = Some x -> forall s, body (st + j) s = run (g x) s) ->
    for_ st (length es) body s = run (concat (map g es)) s.
  Proof.
    induction es as [|x es IH]; intros st s Hb; [done|]. cbn [length for_ map concat]. rewrite run_ops_app.
    pose proof (Hb 0 x eq_refl s) as E0. rewrite Nat.add_0_r in E0. rewrite E0.
    destruct (run (g x) s) as [s'| |]; cbn [bind]; [|done|done]. apply IH. intros j y Hy s0. replace (S st + j) with (st + S j) by lia. by apply Hb.
  Qed.

  Definition before (l : nat) : nat := length (concat (map (fun l => map (pair (Z.of_nat l)) (ent l)) (seq 0 l))).
  Lemma before_S l : before (S l) = before l + length (ent l).
  Proof. unfold before. rewrite seq_S, map_app, concat_app, app_length. cbn. by rewrite app_nil_r, map_length. Qed.
  Lemma E_split l : l < N -> E = concat (map (fun l => map (pair (Z.of_nat l)) (ent l)) (seq 0 l)) ++ map (pair (Z.of_nat l)) (ent l) ++
    concat (map (fun l => map (pair (Z.of_nat l)) (ent l)) (seq (S l) (N - S l))).
  Proof.
    intros Hl. unfold E. replace N with (l + S (N - S l)) at 1 by lia. rewrite seq_app, map_app, concat_app. done.
  Qed.
  Lemma E_at l j x : l < N -> ent l !! j = Some x -> E !! (before l + j) = Some (Z.of_nat l, x).
  Proof.
    intros Hl Hx. rewrite (E_split l Hl). unfold before. rewrite lookup_app_r by lia. rewrite Nat.add_comm, Nat.add_sub.
    rewrite lookup_app_l by (rewrite map_length; by eapply lookup_lt_Some). by rewrite list_lookup_fmap, Hx.
  Qed.
  Lemma ent_ne l : l < N -> ent l <> [].
  Proof. intros Hl. destruct (ENT l Hl) as [(x & -> & _)|(_ & pre & lst & -> & _)]; [done|]. by destruct pre. Qed.
  Lemma E_length : length E = before N.
  Proof. done. Qed.
  Lemma E_next l : l < N -> match E !! (before l + length (ent l)) with Some y => negb (y.1 =? Z.of_nat l)%Z | None => true end = true.
  Proof.
    intros Hl. rewrite <- before_S. destruct (decide (S l < N)) as [Hs|Hs].
    - pose proof (ent_ne (S l) Hs) as Ne. destruct (ent (S l)) as [|x es] eqn:Ee; [done|].
      pose proof (E_at (S l) 0 x Hs) as X. rewrite Ee, Nat.add_0_r in X. rewrite X by done. cbn [fst]. by rewrite (proj2 (Z.eqb_neq _ _)) by lia.
    - rewrite lookup_ge_None_2; [done|]. rewrite E_length. replace N with (S l) by lia. done.
  Qed.

  Lemma fold_ext_pos last l o : (forall h, h ∈ l -> (0 <= h)%Z) -> (forall a, o = Some a -> (0 <= a)%Z) ->
    forall a, fold_left (ext last) l o = Some a -> (0 <= a)%Z.
  Proof.
    revert o. induction l as [|h l IH]; intros o Hl Ho; [done|]. cbn [fold_left]. apply IH; [intros; apply Hl; by apply elem_of_list_further|].
    assert (0 <= h)%Z by (apply Hl; apply elem_of_list_here). intros a. unfold ext. destruct o as [b|]; intros [= <-]; [|done].
    specialize (Ho b eq_refl). unfold pick. destruct last; lia.
  Qed.
  Lemma range_hs_range x h : is_hit x -> h ∈ range_hs x -> (0 <= h < Z.of_nat H)%Z.
  Proof using HLr.
    clear XN XE KP ENT HL kp ent.
    intros (X1 & X2 & X3) Hh. unfold range_hs in Hh. apply elem_of_list_In, in_map_iff in Hh as (j & <- & Hj). apply in_seq in Hj.
    apply HLr. lia.
  Qed.

  Lemma block_one l : one m = true -> l < N -> Forall is_hit (ent l) ->
    (exists pre lst, ent l = pre ++ [lst] /\ kp l lst.1 = true) ->
    forall suf pre s o, suf <> [] -> ent l = pre ++ suf -> x_check_needles s = false -> x_overall s = ov o -> (forall a, o = Some a -> (0 <= a)%Z) ->
    for_ (before l + length pre) (length suf) (x_step xo ms o_loc (length E)) s =
      match fold_left (ext is_last) (keeps l suf) o with Some h => run [OpRow (Z.of_nat l) h] (x_set_overall NA_INTEGER s) | None => Err "none"%string end.
  Proof.
    intros H1 Hl Hh (pre0 & lst & Elst & Kl). induction suf as [|x suf IH]; intros pre s o Ne Ee Hc Ho Hpos; [done|].
    assert (Hx : ent l !! length pre = Some x) by (rewrite Ee, lookup_app_r, Nat.sub_diag by lia; done).
    assert (Hxin : x ∈ ent l) by (by eapply elem_of_list_lookup_2).
    assert (Hxh : is_hit x) by (eapply Forall_forall in Hh; done).
    pose proof (E_at l (length pre) x Hl Hx) as Ex.
    cbn [length for_]. rewrite (hit_step_one (length E) _ l x s o H1 Hl Hxin Ex Hxh eq_refl Hc Ho Hpos). cbn zeta.
    assert (Ek : keeps l (x :: suf) = (if kp l x.1 then range_hs x else []) ++ keeps l suf).
    { unfold keeps. cbn [List.filter]. by destruct (kp l x.1). }
    rewrite Ek, fold_left_app.
    destruct suf as [|y suf].
    - (* the last entry *)
      assert (x = lst) as -> by (rewrite Elst in Ee; apply app_inj_tail in Ee as [_ Ee]; by symmetry). rewrite Kl.
      pose proof (E_next l Hl) as En. rewrite Ee, app_length in En. cbn [length] in En.
      replace (S (before l + length pre)) with (before l + (length pre + 1)) by lia. rewrite En. cbn [keeps map concat List.filter fold_left].
      change (keeps l []) with (@nil Z). cbn [fold_left]. destruct (fold_left (ext is_last) (range_hs lst) o); [|done].
      destruct (run _ _); done.
    - assert (Hy : ent l !! (length pre + 1) = Some y).
      { rewrite Ee, lookup_app_r by lia. replace (length pre + 1 - length pre) with 1 by lia. done. }
      pose proof (E_at l _ y Hl Hy) as Ey. replace (S (before l + length pre)) with (before l + (length pre + 1)) by lia.
      rewrite Ey. cbn [fst]. rewrite Z.eqb_refl. cbn [negb].
      assert (Ee' : ent l = (pre ++ [x]) ++ y :: suf) by (rewrite Ee, <- app_assoc; done).
      assert (Lp : before l + (length pre + 1) = before l + length (pre ++ [x])) by (rewrite app_length; done).
      destruct (kp l x.1); cbn [bind].
      + rewrite Lp. rewrite (IH (pre ++ [x]) _ (fold_left (ext is_last) (range_hs x) o)); [done|done|done|done|done|].
        apply fold_ext_pos; [|done]. intros h Hin. pose proof (range_hs_range x h Hxh Hin). lia.
      + rewrite Lp. apply (IH (pre ++ [x]) s o); done.
  Qed.

  Lemma needle_ok l s : l < N -> plain_state s -> for_ (before l) (length (ent l)) (x_step xo ms o_loc (length E)) s = run (needle_ops l) s.
  Proof.
    intros Hl Hp. unfold needle_ops. unfold plain_state in Hp.
    assert (Hm : forall b, b = true \/ b = false) by (intros []; auto). destruct (Hm (one m)) as [H1|H1]; rewrite H1.
    - destruct (Hp H1) as [Hc Ho]. destruct (ENT l Hl) as [(x & Ex & Hs)|(Hh & HX)].
      + rewrite Ex. cbn [length for_]. rewrite (sig_step (length E) (before l) l x s).
        * assert (is_sig x = true) as ->.
          { unfold is_sig. destruct Hs as [[->| ->] _]; by rewrite Z.eqb_refl, ?orb_true_r. }
          destruct (run _ s); done.
        * pose proof (E_at l 0 x Hl) as X. rewrite Ex, Nat.add_0_r in X. by apply X.
        * done.
      + pose proof (block_one l H1 Hl Hh HX (ent l) [] s None (ent_ne l Hl) eq_refl Hc Ho ltac:(done)) as B. cbn [length] in B. rewrite Nat.add_0_r in B.
        rewrite B. assert (Ss : x_set_overall NA_INTEGER s = s) by (unfold x_set_overall; rewrite <- Ho; by destruct s). rewrite Ss.
        assert (Hfold : exists h, fold_left (ext is_last) (keeps l (ent l)) None = Some h).
        { destruct HX as (pre & lst & Elst & Kl). assert (Hin : keeps l (ent l) <> []).
          { rewrite Elst. unfold keeps. rewrite List.filter_app. cbn [List.filter]. rewrite Kl, map_app, concat_app. cbn [map concat]. rewrite app_nil_r.
            assert (Hlst : is_hit lst) by (eapply Forall_forall in Hh; [exact Hh|rewrite Elst; apply elem_of_app; right; apply elem_of_list_here]).
            destruct Hlst as (_ & L2 & _). intros Q. apply app_eq_nil in Q as [_ Q]. unfold range_hs in Q. apply map_eq_nil in Q.
            destruct (Z.to_nat lst.2) eqn:EZ; [lia|done]. }
          destruct (keeps l (ent l)) as [|h hs']; [done|]. cbn [fold_left ext]. rewrite fold_ext. by eexists. }
        destruct Hfold as [h Eh]. rewrite Eh. destruct (ent l) as [|x [|y es]] eqn:Ee; [by destruct HX as ([|??] & ? & ? & ?)|..].
        * assert (is_sig x = false) as ->; [|by rewrite Eh].
          apply Forall_cons in Hh as [Hx _]. destruct (hit_not_sig x Hx) as [E1 E2]. unfold is_sig. by rewrite E1, E2.
        * by rewrite Eh.
    - apply for_run. intros j x Hx s0. pose proof (E_at l j x Hl Hx) as Ex. unfold entry_ops.
      destruct (ENT l Hl) as [(y & Ey & Hs)|(Hh & HX)].
      + rewrite Ey in Hx. apply list_lookup_singleton_Some in Hx as [_ ->]. assert (is_sig x = true) as ->.
        { unfold is_sig. destruct Hs as [[->| ->] _]; by rewrite Z.eqb_refl, ?orb_true_r. }
        by apply sig_step.
      + assert (Hin : x ∈ ent l) by (by eapply elem_of_list_lookup_2).
        assert (Hxh : is_hit x) by (eapply Forall_forall in Hh; done).
        assert (is_sig x = false) as -> by (destruct (hit_not_sig x Hxh) as [E1 E2]; unfold is_sig; by rewrite E1, E2).
        by apply hit_step_all.
  Qed.

  Lemma plain_run l s s' : l < N -> plain_state s -> run (needle_ops l) s = Ok s' -> plain_state s'.
  Proof.
    unfold plain_state. intros Hl Hp Hr H1. destruct (Hp H1) as [Hc Ho].
    assert (X : forall ops s, (forall op, op ∈ ops -> match op with OpCheck _ _ => False | _ => True end) ->
      x_check_needles s = false -> x_overall s = NA_INTEGER -> run ops s = Ok s' -> x_check_needles s' = false /\ x_overall s' = NA_INTEGER).
    { induction ops as [|op ops IH]; intros t Hops C O E0; [injection E0 as <-; done|]. cbn [run_ops] in E0.
      destruct (run_op m rel retain op t) as [t'| |] eqn:Et; [|done|done]. cbn [bind] in E0.
      assert (x_check_needles t' = false /\ x_overall t' = NA_INTEGER) as [C' O'].
      { specialize (Hops op ltac:(apply elem_of_list_here)). destruct op as [|lo h|lo v|]; [done| | |done].
        - cbn [run_op] in Et. unfold x_store in Et. destruct (wr (x_needles t) _ _); cbn [bind] in Et; [|done|done].
          destruct (wr (x_haystack t) _ _); cbn [bind] in Et; [|done|done].
          unfold note_haystack in Et. cbn [x_track x_check_haystack x_detect x_warnings x_any_multiple_haystack x_any_multiple_needles x_check_needles x_previous x_overall x_needles x_haystack x_loc_out] in Et.
          destruct (x_track t); [|injection Et as <-; done].
          match type of Et with context [bind ?q ?k] => destruct q as [[[[q1 q2] q3] q4]| |]; cbn [bind] in Et; [|done|done] end.
          destruct (wrZ (x_detect t) h true); cbn [bind] in Et; [|done|done]. injection Et as <-. done.
        - cbn [run_op] in Et. unfold x_store in Et. destruct (wr (x_needles t) _ _); cbn [bind] in Et; [|done|done].
          destruct (wr (x_haystack t) _ _); cbn [bind] in Et; [|done|done]. injection Et as <-. done. }
      apply (IH t'); try done. intros o Hop. apply Hops. by apply elem_of_list_further. }
    apply (X (needle_ops l) s); try done. unfold needle_ops. rewrite H1.
    assert (S0 : forall x op, op ∈ sig_ops l x -> match op with OpCheck _ _ => False | _ => True end).
    { intros x op. unfold sig_ops. destruct (x.1 =? SIGNAL_INCOMPLETE)%Z; [destruct (xo_incomplete xo)|destruct (xo_no_match xo)];
        rewrite ?elem_of_list_singleton, ?elem_of_nil; intros ->|| intros []; done. }
    assert (S1 : forall r op, op ∈ match r with Some h => [OpRow (Z.of_nat l) h] | None => [] end -> match op with OpCheck _ _ => False | _ => True end).
    { intros [h|] op; rewrite ?elem_of_list_singleton, ?elem_of_nil; [intros ->; done|done]. }
    intros op. destruct (ent l) as [|x [|y es]]; [apply S1| |apply S1]. destruct (is_sig x); [apply S0|apply S1].
  Qed.

  Theorem steps_ok s : plain_state s -> for_ 0 (length E) (x_step xo ms o_loc (length E)) s = run (concat (map needle_ops (seq 0 N))) s.
  Proof.
    intros Hp. rewrite E_length at 1.
    assert (X : forall k, k <= N -> for_ 0 (before k) (x_step xo ms o_loc (length E)) s = run (concat (map needle_ops (seq 0 k))) s /\
      forall s', run (concat (map needle_ops (seq 0 k))) s = Ok s' -> plain_state s').
    { induction k as [|k IH]; intros Hk.
      - split; [done|]. intros s' [= <-]. done.
      - destruct IH as [IH1 IH2]; [lia|]. rewrite before_S, for_app, IH1, seq_S, map_app, concat_app, run_ops_app. cbn [map concat Nat.add]. rewrite app_nil_r.
        destruct (run _ s) as [s1| |]; cbn [bind]; [|done|done]. split; [apply needle_ok; [lia|by apply IH2]|].
        intros s'. apply plain_run; [lia|by apply IH2]. }
    by apply X.
  Qed.
End steps.
