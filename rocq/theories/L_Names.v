(** * Lemmas: suffixes of names *)
From Verif Require Import Base M_Double M_Scalar M_Hash M_Object M_Proxy M_Growable M_Dict M_DictApi M_Slice M_Factor M_Names.
From Verif Require Import L_Dbl Spec_Factor Spec_Names.
From Coq Require Import ZifyBool ZifyNat.
#[local] Arguments Z.mul : simpl never.
#[local] Arguments Z.add : simpl never.
#[local] Arguments Z.sub : simpl never.
#[local] Arguments Z.div : simpl never.
#[local] Arguments Z.modulo : simpl never.
#[local] Arguments Z.to_nat : simpl never.
#[local] Arguments Z.of_nat : simpl never.

Lemma isdigit_spec c : isdigit c = true <-> is_digit c.
Proof. unfold isdigit, is_digit. lia. Qed.
Lemma isspace_spec c : isspace c = true <-> is_white c.
Proof. unfold isspace, is_white. lia. Qed.
Lemma isdigit_false c : isdigit c = false <-> ~ is_digit c.
Proof. unfold isdigit, is_digit. lia. Qed.

(** The lists whose first element is no digit *)
Definition stops (u : list Z) : Prop := match u with [] => True | c :: _ => ~ is_digit c end.
Lemma digit_span l : exists ds u, l = ds ++ u /\ Forall is_digit ds /\ stops u.
Proof.
  induction l as [|c l (ds & u & -> & D & S)].
  - by exists [], [].
  - destruct (isdigit c) eqn:E.
    + exists (c :: ds), u. split_and!; [done| |done]. constructor; [by apply isdigit_spec|done].
    + exists [], (c :: ds ++ u). split_and!; [done|done|]. by apply isdigit_false.
Qed.
Lemma digit_span_unique ds1 u1 ds2 u2 : ds1 ++ u1 = ds2 ++ u2 -> Forall is_digit ds1 -> Forall is_digit ds2 ->
  stops u1 -> stops u2 -> ds1 = ds2 /\ u1 = u2.
Proof.
  revert ds2. induction ds1 as [|c ds1 IH]; intros [|c2 ds2] E D1 D2 S1 S2; simpl in *; subst; try done.
  - apply Forall_cons in D2 as [D2 _]. done.
  - apply Forall_cons in D1 as [D1 _]. done.
  - injection E as -> E. apply Forall_cons in D1 as [_ D1]. apply Forall_cons in D2 as [_ D2].
    destruct (IH _ E D1 D2 S1 S2) as [-> ->]. done.
Qed.

(** ** The loop of [suffix_pos] on the reversed string *)
Fixpoint rloop (l : list Z) (se : option nat) (d : Z) (g : bool) : option nat :=
  match l with
  | [] => se
  | c :: l' =>
      if g then if (c =? 46)%Z then rloop l' se 1 false else if isdigit c then rloop l' se d true else se
      else if (d =? 0)%Z then if isdigit c then rloop l' se d true else se
      else if ((d =? 1) || (d =? 2))%Z then if (c =? 46)%Z then rloop l' se (d + 1) g else se
      else if isdigit c then rloop l' (Some (S (length l'))) 0 true else Some (S (length l'))
  end.

Lemma suffix_loop_rev name k se d g : k <= length name -> (0 <= d <= 3)%Z ->
  suffix_loop name k se d g = Ok (rloop (rev (take k name)) se d g).
Proof.
  revert se d g. induction k as [|k IH]; intros se d g Hk Hd; [done|].
  destruct (lookup_lt_is_Some_2 name k ltac:(lia)) as [c Hc].
  rewrite (take_S_r _ _ _ Hc), rev_app_distr. simpl.
  assert (E : rd name k = Ok c) by (by apply rd_Ok). rewrite E. simpl. unfold ch_dot.
  rewrite rev_length, take_length, (Nat.min_l k (length name)) by lia.
  destruct g.
  { destruct (c =? 46)%Z; [apply IH; lia|]. destruct (isdigit c); [apply IH; lia|done]. }
  destruct (Z.eqb_spec d 0) as [->|]; [destruct (isdigit c); [apply IH; lia|done]|].
  destruct ((d =? 1) || (d =? 2))%Z eqn:E12.
  { destruct (c =? 46)%Z; [apply IH; lia|done]. }
  destruct (Z.eqb_spec d 3); [|lia]. replace (k + 1) with (S k) by lia.
  destruct (isdigit c); [apply IH; lia|done].
Qed.

Lemma rloop_digits ds l se d : Forall is_digit ds -> rloop (ds ++ l) se d true = rloop l se d true.
Proof.
  induction 1 as [|c ds Hc _ IH]; [done|]. simpl.
  destruct (Z.eqb_spec c 46); [unfold is_digit in Hc; lia|]. apply isdigit_spec in Hc. by rewrite Hc.
Qed.
Lemma rloop_three l se : rloop l se 3 false = match l with [] => se | _ => rloop l (Some (length l)) 0 false end.
Proof. by destruct l. Qed.

Lemma one_suffix_rev b l : one_suffix b (rev l) <->
  b <> [] /\ exists ds, ds <> [] /\ Forall is_digit ds /\ l = ds ++ three_dots ++ rev b.
Proof.
  unfold one_suffix, digit_run. split; intros (Hb & ds & H); (split; [done|]); exists (rev ds).
  - destruct H as [[Hne D] E]. apply (f_equal (@rev Z)) in E. rewrite rev_involutive in E. subst l.
    rewrite !rev_app_distr, <-app_assoc. split_and!; [|by apply Forall_rev|done].
    intros E. apply Hne. apply (f_equal (@rev Z)) in E. by rewrite rev_involutive in E.
  - destruct H as (Hne & D & ->). rewrite !rev_app_distr, rev_involutive, <-app_assoc. split_and!; [|by apply Forall_rev|done].
    intros E. apply Hne. apply (f_equal (@rev Z)) in E. by rewrite rev_involutive in E.
Qed.

Lemma no_digit_46 : ~ is_digit 46.
Proof. unfold is_digit. lia. Qed.
Lemma one_suffix_span b ds u : Forall is_digit ds -> stops u -> one_suffix b (rev (ds ++ u)) ->
  b <> [] /\ ds <> [] /\ u = three_dots ++ rev b.
Proof.
  intros D S O. apply one_suffix_rev in O as (Hb & ds' & Hne & D' & E).
  destruct (digit_span_unique _ _ _ _ E D D' S no_digit_46) as [-> ->]. done.
Qed.

Definition stripped (l : list Z) (se r : option nat) : Prop :=
  (unsuffixed (rev l) /\ r = se) \/
  (exists b, b <> [] /\ unsuffixed b /\ suffixes b (rev l) /\ b <> rev l /\ r = Some (length b)).

Lemma suffixes_prefix b s : suffixes b s -> exists r, s = b ++ r.
Proof. induction 1 as [|s t _ (r & ->) (Hs & ds & _ & ->)]; [exists []; by rewrite app_nil_r|]. exists (r ++ three_dots ++ ds). by rewrite <-app_assoc. Qed.
Lemma suffixes_length b s : suffixes b s -> length b <= length s.
Proof. intros (r & ->)%suffixes_prefix. rewrite app_length. lia. Qed.

Lemma rloop_spec l se : stripped l se (rloop l se 0 false).
Proof.
  remember (length l) as n eqn:En. revert l se En. induction (lt_wf n) as [n _ IH]. intros l se En.
  destruct (digit_span l) as (ds & u & El & D & Su).
  destruct ds as [|d ds].
  { left. split.
    - intros b O. rewrite El in O. apply one_suffix_span in O as (_ & ? & _); done.
    - rewrite El. simpl. destruct u as [|c u]; [done|]. simpl. apply isdigit_false in Su. by rewrite Su. }
  assert (R1 : rloop l se 0 false = rloop u se 0 true).
  { rewrite El. apply Forall_cons in D as [D1 D]. cbn [app rloop]. apply isdigit_spec in D1. rewrite D1. simpl.
    by apply rloop_digits. }
  assert (US : (forall b, u <> three_dots ++ rev b \/ b = []) -> unsuffixed (rev l)).
  { intros H b O. rewrite El in O. apply (one_suffix_span _ _ _ D Su) in O as (Hb & _ & ->). destruct (H b); done. }
  rewrite R1. destruct u as [|c1 u]; [left; split; [apply US; by left|done]|].
  simpl. apply isdigit_false in Su. rewrite Su.
  destruct (Z.eqb_spec c1 46) as [->|]; [|left; split; [apply US; left; unfold three_dots; simpl; congruence|done]].
  destruct u as [|c2 u]; [left; split; [apply US; by left|done]|]. simpl.
  destruct (Z.eqb_spec c2 46) as [->|]; [|left; split; [apply US; left; unfold three_dots; simpl; congruence|done]].
  destruct u as [|c3 u]; [left; split; [apply US; by left|done]|]. simpl.
  destruct (Z.eqb_spec c3 46) as [->|]; [|left; split; [apply US; left; unfold three_dots; simpl; congruence|done]].
  change (2 + 1)%Z with 3%Z. change (1 + 1)%Z with 2%Z. simpl. change (2 + 1)%Z with 3%Z. rewrite (rloop_three u se).
  destruct u as [|c u].
  { left. split; [|done]. apply US. intros b. destruct b as [|x b]; [by right|left]. intros E. unfold three_dots in E. simpl in E.
    injection E as E. symmetry in E. apply app_eq_nil in E as [_ ?]. done. }
  right. assert (Ol : one_suffix (rev (c :: u)) (rev l)).
  { apply one_suffix_rev. split; [simpl; intros E; by apply app_eq_nil in E as [_ ?]|]. exists (d :: ds). rewrite rev_involutive.
    split_and!; [done|done|]. by rewrite El. }
  assert (Hlt : length (c :: u) < n).
  { subst n. rewrite El, app_length. simpl. lia. }
  destruct (IH _ Hlt (c :: u) (Some (length (c :: u))) eq_refl) as [[HU HR]|(b & Hb & HU & HS & Hne & HR)].
  - exists (rev (c :: u)). split_and!; [apply Ol|done| | |].
    + eapply suffixes_one; [apply suffixes_none|done].
    + intros E. apply (f_equal length) in E. rewrite !rev_length, <-En in E. lia.
    + rewrite HR. by rewrite rev_length.
  - exists b. split_and!; [done|done| | |done].
    + by eapply suffixes_one.
    + intros E. apply suffixes_length in HS. apply (f_equal length) in E. rewrite !rev_length in *. lia.
Qed.

Lemma suffix_pos_spec s : s <> [] -> (Z.of_nat (length s) <= INT_MAX)%Z ->
  exists p, suffix_pos s = Ok p /\
    ((unsuffixed s /\ p = (-1)%Z) \/
     (exists b, b <> [] /\ unsuffixed b /\ suffixes b s /\ b <> s /\ (0 <= p)%Z /\ take (Z.to_nat p) s = b)).
Proof.
  intros Hne Hl. unfold suffix_pos, strlen_int. destruct (Z.leb_spec (Z.of_nat (length s)) INT_MAX); [|lia]. simpl.
  destruct (Z.eqb_spec (Z.of_nat (length s)) 0) as [E|]; [destruct s; [done|simpl in E; lia]|].
  rewrite suffix_loop_rev by lia. rewrite firstn_all. simpl. eexists. split; [done|].
  destruct (rloop_spec (rev s) None) as [[HU ->]|(b & Hb & HU & HS & Hn & ->)]; rewrite rev_involutive in *.
  - by left.
  - right. exists b. split_and!; try done; [lia|]. rewrite Nat2Z.id. apply suffixes_prefix in HS as (r & ->).
    by rewrite take_app.
Qed.

(** ** [is_dotdotint] *)
Lemma skip_space_split s : exists w, s = w ++ skip_space s /\ Forall is_white w.
Proof.
  induction s as [|c s (w & E & W)]; simpl; [by exists []|].
  destruct (isspace c) eqn:Ec; [|by exists []].
  exists (c :: w). simpl. rewrite <-E. split; [done|]. constructor; [by apply isspace_spec|done].
Qed.
Lemma skip_sign_split s : exists g, s = g ++ skip_sign s /\ (g = [] \/ g = [43]%Z \/ g = [45]%Z).
Proof.
  destruct s as [|c s]; simpl; [exists []; auto|].
  destruct ((c =? 43) || (c =? 45))%Z eqn:Ec; [|exists []; auto]. exists [c]. split; [done|].
  assert (c = 43 \/ c = 45)%Z as [-> | ->] by lia; auto.
Qed.
Lemma read_digits_pos acc s : (0 <= acc)%Z ->
  (0 <= read_digits acc s)%Z /\
  (read_digits acc s <> 0%Z <-> acc <> 0%Z \/ exists ds rest, s = ds ++ rest /\ Forall is_digit ds /\ exists d, d ∈ ds /\ d <> 48%Z).
Proof.
  revert acc. induction s as [|c s IH]; intros acc Ha; simpl.
  { split; [done|]. split; [by left|]. intros [?|(ds & rest & E & D & d & Hd & _)]; [done|].
    symmetry in E. apply app_eq_nil in E as [-> _]. by apply elem_of_nil in Hd. }
  destruct (isdigit c) eqn:Ec.
  - apply isdigit_spec in Ec. unfold is_digit in Ec. destruct (IH (acc * 10 + (c - 48))%Z ltac:(lia)) as [Hp HI].
    split; [done|]. rewrite HI. split.
    + intros [?|(ds & rest & E & D & d & Hd & Hn)].
      * destruct (decide (acc = 0%Z)) as [->|]; [|by left]. right. exists [c], s. split_and!; [done|by constructor|].
        exists c. split; [by apply elem_of_list_singleton|lia].
      * right. exists (c :: ds), rest. subst s. split_and!; [done|by constructor|]. exists d. split; [by right|done].
    + intros [?|(ds & rest & E & D & d & Hd & Hn)]; [left; lia|].
      destruct ds as [|x ds]; [by apply elem_of_nil in Hd|]. injection E as <- E. apply Forall_cons in D as [_ D].
      apply elem_of_cons in Hd as [->|Hd]; [left; lia|]. right. by exists ds, rest; eauto.
  - split; [done|]. split; [by left|]. intros [?|(ds & rest & E & D & d & Hd & Hn)]; [done|].
    destruct ds as [|x ds]; [by apply elem_of_nil in Hd|]. injection E as <- E. apply Forall_cons in D as [D _].
    apply isdigit_false in Ec. done.
Qed.

Definition nonzero_number (s : list Z) : Prop :=
  exists white sign ds rest, s = white ++ sign ++ ds ++ rest /\ Forall is_white white /\
    (sign = [] \/ sign = [43]%Z \/ sign = [45]%Z) /\ Forall is_digit ds /\ exists d, d ∈ ds /\ d <> 48%Z.
Lemma skip_space_app w s : Forall is_white w -> (forall c, s !! 0 = Some c -> ~ is_white c) -> skip_space (w ++ s) = s.
Proof.
  induction 1 as [|c w Hc _ IH]; intros Hs; simpl.
  - destruct s as [|c s]; [done|]. simpl. specialize (Hs c eq_refl). destruct (isspace c) eqn:E; [|done].
    apply isspace_spec in E. done.
  - apply isspace_spec in Hc. rewrite Hc. by apply IH.
Qed.
Lemma strtol_spec s : strtol_nonzero s = true <-> nonzero_number s.
Proof.
  unfold strtol_nonzero. destruct (skip_space_split s) as (w & Ew & W).
  destruct (skip_sign_split (skip_space s)) as (g & Eg & G).
  destruct (read_digits_pos 0 (skip_sign (skip_space s)) ltac:(lia)) as [_ HR]. split.
  - intros H. assert (H' : read_digits 0 (skip_sign (skip_space s)) <> 0%Z) by lia.
    apply HR in H' as [?|(ds & rest & E & D & N)]; [done|]. exists w, g, ds, rest. rewrite <-E, <-Eg. by rewrite <-Ew.
  - clear HR Ew Eg W G w g. intros (w & g & ds & rest & -> & W & G & D & N).
    assert (Hd : exists c l, ds = c :: l /\ is_digit c).
    { destruct ds as [|c l]; [destruct N as (d & Hd & _); by apply elem_of_nil in Hd|]. apply Forall_cons in D as [? _]. eauto. }
    destruct Hd as (c & l & Ed & Hc).
    assert (E1 : skip_space (w ++ g ++ ds ++ rest) = g ++ ds ++ rest).
    { apply skip_space_app; [done|]. intros x Hx. unfold is_digit in Hc. unfold is_white.
      destruct G as [->|[->| ->]]; rewrite Ed in Hx; injection Hx as <-; lia. }
    assert (E2 : skip_sign (g ++ ds ++ rest) = ds ++ rest).
    { unfold is_digit in Hc. destruct G as [->|[->| ->]]; [|done|done]. rewrite Ed. simpl.
      destruct ((c =? 43) || (c =? 45))%Z eqn:E; [lia|done]. }
    rewrite E1, E2. destruct (read_digits_pos 0 (ds ++ rest) ltac:(lia)) as [_ HR].
    assert (H : read_digits 0 (ds ++ rest) <> 0%Z) by (apply HR; right; eauto). lia.
Qed.

Lemma nonzero_number_head s : nonzero_number s -> exists c s', s = c :: s' /\ c <> 46%Z.
Proof.
  intros (w & g & ds & rest & -> & W & G & D & (d & Hd & _)).
  destruct w as [|c w].
  - destruct G as [->|[->| ->]]; simpl; [|eexists _, _; split; [done|lia]|eexists _, _; split; [done|lia]].
    destruct ds as [|c ds]; [by apply elem_of_nil in Hd|]. simpl. eexists _, _. split; [done|].
    apply Forall_cons in D as [D _]. unfold is_digit in D. lia.
  - simpl. eexists _, _. split; [done|]. apply Forall_cons in W as [W _]. unfold is_white in W. lia.
Qed.
Lemma dotdot_number_alt s : dotdot_number s <-> exists pre t, s = pre ++ t /\ (pre = [46; 46]%Z \/ pre = three_dots) /\ nonzero_number t.
Proof.
  split.
  - intros (pre & w & g & ds & rest & -> & P & W & G & D & N). exists pre, (w ++ g ++ ds ++ rest). split_and!; [done|done|].
    by exists w, g, ds, rest.
  - intros (pre & t & -> & P & (w & g & ds & rest & -> & W & G & D & N)). by exists pre, w, g, ds, rest.
Qed.

Lemma is_dotdotint_spec s : (Z.of_nat (length s) <= INT_MAX)%Z ->
  exists b, is_dotdotint s = Ok b /\ (b = true <-> dotdot_number s).
Proof.
  intros Hl. unfold is_dotdotint, strlen_int. destruct (Z.leb_spec (Z.of_nat (length s)) INT_MAX); [|lia]. simpl.
  destruct s as [|c0 [|c1 [|c2 s]]]; simpl.
  1-3: eexists; split; [done|]; split; [done|]; intros (pre & t & E & P & N)%dotdot_number_alt;
    apply nonzero_number_head in N as (c & s' & -> & _); destruct P as [->| ->]; simpl in E; congruence.
  destruct (Z.ltb_spec (Z.of_nat (S (S (S (length s))))) 3); [lia|]. unfold rd. simpl. unfold ch_dot.
  destruct (Z.eqb_spec c0 46) as [->|N0]; simpl.
  2:{ eexists; split; [done|]; split; [done|]; intros (pre & t & E & P & N)%dotdot_number_alt. destruct P as [->| ->]; simpl in E; congruence. }
  destruct (Z.eqb_spec c1 46) as [->|N1]; simpl.
  2:{ eexists; split; [done|]; split; [done|]; intros (pre & t & E & P & N)%dotdot_number_alt. destruct P as [->| ->]; simpl in E; congruence. }
  eexists. split; [done|]. rewrite strtol_spec, dotdot_number_alt. destruct (Z.eqb_spec c2 46) as [->|N2]; simpl.
  - change (drop 0 s) with s. split.
    + intros N. exists three_dots, s. eauto.
    + intros (pre & t & E & P & N). destruct P as [->| ->]; simpl in E.
      * injection E as <-. apply nonzero_number_head in N as (c & s' & E & Hc). congruence.
      * by injection E as <-.
  - change (drop 0 (c2 :: s)) with (c2 :: s). split.
    + intros N. exists [46; 46]%Z, (c2 :: s). eauto.
    + intros (pre & t & E & P & N). destruct P as [->| ->]; simpl in E; [by injection E as <-|congruence].
Qed.

Lemma dotdot_number_app s r : dotdot_number s -> dotdot_number (s ++ r).
Proof.
  intros (pre & w & g & ds & rest & -> & P & W & G & D & N). exists pre, w, g, ds, (rest ++ r).
  split_and!; try done. by rewrite <-!app_assoc.
Qed.
Lemma dotdot_number_suffix b ds : b <> [] -> dotdot_number (b ++ three_dots ++ ds) -> dotdot_number b.
Proof.
  intros Hb (pre & w & g & ds1 & rest & E & P & W & G & D & N).
  set (v := w ++ g ++ ds1).
  assert (Hv : Forall (fun c => c <> 46%Z) v).
  { unfold v. rewrite !Forall_app. split_and!.
    - eapply Forall_impl; [exact W|]. unfold is_white. simpl. lia.
    - destruct G as [->|[->| ->]]; repeat constructor; lia.
    - eapply Forall_impl; [exact D|]. unfold is_digit. simpl. lia. }
  assert (Hne : 0 < length v).
  { unfold v. rewrite !app_length. destruct N as (d & Hd & _). destruct ds1; [by apply elem_of_nil in Hd|]. simpl. lia. }
  assert (E' : b ++ three_dots ++ ds = (pre ++ v) ++ rest) by (rewrite E; unfold v; by rewrite <-!app_assoc).
  destruct (decide (length (pre ++ v) <= length b)) as [Hle|Hgt].
  - assert (Hb' : b = (pre ++ v) ++ take (length b - length (pre ++ v)) rest).
    { rewrite <-(take_app b (three_dots ++ ds)) at 1. rewrite E'. rewrite take_app_ge by done. done. }
    exists pre, w, g, ds1, (take (length b - length (pre ++ v)) rest). split_and!; try done.
    rewrite Hb' at 1. unfold v. by rewrite <-!app_assoc.
  - exfalso. rewrite app_length in Hgt.
    assert (Hp : length pre <= 3 /\ 2 <= length pre) by (destruct P as [->| ->]; simpl; lia).
    assert (Hdot : forall k, length b <= k < length b + 3 -> (b ++ three_dots ++ ds) !! k = Some 46%Z).
    { intros k Hk. rewrite lookup_app_r by lia. unfold three_dots.
      destruct (k - length b) as [|[|[|q]]] eqn:Eq; simpl; try done. lia. }
    assert (Hnd : forall k c, length pre <= k < length pre + length v -> (b ++ three_dots ++ ds) !! k = Some c -> c <> 46%Z).
    { intros k c Hk Hc. rewrite E' in Hc. rewrite lookup_app_l in Hc by (rewrite app_length; lia).
      rewrite lookup_app_r in Hc by lia. by eapply Forall_lookup_1 in Hv; [|exact Hc]. }
    assert (Hb1 : 1 <= length b) by (destruct b; [done|simpl; lia]).
    destruct (decide (length pre <= length b)).
    + apply (Hnd (length b) 46%Z); [lia|apply Hdot; lia|done].
    + apply (Hnd (length pre) 46%Z); [lia|apply Hdot; lia|done].
Qed.

Lemma one_suffix_inj b b' ds ds' : digit_run ds -> digit_run ds' -> b ++ three_dots ++ ds = b' ++ three_dots ++ ds' -> b = b' /\ ds = ds'.
Proof.
  intros [N D] [N' D'] E. apply (f_equal (@rev Z)) in E. rewrite !rev_app_distr, <-!app_assoc in E.
  apply digit_span_unique in E as [E1 E2]; [|by apply Forall_rev|by apply Forall_rev|exact no_digit_46|exact no_digit_46].
  apply (f_equal (@rev Z)) in E1. rewrite !rev_involutive in E1. apply app_inv_head in E2.
  apply (f_equal (@rev Z)) in E2. rewrite !rev_involutive in E2. done.
Qed.
Lemma suffixes_unique b b' s : unsuffixed b -> unsuffixed b' -> suffixes b s -> suffixes b' s -> b = b'.
Proof.
  intros U U' H. revert b' U'. induction H as [|s t H IH O]; intros b' U' H'.
  - destruct H' as [|s' t' _ O']; [done|]. destruct (U _ O').
  - destruct H' as [|s' t' H' O']; [destruct (U' _ O)|].
    assert (s' = s) as ->; [|by apply IH].
    destruct O as (_ & ds & D & ->), O' as (_ & ds' & D' & E). symmetry. by apply one_suffix_inj in E as [? _].
Qed.

(** ** Stems *)
Lemma stem_unique s b b' : stem s b -> stem s b' -> b = b'.
Proof.
  intros [[R ->]|(R & Hb & U & t & -> & S)] [[R' ->]|(R' & Hb' & U' & t' & E & S')]; try done.
  injection E as <-. by eapply suffixes_unique.
Qed.
(** A stem that is not empty is no number behind dots *)
Lemma stem_no_number s b : stem s b -> b <> [] -> ~ dotdot_number b.
Proof.
  intros [[_ ->]|(R & Hb & U & t & -> & S)] Hn H; [done|]. apply R. simpl. right. right.
  apply suffixes_prefix in S as (r & ->). by apply dotdot_number_app.
Qed.

(** ** Decimal digits *)
Lemma number_snoc ds d : number (ds ++ [d]) = (number ds * 10 + (d - 48))%Z.
Proof. unfold number. by rewrite fold_left_app. Qed.
Lemma number_bound ds : Forall is_digit ds -> (0 <= number ds < 10 ^ Z.of_nat (length ds))%Z.
Proof.
  induction ds as [|d ds IH] using rev_ind; intros D; [done|]. rewrite number_snoc, app_length. simpl.
  apply Forall_app in D as [D1 D2]. rewrite Forall_singleton in D2. specialize (IH D1). unfold is_digit in D2.
  rewrite Nat2Z.inj_add, Z.pow_add_r by lia. change (10 ^ Z.of_nat 1)%Z with 10%Z. lia.
Qed.
Lemma number_nonzero ds : Forall is_digit ds -> number ds <> 0%Z -> exists d, d ∈ ds /\ d <> 48%Z.
Proof.
  induction ds as [|d ds IH] using rev_ind; intros D N; [done|]. rewrite number_snoc in N.
  apply Forall_app in D as [D1 D2]. rewrite Forall_singleton in D2. unfold is_digit in D2.
  destruct (decide (d = 48%Z)) as [->|].
  - destruct IH as (d & Hd & Hn); [done|lia|]. exists d. split; [apply elem_of_app; by left|done].
  - exists d. split; [apply elem_of_app; right; by apply elem_of_list_singleton|done].
Qed.
Lemma writes_snoc n ds d : ds <> [] -> writes n (ds ++ [d]) -> writes (n / 10) ds /\ (d = 48 + n mod 10)%Z /\ (10 <= n)%Z.
Proof.
  intros Hne ((_ & D) & N & L). apply Forall_app in D as [D1 D2]. rewrite Forall_singleton in D2. unfold is_digit in D2.
  rewrite number_snoc in N. pose proof (number_bound _ D1) as B.
  destruct L as [L|L]; [rewrite app_length in L; simpl in L; destruct ds; [done|simpl in L; lia]|].
  assert (L' : ds !! 0 <> Some 48%Z).
  { rewrite lookup_app_l in L; [done|]. destruct ds; [done|simpl; lia]. }
  assert (E1 : (n / 10 = number ds)%Z) by (rewrite <-N; symmetry; apply (Z.div_unique _ _ _ (d - 48)); lia).
  assert (E2 : (n mod 10 = d - 48)%Z) by (rewrite <-N; symmetry; apply (Z.mod_unique _ _ (number ds)); lia).
  split_and!; [|lia|].
  - unfold writes, digit_run. split_and!; [done|done|by rewrite E1|by right].
  - assert (1 <= number ds)%Z; [|lia]. clear - D1 L' Hne.
    assert (number ds <> 0%Z); [|pose proof (number_bound _ D1); lia]. intros E.
    destruct ds as [|x ds]; [done|]. simpl in L'. clear Hne. revert E. induction ds as [|y ds IH] using rev_ind; intros E.
    + unfold number in E. simpl in E. apply L'. f_equal. lia.
    + rewrite app_comm_cons, number_snoc in E. rewrite app_comm_cons, Forall_app in D1. destruct D1 as [D1 D2].
      rewrite Forall_singleton in D2. unfold is_digit in D2. pose proof (number_bound _ D1). apply IH; [done|lia].
Qed.
Lemma writes_unique n ds ds' : writes n ds -> writes n ds' -> ds = ds'.
Proof.
  revert n ds'. induction ds as [|d ds IH] using rev_ind; intros n ds' W W'; [by destruct W as [[? _] _]|].
  destruct ds' as [|d' ds' _] using rev_ind; [by destruct W' as [[? _] _]|].
  assert (Hs : forall c, writes n ([] ++ [c]) -> n = (c - 48)%Z /\ (n < 10)%Z).
  { intros c ((_ & D) & N & _). rewrite number_snoc in N. cbn [app] in D. rewrite Forall_singleton in D. unfold is_digit in D. unfold number in N. simpl in N. lia. }
  destruct ds as [|x ds], ds' as [|y ds'].
  - apply Hs in W, W'. simpl. f_equal. lia.
  - apply Hs in W. apply writes_snoc in W'; [|done]. lia.
  - apply Hs in W'. apply writes_snoc in W; [|done]. lia.
  - apply writes_snoc in W as (W & -> & _); [|done]. apply writes_snoc in W' as (W' & -> & _); [|done].
    by rewrite (IH _ _ W W').
Qed.

Lemma decimal_loop_spec fuel n : (0 <= n)%Z -> (n < 10 ^ Z.of_nat fuel)%Z -> fuel <> 0 ->
  exists ds, decimal_loop fuel n = Ok ds /\ writes n ds /\ length ds <= fuel /\ (n <> 0%Z -> ds !! 0 <> Some 48%Z).
Proof.
  revert n. induction fuel as [|fuel IH]; intros n Hn Hf Hz; [done|]. simpl.
  destruct (Z.ltb_spec n 10).
  - exists [(48 + n)%Z]. split_and!; [done| |simpl; lia|]. 2:{ simpl. intros ? [=]. lia. }
    unfold writes, digit_run. split_and!; [done| | |by left]. { apply Forall_singleton. unfold is_digit. lia. } unfold number. simpl. lia.
  - destruct fuel as [|fuel]; [simpl in Hf; lia|].
    assert (Hq : (0 <= n / 10)%Z) by (apply Z.div_pos; lia).
    assert (Hq2 : (n / 10 < 10 ^ Z.of_nat (S fuel))%Z).
    { apply Z.div_lt_upper_bound; [lia|]. rewrite (Nat2Z.inj_succ (S fuel)), Z.pow_succ_r in Hf by lia. lia. }
    destruct (IH (n / 10)%Z Hq Hq2) as (ds & E & ((Hne & D) & N & _) & Hl & H0); [done|].
    rewrite E. cbn [bind]. eexists. split; [done|].
    pose proof (Z.mod_pos_bound n 10 ltac:(lia)) as Hm.
    assert (H1 : (n / 10 <> 0)%Z). { intros Eq. pose proof (Z.div_mod n 10). lia. }
    assert (H0' : (ds ++ [(48 + n mod 10)%Z]) !! 0 <> Some 48%Z).
    { rewrite lookup_app_l; [by apply H0|]. destruct ds; [done|simpl; lia]. }
    split_and!; [|rewrite app_length; simpl in *; lia|done].
    unfold writes, digit_run. split_and!.
    + intros Eq. by apply app_eq_nil in Eq as [_ ?].
    + apply Forall_app. split; [done|]. apply Forall_singleton. unfold is_digit. lia.
    + rewrite number_snoc, N. pose proof (Z.div_mod n 10). lia.
    + by right.
Qed.
Lemma decimal_spec n : (0 <= n <= INT_MAX)%Z -> exists ds, decimal n = Ok ds /\ writes n ds /\ length ds <= 10.
Proof.
  intros H. destruct (decimal_loop_spec 10 n) as (ds & E & W & L & _); [lia| |done|by exists ds].
  change (10 ^ Z.of_nat 10)%Z with 10000000000%Z. unfold INT_MAX in H. lia.
Qed.
