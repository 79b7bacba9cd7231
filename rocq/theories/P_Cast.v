(** * C36: casting between logical, integer and double is lossless or an error. *)
From Verif Require Import Base M_Double M_Scalar M_Object M_Proxy M_Cast Spec_Value Spec_Cast L_Dbl L_Cast.

Lemma sem_int_map xs ys to (g : Z -> dsem) :
  Forall2 (fun x y => int_num y = as_missing to (g x) /\ is_int y) xs ys ->
  map int_num ys = map (as_missing to) (map g xs).
Proof. induction 1 as [|x y xs ys [H _] _ IH]; simpl; [done|]. by rewrite H, IH. Qed.

Lemma lgl_representable x : lgl_wf x -> representable NTLgl (int_num x).
Proof.
  intros [->|[->| ->]].
  - rewrite int_num_val by done. left. lia.
  - rewrite int_num_val by done. right. rewrite dscale_eq. lia.
  - done.
Qed.
#[local] Instance representable_dec to d : Decision (representable to d).
Proof.
  destruct d as [| |v], to; simpl; try (left; exact I).
  - apply or_dec; apply Z.eq_dec.
  - rewrite <- dscale_eq. change (2 ^ 31)%Z with (INT_MAX + 1)%Z. pose proof dscale_pos as Hp.
    destruct (decide (v = (v / dscale) * dscale /\ - (INT_MAX + 1) < v / dscale < INT_MAX + 1)%Z) as [H|H].
    + left. exists (v / dscale)%Z. done.
    + right. intros (i & -> & Hi). apply H. rewrite Z.div_mul by lia. done.
Defined.

(** When every element is a value of the target type, the cast succeeds, has
    that type and denotes the same numbers (NaN becomes NA unless the target is
    double); otherwise it is an error.  In no case is the behaviour undefined. *)
Theorem C36_cast x to :
  num_wf x ->
  (Forall (representable to) (num_sem x) ->
     exists y, num_cast x to = Ok y /\ num_typeof y = to /\ num_wf y /\
               num_sem y = map (as_missing to) (num_sem x)) /\
  (~ Forall (representable to) (num_sem x) -> exists e, num_cast x to = Err e).
Proof.
  intros Hw.
  assert (Hid : forall y t, num_typeof y = t -> num_wf y -> t <> NTDbl -> (forall d, d ∈ num_sem y -> d <> SNan) ->
            num_sem y = map (as_missing t) (num_sem y)).
  { intros y t _ _ _ Hd. symmetry. apply list_eq. intros i. rewrite list_lookup_fmap.
    destruct (num_sem y !! i) as [d|] eqn:E; [|done]. simpl. f_equal.
    apply elem_of_list_lookup_2 in E. specialize (Hd d E). by destruct d, t. }
  assert (Hint : forall xs d, d ∈ map int_num xs -> d <> SNan).
  { intros xs d Hd. apply elem_of_list_fmap in Hd as (z & -> & _). unfold int_num. by destruct (int_sem z). }
  assert (Hdbl : forall l, map (as_missing NTDbl) l = l).
  { intros l. induction l as [|d l IH]; simpl; [done|]. rewrite IH. by destruct d. }
  assert (Hall : forall l, Forall (representable NTDbl) l).
  { intros l. apply Forall_forall. intros d _. by destruct d. }
  destruct x as [xs|xs|xs], to; cbn [num_cast]; simpl in Hw.
  - (* logical to logical *)
    split.
    + intros _. exists (NLgl xs). split_and!; [done..|]. apply Hid; [done..|]. simpl. apply Hint.
    + intros Hn. exfalso. apply Hn. simpl. rewrite Forall_fmap. eapply Forall_impl; [exact Hw|].
      apply lgl_representable.
  - (* logical to integer *)
    rewrite lgl_int_spec. cbn [bind]. split.
    + intros _. exists (NInt xs). split_and!; [done|done|..].
      * simpl. eapply Forall_impl; [exact Hw|apply lgl_wf_int].
      * apply (Hid (NInt xs)); [done| |done|simpl; apply Hint].
        simpl. eapply Forall_impl; [exact Hw|apply lgl_wf_int].
    + intros Hn. exfalso. apply Hn. simpl. rewrite Forall_fmap. eapply Forall_impl; [exact Hw|].
      intros z Hz. destruct (Z.eqb_spec z NA_INTEGER) as [->|Hne]; [done|]. simpl. rewrite int_num_val by done. simpl.
      exists z. rewrite <- dscale_eq. split; [done|]. destruct Hz as [->|[->| ->]]; lia || done.
  - (* logical to double *)
    rewrite lgl_dbl_spec.
    destruct (int_dbl_spec xs) as (ys & -> & H); [eapply Forall_impl; [exact Hw|apply lgl_wf_int]|].
    cbn [bind]. split; [|intros Hn; exfalso; apply Hn, Hall].
    intros _. exists (NDbl ys). rewrite Hdbl. split_and!; [done|done|..]; simpl.
    + clear -H. induction H as [|? ? ? ? [_ ?]]; by constructor.
    + clear -H. induction H as [|x y xs ys [E ?] _ IH]; simpl; [done|]. by rewrite E, IH.
  - (* integer to logical *)
    destruct (int_lgl_spec xs Hw) as [(Hg & ys & -> & H)|[Hg ->]]; cbn [bind].
    + split; [intros _|intros Hn; exfalso; apply Hn; simpl; by rewrite Forall_fmap].
      assert (ys = xs) as -> by (clear -H; induction H as [|? ? ? ? [-> _]]; by subst).
      exists (NLgl xs). split_and!; [done|done|..].
      * simpl. clear -H. induction H as [|x y xs ys [<- ?] _ IH]; by constructor.
      * change (num_sem (NLgl xs)) with (num_sem (NInt xs)).
        symmetry. apply list_eq. intros i. rewrite list_lookup_fmap. simpl. rewrite list_lookup_fmap.
        destruct (xs !! i) as [z|]; simpl; [|done]. unfold int_num. by destruct (int_sem z).
    + split; [intros Hn; exfalso; apply Hg; simpl in Hn; by rewrite Forall_fmap in Hn|].
      intros _. destruct (r_logical_integer_err xs Hw Hg) as [e ->]. by exists e.
  - (* integer to integer *)
    split.
    + intros _. exists (NInt xs). split_and!; [done..|]. apply Hid; [done..|]. simpl. apply Hint.
    + intros Hn. exfalso. apply Hn. simpl. rewrite Forall_fmap. eapply Forall_impl; [exact Hw|].
      intros z Hz. destruct (Z.eqb_spec z NA_INTEGER) as [->|Hne]; [done|]. simpl. rewrite int_num_val by done. simpl.
      exists z. rewrite <- dscale_eq. split; [done|]. unfold is_int, NA_INTEGER, INT_MIN, INT_MAX in *.
      change (2 ^ 31)%Z with 2147483648%Z. lia.
  - (* integer to double *)
    destruct (int_dbl_spec xs Hw) as (ys & -> & H).
    cbn [bind]. split; [|intros Hn; exfalso; apply Hn, Hall].
    intros _. exists (NDbl ys). rewrite Hdbl. split_and!; [done|done|..]; simpl.
    + clear -H. induction H as [|? ? ? ? [_ ?]]; by constructor.
    + clear -H. induction H as [|x y xs ys [E ?] _ IH]; simpl; [done|]. by rewrite E, IH.
  - (* double to logical *)
    destruct (dbl_lgl_spec xs Hw) as [(Hg & ys & -> & H)|[Hg ->]]; cbn [bind].
    + split; [intros _|intros Hn; exfalso; apply Hn; simpl; by rewrite Forall_fmap].
      exists (NLgl ys). split_and!; [done|done|..]; simpl.
      * clear -H. induction H as [|? ? ? ? [_ ?]]; by constructor.
      * apply sem_int_map. eapply Forall2_impl; [exact H|]. intros a b [? ?]. split; [done|by apply lgl_wf_int].
    + split; [intros Hn; exfalso; apply Hg; simpl in Hn; by rewrite Forall_fmap in Hn|].
      intros _. destruct (r_logical_double_err xs Hw Hg) as [e ->]. by exists e.
  - (* double to integer *)
    destruct (dbl_int_spec xs Hw) as [(Hg & ys & -> & H)|[Hg ->]]; cbn [bind].
    + split; [intros _|intros Hn; exfalso; apply Hn; simpl; by rewrite Forall_fmap].
      exists (NInt ys). split_and!; [done|done|..]; simpl.
      * clear -H. induction H as [|? ? ? ? [_ ?]]; by constructor.
      * by apply sem_int_map.
    + split; [intros Hn; exfalso; apply Hg; simpl in Hn; by rewrite Forall_fmap in Hn|].
      intros _. destruct (r_integer_double_err xs Hw Hg) as [e ->]. by exists e.
  - (* double to double *)
    split; [|intros Hn; exfalso; apply Hn, Hall].
    intros _. exists (NDbl xs). by rewrite Hdbl.
Qed.

(** A double vector and its casts: [1, NA, -0] is an integer vector, [1.5] and
    [2^31] are not. *)
Definition d_one : dbl := dbl_of_int 1.
Definition d_three_halves : dbl := 4609434218613702656%Z.
Definition d_two31 : dbl := 4746794007248502784%Z.
Example C36_ex :
  num_cast (NDbl [d_one; NA_REAL; neg_zero]) NTInt = Ok (NInt [1; NA_INTEGER; 0]%Z) /\
  num_wf (NDbl [d_one; NA_REAL; neg_zero]) /\
  (exists e, num_cast (NDbl [d_one; d_three_halves]) NTInt = Err e) /\
  (exists e, num_cast (NDbl [d_two31]) NTInt = Err e) /\
  num_cast (NInt [7; NA_INTEGER; -3]%Z) NTDbl = Ok (NDbl [4619567317775286272; NA_REAL; 13837309855095848960]%Z).
Proof.
  split; [vm_compute; reflexivity|]. split.
  { repeat constructor; vm_compute; congruence. }
  split; [eexists; vm_compute; reflexivity|].
  split; [eexists; vm_compute; reflexivity|]. vm_compute. reflexivity.
Qed.

(** Casting back returns the original vector (up to the sign of zero and the
    payload of NA for doubles; exactly for integers and logicals). *)
Lemma int_num_inj x y : int_num x = int_num y -> x = y.
Proof.
  destruct (Z.eqb_spec x NA_INTEGER) as [->|Hx], (Z.eqb_spec y NA_INTEGER) as [->|Hy]; [done|..].
  - by rewrite int_num_na, int_num_val.
  - by rewrite int_num_na, int_num_val.
  - rewrite !int_num_val by done. intros [= H]. by apply dscale_mul_eq.
Qed.
Lemma map_int_num_inj xs ys : map int_num xs = map int_num ys -> xs = ys.
Proof.
  revert ys. induction xs as [|x xs IH]; intros [|y ys]; simpl; try discriminate; [done|].
  intros [= H1 H2]. f_equal; [by apply int_num_inj|by apply IH].
Qed.
Definition num_same (x y : num_vec) : Prop :=
  match x, y with NDbl _, NDbl _ => num_sem x = num_sem y | _, _ => x = y end.

Theorem C36_roundtrip x to y :
  num_wf x -> SNan ∉ num_sem x -> num_cast x to = Ok y ->
  exists z, num_cast y (num_typeof x) = Ok z /\ num_same x z.
Proof.
  intros Hw Hn Hc. destruct (C36_cast x to Hw) as [HY HN].
  assert (Forall (representable to) (num_sem x)) as Hr.
  { destruct (decide (Forall (representable to) (num_sem x))) as [|Hno]; [done|].
    destruct (HN Hno) as [e He]. congruence. }
  destruct (HY Hr) as (y' & Hc' & Ht & Hwy & Hsem). assert (y' = y) as -> by congruence. clear HY HN Hc'.
  assert (Hs : num_sem y = num_sem x).
  { rewrite Hsem. apply list_eq. intros i. rewrite list_lookup_fmap.
    destruct (num_sem x !! i) as [d|] eqn:E; [|done]. simpl. f_equal.
    apply elem_of_list_lookup_2 in E. destruct d, to; try done; by destruct Hn. }
  destruct (C36_cast y (num_typeof x) Hwy) as [HY _].
  destruct HY as (z & Hz & Htz & Hwz & Hsz).
  { rewrite Hs. destruct x as [xs|xs|xs]; simpl in *.
    - rewrite Forall_fmap. eapply Forall_impl; [exact Hw|]. apply lgl_representable.
    - rewrite Forall_fmap. eapply Forall_impl; [exact Hw|]. intros v Hv. simpl.
      destruct (Z.eqb_spec v NA_INTEGER) as [->|Hne]; [done|]. rewrite int_num_val by done. simpl. exists v.
      rewrite <- dscale_eq. split; [done|]. unfold is_int, NA_INTEGER, INT_MIN, INT_MAX in *.
      change (2 ^ 31)%Z with 2147483648%Z. lia.
    - apply Forall_forall. intros d _. by destruct d. }
  exists z. split; [done|].
  assert (Hzx : num_sem z = num_sem x).
  { rewrite Hsz, Hs. apply list_eq. intros i. rewrite list_lookup_fmap.
    destruct (num_sem x !! i) as [d|] eqn:E; [|done]. simpl. f_equal.
    apply elem_of_list_lookup_2 in E. destruct d, (num_typeof x); try done; by destruct Hn. }
  destruct x as [xs|xs|xs], z as [zs|zs|zs]; try discriminate; simpl in *.
  - f_equal. by apply map_int_num_inj.
  - f_equal. by apply map_int_num_inj.
  - done.
Qed.

(** Without the restriction on NaN the round trip fails: NaN becomes NA. *)
Theorem C36_roundtrip_nan_refuted :
  exists x to y z, num_wf x /\ num_cast x to = Ok y /\ num_cast y (num_typeof x) = Ok z /\ ~ num_same x z.
Proof.
  exists (NDbl [R_NaN]), NTInt, (NInt [NA_INTEGER]), (NDbl [NA_REAL]).
  split; [repeat constructor; vm_compute; congruence|].
  split; [vm_compute; reflexivity|]. split; [vm_compute; reflexivity|]. vm_compute. congruence.
Qed.

(** chr_as_logical (exported by cast-bare.h, no caller): exactly the six
    spellings are accepted. *)
Definition true_spellings : list (list Z) := [[84]; [84; 82; 85; 69]; [116; 114; 117; 101]]%Z.
Definition false_spellings : list (list Z) := [[70]; [70; 65; 76; 83; 69]; [102; 97; 108; 115; 101]]%Z.
Definition spells (s : rstr) (v : Z) : Prop :=
  match s with
  | None => v = NA_LOGICAL
  | Some b => (b ∈ true_spellings /\ v = 1%Z) \/ (b ∈ false_spellings /\ v = 0%Z)
  end.
Theorem C36_chr_as_logical xs :
  (exists ys, chr_as_logical xs = Ok (Some ys) /\ Forall2 spells xs ys) \/
  (chr_as_logical xs = Ok None /\ ~ Forall (fun s => exists v, spells s v) xs).
Proof.
  unfold chr_as_logical.
  match goal with |- context [cast_loop ?f xs] =>
    destruct (cast_loop_spec f (fun s => exists v, spells s v) spells xs) as [[_ H]|[H1 H2]]; [|by left|by right]
  end.
  intros [b|] _; [|left; split; [by exists NA_LOGICAL|by exists NA_LOGICAL]].
  assert (Hneg : b ∉ true_spellings -> b ∉ false_spellings -> ~ exists v, spells (Some b) v).
  { intros Ht Hf [v [[? _]|[? _]]]; done. }
  assert (Hd : b ∈ true_spellings \/ b ∈ false_spellings \/ (b ∉ true_spellings /\ b ∉ false_spellings)).
  { destruct (decide (b ∈ true_spellings)); [auto|]. destruct (decide (b ∈ false_spellings)); auto. }
  destruct Hd as [Ht|[Hf|[Ht Hf]]].
  - left. split; [exists 1%Z; by left|]. exists 1%Z. split; [|by left].
    unfold true_spellings in Ht. rewrite !elem_of_cons, elem_of_nil in Ht.
    destruct Ht as [->|[->|[->|[]]]]; reflexivity.
  - left. split; [exists 0%Z; by right|]. exists 0%Z. split; [|by right].
    unfold false_spellings in Hf. rewrite !elem_of_cons, elem_of_nil in Hf.
    destruct Hf as [->|[->|[->|[]]]]; reflexivity.
  - right. split; [by apply Hneg|].
    unfold true_spellings, false_spellings in *. rewrite !elem_of_cons, elem_of_nil in Ht, Hf.
    destruct b as [|c b]; [done|].
    destruct (Z.eq_dec c 84%Z) as [->|N1].
    { rewrite !bool_decide_eq_false_2; [done|naive_solver..]. }
    destruct (Z.eq_dec c 70%Z) as [->|N2].
    { rewrite !bool_decide_eq_false_2; [done|naive_solver..]. }
    destruct (Z.eq_dec c 116%Z) as [->|N3].
    { rewrite !bool_decide_eq_false_2; [done|naive_solver..]. }
    destruct (Z.eq_dec c 102%Z) as [->|N4].
    { rewrite !bool_decide_eq_false_2; [done|naive_solver..]. }
    clear -N1 N2 N3 N4. destruct c as [|p|p]; [done| |done].
    repeat (destruct p as [p|p|]; try done; try lia).
Qed.
Example C36_chr_as_logical_ex :
  chr_as_logical [Some [84]; None; Some [102; 97; 108; 115; 101]]%Z = Ok (Some [1; NA_LOGICAL; 0]%Z) /\
  chr_as_logical [Some [84; 114; 117; 101]]%Z = Ok None.
Proof. split; reflexivity. Qed.

Print Assumptions C36_cast.
Print Assumptions C36_roundtrip.
Print Assumptions C36_roundtrip_nan_refuted.
Print Assumptions C36_chr_as_logical.
