(** * C23: subscripts are converted to locations as documented, or an error. *)
From Verif Require Import Base M_Double M_Scalar M_Object M_Proxy M_Cast M_Slice M_Subscript
  Spec_Value Spec_Cast Spec_Slice Spec_Subscript L_Dbl L_Cast L_Slice L_Value L_Subscript P_Cast P_Slice.

#[local] Arguments Z.mul : simpl never.
#[local] Arguments Z.add : simpl never.
#[local] Arguments Z.sub : simpl never.

(** ** Logical subscripts *)
Theorem C23_lgl (x : named Z) (n : nat) opts :
  Forall lgl_wf x.1 -> named_ok x -> (Z.of_nat n <= INT_MAX)%Z ->
  (length x.1 <> n -> length x.1 <> 1 -> exists e, lgl_as_location x (Z.of_nat n) opts = Err e) /\
  (length x.1 = n \/ length x.1 = 1 ->
    (o_missing opts = MissingError -> NA_LOGICAL ∈ x.1 -> exists e, lgl_as_location x (Z.of_nat n) opts = Err e) /\
    (~ (o_missing opts = MissingError /\ NA_LOGICAL ∈ x.1) ->
       lgl_as_location x (Z.of_nat n) opts = Ok (lgl_locations (o_missing opts) (lgl_recycled x n)))).
Proof. apply lgl_as_location_spec. Qed.
Example C23_lgl_ex :
  lgl_as_location ([1; 0; NA_LOGICAL; 1], Some [Some [97]; Some [98]; Some [99]; None])%Z 4 default_opts =
    Ok ([1; NA_INTEGER; 4]%Z, Some [Some [97]; Some [99]; None]%Z) /\
  lgl_as_location ([1; 0; NA_LOGICAL; 1], None)%Z 4 (LocOpts MissingRemove NegativeInvert OobError ZeroRemove) =
    Ok ([1; 4]%Z, None) /\
  lgl_as_location ([1]%Z, None) 3 default_opts = Ok ([1; 2; 3]%Z, None) /\
  (exists e, lgl_as_location ([1; 1]%Z, None) 3 default_opts = Err e).
Proof.
  split; [vm_compute; reflexivity|]. split; [vm_compute; reflexivity|]. split; [vm_compute; reflexivity|].
  eexists. vm_compute. reflexivity.
Qed.

(** ** Integer subscripts *)
(** Without inversion, the subscript is an error exactly when the options say
    so, and otherwise what is to be removed is removed, with the names. *)
Theorem C23_int (x : named Z) (n : nat) opts :
  Forall is_int x.1 -> named_ok x -> (Z.of_nat n <= INT_MAX)%Z ->
  ~ (o_negative opts = NegativeInvert /\ has_negative x.1) ->
  (int_bad opts (Z.of_nat n) x.1 -> exists e, int_as_location x (Z.of_nat n) opts = Err e) /\
  (~ int_bad opts (Z.of_nat n) x.1 -> ~ abs_of_na opts (Z.of_nat n) x.1 ->
     int_as_location x (Z.of_nat n) opts = Ok (kept (int_keep opts (Z.of_nat n)) x)).
Proof.
  intros Hx Hnm Hn Hinv. destruct (int_as_location_spec x n opts Hx Hnm Hn Hinv) as [[H1 H2]|[H1 H2]]; tauto.
Qed.
Example C23_int_ex :
  int_as_location ([3; 0; NA_INTEGER; 2; 9], Some [Some [97]; Some [98]; Some [99]; None; Some [100]])%Z 4
    (LocOpts MissingRemove NegativeError OobRemove ZeroRemove) = Ok ([3; 2]%Z, Some [Some [97]%Z; None]) /\
  int_as_location ([6; 2; 5; NA_INTEGER]%Z, None) 4 (LocOpts MissingPropagate NegativeInvert OobExtend ZeroRemove) =
    Ok ([6; 2; 5; NA_INTEGER]%Z, None) /\
  (exists e, int_as_location ([7; 2; 5]%Z, None) 4 (LocOpts MissingPropagate NegativeInvert OobExtend ZeroRemove) = Err e) /\
  (exists e, int_as_location ([5]%Z, None) 4 default_opts = Err e).
Proof.
  split; [vm_compute; reflexivity|]. split; [vm_compute; reflexivity|]. split; [eexists; vm_compute; reflexivity|].
  eexists. vm_compute. reflexivity.
Qed.
(** With inversion, the result is the ordered complement. *)
Theorem C23_invert (x : named Z) (n : nat) opts :
  Forall is_int x.1 -> (Z.of_nat n <= INT_MAX)%Z ->
  o_negative opts = NegativeInvert -> has_negative x.1 ->
  (invert_bad opts (Z.of_nat n) x.1 -> exists e, int_as_location x (Z.of_nat n) opts = Err e) /\
  (~ invert_bad opts (Z.of_nat n) x.1 ->
     int_as_location x (Z.of_nat n) opts = Ok (complement n x.1, None)).
Proof.
  intros Hx Hn Ho Hneg. unfold int_as_location.
  destruct (count_loop_invert x.1 (Z.of_nat n) opts (0, 0, 0)%Z Hx ltac:(lia) Ho Hneg) as [(e & -> & Hb)| ->]; cbn [bind].
  - split; [by eexists|]. done.
  - destruct (int_invert_spec x n opts Hx Hn) as [[H1 H2]|[H1 H2]]; tauto.
Qed.
Example C23_invert_ex :
  has_negative [-2; 0; -4; -2]%Z /\ ~ invert_bad default_opts 5 [-2; 0; -4; -2]%Z /\
  int_as_location ([-2; 0; -4; -2]%Z, None) 5 default_opts = Ok ([1; 3; 5]%Z, None) /\
  (exists e, int_as_location ([-2; 3]%Z, None) 5 default_opts = Err e).
Proof.
  split; [exists (-2)%Z; split; [left|done]|]. split.
  { intros [[H1 H2]|[[H1 H2]|[(e & H1 & H2)|[H1 (e & H2 & H3 & H4)]]]].
    - rewrite !elem_of_cons, elem_of_nil in H2. unfold NA_INTEGER, INT_MIN in H2. lia.
    - done.
    - rewrite !elem_of_cons, elem_of_nil in H1. lia.
    - rewrite !elem_of_cons, elem_of_nil in H2. lia. }
  split; [vm_compute; reflexivity|]. eexists. vm_compute. reflexivity.
Qed.
(** With out-of-bounds removal, [abs(NA_INTEGER)] is evaluated (subscript-loc.c:369). *)
Theorem C23_abs_na_refuted :
  exists (x : named Z) (n : nat) opts, Forall is_int x.1 /\ named_ok x /\ (Z.of_nat n <= INT_MAX)%Z /\
    ~ has_negative x.1 /\ ~ int_bad opts (Z.of_nat n) x.1 /\
    exists msg, int_as_location x (Z.of_nat n) opts = UB msg.
Proof.
  exists ([NA_INTEGER; 3]%Z, None), 2, (LocOpts MissingPropagate NegativeError OobRemove ZeroRemove).
  split; [repeat constructor; unfold is_int, NA_INTEGER, INT_MIN, INT_MAX; lia|].
  split; [done|]. split; [done|].
  assert (Hneg : ~ has_negative [NA_INTEGER; 3]%Z).
  { intros (e & He & Hna & H). rewrite !elem_of_cons, elem_of_nil in He. lia. }
  split; [done|]. split.
  { intros [[? _]|[[? _]|[[_ ?]|[[? _]|[? _]]]]]; done. }
  eexists. vm_compute. reflexivity.
Qed.

(** ** Double subscripts *)
(** Exact integers (NaN and NA are missing) or an error. *)
Theorem C23_dbl (xs : list dbl) : Forall dbl_wf xs ->
  (Forall (fun x => representable NTInt (dbl_sem x)) xs ->
     exists ys, dbl_cast_subscript xs = Ok ys /\ Forall is_int ys /\
       map int_num ys = map (as_missing NTInt) (map dbl_sem xs)) /\
  (~ Forall (fun x => representable NTInt (dbl_sem x)) xs -> exists e, dbl_cast_subscript xs = Err e).
Proof.
  intros Hx. destruct (dbl_subscript_spec xs Hx) as [(Hg & ys & -> & H)|[Hg ->]].
  - split; [|done]. intros _. exists ys. split; [done|]. split.
    + clear -H. induction H as [|? ? ? ? [_ ?]]; by constructor.
    + by apply sem_int_map.
  - split; [done|]. intros _. destruct (C36_cast (NDbl xs) NTInt Hx) as [_ H].
    destruct H as [e ->]; [|by exists e]. simpl. by rewrite Forall_fmap.
Qed.
Example C23_dbl_ex : (* c(2, -1, NA), 1.5 and Inf *)
  dbl_cast_subscript [4611686018427387904; 13830554455654793216; NA_REAL]%Z = Ok [2; -1; NA_INTEGER]%Z /\
  (exists e, dbl_cast_subscript [4609434218613702656]%Z = Err e) /\
  (exists e, dbl_cast_subscript [9218868437227405312]%Z = Err e).
Proof.
  split; [vm_compute; reflexivity|]. split; eexists; vm_compute; reflexivity.
Qed.

(** ** Character subscripts *)
Theorem C23_chr (x : named rstr) nms opts :
  named_ok x -> (Z.of_nat (length x.1) <= INT_MAX)%Z ->
  (exists e, chr_as_location x None opts = Err e) /\
  (chr_bad opts nms x.1 -> exists e, chr_as_location x (Some nms) opts = Err e) /\
  (~ chr_bad opts nms x.1 ->
     exists locs, chr_as_location x (Some nms) opts = Ok (locs, (kept (chr_keep opts) x).2) /\
       Forall2 (chr_located nms) (kept (chr_keep opts) x).1 locs).
Proof.
  intros Hnm Hn. split; [by eexists|].
  destruct (chr_as_location_spec x nms opts Hnm Hn) as [[Hb He]|[Hb ->]]; [by split|]. split; [done|].
  intros _. eexists. split; [done|]. apply Forall2_fmap_r, Forall_Forall2_diag, Forall_forall. intros s Hs.
  unfold kept in Hs. cbn [fst] in Hs. apply elem_of_list_filter in Hs as [_ Hs].
  unfold chr_located, chr_loc. destruct s as [s|]; [|done]. apply match_first_located.
  destruct (decide (Some s ∈ nms)) as [|Hni]; [done|]. exfalso. apply Hb. right; right. by exists (Some s).
Qed.
Example C23_chr_ex :
  chr_as_location ([Some [98]; None; Some [97]]%Z, Some [Some [120]; Some [121]; Some [122]]%Z)
    (Some [Some [97]; Some [98]; Some [98]; None]%Z) (LocOpts MissingRemove NegativeInvert OobError ZeroRemove) =
    Ok ([2; 1]%Z, Some [Some [120]; Some [122]]%Z) /\
  chr_as_location ([Some [98]; None]%Z, None) (Some [Some [97]; Some [98]]%Z) default_opts = Ok ([2; NA_INTEGER]%Z, None) /\
  (exists e, chr_as_location ([Some [99]]%Z, None) (Some [Some [97]; Some [98]]%Z) default_opts = Err e).
Proof.
  split; [vm_compute; reflexivity|]. split; [vm_compute; reflexivity|]. eexists. vm_compute. reflexivity.
Qed.

(** ** All subscripts *)
Definition index_size (i : index) : nat :=
  match i with
  | INull => 0
  | ILgl x | IInt x => length x.1
  | IDbl x => length x.1
  | IChr x => length x.1
  end.

#[local] Instance loc_negative_dec (a b : loc_negative) : Decision (a = b).
Proof. solve_decision. Defined.
Lemma loc_ok_int (x : named Z) (n : nat) opts :
  Forall is_int x.1 -> named_ok x -> (Z.of_nat n <= INT_MAX)%Z ->
  o_oob opts <> OobExtend -> o_negative opts <> NegativeIgnore -> o_zero opts <> ZeroIgnore ->
  (o_oob opts <> OobRemove \/ o_missing opts <> MissingPropagate) ->
  match int_as_location x (Z.of_nat n) opts with
  | Ok r => Forall (loc_ok (Z.of_nat n)) r.1 /\ named_ok r
  | Err _ => True
  | UB _ => False
  end.
Proof.
  intros Hx Hnm Hn Ho Hneg Hz Hub.
  assert (Hd : has_negative x.1 \/ ~ has_negative x.1).
  { destruct (existsb (fun e => negb (e =? NA_INTEGER)%Z && (e <? 0)%Z) x.1) eqn:E.
    - left. apply existsb_exists in E as (e & He & H). exists e. split; [by apply elem_of_list_In|].
      apply andb_true_iff in H as [H1 H2]. apply Z.ltb_lt in H2. split; [|done]. by destruct (Z.eqb_spec e NA_INTEGER).
    - right. intros (e & He & H1 & H2). assert (existsb (fun e => negb (e =? NA_INTEGER)%Z && (e <? 0)%Z) x.1 = true); [|congruence].
      apply existsb_exists. exists e. split; [by apply elem_of_list_In|]. destruct (Z.eqb_spec e NA_INTEGER); [done|]. by apply Z.ltb_lt. }
  destruct (decide (o_negative opts = NegativeInvert)) as [Hi|Hi]; [destruct Hd as [Hd|Hd]|].
  { destruct (int_invert_spec x n opts Hx Hn) as [[H1 H2]|[H1 H2]].
    - destruct (C23_invert x n opts Hx Hn Hi Hd) as [H _]. by destruct (H H1) as [e ->].
    - destruct (C23_invert x n opts Hx Hn Hi Hd) as [_ H]. rewrite H by done. split; [|done]. cbn [fst].
      apply Forall_forall. intros e He. unfold complement in He. apply elem_of_list_filter in He as [_ He].
      apply elem_of_list_fmap in He as (k & -> & Hk). apply elem_of_seq in Hk. right. lia. }
  all: destruct (int_as_location_spec x n opts Hx Hnm Hn) as [[H1 [e ->]]|[H1 H2]]; [tauto|done|].
  all: rewrite H2 by (intros (? & ? & _); naive_solver); split; [|by apply kept_named_ok].
  all: apply Forall_forall; intros e He; unfold kept in He; cbn [fst] in He; apply elem_of_list_filter in He as [Hk He].
  all: unfold int_keep in Hk; unfold loc_ok.
  all: destruct (Z.eqb_spec e NA_INTEGER) as [|Hna]; [by left|right].
  all: destruct (Z.eqb_spec e 0) as [Ee|H0]; [exfalso; destruct (o_zero opts) eqn:Ez; [done| |done]; apply H1; right; left; rewrite <- Ee; done|].
  all: assert (Hpos : (0 < e)%Z) by (destruct (Z.lt_ge_cases 0 e) as [|Hlt]; [done|]; exfalso;
     (apply Hd; exists e; split; [done|]; split; [done|lia]) ||
     (apply H1; right; right; left; split; [by destruct (o_negative opts)|]; exists e; split; [done|]; split; [done|lia])).
  all: destruct (Z.ltb_spec (Z.of_nat n) (Z.abs e)) as [Hb|Hb]; [|lia].
  all: destruct (o_oob opts) eqn:Eo; [|done|done]; exfalso; apply H1; right; right; right; left; split; [done|];
     exists e; split; [done|]; split; done.
Qed.

(** Whatever the subscript, the result is an error or locations that are missing
    or in [1..n], with names that go with them. *)
Theorem C23_in_range i (n : nat) names opts :
  index_ok i -> (Z.of_nat n <= INT_MAX)%Z -> (Z.of_nat (index_size i) <= INT_MAX)%Z ->
  (forall nms, names = Some nms -> length nms <= n) ->
  o_oob opts <> OobExtend -> o_negative opts <> NegativeIgnore -> o_zero opts <> ZeroIgnore ->
  (o_oob opts <> OobRemove \/ o_missing opts <> MissingPropagate) ->
  match vec_as_location_opts i (Z.of_nat n) names opts with
  | Ok r => Forall (loc_ok (Z.of_nat n)) r.1 /\ named_ok r
  | Err _ => True
  | UB _ => False
  end.
Proof.
  intros Hi Hn Hsz Hnms Ho Hneg Hz Hub. destruct i as [|x|x|x|x]; cbn [vec_as_location_opts index_size] in *.
  - apply loc_ok_int; try done. constructor.
  - destruct Hi as [Hx Hnm]. destruct (C23_lgl x n opts Hx Hnm Hn) as [H1 H2].
    assert (Hrec : length (lgl_recycled x n).1 = n /\ named_ok (lgl_recycled x n)).
    { unfold lgl_recycled. destruct (bool_decide_reflect (length x.1 = n)); [by split|]. split; [apply replicate_length|].
      unfold named_ok. cbn [fst snd]. destruct x.2; [|done]. by rewrite !replicate_length. }
    destruct (Nat.eq_dec (length x.1) n) as [E|E]; [|destruct (Nat.eq_dec (length x.1) 1) as [E1|E1]].
    3:{ by destruct (H1 E E1) as [e ->]. }
    all: destruct H2 as [H2 H3]; [auto|].
    all: assert (Hc : (o_missing opts = MissingError /\ NA_LOGICAL ∈ x.1) \/ ~ (o_missing opts = MissingError /\ NA_LOGICAL ∈ x.1))
        by (destruct (o_missing opts), (decide (NA_LOGICAL ∈ x.1)); try (by left); right; tauto || by intros []).
    all: destruct Hc as [[Hc1 Hc2]|Hc]; [destruct (H2 Hc1 Hc2) as [e ->]; done|rewrite (H3 Hc)].
    all: destruct Hrec as [Hl Hnr]; unfold lgl_locations; cbn [fst]; split.
    1,3: apply Forall_fmap, Forall_forall; intros k Hk; apply positions_lt in Hk; simpl;
        destruct ((lgl_recycled x n).1 !! k) as [[|[]|]|]; try (by left); right; lia.
    all: unfold named_ok, names_at in *; cbn [fst snd]; destruct (lgl_recycled x n).2 as [ns|]; [|done];
        rewrite map_length; apply (names_at_length _ _ (length (lgl_recycled x n).1)); [done|apply positions_lt].
  - destruct Hi as [Hx Hnm]. by apply loc_ok_int.
  - destruct Hi as [Hx Hnm]. destruct (C23_dbl x.1 Hx) as [H1 H2].
    destruct (dbl_subscript_spec x.1 Hx) as [(Hg & ys & -> & H)|[Hg _]].
    + cbn [bind]. apply loc_ok_int; try done.
      * clear -H. cbn [fst]. induction H as [|? ? ? ? [_ ?]]; by constructor.
      * unfold named_ok in *. cbn [fst snd]. apply Forall2_length in H. by rewrite <- H.
    + by destruct (H2 Hg) as [e ->].
  - destruct names as [nms|]; [|by simpl].
    destruct (chr_as_location_spec x nms opts Hi Hsz) as [[Hb [e ->]]|[Hb ->]]; [done|]. split.
    + cbn [fst]. apply Forall_fmap, Forall_forall. intros s Hs. unfold kept in Hs. cbn [fst] in Hs.
      apply elem_of_list_filter in Hs as [_ Hs]. simpl. unfold chr_loc. destruct s as [s|]; [|by left]. right.
      destruct (match_first_spec nms (Some s) 1) as [[H1 _]|(k & -> & H2 & _)].
      * exfalso. apply Hb. right; right. by exists (Some s).
      * apply lookup_lt_Some in H2. specialize (Hnms nms eq_refl). lia.
    + unfold named_ok. cbn [fst snd]. pose proof (kept_named_ok (chr_keep opts) x Hi) as Hk. unfold named_ok in Hk.
      rewrite map_length. done.
Qed.
Example C23_in_range_ex :
  vec_as_location_opts (IChr ([Some [98]; Some [97]]%Z, None)) 3 (Some [Some [97]; Some [98]; None]%Z) default_opts =
    Ok ([2; 1]%Z, None) /\
  vec_as_location_opts (IDbl ([4611686018427387904; NA_REAL]%Z, None)) 3 None default_opts = Ok ([2; NA_INTEGER]%Z, None) /\
  vec_as_location_opts INull 3 None default_opts = Ok ([], None).
Proof. split; [vm_compute; reflexivity|]. split; vm_compute; reflexivity. Qed.

(** [vec_as_location(i, n, names)] does not check [names] against [n]: a
    character location can be past the end. *)
Theorem C23_chr_range_refuted :
  exists i (n : nat) names r, index_ok i /\
    vec_as_location_opts i (Z.of_nat n) (Some names) default_opts = Ok r /\ ~ Forall (loc_ok (Z.of_nat n)) r.1.
Proof.
  exists (IChr ([Some [98]]%Z, None)), 1, [Some [97]; Some [98]]%Z, ([2]%Z, None).
  split; [done|]. split; [vm_compute; reflexivity|]. intros H. inversion_clear H as [|? ? H1 _].
  destruct H1 as [H1|H1]; [done|lia].
Qed.

(** The public [vec_slice()]: an error, or the rows at the locations. *)
Theorem C23_vec_slice v i :
  value_ok v -> index_ok i -> (Z.of_nat (index_size i) <= INT_MAX)%Z ->
  match vec_as_location_opts i (value_size v) (vec_names v) default_opts with
  | Ok loc => exists out, vec_slice v i = Ok out /\ sliced loc.1 v out
  | Err e => vec_slice v i = Err e
  | UB _ => False
  end.
Proof.
  intros Hv Hi Hsz.
  assert (Hn : exists n : nat, value_size v = Z.of_nat n /\ (Z.of_nat n <= INT_MAX)%Z /\
     forall nms, vec_names v = Some nms -> length nms <= n).
  { inversion Hv as [t data names _ Hnm Hl|t dim data _ Hd Hz|n names cols Hl]; subst.
    - exists (length data). split; [done|]. split; [done|]. simpl. intros nms ->. lia.
    - destruct (dim_ok_cons _ Hd) as (d & ds & ->). destruct Hd as (_ & H0 & H2).
      exists (Z.to_nat d). inversion_clear H0 as [|? ? Hd0 Hds]. simpl. split; [lia|]. split; [|done].
      assert (1 <= zprod (map (Z.max 1) ds))%Z.
      { clear. induction ds as [|a ds IH]; cbn [map zprod]; [lia|]. pose proof (Z.le_max_l 1 a). revert H IH.
        generalize (Z.max 1 a) (zprod (map (Z.max 1) ds)). intros. nia. }
      cbn [map zprod] in H2. pose proof (Z.le_max_r 1 d). pose proof (Z.le_max_l 1 d). revert H H2 H0 H1.
      generalize (Z.max 1 d) (zprod (map (Z.max 1) ds)). intros. nia.
    - exists n. done. }
  destruct Hn as (n & Hs & Hn & Hnms). unfold vec_slice. rewrite Hs.
  pose proof (C23_in_range i n (vec_names v) default_opts Hi Hn Hsz Hnms ltac:(done) ltac:(done) ltac:(done) ltac:(by left)) as H.
  destruct (vec_as_location_opts i (Z.of_nat n) (vec_names v) default_opts) as [loc|e|m]; cbn [bind]; [|done|done].
  destruct H as [H _]. apply C24_slice; [done| |done]. split; [|done]. by rewrite Hs.
Qed.
Example C23_vec_slice_ex :
  vec_slice (VVec TInt [EInt 5; EInt 6; EInt 7] (Some [Some [97]; Some [98]; Some [99]]%Z)) (IInt ([-2]%Z, None)) =
    Ok (VVec TInt [EInt 5; EInt 7] (Some [Some [97]; Some [99]]%Z)) /\
  vec_slice (VDf 2 [Some [120]%Z] [VVec TInt [EInt 5; EInt 6] None]) (ILgl ([0; NA_LOGICAL]%Z, None)) =
    Ok (VDf 1 [Some [120]%Z] [VVec TInt [EInt NA_INTEGER] None]) /\
  (exists e, vec_slice (VVec TInt [EInt 5] None) (IInt ([2]%Z, None)) = Err e).
Proof.
  split; [vm_compute; reflexivity|]. split; [vm_compute; reflexivity|]. eexists. vm_compute. reflexivity.
Qed.

Print Assumptions C23_lgl.
Print Assumptions C23_int.
Print Assumptions C23_invert.
Print Assumptions C23_abs_na_refuted.
Print Assumptions C23_dbl.
Print Assumptions C23_chr.
Print Assumptions C23_in_range.
Print Assumptions C23_chr_range_refuted.
Print Assumptions C23_vec_slice.
