(** * C57: fields of records *)
From Verif Require Import Base M_Double M_Scalar M_Cast M_Fields Spec_Value Spec_Cast Spec_Fields L_Dbl L_Cast L_Fields.
#[local] Open Scope Z_scope.
#[local] Opaque dscale.

(** An integer names the position it counts to; anything else is an error. *)
Theorem C57_int {V} translate (x : flist V) val : is_int val ->
  match find_offset translate x (FInt [val]) with
  | Ok i => val <> NA_INTEGER /\ exists j, i = Z.of_nat j /\ val = Z.of_nat (j + 1) /\ (j < length (fl_elts x))%nat
  | Err _ => forall j, (j < length (fl_elts x))%nat -> val <> Z.of_nat (j + 1)
  | UB _ => False
  end.
Proof.
  intros Hi. unfold find_offset. cbn [findex_length length Nat.eqb negb rd list_lookup lookup bind].
  destruct (Z.eqb_spec val NA_INTEGER) as [->|Hna]; cbn.
  { intros j _. unfold NA_INTEGER, INT_MIN in *. lia. }
  destruct (Z.ltb_spec (val - 1) INT_MIN); cbn; [unfold is_int, NA_INTEGER in *; lia|].
  destruct (Z.ltb_spec (val - 1) 0); cbn; [intros j _; lia|].
  destruct (Z.leb_spec (Z.of_nat (length (fl_elts x))) (val - 1)); cbn; [intros j Hj; lia|].
  split; [done|]. exists (Z.to_nat (val - 1)). lia.
Qed.

(** A double names the position it counts to when its fraction is dropped. *)
Theorem C57_dbl_partial {V} translate (x : flist V) d :
  dbl_wf d -> dbl_sem d <> SNan -> Z.of_nat (length (fl_elts x)) <= INT_MAX ->
  match find_offset translate x (FDbl [d]) with
  | Ok i => exists v j, dbl_sem d = SNum v /\ i = Z.of_nat j /\ names_position v (length (fl_elts x)) j
  | Err _ => forall v j, dbl_sem d = SNum v -> ~ names_position v (length (fl_elts x)) j
  | UB _ => False
  end.
Proof.
  intros Hwf Hnn Hn. unfold find_offset. cbn [findex_length length Nat.eqb negb rd list_lookup lookup bind].
  set (n := length (fl_elts x)) in *. pose proof dscale_pos as HS.
  destruct (isnan d) eqn:Enan.
  { assert (Hna : dbl_sem d = SNa).
    { pose proof (isnan_sem d Hwf) as HH. destruct (dbl_sem d) as [| |v]; [done|done|]. congruence. }
    pose proof (dbl_classify_spec d Hwf) as HC. rewrite Hna in HC. rewrite HC. cbn. intros v j HH. by rewrite Hna in HH. }
  pose proof (dbl_value_spec d Hwf Enan) as Hsem.
  assert (HC : dbl_classify d = DblNumber) by (unfold dbl_classify; by rewrite Enan). rewrite HC. cbn [dbl_class_eqb].
  unfold dbl_dec. rewrite Enan. cbn [vlt_int vge_int vgt_int int_of_val].
  assert (Hnot : (dbl_value d < dscale \/ (Z.of_nat n + 1) * dscale <= dbl_value d) ->
    forall v j, dbl_sem d = SNum v -> ~ names_position v n j).
  { intros HH v j E [[H1 H2] H3]. rewrite Hsem in E. injection E as <-. rewrite <- dscale_eq in H1, H2.
    destruct HH as [HH|HH].
    - assert (1 * dscale <= Z.of_nat (j + 1) * dscale) by (apply Z.mul_le_mono_nonneg_r; lia). lia.
    - assert (Z.of_nat (j + 2) * dscale <= (Z.of_nat n + 1) * dscale) by (apply Z.mul_le_mono_nonneg_r; lia). lia. }
  destruct (Z.lt_ge_cases (dbl_value d) dscale) as [Hlo|Hlo].
  { pose proof (round_neg (dbl_value d - dscale) ltac:(lia)) as Hr.
    destruct (Z.ltb_spec (round_dbl (dbl_value d - dscale)) (0 * dscale)); [|lia]. cbn [orb]. apply Hnot. by left. }
  destruct (Z.lt_ge_cases (dbl_value d) ((Z.of_nat n + 1) * dscale)) as [Hhi|Hhi].
  2: { pose proof (round_ge (dbl_value d - dscale) (Z.of_nat n) ltac:(unfold INT_MAX in *; lia) ltac:(lia)) as Hr.
       destruct (Z.leb_spec (Z.of_nat n * dscale) (round_dbl (dbl_value d - dscale))); [|lia]. rewrite orb_true_r.
       apply Hnot. by right. }
  rewrite (dec_exact d Hlo).
  2: { assert ((Z.of_nat n + 1) * dscale <= 2 ^ 32 * dscale) by (apply Z.mul_le_mono_nonneg_r; unfold INT_MAX in *; lia). lia. }
  set (w := dbl_value d - dscale).
  destruct (Z.ltb_spec w (0 * dscale)); [lia|]. destruct (Z.leb_spec (Z.of_nat n * dscale) w); [lia|]. cbn [orb].
  assert (Hw : w < INT_MAX * dscale).
  { assert (Z.of_nat n * dscale <= INT_MAX * dscale) by (apply Z.mul_le_mono_nonneg_r; lia). lia. }
  destruct (Z.ltb_spec (INT_MAX * dscale) w); [lia|].
  rewrite Z.quot_div_nonneg by lia.
  pose proof (Z.div_mod w dscale ltac:(lia)) as Hdm. pose proof (Z.mod_pos_bound w dscale HS) as Hm.
  set (q := w / dscale) in *. set (r := w mod dscale) in *.
  assert (Hq0 : 0 <= q) by (apply Z.div_pos; lia).
  assert (Hqn : q < Z.of_nat n) by (apply Z.div_lt_upper_bound; lia).
  destruct (Z.leb_spec INT_MIN q); [|unfold INT_MIN, INT_MAX in *; lia].
  destruct (Z.leb_spec q INT_MAX); [|lia]. cbn [andb].
  exists (dbl_value d), (Z.to_nat q). split; [done|]. split; [lia|]. unfold names_position. rewrite <- dscale_eq.
  split; [|lia]. replace (Z.of_nat (Z.to_nat q + 1)) with (q + 1) by lia.
  replace (Z.of_nat (Z.to_nat q + 2)) with (q + 2) by lia. lia.
Qed.

(** NaN is not caught and is converted to an integer. *)
Theorem C57_dbl_refuted : exists d, dbl_wf d /\ dbl_sem d = SNan /\
  forall V translate (x : flist V), fl_elts x <> [] -> exists m, field_get translate x (FDbl [d]) = UB m.
Proof.
  exists R_NaN. split; [done|]. split; [done|]. intros V translate x Hx. exists "conversion of NaN to int"%string.
  unfold field_get, check_rcrd. destruct (fl_elts x) as [|v l] eqn:E; [done|]. reflexivity.
Qed.

(** A string names the first field whose name reads the same. *)
Theorem C57_name {V} translate utf8 (x : flist V) names s :
  (forall c, translate c = Ok (utf8 c)) -> fl_names x = Some names ->
  match find_offset translate x (FStr [Some s]) with
  | Ok i => exists j, i = Z.of_nat j /\ names_field utf8 names s j
  | Err _ => forall j, ~ names_field utf8 names s j
  | UB _ => False
  end.
Proof.
  intros Htr Hnames. unfold find_offset. cbn [findex_length length Nat.eqb negb]. rewrite Hnames.
  cbn [rd list_lookup lookup bind]. rewrite Htr. cbn [bind].
  destruct (decide (utf8 s = [])) as [E|E].
  { rewrite bool_decide_true by done. intros j (H & _). done. }
  rewrite bool_decide_false by done.
  assert (H : forall suf pre, names = pre ++ suf ->
    (forall k, (k < length pre)%nat -> exists c, names !! k = Some (Some c) /\ utf8 c <> utf8 s) ->
    match find_name translate s (utf8 s) suf (length pre) with
    | Ok j => names_field utf8 names s j | Err _ => forall j, ~ names_field utf8 names s j | UB _ => False end).
  { induction suf as [|[c|] suf IH]; intros pre Heq Hpre; cbn.
    - intros j (_ & (c & Hj & Hc) & _). rewrite app_nil_r in Heq. subst pre.
      destruct (Hpre j) as (c' & Hc1 & Hc2); [by eapply lookup_lt_Some|]. congruence.
    - assert (Hl : names !! length pre = Some (Some c)).
      { rewrite Heq, lookup_app_r, Nat.sub_diag by lia. done. }
      assert (Eq : equal_string translate s (utf8 s) c = Ok (bool_decide (utf8 c = utf8 s))).
      { unfold equal_string. destruct (decide (s = c)) as [->|Hne].
        - rewrite !bool_decide_true by done. done.
        - rewrite bool_decide_false by done. rewrite Htr. done. }
      rewrite Eq. cbn [bind]. destruct (decide (utf8 c = utf8 s)) as [Ec|Ec].
      + rewrite bool_decide_true by done. split; [done|]. split; [by exists c|done].
      + rewrite bool_decide_false by done. specialize (IH (pre ++ [Some c])).
        rewrite app_length, Nat.add_1_r in IH. apply IH.
        * rewrite <- app_assoc. done.
        * intros k Hk. destruct (decide (k = length pre)) as [->|?]; [by exists c|apply Hpre; lia].
    - assert (Hl : names !! length pre = Some None).
      { rewrite Heq, lookup_app_r, Nat.sub_diag by lia. done. }
      intros j (_ & (c & Hj & Hc) & Hk). destruct (Nat.lt_trichotomy j (length pre)) as [?|[->|Hgt]].
      + destruct (Hpre j) as (c' & Hc1 & Hc2); [done|]. congruence.
      + congruence.
      + destruct (Hk (length pre)) as (c' & Hc' & _); [done|]. congruence. }
  specialize (H names [] eq_refl ltac:(cbn; lia)). cbn [length] in H.
  destruct (find_name translate s (utf8 s) names 0) as [j| |]; cbn [bind]; [by exists j|done|done].
Qed.

(** Getting reads the position; setting replaces it and nothing else. *)
Theorem C57_get {V} translate (x : flist V) index v : field_get translate x index = Ok v ->
  exists j, find_offset translate x index = Ok (Z.of_nat j) /\ fl_elts x !! j = Some v.
Proof.
  unfold field_get, check_rcrd. destruct (length (fl_elts x) =? 0)%nat; [done|]. cbn [bind]. unfold list_get.
  destruct (find_offset translate x index) as [i| |] eqn:E; cbn [bind]; [|done|done]. unfold rdZ.
  destruct (Z.ltb_spec i 0); [done|]. intros Hr. apply rd_Ok in Hr. exists (Z.to_nat i). split; [f_equal; lia|done].
Qed.
Theorem C57_set {V} translate is_vector (vec_size : V -> nat) (x : flist V) index v x' :
  field_set translate is_vector vec_size x index v = Ok x' ->
  exists j, find_offset translate x index = Ok (Z.of_nat j) /\ (j < length (fl_elts x))%nat /\
    fl_elts x' = <[j := v]> (fl_elts x) /\ fl_names x' = fl_names x /\ is_vector v = true /\
    field_get translate x' index = Ok v /\
    (record_wf vec_size x -> record_wf vec_size x').
Proof.
  unfold field_set, check_rcrd. destruct (Nat.eqb_spec (length (fl_elts x)) 0) as [?|Hne]; [done|]. cbn [bind].
  destruct (is_vector v) eqn:Ev; [|done]. cbn [negb].
  destruct (rd (fl_elts x) 0) as [first| |] eqn:Ef; cbn [bind]; [|done|done].
  destruct (Nat.eqb_spec (vec_size v) (vec_size first)) as [Hs|?]; [|done]. cbn [negb].
  unfold list_set. destruct (find_offset translate x index) as [i| |] eqn:E; cbn [bind]; [|done|done].
  unfold wrZ. destruct (Z.ltb_spec i 0); [done|].
  destruct (decide (Z.to_nat i < length (fl_elts x))%nat) as [Hi|Hi].
  2: { unfold wr. destruct (Nat.ltb_spec (Z.to_nat i) (length (fl_elts x))); [lia|]. done. }
  rewrite wr_Ok by done. cbn [bind]. intros [= <-]. cbn [fl_elts fl_names].
  exists (Z.to_nat i). split; [f_equal; lia|]. do 4 (split; [done|]). split.
  - unfold field_get, check_rcrd. cbn [fl_elts]. rewrite insert_length.
    destruct (Nat.eqb_spec (length (fl_elts x)) 0) as [?|_]; [done|]. cbn [bind]. unfold list_get.
    assert (Ho : find_offset translate {| fl_elts := <[Z.to_nat i:=v]> (fl_elts x); fl_names := fl_names x |} index
      = find_offset translate x index).
    { unfold find_offset. cbn [fl_elts fl_names]. by rewrite insert_length. }
    rewrite Ho, E. cbn [bind fl_elts]. unfold rdZ. destruct (Z.ltb_spec i 0); [lia|]. apply rd_Ok.
    by apply list_lookup_insert.
  - intros (n & Hn1 & Hn2). exists n. cbn [fl_elts]. split.
    + intros Hnil. apply (f_equal length) in Hnil. rewrite insert_length in Hnil. done.
    + apply Forall_insert; [done|]. rewrite Hs. apply rd_Ok in Ef. by apply (proj1 (Forall_lookup _ _) Hn2 0%nat).
Qed.
(** A position that is named is found, so setting with a fit value succeeds. *)
Theorem C57_set_total {V} translate is_vector (vec_size : V -> nat) (x : flist V) index v j :
  find_offset translate x index = Ok (Z.of_nat j) -> (j < length (fl_elts x))%nat ->
  is_vector v = true -> (forall w, w ∈ fl_elts x -> vec_size w = vec_size v) ->
  exists x', field_set translate is_vector vec_size x index v = Ok x'.
Proof.
  intros E Hj Hv Hsz. unfold field_set, check_rcrd. destruct (Nat.eqb_spec (length (fl_elts x)) 0) as [?|_]; [lia|].
  cbn [bind]. rewrite Hv. cbn [negb]. destruct (lookup_lt_is_Some_2 (fl_elts x) 0) as [w Hw]; [lia|].
  rewrite (proj2 (rd_Ok _ _ _) Hw). cbn [bind].
  destruct (Nat.eqb_spec (vec_size v) (vec_size w)) as [_|Hne].
  2: { exfalso. apply Hne. symmetry. apply Hsz. by eapply elem_of_list_lookup_2. }
  cbn [negb]. unfold list_set. rewrite E. cbn [bind]. rewrite wrZ_nat, wr_Ok by done. cbn. eauto.
Qed.

(** a record with fields "a", "b" (sizes 3) *)
Definition ex_tr (c : charsxp) : res (list Z) := Ok (ch_bytes c).
Definition ex_x : flist (list Z) := FL [[1; 2; 3]; [4; 5; 6]] (Some [Some (Chr [97] 0); Some (Chr [98] 1)]).
Example C57_example :
  field_get ex_tr ex_x (FInt [2]) = Ok [4; 5; 6] /\
  (* 2.5 *) field_get ex_tr ex_x (FDbl [4612811918334230528]) = Ok [4; 5; 6] /\
  (* 0.5 *) (exists m, field_get ex_tr ex_x (FDbl [4602678819172646912]) = Err m) /\
  (* Inf *) (exists m, field_get ex_tr ex_x (FDbl [9218868437227405312]) = Err m) /\
  field_get ex_tr ex_x (FStr [Some (Chr [98] 0)]) = Ok [4; 5; 6] /\
  field_set ex_tr (fun _ => true) length ex_x (FStr [Some (Chr [97] 0)]) [7; 8; 9] =
    Ok (FL [[7; 8; 9]; [4; 5; 6]] (fl_names ex_x)) /\
  (exists m, field_set ex_tr (fun _ => true) length ex_x (FInt [1]) [7] = Err m) /\
  names_position (dbl_value 4612811918334230528) 2 1.
Proof.
  repeat match goal with |- _ /\ _ => split end; try (vm_compute; reflexivity); try (eexists; vm_compute; reflexivity).
  unfold names_position. split; [split; vm_compute; done|lia].
Qed.

Print Assumptions C57_int.
Print Assumptions C57_dbl_partial.
Print Assumptions C57_dbl_refuted.
Print Assumptions C57_name.
Print Assumptions C57_get.
Print Assumptions C57_set.
Print Assumptions C57_set_total.
