(** * Properties: building and flattening data frames (C50) *)
From Verif Require Import Base M_Double M_Scalar M_Object M_Proxy M_Growable M_Slice Spec_Slice M_Rep Spec_Rep M_Subscript M_Chop Spec_Chop
  L_Dbl L_Slice L_SliceArray L_Assign L_Value L_SliceVal L_Rep L_Recycle L_Chop L_Chop2 L_Chop3 P_Chop P_Rep
  M_Names Spec_Names L_Names2 P_Names M_Shape M_Factor Spec_Factor P_Factor M_Ptype P_Ptype M_Bind Spec_Bind L_Bind L_Bind2 L_Bind3 P_Bind
  M_DfList Spec_DfList L_DfList.
From Coq Require Import Lia ZifyBool ZifyNat.
#[local] Arguments Z.mul : simpl never.
#[local] Arguments Z.add : simpl never.
#[local] Arguments Z.sub : simpl never.
#[local] Arguments Z.to_nat : simpl never.
#[local] Arguments Z.of_nat : simpl never.

Definition input_ok (x : option value) : Prop := match x with Some v => value_ok v | None => True end.
Definition checks (s : Z) (x w : option value) : Prop := vec_check_recycle x s = Ok w.
Lemma recycle_opts_checks xs s ws : (0 <= s)%Z -> Forall2 (checks s) xs ws -> vec_recycle_common_opts xs s = Ok ws.
Proof.
  intros Hs H. unfold vec_recycle_common_opts. destruct (Z.ltb_spec s 0); [lia|]. pose proof (Forall2_length _ _ _ H) as Hl.
  edestruct (for_inv (fun i st => st = take i ws ++ drop i xs) 0 (length xs)) as (st & -> & ->).
  - done.
  - intros i st Hi ->. destruct (lookup_lt_is_Some_2 xs i) as [x Hx]; [lia|]. destruct (Forall2_lookup_l _ _ _ _ _ H Hx) as (w & Hw & Hc).
    assert (Hlt : length (take i ws) = i) by (rewrite take_length; lia).
    assert (Hr : (take i ws ++ drop i xs) !! i = Some x).
    { rewrite lookup_app_r by lia. rewrite Hlt, Nat.sub_diag, lookup_drop, Nat.add_0_r. done. }
    rewrite (proj2 (rd_Ok _ _ _) Hr). cbn [bind]. unfold checks in Hc. rewrite Hc. cbn [bind]. rewrite wr_Ok by (by eapply lookup_lt_Some).
    eexists. split; [done|]. rewrite (take_S_r _ _ _ Hw), (drop_S _ _ _ Hx). rewrite insert_app_r_alt by lia. rewrite Hlt, Nat.sub_diag. simpl.
    by rewrite <- app_assoc.
  - rewrite Nat.add_0_l, Hl, firstn_all, drop_ge by lia. by rewrite app_nil_r.
Qed.
Lemma size_fits_facts size xs nrow : Forall input_ok xs -> size_fits size xs nrow ->
  (0 <= nrow <= INT_MAX)%Z /\ Forall (fun n => n = nrow \/ n = 1%Z) (sizes_of xs) /\
  match size with None => vec_size_common xs 0 | Some s => Ok s end = Ok nrow.
Proof.
  intros Hx Hs. destruct size as [s|]; [destruct Hs as (-> & ? & ?); done|]. destruct (C22_size_common xs 0) as (C1 & C2 & _). destruct Hs as [[E ->]|Hc].
  - rewrite E. split; [unfold INT_MAX; lia|]. split; [done|by apply C1].
  - split; [|split; [|by apply C2]].
    + destruct Hc as [Hi _]. unfold sizes_of in Hi. apply in_map_iff in Hi as (v & <- & Hi). apply elem_of_list_In, elem_of_list_omap in Hi as (x & Hi & Ei).
      unfold id in Ei. subst x. rewrite Forall_forall in Hx. apply value_size_range. by apply (Hx _ Hi).
    + destruct Hc as [_ Hc]. apply Forall_forall. intros n Hi. apply Hc. by apply elem_of_list_In.
Qed.
Lemma size_fits_checks xs nrow : Forall input_ok xs -> (0 <= nrow <= INT_MAX)%Z -> Forall (fun n => n = nrow \/ n = 1%Z) (sizes_of xs) ->
  exists ws, Forall2 (checks nrow) xs ws /\ Forall2 (recycled nrow) xs ws.
Proof.
  intros Hx Hr Hsz. induction Hx as [|x xs Hx0 Hx IH]; [exists []; split; constructor|].
  destruct (check_recycle_spec x nrow) as (w & E1 & E2); [done|done| |].
  - destruct x as [v|]; [|done]. unfold sizes_of in Hsz. simpl in Hsz. apply Forall_cons in Hsz as [Hsz _]. exact Hsz.
  - destruct IH as (ws & I1 & I2). { destruct x as [v|]; [|done]. unfold sizes_of in *. simpl in Hsz. by apply Forall_cons in Hsz as [_ Hsz]. }
    exists (w :: ws). split; constructor; done.
Qed.
Lemma whole_all nrow xs ws : Forall input_ok xs -> (0 <= nrow)%Z -> Forall2 (recycled nrow) xs ws ->
  Forall whole ws /\ Forall (fun w => match w with Some v => value_size v = nrow | None => True end) ws.
Proof.
  intros Hx Hn R. induction R as [|x w xs ws Hxw R IH]; [done|]. apply Forall_cons in Hx as [Hx0 Hx]. destruct (IH Hx) as [I1 I2].
  destruct x as [v|]; [|simpl in Hxw; subst w; split; by constructor]. split; constructor; try done.
  - by eapply whole_recycled.
  - pose proof Hxw as (u & -> & _). by eapply recycled_size.
Qed.
Lemma whole_named w : whole w -> df_named w.
Proof. destruct w as [[]|]; simpl; try done. by intros [? _]. Qed.
Lemma entries_ents u names ws : entries u names ws = ents u (outer_names_of (length ws) names) ws.
Proof. by destruct names. Qed.
Lemma ents_twice u names ws : length names = length ws ->
  ents u (map fst (ents false names ws)) (map Some (map snd (ents false names ws))) = ents u names ws.
Proof.
  revert names. induction ws as [|w ws IH]; intros [|o names]; simpl; try done. intros [= Hl].
  rewrite !ents_cons, entry_false. destruct w as [v|]; [|by apply IH]. simpl. rewrite ents_cons. f_equal. by apply IH.
Qed.
Lemma df_list_checks addr r nrow u xs names ws : (0 <= nrow)%Z -> Forall2 (checks nrow) xs ws -> Forall whole ws -> names_fit (length xs) names ->
  df_list addr r nrow u xs names = let es := entries u names ws in
    let! nm := vec_as_names addr r (map fst es) in Ok (map Some (map snd es), nm).
Proof.
  intros Hn Hc Hw Hf. pose proof (Forall2_length _ _ _ Hc) as Hl. unfold df_list. rewrite (recycle_opts_checks _ _ _ Hn Hc). cbn [bind]. rewrite entries_ents.
  assert (Ho : length (outer_names_of (length ws) names) = length ws) by (apply outer_names_length; by rewrite <- Hl).
  change (match names with Some l => l | None => replicate (length ws) empty_str end) with (outer_names_of (length ws) names).
  generalize dependent (outer_names_of (length ws) names). intros os Ho.
  rewrite df_list_drop_null_spec by done. cbn [bind]. cbv zeta. destruct u; [|done].
  rewrite df_list_unpack_spec.
  - cbn [bind]. rewrite ents_twice by done. done.
  - by rewrite !map_length.
  - apply Forall_map. by apply Forall_true.
  - clear -Hw Ho. revert os Ho. induction Hw as [|w ws Hw0 Hw IH]; intros [|o os]; simpl; try done. intros [= Ho]. rewrite ents_cons, entry_false.
    destruct w as [v|]; [|by apply IH]. simpl. constructor; [by apply whole_named|by apply IH].
Qed.
Lemma entry_sizes u o w nrow : whole w -> match w with Some v => value_size v = nrow | None => True end -> Forall (fun e => value_size e.2 = nrow) (entry u o w).
Proof.
  intros Hw Hs. destruct w as [[t d nm|t dim d|n nm cols]|]; simpl; try by repeat constructor.
  destruct (u && _); [|by repeat constructor]. destruct Hw as [Hl Hf]. apply Forall_forall. intros [a c] Hc. apply elem_of_zip_r in Hc.
  rewrite Forall_forall in Hf. simpl. rewrite Hf by done. done.
Qed.
Lemma entries_sizes u names ws nrow : Forall whole ws -> Forall (fun w => match w with Some v => value_size v = nrow | None => True end) ws ->
  Forall (fun e => value_size e.2 = nrow) (entries u names ws).
Proof.
  intros Hw Hs. rewrite entries_ents. generalize (outer_names_of (length ws) names). unfold ents. induction ws as [|w ws IH]; intros [|o os]; simpl; try constructor.
  apply Forall_cons in Hw as [? ?], Hs as [? ?]. apply Forall_app. split; [by apply entry_sizes|by apply IH].
Qed.
Lemma rownames_size_new n : (0 <= n <= INT_MAX)%Z -> rownames_size (new_compact_rownames n) = Ok n.
Proof.
  intros Hn. unfold new_compact_rownames. destruct (Z.leb_spec n 0); [by replace n with 0%Z by lia|]. unfold rownames_size. cbn. unfold c_abs.
  destruct (Z.eqb_spec (- n) INT_MIN); [unfold INT_MIN, INT_MAX in *; lia|]. f_equal. lia.
Qed.

(** [df_list()] and [data_frame()] hold the inputs in order, recycled to the
    common size: each once under its own name, unnamed data frames column by
    column (if they are unpacked), and not [NULL]. *)
Theorem C50_df_list addr r size unpack xs names nrow :
  Forall input_ok xs -> names_fit (length xs) names -> size_fits size xs nrow ->
  exists ws, Forall2 (recycled nrow) xs ws /\
    let es := entries unpack names ws in
    Forall (fun e => value_size e.2 = nrow) es /\
    ffi_df_list addr r size unpack xs names =
      let! nm := vec_as_names addr r (map fst es) in Ok (map Some (map snd es), nm).
Proof.
  intros Hx Hn Hs. destruct (size_fits_facts _ _ _ Hx Hs) as (Hr & Hsz & Es). destruct (size_fits_checks _ _ Hx Hr Hsz) as (ws & K & R).
  destruct (whole_all nrow xs ws) as [W1 W2]; [done|lia|done|]. exists ws. split; [done|]. cbv zeta. split; [by apply entries_sizes|].
  unfold ffi_df_list. rewrite Es. cbn [bind]. apply df_list_checks; [lia|done|done|done].
Qed.
Theorem C50_data_frame addr r size xs names nrow :
  Forall input_ok xs -> names_fit (length xs) names -> size_fits size xs nrow ->
  exists ws, Forall2 (recycled nrow) xs ws /\
    let es := entries true names ws in
    Forall (fun e => value_size e.2 = nrow) es /\
    ffi_data_frame addr r size xs names =
      let! nm := vec_as_names addr r (map fst es) in Ok (VDf (Z.to_nat nrow) nm (map snd es)).
Proof.
  intros Hx Hn Hs. destruct (size_fits_facts _ _ _ Hx Hs) as (Hr & Hsz & Es). destruct (size_fits_checks _ _ Hx Hr Hsz) as (ws & K & R).
  destruct (whole_all nrow xs ws) as [W1 W2]; [done|lia|done|]. exists ws. split; [done|]. cbv zeta. split; [by apply entries_sizes|].
  unfold ffi_data_frame. rewrite Es. cbn [bind]. rewrite (df_list_checks addr r nrow true xs names ws) by (first [lia|done]). cbv zeta.
  destruct (vec_as_names _ _ _); cbn [bind]; [|done|done]. rewrite all_assigned_some. cbn [bind]. by rewrite rownames_size_new.
Qed.
(** Sizes that do not fit are an error. *)
Theorem C50_sizes addr r size unpack xs names :
  Forall input_ok xs ->
  match size with None => incompatible (sizes_of xs) | Some s => (0 <= s <= INT_MAX)%Z /\ Exists (fun n => n <> s /\ n <> 1%Z) (sizes_of xs) end ->
  (exists e, ffi_df_list addr r size unpack xs names = Err e) /\ (exists e, ffi_data_frame addr r size xs names = Err e).
Proof.
  intros Hx H. unfold ffi_df_list, ffi_data_frame. destruct size as [s|]; cbn [bind].
  - destruct H as [Hs H].
    assert (exists e, vec_recycle_common_opts xs s = Err e) as [e E].
    { unfold vec_recycle_common_opts. destruct (Z.ltb_spec s 0); [lia|].
      assert (exists k x, xs !! k = Some (Some x) /\ value_size x <> s /\ value_size x <> 1%Z /\ forall i y, i < k -> xs !! i = Some (Some y) -> value_size y = s \/ value_size y = 1%Z) as (k & x & Hk & H1 & H2 & Hlt).
      { clear -H. induction xs as [|x xs IH]; [by apply Exists_nil in H|]. destruct x as [v|].
        - destruct (decide (value_size v <> s /\ value_size v <> 1%Z)) as [[? ?]|Hd].
          + exists 0, v. split_and!; try done. lia.
          + unfold sizes_of in H. simpl in H. apply Exists_cons in H as [H|H]; [done|]. destruct (IH H) as (k & y & Hk & ? & ? & Hlt). exists (S k), y. split_and!; try done.
            intros [|i] z Hi; simpl; [intros [= <-]; lia|]. apply Hlt. lia.
        - destruct (IH H) as (k & y & Hk & ? & ? & Hlt). exists (S k), y. split_and!; try done. intros [|i] z Hi; simpl; [done|]. apply Hlt. lia. }
      pose proof (lookup_lt_Some _ _ _ Hk) as Hkl.
      apply (for_err (fun i st => length st = length xs /\ forall j, i <= j -> st !! j = xs !! j) _ _ _ k); [done|done| |].
      - intros i st Hi [Hl Hst]. destruct (lookup_lt_is_Some_2 xs i) as [y Hy]; [lia|]. rewrite (proj2 (rd_Ok st i y)) by (rewrite Hst by lia; done). cbn [bind].
        destruct (check_recycle_spec y s) as (w & E & _); [by eapply (Forall_lookup_1 _ _ _ _ Hx)|done| |].
        + destruct y as [y|]; [|done]. by eapply Hlt.
        + rewrite E. cbn [bind]. rewrite wr_Ok by lia. eexists. split; [done|]. split; [by rewrite insert_length|]. intros j Hj. rewrite list_lookup_insert_ne by lia. apply Hst. lia.
      - intros st [Hl Hst]. rewrite (proj2 (rd_Ok st k (Some x))) by (rewrite Hst by lia; done). cbn [bind].
        destruct (check_recycle_err x s) as [e ->]; [done|by left|]. cbn [bind]. eauto. }
    unfold df_list. rewrite E. cbn [bind]. eauto.
  - destruct (C22_size_common xs 0) as (_ & _ & C3 & _). destruct (C3 H) as [e ->]. cbn [bind]. eauto.
Qed.

(** [data_frame()] and [vec_cbind()] agree on vectors and data frames without row
    names. *)
Theorem C50_cbind addr r size xs names nrow :
  Forall input_ok xs -> Forall (fun x => forall t dim data, x <> Some (VArr t dim data)) xs -> names_fit (length xs) names -> size_fits size xs nrow ->
  vec_cbind addr r size None (map (option_map (fun v => (v, None))) xs) names =
    let! out := ffi_data_frame addr r size xs names in Ok (out, None).
Proof.
  intros Hx Ha Hn Hs. destruct (size_fits_facts _ _ _ Hx Hs) as (Hr & Hsz & Es). destruct (size_fits_checks _ _ Hx Hr Hsz) as (ws & K & R).
  destruct (whole_all nrow xs ws) as [W1 W2]; [done|lia|done|].
  unfold ffi_data_frame. rewrite Es. cbn [bind]. rewrite (df_list_checks addr r nrow true xs names ws) by (first [lia|done]). cbv zeta.
  set (rs := map (option_map (fun v : value => (v, None : option (list rstr)))) xs).
  assert (Ev : map (option_map fst) rs = xs). { subst rs. rewrite map_map. rewrite <- (map_id xs) at 2. apply map_ext. by intros []. }
  assert (Hok : Forall rowed_ok rs). { subst rs. apply Forall_map. eapply Forall_impl; [apply Hx|]. intros [v|]; [|done]. by split. }
  assert (Hrn : first_rownames (rns rs) None = None). { subst rs. unfold rns. clear. induction xs as [|[x|] xs IH]; done. }
  assert (Hrec : Forall2 (recycles nrow) rs ws).
  { subst rs. apply Forall2_fmap_l. eapply Forall2_impl; [apply K|]. intros x w Hc. unfold recycles. destruct x; exact Hc. }
  assert (Hna : Forall (fun w => forall t dim data, w <> Some (VArr t dim data)) ws).
  { clear -R Ha. induction R as [|x w xs ws Hxw R IH]; [done|]. apply Forall_cons in Ha as [Ha0 Ha]. constructor; [|by apply IH].
    destruct x as [v|]; [|simpl in Hxw; by subst]. destruct Hxw as (u & -> & [[_ ->]|(_ & _ & S)]); [done|]. inversion S; subst; try done. by destruct (Ha0 t (d :: dim) data). }
  assert (Hb : Forall bindable ws). { eapply Forall_impl; [apply Hna|]. intros [[]|] H; try done. by destruct (H t dim data). }
  assert (Hg : Forall good_dim ws) by (eapply Forall_impl; [apply W1|apply whole_good]).
  pose proof (Forall2_length _ _ _ Hrec) as Hlen. assert (Hn' : names_fit (length rs) names) by (subst rs; by rewrite map_length).
  unfold vec_cbind. rewrite Ev, Es. cbn [bind]. rewrite learn_first, Hrn by done. cbn [cbind_rownames bind].
  rewrite (cbind_inputs_spec rs names nrow ws) by done. cbn [bind].
  rewrite (cbind_fill_spec _ ws names); [|done|done|apply outer_names_length; by rewrite <- Hlen|done]. cbn [bind]. rewrite all_assigned_some. cbn [bind].
  assert (Ec : contributions names ws = entries true names ws).
  { rewrite entries_ents. unfold contributions, ents. f_equal. generalize (outer_names_of (length ws) names). clear -Hna.
    induction ws as [|w ws IH]; intros [|o os]; simpl; try done. apply Forall_cons in Hna as [H0 Hna]. f_equal; [|by apply IH].
    destruct w as [[t d nm|t dim d|n nm cols]|]; simpl; try done.
    - case_decide; [by subst|done].
    - by destruct (H0 t dim d).
    - by case_decide; case_bool_decide. }
  rewrite Ec. destruct (vec_as_names _ _ _); cbn [bind]; [|done|done]. rewrite all_assigned_some. cbn [bind restore_rownames]. by rewrite rownames_size_new.
Qed.

Definition ex_na : list Z := [97]%Z. Definition ex_nb : list Z := [98]%Z.
Definition ex_int (l : list Z) : value := VVec TInt (map EInt l) None.
Definition ex_inner : value := VDf 3 [Some ex_na; Some ex_nb] [ex_int [1; 2; 3]%Z; VDf 3 [Some ex_na] [ex_int [4; 5; 6]%Z]].
Definition ex_xs : list (option value) := [Some (ex_int [7]%Z); None; Some ex_inner; Some ex_inner].
Definition ex_onames : option (list rstr) := Some [Some ex_na; Some ex_nb; empty_str; Some ex_nb].
(** [data_frame(a = 7L, b = NULL, inner, b = inner)] *)
Example C50_data_frame_example :
  Forall input_ok ex_xs /\ names_fit (length ex_xs) ex_onames /\ size_fits None ex_xs 3 /\
  ffi_data_frame (fun _ => 0%Z) RepairMinimal None ex_xs ex_onames =
    Ok (VDf 3 [Some ex_na; Some ex_na; Some ex_nb; Some ex_nb]
          [ex_int [7; 7; 7]%Z; ex_int [1; 2; 3]%Z; VDf 3 [Some ex_na] [ex_int [4; 5; 6]%Z]; ex_inner]) /\
  ffi_df_list (fun _ => 0%Z) RepairMinimal None false ex_xs ex_onames =
    Ok ([Some (ex_int [7; 7; 7]%Z); Some ex_inner; Some ex_inner], [Some ex_na; empty_str; Some ex_nb]).
Proof.
  split_and!; [|done| |by vm_compute|by vm_compute].
  - repeat constructor; simpl; try done; unfold INT_MAX; lia.
  - right. split; [simpl; tauto|]. simpl. intros n [<-|[<-|[<-|[]]]]; auto.
Qed.
Example C50_sizes_example : exists e,
  ffi_data_frame (fun _ => 0%Z) RepairMinimal None [Some ex_inner; Some (ex_int [1; 2]%Z)] None = Err e /\ incompatible (sizes_of [Some ex_inner; Some (ex_int [1; 2]%Z)]).
Proof. eexists. split; [by vm_compute|]. exists 3%Z, 2%Z. split_and!; simpl; auto; lia. Qed.

(** [df_flatten()] returns the columns that are not data frames, at any depth. *)
Theorem C50_flatten n names cols : value_ok (VDf n names cols) -> exists ls,
  leaves_cols names cols ls /\ df_flatten (VDf n names cols) = Ok (VDf n (map fst ls) (map snd ls)) /\
  Forall (fun c => forall n names cols, c <> VDf n names cols) (map snd ls).
Proof.
  intros H. destruct (df_flatten_spec n names cols H) as (ls & L & E). exists ls. split_and!; [done|done|]. clear -L.
  enough ((forall o x ls, leaves o x ls -> Forall (fun c => forall n names cols, c <> VDf n names cols) (map snd ls))) as HL.
  { induction L as [|o names c cols l ls Hl _ IH]; [constructor|]. rewrite map_app. apply Forall_app. split; [by eapply HL|done]. }
  fix IH 4. intros o x ls0 [o' x' Hx|o' n names' cols' ls' HC].
  - by repeat constructor.
  - revert names' cols' ls' HC. fix IH2 4. intros names' cols' ls' [|o'' nms c cs l ls'' H1 H2]; [constructor|]. rewrite map_app. apply Forall_app. split.
    + exact (IH _ _ _ H1).
    + exact (IH2 _ _ _ H2).
Qed.
Example C50_flatten_example :
  value_ok (VDf 3 [Some ex_na; Some ex_nb] [ex_inner; ex_int [7; 8; 9]%Z]) /\
  df_flatten (VDf 3 [Some ex_na; Some ex_nb] [ex_inner; ex_int [7; 8; 9]%Z]) =
    Ok (VDf 3 [Some ex_na; Some ex_na; Some ex_nb] [ex_int [1; 2; 3]%Z; ex_int [4; 5; 6]%Z; ex_int [7; 8; 9]%Z]).
Proof. split; [repeat constructor; simpl; try done; unfold INT_MAX; lia|by vm_compute]. Qed.

(** The size of row names is the number of rows they stand for. *)
Theorem C50_rownames :
  (forall rn n, stands_for rn n -> (n <= INT_MAX)%Z -> rownames_size rn = Ok n) /\
  (forall n, (0 <= n <= INT_MAX)%Z -> stands_for (new_compact_rownames n) n).
Proof.
  split.
  - intros rn n [l|m|l Hl] Hn; unfold rownames_size; cbn [rownames_type].
    + done.
    + cbn. unfold c_abs. destruct (Z.eqb_spec m INT_MIN); [subst; unfold INT_MIN, INT_MAX in *; lia|done].
    + destruct l as [|a [|b [|c l]]]; try done. cbn. destruct (Z.eqb_spec a NA_INTEGER) as [->|]; [|done]. destruct Hl. by exists b.
  - intros n Hn. unfold new_compact_rownames. destruct (Z.leb_spec n 0).
    + replace n with (Z.of_nat (length (@nil Z))) at 1 by (simpl; lia). constructor. intros (m & E). done.
    + replace n with (Z.abs (- n)) at 2 by lia. constructor.
Qed.
Example C50_rownames_example : rownames_size (RnInt [NA_INTEGER; -5]%Z) = Ok 5%Z /\ rownames_size (RnInt [1; 2; 3]%Z) = Ok 3%Z /\ rownames_size (RnChr [None; None]) = Ok 2%Z.
Proof. by vm_compute. Qed.
(** Row names [c(NA, NA)] make [abs()] overflow. *)
Theorem C50_rownames_refuted : exists rn s, rn = RnInt [NA_INTEGER; NA_INTEGER] /\ rownames_size rn = UB s.
Proof. do 2 eexists. split; [done|by vm_compute]. Qed.

(** ** new_data_frame() *)
Definition no_attr (a : attrs) (t : tag) : Prop := Forall (fun e => e.1 <> t) a.
Lemma tag_eqb_spec a b : tag_eqb a b = true <-> a = b.
Proof. destruct a, b; simpl; split; try done. - by intros ->%Z.eqb_eq. - intros [= ->]. apply Z.eqb_refl. Qed.
#[local] Instance tag_eq_dec : EqDecision tag. Proof. intros a b. unfold Decision. decide equality. apply Z.eq_dec. Defined.
Lemma attr_get_has a t v : attr_get a t = Some v <-> has_attr a t v.
Proof.
  induction a as [|[t' w] a IH]; simpl; [split; [done|by inversion 1]|]. destruct (tag_eqb t' t) eqn:E.
  - apply tag_eqb_spec in E as ->. split; [intros [= ->]; constructor|]. inversion 1; subst; done.
  - assert (t' <> t) by (intros H; apply tag_eqb_spec in H; congruence). rewrite IH. split; [by constructor|]. inversion 1; subst; done.
Qed.
Lemma has_no_attr a t v : has_attr a t v -> no_attr a t -> False.
Proof. induction 1; intros H'; apply Forall_cons in H' as [? ?]; simpl in *; auto. Qed.
Lemma attr_cases a t : no_attr a t \/ exists v, has_attr a t v.
Proof.
  induction a as [|[t' w] a [IH|[v IH]]]; [left; constructor|..]; destruct (decide (t' = t)) as [->|]; try (right; eexists; by constructor).
  left. by constructor.
Qed.
(** The size of a list: that of its row names, or that of its first element. *)
Inductive list_size (x : rlist) : Z -> Prop :=
| ls_rownames rn n : has_attr (rl_attrs x) TagRowNames (AttrRn rn) -> stands_for rn n -> (n <= INT_MAX)%Z -> list_size x n
| ls_empty : no_attr (rl_attrs x) TagRowNames -> rl_sizes x = [] -> list_size x 0
| ls_first n l : no_attr (rl_attrs x) TagRowNames -> rl_sizes x = Ok n :: l -> list_size x n.
Lemma stands_nonneg rn n : stands_for rn n -> (0 <= n)%Z.
Proof. destruct 1; lia. Qed.
Lemma no_attr_get a t : no_attr a t -> attr_get a t = None.
Proof. intros H. destruct (attr_get a t) eqn:E; [|done]. exfalso. eapply has_no_attr; [by apply attr_get_has|done]. Qed.
Lemma df_raw_size_spec x n : list_size x n -> df_raw_size x = Ok n.
Proof.
  intros [rn m Ha Hs Hm|Ha Hs|m l Ha Hs]; unfold df_raw_size, df_rownames_size.
  - rewrite (proj2 (attr_get_has _ _ _) Ha), (proj1 C50_rownames _ _ Hs Hm). cbn [bind]. pose proof (stands_nonneg _ _ Hs). destruct (Z.leb_spec 0 m); [done|lia].
  - rewrite no_attr_get by done. cbn [bind]. by rewrite Hs.
  - rewrite no_attr_get by done. cbn [bind]. by rewrite Hs.
Qed.
(** The size asked for: [row.names] first, then [n], then the size of [x]. *)
Definition new_size (x : rlist) (n : option (list Z)) (size : Z) : Prop :=
  match n with Some n => n = [size] /\ (0 <= size)%Z | None => list_size x size end.
Theorem C50_new_data_frame x n cls attrib size : no_attr attrib TagClass ->
  (no_attr attrib TagRowNames -> new_size x n size /\ (0 <= size <= INT_MAX)%Z) ->
  exists out, ffi_new_data_frame x n cls attrib = Ok out /\ rl_sizes out = rl_sizes x /\
    has_attr (rl_attrs out) TagClass (AttrChr (match cls with Some cls => cls | None => [] end ++ [str_data_frame])) /\
    (forall t v, has_attr attrib t v -> has_attr (rl_attrs out) t v) /\
    (no_attr attrib TagRowNames -> exists rn, has_attr (rl_attrs out) TagRowNames (AttrRn rn) /\ stands_for rn size) /\
    (no_attr attrib TagNames -> rl_sizes x = [] -> has_attr (rl_attrs out) TagNames (AttrChr [])) /\
    (no_attr attrib TagNames -> rl_sizes x <> [] -> forall v, has_attr (rl_attrs x) TagNames v -> has_attr (rl_attrs out) TagNames v) /\
    (forall s v, has_attr (rl_attrs out) (TagOther s) v -> has_attr attrib (TagOther s) v).
Proof.
  intros Hc Hs. unfold ffi_new_data_frame.
  assert (exists hn hr, for_ 0 (length attrib) (fun i '(has_names, has_rownames) =>
      let! (t, _) := rd attrib i in
      match t with
      | TagClass => Err "Can't supply `class` in `...`."
      | TagNames => Ok (true, has_rownames)
      | TagRowNames => Ok (has_names, true)
      | _ => Ok (has_names, has_rownames)
      end) (false, false) = Ok (hn, hr) /\ (hn = false <-> no_attr attrib TagNames) /\ (hr = false <-> no_attr attrib TagRowNames)) as (hn & hr & -> & Hn & Hr).
  { edestruct (for_inv (fun i (st : bool * bool) => (st.1 = false <-> no_attr (take i attrib) TagNames) /\ (st.2 = false <-> no_attr (take i attrib) TagRowNames)) 0 (length attrib)) as ([hn hr] & E & H).
    3:{ rewrite E. exists hn, hr. rewrite Nat.add_0_l, firstn_all in H. split; [done|exact H]. }
    - simpl. split; split; try done; intros; constructor.
    - intros i [hn hr] Hi [H1 H2]. destruct (lookup_lt_is_Some_2 attrib i) as [[t v] Ht]; [lia|]. rewrite (proj2 (rd_Ok _ _ _) Ht). cbn [bind].
      assert (Htc : t <> TagClass) by (unfold no_attr in Hc; rewrite Forall_lookup in Hc; apply (Hc _ _ Ht)).
      unfold no_attr in *. rewrite (take_S_r _ _ _ Ht). simpl in H1, H2. destruct t; try done; eexists; (split; [done|]); simpl; rewrite !Forall_app, !Forall_cons, !Forall_nil; simpl; rewrite ?H1, ?H2; intuition done. }
  cbn [bind].
  set (a1 := if hn then attrib else match (if 0 <? length (rl_sizes x) then attr_get (rl_attrs x) TagNames else Some (AttrChr [])) with
      | Some nms => (TagNames, nms) :: attrib | None => attrib end).
  assert (Ha1 : (a1 = attrib /\ (no_attr attrib TagNames -> rl_sizes x <> [] /\ attr_get (rl_attrs x) TagNames = None)) \/
    exists nms, a1 = (TagNames, nms) :: attrib /\ no_attr attrib TagNames /\ (rl_sizes x = [] -> nms = AttrChr []) /\ (rl_sizes x <> [] -> has_attr (rl_attrs x) TagNames nms)).
  { subst a1. destruct hn.
    - left. split; [done|]. intros Hno. by apply Hn in Hno.
    - pose proof (proj1 Hn eq_refl) as Hno. destruct (rl_sizes x) as [|s l]; cbn [length Nat.ltb Nat.leb].
      + right. exists (AttrChr []). split_and!; done.
      + destruct (attr_get (rl_attrs x) TagNames) as [nms|] eqn:E; [right|left; done]. exists nms. split_and!; try done. intros _. by apply attr_get_has. }
  clearbody a1.
  assert (exists a2, (if hr then Ok a1 else let! size := match n with Some n => df_size_from_n n | None => df_raw_size x end in
      Ok ((TagRowNames, AttrRn (new_compact_rownames size)) :: a1)) = Ok a2 /\
      ((hr = true /\ a2 = a1) \/ (hr = false /\ a2 = (TagRowNames, AttrRn (new_compact_rownames size)) :: a1))) as (a2 & E2 & Ha2).
  { destruct hr; [exists a1; split; [done|by left]|]. destruct (Hs (proj1 Hr eq_refl)) as [Hsz Hr2]. eexists. split; [|right; split; done].
    destruct n as [n|].
    - destruct Hsz as [-> Hsz]. unfold df_size_from_n. cbn. destruct (Z.eqb_spec size NA_INTEGER); [unfold NA_INTEGER, INT_MIN in *; lia|]. destruct (Z.ltb_spec size 0); [lia|]. done.
    - simpl in Hsz. by rewrite (df_raw_size_spec x size). }
  rewrite E2. cbn [bind]. eexists. split; [done|]. cbn [rl_sizes rl_attrs]. split; [done|]. split; [destruct cls; constructor|].
  split; [|split; [|split; [|split]]].
  - intros t v Hv. assert (Ht : TagClass <> t) by (intros <-; eapply has_no_attr; done). constructor; [done|].
    assert (H1 : has_attr a1 t v).
    { destruct Ha1 as [[-> _]|(nms & -> & Hno & _)]; [done|]. constructor; [|done]. intros <-. by eapply has_no_attr. }
    destruct Ha2 as [[_ ->]|[E ->]]; [done|]. constructor; [|done]. intros <-. by eapply has_no_attr, Hr.
  - intros Hno. destruct Ha2 as [[E ->]|[E ->]]; [apply Hr in Hno; congruence|]. eexists. split; [constructor; [done|constructor]|]. apply C50_rownames. by apply Hs.
  - intros Hno Hx. assert (H1 : has_attr a1 TagNames (AttrChr [])).
    { destruct Ha1 as [[-> H]|(nms & -> & _ & H & _)]; [destruct (H Hno); done|]. rewrite H by done. constructor. }
    constructor; [done|]. destruct Ha2 as [[_ ->]|[_ ->]]; [done|]. by constructor.
  - intros Hno Hx v Hv. assert (H1 : has_attr a1 TagNames v).
    { destruct Ha1 as [[-> H]|(nms & -> & _ & _ & H)].
      - destruct (H Hno) as [_ H']. apply attr_get_has in Hv. congruence.
      - apply attr_get_has in Hv. specialize (H Hx). apply attr_get_has in H. rewrite Hv in H. injection H as ->. constructor. }
    constructor; [done|]. destruct Ha2 as [[_ ->]|[_ ->]]; [done|]. by constructor.
  - intros s v H. inversion H as [|? ? ? ? ? ? H']; subst.
    assert (H1 : has_attr a1 (TagOther s) v). { destruct Ha2 as [[_ ->]|[_ ->]]; [done|]. by inversion H'; subst. }
    destruct Ha1 as [[-> _]|(nms & -> & _)]; [done|]. by inversion H1; subst.
Qed.
(** [new_data_frame(list(a = 1:3), foo = 9, class = "cl")], and [n = 4L] *)
Example C50_new_data_frame_example :
  let x := RList [Ok 3%Z] [(TagNames, AttrChr [Some ex_na])] in
  ffi_new_data_frame x None (Some [Some ex_nb]) [(TagOther 1, AttrOther 9)] =
    Ok (RList [Ok 3%Z] [(TagClass, AttrChr [Some ex_nb; str_data_frame]); (TagRowNames, AttrRn (RnInt [NA_INTEGER; -3]%Z));
                        (TagNames, AttrChr [Some ex_na]); (TagOther 1, AttrOther 9)]) /\
  new_size x None 3 /\
  ffi_new_data_frame (RList [] []) (Some [4%Z]) None [] =
    Ok (RList [] [(TagClass, AttrChr [str_data_frame]); (TagRowNames, AttrRn (RnInt [NA_INTEGER; -4]%Z)); (TagNames, AttrChr [])]).
Proof. split_and!; [by vm_compute| |by vm_compute]. eapply ls_first; [|done]. by repeat constructor. Qed.
(** Errors *)
Theorem C50_new_data_frame_errors x n cls attrib :
  (~ no_attr attrib TagClass -> exists e, ffi_new_data_frame x n cls attrib = Err e) /\
  (no_attr attrib TagClass -> no_attr attrib TagRowNames -> forall l, n = Some l -> (length l <> 1 \/ l = [NA_INTEGER] \/ exists k, l = [k] /\ (k < 0)%Z) ->
    exists e, ffi_new_data_frame x n cls attrib = Err e).
Proof.
  split.
  - intros H. unfold ffi_new_data_frame.
    assert (exists k v, attrib !! k = Some (TagClass, v) /\ forall i t w, i < k -> attrib !! i = Some (t, w) -> t <> TagClass) as (k & v & Hk & Hlt).
    { clear -H. induction attrib as [|[t v] a IH]; [destruct H; constructor|]. destruct (decide (t = TagClass)) as [->|Ht].
      - exists 0, v. split; [done|]. intros i t w Hi. lia.
      - destruct IH as (k & w & Hk & Hlt). { intros Hno. apply H. by constructor. } exists (S k), w. split; [done|]. intros [|i] t' w' Hi; [intros [= <- <-]; done|]. apply Hlt. lia. }
    pose proof (lookup_lt_Some _ _ _ Hk). edestruct (for_err (fun _ (_ : bool * bool) => True)) as [e E]; [| | | |rewrite E; cbn [bind]; eauto]; [done|done| |].
    + intros i [hn hr] Hi _. destruct (lookup_lt_is_Some_2 attrib i) as [[t w] Ht]; [lia|]. rewrite (proj2 (rd_Ok _ _ _) Ht). cbn [bind].
      specialize (Hlt i t w Hi Ht). destruct t; try done; eauto.
    + intros [hn hr] _. rewrite (proj2 (rd_Ok _ _ _) Hk). cbn [bind]. eauto.
  - intros Hc Hr l -> Hl. unfold ffi_new_data_frame.
    edestruct (for_inv (fun i (st : bool * bool) => st.2 = false) 0 (length attrib)) as ([hn hr] & E & H); [| |rewrite E; cbn [bind]]; [done| |].
    + intros i [hn hr] Hi H1. destruct (lookup_lt_is_Some_2 attrib i) as [[t v] Ht]; [lia|]. rewrite (proj2 (rd_Ok _ _ _) Ht). cbn [bind].
      unfold no_attr in *. rewrite Forall_lookup in Hc, Hr. pose proof (Hc _ _ Ht). pose proof (Hr _ _ Ht). simpl in *. destruct t; try done; eauto.
    + simpl in H. subst hr. cbn [bind]. assert (exists e, df_size_from_n l = Err e) as [e ->]; [|cbn [bind]; eauto].
      unfold df_size_from_n. destruct Hl as [Hl|[->|(k & -> & Hk)]]; [|cbn; eauto|].
      * destruct (Nat.eqb_spec (length l) 1); [done|]. cbn [negb]. eauto.
      * cbn. destruct (Z.eqb_spec k NA_INTEGER); [eauto|]. destruct (Z.ltb_spec k 0); [eauto|lia].
Qed.

(** ** df_poke_at() *)
Theorem C50_poke_at names cols name v : length names = length cols ->
  (name ∉ names -> df_poke_at names cols name v = Ok (names ++ [name], cols ++ [v])) /\
  (forall i, names !! i = Some name -> (forall k, k < i -> names !! k <> Some name) -> df_poke_at names cols name v = Ok (names, <[i:=v]> cols)).
Proof.
  intros Hl. unfold df_poke_at.
  assert (Hfind : exists loc, r_chr_find names name = Ok loc /\
    ((loc = -1 /\ name ∉ names)%Z \/ exists j, loc = Z.of_nat j /\ names !! j = Some name /\ forall k, k < j -> names !! k <> Some name)).
  { unfold r_chr_find. apply (for_brk_inv (fun i (loc : Z) => loc = (-1)%Z /\ forall k, k < i -> names !! k <> Some name)).
    - split; [done|]. intros k Hk. lia.
    - intros i loc Hi [-> Hk]. destruct (lookup_lt_is_Some_2 names i) as [s Hs]; [lia|]. rewrite (proj2 (rd_Ok _ _ _) Hs). cbn [bind].
      destruct (str_ptr_eqb s name) eqn:Es.
      + right. apply str_ptr_eqb_spec in Es as ->. eexists. split; [done|]. right. by exists i.
      + left. eexists. split; [done|]. split; [done|]. intros k Hk'. destruct (decide (k = i)) as [->|]; [|apply Hk; lia]. intros E.
        unfold rstr in *. rewrite Hs in E. injection E as ->. assert (str_ptr_eqb name name = true) by by apply str_ptr_eqb_spec. congruence.
    - intros loc [-> Hk]. left. split; [done|]. intros Hin. apply elem_of_list_lookup in Hin as [k Hin]. apply (Hk k); [|done]. by apply lookup_lt_Some in Hin. }
  destruct Hfind as (loc & -> & Hf). cbn [bind]. split.
  - intros Hno. destruct Hf as [[-> _]|(j & -> & Hj & _)]; [|by apply elem_of_list_lookup_2 in Hj]. unfold df_poke. cbn [Z.leb Z.compare bind].
    change (-1 <? 0)%Z with true. cbn [bind]. replace (Z.of_nat (length (cols ++ [v])) - 1)%Z with (Z.of_nat (length names)) by (rewrite app_length; simpl; lia).
    rewrite wrZ_nat. etransitivity; [exact (f_equal (fun w => let! names0 := w in Ok (names0, cols ++ [v])) (wr_fresh_at names name empty_str 1 (length names) eq_refl Nat.lt_0_1))|].
    cbn [bind]. by rewrite app_nil_r.
  - intros i Hi Hk. destruct Hf as [[-> Hno]|(j & -> & Hj & Hjk)]; [by apply elem_of_list_lookup_2 in Hi|].
    assert (j = i) as ->. { destruct (lt_eq_lt_dec i j) as [[|]|]; [|done|]; exfalso; [by eapply Hjk|by eapply Hk]. }
    unfold df_poke. destruct (Z.leb_spec 0 (Z.of_nat i)); [|lia]. rewrite wrZ_nat, wr_Ok by (rewrite <- Hl; by eapply lookup_lt_Some). cbn [bind].
    destruct (Z.ltb_spec (Z.of_nat i) 0); [lia|done].
Qed.
Example C50_poke_at_example :
  df_poke_at [Some ex_na; Some ex_nb] [ex_int [1]%Z; ex_int [2]%Z] (Some ex_nb) (ex_int [3]%Z) = Ok ([Some ex_na; Some ex_nb], [ex_int [1]%Z; ex_int [3]%Z]) /\
  df_poke_at [Some ex_na] [ex_int [1]%Z] (Some ex_nb) (ex_int [3]%Z) = Ok ([Some ex_na; Some ex_nb], [ex_int [1]%Z; ex_int [3]%Z]).
Proof. by vm_compute. Qed.

Print Assumptions C50_df_list.
Print Assumptions C50_data_frame.
Print Assumptions C50_sizes.
Print Assumptions C50_cbind.
Print Assumptions C50_flatten.
Print Assumptions C50_rownames.
Print Assumptions C50_rownames_refuted.
Print Assumptions C50_new_data_frame.
Print Assumptions C50_new_data_frame_errors.
Print Assumptions C50_poke_at.
