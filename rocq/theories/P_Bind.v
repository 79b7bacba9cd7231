(** * Properties: binding columns and rows (C49) *)
From Verif Require Import Base M_Double M_Scalar M_Object M_Proxy M_Growable M_Slice Spec_Slice M_Rep Spec_Rep M_Subscript M_Chop Spec_Chop
  L_Dbl L_Slice L_SliceArray L_Assign L_Value L_SliceVal L_Rep L_Recycle L_Chop L_Chop2 L_Chop3 P_Chop P_Rep
  M_Names Spec_Names L_Names2 P_Names M_Shape M_Factor Spec_Factor P_Factor M_Ptype P_Ptype M_Bind Spec_Bind L_Bind L_Bind2 L_Bind3.
From Coq Require Import Lia ZifyBool ZifyNat.
#[local] Arguments Z.mul : simpl never.
#[local] Arguments Z.add : simpl never.
#[local] Arguments Z.sub : simpl never.
#[local] Arguments Z.max : simpl never.
#[local] Arguments Z.to_nat : simpl never.
#[local] Arguments Z.of_nat : simpl never.

(** An input: a vector, with row names only if it is a data frame. *)
Definition rowed_ok (x : option rowed) : Prop :=
  match x with
  | None => True
  | Some (v, rn) => value_ok v /\ match rn with Some l => Z.of_nat (length l) = value_size v /\ exists n names cols, v = VDf n names cols | None => True end
  end.
Definition rns (xs : list (option rowed)) : list (option (list rstr)) := map (fun x => match x with Some x => x.2 | None => None end) xs.

(** ** Columns *)
Lemma learn_first xs d : Forall rowed_ok xs -> learn_rownames xs d = first_rownames (rns xs) d.
Proof.
  intros H. unfold learn_rownames.
  set (learn := fun (learned : option (list rstr)) (x : option rowed) => match x with
    | Some (VDf _ _ _, Some rn) => match learned with None => Some rn | _ => learned end
    | _ => learned end).
  assert (Hs : forall xs l, fold_left learn xs (Some l) = Some l).
  { induction xs0 as [|x xs0 IH]; [done|]. intros l. simpl.
    replace (learn (Some l) x) with (Some l) by (destruct x as [[[] [|]]|]; done). apply IH. }
  induction H as [|x xs Hx H IH]; [done|]. simpl. destruct x as [[v [l|]]|].
  - destruct Hx as (_ & _ & n & names & cols & ->). simpl. by rewrite Hs.
  - destruct v; exact IH.
  - exact IH.
Qed.
Lemma recycled_recycles nrow x : rowed_ok x -> (0 <= nrow <= INT_MAX)%Z ->
  match x with Some (v, _) => value_size v = nrow \/ value_size v = 1%Z | None => True end ->
  exists w, recycles nrow x w /\ recycled nrow (option_map fst x) w.
Proof.
  intros Hx Hn Hs. destruct (check_recycle_spec (option_map fst x) nrow) as (w & E & R); [|done| |].
  - destruct x as [[v rn]|]; [|done]. by destruct Hx.
  - by destruct x as [[v rn]|].
  - by exists w.
Qed.
(** Arrays hold as many elements as their dimensions say, after recycling too. *)
Definition whole (w : option value) : Prop :=
  match w with
  | Some (VArr _ (d :: dim) data) => Z.of_nat (length data) = (d * zprod dim)%Z /\ (0 <= d)%Z /\ (0 <= zprod dim)%Z
  | Some (VArr _ [] _) => False
  | Some (VDf n names cols) => length names = length cols /\ Forall (fun c => value_size c = Z.of_nat n) cols
  | _ => True
  end.
Lemma whole_ok v : value_ok v -> whole (Some v).
Proof.
  destruct v as [t data names|t dim data|n names cols]; intros H; [done| |].
  - inversion H as [|? ? ? _ Hd Hz|]; subst. destruct Hd as (Hn & Hf & _). destruct dim as [|d dim]; [done|]. simpl in *.
    apply Forall_cons in Hf as [Hf0 Hf]. split_and!; [lia|done|]. clear -Hf. induction Hf; simpl; [lia|]. by apply Z.mul_nonneg_nonneg.
  - inversion H; subst. done.
Qed.
Lemma sliced_size locs v w : sliced locs v w -> value_size w = Z.of_nat (length locs).
Proof. inversion 1; subst; simpl; rewrite ?map_length; done. Qed.
Lemma whole_sliced locs v w : value_ok v -> sliced locs v w -> whole (Some w).
Proof.
  intros Hv H. pose proof (whole_ok v Hv) as Hw. inversion H as [|t d dim data out Hl Hc|n names cols cols' H2]; subst; simpl in *; [done| |].
  - split_and!; [done|lia|tauto].
  - split; [rewrite <- (Forall2_length _ _ _ H2); tauto|]. clear -H2. induction H2 as [|a b l k Hab]; constructor; [|done]. by eapply sliced_size.
Qed.
Lemma whole_recycled nrow v w : value_ok v -> recycled nrow (Some v) w -> whole w.
Proof. intros Hv (r & -> & [[_ ->]|(_ & _ & Hs)]); [by apply whole_ok|by eapply whole_sliced]. Qed.
Lemma bindable_recycled nrow v w : recycled nrow v w -> bindable v -> bindable w.
Proof.
  destruct v as [v|]; [|by intros ->]. intros (r & -> & [[_ ->]|(_ & _ & Hs)]); [done|]. inversion Hs; subst; done.
Qed.
Lemma whole_good w : whole w -> good_dim w.
Proof. destruct w as [[?|? [|? ?] ?|? ? ?]|]; simpl; try done. by intros [? _]. Qed.
Lemma contribution_size o w nrow : whole w -> match w with Some v => value_size v = nrow | None => True end ->
  Forall (fun c => value_size c.2 = nrow) (contribution o w).
Proof.
  intros Hw Hs. destruct w as [w|]; [|constructor]. unfold contribution. destruct (decide _); [|by repeat constructor].
  destruct w as [t data names|t [|d dim] data|n names cols]; simpl in *; [by repeat constructor|done| |].
  - apply Forall_map, Forall_forall. intros j He. apply elem_of_list_In, in_seq in He. simpl. unfold chunk. rewrite take_length, drop_length.
    destruct Hw as (Hl & Hd & Hz). assert ((Z.of_nat j + 1) * d <= d * zprod dim)%Z by nia. nia.
  - destruct Hw as [Hl Hf]. apply Forall_forall. intros [a c] Hc. apply elem_of_zip_r in Hc. rewrite Forall_forall in Hf. simpl. rewrite Hf by done. done.
Qed.

(** The sizes fit: [nrow] is the common size, or the size asked for. *)
Definition size_fits (size : option Z) (vs : list (option value)) (nrow : Z) : Prop :=
  match size with
  | None => (sizes_of vs = [] /\ nrow = 0%Z) \/ common_size (sizes_of vs) nrow
  | Some s => s = nrow /\ (0 <= s <= INT_MAX)%Z /\ Forall (fun n => n = s \/ n = 1%Z) (sizes_of vs)
  end.
(** The row names of the result: those of the first input that has some, made
    unique; recycled and made unique before if there is only one. *)
Definition bound_rownames (addr : rstr -> Z) (nrow : Z) (rn out : option (list rstr)) : Prop :=
  match rn with
  | None => out = None
  | Some l =>
      (Z.of_nat (length l) = nrow /\ exists o, out = Some o /\ repaired l o) \/
      (nrow <> 1%Z /\ exists s m o, l = [s] /\ repaired (replicate (Z.to_nat nrow) s) m /\ repaired m o /\ out = Some o)
  end.
(** Row names that can be made unique (see C34). *)
Definition rownames_ok (nrow : Z) (rn : option (list rstr)) : Prop :=
  match rn with
  | None => True
  | Some l => (Z.of_nat (length l) = nrow /\ names_ok l) \/ (exists s, l = [s] /\ names_short (replicate (Z.to_nat nrow) s))
  end.

Theorem C49_cbind addr r size ptype_rn xs xs_names nrow :
  Forall rowed_ok xs -> names_fit (length xs) xs_names -> Forall bindable (vals xs) -> size_fits size (vals xs) nrow ->
  rownames_ok nrow (first_rownames (rns xs) ptype_rn) ->
  exists ws rn, Forall2 (recycled nrow) (vals xs) ws /\ bound_rownames addr nrow (first_rownames (rns xs) ptype_rn) rn /\
    let cs := contributions xs_names ws in
    Forall (fun c => value_size c.2 = nrow) cs /\
    vec_cbind addr r size ptype_rn xs xs_names =
      let! names := vec_as_names addr r (map fst cs) in Ok (VDf (Z.to_nat nrow) names (map snd cs), rn).
Proof.
  intros Hx Hn Hb Hs Hrn.
  assert (Hr : (0 <= nrow <= INT_MAX)%Z /\ Forall (fun n => n = nrow \/ n = 1%Z) (sizes_of (vals xs)) /\
    match size with None => vec_size_common (vals xs) 0 | Some s => Ok s end = Ok nrow).
  { destruct size as [s|]; [destruct Hs as (-> & ? & ?); done|]. destruct (C22_size_common (vals xs) 0) as (C1 & C2 & _). destruct Hs as [[E ->]|Hc].
    - rewrite E. split; [unfold INT_MAX; lia|]. split; [done|by apply C1].
    - split; [|split; [|by apply C2]].
      + destruct Hc as [Hi _]. unfold sizes_of in Hi. apply in_map_iff in Hi as (v & <- & Hi). apply elem_of_list_In, elem_of_list_omap in Hi as (x & Hi & Ei).
        unfold id in Ei. subst x. apply elem_of_list_fmap in Hi as ([[v' rn]|] & Ev & Hi); [|done]. injection Ev as ->. rewrite Forall_forall in Hx.
        apply value_size_range. by apply (Hx _ Hi).
      + destruct Hc as [_ Hc]. apply Forall_forall. intros n Hi. apply Hc. by apply elem_of_list_In. }
  destruct Hr as (Hr & Hsz & Esz).
  assert (exists ws, Forall2 (recycles nrow) xs ws /\ Forall2 (recycled nrow) (vals xs) ws) as (ws & R1 & R2).
  { clear -Hx Hr Hsz. induction Hx as [|x xs Hx0 Hx IH]; [exists []; split; constructor|].
    destruct (recycled_recycles nrow x) as (w & E1 & E2); [done|done| |].
    - destruct x as [[v rn]|]; [|done]. unfold sizes_of in Hsz. simpl in Hsz. apply Forall_cons in Hsz as [Hsz _]. exact Hsz.
    - destruct IH as (ws & I1 & I2). { destruct x as [[v rn]|]; [|done]. unfold sizes_of in *. simpl in Hsz. by apply Forall_cons in Hsz as [_ Hsz]. }
      exists (w :: ws). split; constructor; done. }
  pose proof (Forall2_length _ _ _ R1) as Hlen.
  assert (Hw : Forall whole ws /\ Forall bindable ws /\ Forall (fun w => match w with Some v => value_size v = nrow | None => True end) ws).
  { clear -Hx Hb R2 Hr. unfold vals in *. remember (map (option_map fst) xs) as vs. assert (Hv : Forall (fun v => match v with Some v => value_ok v | None => True end) vs).
    { subst vs. apply Forall_map. eapply Forall_impl; [apply Hx|]. intros [[v rn]|]; [|done]. by intros [? _]. }
    clear Heqvs Hx xs. induction R2 as [|v w vs ws Hvw R2 IH]; [by split_and!|]. apply Forall_cons in Hb as [Hb0 Hb], Hv as [Hv0 Hv].
    destruct (IH Hb Hv) as (I1 & I2 & I3). split_and!; constructor; try done.
    - destruct v as [v|]; [by eapply whole_recycled|]. simpl in Hvw. by subst.
    - by eapply bindable_recycled.
    - destruct v as [v|]; [|simpl in Hvw; by subst]. pose proof Hvw as (u & -> & _). eapply recycled_size; [lia|done]. }
  destruct Hw as (W1 & W2 & W3). assert (W4 : Forall good_dim ws) by (eapply Forall_impl; [apply W1|apply whole_good]).
  assert (exists rn0 rn, cbind_rownames addr (first_rownames (rns xs) ptype_rn) nrow = Ok rn0 /\ restore_rownames addr rn0 = Ok rn /\
    bound_rownames addr nrow (first_rownames (rns xs) ptype_rn) rn) as (rn0 & rn & B1 & B2 & B3).
  { unfold cbind_rownames, bound_rownames. destruct (first_rownames (rns xs) ptype_rn) as [l|]; [|by exists None, None].
    destruct (Z.eqb_spec (Z.of_nat (length l)) nrow) as [E|E].
    - assert (Ho : names_ok l).
      { destruct Hrn as [[_ Ho]|(s & -> & Ho)]; [done|]. apply names_short_ok. simpl in E. subst nrow. exact Ho. }
      destruct (C34_repaired addr l Ho) as (o & Eo & Ro & _). exists (Some l), (Some o). simpl. rewrite Eo. simpl. split_and!; [done|done|]. left. eauto.
    - destruct Hrn as [[? _]|(s & -> & Ho)]; [done|]. cbn [bind]. destruct (C34_repaired addr _ (names_short_ok _ Ho)) as (m & Em & Rm & _). rewrite Em. cbn [bind].
      destruct (C34_twice addr _ Ho) as (m' & o & Em' & Eo & _). rewrite Em in Em'. injection Em' as <-.
      assert (Hm : names_ok m). { apply (room_ok (56 - 13)); [lia|]. eapply repaired_room; [lia|by apply short_room|done|unfold INT_MAX; lia]. }
      destruct (C34_repaired addr m Hm) as (o' & Eo' & Ro & _). rewrite Eo in Eo'. injection Eo' as <-.
      exists (Some m), (Some o). simpl. rewrite Eo. split_and!; [done|done|]. right. simpl in E. split; [lia|]. by exists s, m, o. }
  exists ws, rn. split; [done|]. split; [done|]. cbv zeta. split.
  - unfold contributions. apply Forall_concat. generalize (outer_names_of (length ws) xs_names). clear -W1 W3.
    induction ws as [|w ws IH]; intros [|o os]; simpl; try constructor; apply Forall_cons in W1 as [? ?], W3 as [? ?].
    + by apply contribution_size.
    + by apply IH.
  - unfold vec_cbind. unfold vals in Esz. rewrite Esz. cbn [bind]. rewrite learn_first by done. rewrite B1. cbn [bind].
    rewrite (cbind_inputs_spec xs xs_names nrow ws) by done. cbn [bind].
    rewrite (cbind_fill_spec _ ws xs_names); [|done|done|by apply outer_names_length; rewrite <- Hlen|done]. cbn [bind]. rewrite all_assigned_some. cbn [bind].
    destruct (vec_as_names addr r _); cbn [bind]; [|done|done]. by rewrite B2.
Qed.

(** ** Rows *)
(** What an input becomes with prototype [p]: its columns are cast to those of
    the prototype of the same name, and absent columns are missing. *)
Definition casted_row (addr : rstr -> Z) (cast : value -> value -> res value) (p : rowed) (x w : option rowed) : Prop :=
  match x, w, p with
  | None, None, _ => True
  | Some (v, rn), Some (VDf n names cols, rn'), (VDf _ tn tc, prn) =>
      names = tn /\ value_size v = Z.of_nat n /\ length cols = length tc /\
      match v with
      | VDf _ xn xc => rn' = rn /\ xn ⊆ tn /\
          forall j s t, tn !! j = Some s -> tc !! j = Some t -> exists u, cols !! j = Some u /\ cast_col addr cast n xn xc s t = Ok u
      | _ => (prn = None -> rn' = None) /\ Forall2 (sliced (replicate n NA_INTEGER)) tc cols
      end
  | _, _, _ => False
  end.
(** Column names that can be matched (see C38). *)
Definition colnames_ok (x : option rowed) : Prop :=
  match x with Some (VDf _ names _, _) => NoDup names /\ strs_ok names /\ (Z.of_nat (length names) <= INT_MAX)%Z | _ => True end.
Definition row_sizes (xs : list (option rowed)) : list Z := map (fun x : option rowed => match x with None => 0%Z | Some x => value_size x.1 end) xs.
Definition framed (x : option rowed) : Prop := match x with Some (VDf _ _ _, _) | None => True | Some (v, _) => unspecified v end.

Lemma row_form_framed repair x y : row_form repair x y -> framed y.
Proof. inversion 1; subst; done. Qed.
Lemma row_sizes_vals ws : row_sizes ws = sizes0 (vals ws).
Proof. unfold row_sizes, sizes0, vals. rewrite map_map. apply map_ext. by intros [[v rn]|]. Qed.
Lemma vec_cbind_df addr r size prn xs nms out : vec_cbind addr r size prn xs nms = Ok out -> exists n names cols, out.1 = VDf n names cols.
Proof.
  unfold vec_cbind. intros E.
  repeat match type of E with bind ?m _ = Ok _ => destruct m; cbn [bind] in E; try done | (let '(_, _) := ?p in _) = _ => destruct p end. injection E as <-. simpl. eauto.
Qed.
Lemma rbind_ptype_df addr r ptype prn rows p : rbind_ptype addr r ptype prn rows = Ok (Some p) -> exists n names cols, p.1 = VDf n names cols.
Proof.
  unfold rbind_ptype. destruct (vec_ptype_common _ _ _) as [q| |]; cbn [bind]; try done. destruct q as [| |t [dim|]| | | | | |b names cols|]; try done.
  - by destruct t.
  - destruct t; try done. unfold as_df_row_impl. cbn [fst]. intros E.
    repeat match type of E with bind ?m _ = Ok _ => destruct m eqn:?; cbn [bind] in E; try done end. injection E as <-.
    repeat match goal with H : bind ?m _ = Ok _ |- _ => destruct m eqn:?; cbn [bind] in H; try done end.
    match goal with H : Ok _ = Ok ?q |- _ => injection H as <- end. simpl. eauto.
  - destruct (proto_val _) as [v| |] eqn:E; cbn [bind]; try done. intros [= <-]. cbn [proto_val] in E.
    match type of E with bind ?m _ = Ok _ => destruct m; cbn [bind] in E; try done end. injection E as <-. simpl. eauto.
Qed.
Lemma rbind_names_to_df addr spec nt b p q : rbind_names_to addr spec nt b p = Ok q -> (exists n names cols, p.1 = VDf n names cols) -> exists n names cols, q.1.1 = VDf n names cols.
Proof.
  unfold rbind_names_to. intros E Hp. destruct nt as [name|]; [|injection E as <-; done].
  assert (E' : (let! loc := match p.1 with VDf _ names _ => r_chr_find names name | _ => Err "unreachable" end in
              if (loc <? 0)%Z then
                let! p := cbind_names_to addr b name p in Ok (p, 0%Z)
              else Ok (p, loc)) = Ok q) by (destruct spec; done). clear E.
  match type of E' with bind ?m _ = Ok _ => destruct m; cbn [bind] in E'; try done end. destruct (_ <? 0)%Z; [|injection E' as <-; done].
  unfold cbind_names_to in E'. match type of E' with bind ?m _ = Ok _ => destruct m eqn:Ec; cbn [bind] in E'; try done end. injection E' as <-. by eapply vec_cbind_df.
Qed.
Lemma same_row_df n names cols i m names' cols' j : same_row (VDf n names cols) i (VDf m names' cols') j ->
  forall k c u, cols !! k = Some c -> cols' !! k = Some u -> same_row c i u j.
Proof.
  intros (r & H1 & H2) k c u Hc Hu. inversion H1 as [| |? ? ? cs F1]; subst. inversion H2 as [| |? ? ? ? F2]; subst.
  destruct (Forall2_lookup_l _ _ _ _ _ F1 Hc) as (x & Hx & S1). destruct (Forall2_lookup_l _ _ _ _ _ F2 Hu) as (y & Hy & S2).
  rewrite Hx in Hy. injection Hy as <-. by exists x.
Qed.

Definition cast_done (addr : rstr -> Z) (cast : value -> value -> res value) (p : rowed) (x w : option rowed) : Prop :=
  casted_row addr cast p x w /\ match w with None => x = None | Some w => exists v, x = Some v /\ fitted p.1 w.1 (value_size v.1) end.
Lemma row_sizes_pos rows : Forall rowed_ok rows -> Forall (fun n => 0 <= n)%Z (row_sizes rows).
Proof.
  intros Hrows. unfold row_sizes. apply Forall_map. eapply Forall_impl; [apply Hrows|]. intros [[v q]|]; [|done]. intros [Hv _]. apply value_size_range in Hv. simpl. lia.
Qed.
Lemma cast_rows addr cast p n tn tc (rows ws : list (option rowed)) :
  leaf_ok cast -> Forall rowed_ok rows -> Forall framed rows -> value_ok p.1 -> p.1 = VDf n tn tc -> colnames_ok (Some p) -> Forall colnames_ok rows ->
  shape_fits (total (row_sizes rows)) p.1 -> Forall2 (fun x y => cast_row addr cast p x = Ok y) rows ws -> Forall2 (cast_done addr cast p) rows ws.
Proof.
  intros Hleaf Hrows Hfr Hp Edf Hcp Hcn Hf Ew. set (ns := row_sizes rows) in *. pose proof (row_sizes_pos rows Hrows) as Hns. fold ns in Hns. pose proof (Forall2_length _ _ _ Ew) as Hlw.
  assert (Hsz : forall i x, rows !! i = Some (Some x) -> (value_size x.1 <= total ns)%Z).
    { intros i x Hi. assert (Hi' : ns !! i = Some (value_size x.1)) by (unfold ns, row_sizes; rewrite list_lookup_fmap; exact (f_equal (fmap (M := option) _) Hi)).
      pose proof (total_take_all ns i _ Hns Hi'). lia. }
    apply Forall2_same_length_lookup_2; [done|]. intros i x w Hx Hw. rewrite Forall2_lookup in Ew. pose proof (Ew i) as Ei. rewrite Hx, Hw in Ei. inversion Ei as [? ? Ec|]; subst.
    rewrite Forall_lookup in Hrows, Hcn, Hfr. pose proof (Hrows _ _ Hx) as Hxo. pose proof (Hcn _ _ Hx) as Hxn. pose proof (Hfr _ _ Hx) as Hxf.
    destruct x as [x|]; [|injection Ec as <-; done]. destruct x as [v q]. destruct Hxo as [Hv Hq].
    pose proof (Hsz _ _ Hx) as Hle. cbn [fst] in Hle.
    destruct (cast_row_fitted addr cast p (v, q) w Hleaf Hp Hv (shape_fits_le _ _ _ Hle Hf) Ec) as (w' & q' & -> & Hfit & Hcase). cbn [fst snd] in *.
    split; [|by exists (v, q)]. destruct p as [pv prn]. cbn [fst snd] in *. subst pv. destruct Hfit as (F1 & F2 & F3).
    inversion F2 as [| |? ? ? m wc F4]; subst. simpl in F3. unfold casted_row. split; [done|]. split; [done|]. split; [by rewrite (Forall2_length _ _ _ F4)|].
    destruct (is_unspecified v) eqn:Eu.
    - apply is_unspecified_spec in Eu. destruct v as [? data ?| |]; try done. destruct Hcase as [Ecase Einit]. split; [intros ->; by injection Einit as <-|].
      simpl in F3, Ecase. rewrite Nat2Z.id in Ecase. injection Ecase as _ ->. assert (length data = m) as -> by lia.
      apply value_ok_df in Hp as (_ & _ & _ & Hp). clear -Hp. induction Hp; constructor; [by apply sliced_slice_val|done].
    - destruct v as [vt vd vnm| |vn xn xc]; [exfalso; apply (is_unspecified_spec (VVec vt vd vnm)) in Hxf; congruence|done|]. destruct Hcase as [Ecast ->]. split; [done|]. simpl in F3. assert (vn = m) as -> by lia.
      pose proof Hp as Hp'. apply value_ok_df in Hp' as (_ & P2 & _). apply value_ok_df in Hv as (_ & V2 & _). destruct Hcp as (C1 & C2 & C3), Hxn as (X1 & X2 & X3).
      pose proof (C38_cast addr cast m xn xc n tn tc X1 C1 X2 C2 V2 P2 X3 C3) as HC. rewrite Ecast in HC. destruct HC as (D1 & oc & [= ->] & D2 & D3). split; [done|].
      intros j s t Hs Ht. destruct (D3 j s t Hs Ht) as (u & Hu & Eu'). eauto.
Qed.
Lemma cast_rows_use addr cast p n tn tc (rows ws : list (option rowed)) : p.1 = VDf n tn tc -> Forall2 (cast_done addr cast p) rows ws ->
  row_sizes ws = row_sizes rows /\ Forall is_df ws /\ Forall (c_ok Ok p.1) (vals ws).
Proof.
  intros Edf Hws. split; [|split].
  - unfold row_sizes. clear -Hws. induction Hws as [|x w rows ws [_ H] H2 IH]; [done|]. simpl. f_equal; [|exact IH].
    destruct w as [w|]; [|by subst]. destruct H as (v & -> & _ & _ & ->). done.
  - clear -Hws Edf. induction Hws as [|x w rows ws [_ H] H2 IH]; constructor; [|done]. destruct w as [[w q]|]; [|done]. destruct H as (v & _ & _ & H & _).
    simpl in H. rewrite Edf in H. by inversion H.
  - clear -Hws Edf. induction Hws as [|x w rows ws [_ H] H2 IH]; constructor; [|done]. destruct w as [[w q]|]; [|done]. destruct H as (v & _ & F1 & F2 & F3). simpl in *.
    rewrite Edf in *. inversion F2; subst. split; [done|]. split; [done|]. intros _. eexists. split; [done|]. by split_and!.
Qed.

Theorem C49_rbind addr cast r spec ptype ptype_rn names_to xs xs_names (rows : list (option rowed)) p0 p loc out rn :
  leaf_ok cast -> Forall rowed_ok xs -> Forall2 (row_form (fun a b => vec_as_names addr r a = Ok b)) xs rows -> Forall rowed_ok rows ->
  names_fit (length xs) xs_names ->
  rbind_ptype addr r ptype ptype_rn rows = Ok (Some p0) ->
  rbind_names_to addr spec names_to (match xs_names with Some _ => true | None => false end) p0 = Ok (p, loc) ->
  value_ok p.1 -> Forall colnames_ok (Some p :: rows) ->
  let ns := row_sizes rows in
  (total ns <= INT_MAX)%Z -> shape_fits (total ns) p.1 ->
  vec_rbind addr cast r spec ptype ptype_rn names_to xs xs_names = Ok (out, rn) ->
  exists ws n tn tc cols nms, p.1 = VDf n tn tc /\ Forall2 (casted_row addr cast p) rows ws /\
    out = VDf (Z.to_nat (total ns)) tn cols /\ length cols = length tc /\
    (** the rows of the inputs, one input after the other *)
    (forall i m wn wc wrn k j c u, ws !! i = Some (Some (VDf m wn wc, wrn)) -> (1 <= k <= Z.of_nat m)%Z ->
       (names_to = None \/ Z.of_nat j <> loc) -> cols !! j = Some c -> wc !! j = Some u ->
       same_row (full c) (total (take i ns) + k) (full u) k) /\
    (** the column of names or positions *)
    match names_to with
    | None => True
    | Some _ => (0 <= loc)%Z /\ cols !! Z.to_nat loc =
        Some match xs_names with
             | Some l => VVec TChr (spread ns (map EChr l)) None
             | None => VVec TInt (spread ns (map (fun i => EInt (Z.of_nat i + 1)%Z) (seq 0 (length xs)))) None
             end
    end /\
    (** row names *)
    length nms = length xs /\
    (forall i o, nms !! i = Some o -> name_of_input spec (match names_to with Some _ => None | None => xs_names end) ws ns i o) /\
    match joined_names ns nms with
    | Some l => exists o, rn = Some o /\ (names_ok l -> repaired l o)
    | None => p.2 = None -> rn = None
    end.
Proof.
  intros Hleaf Hxs Hrf Hrows Hnf Ep Ent Hp Hcn ns HN Hf E.
  apply Forall_cons in Hcn as [Hcp Hcn].
  assert (Er : map_res (as_df_row addr r) xs = Ok rows).
  { apply map_res_ok. clear -Hxs Hrf. induction Hrf as [|x y xs rows H H2 IH]; [constructor|]. apply Forall_cons in Hxs as [Hx Hxs]. constructor; [|by apply IH].
    apply as_df_row_spec; [|done]. destruct x as [[v q]|]; [|done]. by destruct Hx. }
  assert (Hfr : Forall framed rows).
  { clear -Hrf. induction Hrf; constructor; [by eapply row_form_framed|done]. }
  assert (Hlx : length xs = length rows) by exact (Forall2_length _ _ _ Hrf).
  destruct (rbind_names_to_df _ _ _ _ _ _ Ent (rbind_ptype_df _ _ _ _ _ _ Ep)) as (n & tn & tc & Edf). cbn [fst] in Edf.
  unfold vec_rbind in E. rewrite Er in E. cbn [bind] in E. rewrite Ep in E. cbn [bind] in E. rewrite Ent in E. cbn [bind] in E.
  destruct (map_res (cast_row addr cast p) rows) as [ws| |] eqn:Ew; cbn [bind] in E; try done. apply map_res_ok in Ew.
  pose proof (Forall2_length _ _ _ Ew) as Hlw.
  assert (Hws : Forall2 (cast_done addr cast p) rows ws) by (by eapply cast_rows).
  destruct (cast_rows_use _ _ _ _ _ _ _ _ Edf Hws) as (Ens & Hwd & Hwc). fold ns in Ens.
  assert (Ews : map (fun x : option rowed => match x with None => 0%Z | Some x => value_size x.1 end) ws = ns) by exact Ens.
  cbv zeta in E. rewrite Ews in E. rewrite is_fold_total, Z.add_0_l in E.
  assert (Es0 : sizes0 (vals ws) = ns) by (rewrite <- row_sizes_vals; done).
  destruct (C25_c Ok p.1 (vals ws)) as (out1 & Ev & O1 & O2 & O3 & O4); [done|by rewrite Es0|by rewrite Es0|done|]. rewrite Es0 in *.
  rewrite vec_c_body in Ev. cbv zeta in Ev. rewrite Es0, is_fold_total, Z.add_0_l in Ev.
  destruct (vec_init p.1 (total ns)) as [out0| |]; cbn [bind] in E, Ev; try done.
  destruct (init_rownames addr p.2 (total ns)) as [irn| |] eqn:Eirn; cbn [bind] in E; try done.
  match type of E with bind ?m _ = _ => destruct m as [[[[o rr] t] c]| |] eqn:El; cbn [bind] in E; try done end.
  set (idx := match xs_names with Some l => map EChr l | None => map (fun i => EInt (Z.of_nat i + 1)%Z) (seq 0 (length ws)) end) in *.
  assert (Hidx : length idx = length ws).
  { unfold idx. destruct xs_names as [l|]; rewrite map_length; [simpl in Hnf; lia|by rewrite seq_length]. }
  apply rbind_loop_ok in El; [|done|done|destruct names_to; [done|destruct xs_names; simpl in *; [lia|done]]|destruct names_to; done].
  destruct El as ([c' Ec] & (nms & N1 & N2 & N3) & Et).
  assert (Hvl : length (vals ws) = length ws) by apply map_length. rewrite Hvl, Ec in Ev. cbn [bind] in Ev. injection Ev as <-. rewrite Edf in O2. inversion O2 as [| |? ? ? m oc O5]; subst o. simpl in O3.
  assert (m = Z.to_nat (total ns)) as -> by lia.
  match type of E with bind ?m _ = _ => destruct m as [rn'| |] eqn:Ern; cbn [bind] in E; try done end.
  assert (Hrow : forall i m wn wc wrn k j c u, ws !! i = Some (Some (VDf m wn wc, wrn)) -> (1 <= k <= Z.of_nat m)%Z -> oc !! j = Some c -> wc !! j = Some u ->
       same_row (full c) (total (take i ns) + k) (full u) k).
  { intros i m wn wc wrn k j c0 u Hi Hk Hc Hu. assert (Hvi : vals ws !! i = Some (Some (VDf m wn wc))) by (unfold vals; rewrite list_lookup_fmap; exact (f_equal (fmap (option_map fst)) Hi)).
    pose proof (O4 i _ _ k Hvi eq_refl Hk) as Hr. simpl in Hr. eapply same_row_df in Hr; [exact Hr|by rewrite list_lookup_fmap, Hc|by rewrite list_lookup_fmap, Hu]. }
  assert (Hrn : match joined_names ns nms with Some l => exists o, rn' = Some o /\ (names_ok l -> repaired l o) | None => p.2 = None -> rn' = None end).
  { rewrite N3 in Ern. destruct (joined_names ns nms) as [l|].
    - unfold restore_rownames in Ern. destruct (vec_as_unique_names addr l) as [o| |] eqn:Eo; cbn [bind] in Ern; try done. injection Ern as <-. exists o. split; [done|].
      intros Hl. destruct (C34_repaired addr l Hl) as (o' & Eo' & Ro & _). congruence.
    - intros Hpn. rewrite Hpn in Eirn. injection Eirn as <-. by injection Ern as <-. }
  assert (Hcast : Forall2 (casted_row addr cast p) rows ws) by (eapply Forall2_impl; [apply Hws|]; by intros ? ? [? _]).
  pose proof (Forall2_length _ _ _ O5) as Hoc.
  destruct names_to as [nt|].
  - match type of E with bind ?m _ = _ => destruct m as [ocs| |] eqn:Ecols; cbn [bind] in E; try done end. injection E as <- <-.
    unfold wrZ in Ecols. destruct (Z.ltb_spec loc 0) as [|Hloc]; [done|]. apply wr_inv in Ecols as [Hlt ->].
    exists ws, n, tn, tc. eexists. exists nms. split; [done|]. split; [done|]. split; [done|]. split; [rewrite insert_length; lia|]. split; [|split; [|split; [lia|split; [|done]]]].
    + intros i m wn wc wrn k j c0 u Hi Hk [?|Hj] Hc Hu; [done|]. rewrite list_lookup_insert_ne in Hc by lia. by eapply Hrow.
    + split; [done|]. rewrite list_lookup_insert by lia. f_equal. rewrite Et. unfold idx. rewrite <- Hlw, <- Hlx. by destruct xs_names.
    + exact N2.
  - injection E as <- <-. exists ws, n, tn, tc, oc, nms. split; [done|]. split; [done|]. split; [done|]. split; [done|]. split; [intros; by eapply Hrow|].
    split; [done|]. split; [lia|]. split; [|done]. exact N2.
Qed.

(** Inputs become data frames as the specification says. *)
Theorem C49_row addr r x y : rowed_ok x -> as_df_row addr r x = Ok y <-> row_form (fun a b => vec_as_names addr r a = Ok b) x y.
Proof. intros Hx. apply as_df_row_spec. destruct x as [[v q]|]; [|done]. by destruct Hx. Qed.

(** Row names can be made of the outer name and the row names of an input. *)
Definition namable (spec : name_spec) (outer : option rstr) (inner : option (list rstr)) (n : nat) : Prop :=
  spec = SpecZap \/ outer = None \/ exists o, outer = Some o /\
    ((blank_name o /\ (inner <> None \/ n = 1)) \/
     (~ blank_name o /\ blanks inner /\ n = 1) \/
     (exists f, spec = SpecFn f /\ ~ blank_name o /\ forall arg, exists out, f o arg = Ok (Some out) /\ length out = n)).
Lemma namable_ok spec outer inner n : n <> 0 -> match inner with Some l => length l = n | None => True end -> namable spec outer inner n ->
  spec = SpecZap \/ exists xn, apply_name_spec spec outer inner n = Ok xn /\
    match xn with NoNames => True | ChrsEmpty => n = 1 | Names l => length l = n end.
Proof.
  intros Hn Hin [->|Hnm]; [by left|]. destruct (match spec with SpecZap => true | _ => false end) eqn:Ez; [left; by destruct spec|]. right.
  unfold apply_name_spec. assert (HH : forall A (a b : A), match spec with SpecZap => a | _ => b end = b) by (by intros; destruct spec). rewrite HH.
  destruct Hnm as [->|(o & -> & Ho)]; [eexists; split; [done|]; by destruct inner|].
  destruct (str_ptr_eqb o empty_str || str_ptr_eqb o None) eqn:Eb.
  { apply blank_spec in Eb. eexists. split; [done|]. destruct Ho as [[_ [Hi|Hi]]|[[Hi _]|(f & _ & Hi & _)]]; try done; by destruct inner. }
  assert (Hb : ~ blank_name o) by (rewrite <- blank_spec, Eb; done).
  destruct (empty_spec inner) as (b & -> & Hbl). cbn [bind]. destruct (Nat.eqb_spec n 0); [done|]. rewrite andb_false_r.
  destruct (b && Nat.eqb n 1) eqn:E1.
  { apply andb_true_iff in E1 as [_ E1]. apply Nat.eqb_eq in E1. eexists. split; [done|]. simpl. lia. }
  destruct Ho as [[? _]|[(_ & H1 & H2)|(f & -> & _ & Hf)]]; [done| |].
  - apply Hbl in H1. by rewrite H1, H2 in E1.
  - edestruct Hf as (out & Ef & Hl). rewrite Ef. cbn [bind]. unfold recycle_names. rewrite Hl, Nat.eqb_refl. by eexists.
Qed.
(** The columns of an input can be cast. *)
Definition castable (addr : rstr -> Z) (cast : value -> value -> res value) (tn : list rstr) (tc : list value) (x : option rowed) : Prop :=
  match x with
  | Some (VDf m xn xc, _) => xn ⊆ tn /\ forall j s t, tn !! j = Some s -> tc !! j = Some t -> exists u, cast_col addr cast m xn xc s t = Ok u
  | _ => True
  end.

Theorem C49_rbind_ok addr cast r spec ptype ptype_rn names_to xs xs_names (rows : list (option rowed)) p0 p loc n tn tc :
  leaf_ok cast -> Forall rowed_ok xs -> Forall2 (row_form (fun a b => vec_as_names addr r a = Ok b)) xs rows -> Forall rowed_ok rows ->
  names_fit (length xs) xs_names ->
  rbind_ptype addr r ptype ptype_rn rows = Ok (Some p0) ->
  rbind_names_to addr spec names_to (match xs_names with Some _ => true | None => false end) p0 = Ok (p, loc) ->
  value_ok p.1 -> Forall colnames_ok (Some p :: rows) ->
  let ns := row_sizes rows in
  (total ns <= INT_MAX)%Z -> shape_fits (total ns) p.1 ->
  p = (VDf n tn tc, None) -> match names_to with Some _ => (0 <= loc < Z.of_nat (length tc))%Z | None => True end ->
  Forall (castable addr cast tn tc) rows ->
  let outer := match names_to with Some _ => None | None => xs_names end in
  (forall i v inner, rows !! i = Some (Some (v, inner) : option rowed) -> value_size v <> 0%Z -> namable spec (outer_at outer i) inner (Z.to_nat (value_size v))) ->
  (forall ws nms l, Forall2 (casted_row addr cast p) rows ws -> length nms = length xs -> (forall i o, nms !! i = Some o -> name_of_input spec outer ws ns i o) -> joined_names ns nms = Some l -> names_ok l) ->
  exists out rn, vec_rbind addr cast r spec ptype ptype_rn names_to xs xs_names = Ok (out, rn).
Proof.
  intros Hleaf Hxs Hrf Hrows Hnf Ep Ent Hp Hcn ns HN Hf Edf Hloc Hcast outer Hnm Hrn.
  apply Forall_cons in Hcn as [Hcp Hcn].
  assert (Er : map_res (as_df_row addr r) xs = Ok rows).
  { apply map_res_ok. clear -Hxs Hrf. induction Hrf as [|x y xs rows H H2 IH]; [constructor|]. apply Forall_cons in Hxs as [Hx Hxs]. constructor; [|by apply IH].
    apply as_df_row_spec; [|done]. destruct x as [[v q]|]; [|done]. by destruct Hx. }
  assert (Hfr : Forall framed rows).
  { clear -Hrf. induction Hrf; constructor; [by eapply row_form_framed|done]. }
  assert (Hlx : length xs = length rows) by exact (Forall2_length _ _ _ Hrf). pose proof (row_sizes_pos rows Hrows) as Hns. fold ns in Hns.
  assert (exists ws, map_res (cast_row addr cast p) rows = Ok ws) as [ws Ew].
  { assert (HF : Forall (fun x => exists w, cast_row addr cast p x = Ok w) rows).
    { apply Forall_lookup. intros i x Hx. rewrite Forall_lookup in Hrows, Hcn, Hfr, Hcast. pose proof (Hrows _ _ Hx) as Hxo. pose proof (Hcn _ _ Hx) as Hxn. pose proof (Hfr _ _ Hx) as Hxf.
      pose proof (Hcast _ _ Hx) as Hxc. destruct x as [[v q]|]; [|by eexists]. destruct Hxo as [Hv _]. unfold cast_row.
      assert (Hi' : ns !! i = Some (value_size v)) by (unfold ns, row_sizes; rewrite list_lookup_fmap; exact (f_equal (fmap (M := option) _) Hx)).
      pose proof (total_take_all ns i _ Hns Hi') as Hle. pose proof (value_size_range _ Hv) as Hvr.
      destruct (is_unspecified v) eqn:Eu.
      - rewrite <- (Z2Nat.id (value_size v)) by lia. rewrite vec_init_spec; [|done|lia|]. 2:{ rewrite Z2Nat.id by lia. eapply shape_fits_le; [|done]. lia. }
        cbn [bind]. subst p. simpl. by eexists.
      - destruct v as [vt vd vnm| |vn xn xc]; [exfalso; apply (is_unspecified_spec (VVec vt vd vnm)) in Hxf; congruence|done|].
        subst p. cbn [fst] in *. pose proof Hp as Hp'. apply value_ok_df in Hp' as (_ & P2 & _). apply value_ok_df in Hv as (_ & V2 & _). destruct Hcp as (C1 & C2 & C3), Hxn as (X1 & X2 & X3).
        pose proof (C38_cast addr cast vn xn xc n tn tc X1 C1 X2 C2 V2 P2 X3 C3) as HC. destruct Hxc as [Hsub Hcol].
        destruct (vec_cast addr cast (VDf vn xn xc) (VDf n tn tc)) as [w|e|e]; [by eexists| |]; exfalso.
        + destruct HC as [?|(j & s & t & Hs & Ht & Ec)]; [done|]. destruct (Hcol j s t Hs Ht) as [u Hu]. congruence.
        + destruct HC as (j & s & t & Hs & Ht & Ec). destruct (Hcol j s t Hs Ht) as [u Hu]. congruence. }
    assert (exists ws, Forall2 (fun x y => cast_row addr cast p x = Ok y) rows ws) as [ws Hw].
    { clear -HF. induction HF as [|x rows [w Hw] HF [ws IH]]; [exists []; constructor|]. exists (w :: ws). by constructor. }
    exists ws. by apply map_res_ok. }
  unfold vec_rbind. rewrite Er. cbn [bind]. rewrite Ep. cbn [bind]. rewrite Ent. cbn [bind]. rewrite Ew. cbn [bind]. apply map_res_ok in Ew. pose proof (Forall2_length _ _ _ Ew) as Hlw.
  assert (Edf1 : p.1 = VDf n tn tc) by by rewrite Edf.
  assert (Hws : Forall2 (cast_done addr cast p) rows ws) by (by eapply cast_rows).
  destruct (cast_rows_use _ _ _ _ _ _ _ _ Edf1 Hws) as (Ens & Hwd & Hwc). fold ns in Ens.
  assert (Ews : map (fun x : option rowed => match x with None => 0%Z | Some x => value_size x.1 end) ws = ns) by exact Ens.
  cbv zeta. rewrite Ews. rewrite is_fold_total, Z.add_0_l.
  assert (Es0 : sizes0 (vals ws) = ns) by (rewrite <- row_sizes_vals; done).
  destruct (C25_c Ok p.1 (vals ws)) as (out1 & Ev & O1 & O2 & O3 & O4); [done|by rewrite Es0|by rewrite Es0|done|]. rewrite Es0 in *.
  rewrite vec_c_body in Ev. cbv zeta in Ev. rewrite Es0, is_fold_total, Z.add_0_l in Ev.
  destruct (vec_init p.1 (total ns)) as [out0| |]; cbn [bind] in Ev |- *; try done.
  assert (Ei : init_rownames addr p.2 (total ns) = Ok None) by by rewrite Edf. rewrite Ei. cbn [bind].
  set (idx := match xs_names with Some l => map EChr l | None => map (fun i => EInt (Z.of_nat i + 1)%Z) (seq 0 (length ws)) end).
  assert (Hidx : length idx = length ws).
  { unfold idx. destruct xs_names as [l|]; rewrite map_length; [simpl in Hnf; lia|by rewrite seq_length]. }
  set (index := match names_to with Some _ => Some idx | None => None end).
  set (blank := match xs_names with Some _ => EChr empty_str | None => EInt 0%Z end).
  assert (Hvl : length (vals ws) = length ws) by apply map_length. rewrite Hvl in Ev.
  destruct (for_ 0 (length ws) (c_body (vals ws) ns (Z.to_nat (total ns))) (out0, None, 0%Z)) as [[[o1 on] c1]| |] eqn:Ec; cbn [bind] in Ev; try done.
  assert (Hon : on = None).
  { apply (for_ok_inv (fun _ (st : value * option (list rstr) * Z) => st.1.2 = None)) in Ec; [done|done|]. clear -Hwd. intros i [[a b] c] t _ Hb E. simpl in Hb. subst b. unfold c_body in E.
    destruct (rd (vals ws) i) as [x| |] eqn:Ex; cbn [bind] in E; try done. apply rd_Ok in Ex. destruct (rd _ i) as [sz| |]; cbn [bind] in E; try done.
    unfold vals in Ex. apply list_lookup_fmap_inv in Ex as (y & -> & Hy). rewrite Forall_lookup in Hwd. pose proof (Hwd _ _ Hy) as Hd.
    destruct y as [[[] q]|]; simpl in E; try done.
    - destruct (sz =? 0)%Z; [by injection E as <-|]. match type of E with bind ?m _ = _ => destruct m; cbn [bind] in E; try done end. by injection E as <-.
    - destruct (sz =? 0)%Z; [by injection E as <-|done]. }
  subst on.
  assert (Hnf' : names_fit (length ws) outer) by (unfold outer; destruct names_to; [done|]; destruct xs_names; simpl in *; [lia|done]).
  assert (Hix' : match index with Some idx => length idx = length ws | None => True end) by (unfold index; destruct names_to; done).
  destruct (rbind_loop_total spec ws ns outer index blank out0 Hwd (eq_sym Ews) Hnf' Hix' o1 c1) as [[[[o rr] t] c] El]; [|done|].
  { intros i v inner m Hi Hm Hm0. rewrite Forall2_lookup in Hws. pose proof (Hws i) as Hwi. rewrite Hi in Hwi. inversion Hwi as [x ? Hxw|]; subst.
    destruct Hxw as [Hc (xv & -> & _ & _ & Hsz)]. destruct xv as [xv q]. cbn [fst] in Hsz.
    assert (Hx : rows !! i = Some (Some (xv, q) : option rowed)) by (match goal with H : Some _ = _ !! i |- _ => exact (eq_sym H) | H : _ !! i = Some (Some (xv, q)) |- _ => exact H end).
    assert (Hm' : m = value_size xv).
    { unfold ns, row_sizes in Hm. rewrite list_lookup_fmap in Hm. assert (E' := f_equal (fmap (M := option) (fun x : option rowed => match x with None => 0%Z | Some x => value_size x.1 end)) Hx).
      simpl in E'. assert (Some m = Some (value_size xv)) as [= ->] by (etransitivity; [symmetry; exact Hm|exact E']). done. }
    assert (Hv0 : (0 <= m)%Z) by (rewrite Forall_lookup in Hns; by eapply Hns).
    assert (Hq : match q with Some l => Z.of_nat (length l) = m /\ exists n names cols, xv = VDf n names cols | None => True end).
    { rewrite Forall_lookup in Hrows. pose proof (Hrows _ _ Hx) as [_ Hq]. destruct q; [|done]. destruct Hq as [Hq ?]. split; [lia|done]. }
    assert (inner = q) as ->.
    { destruct v as [| |vn wn wc]; try done. simpl in Hc. destruct Hc as (_ & _ & _ & Hc). destruct xv; [..|apply Hc]; (rewrite (proj1 Hc eq_refl); destruct q; [|done]; by destruct Hq as (_ & ? & ? & ? & ?)). }
    destruct (namable_ok spec (outer_at outer i) q (Z.to_nat m)) as [?|(xn & Ea & Hxn)]; [lia|destruct q; [lia|done]|rewrite Hm'; eapply Hnm; [done|lia]|by left|].
    right. exists xn. split; [done|]. destruct xn; [done|lia|lia]. }
  match goal with |- exists _ _, bind ?m _ = _ => assert (Em : m = Ok (o, rr, t, c)); [|rewrite Em; clear Em] end.
  { etransitivity; [|exact El]. unfold index, outer. by destruct names_to. }
  cbn [bind]. pose proof El as El'. apply (rbind_loop_ok spec ws ns outer index blank out0 Hwd (eq_sym Ews) Hnf' Hix') in El' as ([c' Ec'] & (nms & N1 & N2 & N3) & Et).
  assert (exists rn, restore_rownames addr match rr with Some l => Some l | None => None end = Ok rn) as [rn Ern].
  { rewrite N3. destruct (joined_names ns nms) as [l|] eqn:Ej; [|by eexists]. simpl.
    destruct (C34_repaired addr l) as (ro & -> & _); [|by eexists]. eapply (Hrn ws nms); [eapply Forall2_impl; [apply Hws|]; by intros ? ? [? _]|lia|done|done]. }
  rewrite Ern. cbn [bind]. unfold index. destruct names_to as [nt|]; [|by eexists _, _].
  rewrite Ec in Ec'. injection Ec' as E1 _. injection Ev as E2. simpl in E2. assert (o = out1) as -> by congruence. rewrite Edf1 in O2. inversion O2 as [| |? ? ? m oc O5]; subst. pose proof (Forall2_length _ _ _ O5) as Hoc.
  unfold wrZ. destruct (Z.ltb_spec loc 0); [lia|]. rewrite wr_Ok by lia. cbn [bind]. by eexists _, _.
Qed.

(** The column of names: one of the prototype, or a new first column. *)
Theorem C49_names_to addr spec name b tn tc : spec <> SpecZap ->
  (forall n rn, name ∈ tn -> exists j, rbind_names_to addr spec (Some name) b (VDf n tn tc, rn) = Ok ((VDf n tn tc, rn), Z.of_nat j) /\
     tn !! j = Some name /\ forall k, k < j -> tn !! k <> Some name) /\
  (name ∉ tn -> value_ok (VDf 0 tn tc) ->
     rbind_names_to addr spec (Some name) b (VDf 0 tn tc, None) =
       Ok ((VDf 0 (name :: tn) (VVec (if b then TChr else TInt) [] None :: tc), None), 0%Z)).
Proof.
  intros Hz. assert (HH : forall A (a b : A), match spec with SpecZap => a | _ => b end = b) by (by intros; destruct spec).
  unfold rbind_names_to. rewrite HH. cbn [fst].
  assert (Hfind : exists loc, r_chr_find tn name = Ok loc /\
    ((loc = -1 /\ name ∉ tn)%Z \/ exists j, loc = Z.of_nat j /\ tn !! j = Some name /\ forall k, k < j -> tn !! k <> Some name)).
  { unfold r_chr_find. apply (for_brk_inv (fun i (loc : Z) => loc = (-1)%Z /\ forall k, k < i -> tn !! k <> Some name)).
    - split; [done|]. intros k Hk. lia.
    - intros i loc Hi [-> Hk]. destruct (lookup_lt_is_Some_2 tn i) as [s Hs]; [lia|]. rewrite (proj2 (rd_Ok _ _ _) Hs). cbn [bind].
      destruct (str_ptr_eqb s name) eqn:Es.
      + right. apply str_ptr_eqb_spec in Es as ->. eexists. split; [done|]. right. by exists i.
      + left. eexists. split; [done|]. split; [done|]. intros k Hk'. destruct (decide (k = i)) as [->|]; [|apply Hk; lia]. intros E.
        unfold rstr in *. rewrite Hs in E. injection E as ->. assert (str_ptr_eqb name name = true) by by apply str_ptr_eqb_spec. congruence.
    - intros loc [-> Hk]. left. split; [done|]. intros Hin. apply elem_of_list_lookup in Hin as [k Hin]. apply (Hk k); [|done]. by apply lookup_lt_Some in Hin. }
  destruct Hfind as (loc & -> & Hf). cbn [bind]. split.
  - intros n rn Hin. destruct Hf as [[_ ?]|(j & -> & Hj)]; [done|]. destruct (Z.ltb_spec (Z.of_nat j) 0); [lia|]. by exists j.
  - intros Hin Hok. destruct Hf as [[-> _]|(j & -> & Hj & _)]; [|by apply elem_of_list_lookup_2 in Hj].
    cbn -[cbind_names_to]. unfold cbind_names_to.
    set (ix := if b then VVec TChr [] None else VVec TInt [] None).
    assert (Hix : value_ok ix) by (unfold ix; destruct b; by constructor).
    assert (Hix0 : value_size ix = 0%Z) by (unfold ix; by destruct b).
    edestruct (C49_cbind addr RepairNone None None [Some (ix, None); Some (VDf 0 tn tc, None)] (Some [name; empty_str]) 0) as (ws & rn & H1 & H2 & H3 & E).
    + constructor; [by split|]. constructor; [by split|constructor].
    + done.
    + simpl. constructor; [unfold ix; by destruct b|]. constructor; [done|constructor].
    + right. unfold sizes_of. simpl. rewrite Hix0. split; [by left|]. intros m [<-|[<-|[]]]; by left.
    + done.
    + simpl in H1, H2. inversion H1 as [|? w1 ? ? R1 R2]; subst. inversion R2 as [|? w2 ? ? R3 R4]; subst. inversion R4; subst.
      destruct R1 as (u1 & -> & [[_ ->]|(Hn1 & _)]); [|lia]. destruct R3 as (u2 & -> & [[_ ->]|(Hn2 & _)]); [|done].
      match goal with |- bind ?m _ = _ => change m with (vec_cbind addr RepairNone None None [Some (ix, None); Some (VDf 0 tn tc, None)] (Some [name; empty_str])) end.
      match type of E with _ = ?rhs => match goal with |- bind ?m _ = _ => assert (Em : m = rhs) by exact E; rewrite Em; clear Em E end end. apply value_ok_df in Hok as (_ & Hl & _).
      assert (Ecs : contributions (Some [name; empty_str]) [Some ix; Some (VDf 0 tn tc)] = (name, ix) :: zip tn tc).
      { unfold contributions. simpl. rewrite app_nil_r. destruct (decide (name = empty_str)) as [->|]; [unfold ix; by destruct b|done]. }
      rewrite Ecs. cbn [vec_as_names bind map fst snd]. rewrite fst_zip, snd_zip by (first [done|lia]). unfold ix. by destruct b.
Qed.

(** ** Examples *)
Definition ex_id : rstr := Some [105; 100]%Z.
Definition ints (l : list Z) : value := VVec TInt (map EInt l) None.
Lemma ex_leaf_ok : leaf_ok ex_cast.
Proof.
  intros x t w Hx Ht E. destruct x as [a d n| |], t as [b d' n'| |]; try done. simpl in E. destruct (vtype_eqb a b) eqn:Ev; [|done]. assert (a = b) as -> by (destruct a, b; try done).
  injection E as <-. split; [done|]. split; [constructor|done].
Qed.
(** [vec_rbind(c(a = 1L, b = 2L), data.frame(b = 5:6, a = 3:4), NULL, NA, .names_to = "id")] *)
Definition ex_inputs : list (option rowed) :=
  [Some (VVec TInt [EInt 1; EInt 2]%Z (Some [ex_a; ex_b]), None);
   Some (VDf 2 [ex_b; ex_a] [ints [5; 6]%Z; ints [3; 4]%Z], None); None; Some (VVec TLgl [ELgl NA_LOGICAL] None, None)].
Definition ex_rows : list (option rowed) :=
  [Some (VDf 1 [ex_a; ex_b] [ints [1]%Z; ints [2]%Z], None);
   Some (VDf 2 [ex_b; ex_a] [ints [5; 6]%Z; ints [3; 4]%Z], None); None; Some (VVec TLgl [ELgl NA_LOGICAL] None, None)].
Ltac ex_name := split; [repeat (apply Forall_cons; split; [lia|]); constructor|apply Z.leb_le; vm_compute; reflexivity].
Ltac ex_vec := constructor; [repeat constructor|done|apply Z.leb_le; vm_compute; reflexivity].
Ltac ex_df := constructor; [apply Z.leb_le; vm_compute; reflexivity|done|repeat constructor|repeat (apply Forall_cons; split; [ex_vec|]); constructor].
Lemma ex_inputs_ok : Forall rowed_ok ex_inputs /\ Forall rowed_ok ex_rows.
Proof. split; (apply Forall_cons; split; [split; [first [ex_vec|ex_df]|done]|]; apply Forall_cons; split; [split; [ex_df|done]|]; apply Forall_cons; split; [done|]; apply Forall_cons; split; [split; [ex_vec|done]|constructor]). Qed.
Example C49_row_example : Forall2 (row_form (fun a b => vec_as_names ex_addr RepairNone a = Ok b)) ex_inputs ex_rows /\
  as_df_row ex_addr RepairUnique (Some (VArr TInt [2; 2]%Z (map EInt [1; 2; 3; 4]%Z), None)) =
    Ok (Some (VDf 2 [Some [46; 46; 46; 49]; Some [46; 46; 46; 50]]%Z [ints [1; 2]%Z; ints [3; 4]%Z], None)).
Proof.
  split; [|vm_compute; reflexivity]. constructor; [|constructor; [by constructor|constructor; [constructor|constructor; [constructor; split; [done|by constructor]|constructor]]]].
  apply (rf_vector _ TInt [EInt 1; EInt 2]%Z (Some [ex_a; ex_b]) [ex_a; ex_b] None); [by intros [? _]|done].
Qed.
Example C49_names_to_example :
  rbind_names_to ex_addr SpecNull (Some ex_id) false (VDf 0 [ex_a; ex_b] [ints []; ints []], None) =
    Ok ((VDf 0 [ex_id; ex_a; ex_b] [ints []; ints []; ints []], None), 0%Z) /\
  rbind_names_to ex_addr SpecNull (Some ex_b) true (VDf 0 [ex_a; ex_b] [ints []; ints []], None) = Ok ((VDf 0 [ex_a; ex_b] [ints []; ints []], None), 1%Z) /\
  ex_id ∉ [ex_a; ex_b] /\ value_ok (VDf 0 [ex_a; ex_b] [ints []; ints []]).
Proof. split_and!; [vm_compute; reflexivity|vm_compute; reflexivity|rewrite !elem_of_cons, elem_of_nil; intuition discriminate|ex_df]. Qed.
Definition ex_p : rowed := (VDf 0 [ex_id; ex_a; ex_b] [ints []; ints []; ints []], None).
Lemma ex_hyps :
  rbind_ptype ex_addr RepairNone TyNull false ex_rows = Ok (Some (VDf 0 [ex_a; ex_b] [ints []; ints []], None)) /\
  rbind_names_to ex_addr SpecNull (Some ex_id) false (VDf 0 [ex_a; ex_b] [ints []; ints []], None) = Ok (ex_p, 0%Z) /\
  value_ok ex_p.1 /\ Forall colnames_ok (Some ex_p :: ex_rows) /\ total (row_sizes ex_rows) = 4%Z /\ shape_fits 4 ex_p.1.
Proof.
  split_and!; [vm_compute; reflexivity|vm_compute; reflexivity|ex_df| |vm_compute; reflexivity|].
  - assert (H : forall l, NoDup l -> strs_ok l -> (Z.of_nat (length l) <=? INT_MAX)%Z = true -> NoDup l /\ strs_ok l /\ (Z.of_nat (length l) <= INT_MAX)%Z) by (intros l ? ? ?; split_and!; [done|done|by apply Z.leb_le]).
    constructor; [apply H; [ex_nodup|ex_strs|vm_compute; reflexivity]|]. constructor; [apply H; [ex_nodup|ex_strs|vm_compute; reflexivity]|].
    constructor; [apply H; [ex_nodup|ex_strs|vm_compute; reflexivity]|]. constructor; [done|]. constructor; [done|constructor].
  - repeat constructor.
Qed.
Example C49_rbind_example : leaf_ok ex_cast /\ Forall rowed_ok ex_inputs /\ Forall rowed_ok ex_rows /\
  vec_rbind ex_addr ex_cast RepairNone SpecNull TyNull false (Some ex_id) ex_inputs None =
    Ok (VDf 4 [ex_id; ex_a; ex_b] [ints [1; 2; 2; 4]%Z; ints [1; 3; 4; NA_INTEGER]%Z; ints [2; 5; 6; NA_INTEGER]%Z], None).
Proof. split_and!; [apply ex_leaf_ok|apply ex_inputs_ok|apply ex_inputs_ok|vm_compute; reflexivity]. Qed.
(** With row names: [vec_rbind(z = data.frame(a = 1L), data.frame(a = 2:3, row.names = c("b", "c")))] *)
Example C49_rbind_rownames_example :
  vec_rbind ex_addr ex_cast RepairNone SpecNull TyNull false None
    [Some (VDf 1 [ex_a] [ints [1]%Z], None); Some (VDf 2 [ex_a] [ints [2; 3]%Z], Some [ex_b; ex_c])] (Some [ex_z; empty_str]) =
    Ok (VDf 3 [ex_a] [ints [1; 2; 3]%Z], Some [ex_z; ex_b; ex_c]).
Proof. vm_compute. reflexivity. Qed.
Example C49_rbind_ok_example : exists out rn, vec_rbind ex_addr ex_cast RepairNone SpecNull TyNull false (Some ex_id) ex_inputs None = Ok (out, rn).
Proof.
  destruct ex_hyps as (H1 & H2 & H3 & H4 & H5 & H6). apply (C49_rbind_ok ex_addr ex_cast RepairNone SpecNull TyNull false (Some ex_id) ex_inputs None ex_rows
    (VDf 0 [ex_a; ex_b] [ints []; ints []], None) ex_p 0 0 [ex_id; ex_a; ex_b] [ints []; ints []; ints []]).
  1: apply ex_leaf_ok. 1: apply ex_inputs_ok. 1: apply C49_row_example. 1: apply ex_inputs_ok. 1: exact I. 1: exact H1. 1: exact H2. 1: exact H3. 1: exact H4.
  1: rewrite H5; apply Z.leb_le; vm_compute; reflexivity. 1: rewrite H5; exact H6. 1: reflexivity. 1: simpl; lia.
  - assert (Hsub : forall s, s ∈ [ex_a; ex_b] -> s ∈ [ex_id; ex_a; ex_b]) by (intros s; rewrite !elem_of_cons; tauto).
    constructor; [|constructor; [|constructor; [done|constructor; [done|constructor]]]].
    + split; [intros s Hs; by apply Hsub|]. intros [|[|[|j]]] s t Hs Ht; [| | |discriminate Hs]; injection Hs as <-; injection Ht as <-; eexists; vm_compute; reflexivity.
    + split; [intros s Hs; apply Hsub; rewrite !elem_of_cons in *; tauto|]. intros [|[|[|j]]] s t Hs Ht; [| | |discriminate Hs]; injection Hs as <-; injection Ht as <-; eexists; vm_compute; reflexivity.
  - intros i v inner Hi Hv. right. by left.
  - clear H1 H2 H3 H4 H5 H6. intros ws nms l Hws Hl Hn Hj. exfalso. unfold joined_names in Hj. destruct (forallb _ nms) eqn:E; [done|].
    apply not_true_iff_false in E. apply E. apply forallb_forall. intros o Ho. apply elem_of_list_In, elem_of_list_lookup in Ho as [i Ho]. pose proof (Hn i o Ho) as Hi. unfold name_of_input in Hi.
    destruct (ws !! i) as [[[v inner]|]|] eqn:Ew; [|by subst..]. destruct (row_sizes ex_rows !! i) as [n|]; [|by subst]. destruct (n =? 0)%Z; [by subst|]. destruct Hi as [Hi _].
    assert (inner = None) as ->.
    { rewrite Forall2_lookup in Hws. pose proof (Hws i) as Hw. rewrite Ew in Hw. inversion Hw as [x ? Hc Ex|]; subst.
      destruct v as [| |vn wn wc]; [destruct x as [[? ?]|]; destruct Hc..|].
      destruct i as [|[|[|[|i]]]]; [injection Ex as ->; destruct Hc as (_ & _ & _ & Hc & _); exact Hc..|injection Ex as ->; destruct Hc|injection Ex as ->; destruct Hc as (_ & _ & _ & Hc & _); exact (Hc eq_refl)|discriminate Ex]. }
    inversion Hi; subst; done.
Qed.
(** [vec_cbind(1L, data.frame(a = 2:3, b = 4:5, row.names = c("z", "z2")), c = data.frame(a = 6:7))] *)
Example C49_cbind_example :
  let xs := [Some (ints [1]%Z, None); Some (VDf 2 [ex_a; ex_b] [ints [2; 3]%Z; ints [4; 5]%Z], Some [ex_z; ex_id]); None; Some (VDf 2 [ex_a] [ints [6; 7]%Z], None)] in
  let nms := Some [empty_str; empty_str; ex_b; ex_c] in
  Forall rowed_ok xs /\ names_fit (length xs) nms /\ Forall bindable (vals xs) /\ size_fits None (vals xs) 2 /\
  names_ok [ex_z; ex_id] /\
  vec_cbind ex_addr RepairNone None None xs nms =
    Ok (VDf 2 [empty_str; ex_a; ex_b; ex_c] [ints [1; 1]%Z; ints [2; 3]%Z; ints [4; 5]%Z; VDf 2 [ex_a] [ints [6; 7]%Z]], Some [ex_z; ex_id]).
Proof.
  split.
  { apply Forall_cons. split; [split; [ex_vec|done]|]. apply Forall_cons. split; [split; [ex_df|split; [done|by eexists _, _, _]]|]. apply Forall_cons. split; [done|].
    apply Forall_cons. split; [split; [ex_df|done]|constructor]. }
  split; [done|]. split; [repeat constructor|]. split.
  { right. split; [right; by left|]. intros n [<-|[<-|[<-|[]]]]; [by right|by left|by left]. }
  split; [|vm_compute; reflexivity]. split; [|apply Z.leb_le; vm_compute; reflexivity]. repeat (apply Forall_cons; split; [ex_name|]). constructor.
Qed.

(** ** Deviations *)
(** Row names are given by the outer name of the first input and are empty for
    the second one, but there is an error: src/bind.c:222 looks at [inner]. *)
Theorem C49_outer_refuted : exists xs nms,
  input_names SpecNull None 1 (Some ex_a) (Some [ex_a]) /\ input_names SpecNull None 2 (Some empty_str) (Some [empty_str; empty_str]) /\
  xs = [Some (VDf 1 [ex_b] [ints [1]%Z], None); Some (VDf 2 [ex_b] [ints [2; 3]%Z], None)] /\ nms = Some [ex_a; empty_str] /\
  (exists out, vec_rbind ex_addr ex_cast RepairNone SpecNull TyNull false None xs None = Ok out) /\
  exists e, vec_rbind ex_addr ex_cast RepairNone SpecNull TyNull false None xs nms = Err e.
Proof.
  eexists _, _. split; [apply in_outer; [done|by intros [?|?]|done|done]|]. split; [apply (in_blank SpecNull None 2 empty_str); [done|by right]|].
  split; [done|]. split; [done|]. split; eexists; vm_compute; reflexivity.
Qed.
(** No input has row names, but the result has: [.ptype] has character row names. *)
Theorem C49_rbind_ptype_refuted : exists xs out rn, rns xs = [None] /\
  vec_rbind ex_addr ex_cast RepairNone SpecNull (TyDf false [ex_a] [TyBare TInt None]) true None xs None = Ok (out, Some rn) /\
  vec_rbind ex_addr ex_cast RepairNone SpecNull (TyDf false [ex_a] [TyBare TInt None]) false None xs None = Ok (out, None).
Proof.
  exists [Some (VDf 2 [ex_a] [ints [1; 2]%Z], None)]. eexists _, _. split; [done|]. split; vm_compute; reflexivity.
Qed.
(** A [.ptype] without rows but with character row names makes [vec_cbind()] fail. *)
Theorem C49_cbind_ptype_refuted : exists xs out, rns xs = [None] /\
  vec_cbind ex_addr RepairNone None None xs None = Ok (out, None) /\ exists e, vec_cbind ex_addr RepairNone None (Some []) xs None = Err e.
Proof.
  exists [Some (VDf 2 [ex_a] [ints [1; 2]%Z], None)]. eexists. split; [done|]. split; [vm_compute; reflexivity|]. eexists. vm_compute. reflexivity.
Qed.

Print Assumptions C49_cbind.
Print Assumptions C49_row.
Print Assumptions C49_names_to.
Print Assumptions C49_rbind.
Print Assumptions C49_rbind_ok.
Print Assumptions C49_outer_refuted.
Print Assumptions C49_rbind_ptype_refuted.
Print Assumptions C49_cbind_ptype_refuted.
