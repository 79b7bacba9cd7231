(** * Lemmas: building and flattening data frames *)
From Verif Require Import Base M_Double M_Scalar M_Object M_Proxy M_Growable M_Slice Spec_Slice M_Rep Spec_Rep M_Subscript M_Chop Spec_Chop
  L_Dbl L_Slice L_SliceArray L_Assign L_Value L_SliceVal L_Rep L_Recycle L_Chop L_Chop2 L_Chop3 M_Names M_Shape M_Factor M_Ptype M_Bind Spec_Bind L_Bind
  M_DfList Spec_DfList.
From Coq Require Import Lia ZifyBool ZifyNat.
#[local] Arguments Z.mul : simpl never.
#[local] Arguments Z.add : simpl never.
#[local] Arguments Z.sub : simpl never.
#[local] Arguments Z.to_nat : simpl never.
#[local] Arguments Z.of_nat : simpl never.

Definition ents (u : bool) (names : list rstr) (ws : list (option value)) : list (rstr * value) := concat (zip_with (entry u) names ws).
Lemma ents_S u names ws i o w : names !! i = Some o -> ws !! i = Some w ->
  ents u (take (S i) names) (take (S i) ws) = ents u (take i names) (take i ws) ++ entry u o w.
Proof.
  intros Ho Hw. unfold ents. rewrite (take_S_r _ _ _ Ho), (take_S_r _ _ _ Hw), zip_with_app, concat_app.
  - simpl. by rewrite app_nil_r.
  - apply lookup_lt_Some in Ho, Hw. rewrite !take_length. lia.
Qed.
Lemma ents_split u names ws i : length names = length ws ->
  ents u names ws = ents u (take i names) (take i ws) ++ ents u (drop i names) (drop i ws).
Proof.
  intros Hl. unfold ents. rewrite <- concat_app, <- zip_with_app by (rewrite !take_length; lia). by rewrite !take_drop.
Qed.
Lemma ents_cons u o names w ws : ents u (o :: names) (w :: ws) = entry u o w ++ ents u names ws.
Proof. done. Qed.
Lemma ents_bound u names ws i o w : length names = length ws -> names !! i = Some o -> ws !! i = Some w ->
  length (ents u (take i names) (take i ws)) + length (entry u o w) <= length (ents u names ws).
Proof.
  intros Hl Ho Hw. rewrite (ents_split u names ws (S i)) by done. rewrite (ents_S _ _ _ _ _ _ Ho Hw), !app_length. lia.
Qed.

(** The state of a loop that has written the entries [es] of [width]. *)
Definition filled (width : nat) (es : list (rstr * value)) : list (option value) * list rstr * nat :=
  (map Some (map snd es) ++ replicate (width - length es) None, map fst es ++ replicate (width - length es) empty_str, length es).
Lemma filled_all es : filled (length es) es = (map Some (map snd es), map fst es, length es).
Proof. unfold filled. rewrite Nat.sub_diag. simpl. by rewrite !app_nil_r. Qed.

(** ** Dropping NULL *)
Lemma entry_false o w : entry false o w = match w with None => [] | Some v => [(o, v)] end.
Proof. by destruct w as [[]|]. Qed.
Lemma count_le x i : length (filter (fun w : option value => w = None) (take i x)) <= length (filter (fun w : option value => w = None) x).
Proof. rewrite <- (take_drop i x) at 2. rewrite filter_app, app_length. lia. Qed.
Lemma ents_false_length names x : length names = length x ->
  length (ents false names x) = length x - length (filter (fun w : option value => w = None) x).
Proof.
  revert names. induction x as [|w x IH]; intros [|o names]; simpl; try done. intros [= Hl].
  rewrite ents_cons, app_length, entry_false, IH by done. pose proof (filter_length (fun w : option value => w = None) x).
  destruct w as [v|]; [rewrite filter_cons_False by done|rewrite filter_cons_True by done]; simpl; lia.
Qed.
Lemma ents_false_all names x : length names = length x -> Forall (fun w => w <> None) x ->
  map Some (map snd (ents false names x)) = x /\ map fst (ents false names x) = names.
Proof.
  revert names. induction x as [|w x IH]; intros [|o names]; simpl; try done. intros [= Hl] H. apply Forall_cons in H as [Hw H].
  rewrite ents_cons, entry_false. destruct w as [v|]; [|done]. simpl. destruct (IH names Hl H) as [-> ->]. done.
Qed.
Lemma df_list_drop_null_spec x names : length names = length x ->
  df_list_drop_null x names = Ok (map Some (map snd (ents false names x)), map fst (ents false names x)).
Proof.
  intros Hl. unfold df_list_drop_null.
  edestruct (for_inv (fun i c => c = length (filter (fun w : option value => w = None) (take i x))) 0 (length x)) as (c & -> & ->); [done| |].
  { intros i c Hi ->. destruct (lookup_lt_is_Some_2 x i) as [w Hw]; [lia|]. rewrite (proj2 (rd_Ok _ _ _) Hw). cbn [bind].
    eexists. split; [done|]. rewrite (take_S_r _ _ _ Hw), filter_app, app_length.
    destruct w as [v|]; [rewrite filter_cons_False by done|rewrite filter_cons_True by done]; simpl; lia. }
  cbn [bind]. rewrite Nat.add_0_l, firstn_all.
  destruct (Nat.eqb_spec (length (filter (fun w : option value => w = None) x)) 0) as [E|E].
  - destruct (ents_false_all names x) as [-> ->]; [done| |done]. apply Forall_forall. intros w Hw ->.
    apply length_zero_iff_nil in E. assert (Hin : None ∈ filter (fun w : option value => w = None) x) by by apply elem_of_list_filter.
    rewrite E in Hin. by apply elem_of_nil in Hin.
  - rewrite <- (ents_false_length names x) by done. set (width := length (ents false names x)).
    edestruct (for_inv (fun i st => st = filled width (ents false (take i names) (take i x))) 0 (length x)) as (st & -> & ->).
    + unfold filled. simpl. by rewrite Nat.sub_0_r.
    + intros i st Hi ->. destruct (lookup_lt_is_Some_2 x i) as [w Hw]; [lia|]. destruct (lookup_lt_is_Some_2 names i) as [o Ho]; [lia|].
      unfold filled at 1. rewrite (proj2 (rd_Ok _ _ _) Hw). cbn [bind]. rewrite (ents_S _ _ _ _ _ _ Ho Hw).
      pose proof (ents_bound false names x i o w Hl Ho Hw) as Hb. rewrite entry_false in Hb |- *. destruct w as [v|].
      * simpl in Hb. rewrite wr_fresh_at by (rewrite ?map_length; lia). cbn [bind]. rewrite (proj2 (rd_Ok _ _ _) Ho). cbn [bind].
        rewrite wr_fresh_at by (rewrite ?map_length; lia). cbn [bind]. eexists. split; [done|].
        unfold filled. rewrite !map_app, app_length. cbn [length map]. rewrite Nat.sub_add_distr, Nat.add_1_r. done.
      * eexists. split; [done|]. by rewrite app_nil_r.
    + cbn [bind]. rewrite Nat.add_0_l, <- Hl, firstn_all, Hl, firstn_all. unfold width. rewrite filled_all. done.
Qed.

(** ** Unpacking *)
(** The columns of data frames are named. *)
Definition df_named (w : option value) : Prop := match w with Some (VDf _ names cols) => length names = length cols | _ => True end.
Definition unpacks (o : rstr) (w : option value) : bool := bool_decide (o = empty_str) && is_df w.
Lemma entry_no_unpack o w : unpacks o w = false -> entry true o w = entry false o w.
Proof. unfold unpacks. destruct w as [[]|]; simpl; try done. rewrite andb_true_r. by intros ->. Qed.
Lemma entry_unpack o n names cols : unpacks o (Some (VDf n names cols)) = true -> entry true o (Some (VDf n names cols)) = zip names cols.
Proof. unfold unpacks. simpl. rewrite andb_true_r. by intros ->. Qed.
Lemma str_empty_b (o : rstr) : str_ptr_eqb o empty_str = bool_decide (o = empty_str).
Proof. rewrite str_empty. by case_decide; case_bool_decide. Qed.

Definition unpack_flags (names : list rstr) (x : list (option value)) : list bool := zip_with unpacks names x.
Lemma ents_no_unpack names x : length names = length x -> Forall (fun b => b = false) (unpack_flags names x) -> ents true names x = ents false names x.
Proof.
  revert names. induction x as [|w x IH]; intros [|o names]; simpl; try done. intros [= Hl] H. apply Forall_cons in H as [Hw H].
  rewrite !ents_cons, IH, entry_no_unpack by done. done.
Qed.
Lemma flags_length names x : length names = length x -> length (unpack_flags names x) = length x.
Proof. intros. unfold unpack_flags. rewrite zip_with_length. lia. Qed.
Lemma flags_lookup names x i o w : names !! i = Some o -> x !! i = Some w -> unpack_flags names x !! i = Some (unpacks o w).
Proof. intros Ho Hw. unfold unpack_flags. rewrite lookup_zip_with, Ho. simpl. by rewrite Hw. Qed.

Lemma df_list_unpack_spec x names : length names = length x -> Forall (fun w => w <> None) x -> Forall df_named x ->
  df_list_unpack x names = Ok (map Some (map snd (ents true names x)), map fst (ents true names x)).
Proof.
  intros Hl Hs Hd. unfold df_list_unpack. pose proof (flags_length names x Hl) as Hfl.
  edestruct (for_brk_inv (fun i (st : nat * bool) => st = (i, false) /\ Forall (fun b => b = false) (take i (unpack_flags names x)))
     (fun st => Forall (fun b => b = false) (take st.1 (unpack_flags names x)) /\
        ((st.2 = false /\ st.1 = length x) \/ (st.2 = true /\ st.1 < length x))) 0 (length x)) as ((i & any) & -> & HF & HQ).
  { split; [done|]. rewrite take_0. constructor. }
  { intros i st Hi [-> HF]. destruct (lookup_lt_is_Some_2 x i) as [w Hw]; [lia|]. destruct (lookup_lt_is_Some_2 names i) as [o Ho]; [lia|].
    pose proof (flags_lookup _ _ _ _ _ Ho Hw) as Hf. rewrite (proj2 (rd_Ok _ _ _) Ho). cbn [bind]. rewrite str_empty_b.
    assert (HS : unpacks o w = false -> Forall (fun b => b = false) (take (S i) (unpack_flags names x))).
    { intros E. rewrite (take_S_r _ _ _ Hf), E. apply Forall_app. split; [done|]. by repeat constructor. }
    unfold unpacks in HS. destruct (bool_decide (o = empty_str)); cbn [negb].
    - rewrite (proj2 (rd_Ok _ _ _) Hw). cbn [bind]. destruct (is_df w).
      + right. eexists. split; [done|]. simpl. split; [done|]. right. lia.
      + left. eexists. split; [done|]. split; [done|]. by apply HS.
    - left. eexists. split; [done|]. split; [done|]. by apply HS. }
  { intros st [-> HF]. split; [done|]. by left. }
  cbn [bind]. simpl in HF, HQ. destruct HQ as [[-> ->]|[-> Hi]]; cbn [negb].
  { rewrite take_ge in HF by lia. rewrite ents_no_unpack by done. by destruct (ents_false_all names x) as [-> ->]. }
  (* the flags *)
  assert (Hpre : length (ents true (take i names) (take i x)) = i).
  { rewrite ents_no_unpack; [|rewrite !take_length; lia|].
    - rewrite <- (map_length snd), <- (map_length Some). rewrite (proj1 (ents_false_all (take i names) (take i x) ltac:(rewrite !take_length; lia) ltac:(by apply Forall_take))).
      rewrite take_length. lia.
    - unfold unpack_flags in *. by rewrite <- zip_with_take. }
  edestruct (for_inv (fun j (st : list bool * nat) => st = (take j (unpack_flags names x) ++ replicate (length x - j) false,
      length (ents true (take j names) (take j x)))) i (length x - i)) as (st & -> & ->).
  { f_equal; [|by rewrite Hpre]. replace (take i (unpack_flags names x)) with (replicate i false); [rewrite <- replicate_add; f_equal; lia|].
    apply replicate_as_Forall. split; [rewrite take_length; lia|]. eapply Forall_impl; [apply HF|]. done. }
  { intros j st Hj ->. destruct (lookup_lt_is_Some_2 x j) as [w Hw]; [lia|]. destruct (lookup_lt_is_Some_2 names j) as [o Ho]; [lia|].
    pose proof (flags_lookup _ _ _ _ _ Ho Hw) as Hf. rewrite (proj2 (rd_Ok _ _ _) Ho). cbn [bind]. rewrite str_empty_b.
    rewrite (take_S_r _ _ _ Hf), (ents_S _ _ _ _ _ _ Ho Hw), app_length.
    assert (Hw0 : w <> None) by (rewrite Forall_lookup in Hs; by eapply Hs).
    assert (Hwd : df_named w) by (rewrite Forall_lookup in Hd; by eapply Hd).
    assert (HS : unpacks o w = false -> exists s', Ok (take j (unpack_flags names x) ++ replicate (length x - j) false, S (length (ents true (take j names) (take j x)))) = Ok s' /\
       s' = ((take j (unpack_flags names x) ++ [unpacks o w]) ++ replicate (length x - S j) false, length (ents true (take j names) (take j x)) + length (entry true o w))).
    { intros E. eexists. split; [done|]. rewrite E, (entry_no_unpack _ _ E), entry_false. destruct w as [v|]; [|done]. simpl. f_equal; [|lia].
      rewrite <- app_assoc. f_equal. by replace (length x - j) with (S (length x - S j)) by lia. }
    destruct (bool_decide (o = empty_str)) eqn:Eo; cbn [negb].
    2:{ apply HS. unfold unpacks. by rewrite Eo. }
    rewrite (proj2 (rd_Ok _ _ _) Hw). cbn [bind]. destruct w as [[t d nm|t dim d|n nm cols]|].
    1,2: apply HS; unfold unpacks; simpl; by rewrite andb_false_r.
    2: done.
    rewrite wr_fresh_at; [|rewrite take_length; lia|lia]. cbn [bind]. eexists. split; [done|].
    assert (EU : unpacks o (Some (VDf n nm cols)) = true) by (unfold unpacks; simpl; by rewrite Eo).
    rewrite (entry_unpack _ _ _ _ EU), EU. simpl in Hwd. rewrite zip_with_length. f_equal; [|lia]. f_equal. f_equal. lia. }
  cbn [bind]. replace (i + (length x - i)) with (length x) by lia. rewrite Nat.sub_diag, app_nil_r, take_ge by lia.
  rewrite firstn_all, <- Hl, firstn_all. rewrite Hl. set (width := length (ents true names x)).
  edestruct (for_inv (fun i st => st = filled width (ents true (take i names) (take i x))) 0 (length x)) as (st & -> & ->).
  - unfold filled. simpl. by rewrite Nat.sub_0_r.
  - clear i Hi HF Hpre. intros i st Hi ->. destruct (lookup_lt_is_Some_2 x i) as [w Hw]; [lia|]. destruct (lookup_lt_is_Some_2 names i) as [o Ho]; [lia|].
    pose proof (flags_lookup _ _ _ _ _ Ho Hw) as Hf. unfold filled at 1. rewrite (proj2 (rd_Ok _ _ _) Hf). cbn [bind].
    rewrite (proj2 (rd_Ok _ _ _) Hw). cbn [bind]. rewrite (ents_S _ _ _ _ _ _ Ho Hw).
    pose proof (ents_bound true names x i o w Hl Ho Hw) as Hb. fold width in Hb. set (es := ents true (take i names) (take i x)) in *.
    assert (Hwd : df_named w) by (rewrite Forall_lookup in Hd; by eapply Hd).
    assert (Hw0 : w <> None) by (rewrite Forall_lookup in Hs; by eapply Hs).
    destruct (unpacks o w) eqn:EU; cbn [negb].
    + destruct w as [[t d nm|t dim d|n nm cols]|]; try (unfold unpacks in EU; simpl in EU; by rewrite andb_false_r in EU).
      rewrite (entry_unpack _ _ _ _ EU) in Hb |- *. simpl in Hwd. rewrite zip_with_length in Hb.
      edestruct (for_inv (fun j (st : list (option value) * list rstr) => st = (filled width (es ++ zip (take j nm) (take j cols))).1) 0 (length cols)) as (st & -> & ->).
      * simpl. rewrite app_nil_r. done.
      * intros j st Hj ->. destruct (lookup_lt_is_Some_2 cols j) as [c Hc]; [lia|]. destruct (lookup_lt_is_Some_2 nm j) as [m Hm]; [lia|].
        unfold filled at 1. cbn [fst]. rewrite (proj2 (rd_Ok _ _ _) Hc). cbn [bind].
        assert (EL : length (es ++ zip (take j nm) (take j cols)) = length es + j) by (rewrite app_length, zip_with_length, !take_length; lia).
        rewrite wr_fresh_at by (rewrite ?map_length; lia). cbn [bind]. rewrite (proj2 (rd_Ok _ _ _) Hm). cbn [bind].
        rewrite wr_fresh_at by (rewrite ?map_length; lia). cbn [bind]. eexists. split; [done|].
        assert (EA : es ++ zip (take (S j) nm) (take (S j) cols) = (es ++ zip (take j nm) (take j cols)) ++ [(m, c)]).
        { rewrite (take_S_r _ _ _ Hc), (take_S_r _ _ _ Hm), zip_with_app by (rewrite !take_length; lia). by rewrite app_assoc. }
        rewrite EA. unfold filled. cbn [fst]. rewrite !map_app, !app_length. cbn [length map]. f_equal; f_equal; f_equal; lia.
      * cbn [bind]. rewrite Nat.add_0_l, firstn_all, <- Hwd, firstn_all. rewrite Hwd. unfold filled at 1. cbn [fst]. eexists. split; [done|].
        unfold filled. f_equal. rewrite app_length, zip_with_length. lia.
    + rewrite (entry_no_unpack _ _ EU), entry_false in Hb |- *. destruct w as [v|]; [|done]. simpl in Hb.
      rewrite wr_fresh_at by (rewrite ?map_length; lia). cbn [bind]. rewrite (proj2 (rd_Ok _ _ _) Ho). cbn [bind].
      rewrite wr_fresh_at by (rewrite ?map_length; lia). cbn [bind]. eexists. split; [done|].
      unfold filled. rewrite !map_app, app_length. cbn [length map]. rewrite Nat.sub_add_distr, Nat.add_1_r. done.
  - cbn [bind]. rewrite Nat.add_0_l, firstn_all, <- Hl, firstn_all. unfold width. rewrite filled_all. done.
Qed.

(** ** Flattening *)
Definition isdf (x : value) : bool := match x with VDf _ _ _ => true | _ => false end.
(** The width of a data frame, as a sum over its columns. *)
Definition width1 (c : value) : Z := if isdf c then (df_flat_width c - 1)%Z else 0%Z.
Definition zsum_ (l : list Z) : Z := fold_right Z.add 0%Z l.
Lemma flat_width_df n names cols : df_flat_width (VDf n names cols) = (Z.of_nat (length cols) + zsum_ (map width1 cols))%Z.
Proof.
  cbn [df_flat_width]. generalize (Z.of_nat (length cols)) as out. induction cols as [|c cols IH]; intros out; [simpl; lia|].
  rewrite IH. cbn [map zsum_ fold_right]. unfold width1 at 2, isdf. destruct c; unfold zsum_; lia.
Qed.
Definition flatten_go (x_names : list rstr) := fix go (cols : list value) (i : nat) (st : flat_state) : res flat_state :=
  match cols with
  | [] => Ok st
  | col :: cols =>
      let! st :=
        match col with
        | VDf _ _ _ => df_flatten_loop col st
        | _ =>
            let '(out, out_names, counter) := st in
            let! out := wr out counter (Some col) in
            let! name := rd x_names i in
            let! out_names := wr out_names counter name in
            Ok (out, out_names, S counter)
        end in
      go cols (S i) st
  end.
Lemma flatten_loop_go n names cols st : df_flatten_loop (VDf n names cols) st = flatten_go names cols 0 st.
Proof. done. Qed.
Definition flattens (x : value) : Prop := forall o, value_ok x -> exists ls, leaves o x ls /\
  (isdf x = true -> df_flat_width x = Z.of_nat (length ls) /\
   forall width es, length es + length ls <= width -> df_flatten_loop x (filled width es) = Ok (filled width (es ++ ls))).
Lemma flatten_go_spec names : forall cols i, Forall flattens cols -> Forall value_ok cols -> length cols + i = length names ->
  exists ls, leaves_cols (drop i names) cols ls /\ (Z.of_nat (length cols) + zsum_ (map width1 cols))%Z = Z.of_nat (length ls) /\
   forall width es, length es + length ls <= width -> flatten_go names cols i (filled width es) = Ok (filled width (es ++ ls)).
Proof.
  induction cols as [|c cols IH]; intros i HF Hok Hl.
  - exists []. rewrite drop_ge by (simpl in Hl; lia). split; [constructor|]. split; [done|]. intros. simpl. by rewrite app_nil_r.
  - apply Forall_cons in HF as [Hc HF], Hok as [Hoc Hok]. destruct (IH (S i) HF Hok) as (ls & L & W & G); [simpl in Hl; lia|].
    destruct (lookup_lt_is_Some_2 names i) as [o Ho]; [simpl in Hl; lia|]. destruct (Hc o Hoc) as (l & L1 & D).
    exists (l ++ ls). rewrite (drop_S _ _ _ Ho). split; [by constructor|]. rewrite app_length.
    assert (Hcase : isdf c = false \/ isdf c = true) by (destruct (isdf c); auto). destruct Hcase as [Ec|Ec].
    + assert (El : l = [(o, c)]) by (inversion L1; subst; [done|done]). subst l. split.
      * cbn [length map zsum_ fold_right]. unfold width1 at 1. rewrite Ec. fold (zsum_ (map width1 cols)). lia.
      * intros width es Hw. simpl in Hw. cbn [flatten_go]. fold (flatten_go names).
        assert (EE : (let '(out, out_names, counter) := filled width es in
            let! out := wr out counter (Some c) in let! name := rd names i in let! out_names := wr out_names counter name in
            Ok (out, out_names, S counter)) = Ok (filled width (es ++ [(o, c)]))).
        { unfold filled. rewrite wr_fresh_at by (rewrite ?map_length; lia). cbn [bind]. rewrite (proj2 (rd_Ok _ _ _) Ho). cbn [bind].
          rewrite wr_fresh_at by (rewrite ?map_length; lia). cbn [bind].
          rewrite !map_app, app_length. cbn [length map]. rewrite Nat.sub_add_distr, Nat.add_1_r. done. }
        destruct c; try done; rewrite EE; cbn [bind]; rewrite G by (rewrite app_length; simpl; lia); by rewrite <- app_assoc.
    + destruct (D Ec) as [W1 G1]. split.
      * cbn [length map zsum_ fold_right]. unfold width1 at 1. rewrite Ec. fold (zsum_ (map width1 cols)). lia.
      * intros width es Hw. cbn [flatten_go]. fold (flatten_go names). destruct c; try done. rewrite G1 by lia. cbn [bind].
        rewrite G by (rewrite app_length; lia). by rewrite <- app_assoc.
Qed.
Lemma flattens_all x : flattens x.
Proof.
  induction x as [t data names|t dim data|n names cols IH] using value_ind'; intros o Hok.
  1,2: eexists; split; [by constructor|done].
  inversion Hok as [| |? ? ? Hn Hl Hs Hc]; subst. destruct (flatten_go_spec names cols 0) as (ls & L & W & G); [done|done|lia|].
  exists ls. rewrite drop_0 in L. split; [by constructor|]. intros _. split; [by rewrite flat_width_df|]. intros. rewrite flatten_loop_go. by apply G.
Qed.
Lemma flatten_info_spec cols : df_flatten_info cols = Ok (existsb isdf cols, (Z.of_nat (length cols) + zsum_ (map width1 cols))%Z).
Proof.
  unfold df_flatten_info.
  edestruct (for_inv (fun i (st : bool * Z) => st = (existsb isdf (take i cols), Z.of_nat (length cols) + zsum_ (map width1 (take i cols)))%Z) 0 (length cols)) as (st & -> & ->).
  - simpl. f_equal. lia.
  - intros i st Hi ->. destruct (lookup_lt_is_Some_2 cols i) as [c Hc]; [lia|]. rewrite (proj2 (rd_Ok _ _ _) Hc). cbn [bind]. eexists. split; [done|].
    rewrite (take_S_r _ _ _ Hc), map_app, existsb_app. unfold zsum_. rewrite fold_right_app. cbn [map fold_right existsb].
    assert (HZ : forall l a, fold_right Z.add a l = (fold_right Z.add 0 l + a)%Z) by (induction l as [|b l IHl]; intros; simpl; [lia|rewrite IHl; lia]).
    rewrite (HZ _ (width1 c + 0)%Z). set (s := fold_right Z.add 0%Z (map width1 (take i cols))). clearbody s. unfold width1. destruct c; cbn [isdf orb]; f_equal; try (by rewrite orb_false_r); try (by rewrite orb_true_r); lia.
  - by rewrite Nat.add_0_l, firstn_all.
Qed.
Lemma leaves_cols_flat names cols : length names = length cols -> existsb isdf cols = false -> leaves_cols names cols (zip names cols).
Proof.
  revert names. induction cols as [|c cols IH]; intros [|o names]; simpl; try done; [constructor|]. intros [= Hl] [Hc H]%orb_false_iff.
  apply (lc_cons o names c cols [(o, c)] (zip names cols)); [|by apply IH]. constructor. by intros ? ? ? ->.
Qed.
Lemma df_flatten_spec n names cols : value_ok (VDf n names cols) -> exists ls, leaves_cols names cols ls /\
  df_flatten (VDf n names cols) = Ok (VDf n (map fst ls) (map snd ls)).
Proof.
  intros Hok. inversion Hok as [| |? ? ? Hn Hl Hs Hc]; subst. unfold df_flatten. rewrite flatten_info_spec. cbn [bind].
  destruct (existsb isdf cols) eqn:E; cbn [negb].
  - destruct (flattens_all (VDf n names cols) None Hok) as (ls & L & D). destruct (D eq_refl) as [W G]. rewrite flat_width_df in W. rewrite W, Nat2Z.id.
    exists ls. split; [inversion L as [? ? Hx|]; subst; [exfalso; by eapply Hx|done]|]. assert (E0 : (replicate (length ls) None, replicate (length ls) empty_str, 0) = filled (length ls) []).
    { unfold filled. simpl. by rewrite Nat.sub_0_r. }
    rewrite E0, G by (simpl; lia). rewrite app_nil_l, filled_all. cbn [bind]. rewrite all_assigned_some. done.
  - exists (zip names cols). split; [by apply leaves_cols_flat|]. f_equal. f_equal.
    + symmetry. rewrite fst_zip by lia. done.
    + symmetry. rewrite snd_zip by lia. done.
Qed.
