(** * Lemmas: binding columns *)
From Verif Require Import Base M_Double M_Scalar M_Object M_Proxy M_Growable M_Slice Spec_Slice M_Rep Spec_Rep M_Subscript M_Chop Spec_Chop
  L_Dbl L_Slice L_SliceArray L_Assign L_Value L_SliceVal L_Rep L_Recycle L_Chop L_Chop2 L_Chop3 M_Names M_Shape M_Factor M_Ptype M_Bind Spec_Bind.
From Coq Require Import Lia ZifyBool ZifyNat.
#[local] Arguments Z.mul : simpl never.
#[local] Arguments Z.add : simpl never.
#[local] Arguments Z.sub : simpl never.
#[local] Arguments Z.max : simpl never.
#[local] Arguments Z.to_nat : simpl never.
#[local] Arguments Z.of_nat : simpl never.

(** A compact sequence assigns a block. *)
Lemma assign_block {A} (a b c vals : list A) start n : length b = length vals -> start = Z.of_nat (length a) -> n = Z.of_nat (length vals) ->
  assign_base (a ++ b ++ c) (SSeq start n 1) vals = Ok (a ++ vals ++ c).
Proof.
  intros Hb -> ->. unfold assign_base, assign_seq. rewrite Z.eqb_refl. cbn [negb]. rewrite Nat2Z.id.
  edestruct (for_inv (fun i (st : list A * Z) => st = (a ++ (take i vals ++ drop i b) ++ c, Z.of_nat (length a) + Z.of_nat i)%Z)
    0 (length vals)) as (st & -> & ->).
  - rewrite take_0, drop_0. simpl. f_equal. lia.
  - intros i st Hi ->. destruct (lookup_lt_is_Some_2 vals i) as [v Hv]; [lia|]. rewrite (proj2 (rd_Ok _ _ _) Hv). cbn [bind].
    destruct (drop i b) as [|y b'] eqn:E. { apply (f_equal length) in E. rewrite drop_length in E. simpl in E. lia. }
    rewrite wrZ_Ok by (rewrite !app_length, take_length; simpl; lia). cbn [bind]. eexists. split; [done|]. f_equal; [|lia].
    replace (Z.to_nat (Z.of_nat (length a) + Z.of_nat i)) with (length a + i) by lia.
    rewrite insert_app_r. f_equal. rewrite <- app_assoc.
    replace i with (length (take i vals) + 0) at 1 by (rewrite take_length; lia). rewrite insert_app_r. simpl.
    rewrite (take_S_r _ _ _ Hv), <- !app_assoc. simpl. do 2 f_equal.
    assert (drop (S i) b = b') as ->; [|done]. replace (S i) with (i + 1) by lia. by rewrite <- drop_drop, E.
  - cbn [bind]. simpl. rewrite firstn_all, <- Hb, drop_all, app_nil_r. done.
Qed.
Lemma assign_fresh {A} (a vals : list A) d m start n : start = Z.of_nat (length a) -> n = Z.of_nat (length vals) -> length vals <= m ->
  assign_base (a ++ replicate m d) (SSeq start n 1) vals = Ok ((a ++ vals) ++ replicate (m - length vals) d).
Proof.
  intros Ha Hn Hm. replace m with (length vals + (m - length vals)) at 1 by lia. rewrite replicate_add.
  rewrite assign_block; [by rewrite app_assoc|by rewrite replicate_length|done|done].
Qed.
Lemma wr_fresh {A} (a : list A) v d m : 0 < m -> wr (a ++ replicate m d) (length a) v = Ok ((a ++ [v]) ++ replicate (m - 1) d).
Proof.
  intros Hm. rewrite wr_Ok by (rewrite app_length, replicate_length; lia). f_equal.
  replace (length a) with (length a + 0) by lia. rewrite insert_app_r. destruct m; [lia|]. simpl. by rewrite Nat.sub_0_r, <- app_assoc.
Qed.
Lemma wr_fresh_at {A} (a : list A) v d m i : i = length a -> 0 < m -> wr (a ++ replicate m d) i v = Ok ((a ++ [v]) ++ replicate (m - 1) d).
Proof. intros ->. apply wr_fresh. Qed.
Lemma map_id_list {A} (l : list A) : map id l = l. Proof. induction l; simpl; by f_equal. Qed.

(** Loops that end well keep what each step keeps. *)
Lemma for_ok_inv {S} (I : nat -> S -> Prop) cnt body : forall lo s s', I lo s ->
  (forall i s t, lo <= i < lo + cnt -> I i s -> body i s = Ok t -> I (Datatypes.S i) t) ->
  for_ lo cnt body s = Ok s' -> I (lo + cnt) s'.
Proof.
  induction cnt as [|c IH]; intros lo s s' H0 Hs; simpl.
  - intros [= <-]. by rewrite Nat.add_0_r.
  - destruct (body lo s) as [t| |] eqn:E; simpl; try done. intros Hf. replace (lo + Datatypes.S c) with (Datatypes.S lo + c) by lia.
    apply (IH (Datatypes.S lo) t); [eapply Hs; [|done|done]; lia| |done]. intros i u v Hi. apply Hs. lia.
Qed.
Lemma map_res_ok {A B} (f : A -> res B) xs ys : map_res f xs = Ok ys <-> Forall2 (fun x y => f x = Ok y) xs ys.
Proof.
  unfold map_res. split.
  - intros H. apply (for_ok_inv (fun i out => Forall2 (fun x y => f x = Ok y) (take i xs) out)) in H; [rewrite Nat.add_0_l, firstn_all in H; exact H|constructor|].
    clear H. intros i out t Hi HI. destruct (rd xs i) as [x| |] eqn:E; cbn [bind]; try done. apply rd_Ok in E.
    destruct (f x) as [y| |] eqn:Ey; cbn [bind]; try done. intros [= <-]. rewrite (take_S_r _ _ _ E). apply Forall2_app; [done|]. by repeat constructor.
  - intros H. edestruct (for_inv (fun i out => out = take i ys) 0 (length xs)) as (out & -> & ->); [done| |].
    + intros i out Hi ->. destruct (lookup_lt_is_Some_2 xs i) as [x Hx]; [lia|]. rewrite (proj2 (rd_Ok _ _ _) Hx). cbn [bind].
      destruct (Forall2_lookup_l _ _ _ _ _ H Hx) as (y & Hy & E). rewrite E. cbn [bind]. eexists. split; [done|]. by rewrite (take_S_r _ _ _ Hy).
    + f_equal. apply take_ge. apply Forall2_length in H. simpl. lia.
Qed.

(** ** Columns *)
Lemma mat_cols_columns t dim data : dim <> [] -> length dim <= 2 -> map snd (columns_of (VArr t dim data)) = mat_cols t dim data /\
  map fst (columns_of (VArr t dim data)) = replicate (length (mat_cols t dim data)) empty_str.
Proof.
  intros Hn Hl. destruct dim as [|d dim]; [done|].
  assert (E : Z.to_nat (zprod dim) = match dim with [] => 1 | n :: _ => Z.to_nat n end).
  { destruct dim as [|n [|? ?]]; simpl in *; [done|by rewrite Z.mul_1_r|lia]. }
  unfold columns_of, mat_cols. rewrite E, !map_map. split; [done|]. rewrite map_length. generalize (seq 0 (match dim with [] => 1 | n :: _ => Z.to_nat n end)).
  intros l. induction l; simpl; by f_equal.
Qed.

Definition col_form (o : rstr) (w : value) : df_col :=
  match w with
  | VDf _ names cols => DfCol w cols (Some names)
  | VArr t dim data => if decide (o = empty_str) then DfCol w (mat_cols t dim data) None else DfCol w [] None
  | VVec _ _ _ => DfCol w [w] (if decide (o = empty_str) then None else Some [o])
  end.
Definition packs (w : value) : bool := match w with VVec _ _ _ => false | _ => true end.
Lemma str_empty (o : rstr) : str_ptr_eqb o empty_str = if decide (o = empty_str) then true else false.
Proof. destruct (decide (o = empty_str)) as [->|Hn]; [by apply str_ptr_eqb_spec|]. destruct (str_ptr_eqb o empty_str) eqn:E; [|done]. by apply str_ptr_eqb_spec in E. Qed.
Lemma as_df_col_spec w o : bindable (Some w) -> as_df_col w o = Ok (col_form o w, packs w).
Proof.
  intros Hb. unfold as_df_col, col_form, packs. rewrite str_empty. destruct w as [t data names|t dim data|k names cols].
  - by destruct (decide _).
  - simpl in Hb. destruct (Nat.ltb_spec 2 (length dim)); [lia|]. by destruct (decide _).
  - done.
Qed.
(** The outer name after the first pass. *)
Definition left_name (o : rstr) (w : option value) : rstr := match w with Some (VVec _ _ _) => empty_str | _ => o end.
Definition good_dim (w : option value) : Prop := match w with Some (VArr _ dim _) => dim <> [] | Some (VDf _ names cols) => length names = length cols | _ => True end.
Lemma col_form_contribution o w : bindable (Some w) -> good_dim (Some w) ->
  if decide (left_name o (Some w) = empty_str) then
    df_cols (col_form o w) = map snd (contribution o (Some w)) /\
    match df_names (col_form o w) with
    | Some l => l = map fst (contribution o (Some w))
    | None => map fst (contribution o (Some w)) = replicate (length (df_cols (col_form o w))) empty_str
    end
  else contribution o (Some w) = [(left_name o (Some w), df_self (col_form o w))].
Proof.
  intros Hb Hg. destruct w as [t data names|t dim data|k names cols]; unfold col_form; cbn [left_name].
  - rewrite decide_True by done. cbn [contribution df_cols df_names]. by destruct (decide (o = empty_str)) as [->|].
  - cbn [contribution]. destruct (decide (o = empty_str)) as [->|Hn]; [|done]. cbn [df_cols df_names]. simpl in Hb, Hg.
    destruct (mat_cols_columns t dim data Hg Hb) as [E1 E2]. by rewrite E1, E2.
  - cbn [contribution]. destruct (decide (o = empty_str)) as [->|Hn]; [|done]. cbn [df_cols df_names columns_of]. simpl in Hg.
    change (map snd (zip names cols)) with (zip names cols).*2. change (map fst (zip names cols)) with (zip names cols).*1. by rewrite snd_zip, fst_zip by lia.
Qed.
Lemma col_form_count o w : bindable (Some w) -> good_dim (Some w) ->
  (if decide (o = empty_str) then length (df_cols (col_form o w)) else 1) = length (contribution o (Some w)).
Proof.
  intros Hb Hg. pose proof (col_form_contribution o w Hb Hg) as H. destruct (decide (o = empty_str)) as [->|Hn].
  - assert (E : left_name empty_str (Some w) = empty_str) by by destruct w. rewrite E in H. rewrite decide_True in H by done. destruct H as [-> _]. by rewrite map_length.
  - simpl. by rewrite decide_False.
Qed.

Definition recycles (nrow : Z) (x : option rowed) (w : option value) : Prop := vec_check_recycle (option_map fst x) nrow = Ok w.
Definition names_fit (n : nat) (xs_names : option (list rstr)) : Prop := match xs_names with Some l => length l = n | None => True end.
Definition col_forms (os : list rstr) (ws : list (option value)) : list (option df_col) := zip_with (fun o w => option_map (col_form o) w) os ws.
Lemma recycles_None nrow w : recycles nrow None w -> w = None. Proof. by intros [= <-]. Qed.
Lemma recycles_Some nrow x w : recycles nrow (Some x) w -> exists v, w = Some v.
Proof.
  unfold recycles, vec_check_recycle, option_map. destruct (_ =? nrow)%Z; [intros [= <-]; eauto|]. destruct (_ =? 1)%Z; [|done].
  destruct (compact_rep 1 nrow); simpl; try done. destruct (vec_slice_unsafe _ _); simpl; try done. intros [= <-]. eauto.
Qed.
Lemma outer_names_length n xs_names : names_fit n xs_names -> length (outer_names_of n xs_names) = n.
Proof. destruct xs_names; simpl; [done|by rewrite replicate_length]. Qed.
(** The outer names while the first pass is at input [i]. *)
Definition names_at (xs_names : option (list rstr)) (ws : list (option value)) (i : nat) : option (list rstr) :=
  option_map (fun l => zip_with left_name (take i l) (take i ws) ++ drop i l) xs_names.
Lemma contributions_app l ws i o w : l !! i = Some o -> ws !! i = Some w ->
  concat (zip_with contribution (take (S i) l) (take (S i) ws)) = concat (zip_with contribution (take i l) (take i ws)) ++ contribution o w.
Proof.
  intros Ho Hw. rewrite (take_S_r _ _ _ Ho), (take_S_r _ _ _ Hw), zip_with_app, concat_app.
  - simpl. by rewrite app_nil_r.
  - apply lookup_lt_Some in Ho, Hw. rewrite !take_length. lia.
Qed.
Lemma cbind_inputs_spec xs xs_names nrow ws : Forall2 (recycles nrow) xs ws -> names_fit (length xs) xs_names ->
  Forall bindable ws -> Forall good_dim ws ->
  cbind_inputs xs xs_names nrow =
    Ok (col_forms (outer_names_of (length ws) xs_names) ws, names_at xs_names ws (length ws), length (contributions xs_names ws)).
Proof.
  intros H2 Hn Hb Hg. pose proof (Forall2_length _ _ _ H2) as Hl. unfold cbind_inputs, contributions.
  set (os := outer_names_of (length ws) xs_names). assert (Hos : length os = length ws) by (apply outer_names_length; by rewrite <- Hl).
  edestruct (for_inv (fun i (st : list (option df_col) * option (list rstr) * nat) =>
      st = (col_forms (take i os) (take i ws) ++ replicate (length xs - i) None, names_at xs_names ws i,
            length (concat (zip_with contribution (take i os) (take i ws))))) 0 (length xs)) as (st & -> & ->).
  - rewrite Nat.sub_0_r. simpl. f_equal. f_equal. unfold names_at. destruct xs_names; simpl; by rewrite ?drop_0.
  - intros i st Hi ->. destruct (lookup_lt_is_Some_2 xs i) as [x Hx]; [lia|]. rewrite (proj2 (rd_Ok _ _ _) Hx). cbn [bind].
    destruct (Forall2_lookup_l _ _ _ _ _ H2 Hx) as (w & Hw & Hr). destruct (lookup_lt_is_Some_2 os i) as [o Ho]; [lia|].
    rewrite (contributions_app _ _ _ _ _ Ho Hw).
    assert (EN : names_at xs_names ws (S i) = option_map (<[i := left_name o w]>) (names_at xs_names ws i)).
    { unfold names_at. destruct xs_names as [l|]; [|done]. simpl. f_equal. simpl in os. subst os.
      assert (Hlen : length (zip_with left_name (take i l) (take i ws)) = i) by (rewrite zip_with_length, !take_length; lia).
      replace (<[i:=_]> _) with (<[length (zip_with left_name (take i l) (take i ws)) + 0 := left_name o w]> (zip_with left_name (take i l) (take i ws) ++ drop i l)) by (f_equal; lia).
      rewrite insert_app_r, (drop_S _ _ _ Ho). simpl. rewrite (take_S_r _ _ _ Ho), (take_S_r _ _ _ Hw), zip_with_app by (rewrite !take_length; lia).
      simpl. by rewrite <- app_assoc. }
    assert (EC : col_forms (take (S i) os) (take (S i) ws) = col_forms (take i os) (take i ws) ++ [option_map (col_form o) w]).
    { unfold col_forms. rewrite (take_S_r _ _ _ Ho), (take_S_r _ _ _ Hw), zip_with_app by (rewrite !take_length; lia). done. }
    assert (Eo : match names_at xs_names ws i with Some names => rd names i | None => Ok empty_str end = Ok o).
    { unfold names_at. destruct xs_names as [l|]; simpl in *.
      - apply rd_Ok. rewrite lookup_app_r by (rewrite zip_with_length, !take_length; lia). rewrite zip_with_length, !take_length, lookup_drop.
        replace (i + (i - _)) with i by lia. exact Ho.
      - subst os. rewrite lookup_replicate_2 in Ho by lia. congruence. }
    assert (Hlc : length (col_forms (take i os) (take i ws)) = i) by (unfold col_forms; rewrite zip_with_length, !take_length; lia).
    rewrite app_length, EN, EC. destruct x as [[x rn]|].
    + destruct (recycles_Some _ _ _ Hr) as [v ->]. unfold recycles in Hr. cbn [option_map fst] in Hr. rewrite Hr. cbn [bind].
      rewrite Eo. cbn [bind]. rewrite Forall_lookup in Hb, Hg. pose proof (Hb _ _ Hw) as Hbv. pose proof (Hg _ _ Hw) as Hgv.
      rewrite (as_df_col_spec v o Hbv). cbn [bind].
      assert (exists names', names' = option_map (<[i := left_name o (Some v)]>) (names_at xs_names ws i) /\
        match names_at xs_names ws i with
        | Some names => if negb (packs v) then let! names := wr names i empty_str in Ok (Some names) else Ok (Some names)
        | None => Ok None end = Ok names') as (names' & -> & ->).
      { destruct (names_at xs_names ws i) as [l|] eqn:El; [|by exists None].
        assert (Hin : l !! i = Some o) by by apply rd_Ok.
        destruct v as [t data nm|t dim data|k nm cols]; cbn [packs negb left_name option_map].
        - exists (Some (<[i := empty_str]> l)). split; [done|]. rewrite wr_Ok by (by eapply lookup_lt_Some). done.
        - exists (Some (<[i := o]> l)). split; [done|]. by rewrite list_insert_id.
        - exists (Some (<[i := o]> l)). split; [done|]. by rewrite list_insert_id. }
      cbn [bind]. rewrite wr_fresh_at by (first [done|lia]). cbn [bind].
      eexists. split; [done|]. rewrite str_empty, <- (col_form_count o v) by done. replace (length xs - i - 1) with (length xs - S i) by lia.
      by destruct (decide (o = empty_str)).
    + apply recycles_None in Hr as ->. eexists. split; [done|]. f_equal; [f_equal|].
      * simpl. rewrite <- app_assoc. f_equal. replace (length xs - i) with (S (length xs - S i)) by lia. done.
      * simpl. destruct (names_at xs_names ws i) as [l|]; [|done]. simpl. f_equal. symmetry. apply list_insert_id. by apply rd_Ok.
      * simpl. lia.
  - rewrite Nat.add_0_l, Nat.sub_diag, Hl. simpl. rewrite app_nil_r, !take_ge by lia. done.
Qed.

Lemma cbind_fill_spec os ws xs_names : Forall bindable ws -> Forall good_dim ws -> length os = length ws ->
  os = outer_names_of (length ws) xs_names ->
  let cs := contributions xs_names ws in
  cbind_fill (col_forms os ws) (names_at xs_names ws (length ws)) (length cs) = Ok (map Some (map snd cs), map fst cs).
Proof.
  intros Hb Hg Hos Eos cs. unfold cbind_fill.
  assert (Hlen : length (col_forms os ws) = length ws) by (unfold col_forms; rewrite zip_with_length; lia). rewrite Hlen.
  set (pre := fun i => concat (zip_with contribution (take i os) (take i ws))).
  assert (Hcs : pre (length ws) = cs) by (unfold pre, cs, contributions; rewrite <- Eos, !take_ge by lia; done).
  assert (Hpre : forall i o w, os !! i = Some o -> ws !! i = Some w -> length (pre i) + length (contribution o w) <= length cs).
  { intros i o w Ho Hw. unfold cs, contributions. rewrite <- Eos. rewrite <- (take_drop (S i) os), <- (take_drop (S i) ws).
    rewrite zip_with_app, concat_app, app_length by (apply lookup_lt_Some in Ho, Hw; rewrite !take_length; lia).
    rewrite (contributions_app _ _ _ _ _ Ho Hw), app_length. unfold pre. lia. }
  edestruct (for_inv (fun i (st : list (option value) * list rstr * nat) =>
      st = (map Some (map snd (pre i)) ++ replicate (length cs - length (pre i)) None,
            map fst (pre i) ++ replicate (length cs - length (pre i)) empty_str, length (pre i))) 0 (length ws)) as (st & -> & ->).
  - unfold pre. simpl. by rewrite Nat.sub_0_r.
  - intros i st Hi ->. destruct (lookup_lt_is_Some_2 ws i) as [w Hw]; [lia|]. destruct (lookup_lt_is_Some_2 os i) as [o Ho]; [lia|].
    assert (Hc : col_forms os ws !! i = Some (option_map (col_form o) w)). { unfold col_forms. rewrite lookup_zip_with, Ho. simpl. by rewrite Hw. }
    rewrite (proj2 (rd_Ok _ _ _) Hc). cbn [bind].
    assert (Epre : pre (S i) = pre i ++ contribution o w) by by apply contributions_app.
    rewrite Forall_lookup in Hb, Hg. pose proof (Hb _ _ Hw) as Hbw. pose proof (Hg _ _ Hw) as Hgw. specialize (Hpre _ _ _ Ho Hw).
    destruct w as [w|]; cbn [option_map].
    2:{ eexists. split; [done|]. rewrite Epre. simpl. by rewrite app_nil_r. }
    assert (Eo : match names_at xs_names ws (length ws) with Some l => rd l i | None => Ok empty_str end = Ok (if xs_names then left_name o (Some w) else empty_str)).
    { unfold names_at. destruct xs_names as [l|]; [|done]. simpl. simpl in Eos. subst os. apply rd_Ok.
      rewrite lookup_app_l by (rewrite zip_with_length, !take_length; lia).
      rewrite !take_ge by lia. rewrite lookup_zip_with. unfold rstr in *. rewrite Ho. simpl. by rewrite Hw. }
    rewrite Eo. cbn [bind].
    assert (Eo' : (if xs_names then left_name o (Some w) else empty_str) = left_name o (Some w)).
    { destruct xs_names; [done|]. simpl in Eos. subst os. rewrite lookup_replicate_2 in Ho by lia. injection Ho as <-. by destruct w. }
    rewrite Eo', str_empty. pose proof (col_form_contribution o w Hbw Hgw) as HC. destruct (decide (left_name o (Some w) = empty_str)) as [E|E]; cbn [negb].
    + destruct HC as [HC1 HC2]. rewrite HC1, map_length.
      rewrite assign_fresh; [|by rewrite !map_length|by rewrite !map_length|rewrite !map_length; lia]. cbn [bind].
      rewrite HC1 in HC2. destruct (df_names (col_form o w)) as [l|].
      * subst l. rewrite assign_fresh; [|by rewrite !map_length|by rewrite !map_length|rewrite !map_length; lia]. cbn [bind]. eexists. split; [done|].
        rewrite Epre, !map_app, !map_length, app_length. rewrite Nat.sub_add_distr. done.
      * cbn [bind]. eexists. split; [done|].
        rewrite Epre, !map_app, !map_length, app_length, HC2, !map_length, Nat.sub_add_distr. do 2 f_equal.
        rewrite <- app_assoc, <- replicate_add. f_equal. f_equal. lia.
    + rewrite HC in Epre, Hpre. simpl in Hpre.
      rewrite wr_fresh_at by (rewrite ?map_length; lia). cbn [bind]. rewrite wr_fresh_at by (rewrite ?map_length; lia). cbn [bind]. eexists. split; [done|].
      rewrite Epre, !map_app, app_length. cbn [length map]. rewrite Nat.sub_add_distr, Nat.add_1_r. done.
  - rewrite Nat.add_0_l, Hcs, Nat.sub_diag. cbn [bind replicate]. by rewrite !app_nil_r.
Qed.
Lemma all_assigned_some l : all_assigned (map Some l) = Ok l.
Proof. induction l as [|v l IH]; [done|]. simpl. by rewrite IH. Qed.
