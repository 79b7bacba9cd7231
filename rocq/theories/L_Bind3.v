(** * Lemmas: the loop of vec_rbind() *)
From Verif Require Import Base M_Double M_Scalar M_Object M_Proxy M_Growable M_Slice Spec_Slice M_Rep Spec_Rep M_Subscript M_Chop Spec_Chop
  L_Dbl L_Slice L_SliceArray L_Assign L_Value L_SliceVal L_Rep L_Recycle L_Chop L_Chop2 L_Chop3 P_Chop P_Rep
  M_Names M_Shape M_Factor M_Ptype P_Ptype M_Bind Spec_Bind L_Bind L_Bind2.
From Coq Require Import Lia ZifyBool ZifyNat.
#[local] Arguments Z.mul : simpl never.
#[local] Arguments Z.add : simpl never.
#[local] Arguments Z.sub : simpl never.
#[local] Arguments Z.max : simpl never.
#[local] Arguments Z.to_nat : simpl never.
#[local] Arguments Z.of_nat : simpl never.

(** The loop of [vec_c()] on data frames. *)
Definition c_body (xs : list (option value)) (sizes : list Z) (out_size : nat) (i : nat) (st : value * option (list rstr) * Z)
    : res (value * option (list rstr) * Z) :=
  let '(out, out_names, counter) := st in
  let! x := rd xs i in
  let! size := rd sizes i in
  let loc := SSeq counter size 1 in
  let! out_names :=
    match x with
    | None => Ok out_names
    | Some v =>
        match vec_names v with
        | None => Ok out_names
        | Some nms =>
            let o := match out_names with None => replicate out_size empty_str | Some o => o end in
            let! o := assign_base o loc nms in
            Ok (Some o)
        end
    end in
  if (size =? 0)%Z then Ok (out, out_names, counter)
  else
    match x with
    | None => Err "unreachable"
    | Some v =>
        let! v := Ok v in
        let! out := vec_proxy_assign_opts true out loc v in
        Ok (out, out_names, counter + size)%Z
    end.
Lemma vec_c_body p xs : vec_c Ok (Some p) xs =
  let sizes := sizes0 xs in
  let out_size := fold_left Z.add sizes 0%Z in
  let! out := vec_init p out_size in
  let! (out, out_names, _) := for_ 0 (length xs) (c_body xs sizes (Z.to_nat out_size)) (out, None, 0%Z) in
  Ok (Some (finish_names out out_names)).
Proof. reflexivity. Qed.

Definition is_df (x : option rowed) : Prop := match x with Some (VDf _ _ _, _) | None => True | _ => False end.
Lemma assign_df_outer_gen a b out s v w : match v with VDf _ _ _ => True | _ => False end -> vec_proxy_assign_opts a out s v = Ok w ->
  vec_proxy_assign_opts b out s v = Ok w /\ match w with VDf _ _ _ => True | _ => False end.
Proof.
  destruct v as [|?|m vn vc]; try done. intros _. destruct out as [t data nm|t dim data|n names cols]; simpl; try done.
  destruct (negb _); [done|]. intros E. split; [exact E|]. destruct ((fix go (cols vcols : list value) : res (list value) := _) cols vc); simpl in E; try done. by injection E as <-.
Qed.

Lemma total_snoc l n : total (l ++ [n]) = (total l + n)%Z. Proof. unfold total. rewrite foldr_app. simpl. induction l; simpl in *; lia. Qed.
Lemma total_pos l : Forall (fun n => 0 <= n)%Z l -> (0 <= total l)%Z.
Proof. unfold total. induction 1; simpl; lia. Qed.
Lemma fills_length ns nms : length ns = length nms -> Forall (fun n => 0 <= n)%Z ns ->
  (forall j n o, ns !! j = Some n -> nms !! j = Some o -> length (fill_names (Z.to_nat n) o) = Z.to_nat n) ->
  length (concat (zip_with (fun n o => fill_names (Z.to_nat n) o) ns nms)) = Z.to_nat (total ns).
Proof.
  revert nms. induction ns as [|n ns IH]; intros [|o nms] Hl Hn H; simpl in *; try done. apply Forall_cons in Hn as [H1 H2].
  rewrite app_length, IH; [|lia|done|intros j; apply (H (S j))]. rewrite (H 0 n o) by done. pose proof (total_pos _ H2). unfold total in *. simpl. lia.
Qed.
Lemma spread_length {A} ns (l : list A) : length ns = length l -> Forall (fun n => 0 <= n)%Z ns -> length (spread ns l) = Z.to_nat (total ns).
Proof.
  unfold spread. revert l. induction ns as [|n ns IH]; intros [|o l] Hl Hn; simpl in *; try done. apply Forall_cons in Hn as [H1 H2].
  rewrite app_length, replicate_length, IH by (first [done|lia]). pose proof (total_pos _ H2). unfold total in *. simpl. lia.
Qed.
Lemma total_take_snoc ns i n : ns !! i = Some n -> total (take (S i) ns) = (total (take i ns) + n)%Z.
Proof. intros H. by rewrite (take_S_r _ _ _ H), total_snoc. Qed.
Lemma total_take_all ns i n : Forall (fun n => 0 <= n)%Z ns -> ns !! i = Some n -> (0 <= total (take i ns) /\ total (take i ns) + n <= total ns)%Z.
Proof.
  intros Hn Hi. split; [apply total_pos; by apply Forall_take|]. rewrite <- (take_drop (S i) ns) at 2. rewrite (take_S_r _ _ _ Hi).
  assert (E : forall a b, total (a ++ b) = (total a + total b)%Z). { intros a b. unfold total. rewrite foldr_app. induction a; simpl in *; lia. }
  rewrite E, total_snoc. pose proof (total_pos (drop (S i) ns) (Forall_drop _ _ _ Hn)). lia.
Qed.

Lemma for_step_ok {S} (body : nat -> S -> res S) s : forall n s', for_ 0 n body s = Ok s' -> forall i, i < n ->
  exists t u, for_ 0 i body s = Ok t /\ body i t = Ok u.
Proof.
  induction n as [|n IH]; intros s' H i Hi; [lia|]. rewrite for_snoc in H. destruct (for_ 0 n body s) as [t| |] eqn:E; cbn [bind] in H; try done.
  destruct (decide (i = n)) as [->|Hne]; [by exists t, s'|]. apply (IH _ eq_refl). lia.
Qed.
Section loop.
Context (spec : name_spec) (ws : list (option rowed)) (ns : list Z) (xs_names : option (list rstr)) (index : option (list elt)) (blank : elt) (out0 : value).
Context (Hdf : Forall is_df ws) (Ens : ns = map (fun x : option rowed => match x with None => 0%Z | Some x => value_size x.1 end) ws)
  (Hnm : names_fit (length ws) xs_names) (Hidx : match index with Some idx => length idx = length ws | None => True end).
Let N := Z.to_nat (total ns).
(** After [i] inputs. *)
Definition rbind_inv (i : nat) (st : rbind_state) : Prop :=
  exists nms o r t, st = (o, r, t, total (take i ns)) /\ length nms = i /\
      for_ 0 i (c_body (vals ws) ns N) (out0, None, 0%Z) = Ok (o, None, total (take i ns)) /\
      (forall j o, nms !! j = Some o -> name_of_input spec xs_names ws ns j o) /\
      r = match joined_names (take i ns) nms with None => None | Some l => Some (l ++ replicate (N - Z.to_nat (total (take i ns))) empty_str) end /\
      t = match index with Some idx => spread (take i ns) (take i idx) ++ replicate (N - Z.to_nat (total (take i ns))) blank | None => replicate N blank end.
Lemma loop_sizes : length ns = length ws.
Proof. rewrite Ens. apply map_length. Qed.
Lemma loop_pos : Forall (fun n => 0 <= n)%Z ns.
Proof. rewrite Ens. apply Forall_map. eapply Forall_impl; [apply Hdf|]. intros [[[] ?]|]; simpl; try done; lia. Qed.
Lemma rbind_inv_0 : rbind_inv 0 (out0, None, replicate N blank, 0%Z).
Proof.
  exists [], out0, None, (replicate N blank). rewrite take_0. change (total []) with 0%Z. rewrite Nat.sub_0_r. split_and!; try done. by destruct index.
Qed.
Lemma inv_filled i nms : i <= length ws -> length nms = i -> (forall j o, nms !! j = Some o -> name_of_input spec xs_names ws ns j o) ->
  length (concat (zip_with (fun n o => fill_names (Z.to_nat n) o) (take i ns) nms)) = Z.to_nat (total (take i ns)).
Proof.
  intros Hi Hl Ho. pose proof loop_sizes as Hnl. apply fills_length; [rewrite take_length; lia|by apply Forall_take, loop_pos|]. intros j m u Hm Hu. apply Ho in Hu. unfold name_of_input in Hu.
  assert (Hj : j < i) by (apply lookup_lt_Some in Hm; rewrite take_length in Hm; lia). rewrite lookup_take in Hm by lia. rewrite Hm in Hu.
  destruct (ws !! j) as [[[v inn]|]|]; [|subst; simpl; apply replicate_length..]. destruct (m =? 0)%Z; [subst; simpl; apply replicate_length|tauto].
Qed.
Lemma rbind_inv_step i st st' : i < length ws -> rbind_inv i st -> rbind_step spec N ws ns xs_names index i st = Ok st' -> rbind_inv (S i) st'.
Proof.
  intros Hi (nms & o & r & t & -> & Hl & Hc & Ho & Er & Et) Es. pose proof loop_sizes as Hnl. pose proof loop_pos as Hn0. pose proof Hdf as Hdf0.
  destruct (lookup_lt_is_Some_2 ws i) as [x Hx]; [lia|]. destruct (lookup_lt_is_Some_2 ns i) as [n Hn]; [lia|].
  assert (En : n = match x with None => 0%Z | Some x => value_size x.1 end).
  { rewrite Ens, list_lookup_fmap, Hx in Hn. simpl in Hn. congruence. }
  assert (Hvx : vals ws !! i = Some (option_map fst x)) by (unfold vals; rewrite list_lookup_fmap; exact (f_equal (fmap (option_map fst)) Hx)).
  rewrite Forall_lookup in Hdf0. pose proof (Hdf0 _ _ Hx) as Hdx. pose proof (total_take_all ns i n Hn0 Hn) as [Ht0 Ht1].
  set (T := total (take i ns)) in *. pose proof (total_take_snoc ns i n Hn) as ET. fold T in ET.
  assert (Hlen : length (take i ns) = length nms) by (rewrite take_length; lia).
  assert (HF : length (concat (zip_with (fun n o => fill_names (Z.to_nat n) o) (take i ns) nms)) = Z.to_nat T).
  { apply fills_length; [done|by apply Forall_take|]. intros j m u Hm Hu. apply Ho in Hu. unfold name_of_input in Hu.
    assert (Hj : j < i) by (apply lookup_lt_Some in Hm; rewrite take_length in Hm; lia). rewrite lookup_take in Hm by lia. rewrite Hm in Hu.
    destruct (ws !! j) as [[[v inn]|]|]; [|subst; simpl; apply replicate_length..]. destruct (m =? 0)%Z; [subst; simpl; apply replicate_length|tauto]. }
  set (F := concat (zip_with (fun n o => fill_names (Z.to_nat n) o) (take i ns) nms)) in *.
  unfold rbind_inv. rewrite (take_S_r _ _ _ Hn). unfold rbind_step in Es. rewrite (proj2 (rd_Ok _ _ _) Hn) in Es. cbn [bind] in Es.
  assert (Hc' : forall o', c_body (vals ws) ns N i (o, None, T) = Ok (o', None, (T + n)%Z) ->
      for_ 0 (S i) (c_body (vals ws) ns N) (out0, None, 0%Z) = Ok (o', None, (T + n)%Z)).
  { intros o' H. rewrite for_snoc, Hc. exact H. }
  assert (Hpos : (0 <= n)%Z) by (rewrite Forall_lookup in Hn0; by eapply Hn0).
  rewrite total_snoc. fold T. assert (HNz : Z.to_nat (T + n) = Z.to_nat T + Z.to_nat n) by lia. rewrite HNz, Nat.sub_add_distr.
  destruct (Z.eqb_spec n 0) as [E0|E0].
  + injection Es as <-. assert (En0 : n = 0%Z) by exact E0. exists (nms ++ [None]), o, r, t. rewrite E0 in *.
    replace (T + 0)%Z with T by lia. split; [done|]. split; [rewrite app_length; simpl; lia|]. split; [|split; [|split]].
    * rewrite <- (Z.add_0_r T). apply Hc'. unfold c_body. rewrite (proj2 (rd_Ok _ _ _) Hvx). cbn [bind]. rewrite (proj2 (rd_Ok _ _ _) Hn). cbn [bind].
      destruct x as [[[] ?]|]; simpl; try done; by rewrite Z.add_0_r.
    * intros j u Hu. apply lookup_app_Some in Hu as [Hu|[Hj Hu]]; [by apply Ho|]. destruct (j - length nms) eqn:Ej; [|done]. injection Hu as <-.
      assert (j = i) as -> by lia. unfold name_of_input. rewrite Hx, Hn. destruct x as [[v inn]|]; [|done]. done.
    * rewrite joined_snoc by done. rewrite Er. destruct (joined_names _ nms); [|done]. f_equal. change (Z.to_nat 0) with 0. simpl. by rewrite app_nil_r, Nat.sub_0_r.
    * rewrite Et. destruct index as [idx|]; [|done]. destruct (lookup_lt_is_Some_2 idx i) as [ix Hix]; [lia|]. rewrite (take_S_r _ _ _ Hix).
      unfold spread. rewrite zip_with_app, concat_app by (rewrite !take_length; lia). change (Z.to_nat 0) with 0. simpl. by rewrite app_nil_r, Nat.sub_0_r.
  + rewrite (proj2 (rd_Ok _ _ _) Hx) in Es. cbn [bind] in Es. destruct x as [[v inner]|]; [|done]. cbn [option_map fst] in Hvx. simpl in En.
    destruct (vec_proxy_assign_opts false o (SSeq T n 1) v) as [o'| |] eqn:Eo; cbn [bind] in Es; try done.
    apply (assign_df_outer_gen false true) in Eo as [Eo Hod]; [|by destruct v].
    match type of Es with context [bind ?m _] => destruct m as [r'| |] eqn:Er'; cbn [bind] in Es; try done end.
    match type of Es with context [bind ?m _] => destruct m as [t'| |] eqn:Et'; cbn [bind] in Es; try done end.
    injection Es as <-.
    assert (Hnn : Z.to_nat n <> 0) by (assert (0 <= n)%Z by (rewrite Forall_lookup in Hn0; by eapply Hn0); lia).
    assert (exists nm, name_of_input spec xs_names ws ns i nm /\
      r' = match joined_names (take i ns ++ [n]) (nms ++ [nm]) with None => None | Some l => Some (l ++ replicate (N - Z.to_nat T - Z.to_nat n) empty_str) end) as (nm & N1 & N2).
    { unfold name_of_input. rewrite Hx, Hn. destruct (Z.eqb_spec n 0); [done|].
      assert (Hnone : forall nm, r' = r -> nm = None -> r' = match joined_names (take i ns ++ [n]) (nms ++ [nm]) with None => None | Some l => Some (l ++ replicate (N - Z.to_nat T - Z.to_nat n) empty_str) end).
      { intros nm -> ->. rewrite joined_snoc by done. rewrite Er. destruct (joined_names _ nms) as [l|] eqn:Ej; [|done]. f_equal. apply joined_some in Ej.
        rewrite <- app_assoc, <- replicate_add. f_equal. f_equal. lia. }
      destruct (match spec with SpecZap => true | _ => false end) eqn:Ez.
      { destruct spec; try done. injection Er' as <-. exists None. split; [split; [by constructor|simpl; apply replicate_length]|by apply Hnone]. }
      assert (Er2 : (let! outer := match xs_names with Some l => let! o := rd l i in Ok (Some o) | None => Ok None end in
          let! x_nms := apply_name_spec spec outer inner (Z.to_nat n) in
          match x_nms with
          | NoNames => Ok r
          | _ =>
              let rn := match r with Some l => l | None => replicate N empty_str end in
              let! rn := assign_base rn (SSeq T n 1) (match x_nms with Names l => l | _ => [empty_str] end) in
              Ok (Some rn)
          end) = Ok r') by (destruct spec; done). clear Er'.
      assert (Eout : match xs_names with Some l => let! o := rd l i in Ok (Some o) | None => Ok None end = Ok (outer_at xs_names i)).
      { unfold outer_at. destruct xs_names as [l|]; [|done]. simpl in Hnm. destruct (lookup_lt_is_Some_2 l i) as [u Hu]; [lia|].
        rewrite (proj2 (rd_Ok _ _ _) Hu). cbn [bind]. unfold rstr in *. by rewrite Hu. }
      rewrite Eout in Er2. cbn [bind] in Er2. destruct (apply_name_spec spec (outer_at xs_names i) inner (Z.to_nat n)) as [xn| |] eqn:Ea; cbn [bind] in Er2; try done.
      apply apply_name_spec_ok in Ea; [|done].
      assert (Ebase : match r with Some l => l | None => replicate N empty_str end = F ++ replicate (N - Z.to_nat T) empty_str).
      { rewrite Er. destruct (joined_names (take i ns) nms) as [l|] eqn:Ej.
        - by apply joined_some in Ej as ->.
        - apply fills_none in Ej; [|done|by apply Forall_take]. unfold F. rewrite Ej. fold T. rewrite <- replicate_add. f_equal. unfold N. lia. }
      assert (Hsome : forall l, input_names spec inner (Z.to_nat n) (outer_at xs_names i) (Some l) -> assign_base (F ++ replicate (N - Z.to_nat T) empty_str) (SSeq T n 1) l = Ok (default [] r') -> r' <> None ->
        exists nm, (input_names spec inner (Z.to_nat n) (outer_at xs_names i) nm /\ length (fill_names (Z.to_nat n) nm) = Z.to_nat n) /\
          r' = match joined_names (take i ns ++ [n]) (nms ++ [nm]) with None => None | Some l => Some (l ++ replicate (N - Z.to_nat T - Z.to_nat n) empty_str) end).
      { intros l Hin Hl' Hne. assert (Hll : n = Z.of_nat (length l)).
        { unfold assign_base, assign_seq in Hl'. destruct (Z.eqb_spec n (Z.of_nat (length l))) as [?|Hne']; [done|]. by simpl in Hl'. }
        rewrite assign_fresh in Hl'; [|lia|done|unfold N; lia]. exists (Some l). split; [split; [done|simpl; lia]|]. rewrite joined_snoc by done. fold F.
        destruct r' as [r'|]; [|done]. simpl in Hl'. injection Hl' as <-. rewrite Hll, Nat2Z.id. done. }
      cbv zeta in Er2. rewrite Ebase in Er2. destruct xn as [| |l].
      - injection Er2 as <-. exists None. split; [split; [done|simpl; apply replicate_length]|by apply Hnone].
      - match type of Er2 with bind ?m _ = _ => destruct m as [q| |] eqn:Eq; cbn [bind] in Er2; try done end. injection Er2 as <-.
        apply (Hsome (replicate (Z.to_nat n) empty_str)); [done| |done]. assert (En1 : n = 1%Z).
        { unfold assign_base, assign_seq in Eq. destruct (Z.eqb_spec n (Z.of_nat (length [empty_str]))) as [?|Hne']; [simpl in *; lia|]. by simpl in Eq. }
        rewrite En1 in *. exact Eq.
      - match type of Er2 with bind ?m _ = _ => destruct m as [q| |] eqn:Eq; cbn [bind] in Er2; try done end. injection Er2 as <-.
        by apply (Hsome l). }
    exists (nms ++ [nm]), o', r', t'. split; [done|]. split; [rewrite app_length; simpl; lia|]. split; [|split; [|split]].
    * apply Hc'. unfold c_body. rewrite (proj2 (rd_Ok _ _ _) Hvx). cbn [bind]. rewrite (proj2 (rd_Ok _ _ _) Hn). cbn [bind].
      destruct (Z.eqb_spec n 0); [done|]. destruct v as [|?|m vn vc]; try done. cbn [vec_names bind]. by rewrite Eo.
    * intros j u Hu. apply lookup_app_Some in Hu as [Hu|[Hj Hu]]; [by apply Ho|]. destruct (j - length nms) eqn:Ej; [|done]. injection Hu as <-.
      assert (j = i) as -> by lia. done.
    * exact N2.
    * destruct index as [idx|]; [|injection Et' as <-; done]. destruct (lookup_lt_is_Some_2 idx i) as [ix Hix]; [lia|].
      assert (Hsl : length (spread (take i ns) (take i idx)) = Z.to_nat T) by (apply spread_length; [rewrite !take_length; lia|by apply Forall_take]).
      rewrite Et in Et'. replace T with (Z.of_nat (length (spread (take i ns) (take i idx)))) in Et' at 2 by lia.
      rewrite (r_vec_fill_spec _ _ _ _ _ _ _ Hix) in Et' by (unfold N; lia). injection Et' as <-.
      rewrite (take_S_r _ _ _ Hix). unfold spread. rewrite zip_with_app, concat_app by (rewrite !take_length; lia). simpl. by rewrite app_nil_r.
Qed.
Lemma rbind_loop_ok out rn ntc c :
  for_ 0 (length ws) (rbind_step spec N ws ns xs_names index) (out0, None, replicate N blank, 0%Z) = Ok (out, rn, ntc, c) ->
  (exists c', for_ 0 (length ws) (c_body (vals ws) ns N) (out0, None, 0%Z) = Ok (out, None, c')) /\
  (exists nms, length nms = length ws /\ (forall i o, nms !! i = Some o -> name_of_input spec xs_names ws ns i o) /\ rn = joined_names ns nms) /\
  ntc = match index with Some idx => spread ns idx | None => replicate N blank end.
Proof.
  intros E. pose proof loop_sizes as Hnl. apply (for_ok_inv rbind_inv) in E.
  - rewrite Nat.add_0_l in E. unfold rbind_inv in E. rewrite (take_ge ns) in E by lia. fold N in E. destruct E as (nms & o & r & t & [= -> -> -> ->] & Hl & Hc & Ho & -> & ->).
    rewrite Nat.sub_diag. simpl. split; [eauto|]. split.
    + exists nms. split_and!; [done|done|]. destruct (joined_names ns nms); [|done]. by rewrite app_nil_r.
    + destruct index as [idx|]; [|done]. by rewrite app_nil_r, take_ge by lia.
  - apply rbind_inv_0.
  - clear E. intros i st st' [_ Hi] Hst Es. eapply rbind_inv_step; [lia|done|done].
Qed.

(** ** The loop does not fail *)
Definition all_named : Prop := forall i v inner n, ws !! i = Some (Some (v, inner) : option rowed) -> ns !! i = Some n -> n <> 0%Z ->
  spec = SpecZap \/ exists xn, apply_name_spec spec (outer_at xs_names i) inner (Z.to_nat n) = Ok xn /\
    match xn with NoNames => True | ChrsEmpty => n = 1%Z | Names l => Z.of_nat (length l) = n end.
Lemma rbind_loop_total out c : all_named -> for_ 0 (length ws) (c_body (vals ws) ns N) (out0, None, 0%Z) = Ok (out, None, c) ->
  exists st, for_ 0 (length ws) (rbind_step spec N ws ns xs_names index) (out0, None, replicate N blank, 0%Z) = Ok st.
Proof.
  intros Hall Hc. pose proof loop_sizes as Hnl. pose proof loop_pos as Hn0.
  edestruct (for_inv rbind_inv 0 (length ws) (rbind_step spec N ws ns xs_names index)) as (st & E & _); [apply rbind_inv_0| |by exists st].
  intros i st [_ Hi] Hst. rewrite Nat.add_0_l in Hi.
  enough (exists st', rbind_step spec N ws ns xs_names index i st = Ok st') as [st' E] by (exists st'; split; [done|by eapply rbind_inv_step]).
  destruct Hst as (nms & o & r & t & -> & Hl & Hci & Ho & Er & Et). pose proof (inv_filled i nms ltac:(lia) Hl Ho) as HF.
  destruct (lookup_lt_is_Some_2 ws i) as [x Hx]; [lia|]. destruct (lookup_lt_is_Some_2 ns i) as [n Hn]; [lia|].
  pose proof (total_take_all ns i n Hn0 Hn) as [Ht0 Ht1]. assert (Hpos : (0 <= n)%Z) by (rewrite Forall_lookup in Hn0; by eapply Hn0).
  assert (Hvx : vals ws !! i = Some (option_map fst x)) by (unfold vals; rewrite list_lookup_fmap; exact (f_equal (fmap (option_map fst)) Hx)).
  unfold rbind_step. rewrite (proj2 (rd_Ok _ _ _) Hn). cbn [bind]. destruct (Z.eqb_spec n 0) as [E0|E0]; [by eexists|].
  rewrite (proj2 (rd_Ok _ _ _) Hx). cbn [bind].
  destruct (for_step_ok _ _ _ _ Hc i Hi) as (s & u & E1 & E2). rewrite Hci in E1. injection E1 as <-.
  unfold c_body in E2. rewrite (proj2 (rd_Ok _ _ _) Hvx) in E2. cbn [bind] in E2. rewrite (proj2 (rd_Ok _ _ _) Hn) in E2. cbn [bind] in E2.
  rewrite Forall_lookup in Hdf. pose proof (Hdf _ _ Hx) as Hdx. destruct x as [[v inner]|].
  2:{ exfalso. rewrite Ens, list_lookup_fmap, Hx in Hn. simpl in Hn. congruence. }
  destruct v as [|?|m vn vc]; try done. cbn [option_map fst vec_names bind] in E2. destruct (Z.eqb_spec n 0); [done|].
  set (T := total (take i ns)) in *. destruct (vec_proxy_assign_opts true o (SSeq T n 1) (VDf m vn vc)) as [o'| |] eqn:Eo; cbn [bind] in E2; try done.
  apply (assign_df_outer_gen true false) in Eo as [-> _]; [|done]. cbn [bind].
  assert (Ebase : spec <> SpecZap -> match r with Some l => l | None => replicate N empty_str end =
      concat (zip_with (fun n o => fill_names (Z.to_nat n) o) (take i ns) nms) ++ replicate (N - Z.to_nat T) empty_str).
  { intros _. rewrite Er. destruct (joined_names (take i ns) nms) as [l|] eqn:Ej.
    - by apply joined_some in Ej as ->.
    - apply fills_none in Ej; [|rewrite take_length; lia|by apply Forall_take]. rewrite Ej. fold T. rewrite <- replicate_add. f_equal. unfold N. lia. }
  assert (exists r', match spec with
      | SpecZap => Ok r
      | _ => let! outer := match xs_names with Some l => let! o := rd l i in Ok (Some o) | None => Ok None end in
            let! x_nms := apply_name_spec spec outer inner (Z.to_nat n) in
            match x_nms with
            | NoNames => Ok r
            | _ =>
                let rn := match r with Some l => l | None => replicate N empty_str end in
                let! rn := assign_base rn (SSeq T n 1) (match x_nms with Names l => l | _ => [empty_str] end) in
                Ok (Some rn)
            end
      end = Ok r') as [r' Er'].
  { destruct (Hall i _ _ n Hx Hn E0) as [->|(xn & Ea & Hxn)]; [by eexists|].
    assert (Eout : match xs_names with Some l => let! o := rd l i in Ok (Some o) | None => Ok None end = Ok (outer_at xs_names i)).
    { unfold outer_at. destruct xs_names as [l|]; [|done]. simpl in Hnm. destruct (lookup_lt_is_Some_2 l i) as [y Hy]; [lia|].
      rewrite (proj2 (rd_Ok _ _ _) Hy). cbn [bind]. unfold rstr in *. by rewrite Hy. }
    destruct (match spec with SpecZap => true | _ => false end) eqn:Ez; [destruct spec; try done; by eexists|].
    assert (Hz : spec <> SpecZap) by by intros ->.
    assert (HH : forall A (a b : A), match spec with SpecZap => a | _ => b end = b) by (by intros; destruct spec). rewrite HH, Eout. cbn [bind]. rewrite Ea. cbn [bind].
    rewrite (Ebase Hz). destruct xn as [| |l]; [by eexists| |].
    - cbv zeta. rewrite assign_fresh; [by eexists|lia|simpl; lia|simpl; unfold N; lia].
    - cbv zeta. rewrite assign_fresh; [by eexists|lia|lia|unfold N; lia]. }
  match goal with |- exists _, bind ?m _ = _ => assert (Em : m = Ok r') by exact Er'; rewrite Em; clear Em end. cbn [bind]. destruct index as [idx|]; [|by eexists]. destruct (lookup_lt_is_Some_2 idx i) as [ix Hix]; [lia|].
  assert (Hsl : length (spread (take i ns) (take i idx)) = Z.to_nat T) by (apply spread_length; [rewrite !take_length; lia|by apply Forall_take]).
  pose proof (r_vec_fill_spec (spread (take i ns) (take i idx)) blank (N - Z.to_nat T) idx i ix (Z.to_nat n) Hix ltac:(unfold N; lia)) as Ef.
  rewrite Hsl, Z2Nat.id in Ef by lia. rewrite Et, Ef. by eexists.
Qed.
End loop.

(** ** Inputs as data frames *)
Lemma is_unspecified_spec v : is_unspecified v = true <-> unspecified v.
Proof.
  destruct v as [t data names|t dim data|n names cols]; [|done..]. unfold is_unspecified, unspecified. destruct t; try done. unfold vec_is_unspecified.
  destruct data as [|e data]; [simpl; split; [done|by intros [? _]]|]. cbn [map].
  transitivity (Forall (fun e => e = ELgl NA_LOGICAL) (e :: data)).
  - change (lgl_of e :: map lgl_of data) with (map lgl_of (e :: data)). generalize (e :: data). intros l. clear.
    induction l as [|x l IH]; simpl; [split; [constructor|done]|]. rewrite andb_true_iff, Forall_cons, IH.
    assert ((lgl_of x =? NA_LOGICAL)%Z = true <-> x = ELgl NA_LOGICAL) as ->; [|done]. rewrite Z.eqb_eq. destruct x; simpl; split; try done; congruence.
  - split; [done|by intros [_ ?]].
Qed.
Lemma chop_elements t data : value_ok (VVec t data None) -> vec_chop_unsafe (VVec t data None) CNone = Ok (map (fun e => VVec t [e] None) data).
Proof.
  intros H. pose proof (value_size_range _ H) as Hr. rewrite vec_chop_unsafe_spec; [|done|].
  - f_equal. unfold chop_subs. simpl. rewrite Nat2Z.id, map_map. apply list_eq. intros i. rewrite !list_lookup_fmap.
    destruct (decide (i < length data)) as [Hi|Hi].
    + rewrite lookup_seq_lt by done. destruct (lookup_lt_is_Some_2 data i Hi) as [e He]. rewrite He. simpl. f_equal. f_equal. f_equal.
      unfold pick. destruct (Z.eqb_spec (Z.of_nat i + 1) NA_INTEGER) as [E|_]; [exfalso; unfold NA_INTEGER, INT_MIN in E; lia|].
      replace (Z.to_nat (Z.of_nat i + 1 - 1)) with i by lia. by apply nth_lookup_Some.
    + rewrite (proj2 (lookup_ge_None _ _)) by (rewrite seq_length; lia). by rewrite (proj2 (lookup_ge_None data _)) by lia.
  - split; [done|]. unfold chop_subs. apply Forall_map, Forall_forall. intros k Hk. apply elem_of_list_In, in_seq in Hk. split; [|done].
    split; [|done]. simpl in *. apply Forall_cons. split; [right; lia|constructor].
Qed.
Lemma as_df_row_spec addr r x y : match x with Some v => value_ok v.1 | None => True end ->
  as_df_row addr r x = Ok y <-> row_form (fun a b => vec_as_names addr r a = Ok b) x y.
Proof.
  intros Hx. destruct x as [[v rn]|]; [|simpl; split; [intros [= <-]; constructor|by inversion 1]].
  unfold as_df_row. cbn [fst snd] in *. destruct (is_unspecified v && _) eqn:Eu.
  - apply andb_true_iff in Eu as [Eu Ev]. apply is_unspecified_spec in Eu. destruct v as [t data names| |]; try done. destruct names; [done|].
    destruct t; try done. split; [intros [= <-]; by constructor|]. inversion 1; subst; [done|]. exfalso. tauto.
  - assert (Hc : forall t data names names', value_ok (VVec t data None) -> vec_as_names addr r names = Ok names' ->
        (let! nm := vec_as_names addr r names in let! cols := vec_chop_unsafe (VVec t data None) CNone in Ok (VDf 1 nm cols, @None (list rstr))) =
          Ok (VDf 1 names' (map (fun e => VVec t [e] None) data), None)).
    { intros t data names names' Hv ->. cbn [bind]. by rewrite chop_elements. }
    assert (Hc' : forall t data names z, value_ok (VVec t data None) ->
        (let! nm := vec_as_names addr r names in let! cols := vec_chop_unsafe (VVec t data None) CNone in Ok (VDf 1 nm cols, @None (list rstr))) = Ok z ->
        exists names', vec_as_names addr r names = Ok names' /\ z = (VDf 1 names' (map (fun e => VVec t [e] None) data), None)).
    { intros t data names z Hv. destruct (vec_as_names addr r names) as [nm| |]; cbn [bind]; try done. rewrite chop_elements by done. intros [= <-]. eauto. }
    unfold as_df_row_impl. cbn [fst snd]. destruct v as [t data names|t dim data|n names cols].
    + assert (Hv : value_ok (VVec t data None)) by (inversion Hx; subst; by constructor). split.
      * intros E. match type of E with bind ?m _ = _ => destruct m as [z| |] eqn:Ez; cbn [bind] in E; try done end. injection E as <-.
        apply Hc' in Ez as (names' & En & ->); [|done]. apply rf_vector; [|done]. intros [-> Hun]. apply is_unspecified_spec in Hun. by rewrite Hun in Eu.
      * inversion 1; subst.
        -- exfalso. match goal with H : unspecified _ |- _ => apply is_unspecified_spec in H; by rewrite H in Eu end.
        -- erewrite Hc by done. done.
    + assert (Hd : dim <> []) by (inversion Hx as [|? ? ? _ Hd|]; subst; by destruct Hd). destruct dim as [|d [|n [|]]]; [done| | |].
      * assert (Hv : value_ok (VVec t data None)).
        { pose proof (value_size_range _ Hx) as Hr. cbn [value_size] in Hr. inversion Hx as [|? ? ? Hf _ Hl|]; subst. cbn [zprod] in Hl. constructor; [done|done|].
          unfold zprod in Hl. simpl in Hl. lia. }
        split.
        -- intros E. match type of E with bind ?m _ = _ => destruct m as [z| |] eqn:Ez; cbn [bind] in E; try done end. injection E as <-.
           apply Hc' in Ez as (names' & En & ->); [|done]. by constructor.
        -- inversion 1; subst. erewrite Hc by done. done.
      * pose proof (proj1 (mat_cols_columns t [d; n] data ltac:(done) ltac:(simpl; lia))) as Em. split.
        -- intros E. destruct (vec_as_names addr r (replicate (Z.to_nat n) empty_str)) as [nm| |] eqn:En; cbn [bind] in E; try done. injection E as <-.
           fold (chunk (A := elt)). change (map _ (seq 0 (Z.to_nat n))) with (mat_cols t [d; n] data). rewrite <- Em. by constructor.
        -- inversion 1; subst. match goal with H : vec_as_names _ _ _ = Ok _ |- _ => rewrite H end. cbn [bind]. by rewrite <- Em.
      * split; [done|]. inversion 1.
    + split.
      * intros E. destruct (vec_as_names addr r names) as [nm| |] eqn:En; cbn [bind] in E; try done. injection E as <-. by constructor.
      * inversion 1; subst. match goal with H : vec_as_names _ _ _ = Ok _ |- _ => rewrite H end. done.
Qed.
