(** * Properties: names of combined vectors (C51) *)
From Verif Require Import Base M_Double M_Scalar M_Object M_Proxy M_Growable M_Slice Spec_Slice M_Rep Spec_Rep M_Subscript M_Chop Spec_Chop
  L_Dbl L_Slice L_SliceArray L_Assign L_Value L_SliceVal L_Rep L_Recycle L_Chop L_Chop2 L_Chop3 P_Chop P_Rep
  M_Names Spec_Names L_Names2 P_Names M_Shape M_Factor M_Ptype P_Ptype M_Bind Spec_Bind L_Bind L_Bind2 L_Bind3 P_Bind
  M_Combine Spec_Combine.
From Coq Require Import Lia ZifyBool ZifyNat.
#[local] Arguments Z.mul : simpl never.
#[local] Arguments Z.add : simpl never.
#[local] Arguments Z.sub : simpl never.
#[local] Arguments Z.to_nat : simpl never.
#[local] Arguments Z.of_nat : simpl never.

(** ** One input *)
Lemma not_zap spec : is_zap spec = false -> spec <> SpecZap. Proof. by destruct spec. Qed.
Lemma apply_named spec outer inner n o : is_zap spec = false -> (forall l, inner = Some l -> length l = n) -> named_by spec outer inner n o ->
  exists xn, apply_name_spec spec outer inner n = Ok xn /\
    match xn with NoNames => o = None | ChrsEmpty => o = Some (replicate n empty_str) | Names l => o = Some l /\ length l = n end.
Proof.
  intros Hz Hin H. unfold named_by in H. unfold apply_name_spec.
  assert (HH : forall A (a b : A), match spec with SpecZap => a | _ => b end = b) by (by intros; destruct spec). rewrite HH.
  destruct (Nat.eqb_spec n 0) as [->|Hn].
  - assert (Ho : o = match outer with None => inner | Some _ => Some [] end) by (destruct spec; done). subst o.
    destruct outer as [o|].
    2:{ destruct inner as [l|]; eexists; (split; [done|]); [|done]. split; [done|]. by apply Hin. }
    destruct (_ || _).
    + destruct inner as [l|]; eexists; (split; [done|]); [|done]. specialize (Hin l eq_refl). by destruct l.
    + destruct (empty_spec inner) as (b & -> & Hb). cbn [bind]. assert (b = true) as ->.
      { apply Hb. destruct inner as [l|]; [|done]. specialize (Hin l eq_refl). destruct l; [|done]. constructor. }
      cbn. by exists (Names []).
  - destruct H as [H Hl]. inversion H as [? Hs|Hs|o1 Hs Hb|o1 Hs Hb Hbl Hn1|f o1 arg out Hs Hb Hnb Ha1 Ha2 Hf Hlen|f o1 arg Hs Hb Hnb Ha1 Ha2 Hf]; subst outer o; try (by subst spec).
    + destruct inner as [l|]; simpl; eexists; (split; [done|]); [|done]. split; [done|by apply Hin].
    + apply blank_spec in Hb. rewrite Hb. destruct inner as [l|]; eexists; (split; [done|]); [|done]. split; [done|by apply Hin].
    + assert ((str_ptr_eqb o1 empty_str || str_ptr_eqb o1 None) = false) as -> by (apply not_true_iff_false; by rewrite blank_spec).
      destruct (empty_spec inner) as (b & -> & Hbs). cbn [bind]. assert (b = true) as -> by by apply Hbs. rewrite Hn1. cbn. by eexists.
    + assert ((str_ptr_eqb o1 empty_str || str_ptr_eqb o1 None) = false) as -> by (apply not_true_iff_false; by rewrite blank_spec).
      destruct (empty_spec inner) as (b & -> & Hbs). cbn [bind]. destruct (Nat.eqb_spec n 0); [done|]. rewrite andb_false_r.
      destruct (b && (n =? 1)) eqn:E1.
      { apply andb_true_iff in E1 as [E1 E2]. destruct Hnb. split; [by apply Hbs|by apply Nat.eqb_eq]. }
      assert ((match inner with Some l => if b then inl n else inr l | None => inl n end) = arg) as Ea.
      { destruct b; [rewrite Ha1 by (by apply Hbs); by destruct inner|]. destruct Ha2 as (l & -> & ->); [|done]. intros Hx. by apply Hbs in Hx. }
      subst spec. rewrite Ea, Hf. cbn [bind]. unfold recycle_names. destruct (Nat.eqb_spec (length out) n) as [El|El].
      * eexists. split; [done|]. split; [|done]. destruct out as [|s [|]]; try done. by subst n.
      * destruct out as [|s [|]]; simpl in Hlen, El; [lia| |lia]. eexists. split; [done|]. split; [done|]. apply replicate_length.
    + assert ((str_ptr_eqb o1 empty_str || str_ptr_eqb o1 None) = false) as -> by (apply not_true_iff_false; by rewrite blank_spec).
      destruct (empty_spec inner) as (b & -> & Hbs). cbn [bind]. destruct (Nat.eqb_spec n 0); [done|]. rewrite andb_false_r.
      destruct (b && (n =? 1)) eqn:E1.
      { apply andb_true_iff in E1 as [E1 E2]. destruct Hnb. split; [by apply Hbs|by apply Nat.eqb_eq]. }
      assert ((match inner with Some l => if b then inl n else inr l | None => inl n end) = arg) as Ea.
      { destruct b; [rewrite Ha1 by (by apply Hbs); by destruct inner|]. destruct Ha2 as (l & -> & ->); [|done]. intros Hx. by apply Hbs in Hx. }
      subst spec. rewrite Ea, Hf. cbn [bind]. by exists NoNames.
Qed.
Lemma named_zap spec outer inner n o : is_zap spec = true -> named_by spec outer inner n o -> o = None.
Proof.
  destruct spec; try done. intros _. unfold named_by. destruct (n =? 0); [done|]. intros [H _]. by inversion H.
Qed.
Lemma outer_ok xs_names p i n : names_fit n xs_names -> i < n -> outer_name xs_names p i = Ok (used_outer xs_names p i).
Proof.
  intros Hf Hi. unfold outer_name, used_outer, outer_at. destruct xs_names as [l|]; [|by destruct p]. simpl in Hf.
  destruct (lookup_lt_is_Some_2 l i) as [y Hy]; [lia|]. destruct p; simpl; try done; rewrite (proj2 (rd_Ok _ _ _) Hy); cbn [bind]; unfold rstr in *; by rewrite Hy.
Qed.
Lemma own_input x : match x with None => None | Some x => input_vec_names x end = own_names x.
Proof. destruct x as [[[] ?]|]; done. Qed.
Lemma repair_length addr r l l' : repair_fits r (Some l) -> vec_as_names addr r l = Ok l' -> length l' = length l.
Proof.
  destruct r as [| | |f]; simpl; intros H.
  - by intros [= <-].
  - rewrite C34_minimal. intros [= <-]. apply map_length.
  - destruct (C34_unique addr l H) as (out & -> & Hl & _). by intros [= <-].
  - apply H.
Qed.

(** ** The loop of vec_c() *)
Section c.
Context (addr : rstr -> Z) (cast : value -> res value) (spec : name_spec) (r : repair).
Definition old_body (xs : list (option value)) (sizes : list Z) (out_size : nat) (i : nat) (st : value * option (list rstr) * Z)
    : res (value * option (list rstr) * Z) :=
  let '(out, out_names, counter) := st in
  let! x := rd xs i in
  let! size := rd sizes i in
  let loc := SSeq counter size 1 in
  let! out_names :=
    match x with
    | None => Ok out_names
    | Some v =>
        match vec_names v with
        | None => Ok out_names
        | Some nms =>
            let o := match out_names with None => replicate out_size empty_str | Some o => o end in
            let! o := assign_base o loc nms in
            Ok (Some o)
        end
    end in
  if (size =? 0)%Z then Ok (out, out_names, counter)
  else
    match x with
    | None => Err "unreachable"
    | Some v =>
        let! v := cast v in
        let! out := vec_proxy_assign_opts true out loc v in
        Ok (out, out_names, counter + size)%Z
    end.
Definition new_body (p : value) (xs : list (option rowed)) (xs_names : option (list rstr)) (sizes : list Z) (out_size : nat) (i : nat) (st : value * option (list rstr) * Z)
    : res (value * option (list rstr) * Z) :=
  let '(out, out_names, counter) := st in
  let! x := rd xs i in
  let! size := rd sizes i in
  let loc := SSeq counter size 1 in
  let! outer := outer_name xs_names p i in
  let inner := match x with None => None | Some x => input_vec_names x end in
  let! out_names := combine_names spec out_size loc outer inner (Z.to_nat size) out_names in
  if (size =? 0)%Z then Ok (out, out_names, counter)
  else
    match x with
    | None => Err "unreachable"
    | Some v =>
        let! v := cast v.1 in
        let! out := vec_proxy_assign_opts true out loc v in
        Ok (out, out_names, counter + size)%Z
    end.
Lemma vec_c_old p xs : vec_c cast (Some p) xs =
  let sizes := sizes0 xs in
  let out_size := fold_left Z.add sizes 0%Z in
  let! out := vec_init p out_size in
  let! (out, out_names, _) := for_ 0 (length xs) (old_body xs sizes (Z.to_nat out_size)) (out, None, 0%Z) in
  Ok (Some (finish_names out out_names)).
Proof. reflexivity. Qed.
Lemma vec_c_new p xs xs_names : vec_c_named addr cast spec r (Some p) xs xs_names =
  let sizes := rsizes xs in
  let out_size := fold_left Z.add sizes 0%Z in
  let! out := vec_init p.1 out_size in
  let! rn := init_rownames addr p.2 out_size in
  let! (out, out_names, _) := for_ 0 (length xs) (new_body p.1 xs xs_names sizes (Z.to_nat out_size)) (out, None, 0%Z) in
  let! out := combine_finish addr spec r out rn out_names in
  Ok (Some out).
Proof. reflexivity. Qed.
Lemma rsizes_vals xs : rsizes xs = sizes0 (vals xs).
Proof. unfold rsizes, sizes0, vals. rewrite map_map. apply map_ext. by intros [[]|]. Qed.

(** The names after some inputs: those so far, and empty names. *)
Definition so_far (N : nat) (ns : list Z) (nms : list (option (list rstr))) : option (list rstr) :=
  match joined_names ns nms with None => None | Some l => Some (l ++ replicate (N - Z.to_nat (total ns)) empty_str) end.
Lemma so_far_base N ns nms : length ns = length nms -> Forall (fun n => 0 <= n)%Z ns -> (total ns <= Z.of_nat N)%Z ->
  match so_far N ns nms with None => replicate N empty_str | Some o => o end =
  concat (zip_with (fun n o => fill_names (Z.to_nat n) o) ns nms) ++ replicate (N - Z.to_nat (total ns)) empty_str.
Proof.
  intros Hl Hn Ht. unfold so_far. destruct (joined_names ns nms) as [l|] eqn:E.
  - by apply joined_some in E as ->.
  - apply fills_none in E; [|done|done]. rewrite E, <- replicate_add. f_equal. pose proof (total_pos _ Hn). lia.
Qed.
Lemma combine_so_far N ns nms n outer inner o :
  length ns = length nms -> Forall (fun n => 0 <= n)%Z ns -> (0 <= n)%Z -> (total ns + n <= Z.of_nat N)%Z ->
  (forall j n o, ns !! j = Some n -> nms !! j = Some o -> length (fill_names (Z.to_nat n) o) = Z.to_nat n) ->
  (forall l, inner = Some l -> length l = Z.to_nat n) -> named_by spec outer inner (Z.to_nat n) o ->
  combine_names spec N (SSeq (total ns) n 1) outer inner (Z.to_nat n) (so_far N ns nms) = Ok (so_far N (ns ++ [n]) (nms ++ [o])).
Proof.
  intros Hl Hns Hn Ht HF Hin Hb. pose proof (total_pos _ Hns) as Hp.
  assert (Hnone : o = None -> so_far N ns nms = so_far N (ns ++ [n]) (nms ++ [o])).
  { intros ->. unfold so_far. rewrite joined_snoc by done. destruct (joined_names ns nms) as [l|]; [|done].
    rewrite total_snoc, <- app_assoc, <- replicate_add. do 3 f_equal. lia. }
  unfold combine_names. destruct (is_zap spec) eqn:Hz.
  - rewrite (named_zap _ _ _ _ _ Hz Hb) in *. f_equal. by apply Hnone.
  - destruct (apply_named _ _ _ _ _ Hz Hin Hb) as (xn & -> & Hx). cbn [bind].
    pose proof (so_far_base N ns nms Hl Hns ltac:(lia)) as Hbase.
    destruct xn as [| |l].
    + f_equal. by apply Hnone.
    + cbv zeta. do 2 f_equal. rewrite Hx. unfold so_far at 2. rewrite joined_snoc by done. cbv iota beta. f_equal. rewrite Hbase, total_snoc, <- app_assoc, <- replicate_add.
      do 2 f_equal. lia.
    + destruct Hx as [-> Hll]. cbv zeta. unfold so_far at 2. rewrite joined_snoc by done. cbv iota beta.
      refine (eq_trans (f_equal (fun b => let! o := assign_base b _ l in Ok (Some o)) Hbase) _).
      rewrite assign_fresh; [cbn [bind]; rewrite total_snoc; do 4 f_equal; lia| |lia|lia].
      rewrite fills_length by done. lia.
Qed.

Lemma input_fits x l : rowed_ok x -> own_names x = Some l -> length l = Z.to_nat (match x with None => 0%Z | Some v => value_size v.1 end).
Proof.
  destruct x as [[v rn]|]; [|done]. intros [Hv Hr]. destruct v as [t d nm|t dim d|n nm cols]; simpl; try done.
  - intros ->. inversion Hv; subst. lia.
  - intros ->. destruct Hr as [Hr _]. unfold rstr in *. simpl in Hr. lia.
Qed.
Lemma named_length outer inner n o : (forall l, inner = Some l -> length l = n) -> named_by spec outer inner n o -> length (fill_names n o) = n.
Proof.
  intros Hin. unfold named_by. destruct (Nat.eqb_spec n 0) as [->|]; [|by intros [_ ?]]. intros ->. destruct spec, outer, inner as [l|]; simpl; try done; by apply Hin.
Qed.
Lemma new_loop p xs xs_names nms out0 o nm c : names_fit (length xs) xs_names -> Forall rowed_ok xs -> names_for spec p xs xs_names nms ->
  let ns := rsizes xs in let N := Z.to_nat (total ns) in
  for_ 0 (length xs) (old_body (vals xs) ns N) (out0, None, 0%Z) = Ok (o, nm, c) ->
  for_ 0 (length xs) (new_body p xs xs_names ns N) (out0, None, 0%Z) = Ok (o, so_far N ns nms, c).
Proof.
  intros Hf Hr [Hl Hnm] ns N Hold. assert (Hnl : length ns = length xs) by apply map_length.
  assert (Hn0 : Forall (fun n => 0 <= n)%Z ns).
  { apply Forall_map. eapply Forall_impl; [apply Hr|]. intros [[v rn]|]; [|lia]. intros [Hv _]. by apply value_size_range in Hv as [? _]. }
  edestruct (for_inv (fun i (st : value * option (list rstr) * Z) => exists nmo, for_ 0 i (old_body (vals xs) ns N) (out0, None, 0%Z) = Ok (st.1.1, nmo, st.2) /\
    st.1.2 = so_far N (take i ns) (take i nms) /\ st.2 = total (take i ns)) 0 (length xs) (new_body p xs xs_names ns N) (out0, None, 0%Z)) as ([[o' nm'] c'] & E & (nmo & E1 & E2 & E3)).
  - exists None. cbn [fst snd]. rewrite !take_0. done.
  - intros i [[oi ni] ci] Hi (nmo & E1 & E2 & E3). rewrite Nat.add_0_l in Hi. cbn [fst snd] in *. subst ni ci.
    destruct (lookup_lt_is_Some_2 xs i) as [x Hx]; [lia|]. destruct (lookup_lt_is_Some_2 ns i) as [n Hn]; [lia|]. destruct (lookup_lt_is_Some_2 nms i) as [no Hno]; [lia|].
    pose proof (total_take_all ns i n Hn0 Hn) as [Ht0 Ht1]. assert (Hpos : (0 <= n)%Z) by (rewrite Forall_lookup in Hn0; by eapply Hn0).
    destruct (for_step_ok _ _ _ _ Hold i ltac:(lia)) as (st & u & F1 & F2). rewrite E1 in F1. injection F1 as <-.
    assert (Hvx : vals xs !! i = Some (option_map fst x)) by (unfold vals; rewrite list_lookup_fmap; exact (f_equal (fmap (option_map fst)) Hx)).
    assert (Hsz : n = match x with None => 0%Z | Some v => value_size v.1 end).
    { unfold ns, rsizes in Hn. rewrite list_lookup_fmap in Hn. pose proof (f_equal (fmap (fun x : option rowed => match x with None => 0%Z | Some v => value_size v.1 end)) Hx) as Hx'. rewrite Hx' in Hn. by injection Hn. }
    rewrite Forall_lookup in Hr. assert (Hfit : forall l, own_names x = Some l -> length l = Z.to_nat n) by (intros l Hl'; rewrite Hsz; apply input_fits; [by eapply Hr|done]).
    unfold new_body. rewrite (proj2 (rd_Ok _ _ _) Hx). cbn [bind]. rewrite (proj2 (rd_Ok _ _ _) Hn). cbn [bind]. rewrite (outer_ok _ _ _ _ Hf) by lia. cbn [bind].
    cbv zeta. rewrite own_input. rewrite (combine_so_far N (take i ns) (take i nms) n _ _ no); try done; [|rewrite !take_length; lia|by apply Forall_take|unfold N; lia| |by eapply Hnm].
    2:{ intros j m q Hj Hq. assert (j < i) by (apply lookup_lt_Some in Hj; rewrite take_length in Hj; lia). rewrite lookup_take in Hj by done.
        assert (Hq' : nms !! j = Some q) by exact (eq_trans (eq_sym (lookup_take nms i j ltac:(done))) Hq).
        destruct (lookup_lt_is_Some_2 xs j) as [y Hy]; [lia|]. eapply named_length; [|by eapply Hnm]. intros l Hl'.
        assert (m = match y with None => 0%Z | Some v => value_size v.1 end) as ->.
        { unfold ns, rsizes in Hj. rewrite list_lookup_fmap in Hj. pose proof (f_equal (fmap (fun x : option rowed => match x with None => 0%Z | Some v => value_size v.1 end)) Hy) as Hy'. rewrite Hy' in Hj. by injection Hj. }
        apply input_fits; [by eapply Hr|done]. }
    cbn [bind]. rewrite (take_S_r _ _ _ Hn), (take_S_r _ _ _ Hno), total_snoc.
    assert (Hstep : for_ 0 (S i) (old_body (vals xs) ns N) (out0, None, 0%Z) = Ok u) by (rewrite for_snoc, E1; exact F2).
    unfold old_body in F2. rewrite (proj2 (rd_Ok _ _ _) Hvx) in F2. cbn [bind] in F2. rewrite (proj2 (rd_Ok _ _ _) Hn) in F2. cbn [bind] in F2.
    match type of F2 with bind ?m _ = _ => destruct m as [nmu| |]; cbn [bind] in F2; try done end.
    destruct (Z.eqb_spec n 0) as [Hz|Hz].
    + injection F2 as <-. eexists. split; [done|]. cbn [fst snd]. exists nmu. split; [exact Hstep|]. split; [done|]. lia.
    + destruct x as [[v rn]|]; cbn [option_map fst] in F2; [|done]. cbn [fst]. destruct (cast v) as [w| |]; cbn [bind] in F2 |- *; try done.
      destruct (vec_proxy_assign_opts true oi _ w) as [oi'| |]; cbn [bind] in F2 |- *; try done. injection F2 as <-. eexists. split; [done|]. cbn [fst snd].
      exists nmu. split; [exact Hstep|]. split; done.
  - rewrite E. rewrite Nat.add_0_l in *. cbn [fst snd] in *. rewrite Hold in E1. injection E1 as -> -> ->. by rewrite E2, !take_ge by lia.
Qed.
Lemma assign_true_names out s v w : vec_proxy_assign_opts true out s v = Ok w -> top_names w = top_names out.
Proof.
  destruct out as [t data nm|t dim data|n names cols], v as [t' data' nm'|t' dim' data'|n' names' cols']; simpl; try done; try (by destruct (negb _)).
  - destruct (negb _); [done|]. destruct (assign_base _ _ _); cbn [bind]; try done. by intros [= <-].
  - destruct (negb _); [done|]. destruct (assign_shaped _ _ _ _); cbn [bind]; try done. by intros [= <-].
  - repeat match goal with |- (if ?b then _ else _) = _ -> _ => destruct b; [done|] end. destruct ((fix go (cols vcols : list value) : res (list value) := _) cols cols'); cbn [bind]; try done. by intros [= <-].
Qed.
Lemma old_loop_names xs ns N out0 o nm c : for_ 0 (length xs) (old_body xs ns N) (out0, None, 0%Z) = Ok (o, nm, c) -> top_names o = top_names out0.
Proof.
  intros H. apply (for_ok_inv (fun _ (st : value * option (list rstr) * Z) => top_names st.1.1 = top_names out0)) in H; [done|done|].
  intros i [[oi ni] ci] t Hi Ht. unfold old_body. destruct (rd xs i) as [x| |]; cbn [bind]; try done. destruct (rd ns i) as [n| |]; cbn [bind]; try done.
  match goal with |- bind ?m _ = _ -> _ => destruct m as [nmu| |]; cbn [bind]; try done end. destruct (n =? 0)%Z; [by intros [= <-]|].
  destruct x as [v|]; [|done]. destruct (cast v) as [w| |]; cbn [bind]; try done. destruct (vec_proxy_assign_opts true oi _ w) as [oi'| |] eqn:E; cbn [bind]; try done.
  intros [= <-]. cbn [fst snd] in *. by rewrite (assign_true_names _ _ _ _ E).
Qed.
Lemma init_no_names p n w : top_names p = None -> vec_init p n = Ok w -> top_names w = None.
Proof.
  intros Hp. unfold vec_init. destruct (n <? 0)%Z; [done|]. destruct (INT_MAX <? n)%Z; [done|]. destruct (compact_rep _ _) as [s| |]; cbn [bind]; try done.
  destruct p as [t data nm|t dim data|m names cols]; simpl in *.
  - subst nm. destruct (slice_base _ _ _); cbn [bind]; try done. by intros [= <-].
  - destruct (slice_shaped _ _ _ _) as [?| |]; cbn [bind]; try done. by intros [= <-].
  - match goal with |- bind ?m _ = _ -> _ => destruct m as [?| |]; cbn [bind]; try done end. by intros [= <-].
Qed.
Lemma strip_self v : top_names v = None -> strip v = v.
Proof. destruct v; simpl; by try intros ->. Qed.
Lemma strip_finish v nm : strip (finish_names v nm) = strip v.
Proof. destruct nm, v; done. Qed.
End c.

Lemma sliced_vec i t d nm u : sliced [i] (VVec t d nm) u -> u = VVec t [pick (vtype_na t) d i] (match nm with None => None | Some n => Some [pick empty_str n i] end).
Proof. inversion 1; subst. by destruct nm. Qed.
Lemma same_row_strip a i b j : same_row (full a) i (full b) j -> same_row (full (strip a)) i (full (strip b)) j.
Proof.
  intros (u & Ha & Hb). destruct a as [t d nm|t dim d|n nm cols], b as [t' d' nm'|t' dim' d'|n' nm' cols']; simpl in *; try (by exists u); try (by inversion Ha; inversion Hb; subst; congruence).
  apply sliced_vec in Ha, Hb. rewrite Ha in Hb. injection Hb as <- E _. exists (VVec t [pick (vtype_na t) d i] (Some [empty_str])). split.
  - apply (sl_vec [i] t d). simpl. by rewrite pick_blank.
  - rewrite E. apply (sl_vec [j] t d'). simpl. by rewrite pick_blank.
Qed.
Lemma finish_result addr spec r out names : top_names out = None -> repair_fits r names -> (is_zap spec = true -> names = None) ->
  (forall l, names = Some l -> Z.of_nat (length l) = value_size out) ->
  (let! x := combine_finish addr spec r out None names in Ok (Some x)) = name_result addr r out names.
Proof.
  intros Ht Hr Hz Hl. unfold combine_finish, name_result. cbn [restore_rownames bind]. destruct names as [l|].
  - destruct (vec_as_names addr r l) as [l'| |] eqn:E; cbn [bind]; try done. pose proof (repair_length _ _ _ _ Hr E) as Hl'.
    rewrite Hl', (Hl l), Z.eqb_refl by done. cbn [negb]. destruct out; try done. by destruct (vec_as_unique_names addr l').
  - destruct (is_zap spec); [|done]. destruct out; simpl in *; try done. by subst.
Qed.
Lemma joined_none_zap spec ns nms p xs xs_names : is_zap spec = true -> names_for spec p xs xs_names nms -> length ns = length nms -> joined_names ns nms = None.
Proof.
  intros Hz [Hl H] _. unfold joined_names. assert (forallb (fun o : option (list rstr) => match o with None => true | Some _ => false end) nms = true) as ->; [|done].
  apply forallb_forall. intros o Ho. apply elem_of_list_In, elem_of_list_lookup in Ho as [i Hi]. pose proof (lookup_lt_Some _ _ _ Hi).
  destruct (lookup_lt_is_Some_2 xs i) as [x Hx]; [lia|]. destruct (lookup_lt_is_Some_2 (rsizes xs) i) as [n Hn]; [unfold rsizes; rewrite map_length; lia|].
  by rewrite (named_zap _ _ _ _ _ Hz (H i x n o Hx Hn Hi)).
Qed.

(** [vec_c()] puts the inputs one after the other; the names are those of the
    inputs, made from outer and inner names, one after the other. *)
Theorem C51_c addr cast spec r p xs xs_names nms : value_ok p -> top_names p = None ->
  (total (rsizes xs) <= INT_MAX)%Z -> shape_fits (total (rsizes xs)) p ->
  Forall (c_ok cast p) (vals xs) -> Forall rowed_ok xs -> names_fit (length xs) xs_names ->
  names_for spec p xs xs_names nms -> repair_fits r (joined_names (rsizes xs) nms) ->
  exists out, value_ok out /\ proto_of p out /\ value_size out = total (rsizes xs) /\ top_names out = None /\
    (forall i v w k, vals xs !! i = Some (Some v) -> cast v = Ok w -> (1 <= k <= value_size v)%Z ->
       same_row (full out) (total (take i (rsizes xs)) + k) (full (with_names None w)) k) /\
    vec_c_named addr cast spec r (Some (p, None)) xs xs_names = name_result addr r out (joined_names (rsizes xs) nms).
Proof.
  intros Hp Htp HN Hf Hc Hr Hn Hnm Hrep. rewrite rsizes_vals in HN, Hf.
  destruct (C25_c cast p (vals xs) Hp HN Hf Hc) as (out & E & V1 & V2 & V3 & V4). rewrite vec_c_old in E. cbv zeta in E. rewrite vec_c_new. cbv zeta. cbn [fst snd].
  rewrite <- rsizes_vals in *. assert (Ef : fold_left Z.add (rsizes xs) 0%Z = total (rsizes xs)) by (rewrite is_fold_total; lia). rewrite Ef in *.
  destruct (vec_init p (total (rsizes xs))) as [o0| |] eqn:Ei; cbn [bind] in E |- *; try done.
  replace (length (vals xs)) with (length xs) in E by (symmetry; apply map_length). destruct (for_ 0 (length xs) (old_body cast (vals xs) (rsizes xs) (Z.to_nat (total (rsizes xs)))) (o0, None, 0%Z)) as [[[o nm] c]| |] eqn:El; cbn [bind] in E; try done.
  injection E as <-. pose proof (new_loop cast spec p xs xs_names nms o0 o nm c Hn Hr Hnm El) as En.
  assert (Hto : top_names o = None).
  { pose proof (init_no_names _ _ _ Htp Ei) as Ht. replace (length xs) with (length (vals xs)) in El by apply map_length. by rewrite (old_loop_names cast _ _ _ _ _ _ _ El). }
  assert (Eo : strip (finish_names o nm) = o) by (by rewrite strip_finish, strip_self).
  exists o. rewrite <- Eo at 1. split; [by apply strip_ok|]. split; [rewrite <- Eo; by apply proto_with_names|]. split; [rewrite <- Eo; unfold strip; by rewrite with_names_size|]. split; [done|]. split.
  - intros i v w k Hx Hw Hk. rewrite <- Eo. pose proof (same_row_strip _ _ _ _ (V4 i v w k Hx Hw Hk)) as Q. by destruct w.
  - cbn [init_rownames bind]. rewrite En. cbn [bind]. destruct Hnm as [Hnl Hnm].
    assert (Hn0 : Forall (fun n => 0 <= n)%Z (rsizes xs)).
    { apply Forall_map. eapply Forall_impl; [apply Hr|]. intros [[v rn]|]; [|lia]. intros [Hv _]. by apply value_size_range in Hv as [? _]. }
    assert (Hlen : length (rsizes xs) = length nms) by (unfold rsizes; rewrite map_length; lia).
    assert (Es : so_far (Z.to_nat (total (rsizes xs))) (rsizes xs) nms = joined_names (rsizes xs) nms).
    { unfold so_far. destruct (joined_names _ _) as [l|]; [|done]. rewrite Nat.sub_diag. simpl. by rewrite app_nil_r. }
    rewrite Es. apply finish_result; [done|done|intros Hz; by eapply joined_none_zap|].
    intros l Hl. apply joined_some in Hl as ->. rewrite fills_length; [|done|done|].
    + rewrite <- Eo. unfold strip. rewrite with_names_size, V3. pose proof (total_pos _ Hn0). lia.
    + intros j n o' Hj Ho. destruct (lookup_lt_is_Some_2 xs j) as [x Hx]; [rewrite <- Hnl; by eapply lookup_lt_Some|]. eapply named_length; [|by eapply Hnm]. intros l Hl.
      assert (n = match x with None => 0%Z | Some v => value_size v.1 end) as ->.
      { unfold rsizes in Hj. rewrite list_lookup_fmap in Hj. pose proof (f_equal (fmap (fun x : option rowed => match x with None => 0%Z | Some v => value_size v.1 end)) Hx) as Hy'. rewrite Hy' in Hj. by injection Hj. }
      apply input_fits; [|done]. rewrite Forall_lookup in Hr. by eapply Hr.
Qed.

(** ** The loop of list_unchop() *)
Definition none_of (nms : list (option (list rstr))) : bool := forallb (fun o => match o with None => true | Some _ => false end) nms.
Definition placed_state (N : nat) (locss : list (list Z)) (nms : list (option (list rstr))) (st : option (list rstr)) : Prop :=
  match st with None => none_of nms = true | Some L => none_of nms = false /\ names_placed N locss nms L end.
Lemma none_of_snoc nms o : none_of (nms ++ [o]) = none_of nms && (match o with None => true | Some _ => false end).
Proof. unfold none_of. rewrite forallb_app. simpl. by rewrite andb_true_r. Qed.
Lemma none_of_lookup nms i nm : none_of nms = true -> nms !! i <> Some (Some nm).
Proof. intros H Hi. unfold none_of in H. rewrite forallb_forall in H. apply elem_of_list_lookup_2, elem_of_list_In in Hi. by apply H in Hi. Qed.
Lemma blank_placed N locss nms : none_of nms = true -> names_placed N locss nms (replicate N empty_str).
Proof.
  intros H. split; [apply replicate_length|]. split.
  - intros i loc nm k l _ Hn. by apply none_of_lookup in Hn.
  - intros l Hl _. apply lookup_replicate. split; [done|lia].
Qed.
Lemma snoc_lookup {A} (l : list A) (x : A) i y : (l ++ [x]) !! i = Some y -> (i < length l /\ l !! i = Some y) \/ (i = length l /\ y = x).
Proof.
  intros H. destruct (decide (i < length l)) as [Hi|Hi]; [left; by rewrite lookup_app_l in H|right].
  rewrite lookup_app_r in H by lia. destruct (i - length l) as [|j] eqn:E; [|by destruct j]. injection H as ->. split; [lia|done].
Qed.
Lemma placed_none N locss nms loc L : length locss = length nms -> names_placed N locss nms L -> names_placed N (locss ++ [loc]) (nms ++ [None]) L.
Proof.
  intros Hl (H1 & H2 & H3). split; [done|]. split.
  - intros i lo nm k l Hi Hn Hk Hna. apply snoc_lookup in Hi as [[Hi Hi']|[-> _]].
    + apply snoc_lookup in Hn as [[_ Hn]|[? _]]; [by eapply H2|lia].
    + apply snoc_lookup in Hn as [[? _]|[_ ?]]; [lia|done].
  - intros l Hr Hn. apply H3; [done|]. intros i lo nm Hi Hnm. apply (Hn i lo nm); by apply lookup_app_l_Some.
Qed.
Lemma placed_some N locss nms loc L nm : length locss = length nms -> names_placed N locss nms L -> no_overlap (locss ++ [loc]) ->
  Forall (Forall (loc_ok (Z.of_nat N))) locss -> Forall (loc_ok (Z.of_nat N)) loc -> length nm = length loc -> names_placed N (locss ++ [loc]) (nms ++ [Some nm]) (puts L loc nm).
Proof.
  intros Hl (H1 & H2 & H3) Hno Hall Hloc Hnm. destruct (puts_assigned L loc nm) as (A1 & A2 & A3); [by rewrite H1|done|].
  assert (Hlast : (locss ++ [loc]) !! length locss = Some loc) by (rewrite lookup_app_r, Nat.sub_diag by lia; done).
  assert (Hkeep : forall l, (1 <= l <= Z.of_nat N)%Z -> l ∉ loc -> puts L loc nm !! Z.to_nat (l - 1) = L !! Z.to_nat (l - 1)).
  { intros l Hr Hn. destruct (lookup_lt_is_Some_2 L (Z.to_nat (l - 1))) as [a Ha]; [unfold rstr in *; lia|]. rewrite (A2 _ a Ha); [done|].
    rewrite <- elem_of_list_In. by replace (Z.of_nat (Z.to_nat (l - 1)) + 1)%Z with l by lia. }
  split; [exact (eq_trans A1 H1)|]. split.
  - intros i lo nm' k l Hi Hn Hk Hna. pose proof Hi as Hi0. apply snoc_lookup in Hi as [[Hi Hi']|[-> ->]].
    + apply snoc_lookup in Hn as [[_ Hn]|[? _]]; [|lia].
      assert (Hnl : l ∉ loc).
      { intros Hin. apply elem_of_list_lookup in Hin as [k' Hk']. destruct (no_overlap_unique _ _ _ _ _ _ _ l Hno Hna Hi0 Hk Hlast Hk'). lia. }
      rewrite Hkeep; [by eapply H2| |done]. rewrite Forall_lookup in Hall. pose proof (Hall _ _ Hi') as Hx. rewrite Forall_lookup in Hx.
      by destruct (Hx _ _ Hk).
    + apply snoc_lookup in Hn as [[? _]|[_ Hn]]; [lia|]. injection Hn as ->.
      destruct (lookup_lt_is_Some_2 nm k) as [v Hv]; [rewrite Hnm; by eapply lookup_lt_Some|]. rewrite Hv. apply (A3 k l v Hk Hv Hna).
      intros k' Hkk Hk'. destruct (no_overlap_unique _ _ _ _ _ _ _ l Hno Hna Hi0 Hk Hi0 Hk'). lia.
  - intros l Hr Hn. assert (l ∉ loc).
    { apply (Hn (length locss) loc nm); [done|]. rewrite Hl, lookup_app_r, Nat.sub_diag by lia. done. }
    rewrite Hkeep by done. apply H3; [done|]. intros i lo nm' Hi Hnm'. apply (Hn i lo nm'); by apply lookup_app_l_Some.
Qed.

Lemma placed_blank N locss nms loc L : length locss = length nms -> names_placed N locss nms L -> no_overlap (locss ++ [loc]) ->
  Forall (loc_ok (Z.of_nat N)) loc -> names_placed N (locss ++ [loc]) (nms ++ [Some (replicate (length loc) empty_str)]) L.
Proof.
  intros Hl (H1 & H2 & H3) Hno Hloc. assert (Hlast : (locss ++ [loc]) !! length locss = Some loc) by (rewrite lookup_app_r, Nat.sub_diag by lia; done).
  split; [done|]. split.
  - intros i lo nm k l Hi Hn Hk Hna. apply snoc_lookup in Hi as [[Hi Hi']|[-> ->]].
    + apply snoc_lookup in Hn as [[_ Hn]|[? _]]; [by eapply H2|lia].
    + apply snoc_lookup in Hn as [[? _]|[_ Hn]]; [lia|]. injection Hn as ->. rewrite (proj2 (lookup_replicate (length loc) empty_str empty_str k)) by (split; [done|by eapply lookup_lt_Some]).
      apply H3.
      * rewrite Forall_lookup in Hloc. by destruct (Hloc _ _ Hk).
      * intros i lo nm Hi Hnm Hin. apply elem_of_list_lookup in Hin as [k' Hk'].
        assert (Hi' : (locss ++ [loc]) !! i = Some lo) by by apply lookup_app_l_Some.
        destruct (no_overlap_unique _ _ _ _ _ _ _ l Hno Hna Hlast Hk Hi' Hk'). apply lookup_lt_Some in Hi. lia.
  - intros l Hr Hn. apply H3; [done|]. intros i lo nm Hi Hnm. apply (Hn i lo nm); by apply lookup_app_l_Some.
Qed.
Lemma combine_placed spec N locss nms st loc outer inner o : length locss = length nms -> placed_state N locss nms st -> no_overlap (locss ++ [loc]) ->
  Forall (Forall (loc_ok (Z.of_nat N))) locss -> Forall (loc_ok (Z.of_nat N)) loc ->
  (forall l, inner = Some l -> length l = length loc) -> named_by spec outer inner (length loc) o ->
  exists st', combine_names spec N (SLoc loc) outer inner (length loc) st = Ok st' /\ placed_state N (locss ++ [loc]) (nms ++ [o]) st'.
Proof.
  intros Hl Hst Hno Hall Hloc Hin Hb.
  assert (Hnone : o = None -> placed_state N (locss ++ [loc]) (nms ++ [o]) st).
  { intros ->. unfold placed_state in *. rewrite none_of_snoc, andb_true_r. destruct st; [|done]. destruct Hst. split; [done|]. by apply placed_none. }
  unfold combine_names. destruct (is_zap spec) eqn:Hz.
  { eexists. split; [done|]. apply Hnone. by eapply named_zap. }
  destruct (apply_named _ _ _ _ _ Hz Hin Hb) as (xn & -> & Hx). cbn [bind].
  set (B := match st with None => replicate N empty_str | Some o => o end).
  assert (HB : names_placed N locss nms B) by (destruct st; [apply Hst|by apply blank_placed]).
  destruct xn as [| |l].
  - eexists. split; [done|]. by apply Hnone.
  - eexists. split; [done|]. subst o. simpl. rewrite none_of_snoc, andb_false_r. split; [done|]. by apply placed_blank.
  - destruct Hx as [-> Hll]. assert (HlB : length B = N) by apply HB. cbv zeta.
    match goal with |- exists _, bind ?m _ = _ /\ _ => assert (Ea : m = Ok (puts B loc l)) end.
    { apply (assign_base_spec B (SLoc loc) l); [|symmetry; exact Hll|done]. unfold rstr in *. rewrite HlB. by split. }
    rewrite Ea. eexists. split; [done|]. simpl. rewrite none_of_snoc, andb_false_r. split; [done|]. by apply placed_some.
Qed.

Section u.
Context (addr : rstr -> Z) (cast : value -> res value) (spec : name_spec) (r : repair).
Definition old_step (xs : list (option value)) (locss : list (list Z)) (N : nat) (i : nat) (st : value * option (list rstr)) : res (value * option (list rstr)) :=
  let! x := rd xs i in let! loc := rd locss i in unchop_step cast N x loc st.
Definition new_step (p : value) (xs : list (option rowed)) (xs_names : option (list rstr)) (locss : list (list Z)) (N : nat) (i : nat) (st : value * option (list rstr))
    : res (value * option (list rstr)) :=
  let! x := rd xs i in let! loc := rd locss i in let! outer := outer_name xs_names p i in unchop_named_step addr cast spec N outer x loc st.
Lemma no_overlap_take locss i : no_overlap locss -> no_overlap (take i locss).
Proof.
  unfold no_overlap. intros H. rewrite <- (take_drop i locss), concat_app, filter_app in H. by apply NoDup_app in H as (? & _ & _).
Qed.
Lemma unchop_loop p xs xs_names locss nms N out0 o nm : length xs = length locss -> names_fit (length xs) xs_names -> Forall rowed_ok xs ->
  no_overlap locss -> Forall (Forall (loc_ok (Z.of_nat N))) locss -> (forall i loc, locss !! i = Some loc -> (Z.of_nat (length loc) <= INT_MAX)%Z) ->
  rows_not_recycled xs locss -> names_at spec p xs xs_names locss nms ->
  for_ 0 (length xs) (old_step (vals xs) locss N) (out0, None) = Ok (o, nm) ->
  exists st, for_ 0 (length xs) (new_step p xs xs_names locss N) (out0, None) = Ok (o, st) /\ placed_state N locss nms st.
Proof.
  intros Hlen Hf Hr Hno Hloc Hmax Hrows [Hl Hnm] Hold.
  edestruct (for_inv (fun i (st : value * option (list rstr)) => exists nmo, for_ 0 i (old_step (vals xs) locss N) (out0, None) = Ok (st.1, nmo) /\
    placed_state N (take i locss) (take i nms) st.2) 0 (length xs) (new_step p xs xs_names locss N) (out0, None)) as ([o' st] & E & (nmo & E1 & E2)).
  - exists None. cbn [fst snd]. rewrite !take_0. done.
  - intros i [oi ni] Hi (nmo & E1 & E2). rewrite Nat.add_0_l in Hi. cbn [fst snd] in *.
    destruct (lookup_lt_is_Some_2 xs i) as [x Hx]; [lia|]. destruct (lookup_lt_is_Some_2 locss i) as [loc Hlo]; [lia|]. destruct (lookup_lt_is_Some_2 nms i) as [no Hno']; [lia|].
    destruct (for_step_ok _ _ _ _ Hold i ltac:(lia)) as (st & u & F1 & F2). rewrite E1 in F1. injection F1 as <-.
    assert (Hvx : vals xs !! i = Some (option_map fst x)) by (unfold vals; rewrite list_lookup_fmap; exact (f_equal (fmap (option_map fst)) Hx)).
    assert (Hstep : for_ 0 (S i) (old_step (vals xs) locss N) (out0, None) = Ok u) by (rewrite for_snoc, E1; exact F2).
    unfold new_step. rewrite (proj2 (rd_Ok _ _ _) Hx). cbn [bind]. rewrite (proj2 (rd_Ok _ _ _) Hlo). cbn [bind]. rewrite (outer_ok _ _ _ _ Hf) by lia. cbn [bind].
    unfold old_step in F2. rewrite (proj2 (rd_Ok _ _ _) Hvx) in F2. cbn [bind] in F2. rewrite (proj2 (rd_Ok _ _ _) Hlo) in F2. cbn [bind] in F2.
    rewrite (take_S_r _ _ _ Hlo), (take_S_r _ _ _ Hno'). pose proof (Hnm i x loc no Hx Hlo Hno') as Hn. rewrite Forall_lookup in Hr. pose proof (Hr _ _ Hx) as Hrx.
    destruct x as [[v rn]|]; cbn [option_map fst] in F2.
    2:{ simpl in F2 |- *. injection F2 as <-. eexists. split; [done|]. cbn [fst snd]. exists nmo. split; [exact Hstep|]. subst no.
        unfold placed_state in *. rewrite none_of_snoc, andb_true_r. destruct ni; [|done]. split; [apply E2|]. apply placed_none; [rewrite !take_length; lia|apply E2]. }
    unfold unchop_step in F2. unfold unchop_named_step.
    destruct (vec_check_recycle (Some v) (Z.of_nat (length loc))) as [[v'|]| |] eqn:Ev; cbn [bind] in F2 |- *; try done.
    assert (Hrec : recycled (Z.of_nat (length loc)) (Some v) (Some v')).
    { destruct Hrx as [Hv _]. destruct (decide (value_size v = Z.of_nat (length loc) \/ value_size v = 1%Z)) as [Hd|Hd].
      - destruct (check_recycle_spec (Some v) (Z.of_nat (length loc)) Hv) as (y & Ey & Hy); [pose proof (Hmax _ _ Hlo); lia|done|]. rewrite Ev in Ey. by injection Ey as <-.
      - exfalso. unfold vec_check_recycle in Ev. destruct (Z.eqb_spec (value_size v) (Z.of_nat (length loc))); [tauto|]. destruct (Z.eqb_spec (value_size v) 1); [tauto|done]. }
    specialize (Hn v' Hrec).
    assert (Hrn : (if is_df_value v' then recycle_rownames addr rn (Z.of_nat (length loc)) else Ok None) = Ok (if is_df_value v' then rn else None)).
    { destruct (is_df_value v') eqn:Ed; [|done]. destruct rn as [rn|]; [|done]. simpl. destruct Hrx as [_ [Hrl _]].
      rewrite Hrl, (Hrows _ _ _ _ Hx Hlo), Z.eqb_refl. done. }
    rewrite Hrn. cbn [bind].
    assert (Hown : input_vec_names (v', if is_df_value v' then rn else None) = own_names (Some (v', rn))) by (by destruct v').
    rewrite Hown.
    edestruct (combine_placed spec N (take i locss) (take i nms) ni loc (used_outer xs_names p i) (own_names (Some (v', rn))) no) as (ni' & -> & Hp').
    { rewrite !take_length. lia. } { exact E2. } { rewrite <- (take_S_r _ _ _ Hlo). by apply no_overlap_take. } { by apply Forall_take. }
    { rewrite Forall_lookup in Hloc. by eapply Hloc. }
    { intros l Hl'. pose proof (recycled_size _ _ _ (Nat2Z.is_nonneg _) Hrec) as Hs. destruct v' as [t d nm'|t dim d|m nm' cols]; simpl in Hl'; try done.
      - subst nm'. destruct Hrx as [Hv _]. destruct Hrec as (w & Ew & [[_ ->]|(_ & _ & Hsl)]); injection Ew as <-.
        + pose proof (top_names_len _ _ Hv eq_refl) as Hq. unfold rstr in *. lia.
        + inversion Hsl as [? ? names ? Eq| |]; subst. destruct names; [|done]. injection Eq as ->. rewrite map_length, replicate_length. lia.
      - subst rn. destruct Hrx as [_ [Hrl _]]. rewrite (Hrows _ _ _ _ Hx Hlo) in Hrl. unfold rstr in *. lia. }
    { exact Hn. }
    cbn [bind]. match type of F2 with bind ?m _ = _ => destruct m as [nmu| |]; cbn [bind] in F2; try done end.
    destruct (cast v') as [w| |]; cbn [bind] in F2 |- *; try done.
    destruct (vec_proxy_assign_opts true oi _ w) as [oi'| |]; cbn [bind] in F2 |- *; try done. injection F2 as <-. eexists. split; [done|]. cbn [fst snd].
    exists nmu. split; [exact Hstep|exact Hp'].
  - rewrite E. rewrite Nat.add_0_l in *. cbn [fst snd] in *. rewrite Hold in E1. injection E1 as -> ->. rewrite !take_ge in E2 by lia. by exists st.
Qed.
End u.

Lemma old_step_names cast xs locss N out0 o nm : for_ 0 (length xs) (old_step cast xs locss N) (out0, None) = Ok (o, nm) -> top_names o = top_names out0.
Proof.
  intros H. apply (for_ok_inv (fun _ (st : value * option (list rstr)) => top_names st.1 = top_names out0)) in H; [done|done|].
  intros i [oi ni] t Hi Ht. unfold old_step. destruct (rd xs i) as [x| |]; cbn [bind]; try done. destruct (rd locss i) as [n| |]; cbn [bind]; try done.
  unfold unchop_step. destruct x as [v|]; [|by intros [= <-]]. destruct (vec_check_recycle _ _) as [[v'|]| |]; cbn [bind]; try done.
  match goal with |- bind ?m _ = _ -> _ => destruct m as [nmu| |]; cbn [bind]; try done end.
  destruct (cast v') as [w| |]; cbn [bind]; try done. destruct (vec_proxy_assign_opts true oi _ w) as [oi'| |] eqn:E; cbn [bind]; try done.
  intros [= <-]. cbn [fst snd] in *. by rewrite (assign_true_names _ _ _ _ E).
Qed.
(** [list_unchop()] puts the inputs, and their names, at their locations. *)
Theorem C51_unchop addr cast spec r p xs xs_names locss nms : value_ok p -> top_names p = None -> length xs = length locss ->
  Forall (Forall is_int) locss -> (Z.of_nat (length (concat locss)) <= INT_MAX)%Z ->
  Forall (Forall (loc_ok (Z.of_nat (length (concat locss))))) locss -> shape_fits (Z.of_nat (length (concat locss))) p -> no_overlap locss ->
  Forall2 (fun x loc => unchop_ok cast p (Z.of_nat (length loc)) x) (vals xs) locss -> Forall rowed_ok xs -> rows_not_recycled xs locss ->
  names_fit (length xs) xs_names -> names_at spec p xs xs_names locss nms ->
  (forall L, names_placed (length (concat locss)) locss nms L -> repair_fits r (some_names nms L)) ->
  exists ys out L, Forall2 (fun '(x, loc) y => ready cast (Z.of_nat (length loc)) x y) (zip (vals xs) locss) ys /\
    value_ok out /\ proto_of p out /\ value_size out = Z.of_nat (length (concat locss)) /\ top_names out = None /\
    values_placed locss ys p out /\ names_placed (length (concat locss)) locss nms L /\
    list_unchop_named addr cast spec r (Some (p, None)) xs xs_names (int_indices locss) = name_result addr r out (some_names nms L).
Proof.
  intros Hp Htp Hlen Hint HN Hloc Hf Hno Hin Hr Hrows Hn Hnm Hrep.
  destruct (C25_unchop cast p (vals xs) locss Hp ltac:(rewrite <- Hlen; apply map_length) Hint HN Hloc Hf Hin) as (ys & out & Hys & E & V1 & V2 & V3 & _ & _ & V4).
  destruct (V4 Hno) as [V5 V6]. clear V4. set (N := length (concat locss)) in *.
  assert (Hvl : length (vals xs) = length xs) by apply map_length.
  unfold list_unchop, int_indices in E. unfold list_unchop_named, int_indices. rewrite Hvl in E. rewrite map_length, Hlen, Nat.eqb_refl in E |- *. cbn [negb] in E |- *.
  rewrite unchop_size_spec in E |- *. cbn [bind] in E |- *. fold N in E |- *.
  rewrite (list_as_locations_ok _ _ locss) in E |- *.
  2:{ apply Forall2_fmap_l. apply Forall2_same_length_lookup. split; [done|]. intros i a b Ha Hb. rewrite Ha in Hb. injection Hb as <-.
      rewrite Forall_forall in Hint, Hloc. apply elem_of_list_lookup_2 in Ha. cbn beta.
      apply (index_int_spec a None N); [by apply Hint|done|done|by apply Hloc]. }
  2:{ apply Forall2_fmap_l. apply Forall2_same_length_lookup. split; [done|]. intros i a b Ha Hb. rewrite Ha in Hb. injection Hb as <-.
      rewrite Forall_forall in Hint, Hloc. apply elem_of_list_lookup_2 in Ha. cbn beta.
      apply (index_int_spec a None N); [by apply Hint|done|done|by apply Hloc]. }
  cbn [bind fst snd init_rownames] in E |- *. destruct (vec_init p (Z.of_nat N)) as [o0| |] eqn:Ei; cbn [bind] in E |- *; try done.
  rewrite Nat2Z.id in E |- *. change (bind (for_ 0 (length locss) (old_step cast (vals xs) locss N) (o0, None)) (fun '(proxy, out_names) => Ok (Some (finish_names proxy out_names))) = Ok (Some out)) in E.
  destruct (for_ 0 (length locss) (old_step cast (vals xs) locss N) (o0, None)) as [[o nm]| |] eqn:El; cbn [bind] in E; try done. injection E as <-.
  rewrite <- Hlen in El.
  destruct (unchop_loop addr cast spec p xs xs_names locss nms N o0 o nm Hlen Hn Hr Hno Hloc) as (st & En & Hst); try done.
  { intros i loc Hi. pose proof (block_length _ _ _ Hi). fold N in H. lia. }
  assert (Hto : top_names o = None).
  { pose proof (init_no_names _ _ _ Htp Ei) as Ht. rewrite <- Hvl in El. by rewrite (old_step_names cast _ _ _ _ _ _ El). }
  assert (Eo : strip (finish_names o nm) = o) by (by rewrite strip_finish, strip_self).
  set (L := match st with None => replicate N empty_str | Some L => L end).
  assert (HL : names_placed N locss nms L) by (destruct st; [apply Hst|by apply blank_placed]).
  assert (EL : some_names nms L = st). { unfold some_names. destruct st as [L0|]; simpl in Hst; [destruct Hst as [Hs _]|rename Hst into Hs]; unfold none_of in Hs; by rewrite Hs. }
  exists ys, o, L. split; [done|]. rewrite <- Eo at 1. split; [by apply strip_ok|]. split; [rewrite <- Eo; by apply proto_with_names|].
  assert (Hso : value_size o = Z.of_nat N) by (rewrite <- Eo; unfold strip; by rewrite with_names_size).
  split; [done|]. split; [done|]. split; [split|].
  - intros i loc r' w k l Hl Hy Hk Hna. rewrite <- Eo. pose proof (same_row_strip _ _ _ _ (V5 i loc r' w k l Hl Hy Hk Hna)) as Q. by destruct w.
  - intros l Hl Hc. rewrite <- Eo. rewrite <- (strip_self p Htp) at 1. apply same_row_strip. apply V6; [|done]. by rewrite V3, <- Hso.
  - split; [done|].
    change (bind (for_ 0 (length locss) (new_step addr cast spec p xs xs_names locss N) (o0, None)) (fun '(proxy, out_names) => let! out := combine_finish addr spec r proxy None out_names in Ok (Some out)) = name_result addr r o (some_names nms L)).
    rewrite <- Hlen, En. cbn [bind]. rewrite EL. apply finish_result; [done|rewrite <- EL; by apply Hrep| |].
    + intros Hz. rewrite <- EL. unfold some_names. match goal with |- (if ?b then _ else _) = _ => assert (b = true) as -> end; [|done].
      destruct Hnm as [Hnl Hnm]. apply forallb_forall. intros q Hq. apply elem_of_list_In, elem_of_list_lookup in Hq as [i Hi]. pose proof (lookup_lt_Some _ _ _ Hi).
      destruct (lookup_lt_is_Some_2 xs i) as [x Hx]; [lia|]. destruct (lookup_lt_is_Some_2 locss i) as [loc Hl]; [lia|].
      pose proof (Hnm i x loc q Hx Hl Hi) as Hb. destruct x as [[v rn]|]; [|by rewrite Hb].
      assert (Hvx : vals xs !! i = Some (Some v)) by (unfold vals; rewrite list_lookup_fmap; exact (f_equal (fmap (option_map fst)) Hx)).
      pose proof (Forall2_lookup_lr _ _ _ _ _ _ Hin Hvx Hl) as (U1 & U2 & _).
      destruct (check_recycle_spec (Some v) (Z.of_nat (length loc)) U1) as (y & _ & Hy); [|done|].
      { pose proof (block_length _ _ _ Hl) as Hbl. fold N in Hbl. lia. }
      pose proof Hy as (v' & -> & _). by rewrite (named_zap _ _ _ _ _ Hz (Hb v' Hy)).
    + intros l Hl. rewrite Hso. rewrite <- EL in Hl. unfold some_names in Hl. destruct (forallb _ nms); [done|]. injection Hl as <-. f_equal. apply HL.
Qed.

(** ** Outer names that can't be merged *)
Lemma cannot_merge_err N loc outer inner n st : cannot_merge outer inner n -> exists e, combine_names SpecNull N loc outer inner n st = Err e.
Proof.
  intros (o & -> & Hb & Hn). unfold combine_names, apply_name_spec. cbn [is_zap].
  assert ((str_ptr_eqb o empty_str || str_ptr_eqb o None) = false) as -> by (apply not_true_iff_false; by rewrite blank_spec).
  destruct (empty_spec inner) as (b & -> & Hbs). cbn [bind]. destruct b.
  - destruct (Nat.eqb_spec n 0) as [->|]; [destruct Hn; split; [by apply Hbs|lia]|]. destruct (Nat.eqb_spec n 1) as [->|]; [destruct Hn; split; [by apply Hbs|lia]|].
    cbn. by eexists.
  - cbn. by eexists.
Qed.
(** Without a name specification, an outer name is an error unless the input has
    at most one element and no name. *)
Theorem C51_c_error addr cast r p xs xs_names i x n : names_fit (length xs) xs_names -> xs !! i = Some x -> rsizes xs !! i = Some n ->
  cannot_merge (used_outer xs_names p.1 i) (own_names x) (Z.to_nat n) ->
  forall out, vec_c_named addr cast SpecNull r (Some p) xs xs_names <> Ok out.
Proof.
  intros Hf Hx Hn Hm out. rewrite vec_c_new. cbv zeta. destruct (vec_init _ _) as [o0| |]; cbn [bind]; try done. destruct (init_rownames _ _ _) as [rn| |]; cbn [bind]; try done.
  destruct (for_ 0 (length xs) _ _) as [st| |] eqn:El; cbn [bind]; try done. exfalso. pose proof (lookup_lt_Some _ _ _ Hx) as Hi.
  destruct (for_step_ok _ _ _ _ El i Hi) as ([[o nm] c] & u & _ & F). unfold new_body in F. rewrite (proj2 (rd_Ok _ _ _) Hx) in F. cbn [bind] in F.
  rewrite (proj2 (rd_Ok _ _ _) Hn) in F. cbn [bind] in F. rewrite (outer_ok _ _ _ _ Hf Hi) in F. cbn [bind] in F. cbv zeta in F. rewrite own_input in F.
  edestruct cannot_merge_err as [e E]; [exact Hm|]. rewrite E in F. done.
Qed.
Theorem C51_unchop_error addr cast r p xs xs_names locss i v rn loc : names_fit (length xs) xs_names -> length xs = length locss -> Forall (Forall is_int) locss ->
  (Z.of_nat (length (concat locss)) <= INT_MAX)%Z -> Forall (Forall (loc_ok (Z.of_nat (length (concat locss))))) locss ->
  Forall rowed_ok xs -> rows_not_recycled xs locss -> xs !! i = Some (Some (v, rn)) -> locss !! i = Some loc ->
  (forall r, recycled (Z.of_nat (length loc)) (Some v) (Some r) -> cannot_merge (used_outer xs_names p.1 i) (own_names (Some (r, rn))) (length loc)) ->
  forall out, list_unchop_named addr cast SpecNull r (Some p) xs xs_names (int_indices locss) <> Ok out.
Proof.
  intros Hf Hlen Hint HN Hloc Hr Hrows Hx Hl Hm out. unfold list_unchop_named, int_indices. rewrite map_length, Hlen, Nat.eqb_refl. cbn [negb]. rewrite unchop_size_spec. cbn [bind].
  set (N := length (concat locss)) in *. rewrite (list_as_locations_ok _ _ locss).
  2:{ apply Forall2_fmap_l. apply Forall2_same_length_lookup. split; [done|]. intros j a b Ha Hb. rewrite Ha in Hb. injection Hb as <-.
      rewrite Forall_forall in Hint, Hloc. apply elem_of_list_lookup_2 in Ha. cbn beta.
      apply (index_int_spec a None N); [by apply Hint|done|done|by apply Hloc]. }
  cbn [bind]. destruct (vec_init _ _) as [o0| |]; cbn [bind]; try done. destruct (init_rownames _ _ _) as [rn0| |]; cbn [bind]; try done.
  destruct (for_ 0 (length locss) _ _) as [st| |] eqn:El; cbn [bind]; try done. exfalso. pose proof (lookup_lt_Some _ _ _ Hx) as Hi. rewrite <- Hlen in El.
  destruct (for_step_ok _ _ _ _ El i Hi) as ([o nm] & u & _ & F). cbv beta in F. rewrite (proj2 (rd_Ok xs i (Some (v, rn) : option rowed)) Hx) in F. cbn [bind] in F.
  rewrite (proj2 (rd_Ok _ _ _) Hl) in F. cbn [bind] in F. rewrite (outer_ok _ _ _ _ Hf Hi) in F. cbn [bind] in F. unfold unchop_named_step in F.
  rewrite Forall_lookup in Hr. pose proof (Hr _ _ Hx) as Hrx.
  destruct (vec_check_recycle (Some v) (Z.of_nat (length loc))) as [[v'|]| |] eqn:Ev; cbn [bind] in F; try done.
  assert (Hrec : recycled (Z.of_nat (length loc)) (Some v) (Some v')).
  { destruct Hrx as [Hv _]. destruct (decide (value_size v = Z.of_nat (length loc) \/ value_size v = 1%Z)) as [Hd|Hd].
    - destruct (check_recycle_spec (Some v) (Z.of_nat (length loc)) Hv) as (y & Ey & Hy); [|done|rewrite Ev in Ey; by injection Ey as <-].
      pose proof (block_length _ _ _ Hl) as Hb. fold N in Hb. lia.
    - exfalso. unfold vec_check_recycle in Ev. destruct (Z.eqb_spec (value_size v) (Z.of_nat (length loc))); [tauto|]. destruct (Z.eqb_spec (value_size v) 1); [tauto|done]. }
  assert (Hrn : (if is_df_value v' then recycle_rownames addr rn (Z.of_nat (length loc)) else Ok None) = Ok (if is_df_value v' then rn else None)).
  { destruct (is_df_value v') eqn:Ed; [|done]. destruct rn as [rn|]; [|done]. simpl. destruct Hrx as [_ [Hrl _]].
    rewrite Hrl, (Hrows _ _ _ _ Hx Hl), Z.eqb_refl. done. }
  rewrite Hrn in F. cbn [bind] in F.
  assert (Hown : input_vec_names (v', if is_df_value v' then rn else None) = own_names (Some (v', rn))) by (by destruct v').
  rewrite Hown in F. edestruct cannot_merge_err as [e E]; [exact (Hm v' Hrec)|]. rewrite E in F. done.
Qed.

(** ** Examples *)
Local Definition xa : rstr := Some [97]%Z. Local Definition xb : rstr := Some [98]%Z. Local Definition xc : rstr := Some [99]%Z.
Local Definition ad (s : rstr) : Z := match s with None => 0 | Some [] => 1 | Some (c :: _) => c end.
(** c(c(a = 1L, b = 2L), b = NULL, c = 3L) *)
Definition ex_xs : list (option rowed) := [Some (VVec TInt [EInt 1; EInt 2]%Z (Some [xa; xb]), None); None; Some (VVec TInt [EInt 3]%Z None, None)].
Definition ex_outer : option (list rstr) := Some [empty_str; xb; xc].
Definition ex_nms : list (option (list rstr)) := [Some [xa; xb]; Some []; Some [xc]].
Lemma not_blank_c : ~ blank_name xc. Proof. by intros [?|?]. Qed.
Example C51_c_example :
  vec_c_named ad Ok SpecNull RepairMinimal (Some (VVec TInt [] None, None)) ex_xs ex_outer =
    Ok (Some (VVec TInt [EInt 1; EInt 2; EInt 3]%Z (Some [xa; xb; xc]), None)) /\
  Forall (c_ok Ok (VVec TInt [] None)) (vals ex_xs) /\ Forall rowed_ok ex_xs /\ names_fit (length ex_xs) ex_outer /\
  names_for SpecNull (VVec TInt [] None) ex_xs ex_outer ex_nms /\ joined_names (rsizes ex_xs) ex_nms = Some [xa; xb; xc].
Proof.
  split; [vm_compute; reflexivity|]. split.
  { unfold ex_xs, vals. simpl. repeat apply Forall_cons_2; try apply Forall_nil_2; try done.
    all: split; [repeat constructor; done|]; split; [done|]; intros ?; eexists; split; [done|];
      split; [repeat constructor; done|]; split; [repeat constructor; done|]; split; [constructor|done]. }
  split; [repeat apply Forall_cons_2; try apply Forall_nil_2; try done; (split; [repeat constructor; done|done])|]. split; [done|]. split; [|done].
  split; [done|]. intros [|[|[|i]]] x n o Hx Hn Ho; try done; injection Hx as <-; injection Hn as <-; injection Ho as <-; unfold named_by.
  - split; [|done]. apply (in_blank SpecNull (Some [xa; xb]) _ empty_str); [done|by right].
  - done.
  - split; [|done]. apply in_outer; [done|exact not_blank_c|done|done].
Qed.
(** list_unchop(list(c(a = 1L, b = 2L), b = NULL, c = 3L), indices = list(c(4, 1), 3, 2)) *)
Definition ex_locs : list (list Z) := [[4; 1]; [3]; [2]]%Z.
Definition ex_nms_at : list (option (list rstr)) := [Some [xa; xb]; None; Some [xc]].
Example C51_unchop_example :
  list_unchop_named ad Ok SpecNull RepairMinimal (Some (VVec TInt [] None, None)) ex_xs ex_outer (int_indices ex_locs) =
    Ok (Some (VVec TInt [EInt 2; EInt 3; EInt NA_INTEGER; EInt 1]%Z (Some [xb; xc; empty_str; xa]), None)) /\
  no_overlap ex_locs /\ rows_not_recycled ex_xs ex_locs /\ names_at SpecNull (VVec TInt [] None) ex_xs ex_outer ex_locs ex_nms_at /\
  Forall2 (fun x loc => unchop_ok Ok (VVec TInt [] None) (Z.of_nat (length loc)) x) (vals ex_xs) ex_locs /\
  names_placed 4 ex_locs ex_nms_at [xb; xc; empty_str; xa].
Proof.
  split; [vm_compute; reflexivity|]. split; [unfold no_overlap; simpl; vm_compute; repeat constructor; rewrite ?elem_of_cons, ?elem_of_nil; intuition discriminate|].
  split; [intros [|[|[|i]]] v rn loc Hx Hl; done|]. split.
  { split; [done|]. intros [|[|[|i]]] x loc o Hx Hl Ho; try done; injection Hx as <-; injection Hl as <-; injection Ho as <-.
    - intros r (w & E & [[_ ->]|[? _]]); [|done]. injection E as ->. unfold named_by. split; [|done]. apply (in_blank SpecNull (Some [xa; xb]) _ empty_str); [done|by right].
    - done.
    - intros r (w & E & [[_ ->]|(_ & ? & _)]); [|done]. injection E as ->. unfold named_by. split; [|done]. apply in_outer; [done|exact not_blank_c|done|done]. }
  split.
  { unfold ex_xs, vals, ex_locs. simpl. constructor; [|constructor; [done|constructor; [|constructor]]].
    - split; [repeat constructor; done|]. split; [by left|]. intros r (w & E & [[_ ->]|[? _]]); [|done]. injection E as ->.
      eexists. split; [done|]. split; [repeat constructor; done|]. split; [repeat constructor; done|]. split; [constructor|done].
    - split; [repeat constructor; done|]. split; [by right|]. intros r (w & E & [[_ ->]|(_ & ? & _)]); [|done]. injection E as ->.
      eexists. split; [done|]. split; [repeat constructor; done|]. split; [repeat constructor; done|]. split; [constructor|done]. }
  split; [done|]. split.
  - intros [|[|[|i]]] loc nm k l Hl Hn Hk _; try done; injection Hl as <-; injection Hn as <-.
    + destruct k as [|[|k]]; try done; by injection Hk as <-.
    + destruct k as [|k]; try done; by injection Hk as <-.
  - intros l Hl Hn. assert (l ∉ [4; 1]%Z) by (by apply (Hn 0 _ [xa; xb])). assert (l ∉ [2]%Z) by (by apply (Hn 2 _ [xc])).
    rewrite !elem_of_cons, elem_of_nil in *. assert (l = 3)%Z as -> by lia. done.
Qed.
Example C51_error_example :
  cannot_merge (used_outer (Some [xc]) (VVec TInt [] None) 0) (own_names (Some (VVec TInt [EInt 1; EInt 2]%Z None, None))) 2 /\
  vec_c_named ad Ok SpecNull RepairMinimal (Some (VVec TInt [] None, None)) [Some (VVec TInt [EInt 1; EInt 2]%Z None, None)] (Some [xc]) = Err "Can't merge the outer name".
Proof. split; [|done]. exists xc. split; [done|]. split; [exact not_blank_c|]. intros [_ ?]. lia. Qed.

(** A location assigned twice keeps the name of the first input when the second
    has none: [list_unchop(list(a = 1L, 2L), indices = list(1, 1))] is [2L] with
    the name "a" (and [NA]). *)
Theorem C51_unchop_stale_name_refuted : exists xs xs_names locss out,
  xs !! 1 = Some (Some (VVec TInt [EInt 2]%Z None, None)) /\ xs_names = Some [xa; empty_str] /\ locss = [[1]; [1]]%Z /\
  list_unchop_named ad Ok SpecNull RepairMinimal (Some (VVec TInt [] None, None)) xs xs_names (int_indices locss) = Ok (Some out) /\
  out = (VVec TInt [EInt 2; EInt NA_INTEGER]%Z (Some [xa; empty_str]), None).
Proof.
  exists [Some (VVec TInt [EInt 1]%Z None, None); Some (VVec TInt [EInt 2]%Z None, None)]. do 3 eexists.
  split; [done|]. split; [done|]. split; [done|]. split; [vm_compute; reflexivity|done].
Qed.
(** When the prototype has names, so has the result, though no input has any. *)
Theorem C51_ptype_names_refuted : exists p xs out, value_ok p /\ Forall rowed_ok xs /\ Forall (fun x => own_names x = None) xs /\
  vec_c_named ad Ok SpecNull RepairMinimal (Some (p, None)) xs None = Ok (Some out) /\ own_names (Some out) = Some [empty_str].
Proof.
  exists (VVec TInt [] (Some [])), [Some (VVec TInt [EInt 1]%Z None, None)]. eexists. split; [repeat constructor; done|].
  split; [repeat constructor; done|]. split; [repeat constructor; done|]. split; [vm_compute; reflexivity|done].
Qed.
Print Assumptions C51_c.
Print Assumptions C51_unchop.
Print Assumptions C51_c_error.
Print Assumptions C51_unchop_error.
Print Assumptions C51_unchop_stale_name_refuted.
Print Assumptions C51_ptype_names_refuted.
