(** * Lemmas: the loops of unique name repair *)
From Verif Require Import Base M_Double M_Scalar M_Hash M_Object M_Proxy M_Growable M_Dict M_DictApi M_Slice M_Factor M_Names.
From Verif Require Import L_Dbl Spec_Missing Spec_Dict P_Dict Spec_Factor L_Factor Spec_Names L_Names.
From Coq Require Import ZifyBool ZifyNat.
#[local] Arguments Z.mul : simpl never.
#[local] Arguments Z.add : simpl never.
#[local] Arguments Z.sub : simpl never.
#[local] Arguments Z.div : simpl never.
#[local] Arguments Z.modulo : simpl never.
#[local] Arguments Z.to_nat : simpl never.
#[local] Arguments Z.of_nat : simpl never.

Lemma rd_str (l : list rstr) i (s : rstr) : l !! i = Some s -> rd l i = Ok s.
Proof. apply rd_Ok. Qed.

Lemma needs_suffix_spec (s : rstr) : name_ok s -> exists b, needs_suffix s = Ok b /\ (b = true <-> replaced s).
Proof.
  intros Ho. unfold needs_suffix.
  destruct (str_ptr_eqb s None || str_ptr_eqb s dots_str || str_ptr_eqb s empty_str) eqn:E.
  - exists true. split; [done|]. split; [|done]. intros _. apply orb_true_iff in E as [E|E]; [apply orb_true_iff in E as [E|E]|];
      apply str_ptr_eqb_spec in E; rewrite E; simpl; auto.
  - apply orb_false_iff in E as [E E3]. apply orb_false_iff in E as [E1 E2].
    destruct s as [s|]; [|done]. simpl in *. destruct Ho as [Ho Hl].
    destruct (is_dotdotint_spec s) as (b & Eb & Hb); [lia|]. exists b. split; [done|]. rewrite Hb. split; [by auto|].
    intros [->|[->|?]]; [|done|done]. exfalso. done.
Qed.

Lemma stem_bytes (s : rstr) b : name_ok s -> stem s b -> name_ok (Some b) /\ (forall t, s = Some t -> length b <= length t).
Proof.
  intros Ho [[_ ->]|(R & Hb & U & t & -> & S)].
  - split; [|intros; simpl; lia]. simpl. split; [done|]. unfold INT_MAX. simpl. lia.
  - apply suffixes_prefix in S as (r & ->). destruct Ho as [Ho Hl]. apply Forall_app in Ho as [Ho _]. rewrite app_length in Hl.
    split; [simpl; split; [done|lia]|]. intros ? [= <-]. rewrite app_length. lia.
Qed.

Lemma strip_step_spec i (l : list rstr) (s : rstr) : l !! i = Some s -> name_ok s ->
  exists b, strip_step i l = Ok (<[i := Some b]> l) /\ stem s b.
Proof.
  intros Hi Ho. pose proof (lookup_lt_Some _ _ _ Hi) as Hlt. unfold strip_step.
  rewrite (proj2 (rd_Ok _ _ _) Hi). cbn [bind]. destruct (needs_suffix_spec s Ho) as (b & -> & Hb). cbn [bind].
  destruct b.
  { exists []. split; [by apply wr_Ok|]. left. split; [by apply Hb|done]. }
  assert (R : ~ replaced s) by (intros R; by apply Hb in R).
  destruct s as [t|]; [|by destruct R]. simpl. assert (Ht : t <> []) by (intros ->; apply R; by left).
  destruct Ho as [Ho Hl]. destruct (suffix_pos_spec t Ht) as (p & Ep & H); [lia|]. rewrite Ep. cbn [bind].
  destruct H as [[U ->]|(b & Hn & U & S & Hne & Hp & E)].
  - exists t. split; [by rewrite list_insert_id|]. right. split_and!; try done. exists t. split; [done|constructor].
  - exists b. destruct (Z.leb_spec 0 p); [|lia]. rewrite E. split; [by apply wr_Ok|]. right. split_and!; try done. by exists t.
Qed.

Lemma strip_loop (names : list rstr) : Forall name_ok names ->
  exists stems, for_ 0 (length names) strip_step names = Ok (map Some stems) /\ Forall2 stem names stems.
Proof.
  intros Ho.
  destruct (for_inv (fun i (l : list rstr) => exists stems, Forall2 stem (take i names) stems /\ l = map Some stems ++ drop i names)
     0 (length names) strip_step names) as (l & E & (stems & H & ->)).
  - exists []. split; [constructor|done].
  - intros i l Hi (stems & H & ->). pose proof (Forall2_length _ _ _ H) as Hl. rewrite take_length in Hl.
    destruct (lookup_lt_is_Some_2 names i ltac:(lia)) as [s Hs].
    assert (Es : (map (@Some (list Z)) stems ++ drop i names) !! i = Some s).
    { rewrite lookup_app_r by (rewrite map_length; lia). rewrite map_length, lookup_drop.
      replace (i + (i - length stems)) with i by lia. done. }
    destruct (strip_step_spec i _ s Es) as (b & E & Sb); [by eapply Forall_lookup_1|].
    eexists. split; [exact E|]. exists (stems ++ [b]). split.
    + rewrite (take_S_r _ _ _ Hs). apply Forall2_app; [done|by constructor].
    + rewrite (drop_S _ _ _ Hs), map_app, <-app_assoc. simpl.
      replace i with (length (map (@Some (list Z)) stems) + 0) by (rewrite map_length; lia).
      by rewrite insert_app_r.
  - simpl in *. rewrite firstn_all in H. exists stems. rewrite skipn_all, app_nil_r in E. done.
Qed.

Lemma append_iota_spec b i : name_ok (Some b) -> (Z.of_nat i < INT_MAX)%Z ->
  exists ds, append_iota (Some b) i = Ok (Some (b ++ three_dots ++ ds)) /\ writes (Z.of_nat i + 1) ds /\ length ds <= 10.
Proof.
  intros [Ho Hl] Hi. unfold append_iota, strlen_int. cbn [c_string]. destruct (Z.leb_spec (Z.of_nat (length b)) INT_MAX); [|lia]. cbn [bind].
  unfold MAX_IOTA_SIZE. destruct (Z.ltb_spec INT_MAX (Z.of_nat (length b) + 28)); [lia|].
  unfold int_plus1. destruct (Z.ltb_spec (Z.of_nat i) INT_MAX); [|lia]. cbn [bind].
  destruct (decimal_spec (Z.of_nat i + 1)) as (ds & -> & W & L); [lia|]. cbn [bind].
  destruct (Z.leb_spec 28 (Z.of_nat (length (dots3 ++ ds)))) as [Hc|]; [rewrite app_length in Hc; simpl in Hc; lia|].
  by exists ds.
Qed.

Lemma map_some_lookup (bs : list (list Z)) i b : map Some bs !! i = Some (Some b) <-> bs !! i = Some b.
Proof. rewrite list_lookup_fmap. destruct (bs !! i); simpl; split; congruence. Qed.

(** What the repair of stems yields *)
Definition suffixed_at (stems : list (list Z)) (i : nat) (b : list Z) (o : option rstr) : Prop :=
  (b = [] \/ (exists j, j <> i /\ stems !! j = Some b)) /\
    (exists ds, writes (Z.of_nat i + 1) ds /\ o = Some (Some (b ++ three_dots ++ ds))) \/
  b <> [] /\ (forall j, j <> i -> stems !! j <> Some b) /\ o = Some (Some b).

Lemma suffix_loop_all addr stems : Forall (fun b => name_ok (Some b)) stems -> (Z.of_nat (length stems) <= INT_MAX)%Z ->
  exists dups out, vctrs_duplicated addr (map Some stems) = Ok dups /\
    for_ 0 (length stems) (suffix_step dups) (map Some stems) = Ok out /\ length out = length stems /\
    forall i b, stems !! i = Some b -> suffixed_at stems i b (out !! i).
Proof.
  intros Ho Hl. unfold vctrs_duplicated.
  destruct (C08_duplicate_detect addr (chr_proxy (map Some stems))) as (dups & Ed & Hdl & Hd).
  { apply chr_dictable; [|by rewrite map_length]. unfold strs_ok. apply Forall_map. eapply Forall_impl; [exact Ho|]. simpl. tauto. }
  rewrite chr_size, map_length in *. exists dups.
  assert (Hdup : forall i b, stems !! i = Some b ->
    ((exists j, j <> i /\ stems !! j = Some b) /\ dups !! i = Some 1%Z) \/
    ((forall j, j <> i -> stems !! j <> Some b) /\ dups !! i = Some 0%Z)).
  { intros i b Hb. pose proof (lookup_lt_Some _ _ _ Hb) as Hi. destruct (Hd i Hi) as [[(j & Hj & Hne & E) D]|[N D]].
    - left. split; [|done]. exists j. split; [done|]. destruct (lookup_lt_is_Some_2 stems j Hj) as [b' Hb'].
      apply (chr_rows_equal _ _ (Some b') _ _ (Some b)) in E; [|by apply map_some_lookup|by apply map_some_lookup]. congruence.
    - right. split; [|done]. intros j Hne E. apply N. exists j. pose proof (lookup_lt_Some _ _ _ E). split_and!; [done|done|].
      apply (chr_rows_equal _ _ (Some b) _ _ (Some b)); [by apply map_some_lookup|by apply map_some_lookup|done]. }
  destruct (for_inv (fun k (l : list rstr) => length l = length stems /\
      (forall i b, i < k -> stems !! i = Some b -> suffixed_at stems i b (l !! i)) /\
      (forall i b, k <= i -> stems !! i = Some b -> l !! i = Some (Some b)))
     0 (length stems) (suffix_step dups) (map Some stems)) as (out & E & (Hlen & H & _)).
  - split_and!; [by rewrite map_length|intros; lia|]. intros i b _ Hb. by apply map_some_lookup.
  - intros i l Hi (Hlen & H1 & H2). destruct (lookup_lt_is_Some_2 stems i ltac:(lia)) as [b Hb].
    pose proof (H2 i b ltac:(lia) Hb) as Hlb. unfold suffix_step.
    rewrite (rd_str l i (Some b) Hlb). cbn [bind].
    assert (Hob : name_ok (Some b)) by (by eapply Forall_lookup_1 in Ho).
    destruct (append_iota_spec b i Hob) as (ds & Ea & W & _); [lia|].
    assert (Hdo : (b = [] \/ (exists j, j <> i /\ stems !! j = Some b)) ->
      exists s', (let! s := append_iota (Some b) i in wr l i s) = Ok s' /\ length s' = length stems /\
      (forall j b, j < S i -> stems !! j = Some b -> suffixed_at stems j b (s' !! j)) /\
      (forall j b, S i <= j -> stems !! j = Some b -> s' !! j = Some (Some b))).
    { intros Hc. rewrite Ea. cbn [bind]. rewrite wr_Ok by lia. eexists. split; [done|]. split_and!.
      - by rewrite insert_length.
      - intros j b' Hj Hb'. destruct (decide (j = i)) as [->|].
        + assert (b' = b) as -> by congruence. rewrite list_lookup_insert by lia. left. split; [done|]. by exists ds.
        + rewrite list_lookup_insert_ne by done. apply H1; [lia|done].
      - intros j b' Hj Hb'. rewrite list_lookup_insert_ne by lia. apply H2; [lia|done]. }
    destruct (Hdup i b Hb) as [[Hd1 Ed1]|[Hd0 Ed0]].
    + rewrite (proj2 (rd_Ok _ _ _) Ed1). cbn [bind]. rewrite andb_false_r. apply Hdo. by right.
    + rewrite (proj2 (rd_Ok _ _ _) Ed0). cbn [bind]. rewrite andb_true_r.
      destruct (str_ptr_eqb (Some b) empty_str) eqn:Ee; simpl negb; cbn match.
      * apply str_ptr_eqb_spec in Ee. apply Hdo. left. by injection Ee.
      * eexists. split; [done|]. split_and!; [done| |intros j b' Hj; apply H2; lia].
        intros j b' Hj Hb'. destruct (decide (j = i)) as [->|]; [|apply H1; [lia|done]].
        assert (b' = b) as -> by congruence. right. split_and!; [|done|exact Hlb].
        intros ->. done.
  - exists out. split_and!; [done|done|done|]. intros i b Hb. apply H; [|done]. apply lookup_lt_Some in Hb. lia.
Qed.

Lemma as_unique_names_impl_spec addr (names : list rstr) : names_ok names ->
  exists out, as_unique_names_impl addr names = Ok out /\ repaired names out.
Proof.
  intros [Ho Hl]. destruct (strip_loop names Ho) as (stems & E & S). unfold as_unique_names_impl. rewrite E. cbn [bind]. pose proof (Forall2_length _ _ _ S) as Hs.
  destruct (suffix_loop_all addr stems) as (dups & out & E1 & E2 & Hlo & H).
  - apply Forall_lookup. intros i b Hb. destruct (Forall2_lookup_r _ _ _ _ _ S Hb) as (s & Hi & Sb).
    eapply stem_bytes; [|exact Sb]. by eapply Forall_lookup_1.
  - lia.
  - rewrite E1. cbn [bind]. rewrite Hs, E2. exists out. split; [done|]. exists stems. split_and!; [done|lia|]. exact H.
Qed.

Lemma repaired_unique (names o1 o2 : list rstr) : repaired names o1 -> repaired names o2 -> o1 = o2.
Proof.
  intros (st & S & L & H) (st' & S' & L' & H').
  assert (st' = st) as ->.
  { apply list_eq_same_length with (length st); [done|by rewrite <-(Forall2_length _ _ _ S), (Forall2_length _ _ _ S')|].
    intros i b b' Hi Hb Hb'. destruct (Forall2_lookup_r _ _ _ _ _ S Hb') as (s & Hs & Sb).
    destruct (Forall2_lookup_r _ _ _ _ _ S' Hb) as (s' & Hs' & Sb'). assert (s' = s) as -> by congruence. by eapply stem_unique. }
  apply list_eq_same_length with (length names); [exact L'|exact L|]. intros i x y Hi Hx Hy.
  destruct (lookup_lt_is_Some_2 names i Hi) as [s Hs]. destruct (Forall2_lookup_l _ _ _ _ _ S Hs) as (b & Hb & _).
  destruct (H i b Hb) as [(C & ds & W & E)|(C & N & E)], (H' i b Hb) as [(C' & ds' & W' & E')|(C' & N' & E')];
    first [pose proof (eq_trans (eq_sym Hx) E) as Ex; pose proof (eq_trans (eq_sym Hy) E') as Ey
          |pose proof (eq_trans (eq_sym Hx) E') as Ex; pose proof (eq_trans (eq_sym Hy) E) as Ey]; injection Ex as ->; injection Ey as ->.
  - by rewrite (writes_unique _ _ _ W W').
  - destruct C as [?|(j & Hj & Ej)]; [done|]. by destruct (N' j Hj).
  - destruct C' as [?|(j & Hj & Ej)]; [done|]. by destruct (N j Hj).
  - done.
Qed.

(** Names that need no repair *)
Definition tidy (names : list rstr) : Prop :=
  NoDup names /\ Forall (fun s => ~ replaced s /\ exists b, s = Some b /\ unsuffixed b) names.
Lemma tidy_repaired names : tidy names -> repaired names names.
Proof.
  intros [N F]. exists (map c_string names). split_and!; [|done|].
  - apply Forall2_fmap_r, Forall_Forall2_diag. eapply Forall_impl; [exact F|]. simpl. intros s (R & b & -> & U). right. split_and!; try done.
    + intros E. apply R. simpl in *. by left.
    + exists b. split; [done|constructor].
  - intros i b Hb. rewrite list_lookup_fmap in Hb. destruct (names !! i) as [s|] eqn:Hs; [|done]. injection Hb as <-.
    pose proof (proj1 (Forall_lookup _ _) F _ _ Hs) as (R & b & -> & U). right. simpl. split_and!; [|intros j Hj Ej|done].
    + intros ->. apply R. by left.
    + rewrite list_lookup_fmap in Ej. destruct (names !! j) as [s'|] eqn:Hs'; [|done].
      pose proof (proj1 (Forall_lookup _ _) F _ _ Hs') as (_ & b' & -> & _). injection Ej as ->.
      apply Hj. by eapply NoDup_lookup.
Qed.

Lemma is_unique_names_spec addr (names : list rstr) : names_ok names ->
  exists b, is_unique_names addr names = Ok b /\ (b = true <-> NoDup names /\ Forall (fun s => ~ replaced s) names).
Proof.
  intros [Ho Hl]. unfold is_unique_names, duplicated_any.
  destruct (C08_duplicate_any addr (chr_proxy names)) as (d & -> & Hd).
  { apply chr_dictable; [|done]. eapply Forall_impl; [exact Ho|]. intros [s|]; simpl; tauto. }
  rewrite chr_size in Hd. cbn [bind]. destruct d.
  - exists false. split; [done|]. split; [done|]. intros [N _]. destruct (proj1 Hd eq_refl) as (i & j & Hij & E).
    destruct (lookup_lt_is_Some_2 names i ltac:(lia)) as [a Ha]. destruct (lookup_lt_is_Some_2 names j ltac:(lia)) as [b Hb].
    apply (chr_rows_equal _ _ _ _ _ _ Ha Hb) in E. subst b. assert (i = j) by (by eapply NoDup_lookup). lia.
  - assert (N : NoDup names).
    { apply NoDup_alt. intros i j x Hi Hj. destruct (decide (i = j)) as [|Hne]; [done|exfalso].
      pose proof (lookup_lt_Some _ _ _ Hi). pose proof (lookup_lt_Some _ _ _ Hj).
      assert (false = true); [|done]. apply Hd. destruct (decide (i < j)).
      - exists i, j. split; [lia|]. by apply (chr_rows_equal _ _ _ _ _ _ Hi Hj).
      - exists j, i. split; [lia|]. by apply (chr_rows_equal _ _ _ _ _ _ Hj Hi). }
    destruct (for_brk_inv (fun k b => b = true /\ forall i s, i < k -> names !! i = Some s -> ~ replaced s)
      (fun b => b = true <-> Forall (fun s => ~ replaced s) names) 0 (length names)
      (fun i b => let! s := rd names i in let! need := needs_suffix s in Ok (if need then Break false else Next b)) true)
      as (b & E & Hb).
    + split; [done|]. intros; lia.
    + intros i b Hi (-> & H). destruct (lookup_lt_is_Some_2 names i ltac:(lia)) as [s Hs].
      rewrite (rd_str _ _ _ Hs). cbn [bind].
      destruct (needs_suffix_spec s) as (q & -> & Hq); [by eapply Forall_lookup_1|]. cbn [bind]. destruct q; [right|left].
      * eexists. split; [done|]. split; [done|]. intros F. pose proof (proj1 (Forall_lookup _ _) F _ _ Hs) as R. simpl in R. tauto.
      * eexists. split; [done|]. split; [done|]. intros j t Hj Ht. destruct (decide (j = i)) as [->|].
        -- assert (t = s) as -> by congruence. intros R. by apply Hq in R.
        -- eapply H; [|done]. lia.
    + intros b (-> & H). split; [|done]. intros _. apply Forall_lookup. intros i s Hs. eapply H; [|done].
      apply lookup_lt_Some in Hs. lia.
    + exists b. split; [done|]. rewrite Hb. tauto.
Qed.

Lemma any_has_suffix_spec (names : list rstr) : names_ok names -> Forall (fun s => ~ replaced s) names ->
  exists b, any_has_suffix names = Ok b /\ (b = false <-> Forall (fun s => exists t, s = Some t /\ unsuffixed t) names).
Proof.
  intros [Ho Hl] R. unfold any_has_suffix.
  destruct (for_brk_inv (fun k b => b = false /\ forall i s, i < k -> names !! i = Some s -> exists t, s = Some t /\ unsuffixed t)
      (fun b => b = false <-> Forall (fun s => exists t, s = Some t /\ unsuffixed t) names) 0 (length names)
      (fun i b => let! s := rd names i in let! pos := suffix_pos (c_string s) in Ok (if (0 <=? pos)%Z then Break true else Next b)) false)
      as (b & E & Hb).
  - split; [done|]. intros; lia.
  - intros i b Hi (-> & H). destruct (lookup_lt_is_Some_2 names i ltac:(lia)) as [s Hs].
    rewrite (rd_str _ _ _ Hs). cbn [bind].
    pose proof (proj1 (Forall_lookup _ _) R _ _ Hs) as Rs. pose proof (proj1 (Forall_lookup _ _) Ho _ _ Hs) as Os. simpl in Rs, Os.
    destruct s as [t|]; [|by destruct Rs]. destruct Os as [Os Ol].
    destruct (suffix_pos_spec t) as (p & E & Hp); [intros ->; apply Rs; by left|lia|]. cbn [c_string]. rewrite E. cbn [bind].
    destruct Hp as [[U ->]|(b & Hb & U & S & Hne & Hp & _)].
    + left. eexists. split; [done|]. split; [done|]. intros j s' Hj Hs'. destruct (decide (j = i)) as [->|].
      * exists t. split; [|done]. pose proof (eq_trans (eq_sym Hs') Hs) as Ex. by injection Ex as ->.
      * eapply H; [|done]. lia.
    + right. destruct (Z.leb_spec 0 p); [|lia]. eexists. split; [done|]. split; [done|]. intros F.
      pose proof (proj1 (Forall_lookup _ _) F _ _ Hs) as (t' & [= <-] & U'). destruct S as [|s t S O]; [done|]. destruct (U' _ O).
  - intros b (-> & H). split; [|done]. intros _. apply Forall_lookup. intros i s Hs. assert (i < 0 + length names) by exact (lookup_lt_Some _ _ _ Hs). by eapply H.
  - exists b. done.
Qed.

Lemma vec_as_unique_names_spec addr (names : list rstr) : names_ok names ->
  exists out, vec_as_unique_names addr names = Ok out /\ repaired names out.
Proof.
  intros Hok. unfold vec_as_unique_names. destruct (is_unique_names_spec addr names Hok) as (b & -> & Hb). cbn [bind].
  destruct b; [|by apply as_unique_names_impl_spec]. destruct (proj1 Hb eq_refl) as [N R].
  destruct (any_has_suffix_spec names Hok R) as (b & -> & Hb'). cbn [bind]. destruct b; [by apply as_unique_names_impl_spec|].
  eexists. split; [done|]. apply tidy_repaired. split; [done|]. pose proof (proj1 Hb' eq_refl) as U.
  apply Forall_and. by split.
Qed.
