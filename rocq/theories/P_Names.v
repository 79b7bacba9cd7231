(** * Properties: unique name repair (C34) *)
From Verif Require Import Base M_Double M_Scalar M_Hash M_Object M_Proxy M_Growable M_Dict M_DictApi M_Slice M_Factor M_Names.
From Verif Require Import L_Dbl Spec_Factor Spec_Names L_Names L_Names2.
From Coq Require Import ZifyBool ZifyNat.
#[local] Arguments Z.mul : simpl never.
#[local] Arguments Z.add : simpl never.
#[local] Arguments Z.sub : simpl never.
#[local] Arguments Z.to_nat : simpl never.
#[local] Arguments Z.of_nat : simpl never.

Lemma one_suffix_run b n ds : b <> [] -> writes n ds -> one_suffix b (b ++ three_dots ++ ds).
Proof. intros Hb [D _]. split; [done|]. by exists ds. Qed.
Lemma writes_number_ex n ds : (1 <= n)%Z -> writes n ds -> exists d, d ∈ ds /\ d <> 48%Z.
Proof. intros Hn ((_ & D) & N & _). apply number_nonzero; [done|lia]. Qed.
Lemma dots_number n ds : (1 <= n)%Z -> writes n ds -> dotdot_number (three_dots ++ ds).
Proof.
  intros Hn W. exists three_dots, [], [], ds, []. rewrite app_nil_r. split_and!; try done; [by right|by left|apply W|].
  by eapply writes_number_ex.
Qed.

(** The two kinds of repaired names *)
Lemma repaired_at names out i (o : rstr) : repaired names out -> out !! i = Some o ->
  exists s b, names !! i = Some s /\ stem s b /\
    ((exists ds, writes (Z.of_nat i + 1) ds /\ o = Some (b ++ three_dots ++ ds)) \/ (b <> [] /\ o = Some b)).
Proof.
  intros (stems & S & L & H) Ho. pose proof (lookup_lt_Some _ _ _ Ho) as Hi. rewrite L in Hi.
  destruct (lookup_lt_is_Some_2 names i Hi) as [s Hs]. destruct (Forall2_lookup_l _ _ _ _ _ S Hs) as (b & Hb & Sb).
  exists s, b. split_and!; [done|done|].
  destruct (H i b Hb) as [(_ & ds & W & E)|(C & N & E)]; pose proof (eq_trans (eq_sym Ho) E) as Ex; injection Ex as ->.
  - left. by exists ds.
  - by right.
Qed.
Lemma stem_suffixed s b : stem s b -> b <> [] -> unsuffixed b.
Proof. intros [[_ ->]|(_ & _ & U & _)] Hb; done. Qed.

Lemma repaired_length names out : repaired names out -> length out = length names.
Proof. by intros (? & _ & L & _). Qed.
Lemma repaired_nonempty names out : repaired names out -> Forall (fun o : rstr => exists b, o = Some b /\ b <> []) out.
Proof.
  intros R. apply Forall_lookup. intros i o Ho. destruct (repaired_at _ _ _ _ R Ho) as (s & b & _ & _ & [(ds & W & ->)|(Hb & ->)]); [|eauto].
  eexists. split; [done|]. intros E. apply app_eq_nil in E as [_ E]. done.
Qed.
Lemma repaired_nodup names out : repaired names out -> NoDup out.
Proof.
  intros R. pose proof R as (stems & S & L & H). apply NoDup_alt. intros i j o Hi Hj.
  destruct (decide (i = j)) as [|Hne]; [done|exfalso].
  destruct (repaired_at _ _ _ _ R Hi) as (s & b & Hs & Sb & Ei). destruct (repaired_at _ _ _ _ R Hj) as (s' & b' & Hs' & Sb' & Ej).
  assert (mixed : forall b b' s ds k, stem s b' -> b' <> [] -> writes (Z.of_nat k + 1) ds -> b ++ three_dots ++ ds = b' -> False).
  { clear. intros b b' s ds k Sb' Hb' W E. destruct b as [|c b].
    - eapply stem_no_number; [exact Sb'|done|]. rewrite <-E. simpl app. change (dotdot_number (three_dots ++ ds)).
      eapply (dots_number (Z.of_nat k + 1)); [lia|done].
    - eapply stem_suffixed; [exact Sb'|done|]. rewrite <-E. by eapply one_suffix_run. }
  destruct Ei as [(ds & W & ->)|(Hb & ->)], Ej as [(ds' & W' & E)|(Hb' & E)].
  - assert (E' : b ++ three_dots ++ ds = b' ++ three_dots ++ ds') by (by injection E).
    apply one_suffix_inj in E' as [_ ->]; [|apply W|apply W']. destruct W as (_ & N & _), W' as (_ & N' & _). lia.
  - eapply (mixed b b'); [exact Sb'|done|exact W|by injection E].
  - eapply (mixed b' b); [exact Sb|done|exact W'|by injection E].
  - assert (b' = b) as -> by (by injection E). destruct (Forall2_lookup_l _ _ _ _ _ S Hs) as (x & Hx & Sx).
    destruct (Forall2_lookup_l _ _ _ _ _ S Hs') as (y & Hy & Sy).
    rewrite (stem_unique _ _ _ Sx Sb) in Hx. rewrite (stem_unique _ _ _ Sy Sb') in Hy.
    destruct (H i b Hx) as [(_ & ds & W & E2)|(_ & N & _)]; [|apply (N j); [done|done]].
    pose proof (eq_trans (eq_sym Hi) E2) as E3.
    assert (E4 : length b = length (b ++ three_dots ++ ds)) by (f_equal; congruence). rewrite app_length in E4. simpl in E4. lia.
Qed.

(** ** C34: the repaired names are distinct and not empty *)
Theorem C34_unique addr names : names_ok names ->
  exists out, vec_as_unique_names addr names = Ok out /\ length out = length names /\ NoDup out /\
    Forall (fun o : rstr => exists b, o = Some b /\ b <> []) out.
Proof.
  intros Ho. destruct (vec_as_unique_names_spec addr names Ho) as (out & E & R). exists out. split_and!; [done| | |].
  - by apply repaired_length.
  - by eapply repaired_nodup.
  - by eapply repaired_nonempty.
Qed.
Print Assumptions C34_unique.

(** ** C34: which names they are *)
Theorem C34_repaired addr names : names_ok names ->
  exists out, vec_as_unique_names addr names = Ok out /\ repaired names out /\ forall out', repaired names out' -> out' = out.
Proof.
  intros Ho. destruct (vec_as_unique_names_spec addr names Ho) as (out & E & R). exists out. split_and!; [done|done|].
  intros out' R'. by eapply repaired_unique.
Qed.
Print Assumptions C34_repaired.

(** ** C34: names that need no repair are left alone *)
Theorem C34_unchanged addr names : names_ok names -> NoDup names ->
  Forall (fun s => ~ replaced s /\ exists b, s = Some b /\ unsuffixed b) names ->
  vec_as_unique_names addr names = Ok names.
Proof.
  intros Ho N F. destruct (vec_as_unique_names_spec addr names Ho) as (out & E & R). rewrite E. f_equal.
  eapply repaired_unique; [exact R|]. by apply tidy_repaired.
Qed.
Print Assumptions C34_unchanged.

(** ** C34: a repaired name that is a number behind dots is its own position *)
Theorem C34_positions addr names : names_ok names ->
  exists out, vec_as_unique_names addr names = Ok out /\
    forall i b, out !! i = Some (Some b) -> dotdot_number b -> exists ds, writes (Z.of_nat i + 1) ds /\ b = three_dots ++ ds.
Proof.
  intros Ho. destruct (vec_as_unique_names_spec addr names Ho) as (out & E & R). exists out. split; [done|].
  intros i o Hi D. destruct (repaired_at _ _ _ _ R Hi) as (s & b & _ & Sb & [(ds & W & Eo)|(Hb & Eo)]); injection Eo as ->.
  - destruct b as [|c b]; [by exists ds|]. apply dotdot_number_suffix in D; [|done]. by eapply stem_no_number in D.
  - by eapply stem_no_number in D.
Qed.
Print Assumptions C34_positions.

(** ** Repairing repaired names *)
Definition restem (b : list Z) : list Z := if decide (b = three_dots) then [] else b.

Lemma not_replaced_suffixed s b ds : stem s b -> b <> [] -> ~ replaced (Some (b ++ three_dots ++ ds)).
Proof.
  intros Sb Hb [E|[E|D]].
  - by apply app_eq_nil in E as [-> _].
  - apply (f_equal (@length Z)) in E. rewrite !app_length in E. simpl in E. destruct b; [done|simpl in E; lia].
  - apply dotdot_number_suffix in D; [|done]. by eapply stem_no_number in D.
Qed.
Lemma stem_out names out i (o : rstr) s b : repaired names out -> out !! i = Some o -> names !! i = Some s -> stem s b ->
  (o <> Some three_dots -> stem o b).
Proof.
  intros R Ho Hs Sb Hd. destruct (repaired_at _ _ _ _ R Ho) as (s' & b' & Hs' & Sb' & E).
  assert (s' = s) as -> by (pose proof (eq_trans (eq_sym Hs') Hs) as Ex; by injection Ex).
  rewrite (stem_unique _ _ _ Sb' Sb) in *. clear Sb' b' Hs'.
  destruct E as [(ds & W & ->)|(Hb & ->)].
  - destruct b as [|c b].
    + left. split; [|done]. right. right. eapply (dots_number (Z.of_nat i + 1)); [lia|done].
    + right. split_and!; [by eapply not_replaced_suffixed|done|by eapply stem_suffixed|].
      eexists. split; [done|]. eapply suffixes_one; [apply suffixes_none|]. by eapply one_suffix_run.
  - right. split_and!; [|done|by eapply stem_suffixed|].
    + intros [?|[->|D]]; [done|done|]. by eapply stem_no_number in D.
    + exists b. split; [done|constructor].
Qed.

Lemma repaired_again names out : repaired names out -> Some three_dots ∉ (out : list rstr) -> repaired out out.
Proof.
  intros R Hd. pose proof R as (stems & S & L & H). exists stems. split_and!; [|done|done].
  apply Forall2_same_length_lookup_2.
  - rewrite L. by eapply Forall2_length.
  - intros i o b Ho Hb. destruct (Forall2_lookup_r _ _ _ _ _ S Hb) as (s & Hs & Sb).
    eapply stem_out; try done. intros ->. apply Hd. by eapply elem_of_list_lookup_2.
Qed.

(** Only names that are [...] with suffixes are repaired to [...]. *)
Lemma repaired_dots names out : repaired names out -> Some three_dots ∈ (out : list rstr) ->
  exists t, Some t ∈ (names : list rstr) /\ suffixes three_dots t /\ t <> three_dots.
Proof.
  intros R Hd. apply elem_of_list_lookup in Hd as (i & Hi).
  destruct (repaired_at _ _ _ _ R Hi) as (s & b & Hs & Sb & [(ds & W & Eo)|(Hb & Eo)]); injection Eo as Eo.
  - exfalso. apply (f_equal (@length Z)) in Eo. rewrite !app_length in Eo. simpl in Eo. destruct W as [[Hne _] _]. destruct ds; [done|simpl in Eo; lia].
  - subst b. destruct Sb as [[_ ?]|(NR & _ & U & t & -> & St)]; [done|]. exists t. split_and!; [by eapply elem_of_list_lookup_2|done|].
    intros ->. apply NR. right. by left.
Qed.

Lemma repaired_dots_gone names out out2 : repaired names out -> repaired out out2 -> Some three_dots ∉ (out2 : list rstr).
Proof.
  intros R R2 Hd. apply elem_of_list_lookup in Hd as (i & Hi). pose proof R2 as (st2 & S2 & L2 & H2). pose proof R as (st & S & L & H).
  destruct (repaired_at _ _ _ _ R2 Hi) as (o & b & Ho & Sb & [(ds & W & Eo)|(Hb & Eo)]); injection Eo as Eo.
  { apply (f_equal (@length Z)) in Eo. rewrite !app_length in Eo. simpl in Eo. destruct W as [[Hne _] _]. destruct ds; [done|simpl in Eo; lia]. }
  subst b. destruct (Forall2_lookup_l _ _ _ _ _ S2 Ho) as (b2 & Hb2 & Sb2). rewrite (stem_unique _ _ _ Sb2 Sb) in Hb2. clear Sb2 b2.
  assert (Ho3 : o <> Some three_dots).
  { intros ->. destruct Sb as [[_ ?]|(NR & _)]; [done|]. apply NR. right. by left. }
  destruct (repaired_at _ _ _ _ R Ho) as (s & b & Hs & Sb1 & E1).
  assert (b = three_dots) as ->.
  { eapply stem_unique; [|exact Sb]. exact (stem_out _ _ _ _ _ _ R Ho Hs Sb1 Ho3). }
  destruct (Forall2_lookup_l _ _ _ _ _ S Hs) as (b1 & Hb1 & Sb1'). rewrite (stem_unique _ _ _ Sb1' Sb1) in Hb1. clear Sb1' b1.
  destruct E1 as [(ds & W & ->)|(_ & ->)]; [|done].
  destruct (H i _ Hb1) as [([?|(j & Hj & Ej)] & _)|(_ & _ & E)]; [done| |].
  - destruct (Forall2_lookup_r _ _ _ _ _ S Ej) as (sj & Hsj & Sj).
    destruct (H j _ Ej) as [(_ & ds' & W' & E')|(_ & N & _)]; [|by destruct (N i (not_eq_sym Hj))].
    destruct (Forall2_lookup_l _ _ _ _ _ S2 E') as (bj & Hbj & Sbj).
    assert (bj = three_dots) as ->.
    { eapply stem_unique; [exact Sbj|]. eapply stem_out; [exact R|exact E'|exact Hsj|exact Sj|]. intros [=]. }
    destruct (H2 i _ Hb2) as [(_ & ds2 & W2 & E2)|(_ & N & _)].
    + pose proof (eq_trans (eq_sym Hi) E2) as E3. by apply (f_equal (fun o : option rstr => match o with Some (Some l) => length l | _ => 0 end)) in E3.
    + by destruct (N j Hj).
  - pose proof (eq_trans (eq_sym Ho) E) as E3. by apply (f_equal (fun o : option rstr => match o with Some (Some l) => length l | _ => 0 end)) in E3.
Qed.

Lemma names_short_ok names : names_short names -> names_ok names.
Proof. intros [F L]. split; [|done]. eapply Forall_impl; [exact F|]. intros [s|]; simpl; [|done]. intros [? ?]. split; [done|lia]. Qed.

(** Each repair adds at most 13 bytes. *)
Definition room (k : Z) (names : list rstr) : Prop :=
  Forall (fun s : rstr => match s with None => True | Some s => Forall (fun c => 0 < c < 256)%Z s /\ (Z.of_nat (length s) + k <= INT_MAX)%Z end) names /\
  (Z.of_nat (length names) <= INT_MAX)%Z.
Lemma repaired_room names out k : (13 <= k)%Z -> room k names -> repaired names out -> (k <= INT_MAX)%Z -> room (k - 13) out.
Proof.
  intros Hk [F L] R HkM. split; [|by rewrite (repaired_length _ _ R)]. apply Forall_lookup. intros i o Ho.
  assert (Hi : i < length names) by (rewrite <-(repaired_length _ _ R); by eapply lookup_lt_Some).
  destruct (repaired_at _ _ _ _ R Ho) as (s & b & Hs & Sb & E).
  pose proof (proj1 (Forall_lookup _ _) F _ _ Hs) as Fs. simpl in Fs.
  assert (Hb : Forall (fun c => 0 < c < 256)%Z b /\ (Z.of_nat (length b) + k <= INT_MAX)%Z).
  { destruct Sb as [[_ ->]|(_ & _ & _ & t & -> & St)]; [simpl; split; [done|lia]|].
    apply suffixes_prefix in St as (r & ->). destruct Fs as [F1 F2]. apply Forall_app in F1 as [F1 _]. rewrite app_length in F2. split; [done|lia]. }
  destruct E as [(ds & W & ->)|(_ & ->)]; [|split; [by apply Hb|destruct Hb; lia]].
  assert (Hd : length ds <= 10 /\ Forall (fun c => 0 < c < 256)%Z ds).
  { destruct (decimal_spec (Z.of_nat i + 1)) as (ds' & _ & W' & Hl'); [lia|]. rewrite (writes_unique _ _ _ W W'). split; [done|].
    destruct W' as [[_ D] _]. eapply Forall_impl; [exact D|]. unfold is_digit. simpl. lia. }
  destruct Hb as [B1 B2], Hd as [D1 D2]. rewrite !Forall_app, !app_length. simpl. split_and!; [done| |done|lia].
  unfold three_dots. repeat constructor.
Qed.
Lemma room_ok k names : (28 <= k)%Z -> room k names -> names_ok names.
Proof. intros Hk [F L]. split; [|done]. eapply Forall_impl; [exact F|]. intros [s|]; simpl; [|done]. intros [? ?]. split; [done|lia]. Qed.
Lemma short_room names : names_short names -> room 56 names.
Proof. done. Qed.

(** ** C34: repair is idempotent.

    The full statement, without the second hypothesis, is refuted below: a name
    that is [...] followed by suffixes (such as [......1]) may be stripped to
    [...], which the next repair replaces. *)
Theorem C34_idempotent_partial addr names : names_short names ->
  Forall (fun s : rstr => forall t, s = Some t -> suffixes three_dots t -> t = three_dots) names ->
  exists out, vec_as_unique_names addr names = Ok out /\ vec_as_unique_names addr out = Ok out.
Proof.
  intros Hs F. destruct (vec_as_unique_names_spec addr names (names_short_ok _ Hs)) as (out & E & R). exists out. split; [done|].
  assert (Ho : names_ok out).
  { apply (room_ok (56 - 13)); [lia|]. eapply repaired_room; [lia|by apply short_room|done|unfold INT_MAX; lia]. }
  destruct (vec_as_unique_names_spec addr out Ho) as (out2 & E2 & R2). rewrite E2. f_equal.
  eapply repaired_unique; [exact R2|]. eapply repaired_again; [exact R|]. intros Hd.
  destruct (repaired_dots _ _ R Hd) as (t & Ht & St & Hne). rewrite Forall_forall in F. apply Hne. by eapply F.
Qed.
Print Assumptions C34_idempotent_partial.

(** ** C34: the second repair is always the last *)
Theorem C34_twice addr names : names_short names ->
  exists out out2, vec_as_unique_names addr names = Ok out /\ vec_as_unique_names addr out = Ok out2 /\
    vec_as_unique_names addr out2 = Ok out2.
Proof.
  intros Hs. destruct (vec_as_unique_names_spec addr names (names_short_ok _ Hs)) as (out & E & R).
  assert (Ho : room (56 - 13) out) by (eapply repaired_room; [lia|by apply short_room|done|unfold INT_MAX; lia]).
  destruct (vec_as_unique_names_spec addr out (room_ok (56 - 13) _ ltac:(lia) Ho)) as (out2 & E2 & R2).
  assert (Ho2 : room (56 - 13 - 13) out2) by (eapply repaired_room; [lia|done|done|unfold INT_MAX; lia]).
  destruct (vec_as_unique_names_spec addr out2 (room_ok (56 - 13 - 13) _ ltac:(lia) Ho2)) as (out3 & E3 & R3).
  exists out, out2. split_and!; [done|done|]. rewrite E3. f_equal. eapply repaired_unique; [exact R3|].
  eapply repaired_again; [exact R2|]. exact (repaired_dots_gone _ _ _ R R2).
Qed.
Print Assumptions C34_twice.

(** ** C34: names made from nothing *)
Lemma r_chr_iota_spec n len prefix : (Z.of_nat (length prefix) <= INT_MAX)%Z -> (Z.of_nat (length prefix) + 11 <= len)%Z ->
  (Z.of_nat n <= INT_MAX)%Z ->
  exists out, r_chr_iota n len prefix = Ok (Some out) /\ length out = n /\
    forall i, i < n -> exists ds, writes (Z.of_nat i + 1) ds /\ out !! i = Some (Some (prefix ++ ds)).
Proof.
  intros Hp Hl Hn. unfold r_chr_iota, strlen_int. destruct (Z.leb_spec (Z.of_nat (length prefix)) INT_MAX); [|lia]. cbn [bind].
  destruct (Z.ltb_spec (len - 1) (Z.of_nat (length prefix))); [lia|].
  edestruct (for_brk_inv (fun k (o : option (list rstr)) => exists out, o = Some out /\ length out = n /\
      forall i, i < k -> exists ds, writes (Z.of_nat i + 1) ds /\ out !! i = Some (Some (prefix ++ ds)))
    (fun o => exists out, o = Some out /\ length out = n /\
      forall i, i < n -> exists ds, writes (Z.of_nat i + 1) ds /\ out !! i = Some (Some (prefix ++ ds)))
    0 n) as (o & E & (out & -> & Ho)); [| | |exists out; split; [exact E|exact Ho]].
  - exists (replicate n empty_str). split_and!; [done|apply replicate_length|]. intros; lia.
  - intros i o Hi (out & -> & Hlo & HI). left. unfold int_plus1. destruct (Z.ltb_spec (Z.of_nat i) INT_MAX); [|lia]. cbn [bind].
    destruct (decimal_spec (Z.of_nat i + 1)) as (ds & -> & W & Ld); [lia|]. cbn [bind].
    destruct (Z.leb_spec (len - Z.of_nat (length prefix)) (Z.of_nat (length ds))); [lia|].
    assert (Hw : wr out i (Some (prefix ++ ds) : rstr) = Ok (<[i := (Some (prefix ++ ds) : rstr)]> out)) by (apply wr_Ok; lia).
    eexists. split; [exact (f_equal (fun m => bind m (fun l => Ok (Next (Some l)))) Hw)|].
    eexists. split_and!; [done|by rewrite insert_length|].
    intros j Hj. destruct (decide (j = i)) as [->|].
    + exists ds. split; [done|]. exact (list_lookup_insert out i _ ltac:(lia)).
    + rewrite list_lookup_insert_ne by done. apply HI. lia.
  - intros o (out & -> & Hlo & HI). exists out. split_and!; [done|done|]. intros i Hi. apply HI. lia.
Qed.

(** Missing names are named by their position, and repair leaves such names alone. *)
Theorem C34_iota addr n : (Z.of_nat n <= INT_MAX)%Z ->
  exists out, vec_unique_names_impl addr None n = Ok out /\ length out = n /\
    (forall i, i < n -> exists ds, writes (Z.of_nat i + 1) ds /\ out !! i = Some (Some (three_dots ++ ds))) /\
    vec_as_unique_names addr out = Ok out.
Proof.
  intros Hn. unfold vec_unique_names_impl, names_iota.
  destruct (r_chr_iota_spec n MAX_IOTA_SIZE dots3) as (out & -> & Hl & H); [unfold INT_MAX; simpl; lia|unfold MAX_IOTA_SIZE; simpl; lia|done|].
  cbn [bind]. exists out. split_and!; [done|done|exact H|].
  assert (Ho : names_ok out).
  { split; [|by rewrite Hl]. apply Forall_lookup. intros i o Hi. assert (Hin : i < n) by (rewrite <-Hl; by eapply lookup_lt_Some).
    destruct (H i Hin) as (ds & W & E). pose proof (eq_trans (eq_sym Hi) E) as Ex. injection Ex as ->.
    destruct (decimal_spec (Z.of_nat i + 1)) as (ds' & _ & W' & Hl'); [lia|]. rewrite (writes_unique _ _ _ W W').
    simpl. split; [|unfold INT_MAX; lia]. repeat constructor; try lia.
    destruct W' as [[_ D] _]. eapply Forall_impl; [exact D|]. unfold is_digit. simpl. lia. }
  destruct (vec_as_unique_names_spec addr out Ho) as (out2 & E2 & R2). rewrite E2. f_equal.
  eapply repaired_unique; [exact R2|]. exists (replicate n []). split_and!; [|done|].
  - apply Forall2_same_length_lookup_2; [by rewrite replicate_length|]. intros i o b Hi Hb.
    apply lookup_replicate in Hb as [-> Hin]. destruct (H i Hin) as (ds & W & E).
    pose proof (eq_trans (eq_sym Hi) E) as Ex. injection Ex as ->. left. split; [|done]. right. right.
    eapply (dots_number (Z.of_nat i + 1)); [lia|done].
  - intros i b Hb. apply lookup_replicate in Hb as [-> Hin]. left. split; [by left|]. by apply H.
Qed.
Print Assumptions C34_iota.

(** ** C34: minimal names: only missing names change, to the empty name *)
Theorem C34_minimal (names : list rstr) : as_minimal_names names = Ok (map (fun s : rstr => match s with None => Some [] | Some b => Some b end : rstr) names).
Proof.
  set (f := fun s : rstr => match s with None => Some [] | Some b => Some b end : rstr).
  assert (Hf : forall s : rstr, s <> (None : rstr) -> f s = s) by (intros [s|]; done).
  unfold as_minimal_names.
  destruct (for_brk_inv (fun k i => i = k /\ forall j (s : rstr), j < k -> names !! j = Some s -> s <> (None : rstr))
    (fun i => i <= length names /\ forall j (s : rstr), j < i -> names !! j = Some s -> s <> (None : rstr)) 0 (length names)
    (fun j i => let! s := rd names j in Ok (if str_ptr_eqb s None then Break j else Next (j + 1))) 0) as (i & -> & Hi & H).
  - split; [done|]. intros; lia.
  - intros k i Hk (-> & H). destruct (lookup_lt_is_Some_2 names k ltac:(lia)) as [s Hs]. rewrite (rd_str _ _ _ Hs). cbn [bind].
    destruct (str_ptr_eqb s None) eqn:E; [right|left].
    + eexists. split; [done|]. split; [lia|done].
    + eexists. split; [done|]. split; [lia|]. intros j t Hj Ht. destruct (decide (j = k)) as [->|]; [|eapply H; [|done]; lia].
      assert (t = s) as -> by congruence. intros ->. done.
  - intros i (-> & H). split; [lia|done].
  - cbn [bind]. destruct (Nat.eqb_spec i (length names)) as [->|Hne].
    { f_equal. symmetry. apply list_eq_same_length with (length names); [done|by rewrite map_length|]. intros j x y Hj Hx Hy.
      rewrite list_lookup_fmap in Hx. rewrite Hy in Hx. injection Hx as <-. apply Hf. by eapply H. }
    destruct (for_inv (fun k (out : list rstr) => length out = length names /\
        (forall j (s : rstr), j < k -> names !! j = Some s -> out !! j = Some (f s)) /\
        (forall j (s : rstr), k <= j -> names !! j = Some s -> out !! j = Some s)) i (length names - i)
      (fun j out => let! s := rd names j in if str_ptr_eqb s None then wr out j empty_str else Ok out) names) as (out & -> & Hl & H1 & _).
    + split_and!; [done| |done]. intros j s Hj Hs. rewrite Hf; [done|]. by eapply H.
    + intros k out Hk (Hl & H1 & H2). destruct (lookup_lt_is_Some_2 names k ltac:(lia)) as [s Hs]. rewrite (rd_str _ _ _ Hs). cbn [bind].
      destruct (str_ptr_eqb s None) eqn:E.
      * apply str_ptr_eqb_spec in E. subst s. rewrite wr_Ok by lia. eexists. split; [done|]. split_and!.
        -- by rewrite insert_length.
        -- intros j s Hj Hs'. destruct (decide (j = k)) as [->|].
           ++ assert (s = (None : rstr)) as -> by congruence. by rewrite list_lookup_insert by lia.
           ++ rewrite list_lookup_insert_ne by done. apply H1; [lia|done].
        -- intros j s Hj Hs'. rewrite list_lookup_insert_ne by lia. apply H2; [lia|done].
      * eexists. split; [done|]. split_and!; [done| |intros j s' Hj; apply H2; lia].
        intros j s' Hj Hs'. destruct (decide (j = k)) as [->|]; [|apply H1; [lia|done]].
        assert (s' = s) as -> by congruence. rewrite Hf; [by apply H2|]. intros ->. done.
    + f_equal. apply list_eq_same_length with (length names); [by rewrite map_length|done|]. intros j x y Hj Hx Hy.
      destruct (lookup_lt_is_Some_2 names j Hj) as [s Hs]. rewrite (H1 j s) in Hx by (lia || done).
      rewrite list_lookup_fmap, Hs in Hy. simpl in Hy. congruence.
Qed.
Print Assumptions C34_minimal.

(** ** Examples *)
Definition nm_addr (s : rstr) : Z := match s with Some (c :: _) => 1000 + 16 * c | Some [] => 16 | None => 32 end%Z.
Definition nm (s : list Z) : rstr := Some s.
(** "a", "a", "b...2", NA, "", "..1", "b", "a...x" *)
Definition ex_names : list rstr :=
  [nm [97]; nm [97]; nm [98;46;46;46;50]; None; nm []; nm [46;46;49]; nm [98]; nm [97;46;46;46;120]]%Z.
(** "a...1", "a...2", "b...3", "...4", "...5", "...6", "b...7", "a...x" *)
Definition ex_names_out : list rstr :=
  [nm [97;46;46;46;49]; nm [97;46;46;46;50]; nm [98;46;46;46;51]; nm [46;46;46;52]; nm [46;46;46;53]; nm [46;46;46;54];
   nm [98;46;46;46;55]; nm [97;46;46;46;120]]%Z.
Example C34_ex : vec_as_unique_names nm_addr ex_names = Ok ex_names_out.
Proof. vm_compute. reflexivity. Qed.
Example C34_ex_again : vec_as_unique_names nm_addr ex_names_out = Ok ex_names_out.
Proof. vm_compute. reflexivity. Qed.
Lemma ex_names_short : names_short ex_names.
Proof. split; [|done]. unfold ex_names, nm. repeat (apply Forall_cons; split; [|]); try apply Forall_nil; simpl; try done; (split; [repeat constructor|done]). Qed.
Example C34_ex_unique : exists out, vec_as_unique_names nm_addr ex_names = Ok out /\ length out = 8 /\ NoDup out /\
  Forall (fun o : rstr => exists b, o = Some b /\ b <> []) out.
Proof. apply (C34_unique nm_addr ex_names). apply names_short_ok, ex_names_short. Qed.
Lemma ex_no_dots : Forall (fun s : rstr => forall t, s = Some t -> suffixes three_dots t -> t = three_dots) ex_names.
Proof.
  unfold ex_names, nm. repeat apply Forall_cons_2; [..|apply Forall_nil_2]; intros t Et S; try discriminate Et; injection Et as <-;
    apply suffixes_prefix in S as (r & E); discriminate E.
Qed.
Example C34_ex_idempotent : exists out, vec_as_unique_names nm_addr ex_names = Ok out /\ vec_as_unique_names nm_addr out = Ok out.
Proof. exact (C34_idempotent_partial nm_addr ex_names ex_names_short ex_no_dots). Qed.
(** Already unique: "x", "y", "a...x" *)
Definition ex_tidy : list rstr := [nm [120]; nm [121]; nm [97;46;46;46;120]]%Z.
Example C34_ex_unchanged : vec_as_unique_names nm_addr ex_tidy = Ok ex_tidy.
Proof. vm_compute. reflexivity. Qed.

(** "......1": six dots and a digit *)
Definition six_dots_1 : rstr := nm [46;46;46;46;46;46;49]%Z.
Lemma six_dots_short : names_short [six_dots_1].
Proof. split; [|done]. apply Forall_singleton. simpl. split; [repeat constructor|done]. Qed.
(** Repair is not idempotent: it returns [...], a banned name, which the next
    repair turns into [...1]. *)
Theorem C34_idempotent_refuted : exists names out out2, names_short names /\
  vec_as_unique_names nm_addr names = Ok out /\ vec_as_unique_names nm_addr out = Ok out2 /\ out2 <> out.
Proof. exists [six_dots_1], [Some three_dots], [nm [46;46;46;49]%Z]. split_and!; [apply six_dots_short|vm_compute; reflexivity|vm_compute; reflexivity|done]. Qed.
Print Assumptions C34_idempotent_refuted.

(** A name of two dots and digits is documented as banned, but [..0] is kept. *)
Theorem C34_banned_refuted : exists names out, names_short names /\ vec_as_unique_names nm_addr names = Ok out /\
  exists ds, digit_run ds /\ Some ([46; 46]%Z ++ ds) ∈ (out : list rstr).
Proof.
  exists [nm [46;46;48]%Z], [nm [46;46;48]%Z]. split_and!.
  - split; [|done]. apply Forall_singleton. simpl. split; [repeat constructor|done].
  - vm_compute; reflexivity.
  - exists [48%Z]. split; [|by apply elem_of_list_singleton]. split; [done|]. apply Forall_singleton. unfold is_digit. lia.
Qed.
Print Assumptions C34_banned_refuted.
