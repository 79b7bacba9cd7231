(** * Lemmas: the loops of [list_unchop] and [vec_c] *)
From Verif Require Import Base M_Double M_Scalar M_Object M_Proxy M_Slice Spec_Slice M_Rep Spec_Rep M_Subscript Spec_Subscript M_Chop Spec_Chop
  L_Slice L_SliceArray L_Assign L_Value L_SliceVal L_Rep L_Recycle L_Chop L_Chop2.
From Coq Require Import Lia ZifyBool ZifyNat.
#[local] Arguments Z.mul : simpl never.
#[local] Arguments Z.add : simpl never.
#[local] Arguments Z.sub : simpl never.
#[local] Arguments Z.max : simpl never.

(** ** Minimal names *)
Definition tidy (v : value) : value := with_names (no_na_names (top_names v)) v.
Definition tidy_str (s : rstr) : rstr := match s with None => empty_str | Some _ => s end.
Lemma pick_tidy l i : pick empty_str (map tidy_str l) i = tidy_str (pick empty_str l i).
Proof.
  unfold pick. destruct (i =? NA_INTEGER)%Z; [done|]. change empty_str with (tidy_str empty_str) at 1. by rewrite map_nth.
Qed.
Lemma tidy_slice L v : tidy (slice_val L v) = slice_val L (tidy v).
Proof.
  destruct v as [t data [nm|]|t dim data|k names cols]; try done; [|destruct dim; done].
  unfold tidy. simpl. f_equal. f_equal. rewrite !map_map. apply map_ext. intros i. symmetry. apply pick_tidy.
Qed.
Lemma tidy_full v : full (tidy v) = tidy (full v).
Proof.
  destruct v as [t data [nm|]|t dim data|k names cols]; try done. unfold tidy. simpl. f_equal. f_equal.
  induction (length data) as [|n IH]; [done|]. simpl. by rewrite <- IH.
Qed.
Lemma tidy_unnamed v : unnamed (tidy v) = unnamed v. Proof. by destruct v. Qed.
Lemma unnamed_with_names nm v : unnamed (with_names nm v) = unnamed v. Proof. by destruct v. Qed.
Lemma with_names_size nm v : value_size (with_names nm v) = value_size v. Proof. by destruct v. Qed.
Lemma strip_slice L v : strip (slice_val L v) = slice_val L (strip v).
Proof. by destruct v as [t data [nm|]|t [|? ?] data|k names cols]. Qed.
Lemma vec_names_top v : vec_names v = top_names v. Proof. by destruct v. Qed.
Lemma with_names_ok v nm : value_ok v -> match nm with None => True | Some n => Z.of_nat (length n) = value_size v end -> value_ok (with_names nm v).
Proof.
  destruct v as [t data names|t dim data|k names cols]; simpl; try done. intros H Hn. apply value_ok_vec in H as (H1 & H2 & H3).
  constructor; [done| |done]. destruct nm; [|done]. lia.
Qed.
Lemma strip_ok v : value_ok v -> value_ok (strip v).
Proof. intros. by apply with_names_ok. Qed.
Lemma top_names_len v n : value_ok v -> top_names v = Some n -> Z.of_nat (length n) = value_size v.
Proof.
  destruct v as [t data names|t dim data|k names cols]; simpl; try done. intros H ->. apply value_ok_vec in H as (H1 & H2 & H3). lia.
Qed.

(** ** The blank start *)
Definition start_val (p : value) (n : nat) : value := slice_val (replicate n NA_INTEGER) p.
Lemma slice_na_rows p (n : nat) l : value_ok p -> l = NA_INTEGER \/ in_rows (Z.of_nat n) l ->
  slice_val [l] (start_val p n) = slice_val [NA_INTEGER] p.
Proof.
  intros Hp Hl. unfold start_val. rewrite slice_val_slice_val; [|done|].
  - f_equal. unfold compose_locs. simpl. f_equal. unfold pick. destruct Hl as [->|Hl]; [done|].
    destruct (Z.eqb_spec l NA_INTEGER); [done|]. unfold in_rows in Hl. rewrite nth_lookup, lookup_replicate_2 by lia. done.
  - apply Forall_singleton. rewrite replicate_length. destruct Hl as [->|Hl]; [by left|by right].
Qed.
Lemma start_blank p (n : nat) l : value_ok p -> in_rows (Z.of_nat n) l -> blank (strip (start_val p n)) l.
Proof.
  intros Hp Hl. unfold blank, start_val. rewrite strip_slice, full_slice.
  change (slice_val (replicate n NA_INTEGER) (full (strip p))) with (start_val (full (strip p)) n).
  rewrite !slice_na_rows; [done|apply full_ok, strip_ok, Hp|by left|apply full_ok, strip_ok, Hp|by right].
Qed.

(** ** Steps *)
Definition dummy (c : value) (nm : option (list rstr)) : list Z * value := ([], with_names nm (unnamed (slice_val [] c))).
(** The state of the loops. *)
Definition comb (pn : option (list rstr)) (c : value) : value * option (list rstr) := (with_names pn c, top_names c).

Lemma puts_nil {A} (x : list A) vals : puts x [] vals = x.
Proof. by destruct vals. Qed.
Lemma shaped_assigned_nil {A} (data : list A) d m vals : length data = m * d -> shaped_assigned data d m [] vals = data.
Proof.
  intros Hl. unfold shaped_assigned. rewrite (flat_map_ext_in _ (fun e => chunk d e data)); [by apply shape_chunks|].
  intros e _. apply puts_nil.
Qed.
Lemma assign_nil c : forall u, value_ok c -> proto_of c u -> assign_valn [] c (unnamed u) = c.
Proof.
  induction c as [t data names|t dim data|n names cols IH] using value_ind'; intros u Hc Hp; inversion Hp; subst.
  - simpl. by rewrite puts_nil.
  - apply value_ok_arr in Hc as (_ & Hd & Hl). simpl. rewrite shaped_assigned_nil; [done|]. by apply dim_len.
  - apply value_ok_df in Hc as (_ & _ & _ & Hc). cbn [unnamed]. rewrite assign_valn_df. f_equal.
    clear Hp. match goal with H : Forall2 _ _ _ |- _ => rename H into HF end.
    induction HF as [|a b l k Hab HF IHF]; [done|]. apply Forall_cons in IH as [I1 I2], Hc as [C1 C2]. simpl. rewrite I1 by done. f_equal. by apply IHF.
Qed.
Lemma assign_nil_names c nm u : value_ok c -> proto_of c u ->
  assign_valn [] c (with_names nm (unnamed u)) = with_names (name_puts (Z.to_nat (value_size c)) (top_names c) [] nm) c.
Proof.
  intros Hc Hp. destruct Hp as [t a na b nb|t d d' dim a b|n names cols m cols' H].
  - simpl. rewrite puts_nil, Nat2Z.id. done.
  - apply (assign_nil _ (VArr t (d' :: dim) b)); [done|constructor].
  - apply (assign_nil _ (VDf m names cols')); [done|by constructor].
Qed.
Lemma proto_un v : value_ok v -> proto_of v (unnamed v).
Proof.
  induction v as [t data names|t dim data|n names cols IH] using value_ind'; intros Hv; [constructor| |].
  - apply value_ok_arr in Hv as (_ & Hd & _). simpl. destruct dim; [by destruct Hd|constructor].
  - apply value_ok_df in Hv as (_ & _ & _ & Hv). constructor. induction IH; simpl; [constructor|]. apply Forall_cons in Hv as [? ?]. constructor; auto.
Qed.
Lemma dummy_ok c0 c nm : value_ok c0 -> value_ok c -> proto_of c0 c -> value_size c0 = value_size c ->
  match nm with None => True | Some n => n = [] end -> shape_fits 0 c0 -> step_ok c (dummy c0 nm).
Proof.
  intros H0 Hc Hp Hs Hnm Hf. unfold step_ok, dummy. cbn [fst snd].
  assert (Hz : value_size (unnamed (slice_val [] c0)) = 0%Z) by (by rewrite unnamed_size, slice_val_size).
  split.
  { apply with_names_ok; [|rewrite Hz; by destruct nm as [? |]; subst].
    apply unnamed_ok, slice_val_ok; [done|done|done]. }
  split.
  { apply proto_with_names. eapply proto_trans; [apply proto_sym, Hp|]. rewrite unnamed_slice.
    eapply proto_trans; [|apply proto_slice, unnamed_ok, H0]. by apply proto_un. }
  split; [by rewrite with_names_size, Hz|constructor].
Qed.

(** One iteration. *)
Lemma comb_step pn c s r w :
  value_ok c -> match pn with None => True | Some n => Z.of_nat (length n) = value_size c end ->
  prepared c r w -> value_size r = Z.of_nat (length (expand s)) -> subscript_ok (value_size c) s -> (forall i n, s <> SRep i n) ->
  let c' := place c (expand s, with_names (top_names r) w) in
  match vec_names r with
  | None => Ok (top_names c)
  | Some nms =>
      let o := match top_names c with None => replicate (Z.to_nat (value_size c)) empty_str | Some o => o end in
      let! o := assign_base o s nms in
      Ok (Some o)
  end = Ok (top_names c') /\
  vec_proxy_assign_opts true (with_names pn c) s w = Ok (with_names pn c').
Proof.
  intros Hc Hpn (Hr & Hw & Hp & Hsz & Hnm) Hlen Hs Hrep c'. rewrite vec_names_top. split.
  - destruct Hp as [t a na b nb|t d d' dim a b|n names cols m cols' H].
    + unfold c', place. simpl. destruct (top_names r) as [nms|] eqn:Er; [|done].
      pose proof (top_names_len _ _ Hr Er) as Hl. apply value_ok_vec in Hc as (_ & Hn & _).
      assert (E : length (match na with None => replicate (Z.to_nat (Z.of_nat (length a))) empty_str | Some o => o end) = length a).
      { destruct na; [simpl in Hn; lia|]. rewrite replicate_length. lia. }
      rewrite assign_base_spec; [|by rewrite E|lia|done]. cbn [bind name_puts]. by rewrite Nat2Z.id.
    + simpl in Hnm. rewrite Hnm. done.
    + simpl in Hnm. rewrite Hnm. unfold c', place. simpl snd. cbn [with_names]. rewrite assign_valn_df. done.
  - rewrite assign_opts_spec; [|by apply with_names_ok|done| |lia|by rewrite with_names_size|done].
    + f_equal. unfold c', place. by destruct Hp.
    + apply proto_type in Hp. destruct Hp; simpl; by constructor.
Qed.

(** ** What the loops compute *)
Lemma choose {A B C} (R : A -> B -> C -> Prop) (l1 : list A) (l2 : list B) : length l1 = length l2 ->
  (forall i a b, l1 !! i = Some a -> l2 !! i = Some b -> exists y, R a b y) ->
  exists ys, length ys = length l1 /\ forall i a b, l1 !! i = Some a -> l2 !! i = Some b -> exists y, ys !! i = Some y /\ R a b y.
Proof.
  revert l2. induction l1 as [|a l1 IH]; intros [|b l2] Hl H; try done; [by exists []|].
  destruct (H 0 a b) as [y Hy]; [done|done|]. destruct (IH l2) as (ys & L & Hys); [by injection Hl|intros i; apply (H (S i))|].
  exists (y :: ys). split; [simpl; by f_equal|]. intros [|i] a' b' Ha Hb; [|by apply Hys].
  injection Ha as <-. injection Hb as <-. by exists y.
Qed.

(** [sus] are the assignments made for the blocks [locss] from [ys]. *)
Definition steps_of (locss : list (list Z)) (ys : list source) (sus : list (list Z * value)) : Prop :=
  length sus = length ys /\ length locss = length ys /\
  forall i loc y su, locss !! i = Some loc -> ys !! i = Some y -> sus !! i = Some su ->
    match y with None => su.1 = [] | Some (r, w) => su = (loc, with_names (top_names r) w) end.
Lemma steps_cover locss ys sus j su l : steps_of locss ys sus -> sus !! j = Some su -> l ∈ su.1 -> covers locss ys j l.
Proof.
  intros (H1 & H2 & H) Hj Hl. assert (Hlt : j < length sus) by (apply lookup_lt_is_Some; eauto).
  destruct (lookup_lt_is_Some_2 locss j) as [loc Hloc]; [lia|]. destruct (lookup_lt_is_Some_2 ys j) as [y Hy]; [lia|].
  specialize (H _ _ _ _ Hloc Hy Hj). destruct y as [[r w]|].
  - subst su. exists loc, (r, w). done.
  - rewrite H in Hl. by apply elem_of_nil in Hl.
Qed.
Lemma filter_concat_app (P : Z -> Prop) `{forall x, Decision (P x)} a (l : list (list Z)) : filter P (concat (a :: l)) = filter P a ++ filter P (concat l).
Proof. simpl. apply filter_app. Qed.
Lemma steps_no_overlap locss ys sus : steps_of locss ys sus -> no_overlap locss -> no_overlap (map fst sus).
Proof.
  revert ys sus. unfold no_overlap. induction locss as [|loc locss IH]; intros [|y ys] [|su sus] (H1 & H2 & H) Hno; try done.
  cbn [map]. rewrite filter_concat_app. rewrite filter_concat_app in Hno. apply NoDup_app in Hno as (N1 & N2 & N3).
  assert (Ht : steps_of locss ys sus).
  { split; [by injection H1|]. split; [by injection H2|]. intros i. apply (H (S i)). }
  specialize (IH _ _ Ht N3). pose proof (H 0 loc y su eq_refl eq_refl eq_refl) as Hy.
  apply NoDup_app. destruct y as [[r w]|].
  - subst su. cbn [fst]. split; [done|]. split; [|done]. intros l Hl Hin. apply (N2 l Hl).
    apply elem_of_list_filter in Hin as [Hn Hin]. apply elem_of_list_filter. split; [done|].
    apply elem_of_list_In, in_concat in Hin as (x & Hx & Hin). apply elem_of_list_In, in_concat.
    apply in_map_iff in Hx as (su & <- & Hsu). apply elem_of_list_In, elem_of_list_lookup in Hsu as [j Hj].
    destruct (steps_cover _ _ _ _ _ l Ht Hj) as (loc' & rw & A & B & C); [by apply elem_of_list_In|].
    exists loc'. split; [apply elem_of_list_In; by eapply elem_of_list_lookup_2|by apply elem_of_list_In].
  - rewrite Hy. split; [constructor|]. split; [|done]. intros l Hl. by apply elem_of_nil in Hl.
Qed.
Lemma no_overlap_unique locss i j (k k' : nat) loc loc' l : no_overlap locss -> l <> NA_INTEGER ->
  locss !! i = Some loc -> loc !! k = Some l -> locss !! j = Some loc' -> loc' !! k' = Some l -> i = j /\ k = k'.
Proof.
  unfold no_overlap. revert i j. induction locss as [|a locss IH]; intros i j Hno Hna Hi Hk Hj Hk'; [done|].
  rewrite filter_concat_app in Hno. apply NoDup_app in Hno as (N1 & N2 & N3).
  assert (Hin : forall j0 (k0 : nat) (q : list Z), locss !! j0 = Some q -> q !! k0 = Some l -> l ∈ filter (fun l => l <> NA_INTEGER) (concat locss)).
  { intros j0 k0 q Hq Hl. apply elem_of_list_filter. split; [done|]. apply elem_of_list_In, in_concat. exists q.
    split; apply elem_of_list_In; by eapply elem_of_list_lookup_2. }
  assert (Ha : forall (k0 : nat), a !! k0 = Some l -> l ∈ filter (fun l => l <> NA_INTEGER) a).
  { intros k0 Hl. apply elem_of_list_filter. split; [done|]. by eapply elem_of_list_lookup_2. }
  destruct i as [|i], j as [|j]; simpl in *.
  - injection Hi as <-. injection Hj as <-. split; [done|].
    clear -N1 Hk Hk' Hna. revert k k' Hk Hk'. induction a as [|e a IH]; intros k k' Hk Hk'; [done|].
    rewrite filter_cons in N1. destruct k as [|k], k' as [|k']; simpl in *; [done| | |].
    + injection Hk as ->. rewrite decide_True in N1 by done. apply NoDup_cons in N1 as [N1 _]. exfalso. apply N1.
      apply elem_of_list_filter. split; [done|]. by eapply elem_of_list_lookup_2.
    + injection Hk' as ->. rewrite decide_True in N1 by done. apply NoDup_cons in N1 as [N1 _]. exfalso. apply N1.
      apply elem_of_list_filter. split; [done|]. by eapply elem_of_list_lookup_2.
    + f_equal. apply IH; try done. case_decide; [by apply NoDup_cons in N1 as [_ ?]|done].
  - injection Hi as <-. exfalso. apply (N2 l); [by eapply Ha|by eapply Hin].
  - injection Hj as <-. exfalso. apply (N2 l); [by eapply Ha|by eapply Hin].
  - destruct (IH i j) as [-> ->]; done.
Qed.

(** ** The result *)
Definition blank_names (n : nat) (pn : option (list rstr)) : Prop := pn = None \/ pn = Some (replicate n empty_str).
Lemma start_names p n : blank_names n (top_names (start_val p n)).
Proof.
  unfold start_val. destruct p as [t data [nm|]|t [|d dim] data|k names cols]; try (by left). right. simpl. f_equal.
  induction n as [|n IH]; [done|]. simpl. by rewrite IH.
Qed.
Lemma finish_spec n pn c : value_ok c -> value_size c = Z.of_nat n -> blank_names n pn ->
  let out := finish_names (with_names pn c) (top_names c) in
  full out = full (tidy c) /\ unnamed out = unnamed c /\ value_ok out /\ value_size out = Z.of_nat n /\
  (forall p, proto_of p c -> proto_of p out) /\ (pn = None -> out = tidy c).
Proof.
  intros Hc Hn Hb out.
  assert (Hpn : match pn with None => True | Some m => length m = n end).
  { destruct Hb as [->| ->]; [done|]. apply replicate_length. }
  destruct c as [t data nm|t dim data|k names cols].
  - simpl in Hn. assert (Hd : length data = n) by lia. subst n. unfold out. destruct nm as [nm|].
    + pose proof (value_ok_vec _ _ _ Hc) as (V1 & V2 & V3). simpl.
      assert (E : minimal_names nm = map (fun s => match s with None => empty_str | Some _ => s end) nm) by done.
      rewrite E. split; [done|]. split; [done|]. split; [constructor; [done|by rewrite map_length|done]|]. split; [done|].
      split; [|done]. intros p Hp. inversion Hp; subst. constructor.
    + pose proof (value_ok_vec _ _ _ Hc) as (V1 & V2 & V3). simpl. split; [by destruct Hb as [->| ->]|]. split; [done|].
      split; [by constructor|]. split; [done|]. split; [|by intros ->]. intros p Hp. inversion Hp; subst. constructor.
  - unfold out. split; [done|]. split; [done|]. split; [done|]. split; [exact Hn|]. done.
  - unfold out. split; [done|]. split; [done|]. split; [done|]. split; [exact Hn|]. done.
Qed.
Lemma same_row_intro a i b j : value_ok a -> value_ok b -> slice_val [i] a = slice_val [j] b -> same_row a i b j.
Proof.
  intros Ha Hb E. exists (slice_val [i] a). split; [by apply sliced_slice_val|]. rewrite E. by apply sliced_slice_val.
Qed.

Lemma shape_fits_with_names n nm v : shape_fits n v -> shape_fits n (with_names nm v).
Proof. intros H. destruct v; [constructor|done|done]. Qed.
Section result.
  Context (p : value) (N : nat) (locss : list (list Z)) (ys : list source) (sus : list (list Z * value)).
  Context (Hp : value_ok p) (HN : (Z.of_nat N <= INT_MAX)%Z) (Hf : shape_fits (Z.of_nat N) p).
  Let c0 := strip (start_val p N).
  Context (Hsus : Forall (step_ok c0) sus) (Hst : steps_of locss ys sus).
  Context (Hys : forall r w, Some (r, w) ∈ ys -> prepared p r w).
  Let pn := top_names (start_val p N).
  Let c := places c0 sus.
  Let out := finish_names (with_names pn c) (top_names c).

  Lemma c0_ok : value_ok c0 /\ value_size c0 = Z.of_nat N /\ proto_of p c0.
  Proof.
    unfold c0, start_val, strip. split; [|split].
    - apply strip_ok, slice_val_ok; [done| |]; by rewrite replicate_length.
    - rewrite with_names_size, slice_val_size. by rewrite replicate_length.
    - apply proto_with_names, proto_slice, Hp.
  Qed.
  Lemma c_ok : value_ok c /\ value_size c = Z.of_nat N /\ proto_of p c.
  Proof.
    destruct c0_ok as (A & B & C). destruct (places_ok sus c0 A Hsus) as (D & E & F). split; [done|]. split; [by rewrite <- B|by apply F].
  Qed.
  Lemma result_base : value_ok out /\ value_size out = Z.of_nat N /\ proto_of p out.
  Proof.
    destruct c_ok as (A & B & C). destruct (finish_spec N pn c A B (start_names p N)) as (_ & _ & D & E & F & _). split; [done|]. split; [done|by apply F].
  Qed.
  Lemma out_full : full out = full (tidy c).
  Proof. destruct c_ok as (A & B & C). apply (finish_spec N pn c A B (start_names p N)). Qed.
  Lemma out_unnamed : unnamed out = unnamed c.
  Proof. destruct c_ok as (A & B & C). apply (finish_spec N pn c A B (start_names p N)). Qed.
  Lemma out_tidy : top_names p = None -> out = tidy c.
  Proof.
    intros H. destruct c_ok as (A & B & C). apply (finish_spec N pn c A B (start_names p N)).
    unfold pn, start_val. destruct p as [t data nm|t [|d dim] data|k names cols]; try done. simpl in *. by subst.
  Qed.
  Lemma sus_unnamed : Forall (step_ok (unnamed c0)) (map unnamed_step sus) /\ Forall (fun su => agree (unnamed c0) su.2) (map unnamed_step sus).
  Proof. split; apply Forall_map; (eapply Forall_impl; [apply Hsus|]); intros su H; by apply step_unnamed. Qed.
  Lemma sus_full : Forall (step_ok (full c0)) (map full_step sus) /\ Forall (fun su => agree (full c0) su.2) (map full_step sus).
  Proof. split; apply Forall_map; (eapply Forall_impl; [apply Hsus|]); intros su H; by apply step_full. Qed.

  Lemma sus_at i loc r w : locss !! i = Some loc -> ys !! i = Some (Some (r, w)) -> sus !! i = Some (loc, with_names (top_names r) w).
  Proof.
    intros Hl Hy. destruct Hst as (L1 & L2 & H). assert (i < length ys) by (apply lookup_lt_is_Some; eauto).
    destruct (lookup_lt_is_Some_2 sus i) as [su Hsu]; [lia|]. specialize (H _ _ _ _ Hl Hy Hsu). simpl in H. by subst.
  Qed.
  Lemma result_last : placed_last locss ys out.
  Proof.
    intros i loc r w k l Hl Hy Hk Hna Hlast Hcov. destruct c_ok as (A & B & C). destruct c0_ok as (A0 & B0 & C0).
    assert (Pr : prepared p r w) by (apply Hys; by eapply elem_of_list_lookup_2). destruct Pr as (P1 & P2 & P3 & P4 & P5).
    destruct result_base as (R1 & R2 & R3). apply same_row_intro; [by apply unnamed_ok|by apply unnamed_ok|].
    rewrite out_unnamed. unfold c. rewrite places_unnamed. destruct sus_unnamed as [S1 S2].
    rewrite (places_here _ (unnamed c0) i (loc, unnamed (with_names (top_names r) w)) k l); try done.
    - cbn [snd]. by rewrite unnamed_with_names.
    - by apply unnamed_ok.
    - rewrite list_lookup_fmap, (sus_at _ _ _ _ Hl Hy). done.
    - intros j su' Hj Hsu' Hin. rewrite list_lookup_fmap in Hsu'. destruct (sus !! j) as [su|] eqn:E; [|done]. injection Hsu' as <-.
      apply (Hcov j Hj). by eapply steps_cover.
  Qed.
  Lemma result_missing : others_missing unnamed locss ys p out.
  Proof.
    intros l Hl Hcov. destruct result_base as (R1 & R2 & R3). destruct c0_ok as (A0 & B0 & C0).
    apply same_row_intro; [by apply unnamed_ok|by apply unnamed_ok|]. rewrite out_unnamed. unfold c. rewrite places_unnamed.
    destruct sus_unnamed as [S1 S2]. rewrite places_other; try done.
    - unfold c0, strip, start_val. rewrite unnamed_with_names, unnamed_slice. apply slice_na_rows; [by apply unnamed_ok|]. right. unfold in_rows. lia.
    - by apply unnamed_ok.
    - right. unfold in_rows. rewrite unnamed_size, B0. lia.
    - left. intros su Hsu Hin. apply elem_of_list_fmap in Hsu as (su0 & -> & Hsu). apply elem_of_list_lookup in Hsu as [j Hj].
      apply (Hcov j). by eapply steps_cover.
  Qed.
  Context (Hno : no_overlap locss).
  Lemma c_full : full c = places (full c0) (map full_step sus).
  Proof.
    destruct c0_ok as (A0 & B0 & C0). unfold c. apply places_full; [done|done|by eapply steps_no_overlap|].
    intros su l Hsu Hl Hna. apply start_blank; [done|]. rewrite Forall_forall in Hsus. destruct (Hsus su Hsu) as (_ & _ & _ & Hloc).
    rewrite Forall_forall in Hloc. destruct (Hloc l Hl) as [|H]; [done|]. unfold in_rows. lia.
  Qed.
  Lemma named_eq i loc r w k l : locss !! i = Some loc -> ys !! i = Some (Some (r, w)) -> loc !! k = Some l -> l <> NA_INTEGER ->
    slice_val [l] (full out) = slice_val [Z.of_nat k + 1]%Z (full (tidy (with_names (top_names r) w))).
  Proof.
    intros Hl Hy Hk Hna. destruct c_ok as (A & B & C). destruct c0_ok as (A0 & B0 & C0).
    rewrite out_full, !tidy_full, <- !tidy_slice. f_equal. rewrite c_full. destruct sus_full as [S1 S2].
    rewrite (places_here _ (full c0) i (loc, full (with_names (top_names r) w)) k l); try done.
    - by apply full_ok.
    - rewrite list_lookup_fmap, (sus_at _ _ _ _ Hl Hy). done.
    - intros k' Hkk Hk'. destruct (no_overlap_unique _ i i k k' loc loc l Hno) as [_ ?]; try done. lia.
    - intros j su' Hj Hsu' Hin. rewrite list_lookup_fmap in Hsu'. destruct (sus !! j) as [su|] eqn:E; [|done]. injection Hsu' as <-.
      destruct (steps_cover _ _ _ _ _ l Hst E Hin) as (loc' & rw & Q1 & Q2 & Q3). apply elem_of_list_lookup in Q3 as [k' Q3].
      destruct (no_overlap_unique _ i j k k' loc loc' l Hno) as [? _]; try done. lia.
  Qed.
  Lemma result_named : placed_named locss ys out.
  Proof.
    intros i loc r w k l Hl Hy Hk Hna.
    assert (Pr : prepared p r w) by (apply Hys; by eapply elem_of_list_lookup_2). destruct Pr as (P1 & P2 & P3 & P4 & P5).
    destruct result_base as (R1 & R2 & R3).
    assert (Hw : with_names (no_na_names (top_names r)) w = tidy (with_names (top_names r) w)).
    { destruct w; try done. }
    rewrite Hw. apply same_row_intro; [by apply full_ok| |by eapply named_eq].
    apply full_ok. rewrite <- Hw. apply with_names_ok; [done|]. destruct (top_names r) as [nm|] eqn:Er; [|done]. simpl. rewrite map_length, P4.
    by apply top_names_len.
  Qed.
  Lemma result_missing_full : others_missing full locss ys p out.
  Proof.
    intros l Hl Hcov. destruct result_base as (R1 & R2 & R3). destruct c0_ok as (A0 & B0 & C0).
    apply same_row_intro; [by apply full_ok|by apply full_ok|].
    rewrite out_full, tidy_full, <- tidy_slice, c_full.
    destruct sus_full as [S1 S2]. rewrite places_other; try done.
    - unfold c0, start_val. rewrite strip_slice, full_slice.
      change (slice_val (replicate N NA_INTEGER) (full (strip p))) with (start_val (full (strip p)) N).
      rewrite slice_na_rows; [|by apply full_ok, strip_ok|right; unfold in_rows; lia].
      destruct p as [t data [nm|]|t dim data|kk names cols]; try done. destruct dim; done.
    - by apply full_ok.
    - right. unfold in_rows. rewrite full_size, B0. lia.
    - left. intros su Hsu Hin. apply elem_of_list_fmap in Hsu as (su0 & -> & Hsu). apply elem_of_list_lookup in Hsu as [j Hj].
      apply (Hcov j). by eapply steps_cover.
  Qed.

  (** Putting the pieces of a vector back. *)
  Context (x : value) (Hx : value_ok x) (Hpx : proto_of p x) (Hsz : value_size x = Z.of_nat N).
  Context (Hback : forall l, in_rows (Z.of_nat N) l -> exists i loc k, locss !! i = Some loc /\ loc !! k = Some l /\
    Forall (loc_ok (Z.of_nat N)) loc /\ ys !! i = Some (Some (slice_val loc x, slice_val loc x))).
  Lemma with_self v : with_names (top_names v) v = v. Proof. by destruct v. Qed.
  Lemma tidy_ok v : value_ok v -> value_ok (tidy v).
  Proof.
    intros H. apply with_names_ok; [done|]. destruct (top_names v) as [nm|] eqn:E; [|done]. simpl. rewrite map_length. by apply top_names_len.
  Qed.
  Lemma result_back : full out = full (tidy x).
  Proof.
    destruct result_base as (R1 & R2 & R3). apply all_rows_eq.
    - by apply full_ok.
    - by apply full_ok, tidy_ok.
    - apply agree_full. apply proto_type. eapply proto_trans; [apply proto_sym, R3|]. by apply proto_with_names.
    - apply proto_full. eapply proto_trans; [apply proto_sym, R3|]. by apply proto_with_names.
    - rewrite !full_size, R2. unfold tidy. by rewrite with_names_size.
    - intros l Hl. rewrite full_size, R2 in Hl. destruct (Hback l Hl) as (i & loc & k & H1 & H2 & H3 & H4).
      rewrite (named_eq _ _ _ _ _ _ H1 H4 H2) by (unfold in_rows in Hl; unfold NA_INTEGER, INT_MIN; lia).
      rewrite with_self, !tidy_full, <- !tidy_slice. f_equal. rewrite full_slice, slice_val_slice_val.
      + f_equal. unfold compose_locs. simpl. f_equal. unfold pick.
        assert (k < length loc) by (apply lookup_lt_is_Some; eauto).
        destruct (Z.eqb_spec (Z.of_nat k + 1) NA_INTEGER) as [E|]; [unfold NA_INTEGER, INT_MIN in E; lia|].
        rewrite nth_lookup. replace (Z.to_nat (Z.of_nat k + 1 - 1)) with k by lia. by rewrite H2.
      + by apply full_ok.
      + apply Forall_singleton. right. assert (k < length loc) by (apply lookup_lt_is_Some; eauto). lia.
  Qed.
End result.

(** ** [list_unchop] *)
Lemma places_snoc c sus i su : sus !! i = Some su -> places c (take (S i) sus) = place (places c (take i sus)) su.
Proof. intros H. rewrite (take_S_r _ _ _ H). unfold places. by rewrite fold_left_app. Qed.
Lemma Forall_take_step c sus i : Forall (step_ok c) sus -> Forall (step_ok c) (take i sus).
Proof. apply Forall_take. Qed.
Lemma blank_len n pn : blank_names n pn -> match pn with None => True | Some m => Z.of_nat (length m) = Z.of_nat n end.
Proof. intros [->| ->]; [done|]. by rewrite replicate_length. Qed.
Lemma with_top v : with_names (top_names v) (strip v) = v. Proof. by destruct v. Qed.
Lemma prepared_proto p c r w : proto_of p c -> prepared p r w -> prepared c r w.
Proof. intros H (A & B & C & D & E). split; [done|]. split; [done|]. split; [|done]. eapply proto_trans; [apply proto_sym, H|done]. Qed.

Definition unchop_input (cast : value -> res value) (p : value) (n : Z) (x : option value) : Prop :=
  match x with
  | None => True
  | Some v => value_ok v /\ (value_size v = n \/ value_size v = 1%Z) /\
      forall r, recycled n (Some v) (Some r) -> exists w, cast r = Ok w /\ prepared p r w
  end.
Definition good_source (p : value) (y : source) : Prop := match y with None => True | Some (r, w) => prepared p r w end.

Lemma recycled_size n v r : (0 <= n)%Z -> recycled n (Some v) (Some r) -> value_size r = n.
Proof.
  intros Hn (w & E & H). injection E as <-. destruct H as [[H ->]|(H1 & H2 & H3)]; [done|].
  inversion H3; subst; simpl; rewrite ?map_length, ?replicate_length; lia.
Qed.

Lemma unchop_size_spec (locss : list (list Z)) : unchop_size (map (fun l => IInt (l, None)) locss) (length locss) = Ok (Z.of_nat (length (concat locss))).
Proof.
  unfold unchop_size.
  destruct (for_inv (fun k out => out = Z.of_nat (length (concat (take k locss)))) 0 (length locss)
    (fun i out => let! idx := rd (map (fun l => IInt (l, None)) locss) i in Ok (out + Z.of_nat (index_length idx))%Z) 0%Z) as (out & -> & ->).
  - done.
  - intros k out Hk ->. simpl in Hk. destruct (lookup_lt_is_Some_2 locss k) as [l Hl]; [lia|].
    rewrite (rd_at _ k (IInt (l, None))) by (rewrite list_lookup_fmap, Hl; done). cbn [bind]. eexists. split; [done|].
    rewrite (take_S_r _ _ _ Hl), concat_app, app_length. simpl. rewrite app_nil_r. lia.
  - f_equal. rewrite take_ge; [done|simpl; lia].
Qed.

Lemma unchop_spec cast p xs locss : value_ok p -> length xs = length locss ->
  Forall (Forall is_int) locss -> (Z.of_nat (length (concat locss)) <= INT_MAX)%Z ->
  let N := length (concat locss) in
  Forall (Forall (loc_ok (Z.of_nat N))) locss -> shape_fits (Z.of_nat N) p ->
  Forall2 (fun x loc => unchop_input cast p (Z.of_nat (length loc)) x) xs locss ->
  let c0 := strip (start_val p N) in
  exists ys sus, Forall2 (fun '(x, loc) y => ready cast (Z.of_nat (length loc)) x y /\ good_source p y) (zip xs locss) ys /\
    Forall (step_ok c0) sus /\ steps_of locss ys sus /\
    let c := places c0 sus in
    list_unchop cast (Some p) xs (map (fun l => IInt (l, None)) locss)
      = Ok (Some (finish_names (with_names (top_names (start_val p N)) c) (top_names c))).
Proof.
  intros Hp Hlen Hint HN N Hloc Hf Hin c0.
  destruct (c0_ok p N Hp HN Hf) as (A0 & B0 & C0). fold c0 in A0, B0, C0.
  assert (Hfit0 : shape_fits 0 c0).
  { unfold c0. apply shape_fits_with_names. unfold start_val. apply (shape_fits_le (Z.of_nat N)); [lia|].
    by apply slice_val_fits. }
  destruct (choose (fun x loc (y : source) => ready cast (Z.of_nat (length loc)) x y /\ good_source p y /\
     match x, y with Some v, Some (r, w) => vec_check_recycle (Some v) (Z.of_nat (length loc)) = Ok (Some r) | _, _ => True end) xs locss Hlen) as (ys & Ly & Hys).
  { intros i x loc Hx Hl. assert (Hle : (Z.of_nat (length loc) <= INT_MAX)%Z).
    { assert (length loc <= length (concat locss)); [|lia]. clear -Hl. revert i Hl. induction locss as [|a l IH]; intros i Hl; [done|].
      simpl. rewrite app_length. destruct i; [injection Hl as ->; lia|]. specialize (IH _ Hl). lia. }
    pose proof (Forall2_lookup_lr _ _ _ _ _ _ Hin Hx Hl) as H. destruct x as [v|]; [|by exists None].
    destruct H as (V1 & V2 & V3).
    destruct (check_recycle_spec (Some v) (Z.of_nat (length loc)) V1 ltac:(lia) V2) as (y & E & Hy).
    pose proof Hy as (r & -> & _). destruct (V3 r Hy) as (w & W1 & W2). exists (Some (r, w)). split; [|done]. by exists r, w. }
  set (sus := zip_with (fun loc (y : source) => match y with None => dummy c0 None | Some (r, w) => (loc, with_names (top_names r) w) end) locss ys).
  assert (Lsus : length sus = length ys) by (unfold sus; rewrite zip_with_length; lia).
  assert (Hat : forall i loc (y : source), locss !! i = Some loc -> ys !! i = Some y ->
    sus !! i = Some (match y with None => dummy c0 None | Some (r, w) => (loc, with_names (top_names r) w) end)).
  { intros i loc y Hl Hy. unfold sus. rewrite lookup_zip_with, Hl, Hy. done. }
  assert (Hgood : forall i x loc (y : source), xs !! i = Some x -> locss !! i = Some loc -> ys !! i = Some y ->
    ready cast (Z.of_nat (length loc)) x y /\ good_source p y /\
    match x, y with Some v, Some (r, w) => vec_check_recycle (Some v) (Z.of_nat (length loc)) = Ok (Some r) | _, _ => True end).
  { intros i x loc y Hx Hl Hy. destruct (Hys i x loc Hx Hl) as (y' & Hy' & H). rewrite Hy in Hy'. by injection Hy' as <-. }
  assert (Hok : Forall (step_ok c0) sus).
  { apply Forall_lookup. intros i su Hsu. assert (i < length sus) by (apply lookup_lt_is_Some; eauto).
    destruct (lookup_lt_is_Some_2 xs i) as [x Hx]; [lia|]. destruct (lookup_lt_is_Some_2 locss i) as [loc Hl]; [lia|].
    destruct (lookup_lt_is_Some_2 ys i) as [y Hy]; [lia|]. rewrite (Hat _ _ _ Hl Hy) in Hsu. injection Hsu as <-.
    destruct (Hgood _ _ _ _ Hx Hl Hy) as (G1 & G2 & G3). destruct y as [[r w]|].
    - destruct x as [v|]; [|done]. destruct G1 as (r' & w' & E & Hr & Hc). injection E as <- <-. destruct G2 as (P1 & P2 & P3 & P4 & P5).
      pose proof (recycled_size _ _ _ (Nat2Z.is_nonneg _) Hr) as Hsz. unfold step_ok. cbn [fst snd]. split.
      { apply with_names_ok; [done|]. destruct (top_names r) eqn:Er; [|done]. rewrite P4. by apply top_names_len. }
      split; [apply proto_with_names; eapply proto_trans; [apply proto_sym, C0|done]|].
      split; [rewrite with_names_size; lia|]. rewrite B0. rewrite Forall_forall in Hloc. apply Hloc. by eapply elem_of_list_lookup_2.
    - by apply dummy_ok; [| |eapply proto_trans; [apply proto_sym, C0|]| | |]. }
  assert (Hst : steps_of locss ys sus).
  { split; [done|]. split; [lia|]. intros i loc y su Hl Hy Hsu. rewrite (Hat _ _ _ Hl Hy) in Hsu. injection Hsu as <-. by destruct y as [[r w]|]. }
  exists ys, sus. split.
  { apply Forall2_same_length_lookup. split; [rewrite zip_with_length; lia|]. intros i [x loc] y Hz Hy.
    rewrite lookup_zip_with in Hz. destruct (xs !! i) as [x'|] eqn:Hx; [|done]. simpl in Hz. destruct (locss !! i) as [loc'|] eqn:Hl; [|done].
    injection Hz as <- <-. destruct (Hgood _ _ _ _ Hx Hl Hy) as (? & ? & ?). done. }
  split; [done|]. split; [done|]. intros c.
  unfold list_unchop. rewrite map_length, Hlen, Nat.eqb_refl. cbn [negb]. rewrite unchop_size_spec. cbn [bind]. fold N.
  rewrite (list_as_locations_ok _ _ locss).
  2:{ apply Forall2_fmap_l. apply Forall2_same_length_lookup. split; [done|]. intros i a b Ha Hb. rewrite Ha in Hb. injection Hb as <-.
      rewrite Forall_forall in Hint, Hloc. apply elem_of_list_lookup_2 in Ha. cbn beta.
      apply (index_int_spec a None N); [by apply Hint|done|done|by apply Hloc]. }
  cbn [bind]. rewrite vec_init_spec by done. cbn [bind]. rewrite Nat2Z.id.
  change (slice_val (replicate N NA_INTEGER) p) with (start_val p N).
  set (pn := top_names (start_val p N)).
  destruct (for_inv (fun i st => st = comb pn (places c0 (take i sus))) 0 (length locss)
    (fun i st => let! x := rd xs i in let! loc := rd locss i in unchop_step cast N x loc st) (start_val p N, None)) as (st & -> & ->).
  - unfold comb. simpl. unfold places. simpl. unfold pn, c0. rewrite with_top. by destruct (start_val p N).
  - intros i st Hi ->. simpl in Hi.
    destruct (lookup_lt_is_Some_2 xs i) as [x Hx]; [lia|]. destruct (lookup_lt_is_Some_2 locss i) as [loc Hl]; [lia|].
    destruct (lookup_lt_is_Some_2 ys i) as [y Hy]; [lia|]. rewrite (rd_at _ _ _ Hx), (rd_at _ _ _ Hl). cbn [bind].
    pose proof (Hat _ _ _ Hl Hy) as Hsu. destruct (Hgood _ _ _ _ Hx Hl Hy) as (G1 & G2 & G3).
    rewrite (places_snoc _ _ _ _ Hsu).
    destruct (places_ok (take i sus) c0 A0 (Forall_take_step _ _ _ Hok)) as (A & B & C). specialize (C p C0).
    set (ci := places c0 (take i sus)) in *.
    unfold unchop_step, comb. destruct x as [v|].
    + destruct G1 as (r & w & -> & Hr & Hcast). rewrite G3. cbn [bind].
      assert (Hpr : prepared ci r w) by (by eapply prepared_proto).
      destruct (comb_step pn ci (SLoc loc) r w) as [E1 E2]; [done| |done| | |done|].
      * rewrite B, B0. apply blank_len. apply start_names.
      * simpl. apply (recycled_size _ _ _ (Nat2Z.is_nonneg _) Hr).
      * split; [|done]. simpl. rewrite B, B0. rewrite Forall_forall in Hloc. apply Hloc. by eapply elem_of_list_lookup_2.
      * rewrite B, B0, Nat2Z.id in E1. cbv zeta in E1. rewrite E1. cbn [bind]. rewrite Hcast. cbn [bind]. rewrite E2. cbn [bind]. eexists. split; [done|]. done.
    + simpl in G1. subst y. eexists. split; [done|]. f_equal.
      * f_equal. unfold place, dummy. cbn [fst snd]. rewrite assign_nil_names; [by destruct ci|done|].
        eapply proto_trans; [apply proto_sym, C|]. eapply proto_trans; [apply C0|]. by apply proto_slice.
      * unfold place, dummy. cbn [fst snd]. rewrite assign_nil_names; [by destruct ci|done|].
        eapply proto_trans; [apply proto_sym, C|]. eapply proto_trans; [apply C0|]. by apply proto_slice.
  - simpl. rewrite take_ge by lia. done.
Qed.

(** ** [vec_c] *)
Definition size_opt (x : option value) : Z := match x with None => 0%Z | Some v => value_size v end.
Definition c_input (cast : value -> res value) (p : value) (x : option value) : Prop :=
  match x with
  | None => True
  | Some v => value_ok v /\ (value_size v = 0%Z -> match p with VVec _ _ _ => True | _ => top_names v = None end) /\
      (value_size v <> 0%Z -> exists w, cast v = Ok w /\ prepared p v w)
  end.
Definition c_source (cast : value -> res value) (x : option value) (y : source) : Prop :=
  match x with
  | None => y = None
  | Some v => if (value_size v =? 0)%Z then y = None else exists w, y = Some (v, w) /\ cast v = Ok w
  end.
Lemma map_seq_shift a n : map (fun k => a + k) (seq 0 n) = seq a n.
Proof.
  enough (H : forall b, map (fun k => a + k) (seq b n) = seq (a + b) n) by (rewrite H; f_equal; lia).
  induction n as [|n IH]; intros b; simpl; [done|]. rewrite IH. do 2 f_equal. lia.
Qed.
Lemma fold_total l : fold_left Z.add l 0%Z = total l.
Proof.
  assert (H : forall a, fold_left Z.add l a = (a + total l)%Z).
  { induction l as [|x l IH]; intros a; unfold total in *; simpl; [lia|]. rewrite IH. lia. }
  rewrite H. lia.
Qed.
Lemma size_sub_ok sizes i s n : Forall (fun s => 0 <= s)%Z sizes -> (total sizes <= n)%Z -> (n <= INT_MAX)%Z -> sizes !! i = Some s ->
  subscript_ok n (size_sub sizes i s) /\ length (expand (size_sub sizes i s)) = Z.to_nat s /\ (0 <= s)%Z /\
  size_blocks 0 sizes !! i = Some (expand (size_sub sizes i s)).
Proof.
  intros Hs Ht Hn Hi. pose proof (total_take_le sizes i Hs) as H1. pose proof (total_take_le sizes (S i) Hs) as H2.
  rewrite (take_S_r _ _ _ Hi), total_app in H2. replace (total [s]) with s in H2 by (unfold total; simpl; lia).
  assert (0 <= s)%Z by (eapply Forall_lookup_1 in Hi; [|apply Hs]; done).
  assert (Hall : forall l, l ∈ expand (size_sub sizes i s) -> (1 <= l <= n)%Z).
  { intros l Hl. unfold size_sub in Hl. simpl in Hl. apply elem_of_list_fmap in Hl as (k & -> & Hk). apply elem_of_seq in Hk. lia. }
  split; [split|].
  - apply Forall_forall. intros l Hl. right. by apply Hall.
  - simpl. split; [lia|]. split; [|by left]. apply Forall_forall. intros l Hl. specialize (Hall l Hl). unfold NA_INTEGER, INT_MIN. lia.
  - split; [simpl; by rewrite map_length, seq_length|]. split; [done|].
    rewrite size_blocks_lookup, Hi. simpl. f_equal. apply map_ext. intros k. lia.
Qed.
Lemma blocks_concat_from sizes : Forall (fun s => 0 <= s)%Z sizes -> forall st, (0 <= st)%Z ->
  concat (size_blocks st sizes) = map (fun k => st + Z.of_nat k + 1)%Z (seq 0 (Z.to_nat (total sizes))) /\ length (size_blocks st sizes) = length sizes.
Proof.
  intros H. induction H as [|s l Hs H IH]; intros st Hst; [done|]. pose proof (total_nonneg _ H) as Hnn. simpl. destruct (IH (st + s)%Z) as [E1 E2]; [lia|].
  rewrite E1, E2. split; [|done]. unfold total. simpl. change (fold_right Z.add 0%Z l) with (total l).
  rewrite Z2Nat.inj_add by lia. rewrite seq_app, map_app. f_equal. simpl. rewrite <- (map_seq_shift (Z.to_nat s)), map_map.
  apply map_ext. intros k. lia.
Qed.
Lemma blocks_concat sizes : Forall (fun s => 0 <= s)%Z sizes ->
  concat (size_blocks 0 sizes) = map (fun k => Z.of_nat k + 1)%Z (seq 0 (Z.to_nat (total sizes))).
Proof. intros H. destruct (blocks_concat_from sizes H 0%Z ltac:(lia)) as [E _]. rewrite E. apply map_ext. intros k. lia. Qed.
Lemma blocks_no_overlap sizes : Forall (fun s => 0 <= s)%Z sizes -> no_overlap (size_blocks 0 sizes) /\ length (concat (size_blocks 0 sizes)) = Z.to_nat (total sizes) /\
  length (size_blocks 0 sizes) = length sizes.
Proof.
  intros H. pose proof (blocks_concat_from sizes H) as G.
  destruct (G 0%Z ltac:(lia)) as [E1 E2]. unfold no_overlap. rewrite E1. split; [|split; [by rewrite map_length, seq_length|done]].
  apply NoDup_filter. apply NoDup_fmap_2; [intros a b; lia|]. apply NoDup_seq.
Qed.

Lemma proto_shape a b (P : Prop) : proto_of a b -> match a with VVec _ _ _ => True | _ => P end -> match b with VVec _ _ _ => True | _ => P end.
Proof. by destruct 1. Qed.
Lemma top_with nm v : match v with VVec _ _ _ => True | _ => nm = None end -> top_names (with_names nm v) = nm.
Proof. by destruct v. Qed.
Lemma vec_c_spec cast p xs : value_ok p ->
  let sizes := map size_opt xs in
  (total sizes <= INT_MAX)%Z -> shape_fits (total sizes) p -> Forall (c_input cast p) xs ->
  let N := Z.to_nat (total sizes) in
  let c0 := strip (start_val p N) in
  exists ys sus, Forall2 (fun x y => c_source cast x y /\ good_source p y) xs ys /\
    Forall (step_ok c0) sus /\ steps_of (size_blocks 0 sizes) ys sus /\
    let c := places c0 sus in
    vec_c cast (Some p) xs = Ok (Some (finish_names (with_names (top_names (start_val p N)) c) (top_names c))).
Proof.
  intros Hp sizes HN Hf Hin N c0.
  assert (Hnn : Forall (fun s => 0 <= s)%Z sizes).
  { apply Forall_map. eapply Forall_impl; [apply Hin|]. intros [v|] H; simpl; [|lia]. destruct H as [H _]. apply value_size_range in H. lia. }
  assert (EN : Z.of_nat N = total sizes) by (unfold N; pose proof (total_nonneg _ Hnn); lia).
  destruct (blocks_no_overlap sizes Hnn) as (Hno & Hcl & Hbl). set (locss := size_blocks 0 sizes) in *.
  assert (Hls : length sizes = length xs) by apply map_length.
  rewrite <- EN in HN, Hf.
  destruct (c0_ok p N Hp HN Hf) as (A0 & B0 & C0). fold c0 in A0, B0, C0.
  assert (Hfit0 : shape_fits 0 c0).
  { unfold c0. apply shape_fits_with_names. unfold start_val. apply (shape_fits_le (Z.of_nat N)); [lia|]. by apply slice_val_fits. }
  destruct (choose (fun x loc (y : source) => c_source cast x y /\ good_source p y) xs locss) as (ys & Ly & Hys); [congruence| |].
  { intros i x loc Hx Hl. eapply Forall_lookup_1 in Hx; [|apply Hin]. destruct x as [v|]; [|by exists None].
    destruct Hx as (V1 & V2 & V3). simpl. destruct (Z.eqb_spec (value_size v) 0); [by exists None|].
    destruct (V3 n) as (w & W1 & W2). exists (Some (v, w)). split; [by exists w|done]. }
  set (nm_of := fun x : option value => match x with None => None | Some v => top_names v end).
  set (sus := zip_with (fun xl (y : source) => match y with None => dummy c0 (nm_of xl.1) | Some (r, w) => (xl.2, with_names (top_names r) w) end) (zip xs locss) ys).
  assert (Lsus : length sus = length ys) by (unfold sus; rewrite !zip_with_length; lia).
  assert (Hat : forall i x loc (y : source), xs !! i = Some x -> locss !! i = Some loc -> ys !! i = Some y ->
    sus !! i = Some (match y with None => dummy c0 (nm_of x) | Some (r, w) => (loc, with_names (top_names r) w) end)).
  { intros i x loc y Hx Hl Hy. unfold sus. rewrite !lookup_zip_with, Hx, Hl, Hy. done. }
  assert (Hgood : forall i x loc (y : source), xs !! i = Some x -> locss !! i = Some loc -> ys !! i = Some y ->
    c_source cast x y /\ good_source p y).
  { intros i x loc y Hx Hl Hy. destruct (Hys i x loc Hx Hl) as (y' & Hy' & H). rewrite Hy in Hy'. by injection Hy' as <-. }
  assert (Hnm : forall i x loc, xs !! i = Some x -> locss !! i = Some loc -> ys !! i = Some None ->
    match nm_of x with None => True | Some n => n = [] end /\ (match c0 with VVec _ _ _ => True | _ => nm_of x = None end)).
  { intros i x loc Hx Hl Hy. destruct (Hgood _ _ _ _ Hx Hl Hy) as [G1 G2]. eapply Forall_lookup_1 in Hx; [|apply Hin].
    destruct x as [v|]; [|split; [done|by destruct c0]]. simpl in *. destruct Hx as (V1 & V2 & V3).
    destruct (Z.eqb_spec (value_size v) 0) as [E|E]; [|destruct G1 as (w & ? & _); done]. specialize (V2 E). split.
    - destruct (top_names v) eqn:En; [|done]. pose proof (top_names_len _ _ V1 En). destruct l; [done|simpl in *; lia].
    - destruct C0; done. }
  assert (Hok : Forall (step_ok c0) sus).
  { apply Forall_lookup. intros i su Hsu. assert (i < length sus) by (apply lookup_lt_is_Some; eauto).
    destruct (lookup_lt_is_Some_2 xs i) as [x Hx]; [lia|]. destruct (lookup_lt_is_Some_2 locss i) as [loc Hl]; [lia|].
    destruct (lookup_lt_is_Some_2 ys i) as [y Hy]; [lia|]. rewrite (Hat _ _ _ _ Hx Hl Hy) in Hsu. injection Hsu as <-.
    destruct (Hgood _ _ _ _ Hx Hl Hy) as (G1 & G2). destruct y as [[r w]|].
    - destruct x as [v|]; [|done]. simpl in G1. destruct (Z.eqb_spec (value_size v) 0); [done|]. destruct G1 as (w' & E & Hc). injection E as -> <-.
      destruct G2 as (P1 & P2 & P3 & P4 & P5).
      assert (Hsz : sizes !! i = Some (value_size v)) by (unfold sizes; rewrite list_lookup_fmap, Hx; done).
      destruct (size_sub_ok sizes i _ (Z.of_nat N) Hnn ltac:(lia) HN Hsz) as (S1 & S2 & S3 & S4). fold locss in S4. rewrite S4 in Hl. assert (loc = expand (size_sub sizes i (value_size v))) as -> by congruence.
      unfold step_ok. cbn [fst snd]. split.
      { apply with_names_ok; [done|]. destruct (top_names v) eqn:Er; [|done]. rewrite P4. by apply top_names_len. }
      split; [apply proto_with_names; eapply proto_trans; [apply proto_sym, C0|done]|].
      split; [rewrite with_names_size, S2; lia|]. rewrite B0. apply S1.
    - destruct (Hnm _ _ _ Hx Hl Hy). apply dummy_ok; try done. eapply proto_trans; [apply proto_sym, C0|done]. }
  assert (Hst : steps_of locss ys sus).
  { split; [done|]. split; [lia|]. intros i loc y su Hl Hy Hsu. assert (i < length sus) by (apply lookup_lt_is_Some; eauto).
    destruct (lookup_lt_is_Some_2 xs i) as [x Hx]; [lia|]. rewrite (Hat _ _ _ _ Hx Hl Hy) in Hsu. injection Hsu as <-. by destruct y as [[r w]|]. }
  exists ys, sus. split.
  { apply Forall2_same_length_lookup. split; [lia|]. intros i x y Hx Hy.
    destruct (lookup_lt_is_Some_2 locss i) as [loc Hl]; [assert (i < length xs) by (apply lookup_lt_is_Some; eauto); lia|].
    by apply (Hgood i x loc). }
  split; [done|]. split; [done|]. intros c.
  unfold vec_c. change (map _ xs) with sizes. rewrite fold_total, <- EN. rewrite vec_init_spec by done. cbn [bind]. rewrite Nat2Z.id.
  change (slice_val (replicate N NA_INTEGER) p) with (start_val p N).
  set (pn := top_names (start_val p N)).
  match goal with |- bind (for_ 0 _ ?body ?s) _ = _ =>
    destruct (for_inv (fun i st => st = (comb pn (places c0 (take i sus)), total (take i sizes))) 0 (length xs) body s) as (st & -> & ->) end.
  - unfold comb. simpl. unfold places. simpl. unfold pn, c0. rewrite with_top. by destruct (start_val p N).
  - intros i st Hi ->. simpl in Hi.
    destruct (lookup_lt_is_Some_2 xs i) as [x Hx]; [lia|]. destruct (lookup_lt_is_Some_2 locss i) as [loc Hl]; [lia|].
    destruct (lookup_lt_is_Some_2 ys i) as [y Hy]; [lia|].
    assert (Hsz : sizes !! i = Some (size_opt x)) by (unfold sizes; rewrite list_lookup_fmap, Hx; done).
    destruct (size_sub_ok sizes i _ (Z.of_nat N) Hnn ltac:(lia) HN Hsz) as (S1 & S2 & S3 & S4). fold locss in S4. rewrite S4 in Hl.
    assert (Eloc : loc = expand (size_sub sizes i (size_opt x))) by (by injection Hl).
    rewrite (take_S_r _ _ _ Hsz), total_app. replace (total [size_opt x]) with (size_opt x) by (unfold total; simpl; lia).
    unfold comb. cbn [fst snd]. rewrite (rd_at _ _ _ Hx). cbn [bind]. rewrite (rd_at _ _ _ Hsz). cbn [bind].
    rewrite Eloc in *. pose proof (Hat _ _ _ _ Hx S4 Hy) as Hsu. destruct (Hgood _ _ _ _ Hx S4 Hy) as (G1 & G2).
    rewrite (places_snoc _ _ _ _ Hsu).
    destruct (places_ok (take i sus) c0 A0 (Forall_take_step _ _ _ Hok)) as (A & B & C). pose proof (C c0) as C1. specialize (C p C0).
    set (ci := places c0 (take i sus)) in *.
    change (SSeq (total (take i sizes)) (size_opt x) 1) with (size_sub sizes i (size_opt x)).
    assert (Hpr0 : proto_of c0 (slice_val [] c0)) by (by apply proto_slice).
    assert (Hci : proto_of ci (slice_val [] c0)).
    { eapply proto_trans; [apply proto_sym, C|]. eapply proto_trans; [apply C0|done]. }
    destruct (Z.eqb_spec (size_opt x) 0) as [E0|E0].
    + assert (y = None) as ->.
      { destruct x as [v|]; [|done]. simpl in G1, E0. rewrite E0 in G1. done. }
      destruct (Hnm _ _ _ Hx S4 Hy) as [N1 N2]. rewrite E0, Z.add_0_r in *.
      assert (Epl : place ci (dummy c0 (nm_of x)) = with_names (name_puts N (top_names ci) [] (nm_of x)) ci).
      { unfold place, dummy. cbn [fst snd]. rewrite assign_nil_names by done. by rewrite B, B0, Nat2Z.id. }
      rewrite Epl.
      assert (Etop : top_names (with_names (name_puts N (top_names ci) [] (nm_of x)) ci) = name_puts N (top_names ci) [] (nm_of x)).
      { apply top_with. pose proof (proto_shape _ _ _ (proto_trans _ _ _ (proto_sym _ _ C0) C) N2) as Q. destruct ci; try done; by rewrite Q. }
      rewrite Etop.
      assert (Ewn : with_names pn (with_names (name_puts N (top_names ci) [] (nm_of x)) ci) = with_names pn ci) by (by destruct ci).
      rewrite Ewn.
      destruct x as [v|]; [|eexists; split; [done|done]]. simpl nm_of in *. rewrite vec_names_top.
      destruct (top_names v) as [nms|] eqn:En; [|eexists; split; [done|done]]. subst nms.
      rewrite assign_base_spec.
      * cbn [bind]. assert (Ee : expand (size_sub sizes i 0) = []) by done. rewrite Ee, puts_nil. eexists. split; [done|]. simpl. by rewrite puts_nil.
      * assert (El : length (match top_names ci with None => replicate N empty_str | Some o => o end) = N).
        { destruct (top_names ci) as [o|] eqn:Eo; [|apply replicate_length]. pose proof (top_names_len _ _ A Eo). lia. }
        rewrite El. apply S1.
      * done.
      * done.
    + destruct x as [v|]; [|done]. simpl in G1. simpl in E0. destruct (Z.eqb_spec (value_size v) 0); [done|].
      destruct G1 as (w & -> & Hcast). assert (Hpr : prepared ci v w) by (by eapply prepared_proto).
      destruct (comb_step pn ci (size_sub sizes i (value_size v)) v w) as [E1 E2]; [done| |done| | |done|].
      * rewrite B, B0. apply blank_len. apply start_names.
      * change (size_opt (Some v)) with (value_size v) in S2. rewrite S2. change (size_opt (Some v)) with (value_size v) in S3. lia.
      * rewrite B, B0. apply S1.
      * rewrite B, B0, Nat2Z.id in E1. cbv zeta in E1. simpl size_opt in *. rewrite E1. cbn [bind]. rewrite Hcast. cbn [bind]. rewrite E2. cbn [bind]. eexists. split; [done|]. done.
  - simpl. rewrite take_ge by lia. done.
Qed.

(** ** Names of the result *)
Definition is_vec (v : value) : Prop := match v with VVec _ _ _ => True | _ => False end.
Definition has_names (v : value) : bool := match top_names v with None => false | Some _ => true end.
Lemma places_names sus : forall c, is_vec c -> Forall (fun su => is_vec su.2) sus ->
  has_names (places c sus) = has_names c || existsb (fun su => has_names su.2) sus.
Proof.
  induction sus as [|su sus IH]; intros c Hc H; [by rewrite orb_false_r|]. apply Forall_cons in H as [H1 H2].
  unfold places. simpl. fold (places (place c su) sus). destruct c as [t d nm| |]; try done. destruct su as [locs [t' d' nm'| |]]; try done.
  rewrite IH; [|done|done]. unfold place. cbn [fst snd]. rewrite orb_assoc. f_equal. simpl. unfold has_names. simpl. by destruct nm, nm'.
Qed.
