(** * Lemmas: vec_equal and vec_compare against their specifications *)
From Verif Require Import Base M_Double M_Scalar M_Hash M_Object M_Proxy Spec_Value Spec_Equal L_Scalar L_Proxy.
From Coq Require Import ZifyBool ZifyNat.

Lemma cols_row_nil i : cols_row [] i = [].
Proof. done. Qed.
Lemma cols_row_cons c cs i a : v_data c !! i = Some a -> cols_row (c :: cs) i = a :: cols_row cs i.
Proof. intros H. unfold cols_row. simpl. by rewrite H. Qed.

Lemma vals_at_rows g xs ys i n :
  Forall (fun v => length (v_data v) = n) xs -> Forall (fun v => length (v_data v) = n) ys ->
  i < n -> vals_at g xs ys i = zip_with g (cols_row xs i) (cols_row ys i).
Proof.
  intros Fx. revert ys. induction Fx as [|x xs Hx Fx IH]; intros ys Fy Hi; [done|].
  destruct Fy as [|y ys Hy Fy].
  - unfold vals_at. by destruct (cols_row (x :: xs) i).
  - destruct (lookup_lt_is_Some_nth (v_data x) i) as [a Ha]; [lia|].
    destruct (lookup_lt_is_Some_nth (v_data y) i) as [b Hb]; [lia|].
    rewrite (cols_row_cons _ _ _ a), (cols_row_cons _ _ _ b) by done.
    unfold vals_at in *. simpl. rewrite Ha, Hb. f_equal. by apply IH.
Qed.

Lemma proxy_wf_len p : proxy_wf p -> Forall (fun v => length (v_data v) = proxy_size p) (proxy_cols p).
Proof. intros H. eapply Forall_impl; [exact H|]. by intros v [_ ?]. Qed.

Lemma vtype_eqb_refl t : vtype_eqb t t = true.
Proof. by destruct t. Qed.

(** Generic: vec_equal computes the first decided value of each row. *)
Lemma vec_equal_rows x y na_equal g :
  proxy_wf x -> proxy_wf y -> same_shape x y ->
  (forall a b, elt_equal na_equal a b = Ok (g a b)) ->
  (forall a b, eq_decided (g a b) = false -> g a b = 1%Z) ->
  exists out, vec_equal x y na_equal = Ok out /\ length out = proxy_size x /\
    forall i, i < proxy_size x ->
      out !! i = Some (first_decided eq_decided 1 (zip_with g (proxy_row x i) (proxy_row y i))).
Proof.
  intros Wx Wy Hs Hg Hu.
  pose proof (proxy_wf_len x Wx) as Lx. pose proof (proxy_wf_len y Wy) as Ly.
  destruct x as [v|n xs], y as [w|m ys]; simpl in Hs; try done; destruct Hs as [Ht Hn]; simpl in *.
  - rewrite Ht, vtype_eqb_refl, Hn, Nat.eqb_refl. simpl. rewrite (zip_loop_spec _ g) by done.
    eexists; split; [done|]. rewrite zip_with_length. split; [lia|]. intros i Hi.
    destruct (lookup_lt_is_Some_nth (v_data v) i) as [a Ha]; [lia|].
    destruct (lookup_lt_is_Some_nth (v_data w) i) as [b Hb]; [lia|].
    rewrite lookup_zip_with, Ha, Hb. simpl. unfold proxy_row. simpl.
    rewrite (cols_row_cons _ _ _ a), (cols_row_cons _ _ _ b) by done. simpl. f_equal.
    destruct (eq_decided (g a b)) eqn:E; [done|]. auto.
  - subst m. rewrite Nat.eqb_refl. simpl. unfold df_equal.
    assert (Hlen : length xs = length ys) by (rewrite <- (map_length v_type xs), Hn, map_length; done).
    rewrite Hlen, Nat.eqb_refl. simpl.
    destruct (sc_cols_spec eq_decided 1 n (elt_equal na_equal) g xs ys (fun _ => []) (sc_init n 1))
      as (st & E & (I1 & I2 & I3 & I4)); try done.
    { apply sc_init_inv. }
    rewrite E. simpl. eexists; split; [done|]. split; [done|]. intros i Hi.
    destruct (I4 i Hi) as [-> _]. simpl. unfold proxy_row. simpl. by rewrite (vals_at_rows g xs ys i n).
Qed.

Lemma row_types_eq x y i :
  proxy_wf x -> proxy_wf y -> same_shape x y -> i < proxy_size x ->
  Forall2 (fun a b => elt_type a = elt_type b) (proxy_row x i) (proxy_row y i).
Proof.
  intros Wx Wy Hs Hi.
  assert (Hc : map v_type (proxy_cols x) = map v_type (proxy_cols y) /\ proxy_size x = proxy_size y).
  { destruct x, y; simpl in Hs; try done; destruct Hs as [Ha Hb]; simpl; [rewrite Ha|]; done. }
  destruct Hc as [Hc Hsz]. unfold proxy_row, proxy_wf in *. rewrite Hsz in *.
  set (n := proxy_size y) in *.
  revert Wx Wy Hc. generalize (proxy_cols x) as xs. generalize (proxy_cols y) as ys.
  intros ys xs. revert ys. induction xs as [|c xs IH]; intros [|d ys] Wx Wy Hc; simpl in Hc; try done.
  { constructor. }
  apply Forall_cons in Wx as [[Wc Lc] Wx]. apply Forall_cons in Wy as [[Wd Ld] Wy].
  injection Hc as Ht Hc.
  destruct (lookup_lt_is_Some_nth (v_data c) i) as [a Ha]; [lia|].
  destruct (lookup_lt_is_Some_nth (v_data d) i) as [b Hb]; [lia|].
  rewrite (cols_row_cons _ _ _ a), (cols_row_cons _ _ _ b) by done.
  constructor; [|by apply IH].
  rewrite (Forall_lookup_1 _ _ _ _ Wc Ha), (Forall_lookup_1 _ _ _ _ Wd Hb). done.
Qed.

Lemma row_in_range cols i : cols_in_range cols -> Forall elt_in_range (cols_row cols i).
Proof.
  intros H. unfold cols_row. induction H as [|c cs Hc H IH]; simpl; [constructor|].
  destruct (v_data c !! i) eqn:E; [|done]. constructor; [|done]. by eapply Forall_lookup_1 in Hc.
Qed.
Lemma row_plain cols i : cols_plain cols -> Forall is_plain (cols_row cols i).
Proof.
  intros H. unfold cols_row. induction H as [|c cs Hc H IH]; simpl; [constructor|].
  destruct (v_data c !! i) as [e|] eqn:E; [|by apply IH]. constructor; [|by apply IH].
  by eapply Forall_lookup_1 in Hc.
Qed.
Lemma proxy_wf_vec p : proxy_wf p -> Forall vec_wf (proxy_cols p).
Proof. intros H. eapply Forall_impl; [exact H|]. by intros v [? _]. Qed.

Lemma b2i_decided b : eq_decided (b2i b) = negb b.
Proof. by destruct b. Qed.

Lemma first_decided_rows r s :
  Forall is_plain r -> Forall is_plain s -> Forall elt_in_range r -> Forall elt_in_range s -> length r = length s ->
  (row_same r s /\ first_decided eq_decided 1 (zip_with (fun a b => b2i (elt_equal_na_equal a b)) r s) = 1%Z) \/
  (~ row_same r s /\ first_decided eq_decided 1 (zip_with (fun a b => b2i (elt_equal_na_equal a b)) r s) = 0%Z).
Proof.
  revert s. induction r as [|a r IH]; intros [|b s] Ha Hb Hr Hs Hl; simpl in *; try lia.
  { left. done. }
  apply Forall_cons in Ha as [Ha Fa]. apply Forall_cons in Hb as [Hb Fb]. apply Forall_cons in Hr as [Hr Fr]. apply Forall_cons in Hs as [Hs Fs].
  rewrite b2i_decided. pose proof (elt_equal_spec a b Ha Hb Hr Hs) as He.
  destruct (elt_equal_na_equal a b); simpl.
  - destruct (IH s) as [[H1 H2]|[H1 H2]]; try done; try lia.
    + left. split; [|done]. unfold row_same in *. simpl. rewrite H1. f_equal. by apply He.
    + right. split; [|done]. unfold row_same in *. simpl. intros [= E1 E2]. done.
  - right. split; [|done]. unfold row_same. simpl. intros [= E1 E2]. apply He in E1. done.
Qed.

Theorem vec_equal_na_equal_correct x y :
  proxy_ok x -> proxy_ok y -> same_shape x y -> proxy_plain x -> proxy_plain y ->
  exists out, vec_equal x y true = Ok out /\ length out = proxy_size x /\
    forall i, i < proxy_size x ->
      (row_same (proxy_row x i) (proxy_row y i) /\ out !! i = Some 1%Z) \/
      (~ row_same (proxy_row x i) (proxy_row y i) /\ out !! i = Some 0%Z).
Proof.
  intros [Wx Rx] [Wy Ry] Hs Hat Hbt.
  destruct (vec_equal_rows x y true (fun a b => b2i (elt_equal_na_equal a b))) as (out & E & Hl & Ho);
    try done.
  { intros a b. unfold b2i. by destruct (elt_equal_na_equal a b). }
  exists out. split_and!; try done. intros i Hi. rewrite Ho by done.
  pose proof (row_types_eq x y i Wx Wy Hs Hi) as Ht. apply Forall2_length in Ht.
  destruct (first_decided_rows (proxy_row x i) (proxy_row y i)) as [[H1 ->]|[H1 ->]]; auto.
  - by apply row_plain.
  - by apply row_plain.
  - by apply row_in_range.
  - by apply row_in_range.
Qed.

Lemma first_decided_propagate r s :
  Forall2 (fun a b => elt_type a = elt_type b) r s ->
  Forall is_plain r -> Forall is_plain s -> Forall elt_in_range r -> Forall elt_in_range s ->
  row_eq_propagate r s (first_decided eq_decided 1 (zip_with elt_equal_na_propagate r s)).
Proof.
  intros Ht. induction Ht as [|a b r s Hab Ht IH]; intros Ha Hb Hr Hs; simpl; [constructor|].
  apply Forall_cons in Ha as [Ha Fa]. apply Forall_cons in Hb as [Hb Fb]. apply Forall_cons in Hr as [Hr Fr]. apply Forall_cons in Hs as [Hs Fs].
  rewrite elt_equal_propagate_spec by done.
  pose proof (elt_missing_spec a Hr) as Ma. pose proof (elt_missing_spec b Hs) as Mb.
  pose proof (elt_equal_spec a b Ha Hb Hr Hs) as He.
  destruct (elt_is_missing a) eqn:Ea; simpl.
  { apply rep_na. left. by apply Ma. }
  destruct (elt_is_missing b) eqn:Eb; simpl.
  { apply rep_na. right. by apply Mb. }
  assert (~ missing_sem a) by (rewrite <- Ma; congruence).
  assert (~ missing_sem b) by (rewrite <- Mb; congruence).
  rewrite b2i_decided. destruct (elt_equal_na_equal a b); simpl.
  - apply rep_eq; try done; [by apply He|]. by apply IH.
  - apply rep_ne; try done. intros E. by apply He in E.
Qed.

Theorem vec_equal_propagate_correct x y :
  proxy_ok x -> proxy_ok y -> same_shape x y -> proxy_plain x -> proxy_plain y ->
  exists out, vec_equal x y false = Ok out /\ length out = proxy_size x /\
    forall i, i < proxy_size x -> exists v, out !! i = Some v /\
      row_eq_propagate (proxy_row x i) (proxy_row y i) v.
Proof.
  intros [Wx Rx] [Wy Ry] Hs Hat Hbt.
  assert (Hdec : forall a b, eq_decided (elt_equal_na_propagate a b) = false -> elt_equal_na_propagate a b = 1%Z).
  { intros a b. unfold eq_decided. intros H. apply Z.leb_gt in H.
    assert (Hb : forall c, b2i c = 1%Z \/ b2i c = 0%Z) by (intros []; auto).
    assert (Hn : NA_LOGICAL = (-2147483648)%Z) by done.
    destruct a as [p|p|p|pr pi|p|p|p], b as [q|q|q|qr qi|q|q|q]; simpl in *; try lia;
      unfold lgl_equal_na_propagate, int_equal_na_propagate, dbl_equal_na_propagate, cpl_equal_na_propagate,
        chr_equal_na_propagate, raw_equal_na_propagate, list_equal_na_propagate in *;
      repeat match goal with
      | H : context [if ?c then _ else _] |- _ => destruct c; try lia
      | |- context [b2i ?c] => destruct (Hb c); try lia
      end. }
  destruct (vec_equal_rows x y false elt_equal_na_propagate) as (out & E & Hl & Ho); try done.
  exists out. split_and!; try done. intros i Hi. rewrite Ho by done. eexists; split; [done|].
  apply first_decided_propagate.
  - by apply row_types_eq.
  - by apply row_plain.
  - by apply row_plain.
  - by apply row_in_range.
  - by apply row_in_range.
Qed.

(** row_eq_propagate is a function and relates to row_same *)
Lemma row_eq_propagate_fun r s v w : row_eq_propagate r s v -> row_eq_propagate r s w -> v = w.
Proof.
  intros H. revert w. induction H; intros w Hw; inversion Hw; subst; try done; try tauto; auto.
Qed.
Lemma row_eq_propagate_complete r s v :
  row_eq_propagate r s v -> Forall (fun e => ~ missing_sem e) r -> Forall (fun e => ~ missing_sem e) s ->
  (v = 1%Z /\ row_same r s) \/ (v = 0%Z /\ ~ row_same r s).
Proof.
  induction 1 as [|a b r s [|]|a b r s|a b r s v Ha Hb E H IH]; intros Fr Fs; unfold row_same in *;
    try (apply Forall_cons in Fr as [? ?]; apply Forall_cons in Fs as [? ?]); try done; simpl.
  - left; done.
  - right. split; [done|]. intros [= ? ?]. done.
  - destruct IH as [[-> E']|[-> E']]; try done; [left|right]; split; try done; [by f_equal|].
    intros [= ? ?]. done.
Qed.

(** ** Comparison *)
Lemma row_cmp_first r s :
  Forall2 (fun a b => elt_type a = elt_type b) r s ->
  Forall (fun a => elt_comparable a = true) r -> Forall elt_in_range r -> Forall elt_in_range s ->
  row_cmp r s (first_decided cmp_decided 0
    (zip_with (fun a b => match elt_compare_na_equal a b with Ok c => c | _ => 0%Z end) r s)).
Proof.
  intros Ht. induction Ht as [|a b r s Hab Ht IH]; intros Ha Hr Hs; simpl.
  { right; left. done. }
  apply Forall_cons in Ha as [Ha Fa]. apply Forall_cons in Hr as [Hr Fr]. apply Forall_cons in Hs as [Hs Fs].
  destruct (elt_compare_spec a b Hab Ha Hr Hs) as (c & -> & Hc).
  destruct Hc as [[-> H]|[[-> H]|[-> H]]]; simpl.
  - left. split; [done|]. by constructor.
  - destruct (IH Fa Fr Fs) as [[-> H']|[[-> H']|[-> H']]].
    + left. split; [done|]. by apply row_lt_tail.
    + right; left. split; [done|]. unfold row_same in *. simpl. by f_equal.
    + right; right. split; [done|]. by apply row_lt_tail.
  - right; right. split; [done|]. by constructor.
Qed.

Lemma row_cmp_propagate_first r s :
  Forall2 (fun a b => elt_type a = elt_type b) r s ->
  Forall (fun a => elt_comparable a = true) r -> Forall elt_in_range r -> Forall elt_in_range s ->
  row_cmp_propagate r s (first_decided cmp_decided 0
    (zip_with (fun a b => match elt_compare_na_propagate a b with Ok c => c | _ => 0%Z end) r s)).
Proof.
  intros Ht. induction Ht as [|a b r s Hab Ht IH]; intros Ha Hr Hs; simpl; [constructor|].
  apply Forall_cons in Ha as [Ha Fa]. apply Forall_cons in Hr as [Hr Fr]. apply Forall_cons in Hs as [Hs Fs].
  rewrite elt_compare_propagate_spec by done. rewrite Ha. simpl.
  pose proof (elt_missing_spec a Hr) as Ma. pose proof (elt_missing_spec b Hs) as Mb.
  destruct (elt_is_missing a) eqn:Ea; simpl.
  { apply rcp_na. left. by apply Ma. }
  destruct (elt_is_missing b) eqn:Eb; simpl.
  { apply rcp_na. right. by apply Mb. }
  assert (~ missing_sem a) by (rewrite <- Ma; congruence).
  assert (~ missing_sem b) by (rewrite <- Mb; congruence).
  destruct (elt_compare_spec a b Hab Ha Hr Hs) as (c & -> & Hc).
  destruct Hc as [[-> H']|[[-> H']|[-> H']]]; simpl.
  - by apply rcp_lt.
  - apply rcp_eq; auto.
  - by apply rcp_gt.
Qed.

Lemma row_lt_trans r s t : row_lt r s -> row_lt s t -> row_lt r t.
Proof.
  intros H. revert t. induction H as [x y r s Hxy|x y r s Hxy Hrs IH]; intros t Ht; inversion Ht; subst.
  - apply row_lt_head. by eapply elt_lt_trans.
  - apply row_lt_head. by eapply elt_lt_sem_r.
  - apply row_lt_head. eapply elt_lt_sem_l; [symmetry|]; eauto.
  - apply row_lt_tail; [by etrans|]. by apply IH.
Qed.
Lemma row_lt_irrefl r : ~ row_lt r r.
Proof. induction r; intros H; inversion H; subst; [by eapply elt_lt_irrefl|done]. Qed.
Lemma row_lt_same_l r r' s : row_same r r' -> row_lt r s -> row_lt r' s.
Proof.
  intros E H. revert r' E. induction H as [x y r s Hxy|x y r s Hxy Hrs IH]; intros [|x' r'] E;
    unfold row_same in E; simpl in E; try discriminate; injection E as E1 E2.
  - apply row_lt_head. by eapply elt_lt_sem_l.
  - apply row_lt_tail; [congruence|]. by apply IH.
Qed.
Lemma row_lt_same_r r s s' : row_same s s' -> row_lt r s -> row_lt r s'.
Proof.
  intros E H. revert s' E. induction H as [x y r s Hxy|x y r s Hxy Hrs IH]; intros [|y' s'] E;
    unfold row_same in E; simpl in E; try discriminate; injection E as E1 E2.
  - apply row_lt_head. by eapply elt_lt_sem_r.
  - apply row_lt_tail; [congruence|]. by apply IH.
Qed.
Lemma row_lt_not_same r s : row_lt r s -> ~ row_same r s.
Proof. intros H E. apply (row_lt_irrefl s). by eapply row_lt_same_l. Qed.
Lemma row_lt_asym r s : row_lt r s -> ~ row_lt s r.
Proof. intros H1 H2. eapply row_lt_irrefl, row_lt_trans; eauto. Qed.

(** row_cmp determines its result *)
Lemma row_cmp_fun r s c d : row_cmp r s c -> row_cmp r s d -> c = d.
Proof.
  unfold row_cmp, row_same.
  intros [[-> H]|[[-> H]|[-> H]]] [[-> K]|[[-> K]|[-> K]]]; try done; exfalso;
    (by eapply row_lt_asym) || (by eapply row_lt_not_same; unfold row_same; eauto) ||
    (by eapply row_lt_not_same; unfold row_same; [eassumption|symmetry]; eauto).
Qed.

(** The nested comparison visits the leaves in order. *)
Section ccols.
  Context (na_equal : bool) (size : nat).
  Let f := elt_compare na_equal.
  Let g a b := match f a b with Ok c => c | _ => 0%Z end.

  Definition leaf_ok (v : vec) : Prop :=
    vec_wf v /\ length (v_data v) = size /\ Forall elt_in_range (v_data v) /\
    v_type v <> TCpl /\ v_type v <> TRaw /\ v_type v <> TList.

  Lemma leaf_comparable v : leaf_ok v -> vtype_comparable (v_type v) = true.
  Proof. intros (_ & _ & _ & ? & ? & ?). destruct (v_type v); done. Qed.

  Lemma f_ok v w i a b : leaf_ok v -> leaf_ok w -> v_type v = v_type w ->
    v_data v !! i = Some a -> v_data w !! i = Some b -> f a b = Ok (g a b).
  Proof.
    intros Hv Hw Ht Ha Hb. unfold g.
    assert (exists c, f a b = Ok c) as [c ->]; [|done].
    pose proof (leaf_comparable v Hv) as Hc.
    destruct Hv as (Wv & _ & Rv & _). destruct Hw as (Ww & _ & Rw & _).
    eapply Forall_lookup_1 in Wv; [|exact Ha]. eapply Forall_lookup_1 in Ww; [|exact Hb].
    eapply Forall_lookup_1 in Rv; [|exact Ha]. eapply Forall_lookup_1 in Rw; [|exact Hb].
    assert (elt_type a = elt_type b) by congruence.
    assert (Hca : elt_comparable a = true) by (unfold elt_comparable; congruence).
    unfold f, elt_compare. destruct na_equal.
    - destruct (elt_compare_spec a b) as (c & ? & _); eauto.
    - rewrite elt_compare_propagate_spec by done.
      destruct (elt_comparable a && (elt_is_missing a || elt_is_missing b)); [eauto|].
      destruct (elt_compare_spec a b) as (c & ? & _); eauto.
  Qed.

  (** Structural induction on comparison proxies *)
  Lemma cproxy_ind' (P : cproxy -> Prop) :
    (forall v, P (CVec v)) -> (forall cols, Forall P cols -> P (CDf cols)) -> forall x, P x.
  Proof.
    intros Hv Hd. fix IH 1. intros [v|cols]; [apply Hv|]. apply Hd.
    induction cols as [|c cols IHc]; constructor; [apply IH|apply IHc].
  Qed.

  Lemma cflatten_df cols : cflatten (CDf cols) = concat (map cflatten cols).
  Proof. simpl. induction cols as [|c cs IH]; simpl; [done|]. by rewrite <- IH. Qed.

  Lemma csame_flatten x : forall y, csame x y -> Forall2 (fun v w => v_type v = v_type w) (cflatten x) (cflatten y).
  Proof.
    induction x as [v|xs IH] using cproxy_ind'; intros y H; inversion H; subst.
    - by repeat constructor.
    - rewrite !cflatten_df. clear H.
      match goal with K : Forall2 csame xs _ |- _ => revert IH; induction K as [|a b xs' ys' Hab K IHK] end;
        intros IH; [constructor|].
      apply Forall_cons in IH as [IH1 IH2]. simpl. apply Forall2_app; [by apply IH1|by apply IHK].
  Qed.

  Definition cvals (x y : cproxy) (k : nat) : list Z := vals_at g (cflatten x) (cflatten y) k.

  Lemma vals_at_app xs1 xs2 ys1 ys2 k : length xs1 = length ys1 ->
    vals_at g (xs1 ++ xs2) (ys1 ++ ys2) k = vals_at g xs1 ys1 k ++ vals_at g xs2 ys2 k.
  Proof. intros H. unfold vals_at. by rewrite zip_with_app. Qed.

  Lemma sc_inv_all_known_list decided init row st cols ws :
    sc_inv decided init size row st -> sc_remaining st = 0%Z ->
    (forall k, length (cols k) = ws) -> sc_inv decided init size (fun k => row k ++ cols k) st.
  Proof.
    intros I H0. revert row I cols. induction ws as [|ws IHw]; intros row I cols Hc.
    - eapply sc_inv_ext; [|exact I]. intros k _. specialize (Hc k). simpl.
      destruct (cols k); [|done]. by rewrite app_nil_r.
    - pose proof (sc_inv_all_known decided init size row (fun k => nth 0 (cols k) 0%Z) st I H0) as I2.
      eapply sc_inv_ext; [|apply (IHw _ I2 (fun k => drop 1 (cols k)))].
      + intros k _. simpl. rewrite <- app_assoc. f_equal. specialize (Hc k). by destruct (cols k).
      + intros k. rewrite drop_length, Hc. lia.
  Qed.

  Lemma vec_compare_col_spec x : forall y row st,
    csame x y -> Forall leaf_ok (cflatten x) -> Forall leaf_ok (cflatten y) ->
    sc_inv cmp_decided 0 size row st ->
    exists st', vec_compare_col na_equal size x y st = Ok st' /\
      sc_inv cmp_decided 0 size (fun k => row k ++ cvals x y k) st'.
  Proof.
    induction x as [v|xs IH] using cproxy_ind'; intros y row st Hs Hx Hy Hinv; inversion Hs as [? w Hvw|? ys Hxs]; subst.
    - simpl in *. apply Forall_cons in Hx as [Hv _]. apply Forall_cons in Hy as [Hw _].
      rewrite leaf_comparable by done. simpl.
      destruct (sc_col_spec cmp_decided 0 size f g (v_data v) (v_data w) row st) as (st' & E & I); try done.
      + by destruct Hv as (_ & ? & _).
      + by destruct Hw as (_ & ? & _).
      + intros i a b. by apply f_ok.
      + fold f. rewrite E. eauto.
    - rewrite cflatten_df in Hx, Hy. unfold cvals. rewrite !cflatten_df. simpl.
      rewrite (Forall2_length _ _ _ Hxs), Nat.eqb_refl. simpl. clear Hs.
      revert row st Hinv Hx Hy IH. induction Hxs as [|a b xs ys Hab Hxs IHx]; intros row st Hinv Hx Hy IH.
      + eexists; split; [done|]. eapply sc_inv_ext; [|exact Hinv]. intros k _. simpl. by rewrite app_nil_r.
      + simpl in Hx, Hy. apply Forall_app in Hx as [Ha Hx]. apply Forall_app in Hy as [Hb Hy].
        apply Forall_cons in IH as [IH1 IH2].
        destruct (IH1 b row st Hab Ha Hb Hinv) as (st1 & E1 & I1). rewrite E1. simpl.
        pose proof (Forall2_length _ _ _ (csame_flatten a b Hab)) as Hl.
        destruct (Z.eqb_spec (sc_remaining st1) 0) as [Hz|Hz].
        * eexists; split; [done|].
          eapply sc_inv_ext.
          2: apply (sc_inv_all_known_list _ _ _ _ (fun k => vals_at g (concat (map cflatten xs)) (concat (map cflatten ys)) k)
                     (min (length (concat (map cflatten xs))) (length (concat (map cflatten ys)))) I1 Hz).
          -- intros k _. simpl. rewrite vals_at_app by done. by rewrite <- app_assoc.
          -- intros k. unfold vals_at. by rewrite zip_with_length.
        * destruct (IHx (fun k => row k ++ cvals a b k) st1) as (st2 & E2 & I2); try done.
          rewrite E2. eexists; split; [done|]. eapply sc_inv_ext; [|exact I2].
          intros k _. simpl. unfold cvals. rewrite vals_at_app by done. by rewrite <- app_assoc.
  Qed.
End ccols.

Definition cproxy_size_ok (size : nat) (x : cproxy) : Prop :=
  match x with CVec v => length (v_data v) = size | CDf _ => True end.

Lemma leaf_rows size vs ws i :
  Forall (leaf_ok size) vs -> Forall (leaf_ok size) ws -> Forall2 (fun v w => v_type v = v_type w) vs ws -> i < size ->
  Forall2 (fun a b => elt_type a = elt_type b) (cols_row vs i) (cols_row ws i) /\
  Forall (fun a => elt_comparable a = true) (cols_row vs i) /\
  Forall elt_in_range (cols_row vs i) /\ Forall elt_in_range (cols_row ws i).
Proof.
  intros Hv Hw Ht Hi. induction Ht as [|v w vs ws Hvw Ht IH]; [repeat constructor|].
  apply Forall_cons in Hv as [Hv Fv]. apply Forall_cons in Hw as [Hw Fw].
  destruct (IH Fv Fw) as (I1 & I2 & I3 & I4).
  pose proof (leaf_comparable _ v Hv) as Hc.
  destruct Hv as (Wv & Lv & Rv & _). destruct Hw as (Ww & Lw & Rw & _).
  destruct (lookup_lt_is_Some_nth (v_data v) i) as [a Ha]; [lia|].
  destruct (lookup_lt_is_Some_nth (v_data w) i) as [b Hb]; [lia|].
  rewrite (cols_row_cons _ _ _ a), (cols_row_cons _ _ _ b) by done.
  eapply Forall_lookup_1 in Wv; [|exact Ha]. eapply Forall_lookup_1 in Ww; [|exact Hb].
  eapply Forall_lookup_1 in Rv; [|exact Ha]. eapply Forall_lookup_1 in Rw; [|exact Hb].
  split_and!; constructor; try done; [congruence|]. unfold elt_comparable. congruence.
Qed.

Lemma vec_compare_rows size x y na_equal :
  cproxy_ok size x -> cproxy_ok size y -> csame x y ->
  exists out, vec_compare size x y na_equal = Ok out /\ length out = size /\
    forall i, i < size ->
      out !! i = Some (first_decided cmp_decided 0
        (zip_with (fun a b => match elt_compare na_equal a b with Ok c => c | _ => 0%Z end)
           (cols_row (cflatten x) i) (cols_row (cflatten y) i))).
Proof.
  intros Hx Hy Hs. pose proof (csame_flatten x y Hs) as Hty.
  assert (Lx : Forall (fun v => length (v_data v) = size) (cflatten x)).
  { eapply Forall_impl; [exact Hx|]. simpl. tauto. }
  assert (Ly : Forall (fun v => length (v_data v) = size) (cflatten y)).
  { eapply Forall_impl; [exact Hy|]. simpl. tauto. }
  set (g := fun a b => match elt_compare na_equal a b with Ok c => c | _ => 0%Z end).
  inversion Hs as [v w Hvw|xs ys Hxs]; subst.
  - simpl in *. unfold cproxy_ok in *. simpl in *.
    apply Forall_cons in Hx as [Hv _]. apply Forall_cons in Hy as [Hw _].
    apply Forall_cons in Lx as [Lv _]. apply Forall_cons in Ly as [Lw _].
    rewrite Hvw, vtype_eqb_refl, Lv, Lw, Nat.eqb_refl. simpl.
    rewrite <- Hvw, (leaf_comparable size v Hv). simpl.
    rewrite (zip_loop_spec _ g).
    + eexists; split; [done|]. rewrite zip_with_length. split; [lia|]. intros i Hi.
      destruct (lookup_lt_is_Some_nth (v_data v) i) as [a Ha]; [lia|].
      destruct (lookup_lt_is_Some_nth (v_data w) i) as [b Hb]; [lia|].
      rewrite lookup_zip_with, Ha, Hb. simpl. rewrite (cols_row_cons _ _ _ a), (cols_row_cons _ _ _ b) by done.
      simpl. fold (g a b). f_equal. unfold cmp_decided. destruct (Z.eqb_spec (g a b) 0); simpl; done.
    + done.
    + done.
    + intros i a b Ha Hb. by eapply (f_ok na_equal size v w).
  - destruct (vec_compare_col_spec na_equal size (CDf xs) (CDf ys) (fun _ => []) (sc_init size 0))
      as (st & E & (I1 & I2 & I3 & I4)); try done.
    { apply sc_init_inv. }
    unfold vec_compare. rewrite E. simpl. eexists; split; [done|]. split; [done|]. intros i Hi.
    destruct (I4 i Hi) as [-> _]. f_equal. unfold cvals. simpl app.
    by rewrite (vals_at_rows _ _ _ i size).
Qed.

Theorem vec_compare_correct size x y :
  cproxy_ok size x -> cproxy_ok size y -> csame x y ->
  exists out, vec_compare size x y true = Ok out /\ length out = size /\
    forall i, i < size -> exists c, out !! i = Some c /\
      row_cmp (cols_row (cflatten x) i) (cols_row (cflatten y) i) c.
Proof.
  intros Hx Hy Hs. destruct (vec_compare_rows size x y true Hx Hy Hs) as (out & E & Hl & Ho).
  exists out. split_and!; try done. intros i Hi. rewrite Ho by done. eexists; split; [done|].
  destruct (leaf_rows size (cflatten x) (cflatten y) i) as (H1 & H2 & H3 & H4); try done.
  { by apply csame_flatten. }
  by apply row_cmp_first.
Qed.

Theorem vec_compare_propagate_correct size x y :
  cproxy_ok size x -> cproxy_ok size y -> csame x y ->
  exists out, vec_compare size x y false = Ok out /\ length out = size /\
    forall i, i < size -> exists c, out !! i = Some c /\
      row_cmp_propagate (cols_row (cflatten x) i) (cols_row (cflatten y) i) c.
Proof.
  intros Hx Hy Hs. destruct (vec_compare_rows size x y false Hx Hy Hs) as (out & E & Hl & Ho).
  exists out. split_and!; try done. intros i Hi. rewrite Ho by done. eexists; split; [done|].
  destruct (leaf_rows size (cflatten x) (cflatten y) i) as (H1 & H2 & H3 & H4); try done.
  { by apply csame_flatten. }
  by apply row_cmp_propagate_first.
Qed.
