(** * Lemmas: columns by name, prototypes, the column loops *)
From Coq Require Import Lia ZifyBool ZifyNat.
From Verif Require Import Base M_Double M_Scalar M_Object M_Proxy M_Slice M_Subscript M_Rep M_Shape M_Chop M_Factor M_Ptype.
From Verif Require Import Spec_Value Spec_Slice Spec_Factor Spec_Ptype L_Dbl L_Object L_Factor P_Shape P_Factor.
#[local] Arguments Z.mul : simpl never.
#[local] Arguments Z.add : simpl never.
#[local] Arguments Z.sub : simpl never.
#[local] Arguments Z.to_nat : simpl never.
#[local] Arguments Z.of_nat : simpl never.
#[local] Arguments Z.pow : simpl never.

(** ** Induction on types *)
Lemma ty_ind' (P : ty -> Prop) :
  P TyNull -> P TyUnspecified -> (forall t d, P (TyBare t d)) -> (forall l, P (TyFactor l)) -> (forall l, P (TyOrdered l)) ->
  P TyDate -> (forall tz, P (TyPosixct tz)) -> (forall tz, P (TyPosixlt tz)) ->
  (forall tib names cols, Forall P cols -> P (TyDf tib names cols)) -> P TyScalar -> forall x, P x.
Proof.
  intros H1 H2 H3 H4 H5 H6 H7 H8 H9 H10. fix IH 1. intros [ | |t d|l|l| |tz|tz|tib names cols| ];
    [exact H1|exact H2|apply H3|apply H4|apply H5|exact H6|apply H7|apply H8| |exact H10].
  apply H9. induction cols as [|c cols IHc]; constructor; [apply IH|apply IHc].
Qed.
Lemma ty_ok_df k tib names cols : ty_ok k (TyDf tib names cols) <->
  NoDup names /\ strs_ok names /\ length names = length cols /\ (Z.of_nat (length names) <= k)%Z /\ Forall (ty_ok k) cols.
Proof.
  cbn [ty_ok]. assert (E : (fix go cols := match cols with [] => True | c :: cols => ty_ok k c /\ go cols end) cols <-> Forall (ty_ok k) cols).
  { induction cols as [|c cols IH]; [by split|]. rewrite Forall_cons. tauto. }
  tauto.
Qed.
Lemma ty_plain_df tib names cols : ty_plain (TyDf tib names cols) <-> Forall ty_plain cols.
Proof. cbn [ty_plain]. induction cols as [|c cols IH]; [by split|]. rewrite Forall_cons. tauto. Qed.
Lemma ty_ok_mono k j x : (k <= j)%Z -> ty_ok k x -> ty_ok j x.
Proof.
  intros H. induction x as [ | |t d|l|l| |tz|tz|tib names cols IH| ] using ty_ind'; try done.
  - intros (? & ? & ?). split_and!; [done..|lia].
  - intros (? & ? & ?). split_and!; [done..|lia].
  - rewrite !ty_ok_df. intros (? & ? & ? & ? & Hc). split_and!; [done..|lia|]. rewrite Forall_forall in *. intros c Hin. auto.
Qed.

(** ** Columns by name *)
Section col.
  Context {A : Type}.
  Implicit Types (names : list rstr) (cols : list A).
  Lemma col_Some names cols n c : col names cols n = Some c -> exists i, names !! i = Some n /\ cols !! i = Some c.
  Proof.
    revert cols. induction names as [|m names IH]; intros [|d cols] H; try done. simpl in H. destruct (decide (m = n)) as [->|].
    - injection H as ->. by exists 0.
    - destruct (IH _ H) as (i & H1 & H2). by exists (S i).
  Qed.
  Lemma col_lookup names cols i (n : rstr) c : NoDup names -> names !! i = Some n -> cols !! i = Some c -> col names cols n = Some c.
  Proof.
    revert cols i. induction names as [|m names IH]; intros [|d cols] [|i] Hn Hi Hc; try done; simpl in *.
    - injection Hi as ->. by rewrite decide_True.
    - apply NoDup_cons in Hn as [Hm Hn]. rewrite decide_False; [by eapply IH|]. intros ->. apply Hm. by eapply elem_of_list_lookup_2.
  Qed.
  Lemma col_None names cols n : length names = length cols -> col names cols n = None <-> n ∉ names.
  Proof.
    revert cols. induction names as [|m names IH]; intros [|d cols] H; try done; simpl in *.
    - split; [intros _ ?%elem_of_nil; done|done].
    - rewrite not_elem_of_cons. destruct (decide (m = n)) as [->|Hn]; [split; [done|tauto]|]. rewrite IH by lia. split; [|tauto]. intros H'. split; [congruence|done].
  Qed.
  Lemma col_is_Some names cols n : length names = length cols -> is_Some (col names cols n) <-> n ∈ names.
  Proof.
    intros H. pose proof (col_None names cols n H) as E. destruct (col names cols n) as [c|].
    - split; [|by eexists]. intros _. destruct (decide (n ∈ names)) as [|Hn]; [done|]. by apply E in Hn.
    - split; [intros [? ?]; done|]. intros Hn. by apply E in Hn.
  Qed.
  Lemma col_app (na nb : list rstr) (ca cb : list A) n : length na = length ca ->
    col (na ++ nb) (ca ++ cb) n = match col na ca n with Some c => Some c | None => col nb cb n end.
  Proof.
    revert ca. induction na as [|m na IH]; intros [|c ca] H; try done. simpl. destruct (decide (m = n)); [done|]. apply IH. simpl in H. lia.
  Qed.
  Lemma col_ext names (a b : list A) : NoDup names -> length names = length a -> length names = length b ->
    (forall n, n ∈ names -> col names a n = col names b n) -> a = b.
  Proof.
    intros Hn Ha Hb H. apply list_eq_same_length with (n := length names); [done|done|]. intros i x y Hi Hx Hy.
    apply lookup_lt_is_Some in Hi as [n Hi]. specialize (H n ltac:(by eapply elem_of_list_lookup_2)).
    rewrite (col_lookup names a i n x), (col_lookup names b i n y) in H by done. congruence.
  Qed.
  Lemma col_map {B} (f : A -> B) names cols n : col names (map f cols) n = f <$> col names cols n.
  Proof.
    revert cols. induction names as [|m names IH]; intros [|c cols]; try done. simpl. destruct (decide (m = n)); [done|]. apply IH.
  Qed.
End col.
Lemma new_names_elem xs ys n : n ∈ new_names xs ys <-> n ∉ xs /\ n ∈ ys.
Proof. unfold new_names. by rewrite elem_of_list_filter. Qed.
Lemma new_names_self xs : new_names xs xs = [].
Proof.
  unfold new_names. assert (forall ys : list rstr, ys ⊆ xs -> filter (fun n : rstr => n ∉ xs) ys = []) as H; [|by apply H].
  induction ys as [|y ys IH]; [done|]. intros Hs. rewrite filter_cons, decide_False; [apply IH; intros z Hz; apply Hs; by right|]. intros H. apply H, Hs. by left.
Qed.
Lemma new_names_nodup xs ys : NoDup xs -> NoDup ys -> NoDup (xs ++ new_names xs ys).
Proof.
  intros Hx Hy. apply NoDup_app. split_and!; [done| |by apply NoDup_filter]. intros n Hn [? _]%new_names_elem. done.
Qed.
Lemma new_names_length xs ys : length (new_names xs ys) <= length ys.
Proof. apply filter_length. Qed.
Lemma new_names_app xs ys zs : new_names xs (ys ++ zs) = new_names xs ys ++ new_names xs zs.
Proof. unfold new_names. by rewrite filter_app. Qed.
Lemma new_names_assoc xs ys zs : new_names (xs ++ new_names xs ys) zs = new_names xs (new_names ys zs).
Proof.
  unfold new_names at 1 3 4. rewrite list_filter_filter. apply list_filter_iff. intros n. rewrite elem_of_app, new_names_elem. 
  destruct (decide (n ∈ xs)), (decide (n ∈ ys)); tauto.
Qed.

(** ** Prototypes *)
Lemma vec_ptype_spec k x : ty_ok k x -> vec_ptype x = Ok (proto x).
Proof.
  induction x as [ | |t d|l|l| |tz|tz|tib names cols IH| ] using ty_ind'; try done.
  - destruct d as [[|d ds]|]; [done|done|done].
  - destruct tz; done.
  - destruct tz; done.
  - rewrite ty_ok_df. intros (_ & _ & _ & _ & Hc). cbn [vec_ptype proto].
    match goal with |- context [?f cols] => assert (E : f cols = Ok (map proto cols)) end.
    { induction cols as [|c cols IHc]; [done|]. apply Forall_cons in IH as [IH1 IH2]. apply Forall_cons in Hc as [Hc1 Hc2].
      rewrite IH1 by done. cbn [bind]. rewrite IHc by done. done. }
    by rewrite E.
Qed.
Lemma proto_ok k x : ty_ok k x -> ty_ok k (proto x).
Proof.
  induction x as [ | |t d|l|l| |tz|tz|tib names cols IH| ] using ty_ind'; try done.
  - destruct d as [[|d ds]|]; done.
  - destruct tz; done.
  - destruct tz; done.
  - cbn [proto]. rewrite !ty_ok_df. intros (? & ? & ? & ? & Hc). rewrite map_length. split_and!; [done..|].
    apply Forall_fmap. rewrite Forall_forall in *. intros c Hin. apply IH; auto.
Qed.
Lemma proto_idem x : proto (proto x) = proto x.
Proof.
  induction x as [ | |t d|l|l| |tz|tz|tib names cols IH| ] using ty_ind'; try done.
  - destruct d as [[|d ds]|]; done.
  - destruct tz; done.
  - destruct tz; done.
  - cbn [proto]. f_equal. rewrite map_map. apply map_ext_Forall. done.
Qed.

(** ** The column loops *)
Section loops.
  Context (f : ty -> ty -> res ty) (yn : list rstr) (ycols : list ty).
  Context (Hnd : NoDup yn) (Hlen : length yn = length ycols).
  (** What a column of [x] named [n] becomes. *)
  Definition one_col (n : rstr) (c : ty) : res ty := match col yn ycols n with None => vec_ptype c | Some d => f c d end.
  Definition all_cols (xns : list rstr) (xcols : list ty) (r : res (list ty)) : Prop :=
    match r with
    | Ok out => length out = length xcols /\ forall j n c, xns !! j = Some n -> xcols !! j = Some c -> exists r, out !! j = Some r /\ one_col n c = Ok r
    | Err e => exists j n c, xns !! j = Some n /\ xcols !! j = Some c /\ one_col n c = Err e
    | UB e => exists j n c, xns !! j = Some n /\ xcols !! j = Some c /\ one_col n c = UB e
    end.
  Lemma all_cols_step n c xns xcols r : all_cols xns xcols r ->
    all_cols (n :: xns) (c :: xcols) (let! t := one_col n c in let! rest := r in Ok (t :: rest)).
  Proof.
    intros H. destruct (one_col n c) as [t|e|e] eqn:E; cbn [bind]; [|by exists 0, n, c..].
    destruct r as [out|e|e]; cbn [bind].
    - destruct H as [Hl H]. split; [simpl; lia|]. intros [|j] n' c' Hn Hc; simpl in Hn, Hc.
      + injection Hn as <-. injection Hc as <-. by exists t.
      + destruct (H j n' c' Hn Hc) as (r & Hr & Er). by exists r.
    - destruct H as (j & n' & c' & H1 & H2 & H3). by exists (S j), n', c'.
    - destruct H as (j & n' & c' & H1 & H2 & H3). by exists (S j), n', c'.
  Qed.
  Lemma match_loop xd xcols : forall xns i, Forall2 (pos_in yn) xns (drop i xd) -> length xns = length xcols ->
    all_cols xns xcols (df_ptype2_match_ f ycols xd i xcols).
  Proof.
    induction xcols as [|c xcols IH]; intros xns i Hp Hl.
    - split; [done|]. intros j n c _ Hc. by rewrite lookup_nil in Hc.
    - destruct xns as [|n xns]; [done|]. cbn [df_ptype2_match_]. apply Forall2_cons_inv_l in Hp as (z & zs & Hz & Hp & Ed).
      assert (Ez : xd !! i = Some z). { replace i with (i + 0) by lia. rewrite <- lookup_drop. by rewrite Ed. }
      assert (Ezs : drop (S i) xd = zs). { replace (S i) with (i + 1) by lia. by rewrite <- drop_drop, Ed. }
      rewrite (proj2 (rd_Ok _ _ _) Ez). cbn [bind].
      assert (Eo : (if (z =? NA_INTEGER)%Z then vec_ptype c else let! ycol := rdZ ycols (z - 1) in f c ycol) = one_col n c).
      { unfold one_col. destruct Hz as [[-> Hz]|(j & -> & Hj & _)].
        - by rewrite (proj2 (col_None yn ycols n Hlen) Hz).
        - destruct (Z.eqb_spec (Z.of_nat j + 1) NA_INTEGER); [unfold NA_INTEGER, INT_MIN in *; lia|].
          assert (is_Some (ycols !! j)) as [d Hd]. { apply lookup_lt_is_Some. apply lookup_lt_Some in Hj. lia. }
          rewrite (col_lookup yn ycols j n d) by done.
          assert (rdZ ycols (Z.of_nat j + 1 - 1) = Ok d) as ->; [|done]. unfold rdZ. destruct (Z.ltb_spec (Z.of_nat j + 1 - 1) 0); [lia|].
          apply rd_Ok. by replace (Z.to_nat (Z.of_nat j + 1 - 1)) with j by lia. }
      rewrite Eo. apply all_cols_step, IH; [by rewrite Ezs|simpl in Hl; lia].
  Qed.
  Lemma equal_loop xcols : forall i, length (drop i yn) = length xcols ->
    all_cols (drop i yn) xcols (df_ptype2_loop_ f ycols i xcols).
  Proof.
    induction xcols as [|c xcols IH]; intros i Hl.
    - split; [done|]. intros j n c _ Hc. by rewrite lookup_nil in Hc.
    - rewrite drop_length in Hl. simpl in Hl. assert (Hi : i < length yn) by lia. apply lookup_lt_is_Some in Hi as [n Hn].
      assert (is_Some (ycols !! i)) as [d Hd]. { apply lookup_lt_is_Some. lia. }
      cbn [df_ptype2_loop_]. rewrite (proj2 (rd_Ok _ _ _) Hd). cbn [bind]. rewrite (drop_S _ _ _ Hn).
      assert (Eo : f c d = one_col n c). { unfold one_col. by rewrite (col_lookup yn ycols i n d). }
      rewrite Eo. apply all_cols_step, IH. rewrite drop_length. lia.
  Qed.
End loops.
Lemma rest_loop k xn yn ycols yd : NoDup yn -> length yn = length ycols -> Forall (ty_ok k) ycols -> Forall2 (pos_in xn) yn yd ->
  exists rest, df_ptype2_rest yn ycols yd = Ok rest /\ rest.*1 = new_names xn yn /\
    forall n, n ∉ xn -> col rest.*1 rest.*2 n = proto <$> col yn ycols n.
Proof.
  intros Hnd Hlen Hok Hp. unfold df_ptype2_rest.
  destruct (for_inv (fun j (out : list (rstr * ty)) => out.*1 = new_names xn (take j yn) /\
    forall n, n ∉ xn -> col out.*1 out.*2 n = proto <$> col (take j yn) (take j ycols) n) 0 (length yn)
    (fun j out => let! dup := rd yd j in
      if (dup =? NA_INTEGER)%Z then
        let! col := rd ycols j in
        let! type := vec_ptype col in
        let! name := rd yn j in
        Ok (out ++ [(name, type)])
      else Ok out) []) as (rest & E & H1 & H2).
  - by rewrite take_0.
  - intros j out Hj [H1 H2]. assert (Hjl : j < length yn) by lia. apply lookup_lt_is_Some in Hjl as [n Hn].
    assert (is_Some (ycols !! j)) as [d Hd]. { apply lookup_lt_is_Some. lia. }
    destruct (Forall2_lookup_l _ _ _ _ _ Hp Hn) as (z & Hz & Hpos). rewrite (proj2 (rd_Ok _ _ _) Hz). cbn [bind].
    rewrite (take_S_r _ _ _ Hn), (take_S_r _ _ _ Hd), new_names_app.
    assert (Hl : length (take j yn) = length (take j ycols)) by (rewrite !take_length; lia).
    assert (Hlo : length out.*1 = length out.*2) by (by rewrite !fmap_length).
    destruct Hpos as [[-> Hpos]|(i & -> & Hi & _)].
    + rewrite Z.eqb_refl, (proj2 (rd_Ok _ _ _) Hd). cbn [bind]. rewrite (vec_ptype_spec k d); [|rewrite Forall_forall in Hok; apply Hok; by eapply elem_of_list_lookup_2].
      cbn [bind]. rewrite (proj2 (rd_Ok _ _ _) Hn). cbn [bind]. eexists. split; [done|]. rewrite !fmap_app. split.
      * rewrite H1. f_equal. unfold new_names. rewrite filter_cons, decide_True by done. done.
      * intros m Hm. rewrite !col_app by done. rewrite H2 by done. destruct (col (take j yn) (take j ycols) m); [done|]. simpl. by destruct (decide (n = m)).
    + destruct (Z.eqb_spec (Z.of_nat i + 1) NA_INTEGER); [unfold NA_INTEGER, INT_MIN in *; lia|]. eexists. split; [done|].
      assert (Hin : n ∈ xn) by (by eapply elem_of_list_lookup_2). split.
      * rewrite H1. unfold new_names at 3. rewrite filter_cons, decide_False by tauto. simpl. by rewrite app_nil_r.
      * intros m Hm. rewrite col_app by done. rewrite H2 by done. destruct (col (take j yn) (take j ycols) m); [done|]. simpl. rewrite decide_False; [done|]. intros ->. done.
  - exists rest. split; [exact E|]. rewrite take_ge in H1, H2 by lia. rewrite take_ge in H2 by lia. done.
Qed.

(** ** Two factors *)
Lemma filter_order {A} (P : A -> Prop) `{!forall a, Decision (P a)} (l : list A) : forall i j a b, i < j ->
  filter P l !! i = Some a -> filter P l !! j = Some b -> exists p q, p < q /\ l !! p = Some a /\ l !! q = Some b.
Proof.
  induction l as [|x l IH]; intros i j a b Hij Hi Hj; [done|]. rewrite filter_cons in Hi, Hj. destruct (decide (P x)) as [Hx|Hx].
  - destruct j as [|j]; [lia|]. destruct i as [|i]; simpl in Hi, Hj.
    + injection Hi as ->. apply elem_of_list_lookup_2, elem_of_list_filter in Hj as [_ Hj]. apply elem_of_list_lookup_1 in Hj as [q Hq]. exists 0, (S q). split_and!; [lia|done|done].
    + destruct (IH i j a b ltac:(lia) Hi Hj) as (p & q & H1 & H2 & H3). exists (S p), (S q). split_and!; [lia|done|done].
  - destruct (IH i j a b Hij Hi Hj) as (p & q & H1 & H2 & H3). exists (S p), (S q). split_and!; [lia|done|done].
Qed.
Lemma first_appearances_new (x y : list rstr) : NoDup x -> NoDup y -> first_appearances (x ++ y) (x ++ new_names x y).
Proof.
  intros Hx Hy. pose proof (new_names_nodup x y Hx Hy) as Hn. split; [done|]. split.
  - intros s. rewrite !elem_of_app, new_names_elem. destruct (decide (s ∈ x)); tauto.
  - intros i j a b Hij Hi Hj. destruct (decide (i < length x)) as [Hl|Hl].
    + rewrite lookup_app_l in Hi by done. exists i. split; [by rewrite lookup_app_l|]. intros q Hq. destruct (decide (q < length x)) as [Hq'|]; [|lia].
      rewrite lookup_app_l in Hq by done. assert (q = j) as ->; [|done]. eapply NoDup_lookup; [exact Hn| |exact Hj]. by rewrite lookup_app_l.
    + rewrite lookup_app_r in Hi, Hj by lia. assert (Hb : b ∉ x). { eapply elem_of_list_lookup_2, new_names_elem in Hj as [? _]. done. }
      destruct (filter_order (fun n : rstr => n ∉ x) y _ _ a b (ltac:(lia) : i - length x < j - length x) Hi Hj) as (p & q & Hpq & Hp & Hq).
      exists (length x + p). split; [rewrite lookup_app_r by lia; by replace (length x + p - length x) with p by lia|].
      intros r Hr. destruct (decide (r < length x)).
      * rewrite lookup_app_l in Hr by done. by apply elem_of_list_lookup_2 in Hr.
      * rewrite lookup_app_r in Hr by lia. pose proof (NoDup_lookup _ _ _ _ Hy Hr Hq). lia.
Qed.
Lemma new_names_ok xs ys : strs_ok xs -> strs_ok ys -> strs_ok (xs ++ new_names xs ys).
Proof.
  unfold strs_ok. rewrite Forall_app. intros Hx Hy. split; [done|]. rewrite Forall_forall in *. intros s Hs. apply Hy. by apply new_names_elem in Hs as [_ Hs].
Qed.
Lemma fct_join addr p q l m : p <> q -> NoDup l -> NoDup m -> strs_ok l -> strs_ok m -> (Z.of_nat (length l) + Z.of_nat (length m) <= 2 ^ 30)%Z ->
  fct_ptype2 addr (LChr p l) (LChr q m) = Ok (l ++ new_names l m).
Proof.
  intros Hpq Hl Hm Ol Om Hk. destruct (C37_ptype2_partial addr p l q m) as (out & E & Ho); [done|done| |done|by intros ?|].
  - split; [rewrite app_length; unfold R_LEN_T_MAX, INT_MAX; lia|]. intros r Hr Hs.
    assert (length r <= length (l ++ m)) as H by (apply submseteq_length, NoDup_submseteq; done). rewrite app_length in H. lia.
  - rewrite E. f_equal. eapply first_appearances_unique; [exact Ho|]. by apply first_appearances_new.
Qed.

(** ** Two data frames *)
Section df.
  Context (addr : rstr -> Z).
  Notation J := (vec_ptype2 addr).
  Definition df_join tib tib' xn xc yn yc (r : res ty) : Prop :=
    match r with
    | Ok a => exists oc, a = TyDf (tib || tib') (xn ++ new_names xn yn) oc /\ length oc = length (xn ++ new_names xn yn) /\
        forall n, common_col J (col xn xc n) (col yn yc n) (col (xn ++ new_names xn yn) oc n)
    | Err e => exists n c d, col xn xc n = Some c /\ col yn yc n = Some d /\ J c d = Err e
    | UB e => exists n c d, col xn xc n = Some c /\ col yn yc n = Some d /\ J c d = UB e
    end.
  Lemma ptype2_df k j tib xn xc tib' yn yc : (k <= 2 ^ 30)%Z -> (j <= 2 ^ 30)%Z ->
    ty_ok k (TyDf tib xn xc) -> ty_ok j (TyDf tib' yn yc) ->
    df_join tib tib' xn xc yn yc (J (TyDf tib xn xc) (TyDf tib' yn yc)).
  Proof.
    intros Hk Hj Hx Hy. rewrite ty_ok_df in Hx, Hy. destruct Hx as (Nx & Ox & Lx & Bx & Cx), Hy as (Ny & Oy & Ly & By & Cy). cbn [vec_ptype2].
    assert (Hone : forall n c r, col xn xc n = Some c -> one_col J yn yc n c = Ok r ->
      match col yn yc n with Some d => J c d = Ok r | None => r = proto c end).
    { intros n c r Hc. unfold one_col. destruct (col yn yc n); [done|]. apply col_Some in Hc as (i & _ & Hc).
      rewrite (vec_ptype_spec k); [congruence|]. by eapply Forall_lookup_1. }
    assert (Hbad : forall i n c, xn !! i = Some n -> xc !! i = Some c -> (forall r, one_col J yn yc n c <> Ok r) ->
      exists d, col xn xc n = Some c /\ col yn yc n = Some d /\ one_col J yn yc n c = J c d).
    { intros i n c Hn Hc Hr. unfold one_col in *. destruct (col yn yc n) as [d|].
      - exists d. split; [by eapply col_lookup|done].
      - rewrite (vec_ptype_spec k) in Hr; [by destruct (Hr (proto c))|]. by eapply Forall_lookup_1. }
    destruct (equal_object _ _) eqn:Eq.
    - apply chr_levels_equal in Eq. subst yn.
      pose proof (equal_loop J xn yc Ny Ly xc 0 Lx) as HL. rewrite drop_0 in HL. destruct (df_ptype2_loop_ J yc 0 xc) as [out|e|e]; cbn [bind].
      + destruct HL as [Ll HL]. simpl. rewrite new_names_self, app_nil_r. exists out. split_and!; [done|lia|]. intros n. destruct (col xn xc n) as [c|] eqn:Ec.
        * pose proof Ec as (i & Hi & Hc)%col_Some. destruct (HL i n c Hi Hc) as (r & Hr & Er). rewrite (col_lookup xn out i n r Nx Hi Hr).
          apply (Hone n c r Ec) in Er. unfold common_col. destruct (col xn yc n); [by exists r|by f_equal].
        * apply col_None in Ec; [|done]. rewrite (proj2 (col_None xn yc n Ly) Ec), (proj2 (col_None xn out n ltac:(lia)) Ec). done.
      + destruct HL as (i & n & c & Hi & Hc & E). destruct (Hbad i n c Hi Hc) as (d & H1 & H2 & H3); [by rewrite E|]. exists n, c, d. by rewrite <- H3.
      + destruct HL as (i & n & c & Hi & Hc & E). destruct (Hbad i n c Hi Hc) as (d & H1 & H2 & H3); [by rewrite E|]. exists n, c, d. by rewrite <- H3.
    - destruct (chr_match_spec addr xn yn) as (xd & Exd & Hxd); [done|done|unfold R_LEN_T_MAX, INT_MAX; lia..|].
      destruct (chr_match_spec addr yn xn) as (yd & Eyd & Hyd); [done|done|unfold R_LEN_T_MAX, INT_MAX; lia..|].
      rewrite Exd, Eyd. cbn [bind].
      pose proof (match_loop J yn yc Ny Ly xd xc xn 0) as HL. rewrite drop_0 in HL. specialize (HL Hxd Lx).
      destruct (df_ptype2_match_ J yc xd 0 xc) as [out|e|e]; cbn [bind].
      + destruct HL as [Ll HL]. destruct (rest_loop j xn yn yc yd) as (rest & E & Hr1 & Hr2); [done..|]. rewrite E. cbn [bind]. rewrite Hr1. 
        exists (out ++ rest.*2). split; [done|]. split; [rewrite <- Hr1, !app_length, !fmap_length; lia|]. intros n. rewrite <- Hr1, col_app by lia.
        destruct (col xn xc n) as [c|] eqn:Ec.
        * pose proof Ec as (i & Hi & Hc)%col_Some. destruct (HL i n c Hi Hc) as (r & Hr & Er). rewrite (col_lookup xn out i n r Nx Hi Hr).
          apply (Hone n c r Ec) in Er. unfold common_col. destruct (col yn yc n); [by exists r|by f_equal].
        * apply col_None in Ec; [|done]. rewrite (proj2 (col_None xn out n ltac:(lia)) Ec), Hr2 by done. by destruct (col yn yc n).
      + destruct HL as (i & n & c & Hi & Hc & E). destruct (Hbad i n c Hi Hc) as (d & H1 & H2 & H3); [by rewrite E|]. exists n, c, d. by rewrite <- H3.
      + destruct HL as (i & n & c & Hi & Hc & E). destruct (Hbad i n c Hi Hc) as (d & H1 & H2 & H3); [by rewrite E|]. exists n, c, d. by rewrite <- H3.
  Qed.
End df.

(** ** The table *)
Lemma bare_common_spec t u v : bare_ptype2 t u = Ok v <-> bare_common t u v.
Proof.
  unfold bare_common. destruct t, u; simpl; (split; [intros H; try discriminate H; injection H as <-; first [by left|right; do 2 eexists; split_and!; [done|done|simpl; lia|done]]|
    intros [[E ->]|(a & b & Ha & Hb & Hl & Hv)]; try done; try discriminate; injection Ha as <-; injection Hb as <-; destruct v; try done; try (exfalso; lia); try discriminate Hv]).
Qed.
Lemma shape2_ok x y : x <> Some [] -> y <> Some [] ->
  match vec_shape2 x y with Ok c => c <> Some [] /\ (forall t, proto (TyBare t c) = TyBare t c) | Err _ => True | UB _ => False end.
Proof.
  intros Hx Hy. destruct x as [[|d x]|], y as [[|d' y]|]; try done.
  pose proof (C40_shape2 (d :: x) (d' :: y) ltac:(done) ltac:(done)) as H. destruct (vec_shape2 _ _) as [[c|]|e|]; try done.
  destruct H as (L & H0 & _). destruct c as [|e c]; [done|]. injection H0 as ->. done.
Qed.
Definition zero_rows (d : dims) : dims := match d with Some (_ :: d) => Some (0%Z :: d) | _ => d end.
Lemma proto_bare t d : proto (TyBare t d) = TyBare t (zero_rows d).
Proof. destruct d as [[|? d]|]; done. Qed.
Lemma shape2_Some d x d' y c : vec_shape2 (Some (d :: x)) (Some (d' :: y)) = Ok c <-> exists s, c = Some s /\ common_shape (d :: x) (d' :: y) s.
Proof.
  pose proof (C40_shape2 (d :: x) (d' :: y) ltac:(done) ltac:(done)) as H. split.
  - intros E. rewrite E in H. destruct c as [c|]; [|done]. by exists c.
  - intros (s & -> & Hs). destruct (vec_shape2 _ _) as [[c|]|e|]; try done.
    + do 2 f_equal. by apply (common_shape_fun (d :: x) (d' :: y)).
    + destruct H as (i & Hi & Hn). exfalso. apply Hn. destruct Hs as (_ & _ & Hs). eapply recycled_compatible, Hs. lia.
Qed.
Lemma shape2_zero_l x y c : x <> Some [] -> y <> Some [] -> vec_shape2 (zero_rows x) y = Ok c <-> vec_shape2 x y = Ok c.
Proof.
  intros Hx Hy. destruct x as [[|d x]|], y as [[|d' y]|]; try done; try (split; exact id). cbn [zero_rows]. rewrite !shape2_Some.
  assert (E : forall s, common_shape (0%Z :: x) (d' :: y) s <-> common_shape (d :: x) (d' :: y) s).
  { intros s. unfold common_shape. split; intros (L & H0 & H); (split; [done|]); (split; [done|]); intros [|i] Hi; [lia|exact (H (S i) Hi)|lia|exact (H (S i) Hi)]. }
  split; intros (s & -> & Hs); exists s; (split; [done|]); by apply E.
Qed.
Lemma shape2_zero_r x y c : x <> Some [] -> y <> Some [] -> vec_shape2 x (zero_rows y) = Ok c <-> vec_shape2 x y = Ok c.
Proof.
  intros Hx Hy. destruct x as [[|d x]|], y as [[|d' y]|]; try done; try (split; exact id). cbn [zero_rows]. rewrite !shape2_Some.
  assert (E : forall s, common_shape (d :: x) (0%Z :: y) s <-> common_shape (d :: x) (d' :: y) s).
  { intros s. unfold common_shape. split; intros (L & H0 & H); (split; [done|]); (split; [done|]); intros [|i] Hi; [lia|exact (H (S i) Hi)|lia|exact (H (S i) Hi)]. }
  split; intros (s & -> & Hs); exists s; (split; [done|]); by apply E.
Qed.
Lemma shape2_self x : x <> Some [] -> vec_shape2 x x = Ok (zero_rows x).
Proof.
  destruct x as [[|d x]|]; try done. intros _. cbn [zero_rows]. apply shape2_Some. eexists. split; [done|]. split; [simpl; lia|]. split; [done|].
  intros [|i] Hi; [lia|]. left. done.
Qed.
Lemma shape2_sym x y c : x <> Some [] -> y <> Some [] -> vec_shape2 x y = Ok c -> vec_shape2 y x = Ok c.
Proof. intros Hx Hy H. by destruct (C40_shape2_comm x y c H) as [?|[?|?]]. Qed.

Lemma tzone_union_spec a b : tzone_union a b = zone2 a b.
Proof.
  unfold tzone_union, zone2, tzone_is_local. destruct (str_ptr_eqb a empty_str) eqn:E.
  - apply str_ptr_eqb_spec in E. by rewrite decide_True.
  - rewrite decide_False; [done|]. intros ->. by rewrite (proj2 (str_ptr_eqb_spec _ _)) in E.
Qed.
Lemma zone2_local a : zone2 a empty_str = a.
Proof. unfold zone2. by destruct (decide (a = empty_str)). Qed.
Section flat.
  Context (addr : rstr -> Z).
  Notation J := (vec_ptype2 addr).
  Lemma flat_spec k j x y : (0 <= k)%Z -> (0 <= j)%Z -> (k + j <= 2 ^ 30)%Z -> ty_ok k x -> ty_ok j y -> is_some_type x = true -> is_some_type y = true -> is_df x && is_df y = false ->
    (forall a, J x y = Ok a <-> flat x y a) /\ (forall e, J x y <> UB e).
  Proof.
    intros Hk0 Hj0 Hk Hx Hy Tx Ty Hd.
    assert (Hbare : forall t d u e, d <> Some [] -> e <> Some [] -> let r := (let! v := bare_ptype2 t u in vec_shaped_ptype v d e) in
      (forall a, r = Ok a <-> flat (TyBare t d) (TyBare u e) a) /\ (forall s, r <> UB s)).
    { intros t d u e Hd1 He1 r. subst r. pose proof (shape2_ok d e Hd1 He1) as Hs. split.
      - intros a. split.
        + intros E. destruct (bare_ptype2 t u) as [v| |] eqn:Eb; try done. cbn [bind] in E. unfold vec_shaped_ptype in E. destruct (vec_shape2 d e) as [s| |] eqn:Es; try done.
          injection E as <-. constructor; [by apply bare_common_spec|done].
        + intros H. inversion H as [? ? v ? ? s Hb Es|? ? d0 e0 s Ed Ee Hc Es| | | |? ? ? ? Hz]; subst.
          * apply bare_common_spec in Hb. rewrite Hb. cbn [bind]. unfold vec_shaped_ptype. by rewrite Es.
          * destruct t; try done. destruct u; try done. injection Ed as ->. injection Ee as ->. simpl. unfold vec_shaped_ptype. by rewrite Es.
          * by destruct t.
      - intros s. destruct (bare_ptype2 t u) as [v| |] eqn:Eb; cbn [bind]; [|done|by destruct t, u]. unfold vec_shaped_ptype. by destruct (vec_shape2 d e). }
    assert (Hstr : forall x y d e, str_dims x = Some d -> str_dims y = Some e -> is_chr x || is_chr y = true -> d <> Some [] -> e <> Some [] -> let r := vec_shaped_ptype TChr d e in
      (forall a, r = Ok a <-> flat x y a) /\ (forall s, r <> UB s)).
    { clear. intros x y d e Hx Hy Hc Hd He r. subst r. pose proof (shape2_ok d e Hd He) as Hs. unfold vec_shaped_ptype. split.
      - intros a. split.
        + intros E. destruct (vec_shape2 d e) as [s| |] eqn:Es; try done. injection E as <-. by apply (f_str _ _ d e).
        + intros H. inversion H as [t u v d0 e0 s Hb Es|? ? d0 e0 s Ed Ee Hc' Es| | | |? ? ? ? Hz Hz']; subst; try done.
          * destruct t; try done. injection Hx as ->. destruct u; try done. injection Hy as ->. rewrite Es. destruct Hb as [[_ ->]|(a & b & Ha & _)]; done.
          * rewrite Hx in Ed. rewrite Hy in Ee. injection Ed as ->. injection Ee as ->. by rewrite Es.
          * destruct x as [ | |[] ?| | | | | | | ]; done.
      - intros s. by destruct (vec_shape2 d e). }
    assert (Hno : forall x y e, J x y = Err e -> (forall a, ~ flat x y a) -> (forall a, J x y = Ok a <-> flat x y a) /\ (forall e, J x y <> UB e)).
    { clear. intros x y e E Hn. rewrite E. split; [|done]. intros a. split; [done|]. intros H. by destruct (Hn a). }
    assert (Htime : forall x y a b, zone x = Some a -> zone y = Some b -> ~ (x = TyDate /\ y = TyDate) -> J x y = Ok (TyPosixct (Some [zone2 a b])) ->
      (forall c, J x y = Ok c <-> flat x y c) /\ (forall e, J x y <> UB e)).
    { clear. intros x y a b Ha Hb Hn E. rewrite E. split; [|done]. intros c. split.
      - intros [= <-]. by constructor.
      - intros H. inversion H as [t u v d0 e0 s Hc Es|? ? d0 e0 s Ed Ee Hc' Es| | | |? ? a' b' Hz Hz']; subst; try done.
        + destruct x as [ | |[] ?| | | | | | | ]; done.
        + rewrite Ha in Hz. rewrite Hb in Hz'. injection Hz as ->. injection Hz' as ->. done. }
    destruct x as [ | |t d|l|l| |tz|tz|tib xn xc| ]; try done; destruct y as [ | |u e|m|m| |uz|uz|tib' yn yc| ]; try done;
      try (match type of Hd with _ = false => idtac end; eapply Hno; [reflexivity|intros a H; inversion H; subst; done]).
    all: try (apply Hno with (e := "Can't combine"%string); [destruct t; reflexivity|]; intros a H; inversion H; subst; destruct t; done).
    - destruct t; exact (Hbare _ d u e Hx Hy).
    - destruct t; try (apply Hno with (e := "Can't combine"%string); [reflexivity|]; intros a H; inversion H; subst; done). first [by apply (Hstr _ _ d None)|by apply (Hstr _ _ None e)].
    - destruct t; try (apply Hno with (e := "Can't combine"%string); [reflexivity|]; intros a H; inversion H; subst; done). first [by apply (Hstr _ _ d None)|by apply (Hstr _ _ None e)].
    - destruct u; try (apply Hno with (e := "Can't combine"%string); [reflexivity|]; intros a H; inversion H; subst; done). first [by apply (Hstr _ _ d None)|by apply (Hstr _ _ None e)].
    - destruct Hx as (N1 & O1 & L1), Hy as (N2 & O2 & L2). assert (E : J (TyFactor l) (TyFactor m) = Ok (TyFactor (l ++ new_names l m))).
      { cbn [vec_ptype2]. rewrite fct_join by (done || lia). done. }
      rewrite E. split; [|done]. intros a. split; [intros [= <-]; constructor|]. intros H. by inversion H.
    - destruct u; try (apply Hno with (e := "Can't combine"%string); [reflexivity|]; intros a H; inversion H; subst; done). first [by apply (Hstr _ _ d None)|by apply (Hstr _ _ None e)].
    - cbn [vec_ptype2]. destruct (C37_ordered [] 0 l 1 m) as [H1 H2]. destruct (decide (l = m)) as [->|Hn].
      + rewrite (proj1 (H1 eq_refl)). cbn [bind]. split; [|done]. intros a. split; [intros [= <-]; constructor|]. intros H. by inversion H.
      + destruct (H2 Hn) as [[e E] _]. rewrite E. cbn [bind]. split; [|done]. intros a. split; [done|]. intros H. by inversion H.
    - split; [|done]. intros a. split; [intros [= <-]; constructor|]. intros H. inversion H; subst; try done. by destruct H2.
    - destruct uz as [[|s uz]|]; try done; by (eapply Htime; [reflexivity|reflexivity|by intros [_ ?]|]).
    - destruct uz as [[|s uz]|]; try done; by (eapply Htime; [reflexivity|reflexivity|by intros [_ ?]|]).
    - destruct tz as [[|s tz]|]; try done; (eapply Htime; [reflexivity|reflexivity|by intros [? _]|]); by rewrite zone2_local.
    - destruct tz as [[|s tz]|]; try done; destruct uz as [[|s' uz]|]; try done; (eapply Htime; [reflexivity|reflexivity|by intros [? _]|]); rewrite <- tzone_union_spec; done.
    - destruct tz as [[|s tz]|]; try done; destruct uz as [[|s' uz]|]; try done; (eapply Htime; [reflexivity|reflexivity|by intros [? _]|]); rewrite <- tzone_union_spec; done.
    - destruct tz as [[|s tz]|]; try done; (eapply Htime; [reflexivity|reflexivity|by intros [? _]|]); by rewrite zone2_local.
    - destruct tz as [[|s tz]|]; try done; destruct uz as [[|s' uz]|]; try done; (eapply Htime; [reflexivity|reflexivity|by intros [? _]|]); rewrite <- tzone_union_spec; done.
    - destruct tz as [[|s tz]|]; try done; destruct uz as [[|s' uz]|]; try done; (eapply Htime; [reflexivity|reflexivity|by intros [? _]|]); rewrite <- tzone_union_spec; done.
  Qed.
End flat.
