(** * Lemmas: binding rows *)
From Verif Require Import Base M_Double M_Scalar M_Object M_Proxy M_Growable M_Slice Spec_Slice M_Rep Spec_Rep M_Subscript M_Chop Spec_Chop
  L_Dbl L_Slice L_SliceArray L_Assign L_Value L_SliceVal L_Rep L_Recycle L_Chop L_Chop2 L_Chop3 P_Chop P_Rep
  M_Names Spec_Names L_Names2 P_Names P_Names2 M_Shape M_Factor Spec_Factor P_Factor M_Ptype P_Ptype M_Bind Spec_Bind L_Bind.
From Coq Require Import Lia ZifyBool ZifyNat.
#[local] Arguments Z.mul : simpl never.
#[local] Arguments Z.add : simpl never.
#[local] Arguments Z.sub : simpl never.
#[local] Arguments Z.max : simpl never.
#[local] Arguments Z.to_nat : simpl never.
#[local] Arguments Z.of_nat : simpl never.

Section casts.
  Context (addr : rstr -> Z) (cast : value -> value -> res value).
  (** A cast of vectors that are not both data frames gives a vector of the type
      asked for, of the same size. *)
  Definition leaf_ok : Prop := forall x t w, value_ok x -> value_ok t -> cast x t = Ok w ->
    value_ok w /\ proto_of t w /\ value_size w = value_size x.
  Definition fitted (t w : value) (n : Z) : Prop := value_ok w /\ proto_of t w /\ value_size w = n.

  Lemma init_fitted t (n : nat) w : value_ok t -> (Z.of_nat n <= INT_MAX)%Z -> shape_fits (Z.of_nat n) t -> vec_init t (Z.of_nat n) = Ok w ->
    w = slice_val (replicate n NA_INTEGER) t /\ fitted t w (Z.of_nat n).
  Proof.
    intros Ht Hn Hf. rewrite vec_init_spec by done. intros [= <-]. split; [done|]. split; [|split].
    - apply slice_val_ok; [done|rewrite replicate_length; lia|by rewrite replicate_length].
    - by apply proto_slice.
    - by rewrite slice_val_size, replicate_length.
  Qed.
  Lemma vec_cast_fitted : leaf_ok -> forall t x w, value_ok x -> value_ok t -> shape_fits (value_size x) t ->
    vec_cast addr cast x t = Ok w -> fitted t w (value_size x).
  Proof.
    intros Hleaf. induction t as [t data names|t dim data|n tn tc IH] using value_ind'; intros x w Hx Ht Hf E.
    1-2: (assert (E' : cast x _ = Ok w) by (destruct x; exact E); destruct (Hleaf _ _ _ Hx Ht E') as (? & ? & ?); done).
    destruct x as [u xd xnm|u dim xd|m xn xc].
    1-2: (destruct (Hleaf _ _ _ Hx Ht E) as (? & ? & ?); done).
    apply value_ok_df in Hx as (X1 & X2 & X3 & X4). pose proof Ht as Ht'. apply value_ok_df in Ht' as (T1 & T2 & T3 & T4). apply shape_fits_df in Hf.
    simpl in Hf. cbn [vec_cast] in E.
    assert (Hcol : forall t c w, t ∈ tc -> c ∈ xc -> vec_cast addr cast c t = Ok w -> fitted t w (Z.of_nat m)).
    { intros t c w' Htc Hc Ec. rewrite Forall_forall in IH, T4, X3, X4, Hf. rewrite <- (X3 c) by done. apply IH; auto. rewrite X3 by done. auto. }
    assert (Hinit : forall t w, t ∈ tc -> vec_init t (Z.of_nat m) = Ok w -> fitted t w (Z.of_nat m)).
    { intros t w' Htc Ei. rewrite Forall_forall in T4, Hf. apply init_fitted in Ei as [_ ?]; auto. }
    assert (Hdone : forall oc names, Forall2 (fun t w => fitted t w (Z.of_nat m)) tc oc -> names = tn -> fitted (VDf n tn tc) (VDf m names oc) (Z.of_nat m)).
    { intros oc names H2 ->. assert (Forall (fun w => value_ok w /\ value_size w = Z.of_nat m) oc /\ Forall2 proto_of tc oc) as [H3 H4].
      { clear -H2. induction H2 as [|a b l k (? & ? & ?) H IH]; [by split|]. destruct IH. split; by constructor. }
      split; [|split; [by constructor|done]]. constructor; [done|rewrite <- (Forall2_length _ _ _ H2); done| |];
        (eapply Forall_impl; [apply H3|]; simpl; tauto). }
    destruct (equal_object _ _) eqn:Eq.
    - apply chr_levels_equal in Eq. assert (HL : forall tcs i oc, (forall t, t ∈ tcs -> t ∈ tc) -> df_cast_loop_ (vec_cast addr cast) xc i tcs = Ok oc ->
          Forall2 (fun t w => fitted t w (Z.of_nat m)) tcs oc).
      { induction tcs as [|t tcs IHt]; intros i oc Hin El; cbn [df_cast_loop_] in El; [injection El as <-; constructor|].
        destruct (rd xc i) as [c| |] eqn:Ec; cbn [bind] in El; try done. destruct (vec_cast addr cast c t) as [w'| |] eqn:Ew; cbn [bind] in El; try done.
        destruct (df_cast_loop_ _ xc (S i) tcs) as [oc'| |] eqn:Er; cbn [bind] in El; try done. injection El as <-. constructor.
        - eapply Hcol; [apply Hin; by left|eapply elem_of_list_lookup_2; by apply rd_Ok|done].
        - eapply IHt; [|done]. intros t' Ht''. apply Hin. by right. }
      destruct (df_cast_loop_ _ xc 0 tc) as [oc| |] eqn:El; cbn [bind] in E; try done. injection E as <-. apply Hdone; [|done]. by eapply HL.
    - destruct (chr_match addr tn xn) as [pos| |]; cbn [bind] in E; try done.
      assert (HL : forall tcs i oc, (forall t, t ∈ tcs -> t ∈ tc) -> df_cast_match_ (vec_cast addr cast) m xc pos i tcs = Ok oc ->
          Forall2 (fun t w => fitted t w (Z.of_nat m)) tcs oc.1).
      { induction tcs as [|t tcs IHt]; intros i oc Hin El; cbn [df_cast_match_] in El; [injection El as <-; constructor|].
        destruct (rd pos i) as [q| |] eqn:Eq'; cbn [bind] in El; try done.
        destruct (if (q =? NA_INTEGER)%Z then _ else _) as [w'| |] eqn:Ew; cbn [bind] in El; try done.
        destruct (df_cast_match_ _ m xc pos (S i) tcs) as [oc'| |] eqn:Er; cbn [bind] in El; try done. injection El as <-. simpl. constructor.
        - destruct (q =? NA_INTEGER)%Z; [eapply Hinit; [apply Hin; by left|done]|].
          destruct (rdZ xc (q - 1)) as [c| |] eqn:Ec; cbn [bind] in Ew; try done. eapply Hcol; [apply Hin; by left| |done].
          unfold rdZ in Ec. destruct (q - 1 <? 0)%Z; [done|]. eapply elem_of_list_lookup_2. by apply rd_Ok.
        - eapply IHt; [|done]. intros t' Ht''. apply Hin. by right. }
      destruct (df_cast_match_ _ m xc pos 0 tc) as [oc| |] eqn:El; cbn [bind] in E; try done.
      apply HL in El; [|done]. destruct (length xc =? oc.2); [injection E as <-; by apply Hdone|]. unfold df_lossy_cast in E.
      destruct (existsb _ _); [done|]. injection E as <-. by apply Hdone.
  Qed.

  (** What an input becomes. *)
  Lemma cast_row_fitted p x y : leaf_ok -> value_ok p.1 -> value_ok x.1 -> shape_fits (value_size x.1) p.1 ->
    cast_row addr cast p (Some x) = Ok y ->
    exists w rn, y = Some (w, rn) /\ fitted p.1 w (value_size x.1) /\
      if is_unspecified x.1 then w = slice_val (replicate (Z.to_nat (value_size x.1)) NA_INTEGER) p.1 /\ init_rownames addr p.2 (value_size x.1) = Ok rn
      else vec_cast addr cast x.1 p.1 = Ok w /\ rn = x.2.
  Proof.
    intros Hl Hp Hx Hf. pose proof (value_size_range _ Hx) as Hr. unfold cast_row. destruct x as [v rn]. cbn [fst snd] in *. destruct (is_unspecified v).
    - destruct (vec_init p.1 (value_size v)) as [w| |] eqn:E; cbn [bind]; try done. destruct (init_rownames addr p.2 (value_size v)) as [rn'| |] eqn:Er; cbn [bind]; try done.
      intros [= <-]. exists w, rn'. split; [done|]. rewrite <- (Z2Nat.id (value_size v)) in E, Hf by lia. apply init_fitted in E as [-> E]; [|done|lia|done].
      rewrite Z2Nat.id in E by lia. done.
    - destruct (vec_cast addr cast v p.1) as [w| |] eqn:E; cbn [bind]; try done. intros [= <-]. exists w, rn. split; [done|]. split; [by eapply vec_cast_fitted|done].
  Qed.
End casts.

(** ** Filling *)
Lemma r_vec_fill_spec a d m src i v (n : nat) : src !! i = Some v -> n <= m ->
  r_vec_fill (a ++ replicate m d) (Z.of_nat (length a)) src i n = Ok ((a ++ replicate n v) ++ replicate (m - n) d).
Proof.
  intros Hv Hm. unfold r_vec_fill.
  edestruct (for_inv (fun k (out : list elt) => out = (a ++ replicate k v) ++ replicate (m - k) d) 0 n) as (out & -> & ->); [by rewrite app_nil_r, Nat.sub_0_r| |done].
  intros k out Hk ->. rewrite (proj2 (rd_Ok _ _ _) Hv). cbn [bind].
  rewrite <- Nat2Z.inj_add, wrZ_nat. eexists. split; [apply wr_fresh_at; [by rewrite app_length, replicate_length|lia]|].
  rewrite <- app_assoc. replace (S k) with (k + 1) by lia. rewrite replicate_add, Nat.sub_add_distr, !app_assoc. done.
Qed.
Lemma is_fold_total l : forall s, fold_left Z.add l s = (s + total l)%Z.
Proof. induction l as [|x l IH]; intros s; simpl; [unfold total; simpl; lia|]. rewrite IH. unfold total. simpl. lia. Qed.

(** ** Row names *)
Lemma blank_spec o : str_ptr_eqb o empty_str || str_ptr_eqb o None = true <-> blank_name o.
Proof. rewrite orb_true_iff, !str_ptr_eqb_spec. unfold blank_name. tauto. Qed.
Lemma empty_spec inner : exists b, r_is_empty_names inner = Ok b /\ (b = true <-> blanks inner).
Proof. destruct inner as [l|]; [|by exists true]. exact (r_is_empty_names_spec l). Qed.
Lemma apply_name_spec_ok spec outer inner n r : n <> 0 -> apply_name_spec spec outer inner n = Ok r ->
  match r with
  | NoNames => input_names spec inner n outer None
  | ChrsEmpty => input_names spec inner n outer (Some (replicate n empty_str))
  | Names l => input_names spec inner n outer (Some l)
  end.
Proof.
  intros Hn. unfold apply_name_spec. destruct (match spec with SpecZap => true | _ => false end) eqn:Ez.
  { destruct spec; try done. intros [= <-]. by constructor. }
  assert (Hz : spec <> SpecZap) by by intros ->.
  assert (HH : forall A (a b : A), match spec with SpecZap => a | _ => b end = b) by (by intros; destruct spec). rewrite HH.
  destruct outer as [o|].
  2:{ intros [= <-]. destruct inner; simpl; by constructor. }
  destruct (str_ptr_eqb o empty_str || str_ptr_eqb o None) eqn:Eb.
  { apply blank_spec in Eb. intros [= <-]. destruct inner as [l|]; [by apply (in_blank spec (Some l) n o)|by apply (in_blank spec None n o)]. }
  assert (Hb : ~ blank_name o) by (rewrite <- blank_spec, Eb; done).
  destruct (empty_spec inner) as (b & -> & Hbl). cbn [bind].
  destruct (Nat.eqb_spec n 0); [done|]. rewrite andb_false_r. destruct (b && Nat.eqb n 1) eqn:E1.
  { apply andb_true_iff in E1 as [E1 E2]. apply Nat.eqb_eq in E2. intros [= <-]. apply in_outer; [done|done|by apply Hbl|done]. }
  destruct spec as [| |f]; [done|done|]. set (arg := match inner with Some l => if b then inl n else inr l | None => inl n end).
  assert (Hnb : ~ (blanks inner /\ n = 1)). { intros [H1 H2]. apply Hbl in H1. by rewrite H1, H2 in E1. }
  assert (Ha1 : blanks inner -> arg = inl n). { intros H. apply Hbl in H. unfold arg. rewrite H. by destruct inner. }
  assert (Ha2 : ~ blanks inner -> exists l, inner = Some l /\ arg = inr l).
  { intros H. unfold arg. destruct inner as [l|]; [|done]. exists l. split; [done|]. destruct b; [by destruct H; apply Hbl|done]. }
  destruct (f o arg) as [out| |] eqn:Ef; cbn [bind]; try done. unfold recycle_names. destruct out as [l|].
  - destruct (Nat.eqb_spec (length l) n) as [El|El].
    + intros [= <-]. pose proof (in_fn (SpecFn f) inner n f o arg l eq_refl Hb Hnb Ha1 Ha2 Ef (or_introl El)) as Q.
      destruct l as [|s [|s' l]]; [exact Q| |exact Q]. simpl in El. subst n. exact Q.
    + destruct l as [|s [|s' l]]; try done. intros [= <-]. exact (in_fn (SpecFn f) inner n f o arg [s] eq_refl Hb Hnb Ha1 Ha2 Ef (or_intror eq_refl)).
  - intros [= <-]. by eapply in_fn_null.
Qed.

Lemma joined_snoc ns nms n o : length ns = length nms -> joined_names (ns ++ [n]) (nms ++ [o]) =
  match o with
  | None => match joined_names ns nms with None => None | Some l => Some (l ++ replicate (Z.to_nat n) empty_str) end
  | Some l => Some (concat (zip_with (fun n o => fill_names (Z.to_nat n) o) ns nms) ++ l)
  end.
Proof.
  intros Hl. unfold joined_names. rewrite forallb_app, zip_with_app, concat_app by done. simpl. rewrite app_nil_r.
  destruct o; simpl; [by rewrite andb_false_r|]. rewrite andb_true_r. by destruct (forallb _ nms).
Qed.
Lemma fills_none ns nms : length ns = length nms -> Forall (fun n => 0 <= n)%Z ns -> joined_names ns nms = None ->
  concat (zip_with (fun n o => fill_names (Z.to_nat n) o) ns nms) = replicate (Z.to_nat (total ns)) empty_str.
Proof.
  intros Hl Hn. unfold joined_names. destruct (forallb _ nms) eqn:E; [|done]. intros _. revert ns Hl Hn E.
  induction nms as [|o nms IH]; intros [|n ns] Hl Hn E; simpl in *; try done. apply andb_true_iff in E as [E1 E2]. destruct o; [done|].
  apply Forall_cons in Hn as [H1 H2]. rewrite IH by (first [done|lia]). simpl. rewrite <- replicate_add. f_equal. unfold total. simpl. fold (total ns).
  assert (0 <= total ns)%Z by (clear -H2; unfold total; induction H2; simpl; lia). lia.
Qed.
Lemma joined_some ns nms l : joined_names ns nms = Some l -> l = concat (zip_with (fun n o => fill_names (Z.to_nat n) o) ns nms).
Proof. unfold joined_names. destruct (forallb _ _); congruence. Qed.
