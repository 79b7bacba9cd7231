(** * Lemmas: hashes of elements and rows *)
From Verif Require Import Base M_Double M_Scalar M_Hash M_Object M_Proxy Spec_Value Spec_Equal
  L_Scalar L_Proxy L_Equal.

(** ** Hashes are 32-bit values *)
Definition is_u32 (h : Z) : Prop := (0 <= h < two32)%Z.

Lemma lxor_u32 a b : is_u32 a -> is_u32 b -> is_u32 (Z.lxor a b).
Proof.
  unfold is_u32. rewrite !two32_pow. intros [A1 A2] [B1 B2].
  assert (H0 : (0 <= Z.lxor a b)%Z) by (apply Z.lxor_nonneg; lia).
  split; [done|].
  destruct (Z.eq_dec (Z.lxor a b) 0%Z) as [->|Hne]; [lia|].
  apply Z.log2_lt_pow2; [lia|].
  pose proof (Z.log2_lxor a b A1 B1) as H.
  assert (Ha : (Z.log2 a < 32)%Z).
  { destruct (Z.eq_dec a 0%Z) as [->|]; [done|]. apply Z.log2_lt_pow2; lia. }
  assert (Hb : (Z.log2 b < 32)%Z).
  { destruct (Z.eq_dec b 0%Z) as [->|]; [done|]. apply Z.log2_lt_pow2; lia. }
  lia.
Qed.
Lemma u32_u32 z : is_u32 (u32 z).
Proof. unfold is_u32, u32. apply Z.mod_pos_bound. done. Qed.
Lemma hash_combine_u32 x y : is_u32 x -> is_u32 (hash_combine x y).
Proof. intros H. apply lxor_u32; [done|]. apply u32_u32. Qed.

(** ** The hash of a row, column by column *)
Section hash.
  Context (addr : rstr -> Z) (na_equal : bool).

  Definition row_hash_from (h : Z) (r : list elt) : res Z :=
    foldl (fun acc e => let! h := acc in hash_step addr na_equal h e) (Ok h) r.
  Definition row_hash (r : list elt) : res Z := row_hash_from 0 r.

  Lemma fold_not_ok r m : (forall h, m <> Ok h) ->
    forall h, foldl (fun acc e => let! h := acc in hash_step addr na_equal h e) m r <> Ok h.
  Proof.
    revert m. induction r as [|e r IH]; intros m Hm h; simpl; [apply Hm|]. apply IH. intros h'.
    destruct m; simpl; [|congruence|congruence]. by destruct (Hm a).
  Qed.
  Lemma row_hash_from_cons h e r g : row_hash_from h (e :: r) = Ok g ->
    exists h', hash_step addr na_equal h e = Ok h' /\ row_hash_from h' r = Ok g.
  Proof.
    unfold row_hash_from. simpl. destruct (hash_step addr na_equal h e) as [h'|m|m].
    - intros H. by exists h'.
    - intros H. by apply fold_not_ok in H.
    - intros H. by apply fold_not_ok in H.
  Qed.

  Lemma hash_fill_col_spec n x hs g :
    length x = n -> length hs = n ->
    (forall i h e, hs !! i = Some h -> x !! i = Some e -> hash_step addr na_equal h e = Ok (g i)) ->
    hash_fill_col addr na_equal n x hs = Ok (map g (seq 0 n)).
  Proof.
    intros Hx Hh Hg. unfold hash_fill_col.
    destruct (for_inv (fun i p => length p = n /\ (forall k, k < i -> p !! k = Some (g k)) /\
        (forall k, i <= k -> p !! k = hs !! k)) 0 n
        (fun i p => let! h := rd p i in let! e := rd x i in
           let! h' := hash_step addr na_equal h e in wr p i h') hs) as (p & E & Hl & Hp & _).
    - split_and!; [done|intros; lia|done].
    - intros i p Hi (Hl & H1 & H2).
      destruct (lookup_lt_is_Some_nth hs i) as [h Eh]; [lia|].
      destruct (lookup_lt_is_Some_nth x i) as [e Ee]; [lia|].
      rewrite (proj2 (rd_Ok p i h)) by (rewrite H2 by lia; done). simpl.
      rewrite (proj2 (rd_Ok x i e) Ee). simpl. rewrite (Hg i h e) by done. simpl.
      rewrite wr_Ok by lia. eexists. split; [reflexivity|]. rewrite insert_length. split_and!; [done| |].
      + intros k Hk. destruct (decide (k = i)) as [->|].
        * apply list_lookup_insert. lia.
        * rewrite list_lookup_insert_ne by done. apply H1. lia.
      + intros k Hk. rewrite list_lookup_insert_ne by lia. apply H2. lia.
    - rewrite E. f_equal. apply list_eq. intros i. rewrite !list_lookup_fmap. destruct (decide (i < n)).
      + rewrite lookup_seq_lt by done. apply Hp. lia.
      + rewrite lookup_seq_ge by lia. simpl. apply lookup_ge_None_2. lia.
  Qed.

  Lemma hash_cols_spec n cols hs g :
    Forall (fun c => length (v_data c) = n) cols -> length hs = n ->
    (forall i h, i < n -> hs !! i = Some h -> row_hash_from h (cols_row cols i) = Ok (g i)) ->
    foldl (fun acc c => let! hs := acc in hash_fill_col addr na_equal n (v_data c) hs) (Ok hs) cols
    = Ok (map g (seq 0 n)).
  Proof.
    intros H. revert hs. induction H as [|c cs Hc H IH]; intros hs Hl Hg; simpl.
    - f_equal. apply list_eq. intros i. rewrite !list_lookup_fmap. destruct (decide (i < n)).
      + rewrite lookup_seq_lt by done. simpl. destruct (lookup_lt_is_Some_nth hs i) as [h Eh]; [lia|].
        specialize (Hg i h ltac:(done) Eh). injection Hg as <-. done.
      + rewrite lookup_seq_ge by lia. simpl. apply lookup_ge_None_2. lia.
    - set (g' := fun i => match hs !! i, v_data c !! i with
                          | Some h, Some e => match hash_step addr na_equal h e with Ok h' => h' | _ => 0%Z end
                          | _, _ => 0%Z end).
      assert (Hstep : forall i h e, i < n -> hs !! i = Some h -> v_data c !! i = Some e ->
                hash_step addr na_equal h e = Ok (g' i) /\ row_hash_from (g' i) (cols_row cs i) = Ok (g i)).
      { intros i h e Hi Eh Ee. specialize (Hg i h Hi Eh). rewrite (cols_row_cons _ _ _ e) in Hg by done.
        apply row_hash_from_cons in Hg as (h' & E1 & E2). unfold g'. rewrite Eh, Ee, E1. done. }
      rewrite (hash_fill_col_spec n _ _ g'); [| done | done |].
      + apply IH; [by rewrite map_length, seq_length|]. intros i h Hi Eh.
        rewrite list_lookup_fmap, lookup_seq_lt in Eh by done. simpl in Eh. injection Eh as <-.
        destruct (lookup_lt_is_Some_nth hs i) as [h Eh]; [lia|].
        destruct (lookup_lt_is_Some_nth (v_data c) i) as [e Ee]; [lia|].
        by destruct (Hstep i h e Hi Eh Ee).
      + intros i h e Eh Ee. destruct (Hstep i h e) as [? _]; try done. apply lookup_lt_Some in Ee. lia.
  Qed.

  Lemma hash_fill_rows p g : proxy_wf p ->
    (forall i, i < proxy_size p -> row_hash (proxy_row p i) = Ok (g i)) ->
    hash_fill addr na_equal p = Ok (map g (seq 0 (proxy_size p))).
  Proof.
    intros W Hg. unfold hash_fill. apply hash_cols_spec; [by apply proxy_wf_len|apply replicate_length|].
    intros i h Hi Eh. apply lookup_replicate in Eh as [-> _]. by apply Hg.
  Qed.

  (** Elements that can be hashed: everything but lists containing raw or
      complex vectors (src/hash.c:153). *)
  Definition elt_hashable (e : elt) : Prop :=
    match e with ELst o => exists h, hash_object addr o = Some h | _ => True end.

  Lemma hash_step_ok h e : elt_hashable e -> exists h', hash_step addr na_equal h e = Ok h'.
  Proof.
    intros He. unfold hash_step, hash_step_na_equal, hash_step_na_propagate.
    destruct na_equal, e as [x|x|x|r i|s|x|o]; simpl in *; eauto;
      repeat match goal with |- context [if ?c then _ else _] => destruct c; eauto end.
    - destruct He as [ho ->]. eauto.
    - destruct o; simpl in *; try destruct He as [ho ->];
        repeat match goal with |- context [if ?c then _ else _] => destruct c; eauto end; eauto; by destruct He as [? ?].
  Qed.
  Lemma row_hash_from_ok h r : Forall elt_hashable r -> exists g, row_hash_from h r = Ok g.
  Proof.
    intros H. revert h. induction H as [|e r He H IH]; intros h; unfold row_hash_from; simpl; [eauto|].
    destruct (hash_step_ok h e He) as [h' ->]. apply IH.
  Qed.

  (** Same meaning, same hash. *)
  Lemma elt_hash_sem a b : elt_in_range a -> elt_in_range b -> elt_sem a = elt_sem b ->
    elt_hash_scalar addr a = elt_hash_scalar addr b.
  Proof.
    intros Ra Rb E. destruct a as [x|x|x|xr xi|x|x|x], b as [y|y|y|yr yi|y|y|y]; try discriminate E; simpl in *; injection E.
    - intros H. apply int_sem_inj in H as ->. done.
    - intros H. apply int_sem_inj in H as ->. done.
    - intros H. f_equal. by apply dbl_hash_sem.
    - intros H1 H2. destruct Ra, Rb. unfold cpl_hash_scalar. by rewrite (dbl_hash_sem xr yr), (dbl_hash_sem xi yi).
    - by intros ->.
    - by intros ->.
    - intros H. by apply hash_object_sem.
  Qed.
  Lemma missing_sem_eq a b : elt_sem a = elt_sem b -> missing_sem a <-> missing_sem b.
  Proof.
    intros E. destruct a as [x|x|x|xr xi|x|x|x], b as [y|y|y|yr yi|y|y|y]; try discriminate E; simpl in *; injection E.
    - by intros ->.
    - by intros ->.
    - by intros ->.
    - by intros -> ->.
    - by intros ->.
    - by intros ->.
    - intros H. destruct x as [| | |[]| | | |], y as [| | |[]| | | |]; done.
  Qed.
  Lemma elt_missing_sem_eq a b : elt_in_range a -> elt_in_range b -> elt_sem a = elt_sem b ->
    elt_is_missing a = elt_is_missing b.
  Proof.
    intros Ra Rb E. apply Bool.eq_iff_eq_true. rewrite !elt_missing_spec by done. by apply missing_sem_eq.
  Qed.
  Lemma hash_step_sem h a b : elt_in_range a -> elt_in_range b -> elt_sem a = elt_sem b ->
    hash_step addr na_equal h a = hash_step addr na_equal h b.
  Proof.
    intros Ra Rb E. pose proof (elt_hash_sem a b Ra Rb E) as Hh. pose proof (elt_missing_sem_eq a b Ra Rb E) as Hm.
    unfold hash_step. destruct na_equal.
    - unfold hash_step_na_equal. by rewrite Hh.
    - unfold hash_step_na_propagate.
      destruct a as [x|x|x|xr xi|x|x|x], b as [y|y|y|yr yi|y|y|y]; try discriminate E; rewrite ?Hh, ?Hm; try done.
      + injection E as ->. done.
      + simpl in *. destruct (h =? HASH_MISSING)%Z; [done|].
        destruct x as [| | |[]| | | |], y as [| | |[]| | | |]; try done; rewrite ?Hh; done.
  Qed.
  Lemma row_hash_from_same h r s : Forall elt_in_range r -> Forall elt_in_range s -> row_same r s ->
    row_hash_from h r = row_hash_from h s.
  Proof.
    intros Hr. revert h s. induction Hr as [|a r Ha Hr IH]; intros h [|b s] Hs E; unfold row_same in E; simpl in E; try done.
    injection E as E1 E2. apply Forall_cons in Hs as [Hb Hs]. unfold row_hash_from. simpl.
    rewrite (hash_step_sem h a b) by done. destruct (hash_step addr na_equal h b) as [h'|m|m].
    - by apply IH.
    - assert (length r = length s) as Hl by (apply (f_equal length) in E2; by rewrite !map_length in E2).
      clear -Hl. revert s Hl. induction r; intros [|? s] Hl; simpl in *; try done; try lia. apply IHr. lia.
    - assert (length r = length s) as Hl by (apply (f_equal length) in E2; by rewrite !map_length in E2).
      clear -Hl. revert s Hl. induction r; intros [|? s] Hl; simpl in *; try done; try lia. apply IHr. lia.
  Qed.

  Lemma hash_step_u32 h e h' : is_u32 h -> hash_step addr na_equal h e = Ok h' -> is_u32 h'.
  Proof.
    intros Hh. unfold hash_step, hash_step_na_equal, hash_step_na_propagate.
    assert (Hm : is_u32 HASH_MISSING) by done.
    destruct na_equal.
    - destruct (elt_hash_scalar addr e); [|done]. intros [= <-]. by apply hash_combine_u32.
    - destruct e; repeat match goal with
        | |- (if ?c then _ else _) = _ -> _ => destruct c
        | |- match ?c with _ => _ end = _ -> _ => destruct c
        end; intros [= <-]; try done; by apply hash_combine_u32.
  Qed.
  Lemma row_hash_from_u32 h r g : is_u32 h -> row_hash_from h r = Ok g -> is_u32 g.
  Proof.
    revert h. induction r as [|e r IH]; intros h Hh Hg.
    - injection Hg as <-. done.
    - apply row_hash_from_cons in Hg as (h' & E1 & E2). eapply IH; [|exact E2]. by eapply hash_step_u32.
  Qed.
End hash.

Definition proxy_hashable (addr : rstr -> Z) (p : proxy) : Prop :=
  Forall (fun v => Forall (elt_hashable addr) (v_data v)) (proxy_cols p).
Lemma row_hashable addr cols i :
  Forall (fun v => Forall (elt_hashable addr) (v_data v)) cols -> Forall (elt_hashable addr) (cols_row cols i).
Proof.
  intros H. unfold cols_row. induction H as [|c cs Hc H IH]; simpl; [constructor|].
  destruct (v_data c !! i) as [e|] eqn:E; [|by apply IH]. constructor; [|by apply IH].
  by eapply Forall_lookup_1 in Hc.
Qed.

(** The hash of each row, total version *)
Definition row_hash_val addr na_equal (r : list elt) : Z :=
  match row_hash addr na_equal r with Ok h => h | _ => 0%Z end.

Lemma hash_fill_ok addr na_equal p : proxy_wf p -> proxy_hashable addr p ->
  hash_fill addr na_equal p = Ok (map (row_hash_val addr na_equal) (proxy_rows p)).
Proof.
  intros W H. unfold proxy_rows. rewrite map_map. apply hash_fill_rows; [done|]. intros i Hi.
  unfold row_hash_val, row_hash. destruct (row_hash_from_ok addr na_equal 0%Z (proxy_row p i)) as [g ->]; [|done].
  by apply row_hashable.
Qed.

Theorem hash_fill_correct addr na_equal x y hx hy i j :
  proxy_ok x -> proxy_ok y -> proxy_hashable addr x -> proxy_hashable addr y ->
  hash_fill addr na_equal x = Ok hx -> hash_fill addr na_equal y = Ok hy ->
  i < proxy_size x -> j < proxy_size y -> row_same (proxy_row x i) (proxy_row y j) ->
  hx !! i = hy !! j.
Proof.
  intros [Wx Rx] [Wy Ry] Hx Hy Ex Ey Hi Hj HS.
  rewrite hash_fill_ok in Ex, Ey by done. injection Ex as <-. injection Ey as <-.
  unfold proxy_rows. rewrite !list_lookup_fmap, !lookup_seq_lt by done. simpl.
  unfold row_hash_val, row_hash. rewrite (row_hash_from_same addr na_equal 0%Z (proxy_row x i) (proxy_row y j)); try done; by apply row_in_range.
Qed.
