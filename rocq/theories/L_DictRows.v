(** * Lemmas: rows of equality proxies as elements of the hash table *)
From Verif Require Import Base M_Double M_Scalar M_Hash M_Object M_Proxy M_Growable M_Dict M_DictApi
  Spec_Value Spec_Equal Spec_Missing Spec_Dict L_Scalar L_Proxy L_Equal L_Missing L_Hash
  L_DictNum L_Dict L_Growable L_DictOps L_DictOps2 L_DictOps3 L_Group L_Set.
From Coq Require Import ZifyBool ZifyNat.

Definition rdom (r : list elt) : Prop := Forall elt_in_range r /\ Forall is_plain r.
Definition rsem (r : list elt) := map elt_sem r.

Lemma row_equal_spec r s : rdom r -> rdom s -> row_equal r s = true <-> rsem r = rsem s.
Proof.
  revert s. induction r as [|a r IH]; intros [|b s] [Hr Pr] [Hs Ps]; simpl; try done.
  apply Forall_cons in Hr as [Ha Hr], Pr as [Pa Pr], Hs as [Hb Hs], Ps as [Pb Ps].
  pose proof (elt_equal_spec a b Pa Pb Ha Hb) as E. unfold rsem. simpl.
  destruct (elt_equal_na_equal a b); simpl.
  - rewrite IH by done. unfold rsem. split.
    + intros ->. f_equal. by apply E.
    + by intros [= _ ->].
  - split; [done|]. intros [= H _]. apply E in H. done.
Qed.
Lemma row_hash_spec addr na r s : rdom r -> rdom s -> rsem r = rsem s -> row_hash_val addr na r = row_hash_val addr na s.
Proof.
  intros [Hr _] [Hs _] E. unfold row_hash_val, row_hash. by rewrite (row_hash_from_same addr na 0%Z r s).
Qed.

Lemma proxy_rows_length p : length (proxy_rows p) = proxy_size p.
Proof. unfold proxy_rows. by rewrite map_length, seq_length. Qed.
Lemma proxy_rows_lookup p i : i < proxy_size p -> proxy_rows p !! i = Some (proxy_row p i).
Proof.
  intros H. unfold proxy_rows. rewrite list_lookup_fmap, lookup_seq_lt by done. done.
Qed.
Lemma proxy_rows_dom p : proxy_ok p -> proxy_plain p -> Forall rdom (proxy_rows p).
Proof.
  intros [W R] P. apply Forall_forall. intros r Hr. apply elem_of_list_fmap in Hr as (i & -> & _).
  split; [by apply row_in_range|by apply row_plain].
Qed.
Lemma rows_X p i : i < proxy_size p -> map rsem (proxy_rows p) !! i = Some (rsem (proxy_row p i)).
Proof. intros H. by rewrite list_lookup_fmap, proxy_rows_lookup. Qed.
Lemma rows_X_eq x i y j : i < proxy_size x -> j < proxy_size y ->
  map rsem (proxy_rows x) !! i = map rsem (proxy_rows y) !! j <-> rows_equal x i y j.
Proof.
  intros Hi Hj. rewrite !rows_X by done. unfold rows_equal, row_same. split; [by intros [= ?]|]. intros E. by f_equal.
Qed.
Lemma is_first_row p i : i < proxy_size p -> is_first (map rsem (proxy_rows p)) i <-> first_row p i.
Proof.
  intros Hi. unfold is_first, first_row. split; intros H j Hj.
  - rewrite <- rows_X_eq by lia. by apply H.
  - rewrite rows_X_eq by lia. by apply H.
Qed.
Lemma occurs_row x i y : i < proxy_size x ->
  occurs rsem (proxy_rows y) (length (proxy_rows y)) (map rsem (proxy_rows x) !! i) <-> row_in x i y.
Proof.
  intros Hi. unfold occurs, row_in. rewrite proxy_rows_length. split; intros (j & Hj & E); exists j; (split; [done|]).
  - by apply rows_X_eq.
  - by apply rows_X_eq.
Qed.
Lemma locates_ext n P Q out : (forall j, j < n -> P j <-> Q j) -> locates n P out -> locates n Q out.
Proof.
  intros H [H1 H2]. split; [|done]. intros k. rewrite H1. split; intros (i & E & Hi & HP); exists i;
    (split; [done|]); (split; [done|]); by apply H.
Qed.
Lemma loc_rloc : loc_of = rloc. Proof. done. Qed.

Lemma firsts_card p m : proxy_ok p -> proxy_plain p -> m <= proxy_size p ->
  card m (first_row p) (length (firsts row_equal (proxy_rows p) m)).
Proof.
  intros Hok Hpl Hm. exists (firsts row_equal (proxy_rows p) m). split; [apply firsts_NoDup|]. split; [|done].
  intros j. rewrite (firsts_elem row_equal rsem rdom row_equal_spec); [|by apply proxy_rows_dom|by rewrite proxy_rows_length].
  split; intros [Hj F]; (split; [done|]); apply is_first_row; [lia|done|lia|done].
Qed.
Lemma occ_card p j : proxy_ok p -> proxy_plain p -> j < proxy_size p ->
  card (proxy_size p) (fun i => rows_equal p i p j) (length (occ row_equal (proxy_rows p) (proxy_size p) j)).
Proof.
  intros Hok Hpl Hj. exists (occ row_equal (proxy_rows p) (proxy_size p) j). split; [apply occ_NoDup|]. split; [|done].
  intros i. rewrite (occ_elem row_equal rsem rdom row_equal_spec);
    [|by apply proxy_rows_dom|by rewrite proxy_rows_length|by rewrite proxy_rows_length].
  split; intros [Hi E]; (split; [done|]); by apply rows_X_eq.
Qed.
Lemma card_fun n P j k : card n P j -> card n P k -> j = k.
Proof.
  intros (l & Hl & El & <-) (l' & Hl' & El' & <-).
  apply Permutation_length, NoDup_Permutation; [done|done|]. intros x. by rewrite El, El'.
Qed.

(** ** The na_propagate hash of an incomplete row *)
Lemma hash_step_missing_sticky addr e : elt_type e <> TRaw ->
  hash_step addr false HASH_MISSING e = Ok HASH_MISSING.
Proof. destruct e; simpl; try done. Qed.
Lemma hash_step_missing addr h e : elt_is_missing e = true -> hash_step addr false h e = Ok HASH_MISSING \/ exists m, hash_step addr false h e = Err m.
Proof.
  destruct e; simpl; intros H; try done; unfold hash_step; simpl; rewrite ?H;
    try (destruct (Z.eqb_spec h HASH_MISSING) as [->|]; by left).
  destruct o; try done. destruct (Z.eqb_spec h HASH_MISSING) as [->|]; by left.
Qed.

Lemma row_hash_sticky addr r : Forall (fun e => elt_type e <> TRaw) r ->
  row_hash_from addr false HASH_MISSING r = Ok HASH_MISSING.
Proof.
  induction 1 as [|e r He Hr IH]; [done|]. unfold row_hash_from in *. cbn [foldl bind].
  rewrite hash_step_missing_sticky by done. exact IH.
Qed.
Lemma row_hash_incomplete addr r k h g :
  Forall (fun e => elt_type e = TRaw) (take k r) -> Forall (fun e => elt_type e <> TRaw) (drop k r) ->
  row_is_incomplete r = true -> row_hash_from addr false h r = Ok g -> g = HASH_MISSING.
Proof.
  revert k h. induction r as [|e r IH]; intros k h Ht Hd Hi Hg; [done|].
  apply row_hash_from_cons in Hg as (h' & Eh & Hg). simpl in Hi. destruct k as [|k]; simpl in Ht, Hd.
  - apply Forall_cons in Hd as [He Hd]. destruct (elt_is_missing e) eqn:Em.
    + destruct (hash_step_missing addr h e Em) as [E|[m E]]; rewrite E in Eh; [|done]. injection Eh as <-.
      rewrite row_hash_sticky in Hg by done. by injection Hg as <-.
    + by apply (IH 0 h').
  - apply Forall_cons in Ht as [He Ht]. destruct e; try done. simpl in Hi. by apply (IH k h').
Qed.

Lemma cols_row_Forall (P : vtype -> Prop) cols n i : Forall (fun v => vec_wf v /\ length (v_data v) = n) cols -> i < n ->
  Forall (fun v => P (v_type v)) cols -> Forall (fun e => P (elt_type e)) (cols_row cols i).
Proof.
  intros W Hi H. unfold cols_row. induction H as [|c cs Hc H IH]; simpl; [constructor|].
  apply Forall_cons in W as [[Wc Lc] W]. destruct (v_data c !! i) eqn:E; [|by apply IH]. constructor; [|by apply IH].
  unfold vec_wf in Wc. rewrite Forall_lookup in Wc. by rewrite (Wc i).
Qed.
Lemma cols_row_app a b i : cols_row (a ++ b) i = cols_row a i ++ cols_row b i.
Proof. unfold cols_row. by rewrite omap_app. Qed.

Lemma incomplete_hash addr p i : proxy_ok p -> proxy_hashable addr p -> raw_first p -> i < proxy_size p ->
  row_is_incomplete (proxy_row p i) = true -> row_hash_val addr false (proxy_row p i) = HASH_MISSING.
Proof.
  intros [W R] Hh (k & Ht & Hd) Hi Hinc. unfold row_hash_val, row_hash.
  destruct (row_hash_from_ok addr false 0%Z (proxy_row p i)) as [g Eg]; [by apply row_hashable|]. rewrite Eg.
  unfold proxy_wf in W. rewrite <- (take_drop k (proxy_cols p)) in W. apply Forall_app in W as [W1 W2].
  pose proof (cols_row_Forall (fun t => t = TRaw) _ _ i W1 Hi Ht) as F1.
  pose proof (cols_row_Forall (fun t => t <> TRaw) _ _ i W2 Hi Hd) as F2.
  unfold proxy_row in *. rewrite <- (take_drop k (proxy_cols p)), cols_row_app in Eg, Hinc.
  set (a := cols_row _ i) in *. set (b := cols_row (drop _ _) i) in *.
  apply (row_hash_incomplete addr (a ++ b) (length a) 0%Z g); [| |done|done].
  - by rewrite take_app.
  - by rewrite drop_app.
Qed.

Lemma with_hash_ok {T} addr na p (k : list (list elt) -> list Z -> res T) : proxy_ok p -> proxy_hashable addr p ->
  with_hash addr na p k = k (proxy_rows p) (map (row_hash_val addr na) (proxy_rows p)).
Proof. intros [W _] H. unfold with_hash. by rewrite hash_fill_ok. Qed.

(** ** Counting all members of all classes *)
Lemma list_sum_bump (js : list nat) (g : nat -> nat) f : NoDup js -> f ∈ js ->
  list_sum (map (fun j => g j + (if decide (j = f) then 1 else 0)) js) = list_sum (map g js) + 1.
Proof.
  induction 1 as [|j js Hj Hn IH]; intros Hf; [by apply elem_of_nil in Hf|]. simpl.
  apply elem_of_cons in Hf as [->|Hf].
  - rewrite decide_True by done. rewrite (map_ext_in _ g); [lia|]. intros a Ha. rewrite decide_False; [lia|]. intros ->. by apply Hj, elem_of_list_In.
  - rewrite decide_False by (intros ->; done). rewrite IH by done. lia.
Qed.

Lemma occ_sum {A B} eqb (sem : A -> B) (dom : A -> Prop) hf (x : list A) (js : list nat) :
  (forall a b, dom a -> dom b -> eqb a b = true <-> sem a = sem b) ->
  (forall a b, dom a -> dom b -> sem a = sem b -> (hf a : Z) = hf b) ->
  Forall dom x -> NoDup js -> (forall j, j ∈ js <-> j < length x /\ is_first (map sem x) j) ->
  forall m, m <= length x -> list_sum (map (fun j => length (occ eqb x m j)) js) = m.
Proof.
  intros Hs Hh Hx Hn Hj. induction m as [|m IH]; intros Hm.
  - clear. induction js as [|j js IH]; [done|]. done.
  - destruct (first_exists eqb sem dom hf Hs Hh x m Hx ltac:(lia)) as (f & Hf & Ff & Ef).
    assert (E : map (fun j => length (occ eqb x (S m) j)) js =
                map (fun j => length (occ eqb x m j) + (if decide (j = f) then 1 else 0)) js).
    { apply map_ext_in. intros j Hin. apply elem_of_list_In, Hj in Hin as [Hlt Fj].
      apply (occ_step eqb sem dom Hs x m f j Hx); try done; lia. }
    rewrite E, list_sum_bump; [|done|by apply Hj; split; [lia|]]. rewrite IH by lia. lia.
Qed.

(** ** Hashable objects *)
Fixpoint obj_hashable_hash addr o (H : obj_hashable o) {struct H} : exists h, hash_object addr o = Some h.
Proof.
  destruct H as [|k a|v a Hv Ha|e xs a Hxs Ha|k t car cdr a H1 H2 Ha|f b e a H1 H2 H3 Ha]; simpl.
  - eauto.
  - eauto.
  - destruct (obj_hashable_hash addr a Ha) as [ha E].
    destruct v; try done; (destruct a; [eauto|..]); rewrite E; eauto.
  - match goal with |- context [?g 0%Z xs] => set (go := g) end.
    assert (HG : forall h, exists h', go h xs = Some h').
    { clear -Hxs obj_hashable_hash. induction Hxs as [|x xs Hx Hxs IH]; intros h; simpl; [eauto|].
      destruct (obj_hashable_hash addr x Hx) as [hx Ex]. unfold go in *. rewrite Ex. apply IH. }
    destruct (HG 0%Z) as [h ->]. destruct (obj_hashable_hash addr a Ha) as [ha E].
    destruct a; [eauto|..]; rewrite E; eauto.
  - destruct (obj_hashable_hash addr car H1) as [h1 ->], (obj_hashable_hash addr cdr H2) as [h2 ->],
      (obj_hashable_hash addr a Ha) as [ha E]. destruct a; [eauto|..]; rewrite E; eauto.
  - destruct (obj_hashable_hash addr b H2) as [h1 ->], (obj_hashable_hash addr e H3) as [h2 ->],
      (obj_hashable_hash addr f H1) as [h3 ->], (obj_hashable_hash addr a Ha) as [ha E].
    destruct a; [eauto|..]; rewrite E; eauto.
Qed.
Lemma hashable_proxy addr p : hashable p -> proxy_hashable addr p.
Proof.
  intros H. eapply Forall_impl; [exact H|]. intros v Hv. eapply Forall_impl; [exact Hv|]. intros [] He; simpl in *; try done.
  by apply obj_hashable_hash.
Qed.
