(** * Lemmas about slicing and assigning vectors, arrays and data frames *)
From Verif Require Import Base M_Double M_Scalar M_Hash M_Object M_Proxy M_Slice Spec_Slice L_Proxy L_Slice L_SliceArray L_Assign.
From Coq Require Import ZifyBool ZifyNat.
#[local] Arguments Z.mul : simpl never.
#[local] Arguments Z.add : simpl never.
#[local] Arguments Z.sub : simpl never.
#[local] Arguments Z.max : simpl never.

Section value_ind.
  Context (P : value -> Prop)
    (Hvec : forall t data names, P (VVec t data names))
    (Harr : forall t dim data, P (VArr t dim data))
    (Hdf : forall n names cols, Forall P cols -> P (VDf n names cols)).
  Fixpoint value_ind' (v : value) : P v :=
    match v with
    | VVec t data names => Hvec t data names
    | VArr t dim data => Harr t dim data
    | VDf n names cols =>
        Hdf n names cols ((fix go (l : list value) : Forall P l :=
          match l with [] => Forall_nil_2 P | c :: l => Forall_cons_2 P c l (value_ind' c) (go l) end) cols)
    end.
End value_ind.

Lemma value_ok_vec t data names : value_ok (VVec t data names) ->
  Forall (fun e => elt_type e = t) data /\ match names with Some n => length n = length data | None => True end /\
  (Z.of_nat (length data) <= INT_MAX)%Z.
Proof. inversion 1; auto. Qed.
Lemma value_ok_arr t dim data : value_ok (VArr t dim data) ->
  Forall (fun e => elt_type e = t) data /\ dim_ok dim /\ zprod dim = Z.of_nat (length data).
Proof. inversion 1; auto. Qed.
Lemma value_ok_df n names cols : value_ok (VDf n names cols) ->
  (Z.of_nat n <= INT_MAX)%Z /\ length names = length cols /\
  Forall (fun c => value_size c = Z.of_nat n) cols /\ Forall value_ok cols.
Proof. inversion 1; auto. Qed.

(** What slicing returns. *)
Fixpoint slice_val (locs : list Z) (v : value) : value :=
  match v with
  | VVec t data names =>
      VVec t (map (pick (vtype_na t) data) locs)
        (match names with None => None | Some n => Some (map (pick empty_str n) locs) end)
  | VArr t dim data =>
      match dim with
      | d :: ds => VArr t (Z.of_nat (length locs) :: ds) (shaped_out (vtype_na t) data d ds locs)
      | [] => VArr t [Z.of_nat (length locs)] []
      end
  | VDf n names cols => VDf (length locs) names (map (slice_val locs) cols)
  end.

Lemma dim_ok_cons dim : dim_ok dim -> exists d ds, dim = d :: ds.
Proof. intros (H & _). destruct dim; [done|eauto]. Qed.

Lemma sliced_slice_val locs v : value_ok v -> sliced locs v (slice_val locs v).
Proof.
  induction v as [t data names|t dim data|n names cols IH] using value_ind'; intros H.
  - by constructor.
  - apply value_ok_arr in H as (_ & H4 & _). destruct (dim_ok_cons _ H4) as (d & ds & ->). simpl. constructor.
    + apply shaped_out_length. destruct (dim_elem _ _ H4); tauto.
    + intros e He. by apply shaped_out_chunk.
  - apply value_ok_df in H as (_ & _ & _ & H6). simpl. constructor. clear -IH H6. induction IH as [|c cols Hc HI IH]; [constructor|]. inversion H6; subst.
    constructor; auto.
Qed.

Lemma subscript_size s n : subscript_ok n s -> vec_subscript_size s = Z.of_nat (length (expand s)).
Proof.
  intros [_ H]. destruct s; simpl; [done|rewrite replicate_length|rewrite map_length, seq_length]; lia.
Qed.

Lemma vec_slice_spec v s : value_ok v -> subscript_ok (value_size v) s ->
  (forall n, s = SRep NA_INTEGER n -> out_fits n v) ->
  vec_slice_unsafe v s = Ok (slice_val (expand s) v).
Proof.
  induction v as [t data names|t dim data|n names cols IH] using value_ind'; intros H Hs Hf.
  - apply value_ok_vec in H as (_ & H4 & _). simpl in *. rewrite slice_base_spec by done. cbn [bind].
    destruct names as [nm|]; [|done]. rewrite slice_base_spec by (by rewrite H4). done.
  - apply value_ok_arr in H as (_ & H4 & H5). destruct (dim_ok_cons _ H4) as (d & ds & ->). simpl in *.
    rewrite slice_shaped_spec; [|done|done|done|].
    2:{ intros n E. specialize (Hf n E). by inversion Hf; subst. }
    cbn [bind]. by rewrite (subscript_size _ _ Hs).
  - apply value_ok_df in H as (_ & _ & H5 & H6). cbn [vec_slice_unsafe slice_val].
    match goal with |- context [?f cols] => set (go := f) end.
    assert (Hgo : go cols = Ok (map (slice_val (expand s)) cols)).
    { simpl value_size in Hs.
      assert (Hf' : forall m, s = SRep NA_INTEGER m -> Forall (out_fits m) cols).
      { intros m E. specialize (Hf m E). by inversion Hf. }
      clear Hf. revert IH H5 H6 Hf'. induction cols as [|c cols IHc]; intros IH H5 H6 Hf'; [done|].
      inversion IH as [|?? IH1 IH2]; inversion H5 as [|?? Hc Hc']; inversion H6 as [|?? Hv Hv']; subst.
      cbn [map]. unfold go. fold go. rewrite Hc, Z.eqb_refl. cbn [negb].
      rewrite IH1; [|done|by rewrite Hc|]. 2:{ intros m E. specialize (Hf' m E). by inversion Hf'. }
      cbn [bind]. rewrite IHc; [done|done|done|done|]. intros m E. specialize (Hf' m E). by inversion Hf'. }
    rewrite Hgo. cbn [bind]. rewrite (subscript_size _ _ Hs). by rewrite Nat2Z.id.
Qed.

(** ** Assigning *)
Fixpoint assign_val (locs : list Z) (x val : value) : value :=
  match x, val with
  | VVec t data names, VVec _ vdata _ => VVec t (puts data locs vdata) names
  | VArr t (d :: ds) data, VArr _ _ vdata =>
      VArr t (d :: ds) (shaped_assigned data (Z.to_nat d) (Z.to_nat (zprod ds)) locs vdata)
  | VDf n names cols, VDf _ _ vcols =>
      VDf n names ((fix go (cols vcols : list value) : list value :=
        match cols, vcols with c :: cs, w :: ws => assign_val locs c w :: go cs ws | _, _ => [] end) cols vcols)
  | _, _ => x
  end.

Lemma vtype_eqb_refl t : vtype_eqb t t = true.
Proof. by destruct t. Qed.

Lemma flat_map_length_in {A} (f : nat -> list A) d m : (forall k, k < m -> length (f k) = d) ->
  length (flat_map f (seq 0 m)) = m * d.
Proof.
  induction m as [|m IH]; intros H; [done|]. rewrite flat_map_snoc, app_length, IH, H; [lia|lia|].
  intros; apply H; lia.
Qed.
Lemma chunk_flat_map_in {A} (f : nat -> list A) d m e : (forall k, k < m -> length (f k) = d) -> e < m ->
  chunk d e (flat_map f (seq 0 m)) = f e.
Proof.
  intros Hf He. unfold chunk.
  replace (seq 0 m) with (seq 0 e ++ seq e (m - e)) by (rewrite <- seq_app; f_equal; lia).
  rewrite flat_map_app, drop_app_alt by (rewrite (flat_map_length_in f d); [done|intros; apply Hf; lia]).
  replace (m - e) with (S (m - e - 1)) by lia. simpl. rewrite take_app_alt; [done|]. by rewrite Hf.
Qed.

Lemma same_type_vec t data names val : same_type (VVec t data names) val -> exists b nb, val = VVec t b nb.
Proof. inversion 1; subst; eauto. Qed.
Lemma same_type_arr t dim data val : same_type (VArr t dim data) val ->
  exists d d' ds b, dim = d :: ds /\ val = VArr t (d' :: ds) b.
Proof. inversion 1; subst; eauto 8. Qed.
Lemma same_type_df n names cols val : same_type (VDf n names cols) val ->
  exists m names' cols', val = VDf m names' cols' /\ Forall2 same_type cols cols'.
Proof. inversion 1; subst; eauto 8. Qed.

Lemma assigned_assign_val locs x : forall val, value_ok x -> value_ok val -> same_type x val ->
  value_size val = Z.of_nat (length locs) ->
  Forall (loc_ok (value_size x)) locs ->
  value_assigned locs x val (assign_val locs x val).
Proof.
  induction x as [t data names|t dim data|n names cols IH] using value_ind'; intros val Hx Hv Hst Hsz Hloc.
  - apply same_type_vec in Hst as (b & nb & ->).
    simpl in *. constructor. apply puts_assigned; [done|lia].
  - apply same_type_arr in Hst as (d & d' & ds & b & -> & ->).
    apply value_ok_arr in Hx as (_ & Hok & Hlen). apply value_ok_arr in Hv as (_ & Hok' & Hlen').
    simpl in *. subst.
    assert (Hd : forall e, e < Z.to_nat (zprod ds) -> (e + 1) * Z.to_nat d <= length data).
    { intros e He. destruct (dim_bound d ds e Hok ltac:(lia)) as (? & ? & ? & ?). nia. }
    assert (Hl : forall e, e < Z.to_nat (zprod ds) ->
       length (puts (chunk (Z.to_nat d) e data) locs (chunk (length locs) e b)) = Z.to_nat d).
    { intros e He. rewrite puts_length, chunk_length; [done|auto]. }
    destruct (dim_elem _ _ Hok) as (_ & Hp & Hd').
    constructor.
    + unfold shaped_assigned. rewrite (flat_map_length_in _ (Z.to_nat d)) by done. nia.
    + intros e He. unfold shaped_assigned.
      rewrite (chunk_flat_map_in (fun e => puts (chunk (Z.to_nat d) e data) locs (chunk (length locs) e b)))
        by (done || lia).
      assert (Hvb : (e + 1) * length locs <= length b).
      { assert (Z.of_nat (length locs) * (Z.of_nat e + 1) <= Z.of_nat (length locs) * zprod ds)%Z
          by (apply Z.mul_le_mono_nonneg_l; lia). nia. }
      apply puts_assigned.
      * rewrite chunk_length by (apply Hd; lia). by rewrite Z2Nat.id by lia.
      * by rewrite chunk_length.
  - apply same_type_df in Hst as (m & names' & vcols & -> & Hst).
    apply value_ok_df in Hx as (_ & _ & Hs1 & Hx). apply value_ok_df in Hv as (_ & _ & Hs2 & Hv).
    simpl in Hsz. apply Nat2Z.inj in Hsz as ->. cbn [assign_val]. constructor.
    simpl value_size in Hloc.
    induction Hst as [|c w cols ws Hcw Hst IHst]; [constructor|].
    repeat match goal with H : Forall _ (_ :: _) |- _ => inversion H; subst; clear H end.
    constructor; [|by apply IHst].
    match goal with H : forall val, value_ok c -> _ |- _ => apply H end; try done.
    match goal with H : value_size c = _ |- _ => by rewrite H end.
Qed.

Lemma vec_assign_spec s x : forall val, value_ok x -> value_ok val -> same_type x val ->
  value_size val = Z.of_nat (length (expand s)) ->
  subscript_ok (value_size x) s -> (forall i n, s <> SRep i n) ->
  vec_proxy_assign x s val = Ok (assign_val (expand s) x val).
Proof.
  induction x as [t data names|t dim data|n names cols IH] using value_ind'; intros val Hx Hv Hst Hsz Hs Hr.
  - apply same_type_vec in Hst as (b & nb & ->).
    simpl in *. rewrite vtype_eqb_refl. cbn [negb]. rewrite assign_base_spec; [done|done|lia|done].
  - apply same_type_arr in Hst as (d & d' & ds & b & -> & ->).
    apply value_ok_arr in Hx as (_ & Hok & Hlen). apply value_ok_arr in Hv as (_ & Hok' & Hlen').
    cbn [vec_proxy_assign value_kind_eqb]. rewrite vtype_eqb_refl. cbn [negb].
    simpl in *. subst. rewrite assign_shaped_spec; [done|done|done|done|done| |].
    + lia.
    + destruct Hok' as (_ & Hp & Hm). pose proof (zprod_le_max _ Hp). simpl in *. lia.
  - apply same_type_df in Hst as (m & names' & vcols & -> & Hst).
    apply value_ok_df in Hx as (_ & _ & Hs1 & Hx). apply value_ok_df in Hv as (_ & _ & Hs2 & Hv).
    cbn [vec_proxy_assign value_kind_eqb negb].
    rewrite (Forall2_length _ _ _ Hst), Nat.eqb_refl. cbn [negb].
    match goal with |- context [?f cols vcols] => set (go := f) end.
    simpl value_size in *.
    assert (Hgo : go cols vcols = Ok ((fix go (cols vcols : list value) : list value :=
        match cols, vcols with c :: cs, w :: ws => assign_val (expand s) c w :: go cs ws | _, _ => [] end) cols vcols)).
    { induction Hst as [|c w cols ws Hcw Hst IHst]; [done|].
      repeat match goal with H : Forall _ (_ :: _) |- _ => inversion H; subst; clear H end.
      unfold go. fold go.
      match goal with H : forall val, value_ok c -> _ |- _ => rewrite H; clear H end; try done.
      - cbn [bind]. rewrite IHst by done. done.
      - match goal with H : value_size w = _ |- _ => rewrite H end. done.
      - match goal with H : value_size c = _ |- _ => rewrite H end. done. }
    rewrite Hgo. done.
Qed.
