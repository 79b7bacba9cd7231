(** * Lemmas about chopping and combining *)
From Verif Require Import Base M_Double M_Scalar M_Hash M_Object M_Proxy M_Cast M_Growable M_Slice M_Subscript M_Rep M_Chop
  Spec_Slice Spec_Rep Spec_Subscript Spec_Chop L_Proxy L_Slice L_SliceArray L_Assign L_Value L_SliceVal L_Rep L_Recycle.
From Coq Require Import ZifyBool ZifyNat.
#[local] Arguments Z.mul : simpl never.
#[local] Arguments Z.add : simpl never.
#[local] Arguments Z.sub : simpl never.
#[local] Arguments Z.max : simpl never.

(** ** What assigning with names returns *)
Definition name_puts (size : nat) (names : option (list rstr)) (locs : list Z) (vnames : option (list rstr)) : option (list rstr) :=
  match vnames with
  | None => names
  | Some v => Some (puts (match names with None => replicate size empty_str | Some n => n end) locs v)
  end.
Fixpoint assign_valn (locs : list Z) (x val : value) : value :=
  match x, val with
  | VVec t data names, VVec _ vdata vnames =>
      VVec t (puts data locs vdata) (name_puts (length data) names locs vnames)
  | VArr t (d :: ds) data, VArr _ _ vdata =>
      VArr t (d :: ds) (shaped_assigned data (Z.to_nat d) (Z.to_nat (zprod ds)) locs vdata)
  | VDf n names cols, VDf _ _ vcols =>
      VDf n names ((fix go (cols vcols : list value) : list value :=
        match cols, vcols with c :: cs, w :: ws => assign_valn locs c w :: go cs ws | _, _ => [] end) cols vcols)
  | _, _ => x
  end.
Fixpoint assign_cols (locs : list Z) (cols vcols : list value) : list value :=
  match cols, vcols with c :: cs, w :: ws => assign_valn locs c w :: assign_cols locs cs ws | _, _ => [] end.
Lemma assign_valn_df locs n names cols m names' vcols :
  assign_valn locs (VDf n names cols) (VDf m names' vcols) = VDf n names (assign_cols locs cols vcols).
Proof.
  simpl. f_equal. revert vcols. induction cols as [|c cs IH]; intros vcols; [done|].
  destruct vcols; simpl; [done|]. by rewrite IH.
Qed.

Definition strip (v : value) : value := with_names None v.

Lemma value_ok_names t data names : value_ok (VVec t data names) ->
  length (match names with None => replicate (length data) empty_str | Some n => n end) = length data.
Proof. intros H. apply value_ok_vec in H as (_ & H & _). destruct names; [done|]. apply replicate_length. Qed.

Lemma assign_opts_spec s x : forall val b, value_ok x -> value_ok val -> same_type x val ->
  value_size val = Z.of_nat (length (expand s)) ->
  subscript_ok (value_size x) s -> (forall i n, s <> SRep i n) ->
  vec_proxy_assign_opts b x s val = Ok (assign_valn (expand s) x (if b then strip val else val)).
Proof.
  induction x as [t data names|t dim data|n names cols IH] using value_ind'; intros val b Hx Hv Hst Hsz Hs Hr.
  - apply same_type_vec in Hst as (v & nb & ->). pose proof (value_ok_names _ _ _ Hx) as Hnm.
    apply value_ok_vec in Hv as (_ & Hv & _).
    simpl in *. rewrite vtype_eqb_refl. cbn [negb]. rewrite assign_base_spec; [|done|lia|done]. cbn [bind].
    destruct b; [done|]. unfold assign_names. destruct nb as [nb|]; [|done].
    rewrite assign_base_spec; [done| |lia|done]. by rewrite Hnm.
  - apply same_type_arr in Hst as (d & d' & ds & v & -> & ->).
    apply value_ok_arr in Hx as (_ & Hok & Hlen). apply value_ok_arr in Hv as (_ & Hok' & Hlen').
    cbn [vec_proxy_assign_opts value_kind_eqb]. rewrite vtype_eqb_refl. cbn [negb].
    simpl in *. subst. rewrite assign_shaped_spec; [by destruct b|done|done|done|done| |].
    + lia.
    + destruct Hok' as (_ & Hp & Hm). pose proof (zprod_le_max _ Hp). simpl in *. lia.
  - apply same_type_df in Hst as (m & names' & vcols & -> & Hst).
    apply value_ok_df in Hx as (_ & _ & Hs1 & Hx). apply value_ok_df in Hv as (_ & _ & Hs2 & Hv).
    replace (if b then strip (VDf m names' vcols) else VDf m names' vcols) with (VDf m names' vcols) by (by destruct b).
    rewrite assign_valn_df.
    cbn [vec_proxy_assign_opts value_kind_eqb negb].
    rewrite (Forall2_length _ _ _ Hst), Nat.eqb_refl. cbn [negb].
    match goal with |- context [?f cols vcols] => set (go := f) end.
    simpl value_size in *.
    assert (Hgo : go cols vcols = Ok (assign_cols (expand s) cols vcols)).
    { induction Hst as [|c w cols ws Hcw Hst IHst]; [done|].
      repeat match goal with H : Forall _ (_ :: _) |- _ => inversion H; subst; clear H end.
      unfold go. fold go.
      match goal with H : forall val b, value_ok c -> _ |- _ => rewrite (H w false); clear H end; try done.
      - cbn [bind]. rewrite IHst by done. done.
      - match goal with H : value_size w = _ |- _ => rewrite H end. done.
      - match goal with H : value_size c = _ |- _ => rewrite H end. done. }
    rewrite Hgo. done.
Qed.

(** ** Well-formedness is kept *)
Lemma puts_Forall {A} (P : A -> Prop) (x : list A) locs : forall vals, Forall P x -> Forall P vals -> Forall P (puts x locs vals).
Proof.
  unfold puts. revert x. induction locs as [|i l IH]; intros x vals Hx Hv; simpl; [done|].
  destruct vals as [|v vals]; simpl; [done|]. apply Forall_cons in Hv as [Hv Hvs]. apply IH; [|done].
  unfold put. cbn [fst snd]. destruct (i =? NA_INTEGER)%Z; [done|]. by apply Forall_insert.
Qed.
Lemma shaped_assigned_length {A} (data : list A) d m locs vdata : length data = m * d ->
  length (shaped_assigned data d m locs vdata) = length data.
Proof.
  intros H. unfold shaped_assigned. rewrite (flat_map_length_in _ d); [lia|]. intros k Hk. rewrite puts_length.
  apply chunk_length. nia.
Qed.
Lemma dim_len d ds (data : list elt) : dim_ok (d :: ds) -> zprod (d :: ds) = Z.of_nat (length data) ->
  length data = Z.to_nat (zprod ds) * Z.to_nat d /\ (0 <= zprod ds)%Z /\ (0 <= d)%Z.
Proof. intros Hok Hl. destruct (dim_elem _ _ Hok) as (_ & Hp & Hd). simpl in Hl. split; [nia|lia]. Qed.

Lemma assign_valn_size locs x val : value_size (assign_valn locs x val) = value_size x.
Proof.
  destruct x as [t data names|t dim data|n names cols], val; try done; try (by destruct dim).
  simpl. by rewrite puts_length.
Qed.
Lemma assign_valn_ok locs x : forall val, value_ok x -> value_ok val -> same_type x val -> value_ok (assign_valn locs x val).
Proof.
  induction x as [t data names|t dim data|n names cols IH] using value_ind'; intros val Hx Hv Hst.
  - apply same_type_vec in Hst as (b & nb & ->). pose proof (value_ok_names _ _ _ Hx) as Hnm.
    apply value_ok_vec in Hx as (Hx1 & Hx2 & Hx3). apply value_ok_vec in Hv as (Hv1 & Hv2 & Hv3).
    simpl. constructor; [by apply puts_Forall| |by rewrite puts_length].
    rewrite puts_length. destruct nb; simpl; [|done]. by rewrite puts_length.
  - apply same_type_arr in Hst as (d & d' & ds & b & -> & ->).
    apply value_ok_arr in Hx as (Hx0 & Hok & Hlen). apply value_ok_arr in Hv as (Hv0 & Hok' & Hlen').
    simpl. destruct (dim_len _ _ _ Hok Hlen) as (H1 & H2 & H3). constructor; [|done|by rewrite shaped_assigned_length].
    unfold shaped_assigned. apply Forall_forall. intros a Ha. apply elem_of_list_In, in_flat_map in Ha as (e & _ & Ha).
    apply elem_of_list_In in Ha. revert a Ha. rewrite <- Forall_forall. apply puts_Forall; by apply Forall_take_drop.
  - apply same_type_df in Hst as (m & names' & vcols & -> & Hst).
    apply value_ok_df in Hx as (Hn & Hnn & Hs1 & Hx). apply value_ok_df in Hv as (_ & _ & Hs2 & Hv).
    rewrite assign_valn_df. constructor; [done| | |].
    + rewrite Hnn. clear -Hst. induction Hst; simpl; [done|]. by rewrite IHHst.
    + clear -Hst Hs1. induction Hst; simpl; [constructor|]. apply Forall_cons in Hs1 as [? ?].
      constructor; [by rewrite assign_valn_size|auto].
    + clear -IH Hst Hx Hv. induction Hst; simpl; [constructor|].
      apply Forall_cons in IH as [? ?], Hx as [? ?], Hv as [? ?]. constructor; auto.
Qed.
Lemma assign_valn_type locs x : forall val p, same_type p x -> same_type x val -> same_type p (assign_valn locs x val).
Proof.
  induction x as [t data names|t dim data|n names cols IH] using value_ind'; intros val p Hp Hst.
  - apply same_type_vec in Hst as (b & nb & ->). inversion Hp; subst. constructor.
  - apply same_type_arr in Hst as (d & d' & ds & b & -> & ->). inversion Hp; subst. constructor.
  - apply same_type_df in Hst as (m & names' & vcols & -> & Hst). rewrite assign_valn_df.
    inversion Hp as [| |? ? pcols ? ? ? Hpc]; subst. constructor. clear Hp.
    revert vcols Hst. induction Hpc as [|pc c pcols cols Hpc1 Hpc IHp]; intros vcols Hst; inversion Hst; subst; simpl; [constructor|].
    apply Forall_cons in IH as [? ?]. constructor; auto.
Qed.
Lemma same_type_refl v : value_ok v -> same_type v v.
Proof.
  induction v as [t data names|t dim data|n names cols IH] using value_ind'; intros H.
  - constructor.
  - apply value_ok_arr in H as (_ & H & _). destruct (dim_ok_cons _ H) as (d & ds & ->). constructor.
  - apply value_ok_df in H as (_ & _ & _ & H). constructor. induction IH; [constructor|]. apply Forall_cons in H as [? ?]. constructor; auto.
Qed.
Lemma same_type_sym a : forall b, same_type a b -> same_type b a.
Proof.
  induction a as [t data names|t dim data|n names cols IH] using value_ind'; intros b H.
  - apply same_type_vec in H as (? & ? & ->). constructor.
  - apply same_type_arr in H as (? & ? & ? & ? & -> & ->). constructor.
  - apply same_type_df in H as (? & ? & ? & -> & H). constructor.
    induction H; [constructor|]. apply Forall_cons in IH as [? ?]. constructor; auto.
Qed.
Lemma same_type_trans a : forall b c, same_type a b -> same_type b c -> same_type a c.
Proof.
  induction a as [t data names|t dim data|n names cols IH] using value_ind'; intros b c H H'.
  - apply same_type_vec in H as (? & ? & ->). apply same_type_vec in H' as (? & ? & ->). constructor.
  - apply same_type_arr in H as (? & ? & ? & ? & -> & ->). inversion H'; subst. constructor.
  - apply same_type_df in H as (? & ? & bcols & -> & H). apply same_type_df in H' as (? & ? & ccols & -> & H'). constructor.
    revert ccols H'. induction H; intros ccols H'; inversion H'; subst; [constructor|].
    apply Forall_cons in IH as [? ?]. constructor; eauto.
Qed.

(** ** Same namedness *)
Inductive agree : value -> value -> Prop :=
| ag_vec t a na b nb : (na = None <-> nb = None) -> agree (VVec t a na) (VVec t b nb)
| ag_arr t d d' dim a b : agree (VArr t (d :: dim) a) (VArr t (d' :: dim) b)
| ag_df n names cols m names' cols' : Forall2 agree cols cols' -> agree (VDf n names cols) (VDf m names' cols').

Lemma agree_full a : forall b, same_type a b -> agree (full a) (full b).
Proof.
  induction a as [t data names|t dim data|n names cols IH] using value_ind'; intros b H.
  - apply same_type_vec in H as (? & ? & ->). by constructor.
  - apply same_type_arr in H as (? & ? & ? & ? & -> & ->). constructor.
  - apply same_type_df in H as (? & ? & ? & -> & H). simpl. constructor.
    induction H; simpl; [constructor|]. apply Forall_cons in IH as [? ?]. constructor; auto.
Qed.
Lemma agree_unnamed a : forall b, same_type a b -> agree (unnamed a) (unnamed b).
Proof.
  induction a as [t data names|t dim data|n names cols IH] using value_ind'; intros b H.
  - apply same_type_vec in H as (? & ? & ->). by constructor.
  - apply same_type_arr in H as (? & ? & ? & ? & -> & ->). constructor.
  - apply same_type_df in H as (? & ? & ? & -> & H). simpl. constructor.
    induction H; simpl; [constructor|]. apply Forall_cons in IH as [? ?]. constructor; auto.
Qed.
Lemma full_size v : value_size (full v) = value_size v.
Proof. by destruct v. Qed.
Lemma unnamed_size v : value_size (unnamed v) = value_size v.
Proof. by destruct v. Qed.
Lemma full_ok v : value_ok v -> value_ok (full v).
Proof.
  induction v as [t data names|t dim data|n names cols IH] using value_ind'; intros H.
  - pose proof (value_ok_names _ _ _ H). apply value_ok_vec in H as (? & ? & ?). by constructor.
  - done.
  - apply value_ok_df in H as (? & ? & H1 & H2). simpl. constructor; [done|by rewrite map_length| |].
    + apply Forall_fmap. eapply Forall_impl; [apply H1|]. intros c. simpl. by rewrite full_size.
    + apply Forall_fmap. clear H1 H0 H. induction IH; [constructor|]. apply Forall_cons in H2 as [? ?]. constructor; auto.
Qed.
Lemma unnamed_ok v : value_ok v -> value_ok (unnamed v).
Proof.
  induction v as [t data names|t dim data|n names cols IH] using value_ind'; intros H.
  - apply value_ok_vec in H as (? & ? & ?). by constructor.
  - done.
  - apply value_ok_df in H as (? & ? & H1 & H2). simpl. constructor; [done|by rewrite map_length| |].
    + apply Forall_fmap. eapply Forall_impl; [apply H1|]. intros c. simpl. by rewrite unnamed_size.
    + apply Forall_fmap. clear H1 H0 H. induction IH; [constructor|]. apply Forall_cons in H2 as [? ?]. constructor; auto.
Qed.
Lemma same_type_full a : forall b, same_type a b -> same_type (full a) (full b).
Proof.
  induction a as [t data names|t dim data|n names cols IH] using value_ind'; intros b H.
  - apply same_type_vec in H as (? & ? & ->). by constructor.
  - apply same_type_arr in H as (? & ? & ? & ? & -> & ->). constructor.
  - apply same_type_df in H as (? & ? & ? & -> & H). simpl. constructor.
    induction H; simpl; [constructor|]. apply Forall_cons in IH as [? ?]. constructor; auto.
Qed.
Lemma same_type_unnamed a : forall b, same_type a b -> same_type (unnamed a) (unnamed b).
Proof.
  induction a as [t data names|t dim data|n names cols IH] using value_ind'; intros b H.
  - apply same_type_vec in H as (? & ? & ->). by constructor.
  - apply same_type_arr in H as (? & ? & ? & ? & -> & ->). constructor.
  - apply same_type_df in H as (? & ? & ? & -> & H). simpl. constructor.
    induction H; simpl; [constructor|]. apply Forall_cons in IH as [? ?]. constructor; auto.
Qed.

(** ** Rows after an assignment *)
Definition in_rows (n l : Z) : Prop := (1 <= l <= n)%Z.
Lemma pick_puts_other {A} (na : A) x locs vals l :
  Forall (loc_ok (Z.of_nat (length x))) locs -> length locs = length vals ->
  l = NA_INTEGER \/ in_rows (Z.of_nat (length x)) l -> l ∉ locs \/ l = NA_INTEGER -> pick na (puts x locs vals) l = pick na x l.
Proof.
  intros Hl Hlen Hr Hn. unfold pick. destruct (Z.eqb_spec l NA_INTEGER) as [|Hna]; [done|].
  destruct Hr as [|Hr]; [done|]. destruct Hn as [Hn|]; [|done]. unfold in_rows in Hr.
  destruct (puts_assigned x locs vals Hl Hlen) as (_ & H & _).
  destruct (lookup_lt_is_Some_nth x (Z.to_nat (l - 1))) as [a Ha]; [lia|].
  rewrite (nth_lookup_Some _ _ _ _ Ha). apply nth_lookup_Some. apply H; [done|].
  replace (Z.of_nat (Z.to_nat (l - 1)) + 1)%Z with l by lia. by rewrite <- elem_of_list_In.
Qed.
Lemma pick_puts_here {A} (na : A) x locs vals k l :
  Forall (loc_ok (Z.of_nat (length x))) locs -> length locs = length vals ->
  locs !! k = Some l -> l <> NA_INTEGER -> (forall k', k < k' -> locs !! k' <> Some l) ->
  pick na (puts x locs vals) l = pick na vals (Z.of_nat k + 1).
Proof.
  intros Hl Hlen Hk Hna Hlast. unfold pick. destruct (Z.eqb_spec l NA_INTEGER) as [|_]; [done|].
  destruct (Z.eqb_spec (Z.of_nat k + 1) NA_INTEGER); [unfold NA_INTEGER, INT_MIN in *; lia|].
  destruct (puts_assigned x locs vals Hl Hlen) as (_ & _ & H).
  destruct (lookup_lt_is_Some_nth vals k) as [v Hv]; [rewrite <- Hlen; by eapply lookup_lt_Some|].
  rewrite (nth_lookup_Some _ _ _ _ (H k l v Hk Hv Hna Hlast)). symmetry. apply nth_lookup_Some. by replace (Z.to_nat (Z.of_nat k + 1 - 1)) with k by lia.
Qed.

Lemma shaped_assigned_chunk {A} (data : list A) d m locs vdata e : length data = m * d -> e < m ->
  chunk d e (shaped_assigned data d m locs vdata) = puts (chunk d e data) locs (chunk (length locs) e vdata).
Proof.
  intros H He. unfold shaped_assigned.
  apply (chunk_flat_map_in (fun e => puts (chunk d e data) locs (chunk (length locs) e vdata))); [|done].
  intros k Hk. rewrite puts_length. apply chunk_length. nia.
Qed.

Lemma name_puts_rows (x : list elt) names (vd : list elt) vnames locs l :
  length (match names with None => replicate (length x) empty_str | Some n => n end) = length x ->
  match vnames with Some n => length n = length vd | None => True end ->
  (names = None <-> vnames = None) ->
  Forall (loc_ok (Z.of_nat (length x))) locs -> length locs = length vd ->
  l = NA_INTEGER \/ in_rows (Z.of_nat (length x)) l -> l ∉ locs \/ l = NA_INTEGER ->
  match name_puts (length x) names locs vnames with None => None | Some n => Some (map (pick empty_str n) [l]) end =
  match names with None => None | Some n => Some (map (pick empty_str n) [l]) end.
Proof.
  intros Hn Hv Hag Hl Hlen Hr Ho. destruct vnames as [v|]; simpl.
  - destruct names as [n|]; [|by destruct Hag as [Hag _]; specialize (Hag eq_refl)]. do 2 f_equal.
    apply pick_puts_other; rewrite ?Hn; try done. lia.
  - destruct Hag as [_ Hag]. by rewrite Hag.
Qed.
Lemma name_puts_here (x : list elt) names (vd : list elt) vnames locs k l :
  length (match names with None => replicate (length x) empty_str | Some n => n end) = length x ->
  match vnames with Some n => length n = length vd | None => True end ->
  (names = None <-> vnames = None) ->
  Forall (loc_ok (Z.of_nat (length x))) locs -> length locs = length vd ->
  locs !! k = Some l -> l <> NA_INTEGER -> (forall k', k < k' -> locs !! k' <> Some l) ->
  match name_puts (length x) names locs vnames with None => None | Some n => Some (map (pick empty_str n) [l]) end =
  match vnames with None => None | Some n => Some (map (pick empty_str n) [Z.of_nat k + 1]%Z) end.
Proof.
  intros Hn Hv Hag Hl Hlen Hk Hna Hlast. destruct vnames as [v|]; simpl.
  - do 2 f_equal. apply pick_puts_here; rewrite ?Hn; try done. lia.
  - destruct Hag as [_ Hag]. by rewrite Hag.
Qed.

Lemma row_other locs l x : forall val, value_ok x -> value_ok val -> agree x val ->
  value_size val = Z.of_nat (length locs) -> Forall (loc_ok (value_size x)) locs ->
  l = NA_INTEGER \/ in_rows (value_size x) l -> l ∉ locs \/ l = NA_INTEGER ->
  slice_val [l] (assign_valn locs x val) = slice_val [l] x.
Proof.
  induction x as [t data names|t dim data|n names cols IH] using value_ind'; intros val Hx Hv Hag Hsz Hl Hr Ho.
  - inversion Hag as [? ? ? b nb E| |]; subst. pose proof (value_ok_names _ _ _ Hx) as Hnm.
    apply value_ok_vec in Hv as (_ & Hv & _). cbn [assign_valn slice_val value_size] in *.
    rewrite (name_puts_rows data names b nb locs l) by (done || lia). f_equal. simpl. f_equal.
    apply pick_puts_other; [done|lia|done|done].
  - inversion Hag as [|? d d' ds ? b|]; subst.
    apply value_ok_arr in Hx as (_ & Hok & Hlen). apply value_ok_arr in Hv as (_ & Hok' & Hlen').
    cbn [assign_valn slice_val value_size] in *. f_equal. subst.
    destruct (dim_len _ _ _ Hok Hlen) as (H1 & H2 & H3). destruct (dim_len _ _ _ Hok' Hlen') as (H1' & _ & _).
    unfold shaped_out. apply flat_map_ext_in. intros e He. apply in_seq in He.
    rewrite shaped_assigned_chunk by (done || lia). simpl. f_equal.
    assert (Hc : length (chunk (Z.to_nat d) e data) = Z.to_nat d) by (apply chunk_length; nia).
    apply pick_puts_other; rewrite ?Hc, ?Z2Nat.id by done; try done.
    rewrite chunk_length; nia.
  - inversion Hag as [| |? ? ? m names' vcols Hc]; subst. rewrite assign_valn_df.
    apply value_ok_df in Hx as (_ & _ & Hs1 & Hx). apply value_ok_df in Hv as (_ & _ & Hs2 & Hv).
    cbn [slice_val value_size] in *. f_equal. clear Hag.
    induction Hc as [|c w cols vcols Hcw Hc IHc]; [done|].
    apply Forall_cons in IH as [I1 I2], Hs1 as [S1 S1'], Hs2 as [S2 S2'], Hx as [X X'], Hv as [V V'].
    simpl. rewrite I1; [|done|done|done|congruence|by rewrite S1|by rewrite S1|done]. f_equal. by apply IHc.
Qed.
Lemma row_here locs k l x : forall val, value_ok x -> value_ok val -> agree x val -> proto_of x val ->
  value_size val = Z.of_nat (length locs) -> Forall (loc_ok (value_size x)) locs ->
  locs !! k = Some l -> l <> NA_INTEGER -> (forall k', k < k' -> locs !! k' <> Some l) ->
  slice_val [l] (assign_valn locs x val) = slice_val [Z.of_nat k + 1]%Z val.
Proof.
  induction x as [t data names|t dim data|n names cols IH] using value_ind'; intros val Hx Hv Hag Hpo Hsz Hl Hk Hna Hlast.
  - inversion Hag as [? ? ? b nb E| |]; subst. pose proof (value_ok_names _ _ _ Hx) as Hnm.
    apply value_ok_vec in Hv as (_ & Hv & _). cbn [assign_valn slice_val value_size] in *.
    rewrite (name_puts_here data names b nb locs k l) by (done || lia). f_equal. simpl. f_equal.
    apply pick_puts_here; [done|lia|done|done|done].
  - inversion Hag as [|? d d' ds ? b|]; subst.
    apply value_ok_arr in Hx as (_ & Hok & Hlen). apply value_ok_arr in Hv as (_ & Hok' & Hlen').
    cbn [assign_valn slice_val value_size] in *. f_equal. subst.
    destruct (dim_len _ _ _ Hok Hlen) as (H1 & H2 & H3). destruct (dim_len _ _ _ Hok' Hlen') as (H1' & _ & _).
    unfold shaped_out. apply flat_map_ext_in. intros e He. apply in_seq in He.
    rewrite shaped_assigned_chunk by (done || lia). simpl. f_equal. rewrite Nat2Z.id.
    assert (Hc : length (chunk (Z.to_nat d) e data) = Z.to_nat d) by (apply chunk_length; nia).
    apply pick_puts_here; rewrite ?Hc, ?Z2Nat.id by done; try done.
    rewrite chunk_length; nia.
  - inversion Hag as [| |? ? ? m names' vcols Hc]; subst. rewrite assign_valn_df.
    apply value_ok_df in Hx as (_ & _ & Hs1 & Hx). apply value_ok_df in Hv as (_ & _ & Hs2 & Hv).
    inversion Hpo as [| |? ? ? ? ? Hp]; subst.
    cbn [slice_val value_size] in *. f_equal. clear Hag Hpo.
    induction Hc as [|c w cols vcols Hcw Hc IHc]; [done|].
    apply Forall_cons in IH as [I1 I2], Hs1 as [S1 S1'], Hs2 as [S2 S2'], Hx as [X X'], Hv as [V V'].
    inversion Hp; subst.
    simpl. rewrite I1; [|done|done|done|done|congruence|by rewrite S1|done|done|done]. f_equal. by apply IHc.
Qed.

(** ** Views commute with assigning *)
Lemma proto_type a : forall b, proto_of a b -> same_type a b.
Proof.
  induction a as [t data names|t dim data|n names cols IH] using value_ind'; intros b H; inversion H; subst; constructor.
  clear H. match goal with H : Forall2 _ _ _ |- _ => induction H end; [constructor|]. apply Forall_cons in IH as [? ?]. constructor; auto.
Qed.
Lemma proto_full a : forall b, proto_of a b -> proto_of (full a) (full b).
Proof.
  induction a as [t data names|t dim data|n names cols IH] using value_ind'; intros b H; inversion H; subst; simpl; constructor.
  clear H. match goal with H : Forall2 _ _ _ |- _ => induction H end; simpl; [constructor|]. apply Forall_cons in IH as [? ?].
  constructor; auto.
Qed.
Lemma proto_unnamed a : forall b, proto_of a b -> proto_of (unnamed a) (unnamed b).
Proof.
  induction a as [t data names|t dim data|n names cols IH] using value_ind'; intros b H; inversion H; subst; simpl; constructor.
  clear H. match goal with H : Forall2 _ _ _ |- _ => induction H end; simpl; [constructor|]. apply Forall_cons in IH as [? ?].
  constructor; auto.
Qed.
Lemma proto_assign locs p x : forall val, proto_of p x -> same_type x val -> proto_of p (assign_valn locs x val).
Proof.
  revert x. induction p as [t data names|t dim data|n names cols IH] using value_ind'; intros x val H Hst; inversion H; subst.
  - apply same_type_vec in Hst as (? & ? & ->). constructor.
  - inversion Hst; subst. constructor.
  - apply same_type_df in Hst as (? & ? & vcols & -> & Hst). rewrite assign_valn_df. constructor. clear H.
    revert vcols Hst. match goal with H : Forall2 _ _ _ |- _ => induction H end; intros vcols Hst; inversion Hst; subst; simpl; [constructor|].
    apply Forall_cons in IH as [? ?]. constructor; auto.
Qed.
Lemma proto_slice locs v : value_ok v -> proto_of v (slice_val locs v).
Proof.
  induction v as [t data names|t dim data|n names cols IH] using value_ind'; intros H.
  - constructor.
  - apply value_ok_arr in H as (_ & H & _). destruct (dim_ok_cons _ H) as (d & ds & ->). constructor.
  - apply value_ok_df in H as (_ & _ & _ & H). simpl. constructor. induction IH; simpl; [constructor|]. apply Forall_cons in H as [? ?]. constructor; auto.
Qed.
Lemma proto_sym a : forall b, proto_of a b -> proto_of b a.
Proof.
  induction a as [t data names|t dim data|n names cols IH] using value_ind'; intros b H; inversion H; subst; constructor.
  clear H. match goal with H : Forall2 _ _ _ |- _ => induction H end; [constructor|]. apply Forall_cons in IH as [? ?]. constructor; auto.
Qed.
Lemma proto_trans a : forall b c, proto_of a b -> proto_of b c -> proto_of a c.
Proof.
  induction a as [t data names|t dim data|n names cols IH] using value_ind'; intros b c H H'.
  - inversion H; subst; inversion H'; subst; constructor.
  - inversion H; subst; inversion H'; subst; constructor.
  - inversion H as [| |? ? ? m bcols H1]; subst. inversion H' as [| |? ? ? m' ccols H2]; subst. constructor. clear H H'.
    revert ccols H2. induction H1; intros ccols H2; inversion H2; subst; [constructor|].
    apply Forall_cons in IH as [? ?]. constructor; eauto.
Qed.
Lemma proto_with_names p nm w : proto_of p w -> proto_of p (with_names nm w).
Proof. destruct 1; constructor. done. Qed.

Lemma unnamed_assign locs x : forall val, unnamed (assign_valn locs x val) = assign_valn locs (unnamed x) (unnamed val).
Proof.
  induction x as [t data names|t dim data|n names cols IH] using value_ind'; intros val.
  - by destruct val.
  - destruct dim, val; done.
  - destruct val as [| |m names' vcols]; try done. simpl unnamed. rewrite !assign_valn_df. f_equal.
    revert vcols. induction IH; intros vcols; [done|]. destruct vcols; simpl; [done|]. by f_equal.
Qed.
(** Names are empty at the locations assigned to. *)
Lemma puts_same {A} (x : list A) locs vals : Forall (loc_ok (Z.of_nat (length x))) locs -> length locs = length vals ->
  (forall k l v, locs !! k = Some l -> vals !! k = Some v -> l <> NA_INTEGER -> x !! Z.to_nat (l - 1) = Some v) ->
  puts x locs vals = x.
Proof.
  intros Hl Hlen H. revert vals Hlen H. unfold puts. induction Hl as [|i locs Hi Hl IH]; intros vals Hlen H; simpl; [done|].
  destruct vals as [|v vals]; [done|]. simpl.
  assert (put x (i, v) = x) as ->.
  { unfold put. cbn [fst snd]. destruct (Z.eqb_spec i NA_INTEGER); [done|]. apply list_insert_id. by apply (H 0 i v). }
  apply IH; [simpl in Hlen; lia|]. intros k. apply (H (S k)).
Qed.
Lemma pick_blank (n : nat) l : pick empty_str (replicate n empty_str) l = empty_str.
Proof.
  unfold pick. destruct (l =? NA_INTEGER)%Z; [done|]. destruct (nth_in_or_default (Z.to_nat (l - 1)) (replicate n empty_str) empty_str) as [H|H]; [|done].
  apply elem_of_list_In, elem_of_replicate in H as [H _]. done.
Qed.
Lemma full_assign locs x : forall val, value_ok x -> value_ok val -> same_type x val ->
  value_size val = Z.of_nat (length locs) -> Forall (loc_ok (value_size x)) locs ->
  (forall l, l ∈ locs -> l <> NA_INTEGER -> slice_val [l] (full x) = slice_val [NA_INTEGER] (full x)) ->
  full (assign_valn locs x val) = assign_valn locs (full x) (full val).
Proof.
  induction x as [t data names|t dim data|n names cols IH] using value_ind'; intros val Hx Hv Hst Hsz Hl Hb.
  - apply same_type_vec in Hst as (b & nb & ->). pose proof (value_ok_names _ _ _ Hx) as Hnm.
    simpl in *. f_equal. f_equal. rewrite puts_length. destruct nb as [nb|]; simpl; [done|].
    symmetry. apply puts_same; [by rewrite Hnm|rewrite replicate_length; lia|].
    intros k l v Hk Hv' Hna. apply lookup_replicate in Hv' as [-> _].
    assert (Hlin : l ∈ locs) by (by eapply elem_of_list_lookup_2).
    specialize (Hb l Hlin Hna). injection Hb as _ Hb. rewrite Forall_forall in Hl. destruct (Hl l Hlin) as [|Hr]; [done|].
    unfold pick in Hb. destruct (Z.eqb_spec l NA_INTEGER); [done|].
    destruct (lookup_lt_is_Some_nth (match names with None => replicate (length data) empty_str | Some n => n end) (Z.to_nat (l - 1))) as [a Ha]; [lia|].
    rewrite (nth_lookup_Some _ _ _ _ Ha) in Hb. change (NA_INTEGER =? NA_INTEGER)%Z with true in Hb. by rewrite Ha, Hb.
  - apply same_type_arr in Hst as (d & d' & ds & b & -> & ->). done.
  - apply same_type_df in Hst as (m & names' & vcols & -> & Hst). simpl full. rewrite !assign_valn_df.
    apply value_ok_df in Hx as (_ & _ & Hs1 & Hx). apply value_ok_df in Hv as (_ & _ & Hs2 & Hv).
    simpl full. f_equal. simpl in *.
    assert (Hb' : forall l, l ∈ locs -> l <> NA_INTEGER -> map (slice_val [l]) (map full cols) = map (slice_val [NA_INTEGER]) (map full cols)).
    { intros l Hl1 Hl2. specialize (Hb l Hl1 Hl2). by injection Hb. }
    clear Hb. induction Hst as [|c w cols ws Hcw Hst IHst]; [done|].
    apply Forall_cons in IH as [I1 I2], Hs1 as [S1 S1'], Hs2 as [S2 S2'], Hx as [X X'], Hv as [V V'].
    simpl. rewrite I1; try done; [|congruence|by rewrite S1|].
    + f_equal. apply IHst; try done. intros l Hl1 Hl2. specialize (Hb' l Hl1 Hl2). by injection Hb'.
    + intros l Hl1 Hl2. specialize (Hb' l Hl1 Hl2). by injection Hb'.
Qed.
Lemma full_slice locs v : full (slice_val locs v) = slice_val locs (full v).
Proof.
  induction v as [t data names|t dim data|n names cols IH] using value_ind'.
  - simpl. f_equal. f_equal. destruct names; [done|]. rewrite map_length. symmetry.
    transitivity (map (fun _ : Z => empty_str) locs).
    + apply map_ext. intros l. apply pick_blank.
    + clear. induction locs; simpl; [done|]. by f_equal.
  - destruct dim; done.
  - simpl. f_equal. rewrite !map_map. induction IH; simpl; [done|]. by f_equal.
Qed.
Lemma unnamed_slice locs v : unnamed (slice_val locs v) = slice_val locs (unnamed v).
Proof.
  induction v as [t data names|t dim data|n names cols IH] using value_ind'.
  - done.
  - destruct dim; done.
  - simpl. f_equal. rewrite !map_map. induction IH; simpl; [done|]. by f_equal.
Qed.

(** ** Equal rows make equal vectors *)
Lemma rows_eq locs a : forall b, value_ok a -> value_ok b -> agree a b -> proto_of a b ->
  (forall l, l ∈ locs -> slice_val [l] a = slice_val [l] b) -> slice_val locs a = slice_val locs b.
Proof.
  induction a as [t data names|t dim data|n names cols IH] using value_ind'; intros b Ha Hb Hag Hpo H.
  - inversion Hag as [? ? ? x nb E| |]; subst. simpl. f_equal.
    + apply map_ext_in. intros l Hl. apply elem_of_list_In in Hl. specialize (H l Hl). by injection H.
    + destruct names as [na|], nb as [nb|]; [|by destruct E as [_ E]; specialize (E eq_refl)|by destruct E as [E _]; specialize (E eq_refl)|done].
      f_equal. apply map_ext_in. intros l Hl. apply elem_of_list_In in Hl. specialize (H l Hl). by injection H.
  - inversion Hag as [|? d d' ds ? x|]; subst. simpl. f_equal. unfold shaped_out. apply flat_map_ext_in. intros e He.
    apply map_ext_in. intros l Hl. apply elem_of_list_In in Hl. specialize (H l Hl). simpl in H. injection H as H.
    assert (E : forall y d, chunk 1 e (shaped_out (vtype_na t) y d ds [l]) = [pick (vtype_na t) (chunk (Z.to_nat d) e y) l]).
    { intros y d0. apply in_seq in He. apply (shaped_out_chunk (vtype_na t) y d0 ds [l] e). lia. }
    pose proof (E data d) as E1. pose proof (E x d') as E2. rewrite H in E1. rewrite E1 in E2. by injection E2.
  - inversion Hag as [| |? ? ? m names' vcols Hc]; subst. inversion Hpo as [| |? ? ? ? ? Hp]; subst.
    apply value_ok_df in Ha as (_ & _ & _ & Ha). apply value_ok_df in Hb as (_ & _ & _ & Hb). simpl. f_equal. simpl in H.
    assert (H' : forall l, l ∈ locs -> map (slice_val [l]) cols = map (slice_val [l]) vcols).
    { intros l Hl. specialize (H l Hl). by injection H. }
    clear H Hag Hpo. induction Hc as [|c w cols ws Hcw Hc IHc]; [done|]. inversion Hp; subst.
    apply Forall_cons in IH as [I1 I2], Ha as [X X'], Hb as [V V'].
    simpl. rewrite (I1 w); try done; [f_equal; apply IHc; try done|]; intros l Hl; specialize (H' l Hl); by injection H'.
Qed.
Lemma all_rows_eq a b : value_ok a -> value_ok b -> agree a b -> proto_of a b -> value_size a = value_size b ->
  (forall l, in_rows (value_size a) l -> slice_val [l] a = slice_val [l] b) -> a = b.
Proof.
  intros Ha Hb Hag Hpo Hsz H. rewrite <- (slice_val_id a Ha), <- (slice_val_id b Hb), <- Hsz. apply rows_eq; try done.
  intros l Hl. apply H. pose proof (iota_ok (Z.to_nat (value_size a))) as Hi. rewrite Forall_forall in Hi. specialize (Hi l Hl).
  unfold in_rows. pose proof (value_size_range a Ha). lia.
Qed.

(** ** Sequences of assignments *)
Lemma agree_sym a : forall b, agree a b -> agree b a.
Proof.
  induction a as [t data names|t dim data|n names cols IH] using value_ind'; intros b H; inversion H; subst; constructor; [by symmetry|].
  clear H. match goal with H : Forall2 _ _ _ |- _ => induction H end; [constructor|]. apply Forall_cons in IH as [? ?]. constructor; auto.
Qed.
Lemma agree_trans a : forall b c, agree a b -> agree b c -> agree a c.
Proof.
  induction a as [t data names|t dim data|n names cols IH] using value_ind'; intros b c H H'.
  - inversion H as [? ? ? x nx E| |]; subst; inversion H' as [? ? ? y ny E'| |]; subst; constructor. by rewrite E.
  - inversion H; subst; inversion H'; subst; constructor.
  - inversion H as [| |? ? ? m ? bcols H1]; subst. inversion H' as [| |? ? ? m' ? ccols H2]; subst. constructor. clear H H'.
    revert ccols H2. induction H1; intros ccols H2; inversion H2; subst; [constructor|].
    apply Forall_cons in IH as [? ?]. constructor; eauto.
Qed.
Lemma agree_assign locs x : forall v, agree x v -> agree x (assign_valn locs x v).
Proof.
  induction x as [t data names|t dim data|n names cols IH] using value_ind'; intros v H.
  - inversion H as [? ? ? x nx E| |]; subst. simpl. constructor. destruct nx; simpl; [|done]. split; [|done].
    intros ->. by destruct E as [E _]; specialize (E eq_refl).
  - inversion H; subst. constructor.
  - inversion H as [| |? ? ? m ? bcols H1]; subst. rewrite assign_valn_df. constructor. clear H.
    induction H1; simpl; [constructor|]. apply Forall_cons in IH as [? ?]. constructor; auto.
Qed.
Lemma agree_type a : forall b, agree a b -> same_type a b.
Proof.
  induction a as [t data names|t dim data|n names cols IH] using value_ind'; intros b H; inversion H; subst; constructor.
  clear H. match goal with H : Forall2 _ _ _ |- _ => induction H end; [constructor|]. apply Forall_cons in IH as [? ?]. constructor; auto.
Qed.

Definition step_ok (c : value) (su : list Z * value) : Prop :=
  value_ok su.2 /\ proto_of c su.2 /\ value_size su.2 = Z.of_nat (length su.1) /\ Forall (loc_ok (value_size c)) su.1.
Definition place (c : value) (su : list Z * value) : value := assign_valn su.1 c su.2.
Definition places (c : value) (sus : list (list Z * value)) : value := fold_left place sus c.

Lemma place_step c su su' : step_ok c su -> step_ok c su' -> step_ok (place c su) su'.
Proof.
  intros (H1 & H2 & H3 & H4) (H1' & H2' & H3' & H4'). unfold step_ok, place. rewrite assign_valn_size. split; [done|]. split; [|done].
  eapply proto_trans; [|apply H2']. apply proto_sym, proto_assign; [|by apply proto_type].
  eapply proto_trans; [apply H2|]. by apply proto_sym.
Qed.
Lemma place_ok c su : value_ok c -> step_ok c su -> value_ok (place c su).
Proof. intros Hc (H1 & H2 & _). apply assign_valn_ok; [done|done|by apply proto_type]. Qed.
Lemma places_ok sus : forall c, value_ok c -> Forall (step_ok c) sus ->
  value_ok (places c sus) /\ value_size (places c sus) = value_size c /\ forall p, proto_of p c -> proto_of p (places c sus).
Proof.
  induction sus as [|su sus IH]; intros c Hc H; [done|]. apply Forall_cons in H as [H1 H2]. unfold places. simpl.
  destruct (IH (place c su)) as (A & B & C).
  - by apply place_ok.
  - eapply Forall_impl; [apply H2|]. intros. by apply place_step.
  - split; [done|]. split; [transitivity (value_size (place c su)); [exact B|apply assign_valn_size]|]. intros p Hp. apply C. apply proto_assign; [done|]. apply proto_type, H1.
Qed.
Lemma places_other sus l : forall c, value_ok c -> Forall (step_ok c) sus -> Forall (fun su => agree c su.2) sus ->
  l = NA_INTEGER \/ in_rows (value_size c) l -> (forall su, su ∈ sus -> l ∉ su.1) \/ l = NA_INTEGER ->
  slice_val [l] (places c sus) = slice_val [l] c.
Proof.
  induction sus as [|su sus IH]; intros c Hc H Hag Hr Ho; [done|]. pose proof H as Hall. apply Forall_cons in H as [H1 H2], Hag as [A1 A2].
  unfold places. simpl. fold (places (place c su) sus). rewrite IH.
  - destruct H1 as (Q1 & Q2 & Q3 & Q4). apply row_other; try done. destruct Ho as [Ho|]; [left|by right]. apply Ho. apply elem_of_cons; by left.
  - by apply place_ok.
  - eapply Forall_impl; [apply H2|]. intros. by apply place_step.
  - eapply Forall_impl; [apply A2|]. simpl. intros su' A'. eapply agree_trans; [|apply A']. apply agree_sym. by apply agree_assign.
  - unfold place. by rewrite assign_valn_size.
  - destruct Ho as [Ho|]; [left|by right]. intros su' Hs. apply Ho. apply elem_of_cons; by right.
Qed.
Lemma places_here sus : forall c i su k l, value_ok c -> Forall (step_ok c) sus -> Forall (fun su => agree c su.2) sus ->
  sus !! i = Some su -> su.1 !! k = Some l -> l <> NA_INTEGER ->
  (forall k', k < k' -> su.1 !! k' <> Some l) -> (forall i' su', i < i' -> sus !! i' = Some su' -> l ∉ su'.1) ->
  slice_val [l] (places c sus) = slice_val [Z.of_nat k + 1]%Z su.2.
Proof.
  induction sus as [|s sus IH]; intros c i su k l Hc H Hag Hi Hk Hna Hl1 Hl2; [done|].
  apply Forall_cons in H as [H1 H2], Hag as [A1 A2].
  assert (Hs' : Forall (step_ok (place c s)) sus) by (eapply Forall_impl; [apply H2|]; intros; by apply place_step).
  assert (Ha' : Forall (fun su => agree (place c s) su.2) sus).
  { eapply Forall_impl; [apply A2|]. simpl. intros su' A'. eapply agree_trans; [|apply A']. apply agree_sym. by apply agree_assign. }
  assert (Hok : value_ok (place c s)) by (by apply place_ok).
  unfold places. simpl. fold (places (place c s) sus). destruct i as [|i]; simpl in Hi.
  - injection Hi as ->. pose proof H1 as (Q1 & Q2 & Q3 & Q4).
    assert (Hin : in_rows (value_size c) l).
    { rewrite Forall_forall in Q4. destruct (Q4 l) as [|Hr]; [by eapply elem_of_list_lookup_2|done|done]. }
    rewrite places_other; try done.
    + by apply row_here.
    + right. unfold place. by rewrite assign_valn_size.
    + left. intros su' Hs. apply elem_of_list_lookup in Hs as (i' & Hi'). apply (Hl2 (S i')); [lia|done].
  - eapply IH; try done. intros i' su' Hlt Hi'. apply (Hl2 (S i')); [lia|done].
Qed.
Definition unnamed_step (su : list Z * value) := (su.1, unnamed su.2).
Definition full_step (su : list Z * value) := (su.1, full su.2).
Lemma places_unnamed sus : forall c, unnamed (places c sus) = places (unnamed c) (map unnamed_step sus).
Proof. induction sus as [|su sus IH]; intros c; [done|]. unfold places in *. simpl. rewrite IH. f_equal. unfold place. apply unnamed_assign. Qed.
Lemma step_unnamed c su : step_ok c su -> step_ok (unnamed c) (unnamed_step su) /\ agree (unnamed c) (unnamed_step su).2.
Proof.
  intros (H1 & H2 & H3 & H4). split.
  - split; [by apply unnamed_ok|]. split; [by apply proto_unnamed|]. simpl. by rewrite !unnamed_size.
  - apply agree_unnamed. by apply proto_type.
Qed.
Lemma step_full c su : step_ok c su -> step_ok (full c) (full_step su) /\ agree (full c) (full_step su).2.
Proof.
  intros (H1 & H2 & H3 & H4). split.
  - split; [by apply full_ok|]. split; [by apply proto_full|]. simpl. by rewrite !full_size.
  - apply agree_full. by apply proto_type.
Qed.
Definition blank (c : value) (l : Z) : Prop := slice_val [l] (full c) = slice_val [NA_INTEGER] (full c).
Lemma places_full sus : forall c, value_ok c -> Forall (step_ok c) sus -> no_overlap (map fst sus) ->
  (forall su l, su ∈ sus -> l ∈ su.1 -> l <> NA_INTEGER -> blank c l) ->
  full (places c sus) = places (full c) (map full_step sus).
Proof.
  induction sus as [|su sus IH]; intros c Hc H Hno Hb; [done|]. apply Forall_cons in H as [H1 H2].
  unfold places. simpl. fold (places (place c su) sus) (places (place (full c) (full_step su)) (map full_step sus)).
  pose proof H1 as (Q1 & Q2 & Q3 & Q4).
  assert (E : full (place c su) = place (full c) (full_step su)).
  { unfold place. simpl. apply full_assign; try done; [by apply proto_type|]. intros l Hl Hna. apply (Hb su); [apply elem_of_cons; by left|done|done]. }
  rewrite <- E. unfold no_overlap in Hno. simpl in Hno. rewrite filter_app in Hno. apply NoDup_app in Hno as (N1 & N2 & N3).
  apply IH.
  - by apply place_ok.
  - eapply Forall_impl; [apply H2|]. intros. by apply place_step.
  - done.
  - intros su' l Hsu Hl Hna. unfold blank. rewrite E. destruct (step_full c su H1) as [(W1 & W2 & W3 & W4) A1].
    assert (Hni : l ∉ su.1).
    { intros Hin. apply (N2 l); [by apply elem_of_list_filter|]. apply elem_of_list_filter. split; [done|].
      apply elem_of_list_In, in_concat. exists su'.1. split; [|by apply elem_of_list_In]. apply in_map. by apply elem_of_list_In. }
    rewrite Forall_forall in H2. destruct (H2 su' Hsu) as (_ & _ & _ & L2). rewrite Forall_forall in L2.
    unfold place. rewrite !row_other; try done.
    + apply (Hb su'); [apply elem_of_cons; by right|done|done].
    + by apply full_ok.
    + by left.
    + by right.
    + by apply full_ok.
    + rewrite full_size. by apply L2.
    + by left.
Qed.
