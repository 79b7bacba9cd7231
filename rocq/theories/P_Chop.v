(** * Properties: chopping, combining and interleaving (C25, C26) *)
From Verif Require Import Base M_Double M_Scalar M_Object M_Proxy M_Growable M_Slice Spec_Slice M_Rep Spec_Rep M_Subscript Spec_Subscript M_Chop Spec_Chop
  L_Slice L_SliceArray L_Assign L_Value L_SliceVal L_Rep L_Recycle L_Chop L_Chop2 L_Chop3.
From Coq Require Import Lia ZifyBool ZifyNat.
#[local] Arguments Z.mul : simpl never.
#[local] Arguments Z.add : simpl never.
#[local] Arguments Z.sub : simpl never.
#[local] Arguments Z.max : simpl never.

Definition int_indices (locss : list (list Z)) : list index := map (fun l => IInt (l, None)) locss.

(** ** Chopping *)
Lemma first_bad {A} (P : A -> Prop) (l : list A) : (forall x, Decision (P x)) -> ~ Forall P l ->
  exists k, k < length l /\ (forall j x, j < k -> l !! j = Some x -> P x) /\ forall x, l !! k = Some x -> ~ P x.
Proof.
  intros D Hbad. induction l as [|a l IH]; [by destruct Hbad|]. destruct (D a) as [Ha|Ha].
  - destruct IH as (k & Hk & Hlt & Hat); [intros H; apply Hbad; by constructor|]. exists (S k). split; [simpl; lia|]. split.
    + intros [|j] x Hj Hx; [by injection Hx as <-|]. apply (Hlt j); [lia|done].
    + intros x Hx. by apply Hat.
  - exists 0. split; [simpl; lia|]. split; [lia|]. intros x Hx. by injection Hx as <-.
Qed.
Lemma list_as_locations_err (locss : list (list Z)) (n : nat) : (Z.of_nat n <= INT_MAX)%Z -> Forall (Forall is_int) locss ->
  ~ Forall (Forall (loc_ok (Z.of_nat n))) locss -> exists e, list_as_locations (int_indices locss) (Z.of_nat n) = Err e.
Proof.
  intros Hn Hi Hbad.
  destruct (first_bad (Forall (loc_ok (Z.of_nat n))) locss) as (k & Hk & Hlt & Hat); [|done|].
  { intros l. apply Forall_dec. intros e. unfold loc_ok. apply _. }
  unfold list_as_locations, int_indices. rewrite map_length.
  apply (for_err (fun j out => True) _ _ _ k); [done|done| |].
  - intros j out Hj _. destruct (lookup_lt_is_Some_2 locss j) as [l Hl]; [lia|].
    rewrite (rd_at _ j (IInt (l, None))) by (rewrite list_lookup_fmap, Hl; done). cbn [bind].
    rewrite (proj1 (index_int_spec l None n ltac:(by eapply Forall_lookup_1) ltac:(done) Hn) (Hlt _ _ Hj Hl)). cbn [bind]. eauto.
  - intros out _. destruct (lookup_lt_is_Some_2 locss k) as [l Hl]; [lia|].
    rewrite (rd_at _ k (IInt (l, None))) by (rewrite list_lookup_fmap, Hl; done). cbn [bind].
    destruct (proj2 (index_int_spec l None n ltac:(by eapply Forall_lookup_1) ltac:(done) Hn) (Hat _ Hl)) as [e ->]. cbn [bind]. eauto.
Qed.

(** [vec_chop(x, indices)] is the list of slices, or an error when a location is
    out of bounds, negative or zero. *)
Theorem C25_chop_indices x locss : value_ok x -> Forall (Forall is_int) locss ->
  (Forall (Forall (loc_ok (value_size x))) locss ->
    exists out, vec_chop x (Some (int_indices locss)) None = Ok out /\ Forall2 (fun loc piece => sliced loc x piece) locss out) /\
  (~ Forall (Forall (loc_ok (value_size x))) locss -> exists e, vec_chop x (Some (int_indices locss)) None = Err e).
Proof.
  intros Hx Hi. pose proof (value_size_range x Hx) as Hr.
  assert (En : value_size x = Z.of_nat (Z.to_nat (value_size x))) by lia. split; intros H.
  - exists (map (fun loc => slice_val loc x) locss). split.
    + unfold vec_chop. rewrite (list_as_locations_ok _ _ locss).
      2:{ unfold int_indices. apply Forall2_fmap_l. apply Forall2_same_length_lookup. split; [done|]. intros i a b Ha Hb. rewrite Ha in Hb. injection Hb as <-.
          rewrite Forall_forall in Hi, H. apply elem_of_list_lookup_2 in Ha. cbn beta. rewrite En in H |- *.
          apply (index_int_spec a None); [by apply Hi|done|lia|by apply H]. }
      cbn [bind]. rewrite vec_chop_unsafe_spec; [|done|].
      * cbn [chop_subs]. rewrite map_map. done.
      * split; [done|]. cbn [chop_subs]. apply Forall_map. eapply Forall_impl; [apply H|]. intros l Hl. simpl. split; [done|done].
    + apply Forall2_fmap_r. apply Forall2_same_length_lookup. split; [done|]. intros i a b Ha Hb. rewrite Ha in Hb. injection Hb as <-.
      by apply sliced_slice_val.
  - unfold vec_chop. rewrite En in *. destruct (list_as_locations_err locss (Z.to_nat (value_size x))) as [e E]; [lia|done|done|].
    exists e. by rewrite E.
Qed.
Example C25_chop_indices_ex :
  let x := VDf 3 [Some [120]; Some [121]]%Z [VVec TInt [EInt 5; EInt 6; EInt 7]%Z (Some [Some [97]; None; Some [99]]%Z);
                                             VArr TLgl [3; 2]%Z [ELgl 1; ELgl 0; ELgl NA_LOGICAL; ELgl 0; ELgl 1; ELgl 1]%Z] in
  vec_chop x (Some (int_indices [[3; 1]; []; [NA_INTEGER]]%Z)) None = Ok [
    VDf 2 [Some [120]; Some [121]]%Z [VVec TInt [EInt 7; EInt 5]%Z (Some [Some [99]; Some [97]]%Z); VArr TLgl [2; 2]%Z [ELgl NA_LOGICAL; ELgl 1; ELgl 1; ELgl 0]%Z];
    VDf 0 [Some [120]; Some [121]]%Z [VVec TInt [] (Some []); VArr TLgl [0; 2]%Z []];
    VDf 1 [Some [120]; Some [121]]%Z [VVec TInt [EInt NA_INTEGER] (Some [empty_str]); VArr TLgl [1; 2]%Z [ELgl NA_LOGICAL; ELgl NA_LOGICAL]]] /\
  (exists e, vec_chop x (Some (int_indices [[1]; [4]]%Z)) None = Err e).
Proof. split; [vm_compute; reflexivity|]. eexists. vm_compute. reflexivity. Qed.

(** [vec_chop(x, sizes = sizes)] cuts [x] in consecutive pieces; the sizes must be
    non-missing, non-negative and sum to the size. *)
Definition sizes_valid (n : Z) (sizes : list Z) : Prop := Forall (fun s => s <> NA_INTEGER /\ 0 <= s)%Z sizes /\ total sizes = n.
Lemma chop_sizes_spec sizes n : (0 <= n)%Z ->
  (sizes_valid n sizes -> vec_as_chop_sizes sizes n = Ok sizes) /\
  (~ sizes_valid n sizes -> exists e, vec_as_chop_sizes sizes n = Err e).
Proof.
  intros Hn. unfold vec_as_chop_sizes.
  assert (D : forall e, Decision (e <> NA_INTEGER /\ 0 <= e <= n)%Z) by (intros e; apply _).
  destruct (Forall_dec (fun e => e <> NA_INTEGER /\ 0 <= e <= n)%Z sizes) as [Hall|Hall].
  - destruct (for_inv (fun i t => t = total (take i sizes)) 0 (length sizes) (fun i total =>
      let! elt := rd sizes i in
      if (elt =? NA_INTEGER)%Z then Err "`sizes` can't contain missing values."
      else if (elt <? 0)%Z then Err "`sizes` can't contain negative sizes."
      else if (n <? elt)%Z then Err "`sizes` can't contain sizes larger than the size."
      else Ok (total + elt)%Z) 0%Z) as (t & -> & ->).
    + done.
    + intros i t Hi ->. destruct (lookup_lt_is_Some_2 sizes i) as [e He]; [lia|]. rewrite (rd_at _ _ _ He). cbn [bind].
      eapply Forall_lookup_1 in Hall; [|done]. simpl in Hall. destruct (Z.eqb_spec e NA_INTEGER); [lia|].
      destruct (Z.ltb_spec e 0); [lia|]. destruct (Z.ltb_spec n e); [lia|]. eexists. split; [done|].
      rewrite (take_S_r _ _ _ He), total_app. unfold total. simpl. lia.
    + simpl. rewrite take_ge by lia. cbn [bind]. destruct (Z.eqb_spec (total sizes) n) as [E|E]; cbn [negb].
      * split; [done|]. intros Hno. exfalso. apply Hno. split; [|done]. eapply Forall_impl; [apply Hall|]. simpl. intros; lia.
      * split; [intros [_ ?]; done|]. eauto.
  - split.
    + intros [H1 H2]. exfalso. apply Hall. apply Forall_lookup. intros i e He.
      assert (Hnn : Forall (fun s => 0 <= s)%Z sizes) by (eapply Forall_impl; [apply H1|]; simpl; intros; lia).
      pose proof (total_take_le sizes i Hnn) as T1. pose proof (total_take_le sizes (S i) Hnn) as T2.
      rewrite (take_S_r _ _ _ He), total_app in T2. replace (total [e]) with e in T2 by (unfold total; simpl; lia).
      eapply Forall_lookup_1 in H1; [|done]. simpl in H1. lia.
    + intros _. destruct (first_bad _ sizes D Hall) as (k & Hk & Hlt & Hat).
      match goal with |- exists e, bind ?m _ = _ => assert (exists e, m = Err e) as [e ->]; [|by exists e] end.
      apply (for_err (fun _ _ => True) _ _ _ k); [done|done| |].
      * intros i t Hi _. destruct (lookup_lt_is_Some_2 sizes i) as [e He]; [lia|]. rewrite (rd_at _ _ _ He). cbn [bind].
        specialize (Hlt _ _ Hi He). simpl in Hlt. destruct (Z.eqb_spec e NA_INTEGER); [lia|].
        destruct (Z.ltb_spec e 0); [lia|]. destruct (Z.ltb_spec n e); [lia|]. eauto.
      * intros t _. destruct (lookup_lt_is_Some_2 sizes k) as [e He]; [lia|]. rewrite (rd_at _ _ _ He). cbn [bind].
        specialize (Hat _ He). simpl in Hat. destruct (Z.eqb_spec e NA_INTEGER); [by eauto|].
        destruct (Z.ltb_spec e 0); [by eauto|]. destruct (Z.ltb_spec n e); [by eauto|]. lia.
Qed.
Theorem C25_chop_sizes x sizes : value_ok x -> Forall is_int sizes ->
  (sizes_valid (value_size x) sizes ->
    exists out, vec_chop x None (Some sizes) = Ok out /\ Forall2 (fun loc piece => sliced loc x piece) (size_blocks 0 sizes) out) /\
  (~ sizes_valid (value_size x) sizes -> exists e, vec_chop x None (Some sizes) = Err e).
Proof.
  intros Hx Hi. pose proof (value_size_range x Hx) as Hr. destruct (chop_sizes_spec sizes (value_size x)) as [H1 H2]; [lia|]. split; intros H.
  - assert (Hnn : Forall (fun s => 0 <= s)%Z sizes) by (eapply Forall_impl; [apply H|]; simpl; intros; lia).
    exists (map (fun s => slice_val (expand s) x) (chop_subs (CSizes sizes) (value_size x))). split.
    + unfold vec_chop. rewrite (H1 H). cbn [bind]. apply vec_chop_unsafe_spec; [done|]. split.
      * split; [done|]. destruct H as [_ ->]. lia.
      * cbn [chop_subs]. apply Forall_lookup. intros i s Hs. rewrite list_lookup_imap in Hs. destruct (sizes !! i) as [e|] eqn:He; [|done].
        injection Hs as <-. split; [|done]. destruct H as [_ Ht]. eapply size_sub_ok; [done| |lia|done]. lia.
    + rewrite <- (size_subs_blocks sizes (value_size x)). apply Forall2_fmap_l, Forall2_fmap_r. apply Forall2_same_length_lookup. split; [done|].
      intros i a b Ha Hb. rewrite Ha in Hb. injection Hb as <-. by apply sliced_slice_val.
  - destruct (H2 H) as [e E]. exists e. unfold vec_chop. by rewrite E.
Qed.
Example C25_chop_sizes_ex :
  let x := VVec TDbl [EDbl 4617315517961601025; EDbl 4617315517961601026; EDbl 4617315517961601027]%Z None in
  vec_chop x None (Some [1; 0; 2]%Z) = Ok [VVec TDbl [EDbl 4617315517961601025]%Z None; VVec TDbl [] None; VVec TDbl [EDbl 4617315517961601026; EDbl 4617315517961601027]%Z None] /\
  (exists e, vec_chop x None (Some [1; 1]%Z) = Err e) /\ (exists e, vec_chop x None (Some [4; -1]%Z) = Err e) /\
  (exists e, vec_chop x (Some []) (Some [3]%Z) = Err e).
Proof. split; [vm_compute; reflexivity|]. split; [eexists; vm_compute; reflexivity|]. split; eexists; vm_compute; reflexivity. Qed.
(** Without indices or sizes, every element is a piece. *)
Theorem C25_chop_elements x : value_ok x ->
  exists out, vec_chop x None None = Ok out /\
    Forall2 (fun i piece => sliced [i] x piece) (all_locs_of (Z.to_nat (value_size x))) out.
Proof.
  intros Hx. pose proof (value_size_range x Hx) as Hr. eexists. split.
  - unfold vec_chop. apply vec_chop_unsafe_spec; [done|]. split; [done|]. cbn [chop_subs]. apply Forall_map, Forall_forall. intros k Hk.
    apply elem_of_seq in Hk. split; [|done]. split; [|done]. simpl. apply Forall_singleton. right. lia.
  - cbn [chop_subs]. rewrite map_map. unfold all_locs_of. apply Forall2_fmap_l, Forall2_fmap_r. apply Forall2_same_length_lookup. split; [done|].
    intros i a b Ha Hb. rewrite Ha in Hb. injection Hb as <-. simpl. 
    apply sliced_slice_val. done.
Qed.
Example C25_chop_elements_ex :
  vec_chop (VVec TInt [EInt 5; EInt 6]%Z (Some [Some [97]; None]%Z)) None None =
    Ok [VVec TInt [EInt 5]%Z (Some [Some [97]]%Z); VVec TInt [EInt 6]%Z (Some [None])].
Proof. vm_compute. reflexivity. Qed.

(** ** Unchopping *)
(** An input of [list_unchop()] for a block of [n] locations: it has that size or
    size one, and the cast of the recycled input to [p] succeeds. *)
Definition unchop_ok (cast : value -> res value) (p : value) (n : Z) (x : option value) : Prop :=
  match x with
  | None => True
  | Some v => value_ok v /\ (value_size v = n \/ value_size v = 1%Z) /\
      forall r, recycled n (Some v) (Some r) -> exists w, cast r = Ok w /\ prepared p r w
  end.
Lemma good_sources {A} (p : value) (R : A -> source -> Prop) l ys : Forall2 (fun a y => R a y /\ good_source p y) l ys ->
  forall r w, Some (r, w) ∈ ys -> prepared p r w.
Proof.
  intros H r w Hin. apply elem_of_list_lookup in Hin as [i Hi]. destruct (Forall2_lookup_r _ _ _ _ _ H Hi) as (a & _ & _ & Hg). done.
Qed.
Lemma Forall2_weaken {A} (p : value) (R : A -> source -> Prop) l ys : Forall2 (fun a y => R a y /\ good_source p y) l ys -> Forall2 R l ys.
Proof. intros H. eapply Forall2_impl; [apply H|]. by intros ? ? [? _]. Qed.

(** [list_unchop(xs, indices)] puts each input, recycled and cast, at its
    locations: later inputs win; with no overlap the names go along; locations
    not mentioned are missing. *)
Theorem C25_unchop cast p xs locss : value_ok p -> length xs = length locss -> Forall (Forall is_int) locss ->
  (Z.of_nat (length (concat locss)) <= INT_MAX)%Z ->
  Forall (Forall (loc_ok (Z.of_nat (length (concat locss))))) locss ->
  shape_fits (Z.of_nat (length (concat locss))) p ->
  Forall2 (fun x loc => unchop_ok cast p (Z.of_nat (length loc)) x) xs locss ->
  exists ys out,
    Forall2 (fun '(x, loc) y => ready cast (Z.of_nat (length loc)) x y) (zip xs locss) ys /\
    list_unchop cast (Some p) xs (int_indices locss) = Ok (Some out) /\
    value_ok out /\ proto_of p out /\ value_size out = Z.of_nat (length (concat locss)) /\
    placed_last locss ys out /\ others_missing unnamed locss ys p out /\
    (no_overlap locss -> placed_named locss ys out /\ others_missing full locss ys p out).
Proof.
  intros Hp Hl Hi HN Hloc Hf Hin.
  destruct (unchop_spec cast p xs locss Hp Hl Hi HN Hloc Hf Hin) as (ys & sus & H1 & H2 & H3 & H4).
  assert (H1' : Forall2 (fun a y => (fun '(x, loc) y => ready cast (Z.of_nat (length loc)) x y) a y /\ good_source p y) (zip xs locss) ys).
  { eapply Forall2_impl; [apply H1|]. by intros [? ?] ?. }
  pose proof (good_sources _ _ _ _ H1') as Hg.
  eexists ys, _. split; [by eapply Forall2_weaken|]. split; [apply H4|].
  destruct (result_base p _ sus Hp HN Hf H2) as (R1 & R2 & R3).
  split; [exact R1|]. split; [exact R3|]. split; [exact R2|].
  split; [by apply (result_last p _ locss ys sus)|]. split; [by apply (result_missing p _ locss ys sus)|].
  intros Hno. split; [by apply (result_named p _ locss ys sus)|by apply (result_missing_full p _ locss ys sus)].
Qed.
(** Locations out of bounds, or lists of different sizes, are errors. *)
Theorem C25_unchop_bounds cast p xs locss : length xs = length locss -> Forall (Forall is_int) locss ->
  (Z.of_nat (length (concat locss)) <= INT_MAX)%Z ->
  ~ Forall (Forall (loc_ok (Z.of_nat (length (concat locss))))) locss ->
  exists e, list_unchop cast (Some p) xs (int_indices locss) = Err e.
Proof.
  intros Hl Hi HN Hloc. unfold list_unchop, int_indices. rewrite map_length, Hl, Nat.eqb_refl. cbn [negb]. rewrite unchop_size_spec. cbn [bind].
  destruct (list_as_locations_err locss (length (concat locss)) HN Hi Hloc) as [e E]. unfold int_indices in E. rewrite E. by exists e.
Qed.
Example C25_unchop_ex :
  let p := VVec TInt [] None in
  let xs := [Some (VVec TInt [EInt 5; EInt 6]%Z (Some [Some [97]; Some [98]]%Z)); None; Some (VVec TInt [EInt 7]%Z None)] in
  list_unchop Ok (Some p) xs (int_indices [[4; 1]; [5]; [2; 4]]%Z) =
    Ok (Some (VVec TInt [EInt 6; EInt 7; EInt NA_INTEGER; EInt 7; EInt NA_INTEGER] (Some [Some [98]; empty_str; empty_str; Some [97]; empty_str]%Z))) /\
  Forall2 (fun x loc => unchop_ok Ok p (Z.of_nat (length loc)) x) xs [[4; 1]; [5]; [2; 4]]%Z.
Proof.
  split; [vm_compute; reflexivity|]. constructor; [|constructor; [done|constructor; [|constructor]]].
  - split; [repeat constructor; done|]. split; [by left|]. intros r (w & E & [[_ ->]|[? _]]); [|done]. injection E as ->.
    eexists. split; [done|]. split; [repeat constructor; done|]. split; [repeat constructor; done|]. split; [constructor|done].
  - split; [repeat constructor; done|]. split; [by right|]. intros r (w & E & [[? _]|(_ & _ & H)]); [done|]. injection E as ->.
    inversion H; subst. eexists. split; [done|]. split; [repeat constructor; done|]. split; [repeat constructor; done|]. split; [constructor|done].
Qed.

(** ** Round trips *)
Lemma partition_facts n locss : (Z.of_nat n <= INT_MAX)%Z -> partition n locss ->
  length (concat locss) = n /\ Forall (Forall (loc_ok (Z.of_nat n))) locss /\ Forall (Forall is_int) locss /\ no_overlap locss /\
  forall l, in_rows (Z.of_nat n) l -> exists i loc k, locss !! i = Some loc /\ loc !! k = Some l.
Proof.
  intros Hn H. unfold partition in H. split; [rewrite H; unfold all_locs_of; by rewrite map_length, seq_length|].
  assert (Hin : forall l, l ∈ concat locss <-> in_rows (Z.of_nat n) l).
  { intros l. rewrite H. unfold all_locs_of, in_rows. rewrite elem_of_list_fmap. split.
    - intros (k & -> & Hk). apply elem_of_seq in Hk. lia.
    - intros Hl. exists (Z.to_nat (l - 1)). split; [lia|]. apply elem_of_seq. lia. }
  assert (Hall : forall loc l, loc ∈ locss -> l ∈ loc -> in_rows (Z.of_nat n) l).
  { intros loc l H1 H2. apply Hin. apply elem_of_list_In, in_concat. exists loc. split; by apply elem_of_list_In. }
  split; [|split; [|split]].
  - apply Forall_forall. intros loc H1. apply Forall_forall. intros l H2. right. apply (Hall loc l H1 H2).
  - apply Forall_forall. intros loc H1. apply Forall_forall. intros l H2. pose proof (Hall loc l H1 H2) as H3. unfold in_rows in H3.
    unfold is_int, INT_MIN. lia.
  - unfold no_overlap. apply NoDup_filter. rewrite H. unfold all_locs_of. apply NoDup_fmap_2; [intros a b; lia|]. apply NoDup_seq.
  - intros l Hl. apply Hin in Hl. apply elem_of_list_In, in_concat in Hl as (loc & H1 & H2).
    apply elem_of_list_In, elem_of_list_lookup in H1 as [i H1]. apply elem_of_list_In, elem_of_list_lookup in H2 as [k H2]. eauto.
Qed.
Lemma piece_ok x loc : value_ok x -> (Z.of_nat (length loc) <= value_size x)%Z -> value_ok (slice_val loc x).
Proof.
  intros Hx Hl. pose proof (value_size_range x Hx). apply slice_val_ok; [done|lia|]. apply (shape_fits_le (value_size x)); [done|]. by apply shape_fits_self.
Qed.
Lemma piece_prepared p x loc : value_ok x -> proto_of p x -> (Z.of_nat (length loc) <= value_size x)%Z ->
  prepared p (slice_val loc x) (slice_val loc x).
Proof.
  intros Hx Hp Hl. pose proof (piece_ok x loc Hx Hl). split; [done|]. split; [done|]. split; [|split; [done|]].
  - eapply proto_trans; [apply Hp|]. by apply proto_slice.
  - destruct x as [| ? [|? ?] ?|]; done.
Qed.
Lemma block_length (locss : list (list Z)) i loc : locss !! i = Some loc -> length loc <= length (concat locss).
Proof.
  revert i. induction locss as [|a l IH]; intros i Hl; [done|]. simpl. rewrite app_length. destruct i; [injection Hl as ->; lia|]. specialize (IH _ Hl). lia.
Qed.
Lemma recycled_same n v r : value_size v = n -> recycled n (Some v) (Some r) -> r = v.
Proof. intros Hn (w & E & [[_ ->]|(H1 & H2 & _)]); [by injection E as ->|]. congruence. Qed.

(** [list_unchop(vec_chop(x, indices), indices)] is [x], up to name repair: missing
    names become empty, and absent names may become empty. *)
Theorem C25_unchop_chop cast p x locss : value_ok x -> value_ok p -> proto_of p x -> shape_fits (value_size x) p ->
  partition (Z.to_nat (value_size x)) locss ->
  exists pieces, vec_chop x (Some (int_indices locss)) None = Ok pieces /\
    ((forall piece, piece ∈ pieces -> cast piece = Ok piece) ->
     exists out, list_unchop cast (Some p) (map Some pieces) (int_indices locss) = Ok (Some out) /\
       full out = full (with_names (no_na_names (top_names x)) x) /\
       (top_names p = None -> match x with VVec _ _ _ => True | _ => False end -> locss <> [] ->
          out = with_names (no_na_names (top_names x)) x)).
Proof.
  intros Hx Hp Hpx Hf Hpart. pose proof (value_size_range x Hx) as Hr.
  set (N := Z.to_nat (value_size x)) in *. assert (EN : value_size x = Z.of_nat N) by lia.
  destruct (partition_facts N locss ltac:(lia) Hpart) as (F1 & F2 & F3 & F4 & F5).
  exists (map (fun loc => slice_val loc x) locss). split.
  { unfold vec_chop. rewrite (list_as_locations_ok _ _ locss).
    2:{ unfold int_indices. apply Forall2_fmap_l. apply Forall2_same_length_lookup. split; [done|]. intros i a b Ha Hb. rewrite Ha in Hb. injection Hb as <-.
        rewrite Forall_forall in F2, F3. apply elem_of_list_lookup_2 in Ha. cbn beta. rewrite EN.
        apply (index_int_spec a None); [by apply F3|done|lia|by apply F2]. }
    cbn [bind]. rewrite vec_chop_unsafe_spec; [|done|].
    - cbn [chop_subs]. rewrite map_map. done.
    - split; [done|]. cbn [chop_subs]. apply Forall_map. rewrite EN. eapply Forall_impl; [apply F2|]. intros l Hl. simpl. split; [done|done]. }
  intros Hcast. rewrite EN in Hf. rewrite map_map.
  assert (Hlen : forall i loc, locss !! i = Some loc -> (Z.of_nat (length loc) <= value_size x)%Z).
  { intros i loc Hl. apply block_length in Hl. lia. }
  destruct (unchop_spec cast p (map (fun loc => Some (slice_val loc x)) locss) locss) as (ys & sus & H1 & H2 & H3 & H4); try done.
  - by rewrite map_length.
  - lia.
  - by rewrite F1.
  - by rewrite F1.
  - apply Forall2_fmap_l, Forall2_same_length_lookup. split; [done|]. intros i a b Ha Hb. rewrite Ha in Hb. injection Hb as <-.
    assert (Hs : value_size (slice_val a x) = Z.of_nat (length a)) by (by rewrite slice_val_size).
    split; [by eapply piece_ok, Hlen|]. split; [by left|]. intros r Hrec. apply recycled_same in Hrec; [|done]. subst r.
    eexists. split; [apply Hcast; apply elem_of_list_fmap; exists a; split; [done|by eapply elem_of_list_lookup_2]|]. by eapply piece_prepared, Hlen.
  - rewrite F1 in H2, H4.
    assert (Hys : ys = map (fun loc => Some (slice_val loc x, slice_val loc x)) locss).
    { apply list_eq. intros i. rewrite list_lookup_fmap. pose proof (Forall2_length _ _ _ H1) as L. rewrite zip_with_length, map_length in L.
      destruct (locss !! i) as [loc|] eqn:Hl; simpl.
      - destruct (Forall2_lookup_l _ _ _ i (Some (slice_val loc x), loc) H1) as (y & Hy & Hrd & _).
        { rewrite lookup_zip_with, list_lookup_fmap, Hl. done. }
        rewrite Hy. destruct Hrd as (r & w & -> & Hrec & Hc). apply recycled_same in Hrec; [|by rewrite slice_val_size]. subst r.
        rewrite Hcast in Hc; [injection Hc as <-; done|]. apply elem_of_list_fmap. exists loc. split; [done|]. by eapply elem_of_list_lookup_2.
      - apply lookup_ge_None_2. apply lookup_ge_None_1 in Hl. lia. }
    assert (Hg : forall r w, Some (r, w) ∈ ys -> prepared p r w).
    { intros r w Hin. apply elem_of_list_lookup in Hin as [i Hi]. destruct (Forall2_lookup_r _ _ _ _ _ H1 Hi) as ([a b] & _ & _ & Hg). done. }
    eexists. split; [apply H4|].
    assert (Hback : full (finish_names (with_names (top_names (start_val p N)) (places (strip (start_val p N)) sus)) (top_names (places (strip (start_val p N)) sus)))
      = full (tidy x)).
    { apply (result_back p N locss ys sus); [done|lia|done|done|done|done|done|done|done|done|].
      intros l Hl. destruct (F5 l Hl) as (i & loc & k & A & B). exists i, loc, k. split; [done|]. split; [done|].
      split; [rewrite Forall_forall in F2; apply F2; by eapply elem_of_list_lookup_2|]. subst ys. by rewrite list_lookup_fmap, A. }
    split; [exact Hback|]. intros Hpn Hv Hne. assert (Etidy := out_tidy p N ys sus Hp ltac:(lia) Hf H2 Hg Hpn). cbv zeta in Etidy. rewrite Etidy in Hback |- *.
    destruct x as [t data nm| |]; try done. assert (exists a na, p = VVec t a na) as (a & na & ->) by (inversion Hpx; subst; eauto).
    assert (Hn : has_names (places (strip (start_val (VVec t a na) N)) sus) = has_names (VVec t data nm)).
    { rewrite places_names; [|done|].
      - change (has_names (strip (start_val (VVec t a na) N))) with false. cbn [orb].
        assert (Hs0 : forall su, su ∈ sus -> has_names su.2 = has_names (VVec t data nm)).
        { intros su Hsu. apply elem_of_list_lookup in Hsu as [i Hsu]. destruct H3 as (L1 & L2 & H3).
          assert (i < length sus) by (apply lookup_lt_is_Some; eauto). destruct (lookup_lt_is_Some_2 locss i) as [loc Hl]; [lia|].
          specialize (H3 i loc (Some (slice_val loc (VVec t data nm), slice_val loc (VVec t data nm))) su Hl). rewrite H3; [|subst ys; by rewrite list_lookup_fmap, Hl|done].
          simpl. unfold has_names. simpl. by destruct nm. }
        destruct sus as [|su sus'].
        + destruct H3 as (L1 & L2 & _). destruct locss; [done|]. simpl in *. lia.
        + destruct (has_names (VVec t data nm)) eqn:Eh.
          * apply existsb_exists. exists su. split; [by left|]. apply Hs0. apply elem_of_list_here.
          * apply not_true_is_false. intros He. apply existsb_exists in He as (su' & Hin & He). rewrite Hs0 in He; [done|]. by apply elem_of_list_In.
      - eapply Forall_impl; [apply H2|]. intros su (_ & Q & _). simpl in Q. inversion Q as [? ? ? ? ? E1 E2| |]. done. }
    destruct (c_ok (VVec t a na) N sus Hp ltac:(lia) Hf H2) as (_ & _ & Hc). set (c := places _ sus) in *.
    inversion Hc as [? ? ? d' nm' E1 E2| |]; subst. rewrite <- E2 in *. unfold tidy in *. simpl in *. injection Hback as E3 E4. subst d'.
    unfold has_names in Hn. simpl in Hn. destruct nm', nm; try done. simpl in *. by f_equal; f_equal.
Qed.
Example C25_unchop_chop_ex :
  let x := VVec TInt [EInt 5; EInt 6; EInt 7]%Z (Some [Some [97]; None; Some [99]]%Z) in
  partition 3 [[2]; [3; 1]; []]%Z /\
  (let! pieces := vec_chop x (Some (int_indices [[2]; [3; 1]; []]%Z)) None in
   list_unchop Ok (Some (VVec TInt [] None)) (map Some pieces) (int_indices [[2]; [3; 1]; []]%Z)) =
    Ok (Some (VVec TInt [EInt 5; EInt 6; EInt 7]%Z (Some [Some [97]; empty_str; Some [99]]%Z))).
Proof.
  split; [|vm_compute; reflexivity]. unfold partition. simpl. change (all_locs_of 3) with [1; 2; 3]%Z.
  etransitivity; [apply (perm_skip 2%Z), perm_swap|]. apply perm_swap.
Qed.
(** So missing names do not survive: [x] itself does not come back. *)
Theorem C25_roundtrip_names_refuted : exists x p locss pieces out, value_ok x /\ value_ok p /\ proto_of p x /\
  partition (Z.to_nat (value_size x)) locss /\ vec_chop x (Some (int_indices locss)) None = Ok pieces /\
  list_unchop Ok (Some p) (map Some pieces) (int_indices locss) = Ok (Some out) /\ out <> x.
Proof.
  exists (VVec TInt [EInt 5]%Z (Some [None])), (VVec TInt [] None), [[1]]%Z. do 2 eexists.
  split; [repeat constructor; done|]. split; [repeat constructor; done|]. split; [constructor|]. split; [by unfold partition|].
  split; [vm_compute; reflexivity|]. split; [vm_compute; reflexivity|]. discriminate.
Qed.

(** ** Combining *)
Definition sizes0 (xs : list (option value)) : list Z := map (fun x => match x with None => 0%Z | Some v => value_size v end) xs.
(** An input of [vec_c()]: empty inputs are not cast. *)
Definition c_ok (cast : value -> res value) (p : value) (x : option value) : Prop :=
  match x with
  | None => True
  | Some v => value_ok v /\ (value_size v = 0%Z -> match p with VVec _ _ _ => True | _ => top_names v = None end) /\
      (value_size v <> 0%Z -> exists w, cast v = Ok w /\ prepared p v w)
  end.
(** [vec_c()] concatenates: row [k] of input [i] is row [k] after the sizes of the
    inputs before it. *)
Theorem C25_c cast p xs : value_ok p -> (total (sizes0 xs) <= INT_MAX)%Z -> shape_fits (total (sizes0 xs)) p ->
  Forall (c_ok cast p) xs ->
  exists out, vec_c cast (Some p) xs = Ok (Some out) /\ value_ok out /\ proto_of p out /\ value_size out = total (sizes0 xs) /\
    forall i v w k, xs !! i = Some (Some v) -> cast v = Ok w -> (1 <= k <= value_size v)%Z ->
      same_row (full out) (total (take i (sizes0 xs)) + k) (full (with_names (no_na_names (top_names v)) w)) k.
Proof.
  intros Hp HN Hf Hin. destruct (vec_c_spec cast p xs Hp HN Hf Hin) as (ys & sus & H1 & H2 & H3 & H4).
  assert (Hnn : Forall (fun s => 0 <= s)%Z (sizes0 xs)).
  { apply Forall_map. eapply Forall_impl; [apply Hin|]. intros [v|] H; [|lia]. destruct H as [H _]. apply value_size_range in H. lia. }
  change (map size_opt xs) with (sizes0 xs) in *. set (N := Z.to_nat (total (sizes0 xs))) in *.
  assert (EN : total (sizes0 xs) = Z.of_nat N) by (unfold N; pose proof (total_nonneg _ Hnn); lia). rewrite EN in *.
  pose proof (good_sources _ _ _ _ H1) as Hg.
  eexists. split; [apply H4|]. destruct (result_base p N sus Hp HN Hf H2) as (R1 & R2 & R3).
  split; [exact R1|]. split; [exact R3|]. split; [exact R2|].
  intros i v w k Hx Hc Hk. destruct (Forall2_lookup_l _ _ _ _ _ H1 Hx) as (y & Hy & Hs & _). simpl in Hs.
  destruct (Z.eqb_spec (value_size v) 0); [lia|]. destruct Hs as (w' & -> & Hc'). rewrite Hc in Hc'. injection Hc' as <-.
  assert (Hsz : sizes0 xs !! i = Some (value_size v)) by (unfold sizes0; rewrite list_lookup_fmap, Hx; done).
  destruct (size_sub_ok _ i _ (Z.of_nat N) Hnn ltac:(lia) HN Hsz) as (S1 & S2 & S3 & S4).
  destruct (blocks_no_overlap _ Hnn) as (Hno & _).
  pose proof (result_named p N _ ys sus Hp HN Hf H2 H3 Hg Hno i _ v w (Z.to_nat (k - 1)) (total (take i (sizes0 xs)) + k)%Z S4 Hy) as Q.
  replace (Z.of_nat (Z.to_nat (k - 1)) + 1)%Z with k in Q by lia. apply Q.
  - unfold size_sub. simpl. rewrite list_lookup_fmap, lookup_seq_lt by lia. simpl. f_equal. lia.
  - pose proof (total_take_le (sizes0 xs) i Hnn). unfold NA_INTEGER, INT_MIN. lia.
Qed.
Example C25_c_ex :
  let xs := [Some (VVec TInt [EInt 5]%Z (Some [Some [97]]%Z)); None; Some (VVec TInt [] None); Some (VVec TInt [EInt 7; EInt 8]%Z None)] in
  vec_c Ok (Some (VVec TInt [] None)) xs = Ok (Some (VVec TInt [EInt 5; EInt 7; EInt 8]%Z (Some [Some [97]; empty_str; empty_str]%Z))) /\
  Forall (c_ok Ok (VVec TInt [] None)) xs.
Proof.
  split; [vm_compute; reflexivity|]. repeat apply Forall_cons_2; try apply Forall_nil_2; try done.
  all: split; [repeat constructor; done|]; split; [done|]; intros ?; eexists; split; [done|];
    split; [repeat constructor; done|]; split; [repeat constructor; done|]; split; [constructor|done].
Qed.

(** [vec_c()] of [vec_chop(x, sizes = sizes)] is [x] (up to name repair). *)
Theorem C25_c_chop cast p x sizes : value_ok x -> value_ok p -> proto_of p x -> shape_fits (value_size x) p ->
  sizes_valid (value_size x) sizes ->
  exists pieces, vec_chop x None (Some sizes) = Ok pieces /\
    ((forall piece, piece ∈ pieces -> cast piece = Ok piece) ->
     exists out, vec_c cast (Some p) (map Some pieces) = Ok (Some out) /\
       full out = full (with_names (no_na_names (top_names x)) x)).
Proof.
  intros Hx Hp Hpx Hf Hv. pose proof (value_size_range x Hx) as Hr. destruct (chop_sizes_spec sizes (value_size x)) as [C1 _]; [lia|].
  assert (Hnn : Forall (fun s => 0 <= s)%Z sizes) by (eapply Forall_impl; [apply Hv|]; simpl; intros; lia).
  destruct Hv as [Hv1 Ht].
  exists (map (fun loc => slice_val loc x) (size_blocks 0 sizes)). split.
  { unfold vec_chop. rewrite C1 by done. cbn [bind]. rewrite vec_chop_unsafe_spec; [|done|].
    - rewrite <- (size_subs_blocks sizes (value_size x)), map_map. done.
    - split; [split; [done|lia]|]. cbn [chop_subs]. apply Forall_lookup. intros i s Hs. rewrite list_lookup_imap in Hs. destruct (sizes !! i) as [e|] eqn:He; [|done].
      injection Hs as <-. split; [|done]. eapply size_sub_ok; [done| |lia|done]. lia. }
  intros Hcast. rewrite map_map. set (locss := size_blocks 0 sizes) in *.
  destruct (blocks_no_overlap _ Hnn) as (Hno & Hcl & Hbl). fold locss in Hno, Hcl, Hbl.
  assert (Hloc : forall i loc, locss !! i = Some loc -> sizes !! i = Some (Z.of_nat (length loc)) /\ Forall (loc_ok (value_size x)) loc /\ (Z.of_nat (length loc) <= value_size x)%Z).
  { intros i loc Hl. assert (i < length locss) by (apply lookup_lt_is_Some; eauto). destruct (lookup_lt_is_Some_2 sizes i) as [s Hs]; [lia|].
    destruct (size_sub_ok sizes i s (value_size x) Hnn ltac:(lia) ltac:(lia) Hs) as (S1 & S2 & S3 & S4). fold locss in S4.
    assert (loc = expand (size_sub sizes i s)) as -> by congruence. rewrite S2. split; [rewrite Hs; f_equal; lia|]. split; [apply S1|].
    apply block_length in S4. lia. }
  assert (Hsz : sizes0 (map (fun loc => Some (slice_val loc x)) locss) = sizes).
  { apply list_eq. intros i. unfold sizes0. rewrite !list_lookup_fmap. destruct (locss !! i) as [loc|] eqn:Hl; simpl.
    - destruct (Hloc _ _ Hl) as (E & _). by rewrite E, slice_val_size.
    - apply lookup_ge_None_1 in Hl. symmetry. apply lookup_ge_None_2. lia. }
  destruct (vec_c_spec cast p (map (fun loc => Some (slice_val loc x)) locss)) as (ys & sus & H1 & H2 & H3 & H4).
  - done.
  - change (map size_opt ?l) with (sizes0 l). rewrite Hsz. lia.
  - change (map size_opt ?l) with (sizes0 l). rewrite Hsz. by rewrite Ht.
  - apply Forall_map, Forall_lookup. intros i loc Hl. destruct (Hloc _ _ Hl) as (E1 & E2 & E3).
    split; [by apply piece_ok|]. split.
    + intros _. clear -Hpx. by destruct Hpx.
    + intros _. eexists. split; [apply Hcast; apply elem_of_list_fmap; exists loc; split; [done|by eapply elem_of_list_lookup_2]|]. by apply piece_prepared.
  - change (map size_opt ?l) with (sizes0 l) in H2, H3, H4. rewrite Hsz in H2, H3, H4. rewrite Ht in H2, H4. set (N := Z.to_nat (value_size x)) in *. assert (EN : value_size x = Z.of_nat N) by lia.
    eexists. split; [apply H4|]. pose proof (good_sources _ _ _ _ H1) as Hg.
    rewrite EN in Hf. apply (result_back p N locss ys sus); try done; [lia|].
    intros l Hl. rewrite EN in Hloc.
    assert (Hin : l ∈ concat locss).
    { pose proof (blocks_concat sizes Hnn) as E. fold locss in E. rewrite E, Ht. fold N. apply elem_of_list_fmap. exists (Z.to_nat (l - 1)). unfold in_rows in Hl.
      split; [lia|]. apply elem_of_seq. lia. }
    apply elem_of_list_In, in_concat in Hin as (loc & I1 & I2). apply elem_of_list_In, elem_of_list_lookup in I1 as [i I1]. apply elem_of_list_In, elem_of_list_lookup in I2 as [k I2].
    exists i, loc, k. split; [done|]. split; [done|]. destruct (Hloc _ _ I1) as (E1 & E2 & E3). split; [done|].
    destruct (Forall2_lookup_l _ _ _ i (Some (slice_val loc x)) H1) as (y & Hy & Hs & _); [by rewrite list_lookup_fmap, I1|].
    cut (y = Some (slice_val loc x, slice_val loc x)); [intros ->; exact Hy|]. simpl in Hs. rewrite slice_val_size in Hs. destruct (Z.eqb_spec (Z.of_nat (length loc)) 0) as [E0|E0].
    { destruct loc; [done|simpl in E0; lia]. }
    destruct Hs as (w & -> & Hc). rewrite Hcast in Hc; [by injection Hc as <-|]. apply elem_of_list_fmap. exists loc. split; [done|by eapply elem_of_list_lookup_2].
Qed.
Example C25_c_chop_ex :
  let x := VDf 3 [Some [120]]%Z [VVec TInt [EInt 5; EInt 6; EInt 7]%Z None] in
  (let! pieces := vec_chop x None (Some [2; 0; 1]%Z) in vec_c Ok (Some (VDf 0 [Some [120]]%Z [VVec TInt [] None])) (map Some pieces)) = Ok (Some x) /\
  sizes_valid (value_size x) [2; 0; 1]%Z.
Proof. split; [vm_compute; reflexivity|]. split; [repeat constructor; done|done]. Qed.

(** ** Interleaving *)
Definition leave_loc (n i : nat) (size : nat) : list Z := map (fun j => Z.of_nat (j * n + i) + 1)%Z (seq 0 size).
Lemma ssize_mult_spec x y : (0 <= x)%Z -> (0 <= y)%Z ->
  ((exists e, r_ssize_mult x y = Err e) /\ (R_SSIZE_MAX < x * y)%Z) \/ r_ssize_mult x y = Ok (x * y)%Z.
Proof.
  intros Hx Hy. unfold r_ssize_mult. destruct (Z.ltb_spec 0 x), (Z.ltb_spec 0 y), (Z.ltb_spec (R_SSIZE_MAX / y) x); cbn [andb]; try (by right).
  left. split; [by eexists|]. apply Z.div_lt_upper_bound in H1 || idtac.
  pose proof (Z.mul_succ_div_gt R_SSIZE_MAX y H0). nia.
Qed.
Lemma interleave_indices_spec (n size : nat) : (Z.of_nat (n * size) <= R_LEN_T_MAX)%Z ->
  vec_interleave_indices (Z.of_nat n) (Z.of_nat size) = Ok (map (fun i => leave_loc n i size) (seq 0 n)).
Proof.
  intros Ht. unfold vec_interleave_indices. destruct (Z.ltb_spec (Z.of_nat n) 0); [lia|]. destruct (Z.ltb_spec (Z.of_nat size) 0); [lia|].
  destruct (ssize_mult_spec (Z.of_nat n) (Z.of_nat size)) as [[E Hbig]|E]; [lia|lia|unfold R_LEN_T_MAX, INT_MAX, R_SSIZE_MAX in *; lia|].
  rewrite E. clear E. cbn [bind]. destruct (Z.ltb_spec R_LEN_T_MAX (Z.of_nat n * Z.of_nat size)); [lia|]. rewrite !Nat2Z.id.
  match goal with |- for_ 0 n ?body ?s = _ =>
    destruct (for_inv (fun i out => out = map (fun i => leave_loc n i size) (seq 0 i) ++ replicate (n - i) []) 0 n body s) as (out & -> & ->) end.
  - simpl. by rewrite Nat.sub_0_r.
  - intros i out Hi ->. simpl in Hi. cbv zeta.
    destruct (for_inv (fun j (elt : list Z) => length elt = size /\ take j elt = leave_loc n i j) 0 size
      (fun j elt => wr elt j (Z.of_nat i + 1 + Z.of_nat n * Z.of_nat j)%Z) (alloc size)) as (elt & -> & L & E).
    + split; [unfold alloc; apply replicate_length|done].
    + intros j elt Hj (L & E). simpl in Hj. rewrite wr_Ok by lia. eexists. split; [done|]. rewrite insert_length. split; [done|].
      rewrite (take_S_r _ _ (Z.of_nat i + 1 + Z.of_nat n * Z.of_nat j)%Z) by (apply list_lookup_insert; lia).
      rewrite take_insert by lia. rewrite E. unfold leave_loc. rewrite seq_S, map_app. f_equal. simpl. f_equal. lia.
    + simpl in E. rewrite take_ge in E by lia. subst elt. cbn [bind]. rewrite wr_Ok by (rewrite app_length, map_length, seq_length, replicate_length; lia).
      eexists. split; [done|]. replace (n - i) with (S (n - S i)) by lia. simpl replicate.
      rewrite insert_app_r_alt by (rewrite map_length, seq_length; lia). rewrite map_length, seq_length, Nat.sub_diag.
      rewrite seq_S, map_app, <- app_assoc. done.
  - simpl. rewrite Nat.sub_diag. by rewrite app_nil_r.
Qed.
Lemma leave_partition n size : partition (n * size) (map (fun i => leave_loc n i size) (seq 0 n)).
Proof.
  unfold partition. apply NoDup_Permutation.
  - assert (G : forall k, k <= n -> NoDup (concat (map (fun i => leave_loc n i size) (seq 0 k))) /\
       forall l, l ∈ concat (map (fun i => leave_loc n i size) (seq 0 k)) -> exists i j, l = (Z.of_nat (j * n + i) + 1)%Z /\ i < k).
    { induction k as [|k IH]; intros Hk; [split; [constructor|]; intros l Hl; by apply elem_of_nil in Hl|].
      destruct IH as [I1 I2]; [lia|]. rewrite seq_S, map_app, concat_app. simpl. rewrite app_nil_r. split.
      - apply NoDup_app. split; [done|]. split.
        + intros l Hl Hin. destruct (I2 l Hl) as (i & j & -> & Hi). unfold leave_loc in Hin. apply elem_of_list_fmap in Hin as (j' & E & _).
          assert (j * n + i = j' * n + k) by lia.
          assert (i = k); [|lia]. apply (Nat.mod_unique (j * n + i) n j i) in Hi as Hm || idtac.
          rewrite <- (Nat.mod_small i n), <- (Nat.mod_small k n) by lia. rewrite <- (Nat.mod_add i j n), <- (Nat.mod_add k j' n) by lia. f_equal. lia.
        + unfold leave_loc. apply NoDup_fmap_2; [|apply NoDup_seq]. intros a b E. nia.
      - intros l Hl. apply elem_of_app in Hl as [Hl|Hl].
        + destruct (I2 l Hl) as (i & j & -> & Hi). exists i, j. split; [done|lia].
        + unfold leave_loc in Hl. apply elem_of_list_fmap in Hl as (j & -> & _). exists k, j. split; [done|lia]. }
    apply (G n); lia.
  - unfold all_locs_of. apply NoDup_fmap_2; [intros a b; lia|]. apply NoDup_seq.
  - intros l. unfold all_locs_of. rewrite elem_of_list_fmap. rewrite elem_of_list_In, in_concat. split.
    + intros (loc & H1 & H2). apply in_map_iff in H1 as (i & <- & Hi). apply in_map_iff in H2 as (j & <- & Hj). apply in_seq in Hi, Hj.
      exists (j * n + i). split; [done|]. apply elem_of_seq. nia.
    + intros (k & -> & Hk). apply elem_of_seq in Hk. assert (n <> 0) by nia. exists (leave_loc n (k mod n) size). split.
      * apply in_map_iff. exists (k mod n). split; [done|]. apply in_seq. split; [apply Nat.le_0_l|]. by apply Nat.mod_upper_bound.
      * apply in_map_iff. exists (k / n). split; [|apply in_seq; split; [apply Nat.le_0_l|]; apply Nat.div_lt_upper_bound; [done|]; simpl; lia].
        by rewrite (Nat.mul_comm (k / n) n), <- Nat.div_mod by done.
Qed.
Lemma filter_some (xs : list (option value)) : filter (fun x => is_Some x) xs = map Some (omap id xs).
Proof.
  induction xs as [|[v|] xs IH]; [done| |].
  - rewrite filter_cons_True by (by eexists). rewrite IH. done.
  - rewrite filter_cons_False by (by intros [? ?]). rewrite IH. done.
Qed.
Lemma omap_some (vs : list value) : omap id (map Some vs) = vs.
Proof. induction vs as [|v vs IH]; [done|]. simpl. by f_equal. Qed.

(** The size of the inputs: the common size, zero without inputs. *)
Definition leave_size (xs : list (option value)) (s : Z) : Prop := common_size (sizes_of xs) s \/ (sizes_of xs = [] /\ s = 0%Z).
Theorem C26_interleave cast p xs s : value_ok p -> Forall value_ok (omap id xs) -> leave_size xs s ->
  let k := Z.of_nat (length (omap id xs)) in
  (k * s <= R_LEN_T_MAX)%Z -> shape_fits (k * s) p ->
  (forall v r, v ∈ omap id xs -> recycled s (Some v) (Some r) -> exists w, cast r = Ok w /\ prepared p r w) ->
  exists ys out,
    Forall2 (fun v '(r, w) => recycled s (Some v) (Some r) /\ cast r = Ok w) (omap id xs) ys /\
    vec_interleave cast (Some p) xs = Ok (Some out) /\ value_ok out /\ proto_of p out /\ value_size out = (k * s)%Z /\
    forall j r w i, ys !! j = Some (r, w) -> (0 <= i < s)%Z ->
      same_row (full out) (i * k + Z.of_nat j + 1) (full (with_names (no_na_names (top_names r)) w)) (i + 1).
Proof.
  intros Hp Hvs Hs k Hk Hf Hcast. set (vs := omap id xs) in *. set (n := length vs) in *.
  unfold vec_interleave. rewrite filter_some. fold vs.
  assert (Esz : sizes_of (map Some vs) = sizes_of xs) by (unfold sizes_of; by rewrite omap_some).
  assert (Hs0 : (0 <= s)%Z /\ Forall (fun v => value_size v = s \/ value_size v = 1%Z) vs).
  { destruct Hs as [[H1 H2]|[H1 ->]].
    - split.
      + apply in_map_iff in H1 as (v & <- & Hv). apply elem_of_list_In in Hv. rewrite Forall_forall in Hvs. specialize (Hvs v Hv). apply value_size_range in Hvs. lia.
      + apply Forall_forall. intros v Hv. apply H2. apply in_map_iff. exists v. split; [done|]. by apply elem_of_list_In.
    - split; [lia|]. unfold sizes_of in H1. apply map_eq_nil in H1. fold vs in H1. rewrite H1. constructor. }
  destruct Hs0 as [Hs0 Hsz].
  assert (Ecs : vec_size_common (map Some vs) 0 = Ok s).
  { destruct (size_common_spec (map Some vs) 0%Z) as [[E1 E2]|[(s' & E1 & E2)|[E1 E2]]]; rewrite Esz in E1.
    - destruct Hs as [[H1 _]|[_ ->]]; [by rewrite E1 in H1|done].
    - destruct Hs as [H|[H _]].
      + by rewrite (common_size_unique _ _ _ H E1).
      + destruct E1 as [E1 _]. by rewrite H in E1.
    - exfalso. destruct E1 as (a & b & A & B & C & D & E). destruct Hs as [[_ H]|[H _]].
      + destruct (H a A); [|done]. destruct (H b B); [|done]. congruence.
      + by rewrite H in A. }
  rewrite Ecs. cbn [bind]. set (size := Z.to_nat s). assert (Es : s = Z.of_nat size) by lia. rewrite map_length. fold n.
  rewrite Es, interleave_indices_spec by lia. cbn [bind]. fold (int_indices (map (fun i => leave_loc n i size) (seq 0 n))).
  set (locss := map (fun i => leave_loc n i size) (seq 0 n)).
  assert (EN : (k * s)%Z = Z.of_nat (n * size)) by lia. rewrite EN in Hf.
  destruct (partition_facts (n * size) locss) as (F1 & F2 & F3 & F4 & F5); [unfold R_LEN_T_MAX in Hk; lia|apply leave_partition|].
  assert (Hll : length locss = n) by (unfold locss; by rewrite map_length, seq_length).
  assert (Hat : forall i loc, locss !! i = Some loc -> loc = leave_loc n i size).
  { intros i loc Hl. unfold locss in Hl. rewrite list_lookup_fmap in Hl. destruct (seq 0 n !! i) as [j|] eqn:E; [|done]. apply lookup_seq in E as [-> _].
    simpl in Hl. by injection Hl. }
  assert (Hlen : forall i, length (leave_loc n i size) = size) by (intros i; unfold leave_loc; by rewrite map_length, seq_length).
  destruct (C25_unchop cast p (map Some vs) locss) as (ys & out & H1 & H2 & H3 & H4 & H5 & _ & _ & H6); try done.
  - rewrite map_length. unfold n in *. lia.
  - unfold R_LEN_T_MAX in Hk. lia.
  - by rewrite F1.
  - by rewrite F1.
  - apply Forall2_same_length_lookup. split; [rewrite map_length; unfold n in *; lia|]. intros i x loc Hx Hl.
    rewrite list_lookup_fmap in Hx. destruct (vs !! i) as [v|] eqn:Ev; [|done]. injection Hx as <-. rewrite (Hat _ _ Hl), Hlen, <- Es.
    assert (Hin : v ∈ vs) by (by eapply elem_of_list_lookup_2). rewrite Forall_forall in Hvs, Hsz.
    split; [by apply Hvs|]. split; [by apply Hsz|]. intros r Hr. by apply (Hcast v).
  - pose proof (Forall2_length _ _ _ H1) as L. rewrite zip_with_length, map_length in L. fold n in L.
    assert (Hy : forall i v, vs !! i = Some v -> exists r w, ys !! i = Some (Some (r, w)) /\ recycled s (Some v) (Some r) /\ cast r = Ok w).
    { intros i v Hv. assert (i < n) by (apply lookup_lt_is_Some; eauto). destruct (lookup_lt_is_Some_2 locss i) as [loc Hl]; [lia|].
      destruct (Forall2_lookup_l _ _ _ i (Some v, loc) H1) as (y & Hy & Hr).
      { rewrite lookup_zip_with, list_lookup_fmap, Hv, Hl. done. }
      destruct Hr as (r & w & -> & Hr & Hc). rewrite (Hat _ _ Hl), Hlen, <- Es in Hr. by exists r, w. }
    assert (exists zs, ys = map Some zs) as [zs ->].
    { exists (omap id ys). clear -Hy L Hll. assert (Hall : Forall (fun y => y <> None) ys).
      { apply Forall_lookup. intros i y Hi. assert (i < length ys) by (apply lookup_lt_is_Some; eauto).
        destruct (lookup_lt_is_Some_2 vs i) as [v Hv]; [unfold n in *; lia|]. destruct (Hy i v Hv) as (r & w & E & _). assert (Q : Some y = Some (Some (r, w))) by (etransitivity; [symmetry; exact Hi|exact E]). by injection Q as ->. }
      clear Hy L. induction Hall as [|y ys Hy Hall IH]; [done|]. destruct y as [rw|]; [|done]. simpl. f_equal. exact IH. }
    exists zs, out. split.
    { apply Forall2_same_length_lookup. rewrite map_length in L. split; [fold n; lia|]. intros i v [r w] Hv Hz. destruct (Hy i v Hv) as (r' & w' & E & Q).
      assert (Q2 : Some (Some (r, w)) = Some (Some (r', w'))) by (etransitivity; [|exact E]; by rewrite list_lookup_fmap, Hz). injection Q2 as -> ->. by rewrite <- Es. }
    split; [done|]. split; [done|]. split; [done|]. split; [rewrite H5, F1; lia|].
    destruct (H6 F4) as [H7 _]. intros j r w i Hj Hi.
    assert (Hjn : j < n). { rewrite map_length in L. assert (j < length zs) by (apply lookup_lt_is_Some; eauto). lia. }
    destruct (lookup_lt_is_Some_2 locss j) as [loc Hl]; [lia|].
    replace (i + 1)%Z with (Z.of_nat (Z.to_nat i) + 1)%Z by lia.
    eapply H7; [apply Hl|by rewrite list_lookup_fmap, Hj| |].
    + rewrite (Hat _ _ Hl). unfold leave_loc. rewrite list_lookup_fmap, lookup_seq_lt by lia. simpl. f_equal. unfold k. lia.
    + unfold NA_INTEGER, INT_MIN. nia.
Qed.
(** Incompatible sizes and results longer than a short vector are errors. *)
Theorem C26_errors cast p xs : Forall value_ok (omap id xs) ->
  (incompatible (sizes_of xs) \/
   exists s, common_size (sizes_of xs) s /\ (R_LEN_T_MAX < Z.of_nat (length (omap id xs)) * s)%Z) ->
  exists e, vec_interleave cast (Some p) xs = Err e.
Proof.
  intros Hvs H. unfold vec_interleave. rewrite filter_some. set (vs := omap id xs) in *.
  assert (Esz : sizes_of (map Some vs) = sizes_of xs) by (unfold sizes_of; by rewrite omap_some).
  destruct (size_common_spec (map Some vs) 0%Z) as [[E1 E2]|[(s' & E1 & E2)|[E1 [e E2]]]]; rewrite Esz in E1.
  - exfalso. destruct H as [(a & b & A & _)|(s & [A _] & _)]; by rewrite E1 in A.
  - destruct H as [(a & b & A & B & C & D & E)|(s & Hs & Hbig)].
    { destruct E1 as [_ E1]. destruct (E1 a A); [|done]. destruct (E1 b B); [|done]. congruence. }
    rewrite E2. cbn [bind]. rewrite <- (common_size_unique _ _ _ Hs E1). rewrite map_length. unfold vec_interleave_indices.
    destruct (Z.ltb_spec (Z.of_nat (length vs)) 0); [by eexists|]. destruct (Z.ltb_spec s 0); [by eexists|].
    destruct (ssize_mult_spec (Z.of_nat (length vs)) s) as [[[e' ->] _]| ->]; [lia|lia|by eexists|]. cbn [bind].
    destruct (Z.ltb_spec R_LEN_T_MAX (Z.of_nat (length vs) * s)); [by eexists|]. lia.
  - rewrite E2. by eexists.
Qed.
Example C26_ex :
  let xs := [Some (VVec TInt [EInt 1; EInt 2]%Z (Some [Some [97]; Some [98]]%Z)); None; Some (VVec TInt [EInt 9]%Z None)] in
  vec_interleave Ok (Some (VVec TInt [] None)) xs =
    Ok (Some (VVec TInt [EInt 1; EInt 9; EInt 2; EInt 9]%Z (Some [Some [97]; empty_str; Some [98]; empty_str]%Z))) /\
  leave_size xs 2 /\ (exists e, vec_interleave Ok (Some (VVec TInt [] None)) [Some (VVec TInt [EInt 1; EInt 2]%Z None); Some (VVec TInt [] None)] = Err e).
Proof.
  split; [vm_compute; reflexivity|]. split; [|eexists; vm_compute; reflexivity]. left. split; [by left|].
  intros n [<-|[<-|[]]]; [by left|by right].
Qed.

Print Assumptions C25_chop_indices.
Print Assumptions C25_chop_sizes.
Print Assumptions C25_chop_elements.
Print Assumptions C25_unchop.
Print Assumptions C25_unchop_bounds.
Print Assumptions C25_unchop_chop.
Print Assumptions C25_roundtrip_names_refuted.
Print Assumptions C25_c.
Print Assumptions C25_c_chop.
Print Assumptions C26_interleave.
Print Assumptions C26_errors.
