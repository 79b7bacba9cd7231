(** * Property C45: run-length encoded strings are the strings they encode *)
From Verif Require Import Base M_Scalar M_Altrep.
From Coq Require Import ZifyBool ZifyNat.
#[local] Arguments Z.of_nat : simpl never.
#[local] Arguments Z.to_nat : simpl never.
#[local] Arguments Z.add : simpl never.
#[local] Arguments Z.sub : simpl never.

(** ** Specification *)
(** The strings: each name as often as its count says. *)
Definition expand (counts : list Z) (names : list rstr) : list rstr :=
  concat (zip_with (fun c s => replicate (Z.to_nat c) s) counts names).
(** A valid encoding: no negative or missing count, and one name for each count. *)
Definition rle_ok (counts : list Z) (names : list rstr) : Prop :=
  Forall (fun c => 0 <= c)%Z counts /\ length names = length counts.

(** ** Proofs *)
Definition total (counts : list Z) : Z := foldr Z.add 0%Z counts.
Lemma expand_length counts : forall names, rle_ok counts names -> Z.of_nat (length (expand counts names)) = total counts.
Proof.
  unfold expand, rle_ok. induction counts as [|c cs IH]; intros [|s names] [F L]; cbn in L; try lia; [done|].
  inversion F as [|? ? Hc F2]; subst. cbn [zip_with concat total foldr]. rewrite app_length, replicate_length.
  specialize (IH names ltac:(split; [done|lia])). unfold total in IH. lia.
Qed.
Lemma sum_loop (l : list Z) : forall acc, for_ 0 (length l) (fun i sz => let! n := rd l i in Ok (sz + n)%Z) acc = Ok (acc + total l)%Z.
Proof.
  assert (G : forall k l1 l2 acc, l = l1 ++ l2 -> length l1 = k -> for_ k (length l2) (fun i sz => let! n := rd l i in Ok (sz + n)%Z) acc = Ok (acc + total l2)%Z).
  { intros k l1 l2. revert k l1. induction l2 as [|x l2 IH]; intros k l1 acc E L; cbn [length for_ total foldr]; [f_equal; lia|].
    assert (Hx : l !! k = Some x) by (rewrite E, lookup_app_r, L by lia; by rewrite Nat.sub_diag).
    apply rd_Ok in Hx. rewrite Hx. cbn [bind]. rewrite (IH (S k) (l1 ++ [x])); [f_equal; unfold total; lia|by rewrite <- app_assoc|rewrite app_length; cbn; lia]. }
  intros acc. by apply (G 0 []).
Qed.
Theorem C45_length counts names : rle_ok counts names ->
  altrep_rle_Length (altrep_rle_Make counts names) = Ok (Z.of_nat (length (expand counts names))).
Proof. intros R. cbn. rewrite sum_loop. by rewrite (expand_length counts names R). Qed.

Lemma find_spec counts : forall names i k, rle_ok counts names -> (0 <= i < total counts)%Z ->
  exists s, expand counts names !! Z.to_nat i = Some s /\ names !! Z.to_nat (find_rle_loop counts i k - k - 1) = Some s /\ (k < find_rle_loop counts i k)%Z.
Proof.
  induction counts as [|c cs IH]; intros [|s names] i k [F L] Hi; cbn in L; try lia; [cbn in Hi; lia|].
  inversion F as [|? ? Hc F2]; subst. cbn [total foldr] in Hi. cbn [find_rle_loop].
  assert ((0 <=? i)%Z = true) as -> by lia. unfold expand. cbn [zip_with concat].
  destruct (decide (i < c)%Z) as [Hlt|Hge].
  - exists s. rewrite lookup_app_l by (rewrite replicate_length; lia). split; [apply lookup_replicate; split; [done|lia]|].
    assert (E : find_rle_loop cs (i - c) (k + 1) = (k + 1)%Z).
    { destruct cs as [|c2 cs]; [done|]. cbn [find_rle_loop]. by assert ((0 <=? i - c)%Z = false) as -> by lia. }
    rewrite E. split; [|lia]. replace (Z.to_nat (k + 1 - k - 1)) with 0 by lia. done.
  - destruct (IH names (i - c)%Z (k + 1)%Z) as (s' & E1 & E2 & E3); [split; [done|lia]|unfold total; lia|].
    exists s'. rewrite lookup_app_r by (rewrite replicate_length; lia). rewrite replicate_length.
    replace (Z.to_nat i - Z.to_nat c) with (Z.to_nat (i - c)) by lia. split; [done|]. split; [|lia].
    replace (Z.to_nat (find_rle_loop cs (i - c) (k + 1) - k - 1)) with (S (Z.to_nat (find_rle_loop cs (i - c) (k + 1) - (k + 1) - 1))) by lia. done.
Qed.
Lemma find_elt counts names i : rle_ok counts names -> (0 <= i < Z.of_nat (length (expand counts names)))%Z ->
  rdZ names (find_rle_index counts i) = rdZ (expand counts names) i.
Proof.
  intros R Hi. rewrite (expand_length counts names R) in Hi. destruct (find_spec counts names i 0 R Hi) as (s & E1 & E2 & E3).
  unfold find_rle_index. unfold rdZ. assert ((find_rle_loop counts i 0 - 1 <? 0)%Z = false) as -> by lia. assert ((i <? 0)%Z = false) as -> by lia.
  unfold rd. rewrite E1. replace (find_rle_loop counts i 0 - 1)%Z with (find_rle_loop counts i 0 - 0 - 1)%Z by lia. by rewrite E2.
Qed.
(** Every element, without materialising. *)
Theorem C45_elt counts names i s : rle_ok counts names -> expand counts names !! i = Some s ->
  altrep_rle_string_Elt (altrep_rle_Make counts names) (Z.of_nat i) = Ok s.
Proof.
  intros R Hs. cbn. rewrite find_elt; [|done|]; [|apply lookup_lt_Some in Hs; lia]. rewrite rdZ_nat. by apply rd_Ok.
Qed.

Lemma fill_inner (s : rstr) n : forall (out : list rstr) idx, idx + n <= length out -> forall nms i, nms !! i = Some s ->
  for_ 0 n (fun _ '((out, idx) : list rstr * nat) => let! s := rd nms i in let! out := wr out idx s in Ok (out, S idx)) (out, idx) =
    Ok (take idx out ++ replicate n s ++ drop (idx + n) out, idx + n).
Proof.
  assert (G : forall n k (out : list rstr) idx, idx + n <= length out ->
    for_ k n (fun _ '((out, idx) : list rstr * nat) => let! s := Ok s in let! out := wr out idx s in Ok (out, S idx)) (out, idx) =
    Ok (take idx out ++ replicate n s ++ drop (idx + n) out, idx + n)).
  { clear n. induction n as [|n IH]; intros k out idx Hl; cbn [for_].
    - cbn. rewrite Nat.add_0_r. by rewrite take_drop.
    - cbn [bind]. rewrite wr_Ok by lia. cbn [bind]. specialize (IH (S k) (<[idx := s]> out) (S idx)). cbn [bind] in IH. rewrite IH by (rewrite insert_length; lia).
      f_equal. f_equal; [|lia]. rewrite (take_S_r _ _ s) by (rewrite list_lookup_insert by lia; done). rewrite take_insert by lia.
      rewrite drop_insert_gt by lia. cbn [replicate]. rewrite <- app_assoc. by replace (idx + S n) with (S idx + n) by lia. }
  intros out idx Hl nms i Hs. apply rd_Ok in Hs. rewrite Hs. by apply G.
Qed.
Lemma fill_outer counts names : rle_ok counts names -> forall cs ns k l1 l2 (rest out : list rstr), counts = l1 ++ cs -> names = l2 ++ ns -> length l1 = k -> length l2 = k ->
  length out = length rest + length (expand cs ns) -> take (length rest) out = rest ->
  exists m, for_ k (length cs) (fun i '((out, idx) : list rstr * nat) =>
        let! n := rd counts i in
        for_ 0 (Z.to_nat n) (fun _ '((out, idx) : list rstr * nat) =>
          let! s := rd names i in
          let! out := wr out idx s in
          Ok (out, S idx)) (out, idx)) (out, length rest) = Ok (rest ++ expand cs ns, m).
Proof.
  intros R cs. induction cs as [|c cs IH]; intros ns k l1 l2 rest out E1 E2 L1 L2 Lo Ho; cbn [length for_].
  - exists (length rest). unfold expand in *. cbn in *. rewrite app_nil_r. rewrite take_ge in Ho by lia. by rewrite Ho.
  - assert (length ns = S (length cs)).
    { destruct R as [_ R]. rewrite E1, E2, !app_length in R. cbn in R. lia. }
    destruct ns as [|s ns]; [done|].
    assert (Hc : counts !! k = Some c) by (rewrite E1, lookup_app_r, L1, Nat.sub_diag by lia; done).
    assert (Hs : names !! k = Some s) by (rewrite E2, lookup_app_r, L2, Nat.sub_diag by lia; done).
    assert (Lx : length (expand (c :: cs) (s :: ns)) = Z.to_nat c + length (expand cs ns)).
    { unfold expand. cbn [zip_with concat]. by rewrite app_length, replicate_length. }
    apply rd_Ok in Hc. rewrite Hc. cbn [bind]. rewrite (fill_inner s) by (done || lia). cbn [bind]. rewrite Ho.
    destruct (IH ns (S k) (l1 ++ [c]) (l2 ++ [s]) (rest ++ replicate (Z.to_nat c) s)
      (rest ++ replicate (Z.to_nat c) s ++ drop (length rest + Z.to_nat c) out)) as (m & Em).
    + by rewrite <- app_assoc.
    + by rewrite <- app_assoc.
    + rewrite app_length. cbn. lia.
    + rewrite app_length. cbn. lia.
    + rewrite !app_length, replicate_length, drop_length. lia.
    + rewrite app_assoc. apply take_app_alt. by rewrite app_length.
    + exists m. rewrite app_length, replicate_length in Em. rewrite Em. f_equal. f_equal. unfold expand. cbn [zip_with concat]. by rewrite <- app_assoc.
Qed.
(** Materialising gives exactly these strings; nothing is written outside. *)
Theorem C45_materialize counts names : rle_ok counts names ->
  altrep_rle_string_Materialize (altrep_rle_Make counts names) = Ok (Rle counts names (Some (expand counts names))).
Proof.
  intros R. unfold altrep_rle_string_Materialize. rewrite C45_length by done. cbn [rle_data2 altrep_rle_Make bind rle_p rle_nms].
  assert ((Z.of_nat (length (expand counts names)) <? 0)%Z = false) as -> by lia. rewrite Nat2Z.id.
  destruct (fill_outer counts names R counts names 0 [] [] [] (replicate (length (expand counts names)) (Some []))) as (m & E); try done.
  - by rewrite replicate_length.
  - cbn [length app] in E. match goal with |- bind ?t _ = _ => assert (H : t = Ok (expand counts names, m)) by exact E end. by rewrite H.
Qed.
(** Nothing that can be observed depends on whether it has been materialised. *)
Theorem C45_same counts names v i : rle_ok counts names -> (0 <= i < Z.of_nat (length (expand counts names)))%Z ->
  altrep_rle_string_Materialize (altrep_rle_Make counts names) = Ok v ->
  altrep_rle_Length v = altrep_rle_Length (altrep_rle_Make counts names) /\
  altrep_rle_string_Elt v i = altrep_rle_string_Elt (altrep_rle_Make counts names) i.
Proof.
  intros R Hi. rewrite C45_materialize by done. intros [= <-]. split; [by rewrite C45_length|]. cbn. by rewrite find_elt.
Qed.

(** Subsetting by positive or missing locations within the length *)
Definition pick (l : list rstr) (i : Z) : rstr := if (i =? NA_INTEGER)%Z then None else nth (Z.to_nat (i - 1)) l None.
Theorem C45_extract counts names indx : rle_ok counts names ->
  Forall (fun i => i = NA_INTEGER \/ (1 <= i <= Z.of_nat (length (expand counts names)))%Z) indx ->
  altrep_rle_Extract_subset (altrep_rle_Make counts names) indx = Ok (Some (map (pick (expand counts names)) indx)).
Proof.
  intros R F. unfold altrep_rle_Extract_subset. cbn [rle_data2 altrep_rle_Make rle_p rle_nms].
  destruct (for_inv (fun k (out : list rstr) => length out = length indx /\ take k out = take k (map (pick (expand counts names)) indx))
    0 (length indx) (fun i out =>
        let! index_elt := rd indx i in
        if (index_elt =? NA_INTEGER)%Z then wr out i None
        else
          let! s := rdZ names (find_rle_index counts (index_elt - 1)) in
          wr out i s) (replicate (length indx) (Some []))) as (out & E & Lo & Ho).
  - by rewrite replicate_length.
  - intros k out Hk [Lo Ho]. destruct (lookup_lt_is_Some_2 indx k ltac:(lia)) as [i Hi]. assert (Hi2 := Hi). apply rd_Ok in Hi2. rewrite Hi2. cbn [bind].
    assert (W : (if (i =? NA_INTEGER)%Z then wr out k None else let! s := rdZ names (find_rle_index counts (i - 1)) in wr out k s) = Ok (<[k := pick (expand counts names) i]> out)).
    { unfold pick. destruct (Z.eqb_spec i NA_INTEGER) as [->|Hn]; [by rewrite wr_Ok by lia|].
      assert (B : (1 <= i <= Z.of_nat (length (expand counts names)))%Z) by (by destruct (Forall_lookup_1 _ _ _ _ F Hi)).
      rewrite find_elt by (done || lia). destruct (lookup_lt_is_Some_2 (expand counts names) (Z.to_nat (i - 1)) ltac:(lia)) as [s Hs].
      replace (i - 1)%Z with (Z.of_nat (Z.to_nat (i - 1))) by lia. rewrite rdZ_nat. assert (Hs2 := Hs). apply rd_Ok in Hs2. rewrite Hs2. cbn [bind].
      rewrite wr_Ok by lia. f_equal. f_equal. rewrite Nat2Z.id. symmetry. by apply nth_lookup_Some. }
    rewrite W. eexists. split; [done|]. split; [by rewrite insert_length|].
    rewrite !(take_S_r _ k (pick (expand counts names) i)); [|by rewrite list_lookup_fmap, Hi|by rewrite list_lookup_insert by lia].
    f_equal. by rewrite take_insert by lia.
  - match goal with |- bind ?t _ = _ => assert (H : t = Ok out) by exact E end. rewrite H. cbn [bind]. do 2 f_equal. rewrite !take_ge in Ho; [done|by rewrite map_length; lia|lia].
Qed.

(** ** What does not hold *)
(** R's subsetting gives [NA] for a location past the end; this method gives the
    last string instead (and reads out of bounds when there is no run at all). *)
Theorem C45_past_end_refuted : exists counts names i, rle_ok counts names /\ (Z.of_nat (length (expand counts names)) < i)%Z /\
  altrep_rle_Extract_subset (altrep_rle_Make counts names) [i] = Ok (Some [Some [98]%Z]).
Proof.
  exists [2; 1]%Z, [Some [97]; Some [98]]%Z, 9%Z. split; [split; [repeat constructor; lia|done]|]. split; [vm_compute; done|]. vm_compute. done.
Qed.
Theorem C45_empty_refuted : exists i, rle_ok [] [] /\ (1 <= i)%Z /\ altrep_rle_Extract_subset (altrep_rle_Make [] []) [i] = UB "out-of-bounds read".
Proof. exists 1%Z. split; [by split|]. split; [lia|]. done. Qed.

(** ** Examples *)
Definition ex_counts : list Z := [2; 0; 3]%Z.
Definition ex_strs : list rstr := [Some [97]; None; Some [99]]%Z.
Example C45_example : rle_ok ex_counts ex_strs /\ expand ex_counts ex_strs = [Some [97]; Some [97]; Some [99]; Some [99]; Some [99]]%Z /\
  altrep_rle_string_Elt (altrep_rle_Make ex_counts ex_strs) 2 = Ok (Some [99]%Z) /\
  altrep_rle_Extract_subset (altrep_rle_Make ex_counts ex_strs) [5; NA_INTEGER; 2]%Z = Ok (Some [Some [99]; None; Some [97]]%Z).
Proof. split; [split; [repeat constructor; lia|done]|]. vm_compute. done. Qed.

Print Assumptions C45_length.
Print Assumptions C45_elt.
Print Assumptions C45_materialize.
Print Assumptions C45_same.
Print Assumptions C45_extract.
Print Assumptions C45_past_end_refuted.
Print Assumptions C45_empty_refuted.
