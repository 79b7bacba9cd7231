(** * C56: ordering strings by appearance *)
From Verif Require Import Base M_Order M_OrderChr M_Appear Spec_Order Spec_Appear L_OrderSpec L_OrderSort L_OrderTl L_Appear.
From Coq Require Import Sorting.Sorted.

(** Rows tie exactly if they hold the same string. *)
Theorem C56_ties x a b : a ∈ locs (length x) -> b ∈ locs (length x) ->
  appear_cmp x a b = Eq <-> at_loc [] x a = at_loc [] x b.
Proof.
  intros Ha Hb. unfold appear_cmp. rewrite Nat.compare_eq_iff. split; [|by intros ->].
  apply first_pos_inj; by apply f_in.
Qed.

(** On its own: the rows ordered by the first appearance of their string,
    ties in their original order; the sizes of the groups; truelengths as
    they were. *)
Theorem C56_appearance x force ignore tls :
  (Z.of_nat (length x) <= INT_MAX)%Z -> (forall s, s ∈ x -> (0 <= tls s)%Z) ->
  exists o gs g tls' ti,
    chr_appearance x (new_order (length x)) (new_group_infos (length x) force ignore) tls
      (new_truelength_info (length x)) = Ok (Order o false, g, tls', ti) /\
    is_order (appear_cmp x) (length x) o /\
    is_group_sizes (appear_cmp x) o gs /\
    gi_sizes (groups_current g) = (if ignore then [] else gs) /\
    (forall s, tls' s = tls s).
Proof.
  intros Hn Htl. destruct (new_truelength_wf (length x)) as [W C].
  set (g0 := new_group_infos (length x) force ignore).
  assert (Hg : gwf g0).
  { unfold gwf, gi_wf, g0. cbn. lia. }
  destruct (appearance_spec x (length x) tls (new_truelength_info (length x)) g0 false
    (or_data (new_order (length x))) []) as (bs & aux & g' & tls' & i' & E & Hog & Hp & Wi & Ci & Ht);
    [done|done|done|done|done| |done|by cbn; rewrite replicate_length|done|].
  { intros _. cbn. lia. }
  unfold chr_appearance. rewrite E. cbn [bind].
  destruct (truelength_reset_clean tls' i' Ci) as (i2 & ->). cbn [bind].
  exists (concat bs), (map length bs), g', tls', i2. split; [reflexivity|].
  split; [by eapply og_is_order|]. split; [by eapply og_is_group_sizes|]. split; [|done].
  destruct Hp as [_ _ _ _ _ _ Hs]. unfold gsizes in Hs. rewrite Hs. unfold g0. cbn. by destruct ignore.
Qed.

(** On a chunk of rows that an earlier column left tied: the chunk of the
    order is permuted so that equal strings are together, in order of
    appearance, and the group sizes are appended. *)
Theorem C56_appearance_chunk x p_o p_o_aux g N ti tls :
  (Z.of_nat N <= INT_MAX)%Z -> length x <= N -> tlwf N ti -> tl_clean ti ->
  gwf g -> room g (length x) -> (forall s, s ∈ x -> (0 <= tls s)%Z) ->
  length p_o = length x -> length x <= length p_o_aux ->
  exists o gs p_o_aux' g' tls' ti',
    chr_appearance_chunk x p_o p_o_aux g tls ti = Ok (map (at_loc 0%Z p_o) o, p_o_aux', g', tls', ti') /\
    is_order (appear_cmp x) (length x) o /\
    is_group_sizes (appear_cmp x) o gs /\
    gi_sizes (groups_current g') = gi_sizes (groups_current g) ++ (if g_ignore_groups g then [] else gs) /\
    (forall s, tls' s = tls s) /\ tlwf N ti' /\ tl_clean ti'.
Proof.
  intros HN Hn W C Hg Hr Htl Hpo Haux.
  destruct (appearance_spec x N tls ti g true p_o p_o_aux) as (bs & aux & g' & tls' & i' & E & Hog & Hp & Wi & Ci & Ht);
    [done..|].
  unfold chr_appearance_chunk. rewrite E.
  exists (concat bs), (map length bs), aux, g', tls', i'. split; [reflexivity|].
  split; [by eapply og_is_order|]. split; [by eapply og_is_group_sizes|]. split; [|done].
  destruct Hp as [_ _ _ _ _ _ Hs]. unfold gsizes in Hs. rewrite Hs. destruct (g_ignore_groups g); by rewrite ?app_nil_r.
Qed.

(** "b" "a" NA "b" "a" "c", where R uses the truelength of "a" *)
Example C56_example :
  let x := [[98]; [97]; [-1]; [98]; [97]; [99]]%Z in
  let tls := fun s => if bool_decide (s = [97%Z]) then 5%Z else 0%Z in
  exists g tls' ti,
    chr_appearance x (new_order 6) (new_group_infos 6 true false) tls (new_truelength_info 6)
      = Ok (Order [1; 4; 2; 5; 3; 6]%Z false, g, tls', ti) /\
    gi_sizes (groups_current g) = [2; 2; 1; 1] /\ tls' [97%Z] = 5%Z /\ tls' [98%Z] = 0%Z.
Proof. eexists _, _, _. vm_compute. done. Qed.

(** rows 2, 7, 9 of a tied chunk hold "z" "y" "z" *)
Example C56_chunk_example :
  let x := [[122]; [121]; [122]]%Z in
  exists aux g tls' ti,
    chr_appearance_chunk x [2; 7; 9]%Z [0; 0; 0; 0]%Z (new_group_infos 9 true false) (fun _ => 0%Z) (new_truelength_info 9)
      = Ok ([2; 9; 7]%Z, aux, g, tls', ti) /\ gi_sizes (groups_current g) = [2; 1].
Proof. eexists _, _, _, _. vm_compute. done. Qed.

Print Assumptions C56_ties.
Print Assumptions C56_appearance.
Print Assumptions C56_appearance_chunk.
