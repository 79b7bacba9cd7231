(** * Properties C04 and C05: hashing; equality and hashing of objects *)
From Verif Require Import Base M_Double M_Scalar M_Hash M_Object M_Proxy Spec_Value Spec_Equal
  L_Scalar L_Proxy L_Equal L_Hash P_Equal.

(** ** C04 *)
Theorem C04_equal_rows_hash_equally addr na_equal x y hx hy i j :
  proxy_ok x -> proxy_ok y -> proxy_hashable addr x -> proxy_hashable addr y ->
  hash_fill addr na_equal x = Ok hx -> hash_fill addr na_equal y = Ok hy ->
  i < proxy_size x -> j < proxy_size y -> row_same (proxy_row x i) (proxy_row y j) ->
  hx !! i = hy !! j.
Proof. exact (hash_fill_correct addr na_equal x y hx hy i j). Qed.
Print Assumptions C04_equal_rows_hash_equally.

(** Hashing succeeds, gives one 32-bit value per row. *)
Theorem C04_hash_total addr na_equal p : proxy_ok p -> proxy_hashable addr p ->
  exists hs, hash_fill addr na_equal p = Ok hs /\ length hs = proxy_size p /\
    Forall (fun h => 0 <= h < 2 ^ 32)%Z hs.
Proof.
  intros [W R] H. rewrite hash_fill_ok by done. eexists. split; [reflexivity|].
  unfold proxy_rows. rewrite !map_length, seq_length. split; [done|].
  apply Forall_forall. intros h Hh. apply elem_of_list_fmap in Hh as (r & -> & Hr).
  unfold row_hash_val. destruct (row_hash addr na_equal r) eqn:E; [|lia|lia].
  eapply row_hash_from_u32 in E; [|done]. unfold is_u32 in E. by rewrite two32_pow in E.
Qed.
Print Assumptions C04_hash_total.

(** What vec_equal() calls equal, in terms of the two API functions. *)
Theorem C04_vec_equal_implies_same_hash addr x y hx hy out i :
  proxy_ok x -> proxy_ok y -> same_shape x y -> proxy_plain x -> proxy_plain y ->
  proxy_hashable addr x -> proxy_hashable addr y ->
  vec_equal x y true = Ok out -> vec_hash addr x = Ok hx -> vec_hash addr y = Ok hy ->
  out !! i = Some 1%Z -> hx !! i = hy !! i.
Proof.
  intros Hx Hy Hs Px Py Fx Fy E Ex Ey Hi.
  destruct (vec_equal_na_equal_correct x y) as (o & E' & Hl & Ho); try done.
  assert (o = out) as -> by congruence.
  assert (Hlt : i < proxy_size x) by (apply lookup_lt_Some in Hi; lia).
  destruct (Ho i Hlt) as [[S _]|[_ K]]; [|congruence].
  eapply (hash_fill_correct addr true x y); try done. by rewrite <- (same_shape_size x y Hs).
Qed.
Print Assumptions C04_vec_equal_implies_same_hash.

Example C04_hyps : proxy_hashable (fun _ => 0%Z) ex_x /\ proxy_hashable (fun _ => 0%Z) ex_y /\
  row_same (proxy_row ex_x 1) (proxy_row ex_y 1).
Proof. split_and!; [repeat constructor|repeat constructor|reflexivity]. Qed.
(** The two missing doubles of [ex_x] and [ex_y] have different bits but one hash. *)
Example C04_run : match vec_hash (fun _ => 7%Z) ex_x, vec_hash (fun _ => 7%Z) ex_y with
  | Ok a, Ok b => a !! 1 = b !! 1 /\ a !! 2 = b !! 2 | _, _ => False end.
Proof. vm_compute. done. Qed.

(** ** C05 *)
Theorem C05_reflexive x : obj_wf x -> equal_object x x = true.
Proof. exact (equal_object_refl x). Qed.
Print Assumptions C05_reflexive.
Theorem C05_transitive x y z : obj_wf x -> obj_wf y -> obj_wf z ->
  equal_object x y = true -> equal_object y z = true -> equal_object x z = true.
Proof. exact (equal_object_trans x y z). Qed.
Print Assumptions C05_transitive.

(** Full statement: [equal_object x y = true <-> obj_sem x = obj_sem y], an
    equivalence.  It is false in general (below); it holds in these two forms:
    for both directions together, and for objects without attributes. *)
Theorem C05_both_directions_partial x y : obj_wf x -> obj_wf y ->
  (equal_object x y = true /\ equal_object y x = true) <-> obj_sem x = obj_sem y.
Proof. exact (equal_object_mutual x y). Qed.
Print Assumptions C05_both_directions_partial.
Theorem C05_no_attributes_partial x y : obj_bare x -> obj_bare y -> obj_wf x -> obj_wf y ->
  equal_object x y = true <-> obj_sem x = obj_sem y.
Proof. exact (equal_object_bare x y). Qed.
Print Assumptions C05_no_attributes_partial.

(** Hash compatibility, under the same restrictions. *)
Theorem C05_hash_both_directions_partial addr x y : obj_wf x -> obj_wf y ->
  equal_object x y = true -> equal_object y x = true -> obj_hash addr x = obj_hash addr y.
Proof.
  intros Wx Wy E1 E2. unfold obj_hash. rewrite (hash_object_sem addr x y); try done. by apply equal_object_mutual.
Qed.
Print Assumptions C05_hash_both_directions_partial.
Theorem C05_hash_no_attributes_partial addr x y : obj_bare x -> obj_bare y -> obj_wf x -> obj_wf y ->
  equal_object x y = true -> obj_hash addr x = obj_hash addr y.
Proof.
  intros Bx By Wx Wy E. apply C05_hash_both_directions_partial; try done. by apply bare_sym.
Qed.
Print Assumptions C05_hash_no_attributes_partial.

Ltac crush_wf := repeat first [progress (unfold is_int, INT_MIN, INT_MAX); lia | progress simpl; lia | discriminate | constructor].
(** *** Where the property is false: src/equal.c:389-414 *)
Definition cx : robj := RVec (Int [1%Z]) RNull.                                (* 1L *)
Definition names_a : robj := RVec (Int [5%Z]) RNull.
Definition cy : robj := RVec (Int [1%Z]) (RNode LISTSXP (Some 100%Z) names_a RNull RNull). (* structure(1L, foo = 5L) *)
Definition cz : robj := RVec (Int [1%Z]) (RNode LISTSXP (Some 200%Z) names_a RNull RNull). (* structure(1L, bar = 5L) *)
Theorem C05_symmetric_refuted : exists x y, obj_wf x /\ obj_wf y /\
  equal_object x y = true /\ equal_object y x = false.
Proof. exists cx, cy. split_and!; [crush_wf|crush_wf|reflexivity|reflexivity]. Qed.
Print Assumptions C05_symmetric_refuted.
(** Attribute names are never compared. *)
Theorem C05_attribute_names_refuted : exists x y, obj_wf x /\ obj_wf y /\ x <> y /\
  equal_object x y = true /\ equal_object y x = true.
Proof. exists cy, cz. split_and!; [crush_wf|crush_wf|discriminate|reflexivity|reflexivity]. Qed.
Print Assumptions C05_attribute_names_refuted.
(** Equal objects with different hashes, whatever the addresses. *)
Theorem C05_hash_refuted : exists x y, obj_wf x /\ obj_wf y /\ equal_object x y = true /\
  forall addr, obj_hash addr x <> obj_hash addr y.
Proof.
  exists cx, cy. split_and!; [crush_wf|crush_wf|reflexivity|].
  intros addr. vm_compute. discriminate.
Qed.
Print Assumptions C05_hash_refuted.

Example C05_hyps : obj_wf cy /\ obj_bare cx /\ obj_bare (RList false [cx; RNull; cx] RNull) /\
  obj_wf (RList false [cy; RNull; cx] (RNode LISTSXP (Some 1%Z) cy RNull RNull)).
Proof. split_and!; crush_wf. Qed.
Example C05_run : equal_object (RVec (Dbl [NA_REAL; neg_zero]) RNull) (RVec (Dbl [na_payload; pos_zero]) RNull) = true.
Proof. reflexivity. Qed.
