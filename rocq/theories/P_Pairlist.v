(** * C58: lists of nodes are copied, searched and changed as values *)
From Verif Require Import Base M_Pairlist Spec_Pairlist L_Pairlist.

(** [r_attrib_set()] gives a new object with the same data, the attributes of
    which are those of [x] after one has been set.  All cells and all objects
    that were there are unchanged, [x] and its attributes included. *)
Theorem C58_set (s : state) x o al cs tag value :
  objs s !! x = Some o -> plist (nodes s) (o_attrib o) al cs ->
  exists ext q al' cs',
    attrib_set s x tag value =
      Ok (St (nodes s ++ ext) (objs s ++ [Obj (o_data o) q]), length (objs s)) /\
    plist (nodes s ++ ext) q al' cs' /\ set_attr tag value cs cs'.
Proof.
  intros Ho Hp. apply seg_plist in Hp. unfold attrib_set.
  rewrite (proj2 (rd_Ok _ _ _) Ho). cbn [bind]. rewrite (clone2_ok _ _ _ Ho). cbn [bind].
  pose proof (seg_count _ _ _ _ Hp) as Hcount.
  assert (H0 : seg (nodes s) (o_attrib o) [] [] (o_attrib o)) by done.
  destruct (attrib_set_loop_ok (S (length (nodes s))) _ _ [] al [] cs tag value (o_attrib o) H0 Hp)
    as [[EE Hc]|(ext & q & al' & cs' & EE & HS & Hset)]; [constructor|lia| |]; rewrite EE; cbn [bind].
  - simpl in Hc. destruct (decide (value = VNull)) as [->|Hv].
    + rewrite bool_decide_true by done. exists [], (o_attrib o), al, cs.
      rewrite app_nil_r. destruct o. split; [done|]. split; [by apply seg_plist|]. by constructor.
    + rewrite bool_decide_false by done. unfold new_node.
      rewrite (poke_tag_Some _ _ _ _ (lookup_end _ _)), insert_end. cbn [bind n_car n_cdr].
      rewrite (poke_car_Some _ _ _ _ (lookup_end _ _)), insert_end. cbn [bind n_tag n_cdr].
      rewrite (poke_attrib_ok _ _ _ _ (lookup_end _ _)), insert_end. cbn [bind].
      eexists _, _, (length (nodes s) :: al), ((tag, value) :: cs). split; [reflexivity|].
      split; [|by constructor]. apply seg_plist. simpl. split; [done|].
      eexists. rewrite lookup_end. split; [done|]. by apply seg_app_heap.
  - rewrite (poke_attrib_ok _ _ _ _ (lookup_end _ _)), insert_end. cbn [bind].
    exists ext, q, al', cs'. split; [done|]. split; [by apply seg_plist|done].
Qed.

(** [r_attrib_push()] puts an attribute in front, in place. *)
Theorem C58_push (s : state) x o al cs tag value :
  objs s !! x = Some o -> plist (nodes s) (o_attrib o) al cs ->
  exists h q, attrib_push s x tag value = Ok (St h (<[x := Obj (o_data o) q]> (objs s)), q) /\
    plist h q (length (nodes s) :: al) ((tag, value) :: cs) /\
    take (length (nodes s)) h = nodes s.
Proof.
  intros Ho Hp. unfold attrib_push. rewrite (proj2 (rd_Ok _ _ _) Ho). cbn [bind]. unfold new_node.
  rewrite (poke_tag_Some _ _ _ _ (lookup_end _ _)), insert_end. cbn [bind n_car n_cdr].
  rewrite (poke_attrib_ok _ _ _ _ Ho). cbn [bind].
  eexists _, _. split; [reflexivity|]. split; [|by rewrite take_app].
  econstructor; [apply lookup_end|]. apply seg_plist, seg_app_heap. by apply seg_plist.
Qed.

(** [node_compact_d()] unlinks the cells with NULL values and keeps the order;
    cells outside the list are unchanged. *)
Theorem C58_compact h nd al cs :
  plist h nd al cs ->
  exists h' q al', node_compact_d h nd = Ok (h', q) /\
    plist h' q al' (filter (fun c => c.2 <> VNull) cs) /\ sublist al' al /\
    (forall a, a < length h -> a ∉ al -> h' !! a = h !! a).
Proof.
  intros Hp. apply seg_plist in Hp. unfold node_compact_d, new_node.
  set (h1 := h ++ [Node None VNull nd]).
  assert (H1 : seg h1 (Some (length h)) [length h] [(None, VNull)] nd).
  { simpl. split; [done|]. exists nd. split; [apply lookup_end|done]. }
  pose proof (seg_count _ _ _ _ Hp) as Hcount.
  destruct (compact_loop_ok (S (length h1)) h1 (length h) [] [] None VNull al cs nd)
    as (h' & al' & EE & HS & Hsub & Hlen & Hfr).
  - done.
  - by apply seg_app_heap.
  - subst h1. rewrite app_length. simpl. lia.
  - simpl last in EE. rewrite EE. cbn [bind].
    cbn [app] in HS. destruct HS as [_ (q & Eq & HS)].
    rewrite (node_cdr_Some _ _ _ Eq). cbn [bind n_cdr].
    exists h', q, al'. split; [done|]. split; [by apply seg_plist|]. split; [done|].
    intros a Ha Hni. rewrite Hfr.
    + subst h1. by apply lookup_app_l.
    + cbn [app]. rewrite elem_of_cons. intros [->|?]; [lia|done].
Qed.

(** [r_pairlist_rev()] turns the list around in place; cells outside the list
    are unchanged. *)
Theorem C58_rev h nd al cs :
  plist h nd al cs ->
  exists h' q, pairlist_rev h nd = Ok (h', q) /\ plist h' q (reverse al) (reverse cs) /\
    length h' = length h /\ (forall a, a ∉ al -> h' !! a = h !! a).
Proof.
  intros Hp. pose proof Hp as Hp0. apply seg_plist in Hp. unfold pairlist_rev.
  pose proof (seg_count _ _ _ _ Hp) as Hcount.
  destruct nd as [a|].
  - rewrite bool_decide_false by done.
    destruct (rev_loop_ok (S (length h)) h [] [] al cs None (Some a)) as (h' & q & EE & HS & Hlen & Hfr).
    + done.
    + done.
    + by eapply seg_nodup.
    + lia.
    + exists h', q. rewrite !app_nil_r in HS. split; [done|]. split; [by apply seg_plist|]. done.
  - rewrite bool_decide_true by done. exists h, None. split; [done|].
    inversion Hp0; subst. split; [constructor|]. done.
Qed.

(** [r_pairlist_find()] gives the first cell with the tag, or NULL if there is
    none. *)
Theorem C58_find h nd al cs tag :
  plist h nd al cs ->
  (pairlist_find h nd tag = Ok None /\ Forall (fun c => c.1 <> tag) cs) \/
  (exists i a v, pairlist_find h nd tag = Ok (Some a) /\ al !! i = Some a /\
     cs !! i = Some (tag, v) /\ Forall (fun c => c.1 <> tag) (take i cs)).
Proof.
  intros Hp. apply seg_plist in Hp. apply find_loop_ok; [done|].
  pose proof (seg_count _ _ _ _ Hp). lia.
Qed.

(** [r_new_pairlist()] makes a list of new cells from the first [n] pairs and
    gives its last cell. *)
Theorem C58_new h args n :
  n <= length args ->
  exists ext q tail al, new_pairlist h args n = Ok (h ++ ext, q, tail) /\
    plist (h ++ ext) q al (take n args) /\ tail = last al.
Proof.
  intros Hn. rewrite (new_pairlist_ok _ _ _ Hn). destruct n as [|n].
  - eexists _, _, _, []. split; [reflexivity|]. split; [|done]. constructor.
  - eexists _, _, _, (seq (S (length h)) (S n)). split; [reflexivity|].
    set (c := Node _ _ _).
    assert (Hl : length (take (S n) args) = S n) by (rewrite take_length; lia).
    split.
    + apply seg_plist.
      pose proof (mk_seg (h ++ [c]) (S (length h)) (take (S n) args) None []) as HH.
      rewrite app_nil_r, Hl, <- app_assoc in HH. apply HH.
      * rewrite app_length. simpl. lia.
      * intros E. by rewrite E in Hl.
    + rewrite seq_S. rewrite last_snoc. cbn [Nat.ltb Nat.leb]. f_equal. lia.
Qed.

(** [r_node_tree_clone()] gives the same tree in new cells only; all cells
    that were there are unchanged. *)
Theorem C58_tree_clone h v T fuel :
  rep 0 (length h) h v T -> height T <= fuel ->
  exists ext v', node_tree_clone fuel h v = Ok (h ++ ext, v') /\
    rep (length h) (length (h ++ ext)) (h ++ ext) v' T.
Proof. apply node_tree_clone_ok. Qed.

(** ** Examples *)

(** Two objects share the cells 0-2; the tag 7 of the first is set, which
    copies the cells 0 and 1. *)
Definition ex_heap : heap :=
  [Node (Some 5%Z) (VObj 50) (Some 1); Node (Some 7%Z) (VObj 70) (Some 2); Node (Some 9%Z) VNull None].
Example C58_example_set :
  attrib_set (St ex_heap [Obj 1 (Some 0); Obj 2 (Some 0)]) 0 (Some 7%Z) (VObj 71) =
  Ok (St (ex_heap ++ [Node (Some 5%Z) (VObj 50) (Some 4); Node (Some 7%Z) (VObj 71) (Some 2)])
         [Obj 1 (Some 0); Obj 2 (Some 0); Obj 1 (Some 3)], 2).
Proof. reflexivity. Qed.
Example C58_example_drop :
  attrib_set (St ex_heap [Obj 1 (Some 0); Obj 2 (Some 0)]) 1 (Some 7%Z) VNull =
  Ok (St (ex_heap ++ [Node (Some 5%Z) (VObj 50) (Some 2)])
         [Obj 1 (Some 0); Obj 2 (Some 0); Obj 2 (Some 3)], 2).
Proof. reflexivity. Qed.
Example C58_example_plist :
  plist ex_heap (Some 0) [0; 1; 2] [(Some 5%Z, VObj 50); (Some 7%Z, VObj 70); (Some 9%Z, VNull)].
Proof. repeat (econstructor; [reflexivity|]). constructor. Qed.
Example C58_example_push :
  attrib_push (St ex_heap [Obj 1 (Some 0)]) 0 (Some 2%Z) (VObj 20) =
  Ok (St (ex_heap ++ [Node (Some 2%Z) (VObj 20) (Some 0)]) [Obj 1 (Some 3)], Some 3).
Proof. reflexivity. Qed.
Example C58_example_compact :
  node_compact_d [Node None VNull (Some 1); Node None (VObj 1) (Some 2); Node None VNull (Some 3);
                  Node None VNull (Some 4); Node None (VObj 4) None] (Some 0) =
  Ok ([Node None VNull (Some 1); Node None (VObj 1) (Some 4); Node None VNull (Some 3);
       Node None VNull (Some 4); Node None (VObj 4) None; Node None VNull (Some 1)], Some 1).
Proof. reflexivity. Qed.
Example C58_example_rev :
  pairlist_rev ex_heap (Some 0) =
  Ok ([Node (Some 5%Z) (VObj 50) None; Node (Some 7%Z) (VObj 70) (Some 0); Node (Some 9%Z) VNull (Some 1)], Some 2).
Proof. reflexivity. Qed.
Example C58_example_find :
  pairlist_find ex_heap (Some 0) (Some 9%Z) = Ok (Some 2) /\ pairlist_find ex_heap (Some 0) (Some 8%Z) = Ok None.
Proof. split; reflexivity. Qed.
Example C58_example_new :
  new_pairlist [] [(Some 1%Z, VObj 1); (None, VObj 2)] 2 =
  Ok ([Node None VNull (Some 1); Node (Some 1%Z) (VObj 1) (Some 2); Node None (VObj 2) None], Some 1, Some 2).
Proof. reflexivity. Qed.
(** [f(g(x), g(x))] with one shared call [g(x)]: the copy has two of them. *)
Example C58_example_tree :
  let h := [Node None (VObj 1) (Some 1); Node None (VObj 2) None;
            Node None (VObj 3) (Some 3); Node None (VNode 0) (Some 4); Node None (VNode 0) None] in
  let g := TNode None (TObj 1) (TNode None (TObj 2) TNull) in
  let T := TNode None (TObj 3) (TNode None g (TNode None g TNull)) in
  rep 0 (length h) h (VNode 2) T /\ height T <= 10 /\
  node_tree_clone 10 h (VNode 2) =
  Ok (h ++ [Node None (VObj 3) (Some 6); Node None (VNode 8) (Some 7); Node None (VNode 10) None;
            Node None (VObj 1) (Some 9); Node None (VObj 2) None;
            Node None (VObj 1) (Some 11); Node None (VObj 2) None], VNode 5).
Proof.
  split; [|split; [simpl; lia|reflexivity]].
  simpl. repeat (eexists _, _; split; [reflexivity|]; split; [lia|]; split; [reflexivity|];
    split; [reflexivity|]; split; [try reflexivity|]); try reflexivity.
  all: simpl; repeat (eexists _, _; split; [reflexivity|]; split; [lia|]; split; [reflexivity|];
    split; [reflexivity|]; split; [try reflexivity|]); try reflexivity.
Qed.

Print Assumptions C58_set.
Print Assumptions C58_push.
Print Assumptions C58_compact.
Print Assumptions C58_rev.
Print Assumptions C58_find.
Print Assumptions C58_new.
Print Assumptions C58_tree_clone.
