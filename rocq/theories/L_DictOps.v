(** * Lemmas: the functions built on the hash table, over an abstract element type *)
From Verif Require Import Base M_Growable M_Hash M_Dict L_Proxy L_DictNum L_Dict L_Growable.
From Coq Require Import ZifyBool ZifyNat.

Section ops.
  Context {A B : Type} (eqb : A -> A -> bool) (incomplete : A -> bool)
    (sem : A -> B) (dom : A -> Prop) (hf : A -> Z).
  Context (eqb_spec : forall a b, dom a -> dom b -> eqb a b = true <-> sem a = sem b).
  Context (hf_spec : forall a b, dom a -> dom b -> sem a = sem b -> hf a = hf b).

  Notation dinv := (dinv eqb sem dom hf).
  Notation firsts := (firsts eqb).
  Notation X x := (map sem x).

  Lemma visit_step x d m : dinv x d m -> m < length x ->
    exists d' s f key, dict_visit eqb d m = Ok (d', Z.of_nat s, key) /\ dinv x d' (S m) /\
      d_size d' = d_size d /\ s < Z.to_nat (d_size d) /\
      d_key d' !! s = Some (Z.of_nat f) /\ f <= m /\ is_first (X x) f /\ X x !! f = X x !! m /\
      (forall s' j, d_key d !! s' = Some (Z.of_nat j) -> d_key d' !! s' = Some (Z.of_nat j)) /\
      ((key = DICT_EMPTY /\ f = m /\ d_key d !! s = Some DICT_EMPTY /\ d_key d' = <[s := Z.of_nat m]> (d_key d)) \/
       (key = Z.of_nat f /\ f < m /\ d' = d)).
  Proof. by apply dict_visit_spec. Qed.

  Lemma firsts_mono x i n : i <= n -> length (firsts x i) <= length (firsts x n).
  Proof.
    intros H. induction H as [|n H IH]; [done|]. rewrite firsts_S, app_length. lia.
  Qed.

  Lemma key_empty (f : nat) : (Z.of_nat f =? DICT_EMPTY)%Z = false.
  Proof. unfold DICT_EMPTY. lia. Qed.

  Definition fits (x : list A) : Prop := (Z.of_nat (length x) <= R_LEN_T_MAX)%Z.

  (** ** unique_loc *)
  Definition loc_of (i : nat) : Z := (Z.of_nat i + 1)%Z.

  Lemma vec_unique_loc_spec x : Forall dom x -> fits x -> (Z.of_nat (length (firsts x (length x))) <= 2 ^ 30)%Z ->
    vec_unique_loc eqb x (map hf x) = Ok (map loc_of (firsts x (length x))).
  Proof.
    intros Hx Hl Hlim. unfold vec_unique_loc.
    destruct (new_dictionary_inv eqb sem dom hf x Hx Hl) as (d & -> & I & _). simpl.
    match goal with |- context [for_ 0 (length x) ?body ?s0] =>
      destruct (for_inv (fun m '(d, g) => dinv x d m /\ ginv g (map loc_of (firsts x m))) 0 (length x) body s0)
        as ([d' g] & -> & I' & G) end.
    - split; [done|]. by apply (new_growable_inv 256).
    - intros i [d1 g1] Hi [I1 G1].
      destruct (visit_step x d1 i I1) as (d2 & s & f & key & -> & I2 & Hsz & Hs & Ek & Hf & Ff & Ef & _ & Hc); [lia|].
      simpl. destruct Hc as [(-> & -> & _)|(-> & Hlt & ->)].
      + simpl. assert (Efb : firstb eqb x i = true) by (by apply (firstb_spec eqb sem dom eqb_spec); [|lia|]).
        assert (Hlen : S (length (firsts x i)) <= length (firsts x (length x))).
        { etransitivity; [|apply (firsts_mono x (S i)); lia]. rewrite firsts_S, Efb, app_length. simpl. lia. }
        destruct (growable_push_inv g1 (map loc_of (firsts x i)) (Z.of_nat i + 1)%Z) as (g2 & -> & G2 & _); [done| |].
        { rewrite map_length. lia. }
        simpl. eexists. split; [reflexivity|]. split; [done|].
        rewrite firsts_S, Efb, map_app. done.
      + rewrite key_empty. eexists. split; [reflexivity|]. split; [done|].
        assert (Efb : firstb eqb x i = false).
        { apply Bool.not_true_is_false. intros E. apply (firstb_spec eqb sem dom eqb_spec) in E; [|done|lia].
          by apply (E f Hlt). }
        rewrite firsts_S, Efb, app_nil_r. done.
    - simpl. f_equal. by apply growable_values_inv.
  Qed.

  (** ** duplicate_any *)
  Lemma vec_duplicate_any_spec x : Forall dom x -> fits x ->
    exists b, vec_duplicate_any eqb x (map hf x) = Ok b /\
      (b = true <-> exists i j, i < j < length x /\ X x !! i = X x !! j).
  Proof.
    intros Hx Hl. unfold vec_duplicate_any.
    destruct (new_dictionary_inv eqb sem dom hf x Hx Hl) as (d & -> & I & _). simpl.
    match goal with |- context [for_brk 0 (length x) ?body ?s0] =>
      destruct (for_brk_inv (fun m '(d, b) => dinv x d m /\ b = false /\ forall i, i < m -> is_first (X x) i)
        (fun '(d, b) => b = true <-> exists i j, i < j < length x /\ X x !! i = X x !! j) 0 (length x) body s0)
        as ([d' b] & -> & Hb) end.
    - split_and!; [done|done|intros; lia].
    - intros i [d1 b1] Hi (I1 & -> & H1).
      destruct (visit_step x d1 i I1) as (d2 & s & f & key & -> & I2 & Hsz & Hs & Ek & Hf & Ff & Ef & _ & Hc); [lia|].
      simpl. destruct Hc as [(-> & -> & _)|(-> & Hlt & ->)].
      + simpl. left. eexists. split; [reflexivity|]. split_and!; [done|done|].
        intros k Hk. destruct (decide (k = i)) as [->|]; [done|]. apply H1. lia.
      + rewrite key_empty. right. eexists. split; [reflexivity|]. split; [|done].
        intros _. exists f, i. split; [lia|done].
    - intros [d1 b1] (_ & -> & H1). split; [done|]. intros (i & j & Hij & E).
      exfalso. apply (H1 j ltac:(lia) i ltac:(lia) E).
    - simpl. eauto.
  Qed.

  (** ** unique_count *)
  Lemma vec_unique_count_spec x : Forall dom x -> fits x ->
    vec_unique_count eqb x (map hf x) = Ok (Z.of_nat (length (firsts x (length x)))).
  Proof.
    intros Hx Hl. unfold vec_unique_count.
    destruct (new_dictionary_inv eqb sem dom hf x Hx Hl) as (d & -> & I & _). simpl.
    destruct (dict_load_spec eqb sem dom hf eqb_spec hf_spec x d I) as (d' & -> & I'). simpl.
    f_equal. apply I'.
  Qed.

  (** ** duplicate_id *)
  Lemma vec_duplicate_id_spec x : Forall dom x -> fits x ->
    exists out, vec_duplicate_id eqb x (map hf x) = Ok out /\ length out = length x /\
      forall i, i < length x -> exists f, out !! i = Some (loc_of f) /\ f <= i /\ is_first (X x) f /\ X x !! f = X x !! i.
  Proof.
    intros Hx Hl. unfold vec_duplicate_id.
    destruct (new_dictionary_inv eqb sem dom hf x Hx Hl) as (d & -> & I & _). simpl.
    match goal with |- context [for_ 0 (length x) ?body ?s0] =>
      destruct (for_inv (fun m '(d, out) => dinv x d m /\ length out = length x /\
         forall i, i < m -> exists f, out !! i = Some (loc_of f) /\ f <= i /\ is_first (X x) f /\ X x !! f = X x !! i)
         0 (length x) body s0) as ([d' out] & -> & I' & Ho & H) end.
    - split_and!; [done|apply replicate_length|intros; lia].
    - intros i [d1 out] Hi (I1 & Ho & H1).
      destruct (visit_step x d1 i I1) as (d2 & s & f & key & -> & I2 & Hsz & Hs & Ek & Hf & Ff & Ef & _ & Hc); [lia|].
      simpl. rewrite rdZ_nat, (proj2 (rd_Ok _ _ _) Ek). simpl. rewrite wr_Ok by lia. simpl.
      eexists. split; [reflexivity|]. split; [done|]. rewrite insert_length. split; [done|].
      intros k Hk. destruct (decide (k = i)) as [->|].
      + exists f. rewrite list_lookup_insert by lia. done.
      + rewrite list_lookup_insert_ne by done. apply H1. lia.
    - simpl. exists out. split; [done|]. split; [done|]. intros i Hi. by apply H.
  Qed.

  (** ** match and in *)
  (** Looking up needle [i] in a loaded table. *)
  Lemma lookup_needle x d y i b (dy : @dict A) :
    dinv x d (length x) -> d_hash dy = map hf y -> d_vec dy = y -> y !! i = Some b -> dom b ->
    exists s key, dict_hash_with eqb d dy i = Ok (Z.of_nat s) /\ d_key d !! s = Some key /\
      ((key = DICT_EMPTY /\ forall j, j < length x -> X x !! j <> X y !! i) \/
       (exists j, key = Z.of_nat j /\ j < length x /\ is_first (X x) j /\ X x !! j = X y !! i)).
  Proof.
    intros I Hh Hv Hi Hb. assert (Ei : X y !! i = Some (sem b)) by (rewrite list_lookup_fmap, Hi; done).
    destruct (dict_hash_with_spec eqb sem dom hf eqb_spec hf_spec x d (length x) y i b dy) as (s & E & Hs & _ & Hc); try done.
    rewrite Ei. destruct Hc as [[Ek Hn]|(j & Ek & Hj & Fj & Ej)].
    - exists s, DICT_EMPTY. split_and!; try done. by left.
    - exists s, (Z.of_nat j). split_and!; try done. right. by exists j.
  Qed.

  (** [out] for needle [i]: the first equal element, or NA *)
  Definition match_result (x y : list A) (i : nat) (z : Z) : Prop :=
    (z = NA_INTEGER /\ forall j, j < length x -> X x !! j <> X y !! i) \/
    (exists j, z = loc_of j /\ j < length x /\ is_first (X x) j /\ X x !! j = X y !! i).

  (** The [na_equal = FALSE] test on needle [i], given the hashes. *)
  Definition propagates (propagate : bool) (y : list A) (i : nat) : bool :=
    propagate && match y !! i with Some b => (hf b =? HASH_MISSING)%Z && incomplete b | None => false end.

  Lemma dict_is_incomplete_spec (d : @dict A) y i : d_hash d = map hf y -> d_vec d = y -> i < length y ->
    dict_is_incomplete incomplete d i = Ok (propagates true y i).
  Proof.
    intros Hh Hv Hi. destruct (lookup_lt_is_Some_nth y i Hi) as [b Eb].
    unfold dict_is_incomplete, propagates. rewrite Hh, Hv, Eb. 
    rewrite (proj2 (rd_Ok (map hf y) i (hf b))) by (rewrite list_lookup_fmap, Eb; done). simpl.
    rewrite (proj2 (rd_Ok y i b) Eb). simpl. by destruct (hf b =? HASH_MISSING)%Z.
  Qed.

  Lemma vec_match_spec x y na_equal : Forall dom x -> Forall dom y -> fits x ->
    exists out, vec_match eqb incomplete y (map hf y) x (map hf x) na_equal = Ok out /\ length out = length y /\
      forall i, i < length y -> exists z, out !! i = Some z /\
        (if propagates (negb na_equal) y i then z = NA_INTEGER else match_result x y i z).
  Proof.
    intros Hx Hy Hl. unfold vec_match.
    destruct (new_dictionary_inv eqb sem dom hf x Hx Hl) as (d0 & -> & I0 & _). simpl.
    destruct (dict_load_spec eqb sem dom hf eqb_spec hf_spec x d0 I0) as (d & -> & I). simpl.
    set (dy := Dict y (map hf y) [] 0 0). unfold vec_match_loop.
    match goal with |- context [for_ 0 (length y) ?body ?s0] =>
      destruct (for_inv (fun m out => length out = length y /\
         forall i, i < m -> exists z, out !! i = Some z /\
          (if propagates (negb na_equal) y i then z = NA_INTEGER else match_result x y i z))
         0 (length y) body s0) as (out & -> & Ho & H) end.
    - split; [apply replicate_length|intros; lia].
    - intros i out Hi (Ho & H).
      assert (Hd : (if negb na_equal then dict_is_incomplete incomplete dy i else Ok false)
                   = Ok (propagates (negb na_equal) y i)).
      { destruct na_equal; simpl; [done|]. by rewrite (dict_is_incomplete_spec dy y i) by (done || lia). }
      rewrite Hd. simpl.
      assert (Hw : forall z, (if propagates (negb na_equal) y i then z = NA_INTEGER else match_result x y i z) ->
        exists out', wr out i z = Ok out' /\ length out' = length y /\
          forall k, k < S i -> exists z, out' !! k = Some z /\
          (if propagates (negb na_equal) y k then z = NA_INTEGER else match_result x y k z)).
      { intros z Hz. rewrite wr_Ok by lia. eexists. split; [reflexivity|]. rewrite insert_length. split; [done|].
        intros k Hk. destruct (decide (k = i)) as [->|].
        - exists z. rewrite list_lookup_insert by lia. done.
        - rewrite list_lookup_insert_ne by done. apply H. lia. }
      destruct (propagates (negb na_equal) y i) eqn:Ep; [by apply Hw|].
      destruct (lookup_lt_is_Some_nth y i) as [b Eb]; [lia|].
      destruct (lookup_needle x d y i b dy) as (s & key & -> & Ek & Hc); try done.
      { rewrite Forall_lookup in Hy. by apply (Hy i). }
      simpl. rewrite rdZ_nat, (proj2 (rd_Ok _ _ _) Ek). simpl.
      destruct Hc as [[-> Hn]|(j & -> & Hj)].
      + simpl. apply Hw. left. done.
      + rewrite key_empty. apply Hw. right. by exists j.
    - exists out. split; [done|]. split; [done|]. intros i Hi. by apply H.
  Qed.

  Lemma vec_in_spec x y na_equal : Forall dom x -> Forall dom y -> fits x ->
    exists out, vec_in eqb incomplete y (map hf y) x (map hf x) na_equal = Ok out /\ length out = length y /\
      forall i, i < length y ->
        if propagates (negb na_equal) y i then out !! i = Some NA_LOGICAL
        else (out !! i = Some 0%Z /\ forall j, j < length x -> X x !! j <> X y !! i) \/
             (out !! i = Some 1%Z /\ exists j, j < length x /\ X x !! j = X y !! i).
  Proof.
    intros Hx Hy Hl. unfold vec_in.
    destruct (new_dictionary_inv eqb sem dom hf x Hx Hl) as (d0 & -> & I0 & _). simpl.
    destruct (dict_load_spec eqb sem dom hf eqb_spec hf_spec x d0 I0) as (d & -> & I). simpl.
    set (dy := Dict y (map hf y) [] 0 0).
    set (P := fun i z => if propagates (negb na_equal) y i then z = NA_LOGICAL
        else (z = 0%Z /\ forall j, j < length x -> X x !! j <> X y !! i) \/
             (z = 1%Z /\ exists j, j < length x /\ X x !! j = X y !! i)).
    match goal with |- context [for_ 0 (length y) ?body ?s0] =>
      destruct (for_inv (fun m out => length out = length y /\
         forall i, i < m -> exists z, out !! i = Some z /\ P i z) 0 (length y) body s0) as (out & -> & Ho & H) end.
    - split; [apply replicate_length|intros; lia].
    - intros i out Hi (Ho & H).
      assert (Hd : (if na_equal then Ok false else dict_is_incomplete incomplete dy i)
                   = Ok (propagates (negb na_equal) y i)).
      { destruct na_equal; simpl; [done|]. by rewrite (dict_is_incomplete_spec dy y i) by (done || lia). }
      rewrite Hd. simpl.
      assert (Hw : forall z, P i z -> exists out', wr out i z = Ok out' /\ length out' = length y /\
          forall k, k < S i -> exists z, out' !! k = Some z /\ P k z).
      { intros z Hz. rewrite wr_Ok by lia. eexists. split; [reflexivity|]. rewrite insert_length. split; [done|].
        intros k Hk. destruct (decide (k = i)) as [->|].
        - exists z. rewrite list_lookup_insert by lia. done.
        - rewrite list_lookup_insert_ne by done. apply H. lia. }
      unfold P in Hw at 1.
      destruct (propagates (negb na_equal) y i) eqn:Ep; [by apply Hw|].
      destruct (lookup_lt_is_Some_nth y i) as [b Eb]; [lia|].
      destruct (lookup_needle x d y i b dy) as (s & key & -> & Ek & Hc); try done.
      { rewrite Forall_lookup in Hy. by apply (Hy i). }
      simpl. rewrite rdZ_nat, (proj2 (rd_Ok _ _ _) Ek). simpl.
      destruct Hc as [[-> Hn]|(j & -> & Hj & _ & Ej)].
      + simpl. apply Hw. left. done.
      + rewrite key_empty. apply Hw. right. eauto.
    - exists out. split; [done|]. split; [done|]. intros i Hi. destruct (H i Hi) as (z & -> & Hz).
      unfold P in Hz. destruct (propagates (negb na_equal) y i); [by rewrite Hz|].
      destruct Hz as [[-> ?]|[-> ?]]; [left|right]; done.
  Qed.
End ops.
