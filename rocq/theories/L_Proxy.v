(** * Lemmas about the elementwise loops over proxies *)
From Verif Require Import Base M_Double M_Scalar M_Hash M_Object M_Proxy Spec_Value L_Scalar.
From Coq Require Import ZifyBool ZifyNat.

Lemma lookup_lt_is_Some_nth {A} (l : list A) i : i < length l -> exists a, l !! i = Some a.
Proof. intros H. apply lookup_lt_is_Some_2 in H as [a Ha]. eauto. Qed.

(** ** A loop that writes [out[i] = g i] for every [i < n]. *)
Lemma for_fill {A} (body : nat -> list A -> res (list A)) (g : nat -> A) n (out0 : list A) :
  length out0 = n ->
  (forall i out, i < n -> length out = n -> body i out = wr out i (g i)) ->
  for_ 0 n body out0 = Ok (map g (seq 0 n)).
Proof.
  intros Hlen Hbody.
  destruct (for_inv (fun i out => length out = n /\
              forall k, k < i -> out !! k = Some (g k)) 0 n body out0) as (out & Hf & Hl & Hout).
  - split; [done|]. intros; lia.
  - intros i out Hi (Hl & Hout). rewrite Hbody, wr_Ok by lia. eexists; split; [done|].
    rewrite insert_length. split; [done|]. intros k Hk.
    destruct (decide (k = i)) as [->|]; [apply list_lookup_insert; lia|].
    rewrite list_lookup_insert_ne by done. apply Hout; lia.
  - rewrite Hf. f_equal. simpl in *. apply list_eq. intros k.
    destruct (decide (k < n)).
    + rewrite Hout by lia. symmetry. rewrite list_lookup_fmap, lookup_seq_lt by lia. done.
    + rewrite !lookup_ge_None_2; [done| |lia]. rewrite map_length, seq_length. lia.
Qed.

Lemma zip_loop_spec f g size x y :
  length x = size -> length y = size ->
  (forall i a b, x !! i = Some a -> y !! i = Some b -> f a b = Ok (g a b)) ->
  zip_loop f size x y = Ok (zip_with g x y).
Proof.
  intros Hx Hy Hf. unfold zip_loop.
  set (h := fun i => match x !! i, y !! i with Some a, Some b => g a b | _, _ => 0%Z end).
  rewrite (for_fill _ h).
  - f_equal. apply list_eq. intros i. destruct (decide (i < size)) as [Hi|Hi].
    + rewrite list_lookup_fmap, lookup_seq_lt by lia. simpl.
      destruct (lookup_lt_is_Some_nth x i) as [a Ha]; [lia|].
      destruct (lookup_lt_is_Some_nth y i) as [b Hb]; [lia|].
      rewrite lookup_zip_with. unfold h. rewrite Ha, Hb. done.
    + rewrite !lookup_ge_None_2; [done| |]; [rewrite zip_with_length|rewrite map_length, seq_length]; lia.
  - apply replicate_length.
  - intros i out Hi Hl. unfold h.
    destruct (lookup_lt_is_Some_nth x i) as [a Ha]; [lia|].
    destruct (lookup_lt_is_Some_nth y i) as [b Hb]; [lia|].
    unfold rd. rewrite Ha, Hb. simpl. rewrite (Hf i a b) by done. done.
Qed.

(** ** The short-circuiting data frame loop *)

(** The value decided by the first deciding column. *)
Fixpoint first_decided (decided : Z -> bool) (init : Z) (vals : list Z) : Z :=
  match vals with
  | [] => init
  | v :: vs => if decided v then v else first_decided decided init vs
  end.

Fixpoint count_false (l : list bool) : nat :=
  match l with [] => 0 | b :: l => (if b then 0 else 1) + count_false l end.

Lemma count_false_insert l i : l !! i = Some false ->
  count_false (<[i:=true]> l) + 1 = count_false l.
Proof.
  revert i. induction l as [|b l IH]; intros i H; [done|].
  destruct i; simpl in *; [injection H as ->; simpl; lia|].
  apply IH in H. lia.
Qed.
Lemma count_false_0 l : count_false l = 0 -> forall i b, l !! i = Some b -> b = true.
Proof.
  induction l as [|b l IH]; intros H i c Hi; [done|].
  destruct b; simpl in H; [|lia]. destruct i; simpl in Hi; [congruence|eauto].
Qed.
Lemma count_false_replicate n : count_false (replicate n false) = n.
Proof. induction n; simpl; lia. Qed.

Lemma first_decided_app decided init l v :
  existsb decided l = true -> first_decided decided init (l ++ [v]) = first_decided decided init l.
Proof.
  induction l as [|w l IH]; simpl; [done|].
  destruct (decided w); [done|]. simpl. apply IH.
Qed.
Lemma first_decided_app_none decided init l v :
  existsb decided l = false ->
  first_decided decided init (l ++ [v]) = (if decided v then v else init).
Proof.
  induction l as [|w l IH]; simpl; [done|].
  destruct (decided w); [done|]. simpl. apply IH.
Qed.
Lemma first_decided_none decided init l :
  existsb decided l = false -> first_decided decided init l = init.
Proof.
  induction l as [|w l IH]; simpl; [done|]. destruct (decided w); [done|]. simpl. apply IH.
Qed.

Section sc.
  Context (decided : Z -> bool) (init : Z) (size : nat).

  (** [row k] is the list of values of the columns seen so far at row [k]. *)
  Definition sc_inv (row : nat -> list Z) (st : sc_state) : Prop :=
    length (sc_out st) = size /\ length (sc_known st) = size /\
    sc_remaining st = Z.of_nat (count_false (sc_known st)) /\
    forall k, k < size ->
      sc_out st !! k = Some (first_decided decided init (row k)) /\
      sc_known st !! k = Some (existsb decided (row k)).

  Lemma sc_init_inv : sc_inv (fun _ => []) (sc_init size init).
  Proof.
    unfold sc_inv, sc_init; simpl. rewrite !replicate_length, count_false_replicate. split_and!; try done.
    intros k Hk. rewrite !lookup_replicate_2 by done. done.
  Qed.

  Lemma sc_inv_all_known row col st :
    sc_inv row st -> sc_remaining st = 0%Z -> sc_inv (fun k => row k ++ [col k]) st.
  Proof.
    intros (H1 & H2 & H3 & H4) H0. split_and!; try done. intros k Hk.
    destruct (H4 k Hk) as [Ho Hkn]. rewrite Ho, Hkn.
    assert (E : existsb decided (row k) = true).
    { eapply count_false_0; [|exact Hkn]. lia. }
    rewrite first_decided_app, existsb_app, E by done. done.
  Qed.

  Lemma sc_col_spec f g (x y : list elt) row st :
    length x = size -> length y = size ->
    (forall i a b, x !! i = Some a -> y !! i = Some b -> f a b = Ok (g a b)) ->
    sc_inv row st ->
    exists st', sc_col decided f size x y st = Ok st' /\
      sc_inv (fun k => row k ++ [match x !! k, y !! k with Some a, Some b => g a b | _, _ => 0%Z end]) st'.
  Proof.
    intros Hx Hy Hf Hinv. unfold sc_col.
    set (col := fun k => match x !! k, y !! k with Some a, Some b => g a b | _, _ => 0%Z end).
    apply (for_brk_inv (fun i st => sc_inv (fun k => if k <? i then row k ++ [col k] else row k) st)
             (sc_inv (fun k => row k ++ [col k]))).
    - done.
    - intros i s Hi HI. pose proof HI as (H1 & H2 & H3 & H4).
      destruct (H4 i) as [Ho Hk]; [lia|]. rewrite Nat.ltb_irrefl in Ho, Hk.
      unfold rd. rewrite Hk. simpl.
      destruct (existsb decided (row i)) eqn:E.
      + left. eexists; split; [done|]. split_and!; try done. intros k Hks.
        destruct (H4 k Hks) as [Ho' Hk'].
        destruct (decide (k = i)) as [->|Hne].
        * rewrite Nat.ltb_irrefl in Ho', Hk'. replace (i <? S i) with true by lia.
          rewrite Ho', Hk', first_decided_app, existsb_app, E by done. done.
        * replace (k <? S i) with (k <? i) by lia. done.
      + destruct (lookup_lt_is_Some_nth x i) as [a Ha]; [lia|].
        destruct (lookup_lt_is_Some_nth y i) as [b Hb]; [lia|].
        rewrite Ha, Hb. simpl. rewrite (Hf i a b) by done. simpl.
        assert (Hcol : col i = g a b) by (unfold col; rewrite Ha, Hb; done).
        destruct (decided (g a b)) eqn:Ed.
        * rewrite !wr_Ok by lia. simpl.
          pose proof (count_false_insert _ _ Hk) as Hc.
          assert (HI' : sc_inv (fun k => if k <? S i then row k ++ [col k] else row k)
                    (SC (<[i:=g a b]> (sc_out s)) (<[i:=true]> (sc_known s)) (sc_remaining s - 1))).
          { split_and!; simpl; rewrite ?insert_length; try done; [lia|]. intros k Hks.
            destruct (H4 k Hks) as [Ho' Hk'].
            destruct (decide (k = i)) as [->|Hne].
            - rewrite !list_lookup_insert by lia. replace (i <? S i) with true by lia.
              rewrite first_decided_app_none, existsb_app, E, Hcol by done. simpl. rewrite Ed. done.
            - rewrite !list_lookup_insert_ne by done. replace (k <? S i) with (k <? i) by lia. done. }
          destruct (Z.eqb_spec (sc_remaining s - 1) 0) as [Hz|Hz].
          -- right. eexists; split; [done|].
             destruct HI' as (G1 & G2 & G3 & G4). split_and!; try done. simpl in *. intros k Hks.
             destruct (G4 k Hks) as [Go Gk].
             destruct (Nat.ltb_spec k (S i)); [done|].
             assert (Ek : existsb decided (row k) = true).
             { eapply count_false_0; [|exact Gk]. lia. }
             rewrite Go, Gk, first_decided_app, existsb_app, Ek by done. done.
          -- left. eexists; split; [done|]. done.
        * left. eexists; split; [done|]. split_and!; try done. intros k Hks.
          destruct (H4 k Hks) as [Ho' Hk'].
          destruct (decide (k = i)) as [->|Hne].
          -- replace (i <? S i) with true by lia. rewrite Ho, Hk.
             rewrite first_decided_app_none, existsb_app, E, Hcol by done. simpl. rewrite Ed.
             rewrite first_decided_none by done. done.
          -- replace (k <? S i) with (k <? i) by lia. done.
    - intros s (H1 & H2 & H3 & H4). split_and!; try done. intros k Hk.
      destruct (H4 k Hk) as [Ho Hkn]. simpl in *. replace (k <? size) with true in * by lia. done.
  Qed.

  (** Values of all columns at row [k]. *)
  Definition vals_at (g : elt -> elt -> Z) (xs ys : list vec) (k : nat) : list Z :=
    zip_with (fun x y => match v_data x !! k, v_data y !! k with Some a, Some b => g a b | _, _ => 0%Z end) xs ys.

  Lemma sc_inv_ext row row' st :
    (forall k, k < size -> row k = row' k) -> sc_inv row st -> sc_inv row' st.
  Proof.
    intros H (H1 & H2 & H3 & H4). split_and!; try done. intros k Hk. rewrite <- H by done. auto.
  Qed.

  Lemma sc_cols_spec f g (xs ys : list vec) row st :
    length xs = length ys ->
    Forall (fun v => length (v_data v) = size) xs -> Forall (fun v => length (v_data v) = size) ys ->
    (forall j i x y a b, xs !! j = Some x -> ys !! j = Some y ->
       v_data x !! i = Some a -> v_data y !! i = Some b -> f a b = Ok (g a b)) ->
    sc_inv row st ->
    exists st', sc_cols decided f size xs ys st = Ok st' /\
      sc_inv (fun k => row k ++ vals_at g xs ys k) st'.
  Proof.
    revert ys row st. induction xs as [|x xs IH]; intros [|y ys] row st Hlen Fx Fy Hf Hinv; simpl in *; try lia.
    - eexists; split; [done|]. eapply sc_inv_ext; [|exact Hinv]. intros k _. simpl. by rewrite app_nil_r.
    - inversion Fx as [|? ? Hx Fx']; inversion Fy as [|? ? Hy Fy']; subst x0 l x1 l0.
      destruct (sc_col_spec f g (v_data x) (v_data y) row st) as (st1 & E1 & I1); try done.
      { intros i a b Ha Hb. by eapply (Hf 0). }
      rewrite E1. simpl.
      set (v := fun k => match v_data x !! k, v_data y !! k with Some a, Some b => g a b | _, _ => 0%Z end) in *.
      destruct (Z.eqb_spec (sc_remaining st1) 0) as [Hz|Hz].
      + eexists; split; [done|].
        assert (Hall : forall ws (row' : nat -> list Z), sc_inv row' st1 ->
          forall (cols : nat -> list Z), (forall k, length (cols k) = ws) -> sc_inv (fun k => row' k ++ cols k) st1).
        { induction ws as [|ws IHw]; intros row' I' cols Hc.
          - eapply sc_inv_ext; [|exact I']. intros k _. simpl. specialize (Hc k).
            destruct (cols k); [|done]. by rewrite app_nil_r.
          - pose proof (sc_inv_all_known row' (fun k => nth 0 (cols k) 0%Z) st1 I' Hz) as I2.
            specialize (IHw _ I2 (fun k => drop 1 (cols k))).
            eapply sc_inv_ext; [|apply IHw].
            + intros k _. simpl. rewrite <- app_assoc. f_equal. specialize (Hc k). by destruct (cols k).
            + intros k. rewrite drop_length, Hc. lia. }
        eapply sc_inv_ext; [|apply (Hall (length xs) _ I1 (fun k => vals_at g xs ys k))].
        * intros k _. simpl. unfold vals_at. simpl. by rewrite <- app_assoc.
        * intros k. unfold vals_at. rewrite zip_with_length. lia.
      + destruct (IH ys (fun k => row k ++ [v k]) st1) as (st2 & E2 & I2); try done; [lia| |].
        { intros j i x' y' a b Hxj Hyj. by apply (Hf (S j)). }
        rewrite E2. eexists; split; [done|]. eapply sc_inv_ext; [|exact I2].
        intros k _. simpl. unfold vals_at. simpl. by rewrite <- app_assoc.
  Qed.
End sc.
