(** * Lemmas: placing elements into buckets (counting and radix ordering) *)
From Verif Require Import Base M_Order Spec_Order L_OrderSpec L_OrderSort L_OrderIns.
From Coq Require Import Sorting.Sorted.

Section scatter.
  Context {A : Type} (beta : A -> Z).

  (** the elements of bucket [u] *)
  Definition bkt (u : Z) (l : list A) : list A := filter (fun a => beta a = u) l.
  Definition bcnt (u : Z) (l : list A) : nat := length (bkt u l).

  Lemma bkt_app u l1 l2 : bkt u (l1 ++ l2) = bkt u l1 ++ bkt u l2.
  Proof. apply filter_app. Qed.
  Lemma bkt_single_eq a : bkt (beta a) [a] = [a].
  Proof. unfold bkt. rewrite filter_cons_True by done. done. Qed.
  Lemma bkt_single_ne u a : u <> beta a -> bkt u [a] = [].
  Proof. intros H. unfold bkt. rewrite filter_cons_False by congruence. done. Qed.
  Lemma bcnt_snoc u l a : bcnt u (l ++ [a]) = bcnt u l + (if decide (u = beta a) then 1 else 0).
  Proof.
    unfold bcnt. rewrite bkt_app, app_length. f_equal. destruct (decide (u = beta a)) as [->|H].
    - by rewrite bkt_single_eq.
    - by rewrite bkt_single_ne.
  Qed.
  Lemma bkt_elem u l x : x ∈ bkt u l <-> beta x = u /\ x ∈ l.
  Proof. unfold bkt. by rewrite elem_of_list_filter. Qed.
  Lemma bcnt_pos a l : a ∈ l -> 0 < bcnt (beta a) l.
  Proof.
    intros H. unfold bcnt. assert (Hb : a ∈ bkt (beta a) l) by (by apply bkt_elem).
    destruct (bkt (beta a) l); [by apply elem_of_nil in Hb|simpl; lia].
  Qed.

  (** buckets occupy disjoint ranges *)
  Definition sep (st : Z -> nat) (os : list A) : Prop :=
    forall u v, u <> v -> 0 < bcnt u os -> 0 < bcnt v os ->
      st u + bcnt u os <= st v \/ st v + bcnt v os <= st u.

  Definition placed {B} (h : A -> B) (st : Z -> nat) (done : list A) (aux : list B) : Prop :=
    forall u r x, bkt u done !! r = Some x -> aux !! (st u + r) = Some (h x).

  Lemma placed_nil {B} (h : A -> B) st aux : placed h st [] aux.
  Proof. intros u r x H. unfold bkt in H. rewrite filter_nil in H. done. Qed.

  Lemma placed_step {B} (h : A -> B) st os i a aux :
    sep st os -> os !! i = Some a ->
    st (beta a) + bcnt (beta a) (take i os) < length aux ->
    placed h st (take i os) aux ->
    placed h st (take (S i) os) (<[st (beta a) + bcnt (beta a) (take i os) := h a]> aux).
  Proof.
    intros Hsep Ha Hlt Hp u r x. rewrite (take_S_r _ _ a) by done. rewrite bkt_app.
    assert (Hos : os = take i os ++ a :: drop (S i) os) by (by rewrite take_drop_middle).
    assert (Hcnt : forall u, bcnt u os = bcnt u (take i os) + bcnt u [a] + bcnt u (drop (S i) os)).
    { intros w. rewrite Hos at 1. unfold bcnt. change (a :: drop (S i) os) with ([a] ++ drop (S i) os).
      rewrite !bkt_app, !app_length. lia. }
    assert (Ha1 : bcnt (beta a) [a] = 1) by (unfold bcnt; by rewrite bkt_single_eq).
    pose proof (Hcnt (beta a)) as Hca.
    intros Hx. apply lookup_app_Some in Hx as [Hx|[Hr Hx]].
    - pose proof (lookup_lt_Some _ _ _ Hx) as Hr. fold (bcnt u (take i os)) in Hr.
      rewrite list_lookup_insert_ne; [by apply Hp|].
      destruct (decide (u = beta a)) as [->|Hne]; [lia|].
      pose proof (Hcnt u) as Hcu.
      destruct (Hsep u (beta a) Hne); lia.
    - destruct (decide (u = beta a)) as [->|Hne].
      + rewrite bkt_single_eq in Hx. apply list_lookup_singleton_Some in Hx as [Hr0 <-].
        fold (bcnt (beta a) (take i os)) in Hr, Hr0. replace r with (bcnt (beta a) (take i os)) by lia.
        by apply list_lookup_insert.
      + by rewrite bkt_single_ne in Hx.
  Qed.

  (** positions of the buckets when they are laid out in the order [us] *)
  Definition layout (st : Z -> nat) (os : list A) (us : list Z) : Prop :=
    forall k u, us !! k = Some u -> 0 < bcnt u os -> st u = length (concat (map (fun v => bkt v os) (take k us))).

  Lemma concat_lookup {C} (bs : list (list C)) j x : concat bs !! j = Some x ->
    exists k b r, bs !! k = Some b /\ b !! r = Some x /\ j = length (concat (take k bs)) + r.
  Proof.
    revert j. induction bs as [|b bs IH]; intros j H; [done|]. simpl in H.
    apply lookup_app_Some in H as [H|[Hl H]].
    - by exists 0, b, j.
    - destruct (IH _ H) as (k & b' & r & H1 & H2 & H3). exists (S k), b', r. simpl.
      rewrite app_length. split; [done|]. split; [done|]. lia.
  Qed.

  Lemma placed_final {B} (h : A -> B) st os aux us :
    layout st os us -> placed h st os aux ->
    length (concat (map (fun v => bkt v os) us)) = length os ->
    take (length os) aux = map h (concat (map (fun v => bkt v os) us)).
  Proof.
    intros Hl Hp Hlen. set (c := concat _) in *.
    assert (HH : forall j x, c !! j = Some x -> aux !! j = Some (h x)).
    { intros j x Hj. subst c. apply concat_lookup in Hj as (k & b & r & Hk & Hr & ->).
      rewrite list_lookup_fmap in Hk. destruct (us !! k) as [u|] eqn:Eu; [|done].
      simpl in Hk. injection Hk as <-.
      rewrite firstn_map,  <- (Hl k u Eu).
      - by apply Hp.
      - apply lookup_lt_Some in Hr. unfold bcnt. lia. }
    apply list_eq. intros j. destruct (decide (j < length os)) as [Hj|Hj].
    - rewrite lookup_take by done. destruct (lookup_lt_is_Some_2 c j) as [x Hx]; [lia|].
      rewrite (HH j x Hx), list_lookup_fmap, Hx. done.
    - rewrite lookup_take_ge by lia. rewrite list_lookup_fmap, (lookup_ge_None_2 c) by lia. done.
  Qed.

  (** the buckets partition the list *)
  Lemma buckets_perm us os : NoDup us -> (forall a, a ∈ os -> beta a ∈ us) ->
    concat (map (fun v => bkt v os) us) ≡ₚ os.
  Proof.
    revert os. induction us as [|u us IH]; intros os Hnd Hin; simpl.
    - destruct os as [|a os]; [done|]. exfalso. specialize (Hin a). rewrite elem_of_nil in Hin.
      apply Hin. by left.
    - apply NoDup_cons in Hnd as [Hu Hnd].
      transitivity (filter (fun a => beta a = u) os ++ filter (fun x => ¬ beta x = u) os).
      2: { clear. induction os as [|a os IH]; [done|]. rewrite !filter_cons.
           destruct (decide (beta a = u)) as [E|E].
           - rewrite decide_False by tauto. simpl. by rewrite IH.
           - rewrite decide_True by done. rewrite <- Permutation_middle. by rewrite IH. }
      apply Permutation_app; [done|].
      set (os' := filter (fun x => ¬ beta x = u) os).
      assert (Hos' : forall v, v ∈ us -> bkt v os = bkt v os').
      { intros v Hv. subst os'. unfold bkt. rewrite list_filter_filter_l; [done|].
        intros x Hx Hy. congruence. }
      rewrite <- (IH os'); [|done|].
      + match goal with |- concat ?x ≡ₚ concat ?y => cut (x = y); [by intros ->|] end. apply map_ext_in. intros v Hv. apply Hos'. by apply elem_of_list_In.
      + intros a Ha. subst os'. apply elem_of_list_filter in Ha as [Hne Ha].
        apply Hin in Ha. by apply elem_of_cons in Ha as [?|?].
  Qed.

  Lemma layout_sep st os us : NoDup us -> layout st os us -> (forall u, 0 < bcnt u os -> u ∈ us) -> sep st os.
  Proof.
    intros Hnd Hl Hin u v Hne Hu Hv.
    destruct (proj1 (elem_of_list_lookup us u) (Hin u Hu)) as (k & Hk).
    destruct (proj1 (elem_of_list_lookup us v) (Hin v Hv)) as (l & Hl').
    rewrite (Hl k u Hk Hu), (Hl l v Hl' Hv).
    assert (Hmono : forall k l u, k < l -> us !! k = Some u ->
      length (concat (map (fun v => bkt v os) (take k us))) + bcnt u os <=
      length (concat (map (fun v => bkt v os) (take l us)))).
    { intros k0 l0 u0 Hlt Hk0. 
      assert (E : take l0 us = take (S k0) us ++ drop (S k0) (take l0 us)).
      { rewrite <- (take_drop (S k0) (take l0 us)) at 1. f_equal. rewrite take_take. f_equal. lia. }
      rewrite E, (take_S_r _ _ u0) by done. rewrite !map_app, !concat_app, !app_length. simpl.
      rewrite app_nil_r. unfold bcnt. lia. }
    destruct (decide (k < l)) as [?|?]; [left; by apply Hmono|].
    right. apply Hmono; [|done]. assert (k <> l) by (intros ->; congruence). lia.
  Qed.
End scatter.
