(** * Lemmas: set operations over an abstract element type *)
From Verif Require Import Base M_Growable M_Hash M_Dict M_Object M_Proxy Spec_Value Spec_Missing L_Proxy L_DictNum L_Dict L_Growable L_DictOps L_DictOps2 L_DictOps3.
From Coq Require Import ZifyBool ZifyNat.

(** ** Marked positions *)
Definition trues (v : list bool) : list nat :=
  List.filter (fun i => match v !! i with Some b => b | None => false end) (seq 0 (length v)).

Lemma filter_ext_elem {A} (f g : A -> bool) l : (forall a, In a l -> f a = g a) -> List.filter f l = List.filter g l.
Proof.
  induction l as [|a l IH]; intros H; [done|]. simpl. rewrite (H a) by (by left). rewrite IH; [done|].
  intros b Hb. apply H. by right.
Qed.

Lemma trues_snoc v b : trues (v ++ [b]) = trues v ++ (if b then [length v] else []).
Proof.
  unfold trues. rewrite app_length. simpl. rewrite Nat.add_1_r, seq_S, List.filter_app. simpl.
  rewrite lookup_app_r, Nat.sub_diag by done. simpl. f_equal.
  apply filter_ext_elem. intros i Hi. apply in_seq in Hi. rewrite lookup_app_l by lia. done.
Qed.
Lemma trues_S (v : list bool) i (b : bool) : v !! i = Some b -> trues (take (S i) v) = trues (take i v) ++ (if b then [i] else []).
Proof.
  intros H. rewrite (take_S_r _ _ _ H), trues_snoc, take_length, min_l; [done|].
  apply lookup_lt_Some in H. lia.
Qed.
Lemma trues_elem v i : i ∈ trues v <-> v !! i = Some true.
Proof.
  unfold trues. rewrite elem_of_list_In, filter_In, in_seq. split.
  - intros [_ H]. destruct (v !! i) as [[]|]; done.
  - intros H. split; [|by rewrite H]. apply lookup_lt_Some in H. lia.
Qed.
Lemma filter_seq_sorted P a n i j x y : i < j -> List.filter P (seq a n) !! i = Some x ->
  List.filter P (seq a n) !! j = Some y -> x < y.
Proof.
  revert a i j. induction n as [|n IH]; intros a i j Hij; [done|]. simpl. destruct (P a); [|apply IH; done].
  intros Ex Ey. destruct j as [|j]; [lia|]. simpl in Ey. destruct i as [|i]; simpl in Ex.
  - injection Ex as <-. apply elem_of_list_lookup_2 in Ey. apply elem_of_list_In, filter_In in Ey as [Ey _].
    apply in_seq in Ey. lia.
  - apply (IH (S a) i j); [lia|done|done].
Qed.
Lemma trues_take_le v i : length (trues (take i v)) <= length (trues v).
Proof.
  rewrite <- (take_drop i v) at 2. generalize (take i v) (drop i v). intros a b. revert a.
  induction b as [|c b IH]; intros a; [by rewrite app_nil_r|].
  rewrite cons_middle, app_assoc. etrans; [|apply IH]. rewrite trues_snoc, app_length. lia.
Qed.

Lemma count_marked_spec v : count_marked v = Ok (Z.of_nat (length (trues v))).
Proof.
  unfold count_marked.
  match goal with |- for_ 0 _ ?body ?s0 = _ =>
    destruct (for_inv (fun i n => n = Z.of_nat (length (trues (take i v)))) 0 (length v) body s0) as (n & -> & Hn) end.
  - done.
  - intros i n Hi ->. destruct (lookup_lt_is_Some_nth v i) as [b Eb]; [lia|].
    rewrite (proj2 (rd_Ok _ _ _) Eb). simpl. eexists. split; [reflexivity|].
    rewrite (trues_S _ _ _ Eb), app_length. destruct b; simpl; lia.
  - rewrite Hn. rewrite take_ge by lia. done.
Qed.

Lemma marked_loc_spec v : marked_loc (Z.of_nat (length (trues v))) v = Ok (map loc_of (trues v)).
Proof.
  unfold marked_loc. rewrite Nat2Z.id. set (n := length (trues v)).
  match goal with |- context [for_ 0 _ ?body ?s0] =>
    destruct (for_inv (fun i '(vl, j) => length vl = n /\ j = length (trues (take i v)) /\
       take j vl = map loc_of (trues (take i v))) 0 (length v) body s0) as ([vl j] & -> & Hl & Hj & Ht) end.
  - split_and!; [apply replicate_length|done|done].
  - intros i [vl j] Hi (Hl & -> & Ht). destruct (lookup_lt_is_Some_nth v i) as [b Eb]; [lia|].
    rewrite (proj2 (rd_Ok _ _ _) Eb). simpl. pose proof (trues_S _ _ _ Eb) as HS.
    pose proof (trues_take_le v (S i)) as Hle. rewrite HS, app_length in Hle.
    destruct b; simpl in *.
    + rewrite wr_Ok by (fold n in Hle; lia). simpl. eexists. split; [reflexivity|]. cbv beta iota.
      rewrite insert_length, HS, app_length, map_app. simpl. split_and!; [done|lia|].
      rewrite take_S_insert by (fold n in Hle; lia). by rewrite Ht.
    + eexists. split; [reflexivity|]. cbv beta iota. rewrite HS, app_nil_r. done.
  - simpl. f_equal. rewrite Nat.add_0_l in *. rewrite (take_ge v) in Hj, Ht by lia. fold n in Hj. subst j.
    rewrite take_ge in Ht by lia. done.
Qed.

Definition marks (v : list bool) (n : nat) (P : nat -> Prop) : Prop :=
  length v = n /\ forall j, j < n -> exists b, v !! j = Some b /\ (b = true <-> P j).

Lemma marks_ext v n P Q : (forall j, j < n -> P j <-> Q j) -> marks v n P -> marks v n Q.
Proof. intros H [Hl M]. split; [done|]. intros j Hj. destruct (M j Hj) as (b & Eb & Hb). exists b. by rewrite Hb, H. Qed.
Lemma marks_insert v n P j b : j < n -> marks v n P ->
  marks (<[j := b]> v) n (fun k => (k = j /\ b = true) \/ (k <> j /\ P k)).
Proof.
  intros Hj [Hl M]. split; [by rewrite insert_length|]. intros k Hk. destruct (decide (k = j)) as [->|Hne].
  - exists b. rewrite list_lookup_insert by lia. split; [done|]. tauto.
  - destruct (M k Hk) as (c & Ec & Hc). exists c. rewrite list_lookup_insert_ne by done. split; [done|]. tauto.
Qed.
Lemma locates_marked v n P : marks v n P -> locates n P (map loc_of (trues v)).
Proof.
  intros [Hl M]. split.
  - intros k. rewrite elem_of_list_fmap. split.
    + intros (i & -> & Hi). apply trues_elem in Hi. pose proof (lookup_lt_Some _ _ _ Hi) as Hlt.
      destruct (M i) as (b & Eb & Hb); [lia|]. exists i. split_and!; [done|lia|]. apply Hb. congruence.
    + intros (i & -> & Hi & HP). exists i. split; [done|]. apply trues_elem. destruct (M i Hi) as (b & Eb & Hb).
      rewrite Eb. f_equal. by apply Hb.
  - intros a b x y Hab Ex Ey. apply lookup_map_Some in Ex as (i & Ei & ->). apply lookup_map_Some in Ey as (j & Ej & ->).
    pose proof (filter_seq_sorted _ _ _ _ _ _ _ Hab Ei Ej). unfold loc_of. lia.
Qed.

Lemma trues_app_length a b : length (trues (a ++ b)) = length (trues a) + length (trues b).
Proof.
  revert a. induction b as [|c b IH] using rev_ind; intros a; [rewrite app_nil_r; simpl; lia|].
  rewrite app_assoc, !trues_snoc, !app_length, IH. destruct c; simpl; lia.
Qed.
Lemma trues_unmark v j : v !! j = Some true -> S (length (trues (<[j := false]> v))) = length (trues v).
Proof.
  intros H. pose proof (take_drop_middle _ _ _ H) as E. rewrite <- E at 2.
  rewrite insert_take_drop by (by eapply lookup_lt_Some).
  rewrite !trues_app_length. rewrite (trues_app_length [true] (drop (S j) v)) at 1 || idtac.
  change (true :: drop (S j) v) with ([true] ++ drop (S j) v). change (false :: drop (S j) v) with ([false] ++ drop (S j) v).
  rewrite !trues_app_length. simpl. lia.
Qed.

Section ops.
  Context {A B : Type} (eqb : A -> A -> bool) (sem : A -> B) (dom : A -> Prop) (hf : A -> Z).
  Context (eqb_spec : forall a b, dom a -> dom b -> eqb a b = true <-> sem a = sem b).
  Context (hf_spec : forall a b, dom a -> dom b -> sem a = sem b -> hf a = hf b).

  Notation dinv := (dinv eqb sem dom hf).
  Notation firsts := (firsts eqb).
  Notation X x := (map sem x).

  Lemma load_marking_spec x d : dinv x d 0 ->
    exists d' v, load_marking eqb d (length x) = Ok (d', v) /\ dinv x d' (length x) /\
      marks v (length x) (is_first (X x)) /\ d_used d' = Z.of_nat (length (trues v)).
  Proof.
    intros I. unfold load_marking.
    match goal with |- context [for_ 0 _ ?body ?s0] =>
      destruct (for_inv (fun m '(d, v) => dinv x d m /\ length v = length x /\
        forall j, j < m -> exists b, v !! j = Some b /\ (b = true <-> is_first (X x) j)) 0 (length x) body s0)
        as ([d' v] & -> & I' & Hv & M) end.
    { split_and!; [done|apply replicate_length|]. intros j Hj. lia. }
    { intros i [d1 v] Hi (I1 & Hv & M).
      destruct (visit_step eqb sem dom hf eqb_spec hf_spec x d1 i I1) as (d2 & s & f & key & -> & I2 & Hsz2 & Hs & Ek & Hf & Ff & Ef & Hmono & Hc); [lia|].
      simpl. rewrite wr_Ok by lia. simpl. eexists. split; [reflexivity|]. cbv beta iota. rewrite insert_length.
      split_and!; try done. intros j Hj. destruct (decide (j = i)) as [->|Hne].
      - rewrite list_lookup_insert by lia. eexists. split; [reflexivity|].
        destruct Hc as [(-> & -> & _)|(-> & Hlt & _)]; [done|]. rewrite key_empty. split; [done|].
        intros F. destruct (F f Hlt). done.
      - rewrite list_lookup_insert_ne by done. apply M. lia. }
    simpl in *. exists d', v. split; [done|]. split; [done|]. split; [split; done|].
    rewrite (di_used _ _ _ _ _ _ _ I'). f_equal. f_equal. unfold L_Dict.firsts, trues. rewrite Hv.
    apply filter_ext_elem. intros j Hj. apply in_seq in Hj. destruct (M j ltac:(lia)) as (b & -> & Hb).
    assert (Hd : Forall dom x) by apply (di_dom _ _ _ _ _ _ _ I').
    apply eq_bool_prop_intro. split; intros H; apply Is_true_eq_left.
    - apply Hb. apply (firstb_eq eqb sem dom eqb_spec x j Hd); [lia|]. by apply Is_true_true.
    - apply (firstb_eq eqb sem dom eqb_spec x j Hd); [lia|]. apply Hb. by apply Is_true_true.
  Qed.

  Definition occurs (y : list A) (m : nat) (v : option B) : Prop := exists i, i < m /\ X y !! i = v.

  Lemma vec_set_intersect_spec x y : Forall dom x -> Forall dom y -> fits x ->
    exists out, vec_set_intersect eqb x (map hf x) y (map hf y) = Ok out /\
      locates (length x) (fun j => is_first (X x) j /\ occurs y (length y) (X x !! j)) out.
  Proof.
    intros Hx Hy Hl. unfold vec_set_intersect.
    destruct (new_dictionary_inv eqb sem dom hf x Hx Hl) as (d0 & -> & I0 & _). simpl.
    destruct (dict_load_spec eqb sem dom hf eqb_spec hf_spec x d0 I0) as (d & -> & I). simpl.
    set (dy := Dict y (map hf y) [] 0 0).
    assert (Hh : d_hash dy = map hf y) by done. assert (Hv : d_vec dy = y) by done. clearbody dy.
    match goal with |- context [for_ 0 _ ?body ?s0] =>
      destruct (for_inv (fun i v => marks v (length x) (fun j => is_first (X x) j /\ occurs y i (X x !! j))) 0 (length y) body s0)
        as (v & -> & M) end.
    { split; [apply replicate_length|]. intros j Hj. exists false. rewrite lookup_replicate_2 by done. split; [done|].
      split; [done|]. intros (_ & i & Hi & _). lia. }
    { intros i v Hi M. destruct (lookup_lt_is_Some_nth y i) as [b Eb]; [lia|].
      assert (Hb : dom b) by (rewrite Forall_lookup in Hy; by apply (Hy i)).
      destruct (lookup_needle eqb sem dom hf eqb_spec hf_spec x d y i b dy I Hh Hv Eb Hb) as (s & key & -> & Ek & Hc). simpl.
      rewrite rdZ_nat, (proj2 (rd_Ok _ _ _) Ek). simpl.
      destruct Hc as [[-> Hno]|(j & -> & Hj & Fj & Ej)].
      - simpl. eexists. split; [reflexivity|]. revert M. apply marks_ext. intros j Hj.
        split; intros (F & i' & Hi' & E); (split; [done|]); exists i'; (split; [|done]); [lia|].
        destruct (decide (i' = i)) as [->|]; [|lia]. by destruct (Hno j Hj).
      - rewrite key_empty, wrZ_nat, wr_Ok by (destruct M; lia). eexists. split; [reflexivity|].
        pose proof (marks_insert v _ _ j true Hj M) as M'. revert M'. apply marks_ext. intros k Hk. split.
        + intros [[-> _]|[_ (F & i' & Hi' & E)]].
          * split; [done|]. exists i. split; [lia|done].
          * split; [done|]. exists i'. split; [lia|done].
        + intros (F & i' & Hi' & E). destruct (decide (k = j)) as [->|Hne]; [by left|]. right. split; [done|].
          split; [done|]. exists i'. split; [|done]. destruct (decide (i' = i)) as [->|]; [|lia].
          destruct Hne. apply (first_unique (X x)); [done|done|congruence]. }
    simpl. rewrite count_marked_spec. simpl. rewrite marked_loc_spec. eexists. split; [reflexivity|].
    by apply locates_marked.
  Qed.

  Lemma vec_set_difference_spec x y : Forall dom x -> Forall dom y -> fits x ->
    exists out, vec_set_difference eqb x (map hf x) y (map hf y) = Ok out /\
      locates (length x) (fun j => is_first (X x) j /\ ~ occurs y (length y) (X x !! j)) out.
  Proof.
    intros Hx Hy Hl. unfold vec_set_difference.
    destruct (new_dictionary_inv eqb sem dom hf x Hx Hl) as (d0 & -> & I0 & _). simpl.
    destruct (load_marking_spec x d0 I0) as (d & v0 & -> & I & M0 & _). simpl.
    set (dy := Dict y (map hf y) [] 0 0).
    assert (Hh : d_hash dy = map hf y) by done. assert (Hv : d_vec dy = y) by done. clearbody dy.
    match goal with |- context [for_ 0 _ ?body ?s0] =>
      destruct (for_inv (fun i v => marks v (length x) (fun j => is_first (X x) j /\ ~ occurs y i (X x !! j))) 0 (length y) body s0)
        as (v & -> & M) end.
    { revert M0. apply marks_ext. intros j Hj. split; [|tauto]. intros F. split; [done|]. intros (i & Hi & _). lia. }
    { intros i v Hi M. destruct (lookup_lt_is_Some_nth y i) as [b Eb]; [lia|].
      assert (Hb : dom b) by (rewrite Forall_lookup in Hy; by apply (Hy i)).
      destruct (lookup_needle eqb sem dom hf eqb_spec hf_spec x d y i b dy I Hh Hv Eb Hb) as (s & key & -> & Ek & Hc). simpl.
      rewrite rdZ_nat, (proj2 (rd_Ok _ _ _) Ek). simpl.
      destruct Hc as [[-> Hno]|(j & -> & Hj & Fj & Ej)].
      - simpl. eexists. split; [reflexivity|]. revert M. apply marks_ext. intros j Hj.
        split; intros (F & Hn); (split; [done|]); intros (i' & Hi' & E); apply Hn; exists i'; (split; [|done]); [|lia].
        destruct (decide (i' = i)) as [->|]; [|lia]. by destruct (Hno j Hj).
      - rewrite key_empty, wrZ_nat, wr_Ok by (destruct M; lia). eexists. split; [reflexivity|].
        pose proof (marks_insert v _ _ j false Hj M) as M'. revert M'. apply marks_ext. intros k Hk. split.
        + intros [[_ [=]]|[Hne (F & Hn)]]. split; [done|]. intros (i' & Hi' & E). apply Hn. exists i'. split; [|done].
          destruct (decide (i' = i)) as [->|]; [|lia].
          destruct Hne. apply (first_unique (X x)); [done|done|congruence].
        + intros (F & Hn). right. split.
          * intros ->. apply Hn. exists i. split; [lia|done].
          * split; [done|]. intros (i' & Hi' & E). apply Hn. exists i'. split; [lia|done]. }
    simpl. rewrite count_marked_spec. simpl. rewrite marked_loc_spec. eexists. split; [reflexivity|].
    by apply locates_marked.
  Qed.

  Lemma vec_set_union_spec x y : Forall dom x -> Forall dom y -> fits x -> fits y ->
    exists ox oy, vec_set_union eqb x (map hf x) y (map hf y) = Ok (ox, oy) /\
      locates (length x) (is_first (X x)) ox /\
      locates (length y) (fun j => is_first (X y) j /\ ~ occurs x (length x) (X y !! j)) oy.
  Proof.
    intros Hx Hy Hl Hl2. unfold vec_set_union.
    destruct (new_dictionary_inv eqb sem dom hf x Hx Hl) as (d0 & -> & I0 & _). simpl.
    destruct (load_marking_spec x d0 I0) as (d & v0 & -> & I & M0 & Hu0). simpl.
    rewrite Hu0, marked_loc_spec. simpl.
    destruct (new_dictionary_inv eqb sem dom hf y Hy Hl2) as (dy0 & -> & J0 & _). simpl.
    destruct (load_marking_spec y dy0 J0) as (dy & v1 & -> & J & M1 & Hu1). simpl.
    match goal with |- context [for_ 0 _ ?body ?s0] =>
      destruct (for_inv (fun i '(v, c) => marks v (length y) (fun j => is_first (X y) j /\ (j < i -> ~ occurs x (length x) (X y !! j))) /\
         c = Z.of_nat (length (trues v))) 0 (length y) body s0)
        as ([v c] & -> & M & Hc) end.
    { split; [|done]. revert M1. apply marks_ext. intros j Hj. split; [|tauto]. intros F. split; [done|]. lia. }
    { intros i [v c] Hi [M ->]. destruct M as [Hlv M].
      destruct (M i ltac:(lia)) as (m & Em & Hm). rewrite (proj2 (rd_Ok _ _ _) Em). simpl. destruct m; simpl.
      2:{ eexists. split; [reflexivity|]. cbv beta iota. split; [|done]. refine (marks_ext _ _ _ _ _ (conj Hlv M)). intros j Hj. split.
          - intros [F H]. split; [done|]. intros Hj'. apply H. destruct (decide (j = i)) as [->|]; [|lia].
            assert (false = true) by (apply Hm; done). done.
          - intros [F H]. split; [done|]. intros Hj'. apply H. lia. }
      destruct (lookup_lt_is_Some_nth y i) as [b Eb]; [lia|].
      assert (Hb : dom b) by (rewrite Forall_lookup in Hy; by apply (Hy i)).
      destruct (lookup_needle eqb sem dom hf eqb_spec hf_spec x d y i b dy I (di_hash _ _ _ _ _ _ _ J) (di_vec _ _ _ _ _ _ _ J) Eb Hb) as (s & key & -> & Ek & Hc). simpl.
      rewrite rdZ_nat, (proj2 (rd_Ok _ _ _) Ek). simpl. rewrite wr_Ok by lia. simpl.
      destruct Hm as [Hm _]. destruct (Hm eq_refl) as [Fi _].
      destruct Hc as [[-> Hno]|(j & -> & Hj & Fj & Ej)].
      - simpl. rewrite (list_insert_id _ _ _ Em). eexists. split; [reflexivity|]. cbv beta iota. split; [|lia].
        refine (marks_ext _ _ _ _ _ (conj Hlv M)). intros j Hj. split.
        + intros [F H]. split; [done|]. intros Hj'. destruct (decide (j = i)) as [->|]; [|apply H; lia].
          intros (k & Hk & E). by apply (Hno k).
        + intros [F H]. split; [done|]. intros Hj'. apply H. lia.
      - rewrite key_empty. simpl. eexists. split; [reflexivity|]. cbv beta iota.
        pose proof (trues_unmark _ _ Em). split; [|lia].
        pose proof (marks_insert v (length y) _ i false ltac:(lia) (conj Hlv M)) as M'. revert M'. apply marks_ext. intros k Hk. split.
        + intros [[_ [=]]|[Hne (F & Hn)]]. split; [done|]. intros Hk'. apply Hn. lia.
        + intros (F & Hn). right. split.
          * intros ->. apply Hn; [lia|]. exists j. done.
          * split; [done|]. intros. apply Hn. lia. }
    simpl in *. rewrite Hc, marked_loc_spec. simpl. eexists _, _. split; [reflexivity|]. split; [by apply locates_marked|].
    apply locates_marked. revert M. apply marks_ext. intros j Hj. split; intros [F H]; (split; [done|]); [by apply H|done].
  Qed.

  Lemma vec_set_symmetric_difference_spec x y : Forall dom x -> Forall dom y -> fits x -> fits y ->
    exists ox oy, vec_set_symmetric_difference eqb x (map hf x) y (map hf y) = Ok (ox, oy) /\
      locates (length x) (fun j => is_first (X x) j /\ ~ occurs y (length y) (X x !! j)) ox /\
      locates (length y) (fun j => is_first (X y) j /\ ~ occurs x (length x) (X y !! j)) oy.
  Proof.
    intros Hx Hy Hl Hl2. unfold vec_set_symmetric_difference.
    destruct (new_dictionary_inv eqb sem dom hf x Hx Hl) as (d0 & -> & I0 & _). simpl.
    destruct (new_dictionary_inv eqb sem dom hf y Hy Hl2) as (dy0 & -> & J0 & _). simpl.
    destruct (load_marking_spec x d0 I0) as (d & v0 & -> & I & M0 & Hu0). simpl.
    destruct (load_marking_spec y dy0 J0) as (dy & v1 & -> & J & M1 & Hu1). simpl.
    match goal with |- context [for_ 0 _ ?body ?s0] =>
      destruct (for_inv (fun i '(vx, vy, cx, cy) =>
         marks vx (length x) (fun j => is_first (X x) j /\ ~ occurs y i (X x !! j)) /\
         marks vy (length y) (fun j => is_first (X y) j /\ (j < i -> ~ occurs x (length x) (X y !! j))) /\
         cx = Z.of_nat (length (trues vx)) /\ cy = Z.of_nat (length (trues vy))) 0 (length y) body s0)
        as ([[[vx vy] cx] cy] & -> & Mx & My & Hcx & Hcy) end.
    { split_and!; try done.
      - revert M0. apply marks_ext. intros j Hj. split; [|tauto]. intros F. split; [done|]. intros (i & Hi & _). lia.
      - revert M1. apply marks_ext. intros j Hj. split; [|tauto]. intros F. split; [done|]. lia. }
    { intros i [[[vx vy] cx] cy] Hi (Mx & [Hlv M] & -> & ->).
      destruct (M i ltac:(lia)) as (m & Em & Hm). rewrite (proj2 (rd_Ok _ _ _) Em). simpl. destruct m; simpl.
      2:{ assert (Hnf : ~ is_first (X y) i). { intros F. assert (false = true) by (apply Hm; split; [done|lia]). done. }
          eexists. split; [reflexivity|]. cbv beta iota. split_and!; try done.
          - revert Mx. apply marks_ext. intros j Hj. split; intros [F H]; (split; [done|]); intros (i' & Hi' & E); apply H.
            + destruct (decide (i' = i)) as [->|]; [|exists i'; split; [lia|done]].
              destruct (first_exists eqb sem dom hf eqb_spec hf_spec y i Hy ltac:(lia)) as (f & Hf & Ff & Ef).
              exists f. split; [|congruence]. destruct (decide (f = i)) as [->|]; [done|lia].
            + exists i'. split; [lia|done].
          - refine (marks_ext _ _ _ _ _ (conj Hlv M)). intros j Hj. split.
            + intros [F H]. split; [done|]. intros Hj'. apply H. destruct (decide (j = i)) as [->|]; [done|lia].
            + intros [F H]. split; [done|]. intros Hj'. apply H. lia. }
      destruct (lookup_lt_is_Some_nth y i) as [b Eb]; [lia|].
      assert (Hb : dom b) by (rewrite Forall_lookup in Hy; by apply (Hy i)).
      destruct (lookup_needle eqb sem dom hf eqb_spec hf_spec x d y i b dy I (di_hash _ _ _ _ _ _ _ J) (di_vec _ _ _ _ _ _ _ J) Eb Hb) as (s & key & -> & Ek & Hc). simpl.
      rewrite rdZ_nat, (proj2 (rd_Ok _ _ _) Ek). simpl.
      destruct Hm as [Hm _]. destruct (Hm eq_refl) as [Fi _].
      destruct Hc as [[-> Hno]|(j & -> & Hj & Fj & Ej)].
      - simpl. eexists. split; [reflexivity|]. cbv beta iota. split_and!; try done.
        + revert Mx. apply marks_ext. intros j Hj.
          split; intros (F & Hn); (split; [done|]); intros (i' & Hi' & E); apply Hn; exists i'; (split; [|done]); [|lia].
          destruct (decide (i' = i)) as [->|]; [|lia]. by destruct (Hno j Hj).
        + refine (marks_ext _ _ _ _ _ (conj Hlv M)). intros j Hj. split.
          * intros [F H]. split; [done|]. intros Hj'. destruct (decide (j = i)) as [->|]; [|apply H; lia].
            intros (k & Hk & E). by apply (Hno k).
          * intros [F H]. split; [done|]. intros Hj'. apply H. lia.
      - rewrite key_empty. destruct Mx as [Hlx Mx].
        assert (Ejx : vx !! j = Some true).
        { destruct (Mx j Hj) as (bx & Ebx & Hbx). rewrite Ebx. f_equal. apply Hbx. split; [done|].
          intros (i' & Hi' & E). apply (Fi i' Hi'). congruence. }
        rewrite wrZ_nat, wr_Ok by lia. simpl. rewrite wr_Ok by lia. simpl.
        eexists. split; [reflexivity|]. cbv beta iota.
        pose proof (trues_unmark _ _ Em). pose proof (trues_unmark _ _ Ejx). split_and!; try lia.
        + pose proof (marks_insert vx _ _ j false Hj (conj Hlx Mx)) as M'. revert M'. apply marks_ext. intros k Hk. split.
          * intros [[_ [=]]|[Hne (F & Hn)]]. split; [done|]. intros (i' & Hi' & E). apply Hn. exists i'. split; [|done].
            destruct (decide (i' = i)) as [->|]; [|lia].
            destruct Hne. apply (first_unique (X x)); [done|done|congruence].
          * intros (F & Hn). right. split.
            -- intros ->. apply Hn. exists i. split; [lia|done].
            -- split; [done|]. intros (i' & Hi' & E). apply Hn. exists i'. split; [lia|done].
        + pose proof (marks_insert vy (length y) _ i false ltac:(lia) (conj Hlv M)) as M'. revert M'. apply marks_ext. intros k Hk. split.
          * intros [[_ [=]]|[Hne (F & Hn)]]. split; [done|]. intros Hk'. apply Hn. lia.
          * intros (F & Hn). right. split.
            -- intros ->. apply Hn; [lia|]. exists j. done.
            -- split; [done|]. intros. apply Hn. lia. }
    simpl in *. rewrite Hcx, Hcy, !marked_loc_spec. eexists _, _. split; [reflexivity|].
    split; [by apply locates_marked|].
    apply locates_marked. revert My. apply marks_ext. intros j Hj. split; intros [F H]; (split; [done|]); [by apply H|done].
  Qed.
End ops.
