(** * Lemmas: sorting unique strings *)
From Verif Require Import Base M_Double M_Scalar M_Order M_OrderChr Spec_Order L_OrderSpec L_OrderSort
  L_OrderIns L_OrderScatter L_OrderRadix.
From Coq Require Import Sorting.Sorted.
#[local] Arguments Z.mul : simpl never.
#[local] Arguments Z.add : simpl never.
#[local] Arguments Z.sub : simpl never.

Definition str_wf (s : list Z) : Prop := Forall (fun b => 1 <= b <= 255)%Z s.
Definition str_lt (a b : list Z) : Prop := bytes_vcmp a b = Lt.
(** the byte at [p], 0 after the end *)
Definition chr_byte (p : nat) (s : list Z) : Z := (nth p s 0 mod 256)%Z.

Lemma strcmp_vcmp a b :
  c_strcmp a b = match bytes_vcmp a b with Lt => -1 | Eq => 0 | Gt => 1 end%Z.
Proof.
  revert b. induction a as [|x a IH]; intros [|y b]; simpl; try done.
  destruct (Z.compare_spec x y), (Z.ltb_spec x y), (Z.ltb_spec y x); try lia; done.
Qed.
Lemma bytes_vcmp_drop k a b : take k a = take k b -> bytes_vcmp a b = bytes_vcmp (drop k a) (drop k b).
Proof.
  revert a b. induction k as [|k IH]; intros a b; [done|].
  destruct a as [|x a], b as [|y b]; simpl; try done. intros [= -> E]. rewrite Z.compare_refl. by apply IH.
Qed.

Lemma str_lt_trans a b c : str_lt a b -> str_lt b c -> str_lt a c.
Proof. unfold str_lt. intros H1 H2. by eapply (tp_lt _ bytes_vcmp_tpo). Qed.
Lemma str_lt_irrefl a : ~ str_lt a a.
Proof. unfold str_lt. intros H. rewrite (proj2 (bytes_vcmp_Eq a a)) in H; done. Qed.
Lemma str_total a b : a <> b -> ~ str_lt a b -> str_lt b a.
Proof.
  intros Hne H. unfold str_lt in *. rewrite (tp_sym _ bytes_vcmp_tpo a b).
  destruct (bytes_vcmp a b) eqn:E; [apply bytes_vcmp_Eq in E|..]; done.
Qed.

Definition chr_agree (p : nat) (l : list (list Z)) : Prop :=
  forall s t, s ∈ l -> t ∈ l -> take p s = take p t.

Lemma agree_long p l s t : chr_agree p l -> s ∈ l -> t ∈ l -> s <> t -> p <= length s.
Proof.
  intros H Hs Ht Hne. destruct (decide (p <= length s)) as [?|Hlt]; [done|]. exfalso. apply Hne.
  pose proof (H s t Hs Ht) as E. rewrite take_ge in E by lia.
  assert (length s = length (take p t)) by congruence. rewrite take_length in H0.
  rewrite take_ge in E by lia. done.
Qed.

Lemma nth_wf s p : str_wf s -> p < length s -> (1 <= nth p s 0 <= 255)%Z.
Proof.
  intros H Hp. destruct (lookup_lt_is_Some_2 s p Hp) as [b Hb].
  rewrite (nth_lookup_Some _ _ _ _ Hb). by apply (proj1 (Forall_lookup _ _) H p).
Qed.
Lemma chr_byte_wf s p : str_wf s -> chr_byte p s = nth p s 0%Z.
Proof.
  intros H. unfold chr_byte. destruct (decide (p < length s)) as [Hp|Hp].
  - apply Z.mod_small. pose proof (nth_wf s p H Hp). lia.
  - by rewrite nth_overflow by lia.
Qed.
Lemma chr_byte_range p s : (0 <= chr_byte p s < 256)%Z.
Proof. apply Z.mod_pos_bound. lia. Qed.

Lemma take_S_byte p s : str_wf s -> take (S p) s = take p s ++ (if decide (chr_byte p s = 0%Z) then [] else [chr_byte p s]).
Proof.
  intros H. rewrite (chr_byte_wf s p H). destruct (decide (p < length s)) as [Hp|Hp].
  - destruct (lookup_lt_is_Some_2 s p Hp) as [b Hb]. rewrite (take_S_r _ _ b Hb).
    pose proof (nth_wf s p H Hp). rewrite decide_False by lia.
    by rewrite (nth_lookup_Some _ _ _ _ Hb).
  - rewrite nth_overflow by lia. rewrite decide_True by done. rewrite !take_ge by lia. by rewrite app_nil_r.
Qed.

Lemma chr_agree_S p l : Forall str_wf l -> chr_agree p l ->
  (forall s t, s ∈ l -> t ∈ l -> chr_byte p s = chr_byte p t) -> chr_agree (S p) l.
Proof.
  intros Hw Ha Hb s t Hs Ht. rewrite Forall_forall in Hw.
  rewrite !take_S_byte by (by apply Hw). by rewrite (Ha s t), (Hb s t).
Qed.

Lemma chr_byte_lt p s t : str_wf s -> str_wf t -> take p s = take p t -> (chr_byte p s < chr_byte p t)%Z -> str_lt s t.
Proof.
  intros Hs Ht E H. unfold str_lt. rewrite (bytes_vcmp_drop p s t E).
  rewrite (chr_byte_wf s p Hs), (chr_byte_wf t p Ht) in H.
  destruct (decide (p < length t)) as [Hpt|Hpt].
  - destruct (lookup_lt_is_Some_2 t p Hpt) as [y Hy]. rewrite (drop_S _ _ _ Hy).
    destruct (decide (p < length s)) as [Hps|Hps].
    + destruct (lookup_lt_is_Some_2 s p Hps) as [x Hx]. rewrite (drop_S _ _ _ Hx). simpl.
      rewrite (nth_lookup_Some _ _ _ _ Hx), (nth_lookup_Some _ _ _ _ Hy) in H.
      rewrite (proj2 (Z.compare_lt_iff x y)); done.
    + rewrite drop_ge by lia. done.
  - exfalso. rewrite (nth_overflow t) in H by lia.
    destruct (decide (p < length s)) as [Hps|Hps]; [pose proof (nth_wf s p Hs Hps); lia|].
    rewrite nth_overflow in H by lia. lia.
Qed.

(** ** Insertion *)
Lemma chr_str_ge_spec pass l x y : chr_agree pass l -> x ∈ l -> y ∈ l -> x <> y ->
  exists b, chr_str_ge x y (length x) pass = Ok b /\ (if b then str_lt y x else str_lt x y).
Proof.
  intros Ha Hx Hy Hne.
  assert (HB : forall k, take k x = take k y -> 
     exists b, Ok (0 <=? c_strcmp (drop k x) (drop k y))%Z = Ok b /\ (if b then str_lt y x else str_lt x y)).
  { intros k E. eexists. split; [reflexivity|]. rewrite strcmp_vcmp, <- bytes_vcmp_drop by done.
    destruct (bytes_vcmp x y) eqn:Ec; simpl.
    - by apply bytes_vcmp_Eq in Ec.
    - done.
    - apply str_total; [done|]. unfold str_lt. congruence. }
  unfold chr_str_ge, strcmp_from. destruct (Nat.eqb_spec pass 0) as [E|E].
  - simpl. by apply (HB 0).
  - pose proof (agree_long _ _ _ _ Ha Hx Hy Hne). pose proof (agree_long _ _ _ _ Ha Hy Hx (not_eq_sym Hne)).
    destruct (Nat.ltb_spec (length x) (pass - 1 + 1)); [lia|].
    destruct (Nat.ltb_spec (length x) (pass - 1)); [lia|].
    destruct (Nat.ltb_spec (length y) (pass - 1)); [lia|]. cbn [orb bind].
    apply HB. pose proof (Ha x y Hx Hy) as Et. apply (f_equal (take (pass - 1))) in Et.
    rewrite !take_take in Et. rewrite Nat.min_l in Et by lia. done.
Qed.

Section insertion.
  Context (pass : nat) (all : list (list Z)).
  Hypothesis Hag : chr_agree pass all.

  Lemma chr_insertion_while_spec a left : a ∈ all -> (forall c, c ∈ left -> c ∈ all /\ c <> a) -> forall h rest,
    exists left1 moved h',
      chr_insertion_while a (length a) pass (length left) (left ++ h :: rest) (map length (left ++ h :: rest))
        = Ok (length left1, left1 ++ h' :: moved ++ rest, map length (left1 ++ h' :: moved ++ rest)) /\
      left = left1 ++ moved /\ Forall (fun c => str_lt a c) moved /\
      (forall c, last left1 = Some c -> str_lt c a).
  Proof.
    intros Haa. induction left as [|c left IH] using rev_ind; intros Hin h rest.
    - exists [], [], h. simpl. repeat split; try done.
    - rewrite app_length. simpl length. rewrite Nat.add_1_r. cbn [chr_insertion_while].
      assert (Hlk : ((left ++ [c]) ++ h :: rest) !! length left = Some c).
      { rewrite <- app_assoc. simpl. by rewrite list_lookup_middle. }
      rewrite (proj2 (rd_Ok _ _ _) Hlk). cbn [bind].
      destruct (Hin c) as [Hc Hca]; [apply elem_of_app; right; by left|].
      destruct (chr_str_ge_spec pass all a c Hag Haa Hc (not_eq_sym Hca)) as (b & Eb & Hb).
      rewrite Eb. cbn [bind]. destruct b.
      + exists (left ++ [c]), [], h. rewrite app_length. simpl. rewrite Nat.add_1_r.
        split; [done|]. split; [by rewrite app_nil_r|]. split; [done|].
        intros c' Hc'. rewrite last_snoc in Hc'. by injection Hc' as <-.
      + rewrite (rd_fmap length _ _ c Hlk). cbn [bind].
        assert (Hlen : length left + 1 < length ((left ++ [c]) ++ h :: rest)).
        { rewrite !app_length. simpl. lia. }
        rewrite wr_Ok by lia. cbn [bind].
        rewrite wr_Ok by (rewrite map_length; lia). cbn [bind].
        assert (Hins : <[length left + 1:=c]> ((left ++ [c]) ++ h :: rest) = left ++ c :: c :: rest).
        { replace (length left + 1) with (length (left ++ [c]) + 0) by (rewrite app_length; simpl; lia).
          rewrite insert_app_r. simpl. by rewrite <- app_assoc. }
        assert (Hins' : <[length left + 1:=length c]> (map length ((left ++ [c]) ++ h :: rest)) =
                        map length (left ++ c :: c :: rest)).
        { rewrite <- Hins. change (map length) with (fmap (M:=list) (length (A:=Z))). by rewrite list_fmap_insert. }
        rewrite Hins, Hins'.
        destruct (IH (fun c0 H => Hin c0 (proj2 (elem_of_app _ _ _) (or_introl H))) c (c :: rest))
          as (left1 & moved & h' & E & -> & Hf & Hl).
        rewrite E. exists left1, (moved ++ [c]), h'. rewrite <- !app_assoc. simpl.
        split; [done|]. split; [done|]. split; [|done].
        apply Forall_app. split; [done|]. by repeat constructor.
  Qed.

  Lemma chr_order_insertion_spec : NoDup all ->
    exists l, chr_order_insertion pass all (map length all) = Ok (l, map length l) /\
      l ≡ₚ all /\ StronglySorted str_lt l.
  Proof.
    intros Hnd. unfold chr_order_insertion.
    destruct (Nat.eqb_spec (length all) 0) as [E0|E0].
    { apply nil_length_inv in E0. rewrite E0. exists []. split; [done|]. split; [done|constructor]. }
    match goal with |- exists l, for_ 1 _ ?body ?st = _ /\ _ =>
      destruct (for_inv
        (fun i '(p_x, p_s) => exists l, p_x = l ++ drop i all /\ p_s = map length (l ++ drop i all) /\
            length l = i /\ l ≡ₚ take i all /\ StronglySorted str_lt l)
        1 (length all - 1) body st) as ([p_x p_s] & E & HQ) end.
    { destruct all as [|o0 ost]; [done|]. exists [o0]. simpl. rewrite drop_0.
      repeat (split; [done|]). apply ss_single. }
    { intros i [p_x p_s] Hi (l & -> & -> & Hl & Hp & Hss).
      destruct (lookup_lt_is_Some_2 all i) as [a Ha]; [lia|].
      rewrite (drop_S _ a) by done.
      assert (Hlk : (l ++ a :: drop (S i) all) !! i = Some a) by (rewrite <- Hl; by rewrite list_lookup_middle).
      rewrite (proj2 (rd_Ok _ _ _) Hlk). cbn [bind]. rewrite (rd_fmap length _ i a Hlk). cbn [bind].
      assert (Haa : a ∈ all) by (by eapply elem_of_list_lookup_2).
      assert (Hlin : forall c, c ∈ l -> c ∈ all /\ c <> a).
      { intros c Hc. rewrite Hp in Hc. apply elem_of_list_lookup in Hc as (j & Hj).
        apply lookup_take_Some in Hj as [Hj Hlt]. split; [by eapply elem_of_list_lookup_2|].
        intros ->. pose proof (NoDup_lookup _ _ _ _ Hnd Hj Ha). lia. }
      destruct (chr_insertion_while_spec a l Haa Hlin a (drop (S i) all)) as (left1 & moved & h' & E & -> & Hf & Hlast).
      rewrite Hl in E. rewrite E. cbn [bind]. clear E Hlk.
      rewrite wr_Ok by (rewrite !app_length; simpl; lia). cbn [bind].
      rewrite wr_Ok by (rewrite map_length, !app_length; simpl; lia). cbn [bind].
      assert (Hins : <[length left1:=a]> (left1 ++ h' :: moved ++ drop (S i) all) =
                     (left1 ++ a :: moved) ++ drop (S i) all).
      { replace (length left1) with (length left1 + 0) by lia. rewrite insert_app_r. simpl.
        by rewrite <- app_assoc. }
      assert (Hins' : <[length left1:=length a]> (map length (left1 ++ h' :: moved ++ drop (S i) all)) =
                     map length ((left1 ++ a :: moved) ++ drop (S i) all)).
      { rewrite <- Hins. change (map length) with (fmap (M:=list) (length (A:=Z))). by rewrite list_fmap_insert. }
      rewrite Hins, Hins'. eexists. split; [reflexivity|]. cbn beta iota.
      exists (left1 ++ a :: moved). split; [done|]. split; [done|].
      apply ss_app in Hss as (S1 & S2 & S3).
      split; [rewrite app_length in Hl |- *; simpl; lia|]. split.
      - rewrite (take_S_r _ _ a) by done. rewrite <- Hp.
        rewrite <- app_assoc. apply Permutation_app; [done|]. apply Permutation_cons_append.
      - assert (Hleft : forall x, x ∈ left1 -> str_lt x a).
        { intros x Hx. destruct (last left1) as [c|] eqn:El; [|apply last_None in El; subst; by apply elem_of_nil in Hx].
          pose proof (Hlast c eq_refl) as Hc. apply last_Some in El as [l' ->].
          apply elem_of_app in Hx as [Hx|Hx].
          - apply ss_app in S1 as (_ & _ & S1). eapply str_lt_trans; [|exact Hc]. apply S1; [done|by left].
          - apply elem_of_list_singleton in Hx as ->. done. }
        assert (Hmoved : forall x, x ∈ moved -> str_lt a x).
        { intros x Hx. by apply (proj1 (Forall_forall _ _) Hf). }
        apply ss_app. split; [done|]. split.
        + constructor; [done|]. apply Forall_forall. done.
        + intros x y Hx Hy. apply elem_of_cons in Hy as [->|Hy]; [by apply Hleft|].
          eapply str_lt_trans; [by apply Hleft|by apply Hmoved]. }
    rewrite E. clear E. destruct HQ as (l & -> & -> & Hl & Hp & Hss).
    replace (1 + (length all - 1)) with (length all) in * by lia.
    rewrite drop_all, app_nil_r. rewrite take_ge in Hp by lia. exists l. done.
  Qed.
End insertion.

(** ** One pass of the radix sort *)
Definition cmok (n : nat) (m : chr_mem) : Prop :=
  n <= length (cm_x_aux m) /\ n <= length (cm_sizes_aux m) /\ n <= length (cm_bytes m).
(** the lengths of the working memory do not change *)
Definition cmsame (m m' : chr_mem) : Prop :=
  length (cm_x_aux m') = length (cm_x_aux m) /\ length (cm_sizes_aux m') = length (cm_sizes_aux m) /\
  length (cm_bytes m') = length (cm_bytes m).

Section pass.
  Context (pass n : nat).
  Notation beta := (chr_byte pass).

  Lemma chr_histogram_spec l mem : length l <= n -> cmok n mem ->
    exists b bytes counts, chr_histogram pass l (map length l) mem = Ok (b, bytes, counts) /\
      length bytes = length (cm_bytes mem) /\
      window (replicate 256 0) 0 (fun b => bcnt beta (Z.of_nat b) l) counts /\
      (forall i a, l !! i = Some a -> bytes !! i = Some (beta a)) /\
      (l <> [] -> exists a, a ∈ l /\ b = beta a).
  Proof.
    intros Hn (_ & _ & Hm). unfold chr_histogram.
    match goal with |- exists b by' c, for_ 0 _ ?body ?st = _ /\ _ =>
      destruct (for_inv
        (fun i '(b, bytes, counts) => length bytes = length (cm_bytes mem) /\
          window (replicate 256 0) 0 (fun b => bcnt beta (Z.of_nat b) (take i l)) counts /\
          (forall j a, j < i -> l !! j = Some a -> bytes !! j = Some (beta a)) /\
          (0 < i -> exists a, a ∈ l /\ b = beta a))
        0 (length l) body st) as ([[b bytes] counts] & E & H1 & H2 & H3 & H4) end.
    - split; [done|]. split; [|split; intros; lia]. apply window_init.
      + by rewrite replicate_length.
      + intros j Hj. rewrite replicate_length in Hj. apply lookup_replicate_2. lia.
    - intros i [[b bytes] counts] Hi (Hl & W & Hb & _).
      destruct (lookup_lt_is_Some_2 l i) as [a Ha]; [lia|].
      rewrite (rd_fmap length l i a Ha). cbn [bind].
      assert (Hbyte : (if pass <? length a then let! x := rd l i in let! c := rd x pass in Ok (c mod 256)%Z else Ok 0%Z)
                      = Ok (beta a)).
      { rewrite (proj2 (rd_Ok _ _ _) Ha). cbn [bind]. unfold chr_byte. destruct (Nat.ltb_spec pass (length a)) as [Hp|Hp].
        - destruct (lookup_lt_is_Some_2 a pass Hp) as [c Hc]. rewrite (proj2 (rd_Ok _ _ _) Hc). cbn [bind].
          by rewrite (nth_lookup_Some _ _ _ _ Hc).
        - by rewrite nth_overflow by lia. }
      rewrite Hbyte. cbn [bind]. rewrite wr_Ok by lia. cbn [bind]. unfold bump.
      set (k := Z.to_nat (beta a)).
      assert (Hk : beta a = Z.of_nat k) by (subst k; pose proof (chr_byte_range pass a); lia).
      assert (Hk256 : k < 256) by (pose proof (chr_byte_range pass a); lia).
      rewrite Hk, rdZ_nat. pose proof (window_rd _ _ _ _ k W Hk256) as Er. simpl in Er. rewrite Er. cbn [bind].
      destruct (window_wr _ _ _ _ k (S (bcnt beta (Z.of_nat k) (take i l))) W Hk256) as (c' & Ew & W').
      simpl in Ew. rewrite wrZ_nat, Ew. cbn [bind].
      eexists. split; [reflexivity|]. cbn beta iota. split; [by rewrite insert_length|]. split; [|split].
      + eapply window_ext; [|exact W']. intros b' Hb'. cbn beta. rewrite (take_S_r _ _ a) by done.
        rewrite bcnt_snoc. rewrite Hk. destruct (Nat.eqb_spec b' k) as [->|Hne].
        * rewrite decide_True by done. lia.
        * rewrite decide_False by lia. lia.
      + intros j c Hj Hc. destruct (decide (j = i)) as [->|Hne].
        * rewrite list_lookup_insert by lia. rewrite Ha in Hc. injection Hc as <-. by rewrite <- Hk.
        * rewrite list_lookup_insert_ne by done. apply Hb; [lia|done].
      + intros _. exists a. split; [by eapply elem_of_list_lookup_2|done].
    - exists b, bytes, counts. rewrite E. split; [done|]. split; [done|]. split; [|split].
      + simpl in H2. by rewrite take_ge in H2.
      + intros i a Ha. apply H3; [|done]. simpl. by eapply lookup_lt_Some.
      + intros Hne. apply H4. destruct l; [done|simpl; lia].
  Qed.

  Lemma chr_place_spec l counts mem : length l <= n -> cmok n mem ->
    (forall i a, l !! i = Some a -> cm_bytes mem !! i = Some (beta a)) ->
    window (replicate 256 0) 0 (fun b => if bcnt beta (Z.of_nat b) l =? 0 then 0 else cst beta l b) counts ->
    exists mem' counts', chr_place l (map length l) counts mem = Ok (mem', counts') /\
      cmsame mem mem' /\
      window (replicate 256 0) 0 (fun b => if bcnt beta (Z.of_nat b) l =? 0 then 0 else cst beta l (S b)) counts' /\
      take (length l) (cm_x_aux mem') = concat (map (fun v => bkt beta v l) us256) /\
      take (length l) (cm_sizes_aux mem') = map length (concat (map (fun v => bkt beta v l) us256)).
  Proof.
    intros Hn (Hm1 & Hm2 & Hm3) Hby W. unfold chr_place.
    pose proof (cst_sep beta (chr_byte_range pass) l) as Hsep.
    match goal with |- exists m c, for_ 0 _ ?body ?st = _ /\ _ =>
      destruct (for_inv
        (fun i '(mem', counts') => cmsame mem mem' /\ cm_bytes mem' = cm_bytes mem /\
          window (replicate 256 0) 0 (fun b => if bcnt beta (Z.of_nat b) l =? 0 then 0
                                               else cst beta l b + bcnt beta (Z.of_nat b) (take i l)) counts' /\
          placed beta (fun x => x) (fun u => cst beta l (Z.to_nat u)) (take i l) (cm_x_aux mem') /\
          placed beta length (fun u => cst beta l (Z.to_nat u)) (take i l) (cm_sizes_aux mem'))
        0 (length l) body st) as ([mem' counts'] & E & Hs & Hb & W' & P1 & P2) end.
    - split; [done|]. split; [done|]. split; [|split; apply placed_nil].
      eapply window_ext; [|exact W]. intros b Hb. cbn beta. destruct (_ =? 0); [done|].
      rewrite take_0. unfold bcnt, bkt. rewrite filter_nil. simpl. lia.
    - intros i [mem' counts'] Hi (Hs & Hb & W' & P1 & P2).
      destruct (lookup_lt_is_Some_2 l i) as [a Ha]; [lia|].
      rewrite Hb. rewrite (proj2 (rd_Ok _ _ _) (Hby i a Ha)). cbn [bind].
      set (k := bn beta a).
      assert (Hk : beta a = Z.of_nat k) by (apply bn_Z, chr_byte_range).
      assert (Hk256 : k < 256) by (apply bn_lt, chr_byte_range).
      assert (Hpos : 0 < bcnt beta (Z.of_nat k) l).
      { rewrite <- Hk. apply bcnt_pos. by eapply elem_of_list_lookup_2. }
      pose proof (window_rd _ _ _ _ k W' Hk256) as Er. simpl in Er.
      rewrite (proj2 (Nat.eqb_neq _ 0)) in Er by lia.
      rewrite Hk, rdZ_nat, Er. cbn [bind].
      destruct (window_wr _ _ _ _ k (S (cst beta l k + bcnt beta (Z.of_nat k) (take i l))) W' Hk256) as (c' & Ew & W'').
      simpl in Ew. rewrite wrZ_nat, Ew. cbn [bind].
      rewrite (proj2 (rd_Ok _ _ _) Ha). cbn [bind].
      assert (Hlt : cst beta l k + bcnt beta (Z.of_nat k) (take i l) < length l).
      { pose proof (cst_mono beta l (S k) 256) as Hmono. rewrite cst_256 in Hmono by apply chr_byte_range.
        rewrite cst_S in Hmono by done.
        assert (bcnt beta (Z.of_nat k) l = bcnt beta (Z.of_nat k) (take i l) + bcnt beta (Z.of_nat k) [a] + bcnt beta (Z.of_nat k) (drop (S i) l)).
        { rewrite <- (take_drop_middle l i a Ha) at 1. change (a :: drop (S i) l) with ([a] ++ drop (S i) l).
          unfold bcnt. rewrite !bkt_app, !app_length. lia. }
        assert (bcnt beta (Z.of_nat k) [a] = 1). { rewrite <- Hk. unfold bcnt. by rewrite bkt_single_eq. }
        specialize (Hmono ltac:(lia) ltac:(lia)). lia. }
      destruct Hs as (Hs1 & Hs2 & Hs3).
      rewrite wr_Ok by lia. cbn [bind]. rewrite (rd_fmap length l i a Ha). cbn [bind].
      rewrite wr_Ok by lia. cbn [bind].
      eexists. split; [reflexivity|]. cbn beta iota. split; [|split; [done|split; [|split]]].
      + unfold cmsame. cbn. rewrite !insert_length. done.
      + eapply window_ext; [|exact W'']. intros b' Hb'. cbn beta. rewrite (take_S_r _ _ a) by done.
        rewrite bcnt_snoc, Hk. destruct (Nat.eqb_spec b' k) as [->|Hne].
        * rewrite decide_True by done. rewrite (proj2 (Nat.eqb_neq _ 0)) by lia. lia.
        * rewrite decide_False by lia. destruct (_ =? 0); [done|]. lia.
      + cbn. pose proof (placed_step beta (fun x => x) (fun u => cst beta l (Z.to_nat u)) l i a (cm_x_aux mem') Hsep Ha) as HP.
        cbn beta in HP. rewrite Hk, Nat2Z.id in HP. apply HP; [lia|done].
      + cbn. pose proof (placed_step beta length (fun u => cst beta l (Z.to_nat u)) l i a (cm_sizes_aux mem') Hsep Ha) as HP.
        cbn beta in HP. rewrite Hk, Nat2Z.id in HP. apply HP; [lia|done].
    - exists mem', counts'. rewrite E. split; [done|]. split; [done|]. rewrite Nat.add_0_l in W', P1, P2.
      rewrite take_ge in W', P1, P2 by done.
      assert (Hlen : length (concat (map (fun v => bkt beta v l) us256)) = length l).
      { rewrite <- (cst_256 beta (chr_byte_range pass) l). unfold cst. by rewrite take_ge by (by rewrite us256_length). }
      split; [|split].
      + eapply window_ext; [|exact W']. intros b Hb'. cbn beta. destruct (Nat.eqb_spec (bcnt beta (Z.of_nat b) l) 0); [done|].
        by rewrite cst_S.
      + rewrite (placed_final beta (fun x => x) (fun u => cst beta l (Z.to_nat u)) l _ us256); [apply map_id|..].
        all: try exact P1. all: try apply cst_layout. all: done.
      + apply (placed_final beta length (fun u => cst beta l (Z.to_nat u)) l _ us256); [|exact P2|done].
        apply cst_layout.
  Qed.
End pass.

(** ** The recursion *)
Lemma cmsame_refl m : cmsame m m.
Proof. done. Qed.
Lemma cmsame_trans m1 m2 m3 : cmsame m1 m2 -> cmsame m2 m3 -> cmsame m1 m3.
Proof. unfold cmsame. intuition congruence. Qed.
Lemma cmok_same n m m' : cmok n m -> cmsame m m' -> cmok n m'.
Proof. unfold cmok, cmsame. intuition lia. Qed.

Lemma agree_lt_max p max l : NoDup l -> chr_agree p l -> Forall (fun s => length s <= max) l -> 1 < length l -> p < max.
Proof.
  intros Hnd Ha Hm Hl. destruct l as [|s [|t l]]; simpl in Hl; [lia..|].
  assert (Hs : s ∈ s :: t :: l) by (by left). assert (Ht : t ∈ s :: t :: l) by (right; by left).
  assert (Hne : s <> t). { intros ->. apply NoDup_cons_1_1 in Hnd. apply Hnd. by left. }
  rewrite Forall_forall in Hm. pose proof (Hm s Hs). pose proof (Hm t Ht).
  destruct (decide (p < max)) as [?|Hge]; [done|]. exfalso. apply Hne.
  pose proof (Ha s t Hs Ht) as E. by rewrite !take_ge in E by lia.
Qed.

Lemma bkt_Forall {A} (P : A -> Prop) (beta : A -> Z) u l : Forall P l -> Forall P (bkt beta u l).
Proof. rewrite !Forall_forall. intros H x Hx. apply bkt_elem in Hx as [_ Hx]. by apply H. Qed.
Lemma bkt_length_le {A} (beta : A -> Z) u l : length (bkt beta u l) <= length l.
Proof. induction l as [|x l IH]; [done|]. unfold bkt in *. rewrite filter_cons. destruct (decide _); simpl; lia. Qed.

Lemma seg_app' {A} (l1 l2 l3 : list A) k n : k = length l1 -> n = length l2 -> seg (l1 ++ l2 ++ l3) k n = l2.
Proof. intros -> ->. apply seg_app. Qed.
Lemma put_seg_app' {A} (l1 l2 l3 s : list A) k : k = length l1 -> length s = length l2 ->
  put_seg (l1 ++ l2 ++ l3) k s = l1 ++ s ++ l3.
Proof. intros -> H. by apply put_seg_app. Qed.

Lemma chr_radix_recurse_spec max fuel : forall pass l mem,
  S (max - pass) <= fuel -> NoDup l -> Forall str_wf l -> chr_agree pass l ->
  Forall (fun s => length s <= max) l -> cmok (length l) mem ->
  exists l' mem', chr_order_radix_recurse fuel pass max l (map length l) mem = Ok (l', map length l', mem') /\
    l' ≡ₚ l /\ StronglySorted str_lt l' /\ cmsame mem mem'.
Proof.
  induction fuel as [|fuel IH]; intros pass l mem Hfuel Hnd Hw Hag Hmx Hmem; [lia|].
  cbn [chr_order_radix_recurse].
  destruct (Nat.leb_spec (length l) ORDER_INSERTION_BOUNDARY) as [Hsm|Hbig].
  { destruct (chr_order_insertion_spec pass l Hag Hnd) as (l' & E & Hp & Hs). rewrite E. cbn [bind].
    exists l', mem. done. }
  unfold ORDER_INSERTION_BOUNDARY in Hbig.
  pose proof (agree_lt_max pass max l Hnd Hag Hmx ltac:(lia)) as Hlt.
  destruct (chr_histogram_spec pass (length l) l mem (le_n _) Hmem) as (b & bytes & counts & E & Hbl & W & Hby & Hb).
  rewrite E. cbn [bind]. clear E.
  assert (Hne : l <> []) by (intros ->; simpl in Hbig; lia).
  destruct (Hb Hne) as (a & Ha & ->).
  assert (Er : rdZ counts (chr_byte pass a) = Ok (bcnt (chr_byte pass) (chr_byte pass a) l)).
  { pose proof (window_rd _ _ _ _ (bn (chr_byte pass) a) W (bn_lt _ (chr_byte_range pass) a)) as Er. simpl in Er.
    rewrite <- (bn_Z _ (chr_byte_range pass) a) in Er. rewrite <- Er, <- rdZ_nat.
    by rewrite <- (bn_Z _ (chr_byte_range pass) a). }
  rewrite Er. cbn [bind]. clear Er.
  set (mem1 := CMem (cm_x_aux mem) (cm_sizes_aux mem) bytes).
  assert (Hmem1 : cmsame mem mem1) by (by split).
  destruct (Nat.eqb_spec (bcnt (chr_byte pass) (chr_byte pass a) l) (length l)) as [Efull|Efull].
  { pose proof (bcnt_full _ _ _ Efull) as Hall.
    assert (Hag' : chr_agree (pass + 1) l).
    { rewrite Nat.add_1_r. apply chr_agree_S; [done..|]. intros s t Hs Ht. by rewrite (Hall s), (Hall t). }
    pose proof (agree_lt_max (pass + 1) max l Hnd Hag' Hmx ltac:(lia)).
    destruct (Nat.eqb_spec (pass + 1) max); [lia|]. cbn [negb].
    destruct (IH (pass + 1) l mem1) as (l' & mem' & E & Hp & Hs & Hsame); try done; [lia| |].
    { by eapply cmok_same. }
    exists l', mem'. split; [done|]. split; [done|]. split; [done|]. by eapply cmsame_trans. }
  destruct (accumulate_spec _ (chr_byte_range pass) l _ _ _ W) as (c2 & E & W2). rewrite E. cbn [bind]. clear E.
  destruct (chr_place_spec pass (length l) l c2 mem1 (le_n _) (cmok_same _ _ _ Hmem Hmem1)) as (mem2 & c3 & E & Hs2 & W3 & Hx & Hsz).
  { exact Hby. }
  { exact W2. }
  rewrite E. cbn [bind]. clear E. rewrite Hx, Hsz. clear Hx Hsz W W2.
  set (B := fun v => bkt (chr_byte pass) v l).
  set (rem := fun i => concat (map B (drop i us256))).
  set (don := fun i => concat (map B (take i us256))).
  assert (Hmem2 : cmsame mem mem2) by (by eapply cmsame_trans).
  assert (HB : forall i, i < 256 -> rem i = B (Z.of_nat i) ++ rem (S i)).
  { intros i Hi. unfold rem. rewrite (drop_S us256 _ _ (us256_lookup i Hi)). done. }
  assert (HD : forall i, i < 256 -> don (S i) = don i ++ B (Z.of_nat i)).
  { intros i Hi. unfold don. rewrite (take_S_r us256 _ _ (us256_lookup i Hi)), map_app, concat_app. simpl.
    by rewrite app_nil_r. }
  assert (HDl : forall i, length (don i) = cst (chr_byte pass) l i) by done.
  assert (HDin : forall i s, s ∈ don i -> (chr_byte pass s < Z.of_nat i)%Z /\ s ∈ l).
  { intros i s Hs. unfold don in Hs. apply elem_of_list_In, in_concat in Hs as (bb & Hbb & Hs).
    apply elem_of_list_In, elem_of_list_fmap in Hbb as (u & -> & Hu). apply elem_of_list_In in Hs.
    apply elem_of_list_lookup in Hu as (k & Hk). apply lookup_take_Some in Hk as [Hk Hki].
    assert (k < 256) by (apply lookup_lt_Some in Hk; by rewrite us256_length in Hk).
    rewrite us256_lookup in Hk by done. injection Hk as <-. apply bkt_elem in Hs as [Hs1 Hs2']. split; [lia|done]. }
  assert (Hperm : concat (map B us256) ≡ₚ l).
  { apply buckets_perm; [apply us256_NoDup|]. intros s _. apply us256_elem, chr_byte_range. }
  match goal with |- context[for_brk 0 UINT8_MAX_SIZE ?body ?st] =>
    destruct (for_brk_inv
      (fun i '(p_x, p_s, m, last) => last = cst (chr_byte pass) l i /\ cmsame mem m /\
         exists S, p_x = S ++ rem i /\ p_s = map length p_x /\ S ≡ₚ don i /\ StronglySorted str_lt S)
      (fun '(p_x, p_s, m, last) => cmsame mem m /\ p_s = map length p_x /\ p_x ≡ₚ l /\ StronglySorted str_lt p_x)
      0 UINT8_MAX_SIZE body st) as ([[[p_x p_s] m] last] & E & HQ) end.
  - split; [done|]. split; [done|]. exists []. unfold rem. rewrite drop_0. split; [done|]. split; [done|].
    split; [done|constructor].
  - intros i [[[p_x p_s] m] last] Hi (-> & Hsm & S & -> & -> & Hp & Hss). unfold UINT8_MAX_SIZE in Hi.
    destruct (Nat.leb_spec (length l) (cst (chr_byte pass) l i)) as [Hend|Hend].
    { right. eexists. split; [reflexivity|]. cbn beta iota. split; [done|]. split; [done|].
      assert (Hr : rem i = []).
      { apply nil_length_inv. pose proof (Permutation_length Hperm) as Hl.
        assert (concat (map B us256) = don i ++ rem i) as Hc.
        { unfold don, rem. rewrite <- concat_app, <- map_app, take_drop. done. }
        rewrite Hc, app_length, HDl in Hl. lia. }
      rewrite Hr, app_nil_r. split; [|done]. rewrite Hp. rewrite <- Hperm.
      assert (concat (map B us256) = don i ++ rem i) as ->.
      { unfold don, rem. rewrite <- concat_app, <- map_app, take_drop. done. }
      by rewrite Hr, app_nil_r. }
    pose proof (window_rd _ _ _ _ i W3 ltac:(lia)) as Er. simpl in Er. rewrite Er. cbn [bind]. clear Er.
    assert (Hi' : i < 256) by lia.
    pose proof (cst_S (chr_byte pass) l i Hi') as HS.
    destruct (Nat.eqb_spec (bcnt (chr_byte pass) (Z.of_nat i) l) 0) as [Ez|Ez].
    { left. rewrite Nat.eqb_refl. eexists. split; [reflexivity|]. cbn beta iota.
      assert (HBn : B (Z.of_nat i) = []) by (by apply nil_length_inv).
      split; [lia|]. split; [done|]. exists S. rewrite (HB i Hi'), (HD i Hi'), HBn, app_nil_r. done. }
    destruct (Nat.eqb_spec (cst (chr_byte pass) l (Datatypes.S i)) 0); [lia|].
    rewrite HS. replace (cst (chr_byte pass) l i + bcnt (chr_byte pass) (Z.of_nat i) l - cst (chr_byte pass) l i)
      with (bcnt (chr_byte pass) (Z.of_nat i) l) by lia.
    assert (HSl : cst (chr_byte pass) l i = length S) by (by rewrite Hp).
    assert (HNB : NoDup (B (Z.of_nat i))) by (by apply NoDup_filter).
    assert (HWB : Forall str_wf (B (Z.of_nat i))).
    { by apply bkt_Forall. }
    assert (HMB : Forall (fun s => length s <= max) (B (Z.of_nat i))).
    { by apply bkt_Forall. }
    assert (HAB : chr_agree (pass + 1) (B (Z.of_nat i))).
    { rewrite Nat.add_1_r. apply chr_agree_S; [done|..].
      - intros s t Hs Ht. apply bkt_elem in Hs as [_ Hs]. apply bkt_elem in Ht as [_ Ht]. by apply Hag.
      - intros s t Hs Ht. apply bkt_elem in Hs as [Hs _]. apply bkt_elem in Ht as [Ht _]. congruence. }
    (* appending a sorted copy of the bucket *)
    assert (Hadd : forall S', S' ≡ₚ B (Z.of_nat i) -> StronglySorted str_lt S' ->
              S ++ S' ≡ₚ don (Datatypes.S i) /\ StronglySorted str_lt (S ++ S')).
    { intros S' Hp' Hss'. split; [by rewrite (HD i Hi'), Hp, Hp'|]. apply ss_app. split; [done|]. split; [done|].
      intros x y Hx Hy. rewrite Hp in Hx. rewrite Hp' in Hy. apply HDin in Hx as [Hx1 Hx2]. apply bkt_elem in Hy as [Hy1 Hy2].
      rewrite Forall_forall in Hw. apply (chr_byte_lt pass); [by apply Hw|by apply Hw|by apply Hag|lia]. }
    assert (Hkeep : bcnt (chr_byte pass) (Z.of_nat i) l = 1 ->
              exists S0, S ++ rem i = S0 ++ rem (Datatypes.S i) /\
                map length (S ++ rem i) = map length (S ++ rem i) /\ S0 ≡ₚ don (Datatypes.S i) /\ StronglySorted str_lt S0).
    { intros E1. exists (S ++ B (Z.of_nat i)). rewrite (HB i Hi'), <- app_assoc. split; [done|]. split; [done|].
      apply Hadd; [done|]. unfold bcnt in E1. fold B in E1. change (bkt (chr_byte pass) (Z.of_nat i) l) with (B (Z.of_nat i)) in E1.
      destruct (B (Z.of_nat i)) as [|s [|]]; simpl in E1; try lia. apply ss_single. }
    destruct (Nat.eqb_spec (bcnt (chr_byte pass) (Z.of_nat i) l) 1) as [E1|E1].
    { left. eexists. split; [reflexivity|]. cbn beta iota. split; [lia|]. split; [done|]. by apply Hkeep. }
    pose proof (agree_lt_max (pass + 1) max (B (Z.of_nat i)) HNB HAB HMB) as Hlt'.
    change (length (B (Z.of_nat i))) with (bcnt (chr_byte pass) (Z.of_nat i) l) in Hlt'. specialize (Hlt' ltac:(lia)).
    destruct (Nat.eqb_spec (pass + 1) max); [lia|].
    rewrite (HB i Hi'), !map_app.
    rewrite (seg_app' S (B (Z.of_nat i))) by done.
    rewrite (seg_app' (map length S) (map length (B (Z.of_nat i)))) by (rewrite map_length; done).
    destruct (IH (pass + 1) (B (Z.of_nat i)) m) as (S' & m' & E & Hp' & Hss' & Hsm'); try done; [lia| |].
    { eapply cmok_same; [|exact Hsm]. unfold cmok in *.
      assert (length (B (Z.of_nat i)) <= length l) by (apply bkt_length_le). intuition lia. }
    rewrite E. cbn [bind].
    rewrite (put_seg_app' S (B (Z.of_nat i))) by (try done; by rewrite Hp').
    rewrite (put_seg_app' (map length S) (map length (B (Z.of_nat i)))) by (rewrite ?map_length; try done; by rewrite Hp').
    left. eexists. split; [reflexivity|]. cbn beta iota. split; [lia|]. split; [by eapply cmsame_trans|].
    exists (S ++ S'). rewrite !map_app, <- !app_assoc. split; [done|]. split; [done|]. by apply Hadd.
  - intros [[[p_x p_s] m] last] (-> & Hsm & S & -> & -> & Hp & Hss). unfold UINT8_MAX_SIZE in *. simpl Nat.add in *.
    unfold rem, don in *. rewrite drop_ge, take_ge in * by (rewrite us256_length; lia). simpl. rewrite app_nil_r.
    split; [done|]. split; [done|]. split; [by rewrite Hp|done].
  - rewrite E. cbn [bind]. destruct HQ as (Hsm & -> & Hp & Hss). exists p_x, m. done.
Qed.

Lemma chr_order_radix_spec max l mem : NoDup l -> Forall str_wf l ->
  Forall (fun s => length s <= max) l -> cmok (length l) mem ->
  exists l' mem', chr_order_radix max l (map length l) mem = Ok (l', map length l', mem') /\
    l' ≡ₚ l /\ StronglySorted str_lt l' /\ cmsame mem mem'.
Proof.
  intros Hnd Hw Hm Hmem. unfold chr_order_radix. apply chr_radix_recurse_spec; try done. lia.
Qed.
