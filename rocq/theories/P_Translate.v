(** * C53: normalisation of encodings *)
From Verif Require Import Base M_Translate Spec_Translate L_Translate.

Section norm.
  Context (roots : list nat) (tr : list Z -> enc -> list Z) (mr : heap -> nat -> bool).
  Context (Hmr : counts roots mr).
  Notation stepB := (stepB roots).
  Notation step h := (stepB (length h) h).
  Notation keep h x h' := (keepU (in_use roots h x) h x h').

  (** [rec] normalises objects of value [t] *)
  Definition rec_ok (rec : heap -> nat -> res (heap * nat)) (n : nat) (t : tree) : Prop :=
    forall h x, closed h -> value_at n h x = Some t ->
    exists h' x', rec h x = Ok (h', x') /\ step h x h' x' /\ value_at n h' x' = Some (normal tr t) /\
      (strings in_utf8 t = true -> h' = h /\ x' = x).
  Definition rec_err (rec : heap -> nat -> res (heap * nat)) (n : nat) (t : tree) : Prop :=
    forall h x, closed h -> value_at n h x = Some t -> rec h x = Err bytes_error.

  Lemma utf8_normalized s : in_utf8 s = true -> utf8 tr s = s.
  Proof. by destruct s as [|b []]. Qed.
  Lemma normalize_spec s : in_utf8 s = false -> not_bytes s = true -> string_normalize tr s = Ok (utf8 tr s).
  Proof. by destruct s as [|b []]. Qed.
  Lemma start_le l : chr_find_normalize_start l <= length l.
  Proof. induction l as [|s l IH]; simpl; [lia|]. destruct (string_is_normalized s); lia. Qed.
  Lemma start_utf8 l : Forall (fun s => in_utf8 s = true) (take (chr_find_normalize_start l) l).
  Proof.
    induction l as [|s l IH]; simpl; [constructor|]. change (string_is_normalized s) with (in_utf8 s). destruct (in_utf8 s) eqn:E; simpl; by constructor.
  Qed.
  Lemma start_all l : forallb in_utf8 l = true -> chr_find_normalize_start l = length l.
  Proof. induction l as [|s l IH]; simpl; [done|]. change (string_is_normalized s) with (in_utf8 s). destruct (in_utf8 s); [|done]. intros H. by rewrite IH. Qed.
  Lemma map_utf8 l : Forall (fun s => in_utf8 s = true) l -> map (utf8 tr) l = l.
  Proof. induction 1 as [|s l H _ IH]; [done|]. simpl. by rewrite IH, (utf8_normalized s). Qed.

  Definition chr_body := (fun i l => let! s := rd l i in
        if string_is_normalized s then Ok l else let! s := string_normalize tr s in wr l i s).
  Lemma chr_loop l start cnt : Forall (fun s => in_utf8 s = true) (take start l) -> start + cnt <= length l ->
    forallb not_bytes (take (start + cnt) l) = true ->
    for_ start cnt chr_body l = Ok (map (utf8 tr) (take (start + cnt) l) ++ drop (start + cnt) l).
  Proof.
    intros Hs Hl Hb.
    destruct (for_inv (fun i l' => l' = map (utf8 tr) (take i l) ++ drop i l) start cnt chr_body l) as (l' & -> & ->); [| |done].
    - by rewrite map_utf8, take_drop.
    - intros i l' Hi ->. unfold chr_body.
      destruct (lookup_lt_is_Some_2 l i) as [s Hsi]; [lia|].
      assert (Hlen : length (map (utf8 tr) (take i l)) = i) by (rewrite map_length, take_length; lia).
      assert (Hrd : (map (utf8 tr) (take i l) ++ drop i l) !! i = Some s).
      { rewrite lookup_app_r by lia. rewrite Hlen, Nat.sub_diag, lookup_drop, Nat.add_0_r. done. }
      rewrite (proj2 (rd_Ok _ _ _) Hrd). cbn [bind].
      assert (HN : map (utf8 tr) (take (Datatypes.S i) l) ++ drop (Datatypes.S i) l = <[i := utf8 tr s]> (map (utf8 tr) (take i l) ++ drop i l)).
      { rewrite (take_S_r l i s) by done. rewrite map_app. simpl. rewrite insert_app_r_alt by lia.
        rewrite Hlen, Nat.sub_diag. rewrite (drop_S l s i) by done. simpl. by rewrite <- app_assoc. }
      assert (Hnb : not_bytes s = true).
      { rewrite forallb_forall in Hb. apply Hb. apply elem_of_list_In, (elem_of_list_lookup_2 _ i). rewrite lookup_take by lia. done. }
      change (string_is_normalized s) with (in_utf8 s). destruct (in_utf8 s) eqn:Eu.
      + eexists. split; [done|]. rewrite HN, utf8_normalized by done. by rewrite list_insert_id.
      + rewrite normalize_spec by done. cbn [bind]. rewrite wr_Ok; [by eexists|].
        rewrite app_length, Hlen, drop_length. lia.
  Qed.

  Lemma chr_ok h x l att la : closed h -> h !! x = Some (Obj (BChr l) att) -> attr_at h att la ->
    forallb not_bytes l = true ->
    exists h' x' att', chr_normalize_encoding tr mr h x l = Ok (h', x') /\ step h x h' x' /\
      h' !! x' = Some (Obj (BChr (map (utf8 tr) l)) att') /\ attr_at h' att' la /\
      (forallb in_utf8 l = true -> h' = h /\ x' = x).
  Proof.
    intros Hc Hx Ha Hb. unfold chr_normalize_encoding.
    pose proof (start_le l) as Hle. pose proof (start_utf8 l) as Hst.
    destruct (Nat.eqb_spec (length l) (chr_find_normalize_start l)) as [E|E].
    - exists h, x, att. split; [done|]. split; [by apply step_refl|].
      rewrite <- E, firstn_all in Hst. rewrite map_utf8 by done. done.
    - destruct (set_ok roots mr Hmr h x (BChr l) att la) as (h1 & x1 & att1 & -> & H1 & H2 & H3 & H4 & H5 & H6 & H7); [done..|].
      cbn [bind]. fold chr_body. rewrite chr_loop; [|done|lia|].
      2:{ rewrite forallb_forall in Hb |- *. intros s Hs. apply Hb. apply elem_of_list_In. apply elem_of_list_In in Hs.
          eapply elem_of_submseteq; [done|]. apply submseteq_take. }
      cbn [bind]. replace (chr_find_normalize_start l + _) with (length l) by lia.
      rewrite firstn_all, drop_all, app_nil_r. rewrite (proj2 (rd_Ok _ _ _) H1). cbn [bind o_attrib].
      pose proof (lookup_lt_Some _ _ _ H1) as Hlt. rewrite wr_Ok by done. cbn [bind].
      exists (<[x1:=Obj (BChr (map (utf8 tr) l)) att1]> h1), x1, att1. split; [done|]. split.
      { apply H7; [done|]. intros f. unfold fields. simpl. destruct att1 as [a1|]; [|done]. intros [<-|[]].
        destruct (H6 a1) as [_ [->|Hr]]; [done| |by right]. left. by left. }
      split; [by apply list_lookup_insert|]. split.
      { destruct att1 as [a1|]; [|done]. destruct la as [la|]; [|done]. simpl in *.
        rewrite list_lookup_insert_ne; [done|]. destruct (H6 a1); [done|]. congruence. }
      intros Hu. by rewrite start_all in E.
  Qed.
  Lemma for_stop {S} lo k cnt (body : nat -> S -> res S) s s' m : k < cnt ->
    for_ lo k body s = Ok s' -> body (lo + k) s' = Err m -> for_ lo cnt body s = Err m.
  Proof.
    revert lo cnt s. induction k as [|k IH]; intros lo cnt s Hk; (destruct cnt as [|cnt]; [lia|]); simpl.
    - intros E. inversion E; subst s'. rewrite Nat.add_0_r. intros ->. done.
    - destruct (body lo s) as [s1| |]; [|done|done]. cbn [bind]. intros H1 H2. apply (IH (Datatypes.S lo)); [lia|done|].
      by replace (Datatypes.S lo + k) with (lo + Datatypes.S k) by lia.
  Qed.
  Lemma first_bad {A} (P : A -> bool) l : forallb P l = false ->
    exists k a, l !! k = Some a /\ P a = false /\ forallb P (take k l) = true.
  Proof.
    induction l as [|a l IH]; simpl; [done|]. destruct (P a) eqn:E; simpl.
    - intros H. destruct (IH H) as (k & b & H1 & H2 & H3). exists (Datatypes.S k), b. split; [done|]. split; [done|]. simpl. by rewrite E.
    - intros _. by exists 0, a.
  Qed.
  Lemma chr_err h x l att la : closed h -> h !! x = Some (Obj (BChr l) att) -> attr_at h att la ->
    forallb not_bytes l = false -> chr_normalize_encoding tr mr h x l = Err bytes_error.
  Proof.
    intros Hc Hx Ha Hb. unfold chr_normalize_encoding.
    pose proof (start_le l) as Hle. pose proof (start_utf8 l) as Hst.
    destruct (first_bad _ _ Hb) as (k & s & Hk & Hs & Ht). pose proof (lookup_lt_Some _ _ _ Hk) as Hlt.
    assert (Hu : in_utf8 s = false) by (by destruct s as [|b []]).
    assert (Hge : chr_find_normalize_start l <= k).
    { destruct (decide (chr_find_normalize_start l <= k)); [done|]. exfalso.
      rewrite Forall_lookup in Hst. rewrite (Hst k s) in Hu; [done|]. rewrite lookup_take by lia. done. }
    destruct (Nat.eqb_spec (length l) (chr_find_normalize_start l)) as [E|E]; [lia|].
    destruct (set_ok roots mr Hmr h x (BChr l) att la) as (h1 & x1 & att1 & -> & _); [done..|].
    cbn [bind]. fold chr_body.
    set (start := chr_find_normalize_start l) in *.
    assert (HL : for_ start (k - start) chr_body l = Ok (map (utf8 tr) (take k l) ++ drop k l)).
    { replace k with (start + (k - start)) at 2 3 by lia. apply chr_loop; [done|lia|].
      by replace (start + (k - start)) with k by lia. }
    rewrite (for_stop start (k - start) (length l - start) chr_body l (map (utf8 tr) (take k l) ++ drop k l) bytes_error); [done|lia|exact HL|].
    replace (start + (k - start)) with k by lia. unfold chr_body.
    assert (Hrd : (map (utf8 tr) (take k l) ++ drop k l) !! k = Some s).
    { rewrite lookup_app_r; rewrite map_length, take_length; [|lia]. rewrite lookup_drop. by replace (k + (k - k `min` length l)) with k by lia. }
    rewrite (proj2 (rd_Ok _ _ _) Hrd). cbn [bind]. change (string_is_normalized s) with (in_utf8 s); rewrite Hu. by destruct s as [|b []].
  Qed.

  (** Elements of an object keep their values. *)
  Lemma elements_value h x o h' n l ts : closed h -> h !! x = Some o -> (forall y, In y l -> In y (fields o)) ->
    (exists z, keep h z h') -> mapM (value_at n h) l = Some ts -> mapM (value_at n h') l = Some ts.
  Proof.
    intros Hc Hx Hi [z Hk]. apply mapM_frame. intros y t Hy. apply (keep_value roots h z h'); [done|].
    destruct (decide (y = z)) as [->|]; [right|by left]. right. by apply (referred_field h x o), Hi.
  Qed.
  Lemma attr_value h x b a l h' n ts : closed h -> h !! x = Some (Obj b (Some a)) -> h !! a = Some (Obj (BPairs l) None) ->
    (exists z, keep h z h') -> mapM (value_at n h) l = Some ts -> mapM (value_at n h') l = Some ts.
  Proof.
    intros Hc Hx Ha Hk. apply (elements_value h a (Obj (BPairs l) None)); try done.
    intros y Hy. unfold fields. simpl. by rewrite app_nil_r.
  Qed.

  Lemma list_loop rec n h0 x0 l0 att0 la ts k : closed h0 -> h0 !! x0 = Some (Obj (BList l0) att0) -> attr_at h0 att0 la ->
    mapM (value_at n h0) l0 = Some ts -> k <= length l0 -> (forall j t, j < k -> ts !! j = Some t -> rec_ok rec n t) ->
    exists h x l att, for_ 0 k (list_step mr rec) (h0, x0) = Ok (h, x) /\ step h0 x0 h x /\
      h !! x = Some (Obj (BList l) att) /\ attr_at h att la /\ length l = length l0 /\
      (forall j, k <= j -> l !! j = l0 !! j) /\
      (forall j y t, j < k -> l !! j = Some y -> ts !! j = Some t -> value_at n h y = Some (normal tr t)) /\
      ((forall j t, j < k -> ts !! j = Some t -> strings in_utf8 t = true) -> h = h0 /\ x = x0).
  Proof.
    intros Hc H0 Ha0 Hts Hk Hrec.
    destruct (for_inv (fun i st => exists l att, step h0 x0 (fst st) (snd st) /\
      fst st !! snd st = Some (Obj (BList l) att) /\ attr_at (fst st) att la /\ length l = length l0 /\
      (forall j, i <= j -> l !! j = l0 !! j) /\
      (forall j y t, j < i -> l !! j = Some y -> ts !! j = Some t -> value_at n (fst st) y = Some (normal tr t)) /\
      ((forall j t, j < i -> ts !! j = Some t -> strings in_utf8 t = true) -> fst st = h0 /\ snd st = x0))
      0 k (list_step mr rec) (h0, x0)) as ([h x] & HF & l & att & HI).
    - exists l0, att0. split; [by apply step_refl|]. split; [done|]. split; [done|]. split; [done|]. split; [done|]. split; [intros; lia|done].
    - intros i [h x] Hi (l & att & Hst & Hx & Ha & Hl & Hrest & Hdone & Hu). simpl fst in *. simpl snd in *.
      unfold list_step. rewrite (proj2 (rd_Ok _ _ _) Hx). cbn [bind o_body].
      destruct (lookup_lt_is_Some_2 l0 i) as [e He0]; [lia|].
      assert (He : l !! i = Some e) by (by rewrite Hrest). rewrite (proj2 (rd_Ok _ _ _) He). cbn [bind].
      pose proof (proj1 (mapM_Some _ _ _) Hts) as HF2.
      destruct (Forall2_lookup_l _ _ _ _ _ HF2 He0) as (t & Ht & Hv0).
      assert (Hin0 : In e (fields (Obj (BList l0) att0))).
      { unfold fields. simpl. apply in_or_app. left. by apply elem_of_list_In, (elem_of_list_lookup_2 _ i). }
      assert (Hin : In e (fields (Obj (BList l) att))).
      { unfold fields. simpl. apply in_or_app. left. by apply elem_of_list_In, (elem_of_list_lookup_2 _ i). }
      assert (Hv : value_at n h e = Some t).
      { apply (keep_value roots h0 x0 h); [apply Hst| |done].
        destruct (decide (e = x0)) as [->|]; [right|by left]. right. by apply (referred_field h0 x0 _ _ H0). }
      destruct (Hrec i t) with (h := h) (x := e) as (h1 & e1 & -> & Hst1 & Hv1 & Hu1); [lia|done|apply Hst|done|]. cbn [bind].
      assert (HUe : in_use roots h e) by (right; by apply (referred_field h x _ _ Hx)).
      pose proof (step_used roots h e h1 e1 x Hst1 HUe) as Hst1'.
      assert (Hsame : forall y, y < length h -> h1 !! y = h !! y).
      { intros y Hy. destruct Hst1 as [[_ HK] _ _ _]. apply HK; [done|by right]. }
      assert (Hx1 : h1 !! x = Some (Obj (BList l) att)).
      { rewrite Hsame; [done|by eapply lookup_lt_Some]. }
      assert (Ha1 : attr_at h1 att la).
      { destruct att as [a|], la as [la'|]; simpl in Ha |- *; try done. rewrite Hsame; [done|by eapply lookup_lt_Some]. }
      assert (HD1 : forall j y t, j < i -> l !! j = Some y -> ts !! j = Some t -> value_at n h1 y = Some (normal tr t)).
      { intros j y t' Hj Hy Ht'. apply (keep_value roots h x h1); [apply Hst1'| |by apply (Hdone j)].
        destruct (decide (y = x)) as [->|]; [right|by left]. right. apply (referred_field h x _ _ Hx).
        unfold fields. simpl. apply in_or_app. left. by apply elem_of_list_In, (elem_of_list_lookup_2 _ j). }
      destruct (Nat.eqb_spec e e1) as [<-|Hne].
      + eexists. split; [done|]. exists l, att. simpl fst. simpl snd. split; [by apply (step_trans' roots _ _ h x)|].
        split; [done|]. split; [done|]. split; [done|]. split; [intros; apply Hrest; lia|]. split.
        * intros j y t' Hj Hy Ht'. destruct (decide (j = i)) as [->|]; [|apply (HD1 j); [lia|done|done]].
          rewrite He in Hy. rewrite Ht in Ht'. by inversion Hy; inversion Ht'; subst.
        * intros Hall. destruct Hu as [-> ->]; [intros; apply (Hall j); [lia|done]|].
          destruct Hu1 as [-> _]; [apply (Hall i); [lia|done]|]. done.
      + assert (He1 : length h <= e1) by (destruct Hst1 as [_ _ _ [->|]]; done).
        destruct (set_ok roots mr Hmr h1 x (BList l) att la) as (h2 & x2 & att2 & -> & G1 & G2 & G3 & G4 & G5 & G6 & G7); [apply Hst1|done|done|done|].
        cbn [bind]. rewrite (proj2 (rd_Ok _ _ _) G1). cbn [bind o_body o_attrib]. rewrite wr_Ok by lia. cbn [bind].
        pose proof (lookup_lt_Some _ _ _ G1) as Hlt. rewrite wr_Ok by done. cbn [bind].
        eexists. split; [done|]. exists (<[i:=e1]> l), att2. simpl fst. simpl snd.
        set (h3 := <[x2:=_]> h2).
        assert (He1h1 : e1 < length h1).
        { destruct n as [|n']; [done|]. simpl in Hv1. destruct (h1 !! e1) eqn:E1; [by eapply lookup_lt_Some|done]. }
        assert (HK1 : stepB (length h) h1 x h3 x2).
        { apply G7; [apply Hst1|]. intros f. unfold fields at 1. simpl. intros Hf. apply in_app_or in Hf. destruct Hf as [Hf|Hf].
          - apply elem_of_list_In, elem_of_list_lookup in Hf. destruct Hf as [j Hj]. destruct (decide (j = i)) as [->|].
            + rewrite list_lookup_insert in Hj by lia. inversion Hj; subst f. right. lia.
            + rewrite list_lookup_insert_ne in Hj by done. left. unfold fields. simpl. apply in_or_app. left.
              by apply elem_of_list_In, (elem_of_list_lookup_2 _ j).
          - destruct att2 as [a2|]; [|done]. destruct Hf as [<-|[]]. destruct (G6 a2) as [_ [->|Hr]]; [done| |right; lia].
            left. unfold fields. simpl. apply in_or_app. right. by left. }
        pose proof (step_trans roots _ _ _ _ _ _ Hst1' HK1) as HK. 
        split. { by apply (step_trans' roots _ _ _ _ _ _ Hst). }
        split; [by apply list_lookup_insert|]. split.
        { destruct att2 as [a2|], la as [la'|]; simpl in G2 |- *; try done. unfold h3. rewrite list_lookup_insert_ne; [done|].
          destruct (G6 a2); [done|]. congruence. }
        split; [by rewrite insert_length|]. split.
        { intros j Hj. rewrite list_lookup_insert_ne by lia. apply Hrest. lia. }
        split.
        * intros j y t' Hj Hy Ht'. destruct (decide (j = i)) as [->|].
          -- rewrite list_lookup_insert in Hy by lia. rewrite Ht in Ht'. inversion Hy; inversion Ht'; subst y t'.
             apply (keep_value roots h1 x h3); [apply HK1| |done]. left. intros ->.
             pose proof (lookup_lt_Some _ _ _ Hx). lia.
          -- rewrite list_lookup_insert_ne in Hy by done. apply (keep_value roots h1 x h3); [apply HK1| |apply (HD1 j); [lia|done|done]].
             destruct (decide (y = x)) as [->|]; [right|by left]. right. apply (referred_field h1 x _ _ Hx1).
             unfold fields. simpl. apply in_or_app. left. by apply elem_of_list_In, (elem_of_list_lookup_2 _ j).
        * intros Hall. destruct Hu1 as [_ ->]; [apply (Hall i); [lia|done]|]. done.
    - exists h, x, l, att. destruct HI as (I1 & I2 & I3 & I4 & I5 & I6 & I7). simpl in *. done.
  Qed.

  Definition ext (h h' : heap) : Prop := length h <= length h' /\ forall y, y < length h -> h' !! y = h !! y.
  Lemma ext_keep h h' z : ext h h' -> keep h z h'.
  Proof. intros [H1 H2]. split; [done|]. intros y Hy _. by apply H2. Qed.
  Lemma ext_value h h' n y t : ext h h' -> value_at n h y = Some t -> value_at n h' y = Some t.
  Proof.
    intros [H1 H2]. apply (value_frame True h 0 h'); [|done|by right]. split; [done|]. intros z Hz _. by apply H2.
  Qed.
  Lemma in_pairs l j (y : nat) : l !! j = Some y -> In y (fields (Obj (BPairs l) None)).
  Proof. intros H. unfold fields. simpl. rewrite app_nil_r. by apply elem_of_list_In, (elem_of_list_lookup_2 _ j). Qed.
  Lemma in_pairs_inv l (y : nat) : In y (fields (Obj (BPairs l) None)) -> exists j, l !! j = Some y.
  Proof. unfold fields. simpl. rewrite app_nil_r. intros H. by apply elem_of_list_lookup, elem_of_list_In. Qed.

  Lemma attrib_loop rec n h0 a0 l0 ts k : closed h0 -> h0 !! a0 = Some (Obj (BPairs l0) None) ->
    mapM (value_at n h0) l0 = Some ts -> k <= length l0 -> (forall j t, j < k -> ts !! j = Some t -> rec_ok rec n t) ->
    exists h a owned l, for_ 0 k (attrib_step rec) (h0, a0, false) = Ok (h, a, owned) /\ ext h0 h /\
      nonew (length h0) h0 h /\ closed h /\
      (owned = false /\ a = a0 \/ owned = true /\ length h0 <= a /\ ~ referred h a) /\
      h !! a = Some (Obj (BPairs l) None) /\ length l = length l0 /\
      (forall j, k <= j -> l !! j = l0 !! j) /\
      (forall j y t, j < k -> l !! j = Some y -> ts !! j = Some t -> value_at n h y = Some (normal tr t)) /\
      ((forall j t, j < k -> ts !! j = Some t -> strings in_utf8 t = true) -> h = h0 /\ a = a0).
  Proof.
    intros Hc H0 Hts Hk Hrec.
    destruct (for_inv (fun i (st : heap * nat * bool) => exists l, ext h0 (fst (fst st)) /\
      nonew (length h0) h0 (fst (fst st)) /\ closed (fst (fst st)) /\
      (snd st = false /\ snd (fst st) = a0 \/ snd st = true /\ length h0 <= snd (fst st) /\ ~ referred (fst (fst st)) (snd (fst st))) /\
      fst (fst st) !! snd (fst st) = Some (Obj (BPairs l) None) /\ length l = length l0 /\
      (forall j, i <= j -> l !! j = l0 !! j) /\
      (forall j y t, j < i -> l !! j = Some y -> ts !! j = Some t -> value_at n (fst (fst st)) y = Some (normal tr t)) /\
      ((forall j t, j < i -> ts !! j = Some t -> strings in_utf8 t = true) -> fst (fst st) = h0 /\ snd (fst st) = a0))
      0 k (attrib_step rec) (h0, a0, false)) as ([[h a] owned] & HF & l & HI).
    - exists l0. simpl. split; [by split|]. split; [by intros ???|]. split; [done|]. split; [by left|]. split; [done|].
      split; [done|]. split; [done|]. split; [intros; lia|done].
    - intros i [[h a] owned] Hi (l & Hext & Hnew & Hcl & Hown & Hx & Hl & Hrest & Hdone & Hu). simpl fst in *. simpl snd in *.
      unfold attrib_step. rewrite (proj2 (rd_Ok _ _ _) Hx). cbn [bind o_body].
      destruct (lookup_lt_is_Some_2 l0 i) as [e He0]; [lia|].
      assert (He : l !! i = Some e) by (by rewrite Hrest). rewrite (proj2 (rd_Ok _ _ _) He). cbn [bind].
      pose proof (proj1 (mapM_Some _ _ _) Hts) as HF2.
      destruct (Forall2_lookup_l _ _ _ _ _ HF2 He0) as (t & Ht & Hv0).
      assert (Hv : value_at n h e = Some t) by (by apply (ext_value h0)).
      destruct (Hrec i t) with (h := h) (x := e) as (h1 & e1 & -> & Hst1 & Hv1 & Hu1); [lia|done|done|done|]. cbn [bind].
      assert (HUe : in_use roots h e) by (right; by apply (referred_field h a _ _ Hx), (in_pairs _ i)).
      assert (Hext1 : ext h h1).
      { destruct Hst1 as [[HL HK] _ _ _]. split; [done|]. intros y Hy. apply HK; [done|by right]. }
      assert (Hext01 : ext h0 h1).
      { destruct Hext as [L1 E1], Hext1 as [L2 E2]. split; [lia|]. intros y Hy. rewrite E2 by lia. by apply E1. }
      assert (Hnew1 : nonew (length h0) h0 h1).
      { intros f Hf Hr. apply Hnew; [done|]. apply (st_new _ _ _ _ _ _ Hst1); [destruct Hext; lia|done]. }
      pose proof (lookup_lt_Some _ _ _ Hx) as Hlta.
      assert (Hx1 : h1 !! a = Some (Obj (BPairs l) None)) by (rewrite (proj2 Hext1); done).
      assert (HD1 : forall j y t, j < i -> l !! j = Some y -> ts !! j = Some t -> value_at n h1 y = Some (normal tr t)).
      { intros j y t' Hj Hy Ht'. apply (ext_value h); [done|]. by apply (Hdone j). }
      destruct (Nat.eqb_spec e e1) as [<-|Hne].
      + eexists. split; [done|]. exists l. simpl fst. simpl snd. split; [done|]. split; [done|]. split; [apply Hst1|]. split.
        { destruct Hown as [Hown|(Hw & Hw2 & Hw3)]; [by left|right]. split; [done|]. split; [done|].
          intros Hr. apply Hw3. by apply (st_new _ _ _ _ _ _ Hst1). }
        split; [done|]. split; [done|]. split; [intros; apply Hrest; lia|]. split.
        * intros j y t' Hj Hy Ht'. destruct (decide (j = i)) as [->|]; [|apply (HD1 j); [lia|done|done]].
          rewrite He in Hy. rewrite Ht in Ht'. by inversion Hy; inversion Ht'; subst.
        * intros Hall. destruct Hu as [-> ->]; [intros; apply (Hall j); [lia|done]|].
          destruct Hu1 as [-> _]; [apply (Hall i); [lia|done]|]. done.
      + assert (He1 : length h <= e1) by (destruct Hst1 as [_ _ _ [->|]]; done).
        assert (He1h1 : e1 < length h1).
        { destruct n as [|n']; [done|]. simpl in Hv1. destruct (h1 !! e1) eqn:E1; [by eapply lookup_lt_Some|done]. }
        assert (HC : exists h2 a2, (if owned then Ok (h1, a) else r_clone h1 a) = Ok (h2, a2) /\ ext h1 h2 /\
          (a2 = a /\ owned = true \/ length h1 <= a2) /\ h2 !! a2 = Some (Obj (BPairs l) None) /\ nonew (length h1) h1 h2 /\ closed h2 /\ ~ referred h2 a2).
        { destruct Hown as [[-> ->]|(-> & Hw2 & Hw3)].
          - destruct (clone_ok h1 a0 (BPairs l) None None) as (h2 & x1 & att1 & new & -> & -> & G1 & G2 & G3 & G4 & G5 & G6 & G7); [apply Hst1|done|done|done|].
            exists (h1 ++ new), x1. split; [done|]. split; [split; [rewrite app_length; lia|intros; by rewrite lookup_app_l]|].
            split; [by right|]. destruct att1; [done|]. done.
          - exists h1, a. split; [done|]. split; [by split|]. split; [by left|]. split; [done|]. split; [by intros ???|]. split; [apply Hst1|].
            intros Hr. apply Hw3. by apply (st_new _ _ _ _ _ _ Hst1). }
        destruct HC as (h2 & a2 & -> & Hext2 & Ha2 & Hx2 & Hnew2 & Hcl2 & Hnr2). cbn [bind].
        rewrite (proj2 (rd_Ok _ _ _) Hx2). cbn [bind o_body o_attrib]. rewrite wr_Ok by lia. cbn [bind].
        pose proof (lookup_lt_Some _ _ _ Hx2) as Hlt. rewrite wr_Ok by done. cbn [bind].
        eexists. split; [done|]. exists (<[i:=e1]> l). simpl fst. simpl snd.
        set (h3 := <[a2:=_]> h2).
        assert (HF3 : forall y o f, h3 !! y = Some o -> In f (fields o) -> f = e1 \/ referred h2 f).
        { intros y o f Ho Hf. unfold h3 in Ho. destruct (decide (y = a2)) as [->|].
          - rewrite list_lookup_insert in Ho by done. inversion Ho; subst o. apply in_pairs_inv in Hf. destruct Hf as [j Hj].
            destruct (decide (j = i)) as [->|].
            + rewrite list_lookup_insert in Hj by lia. inversion Hj. by left.
            + rewrite list_lookup_insert_ne in Hj by done. right. by apply (referred_field h2 a2 _ _ Hx2), (in_pairs _ j).
          - rewrite list_lookup_insert_ne in Ho by done. right. by exists y, o. }
        assert (Hge : length h0 <= a2).
        { destruct Hext01 as [L _]. destruct Ha2 as [[-> ->]|]; [|lia]. destruct Hown as [[? _]|(_ & ? & _)]; done. }
        assert (Hlen3 : length h3 = length h2) by (unfold h3; by rewrite insert_length).
        split. { destruct Hext01 as [L1 E1], Hext2 as [L2 E2]. split; [lia|]. intros y Hy. unfold h3. rewrite list_lookup_insert_ne by lia. rewrite E2 by lia. by apply E1. }
        split. { intros f Hf (y & o & Ho & Hfo). destruct (HF3 y o f Ho Hfo) as [->|Hr].
          - destruct Hext. lia.
          - apply Hnew1; [done|]. apply Hnew2; [destruct Hext01; lia|done]. }
        split. { intros y o f Ho Hfo. rewrite Hlen3. destruct (HF3 y o f Ho Hfo) as [->|(y' & o' & Ho' & Hf')]; [destruct Hext2; lia|by apply (Hcl2 y' o')]. }
        split. { right. split; [done|]. split; [done|]. intros (y & o & Ho & Hfo). destruct (HF3 y o a2 Ho Hfo) as [E|Hr]; [|done].
          destruct Ha2 as [[-> _]|]; lia. }
        split; [by apply list_lookup_insert|].
        split; [by rewrite insert_length|]. split.
        { intros j Hj. rewrite list_lookup_insert_ne by lia. apply Hrest. lia. }
        assert (HV : forall y t, y <> a2 -> value_at n h1 y = Some t -> value_at n h3 y = Some t).
        { intros y t' Hy Hvy. apply (value_frame False h2 a2 h3); [|done|by left|by apply (ext_value h1)].
          split; [lia|]. intros z Hz [Hn|[]]. unfold h3. by rewrite list_lookup_insert_ne. }
        split.
        * intros j y t' Hj Hy Ht'. destruct (decide (j = i)) as [->|].
          -- rewrite list_lookup_insert in Hy by lia. rewrite Ht in Ht'. inversion Hy; inversion Ht'; subst y t'.
             apply HV; [|done]. destruct Ha2 as [[-> _]|]; lia.
          -- rewrite list_lookup_insert_ne in Hy by done. apply HV; [|apply (HD1 j); [lia|done|done]].
             intros ->. apply Hnr2. by apply (referred_field h2 a2 _ _ Hx2), (in_pairs _ j).
        * intros Hall. destruct Hu1 as [_ ->]; [apply (Hall i); [lia|done]|]. done.
    - exists h, a, owned, l. simpl in HI. destruct HI as (I1 & I2 & I3 & I4 & I5 & I6 & I7 & I8 & I9). done.
  Qed.

  Lemma lookups_mapM {A} (f : nat -> option A) (g : tree -> A) l ts : length l = length ts ->
    (forall j y t, l !! j = Some y -> ts !! j = Some t -> f y = Some (g t)) -> mapM f l = Some (map g ts).
  Proof.
    revert ts. induction l as [|y l IH]; intros [|t ts] Hl H; try done. simpl.
    rewrite (H 0 y t) by done. simpl. rewrite (IH ts); [done|simpl in Hl; lia|]. intros j. apply (H (Datatypes.S j)).
  Qed.
  Definition attr_value_at (n : nat) (h : heap) (la : option (list nat)) (ats : list tree) : Prop :=
    match la with None => ats = [] | Some l => mapM (value_at n h) l = Some ats end.
  Lemma attr_value_keep n h x b att la ats h' : closed h -> h !! x = Some (Obj b att) -> attr_at h att la ->
    (exists z, keep h z h') -> attr_value_at n h la ats -> attr_value_at n h' la ats.
  Proof.
    intros Hc Hx Ha Hk. destruct att as [a|], la as [l|]; simpl in Ha |- *; try done. by apply (attr_value h x b a l h').
  Qed.

  Lemma attrib_stage rec n h x b att la ats : closed h -> h !! x = Some (Obj b att) -> attr_at h att la ->
    attr_value_at n h la ats -> (ats = [] \/ match b with BRef _ => False | _ => True end) ->
    (forall j t, ats !! j = Some t -> rec_ok rec n t) ->
    exists h' x' att' la', match att with None => Ok (h, x) | Some a => obj_attrib_normalize_encoding mr rec h x a end = Ok (h', x') /\
      step h x h' x' /\ h' !! x' = Some (Obj b att') /\ attr_at h' att' la' /\ attr_value_at n h' la' (map (normal tr) ats) /\
      (forallb (strings in_utf8) ats = true -> h' = h /\ x' = x).
  Proof.
    intros Hc Hx Ha Hav Hb Hrec. destruct att as [a|], la as [l|]; simpl in Ha; try done.
    2:{ exists h, x, None, None. simpl in Hav |- *. subst ats. split; [done|]. split; [by apply step_refl|]. done. }
    simpl in Hav. pose proof (mapM_length _ _ _ Hav) as Hlen.
    unfold obj_attrib_normalize_encoding. rewrite (proj2 (rd_Ok _ _ _) Ha). cbn [bind o_body]. unfold attrib_normalize_encoding.
    destruct (attrib_loop rec n h a l ats (length l)) as (h1 & a1 & owned & l1 & -> & Hext & Hnew & Hcl & Hown & Ha1 & Hl1 & _ & Hv & Hu); [done..|intros j t _; apply Hrec|].
    cbn [bind].
    assert (Hv1 : mapM (value_at n h1) l1 = Some (map (normal tr) ats)).
    { apply lookups_mapM; [lia|]. intros j y t Hy Ht. apply (Hv j); [|done|done]. pose proof (lookup_lt_Some _ _ _ Hy). lia. }
    assert (Hu' : forallb (strings in_utf8) ats = true -> h1 = h /\ a1 = a).
    { intros H. apply Hu. intros j t _ Ht. rewrite forallb_forall in H. by apply H, elem_of_list_In, (elem_of_list_lookup_2 _ j). }
    pose proof (lookup_lt_Some _ _ _ Hx) as Hltx.
    assert (Hx1 : h1 !! x = Some (Obj b (Some a))) by (rewrite (proj2 Hext); done).
    assert (Hst1 : step h x h1 x) by (split; [by apply ext_keep|done|done|by left]).
    destruct (Nat.eqb_spec a1 a) as [->|Hne].
    - exists h1, x, (Some a), (Some l1). split; [done|]. split; [done|]. split; [done|]. split; [done|]. split; [done|].
      intros H. by destruct (Hu' H) as [-> _].
    - destruct Hb as [->|Hb]; [by destruct Hu'|].
      assert (Hge : length h <= a1) by (destruct Hown as [[_ ?]|(_ & ? & _)]; done).
      pose proof (lookup_lt_Some _ _ _ Ha1) as Hlta1. pose proof (lookup_lt_Some _ _ _ Ha) as Hlta.
      destruct (set_ok roots mr Hmr h1 x b (Some a) (Some l)) as (h2 & x2 & att2 & -> & G1 & G2 & G3 & G4 & G5 & G6 & G7); [done|done|simpl; rewrite (proj2 Hext); done|done|].
      cbn [bind]. rewrite (proj2 (rd_Ok _ _ _) G1). cbn [bind o_body].
      pose proof (lookup_lt_Some _ _ _ G1) as Hlt2. rewrite wr_Ok by done. cbn [bind].
      set (h3 := <[x2:=_]> h2). exists h3, x2, (Some a1), (Some l1).
      assert (HK : stepB (length h) h1 x h3 x2).
      { apply G7; [apply Hext|]. intros f Hf. unfold fields in Hf |- *. simpl in Hf |- *. apply in_app_or in Hf. destruct Hf as [Hf|[<-|[]]]; [|right; lia].
        left. apply in_or_app. by left. }
      split; [done|]. split; [by apply (step_trans roots _ _ h1 x)|]. split; [by apply list_lookup_insert|].
      split. { simpl. unfold h3. rewrite list_lookup_insert_ne; [|destruct G5; lia]. rewrite G3 by done. done. }
      split. { simpl. apply (elements_value h1 a1 (Obj (BPairs l1) None)); try done.
        - intros y Hy. unfold fields. simpl. by rewrite app_nil_r.
        - exists x. apply HK. }
      intros H. by destruct (Hu' H) as [_ ->].
  Qed.
  Lemma attrib_stage_err rec n h x b att la ats : closed h -> h !! x = Some (Obj b att) -> attr_at h att la ->
    attr_value_at n h la ats ->
    (forall j t, ats !! j = Some t -> strings not_bytes t = true -> rec_ok rec n t) ->
    (forall j t, ats !! j = Some t -> strings not_bytes t = false -> rec_err rec n t) ->
    forallb (strings not_bytes) ats = false ->
    match att with None => Ok (h, x) | Some a => obj_attrib_normalize_encoding mr rec h x a end = Err bytes_error.
  Proof.
    intros Hc Hx Ha Hav Hok Herr Hb. destruct att as [a|], la as [l|]; simpl in Ha, Hav; try done; [|by subst ats].
    pose proof (mapM_length _ _ _ Hav) as Hlen. destruct (first_bad _ _ Hb) as (k & t & Hk & Ht & Hpre).
    pose proof (lookup_lt_Some _ _ _ Hk) as Hltk.
    unfold obj_attrib_normalize_encoding. rewrite (proj2 (rd_Ok _ _ _) Ha). cbn [bind o_body]. unfold attrib_normalize_encoding.
    destruct (attrib_loop rec n h a l ats k) as (h1 & a1 & owned & l1 & HF & Hext & Hnew & Hcl & Hown & Ha1 & Hl1 & Hrest & _); [done..|lia| |].
    { intros j t' Hj Ht'. apply (Hok j); [done|]. rewrite forallb_forall in Hpre. apply Hpre, elem_of_list_In, (elem_of_list_lookup_2 _ j). by rewrite lookup_take. }
    rewrite (for_stop 0 k (length l) (attrib_step rec) (h, a, false) (h1, a1, owned) bytes_error); [done|lia|done|].
    simpl. rewrite (proj2 (rd_Ok _ _ _) Ha1). cbn [bind o_body].
    pose proof (proj1 (mapM_Some _ _ _) Hav) as HF2.
    destruct (Forall2_lookup_r _ _ _ _ _ HF2 Hk) as (e & He & Hv).
    rewrite (proj2 (rd_Ok _ _ e)) by (by rewrite Hrest). cbn [bind].
    rewrite (Herr k t); [done|done|done|done|]. by apply (ext_value h).
  Qed.

  Definition body_value (n : nat) (h : heap) (x : nat) (b : body) (tb : tbody) : Prop :=
    match b with
    | BChr l => tb = VChr l
    | BList l => exists ts, mapM (value_at n h) l = Some ts /\ tb = VList ts
    | BOther v => tb = VOther v
    | BRef _ => tb = VRef x
    | BPairs _ => False
    end.
  Lemma value_S n h x t : value_at (Datatypes.S n) h x = Some t <->
    exists b att la tb ats, h !! x = Some (Obj b att) /\ attr_at h att la /\ attr_value_at n h la ats /\
      body_value n h x b tb /\ t = Tree tb ats.
  Proof.
    cbn [value_at]. split.
    - destruct (h !! x) as [[b att]|]; [|done]. cbn [o_body o_attrib]. intros H.
      assert (HA : exists la ats, attr_at h att la /\ attr_value_at n h la ats /\
        match b with
        | BChr l => Some (Tree (VChr l) ats)
        | BList l => match mapM (value_at n h) l with Some l => Some (Tree (VList l) ats) | None => None end
        | BOther v => Some (Tree (VOther v) ats)
        | BRef _ => Some (Tree (VRef x) ats)
        | BPairs _ => None
        end = Some t).
      { destruct att as [a|]; [|by exists None, []]. destruct (h !! a) as [[ba aa]|] eqn:Ea; [|done].
        destruct ba as [|?|la|?|?]; [done|done| |done|done]. destruct aa; [done|].
        destruct (mapM (value_at n h) la) as [ats|] eqn:El; [|done]. by exists (Some la), ats. }
      destruct HA as (la & ats & H1 & H2 & H3). exists b, att, la.
      destruct b as [l|l|l|v|v]; [exists (VChr l)|destruct (mapM (value_at n h) l) as [ts|] eqn:El; [exists (VList ts)|done]|done|exists (VOther v)|exists (VRef x)];
        exists ats; (split; [done|]); (split; [done|]); (split; [done|]); inversion H3; (split; [|done]); try done. by exists ts.
    - intros (b & att & la & tb & ats & -> & Ha & Hav & Hb & ->). cbn [o_body o_attrib].
      assert (HA : match att with
        | None => Some []
        | Some a => match h !! a with Some (Obj (BPairs l) None) => mapM (value_at n h) l | _ => None end
        end = Some ats).
      { destruct att as [a|], la as [l|]; simpl in Ha, Hav; try done; [by rewrite Ha|by subst]. }
      rewrite HA. destruct b as [l|l|l|v|v]; simpl in Hb; try (by subst). 
      destruct Hb as (ts & -> & ->). done.
  Qed.

  Lemma forallb_lookup {A} (P : A -> bool) l j a : forallb P l = true -> l !! j = Some a -> P a = true.
  Proof. intros H Hj. rewrite forallb_forall in H. by apply H, elem_of_list_In, (elem_of_list_lookup_2 _ j). Qed.

  Lemma normalize_ok n : forall t, plain_refs t = true -> strings not_bytes t = true -> rec_ok (obj_normalize_encoding tr mr n) n t.
  Proof.
    induction n as [|n IH]; intros t Hp Hb h x Hc Hv; [done|].
    apply value_S in Hv. destruct Hv as (b & att & la & tb & ats & Hx & Ha & Hav & Hbv & ->).
    cbn [obj_normalize_encoding]. rewrite (proj2 (rd_Ok _ _ _) Hx). cbn [bind o_body].
    cbn [plain_refs] in Hp. cbn [strings] in Hb. apply andb_true_iff in Hp, Hb. destruct Hp as [Hp1 Hp2], Hb as [Hb1 Hb2].
    assert (H1 : exists h1 x1 b1 att1, match b with
        | BChr l => chr_normalize_encoding tr mr h x l
        | BList l => list_normalize_encoding mr (obj_normalize_encoding tr mr n) h x (length l)
        | _ => Ok (h, x) end = Ok (h1, x1) /\ step h x h1 x1 /\ h1 !! x1 = Some (Obj b1 att1) /\ attr_at h1 att1 la /\
        (ats = [] \/ match b1 with BRef _ => False | _ => True end) /\
        (forall h2 x2, (exists z, keep h1 z h2) -> x2 = x1 \/ match b1 with BRef _ => False | _ => True end -> body_value n h2 x2 b1 match tb with
           | VChr l => VChr (map (utf8 tr) l)
           | VList l => VList (map (normal tr) l)
           | b => b
           end) /\
        (match tb with VChr l => forallb in_utf8 l | VList l => forallb (strings in_utf8) l | _ => true end = true -> h1 = h /\ x1 = x)).
    { destruct b as [l|l|l|v|v]; simpl in Hbv; try done.
      - subst tb. destruct (chr_ok h x l att la) as (h1 & x1 & att1 & H1 & H2 & H3 & H4 & H5); [done..|].
        exists h1, x1, (BChr (map (utf8 tr) l)), att1. split; [done|]. split; [done|]. split; [done|]. split; [done|]. split; [by right|]. by split.
      - destruct Hbv as (ts & Hts & ->). pose proof (mapM_length _ _ _ Hts) as Hlen.
        destruct (list_loop (obj_normalize_encoding tr mr n) n h x l att la ts (length l)) as (h1 & x1 & l1 & att1 & H1 & H2 & H3 & H4 & H5 & _ & H6 & H7); [done..| |].
        { intros j t _ Ht. apply IH; by apply (forallb_lookup _ ts j). }
        exists h1, x1, (BList l1), att1. unfold list_normalize_encoding. split; [done|]. split; [done|]. split; [done|]. split; [done|]. split; [by right|].
        split.
        + intros h2 x2 Hk _. exists (map (normal tr) ts). split; [|done].
          apply (elements_value h1 x1 (Obj (BList l1) att1)); [apply H2|done| |done|].
          * intros y Hy. unfold fields. simpl. apply in_or_app. by left.
          * apply lookups_mapM; [lia|]. intros j y t Hy Ht. apply (H6 j); [|done|done]. pose proof (lookup_lt_Some _ _ _ Hy). lia.
        + intros Hu. apply H7. intros j t _ Ht. by apply (forallb_lookup _ ts j).
      - subst tb. exists h, x, (BOther v), att. split; [done|]. split; [by apply step_refl|]. split; [done|]. split; [done|]. split; [by right|]. done.
      - subst tb. exists h, x, (BRef v), att. split; [done|]. split; [by apply step_refl|]. split; [done|]. split; [done|]. split.
        { left. by destruct ats. }
        split; [|done]. intros h2 x2 _ [->|[]]. done. }
    destruct H1 as (h1 & x1 & b1 & att1 & -> & Hst1 & Hx1 & Ha1 & Hb1' & Hbody & Hu1). cbn [bind].
    rewrite (proj2 (rd_Ok _ _ _) Hx1). cbn [bind o_attrib].
    assert (Hav1 : attr_value_at n h1 la ats).
    { apply (attr_value_keep n h x b att la ats h1); try done. exists x. apply Hst1. }
    destruct (attrib_stage (obj_normalize_encoding tr mr n) n h1 x1 b1 att1 la ats) as (h2 & x2 & att2 & la2 & -> & Hst2 & Hx2 & Ha2 & Hav2 & Hu2); [apply Hst1|done..| |].
    { intros j t Ht. apply IH; by apply (forallb_lookup _ ats j). }
    exists h2, x2. split; [done|]. split; [by apply (step_trans' roots _ _ h1 x1)|]. split.
    - apply value_S. exists b1, att2, la2. eexists _, _. split; [done|]. split; [done|]. split; [done|]. split; [|done].
      apply Hbody; [exists x1; apply Hst2|].
      destruct Hb1' as [->|Hb1']; [left; by destruct Hu2|by right].
    - cbn [strings]. intros Hu. apply andb_true_iff in Hu. destruct Hu as [Hua Hub].
      destruct (Hu1 Hua) as [-> ->]. by destruct (Hu2 Hub).
  Qed.

  Lemma normalize_err n : forall t, plain_refs t = true -> strings not_bytes t = false -> rec_err (obj_normalize_encoding tr mr n) n t.
  Proof.
    induction n as [|n IH]; intros t Hp Hb h x Hc Hv; [done|].
    apply value_S in Hv. destruct Hv as (b & att & la & tb & ats & Hx & Ha & Hav & Hbv & ->).
    cbn [obj_normalize_encoding]. rewrite (proj2 (rd_Ok _ _ _) Hx). cbn [bind o_body].
    cbn [plain_refs] in Hp. cbn [strings] in Hb. apply andb_true_iff in Hp. destruct Hp as [Hp1 Hp2]. apply andb_false_iff in Hb.
    assert (Hats : forall h1 x1 b1 att1, closed h1 -> h1 !! x1 = Some (Obj b1 att1) -> attr_at h1 att1 la -> attr_value_at n h1 la ats ->
      forallb (strings not_bytes) ats = false ->
      (let! o := rd h1 x1 in match o_attrib o with None => Ok (h1, x1) | Some attrib => obj_attrib_normalize_encoding mr (obj_normalize_encoding tr mr n) h1 x1 attrib end) = Err bytes_error).
    { intros h1 x1 b1 att1 Hc1 Hx1 Ha1 Hav1 Hbad. rewrite (proj2 (rd_Ok _ _ _) Hx1). cbn [bind o_attrib].
      apply (attrib_stage_err (obj_normalize_encoding tr mr n) n h1 x1 b1 att1 la ats); try done.
      - intros j t Ht Hs. apply normalize_ok; [by apply (forallb_lookup _ ats j)|done].
      - intros j t Ht Hs. apply IH; [by apply (forallb_lookup _ ats j)|done]. }
    destruct b as [l|l|l|v|v]; simpl in Hbv; try done.
    - subst tb. destruct (forallb not_bytes l) eqn:El.
      + destruct Hb as [?|Hb]; [done|]. destruct (chr_ok h x l att la) as (h1 & x1 & att1 & -> & H2 & H3 & H4 & H5); [done..|].
        cbn [bind]. eapply (Hats h1 x1); [apply H2|done|done| |done].
        apply (attr_value_keep n h x (BChr l) att la ats h1); try done. exists x. apply H2.
      + by rewrite (chr_err h x l att la).
    - destruct Hbv as (ts & Hts & ->). pose proof (mapM_length _ _ _ Hts) as Hlen.
      destruct (forallb (strings not_bytes) ts) eqn:El.
      + destruct Hb as [?|Hb]; [done|].
        destruct (list_loop (obj_normalize_encoding tr mr n) n h x l att la ts (length l)) as (h1 & x1 & l1 & att1 & H1 & H2 & H3 & H4 & _); [done..| |].
        { intros j t _ Ht. apply normalize_ok; by apply (forallb_lookup _ ts j). }
        unfold list_normalize_encoding. rewrite H1. cbn [bind]. eapply (Hats h1 x1); [apply H2|done|done| |done].
        apply (attr_value_keep n h x (BList l) att la ats h1); try done. exists x. apply H2.
      + destruct (first_bad _ _ El) as (k & t & Hk & Ht & Hpre). pose proof (lookup_lt_Some _ _ _ Hk) as Hltk.
        destruct (list_loop (obj_normalize_encoding tr mr n) n h x l att la ts k) as (h1 & x1 & l1 & att1 & H1 & H2 & H3 & H4 & H5 & H6 & _); [done..|lia| |].
        { intros j t' Hj Ht'. apply normalize_ok; [by apply (forallb_lookup _ ts j)|].
          apply (forallb_lookup _ (take k ts) j); [done|]. by rewrite lookup_take. }
        unfold list_normalize_encoding.
        rewrite (for_stop 0 k (length l) (list_step mr (obj_normalize_encoding tr mr n)) (h, x) (h1, x1) bytes_error); [done|lia|done|].
        simpl. rewrite (proj2 (rd_Ok _ _ _) H3). cbn [bind o_body].
        pose proof (proj1 (mapM_Some _ _ _) Hts) as HF2. destruct (Forall2_lookup_r _ _ _ _ _ HF2 Hk) as (e & He & Hv).
        rewrite (proj2 (rd_Ok _ _ e)) by (by rewrite H6). cbn [bind].
        rewrite (IH t); [done|by apply (forallb_lookup _ ts k)|done|apply H2|].
        apply (keep_value roots h x h1); [apply H2| |done]. destruct (decide (e = x)) as [->|]; [right|by left].
        right. apply (referred_field h x _ _ Hx). unfold fields. simpl. apply in_or_app. left. by apply elem_of_list_In, (elem_of_list_lookup_2 _ k).
    - destruct Hb as [Hb|Hb]; [by subst tb|]. cbn [bind]. by eapply (Hats h x).
    - destruct Hb as [Hb|Hb]; [by subst tb|]. cbn [bind]. by eapply (Hats h x).
  Qed.
End norm.

(** Values are normalised: [n] is the room on the stack, and enough for values no
    deeper than it.  Objects in use stay as they are, and nothing is changed or
    made if all strings are normalised. *)
Theorem C53_normalize roots tr mr n h x t : counts roots mr -> closed h -> value_at n h x = Some t ->
  plain_refs t = true -> strings not_bytes t = true ->
  exists h' x', vec_normalize_encoding tr mr n h x = Ok (h', x') /\
    value_at n h' x' = Some (normal tr t) /\
    (forall y, y < length h -> y <> x \/ in_use roots h x -> h' !! y = h !! y) /\
    (strings in_utf8 t = true -> h' = h /\ x' = x).
Proof.
  intros Hmr Hc Hv Hp Hb. destruct (normalize_ok roots tr mr Hmr n t Hp Hb h x Hc Hv) as (h' & x' & H1 & [[HL HK] _ _ _] & H3 & H4).
  exists h', x'. split; [done|]. split; [done|]. split; [done|done].
Qed.
(** Strings of bytes are an error. *)
Theorem C53_bytes roots tr mr n h x t : counts roots mr -> closed h -> value_at n h x = Some t ->
  plain_refs t = true -> strings not_bytes t = false ->
  vec_normalize_encoding tr mr n h x = Err bytes_error.
Proof. intros Hmr Hc Hv Hp Hb. by apply (normalize_err roots tr mr Hmr n t). Qed.
(** Every value that a variable holds, and every value in those, is what it was. *)
Theorem C53_values roots tr mr n h x t m y u h' x' : counts roots mr -> closed h -> value_at n h x = Some t ->
  plain_refs t = true -> vec_normalize_encoding tr mr n h x = Ok (h', x') ->
  in_use roots h y -> value_at m h y = Some u -> value_at m h' y = Some u.
Proof.
  intros Hmr Hc Hv Hp HE Hy. destruct (strings not_bytes t) eqn:Hb.
  - destruct (normalize_ok roots tr mr Hmr n t Hp Hb h x Hc Hv) as (h1 & x1 & H1 & [HK _ _ _] & _).
    unfold vec_normalize_encoding in HE. rewrite H1 in HE. inversion HE; subst h1 x1. apply (keep_value roots h x h'); [done|].
    destruct (decide (y = x)) as [->|]; [by right|by left].
  - unfold vec_normalize_encoding in HE. by rewrite (normalize_err roots tr mr Hmr n t Hp Hb h x) in HE.
Qed.

Lemma tree_induction (P : tree -> Prop) :
  (forall tb ats, match tb with VList l => Forall P l | _ => True end -> Forall P ats -> P (Tree tb ats)) -> forall t, P t.
Proof.
  intros H. fix IH 1. intros [tb ats]. apply H.
  - destruct tb as [l|l|v|x]; [exact I| |exact I|exact I].
    exact ((fix go (l : list tree) : Forall P l := match l with [] => List.Forall_nil _ | t :: l => List.Forall_cons _ t l (IH t) (go l) end) l).
  - exact ((fix go (l : list tree) : Forall P l := match l with [] => List.Forall_nil _ | t :: l => List.Forall_cons _ t l (IH t) (go l) end) ats).
Qed.
Lemma forallb_map_impl {A B} (P : A -> bool) (Q : B -> bool) (f : A -> B) l :
  Forall (fun a => P a = true -> Q (f a) = true) l -> forallb P l = true -> forallb Q (map f l) = true.
Proof. induction 1 as [|a l H _ IH]; [done|]. simpl. rewrite !andb_true_iff. intros [? ?]. split; [by apply H|by apply IH]. Qed.
Lemma normal_utf8 tr t : strings not_bytes t = true -> strings in_utf8 (normal tr t) = true.
Proof.
  induction t as [tb ats Hb Ha] using tree_induction. cbn [strings normal]. rewrite !andb_true_iff. intros [H1 H2]. split.
  - destruct tb as [l|l|v|x]; try done; [|by apply (forallb_map_impl (strings not_bytes))].
    apply (forallb_map_impl not_bytes); [|done]. apply Forall_forall. intros s _. destruct s as [|b e]; [done|]. destruct e; unfold utf8, in_utf8; intros H; try done; match goal with |- context [forallb ?f ?l] => destruct (forallb f l); reflexivity end.
  - by apply (forallb_map_impl (strings not_bytes)).
Qed.
Lemma normal_refs tr t : plain_refs t = true -> plain_refs (normal tr t) = true.
Proof.
  induction t as [tb ats Hb Ha] using tree_induction. cbn [plain_refs normal]. rewrite !andb_true_iff. intros [H1 H2]. split.
  - destruct tb as [l|l|v|x]; try done; [by apply (forallb_map_impl plain_refs)|]. by destruct ats.
  - by apply (forallb_map_impl plain_refs).
Qed.
Lemma utf8_not_bytes t : strings in_utf8 t = true -> strings not_bytes t = true.
Proof.
  assert (HI : forall P Q : tree -> bool, forall l, Forall (fun a => P a = true -> Q a = true) l -> forallb P l = true -> forallb Q l = true).
  { intros P Q l H. rewrite <- (map_id l) at 2. by apply forallb_map_impl. }
  induction t as [tb ats Hb Ha] using tree_induction. cbn [strings]. rewrite !andb_true_iff. intros [H1 H2]. split.
  - destruct tb as [l|l|v|x]; try done; [|by apply (HI (strings in_utf8))].
    rewrite forallb_forall in H1 |- *. intros s Hs. specialize (H1 s Hs). by destruct s as [|b []].
  - by apply (HI (strings in_utf8)).
Qed.

(** What is normalised once is normalised: a second call returns its argument. *)
Theorem C53_again roots tr mr n h x t h' x' : counts roots mr -> closed h -> value_at n h x = Some t -> plain_refs t = true ->
  vec_normalize_encoding tr mr n h x = Ok (h', x') -> vec_normalize_encoding tr mr n h' x' = Ok (h', x').
Proof.
  intros Hmr Hc Hv Hp HE. unfold vec_normalize_encoding in *. destruct (strings not_bytes t) eqn:Hb.
  - destruct (normalize_ok roots tr mr Hmr n t Hp Hb h x Hc Hv) as (h1 & x1 & H1 & [_ _ HC _] & H2 & _).
    rewrite H1 in HE. inversion HE; subst h1 x1. pose proof (normal_utf8 tr t Hb) as Hu.
    destruct (normalize_ok roots tr mr Hmr n (normal tr t)) with (h := h') (x := x') as (h2 & x2 & -> & _ & _ & H4); [by apply normal_refs|by apply utf8_not_bytes|done|done|].
    by destruct (H4 Hu) as [-> ->].
  - by rewrite (normalize_err roots tr mr Hmr n t Hp Hb h x) in HE.
Qed.

(** Two strings with the same text become the same string, if they are marked as R marks them. *)
Theorem C53_text tr s s' : marked s -> marked s' -> text tr s = text tr s' <-> utf8 tr s = utf8 tr s'.
Proof.
  assert (HG : forall s, marked s -> utf8 tr s = match text tr s with None => NaStr | Some b => Str b (if forallb (fun c => c <? 128)%Z b then EAscii else EUtf8) end).
  { intros [|b []]; simpl; intros H; try done; by rewrite H. }
  intros H1 H2. rewrite (HG s H1), (HG s' H2). split; [by intros ->|].
  destruct (text tr s), (text tr s'); intros E; inversion E; done.
Qed.

(** Attributes of an environment are normalised in place: a variable that holds
    the environment sees other attributes afterwards.  Here the list [3] holds
    the environment [2], which has an attribute in latin1. *)
Definition env_heap : heap :=
  [Obj (BChr [Str [252]%Z ELatin1]) None; Obj (BPairs [0]) None; Obj (BRef 7) (Some 1); Obj (BList [2]) None].
Definition tr_example (b : list Z) (e : enc) : list Z :=
  flat_map (fun c => if (c <? 128)%Z then [c] else if (c <? 192)%Z then [194; c]%Z else [195; c - 64]%Z) b.
Lemma counts_all roots : counts roots (fun _ _ => true).
Proof. by intros h x _. Qed.
Theorem C53_env_refuted : exists roots mr n h x t env u h' x',
  counts roots mr /\ closed h /\ value_at n h x = Some t /\ strings not_bytes t = true /\ In env roots /\
  vec_normalize_encoding tr_example mr n h x = Ok (h', x') /\
  value_at n h env = Some u /\ value_at n h' env <> Some u.
Proof.
  exists [2; 3], (fun _ _ => true), 5, env_heap, 3. eexists. exists 2. eexists _, _, _.
  split; [apply counts_all|]. split.
  { intros y o f Hy Hf. destruct y as [|[|[|[|y]]]]; simpl in Hy; inversion Hy; subst o; simpl in Hf; simpl; intuition lia. }
  split; [vm_compute; reflexivity|]. split; [done|]. split; [by left|]. split; [vm_compute; reflexivity|].
  split; [vm_compute; reflexivity|]. vm_compute. done.
Qed.

(** The attributes of an environment that has itself as an attribute are followed for ever. *)
Theorem C53_cycle_refuted : exists h x, closed h /\
  forall tr mr fuel, vec_normalize_encoding tr mr fuel h x = Err "stack overflow".
Proof.
  exists [Obj (BPairs [1]) None; Obj (BRef 7) (Some 0)], 1. split.
  { intros y o f Hy Hf. destruct y as [|[|y]]; simpl in Hy; inversion Hy; subst o; simpl in Hf; simpl; intuition lia. }
  intros tr mr fuel. unfold vec_normalize_encoding. induction fuel as [|fuel IH]; [done|].
  simpl. unfold obj_attrib_normalize_encoding, attrib_normalize_encoding, attrib_step. simpl. by rewrite IH.
Qed.

(** Not vacuous: a list of a vector in two encodings and one whose attribute is in
    latin1, both in use; the list is not. *)
Definition list_heap : heap :=
  [Obj (BChr [Str [97]%Z EAscii; Str [195; 188]%Z EUtf8; Str [252]%Z ELatin1; NaStr]) None;
   Obj (BChr [Str [97; 252]%Z ELatin1]) None; Obj (BPairs [1; 0]) None; Obj (BOther 1) (Some 2);
   Obj (BList [0; 3]) None].
Definition mr_example (h : heap) (x : nat) : bool := negb (x =? 4) || existsb (fun o => existsb (Nat.eqb 4) (fields o)) h.
Example C53_example :
  closed list_heap /\
  match value_at 5 list_heap 4, vec_normalize_encoding tr_example mr_example 5 list_heap 4 with
  | Some t, Ok (h', x') =>
      plain_refs t = true /\ strings not_bytes t = true /\ strings in_utf8 t = false /\ x' = 4 /\ length h' = 11 /\
      value_at 5 h' 4 = Some (Tree (VList [Tree (VChr [Str [97]%Z EAscii; Str [195; 188]%Z EUtf8; Str [195; 188]%Z EUtf8; NaStr]) [];
        Tree (VOther 1) [Tree (VChr [Str [97; 195; 188]%Z EUtf8]) []; Tree (VChr [Str [97]%Z EAscii; Str [195; 188]%Z EUtf8; Str [195; 188]%Z EUtf8; NaStr]) []]]) [])
  | _, _ => False
  end /\
  counts [0; 1; 3] mr_example /\
  vec_normalize_encoding tr_example (fun _ _ => true) 2 [Obj (BChr [Str [1]%Z EBytes]) None] 0 = Err bytes_error /\
  text tr_example (Str [252]%Z ELatin1) = text tr_example (Str [195; 188]%Z EUtf8).
Proof.
  split. { intros y o f Hy Hf. destruct y as [|[|[|[|[|y]]]]]; simpl in Hy; inversion Hy; subst o; simpl in Hf; simpl; intuition lia. }
  split; [vm_compute; intuition|]. split; [|split; done].
  intros h x. unfold mr_example. destruct (Nat.eqb_spec x 4) as [->|]; [|done].
  intros [HR|(y & o & Hy & Ho)]; [simpl in HR; lia|]. simpl.
  apply existsb_exists. exists o. split; [by apply elem_of_list_In, (elem_of_list_lookup_2 _ y)|].
  apply existsb_exists. by exists 4.
Qed.
Print Assumptions C53_normalize.
Print Assumptions C53_bytes.
Print Assumptions C53_values.
Print Assumptions C53_again.
Print Assumptions C53_text.
Print Assumptions C53_env_refuted.
Print Assumptions C53_cycle_refuted.
