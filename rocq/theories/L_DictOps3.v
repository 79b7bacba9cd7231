(** * Lemmas: vec_count, vec_group_rle, vec_group_loc over an abstract element type *)
From Verif Require Import Base M_Growable M_Hash M_Dict L_Proxy L_DictNum L_Dict L_Growable L_DictOps L_DictOps2.
From Coq Require Import ZifyBool ZifyNat.

(** Decoding a run-length encoding. *)
Definition rle_decode (g l : list Z) : list Z :=
  concat (zip_with (fun gv lv => replicate (Z.to_nat lv) gv) g l).
Lemma rle_decode_snoc gs ls gv lv : length gs = length ls ->
  rle_decode (gs ++ [gv]) (ls ++ [lv]) = rle_decode gs ls ++ replicate (Z.to_nat lv) gv.
Proof.
  intros H. unfold rle_decode. rewrite zip_with_app by done. rewrite concat_app. simpl. by rewrite app_nil_r.
Qed.
Lemma take_S_insert {A} (l : list A) k v : k < length l -> take (S k) (<[k:=v]> l) = take k l ++ [v].
Proof. intros H. rewrite (take_S_r _ _ v) by (by apply list_lookup_insert). by rewrite take_insert. Qed.
Lemma map_lookup {A B} (f : A -> B) l i a : l !! i = Some a -> map f l !! i = Some (f a).
Proof. intros H. rewrite list_lookup_fmap, H. done. Qed.
Lemma lookup_map_Some {A B} (f : A -> B) l i b : map f l !! i = Some b -> exists a, l !! i = Some a /\ b = f a.
Proof. rewrite list_lookup_fmap. destruct (l !! i) as [a|]; [|done]. intros [= <-]. eauto. Qed.

Section ops.
  Context {A B : Type} (eqb : A -> A -> bool) (sem : A -> B) (dom : A -> Prop) (hf : A -> Z).
  Context (eqb_spec : forall a b, dom a -> dom b -> eqb a b = true <-> sem a = sem b).
  Context (hf_spec : forall a b, dom a -> dom b -> sem a = sem b -> hf a = hf b).

  Notation dinv := (dinv eqb sem dom hf).
  Notation firsts := (firsts eqb).
  Notation occ := (occ eqb).
  Notation X x := (map sem x).
  Notation visit_step := (visit_step eqb sem dom hf eqb_spec hf_spec).

  Lemma key_first x d m s j : dinv x d m -> d_key d !! s = Some (Z.of_nat j) -> j < m /\ is_first (X x) j.
  Proof.
    intros I E. destruct (di_key _ _ _ _ _ _ _ I s _ E) as [H|(j' & a & H & Hj & _ & F & _)];
      [unfold DICT_EMPTY in H; lia|]. assert (j' = j) as -> by lia. done.
  Qed.

  (** Counting: one more element. *)
  Lemma occ_step x i f j : Forall dom x -> i < length x -> f < length x -> j < length x ->
    is_first (X x) f -> is_first (X x) j -> X x !! f = X x !! i ->
    length (occ x (S i) j) = length (occ x i j) + (if decide (j = f) then 1 else 0).
  Proof.
    intros Hx Hi Hf Hj Ff Fj E. rewrite occ_S, app_length.
    destruct (decide (j = f)) as [->|Hne].
    - rewrite (proj2 (eqat_spec eqb sem dom eqb_spec x i f Hx Hi Hf)) by done. done.
    - destruct (eqat eqb x i j) eqn:Eq; [|done]. apply (eqat_spec eqb sem dom eqb_spec) in Eq; [|done|done|done].
      destruct Hne. apply (first_unique (X x)); [done|done|congruence].
  Qed.

  (** ** vec_count *)
  Lemma vec_count_spec x : Forall dom x -> fits x ->
    exists js, vec_count eqb x (map hf x) =
        Ok (map loc_of js, map (fun j => Z.of_nat (length (occ x (length x) j))) js) /\
      Permutation js (firsts x (length x)).
  Proof.
    intros Hx Hl. unfold vec_count. set (n := length x) in *.
    destruct (new_dictionary_inv eqb sem dom hf x Hx Hl) as (d0 & -> & I0 & _). simpl.
    set (sz := Z.to_nat (d_size d0)).
    match goal with |- context [for_ 0 n ?body ?s0] =>
      destruct (for_inv (fun m '(d, pc) => dinv x d m /\ d_size d = d_size d0 /\ length pc = sz /\
         forall s j, d_key d !! s = Some (Z.of_nat j) -> pc !! s = Some (Z.of_nat (length (occ x m j))))
         0 n body s0) as ([d C] & -> & I & Hsz & HC & HCs) end.
    { split_and!; [done|done|apply replicate_length|]. intros s j E. destruct (key_first _ _ _ _ _ I0 E). lia. }
    { intros i [d1 pc] Hi (I1 & Hsz1 & Hpc & HP).
      destruct (visit_step x d1 i I1) as (d2 & s & f & key & -> & I2 & Hsz2 & Hs & Ek & Hf & Ff & Ef & Hmono & Hc); [lia|].
      simpl. assert (Hs' : s < length pc) by (rewrite Hpc; unfold sz; rewrite <- Hsz1; done).
      assert (Hgoal : forall pc' c, length pc' = sz -> pc' !! s = Some c -> c = Z.of_nat (length (occ x i f)) ->
        (forall s' j, s' <> s -> d_key d2 !! s' = Some (Z.of_nat j) -> pc' !! s' = Some (Z.of_nat (length (occ x i j)))) ->
        exists s', (let! c := rdZ pc' (Z.of_nat s) in let! p_count := wrZ pc' (Z.of_nat s) (c + 1)%Z in Ok (d2, p_count)) = Ok s' /\
          (let '(d, pc) := s' in dinv x d (S i) /\ d_size d = d_size d0 /\ length pc = sz /\
            forall s j, d_key d !! s = Some (Z.of_nat j) -> pc !! s = Some (Z.of_nat (length (occ x (S i) j))))).
      { intros pc' c Hl' Ec -> Hoth. rewrite rdZ_nat, (proj2 (rd_Ok _ _ _) Ec). simpl.
        rewrite wrZ_nat, wr_Ok by lia. simpl. eexists. split; [reflexivity|]. cbv beta iota. rewrite insert_length.
        split_and!; [done|congruence|done|]. intros s' j E.
        destruct (key_first _ _ _ _ _ I2 E) as [Hj Fj].
        rewrite (occ_step x i f j Hx) by (done || lia). destruct (decide (s' = s)) as [->|Hne].
        - rewrite list_lookup_insert by lia. rewrite Ek in E. assert (f = j) as -> by (injection E; lia).
          rewrite decide_True by done. f_equal. lia.
        - rewrite list_lookup_insert_ne by done. rewrite decide_False.
          + rewrite (Hoth s' j Hne E). f_equal. lia.
          + intros ->. apply Hne. by apply (di_uniq _ _ _ _ _ _ _ I2 s' s f). }
      destruct Hc as [(-> & -> & Hemp & Hk2)|(-> & Hlt & ->)].
      - simpl. rewrite wrZ_nat, wr_Ok by done. simpl. apply (Hgoal _ 0%Z).
        + by rewrite insert_length.
        + by apply list_lookup_insert.
        + rewrite (occ_first eqb sem dom eqb_spec x i); [done|done|lia|done].
        + intros s' j Hne E. rewrite list_lookup_insert_ne by done. apply HP.
          rewrite Hk2, list_lookup_insert_ne in E by done. done.
      - rewrite key_empty. simpl. apply (Hgoal _ (Z.of_nat (length (occ x i f)))); [done|by apply HP|done|].
        intros s' j _ E. by apply HP. }
    simpl in *. rewrite Hsz. fold sz. set (K := d_key d) in *.
    assert (HK : length K = sz) by (unfold K, sz; rewrite (di_len _ _ _ _ _ _ _ I); by rewrite Hsz).
    set (nonempty := fun s => match K !! s with Some k => negb (k =? DICT_EMPTY)%Z | None => false end).
    set (nes := fun h => List.filter nonempty (seq 0 h)).
    set (kf := fun s => Z.to_nat (K !!! s)).
    assert (Hnes_S : forall h, nes (S h) = nes h ++ (if nonempty h then [h] else [])).
    { intros h. unfold nes. by rewrite seq_S, List.filter_app. }
    assert (Hne : forall h s, s ∈ nes h -> s < h /\ K !! s = Some (Z.of_nat (kf s)) /\ kf s < n /\ is_first (X x) (kf s)).
    { intros h s Hs. unfold nes in Hs. apply elem_of_list_In, filter_In in Hs as [H1 H2]. apply in_seq in H1.
      unfold nonempty in H2. destruct (K !! s) as [k|] eqn:Ek; [|done].
      destruct (di_key _ _ _ _ _ _ _ I s k Ek) as [->|(j & a & -> & Hj & _ & F & _)]; [done|].
      assert (kf s = j) as ->. { unfold kf. rewrite (list_lookup_total_correct _ _ _ Ek). lia. }
      split_and!; [lia|done|done|done]. }
    set (js := map kf (nes sz)).
    assert (HPm : Permutation js (firsts x n)).
    { apply NoDup_Permutation.
      - apply NoDup_fmap_2_strong; [|apply NoDup_ListNoDup, List.NoDup_filter, seq_NoDup].
        intros s s' H1 H2 E. apply Hne in H1 as (_ & E1 & _). apply Hne in H2 as (_ & E2 & _).
        rewrite E in E1. by apply (di_uniq _ _ _ _ _ _ _ I s s' (kf s')).
      - apply firsts_NoDup.
      - intros j. rewrite (firsts_elem eqb sem dom eqb_spec) by done. split.
        + intros Hj. apply elem_of_list_fmap in Hj as (s & -> & Hs). apply Hne in Hs. tauto.
        + intros [Hj F]. destruct (di_all _ _ _ _ _ _ _ I j Hj F) as [s Es]. apply elem_of_list_fmap.
          exists s. split.
          * unfold kf. fold K in Es. rewrite (list_lookup_total_correct _ _ _ Es). lia.
          * unfold nes. apply elem_of_list_In, filter_In. split.
            -- apply in_seq. apply lookup_lt_Some in Es. fold K in Es. lia.
            -- unfold nonempty. fold K in Es. rewrite Es. by rewrite key_empty. }
    assert (Hused : Z.to_nat (d_used d) = length js).
    { rewrite (di_used _ _ _ _ _ _ _ I), Nat2Z.id. by rewrite HPm. }
    assert (Hnl : forall h, h <= sz -> length (nes h) <= length js).
    { intros h Hh. unfold js. rewrite map_length. clear -Hh Hnes_S. induction Hh as [|m H IH]; [done|].
      rewrite Hnes_S, app_length. lia. }
    assert (Hnh : forall h, length (nes h) <= h).
    { induction h as [|h IH]; [done|]. rewrite Hnes_S, app_length. destruct (nonempty h); simpl; lia. }
    rewrite Hused.
    match goal with |- context [for_ 0 sz ?body ?s0] =>
      destruct (for_inv (fun h '(i, ol, pc) => i = length (nes h) /\ length ol = length js /\ length pc = sz /\
         (forall k s, nes h !! k = Some s -> ol !! k = Some (loc_of (kf s)) /\
             pc !! k = Some (Z.of_nat (length (occ x n (kf s))))) /\
         (forall s, h <= s -> pc !! s = C !! s)) 0 sz body s0) as ([[i ol] pc] & -> & Hi & Hol & Hpc & HH & _) end.
    { split_and!; try done. apply replicate_length. }
    { intros h [[i ol] pc] Hh (-> & Hol & Hpc & HH & Htail).
      destruct (lookup_lt_is_Some_nth K h) as [k Ek]; [lia|]. rewrite (proj2 (rd_Ok _ _ _) Ek). simpl.
      pose proof (Hnes_S h) as HS. unfold nonempty in HS at 1. rewrite Ek in HS.
      destruct (Z.eqb_spec k DICT_EMPTY) as [->|Hk].
      - simpl in HS. rewrite app_nil_r in HS. eexists. split; [reflexivity|]. cbv beta iota. rewrite HS.
        split_and!; try done. intros s Hs. apply Htail. lia.
      - simpl in HS. assert (Hh' : h ∈ nes (S h)) by (rewrite HS; apply elem_of_app; right; left).
        destruct (Hne _ _ Hh') as (_ & EK & Hkn & HkF). rewrite EK in Ek. injection Ek as <-.
        pose proof (Hnl (S h) ltac:(lia)) as Hle. rewrite HS, app_length in Hle. simpl in Hle.
        pose proof (Hnh h) as Hle2.
        rewrite wr_Ok by lia. simpl.
        assert (Ec : pc !! h = Some (Z.of_nat (length (occ x n (kf h))))) by (rewrite Htail by lia; by apply HCs).
        rewrite (proj2 (rd_Ok _ _ _) Ec). simpl. rewrite wr_Ok by lia. simpl.
        eexists. split; [reflexivity|]. cbv beta iota. rewrite !insert_length, HS, app_length. simpl.
        split_and!; try done; [lia| |].
        + intros k s E. destruct (decide (k < length (nes h))) as [Hlt|Hge].
          * rewrite lookup_app_l in E by done. rewrite !list_lookup_insert_ne by lia. by apply HH.
          * assert (k = length (nes h)) as ->.
            { apply lookup_lt_Some in E. rewrite app_length in E. simpl in E. lia. }
            rewrite lookup_app_r, Nat.sub_diag in E by lia. injection E as <-.
            rewrite !list_lookup_insert by lia. done.
        + intros s Hs. rewrite list_lookup_insert_ne by lia. apply Htail. lia. }
    simpl. exists js. split; [|done]. f_equal. f_equal.
    - apply list_eq. intros k. unfold js. rewrite map_map. destruct (nes sz !! k) as [s|] eqn:E.
      + rewrite (map_lookup _ _ _ _ E). by apply HH.
      + rewrite list_lookup_fmap, E. simpl. apply lookup_ge_None_2. apply lookup_ge_None_1 in E.
        rewrite Hol. unfold js. rewrite map_length. done.
    - assert (Hlen : length js <= length pc) by (unfold js; rewrite map_length; pose proof (Hnh sz); lia).
      rewrite lengthgets_take by done. apply list_eq. intros k. unfold js at 2. rewrite map_map.
      destruct (nes sz !! k) as [s|] eqn:E.
      + rewrite (map_lookup _ _ _ _ E). rewrite lookup_take; [by apply HH|]. unfold js. rewrite map_length.
        by eapply lookup_lt_Some.
      + rewrite list_lookup_fmap, E. simpl. apply lookup_ge_None_2. apply lookup_ge_None_1 in E.
        rewrite take_length. unfold js. rewrite map_length. lia.
  Qed.

  (** ** vec_group_loc *)
  Lemma vec_group_loc_spec x : Forall dom x -> fits x ->
    vec_group_loc eqb x (map hf x) =
      Ok (map loc_of (firsts x (length x)),
          map (fun f => map loc_of (occ x (length x) f)) (firsts x (length x))).
  Proof.
    intros Hx Hl. unfold vec_group_loc.
    destruct (group_id_loop_spec eqb sem dom hf eqb_spec hf_spec 0 x Hx Hl) as (d & gr & -> & I & Hgr & HG). simpl.
    set (n := length x) in *.
    rewrite (di_used _ _ _ _ _ _ _ I), Nat2Z.id. fold n. set (ng := length (firsts x n)).
    assert (HFn : forall g f, firsts x n !! g = Some f -> f < n /\ is_first (X x) f /\ g = length (firsts x f)).
    { intros g f E. by apply (firsts_index_inv eqb sem dom eqb_spec x n g f Hx ltac:(lia)). }
    assert (HGi : forall i, i < n -> exists f g, f <= i /\ is_first (X x) f /\ X x !! f = X x !! i /\
              gr !! i = Some (Z.of_nat g) /\ firsts x n !! g = Some f /\ g = length (firsts x f)).
    { intros i Hi. destruct (HG i Hi) as (f & Hf & Ff & Ef & Eg). exists f, (length (firsts x f)).
      split_and!; try done. apply (firsts_index eqb sem dom eqb_spec); [done|lia|lia|done]. }
    match goal with |- context [for_ 0 n ?body ?s0] =>
      destruct (for_inv (fun i '(kl, cur, pc) => cur = length (firsts x i) /\ length kl = ng /\ length pc = ng /\
        (forall k f, firsts x i !! k = Some f -> kl !! k = Some (loc_of f)) /\
        (forall g f, firsts x n !! g = Some f -> pc !! g = Some (Z.of_nat (length (occ x i f))))) 0 n body s0)
        as ([[kl cur] pc] & -> & _ & Hkl & Hpc & HKL & HPC) end.
    { split_and!; try done; try apply replicate_length.
      intros g f E. apply lookup_replicate_2. by eapply lookup_lt_Some. }
    { intros i [[kl cur] pc] Hi (-> & Hkl & Hpc & HKL & HPC).
      destruct (HGi i) as (f & g & Hf & Ff & Ef & Eg & Efg & Hg); [lia|].
      assert (Hgl : g < ng) by (by eapply lookup_lt_Some).
      rewrite (proj2 (rd_Ok _ _ _) Eg). simpl.
      match goal with |- context [bind ?m _] => assert (HM : exists kl', m = Ok (kl', length (firsts x (S i))) /\ length kl' = ng /\
          forall k f, firsts x (S i) !! k = Some f -> kl' !! k = Some (loc_of f)) end.
      { rewrite (firsts_S eqb x i). destruct (decide (f = i)) as [->|Hne].
        - rewrite (proj2 (firstb_eq eqb sem dom eqb_spec x i Hx ltac:(lia)) Ff), app_length. simpl.
          subst g. rewrite Z.eqb_refl. rewrite wr_Ok by lia. simpl. eexists. split; [f_equal; f_equal; lia|].
          rewrite insert_length. split; [done|]. intros k f' E.
          destruct (decide (k < length (firsts x i))).
          + rewrite lookup_app_l in E by done. rewrite list_lookup_insert_ne by lia. by apply HKL.
          + assert (k = length (firsts x i)) as ->.
            { apply lookup_lt_Some in E. rewrite app_length in E. simpl in E. lia. }
            rewrite lookup_app_r, Nat.sub_diag in E by lia. injection E as <-. apply list_lookup_insert. lia.
        - rewrite (firstb_neq eqb sem dom eqb_spec x i Hx ltac:(lia)).
          2:{ intros F. apply (F f); [lia|done]. }
          rewrite app_nil_r.
          assert (g < length (firsts x i)).
          { subst g. apply (firsts_index_lt eqb sem dom eqb_spec x i f); [done|lia|lia|done]. }
          destruct (Z.eqb_spec (Z.of_nat g) (Z.of_nat (length (firsts x i)))); [lia|].
          eexists. split; [reflexivity|done]. }
      destruct HM as (kl' & -> & Hkl' & HKL'). simpl. rewrite rdZ_nat, (proj2 (rd_Ok _ _ _) (HPC g f Efg)). simpl.
      rewrite wrZ_nat, wr_Ok by lia. simpl. eexists. split; [reflexivity|]. cbv beta iota. rewrite insert_length.
      split_and!; try done. intros g' f' E'. destruct (HFn g' f' E') as (Hf' & Ff' & Hg').
      rewrite (occ_step x i f f' Hx) by (done || lia).
      destruct (decide (g' = g)) as [->|Hne].
      - rewrite list_lookup_insert by lia. assert (f' = f) as -> by congruence. rewrite decide_True by done. f_equal. lia.
      - rewrite list_lookup_insert_ne by done. rewrite decide_False by (intros ->; congruence).
        rewrite (HPC g' f' E'). f_equal. lia. }
    simpl. simpl in HKL, HPC.
    set (ol0 := map (fun c => replicate (Z.to_nat c) 0%Z) pc).
    match goal with |- context [for_ 0 n ?body ?s0] =>
      destruct (for_inv (fun i '(ol, lo) => length ol = ng /\ length lo = ng /\
        (forall g f, firsts x n !! g = Some f -> lo !! g = Some (Z.of_nat (length (occ x i f))) /\
           exists e, ol !! g = Some e /\ length e = length (occ x n f) /\
             take (length (occ x i f)) e = map loc_of (occ x i f))) 0 n body s0)
        as ([ol lo] & -> & Hol & Hlo & HOL) end.
    { unfold ol0. rewrite map_length, replicate_length. split_and!; try done. intros g f E. split.
      - apply lookup_replicate_2. by eapply lookup_lt_Some.
      - eexists. split; [apply map_lookup, (HPC g f E)|]. rewrite replicate_length, Nat2Z.id. done. }
    { intros i [ol lo] Hi (Hol & Hlo & HOL).
      destruct (HGi i) as (f & g & Hf & Ff & Ef & Eg & Efg & Hg); [lia|].
      rewrite (proj2 (rd_Ok _ _ _) Eg). simpl.
      destruct (HOL g f Efg) as (Elo & e & Eol & Hle & Htk).
      rewrite !rdZ_nat, (proj2 (rd_Ok _ _ _) Elo). simpl. rewrite (proj2 (rd_Ok _ _ _) Eol). simpl.
      assert (Hocc : length (occ x (S i) f) = length (occ x i f) + 1).
      { rewrite (occ_step x i f f Hx) by (done || lia). by rewrite decide_True. }
      assert (Hmono : length (occ x (S i) f) <= length (occ x n f)).
      { assert (HH : forall m, S i <= m -> length (occ x (S i) f) <= length (occ x m f)).
        { intros m Hm. induction Hm as [|m Hm IH]; [done|]. rewrite (occ_S eqb x m), app_length. lia. }
        apply HH. lia. }
      rewrite !wrZ_nat. rewrite wr_Ok by lia. simpl.
      rewrite wrZ_nat, wr_Ok by (apply lookup_lt_Some in Eol; lia). simpl.
      rewrite wr_Ok by (apply lookup_lt_Some in Elo; lia). simpl.
      eexists. split; [reflexivity|]. cbv beta iota. rewrite !insert_length. split_and!; try done.
      intros g' f' E'. destruct (HFn g' f' E') as (Hf' & Ff' & Hg').
      assert (Hglt : g < ng) by (by eapply lookup_lt_Some).
      destruct (decide (g' = g)) as [->|Hne].
      - assert (f' = f) as -> by congruence. rewrite !list_lookup_insert by lia. rewrite Hocc. split; [f_equal; lia|].
        eexists. split; [reflexivity|]. rewrite insert_length. split; [done|].
        replace (length (occ x i f) + 1) with (S (length (occ x i f))) by lia.
        rewrite take_S_insert by lia. rewrite Htk, (occ_S eqb x i f).
        rewrite (proj2 (eqat_spec eqb sem dom eqb_spec x i f Hx ltac:(lia) ltac:(lia))) by done.
        rewrite map_app. done.
      - rewrite !list_lookup_insert_ne by done. 
        assert (Ho : occ x (S i) f' = occ x i f').
        { rewrite (occ_S eqb x i f'). destruct (eqat eqb x i f') eqn:Eq; [|by rewrite app_nil_r].
          apply (eqat_spec eqb sem dom eqb_spec) in Eq; [|done|lia|done]. destruct Hne.
          assert (f' = f) as -> by (apply (first_unique (X x)); [done|done|congruence]). congruence. }
        rewrite Ho. by apply HOL. }
    simpl. f_equal. f_equal.
    - apply list_eq. intros k. destruct (firsts x n !! k) as [f|] eqn:E.
      + rewrite (map_lookup _ _ _ _ E). by apply HKL.
      + rewrite list_lookup_fmap, E. simpl. apply lookup_ge_None_2. apply lookup_ge_None_1 in E. lia.
    - apply list_eq. intros g. destruct (firsts x n !! g) as [f|] eqn:E.
      + rewrite (map_lookup _ _ _ _ E). destruct (HOL g f E) as (_ & e & -> & Hle & Htk). simpl in Htk.
        rewrite take_ge in Htk by lia. by rewrite Htk.
      + rewrite list_lookup_fmap, E. simpl. apply lookup_ge_None_2. apply lookup_ge_None_1 in E. lia.
  Qed.
End ops.
