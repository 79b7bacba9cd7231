(** * Properties: factors (C37) *)
From Verif Require Import Base M_Double M_Scalar M_Hash M_Object M_Proxy M_Growable M_Dict M_DictApi M_Cast M_Slice M_Subscript M_Rep M_Chop M_Factor.
From Verif Require Import Spec_Value Spec_Equal Spec_Missing Spec_Dict Spec_Slice Spec_Cast Spec_Subscript Spec_Rep Spec_Chop Spec_Factor.
From Verif Require Import L_Dbl L_Object L_Slice L_Value L_SliceVal L_Rep P_Slice P_Dict P_Subscript P_Chop L_Factor.
From Coq Require Import Lia ZifyBool ZifyNat.
#[local] Arguments Z.mul : simpl never.
#[local] Arguments Z.add : simpl never.
#[local] Arguments Z.sub : simpl never.
#[local] Arguments Z.to_nat : simpl never.
#[local] Arguments Z.of_nat : simpl never.
#[local] Arguments Z.pow : simpl never.

(** ** Codes *)
Lemma label_of_na levels : label_of levels NA_INTEGER = Some Missing.
Proof. done. Qed.
Lemma label_of_code levels c s : c <> NA_INTEGER -> label_of levels c = Some s ->
  (1 <= c <= Z.of_nat (length levels))%Z /\ exists t, s = Label t /\ levels !! Z.to_nat (c - 1) = Some t.
Proof.
  intros Hn. unfold label_of. destruct (Z.eqb_spec c NA_INTEGER); [done|]. destruct (Z.leb_spec 1 c); [|done].
  destruct (levels !! Z.to_nat (c - 1)) as [t|] eqn:E; [|done]. intros [= <-]. apply lookup_lt_Some in E as Hl. split; [lia|by exists t].
Qed.
Lemma label_of_pos levels k s : levels !! k = Some s -> label_of levels (Z.of_nat k + 1) = Some (Label s).
Proof.
  intros H. unfold label_of. destruct (Z.eqb_spec (Z.of_nat k + 1) NA_INTEGER); [unfold NA_INTEGER, INT_MIN in *; lia|].
  destruct (Z.leb_spec 1 (Z.of_nat k + 1)); [|lia]. replace (Z.to_nat (Z.of_nat k + 1 - 1)) with k by lia. by rewrite H.
Qed.
Lemma label_of_app levels r c : is_Some (label_of levels c) -> label_of (levels ++ r) c = label_of levels c.
Proof.
  unfold label_of. destruct (c =? NA_INTEGER)%Z; [done|]. destruct (1 <=? c)%Z; [|done]. intros [l Hl].
  destruct (levels !! Z.to_nat (c - 1)) as [t|] eqn:E; [|done]. by rewrite (lookup_app_l_Some _ _ _ _ E).
Qed.
Lemma labels_app levels r codes : codes_ok levels codes -> labels (levels ++ r) codes = labels levels codes.
Proof.
  intros H. unfold labels. apply map_ext_in. intros c Hc. apply label_of_app. unfold codes_ok in H. rewrite Forall_forall in H.
  apply H. by apply elem_of_list_In.
Qed.

(** A loop over a fresh output that writes [f] of each element. *)
Lemma map_loop {A B} (x : list A) (d : B) (f : A -> B -> Prop) (body : nat -> list B -> res (list B)) :
  (forall i a out, x !! i = Some a -> length out = length x -> exists b, f a b /\ body i out = wr out i b) ->
  exists out, for_ 0 (length x) body (replicate (length x) d) = Ok out /\ Forall2 f x out.
Proof.
  intros H.
  destruct (for_inv (fun k out => length out = length x /\ forall j a b, j < k -> x !! j = Some a -> out !! j = Some b -> f a b)
    0 (length x) body (replicate (length x) d)) as (out & E & Hl & Hf).
  - split; [by rewrite replicate_length|]. lia.
  - intros i out Hi [Hl Hf]. assert (Hlt : i < length x) by lia. apply lookup_lt_is_Some in Hlt as [a Ha].
    destruct (H i a out Ha Hl) as (b & Hb & ->). exists (<[i:=b]> out). split; [apply wr_Ok; lia|].
    split; [by rewrite insert_length|]. intros j a' b' Hj Ha' Hb'. destruct (decide (i = j)) as [<-|Hne].
    + rewrite list_lookup_insert in Hb' by lia. congruence.
    + rewrite list_lookup_insert_ne in Hb' by done. apply (Hf j); [lia|done..].
  - exists out. split; [done|]. apply Forall2_same_length_lookup. split; [done|]. intros i a b Ha Hb.
    apply (Hf i); [|done..]. apply lookup_lt_Some in Ha. lia.
Qed.

(** ** Factors as strings *)
Theorem C37_as_character codes ptr levels : codes_ok levels codes ->
  exists out, fct_as_character codes (LChr ptr levels) = Ok out /\
    Forall2 (fun c s => exists l, label_of levels c = Some l /\ s = label_str l) codes out.
Proof.
  intros Hc. unfold fct_as_character, as_character_factor. apply map_loop. intros i c out Hi Hl.
  unfold codes_ok in Hc. rewrite Forall_forall in Hc. destruct (Hc c) as [l Hlab]; [by eapply elem_of_list_lookup_2|].
  rewrite (proj2 (rd_Ok _ _ _) Hi). cbn [bind]. destruct (Z.eqb_spec c NA_INTEGER) as [->|Hn].
  - exists None. split; [|done]. by exists Missing.
  - destruct (label_of_code _ _ _ Hn Hlab) as (Hr & t & -> & Ht). exists t. split; [by exists (Label t)|].
    destruct (Z.leb_spec 1 c); [|lia]. destruct (Z.leb_spec c (Z.of_nat (length levels))); [|lia]. simpl.
    unfold rdZ. destruct (Z.ltb_spec (c - 1) 0); [lia|]. by rewrite (proj2 (rd_Ok _ _ _) Ht).
Qed.

(** ** The common type *)
Theorem C37_ptype2_partial addr px x py y : strs_ok x -> strs_ok y -> strs_fit (x ++ y) -> NoDup x ->
  same_ptr (LChr px x) (LChr py y) ->
  exists out, fct_ptype2 addr (LChr px x) (LChr py y) = Ok out /\ first_appearances (x ++ y) out.
Proof.
  intros Hx Hy Hf Hnd Hp. simpl. destruct (Z.eqb_spec px py) as [->|].
  - rewrite <- (Hp eq_refl). eexists. split; [done|]. by apply first_appearances_self.
  - by apply levels_union_spec.
Qed.
(** Any number of factors, one after the other as in [vec_ptype_common()]; the
    addresses of the intermediate results are new ([fresh]). *)
Fixpoint fct_ptype_fold (addr : rstr -> Z) (fresh : nat -> Z) (k : nat) (acc : lattr) (fs : list lattr) : res (list rstr) :=
  match fs with
  | [] => match acc with LChr _ l => Ok l | LOther => Err "corrupt" end
  | f :: fs => let! l := fct_ptype2 addr acc f in fct_ptype_fold addr fresh (S k) (LChr (fresh k) l) fs
  end.
Definition levels_of (a : lattr) : list rstr := match a with LChr _ l => l | LOther => [] end.
Definition lattr_ok (a : lattr) : Prop := match a with LChr _ l => strs_ok l /\ NoDup l | LOther => False end.
Lemma strs_fit_sub xs ys : strs_fit ys -> xs ⊆ ys -> length xs <= length ys -> strs_fit xs.
Proof. intros [H1 H2] Hs Hl. split; [lia|]. intros l Hn Hsub. apply H2; [done|]. intros s Hs'. by apply Hs, Hsub. Qed.
Lemma first_appearances_length (xs out : list rstr) : first_appearances xs out -> length out <= length xs.
Proof. intros (H1 & H2 & _). apply submseteq_length, NoDup_submseteq; [done|]. intros s. apply H2. Qed.
Lemma first_appearances_ok xs out : first_appearances xs out -> strs_ok xs -> strs_ok out.
Proof. intros (_ & H & _) Ho. unfold strs_ok in *. rewrite Forall_forall in *. intros s Hs. apply Ho. by apply H. Qed.
Theorem C37_common_partial addr fresh p l fs : lattr_ok (LChr p l) -> Forall lattr_ok fs ->
  (forall k a, a ∈ fs -> match a with LChr q _ => fresh k <> q | _ => True end) ->
  (forall a, a ∈ fs -> same_ptr (LChr p l) a) ->
  strs_fit (l ++ concat (map levels_of fs)) ->
  exists out, fct_ptype_fold addr fresh 0 (LChr p l) fs = Ok out /\ first_appearances (l ++ concat (map levels_of fs)) out.
Proof.
  generalize 0 as k. intros k Hl Hfs Hfr. revert p l k Hl. induction fs as [|f fs IH]; intros p l k Hl Hp Hfit; simpl.
  - exists l. split; [done|]. rewrite app_nil_r. apply first_appearances_nodup, Hl.
  - apply Forall_cons in Hfs as [Hf Hfs]. destruct f as [|q m]; [done|]. destruct Hl as [Hl1 Hl2], Hf as [Hf1 Hf2]. simpl in Hfit |- *.
    destruct (C37_ptype2_partial addr p l q m) as (o & E & Ho); [done|done| |done|apply Hp; left|].
    { eapply strs_fit_sub; [exact Hfit| |].
      - intros s. rewrite !elem_of_app. tauto.
      - rewrite !app_length. lia. }
    simpl in E. rewrite E. cbn [bind].
    destruct (IH) with (p := fresh k) (l := o) (k := S k) as (out & E2 & H2).
    + done.
    + intros k' a Ha. apply Hfr. by right.
    + split; [|apply Ho]. eapply first_appearances_ok; [exact Ho|]. by apply Forall_app.
    + intros a Ha. specialize (Hfr k a ltac:(by right)). destruct a; [done|]. simpl. congruence.
    + eapply strs_fit_sub; [exact Hfit| |].
      * intros s. rewrite !elem_of_app. destruct Ho as (_ & Ho & _). rewrite Ho, elem_of_app. tauto.
      * apply first_appearances_length in Ho. rewrite !app_length in *. lia.
    + exists out. split; [done|]. rewrite app_assoc. by eapply first_appearances_app.
Qed.

(** ** Casting *)
Lemma loop_any {A} (x : list A) (p : A -> bool) (body : nat -> bool -> res (ctl (S := bool))) (dflt hit miss : bool) :
  hit <> miss -> dflt = miss ->
  (forall i a s, x !! i = Some a -> body i s = Ok (if p a then Break hit else Next miss)) ->
  for_brk 0 (length x) body dflt = Ok (if existsb p x then hit else miss).
Proof.
  intros Hne -> H.
  destruct (for_brk_inv (fun k s => s = miss /\ existsb p (take k x) = false) (fun s => s = if existsb p x then hit else miss)
     0 (length x) body miss) as (s & E & ->); [done| | |done].
  - intros i s Hi [-> Hf]. assert (Hlt : i < length x) by lia. apply lookup_lt_is_Some in Hlt as [a Ha]. rewrite (H i a _ Ha).
    destruct (p a) eqn:Ep; [right|left]; eexists; split; [done| |done|].
    + assert (Hex : existsb p x = true); [|by rewrite Hex]. apply existsb_exists. exists a. split; [|done].
      apply elem_of_list_In. by eapply elem_of_list_lookup_2.
    + split; [done|]. rewrite (take_S_r _ _ _ Ha), existsb_app, Hf. simpl. by rewrite Ep.
  - intros s [-> Hf]. rewrite take_ge in Hf by lia. by rewrite Hf.
Qed.

(** The native cast: either every label is kept, or some level of [x] is unknown
    to [to] (then it is lossy, and the R method decides). *)
Lemma fct_as_factor_spec addr codes px x pt t : codes_ok x codes -> NoDup x -> strs_ok x -> strs_ok t ->
  (Z.of_nat (length x) <= R_LEN_T_MAX)%Z -> (Z.of_nat (length t) <= R_LEN_T_MAX)%Z -> same_ptr (LChr px x) (LChr pt t) ->
  (exists out l, fct_as_factor addr codes (LChr px x) (LChr pt t) = Ok (Some (out, l)) /\ l = (if decide (t = []) then x else t) /\
     codes_ok l out /\ labels l out = labels x codes /\ (t = [] \/ x ⊆ t)) \/
  (fct_as_factor addr codes (LChr px x) (LChr pt t) = Ok None /\ t <> [] /\ exists s, s ∈ x /\ s ∉ t).
Proof.
  intros Hc Hnd Hx Ht Hlx Hlt Hp. simpl. unfold fct_as_factor_impl.
  destruct (Z.eqb_spec px pt) as [Hpp|_].
  { left. rewrite <- (Hp Hpp). exists codes, x. split_and!; [done| |done|done|by right]. by destruct (decide (x = [])). }
  destruct (Nat.eqb_spec (length t) 0) as [Ht0|Ht0].
  { left. apply nil_length_inv in Ht0. exists codes, x. split_and!; [done| |done|done|by left]. by rewrite decide_True. }
  assert (Htn : t <> []) by (by intros ->). rewrite decide_False by done.
  destruct (Nat.ltb_spec (length t) (length x)) as [Hlen|Hlen].
  { right. split; [done|]. split; [done|]. destruct (decide (x ⊆ t)) as [Hs|Hs].
    - apply NoDup_submseteq, submseteq_length in Hs; [lia|done].
    - destruct (decide (Exists (fun s => s ∉ t) x)) as [He|He]; [by apply Exists_exists in He|].
      exfalso. apply Hs. intros s Hsx. apply not_Exists_Forall in He; [|solve_decision]. rewrite Forall_forall in He.
      specialize (He s Hsx). by apply dec_stable. }
  assert (Esub : for_brk 0 (length x) (fun i (_ : bool) =>
        let! a := rd x i in
        let! b := rd t i in
        if negb (str_ptr_eqb a b) then Ok (Break false) else Ok (Next true)) true =
     Ok (if existsb (fun p => negb (str_ptr_eqb p.1 p.2)) (zip x t) then false else true)).
  { rewrite <- (loop_any (zip x t) (fun p => negb (str_ptr_eqb p.1 p.2)) (fun i (_ : bool) =>
        let! a := rd x i in
        let! b := rd t i in
        if negb (str_ptr_eqb a b) then Ok (Break false) else Ok (Next true)) true false true); [|done|done|].
    - f_equal. rewrite zip_with_length. lia.
    - intros i [a b] s Hi. apply lookup_zip_with_Some in Hi as (a' & b' & [= <- <-] & Ha & Hb).
      rewrite (proj2 (rd_Ok _ _ _) Ha), (proj2 (rd_Ok _ _ _) Hb). cbn [bind fst snd]. by destruct (negb _). }
  rewrite Esub. cbn [bind]. destruct (existsb _ (zip x t)) eqn:Ez.
  - destruct (chr_match_spec addr x t) as (rec & -> & Hrec); [done..|]. cbn [bind].
    pose proof (Forall2_length _ _ _ Hrec) as Hrl.
    rewrite Hrl. rewrite (loop_any rec (fun r => (r =? NA_INTEGER)%Z) _ false true false); [|done|done|].
    2:{ intros i r s Hi. rewrite (proj2 (rd_Ok _ _ _) Hi). cbn [bind]. by destruct (_ =? _)%Z. }
    cbn [bind]. destruct (existsb _ rec) eqn:Er.
    + right. split; [done|]. split; [done|]. apply existsb_exists in Er as (r & Hr & Er). apply Z.eqb_eq in Er as ->.
      apply elem_of_list_In, elem_of_list_lookup in Hr as [i Hi]. destruct (Forall2_lookup_r _ _ _ _ _ Hrec Hi) as (s & Hs & Hm).
      destruct Hm as [[_ Hm]|(j & Hj & _)]; [|unfold NA_INTEGER, INT_MIN in Hj; lia]. exists s. split; [by eapply elem_of_list_lookup_2|done].
    + left. assert (Hpos : forall i s, x !! i = Some s -> exists j, rec !! i = Some (Z.of_nat j + 1)%Z /\ t !! j = Some s).
      { intros i s Hs. destruct (Forall2_lookup_l _ _ _ _ _ Hrec Hs) as (r & Hr & Hm).
        destruct Hm as [[-> _]|(j & -> & Hj & _)]; [|by exists j]. exfalso.
        assert (existsb (fun r => (r =? NA_INTEGER)%Z) rec = true); [|congruence]. apply existsb_exists. exists NA_INTEGER. split; [|done].
        apply elem_of_list_In. by eapply elem_of_list_lookup_2. }
      destruct (map_loop codes 0%Z (fun c r => label_of t r = label_of x c) (fun i out =>
            let! elt := rd codes i in
            if (elt =? NA_INTEGER)%Z then wr out i NA_INTEGER
            else let! r := rdZ rec (elt - 1) in wr out i r)) as (out & E & Hout).
      { intros i c out Hi Hl. rewrite (proj2 (rd_Ok _ _ _) Hi). cbn [bind]. destruct (Z.eqb_spec c NA_INTEGER) as [->|Hn].
        - by exists NA_INTEGER.
        - unfold codes_ok in Hc. rewrite Forall_forall in Hc. destruct (Hc c) as [l Hlab]; [by eapply elem_of_list_lookup_2|].
          destruct (label_of_code _ _ _ Hn Hlab) as (Hr & s & -> & Hs). destruct (Hpos _ _ Hs) as (j & Hj & Htj).
          exists (Z.of_nat j + 1)%Z. split; [by rewrite Hlab, (label_of_pos t j s Htj)|].
          unfold rdZ. destruct (Z.ltb_spec (c - 1) 0); [lia|]. by rewrite (proj2 (rd_Ok _ _ _) Hj). }
      unfold alloc. rewrite E. cbn [bind]. exists out, t. split; [done|]. split; [done|].
      assert (Hlab : labels t out = labels x codes).
      { unfold labels. clear -Hout. induction Hout as [|c r codes out H Hout IH]; [done|]. simpl. by rewrite H, IH. }
      split; [|split; [done|]].
      * unfold codes_ok in *. rewrite <- (Forall_fmap (label_of t) is_Some) in *. rewrite <- (Forall_fmap (label_of x) is_Some) in Hc.
        change (label_of t <$> out) with (labels t out). by rewrite Hlab.
      * right. intros s Hs. apply elem_of_list_lookup in Hs as [i Hi]. destruct (Hpos _ _ Hi) as (j & _ & Hj). by eapply elem_of_list_lookup_2.
  - left. assert (Hpre : x = take (length x) t).
    { apply list_eq_same_length with (n := length x); [rewrite take_length; lia|done|]. intros i a b Hi Ha Hb.
      assert (Hz : zip x t !! i = Some (a, b)).
      { apply lookup_zip_with_Some. exists a, b. split; [done|]. split; [done|]. by apply lookup_take_Some in Hb as [? _]. }
      destruct (str_ptr_eqb a b) eqn:Eab; [by apply str_ptr_eqb_spec|]. exfalso.
      assert (existsb (fun p => negb (str_ptr_eqb p.1 p.2)) (zip x t) = true); [|congruence]. apply existsb_exists. exists (a, b).
      split; [apply elem_of_list_In; by eapply elem_of_list_lookup_2|]. simpl. by rewrite Eab. }
    exists codes, t. split; [done|]. split; [done|].
    assert (Hlab : labels t codes = labels x codes).
    { rewrite <- (take_drop (length x) t), <- Hpre. by apply labels_app. }
    split; [|split; [done|]].
    + unfold codes_ok in *. rewrite <- (Forall_fmap (label_of t) is_Some). rewrite <- (Forall_fmap (label_of x) is_Some) in Hc.
      change (label_of t <$> codes) with (labels t codes). by rewrite Hlab.
    + right. intros s Hs. rewrite <- (take_drop (length x) t), <- Hpre. apply elem_of_app. by left.
Qed.

(** Casting to a factor type that has all levels of [x] (or none at all, a
    template) keeps every label and every missing value. *)
Theorem C37_cast addr codes px x pt t : codes_ok x codes -> NoDup x -> strs_ok x -> strs_ok t ->
  (Z.of_nat (length x) <= R_LEN_T_MAX)%Z -> (Z.of_nat (length t) <= R_LEN_T_MAX)%Z -> same_ptr (LChr px x) (LChr pt t) ->
  t = [] \/ x ⊆ t ->
  exists out l, vec_cast_fct_fct addr codes (LChr px x) (LChr pt t) = Ok (out, l) /\ l = (if decide (t = []) then x else t) /\
    codes_ok l out /\ labels l out = labels x codes.
Proof.
  intros Hc Hnd Hx Ht Hlx Hlt Hp Hsub. unfold vec_cast_fct_fct.
  destruct (fct_as_factor_spec addr codes px x pt t) as [(out & l & -> & El & Ho & Hlab & _)|(_ & Hn & s & Hs1 & Hs2)]; [done..| |].
  - exists out, l. done.
  - exfalso. destruct Hsub as [?|Hsub]; [done|]. by apply Hs2, Hsub.
Qed.

(** Hence every one of several factors keeps its labels in their common type. *)
Theorem C37_cast_common_partial addr fresh p l fs pc : lattr_ok (LChr p l) -> Forall lattr_ok fs ->
  (forall k a, a ∈ fs -> match a with LChr q _ => fresh k <> q | _ => True end) ->
  (forall a, a ∈ fs -> same_ptr (LChr p l) a) ->
  strs_fit (l ++ concat (map levels_of fs)) ->
  exists common, fct_ptype_fold addr fresh 0 (LChr p l) fs = Ok common /\
    first_appearances (l ++ concat (map levels_of fs)) common /\
    forall q x codes, LChr q x ∈ LChr p l :: fs -> codes_ok x codes -> same_ptr (LChr q x) (LChr pc common) ->
      exists out, vec_cast_fct_fct addr codes (LChr q x) (LChr pc common) = Ok (out, common) /\
        codes_ok common out /\ labels common out = labels x codes.
Proof.
  intros Hl Hfs Hfr Hp Hfit. destruct (C37_common_partial addr fresh p l fs) as (common & E & Hco); [done..|].
  exists common. split; [done|]. split; [done|]. intros q x codes Hin Hc Hpp.
  assert (Hok : lattr_ok (LChr q x)). { apply elem_of_cons in Hin as [->|Hin]; [done|]. rewrite Forall_forall in Hfs. by apply Hfs. }
  assert (Hsub : x ⊆ common).
  { destruct Hco as (_ & Hco & _). intros s Hs. apply Hco. apply elem_of_app. apply elem_of_cons in Hin as [[= _ ->]|Hin]; [by left|right].
    apply elem_of_list_In, in_concat. exists x. split; [|by apply elem_of_list_In]. apply elem_of_list_In, elem_of_list_fmap. by exists (LChr q x). }
  assert (Hcl : (Z.of_nat (length common) <= R_LEN_T_MAX)%Z).
  { apply first_appearances_length in Hco. destruct Hfit as [Hfit _]. lia. }
  destruct (C37_cast addr codes q x pc common) as (out & lv & E2 & El & Ho & Hlab); [done|apply Hok|apply Hok| | |done|done|by right|].
  - eapply first_appearances_ok; [exact Hco|]. apply Forall_app. split; [apply Hl|]. apply Forall_concat, Forall_map.
    eapply Forall_impl; [exact Hfs|]. intros [|? m]; [done|]. intros [? _]. done.
  - destruct Hok as [_ Hn]. assert (length x <= length common); [|lia]. by apply submseteq_length, NoDup_submseteq.
  - exists out. destruct (decide (common = [])) as [Ec|Ec]; subst lv; [|done].
    assert (x = common) as ->; [|done]. rewrite Ec. destruct x as [|s x]; [done|]. exfalso. rewrite Ec in Hsub.
    apply (not_elem_of_nil s). apply Hsub. left.
Qed.

(** ** The R method *)
Lemma r_in_spec s table : r_in s table = true <-> s ∈ table.
Proof.
  unfold r_in. rewrite existsb_exists. setoid_rewrite <- elem_of_list_In. split.
  - intros (t & Ht & E). apply str_ptr_eqb_spec in E as <-. done.
  - intros H. exists s. split; [done|]. apply str_ptr_eqb_refl.
Qed.
Lemma r_any_duplicated_spec xs : r_any_duplicated xs = false <-> NoDup xs.
Proof.
  induction xs as [|x xs IH]; simpl; [split; [constructor|done]|]. rewrite orb_false_iff, IH, NoDup_cons. 
  rewrite <- (r_in_spec x xs). destruct (r_in x xs); intuition congruence.
Qed.
Lemma r_match_spec table s : forall k, (s ∉ table /\ r_match table s k = NA_INTEGER) \/
  exists j, table !! j = Some s /\ r_match table s k = (k + Z.of_nat j)%Z.
Proof.
  induction table as [|t table IH]; intros k; simpl; [left; split; [apply not_elem_of_nil|done]|].
  destruct (str_ptr_eqb t s) eqn:E.
  - apply str_ptr_eqb_spec in E as ->. right. exists 0. split; [done|]. lia.
  - apply str_ptr_eqb_false in E. destruct (IH (k + 1)%Z) as [[H ->]|(j & H & ->)].
    + left. split; [|done]. by apply not_elem_of_cons.
    + right. exists (S j). split; [done|]. lia.
Qed.
Lemma r_match_label t s : s ∈ t -> label_of t (r_match t s 1) = Some (Label s).
Proof.
  intros H. destruct (r_match_spec t s 1) as [[? _]|(j & Hj & ->)]; [done|].
  replace (1 + Z.of_nat j)%Z with (Z.of_nat j + 1)%Z by lia. by apply label_of_pos.
Qed.
Lemma r_match_missing t s : s ∉ t -> r_match t s 1 = NA_INTEGER.
Proof. intros H. destruct (r_match_spec t s 1) as [[_ ?]|(j & Hj & _)]; [done|]. by apply elem_of_list_lookup_2 in Hj. Qed.

(** In general: casting is an error exactly if a label in use is not a level of
    [to]; otherwise labels are kept, and so are missing values if NA is no level
    of [to].  (The full statement has no such proviso; see the refutation.) *)
Theorem C37_cast_used_partial addr codes px x pt t : codes_ok x codes -> NoDup x -> NoDup t -> t <> [] -> strs_ok x -> strs_ok t ->
  (Z.of_nat (length x) <= R_LEN_T_MAX)%Z -> (Z.of_nat (length t) <= R_LEN_T_MAX)%Z -> same_ptr (LChr px x) (LChr pt t) ->
  None ∉ t ->
  ((forall s, Some (Label s) ∈ labels x codes -> s ∈ t) ->
     exists out, vec_cast_fct_fct addr codes (LChr px x) (LChr pt t) = Ok (out, t) /\ codes_ok t out /\ labels t out = labels x codes) /\
  (forall s, Some (Label s) ∈ labels x codes -> s ∉ t -> exists e, vec_cast_fct_fct addr codes (LChr px x) (LChr pt t) = Err e).
Proof.
  intros Hc Hnx Hnt Htn Hx Ht Hlx Hlt Hp Hna.
  destruct (fct_as_factor_spec addr codes px x pt t) as [(out & l & E & El & Ho & Hlab & Hsub)|(E & _ & u & Hu1 & Hu2)]; [done..| |].
  - rewrite decide_False in El by done. subst l. unfold vec_cast_fct_fct. rewrite E. cbn [bind]. split; [intros _; by exists out|].
    intros s Hs Hst. exfalso. destruct Hsub as [?|Hsub]; [done|]. rewrite <- Hlab in Hs.
    apply elem_of_list_fmap in Hs as (c & Hs & Hcin). symmetry in Hs. assert (c <> NA_INTEGER) by (intros ->; done).
    apply label_of_code in Hs as (_ & s' & [= <-] & Hl'); [|done]. apply Hst. by eapply elem_of_list_lookup_2.
  - unfold vec_cast_fct_fct. rewrite E. cbn [bind]. destruct (C37_as_character codes px x Hc) as (strs & Es & Hstrs). simpl in Es. rewrite Es. cbn [bind].
    unfold fct_cast_impl, r_factor. rewrite (proj2 (r_any_duplicated_spec t) Hnt). cbn [bind].
    set (lossy := zip_with _ strs _).
    assert (Hlossy : forall i c s l, codes !! i = Some c -> strs !! i = Some s -> label_of x c = Some l -> s = label_str l ->
       lossy !! i = Some (match l with Missing => false | Label u => negb (r_in u t) end)).
    { intros i c s l Hi Hs Hl ->. unfold lossy. rewrite lookup_zip_with, Hs, list_lookup_fmap, Hi. simpl. f_equal.
      destruct (Z.eqb_spec c NA_INTEGER) as [->|Hn].
      - injection Hl as <-. by rewrite orb_true_r.
      - apply label_of_code in Hl as (_ & u' & -> & _); [|done]. by rewrite orb_false_r. }
    split.
    + intros Hall. assert (El : existsb id lossy = false).
      { apply not_true_is_false. intros (b & Hb & Eb)%existsb_exists. apply elem_of_list_In, elem_of_list_lookup in Hb as [i Hi].
        assert (Hsi : is_Some (strs !! i)). { apply lookup_lt_Some in Hi. unfold lossy in Hi. rewrite zip_with_length in Hi. apply lookup_lt_is_Some. lia. }
        destruct Hsi as [s Hs]. destruct (Forall2_lookup_r _ _ _ _ _ Hstrs Hs) as (c & Hci & l & Hl & Esl).
        rewrite (Hlossy i c s l) in Hi by done. injection Hi as Hi. destruct l as [|u']; [subst b; done|].
        assert (r_in u' t = true) as Hin; [|rewrite Hin in Hi; subst b; done]. apply r_in_spec, Hall. apply elem_of_list_fmap.
        exists c. split; [done|]. by eapply elem_of_list_lookup_2. }
      rewrite El. eexists. split; [done|].
      assert (Hlab : labels t (map (fun s => r_match t s 1) strs) = labels x codes).
      { unfold labels. rewrite map_map. apply list_eq_same_length with (n := length codes); [by rewrite map_length| |].
        - rewrite map_length. symmetry. by eapply Forall2_length.
        - intros i a b Hi Ha Hb. rewrite list_lookup_fmap in Ha. rewrite list_lookup_fmap in Hb. destruct (strs !! i) as [s|] eqn:Hs; [|done].
          destruct (codes !! i) as [c|] eqn:Hci; [|done]. destruct (Forall2_lookup_lr _ _ _ _ _ _ Hstrs Hci Hs) as (l & Hl & ->).
          simpl in Ha, Hb. injection Ha as <-. injection Hb as <-. rewrite Hl. destruct l as [|u']; simpl.
          + by rewrite r_match_missing.
          + apply r_match_label, Hall. apply elem_of_list_fmap. exists c. split; [done|]. by eapply elem_of_list_lookup_2. }
      split; [|done]. unfold codes_ok in *. rewrite <- (Forall_fmap (label_of t) is_Some). rewrite <- (Forall_fmap (label_of x) is_Some) in Hc.
      match goal with |- Forall is_Some ?l => change l with (labels t (map (fun s => r_match t s 1) strs)) end. by rewrite Hlab.
    + intros s Hs Hst. apply elem_of_list_fmap in Hs as (c & Hl & Hcin). apply elem_of_list_lookup in Hcin as [i Hi].
      destruct (Forall2_lookup_l _ _ _ _ _ Hstrs Hi) as (s' & Hs' & l' & Hl' & El'). rewrite <- Hl in Hl'. injection Hl' as <-.
      assert (El : existsb id lossy = true).
      { apply existsb_exists. exists true. split; [|done]. apply elem_of_list_In. apply elem_of_list_lookup. exists i.
        rewrite (Hlossy i c s' (Label s)) by done. f_equal. assert (r_in s t = false) as ->; [|done].
        apply not_true_is_false. by rewrite r_in_spec. }
      rewrite El. by eexists.
Qed.
(** A missing value becomes a value with the label NA when the R method is
    reached (an unused level of [x] is unknown to [to]) and NA is a level of [to]. *)
Theorem C37_cast_missing_refuted : exists codes x t out, codes_ok x codes /\ NoDup x /\ NoDup t /\ t <> [] /\
  (forall s, Some (Label s) ∈ labels x codes -> s ∈ t) /\
  (forall addr, vec_cast_fct_fct addr codes (LChr 1 x) (LChr 2 t) = Ok (out, t)) /\ labels t out <> labels x codes.
Proof.
  exists [1; NA_INTEGER]%Z, [Some [97]; Some [121]; Some [122]]%Z, [Some [97]%Z; None], [1; 2]%Z. split_and!.
  - repeat constructor; eexists; vm_compute; reflexivity.
  - repeat (constructor; [rewrite ?elem_of_cons, ?elem_of_nil; intuition discriminate|]). constructor.
  - repeat (constructor; [rewrite ?elem_of_cons, ?elem_of_nil; intuition discriminate|]). constructor.
  - done.
  - intros s Hs. apply elem_of_list_fmap in Hs as (c & Hs & Hc). rewrite !elem_of_cons, elem_of_nil in Hc.
    destruct Hc as [->|[->|[]]]; [|done]. injection Hs as ->. left.
  - intros addr. reflexivity.
  - vm_compute. discriminate.
Qed.

(** ** From strings *)
Lemma present_id l : (None : rstr) ∉ l -> present l = l.
Proof.
  induction l as [|a l IH]; [done|]. rewrite not_elem_of_cons. intros [Ha Hl]. unfold present in *. rewrite filter_cons, decide_True by congruence. by rewrite IH.
Qed.
Lemma filter_delete (levels : list rstr) i : NoDup levels -> levels !! i = Some (None : rstr) ->
  present levels = take i levels ++ drop (S i) levels.
Proof.
  intros Hn Hi. rewrite <- (take_drop_middle _ _ _ Hi) in Hn. apply NoDup_app in Hn as (_ & H1 & H2). apply NoDup_cons in H2 as [H2 _].
  rewrite <- (take_drop_middle _ _ _ Hi) at 1. unfold present.
  rewrite filter_app, filter_cons, decide_False by tauto. f_equal; apply present_id; [|done].
  intros H. apply (H1 _ H). left.
Qed.
Lemma remove_na_levels_spec levels : NoDup levels -> (Z.of_nat (length levels) < INT_MAX)%Z ->
  remove_na_levels levels = Ok (present levels).
Proof.
  intros Hn Hl. unfold remove_na_levels.
  destruct (for_brk_inv (fun k (s : option Z) => s = None /\ forall j, j < k -> levels !! j <> Some (None : rstr))
    (fun s => (s = None /\ (None : rstr) ∉ levels) \/ exists i, levels !! i = Some (None : rstr) /\ s = Some ((Z.of_nat i + 1) * -1)%Z)
    0 (length levels) (fun i (_ : option Z) =>
      let! s := rd levels i in
      if str_ptr_eqb s None then Ok (Break (Some ((Z.of_nat i + 1) * -1)%Z)) else Ok (Next None)) None) as (s & -> & Hs).
  - split; [done|]. lia.
  - intros i s Hi [-> Hj]. assert (Hlt : i < length levels) by lia. apply lookup_lt_is_Some in Hlt as [a Ha].
    rewrite (proj2 (rd_Ok _ _ _) Ha). cbn [bind]. destruct (str_ptr_eqb a None) eqn:E.
    + right. eexists. split; [done|]. right. exists i. apply str_ptr_eqb_spec in E as ->. done.
    + left. eexists. split; [done|]. split; [done|]. intros j Hjl Hjn. apply str_ptr_eqb_false in E.
      destruct (decide (j = i)) as [->|]; [rewrite Ha in Hjn; by injection Hjn|]. apply (Hj j); [lia|done].
  - intros s [-> Hj]. left. split; [done|]. intros (j & H)%elem_of_list_lookup. apply (Hj j); [|done]. apply lookup_lt_Some in H. lia.
  - cbn [bind]. destruct Hs as [[-> Hs]|(i & Hi & ->)].
    + by rewrite present_id.
    + set (n := length levels) in *. assert (Hin : i < n) by (by apply lookup_lt_Some in Hi).
      pose proof (chr_value_ok levels ltac:(lia)) as Hv.
      assert (Esz : value_size (chr_value levels) = Z.of_nat n) by (unfold chr_value; simpl; by rewrite map_length).
      set (m := ((Z.of_nat i + 1) * -1)%Z). assert (Em : m = (- (Z.of_nat i + 1))%Z) by (unfold m; lia).
      assert (Eloc : vec_as_location_opts (IInt ([m], None)) (value_size (chr_value levels)) (vec_names (chr_value levels)) default_opts = Ok (complement n [m], None)).
      { cbn [vec_as_location_opts]. rewrite Esz. destruct (C23_invert ([m], None) n default_opts) as [_ H].
        - apply Forall_singleton. unfold is_int, INT_MAX, INT_MIN in *. lia.
        - unfold n, INT_MAX in *. lia.
        - done.
        - exists m. simpl. split; [by left|]. split; [|lia]. unfold NA_INTEGER, INT_MIN, INT_MAX in *. lia.
        - apply H. simpl. unfold invert_bad. simpl. rewrite !elem_of_list_singleton.
          intros [[_ H1]|[[? _]|[(e & H1 & H2)|[_ (e & H1 & H2 & H3)]]]]; try done.
          + unfold NA_INTEGER, INT_MIN, INT_MAX in *. lia.
          + apply elem_of_list_singleton in H1. lia.
          + apply elem_of_list_singleton in H1. lia. }
      pose proof (C23_vec_slice (chr_value levels) (IInt ([m], None)) Hv) as HS. rewrite Eloc in HS.
      destruct HS as (out & -> & Hsl).
      { split; [|done]. apply Forall_singleton. unfold is_int, INT_MAX, INT_MIN in *. lia. }
      { simpl. unfold INT_MAX. lia. }
      cbn [bind]. f_equal. rewrite (value_chr_sliced _ _ _ Hsl). simpl. rewrite (filter_delete levels i Hn Hi).
      assert (Ec : complement n [m] = map Z.of_nat (seq 1 i) ++ map Z.of_nat (seq (S (S i)) (n - S i))).
      { unfold complement. replace n with (i + (1 + (n - S i))) at 1 by lia. rewrite !seq_app, !map_app, !filter_app.
        assert (Hid : forall l : list nat, (S i) ∉ l -> filter (fun e => (- e)%Z ∉ [m]) (map Z.of_nat l) = map Z.of_nat l).
        { induction l as [|a l IH]; [done|]. rewrite not_elem_of_cons. intros [Ha Hl']. simpl. rewrite filter_cons, decide_True; [by rewrite IH|].
          rewrite elem_of_list_singleton. lia. }
        rewrite Hid by (rewrite elem_of_seq; lia). f_equal. simpl. rewrite filter_cons, decide_False; [|rewrite elem_of_list_singleton; lia]. simpl.
        replace (S (i + 1)) with (S (S i)) by lia. apply Hid. rewrite elem_of_seq. lia. }
      rewrite Ec, map_app, !map_map.
      assert (Hpk : forall k a, levels !! k = Some a -> pick (None : rstr) levels (Z.of_nat (S k)) = a).
      { intros k a Hk. unfold pick. destruct (Z.eqb_spec (Z.of_nat (S k)) NA_INTEGER); [unfold NA_INTEGER, INT_MIN in *; lia|].
        rewrite nth_lookup. replace (Z.to_nat (Z.of_nat (S k) - 1)) with k by lia. by rewrite Hk. }
      f_equal.
      * apply list_eq_same_length with (n := i); [rewrite take_length; apply Nat.min_l; change (i <= n); lia|by rewrite map_length, seq_length|].
        intros k a b Hk Ha Hb. rewrite list_lookup_fmap in Ha. rewrite lookup_seq_lt in Ha by done. simpl in Ha. injection Ha as <-.
        apply lookup_take_Some in Hb as [Hb _]. by apply Hpk.
      * apply list_eq_same_length with (n := n - S i); [by rewrite drop_length|by rewrite map_length, seq_length|].
        intros k a b Hk Ha Hb. rewrite list_lookup_fmap in Ha. rewrite lookup_seq_lt in Ha by done. simpl in Ha. injection Ha as <-.
        rewrite lookup_drop in Hb. simpl in Hb. by apply (Hpk (S (i + k))).
Qed.

(** What the code of a string means. *)
Definition coded (levels : list rstr) (s : rstr) (c : Z) : Prop := exists l, label_of levels c = Some l /\ s = label_str l.
Lemma pos_in_coded levels s c : pos_in levels s c -> s = None \/ s ∈ levels -> coded levels s c.
Proof.
  intros [[-> H]|(j & -> & Hj & _)] Hs.
  - destruct Hs as [->|?]; [|done]. by exists Missing.
  - exists (Label s). split; [by apply label_of_pos|done].
Qed.
Theorem C37_chr addr x pt t : strs_ok x -> strs_ok t -> t <> [] ->
  (Z.of_nat (length x) <= R_LEN_T_MAX)%Z -> (Z.of_nat (length t) <= R_LEN_T_MAX)%Z ->
  ((forall s, s ∈ x -> s <> None -> s ∈ t) ->
    exists out, vec_cast_chr_fct addr x (LChr pt t) = Ok (out, t) /\ Forall2 (coded t) x out) /\
  (forall s, s ∈ x -> s <> None -> s ∉ t -> exists e, vec_cast_chr_fct addr x (LChr pt t) = Err e).
Proof.
  intros Hx Ht Hn Hlx Hlt. unfold vec_cast_chr_fct, chr_as_factor.
  destruct (Nat.eqb_spec (length t) 0) as [H0|_]; [by apply nil_length_inv in H0|]. unfold chr_as_factor_impl.
  destruct (chr_match_spec addr x t) as (out & -> & Hout); [done..|]. cbn [bind].
  pose proof (Forall2_length _ _ _ Hout) as Hl.
  assert (E : for_brk 0 (length x) (fun i (_ : bool) =>
      let! o := rd out i in
      let! s := rd x i in
      if (o =? NA_INTEGER)%Z && negb (str_ptr_eqb s None) then Ok (Break true) else Ok (Next false)) false =
    Ok (if existsb (fun p => (p.1 =? NA_INTEGER)%Z && negb (str_ptr_eqb p.2 None)) (zip out x) then true else false)).
  { rewrite <- (loop_any (zip out x) (fun p => (p.1 =? NA_INTEGER)%Z && negb (str_ptr_eqb p.2 None)) (fun i (_ : bool) =>
      let! o := rd out i in
      let! s := rd x i in
      if (o =? NA_INTEGER)%Z && negb (str_ptr_eqb s None) then Ok (Break true) else Ok (Next false)) false true false); [|done|done|].
    - f_equal. rewrite zip_with_length. lia.
    - intros i [a b] s Hi. apply lookup_zip_with_Some in Hi as (a' & b' & [= <- <-] & Ha & Hb).
      rewrite (proj2 (rd_Ok _ _ _) Ha), (proj2 (rd_Ok _ _ _) Hb). cbn [bind fst snd]. by destruct (_ && _). }
  rewrite E. cbn [bind]. destruct (existsb _ (zip out x)) eqn:Ez; cbn [bind].
  - apply existsb_exists in Ez as ([o s] & Hin & Hb). apply elem_of_list_In, elem_of_list_lookup in Hin as [i Hi].
    apply lookup_zip_with_Some in Hi as (a' & b' & [= <- <-] & Ha & Hb'). simpl in Hb. apply andb_true_iff in Hb as [H1 H2].
    apply Z.eqb_eq in H1 as ->. apply negb_true_iff, str_ptr_eqb_false in H2.
    destruct (Forall2_lookup_lr _ _ _ _ _ _ Hout Hb' Ha) as [[_ Hm]|(j & Hj & _)]; [|unfold NA_INTEGER, INT_MIN in Hj; lia].
    assert (Hsx : s ∈ x) by (by eapply elem_of_list_lookup_2).
    split; [intros Hall; exfalso; by apply Hm, Hall|]. intros _ _ _ _. unfold fct_cast_impl, r_factor.
    destruct (r_any_duplicated t); [by eexists|]. cbn [bind].
    match goal with |- context [existsb id ?l] => assert (El : existsb id l = true) end.
    { apply existsb_exists. exists true. split; [|done]. apply elem_of_list_In, elem_of_list_lookup. exists i.
      rewrite lookup_zip_with, Hb', list_lookup_fmap, Hb'. simpl. f_equal.
      assert (r_in s t = false) as -> by (apply not_true_is_false; by rewrite r_in_spec).
      apply str_ptr_eqb_false in H2. by rewrite H2. }
    rewrite El. by eexists.
  - assert (Hall : Forall2 (fun s c => pos_in t s c /\ (s = None \/ s ∈ t)) x out).
    { apply Forall2_same_length_lookup. split; [done|]. intros i s c Hs Hc. pose proof (Forall2_lookup_lr _ _ _ _ _ _ Hout Hs Hc) as Hm.
      split; [done|]. destruct Hm as [[-> Hm]|(j & _ & Hj & _)]; [|right; by eapply elem_of_list_lookup_2].
      left. destruct (str_ptr_eqb s None) eqn:Es; [by apply str_ptr_eqb_spec|]. exfalso.
      assert (existsb (fun p => (p.1 =? NA_INTEGER)%Z && negb (str_ptr_eqb p.2 None)) (zip out x) = true); [|congruence].
      apply existsb_exists. exists (NA_INTEGER, s). split; [|simpl; by rewrite Es]. apply elem_of_list_In, elem_of_list_lookup. exists i.
      apply lookup_zip_with_Some. by exists NA_INTEGER, s. }
    split.
    + intros _. exists out. split; [done|]. eapply Forall2_impl; [exact Hall|]. intros s c [H1 H2]. by apply pos_in_coded.
    + intros s Hs Hsn Hst. exfalso. apply elem_of_list_lookup in Hs as [i Hi]. destruct (Forall2_lookup_l _ _ _ _ _ Hall Hi) as (c & _ & _ & [?|?]); done.
Qed.
(** Without target levels they are taken from [x] in order of appearance; a
    missing string becomes a missing code. *)
Lemma split_first {A} `{EqDecision A} (xs : list A) a b :
  before xs a b <-> exists u v, xs = u ++ a :: v /\ b ∉ u /\ a <> b.
Proof.
  split.
  - intros (p & Hp & Hq). exists (take p xs), (drop (S p) xs). split; [by rewrite take_drop_middle|]. split.
    + intros (q & Hb)%elem_of_list_lookup. apply lookup_take_Some in Hb as [Hb ?]. apply Hq in Hb. lia.
    + intros <-. apply Hq in Hp. lia.
  - intros (u & v & -> & Hu & Hn). exists (length u). split; [by apply list_lookup_middle|]. intros q [Hb|[Hge Hb]]%lookup_app_Some.
    + destruct Hu. by eapply elem_of_list_lookup_2.
    + destruct (decide (q = length u)) as [->|]; [|lia]. rewrite Nat.sub_diag in Hb. simpl in Hb. congruence.
Qed.
Lemma present_order (l : list rstr) : forall i j a b, i < j -> present l !! i = Some a -> present l !! j = Some b ->
  exists i' j', i' < j' /\ l !! i' = Some a /\ l !! j' = Some b.
Proof.
  induction l as [|x l IH]; intros i j a b Hij Hi Hj; [done|]. unfold present in *. rewrite filter_cons in Hi, Hj.
  destruct (decide (x <> None)) as [Hx|Hx].
  - destruct j as [|j]; [lia|]. destruct i as [|i]; simpl in Hi, Hj.
    + assert (Hb : b ∈ l). { apply elem_of_list_lookup_2 in Hj. by apply elem_of_list_filter in Hj as [_ Hj]. }
      apply elem_of_list_lookup in Hb as [j' Hj']. exists 0, (S j'). split; [lia|done].
    + destruct (IH i j a b) as (i' & j' & H1 & H2 & H3); [lia|done|done|]. exists (S i'), (S j'). split; [lia|done].
  - destruct (IH i j a b) as (i' & j' & H1 & H2 & H3); [lia|done|done|]. exists (S i'), (S j'). split; [lia|done].
Qed.
Lemma first_appearances_present x l : first_appearances x l -> first_appearances (present x) (present l).
Proof.
  intros (L1 & L2 & L3). split_and!.
  - by apply NoDup_filter.
  - intros s. unfold present. by rewrite !elem_of_list_filter, L2.
  - intros i j a b Hij Hi Hj. destruct (present_order l i j a b) as (i' & j' & H1 & H2 & H3); [done..|].
    destruct (proj1 (split_first x a b) (L3 _ _ _ _ H1 H2 H3)) as (u & v & -> & Hu & Hn).
    apply (split_first (present (u ++ a :: v))). exists (present u), (present v).
    assert (Ha : a <> None). { apply elem_of_list_lookup_2, elem_of_list_filter in Hi. tauto. }
    split_and!; [|by intros [_ ?]%elem_of_list_filter|done]. unfold present. rewrite filter_app, filter_cons, decide_True by done. done.
Qed.
Theorem C37_chr_self_partial addr x pt : strs_ok x -> strs_fit x ->
  exists out l, vec_cast_chr_fct addr x (LChr pt []) = Ok (out, l) /\ first_appearances (present x) l /\
    Forall2 (fun s c => label_of l c = Some (match s with None => Missing | Some _ => Label s end)) x out.
Proof.
  intros Hx Hf. unfold vec_cast_chr_fct, chr_as_factor, chr_as_factor_from_self. simpl length. cbn [Nat.eqb].
  destruct (chr_unique_spec addr x) as (l & -> & Hl); [done..|]. cbn [bind].
  pose proof Hl as (L1 & L2 & L3). pose proof (first_appearances_length _ _ Hl) as Hll.
  assert (Hl30 : (Z.of_nat (length l) <= 2 ^ 30)%Z). { apply Hf; [done|]. intros s. apply L2. }
  rewrite remove_na_levels_spec; [|done|unfold INT_MAX; lia]. cbn [bind]. set (lv := present l).
  assert (Hlv : forall s, s ∈ lv <-> s ∈ x /\ s <> None). { intros s. unfold lv, present. rewrite elem_of_list_filter, L2. tauto. }
  assert (Hlen : length lv <= length l) by apply filter_length.
  destruct (chr_match_spec addr x lv) as (out & -> & Hout); [done| |apply Hf|unfold R_LEN_T_MAX, INT_MAX in *; lia|].
  { unfold strs_ok in *. rewrite Forall_forall in *. intros s [Hs _]%Hlv. by apply Hx. }
  cbn [bind]. exists out, lv. split; [done|]. split.
  - by apply first_appearances_present.
  - apply Forall2_same_length_lookup. split; [by eapply Forall2_length|]. intros i s c Hs Hc.
    destruct (Forall2_lookup_lr _ _ _ _ _ _ Hout Hs Hc) as [[-> Hm]|(j & -> & Hj & _)].
    + destruct s as [b|]; [|done]. destruct Hm. apply Hlv. split; [by eapply elem_of_list_lookup_2|done].
    + rewrite (label_of_pos lv j s) by done. destruct s as [b|]; [done|]. apply elem_of_list_lookup_2 in Hj. apply Hlv in Hj as [_ ?]. done.
Qed.

(** ** Ordered factors *)
Lemma chr_levels_equal x y : equal_object (RVec (Str x) RNull) (RVec (Str y) RNull) = true <-> x = y.
Proof.
  assert (W : forall l, obj_wf (RVec (Str l) RNull)) by (intros l; repeat constructor).
  assert (B : forall l, obj_bare (RVec (Str l) RNull)) by (intros l; repeat constructor).
  rewrite equal_object_bare by done. simpl. split; congruence.
Qed.
(** Only with the same levels in the same order, which are then kept. *)
Theorem C37_ordered codes px x py y :
  (x = y -> ord_ptype2 (LChr px x) (LChr py y) = Ok x /\ ord_as_ordered codes (LChr px x) (LChr py y) = Ok (codes, LChr px x)) /\
  (x <> y -> (exists e, ord_ptype2 (LChr px x) (LChr py y) = Err e) /\ exists e, ord_as_ordered codes (LChr px x) (LChr py y) = Err e).
Proof.
  unfold ord_ptype2, ord_as_ordered, ord_ptype2_validate. split.
  - intros ->. rewrite (proj2 (chr_levels_equal y y)) by done. done.
  - intros Hn. destruct (equal_object _ _) eqn:E; [by apply chr_levels_equal in E|]. cbn [bind]. split; by eexists.
Qed.

(** ** Examples: the levels are "a", "b", "c", "z", and NA. *)
Definition ex_a : rstr := Some [97]%Z.
Definition ex_b : rstr := Some [98]%Z.
Definition ex_c : rstr := Some [99]%Z.
Definition ex_z : rstr := Some [122]%Z.
Definition ex_addr (s : rstr) : Z := match s with Some (c :: _) => 1000 + 16 * c | Some [] => 16 | None => 32 end%Z.
Lemma short_fit (xs : list rstr) : length xs <= 100 -> strs_fit xs.
Proof.
  intros H. split; [unfold R_LEN_T_MAX, INT_MAX; lia|]. intros l Hl Hs. assert (length l <= length xs) by (apply submseteq_length, NoDup_submseteq; done). lia.
Qed.
Ltac ex_nodup := repeat (apply NoDup_cons; split; [rewrite ?elem_of_cons, ?elem_of_nil; intuition discriminate|]); apply NoDup_nil_2.
Ltac ex_strs := unfold strs_ok; repeat (apply Forall_cons; split; [first [exact I|repeat constructor; lia]|]); apply Forall_nil_2.
Example C37_ex_input : codes_ok [ex_z; ex_b; None] [2; NA_INTEGER; 3; 1; 2]%Z /\ lattr_ok (LChr 5 [ex_a; ex_b]) /\ lattr_ok (LChr 6 [ex_z; ex_b; None]) /\
  strs_fit ([ex_a; ex_b] ++ concat (map levels_of [LChr 6 [ex_z; ex_b; None]; LChr 7 [ex_c; ex_a]])).
Proof.
  split; [|split; [|split]].
  - repeat (apply Forall_cons; split; [vm_compute; by eexists|]). by apply Forall_nil.
  - split; [ex_strs|ex_nodup].
  - split; [ex_strs|ex_nodup].
  - apply short_fit. simpl. lia.
Qed.
(** The common levels of three factors. *)
Example C37_ex_common : fct_ptype_fold ex_addr (fun k => 100 + Z.of_nat k)%Z 0 (LChr 5 [ex_a; ex_b]) [LChr 6 [ex_z; ex_b; None]; LChr 7 [ex_c; ex_a]] =
  Ok [ex_a; ex_b; ex_z; None; ex_c].
Proof. vm_compute. reflexivity. Qed.
(** Recoding, with the level NA kept apart from a missing value. *)
Example C37_ex_cast : vec_cast_fct_fct ex_addr [2; NA_INTEGER; 3; 1; 2]%Z (LChr 6 [ex_z; ex_b; None]) (LChr 8 [ex_a; ex_b; ex_z; None; ex_c]) =
  Ok ([2; NA_INTEGER; 4; 3; 2]%Z, [ex_a; ex_b; ex_z; None; ex_c]).
Proof. vm_compute. reflexivity. Qed.
(** Unknown but unused levels are dropped; a used one is an error. *)
Example C37_ex_used : vec_cast_fct_fct ex_addr [2; NA_INTEGER; 2]%Z (LChr 6 [ex_z; ex_b]) (LChr 8 [ex_a; ex_b]) = Ok ([2; NA_INTEGER; 2]%Z, [ex_a; ex_b]) /\
  (exists e, vec_cast_fct_fct ex_addr [2; 1]%Z (LChr 6 [ex_z; ex_b]) (LChr 8 [ex_a; ex_b]) = Err e).
Proof. split; [vm_compute; reflexivity|]. vm_compute. by eexists. Qed.
Example C37_ex_chr : vec_cast_chr_fct ex_addr [ex_b; None; ex_a; ex_b] (LChr 8 []) = Ok ([1; NA_INTEGER; 2; 1]%Z, [ex_b; ex_a]) /\
  vec_cast_chr_fct ex_addr [ex_b; None; ex_a; ex_b] (LChr 8 [ex_a; ex_z; ex_b]) = Ok ([3; NA_INTEGER; 1; 3]%Z, [ex_a; ex_z; ex_b]) /\
  (exists e, vec_cast_chr_fct ex_addr [ex_b; ex_c] (LChr 8 [ex_a; ex_z; ex_b]) = Err e).
Proof. split_and!; [vm_compute; reflexivity..|]. vm_compute. by eexists. Qed.
Example C37_ex_as_character : fct_as_character [2; NA_INTEGER; 3; 1]%Z (LChr 6 [ex_z; ex_b; None]) = Ok [ex_b; None; None; ex_z].
Proof. reflexivity. Qed.
Example C37_ex_ordered : ord_ptype2 (LChr 5 [ex_a; None]) (LChr 6 [ex_a; None]) = Ok [ex_a; None] /\
  (exists e, ord_ptype2 (LChr 5 [ex_a; ex_b]) (LChr 6 [ex_b; ex_a]) = Err e).
Proof. split; [reflexivity|]. by eexists. Qed.

(** Duplicated levels at the same address stay duplicated. *)
Theorem C37_ptype2_duplicates_refuted : exists px x, forall addr, fct_ptype2 addr (LChr px x) (LChr px x) = Ok x /\ ~ first_appearances (x ++ x) x.
Proof.
  exists 5%Z, [ex_a; ex_a]. intros addr. split; [done|]. intros (H & _). apply NoDup_cons in H as [H _]. apply H. left.
Qed.

Print Assumptions C37_as_character.
Print Assumptions C37_ptype2_partial.
Print Assumptions C37_common_partial.
Print Assumptions C37_cast.
Print Assumptions C37_cast_common_partial.
Print Assumptions C37_cast_used_partial.
Print Assumptions C37_cast_missing_refuted.
Print Assumptions C37_chr.
Print Assumptions C37_chr_self_partial.
Print Assumptions C37_ordered.
Print Assumptions C37_ptype2_duplicates_refuted.
