(** * Lemmas about the conversion of subscripts to locations. *)
From Coq Require Import Sorted.
From stdpp Require Import sorting.
From Verif Require Import Base M_Double M_Scalar M_Object M_Proxy M_Cast M_Slice M_Subscript
  Spec_Value Spec_Cast Spec_Slice Spec_Subscript L_Dbl L_Cast L_Slice.

#[local] Arguments Z.mul : simpl never.
#[local] Arguments Z.add : simpl never.
#[local] Arguments Z.sub : simpl never.

(** ** Positions *)
Lemma positions_lt {A} (p : A -> bool) xs k : k ∈ positions p xs -> k < length xs.
Proof. unfold positions. rewrite elem_of_list_filter, elem_of_seq. lia. Qed.
Lemma filter_ext_in {A} (P Q : A -> Prop) `{forall x, Decision (P x)} `{forall x, Decision (Q x)} (l : list A) :
  (forall x, x ∈ l -> (P x <-> Q x)) -> filter P l = filter Q l.
Proof.
  induction l as [|x l IH]; intros HE; [done|]. rewrite !filter_cons.
  assert (IH' : filter P l = filter Q l) by (apply IH; intros; apply HE; by right).
  destruct (decide (P x)) as [Hp|Hp], (decide (Q x)) as [Hq|Hq]; rewrite IH'; try done.
  - destruct Hq. apply HE; [left|done].
  - destruct Hp. apply HE; [left|done].
Qed.
Lemma positions_snoc {A} (p : A -> bool) xs x :
  positions p (xs ++ [x]) = positions p xs ++ (if p x then [length xs] else []).
Proof.
  unfold positions. rewrite app_length. simpl. rewrite seq_app, filter_app. f_equal.
  - apply filter_ext_in. intros i Hi. apply elem_of_seq in Hi. rewrite lookup_app_l by lia. done.
  - simpl. rewrite filter_cons, filter_nil, list_lookup_middle by done.
    destruct (p x); [by rewrite decide_True|by rewrite decide_False].
Qed.
Lemma positions_nil {A} (p : A -> bool) : positions p [] = [].
Proof. done. Qed.
Lemma positions_ext {A} (p q : A -> bool) xs : (forall e, e ∈ xs -> p e = q e) -> positions p xs = positions q xs.
Proof.
  intros H. apply filter_ext_in. intros i _. destruct (xs !! i) as [e|] eqn:E; [|done].
  rewrite H; [done|]. by eapply elem_of_list_lookup_2.
Qed.
Lemma positions_length {A} (p : A -> bool) xs : length (positions p xs) = length (filter (fun e => p e = true) xs).
Proof.
  induction xs as [|x xs IH] using rev_ind; [done|].
  rewrite positions_snoc, filter_app, !app_length, IH. f_equal.
  rewrite filter_cons, filter_nil. destruct (p x); [by rewrite decide_True|by rewrite decide_False].
Qed.
Lemma omap_ext_in {A B} (f g : A -> option B) (l : list A) : (forall x, x ∈ l -> f x = g x) -> omap f l = omap g l.
Proof.
  induction l as [|x l IH]; intros H; [done|].
  change (match f x with Some y => y :: omap f l | None => omap f l end
          = match g x with Some y => y :: omap g l | None => omap g l end).
  rewrite (H x) by left. rewrite IH; [done|]. intros y Hy. apply H. by right.
Qed.
Lemma positions_filter {A} (p : A -> bool) xs : omap (fun k => xs !! k) (positions p xs) = filter (fun e => p e = true) xs.
Proof.
  induction xs as [|x xs IH] using rev_ind; [done|].
  rewrite positions_snoc, filter_app, omap_app. f_equal.
  - rewrite <- IH. apply omap_ext_in. intros k Hk. apply positions_lt in Hk. by rewrite lookup_app_l.
  - rewrite filter_cons, filter_nil. destruct (p x) eqn:E; [rewrite decide_True by done|by rewrite decide_False].
    simpl. by rewrite list_lookup_middle.
Qed.
Lemma names_at_length ns ks n : length ns = n -> (forall k, k ∈ ks -> k < n) ->
  length (omap (fun k => ns !! k) ks : list rstr) = length ks.
Proof.
  intros Hn. induction ks as [|k ks IH]; intros H; [done|].
  destruct (lookup_lt_is_Some_2 ns k) as [e He]; [rewrite Hn; apply H; left|].
  change (length (match ns !! k with Some y => y :: omap (fun k => ns !! k) ks | None => omap (fun k => ns !! k) ks end)
          = S (length ks)).
  rewrite He. cbn [length].
  rewrite IH; [done|]. intros; apply H; by right.
Qed.
Lemma kept_ok {A} (p : A -> bool) (x : named A) : named_ok x -> named_ok (kept p x).
Proof.
  unfold named_ok, kept. simpl. destruct x as [v [ns|]]; simpl; [|done]. intros H.
  rewrite (names_at_length ns _ (length v)), positions_length; [done|done|]. intros k; apply positions_lt.
Qed.
Lemma kept_length {A} (p : A -> bool) (x : named A) : length (kept p x).1 = length (positions p x.1).
Proof. unfold kept. simpl. by rewrite positions_length. Qed.

(** ** r_lgl_which *)
Lemma prefix_eq_length {A} (l1 l2 : list A) : l1 `prefix_of` l2 -> length l2 <= length l1 -> l1 = l2.
Proof. intros [k ->] H. rewrite app_length in H. destruct k; simpl in *; [by rewrite app_nil_r|lia]. Qed.

(** The loop "write at j, advance j when the element counts". *)
Lemma which_loop (xs : list Z) (p : Z -> bool) (cell : nat -> Z) body (v0 : list Z) :
  let N := length (positions p xs) in
  length v0 = N ->
  (forall i v j e, xs !! i = Some e ->
     body i (v, j) = (if negb (Z.of_nat j <? Z.of_nat N)%Z then Ok (Break (v, j))
                      else let! v' := wr v j (cell i) in Ok (Next (v', if p e then S j else j)))) ->
  exists j, for_brk 0 (length xs) body (v0, 0) = Ok (map cell (positions p xs), j).
Proof.
  intros N Hv0 Hb.
  destruct (for_brk_inv (fun i (st : list Z * nat) =>
      length st.1 = N /\ st.2 = length (positions p (take i xs)) /\
      take st.2 st.1 = map cell (positions p (take i xs)))
    (fun st => st.1 = map cell (positions p xs)) 0 (length xs) body (v0, 0)) as ((v & j) & E & HQ).
  - simpl. done.
  - intros i [v j] Hi (HL & Hj & HT). simpl in HL, Hj, HT.
    destruct (lookup_lt_is_Some_2 xs i) as [e He]; [lia|].
    assert (Hpre : map cell (positions p (take i xs)) `prefix_of` map cell (positions p xs)).
    { rewrite <- (take_drop i xs) at 2. clear. generalize (drop i xs). intros l.
      induction l as [|y l IH] using rev_ind; [by rewrite app_nil_r|].
      rewrite app_assoc, positions_snoc, map_app. by apply prefix_app_r. }
    rewrite (Hb i v j e He).
    destruct (Z.ltb_spec (Z.of_nat j) (Z.of_nat N)) as [Hlt|Hge]; simpl.
    + left. rewrite wr_Ok by lia. simpl. eexists. split; [done|]. simpl.
      rewrite (take_S_r _ _ _ He), positions_snoc, map_app, app_length. rewrite insert_length.
      split; [done|]. rewrite take_length_le by (apply lookup_lt_Some in He; lia).
      destruct (p e); simpl.
      * split; [lia|]. rewrite (take_S_r _ _ (cell i)) by (by rewrite list_lookup_insert by lia).
        rewrite take_insert by lia. by rewrite HT.
      * rewrite app_nil_r. split; [lia|]. by rewrite take_insert by lia.
    + right. eexists. split; [done|]. simpl.
      assert (Hlen : length (map cell (positions p xs)) = N) by (by rewrite map_length).
      rewrite take_ge in HT by lia. rewrite HT. apply prefix_eq_length; [done|].
      rewrite Hlen, map_length. lia.
  - intros [v j] (HL & Hj & HT). simpl in *. rewrite (take_ge xs) in Hj, HT by lia.
    rewrite take_ge in HT by lia. done.
  - simpl in HQ. exists j. by rewrite E, HQ.
Qed.

Lemma lgl_sum_spec x (na : bool) : Forall lgl_wf x ->
  r_lgl_sum x na = Z.of_nat (length (positions (lgl_selected (if na then MissingPropagate else MissingRemove)) x)).
Proof.
  intros Hx. unfold r_lgl_sum. induction x as [|e x IH] using rev_ind; [done|].
  apply Forall_app in Hx as [Hx He]. apply Forall_inv in He.
  rewrite fold_left_app, IH, positions_snoc, app_length by done. simpl.
  assert (b2i (if na then negb (e =? 0)%Z else (e =? 1)%Z) =
          Z.of_nat (length (if lgl_selected (if na then MissingPropagate else MissingRemove) e then [length x] else []))) as ->.
  { destruct He as [->|[->| ->]], na; reflexivity. }
  lia.
Qed.

Lemma r_alloc_Ok {A} (d : A) (n : nat) : r_alloc d (Z.of_nat n) = Ok (replicate n d).
Proof. unfold r_alloc. destruct (Z.ltb_spec (Z.of_nat n) 0); [lia|]. by rewrite Nat2Z.id. Qed.

Lemma positions_lookup {A} (p : A -> bool) xs k : k ∈ positions p xs -> exists e, xs !! k = Some e /\ p e = true.
Proof.
  unfold positions. rewrite elem_of_list_filter. intros [H _]. destruct (xs !! k) as [e|]; [by exists e|done].
Qed.

(** Copying the names of selected locations. *)
Lemma names_loop (ks : list nat) (ns : list rstr) (cell out : nat -> Z) body on0 :
  (forall k, k ∈ ks -> k < length ns) -> length on0 = length ks ->
  (forall i k v on, ks !! i = Some k -> v !! i = Some (cell k) -> length on = length ks -> i < length v ->
     body i (v, on) = (let! nm := rd ns k in let! on := wr on i nm in Ok (<[i:=out k]> v, on))) ->
  for_ 0 (length ks) body (map cell ks, on0) = Ok (map out ks, omap (fun k => ns !! k) ks).
Proof.
  intros Hks Hon Hb.
  destruct (for_inv (fun i (st : list Z * list rstr) =>
      st.1 = map out (take i ks) ++ map cell (drop i ks) /\
      length st.2 = length ks /\ take i st.2 = omap (fun k => ns !! k) (take i ks))
    0 (length ks) body (map cell ks, on0)) as ((v & on) & E & H1 & H2 & H3).
  - simpl. done.
  - intros i [v on] Hi (Hv & Hl & Ht). simpl in Hv, Hl, Ht.
    destruct (lookup_lt_is_Some_2 ks i) as [k Hk]; [lia|].
    assert (Hkn : k < length ns) by (apply Hks; by eapply elem_of_list_lookup_2).
    destruct (lookup_lt_is_Some_2 ns k Hkn) as [nm Hnm].
    assert (Hml : length (map out (take i ks)) = i) by (rewrite map_length, take_length; lia).
    assert (Hvi : v !! i = Some (cell k)).
    { rewrite Hv, lookup_app_r by lia. rewrite Hml, Nat.sub_diag.
      rewrite (drop_S _ _ _ Hk). done. }
    rewrite (Hb i k v on Hk Hvi Hl) by (by apply lookup_lt_Some in Hvi).
    rewrite (proj2 (rd_Ok _ _ _) Hnm). simpl. rewrite wr_Ok by lia. simpl.
    eexists. split; [done|]. simpl. split_and!.
    + rewrite Hv. rewrite insert_app_r_alt by lia. rewrite Hml, Nat.sub_diag.
      rewrite (drop_S _ _ _ Hk). simpl. rewrite (take_S_r _ _ _ Hk), map_app, <- app_assoc. done.
    + by rewrite insert_length.
    + rewrite (take_S_r _ _ nm) by (by rewrite list_lookup_insert by lia).
      rewrite take_insert by lia. rewrite Ht, (take_S_r _ _ _ Hk), omap_app. simpl. by rewrite Hnm.
  - simpl in *. rewrite E. rewrite (take_ge ks), drop_ge in H1 by lia. rewrite take_ge, take_ge in H3 by lia.
    rewrite H1, H3. by rewrite app_nil_r.
Qed.

Lemma which_spec (x : named Z) (na : bool) :
  Forall lgl_wf x.1 -> named_ok x -> (Z.of_nat (length x.1) <= INT_MAX)%Z ->
  r_lgl_which x na = Ok (lgl_locations (if na then MissingPropagate else MissingRemove) x).
Proof.
  destruct x as [xs names]. simpl. intros Hx Hnm Hlen. unfold r_lgl_which, lgl_locations. simpl.
  rewrite lgl_sum_spec by done. set (m := if na then MissingPropagate else MissingRemove).
  set (ks := positions (lgl_selected m) xs).
  assert (Hks : length ks <= length xs).
  { unfold ks. rewrite positions_length. apply filter_length. }
  destruct (Z.ltb_spec INT_MAX (Z.of_nat (length ks))) as [?|_]; [lia|].
  rewrite r_alloc_Ok. cbn [bind].
  set (cell := fun i => if na then
     match xs !! i with
     | Some e => if (e =? NA_LOGICAL)%Z then (if names then (- Z.of_nat i - 1)%Z else NA_INTEGER) else (e * (Z.of_nat i + 1))%Z
     | None => 0%Z end else (Z.of_nat i + 1)%Z).
  match goal with |- context [for_brk 0 (length xs) ?b] =>
    destruct (which_loop xs (lgl_selected m) cell b (replicate (length ks) 0%Z)) as (j & E)
  end.
  { by rewrite replicate_length. }
  { intros i v j e He. fold ks. destruct (negb _); [done|]. rewrite (proj2 (rd_Ok _ _ _) He). cbn [bind].
    unfold cell. rewrite He. rewrite Forall_lookup in Hx. specialize (Hx _ _ He).
    unfold m. destruct na.
    - destruct (wr v j _) as [v'| |]; cbn [bind]; try done. do 3 f_equal.
      destruct Hx as [->|[->| ->]].
      + simpl. replace (0 * (Z.of_nat i + 1))%Z with 0%Z by lia. done.
      + simpl. destruct (Z.eqb_spec (1 * (Z.of_nat i + 1)) 0); [lia|done].
      + simpl. destruct names; [|done]. destruct (Z.eqb_spec (- Z.of_nat i - 1) 0); [lia|done].
    - destruct (wr v j _) as [v'| |]; cbn [bind]; try done. do 3 f_equal.
      destruct Hx as [->|[->| ->]]; reflexivity. }
  rewrite E. cbn [bind fst snd]. fold ks.
  set (out := fun k => match xs !! k with Some 1%Z => (Z.of_nat k + 1)%Z | _ => NA_INTEGER end).
  assert (Hsel : forall k, k ∈ ks -> xs !! k = Some 1%Z \/ (na = true /\ xs !! k = Some NA_LOGICAL)).
  { intros k Hk. apply positions_lookup in Hk as (e & He & Hs). rewrite He.
    rewrite Forall_lookup in Hx. specialize (Hx _ _ He). unfold lgl_selected, m in Hs.
    destruct Hx as [->|[->| ->]], na; try done; auto. }
  destruct names as [ns|]; [|].
  - rewrite r_alloc_Ok. cbn [bind]. rewrite Nat2Z.id. unfold named_ok in Hnm. simpl in Hnm.
    rewrite (names_loop ks ns cell out); [done| | |].
    + intros k Hk. rewrite Hnm. by apply positions_lt in Hk.
    + by rewrite replicate_length.
    + intros i k v on Hk Hv Hon Hi. rewrite (proj2 (rd_Ok _ _ _) Hv). cbn [bind].
      assert (Hin : k ∈ ks) by (by eapply elem_of_list_lookup_2).
      pose proof (positions_lt _ _ _ Hin) as Hkl.
      unfold cell, out. destruct (Hsel k Hin) as [He|[Hna He]]; rewrite He.
      * destruct na.
        -- change (1 =? NA_LOGICAL)%Z with false. cbv iota.
           unfold c_abs. destruct (Z.eqb_spec (1 * (Z.of_nat k + 1)) INT_MIN) as [?|_]; [unfold INT_MIN in *; lia|]. cbn [bind].
           rewrite Z.abs_eq by lia. rewrite Z.eqb_refl. rewrite wr_Ok by done. cbn [bind].
           replace (1 * (Z.of_nat k + 1) - 1)%Z with (Z.of_nat k) by lia. rewrite rdZ_nat.
           replace (1 * (Z.of_nat k + 1))%Z with (Z.of_nat k + 1)%Z by lia. done.
        -- replace (Z.of_nat k + 1 - 1)%Z with (Z.of_nat k) by lia. rewrite rdZ_nat.
           destruct (rd ns k); cbn [bind]; try done. destruct (wr on i a); cbn [bind]; try done.
           do 2 f_equal. symmetry. apply list_insert_id. rewrite Hv. done.
      * rewrite Hna. change (NA_LOGICAL =? NA_LOGICAL)%Z with true. cbv iota.
        unfold c_abs. destruct (Z.eqb_spec (- Z.of_nat k - 1) INT_MIN) as [?|_].
        { unfold INT_MIN, INT_MAX in *. lia. }
        cbn [bind]. rewrite Z.abs_neq by lia.
        destruct (Z.eqb_spec (- Z.of_nat k - 1) (- (- Z.of_nat k - 1))); [lia|]. rewrite wr_Ok by done. cbn [bind].
        replace (- (- Z.of_nat k - 1) - 1)%Z with (Z.of_nat k) by lia. rewrite rdZ_nat.
        destruct (rd ns k); done.
  - f_equal. f_equal. apply map_ext_in. intros k Hk. apply elem_of_list_In in Hk.
    unfold cell, out. destruct (Hsel k Hk) as [He|[Hna He]]; rewrite He.
    + destruct na; [|done]. change (1 =? NA_LOGICAL)%Z with false. cbv iota. lia.
    + by rewrite Hna.
Qed.

(** ** lgl_as_location *)
Lemma positions_replicate {A} (p : A -> bool) n e : positions p (replicate n e) = if p e then seq 0 n else [].
Proof.
  induction n as [|n IH]; [by destruct (p e)|].
  replace (replicate (S n) e) with (replicate n e ++ [e]) by (rewrite <- replicate_cons_app; done).
  rewrite positions_snoc, IH, replicate_length. destruct (p e); [|done]. by rewrite seq_S.
Qed.
Lemma omap_seq_replicate {A} n (a : A) : omap (fun k => replicate n a !! k) (seq 0 n) = replicate n a.
Proof.
  transitivity (omap (fun _ : nat => Some a) (seq 0 n)).
  - apply omap_ext_in. intros k Hk. apply elem_of_seq in Hk. apply lookup_replicate_2. lia.
  - generalize 0. induction n as [|n IH]; intros k; simpl; [done|]. f_equal. apply IH.
Qed.
Lemma map_const_seq {A} s n (a : A) (f : nat -> A) : (forall k, s <= k < s + n -> f k = a) -> map f (seq s n) = replicate n a.
Proof.
  revert s. induction n as [|n IH]; intros s H; simpl; [done|]. rewrite H by lia. f_equal. apply IH. intros; apply H; lia.
Qed.

Lemma lgl_any_na_spec x : lgl_any_na x = true <-> NA_LOGICAL ∈ x.
Proof.
  unfold lgl_any_na. rewrite existsb_exists. split.
  - intros (e & Hin & He). apply Z.eqb_eq in He as ->. by apply elem_of_list_In.
  - intros H. exists NA_LOGICAL. split; [by apply elem_of_list_In|done].
Qed.

Lemma lgl_as_location_spec (x : named Z) (n : nat) opts :
  Forall lgl_wf x.1 -> named_ok x -> (Z.of_nat n <= INT_MAX)%Z ->
  (length x.1 <> n -> length x.1 <> 1 -> exists e, lgl_as_location x (Z.of_nat n) opts = Err e) /\
  (length x.1 = n \/ length x.1 = 1 ->
    (o_missing opts = MissingError -> NA_LOGICAL ∈ x.1 -> exists e, lgl_as_location x (Z.of_nat n) opts = Err e) /\
    (~ (o_missing opts = MissingError /\ NA_LOGICAL ∈ x.1) ->
       lgl_as_location x (Z.of_nat n) opts = Ok (lgl_locations (o_missing opts) (lgl_recycled x n)))).
Proof.
  intros Hx Hnm Hn. split.
  { intros H1 H2. destruct x as [xs ns]. unfold lgl_as_location. simpl in *.
    destruct (Z.eqb_spec (Z.of_nat (length xs)) (Z.of_nat n)); [lia|].
    destruct (Z.eqb_spec (Z.of_nat (length xs)) 1); [lia|]. eauto. }
  intros Hsz.
  destruct (decide (length x.1 = n)) as [He|Hne].
  - unfold lgl_recycled. rewrite bool_decide_eq_true_2 by done.
    assert (HE : lgl_as_location x (Z.of_nat n) opts =
      match o_missing opts with
      | MissingPropagate => r_lgl_which x true
      | MissingRemove => r_lgl_which x false
      | MissingError => if lgl_any_na x.1 then Err "Subscript can't contain missing values." else r_lgl_which x false
      end).
    { destruct x as [xs ns]. unfold lgl_as_location. simpl in *. by rewrite He, Z.eqb_refl. }
    rewrite HE. split.
    + intros -> Hna. apply lgl_any_na_spec in Hna as ->. eauto.
    + intros Hno. destruct (o_missing opts).
      * rewrite which_spec by (done || lia). done.
      * rewrite which_spec by (done || lia). done.
      * destruct (lgl_any_na x.1) eqn:E; [apply lgl_any_na_spec in E; by destruct Hno|].
        rewrite which_spec by (done || lia). done.
  - assert (H1 : length x.1 = 1) by (destruct Hsz; done).
    destruct x as [[|e [|? ?]] names]; simpl in H1; try lia. simpl in Hx, Hne.
    apply Forall_inv in Hx.
    assert (HE : lgl_as_location ([e], names) (Z.of_nat n) opts =
      (let! st :=
        (if (e =? NA_LOGICAL)%Z then
         match o_missing opts with
         | MissingPropagate => Ok (replicate n NA_INTEGER, Z.of_nat n)
         | MissingRemove => Ok ([], Z.of_nat 0)
         | MissingError => Err "Subscript can't contain missing values."
         end
       else if negb (e =? 0)%Z then Ok (map (fun i => Z.of_nat i + 1)%Z (seq 0 n), Z.of_nat n)
       else Ok ([], Z.of_nat 0)) in
      Ok (st.1, match names with None => None | Some nms => Some (replicate (Z.to_nat st.2) (default None (nms !! 0))) end))).
    { unfold lgl_as_location. change (Z.of_nat (length [e])) with 1%Z.
      destruct (Z.eqb_spec 1 (Z.of_nat n)); [lia|]. change (1 =? 1)%Z with true. cbv iota.
      change (rd [e] 0) with (Ok e). cbn [bind]. rewrite !r_alloc_Ok. cbn [bind]. rewrite replicate_length.
      assert (Hk : forall (out : list Z) (k : nat), match names with
        | None => Ok (out, None)
        | Some nms => let! nm := rd nms 0 in let! recycled := r_alloc nm (Z.of_nat k) in Ok (out, Some recycled)
        end = Ok (out, match names with None => None | Some nms => Some (replicate k (default None (nms !! 0))) end)).
      { intros out k. destruct names as [[|nm ?]|]; unfold named_ok in Hnm; simpl in Hnm; [lia| |done].
        change (rd (nm :: l) 0) with (Ok nm). cbn [bind]. by rewrite r_alloc_Ok. }
      destruct (e =? NA_LOGICAL)%Z; [destruct (o_missing opts)|destruct (negb (e =? 0)%Z)]; cbn [bind fst snd];
        rewrite ?Nat2Z.id; try done; try apply Hk; apply (Hk [] 0). }
    rewrite HE. unfold lgl_recycled. cbn [fst snd]. rewrite bool_decide_eq_false_2 by done.
    unfold lgl_locations. cbn [fst snd]. change (default 0%Z ([e] !! 0)) with e. rewrite positions_replicate.
    assert (Hfin : forall f : nat -> Z, (map f (seq 0 n), names_at (match names with
         | None => None | Some ns => Some (replicate n (default None (ns !! 0))) end) (seq 0 n)) =
         (map f (seq 0 n), match names with None => None | Some nms => Some (replicate n (default None (nms !! 0))) end)).
    { intros f. f_equal. destruct names as [ns|]; [|done]. unfold names_at. by rewrite omap_seq_replicate. }
    clear HE. destruct Hx as [->|[->| ->]].
    + split; [intros _ Hin; apply elem_of_list_singleton in Hin; discriminate|]. intros _.
      assert (lgl_selected (o_missing opts) 0 = false) as -> by (by destruct (o_missing opts)).
      simpl. by destruct names.
    + split; [intros _ Hin; apply elem_of_list_singleton in Hin; discriminate|]. intros _.
      change (lgl_selected (o_missing opts) 1) with true. cbv iota. rewrite Hfin.
      change (1 =? NA_LOGICAL)%Z with false. change (negb (1 =? 0)%Z) with true. cbv iota. cbn [bind fst snd].
      rewrite Nat2Z.id. do 2 f_equal. apply map_ext_in. intros k Hk. apply in_seq in Hk.
      rewrite lookup_replicate_2 by lia. done.
    + change (NA_LOGICAL =? NA_LOGICAL)%Z with true. cbv iota. split.
      * intros -> _. cbn [bind]. eauto.
      * intros Hno. destruct (o_missing opts); cbn [bind fst snd].
        -- change (lgl_selected MissingPropagate NA_LOGICAL) with true. cbv iota. rewrite Hfin, Nat2Z.id.
           do 2 f_equal. symmetry. apply map_const_seq. intros k Hk.
           by rewrite lookup_replicate_2 by lia.
        -- change (lgl_selected MissingRemove NA_LOGICAL) with false. simpl. by destruct names.
        -- destruct Hno. split; [done|by apply elem_of_list_singleton].
Qed.

(** ** int_invert_location *)
Lemma invert_loop_spec data (n : nat) opts sel :
  Forall is_int data -> length sel = n -> (Z.of_nat n <= INT_MAX)%Z ->
  (invert_bad opts (Z.of_nat n) data /\ exists e, invert_loop data (Z.of_nat n) opts sel = Err e) \/
  (~ invert_bad opts (Z.of_nat n) data /\ exists sel', invert_loop data (Z.of_nat n) opts sel = Ok sel' /\
     length sel' = n /\ forall i, i < n -> sel' !! i = if decide ((- (Z.of_nat i + 1))%Z ∈ data) then Some 0%Z else sel !! i).
Proof.
  intros Hd Hs Hn. revert sel Hs. induction data as [|j data IH]; intros sel Hs.
  { right. split.
    - intros [[_ H]|[[_ H]|[(e & H & _)|[_ (e & H & _)]]]]; by apply elem_of_nil in H.
    - exists sel. split; [done|]. split; [done|]. intros i Hi. rewrite decide_False; [done|]. apply not_elem_of_nil. }
  inversion_clear Hd as [|? ? Hj Hd']. specialize (IH Hd').
  (* one step that leaves [sel] alone *)
  assert (Hskip : invert_loop (j :: data) (Z.of_nat n) opts sel = invert_loop data (Z.of_nat n) opts sel ->
     (invert_bad opts (Z.of_nat n) (j :: data) <-> invert_bad opts (Z.of_nat n) data) ->
     (forall i, i < n -> j <> (- (Z.of_nat i + 1))%Z) ->
     (invert_bad opts (Z.of_nat n) (j :: data) /\ exists e, invert_loop (j :: data) (Z.of_nat n) opts sel = Err e) \/
     (~ invert_bad opts (Z.of_nat n) (j :: data) /\ exists sel', invert_loop (j :: data) (Z.of_nat n) opts sel = Ok sel' /\
     length sel' = n /\ forall i, i < n -> sel' !! i = if decide ((- (Z.of_nat i + 1))%Z ∈ j :: data) then Some 0%Z else sel !! i)).
  { intros -> Hb Hji. destruct (IH sel Hs) as [[H1 H2]|(H1 & sel' & H2 & H3 & H4)].
    - left. split; [by apply Hb|done].
    - right. split; [by rewrite Hb|]. exists sel'. split; [done|]. split; [done|]. intros i Hi. rewrite (H4 i Hi).
      specialize (Hji i Hi). destruct (decide ((- (Z.of_nat i + 1))%Z ∈ data)) as [Y|N].
      + rewrite decide_True; [done|by right].
      + rewrite decide_False; [done|]. rewrite elem_of_cons. intros [<-|?]; done. }
  assert (Hext : forall P : Prop, (P -> invert_bad opts (Z.of_nat n) (j :: data)) -> P ->
     forall e, invert_loop (j :: data) (Z.of_nat n) opts sel = Err e ->
     (invert_bad opts (Z.of_nat n) (j :: data) /\ exists e, invert_loop (j :: data) (Z.of_nat n) opts sel = Err e) \/
     (~ invert_bad opts (Z.of_nat n) (j :: data) /\ exists sel', invert_loop (j :: data) (Z.of_nat n) opts sel = Ok sel' /\
     length sel' = n /\ forall i, i < n -> sel' !! i = if decide ((- (Z.of_nat i + 1))%Z ∈ j :: data) then Some 0%Z else sel !! i)).
  { intros P HP HPP e He. left. split; [by apply HP|eauto]. }
  (* what the head adds to [invert_bad] *)
  assert (Hbad : invert_bad opts (Z.of_nat n) (j :: data) <->
     (o_missing opts <> MissingRemove /\ j = NA_INTEGER) \/ (o_zero opts = ZeroError /\ j = 0%Z) \/
     (0 < j)%Z \/ (o_oob opts <> OobRemove /\ beyond (Z.of_nat n) j) \/ invert_bad opts (Z.of_nat n) data).
  { unfold invert_bad. split.
    - intros [[H1 H2]|[[H1 H2]|[(e & H1 & H2)|[H1 (e & H2 & H3)]]]].
      + apply elem_of_cons in H2 as [<-|H2]; [by left|do 4 right; by left].
      + apply elem_of_cons in H2 as [<-|H2]; [right; by left|do 5 right; by left].
      + apply elem_of_cons in H1 as [->|H1]; [do 2 right; by left|do 6 right; left; eauto].
      + apply elem_of_cons in H2 as [->|H2]; [do 3 right; by left|do 7 right; eauto].
    - intros [[H1 ->]|[[H1 ->]|[H1|[[H1 H2]|[[H1 H2]|[[H1 H2]|[(e & H1 & H2)|[H1 (e & H2 & H3)]]]]]]]].
      + left. split; [done|left].
      + right; left. split; [done|left].
      + right; right; left. exists j. split; [left|done].
      + right; right; right. split; [done|]. exists j. split; [left|done].
      + left. split; [done|by right].
      + right; left. split; [done|by right].
      + right; right; left. exists e. split; [by right|done].
      + right; right; right. split; [done|]. exists e. split; [by right|done]. }
  cbn [invert_loop] in *.
  destruct (Z.eqb_spec j NA_INTEGER) as [->|Hna].
  { destruct (o_missing opts) eqn:Em.
    - left. split; [apply Hbad; left; done|eauto].
    - apply Hskip; [done| |].
      + rewrite Hbad. unfold beyond, NA_INTEGER, INT_MIN in *. intuition (try congruence; try lia).
      + unfold NA_INTEGER, INT_MIN, INT_MAX in *. lia.
    - left. split; [apply Hbad; left; done|eauto]. }
  destruct (Z.eqb_spec j 0) as [->|H0].
  { destruct (o_zero opts) eqn:Ez.
    - apply Hskip; [done| |lia]. rewrite Hbad. unfold beyond. intuition (try congruence; try lia).
    - left. split; [apply Hbad; right; left; done|eauto].
    - apply Hskip; [done| |lia]. rewrite Hbad. unfold beyond. intuition (try congruence; try lia). }
  destruct (Z.ltb_spec 0 j) as [Hpos|Hneg].
  { left. split; [apply Hbad; by do 2 right; left|eauto]. }
  assert (Ej : int_ok (- j) = Ok (- j)%Z).
  { unfold int_ok. unfold is_int, NA_INTEGER, INT_MIN, INT_MAX in *.
    destruct (Z.leb_spec (-2147483648) (- j)); [|lia]. destruct (Z.leb_spec (- j) 2147483647); [done|lia]. }
  rewrite Ej in *. cbn [bind] in *.
  destruct (Z.ltb_spec (Z.of_nat n) (- j)) as [Hoob|Hin].
  { destruct (o_oob opts) eqn:Eo.
    - left. split; [apply Hbad; do 3 right; left; split; [done|]; split; [done|lia]|eauto].
    - apply Hskip; [done| |lia]. rewrite Hbad. intuition (try congruence; try lia).
    - left. split; [apply Hbad; do 3 right; left; split; [done|]; split; [done|lia]|eauto]. }
  clear Hskip Hext. unfold wrZ. destruct (Z.ltb_spec (- j - 1) 0); [lia|].
  rewrite wr_Ok by lia. cbn [bind].
  destruct (IH (<[Z.to_nat (- j - 1):=0%Z]> sel)) as [[H1 H2]|(H1 & sel' & H2 & H3 & H4)]; [by rewrite insert_length|..].
  - left. split; [apply Hbad; by do 4 right|done].
  - right. split.
    { rewrite Hbad. unfold beyond. intuition (try congruence; try lia). }
    exists sel'. split; [done|]. split; [done|]. intros i Hi. rewrite (H4 i Hi).
    destruct (decide ((- (Z.of_nat i + 1))%Z ∈ data)) as [Y|N].
    + rewrite decide_True; [done|by right].
    + destruct (Z.eq_dec j (- (Z.of_nat i + 1))) as [->|Hji].
      * rewrite decide_True by left. replace (Z.to_nat _) with i by lia. by rewrite list_lookup_insert by lia.
      * rewrite decide_False by (rewrite elem_of_cons; intros [<-|?]; done).
        rewrite list_lookup_insert_ne by lia. done.
Qed.

Lemma filter_map {A B} (f : A -> B) (P : B -> Prop) `{forall x, Decision (P x)} (l : list A) :
  filter P (map f l) = map f (filter (fun x => P (f x)) l).
Proof.
  induction l as [|x l IH]; [done|]. simpl map. rewrite !filter_cons.
  destruct (decide (P (f x))); simpl; by rewrite IH.
Qed.

Lemma complement_positions (n : nat) data sel m :
  length sel = n ->
  (forall i, i < n -> sel !! i = if decide ((- (Z.of_nat i + 1))%Z ∈ data) then Some 0%Z else Some 1%Z) ->
  lgl_locations m (sel, None) = (complement n data, None).
Proof.
  intros Hl Hs. unfold lgl_locations, complement. cbn [fst snd names_at]. f_equal.
  rewrite <- seq_shift, map_map, filter_map.
  assert (positions (lgl_selected m) sel =
    filter (fun x => (- Z.of_nat (S x))%Z ∉ data) (seq 0 n)) as ->.
  { unfold positions. rewrite Hl. apply filter_ext_in. intros i Hi. apply elem_of_seq in Hi. simpl.
    rewrite Hs by lia. replace (Z.of_nat (S i)) with (Z.of_nat i + 1)%Z by lia.
    destruct (decide _) as [Y|N].
    - split; [by destruct m|done].
    - split; done. }
  apply map_ext_in. intros k Hk. apply elem_of_list_In, elem_of_list_filter in Hk as [Hk1 Hk2].
  apply elem_of_seq in Hk2. simpl in Hk1. rewrite Hs by lia. rewrite decide_False; [lia|].
  by replace (Z.of_nat k + 1)%Z with (Z.of_nat (S k)) by lia.
Qed.

Lemma int_invert_spec (x : named Z) (n : nat) opts :
  Forall is_int x.1 -> (Z.of_nat n <= INT_MAX)%Z ->
  (invert_bad opts (Z.of_nat n) x.1 /\ exists e, int_invert_location x (Z.of_nat n) opts = Err e) \/
  (~ invert_bad opts (Z.of_nat n) x.1 /\
     int_invert_location x (Z.of_nat n) opts = Ok (complement n x.1, None)).
Proof.
  intros Hx Hn. unfold int_invert_location. rewrite r_alloc_Ok. cbn [bind].
  destruct (invert_loop_spec x.1 n opts (replicate n 1%Z)) as [[H1 [e He]]|(H1 & sel & E & Hl & Hs)];
    [done|by rewrite replicate_length|done|..].
  - left. split; [done|]. rewrite He. by exists e.
  - right. split; [done|]. rewrite E. cbn [bind].
    assert (Hs' : forall i, i < n -> sel !! i = if decide ((- (Z.of_nat i + 1))%Z ∈ x.1) then Some 0%Z else Some 1%Z).
    { intros i Hi. rewrite (Hs i Hi). destruct (decide _); [done|]. by rewrite lookup_replicate_2 by lia. }
    assert (Hw : Forall lgl_wf sel).
    { apply Forall_lookup. intros i e He. assert (i < n) by (apply lookup_lt_Some in He; lia).
      rewrite Hs' in He by done. unfold lgl_wf. destruct (decide _); injection He as <-; auto. }
    destruct (lgl_as_location_spec (sel, None) n opts) as [_ H]; [done|done|done|].
    destruct H as [_ ->].
    + by left.
    + unfold lgl_recycled. cbn [fst snd]. rewrite bool_decide_eq_true_2 by done. by rewrite (complement_positions n x.1).
    + intros [_ Hin]. apply elem_of_list_lookup in Hin as [i Hi]. simpl in Hi.
      assert (i < n) by (apply lookup_lt_Some in Hi; lia). rewrite Hs' in Hi by done. by destruct (decide _).
Qed.

(** ** copy_kept *)
Lemma filter_snoc {A} (P : A -> Prop) `{forall x, Decision (P x)} (l : list A) x :
  filter P (l ++ [x]) = filter P l ++ (if decide (P x) then [x] else []).
Proof. rewrite filter_app. f_equal. Qed.

Lemma copy_kept_spec (keep : Z -> res bool) (k : Z -> bool) (x : named Z) (N : nat) :
  named_ok x -> (forall e, e ∈ x.1 -> keep e = Ok (k e)) ->
  N = length (filter (fun e => k e = true) x.1) ->
  copy_kept keep x (Z.of_nat N) = Ok (kept k x).
Proof.
  destruct x as [v names]. intros Hnm Hk HN. cbn [fst snd] in *. unfold copy_kept. rewrite r_alloc_Ok. cbn [bind].
  assert (exists M, r_alloc (Some [] : rstr) (if names then Z.of_nat N else 0%Z) = Ok (replicate M (Some [])) /\
            (is_Some names -> M = N)) as (M & -> & HM).
  { destruct names; [exists N|exists 0]; rewrite <- r_alloc_Ok; split; try done. by intros [? ?]. }
  cbn [bind].
  match goal with |- context [for_ 0 (length v) ?b ?s0] =>
    destruct (for_inv (fun i (st : list Z * list rstr * nat) =>
      length st.1.1 = N /\ st.2 = length (positions k (take i v)) /\
      take st.2 st.1.1 = filter (fun e => k e = true) (take i v) /\
      (forall ns, names = Some ns -> length st.1.2 = N /\
          take st.2 st.1.2 = omap (fun k => ns !! k) (positions k (take i v))))
      0 (length v) b s0) as (((out & on) & j) & E & H1 & H2 & H3 & H4)
  end.
  - cbn [fst snd]. rewrite replicate_length. split_and!; [done..|]. intros ns ->. rewrite replicate_length.
    split; [by apply HM; eauto|done].
  - intros i [[out on] j] Hi (H1 & H2 & H3 & H4). cbn [fst snd] in *.
    destruct (lookup_lt_is_Some_2 v i) as [e He]; [lia|]. rewrite (proj2 (rd_Ok _ _ _) He). cbn [bind].
    rewrite Hk by (by eapply elem_of_list_lookup_2). cbn [bind].
    rewrite (take_S_r _ _ _ He), positions_snoc, filter_snoc, app_length. rewrite take_length_le by lia.
    destruct (k e) eqn:Ek.
    + assert (Hj : j < N).
      { rewrite H2, positions_length, HN. rewrite <- (take_drop i v) at 2. rewrite (drop_S _ _ _ He).
        rewrite filter_app, app_length, filter_cons, decide_True by done. simpl. lia. }
      rewrite wr_Ok by lia. cbn [bind]. destruct names as [ns|].
      * destruct (H4 ns eq_refl) as [H5 H6].
        destruct (lookup_lt_is_Some_2 ns i) as [nm Hn]; [unfold named_ok in Hnm; simpl in Hnm; lia|].
        rewrite (proj2 (rd_Ok _ _ _) Hn). cbn [bind]. rewrite wr_Ok by lia. cbn [bind].
        eexists. split; [done|]. cbn [fst snd]. rewrite insert_length, decide_True by done. split_and!.
        -- done.
        -- simpl. lia.
        -- rewrite (take_S_r _ _ e) by (by rewrite list_lookup_insert by lia).
           by rewrite take_insert, H3 by lia.
        -- intros ns' [= <-]. rewrite insert_length. split; [done|].
           rewrite (take_S_r _ _ nm) by (by rewrite list_lookup_insert by lia).
           rewrite take_insert, H6 by lia. rewrite omap_app. f_equal. simpl. by rewrite Hn.
      * eexists. split; [done|]. cbn [fst snd]. rewrite insert_length, decide_True by done. split_and!.
        -- done.
        -- simpl. lia.
        -- rewrite (take_S_r _ _ e) by (by rewrite list_lookup_insert by lia).
           by rewrite take_insert, H3 by lia.
        -- intros ns' [=].
    + eexists. split; [done|]. cbn [fst snd]. rewrite decide_False by done. rewrite !app_nil_r. simpl.
      rewrite Nat.add_0_r. done.
  - rewrite E. cbn [bind fst snd] in *. rewrite (take_ge v) in H2, H3, H4 by lia.
    rewrite take_ge in H3 by (rewrite H1, HN, H2, positions_length; lia). unfold kept. cbn [fst snd].
    rewrite H3. f_equal. f_equal. destruct names as [ns|]; [|done]. destruct (H4 ns eq_refl) as [H5 H6].
    rewrite take_ge in H6 by (rewrite H5, HN, H2, positions_length; lia). by rewrite H6.
Qed.

(** ** int_check_consecutive *)
Lemma check_loop (n lo : nat) (f : nat -> bool) msg body :
  (forall i, lo <= i < lo + n -> body i tt = if f i then Ok tt else Err msg) ->
  ((forall i, lo <= i < lo + n -> f i = true) /\ for_ lo n body tt = Ok tt) \/
  (~ (forall i, lo <= i < lo + n -> f i = true) /\ for_ lo n body tt = Err msg).
Proof.
  revert lo. induction n as [|n IH]; intros lo H; simpl.
  { left. split; [lia|done]. }
  rewrite H by lia. destruct (f lo) eqn:E; simpl.
  - destruct (IH (S lo)) as [[H1 H2]|[H1 H2]].
    + intros i Hi. apply H. lia.
    + left. split; [|done]. intros i Hi. destruct (Nat.eq_dec i lo) as [->|]; [done|]. apply H1. lia.
    + right. split; [|done]. intros Hn. apply H1. intros i Hi. apply Hn. lia.
  - right. split; [|done]. intros Hn. rewrite Hn in E by lia. done.
Qed.

Lemma insert_int_perm x l : insert_int x l ≡ₚ x :: l.
Proof.
  induction l as [|y l IH]; simpl; [done|]. destruct (x <=? y)%Z; [done|]. rewrite IH. apply Permutation_swap.
Qed.
Lemma sort_int_perm l : sort_int l ≡ₚ l.
Proof. induction l as [|x l IH]; simpl; [done|]. by rewrite insert_int_perm, IH. Qed.
Lemma insert_int_sorted x l : Sorted Z.le l -> Sorted Z.le (insert_int x l).
Proof.
  induction l as [|y l IH]; intros H; simpl; [by repeat constructor|].
  destruct (Z.leb_spec x y).
  - constructor; [done|]. by constructor.
  - inversion_clear H as [|? ? Hl Hh]. constructor; [by apply IH|].
    destruct l as [|z l]; simpl; [constructor; lia|]. destruct (x <=? z)%Z; constructor; [lia|]. by inversion Hh.
Qed.
Lemma sort_int_sorted l : Sorted Z.le (sort_int l).
Proof. induction l as [|x l IH]; simpl; [constructor|]. by apply insert_int_sorted. Qed.
Lemma run_sorted (f : nat -> Z) s n : (forall i j, i <= j -> (f i <= f j)%Z) -> Sorted Z.le (map f (seq s n)).
Proof.
  intros Hf. revert s. induction n as [|n IH]; intros s; simpl; [constructor|].
  constructor; [apply IH|]. destruct n; simpl; constructor. apply Hf. lia.
Qed.

Definition zrun (a : Z) (k : nat) : list Z := map (fun i => a + Z.of_nat i)%Z (seq 0 k).
Lemma zrun_length a k : length (zrun a k) = k.
Proof. unfold zrun. by rewrite map_length, seq_length. Qed.
Lemma zrun_snoc a k : zrun a (S k) = zrun a k ++ [(a + Z.of_nat k)%Z].
Proof. unfold zrun. by rewrite seq_S, map_app. Qed.
Lemma zrun_app a k l : zrun a (k + l) = zrun a k ++ zrun (a + Z.of_nat k) l.
Proof.
  induction l as [|l IH]; [by rewrite Nat.add_0_r, app_nil_r|].
  rewrite Nat.add_succ_r, !zrun_snoc, IH, app_assoc. do 2 f_equal. lia.
Qed.

Lemma consecutive_spec (v : list Z) (n : nat) :
  Forall is_int v -> (Z.of_nat n <= INT_MAX)%Z ->
  let oob := filter (fun e => (Z.of_nat n < e)%Z) v in
  (consecutive (Z.of_nat n) oob /\ int_check_consecutive v (Z.of_nat n) (Z.of_nat (length oob)) = Ok tt) \/
  (~ consecutive (Z.of_nat n) oob /\ exists e, int_check_consecutive v (Z.of_nat n) (Z.of_nat (length oob)) = Err e).
Proof.
  intros Hv Hn oob. unfold int_check_consecutive. rewrite r_alloc_Ok. cbn [bind].
  assert (Hok : forall z, (INT_MIN <= z <= INT_MAX)%Z -> int_ok z = Ok z).
  { intros z Hz. unfold int_ok. rewrite (proj2 (Z.leb_le _ _)), (proj2 (Z.leb_le _ _)) by lia. done. }
  rewrite Hok by (unfold INT_MIN; lia). cbn [bind].
  set (K := length oob).
  match goal with |- context [for_ 0 (length v) ?b ?s0] =>
    destruct (for_inv (fun i (st : list Z * nat * Z * Z) =>
      let '(ext, ie, nn, ne) := st in
      exists d rest, nn = (Z.of_nat n + Z.of_nat d)%Z /\ (nn <= INT_MAX)%Z /\
        ne = (Z.of_nat K - Z.of_nat d)%Z /\ length ext = K /\
        take ie ext = map (fun e => e - 1)%Z rest /\ length rest = ie /\
        filter (fun e => (Z.of_nat n < e)%Z) (take i v) ≡ₚ zrun (Z.of_nat n + 1) d ++ rest)
      0 (length v) b s0) as ([[[ext ie] nn] ne] & E & d & rest & H1 & H2 & H3 & H4 & H5 & H6 & H7)
  end.
  - exists 0, []. rewrite replicate_length. split_and!; try done; lia.
  - intros i [[[ext ie] nn] ne] Hi (d & rest & H1 & H2 & H3 & H4 & H5 & H6 & H7).
    destruct (lookup_lt_is_Some_2 v i) as [e He]; [lia|]. rewrite (proj2 (rd_Ok _ _ _) He). cbn [bind].
    rewrite Forall_lookup in Hv. pose proof (Hv _ _ He) as Hi_e. unfold is_int in Hi_e.
    destruct (Z.leb_spec e (Z.of_nat n)) as [Hle|Hgt].
    { eexists. split; [done|]. exists d, rest. split_and!; try done.
      rewrite (take_S_r _ _ _ He), filter_snoc, decide_False, app_nil_r by lia. done. }
    rewrite Hok by (unfold INT_MIN; lia). cbn [bind].
    assert (Hcnt : d + ie < K).
    { assert (length (filter (fun e => (Z.of_nat n < e)%Z) (take i v)) = d + ie) as <-.
      { rewrite H7, app_length, zrun_length. lia. }
      unfold K, oob. rewrite <- (take_drop i v) at 2. rewrite (drop_S _ _ _ He).
      rewrite filter_app, app_length, filter_cons, decide_True by done. simpl. lia. }
    destruct (Z.eqb_spec (e - 1) nn) as [En|En].
    + rewrite Hok by (unfold INT_MIN; lia). cbn [bind]. eexists. split; [done|].
      exists (S d), rest. split_and!; try done; [lia|lia|lia|].
      rewrite (take_S_r _ _ _ He), filter_snoc, decide_True by done. rewrite H7, zrun_snoc.
      replace (Z.of_nat n + 1 + Z.of_nat d)%Z with e by lia. rewrite <- !app_assoc.
      apply Permutation_app_head. apply Permutation_app_comm.
    + rewrite wr_Ok by lia. cbn [bind]. eexists. split; [done|].
      exists d, (rest ++ [e]). split_and!; try done.
      * by rewrite insert_length.
      * rewrite (take_S_r _ _ (e - 1)%Z) by (by rewrite list_lookup_insert by lia).
        rewrite take_insert by lia. by rewrite H5, map_app.
      * rewrite app_length. simpl. lia.
      * rewrite (take_S_r _ _ _ He), filter_snoc, decide_True by done. by rewrite H7, app_assoc.
  - rewrite E. cbn [bind]. rewrite (take_ge v) in H7 by lia. fold oob in H7.
    assert (HK : K = d + ie) by (unfold K; rewrite H7, app_length, zrun_length; lia).
    destruct (Z.eqb_spec ne (Z.of_nat ie)) as [_|?]; [|lia]. cbn [negb].
    destruct (Nat.eqb_spec ie 0) as [E0|E0].
    { left. split; [|done]. destruct rest; [|simpl in *; lia]. rewrite app_nil_r in H7. by exists d. }
    rewrite H5. set (srt := sort_int (map (fun e => e - 1)%Z rest)).
    assert (Hsl : length srt = ie) by (unfold srt; rewrite sort_int_perm, map_length; done).
    assert (Hiff : consecutive (Z.of_nat n) oob <-> srt = zrun nn ie).
    { split.
      - intros [k Hk]. change (oob ≡ₚ zrun (Z.of_nat n + 1) k) in Hk.
        assert (k = d + ie) as ->.
        { apply Permutation_length in Hk. rewrite zrun_length in Hk. fold K in Hk. lia. }
        rewrite H7, zrun_app in Hk. apply Permutation_app_inv_l in Hk.
        apply (Sorted_unique Z.le); [apply sort_int_sorted|apply run_sorted; lia|].
        unfold srt. rewrite sort_int_perm. rewrite Hk. unfold zrun. rewrite map_map.
        rewrite H1.
        erewrite map_ext; [reflexivity|]. intros a. simpl. lia.
      - intros Hs. exists (d + ie). change (oob ≡ₚ zrun (Z.of_nat n + 1) (d + ie)).
        rewrite H7, zrun_app. apply Permutation_app_head.
        assert (Hp : map (fun e => e - 1)%Z rest ≡ₚ zrun nn ie) by (by rewrite <- Hs; unfold srt; rewrite sort_int_perm).
        apply (Permutation_map (fun e => e + 1)%Z) in Hp. rewrite map_map in Hp.
        rewrite (map_ext _ (fun x => x)), map_id in Hp by (intros; lia). rewrite Hp. unfold zrun. rewrite map_map.
        erewrite map_ext; [reflexivity|]. intros a. simpl. lia. }
    match goal with |- context [for_ 0 ie ?b tt] =>
      destruct (check_loop ie 0 (fun i => bool_decide (srt !! i = Some (nn + Z.of_nat i)%Z))
        "Can't convert to locations beyond the end with non-consecutive locations."%string b) as [[Hc ->]|[Hc ->]]
    end.
    + intros i Hi. destruct (lookup_lt_is_Some_2 srt i) as [e He]; [lia|].
      rewrite (proj2 (rd_Ok _ _ _) He). cbn [bind]. rewrite He.
      destruct (Z.eqb_spec e (nn + Z.of_nat i)) as [->|Hne]; cbn [negb].
      * by rewrite bool_decide_eq_true_2.
      * rewrite bool_decide_eq_false_2; [done|]. congruence.
    + left. split; [|done]. apply Hiff. apply list_eq. intros i. destruct (decide (i < ie)) as [Hi|Hi].
      * specialize (Hc i ltac:(lia)). apply bool_decide_eq_true_1 in Hc. rewrite Hc. unfold zrun.
        rewrite list_lookup_fmap, lookup_seq_lt by lia. done.
      * rewrite !lookup_ge_None_2; [done|rewrite zrun_length; lia|lia].
    + right. split; [|eauto]. rewrite Hiff. intros Hs. apply Hc. intros i Hi. apply bool_decide_eq_true_2.
      rewrite Hs. unfold zrun. rewrite list_lookup_fmap, lookup_seq_lt by lia. done.
Qed.

(** ** int_as_location *)
Definition miss_err (opts : location_opts) : bool := match o_missing opts with MissingError => true | _ => false end.
Definition zero_err (opts : location_opts) : bool := match o_zero opts with ZeroError => true | _ => false end.
(** Elements on which the counting loop raises an error. *)
Definition elt_bad (opts : location_opts) (n e : Z) : bool :=
  if (e =? NA_INTEGER)%Z then miss_err opts
  else if (e =? 0)%Z then zero_err opts
  else if (e <? 0)%Z then
    match o_negative opts with
    | NegativeInvert => false
    | NegativeError => true
    | NegativeIgnore => (n <? - e)%Z && match o_oob opts with OobRemove => false | _ => true end
    end
  else (n <? e)%Z && match o_oob opts with OobError => true | _ => false end.
Definition cnt_missing (opts : location_opts) (e : Z) : bool :=
  (e =? NA_INTEGER)%Z && match o_missing opts with MissingRemove => true | _ => false end.
Definition cnt_zero (opts : location_opts) (e : Z) : bool :=
  (e =? 0)%Z && match o_zero opts with ZeroRemove => true | _ => false end.
Definition cnt_oob (n e : Z) : bool := negb (e =? NA_INTEGER)%Z && (n <? Z.abs e)%Z.

Definition count (p : Z -> bool) (xs : list Z) : nat := length (filter (fun e => p e = true) xs).
Lemma count_cons p x xs : count p (x :: xs) = (if p x then 1 else 0) + count p xs.
Proof. unfold count. rewrite filter_cons. destruct (p x); [by rewrite decide_True|by rewrite decide_False]. Qed.

Lemma count_loop_spec data (n : Z) opts a b c :
  Forall is_int data -> (0 <= n)%Z -> ~ (o_negative opts = NegativeInvert /\ has_negative data) ->
  (existsb (elt_bad opts n) data = true /\ exists e, count_loop data n opts (a, b, c) = Err e) \/
  (existsb (elt_bad opts n) data = false /\
   count_loop data n opts (a, b, c) =
     Ok (Some (a + Z.of_nat (count (cnt_missing opts) data), b + Z.of_nat (count (cnt_zero opts) data),
               c + Z.of_nat (count (cnt_oob n) data))%Z)).
Proof.
  intros Hd Hn. revert a b c. induction data as [|e data IH]; intros a b c Hinv.
  { right. split; [done|]. simpl. rewrite !Z.add_0_r. done. }
  inversion_clear Hd as [|? ? He Hd'].
  assert (Hinv' : ~ (o_negative opts = NegativeInvert /\ has_negative data)).
  { intros [H1 (x & H2 & H3)]. apply Hinv. split; [done|]. exists x. split; [by right|done]. }
  assert (Hstep : forall a' b' c',
     elt_bad opts n e = false ->
     a' = (a + (if cnt_missing opts e then 1 else 0))%Z -> b' = (b + (if cnt_zero opts e then 1 else 0))%Z ->
     c' = (c + (if cnt_oob n e then 1 else 0))%Z ->
     count_loop (e :: data) n opts (a, b, c) = count_loop data n opts (a', b', c') ->
     (existsb (elt_bad opts n) (e :: data) = true /\ exists s, count_loop (e :: data) n opts (a, b, c) = Err s) \/
     (existsb (elt_bad opts n) (e :: data) = false /\
      count_loop (e :: data) n opts (a, b, c) =
        Ok (Some (a + Z.of_nat (count (cnt_missing opts) (e :: data)), b + Z.of_nat (count (cnt_zero opts) (e :: data)),
                  c + Z.of_nat (count (cnt_oob n) (e :: data)))%Z))).
  { intros a' b' c' Hb Ea Eb Ec ->. cbn [existsb]. rewrite Hb. cbn [orb].
    destruct (IH Hd' a' b' c' Hinv') as [[H1 H2]|[H1 H2]]; [left; done|right]. split; [done|]. etransitivity; [exact H2|].
    subst a' b' c'.
    rewrite !count_cons. destruct (cnt_missing opts e), (cnt_zero opts e), (cnt_oob n e);
      do 2 f_equal; (f_equal; [f_equal|]); lia. }
  assert (Herr : forall s, elt_bad opts n e = true -> count_loop (e :: data) n opts (a, b, c) = Err s ->
     (existsb (elt_bad opts n) (e :: data) = true /\ exists s, count_loop (e :: data) n opts (a, b, c) = Err s) \/
     (existsb (elt_bad opts n) (e :: data) = false /\
      count_loop (e :: data) n opts (a, b, c) =
        Ok (Some (a + Z.of_nat (count (cnt_missing opts) (e :: data)), b + Z.of_nat (count (cnt_zero opts) (e :: data)),
                  c + Z.of_nat (count (cnt_oob n) (e :: data)))%Z))).
  { intros s Hb ->. left. cbn [existsb]. rewrite Hb. eauto. }
  cbn [count_loop] in Hstep, Herr |- *.
  Local Ltac cl_fin := unfold elt_bad, cnt_missing, cnt_zero, cnt_oob, miss_err, zero_err in *;
    repeat match goal with
    | |- context [(?a =? ?b)%Z] => destruct (Z.eqb_spec a b)
    | |- context [(?a <? ?b)%Z] => destruct (Z.ltb_spec a b)
    | H : ?x = _ |- context [match ?x with _ => _ end] => rewrite H
    | _ => progress cbn [andb negb]
    end; try (unfold NA_INTEGER, INT_MIN in *; lia); try done.
  destruct (Z.eqb_spec e NA_INTEGER) as [Hna|Hna].
  { destruct (o_missing opts) eqn:Em; [eapply Hstep; [| | | |reflexivity]|eapply Hstep; [| | | |reflexivity]|eapply Herr; [|reflexivity]]; cl_fin. }
  destruct (Z.eqb_spec e 0) as [H0|H0].
  { destruct (o_zero opts) eqn:Ez; [eapply Hstep; [| | | |reflexivity]|eapply Herr; [|reflexivity]|eapply Hstep; [| | | |reflexivity]]; cl_fin. }
  destruct (Z.ltb_spec e 0) as [Hneg|Hpos].
  - destruct (o_negative opts) eqn:En.
    + destruct Hinv. split; [done|]. exists e. split; [left|done].
    + eapply Herr; [|done]. cl_fin.
    + unfold c_abs in *. destruct (Z.eqb_spec e INT_MIN) as [->|Hm]; [done|]. cbn [bind] in *.
      destruct (Z.ltb_spec n (Z.abs e)) as [Ho|Ho].
      * destruct (o_oob opts) eqn:Eo; [eapply Herr; [|reflexivity]|eapply Hstep; [| | | |reflexivity]|eapply Herr; [|reflexivity]]; cl_fin.
      * eapply Hstep; [| | | |reflexivity]; cl_fin.
  - destruct (Z.ltb_spec n e) as [Ho|Ho].
    + destruct (o_oob opts) eqn:Eo; [eapply Herr; [|reflexivity]|eapply Hstep; [| | | |reflexivity]|eapply Hstep; [| | | |reflexivity]]; cl_fin.
    + eapply Hstep; [| | | |reflexivity]; cl_fin.
Qed.

Lemma count_loop_invert data (n : Z) opts c :
  Forall is_int data -> (0 <= n)%Z -> o_negative opts = NegativeInvert -> has_negative data ->
  (exists e, count_loop data n opts c = Err e /\ invert_bad opts n data) \/ count_loop data n opts c = Ok None.
Proof.
  intros Hd Hn Hinv. revert c. induction data as [|e data IH]; intros c Hneg.
  { destruct Hneg as (e & H & _). by apply elem_of_nil in H. }
  inversion_clear Hd as [|? ? He Hd'].
  assert (Hmono : invert_bad opts n data -> invert_bad opts n (e :: data)).
  { intros [[H1 H2]|[[H1 H2]|[(x & H1 & H2)|[H1 (x & H2 & H3)]]]].
    - left. split; [done|by right].
    - right; left. split; [done|by right].
    - right; right; left. exists x. split; [by right|done].
    - right; right; right. split; [done|]. exists x. split; [by right|done]. }
  assert (Hstep : forall c', count_loop (e :: data) n opts c = count_loop data n opts c' -> ~ (e <> NA_INTEGER /\ e < 0)%Z ->
    (exists s, count_loop (e :: data) n opts c = Err s /\ invert_bad opts n (e :: data)) \/ count_loop (e :: data) n opts c = Ok None).
  { intros c' Hc Hne. rewrite Hc. destruct (IH Hd' c') as [(s & H1 & H2)|H].
    - destruct Hneg as (x & Hx & Hx'). apply elem_of_cons in Hx as [->|Hx]; [done|]. by exists x.
    - left. exists s. split; [done|by apply Hmono].
    - by right. }
  cbn [count_loop] in Hstep |- *. destruct c as [[a b] c0].
  destruct (Z.eqb_spec e NA_INTEGER) as [->|Hna].
  { destruct (o_missing opts) eqn:Em; try (eapply Hstep; [done|intros [? ?]; done]).
    left. eexists. split; [done|]. left. rewrite Em. split; [done|left]. }
  destruct (Z.eqb_spec e 0) as [->|H0].
  { destruct (o_zero opts) eqn:Em; try (eapply Hstep; [done|lia]).
    left. eexists. split; [done|]. right; left. rewrite Em. split; [done|left]. }
  destruct (Z.ltb_spec e 0) as [Hlt|Hpos]; [rewrite Hinv; by right|].
  destruct (Z.ltb_spec n e) as [Ho|Ho]; [|eapply Hstep; [done|lia]].
  destruct (o_oob opts) eqn:Eo; try (eapply Hstep; [done|lia]).
  left. eexists. split; [done|]. right; right; left. exists e. split; [left|lia].
Qed.

Lemma kept_id {A} (p : A -> bool) (x : named A) : named_ok x -> (forall e, e ∈ x.1 -> p e = true) -> kept p x = x.
Proof.
  intros Hnm H. destruct x as [v ns]. unfold kept. cbn [fst snd] in *.
  assert (Hf : filter (fun e => p e = true) v = v).
  { clear Hnm. induction v as [|e v IH]; [done|]. rewrite filter_cons, decide_True by (apply H; left).
    f_equal. apply IH. intros; apply H; by right. }
  rewrite Hf. f_equal. destruct ns as [ns|]; [|done]. simpl. f_equal.
  assert (positions p v = seq 0 (length v)) as ->.
  { unfold positions. clear Hf. assert (Hall : forall i, i ∈ seq 0 (length v) -> match v !! i with Some e => p e | None => false end = true).
    { intros i Hi. apply elem_of_seq in Hi. destruct (lookup_lt_is_Some_2 v i) as [e He]; [lia|]. rewrite He.
      apply H. by eapply elem_of_list_lookup_2. }
    revert Hall. generalize (seq 0 (length v)). intros l. induction l as [|i l IH]; intros Hall; [done|].
    rewrite filter_cons, decide_True by (apply Hall; left). f_equal. apply IH. intros; apply Hall; by right. }
  unfold named_ok in Hnm. simpl in Hnm. rewrite <- Hnm. clear.
  induction ns as [|s ns IH] using rev_ind; [done|]. rewrite app_length. simpl. rewrite seq_app, omap_app. f_equal.
  - rewrite <- IH at 2. apply omap_ext_in. intros k Hk. apply elem_of_seq in Hk. by rewrite lookup_app_l by lia.
  - simpl. by rewrite list_lookup_middle.
Qed.

Lemma positions_kept {A} (p q : A -> bool) v :
  omap (fun k => positions p v !! k) (positions q (filter (fun e => p e = true) v)) = positions (fun e => p e && q e) v.
Proof.
  induction v as [|e v IH] using rev_ind; [done|].
  rewrite filter_snoc, positions_snoc, positions_snoc.
  destruct (decide (p e = true)) as [Hp|Hp].
  - rewrite positions_snoc, omap_app, Hp. cbn [andb]. f_equal.
    + rewrite <- IH. apply omap_ext_in. intros k Hk. apply positions_lt in Hk.
      rewrite lookup_app_l; [done|]. rewrite positions_length. done.
    + destruct (q e); [|done]. simpl. rewrite <- positions_length. by rewrite list_lookup_middle.
  - apply not_true_is_false in Hp. rewrite Hp. cbn [andb]. rewrite !app_nil_r. exact IH.
Qed.
Lemma omap_omap_lookup {A} (ns : list A) (ks js : list nat) :
  (forall k, k ∈ ks -> k < length ns) ->
  omap (fun j => omap (fun k => ns !! k) ks !! j) js = omap (fun k => ns !! k) (omap (fun j => ks !! j) js).
Proof.
  intros Hk. assert (Hl : forall j, omap (fun k => ns !! k) ks !! j = ks !! j ≫= fun k => ns !! k).
  { revert Hk. induction ks as [|k ks IH]; intros Hk j; [done|].
    destruct (lookup_lt_is_Some_2 ns k) as [x Hx]; [apply Hk; left|].
    change (omap (fun k => ns !! k) (k :: ks)) with (match ns !! k with Some y => y :: omap (fun k => ns !! k) ks | None => omap (fun k => ns !! k) ks end).
    rewrite Hx. destruct j as [|j]; simpl; [done|]. apply IH. intros; apply Hk; by right. }
  induction js as [|j js IH]; [done|].
  change (omap (fun j => omap (fun k => ns !! k) ks !! j) (j :: js)) with
    (match omap (fun k => ns !! k) ks !! j with Some y => y :: omap (fun j => omap (fun k => ns !! k) ks !! j) js
     | None => omap (fun j => omap (fun k => ns !! k) ks !! j) js end).
  rewrite IH, Hl.
  change (omap (fun j => ks !! j) (j :: js)) with (match ks !! j with Some y => y :: omap (fun j => ks !! j) js | None => omap (fun j => ks !! j) js end).
  destruct (ks !! j) as [k|] eqn:E; simpl; [|done].
  destruct (lookup_lt_is_Some_2 ns k) as [x Hx]; [apply Hk; by eapply elem_of_list_lookup_2|]. by rewrite Hx.
Qed.
Lemma kept_kept {A} (p q : A -> bool) (x : named A) : named_ok x -> kept q (kept p x) = kept (fun e => p e && q e) x.
Proof.
  intros Hnm. destruct x as [v ns]. unfold kept. cbn [fst snd]. f_equal.
  - rewrite list_filter_filter. apply filter_ext_in. intros e _. rewrite andb_true_iff. tauto.
  - destruct ns as [ns|]; [|done]. simpl. f_equal. unfold named_ok in Hnm. simpl in Hnm.
    rewrite omap_omap_lookup by (intros k Hk; apply positions_lt in Hk; lia).
    by rewrite positions_kept.
Qed.
Lemma kept_ext {A} (p q : A -> bool) (x : named A) : (forall e, e ∈ x.1 -> p e = q e) -> kept p x = kept q x.
Proof.
  intros H. unfold kept. f_equal.
  - apply filter_ext_in. intros e He. by rewrite H.
  - by rewrite (positions_ext p q) by done.
Qed.
Lemma count_split (p q : Z -> bool) xs : (forall e, e ∈ xs -> q e = negb (p e)) ->
  Z.of_nat (length xs) = (Z.of_nat (count p xs) + Z.of_nat (count q xs))%Z.
Proof.
  induction xs as [|e xs IH]; intros H; [done|]. rewrite !count_cons, (H e) by left.
  cbn [length]. rewrite Nat2Z.inj_succ, IH by (intros; apply H; by right). destruct (p e); simpl; lia.
Qed.

Lemma count_filter (p k : Z -> bool) xs : (forall e, e ∈ xs -> p e = true -> k e = true) ->
  count p (filter (fun e => k e = true) xs) = count p xs.
Proof.
  induction xs as [|e xs IH]; intros H; [done|]. rewrite filter_cons, count_cons.
  assert (IH' := IH ltac:(intros; apply H; [by right|done])).
  specialize (H e ltac:(left)).
  destruct (decide (k e = true)) as [Hk|Hk]; [rewrite count_cons; lia|].
  destruct (p e); [by destruct Hk; apply H|]. lia.
Qed.
Lemma count_pos (p : Z -> bool) xs : count p xs = 0 -> forall e, e ∈ xs -> p e = false.
Proof.
  intros H e He. destruct (p e) eqn:E; [|done]. unfold count in H. apply nil_length_inv in H.
  assert (Hin : e ∈ filter (fun e => p e = true) xs) by (by apply elem_of_list_filter). rewrite H in Hin.
  by apply elem_of_nil in Hin.
Qed.
Lemma positions_in_length {A} (p : A -> bool) xs : length (positions p xs) = length (filter (fun e => p e = true) xs).
Proof. apply positions_length. Qed.
Lemma omap_names_length ns ks (m : nat) : length ns = m -> (forall k, k ∈ ks -> k < m) ->
  length (omap (fun k => (ns : list rstr) !! k) ks) = length ks.
Proof.
  intros <-. induction ks as [|k ks IH]; intros H; [done|].
  destruct (lookup_lt_is_Some_2 ns k) as [x Hx]; [apply H; left|].
  change (omap (fun k => ns !! k) (k :: ks)) with (match ns !! k with Some y => y :: omap (fun k => ns !! k) ks | None => omap (fun k => ns !! k) ks end).
  rewrite Hx. simpl. f_equal. apply IH. intros; apply H; by right.
Qed.
Lemma kept_named_ok {A} (p : A -> bool) (x : named A) : named_ok x -> named_ok (kept p x).
Proof.
  intros H. destruct x as [v [ns|]]; [|done]. unfold named_ok, kept in *. cbn [fst snd names_at] in *.
  rewrite (omap_names_length _ _ (length v)) by (done || apply positions_lt). apply positions_length.
Qed.

Lemma filter_step (x : named Z) (v : Z) (b : bool) (m : Z) : named_ok x ->
  m = Z.of_nat (count (fun e => (e =? v)%Z && b) x.1) ->
  (if (0 <? m)%Z then int_filter x m v else Ok x) = Ok (kept (fun e => negb ((e =? v)%Z && b)) x).
Proof.
  intros Hnm ->. destruct (Z.ltb_spec 0 (Z.of_nat (count (fun e => (e =? v)%Z && b) x.1))) as [Hlt|Hge].
  - destruct b.
    + unfold int_filter.
      rewrite (count_split (fun e => (e =? v)%Z && true) (fun e => negb (e =? v)%Z)) by (intros; by rewrite andb_true_r).
      rewrite Z.add_simpl_l. rewrite (copy_kept_spec _ (fun e => negb (e =? v)%Z)); [|done..].
      f_equal. apply kept_ext. intros. by rewrite andb_true_r.
    + exfalso. assert (count (fun e => (e =? v)%Z && false) x.1 = 0); [|lia].
      unfold count. clear. induction x.1 as [|e l IH]; [done|]. rewrite filter_cons, decide_False; [done|].
      rewrite andb_false_r. done.
  - rewrite kept_id; [done|done|]. intros e He. rewrite (count_pos (fun e => (e =? v)%Z && b) x.1); [done|lia|done].
Qed.

Lemma elt_bad_int_bad opts n xs : (0 <= n)%Z -> ~ (o_negative opts = NegativeInvert /\ has_negative xs) ->
  existsb (elt_bad opts n) xs = true -> int_bad opts n xs.
Proof.
  intros Hn Hinv H. apply existsb_exists in H as (e & He & Hb). apply elem_of_list_In in He.
  unfold elt_bad, miss_err, zero_err in Hb. unfold int_bad.
  destruct (Z.eqb_spec e NA_INTEGER) as [->|Hna].
  { left. by destruct (o_missing opts). }
  destruct (Z.eqb_spec e 0) as [->|H0].
  { right; left. by destruct (o_zero opts). }
  destruct (Z.ltb_spec e 0).
  - destruct (o_negative opts) eqn:En; [done|..].
    + right; right; left. split; [done|]. by exists e.
    + apply andb_true_iff in Hb as [Ho Hb]. apply Z.ltb_lt in Ho.
      destruct (o_oob opts); [|done|].
      * right; right; right; left. split; [done|]. exists e. split; [done|]. split; [done|lia].
      * right; right; right; right. split; [done|]. left. exists e. split; [done|]. split; [split; [done|lia]|done].
  - apply andb_true_iff in Hb as [Ho Hb]. apply Z.ltb_lt in Ho. destruct (o_oob opts); [|done..].
    right; right; right; left. split; [done|]. exists e. split; [done|]. split; [done|lia].
Qed.
Lemma not_elt_bad opts n xs : (0 <= n)%Z -> ~ (o_negative opts = NegativeInvert /\ has_negative xs) ->
  existsb (elt_bad opts n) xs = false ->
  int_bad opts n xs <-> o_oob opts = OobExtend /\ ~ consecutive n (filter (fun e => (n < e)%Z) xs).
Proof.
  intros Hn Hinv H.
  assert (Hb : forall e, e ∈ xs -> elt_bad opts n e = false).
  { intros e He. destruct (elt_bad opts n e) eqn:E; [|done]. rewrite <- H. symmetry. apply existsb_exists.
    exists e. split; [by apply elem_of_list_In|done]. }
  split; [|unfold int_bad; tauto].
  intros [[H1 H2]|[[H1 H2]|[[H1 (e & He & H2 & H3)]|[[H1 (e & He & H2 & H3)]|[H1 [(e & He & [H2 H3] & H4)|H2]]]]]]; [exfalso..|done].
  - specialize (Hb _ H2). unfold elt_bad, miss_err in Hb. by rewrite H1 in Hb.
  - specialize (Hb _ H2). unfold elt_bad, zero_err in Hb. by rewrite H1 in Hb.
  - specialize (Hb _ He). unfold elt_bad in Hb. destruct (Z.eqb_spec e NA_INTEGER); [done|].
    destruct (Z.eqb_spec e 0); [lia|]. destruct (Z.ltb_spec e 0); [|lia]. by rewrite H1 in Hb.
  - specialize (Hb _ He). unfold elt_bad in Hb. destruct (Z.eqb_spec e NA_INTEGER); [done|].
    destruct (Z.eqb_spec e 0); [lia|]. destruct (Z.ltb_spec e 0).
    + destruct (o_negative opts); [apply Hinv; split; [done|by exists e]|done|]. rewrite H1 in Hb.
      destruct (Z.ltb_spec n (- e)); [done|lia].
    + rewrite H1 in Hb. destruct (Z.ltb_spec n e); [done|lia].
  - specialize (Hb _ He). unfold elt_bad in Hb. destruct (Z.eqb_spec e NA_INTEGER); [done|].
    destruct (Z.eqb_spec e 0); [lia|]. destruct (Z.ltb_spec e 0); [|lia].
    destruct (o_negative opts); [apply Hinv; split; [done|by exists e]|done|]. rewrite H1 in Hb.
    destruct (Z.ltb_spec n (- e)); [done|lia].
Qed.

Lemma int_as_location_spec (x : named Z) (n : nat) opts :
  Forall is_int x.1 -> named_ok x -> (Z.of_nat n <= INT_MAX)%Z ->
  ~ (o_negative opts = NegativeInvert /\ has_negative x.1) ->
  (int_bad opts (Z.of_nat n) x.1 /\ exists e, int_as_location x (Z.of_nat n) opts = Err e) \/
  (~ int_bad opts (Z.of_nat n) x.1 /\
    (~ abs_of_na opts (Z.of_nat n) x.1 -> int_as_location x (Z.of_nat n) opts = Ok (kept (int_keep opts (Z.of_nat n)) x))).
Proof.
  intros Hx Hnm Hn Hinv. unfold int_as_location.
  destruct (count_loop_spec x.1 (Z.of_nat n) opts 0 0 0 Hx ltac:(lia) Hinv) as [[Hb (e & ->)]|[Hb ->]].
  { left. split; [|by exists e]. apply elt_bad_int_bad; [lia|done..]. }
  cbn [bind]. rewrite !Z.add_0_l.
  pose proof (not_elt_bad opts (Z.of_nat n) x.1 ltac:(lia) Hinv Hb) as Hbad.
  assert (Hb' : forall e, e ∈ x.1 -> elt_bad opts (Z.of_nat n) e = false).
  { intros e He. destruct (elt_bad opts (Z.of_nat n) e) eqn:E; [|done]. rewrite <- Hb. symmetry. apply existsb_exists.
    exists e. split; [by apply elem_of_list_In|done]. }
  rewrite (filter_step x NA_INTEGER (match o_missing opts with MissingRemove => true | _ => false end)) by done.
  cbn [bind].
  set (k1 := fun e => negb ((e =? NA_INTEGER)%Z && match o_missing opts with MissingRemove => true | _ => false end)).
  rewrite (filter_step (kept k1 x) 0 (match o_zero opts with ZeroRemove => true | _ => false end)).
  2: by apply kept_named_ok.
  2:{ unfold kept. cbn [fst]. f_equal. unfold cnt_zero. symmetry. apply (count_filter _ k1). intros e _ He. unfold k1.
      destruct (Z.eqb_spec e NA_INTEGER) as [->|]; [done|done]. }
  cbn [bind]. rewrite kept_kept by done.
  set (k2 := fun e => k1 e && negb ((e =? 0)%Z && match o_zero opts with ZeroRemove => true | _ => false end)).
  assert (Hk2 : forall e, e ∈ x.1 -> cnt_oob (Z.of_nat n) e = true -> k2 e = true).
  { intros e _. unfold cnt_oob, k2, k1. destruct (Z.eqb_spec e NA_INTEGER); [done|]. cbn [negb andb]. rewrite Z.ltb_lt.
    intros. destruct (Z.eqb_spec e 0); [lia|done]. }
  destruct (Z.ltb_spec 0 (Z.of_nat (count (cnt_oob (Z.of_nat n)) x.1))) as [Hoob|Hoob].
  - destruct (o_oob opts) eqn:Eo.
    + exfalso. unfold count in Hoob. destruct (filter (fun e => cnt_oob (Z.of_nat n) e = true) x.1) as [|e l] eqn:Ef; [simpl in Hoob; lia|].
      assert (He : e ∈ filter (fun e => cnt_oob (Z.of_nat n) e = true) x.1) by (rewrite Ef; left).
      apply elem_of_list_filter in He as [H1 H2]. specialize (Hb' e H2). revert H1 Hb'.
      unfold cnt_oob, elt_bad. rewrite Eo. destruct (Z.eqb_spec e NA_INTEGER); [done|]. cbn [negb andb]. rewrite Z.ltb_lt. intros H1.
      destruct (Z.eqb_spec e 0); [lia|]. destruct (Z.ltb_spec e 0).
      * destruct (o_negative opts); [exfalso; apply Hinv; split; [done|by exists e]|done|].
        destruct (Z.ltb_spec (Z.of_nat n) (- e)); [done|lia].
      * destruct (Z.ltb_spec (Z.of_nat n) e); [done|lia].
    + right. split; [rewrite Hbad; intros [? _]; done|]. intros Hna. unfold int_filter_oob.
      assert (Hc : count (cnt_oob (Z.of_nat n)) (kept k2 x).1 = count (cnt_oob (Z.of_nat n)) x.1).
      { apply (count_filter _ k2). done. }
      rewrite <- Hc.
      rewrite (count_split (cnt_oob (Z.of_nat n)) (fun e => negb (cnt_oob (Z.of_nat n) e))) by done.
      rewrite Z.add_simpl_l. rewrite (copy_kept_spec _ (fun e => negb (cnt_oob (Z.of_nat n) e))); [|by apply kept_named_ok| |done].
      * rewrite kept_kept by done. f_equal. apply kept_ext. intros e He. unfold k2, k1, cnt_oob, int_keep. rewrite Eo.
        destruct (Z.eqb_spec e NA_INTEGER) as [->|]; [by destruct (o_missing opts)|]. cbn [andb negb].
        destruct (Z.eqb_spec e 0) as [->|].
        -- change (Z.abs 0) with 0%Z. destruct (Z.ltb_spec (Z.of_nat n) 0); [lia|]. by destruct (o_zero opts).
        -- cbn [andb negb]. by destruct (Z.of_nat n <? Z.abs e)%Z.
      * intros e He. unfold kept in He. cbn [fst] in He. apply elem_of_list_filter in He as [Hk He].
        unfold c_abs. destruct (Z.eqb_spec e INT_MIN) as [->|Hm].
        -- exfalso. unfold k2, k1 in Hk. destruct (o_missing opts) eqn:Em; [|done|].
           ++ apply Hna. split_and!; [done..|]. unfold count in Hoob.
              destruct (filter (fun e => cnt_oob (Z.of_nat n) e = true) x.1) as [|e l] eqn:Ef; [simpl in Hoob; lia|].
              assert (He' : e ∈ filter (fun e => cnt_oob (Z.of_nat n) e = true) x.1) by (rewrite Ef; left).
              apply elem_of_list_filter in He' as [H1 H2]. exists e. split; [done|]. unfold cnt_oob in H1.
              apply andb_true_iff in H1 as [H1 H3]. split; [|by apply Z.ltb_lt in H3].
              intros ->. done.
           ++ specialize (Hb' _ He). unfold elt_bad, miss_err in Hb'. by rewrite Em in Hb'.
        -- cbn [bind]. f_equal. unfold cnt_oob, NA_INTEGER. destruct (Z.eqb_spec e INT_MIN); [done|]. cbn [negb andb].
           destruct (Z.leb_spec (Z.abs e) (Z.of_nat n)), (Z.ltb_spec (Z.of_nat n) (Z.abs e)); try done; lia.
    + assert (Hf : filter (fun e => (Z.of_nat n < e)%Z) (kept k2 x).1 = filter (fun e => (Z.of_nat n < e)%Z) x.1).
      { unfold kept. cbn [fst]. rewrite list_filter_filter. apply filter_ext_in. intros e He. split; [tauto|]. intros H1.
        split; [done|]. apply Hk2; [done|]. unfold cnt_oob. destruct (Z.eqb_spec e NA_INTEGER) as [->|]; [unfold NA_INTEGER, INT_MIN in *; lia|].
        apply Z.ltb_lt. lia. }
      assert (Hc : count (cnt_oob (Z.of_nat n)) x.1 = length (filter (fun e => (Z.of_nat n < e)%Z) (kept k2 x).1)).
      { rewrite Hf. unfold count. f_equal. apply filter_ext_in. intros e He. unfold cnt_oob. specialize (Hb' e He). revert Hb'.
        unfold elt_bad. rewrite Eo. destruct (Z.eqb_spec e NA_INTEGER) as [->|]; cbn [negb andb].
        - intros _. split; [done|]. unfold NA_INTEGER, INT_MIN. lia.
        - rewrite Z.ltb_lt. destruct (Z.eqb_spec e 0); [lia|]. destruct (Z.ltb_spec e 0); [|lia].
          destruct (o_negative opts); [exfalso; apply Hinv; split; [done|by exists e]|done|].
          destruct (Z.ltb_spec (Z.of_nat n) (- e)); [done|lia]. }
      rewrite Hc. destruct (consecutive_spec (kept k2 x).1 n) as [[H1 ->]|[H1 (s & ->)]]; [|done|..]; cbn [bind].
      * unfold kept. cbn [fst]. apply Forall_forall. intros e He. apply elem_of_list_filter in He as [_ He].
        by eapply (proj1 (Forall_forall _ _) Hx).
      * right. split.
        -- rewrite Hbad. rewrite Hf in H1. intros [_ ?]. done.
        -- intros _. f_equal. apply kept_ext. intros e He. unfold k2, k1, int_keep. rewrite Eo.
           destruct (Z.eqb_spec e NA_INTEGER) as [->|]; [by destruct (o_missing opts)|]. cbn [andb negb].
           destruct (Z.eqb_spec e 0) as [->|]; [by destruct (o_zero opts)|]. by destruct (Z.of_nat n <? Z.abs e)%Z.
      * left. split; [|by exists s]. rewrite Hbad, <- Hf. done.
  - assert (H0 : count (cnt_oob (Z.of_nat n)) x.1 = 0) by lia.
    assert (Hno : forall e, e ∈ x.1 -> cnt_oob (Z.of_nat n) e = false) by (by apply count_pos).
    right. split.
    + rewrite Hbad. intros [_ H]. apply H. exists 0. simpl.
      assert (filter (fun e => (Z.of_nat n < e)%Z) x.1 = []) as ->; [|done].
      clear - Hno. induction x.1 as [|e l IH]; [done|]. rewrite filter_cons, decide_False; [apply IH; intros; apply Hno; by right|].
      specialize (Hno e ltac:(left)). unfold cnt_oob in Hno. destruct (Z.eqb_spec e NA_INTEGER) as [->|]; [unfold NA_INTEGER, INT_MIN; lia|].
      cbn [negb andb] in Hno. apply Z.ltb_ge in Hno. lia.
    + intros _. f_equal. apply kept_ext. intros e He. specialize (Hno e He). unfold cnt_oob in Hno. unfold k2, k1, int_keep.
      destruct (Z.eqb_spec e NA_INTEGER) as [E|E]; [rewrite E; by destruct (o_missing opts)|]. cbn [andb negb] in *.
      destruct (Z.eqb_spec e 0) as [E0|E0]; [by destruct (o_zero opts)|]. by rewrite Hno.
Qed.

(** ** Character subscripts *)
Lemma match_first_spec (nms : list rstr) s k :
  (s ∉ nms /\ match_first nms s k = NA_INTEGER) \/
  (exists i, match_first nms s k = (k + Z.of_nat i)%Z /\ nms !! i = Some s /\ forall j, j < i -> nms !! j <> Some s).
Proof.
  revert k. induction nms as [|nm nms IH]; intros k; simpl.
  { left. split; [apply not_elem_of_nil|done]. }
  destruct (str_ptr_eqb nm s) eqn:E.
  - apply str_ptr_eqb_spec in E as ->. right. exists 0. split; [lia|]. split; [done|]. lia.
  - assert (Hne : nm <> s) by (intros ->; by rewrite str_ptr_eqb_refl in E).
    destruct (IH (k + 1)%Z) as [[H1 H2]|(i & H1 & H2 & H3)].
    + left. split; [|done]. rewrite not_elem_of_cons. split; [congruence|done].
    + right. exists (S i). split; [rewrite H1; lia|]. split; [done|]. intros [|j] Hj; simpl; [congruence|]. apply H3. lia.
Qed.
Lemma match_first_located (nms : list rstr) s : s ∈ nms -> first_name nms s (match_first nms s 1).
Proof.
  intros Hs. destruct (match_first_spec nms s 1) as [[H _]|(i & -> & H2 & H3)]; [done|].
  replace (Z.to_nat (1 + Z.of_nat i - 1)) with i by lia. unfold first_name.
  replace (Z.to_nat (1 + Z.of_nat i - 1)) with i by lia. split; [lia|done].
Qed.
Definition chr_loc (nms : list rstr) (s : rstr) : Z :=
  match s with None => NA_INTEGER | Some _ => match_first nms s 1 end.
Definition chr_rm (opts : location_opts) (xs : list rstr) : bool :=
  match o_missing opts with MissingRemove => existsb (fun s => str_ptr_eqb s None) xs | _ => false end.

Lemma chr_loop_spec nms xs opts r :
  (chr_bad opts nms xs /\ exists e, chr_loop xs (map (fun s => match_first nms s 1) xs) opts r = Err e) \/
  (~ chr_bad opts nms xs /\
   chr_loop xs (map (fun s => match_first nms s 1) xs) opts r = Ok (map (chr_loc nms) xs, r || chr_rm opts xs)).
Proof.
  assert (Hmono : forall s xs, chr_bad opts nms xs -> chr_bad opts nms (s :: xs)).
  { intros s l [H|[[H1 H2]|(t & H1 & H2 & H3)]].
    - left. by right.
    - right; left. split; [done|by right].
    - right; right. exists t. split; [by right|done]. }
  assert (Hno : forall s xs, ~ chr_bad opts nms xs -> s <> Some [] -> ~ (o_missing opts = MissingError /\ s = None) ->
     (s <> None -> s ∈ nms) -> ~ chr_bad opts nms (s :: xs)).
  { intros s l H H1 H2 H3 [Hb|[[Hb1 Hb2]|(t & Hb1 & Hb2 & Hb3)]].
    - apply elem_of_cons in Hb as [Hb|Hb]; [by subst|]. apply H. by left.
    - apply elem_of_cons in Hb2 as [Hb|Hb]; [apply H2; done|]. apply H. right; by left.
    - apply elem_of_cons in Hb1 as [Hb|Hb]; [subst; apply Hb3; by apply H3|]. apply H. right; right. by exists t. }
  revert r. induction xs as [|s xs IH]; intros r.
  { right. split.
    - intros [Hb|[[_ Hb]|(t & Hb & _)]]; by apply elem_of_nil in Hb.
    - simpl. unfold chr_rm. simpl. by destruct (o_missing opts); rewrite orb_false_r. }
  cbn [map chr_loop].
  destruct (str_ptr_eqb s (Some [])) eqn:E1.
  { apply str_ptr_eqb_spec in E1 as ->. left. split; [left; left|by eexists]. }
  assert (Hn1 : s <> Some []) by (intros ->; by rewrite str_ptr_eqb_refl in E1).
  destruct (str_ptr_eqb s None) eqn:E2.
  { apply str_ptr_eqb_spec in E2 as ->. destruct (o_missing opts) eqn:Em.
    - destruct (IH r) as [[Hb (e & ->)]|[Hb ->]]; cbn [bind]; [left; split; [by apply Hmono|by eexists]|right].
      split; [apply Hno; [done|done|by intros []|done]|]. cbn [fst snd]. do 2 f_equal. unfold chr_rm. by rewrite Em.
    - destruct (IH true) as [[Hb (e & ->)]|[Hb ->]]; cbn [bind]; [left; split; [by apply Hmono|by eexists]|right].
      split; [apply Hno; [done|done|by intros []|done]|]. cbn [fst snd]. do 2 f_equal. unfold chr_rm. rewrite Em.
      simpl. by rewrite orb_true_r.
    - left. split; [|by eexists]. right; left. split; [done|left]. }
  assert (Hn2 : s <> None) by (intros ->; by rewrite str_ptr_eqb_refl in E2).
  destruct (match_first_spec nms s 1) as [[H1 H2]|(i & H1 & H2 & _)].
  { rewrite H2, Z.eqb_refl. left. split; [|by eexists]. right; right. exists s. split; [left|done]. }
  rewrite H1. destruct (Z.eqb_spec (1 + Z.of_nat i) NA_INTEGER) as [Hna|_]; [unfold NA_INTEGER, INT_MIN in Hna; lia|].
  destruct (IH r) as [[Hb (e & ->)]|[Hb ->]]; cbn [bind]; [left; split; [by apply Hmono|by eexists]|right].
  split.
  { apply Hno; [done|done|by intros [_ ?]|]. intros _. by eapply elem_of_list_lookup_2. }
  cbn [fst snd]. do 2 f_equal; [|].
  - cbn [map]. f_equal. destruct s; [|done]. unfold chr_loc. done.
  - unfold chr_rm. destruct (o_missing opts); [done| |done]. cbn [existsb]. by rewrite E2.
Qed.

Lemma positions_map {A B} (f : A -> B) (p : B -> bool) xs : positions p (map f xs) = positions (fun x => p (f x)) xs.
Proof.
  unfold positions. rewrite map_length. apply filter_ext_in. intros i _. rewrite list_lookup_fmap. by destruct (xs !! i).
Qed.
Lemma omap_lookup_map {A B} (f : A -> B) xs ks : omap (fun k => map f xs !! k) ks = map f (omap (fun k => xs !! k) ks).
Proof.
  induction ks as [|k ks IH]; [done|].
  change (match map f xs !! k with Some y => y :: omap (fun k => map f xs !! k) ks | None => omap (fun k => map f xs !! k) ks end
    = map f (match xs !! k with Some y => y :: omap (fun k => xs !! k) ks | None => omap (fun k => xs !! k) ks end)).
  rewrite list_lookup_fmap, IH. by destruct (xs !! k).
Qed.

Lemma chr_as_location_spec (x : named rstr) nms opts :
  named_ok x -> (Z.of_nat (length x.1) <= INT_MAX)%Z ->
  (chr_bad opts nms x.1 /\ exists e, chr_as_location x (Some nms) opts = Err e) \/
  (~ chr_bad opts nms x.1 /\
   chr_as_location x (Some nms) opts =
     Ok (map (chr_loc nms) (kept (chr_keep opts) x).1, (kept (chr_keep opts) x).2)).
Proof.
  intros Hnm Hlen. unfold chr_as_location.
  destruct (chr_loop_spec nms x.1 opts false) as [[Hb (e & ->)]|[Hb ->]]; [left; by eauto|right]. split; [done|].
  cbn [bind orb].
  destruct (chr_rm opts x.1) eqn:Er.
  2:{ rewrite kept_id; [done|done|]. intros s Hs. unfold chr_keep. destruct s as [s|]; [done|].
      unfold chr_rm in Er. destruct (o_missing opts); [done| |done].
      assert (existsb (fun s => str_ptr_eqb s None) x.1 = true); [|congruence].
      apply existsb_exists. exists None. split; [by apply elem_of_list_In|done]. }
  unfold chr_rm in Er. destruct (o_missing opts) eqn:Em; [done| |done].
  set (p := map (chr_loc nms) x.1).
  set (nm := map (fun e => b2i (negb (e =? NA_INTEGER)%Z)) p).
  assert (Hp : length p = length x.1) by (unfold p; apply map_length).
  assert (Hnmlen : length nm = length p) by (unfold nm; apply map_length).
  destruct (lgl_as_location_spec (nm, None) (length p) default_opts) as [_ H].
  { cbn [fst]. unfold nm. apply Forall_fmap, Forall_forall. intros e _. simpl.
    destruct (e =? NA_INTEGER)%Z; simpl; unfold lgl_wf; auto. }
  { done. }
  { lia. }
  destruct (H ltac:(left; done)) as [_ ->]; [|by intros [? _]].
  clear H. cbn [bind].
  unfold lgl_recycled. cbn [fst snd]. rewrite bool_decide_eq_true_2 by done.
  unfold lgl_locations. cbn [fst snd names_at o_missing default_opts].
  set (ks := positions (lgl_selected MissingPropagate) nm).
  assert (Hsel : forall s, s ∈ x.1 -> (lgl_selected MissingPropagate (b2i (negb (chr_loc nms s =? NA_INTEGER)%Z))) = chr_keep opts s).
  { intros s Hs. unfold chr_keep. rewrite Em. destruct s as [s|]; [|done]. unfold chr_loc.
    destruct (match_first_spec nms (Some s) 1) as [[H1 _]|(i & -> & _ & _)].
    - exfalso. apply Hb. right; right. by exists (Some s).
    - destruct (Z.eqb_spec (1 + Z.of_nat i) NA_INTEGER) as [Hna|_]; [unfold NA_INTEGER, INT_MIN in Hna; lia|done]. }
  assert (Hks : ks = positions (chr_keep opts) x.1).
  { unfold ks, nm, p. rewrite !positions_map. by apply positions_ext. }
  assert (Hkn : forall k, k ∈ ks -> nm !! k = Some 1%Z /\ k < length x.1).
  { intros k Hk. rewrite Hks in Hk. destruct (positions_lookup _ _ _ Hk) as (s & Hs & Hc).
    split; [|by eapply lookup_lt_Some]. unfold nm, p. rewrite !list_lookup_fmap, Hs. simpl. f_equal.
    rewrite <- Hsel in Hc by (by eapply elem_of_list_lookup_2). by destruct (chr_loc nms s =? NA_INTEGER)%Z. }
  set (locs := map (fun k => match nm !! k with Some 1%Z => (Z.of_nat k + 1)%Z | _ => NA_INTEGER end) ks).
  assert (Hlocs : locs = map (fun k => Z.of_nat k + 1)%Z ks).
  { unfold locs. apply map_ext_in. intros k Hk. apply elem_of_list_In in Hk. destruct (Hkn k Hk) as [-> _]. done. }
  assert (Hpick : forall (B : Type) (na : B) (ys : list B), length ys = length x.1 ->
    slice_base na ys (SLoc locs) = Ok (omap (fun k => ys !! k) ks)).
  { intros B na ys Hys. rewrite slice_base_spec.
    2:{ split; [|done]. simpl. rewrite Hlocs. apply Forall_fmap, Forall_forall. intros k Hk. simpl. destruct (Hkn k Hk) as [_ ?].
        right. lia. }
    f_equal. simpl. rewrite Hlocs, map_map.
    assert (Hk : forall k, k ∈ ks -> k < length ys) by (intros k Hk; destruct (Hkn k Hk); lia).
    revert Hk. generalize ks. intros l. induction l as [|k l IH]; intros Hk; [done|].
    destruct (lookup_lt_is_Some_2 ys k) as [y Hy]; [apply Hk; left|].
    change (omap (fun k => ys !! k) (k :: l)) with (match ys !! k with Some y => y :: omap (fun k => ys !! k) l | None => omap (fun k => ys !! k) l end).
    rewrite Hy. cbn [map]. f_equal; [|apply IH; intros; apply Hk; by right].
    unfold pick. destruct (Z.eqb_spec (Z.of_nat k + 1) NA_INTEGER) as [Hna|_]; [unfold NA_INTEGER, INT_MIN in Hna; lia|].
    replace (Z.to_nat (Z.of_nat k + 1 - 1)) with k by lia. by rewrite nth_lookup, Hy. }
  cbn [fst]. rewrite Hpick by done. cbn [bind].
  assert (Hout : omap (fun k => p !! k) ks = map (chr_loc nms) (kept (chr_keep opts) x).1).
  { unfold p. rewrite omap_lookup_map, Hks, positions_filter. done. }
  rewrite Hout. unfold kept at 3. cbn [snd]. unfold named_ok in Hnm. destruct x.2 as [ns|] eqn:En; cbn [bind names_at]; [|done].
  rewrite Hpick by done. cbn [bind]. by rewrite <- Hks.
Qed.

(** ** Double subscripts *)
Lemma inf_out_of_range x v : dbl_wf x -> dbl_sem x = SNum v -> isfinite x = false ->
  (v <= INT_MIN * dscale \/ INT_MAX * dscale < v)%Z.
Proof.
  intros Hx E Hf. rewrite dscale_eq.
  assert (He : field_exp x = 2047%Z).
  { unfold isfinite in Hf. apply negb_false_iff, Z.eqb_eq in Hf. rewrite <- Hf. symmetry. by apply dbl_exp_spec. }
  unfold dbl_sem in E. rewrite He in E. change (2047 =? 2047)%Z with true in E. change (2047 =? 0)%Z with false in E.
  cbn [andb] in E. destruct (negb (field_frac x =? 0)%Z); [by destruct (x mod 2 ^ 32 =? 1954)%Z|]. injection E as <-.
  assert (Hfr : (0 <= field_frac x)%Z) by (unfold field_frac; apply Z.mod_pos_bound; done).
  assert (Hpow : (2 ^ (2047 - 1) = 2 ^ 1074 * 2 ^ 972)%Z) by (rewrite <- Z.pow_add_r by lia; done).
  rewrite Hpow. assert (Hs : (0 < 2 ^ 1074)%Z) by (apply Z.pow_pos_nonneg; lia).
  assert (Hb : (2 ^ 52 <= 2 ^ 52 * 2 ^ 972)%Z).
  { assert (0 < 2 ^ 972)%Z by (apply Z.pow_pos_nonneg; lia). nia. }
  set (S := (2 ^ 1074)%Z) in *. set (T := (2 ^ 972)%Z) in *. clearbody S.
  assert (H1 : (INT_MAX + 1 <= (2 ^ 52 + field_frac x) * T)%Z).
  { assert (0 <= T)%Z by (unfold T; apply Z.pow_nonneg; lia). clearbody T.
    change (2 ^ 52)%Z with 4503599627370496%Z in *. unfold INT_MAX. nia. }
  clearbody T. unfold field_sign. set (K := ((2 ^ 52 + field_frac x) * T)%Z) in *.
  replace ((2 ^ 52 + field_frac x) * (S * T))%Z with (K * S)%Z by (unfold K; ring). clearbody K.
  unfold INT_MIN, INT_MAX in *.
  destruct (Z.testbit x 63); [left|right]; nia.
Qed.

Lemma dbl_subscript_spec xs : Forall dbl_wf xs ->
  let good := fun x => representable NTInt (dbl_sem x) in
  (Forall good xs /\ exists ys, dbl_cast_subscript xs = Ok ys /\
     Forall2 (fun x y => int_num y = as_missing NTInt (dbl_sem x) /\ is_int y) xs ys)
  \/ (~ Forall good xs /\ dbl_cast_subscript xs = (let! y := num_cast (NDbl xs) NTInt in
        match y with NInt out => Ok out | _ => Err "unreachable" end)).
Proof.
  intros Hx good. unfold dbl_cast_subscript.
  match goal with |- context [cast_loop ?f xs] => set (F := f) end.
  assert (HL : (Forall good xs /\ exists ys, cast_loop F xs = Ok (Some ys) /\
     Forall2 (fun x y => int_num y = as_missing NTInt (dbl_sem x) /\ is_int y) xs ys)
  \/ (~ Forall good xs /\ cast_loop F xs = Ok None)).
  { apply cast_loop_spec. intros x Hin. unfold F, good.
    rewrite Forall_forall in Hx. specialize (Hx x Hin). pose proof dscale_pos as Hp.
    destruct (isnan x) eqn:En.
    { rewrite isnan_sem in En by done. left. destruct (dbl_sem x); try done.
      all: split; [done|]; eexists; split; [done|]; split; [done|unfold is_int, INT_MIN, INT_MAX, NA_INTEGER, INT_MIN; lia]. }
    rewrite isnan_sem in En by done. destruct (dbl_sem x) as [| |v] eqn:E; try done.
    rewrite (c_dle_int_spec x v), (c_dgt_int_spec x v) by done.
    unfold representable. rewrite <- dscale_eq. change (2 ^ 31)%Z with (INT_MAX + 1)%Z.
    destruct (isfinite x) eqn:Ef; cbn [negb orb].
    2:{ destruct (inf_out_of_range x v Hx E Ef); right; (split; [|done]); intros (i & -> & Hi); unfold INT_MIN, INT_MAX in *; nia. }
    destruct (Z.leb_spec v (INT_MIN * dscale)) as [Hlo|Hlo]; cbn [orb].
    { right. split; [|done]. intros (i & -> & Hi). unfold INT_MIN, INT_MAX in *. nia. }
    destruct (Z.ltb_spec (INT_MAX * dscale) v) as [Hhi|Hhi].
    { right. split; [|done]. intros (i & -> & Hi). unfold INT_MIN, INT_MAX in *. nia. }
    destruct (c_int_of_dbl_range x v) as (t & -> & Ht & Hr); [done|done|lia|]. cbn [bind].
    rewrite (c_deq_int_spec x v) by done.
    destruct (Z.eqb_spec v (t * dscale)) as [Ev|Nv]; cbn [negb].
    - left. split; [exists t; split; [done|]; unfold INT_MIN, INT_MAX in *; lia|].
      eexists. split; [done|]. split; [|unfold is_int; lia]. rewrite int_num_val by (unfold NA_INTEGER; lia).
      by rewrite Ev.
    - right. split; [|done]. intros (i & -> & Hi). rewrite quot_exact in Ht. by subst t. }
  destruct HL as [(H1 & ys & -> & H2)|[H1 ->]]; cbn [bind]; [left; by eauto|right; done].
Qed.
