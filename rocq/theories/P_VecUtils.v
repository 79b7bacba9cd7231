(** * C64: small utilities on vectors, attributes and preserved objects *)
From Verif Require Import Base M_VecUtils Spec_VecUtils.
From stdpp Require Import list strings.
From Coq Require Import Lia ZifyBool ZifyNat.
Open Scope nat_scope.

Lemma streq_true a b : streq a b = true <-> a = b.
Proof. unfold streq. by rewrite bool_decide_eq_true. Qed.
Lemma streq_false a b : streq a b = false <-> a <> b.
Proof. unfold streq. by rewrite bool_decide_eq_false. Qed.
Lemma streq_refl a : streq a a = true.
Proof. by apply streq_true. Qed.
Lemma shown_char s : char_of s = shown s.
Proof. by destruct s. Qed.

(** ** Searching strings *)
Lemma detect_from_spec chr c : forall k,
  (exists i, first_at chr c i /\ detect_from chr c k = (k + Z.of_nat i)%Z) \/
  ((forall s, s ∈ chr -> shown s <> c) /\ detect_from chr c k = (-1)%Z).
Proof.
  induction chr as [|s chr IH]; intros k; cbn [detect_from].
  - right. split; [|done]. intros s Hs. by apply elem_of_nil in Hs.
  - rewrite shown_char. destruct (streq (shown s) c) eqn:E.
    + apply streq_true in E. left. exists 0. split; [|lia]. split; [by exists s|]. intros; lia.
    + apply streq_false in E. destruct (IH (k + 1)%Z) as [(i & [Hi Hj] & ->)|[Hn ->]].
      * left. exists (S i). split; [|lia]. split; [done|].
        intros [|j] t Hjt; cbn; [by intros [= <-]|]. apply Hj. lia.
      * right. split; [|done]. intros t [->|Ht]%elem_of_cons; [done|by apply Hn].
Qed.

(** The index found is the first one, or -1 if there is none. *)
Theorem C64_detect chr c :
  (exists i, first_at chr c i /\ r_chr_detect_index chr c = Z.of_nat i) \/
  ((forall s, s ∈ chr -> shown s <> c) /\ r_chr_detect_index chr c = (-1)%Z).
Proof. exact (detect_from_spec chr c 0). Qed.
Example C64_detect_ex :
  r_chr_detect_index [Some "a"; None; Some "b"; Some "b"]%string "b" = 2%Z.
Proof. reflexivity. Qed.

Theorem C64_has_partial chr c :
  c <> "NA"%string -> r_chr_has chr c = true <-> Some c ∈ chr.
Proof.
  intros Hc. unfold r_chr_has. destruct (C64_detect chr c) as [(i & [(s & Hs & E) _] & ->)|[Hn ->]].
  - split; [intros _|lia]. destruct s as [s|]; cbn in E; [subst|congruence].
    by eapply elem_of_list_lookup_2.
  - split; [lia|]. intros H. by destruct (Hn _ H).
Qed.
Example C64_has_ex : r_chr_has [Some "a"; None]%string "a" = true /\ "a"%string <> "NA"%string.
Proof. done. Qed.

(** A missing string is taken for the string "NA". *)
Theorem C64_has_refuted :
  exists chr c, r_chr_has chr c = true /\ Some c ∉ chr.
Proof. exists [None], "NA"%string. split; [done|]. by intros [|H%elem_of_nil]%elem_of_cons. Qed.

Lemma any_inner_spec cur cs :
  (cur ∈ cs /\ fst (any_inner cur cs) = true) \/ (cur ∉ cs /\ any_inner cur cs = (false, [])).
Proof.
  induction cs as [|c cs IH]; cbn [any_inner].
  - right. split; [by intros ?%elem_of_nil|done].
  - destruct (streq cur c) eqn:E.
    + apply streq_true in E as ->. left. split; [left|done].
    + apply streq_false in E. destruct IH as [[? ?]|[? ->]].
      * left. split; [by right|done].
      * right. split; [|done]. by intros [|]%elem_of_cons.
Qed.
Lemma has_any_nil chr : r_chr_has_any chr [] = false.
Proof. induction chr; [done|]. cbn. done. Qed.

(** Only the first element is compared.  Missing for the full statement (any
    element shows one of the strings): the elements after the first. *)
Theorem C64_has_any_partial chr cs :
  r_chr_has_any chr cs = true <-> exists s, head chr = Some s /\ shown s ∈ cs.
Proof.
  destruct chr as [|s chr]; cbn [r_chr_has_any head].
  - split; [done|]. by intros (? & ? & _).
  - rewrite shown_char. destruct (any_inner_spec (shown s) cs) as [[Hin E]|[Hin E]].
    + destruct (any_inner (shown s) cs) as [b r]; cbn in E; subst b. split; [|done]. intros _. by exists s.
    + rewrite E, has_any_nil. split; [done|]. by intros (t & [= <-] & ?).
Qed.
Example C64_has_any_ex : r_chr_has_any [Some "b"; Some "c"]%string ["a"; "b"]%string = true.
Proof. reflexivity. Qed.
Theorem C64_has_any_refuted :
  exists chr cs s, s ∈ chr /\ shown s ∈ cs /\ r_chr_has_any chr cs = false.
Proof.
  exists [Some "a"; Some "b"]%string, ["b"]%string, (Some "b"%string).
  split; [|split; [|done]]; [right; left|left].
Qed.

(** ** Copying a part of a vector *)
Lemma poke_loop_Ok {A} (x y : list A) (off from n : nat) :
  off + n <= length x -> from + n <= length y ->
  forall k i fuel, i + k = n -> k <= fuel ->
  poke_loop fuel (spliced x off y from i) (Z.of_nat off) y (Z.of_nat from) (Z.of_nat n) (Z.of_nat i)
  = Ok (spliced x off y from n).
Proof.
  intros Hx Hy. induction k as [|k IH]; intros i fuel Hi Hf.
  - replace i with n by lia. destruct fuel; cbn [poke_loop]; by rewrite Z.eqb_refl.
  - destruct fuel as [|fuel]; [lia|]. cbn [poke_loop].
    destruct (Z.eqb_spec (Z.of_nat i) (Z.of_nat n)); [lia|].
    replace (Z.of_nat i + Z.of_nat from)%Z with (Z.of_nat (from + i)) by lia.
    replace (Z.of_nat i + Z.of_nat off)%Z with (Z.of_nat (off + i)) by lia.
    rewrite rdZ_nat. destruct (lookup_lt_is_Some_2 y (from + i)) as [v Hv]; [lia|].
    rewrite (proj2 (rd_Ok _ _ _) Hv). cbn [bind].
    assert (Hlen : length (take i (drop from y)) = i).
    { rewrite take_length, drop_length. lia. }
    rewrite wrZ_nat, wr_Ok.
    2:{ unfold spliced. rewrite !app_length, !take_length, !drop_length. lia. }
    cbn [bind]. replace (Z.of_nat i + 1)%Z with (Z.of_nat (S i)) by lia.
    rewrite <- (IH (S i) fuel) by lia. f_equal.
    unfold spliced. rewrite insert_app_r_alt by (rewrite take_length; lia).
    rewrite take_length. replace (off + i - off `min` length x) with i by lia.
    rewrite insert_app_r_alt by lia. rewrite Hlen.
    replace (i - i) with 0 by lia.
    destruct (lookup_lt_is_Some_2 x (off + i)) as [w Hw]; [lia|].
    rewrite (drop_S x w (off + i) Hw). cbn [insert list_insert].
    rewrite (take_S_r (drop from y) i v) by (by rewrite lookup_drop).
    rewrite <- (app_assoc (take i _)). cbn [app].
    by replace (off + S i) with (S (off + i)) by lia.
Qed.

(** The part is copied exactly, or an error is raised if it does not fit. *)
Theorem C64_poke_partial {A} (x y : list A) (offset from n : nat) :
  r_vec_poke_n x (Z.of_nat offset) y (Z.of_nat from) (Z.of_nat n) =
  if decide (offset + n <= length x) then
    if decide (from + n <= length y) then Ok (spliced x offset y from n)
    else Err "Can't copy data from `y` because it is too small"
  else Err "Can't copy data to `x` because it is too small".
Proof.
  unfold r_vec_poke_n. repeat case_decide.
  - destruct (Z.ltb_spec (Z.of_nat (length x) - Z.of_nat offset) (Z.of_nat n)); [lia|].
    destruct (Z.ltb_spec (Z.of_nat (length y) - Z.of_nat from) (Z.of_nat n)); [lia|].
    rewrite <- (poke_loop_Ok x y offset from n H H0 n 0 (S (length y) + Z.to_nat (Z.abs (Z.of_nat n)))) by lia.
    replace (spliced x offset y from 0) with x; [done|].
    unfold spliced. rewrite take_0, Nat.add_0_r. cbn [app]. by rewrite take_drop.
  - destruct (Z.ltb_spec (Z.of_nat (length x) - Z.of_nat offset) (Z.of_nat n)); [lia|].
    by destruct (Z.ltb_spec (Z.of_nat (length y) - Z.of_nat from) (Z.of_nat n)); [|lia].
  - by destruct (Z.ltb_spec (Z.of_nat (length x) - Z.of_nat offset) (Z.of_nat n)); [|lia].
Qed.
Example C64_poke_ex :
  r_vec_poke_n [1;2;3;4;5] 1 [7;8;9] 1 2 = Ok [1;8;9;4;5].
Proof. reflexivity. Qed.

(** A range of at least zero elements is copied.  One that ends two or more
    before it starts is not refused (see [C64_poke_refuted]). *)
Theorem C64_range {A} (x y : list A) (offset from to : nat) :
  from <= S to -> offset + (S to - from) <= length x -> S to <= length y ->
  r_vec_poke_range x (Z.of_nat offset) y (Z.of_nat from) (Z.of_nat to) =
  Ok (spliced x offset y from (S to - from)).
Proof.
  intros H1 H2 H3. unfold r_vec_poke_range.
  replace (Z.of_nat to - Z.of_nat from + 1)%Z with (Z.of_nat (S to - from)) by lia.
  rewrite C64_poke_partial. repeat case_decide; [done|lia..].
Qed.
Example C64_range_ex : r_vec_poke_range [1;2;3] 0 [7;8;9] 1 2 = Ok [8;9;3].
Proof. reflexivity. Qed.


Theorem C64_poke_refuted :
  exists (x y : list nat) (offset from to : Z),
    (0 <= offset <= Z.of_nat (length x))%Z /\ (0 <= from <= Z.of_nat (length y))%Z /\
    (0 <= to <= Z.of_nat (length y))%Z /\
    exists m, r_vec_poke_range x offset y from to = UB m.
Proof. exists [1;2;3], [4;5;6], 0%Z, 2%Z, 0%Z. split_and!; cbn; try lia. by eexists. Qed.

(** ** Adding a string, joining two vectors *)
Theorem C64_prepend chr s :
  (Z.of_nat (length (default [] chr)) < int_max_vu)%Z ->
  chr_prepend chr s = Ok (s :: default [] chr).
Proof.
  intros H. destruct chr as [chr|]; [|done]. cbn [default id] in *. unfold chr_prepend, int_plus_one.
  destruct (Z.leb_spec (Z.of_nat (length chr) + 1) int_max_vu); [|lia]. cbn [bind].
  rewrite (C64_poke_partial _ chr 1 0 (length chr) : r_vec_poke_n _ 1 chr 0 _ = _).
  rewrite replicate_length. repeat case_decide; [|lia..]. cbn [bind].
  unfold spliced. cbn [replicate]. rewrite drop_0, (take_ge chr) by lia.
  cbn. rewrite drop_ge by (rewrite replicate_length; lia). by rewrite app_nil_r, take_0.
Qed.
Example C64_prepend_ex : chr_prepend (Some [Some "b"; None]%string) (Some "a"%string)
  = Ok [Some "a"; Some "b"; None]%string.
Proof. reflexivity. Qed.

Theorem C64_append chr s :
  (Z.of_nat (length (default [] chr)) < int_max_vu)%Z ->
  chr_append chr s = Ok (default [] chr ++ [s]).
Proof.
  intros H. destruct chr as [chr|]; [|done]. cbn [default id] in *. unfold chr_append, int_plus_one.
  destruct (Z.leb_spec (Z.of_nat (length chr) + 1) int_max_vu); [|lia]. cbn [bind].
  rewrite (C64_poke_partial _ chr 0 0 (length chr) : r_vec_poke_n _ 0 chr 0 _ = _).
  rewrite replicate_length. repeat case_decide; [|lia..]. cbn [bind].
  unfold spliced. rewrite drop_0, (take_ge chr) by lia. rewrite take_0. cbn [app Nat.add].
  rewrite drop_replicate. replace (S (length chr) - length chr) with 1 by lia.
  rewrite wrZ_nat, wr_Ok by (rewrite app_length; cbn; lia).
  f_equal. rewrite insert_app_r_alt by lia. by rewrite Nat.sub_diag.
Qed.
Example C64_append_ex : chr_append (Some [Some "b"; None]%string) (Some "a"%string)
  = Ok [Some "b"; None; Some "a"]%string.
Proof. reflexivity. Qed.

Lemma copy_to_Ok {A} (p : list A) : forall (pre q post : list A), length p = length q ->
  copy_to p (length pre) (pre ++ q ++ post) = Ok (pre ++ p ++ post).
Proof.
  induction p as [|a p IH]; intros pre [|b q] post Hl; try discriminate Hl; [done|].
  cbn [copy_to]. rewrite wr_Ok by (rewrite app_length; cbn; lia). cbn [bind].
  rewrite insert_app_r_alt by lia. rewrite Nat.sub_diag. cbn.
  specialize (IH (pre ++ [a]) q post). rewrite app_length in IH. cbn in IH.
  rewrite Nat.add_1_r in IH. rewrite <- !app_assoc in IH. cbn in IH. apply IH. by injection Hl.
Qed.
Theorem C64_chr_c x y : chr_c x y = Ok (x ++ y).
Proof.
  unfold chr_c. destruct (Nat.eqb_spec (length x) 0) as [E|E]; [by rewrite (nil_length_inv x)|].
  destruct (Nat.eqb_spec (length y) 0) as [E'|E'].
  { rewrite (nil_length_inv y) by done. by rewrite app_nil_r. }
  rewrite replicate_add.
  pose proof (copy_to_Ok x [] (replicate (length x) (Some ""%string))
    (replicate (length y) (Some ""%string))) as H. cbn [app length] in H.
  rewrite H by (by rewrite replicate_length). cbn [bind].
  pose proof (copy_to_Ok y x (replicate (length y) (Some ""%string)) []) as H2.
  rewrite !app_nil_r in H2. apply H2. by rewrite replicate_length.
Qed.
Example C64_chr_c_ex : chr_c [Some "a"; None]%string [Some "b"]%string = Ok [Some "a"; None; Some "b"]%string.
Proof. reflexivity. Qed.

(** ** Removing [NULL] from a list *)
Lemma compact_flags_n {A} (x : list (option A)) : snd (compact_flags x) = length (filter is_Some x).
Proof.
  induction x as [|[a|] x IH]; [done|..]; cbn [compact_flags];
    destruct (compact_flags x) as [inc n]; cbn [snd Nat.add] in *; subst n.
  - rewrite filter_cons_True by (by eexists). done.
  - rewrite filter_cons_False by (by intros [? ?]). done.
Qed.
Lemma compact_fill_Ok {A} (x : list (option A)) : forall pre,
  compact_fill x (fst (compact_flags x)) (length pre)
    (pre ++ replicate (length (filter is_Some x)) None) = Ok (pre ++ filter is_Some x).
Proof.
  induction x as [|e x IH]; intros pre; [done|].
  cbn [compact_flags]. destruct (compact_flags x) as [inc n] eqn:E. cbn [fst] in *.
  destruct e as [a|]; cbn [compact_fill].
  - rewrite filter_cons_True by (by eexists). cbn [length replicate].
    rewrite wr_Ok by (rewrite app_length; cbn; lia). cbn [bind].
    rewrite insert_app_r_alt by lia. rewrite Nat.sub_diag. cbn.
    specialize (IH (pre ++ [Some a])). rewrite app_length in IH. cbn in IH.
    rewrite Nat.add_1_r in IH. rewrite <- !app_assoc in IH. exact IH.
  - rewrite filter_cons_False by (by intros [? ?]). apply IH.
Qed.
Theorem C64_compact {A} (x : list (option A)) : r_list_compact x = Ok (filter is_Some x).
Proof.
  unfold r_list_compact. pose proof (compact_flags_n x) as Hn. pose proof (compact_fill_Ok x []) as H.
  destruct (compact_flags x) as [inc n]. cbn [fst snd] in *. subst n. exact H.
Qed.
Example C64_compact_ex : r_list_compact [Some 1; None; Some 2; None] = Ok [Some 1; Some 2].
Proof. reflexivity. Qed.

(** ** Sequences *)
Lemma ints_S from n : ints from (S n) = from :: ints (from + 1) n.
Proof.
  unfold ints. cbn [seq fmap list_fmap]. f_equal; [lia|].
  rewrite <- fmap_S_seq, <- list_fmap_compose. apply list_fmap_ext. intros ? i _. cbn. lia.
Qed.
Lemma fill_seq_Ok n : forall pre x start, length x = n ->
  (start + Z.of_nat n <= int_max_vu)%Z ->
  fill_seq n (length pre) (pre ++ x) start = Ok (pre ++ ints start n).
Proof.
  induction n as [|n IH]; intros pre x start Hx Hs.
  { by rewrite (nil_length_inv x). }
  destruct x as [|a x]; [done|]. injection Hx as Hx.
  rewrite ints_S. cbn [fill_seq]. rewrite wr_Ok by (rewrite app_length; cbn; lia). cbn [bind].
  destruct (Z.eqb_spec start int_max_vu); [lia|].
  rewrite insert_app_r_alt by lia. rewrite Nat.sub_diag. cbn.
  specialize (IH (pre ++ [start]) x (start + 1)%Z Hx). rewrite app_length in IH. cbn in IH.
  rewrite Nat.add_1_r in IH. rewrite <- !app_assoc in IH. apply IH. lia.
Qed.
Lemma fill_seq_UB n : forall pre x start, length x = n -> 0 < n ->
  (start + Z.of_nat n = int_max_vu + 1)%Z ->
  fill_seq n (length pre) (pre ++ x) start = UB "int overflow".
Proof.
  induction n as [|n IH]; intros pre x start Hx Hn Hs; [lia|].
  destruct x as [|a x]; [done|]. injection Hx as Hx.
  cbn [fill_seq]. rewrite wr_Ok by (rewrite app_length; cbn; lia). cbn [bind].
  destruct (Z.eqb_spec start int_max_vu); [done|].
  rewrite insert_app_r_alt by lia. rewrite Nat.sub_diag. cbn.
  specialize (IH (pre ++ [start]) x (start + 1)%Z Hx). rewrite app_length in IH. cbn in IH.
  rewrite Nat.add_1_r in IH. rewrite <- !app_assoc in IH. apply IH; lia.
Qed.

(** Missing for the full statement: the case where the last value is the
    largest integer. *)
Theorem C64_fill_partial x start (n : nat) :
  length x = n -> (start + Z.of_nat n <= int_max_vu)%Z ->
  r_int_fill_seq x start (Z.of_nat n) = Ok (ints start n).
Proof.
  intros Hx Hs. unfold r_int_fill_seq. rewrite Nat2Z.id. exact (fill_seq_Ok n [] x start Hx Hs).
Qed.
Example C64_fill_ex : r_int_fill_seq [0;0;0]%Z 1 3 = Ok [1;2;3]%Z.
Proof. reflexivity. Qed.

(** If the last value is the largest integer, the increment after it
    overflows, whatever the length: so also for the 2147483647 positions of
    the longest vector a subscript [TRUE] can select. *)
Theorem C64_fill_refuted :
  (forall x start (n : nat), length x = n -> 0 < n -> (start + Z.of_nat n = int_max_vu + 1)%Z ->
     Forall (fun v => v <= int_max_vu)%Z (ints start n) /\
     r_int_fill_seq x start (Z.of_nat n) = UB "int overflow") /\
  exists x start n, Z.of_nat (length x) = n /\ r_int_fill_seq x start n = UB "int overflow".
Proof.
  split.
  - intros x start n Hx Hn Hs. split.
    + apply Forall_fmap, Forall_forall. intros i [_ Hi]%elem_of_seq. cbn. lia.
    + unfold r_int_fill_seq. rewrite Nat2Z.id. exact (fill_seq_UB n [] x start Hx Hn Hs).
  - by exists [0]%Z, int_max_vu, 1%Z.
Qed.

Theorem C64_seq from to :
  (int_min_vu <= from)%Z -> (to <= int_max_vu)%Z -> (to - from <= int_max_vu)%Z ->
  (from <= to)%Z -> r_seq from to = Ok (ints from (Z.to_nat (to - from))).
Proof.
  intros H1 H2 H3 H4. unfold r_seq, int_min_vu in *.
  destruct (Z.ltb_spec (to - from) (-2147483648)); [lia|].
  destruct (Z.ltb_spec int_max_vu (to - from)); [lia|].
  destruct (Z.ltb_spec (to - from) 0); [lia|]. cbn [orb].
  unfold r_int_fill_seq.
  refine (fill_seq_Ok _ [] _ from _ _); [by rewrite replicate_length|lia].
Qed.
Example C64_seq_ex : r_seq 3 6 = Ok [3;4;5]%Z.
Proof. reflexivity. Qed.

(** ** Attributes *)
Theorem C64_restored meth tags :
  vec_is_restored meth tags = true <-> meth = true \/ exists t, t ∈ tags /\ t <> "names"%string.
Proof.
  unfold vec_is_restored. destruct meth; [split; auto|].
  assert (H : restored_loop tags = true <-> exists t, t ∈ tags /\ t <> "names"%string).
  { induction tags as [|t tags IH]; cbn [restored_loop].
    - split; [done|]. by intros (? & ?%elem_of_nil & _).
    - destruct (streq t "names") eqn:E.
      + apply streq_true in E. rewrite IH. split.
        * intros (u & Hu & Hne). exists u. split; [by right|done].
        * intros (u & [->|Hu]%elem_of_cons & Hne); [done|]. by exists u.
      + apply streq_false in E. split; [|done]. intros _. exists t. split; [left|done]. }
  destruct tags as [|t tags].
  - split; [done|]. intros [|(? & ?%elem_of_nil & _)]; done.
  - rewrite H. split; [by right|]. by intros [|].
Qed.
Example C64_restored_ex :
  vec_is_restored false ["names"; "class"]%string = true /\ vec_is_restored false ["names"]%string = false.
Proof. done. Qed.

Lemma attr_get_strip {V} (a : list (string * V)) k j :
  attr_get (attr_strip a k) j = if decide (k = j) then None else attr_get a j.
Proof.
  induction a as [|[k' v] a IH]; cbn [attr_strip attr_get]; [by case_decide|].
  destruct (streq k' k) eqn:E.
  - apply streq_true in E as ->. rewrite IH. destruct (decide (k = j)) as [->|n]; [done|].
    by rewrite (proj2 (streq_false k j) n).
  - apply streq_false in E. cbn [attr_get]. rewrite IH. destruct (streq k' j) eqn:E'; [|done].
    apply streq_true in E' as ->. by rewrite decide_False by congruence.
Qed.
Lemma attr_get_snoc {V} (a : list (string * V)) k v j :
  attr_get (attr_strip a k ++ [(k, v)]) j = if decide (k = j) then Some v else attr_get a j.
Proof.
  assert (H : forall b : list (string * V), attr_get (b ++ [(k, v)]) j =
    match attr_get b j with Some w => Some w | None => if decide (k = j) then Some v else None end).
  { induction b as [|[k' w] b IH]; cbn [app attr_get].
    - destruct (streq k j) eqn:E.
      + apply streq_true in E. by rewrite decide_True.
      + apply streq_false in E. by rewrite decide_False.
    - by destruct (streq k' j). }
  rewrite H, attr_get_strip. destruct (decide (k = j)); [done|]. by destruct (attr_get a j).
Qed.

(** Setting an attribute other than [dim]. *)
Lemma set_attrib_other {V} (a : list (string * V)) k v :
  k <> "dim"%string ->
  (k = "dimnames"%string -> is_Some v -> is_Some (attr_get a "dim")) ->
  exists a', set_attrib a k v = Ok a' /\
    forall j, attr_get a' j = if decide (k = j) then v else attr_get a j.
Proof.
  intros Hk Hd. unfold set_attrib. destruct v as [v|]; rewrite (proj2 (streq_false _ _) Hk).
  - destruct (streq k "dimnames") eqn:E.
    + apply streq_true in E. destruct (Hd E) as [w ->]; [by eexists|].
      eexists. split; [done|]. intros j. apply attr_get_snoc.
    + eexists. split; [done|]. intros j. apply attr_get_snoc.
  - eexists. split; [done|]. intros j. apply attr_get_strip.
Qed.

Lemma set_others_Ok {V} (attrib : list (option V)) : forall ks i dp (a : list (string * V)),
  length ks = length attrib -> NoDup ks ->
  (forall j k, ks !! j = Some k -> k = "dim"%string <-> (i + Z.of_nat j)%Z = dp) ->
  ((exists v, ("dimnames"%string, Some v) ∈ zip ks attrib) -> is_Some (attr_get a "dim")) ->
  exists a', set_others (Some <$> ks) attrib i dp a = Ok a' /\
    forall k v, attr_get a' k = Some v <->
      (k <> "dim"%string /\ (k, Some v) ∈ zip ks attrib) \/
      ((k = "dim"%string \/ k ∉ ks) /\ attr_get a k = Some v).
Proof.
  induction attrib as [|w attrib IH]; intros [|k0 ks] i dp a Hl Hn Hp Hd; try discriminate Hl.
  - exists a. split; [done|]. intros k v. cbn [zip zip_with]. split.
    + intros H. right. split; [|done]. right. by intros ?%elem_of_nil.
    + intros [[_ ?%elem_of_nil]|[_ ?]]; done.
  - injection Hl as Hl. apply NoDup_cons in Hn as [Hk0 Hn].
    assert (Hp' : forall j k, ks !! j = Some k -> k = "dim"%string <-> ((i + 1) + Z.of_nat j)%Z = dp).
    { intros j k Hj. rewrite (Hp (S j) k Hj). lia. }
    assert (Hzip : forall k v, (k, Some v) ∈ zip ks attrib -> k ∈ ks).
    { intros k v H. by eapply elem_of_zip_l. }
    cbn [fmap list_fmap set_others char_of]. destruct (Z.eqb_spec i dp) as [Ei|Ei].
    + assert (E0 : k0 = "dim"%string) by (apply (Hp 0 k0); [done|lia]).
      destruct (IH ks (i + 1)%Z dp a Hl Hn Hp') as (a' & E & Ha').
      { intros [v Hv]. apply Hd. exists v. cbn [zip zip_with]. by right. }
      exists a'. split; [done|]. intros k v. rewrite Ha'. cbn [zip zip_with].
      rewrite !elem_of_cons. split.
      * intros [[H1 H2]|[H1 H2]]; [left; auto|]. right. split; [|done].
        destruct H1 as [|H1]; [by left|]. destruct (decide (k = "dim"%string)); [by left|right].
        intros [->|]; done.
      * intros [[H1 [[= -> _]|H2]]|[H1 H2]]; [done|left; done|]. right. split; [|done].
        destruct H1 as [|H1]; [by left|right]. intros ?. apply H1. by right.
    + assert (E0 : k0 <> "dim"%string). { intros E%(Hp 0 k0); [lia|done]. }
      destruct (set_attrib_other a k0 w E0) as (a1 & -> & Ha1).
      { intros -> [v ->]. apply Hd. exists v. cbn [zip zip_with]. left. }
      cbn [bind]. destruct (IH ks (i + 1)%Z dp a1 Hl Hn Hp') as (a' & E & Ha').
      { intros [v Hv]. rewrite Ha1, decide_False by done. apply Hd. exists v. cbn [zip zip_with]. by right. }
      exists a'. split; [done|]. intros k v. rewrite Ha', Ha1. cbn [zip zip_with].
      rewrite !elem_of_cons. split.
      * intros [[H1 H2]|[H1 H2]]; [left; auto|]. destruct (decide (k0 = k)) as [->|Hne].
        -- left. split; [done|]. left. by rewrite H2.
        -- right. split; [|done]. destruct H1; [by left|right]. by intros [|].
      * intros [[H1 [[= -> ->]|H2]]|[H1 H2]].
        -- right. rewrite decide_True by done. auto.
        -- left. done.
        -- right. rewrite decide_False. 2:{ intros ->. destruct H1 as [->|H1]; [done|]. apply H1. by left. }
           split; [|done]. destruct H1 as [|H1]; [by left|right]. intros ?. apply H1. by right.
Qed.

Lemma find_dim_pos_spec ks : forall i,
  (exists p, ks !! p = Some "dim"%string /\ find_dim_pos (Some <$> ks) i = (i + Z.of_nat p)%Z) \/
  ("dim"%string ∉ ks /\ find_dim_pos (Some <$> ks) i = (-1)%Z).
Proof.
  induction ks as [|k ks IH]; intros i; cbn [fmap list_fmap find_dim_pos char_of].
  - right. split; [by intros ?%elem_of_nil|done].
  - destruct (streq k "dim") eqn:E.
    + apply streq_true in E as ->. left. exists 0. split; [done|lia].
    + apply streq_false in E. destruct (IH (i + 1)%Z) as [(p & Hp & ->)|[Hn ->]].
      * left. exists (S p). split; [done|lia].
      * right. split; [|done]. by intros [|]%elem_of_cons.
Qed.
Lemma check_attr_names_Ok ks : Forall (fun k => k <> ""%string) ks ->
  check_attr_names (Some <$> ks) = Ok tt.
Proof.
  induction 1 as [|k ks Hk _ IH]; [done|]. cbn [fmap list_fmap check_attr_names].
  by rewrite (proj2 (streq_false _ _) Hk).
Qed.
Lemma elem_of_zip_dim {V} (ks : list string) (attrib : list V) p k v :
  NoDup ks -> ks !! p = Some k -> length ks = length attrib -> (k, v) ∈ zip ks attrib <-> attrib !! p = Some v.
Proof.
  intros Hn Hp Hl. split.
  - intros (q & Hq)%elem_of_list_lookup. apply lookup_zip_with_Some in Hq as (k' & v' & [= <- <-] & H1 & H2).
    by rewrite (NoDup_lookup _ _ _ _ Hn Hp H1).
  - intros H. apply (elem_of_list_lookup_2 _ p). apply lookup_zip_with_Some. eauto.
Qed.

(** The attributes of the result are exactly those of the list, whatever the
    order and whatever [x] had before; [dimnames] may come before [dim]. *)
Theorem C64_attributes_partial {V} (old : list (string * V)) ks attrib :
  length ks = length attrib -> NoDup ks -> Forall (fun k => k <> ""%string) ks ->
  ((exists v, wanted (zip ks attrib) "dimnames" v) -> exists v, wanted (zip ks attrib) "dim" v) ->
  exists a, vctrs_set_attributes old (Some (Some <$> ks)) attrib = Ok a /\
    forall k v, attr_get a k = Some v <-> wanted (zip ks attrib) k v.
Proof.
  intros Hl Hn Hne Hd. unfold vctrs_set_attributes, wanted in *.
  destruct (Nat.eqb_spec (length attrib) 0) as [E|E].
  { apply nil_length_inv in E as ->. exists []. split; [done|]. intros k v.
    destruct ks; [|done]. split; [done|]. by intros ?%elem_of_nil. }
  rewrite check_attr_names_Ok by done. cbn [bind].
  destruct (find_dim_pos_spec ks 0) as [(p & Hp & ->)|[Hnd ->]].
  - replace (0 + Z.of_nat p)%Z with (Z.of_nat p) by lia.
    destruct (Z.eqb_spec (Z.of_nat p) (-1)); [lia|]. rewrite rdZ_nat.
    assert (Hlt : p < length attrib) by (rewrite <- Hl; by eapply lookup_lt_Some).
    destruct (lookup_lt_is_Some_2 _ _ Hlt) as [w Hw]. rewrite (proj2 (rd_Ok _ _ _) Hw). cbn [bind].
    assert (Hs : exists a0, set_attrib [] "dim" w = Ok a0 /\
      forall k : string, attr_get a0 k = if decide (k = "dim"%string) then w else (None : option V)).
    { destruct w as [w|]; eexists; (split; [reflexivity|]); intros k; cbn.
      - unfold streq. case_decide as E1; subst; cbn; [done|]. by rewrite bool_decide_eq_false_2 by congruence.
      - by case_decide. }
    destruct Hs as (a0 & -> & Ha0). cbn [bind].
    destruct (set_others_Ok attrib ks 0 (Z.of_nat p) a0 Hl Hn) as (a & Ea & Ha).
    { intros j k Hj. split.
      - intros ->. by rewrite (NoDup_lookup _ _ _ _ Hn Hj Hp).
      - intros Ej. replace j with p in Hj by lia. congruence. }
    { intros H. destruct (Hd H) as [v Hv]. rewrite Ha0, decide_True by done.
      apply (elem_of_zip_dim _ _ p) in Hv; [|done..]. exists v. congruence. }
    exists a. split; [done|]. intros k v. rewrite Ha, Ha0. split.
    + intros [[_ H]|[H1 H2]]; [done|]. destruct (decide (k = "dim"%string)) as [->|]; [|done].
      subst w. by apply (elem_of_zip_dim _ _ p).
    + intros H. destruct (decide (k = "dim"%string)) as [->|]; [|by left].
      right. split; [by left|]. apply (elem_of_zip_dim _ _ p) in H; [congruence|done..].
  - cbn [Z.eqb bind].
    destruct (set_others_Ok attrib ks 0 (-1)%Z [] Hl Hn) as (a & Ea & Ha).
    { intros j k Hj. split; [|lia]. intros ->. destruct Hnd. by eapply elem_of_list_lookup_2. }
    { intros H. destruct (Hd H) as [v Hv]. destruct Hnd. by eapply elem_of_zip_l. }
    exists a. split; [done|]. intros k v. rewrite Ha. split.
    + intros [[_ H]|[_ H]]; [done|]. discriminate H.
    + intros H. left. split; [|done]. intros ->. destruct Hnd. by eapply elem_of_zip_l.
Qed.
Example C64_attributes_ex :
  vctrs_set_attributes [("class", 0)]%string (Some (Some <$> ["dimnames"; "foo"; "dim"]%string))
    [Some 1; None; Some 3] = Ok [("dim", 3); ("dimnames", 1)]%string.
Proof. reflexivity. Qed.

(** A list with a missing or an empty name is refused. *)
Theorem C64_attributes_err {V} (old : list (string * V)) names attrib s :
  attrib <> [] -> s ∈ names -> s = None \/ s = Some ""%string ->
  exists m, vctrs_set_attributes old (Some names) attrib = Err m.
Proof.
  intros Ha Hs Hb. unfold vctrs_set_attributes.
  destruct (Nat.eqb_spec (length attrib) 0) as [E|E]; [by apply nil_length_inv in E|].
  assert (H : exists m, check_attr_names names = Err m).
  { induction names as [|t names IH]; [by apply elem_of_nil in Hs|]. cbn [check_attr_names].
    destruct t as [t|]; [|by eexists]. destruct (streq t "") eqn:Et; [by eexists|].
    apply IH. apply streq_false in Et. apply elem_of_cons in Hs as [->|]; [|done].
    by destruct Hb as [|[= ->]]. }
  destruct H as [m ->]. by exists m.
Qed.
Example C64_attributes_err_ex :
  exists m, vctrs_set_attributes [] (Some [Some "a"; None]%string) [Some 1; Some 2] = Err m.
Proof. by eexists. Qed.

(** With a name given twice the values need not all be those of the list:
    a second [dim] drops the [dimnames] set before it. *)
Theorem C64_attributes_refuted :
  exists ks (attrib : list (option nat)) a,
    length ks = length attrib /\ Forall (fun k => k <> ""%string) ks /\
    vctrs_set_attributes [] (Some (Some <$> ks)) attrib = Ok a /\
    (exists v, wanted (zip ks attrib) "dimnames" v) /\ attr_get a "dimnames" = None.
Proof.
  exists ["dim"; "dimnames"; "dim"]%string, [Some 1; Some 2; Some 1]. eexists.
  split; [done|]. split; [by repeat constructor|]. split; [reflexivity|]. split; [|done].
  exists 2. right. left.
Qed.

(** ** Preserved objects *)
Lemma pd_get_del d x y : pd_get (pd_del d x) y = if decide (x = y) then None else pd_get d y.
Proof.
  induction d as [|[z n] d IH]; cbn [pd_del pd_get]; [by case_decide|].
  destruct (Nat.eqb_spec z x) as [->|].
  - rewrite IH. case_decide as E; [done|]. by destruct (Nat.eqb_spec x y).
  - cbn [pd_get]. rewrite IH. destruct (Nat.eqb_spec z y); case_decide; congruence.
Qed.
Lemma pd_get_put d x n y : pd_get (pd_put d x n) y = if decide (x = y) then Some n else pd_get d y.
Proof.
  unfold pd_put. cbn [pd_get]. rewrite pd_get_del. destruct (Nat.eqb_spec x y); by case_decide.
Qed.

Definition counts (f : nat -> Z) (d : list (nat * Z)) : Prop :=
  forall x, (0 <= f x)%Z /\ pd_get d x = if decide (f x = 0%Z) then None else Some (f x).

Lemma run_precious_spec ops : forall f d,
  counts f d ->
  (forall x, f x + Z.of_nat (length ops) <= int_max_vu)%Z ->
  ((forall k x, 0 <= f x + balance (take k ops) x)%Z /\
   exists d', run_precious ops d = Ok d' /\ counts (fun x => f x + balance ops x)%Z d') \/
  ((exists k x, f x + balance (take k ops) x < 0)%Z /\ exists m, run_precious ops d = Err m).
Proof.
  induction ops as [|o ops IH]; intros f d Hd Hl.
  - left. split.
    + intros k x. rewrite take_nil. cbn. destruct (Hd x). lia.
    + exists d. split; [done|]. intros x. cbn. rewrite Z.add_0_r. apply Hd.
  - cbn [length] in Hl. destruct o as [x|x]; cbn [run_precious balance].
    + unfold r_preserve, push_precious. destruct (Hd x) as [Hx ->].
      set (m := match (if decide (f x = 0%Z) then None else Some (f x)) with None => 0%Z | Some n => n end).
      assert (Hm : m = f x) by (unfold m; case_decide; congruence). rewrite Hm. clear m Hm.
      specialize (Hl x) as Hlx. destruct (Z.eqb_spec (f x) int_max_vu); [lia|]. cbn [bind].
      pose (f' := fun y => (f y + if decide (x = y) then 1 else 0)%Z).
      assert (Hc : counts f' (pd_put d x (f x + 1)%Z)).
      { intros y. unfold f'. rewrite pd_get_put. destruct (Hd y) as [Hy Ey]. destruct (decide (x = y)) as [->|].
        - split; [lia|]. rewrite decide_False by lia. done.
        - rewrite Z.add_0_r. done. }
      destruct (IH f' _ Hc) as [[Hk (d' & -> & Hd')]|[(k & y & Hk) (msg & ->)]].
      { intros y. specialize (Hl y). unfold f'. case_decide; lia. }
      * left. split.
        -- intros [|k] y; [cbn; destruct (Hd y); lia|]. cbn [take balance].
           specialize (Hk k y). unfold f' in Hk. destruct (decide (x = y)); lia.
        -- exists d'. split; [done|]. intros y. specialize (Hd' y). unfold f' in Hd'.
           by rewrite <- Z.add_assoc in Hd'.
      * right. split; [|by eexists]. exists (S k), y. cbn [take balance]. unfold f' in Hk. destruct (decide (x = y)); lia.
    + unfold r_unpreserve. destruct (Hd x) as [Hx ->]. case_decide as E0.
      { right. split; [|by eexists]. exists 1, x. cbn [take]. rewrite take_0. cbn [balance]. rewrite decide_True by done. lia. }
      unfold pop_precious. destruct (Z.eqb_spec (f x) int_min_vu); [unfold int_min_vu in *; lia|]. cbn [bind].
      destruct (Z.ltb_spec (f x - 1) 0); [lia|].
      pose (f' := fun y => (f y + if decide (x = y) then -1 else 0)%Z).
      assert (Hc : counts f' (if (f x - 1 =? 0)%Z then pd_del d x else pd_put d x (f x - 1)%Z)).
      { intros y. unfold f'. destruct (Hd y) as [Hy Ey].
        destruct (Z.eqb_spec (f x - 1) 0); [rewrite pd_get_del|rewrite pd_get_put];
          (destruct (decide (x = y)) as [->|]; [split; [lia|]; first [rewrite decide_False by lia; done|rewrite decide_True by lia; done]|by rewrite Z.add_0_r]). }
      assert (Hr : (if (f x - 1 =? 0)%Z then Ok (pd_del d x) else Ok (pd_put d x (f x - 1)%Z))
        = Ok (if (f x - 1 =? 0)%Z then pd_del d x else pd_put d x (f x - 1)%Z)) by (by destruct (f x - 1 =? 0)%Z).
      rewrite Hr. cbn [bind].
      destruct (IH f' _ Hc) as [[Hk (d' & -> & Hd')]|[(k & y & Hk) (msg & ->)]].
      { intros y. specialize (Hl y). unfold f'. case_decide; lia. }
      * left. split.
        -- intros [|k] y; [cbn; destruct (Hd y); lia|]. cbn [take balance].
           specialize (Hk k y). unfold f' in Hk. destruct (decide (x = y)); lia.
        -- exists d'. split; [done|]. intros y. specialize (Hd' y). unfold f' in Hd'.
           by rewrite <- Z.add_assoc in Hd'.
      * right. split; [|by eexists]. exists (S k), y. cbn [take balance]. unfold f' in Hk. destruct (decide (x = y)); lia.
Qed.

(** A balanced sequence of calls ends normally, and the objects kept are
    exactly those preserved more often than released, with the difference as
    count. *)
Theorem C64_precious ops :
  balanced ops -> (Z.of_nat (length ops) <= int_max_vu)%Z ->
  exists d, run_precious ops [] = Ok d /\
    forall x, pd_get d x = if decide (balance ops x = 0%Z) then None else Some (balance ops x).
Proof.
  intros Hb Hl. destruct (run_precious_spec ops (fun _ => 0%Z) []) as [[_ (d & E & Hd)]|[(k & x & Hk) _]].
  - intros x. cbn. split; [lia|done].
  - intros _. lia.
  - exists d. split; [done|]. intros x. apply (Hd x).
  - specialize (Hb k x). lia.
Qed.
Theorem C64_precious_err ops :
  ~ balanced ops -> (Z.of_nat (length ops) <= int_max_vu)%Z ->
  exists m, run_precious ops [] = Err m.
Proof.
  intros Hb Hl. destruct (run_precious_spec ops (fun _ => 0%Z) []) as [[Hk _]|[_ H]]; [| | |done].
  - intros x. cbn. split; [lia|done].
  - intros _. lia.
  - destruct Hb. intros k x. apply (Hk k x).
Qed.
Example C64_precious_ex :
  run_precious [Preserve 1; Preserve 2; Preserve 1; Unpreserve 1; Unpreserve 2] [] = Ok [(1, 1%Z)] /\
  run_precious [Preserve 1; Unpreserve 1; Unpreserve 1] [] =
    Err "Can't unpreserve `x` because it was not being preserved.".
Proof. done. Qed.

Print Assumptions C64_detect.
Print Assumptions C64_has_partial.
Print Assumptions C64_has_refuted.
Print Assumptions C64_has_any_partial.
Print Assumptions C64_has_any_refuted.
Print Assumptions C64_poke_partial.
Print Assumptions C64_range.
Print Assumptions C64_poke_refuted.
Print Assumptions C64_prepend.
Print Assumptions C64_append.
Print Assumptions C64_chr_c.
Print Assumptions C64_compact.
Print Assumptions C64_fill_partial.
Print Assumptions C64_fill_refuted.
Print Assumptions C64_seq.
Print Assumptions C64_restored.
Print Assumptions C64_attributes_partial.
Print Assumptions C64_attributes_err.
Print Assumptions C64_attributes_refuted.
Print Assumptions C64_precious.
Print Assumptions C64_precious_err.
