(** * C48: argument tags *)
From Verif Require Import Base M_Scalar Spec_Names M_Names L_Names M_Arg Spec_Arg.
From Coq Require Import ZifyBool ZifyNat.
#[local] Arguments Z.mul : simpl never.
#[local] Arguments Z.add : simpl never.
#[local] Arguments Z.sub : simpl never.
#[local] Arguments Z.to_nat : simpl never.
#[local] Arguments Z.of_nat : simpl never.
#[local] Arguments Z.pow : simpl never.
#[local] Arguments Z.modulo : simpl never.

Lemma wr_bytes_spec s buf off : (0 <= off)%Z -> (off + Z.of_nat (length s) <= Z.of_nat (length buf))%Z ->
  wr_bytes buf off s = Ok (take (Z.to_nat off) buf ++ map Some s ++ drop (Z.to_nat off + length s) buf).
Proof.
  revert buf off. induction s as [|c s IH]; intros buf off H0 Hl; simpl in *.
  { by rewrite Nat.add_0_r, take_drop. }
  unfold wrZ. rewrite (proj2 (Z.ltb_ge off 0)) by done. rewrite wr_Ok by lia. simpl.
  rewrite IH; [|lia|rewrite insert_length; lia]. f_equal.
  replace (Z.to_nat (off + 1)) with (Datatypes.S (Z.to_nat off)) by lia.
  rewrite (take_S_r _ _ (Some c)) by (apply list_lookup_insert; lia).
  rewrite take_insert by lia. rewrite <- (assoc_L (++)). f_equal. simpl. f_equal. f_equal.
  rewrite drop_insert_gt by lia. f_equal. lia.
Qed.

(** The buffer after [s] and a NUL were written at [off] *)
Definition written (buf : buffer) (off : Z) (s : bytes) : buffer :=
  take (Z.to_nat off) buf ++ map Some s ++ [Some 0%Z] ++ drop (Z.to_nat off + length s + 1) buf.
Lemma written_length buf off s : (0 <= off)%Z -> (off + Z.of_nat (length s) < Z.of_nat (length buf))%Z ->
  length (written buf off s) = length buf.
Proof. intros. unfold written. rewrite !app_length, take_length, map_length, drop_length. simpl. lia. Qed.

Lemma wr_string s buf off : (0 <= off)%Z -> (off + Z.of_nat (length s) < Z.of_nat (length buf))%Z ->
  (let! buf := wr_bytes buf off s in wrZ buf (off + Z.of_nat (length s)) (Some 0%Z)) = Ok (written buf off s).
Proof.
  intros H0 Hl. rewrite wr_bytes_spec by lia. simpl. unfold wrZ. rewrite (proj2 (Z.ltb_ge _ 0)) by lia.
  rewrite wr_Ok by (rewrite !app_length, take_length, map_length, drop_length; lia). f_equal. unfold written.
  replace (Z.to_nat (off + Z.of_nat (length s))) with (length (take (Z.to_nat off) buf) + length s) by (rewrite take_length; lia).
  rewrite insert_app_r. f_equal.
  replace (length s) with (length (map (@Some Z) s) + 0) at 1 by (rewrite map_length; lia).
  rewrite insert_app_r. f_equal.
  destruct (drop (Z.to_nat off + length s) buf) as [|d r] eqn:E.
  { apply (f_equal length) in E. rewrite drop_length in E. simpl in E. lia. }
  simpl. f_equal. rewrite <- drop_drop, E. done.
Qed.

Lemma str_arg_fill_spec s buf off remaining :
  (0 <= off)%Z -> (1 <= remaining <= 2 ^ 52)%Z -> (off + remaining = Z.of_nat (length buf))%Z ->
  str_arg_fill s buf off remaining =
    if (Z.of_nat (length s) <? remaining)%Z then Ok (Z.of_nat (length s), written buf off s) else Ok ((-1)%Z, buf).
Proof.
  intros H0 Hr Hl. unfold str_arg_fill. rewrite Z.mod_small by lia.
  destruct (remaining <=? Z.of_nat (length s))%Z eqn:E.
  - by rewrite (proj2 (Z.ltb_ge _ _)) by lia.
  - rewrite (proj2 (Z.ltb_lt _ _)) by lia. 
    pose proof (wr_string s buf off H0 ltac:(lia)) as W.
    destruct (wr_bytes buf off s) as [b| |]; [|done|done]. simpl in W |- *. by rewrite W.
Qed.
Lemma snprintf_spec s buf off remaining :
  (0 <= off)%Z -> (1 <= remaining <= 2 ^ 52)%Z -> (off + remaining = Z.of_nat (length buf))%Z ->
  (Z.of_nat (length s) <= INT_MAX)%Z ->
  exists buf', snprintf buf off remaining s = Ok (Z.of_nat (length s), buf') /\ length buf' = length buf /\
    ((Z.of_nat (length s) < remaining)%Z -> buf' = written buf off s).
Proof.
  intros H0 Hr Hl Hi. unfold snprintf. rewrite (proj2 (Z.ltb_ge INT_MAX _)) by done.
  rewrite (proj2 (Z.leb_gt remaining 0)) by lia.
  set (out := take _ s). 
  assert (Ho : (Z.of_nat (length out) < remaining)%Z) by (unfold out; rewrite take_length; lia).
  pose proof (wr_string out buf off H0 ltac:(lia)) as W.
  destruct (wr_bytes buf off out) as [b| |]; [|done|done]. simpl in W |- *. rewrite W. simpl.
  eexists. split; [done|]. split; [apply written_length; lia|]. intros Hs.
  unfold out. rewrite take_ge by lia. done.
Qed.

Lemma decimal_ssize_spec k ds : (Z.of_nat k < XLEN_MAX)%Z -> writes (Z.of_nat k + 1) ds -> decimal_ssize (Z.of_nat k + 1) = Ok ds.
Proof.
  intros Hk W. unfold decimal_ssize.
  destruct (decimal_loop_spec 20 (Z.of_nat k + 1)) as (ds' & E & W' & _); [lia| |done|].
  - apply Z.le_lt_trans with XLEN_MAX; [lia|]. apply Z.ltb_lt; vm_compute; reflexivity.
  - rewrite E. f_equal. by apply (writes_unique (Z.of_nat k + 1)).
Qed.

Lemma r_name_at_spec names k : named_to names k -> r_name_at names (Z.of_nat k) = Ok (name_at names k).
Proof.
  unfold named_to, r_name_at, name_at. destruct names as [nms|]; [|done]. intros Hk.
  rewrite (proj2 (Z.leb_gt _ _)) by lia. destruct (lookup_lt_is_Some_2 nms k Hk) as [e E].
  rewrite rdZ_nat. unfold rd. rewrite E. simpl. destruct e as [[|c s]|]; simpl; unfold rstr in *; by rewrite E.
Qed.
Lemma counter_text_spec child name k s : (Z.of_nat k < XLEN_MAX)%Z -> element_text child name k s ->
  counter_text child name (Z.of_nat k) = Ok s.
Proof.
  intros Hk. destruct 1 as [| |k ds W|k ds W]; simpl; [done|done|..]; by rewrite (decimal_ssize_spec _ ds Hk W).
Qed.

(** What [arg_fill] does with a text: it writes it if it fits *)
Definition fills (a : arg) (s : bytes) : Prop :=
  forall buf off remaining, (0 <= off)%Z -> (1 <= remaining <= 2 ^ 52)%Z -> (off + remaining = Z.of_nat (length buf))%Z ->
  exists buf', arg_fill a buf off remaining =
      Ok (if (Z.of_nat (length s) <? remaining)%Z then Z.of_nat (length s) else (-1)%Z, buf') /\
    length buf' = length buf /\
    ((Z.of_nat (length s) < remaining)%Z -> buf' = written buf off s).

Lemma fills_str (a : arg) s : (forall buf off remaining, arg_fill a buf off remaining = str_arg_fill s buf off remaining) -> fills a s.
Proof.
  intros E buf off remaining H0 Hr Hl. rewrite E, str_arg_fill_spec by done.
  destruct (Z.ltb_spec (Z.of_nat (length s)) remaining); eexists; (split; [done|]); (split; [|done || lia]).
  - apply written_length; lia.
  - done.
Qed.
Lemma fills_counter child names k i s : (Z.of_nat i < XLEN_MAX)%Z -> named_to names k ->
  element_text child (name_at names k) i s -> (Z.of_nat (length s) <= INT_MAX)%Z ->
  forall buf off remaining, (0 <= off)%Z -> (1 <= remaining <= 2 ^ 52)%Z -> (off + remaining = Z.of_nat (length buf))%Z ->
  exists buf', counter_fill child names (Z.of_nat k) (Z.of_nat i) buf off remaining =
      Ok (if (Z.of_nat (length s) <? remaining)%Z then Z.of_nat (length s) else (-1)%Z, buf') /\
    length buf' = length buf /\
    ((Z.of_nat (length s) < remaining)%Z -> buf' = written buf off s).
Proof.
  intros Hi Hn Ht Hs buf off remaining H0 Hr Hl. unfold counter_fill.
  rewrite r_name_at_spec by done. simpl. rewrite (counter_text_spec _ _ _ s) by done. simpl.
  destruct (snprintf_spec s buf off remaining H0 Hr Hl Hs) as (buf' & -> & L & W). simpl.
  exists buf'. split; [|done]. f_equal. f_equal.
  destruct (Z.leb_spec remaining (Z.of_nat (length s))); destruct (Z.ltb_spec (Z.of_nat (length s)) remaining); done || lia.
Qed.

(** The texts of the parents of a link, and its own, are not longer than an [int]. *)
Fixpoint parents (a : arg) : list arg :=
  a :: match a with
       | ANull | ALazy _ => []
       | AStr p _ | ASub p _ _ _ | ACounter p _ _ _ _ => parents p
       end.
Definition short (a : arg) : Prop := forall b s, b ∈ parents a -> own b s -> (Z.of_nat (length s) <= INT_MAX)%Z.
Lemma short_parent a : a <> ANull -> short a -> short (arg_parent a).
Proof.
  intros Ha H b s Hb Ho. apply (H b s); [|done].
  destruct a; simpl in *; try done; try (by apply elem_of_cons; right).
  apply elem_of_list_singleton in Hb as ->. inversion Ho.
Qed.

Lemma own_fills a : short a -> forall s, own a s -> fills a s.
Proof.
  intros Hs. 
  assert (HP : forall p, match p with ANull => True | _ => forall s, own p s -> fills p s end ->
    forall child, shown p child ->
    match p with ANull => Ok true | _ => let! (w, _) := arg_fill p [None] 0 1 in Ok (w =? 0)%Z end = Ok (negb child)).
  { intros p Hp child Hc. destruct Hc as [|p Ho|p c s Ho]; [done|..].
    - destruct p; [inversion Ho|..];
        (destruct (Hp _ Ho [None] 0%Z 1%Z) as (b & E & _); [done|done|done|]; rewrite E; done).
    - destruct p; [inversion Ho|..];
        (destruct (Hp _ Ho [None] 0%Z 1%Z) as (b & E & _); [done|done|done|]; rewrite E; simpl length;
         rewrite (proj2 (Z.ltb_ge _ 1)) by lia; done). }
  induction a as [|p IH t|v|p IH names n i|p IHp q IH i names k]; intros s Ho.
  - inversion Ho.
  - inversion Ho; subst. by apply fills_str.
  - inversion Ho; subst; by apply fills_str.
  - inversion Ho as [| | |p' names' n' i' child s' Hc Hi Hn Ht|]; subst.
    assert (Hsp : short p) by (refine (short_parent (ASub p names n (Z.of_nat i')) _ Hs); done).
    intros buf off remaining H0 Hr Hl.
    assert (Ha : arg_fill (ASub p names n (Z.of_nat i')) buf off remaining = counter_fill child names (Z.of_nat i') (Z.of_nat i') buf off remaining).
    { cbn [arg_fill]. rewrite (proj2 (Z.leb_gt n _)) by lia. rewrite (HP p) with (child := child); [|destruct p; try done; by apply IH|done].
      cbn [bind]. by rewrite negb_involutive. }
    rewrite Ha. apply fills_counter; try done; [lia|]. apply (Hs (ASub p names n (Z.of_nat i'))); [apply elem_of_cons; by left|done].
  - inversion Ho as [| | | |p' i' names' k' child s' Hc Hi Hn Ht]; subst.
    assert (Hsp : short q) by (refine (short_parent (ACounter q q (Z.of_nat i') names (Z.of_nat k')) _ Hs); done).
    intros buf off remaining H0 Hr Hl.
    assert (Ha : arg_fill (ACounter q q (Z.of_nat i') names (Z.of_nat k')) buf off remaining = counter_fill child names (Z.of_nat k') (Z.of_nat i') buf off remaining).
    { cbn [arg_fill]. rewrite (HP q) with (child := child); [|destruct q; try done; by apply IH|done].
      cbn [bind]. by rewrite negb_involutive. }
    rewrite Ha. apply fills_counter; try done. apply (Hs (ACounter q q (Z.of_nat i') names (Z.of_nat k'))); [apply elem_of_cons; by left|done].
Qed.

Lemma element_text_det child name k s s' : element_text child name k s -> element_text child name k s' -> s = s'.
Proof.
  destruct 1 as [| |k ds W|k ds W]; inversion 1; subst; try done.
  - by rewrite (writes_unique (Z.of_nat k + 1) ds ds0).
  - by rewrite (writes_unique (Z.of_nat k + 1) ds ds0).
Qed.
Lemma own_det a : forall s s', own a s -> own a s' -> s = s'.
Proof.
  assert (HP : forall p, (forall s s', own p s -> own p s' -> s = s') -> forall c c', shown p c -> shown p c' -> c = c').
  { intros p Hp c c'. destruct 1 as [|p Ho|p d s Ho]; inversion 1 as [|? Ho'|? d' s' Ho']; subst; try done; try (by inversion Ho); try by inversion Ho'.
    - by pose proof (Hp _ _ Ho Ho').
    - by pose proof (Hp _ _ Ho Ho'). }
  induction a as [|p IH t|v|p IH names n i|p IHp q IH i names k]; intros s s' H H'.
  - inversion H.
  - inversion H; inversion H'; by subst.
  - inversion H; inversion H'; by subst; try congruence.
  - inversion H as [| | |p1 n1 m1 i1 c1 s1 Hc1 Hi1 Hn1 Ht1|]; subst.
    inversion H' as [| | |p2 n2 m2 i2 c2 s2 Hc2 Hi2 Hn2 Ht2|]; subst.
    assert (i1 = i2) as -> by lia. rewrite (HP p IH _ _ Hc1 Hc2) in Ht1. by apply (element_text_det c2 (name_at names i2) i2).
  - inversion H as [| | | |p1 i1 n1 k1 c1 s1 Hc1 Hi1 Hn1 Ht1]; subst.
    inversion H' as [| | | |p2 i2 n2 k2 c2 s2 Hc2 Hi2 Hn2 Ht2]; subst.
    assert (i1 = i2) as -> by lia. assert (k1 = k2) as -> by lia. 
    rewrite (HP q IH _ _ Hc1 Hc2) in Ht1. by apply (element_text_det c2 (name_at names k2) i2).
Qed.
(** The links of a tag are not longer than the tag. *)
Lemma tag_short a s : tag a s -> (Z.of_nat (length s) <= INT_MAX)%Z -> short a.
Proof.
  induction 1 as [|a ps s Ha Hp IH Ho]; intros Hl b t Hb Hob.
  { apply elem_of_list_singleton in Hb as ->. inversion Hob. }
  rewrite app_length in Hl. 
  assert (Hab : b = a \/ b ∈ parents (arg_parent a)).
  { destruct a; simpl in Hb |- *; apply elem_of_cons in Hb as [|Hb]; try (by left); try (by right); by apply elem_of_nil in Hb. }
  destruct Hab as [->|Hab].
  - rewrite (own_det _ _ _ Hob Ho). lia.
  - apply (IH ltac:(lia) b); done.
Qed.
Lemma short_own a b s : short a -> b ∈ parents a -> own b s -> (Z.of_nat (length s) <= INT_MAX)%Z.
Proof. intros H. apply H. Qed.

Lemma arg_null_dec a : a = ANull \/ a <> ANull.
Proof. destruct a; auto. Qed.
Definition parent_fill (p : arg) (buf : buffer) (cur tot : Z) : res (Z * buffer) :=
  match p with ANull => Ok (cur, buf) | _ => fill_arg_buffer p buf cur tot end.
Lemma fill_unfold a buf cur tot : a <> ANull ->
  fill_arg_buffer a buf cur tot =
  let! (cur_size, buf) := parent_fill (arg_parent a) buf cur tot in
  if (cur_size <? 0)%Z then Ok (cur_size, buf)
  else
    let! (written, buf) := arg_fill a buf cur_size (tot - cur_size) in
    if (written <? 0)%Z then Ok (to_int written, buf) else Ok (to_int (cur_size + written), buf).
Proof. intros Ha. destruct a as [|p ?|?|p ? ? ?|p ? ? ? ?]; try done; destruct p; done. Qed.
Lemma to_int_id z : (-1 <= z <= INT_MAX)%Z -> to_int z = z.
Proof. intros H. unfold to_int. rewrite Z.mod_small; unfold INT_MAX in H; lia. Qed.

Lemma fill_arg_buffer_spec a s : tag a s -> a <> ANull -> (Z.of_nat (length s) <= INT_MAX)%Z -> short a ->
  forall buf, (1 <= Z.of_nat (length buf) <= 2 ^ 52)%Z ->
  exists buf', fill_arg_buffer a buf 0 (Z.of_nat (length buf)) =
     Ok (if (Z.of_nat (length s) <? Z.of_nat (length buf))%Z then Z.of_nat (length s) else (-1)%Z, buf') /\
   length buf' = length buf /\
   ((Z.of_nat (length s) < Z.of_nat (length buf))%Z -> take (length s + 1) buf' = map Some s ++ [Some 0%Z]).
Proof.
  intros Ht. induction Ht as [|a ps s Ha Hp IH Ho]; [done|]. intros _ Hl Hsh buf Hb.
  rewrite fill_unfold by done. rewrite app_length in Hl |- *.
  assert (E : exists buf1, parent_fill (arg_parent a) buf 0 (Z.of_nat (length buf))
     = Ok (if (Z.of_nat (length ps) <? Z.of_nat (length buf))%Z then Z.of_nat (length ps) else (-1)%Z, buf1) /\ length buf1 = length buf /\
     ((Z.of_nat (length ps) < Z.of_nat (length buf))%Z -> take (length ps) buf1 = map Some ps)).
  { destruct (arg_null_dec (arg_parent a)) as [En|En].
    - rewrite En in *. inversion Hp; subst; [|done]. exists buf. rewrite (proj2 (Z.ltb_lt _ _)) by (simpl; lia). done.
    - destruct (IH En ltac:(lia) (short_parent _ Ha Hsh) buf Hb) as (b1 & E1 & L1 & T1). exists b1. split; [|split; [done|]].
      + by destruct (arg_parent a).
      + intros Hlt. specialize (T1 Hlt). apply (f_equal (take (length ps))) in T1.
        rewrite take_take, Nat.min_l in T1 by lia. rewrite T1, take_app_alt by (by rewrite map_length). done. }
  destruct E as (b1 & -> & L1 & T1). cbn [bind].
  destruct (Z.ltb_spec (Z.of_nat (length ps)) (Z.of_nat (length buf))) as [Hlt|Hge].
  - rewrite (proj2 (Z.ltb_ge _ 0)) by lia. specialize (T1 Hlt).
    destruct (own_fills a Hsh s Ho b1 (Z.of_nat (length ps)) (Z.of_nat (length buf) - Z.of_nat (length ps))%Z) as (b2 & -> & L2 & W2); [lia|lia|lia|].
    cbn [bind].
    destruct (Z.ltb_spec (Z.of_nat (length s)) (Z.of_nat (length buf) - Z.of_nat (length ps))) as [Hf|Hf].
    + rewrite (proj2 (Z.ltb_ge _ 0)) by lia. rewrite to_int_id by lia. rewrite (proj2 (Z.ltb_lt _ (Z.of_nat (length buf)))) by lia.
      eexists. split; [f_equal; f_equal; lia|]. split; [lia|]. intros _. rewrite (W2 Hf). unfold written.
      rewrite Nat2Z.id, T1, map_app, !(assoc_L (++)). apply take_app_alt. rewrite !app_length, !map_length. done.
    + rewrite (proj2 (Z.ltb_lt (-1) 0)) by lia. rewrite to_int_id by (unfold INT_MAX; lia). rewrite (proj2 (Z.ltb_ge _ (Z.of_nat (length buf)))) by lia.
      eexists. split; [done|]. split; [lia|]. lia.
  - rewrite (proj2 (Z.ltb_lt (-1) 0)) by lia. rewrite (proj2 (Z.ltb_ge _ (Z.of_nat (length buf)))) by lia.
    eexists. split; [done|]. split; [done|]. lia.
Qed.

Lemma r_chr_spec s buf : Forall (fun c => c <> 0%Z) s -> take (length s + 1) buf = map Some s ++ [Some 0%Z] -> r_chr buf = Ok s.
Proof.
  revert buf. induction s as [|c s IH]; intros buf Hs Ht; simpl in Ht.
  - destruct buf as [|b buf]; [done|]. injection Ht as ->. done.
  - destruct buf as [|b buf]; [done|]. injection Ht as -> Ht. apply Forall_cons in Hs as [Hc Hs]. simpl.
    rewrite (proj2 (Z.eqb_neq _ _)) by done. by rewrite (IH _ Hs Ht).
Qed.

Lemma vctrs_arg_loop_spec a s : tag a s -> a <> ANull -> r_string s ->
  forall k fuel size, 2 * k + 1 <= fuel -> (2 <= size <= 2 ^ 33)%Z -> (Z.of_nat (length s) < size * 2 ^ Z.of_nat k)%Z ->
  vctrs_arg_loop fuel a size = Ok s.
Proof.
  intros Ht Ha [Hz Hl]. pose proof (tag_short _ _ Ht Hl) as Hsh.
  assert (H1 : forall fuel size, (2 <= size <= 2 ^ 33)%Z -> (Z.of_nat (length s) < size)%Z -> vctrs_arg_loop (Datatypes.S fuel) a size = Ok s).
  { intros fuel size Hsz Hlt. cbn [vctrs_arg_loop]. rewrite (proj2 (Z.ltb_ge XLEN_MAX _)) by (unfold XLEN_MAX; lia).
    destruct (fill_arg_buffer_spec a s Ht Ha Hl Hsh (replicate (Z.to_nat size) None)) as (b & E & _ & T); rewrite ?replicate_length in *; [lia|].
    rewrite Z2Nat.id in * by lia. rewrite E. cbn [bind]. rewrite (proj2 (Z.ltb_lt _ size)) by done.
    rewrite (proj2 (Z.ltb_ge _ 0)) by lia. by apply r_chr_spec, T. }
  assert (H2 : forall fuel size, (2 <= size <= 2 ^ 33)%Z -> (size <= Z.of_nat (length s))%Z -> vctrs_arg_loop (Datatypes.S fuel) a size = vctrs_arg_loop fuel a (size * 3 / 2)).
  { intros fuel size Hsz Hlt. cbn [vctrs_arg_loop]. rewrite (proj2 (Z.ltb_ge XLEN_MAX _)) by (unfold XLEN_MAX; lia).
    destruct (fill_arg_buffer_spec a s Ht Ha Hl Hsh (replicate (Z.to_nat size) None)) as (b & E & _ & T); rewrite ?replicate_length in *; [lia|].
    rewrite Z2Nat.id in * by lia. rewrite E. cbn [bind]. rewrite (proj2 (Z.ltb_ge _ size)) by done. done. }
  unfold INT_MAX in Hl.
  induction k as [|k IH]; intros fuel size Hf Hsz Hlt.
  { destruct fuel; [lia|]. apply H1; [done|lia]. }
  destruct fuel as [|[|fuel]]; [lia|lia|].
  destruct (Z.lt_ge_cases (Z.of_nat (length s)) size) as [Hc|Hc]; [by apply H1|].
  rewrite H2 by done. set (size1 := (size * 3 / 2)%Z).
  assert (Hs1 : (2 <= size1 <= 2 ^ 33)%Z) by (unfold size1; lia).
  destruct (Z.lt_ge_cases (Z.of_nat (length s)) size1) as [Hc1|Hc1]; [by apply H1|].
  rewrite H2 by done. apply IH; [lia|lia|].
  replace (2 ^ Z.of_nat (Datatypes.S k))%Z with (2 * 2 ^ Z.of_nat k)%Z in Hlt by (rewrite Nat2Z.inj_succ, Z.pow_succ_r by lia; done).
  assert (0 < 2 ^ Z.of_nat k)%Z by (apply Z.pow_pos_nonneg; lia).
  assert (2 * size <= size1 * 3 / 2)%Z by (unfold size1; lia). nia.
Qed.

(** Whatever the tag of an argument, it is written in full: the buffer is grown
    until it fits, and nothing is written past its end. *)
Theorem C48_tag a s : tag a s -> r_string s -> vctrs_arg a = Ok s.
Proof.
  intros Ht Hs. unfold vctrs_arg. destruct (arg_null_dec a) as [->|Ha].
  { inversion Ht; done. }
  assert (E : vctrs_arg_loop 100 a 100 = Ok s).
  { apply (vctrs_arg_loop_spec a s Ht Ha Hs 30); [lia|lia|]. destruct Hs as [_ Hl]. unfold INT_MAX in Hl. lia. }
  by destruct a.
Qed.

(** ** Reductions *)
#[local] Opaque vctrs_arg.
Section run.
  Context {A X : Type} (impl : A -> X -> res bytes -> res bytes -> res (A * bool)).
  Context (ct nt : nat -> res bytes).
  Fixpoint run (current : A) (current_tag : res bytes) (k : nat) (xs : list X) : res A :=
    match xs with
    | [] => Ok current
    | x :: xs =>
        let! (current, taken) := impl current x current_tag (nt k) in
        run current (if taken : bool then ct k else current_tag) (k + 1) xs
    end.
End run.

Definition sides_ok (c : counters) : Prop :=
  (c_cc_data c = SCurr /\ c_cd_i c = SCurr /\ c_cd_names_i c = SCurr /\ c_nc_data c = SNext /\ c_nd_i c = SNext /\ c_nd_names_i c = SNext) \/
  (c_cc_data c = SNext /\ c_nd_i c = SCurr /\ c_nd_names_i c = SCurr /\ c_nc_data c = SCurr /\ c_cd_i c = SNext /\ c_cd_names_i c = SNext).
Record counters_ok (parent : arg) (names : option (list rstr)) (k : nat) (current_tag : res bytes) (c : counters) : Prop := CountersOk {
  co_sides : sides_ok c;
  co_next : c_next c = Z.of_nat k;
  co_names : c_names c = names;
  co_names_curr : c_names_curr c = 0%Z;
  co_names_next : c_names_next c = Z.of_nat k;
  co_next_arg : c_next_arg c = HNext 0;
  co_curr : (exists a, c_curr_arg c = HExt a /\ current_tag = vctrs_arg a) \/
            (c_curr_arg c = HCurr 0 /\ current_tag = vctrs_arg (ACounter parent parent (c_curr c) names 0)) }.

Lemma counters_inc_ok parent names k t c : counters_ok parent names k t c -> counters_ok parent names (k + 1) t (counters_inc c).
Proof.
  intros [Hs Hn Hnm Hnc Hnn Ha Hc]. 
  apply CountersOk; simpl; [exact Hs|lia|done|done|lia|done|exact Hc].
Qed.
Lemma counters_shift_ok parent names k t c : counters_ok parent names k t c ->
  counters_ok parent names k (vctrs_arg (ACounter parent parent (Z.of_nat k) names 0)) (counters_shift 0 c).
Proof.
  intros [Hs Hn Hnm Hnc Hnn Ha Hc].
  apply CountersOk; simpl; [|done|done|done|done|done|].
  - unfold sides_ok in *; simpl. destruct Hs as [(E1 & E2 & E3 & E4 & E5 & E6)|(E1 & E2 & E3 & E4 & E5 & E6)];
      rewrite E1, E2, E3, E4, E5, E6; [right|left]; done.
  - right. by rewrite Hn.
Qed.

Lemma reduce_call_spec {A X} (impl : A -> X -> res bytes -> res bytes -> res (A * bool)) parent names k t c next prev current x :
  counters_ok parent names k t c ->
  reduce_call impl parent 0 (RState [c] next prev) current x =
  let! (current, taken) := impl current x t (vctrs_arg (ACounter parent parent (Z.of_nat k) names (Z.of_nat k))) in
  Ok (current, RState [if taken : bool then counters_shift 0 c else c] next prev).
Proof.
  intros [Hs Hn Hnm Hnc Hnn Ha Hc]. unfold reduce_call.
  assert (Eg : get_counters (RState [c] next prev) 0 = Ok c) by done. rewrite Eg. cbn [bind].
  assert (E1 : handle_tag parent (RState [c] next prev) (c_curr_arg c) = t).
  { destruct Hc as [(a & -> & ->)|[-> ->]]; [done|]. unfold handle_tag, deref. rewrite Eg. cbn [bind].
    destruct Hs as [(-> & S2 & S3 & _)|(-> & S2 & S3 & _)]; unfold counter_arg; rewrite S2, S3; simpl; by rewrite Hnm, Hnc. }
  assert (E2 : handle_tag parent (RState [c] next prev) (c_next_arg c) = vctrs_arg (ACounter parent parent (Z.of_nat k) names (Z.of_nat k))).
  { rewrite Ha. unfold handle_tag, deref. rewrite Eg. cbn [bind].
    destruct Hs as [(_ & _ & _ & -> & S2 & S3)|(_ & _ & _ & -> & S2 & S3)]; unfold counter_arg; rewrite S2, S3; simpl; by rewrite Hn, Hnm, Hnn. }
  rewrite E1, E2. destruct (impl current x t _) as [[cur sh]| |]; [|done|done]. cbn [bind]. by destruct sh.
Qed.

Lemma reduce_impl_run {A X} (impl : A -> X -> res bytes -> res bytes -> res (A * bool)) parent names next prev :
  forall (xs : list X) k t c current, counters_ok parent names k t c ->
  (let! (out, _) := reduce_impl impl parent (RState [c] next prev) current (map IOne xs) in Ok out) =
  run impl (fun j => vctrs_arg (ACounter parent parent (Z.of_nat j) names 0))
           (fun j => vctrs_arg (ACounter parent parent (Z.of_nat j) names (Z.of_nat j))) current t k xs.
Proof.
  induction xs as [|x xs IH]; intros k t c current Hc; [done|]. cbn [map reduce_impl run].
  rewrite (reduce_call_spec impl parent names k t) by done.
  destruct (impl current x t _) as [[cur sh]| |]; [|done|done]. cbn [bind].
  assert (Ei : forall d, inc_call 0 (RState [d] next prev) = Ok (RState [counters_inc d] next prev)) by done.
  rewrite Ei. cbn [bind]. apply IH. apply counters_inc_ok. destruct sh; [|done]. by apply (counters_shift_ok parent names k t).
Qed.

Lemma reduce_run {A X} (impl : A -> X -> res bytes -> res bytes -> res (A * bool)) parent names a (xs : list X) current :
  reduce impl parent current a names (map IOne xs) =
  run impl (fun j => vctrs_arg (ACounter parent parent (Z.of_nat j) names 0))
           (fun j => vctrs_arg (ACounter parent parent (Z.of_nat j) names (Z.of_nat j))) current (vctrs_arg a) 0 xs.
Proof.
  apply reduce_impl_run. apply CountersOk; try done.
  - by left.
  - left. by exists a.
Qed.

Lemma input_tag_counter parent names k m s : (Z.of_nat k < XLEN_MAX)%Z -> named_to names m -> name_at names m = name_at names k ->
  input_tag parent names k s -> vctrs_arg (ACounter parent parent (Z.of_nat k) names (Z.of_nat m)) = Ok s.
Proof.
  intros Hk Hm En (Hs & ps & child & t & Hp & Hc & Ht & ->). apply C48_tag; [|done].
  apply tag_link; [done|done|]. rewrite <- En in Ht. by apply (own_counter parent k names m child).
Qed.

(** When the inputs have no names, a reduction is told which input gave the
    current value and which one comes next. *)
Theorem C48_reduce {A X} (impl : A -> X -> res bytes -> res bytes -> res (A * bool)) parent a (xs : list X) current s0 tag_at :
  (Z.of_nat (length xs) <= XLEN_MAX)%Z -> tag a s0 -> r_string s0 ->
  (forall k, k < length xs -> input_tag parent None k (tag_at k)) ->
  reduce impl parent current a None (map IOne xs) = reduction impl tag_at current s0 0 xs.
Proof.
  intros Hl Ha Hs Ht. rewrite reduce_run, (C48_tag a s0) by done.
  assert (HG : forall n k, k + length (drop n xs) <= length xs -> forall current s,
    run impl (fun j => vctrs_arg (ACounter parent parent (Z.of_nat j) None 0))
             (fun j => vctrs_arg (ACounter parent parent (Z.of_nat j) None (Z.of_nat j))) current (Ok s) k (drop n xs)
    = reduction impl tag_at current s k (drop n xs)); [|apply (HG 0 0); done].
  intros n. generalize (drop n xs). intros ys. induction ys as [|y ys IH]; intros k Hk cur s; [done|]. simpl in Hk |- *.
  assert (E : forall m, vctrs_arg (ACounter parent parent (Z.of_nat k) None (Z.of_nat m)) = Ok (tag_at k)).
  { intros m. apply input_tag_counter; [lia|done|done|]. apply Ht. lia. }
  rewrite (E k). change 0%Z with (Z.of_nat 0). rewrite (E 0).
  destruct (impl cur y (Ok s) (Ok (tag_at k))) as [[c sh]| |]; [|done|done]. cbn [bind].
  destruct sh; apply IH; lia.
Qed.

(** ** A splice box at the end *)
Lemma arg_fill_nameless parent i m m' buf off rem :
  arg_fill (ACounter parent parent i None m) buf off rem = arg_fill (ACounter parent parent i None m') buf off rem.
Proof. done. Qed.
Lemma loop_nameless parent i m m' n : forall z,
  vctrs_arg_loop n (ACounter parent parent i None m) z = vctrs_arg_loop n (ACounter parent parent i None m') z.
Proof.
  assert (E : forall buf c t, fill_arg_buffer (ACounter parent parent i None m) buf c t = fill_arg_buffer (ACounter parent parent i None m') buf c t) by (intros; reflexivity).
  induction n as [|n IH]; intros z; [reflexivity|].
  cbn [vctrs_arg_loop]. rewrite E. destruct (XLEN_MAX <? z)%Z; [reflexivity|].
  destruct (fill_arg_buffer _ _ _ _) as [[w b]| |]; [|reflexivity..]. cbn [bind]. destruct (w <? 0)%Z; [apply IH|reflexivity].
Qed.
#[local] Transparent vctrs_arg.
Lemma counter_nameless parent i m m' :
  vctrs_arg (ACounter parent parent i None m) = vctrs_arg (ACounter parent parent i None m').
Proof. exact (loop_nameless parent i m m' 100 100%Z). Qed.
#[local] Opaque vctrs_arg.

Record box_ok (parent : arg) (c : counters) (k : nat) (current_tag : res bytes) (b : counters) : Prop := BoxOk {
  bo_sides : sides_ok b;
  bo_next : c_next b = Z.of_nat k;
  bo_names : c_names b = None;
  bo_next_arg : c_next_arg b = HNext 1;
  bo_curr : (forall b', handle_tag parent (RState [c; b'] (Some 1) None) (c_curr_arg b) = current_tag) \/
            (c_curr_arg b = HCurr 1 /\ current_tag = vctrs_arg (ACounter parent parent (c_curr b) None 0)) }.

Lemma box_call_spec {A X} (impl : A -> X -> res bytes -> res bytes -> res (A * bool)) parent c k t b current x :
  box_ok parent c k t b ->
  reduce_call impl parent 1 (RState [c; b] (Some 1) None) current x =
  let! (current, taken) := impl current x t (vctrs_arg (ACounter parent parent (Z.of_nat k) None (Z.of_nat k))) in
  Ok (current, RState [c; if taken : bool then counters_shift 1 b else b] (Some 1) None).
Proof.
  intros [Hs Hn Hnm Ha Hc]. unfold reduce_call.
  assert (Eg : get_counters (RState [c; b] (Some 1) None) 1 = Ok b) by done. rewrite Eg. cbn [bind].
  assert (E1 : handle_tag parent (RState [c; b] (Some 1) None) (c_curr_arg b) = t).
  { destruct Hc as [Hc|[-> ->]]; [by rewrite Hc|]. unfold handle_tag, deref. rewrite Eg. cbn [bind].
    destruct Hs as [(-> & S2 & S3 & _)|(-> & S2 & S3 & _)]; unfold counter_arg; rewrite S2, S3; simpl; rewrite Hnm; apply counter_nameless. }
  assert (E2 : handle_tag parent (RState [c; b] (Some 1) None) (c_next_arg b) = vctrs_arg (ACounter parent parent (Z.of_nat k) None (Z.of_nat k))).
  { rewrite Ha. unfold handle_tag, deref. rewrite Eg. cbn [bind].
    destruct Hs as [(_ & _ & _ & -> & S2 & S3)|(_ & _ & _ & -> & S2 & S3)]; unfold counter_arg; rewrite S2, S3; simpl; rewrite Hn, Hnm; apply counter_nameless. }
  rewrite E1, E2. destruct (impl current x t _) as [[cur sh]| |]; [|done|done]. cbn [bind]. by destruct sh.
Qed.
Lemma box_inc_ok parent c k t b : box_ok parent c k t b -> box_ok parent c (k + 1) t (counters_inc b).
Proof. intros [Hs Hn Hnm Ha Hc]. apply BoxOk; simpl; [exact Hs|lia|done|done|exact Hc]. Qed.
Lemma box_shift_ok parent c k t b : box_ok parent c k t b ->
  box_ok parent c k (vctrs_arg (ACounter parent parent (Z.of_nat k) None 0)) (counters_shift 1 b).
Proof.
  intros [Hs Hn Hnm Ha Hc].
  apply BoxOk; simpl; [|done|done|done|].
  - unfold sides_ok in *; simpl. destruct Hs as [(E1 & E2 & E3 & E4 & E5 & E6)|(E1 & E2 & E3 & E4 & E5 & E6)];
      rewrite E1, E2, E3, E4, E5, E6; [right|left]; done.
  - right. by rewrite Hn.
Qed.
Lemma reduce_spliced_run {A X} (impl : A -> X -> res bytes -> res bytes -> res (A * bool)) parent c :
  forall (xs : list X) k t b current, box_ok parent c k t b ->
  match reduce_spliced impl parent 1 (RState [c; b] (Some 1) None) current xs with
  | Ok (out, st) => exists b', st = RState [c; b'] (Some 1) None /\
     run impl (fun j => vctrs_arg (ACounter parent parent (Z.of_nat j) None 0))
           (fun j => vctrs_arg (ACounter parent parent (Z.of_nat j) None (Z.of_nat j))) current t k xs = Ok out
  | Err e => run impl (fun j => vctrs_arg (ACounter parent parent (Z.of_nat j) None 0))
           (fun j => vctrs_arg (ACounter parent parent (Z.of_nat j) None (Z.of_nat j))) current t k xs = Err e
  | UB e => run impl (fun j => vctrs_arg (ACounter parent parent (Z.of_nat j) None 0))
           (fun j => vctrs_arg (ACounter parent parent (Z.of_nat j) None (Z.of_nat j))) current t k xs = UB e
  end.
Proof.
  induction xs as [|x xs IH]; intros k t b current Hb; [by exists b|]. cbn [reduce_spliced run].
  rewrite (box_call_spec impl parent c k t) by done.
  destruct (impl current x t _) as [[cur sh]| |]; [|done|done]. cbn [bind].
  assert (Ei : forall d, inc_call 1 (RState [c; d] (Some 1) None) = Ok (RState [c; counters_inc d] (Some 1) None)) by done.
  rewrite Ei. cbn [bind]. apply IH. apply box_inc_ok. destruct sh; [|done]. by apply (box_shift_ok parent c k t).
Qed.
Lemma reduce_box_run {A X} (impl : A -> X -> res bytes -> res bytes -> res (A * bool)) parent (ys : list X) :
  forall (xs : list X) k t c current, counters_ok parent None k t c ->
  (let! (out, _) := reduce_impl impl parent (RState [c] None None) current (map IOne xs ++ [IBox None ys]) in Ok out) =
  run impl (fun j => vctrs_arg (ACounter parent parent (Z.of_nat j) None 0))
           (fun j => vctrs_arg (ACounter parent parent (Z.of_nat j) None (Z.of_nat j))) current t k (xs ++ ys).
Proof.
  induction xs as [|x xs IH]; intros k t c current Hc.
  - cbn [map app reduce_impl]. unfold reduce_splice_box, init_next_box_counters.
    assert (Eg : get_counters (RState [c] None None) 0 = Ok c) by reflexivity. rewrite Eg. cbn [bind st_heap length app st_next].
    set (b := Counters _ _ _ _ _ _ _ _ _ _ _ _ _).
    assert (Hb : box_ok parent c k t b).
    { destruct Hc as [Hs Hn Hnm Hnc Hnn Ha Hc]. apply BoxOk; [by left|exact Hn|reflexivity|reflexivity|].
      left. intros b'. change (c_curr_arg b) with (c_curr_arg c). destruct Hc as [(a & -> & ->)|[-> ->]]; [reflexivity|]. unfold handle_tag, deref.
      assert (Eg' : get_counters (RState [c; b'] (Some 1) None) 0 = Ok c) by reflexivity. rewrite Eg'. cbn [bind].
      destruct Hs as [(-> & S2 & S3 & _)|(-> & S2 & S3 & _)]; unfold counter_arg; rewrite S2, S3; simpl; by rewrite Hnm, Hnc. }
    pose proof (reduce_spliced_run impl parent c ys k t b current Hb) as HR. cbn [bind].
    destruct (reduce_spliced impl parent 1 _ current ys) as [[out st]| |]; cbn [bind]; [|by rewrite HR..].
    destruct HR as (b' & -> & ->). reflexivity.
  - cbn [map app reduce_impl run].
    rewrite (reduce_call_spec impl parent None k t) by done.
    destruct (impl current x t _) as [[cur sh]| |]; [|done|done]. cbn [bind].
    assert (Ei : forall d, inc_call 0 (RState [d] None None) = Ok (RState [counters_inc d] None None)) by done.
    rewrite Ei. cbn [bind]. apply IH. apply counters_inc_ok. destruct sh; [|done]. by apply (counters_shift_ok parent None k t).
Qed.

(** The elements of a splice box that is the last input are numbered on from the
    inputs before it. *)
Theorem C48_box {A X} (impl : A -> X -> res bytes -> res bytes -> res (A * bool)) parent a (xs ys : list X) current s0 tag_at :
  (Z.of_nat (length (xs ++ ys)) <= XLEN_MAX)%Z -> tag a s0 -> r_string s0 ->
  (forall k, k < length (xs ++ ys) -> input_tag parent None k (tag_at k)) ->
  reduce impl parent current a None (map IOne xs ++ [IBox None ys]) = reduction impl tag_at current s0 0 (xs ++ ys).
Proof.
  intros Hl Ha Hs Ht. rewrite <- (C48_reduce impl parent a (xs ++ ys) current s0 tag_at) by done.
  rewrite reduce_run. apply reduce_box_run. apply CountersOk; try done.
  - by left.
  - left. by exists a.
Qed.
Example C48_box_example :
  size_common_tags ANull None (map IOne [Some 1; Some 1]%Z ++ [IBox None [Some 2; Some 3]%Z]) = Err "..3 and ..4".
Proof. vm_compute. reflexivity. Qed.

(** With names, the tag of the next input is right (the tag of the current value
    is not, see below): a reduction that does not use the tag of the current
    value does as it should. *)
Theorem C48_next {A X} (impl : A -> X -> res bytes -> res bytes -> res (A * bool)) parent a nms (xs : list X) current s0 tag_at :
  (forall cur x t t' n, impl cur x t n = impl cur x t' n) ->
  (Z.of_nat (length xs) <= XLEN_MAX)%Z -> length nms = length xs ->
  (forall k, k < length xs -> input_tag parent (Some nms) k (tag_at k)) ->
  reduce impl parent current a (Some nms) (map IOne xs) = reduction impl tag_at current s0 0 xs.
Proof.
  intros Hi Hl Hn Ht. rewrite reduce_run.
  assert (HG : forall n k, k + length (drop n xs) <= length xs -> forall current t s,
    run impl (fun j => vctrs_arg (ACounter parent parent (Z.of_nat j) (Some nms) 0))
             (fun j => vctrs_arg (ACounter parent parent (Z.of_nat j) (Some nms) (Z.of_nat j))) current t k (drop n xs)
    = reduction impl tag_at current s k (drop n xs)); [|apply (HG 0 0); done].
  intros n. generalize (drop n xs). intros ys. induction ys as [|y ys IH]; intros k Hk cur t s; [done|]. simpl in Hk |- *.
  rewrite (input_tag_counter parent (Some nms) k k (tag_at k)); [|lia|simpl; lia|done|apply Ht; lia].
  rewrite (Hi cur y t (Ok s)).
  destruct (impl cur y (Ok s) (Ok (tag_at k))) as [[c sh]| |]; [|done|done]. cbn [bind].
  apply IH; lia.
Qed.

(** The sizes of inputs without names: an error names two inputs whose sizes are
    incompatible. *)
Theorem C48_size parent (xs : list (option Z)) tag_at :
  (Z.of_nat (length xs) <= XLEN_MAX)%Z ->
  (forall k, k < length xs -> input_tag parent None k (tag_at k)) ->
  match size_common_tags parent None (map IOne xs) with
  | Ok _ => True
  | Err m => exists i j nx ny, i < j /\ xs !! i = Some (Some nx) /\ xs !! j = Some (Some ny) /\
      nx <> ny /\ nx <> 1%Z /\ ny <> 1%Z /\ @size_error unit (tag_at i) (tag_at j) = Err m
  | UB _ => False
  end.
Proof.
  intros Hl Ht. unfold size_common_tags. rewrite (C48_reduce _ _ _ xs None [] tag_at); [|done| |by split|done].
  2:{ change (@nil Z) with (@nil Z ++ []) at 2. apply tag_link; [done|apply tag_null|apply own_str]. }
  assert (HG : forall ys k cur s, drop k xs = ys ->
    match cur with None => True | Some nx => exists i, i < k /\ xs !! i = Some (Some nx) /\ s = tag_at i end ->
    match reduction vctrs_size2_common tag_at cur s k ys with
    | Ok _ => True
    | Err m => exists i j nx ny, i < j /\ xs !! i = Some (Some nx) /\ xs !! j = Some (Some ny) /\
        nx <> ny /\ nx <> 1%Z /\ ny <> 1%Z /\ @size_error unit (tag_at i) (tag_at j) = Err m
    | UB _ => False
    end); [|by apply (HG xs 0)].
  induction ys as [|y ys IH]; intros k cur s Hd Hc; [done|].
  assert (Hy : xs !! k = Some y).
  { rewrite <- (Nat.add_0_r k), <- lookup_drop, Hd. done. }
  assert (Hd' : drop (k + 1) xs = ys) by (rewrite <- drop_drop, Hd; done).
  assert (HN : forall c s', match c with None => True | Some nx => exists i, i < k + 1 /\ xs !! i = Some (Some nx) /\ s' = tag_at i end -> match reduction vctrs_size2_common tag_at c s' (k + 1) ys with
    | Ok _ => True
    | Err m => exists i j nx ny, i < j /\ xs !! i = Some (Some nx) /\ xs !! j = Some (Some ny) /\
        nx <> ny /\ nx <> 1%Z /\ ny <> 1%Z /\ @size_error unit (tag_at i) (tag_at j) = Err m
    | UB _ => False
    end) by (intros; by apply IH).
  cbn [reduction]. unfold vctrs_size2_common at 1. destruct cur as [nx|].
  - destruct Hc as (i & Hi & Hx & ->).
    assert (Hk : exists i', i' < k + 1 /\ xs !! i' = Some (Some nx) /\ tag_at i = tag_at i') by (exists i; split; [lia|done]).
    destruct y as [ny|]; [|by apply HN].
    destruct (Z.eqb_spec nx ny) as [->|H1]; [by apply HN|].
    destruct (Z.eqb_spec nx 1) as [->|H2]; [cbn [bind]; apply HN; exists k; split; [lia|done]|].
    destruct (Z.eqb_spec ny 1) as [->|H3]; [by apply HN|]. cbn [bind].
    unfold size_error at 1. cbn [bind]. exists i, k, nx, ny. done.
  - cbn [bind]. apply HN. destruct y as [ny|]; [|done]. exists k. split; [lia|done].
Qed.

Definition s_foo : bytes := [102; 111; 111]%Z.
Definition s_bar : bytes := [98; 97; 114]%Z.
Definition s_baz : bytes := [98; 97; 122]%Z.
Lemma writes_digit d : (0 <= d <= 9)%Z -> writes d [(48 + d)%Z].
Proof.
  intros H. split; [split; [done|]|split].
  - constructor; [unfold is_digit; lia|constructor].
  - unfold number. simpl. lia.
  - by left.
Qed.

(** The name of the current value: it is that of the first input, although the
    value comes from another one.  [vec_size_common(foo = 1, bar = 1:2, baz = 1:3)]
    reports [foo]. *)
Theorem C48_current_refuted : exists nms (xs : list (option Z)) tag_at,
  length nms = length xs /\ (forall k, k < length xs -> input_tag ANull (Some nms) k (tag_at k)) /\
  reduction vctrs_size2_common tag_at None [] 0 xs = Err "bar and baz" /\
  size_common_tags ANull (Some nms) (map IOne xs) = Err "foo and baz".
Proof.
  exists [Some s_foo; Some s_bar; Some s_baz], [Some 1; Some 2; Some 3]%Z,
    (fun k => nth k [s_foo; s_bar; s_baz] []).
  split; [done|]. split; [|split; vm_compute; reflexivity].
  intros k Hk. split.
  - destruct k as [|[|[|]]]; simpl in Hk; try lia; (split; [repeat constructor; done|unfold INT_MAX; simpl; lia]).
  - exists [], false. destruct k as [|[|[|]]]; simpl in Hk; try lia; eexists; (split; [apply tag_null|]); (split; [apply shown_null|]); (split; [apply et_name|done]).
Qed.

(** After a splice box, the inputs are numbered one too high. *)
Theorem C48_box_refuted : exists (xs : list (input (option Z))) (flat : list (option Z)) tag_at,
  concat (map (fun x => match x with IOne x => [x] | IBox _ l => l end) xs) = flat /\
  (forall k, k < length flat -> input_tag ANull None k (tag_at k)) /\
  reduction vctrs_size2_common tag_at None [] 0 flat = Err "..3 and ..4" /\
  size_common_tags ANull None xs = Err "..4 and ..5".
Proof.
  exists [IBox None [Some 1; Some 1]; IOne (Some 2); IOne (Some 3)]%Z, [Some 1; Some 1; Some 2; Some 3]%Z,
    (fun k => [46; 46; 48 + (Z.of_nat k + 1)]%Z).
  split; [done|]. split; [|split; vm_compute; reflexivity].
  intros k Hk. simpl in Hk. split.
  - split; [|unfold INT_MAX; simpl; lia]. repeat constructor; lia.
  - exists [], false. eexists. split; [apply tag_null|]. split; [apply shown_null|]. split; [apply et_top, writes_digit; lia|done].
Qed.

(** Only the counters of the last two splice boxes are protected: those of an
    earlier one, which may have given the current value, can be freed before its
    tag is written. *)
Theorem C48_dangling_refuted :
  size_common_tags ANull None [IBox None [Some 2]; IBox None [Some 2]; IBox None [Some 2]; IOne (Some 3)]%Z =
    UB "counters used after they are unprotected".
Proof. vm_compute. reflexivity. Qed.

(** Not vacuous: the tags of a column of the second input, of elements below a
    name, and of a tag that does not fit the first buffer *)
Example C48_example :
  tag (ASub (ACounter ANull ANull 1 None 1) (Some [Some s_foo]) 1 0) ([46; 46; 50]%Z ++ 36%Z :: s_foo) /\
  vctrs_arg (ASub (ACounter ANull ANull 1 None 1) (Some [Some s_foo]) 1 0) = Ok ([46; 46; 50]%Z ++ 36%Z :: s_foo) /\
  vctrs_arg (ASub (AStr ANull s_bar) (Some [Some []; None]) 20 11) = Err "Names shorter than expected" /\
  vctrs_arg (ASub (AStr ANull s_bar) None 20 11) = Ok (s_bar ++ [91; 91; 49; 50; 93; 93]%Z) /\
  vctrs_arg (AStr (AStr ANull (replicate 120 97%Z)) s_foo) = Ok (replicate 120 97%Z ++ s_foo).
Proof.
  split; [|split; [|split; [|split]]]; [|vm_compute; reflexivity..].
  apply tag_link; [done| |].
  - change [46; 46; 50]%Z with ([] ++ [46; 46; 50])%Z. apply tag_link; [done|apply tag_null|].
    change 1%Z with (Z.of_nat 1). apply (own_counter _ _ _ _ false); [apply shown_null|by apply Z.ltb_lt|done|].
    apply et_top, (writes_digit 2). lia.
  - change 0%Z with (Z.of_nat 0). apply (own_sub _ _ _ _ true).
    + apply (shown_some _ 46%Z [46; 50]%Z). change 1%Z with (Z.of_nat 1). apply (own_counter _ _ _ _ false); [apply shown_null|by apply Z.ltb_lt|done|].
      apply (et_top 1 [50%Z]), (writes_digit 2). lia.
    + split; [done|]. by apply Z.leb_le.
    + simpl. lia.
    + apply et_child_name.
Qed.
Example C48_reduce_example :
  size_common_tags ANull None (map IOne [None; Some 1; Some 2; Some 1; Some 3]%Z) = Err "..3 and ..5" /\
  size_common_tags (AStr ANull s_foo) None (map IOne [Some 2; Some 3]%Z) = Err "foo[[1]] and foo[[2]]" /\
  size_common_tags ANull None (map IOne [None; Some 1; Some 2; Some 1]%Z) = Ok (Some 2%Z).
Proof. vm_compute. done. Qed.

Print Assumptions C48_tag.
Print Assumptions C48_reduce.
Print Assumptions C48_box.
Print Assumptions C48_next.
Print Assumptions C48_size.
Print Assumptions C48_current_refuted.
Print Assumptions C48_box_refuted.
Print Assumptions C48_dangling_refuted.
