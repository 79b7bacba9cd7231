(** * Lemmas: which method is found *)
From Verif Require Import Base M_S3 Spec_S3.

Lemma memcpy_ok buf off src : off + length src <= length buf ->
  memcpy buf off src = Ok (take off buf ++ src ++ drop (off + length src) buf).
Proof.
  intros Hl. unfold memcpy.
  destruct (for_inv (fun k b => b = take off buf ++ take k src ++ drop (off + k) buf) 0 (length src)
    (fun i buf => let! b := rd src i in wr buf (off + i) b) buf) as (b & E & Hb).
  { simpl. by rewrite Nat.add_0_r, take_drop. }
  { intros k b [_ Hk] ->. cbn [Nat.add] in Hk. destruct (lookup_lt_is_Some_2 src k Hk) as [z Hz].
    assert (Hrd : rd src k = Ok z) by by apply rd_Ok. rewrite Hrd. cbn [bind].
    rewrite wr_Ok by (rewrite !app_length, !take_length, drop_length; lia). eexists. split; [done|].
    destruct (lookup_lt_is_Some_2 buf (off + k) ltac:(lia)) as [w Hw].
    rewrite (drop_S _ _ _ Hw), app_assoc. rewrite insert_app_r_alt by (rewrite app_length, !take_length; lia).
    rewrite app_length, !take_length. replace (off + k - (off `min` length buf + k `min` length src)) with 0 by lia.
    cbn [insert list_insert]. rewrite (take_S_r _ _ _ Hz), <- !app_assoc. cbn [app].
    by replace (off + S k) with (S (off + k)) by lia. }
  rewrite E. subst b. cbn [Nat.add]. by rewrite firstn_all.
Qed.
Lemma c_string_ok s rest : no_nul s -> c_string (s ++ 0%Z :: rest) = Ok s.
Proof.
  induction 1 as [|b s Hb _ IH]; [done|]. cbn [app c_string]. destruct (Z.eqb_spec b 0); [done|]. by rewrite IH.
Qed.

Lemma paste_ok buf generic cls : length buf = 200 -> no_nul generic -> no_nul cls ->
  fits (method_name generic cls) ->
  exists buf', s3_paste_method_sym buf generic cls = Ok (method_name generic cls, buf') /\ length buf' = 200.
Proof.
  intros Hb Hg Hc Hf. unfold fits, method_name in Hf. rewrite app_length in Hf. cbn [length] in Hf.
  unfold s3_paste_method_sym. destruct (Z.ltb_spec INT_MAX (Z.of_nat (length generic) + Z.of_nat (length cls) + 1)).
  { unfold INT_MAX in *. lia. }
  destruct (Nat.leb_spec s3_buf_size (length generic + length cls + 1)); [unfold s3_buf_size in *; lia|].
  rewrite memcpy_ok by lia. cbn [bind Nat.add take app].
  change (take 0 buf ++ generic ++ drop (length generic) buf) with (generic ++ drop (length generic) buf).
  rewrite wr_Ok by (rewrite app_length, drop_length; lia). cbn [bind].
  rewrite insert_app_r_alt by lia. rewrite Nat.sub_diag.
  set (g := length generic) in *. set (c := length cls) in *.
  destruct (lookup_lt_is_Some_2 buf g ltac:(lia)) as [w Hw]. rewrite (drop_S _ _ _ Hw). cbn [insert list_insert].
  rewrite memcpy_ok by (rewrite app_length; cbn [length]; rewrite drop_length; lia). cbn [bind].
  assert (Ht : take (g + 1) (generic ++ dot :: drop (S g) buf) = generic ++ [dot]).
  { rewrite (take_app_ge generic) by lia. fold g. by replace (g + 1 - g) with 1 by lia. }
  assert (Hd : drop (g + 1 + c) (generic ++ dot :: drop (S g) buf) = drop (g + 1 + c) buf).
  { rewrite (drop_app_ge generic) by lia. fold g. replace (g + 1 + c - g) with (S c) by lia. cbn [drop].
    rewrite drop_drop. f_equal. lia. }
  fold c. rewrite Ht, Hd.
  destruct (lookup_lt_is_Some_2 buf (g + 1 + c) ltac:(lia)) as [w' Hw']. rewrite (drop_S _ _ _ Hw').
  rewrite wr_Ok by (rewrite !app_length; cbn [length]; lia). cbn [bind].
  rewrite app_assoc. rewrite insert_app_r_alt by (rewrite !app_length; cbn [length]; lia).
  rewrite !app_length. cbn [length]. fold g c. replace (g + 1 + c - (g + 1 + c)) with 0 by lia. cbn [insert list_insert].
  rewrite c_string_ok.
  - cbn [bind]. eexists. split; [by rewrite <- app_assoc|]. rewrite !app_length. cbn [length].
    rewrite drop_length. lia.
  - unfold no_nul in *. rewrite !Forall_app. repeat split; try done. by constructor.
Qed.
Lemma paste_err buf generic cls : (Z.of_nat (length generic + length cls) < 2 ^ 31 - 1)%Z ->
  ~ fits (method_name generic cls) -> exists e, s3_paste_method_sym buf generic cls = Err e.
Proof.
  intros Hi Hf. unfold fits, method_name in Hf. rewrite app_length in Hf. cbn [length] in Hf.
  unfold s3_paste_method_sym. destruct (Z.ltb_spec INT_MAX (Z.of_nat (length generic) + Z.of_nat (length cls) + 1)).
  { unfold INT_MAX in *. lia. }
  destruct (Nat.leb_spec s3_buf_size (length generic + length cls + 1)); [eauto|unfold s3_buf_size in *; lia].
Qed.

Lemma sym_method global sym table m :
  s3_sym_get_method global sym table = Some m <-> is_method global table sym m.
Proof.
  unfold s3_sym_get_method, is_method. destruct (global sym) as [[k|]|]; [naive_solver|..];
    (destruct (table sym) as [[k|]|]; split; [naive_solver| |naive_solver..]; intros [?|[_ ?]]; congruence).
Qed.
Lemma sym_none global sym table :
  s3_sym_get_method global sym table = None <-> forall m, ~ is_method global table sym m.
Proof.
  rewrite eq_None_not_Some. setoid_rewrite <- sym_method. unfold is_Some. naive_solver.
Qed.

Lemma class0_ok x c : first_class x c -> s3_get_class0 x = Ok c.
Proof.
  unfold first_class, s3_get_class0, s3_get_class. intros [[-> [rest ->]]|[H [rest E]]]; [done|].
  assert (Hn : (if so_object x then so_class x else None) = None) by (destruct H as [->| ->]; [done|by destruct (so_object x)]).
  rewrite Hn, E. done.
Qed.
