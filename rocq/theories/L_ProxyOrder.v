(** * Lemmas: proxies of nested objects *)
From Verif Require Import Base M_ProxyOrder Spec_ProxyOrder.

Fixpoint obj_ind' (P : obj -> Prop) (Hv : forall b id, P (PVec b id))
    (Hd : forall cls cols, Forall P cols -> P (PDf cls cols)) (x : obj) : P x :=
  match x with
  | PVec b id => Hv b id
  | PDf cls cols => Hd cls cols
      ((fix go (l : list obj) : Forall P l :=
          match l with
          | [] => List.Forall_nil _
          | c :: l => List.Forall_cons _ _ _ (obj_ind' P Hv Hd c) (go l)
          end) cols)
  end.

(** ** Flattening *)
Fixpoint leaves (x : obj) : list obj :=
  match x with
  | PDf _ cols => (fix go l := match l with [] => [] | c :: l => leaves c ++ go l end) cols
  | _ => [x]
  end.
Definition leaves_all (l : list obj) : list obj := concat (map leaves l).
Lemma leaves_df cls cols : leaves (PDf cls cols) = leaves_all cols.
Proof. simpl. unfold leaves_all. induction cols as [|c cols IH]; simpl; [done|]. by rewrite IH. Qed.
Lemma leaves_nodf x : Forall (fun c => is_df c = false) (leaves x).
Proof.
  induction x as [b id|cls cols IH] using obj_ind'; [by repeat constructor|].
  rewrite leaves_df. unfold leaves_all. induction IH as [|c cols Hc _ IH2]; simpl; [constructor|].
  by apply Forall_app.
Qed.
Lemma leaves_vec x : is_df x = false -> leaves x = [x].
Proof. by destruct x. Qed.

Lemma flat_width_ok x : is_df x = true -> df_flat_width x = Z.of_nat (length (leaves x)).
Proof.
  induction x as [b id|cls cols IH] using obj_ind'; [done|]. intros _.
  rewrite leaves_df. cbn [df_flat_width].
  assert (H : forall out, (fix go (cols : list obj) (out : Z) : Z :=
         match cols with
         | [] => out
         | c :: cols => go cols (if is_df c then (out + df_flat_width c - 1)%Z else out)
         end) cols out = (out - Z.of_nat (length cols) + Z.of_nat (length (leaves_all cols)))%Z).
  { induction IH as [|c cols Hc _ IH2]; intros out; [simpl; lia|].
    rewrite IH2. unfold leaves_all. simpl map. simpl concat. rewrite app_length. fold (leaves_all cols).
    destruct (is_df c) eqn:E.
    - rewrite Hc by done. simpl length. lia.
    - rewrite leaves_vec by done. simpl length. lia. }
  rewrite H. lia.
Qed.

Lemma flatten_info_ok cols :
  df_flatten_info cols = Ok (existsb is_df cols, Z.of_nat (length (leaves_all cols))).
Proof.
  unfold df_flatten_info.
  assert (H : forall m, m <= length cols ->
    for_ 0 m (fun i '(flatten, width) =>
      let! col := rd cols i in
      Ok (if is_df col then (true, (width + df_flat_width col - 1)%Z) else (flatten, width)))
      (false, Z.of_nat (length cols)) =
    Ok (existsb is_df (take m cols),
        (Z.of_nat (length cols) - Z.of_nat m + Z.of_nat (length (leaves_all (take m cols))))%Z)).
  { induction m as [|m IH]; intros Hm; [simpl; repeat f_equal; lia|].
    rewrite for_snoc, IH by lia. cbn [bind Nat.add].
    destruct (lookup_lt_is_Some_2 cols m) as [c Ec]; [lia|].
    unfold rd. rewrite Ec. cbn [bind]. rewrite (take_S_r _ _ _ Ec), existsb_app.
    unfold leaves_all. rewrite map_app, concat_app, app_length. simpl. rewrite app_nil_r, orb_false_r.
    destruct (is_df c) eqn:E.
    - rewrite flat_width_ok by done. rewrite orb_true_r. do 2 f_equal. lia.
    - rewrite leaves_vec by done. rewrite orb_false_r. do 2 f_equal. simpl length. lia. }
  rewrite H by lia. rewrite take_ge by lia. do 2 f_equal. lia.
Qed.

Lemma flatten_loop_ok x : is_df x = true -> forall es n, length (leaves x) <= n ->
  df_flatten_loop x (map Some es ++ replicate n None, length es) =
  Ok (map Some (es ++ leaves x) ++ replicate (n - length (leaves x)) None, length (es ++ leaves x)).
Proof.
  induction x as [b id|cls cols IH] using obj_ind'; [done|]. intros _ es n Hn.
  rewrite leaves_df in *. cbn [df_flatten_loop].
  revert es n Hn. induction IH as [|c cols Hc _ IH2]; intros es n Hn.
  { unfold leaves_all. simpl. rewrite app_nil_r, Nat.sub_0_r. done. }
  unfold leaves_all in *. simpl map in *. simpl concat in *. fold (leaves_all cols) in *.
  rewrite app_length in Hn.
  assert (E : (if is_df c
     then df_flatten_loop c (map Some es ++ replicate n None, length es)
     else
      let! out := wr (map Some es ++ replicate n None) (length es) (Some c)
      in Ok (out, S (length es))) =
     Ok (map Some (es ++ leaves c) ++ replicate (n - length (leaves c)) None, length (es ++ leaves c))).
  { destruct (is_df c) eqn:Ed.
    - apply Hc; [done|lia].
    - rewrite leaves_vec in * by done. simpl length in *. rewrite wr_Ok by (rewrite app_length, map_length, replicate_length; lia).
      cbn [bind]. destruct n as [|n]; [lia|]. f_equal. f_equal; [|rewrite app_length; simpl; lia].
      rewrite map_app, <- app_assoc. rewrite insert_app_r_alt by by rewrite map_length.
      rewrite map_length, Nat.sub_diag. simpl. rewrite Nat.sub_0_r. done. }
  rewrite E. cbn [bind]. rewrite IH2 by lia. rewrite <- app_assoc.
  do 2 f_equal. f_equal. f_equal. rewrite app_length. lia.
Qed.

Lemma all_written_Some l : all_written (map Some l) = Ok l.
Proof. induction l as [|x l IH]; simpl; [done|]. by rewrite IH. Qed.
Lemma leaves_all_nodf cols : existsb is_df cols = false -> leaves_all cols = cols.
Proof.
  unfold leaves_all. induction cols as [|c cols IH]; simpl; [done|].
  intros H. apply orb_false_iff in H as [H1 H2]. rewrite leaves_vec by done. simpl. by rewrite IH.
Qed.
Lemma df_flatten_ok cls cols : exists cls', df_flatten cls cols = Ok (PDf cls' (leaves_all cols)).
Proof.
  unfold df_flatten. rewrite flatten_info_ok. cbn [bind]. destruct (existsb is_df cols) eqn:E; cbn [negb].
  - exists 0%Z. rewrite Nat2Z.id.
    pose proof (flatten_loop_ok (PDf cls cols) eq_refl [] (length (leaves_all cols))) as H.
    rewrite leaves_df in H. specialize (H (Nat.le_refl _)). cbn [map app length] in H.
    rewrite H. cbn [bind].
    rewrite Nat.sub_diag. cbn [replicate]. rewrite app_nil_r, all_written_Some. done.
  - exists cls. by rewrite leaves_all_nodf.
Qed.

(** ** Proxies *)
Fixpoint mapR {A B} (f : A -> res B) (l : list A) : res (list B) :=
  match l with [] => Ok [] | x :: l => let! y := f x in let! l := mapR f l in Ok (y :: l) end.
Lemma mapR_Ok {A B} (f : A -> res B) l l' : mapR f l = Ok l' <-> Forall2 (fun x y => f x = Ok y) l l'.
Proof.
  split.
  - revert l'. induction l as [|x l IH]; intros l'; simpl.
    + intros [= <-]. constructor.
    + intros H. apply bind_Ok in H as (y & E & H). apply bind_Ok in H as (r & E2 & [= <-]).
      constructor; eauto.
  - induction 1 as [|x y l l' E _ IH]; simpl; [done|]. rewrite E. cbn [bind]. by rewrite IH.
Qed.
Lemma proxy_loop rec todo : forall pre : list obj,
  for_ (length pre) (length todo) (fun i cols =>
    let! col := rd cols i in let! p := rec col in wr cols i p) (pre ++ todo) =
  (let! ps := mapR rec todo in Ok (pre ++ ps)).
Proof.
  induction todo as [|c todo IH]; intros pre; [done|].
  cbn [length for_ mapR]. unfold rd at 1. rewrite lookup_app_r by lia. rewrite Nat.sub_diag. cbn [lookup list_lookup bind].
  destruct (rec c) as [p|e|e]; cbn [bind]; [|done..].
  rewrite wr_Ok by (rewrite app_length; simpl; lia). cbn [bind].
  rewrite insert_app_r_alt by lia. rewrite Nat.sub_diag. simpl.
  specialize (IH (pre ++ [p])). rewrite app_length, <- app_assoc in IH. simpl in IH.
  replace (length pre + 1) with (S (length pre)) in IH by lia. rewrite IH.
  destruct (mapR rec todo); cbn [bind]; [|done..]. by rewrite <- app_assoc.
Qed.

Lemma leaves_flat p : flat p -> leaves p = columns p.
Proof.
  destruct p as [b id|cls cols]; [done|]. intros [_ H]. rewrite leaves_df. simpl.
  apply leaves_all_nodf. induction H as [|c cols Hc _ IH]; simpl; [done|]. by rewrite Hc.
Qed.
Lemma unwrap_ok cls L : Forall (fun c => is_df c = false) L ->
  flat (vec_proxy_unwrap (PDf cls L)) /\ columns (vec_proxy_unwrap (PDf cls L)) = L.
Proof.
  intros H. destruct L as [|c [|d L]].
  - done.
  - inversion H as [|? ? Hc _]; subst. destruct c; done.
  - simpl. split; [|done]. split; [lia|done].
Qed.
Lemma df_proxy_ok rec cls cols p :
  (forall c q, rec c = Ok q -> flat q) ->
  df_proxy rec cls cols = Ok p <->
  exists ps, Forall2 (fun c q => rec c = Ok q) cols ps /\
    (exists cls', p = vec_proxy_unwrap (PDf cls' (concat (map columns ps))) /\
       df_flatten cls ps = Ok (PDf cls' (concat (map columns ps)))).
Proof.
  intros Hrec. unfold df_proxy. pose proof (proxy_loop rec cols []) as HL. cbn [length app] in HL.
  rewrite HL. clear HL.
  assert (Hps : forall ps, Forall2 (fun c q => rec c = Ok q) cols ps -> leaves_all ps = concat (map columns ps)).
  { intros ps HF. unfold leaves_all. f_equal. apply map_ext_Forall.
    apply Forall_lookup. intros i q Eq. apply leaves_flat.
    destruct (Forall2_lookup_r _ _ _ _ _ HF Eq) as (c & _ & Hc). eauto. }
  split.
  - intros H. apply bind_Ok in H as (cols' & E & H). apply bind_Ok in E as (ps & E & E'). injection E' as <-.
    apply mapR_Ok in E. exists ps. split; [done|].
    destruct (df_flatten_ok cls ps) as (cls' & EF). rewrite EF in H. cbn [bind] in H. injection H as <-.
    exists cls'. rewrite EF. rewrite Hps by done. done.
  - intros (ps & HF & cls' & -> & EF). apply mapR_Ok in HF. rewrite HF. cbn [bind]. rewrite EF. done.
Qed.
Lemma concat_columns_nodf ps : Forall flat ps -> Forall (fun c => is_df c = false) (concat (map columns ps)).
Proof.
  induction 1 as [|p ps Hp _ IH]; simpl; [constructor|]. apply Forall_app. split; [|done].
  destruct p; simpl in *; [by repeat constructor|]. by destruct Hp.
Qed.
Lemma Forall2_flat rec (cols ps : list obj) :
  (forall c q, rec c = Ok q -> flat q) -> Forall2 (fun c q => rec c = Ok q) cols ps -> Forall flat ps.
Proof. intros Hr. induction 1; constructor; eauto. Qed.

Section proxy.
  Context (impl : obj -> res obj).

  Lemma vec_proxy_flat fuel x p : vec_proxy impl fuel x = Ok p -> flat p.
  Proof.
    revert x p. induction fuel as [|fuel IH]; intros x p; cbn [vec_proxy]; [done|].
    intros H. apply bind_Ok in H as (out & _ & H). destruct out as [b id|cls cols].
    - by injection H as <-.
    - apply df_proxy_ok in H as (ps & HF & cls' & -> & _); [|done].
      apply unwrap_ok, concat_columns_nodf. by eapply Forall2_flat.
  Qed.

  Lemma vec_proxy_columns fuel x cls cols p :
    impl x = Ok (PDf cls cols) -> vec_proxy impl (S fuel) x = Ok p ->
    exists ps, Forall2 (fun c q => vec_proxy impl fuel c = Ok q) cols ps /\
      columns p = concat (map columns ps).
  Proof.
    intros Hi. cbn [vec_proxy]. rewrite Hi. cbn [bind]. intros H.
    apply df_proxy_ok in H as (ps & HF & cls' & -> & _); [|eauto using vec_proxy_flat].
    exists ps. split; [done|]. apply unwrap_ok, concat_columns_nodf.
    eapply Forall2_flat; [|done]. eauto using vec_proxy_flat.
  Qed.
  Lemma vec_proxy_total fuel x cls cols ps :
    impl x = Ok (PDf cls cols) -> Forall2 (fun c q => vec_proxy impl fuel c = Ok q) cols ps ->
    exists p, vec_proxy impl (S fuel) x = Ok p /\ columns p = concat (map columns ps).
  Proof.
    intros Hi HF. cbn [vec_proxy]. rewrite Hi. cbn [bind].
    destruct (df_flatten_ok cls ps) as (cls' & EF).
    assert (Hps : leaves_all ps = concat (map columns ps)).
    { unfold leaves_all. f_equal. apply map_ext_Forall. eapply Forall_impl.
      - eapply Forall2_flat; [|exact HF]. eauto using vec_proxy_flat.
      - intros q. apply leaves_flat. }
    rewrite Hps in EF.
    exists (vec_proxy_unwrap (PDf cls' (concat (map columns ps)))). split.
    - apply df_proxy_ok; [eauto using vec_proxy_flat|]. exists ps. split; [done|]. exists cls'. done.
    - apply unwrap_ok, concat_columns_nodf. eapply Forall2_flat; [|exact HF]. eauto using vec_proxy_flat.
  Qed.

  Lemma vec_proxy_mono f : forall f' x p, vec_proxy impl f x = Ok p -> f <= f' -> vec_proxy impl f' x = Ok p.
  Proof.
    induction f as [|f IH]; intros f' x p; [done|]. intros H Hle. destruct f' as [|f']; [lia|].
    cbn [vec_proxy] in *. apply bind_Ok in H as (out & E & H). rewrite E. cbn [bind].
    destruct out as [b id|cls cols]; [done|].
    apply df_proxy_ok in H as (ps & HF & HE); [|eauto using vec_proxy_flat].
    apply df_proxy_ok; [eauto using vec_proxy_flat|]. exists ps. split; [|done].
    eapply Forall2_impl; [exact HF|]. intros c q Hq. apply (IH f' c q Hq). lia.
  Qed.

  Fixpoint sum (l : list nat) : nat := match l with [] => 0 | x :: l => x + sum l end.
  Lemma expansion_go fuel cols es : Forall2 (fun c e => vec_decreasing_expansion impl fuel c = Ok e) cols es ->
    forall out, (fix go (cols : list obj) (out : nat) : res nat :=
           match cols with
           | [] => Ok out
           | col :: cols =>
               let! e := vec_decreasing_expansion impl fuel col in
               go cols (out + e)
           end) cols out = Ok (out + sum es).
  Proof.
    induction 1 as [|c e cols es E _ IH]; intros out; [by rewrite Nat.add_0_r|].
    rewrite E. cbn [bind]. rewrite IH. f_equal. simpl. lia.
  Qed.
  Lemma length_concat (ps : list (list obj)) : length (concat ps) = sum (map length ps).
  Proof. induction ps as [|p ps IH]; simpl; [done|]. by rewrite app_length, IH. Qed.

  Lemma expansion_ok x : default_methods impl -> plain x ->
    forall f f' p, vec_proxy impl f x = Ok p -> f <= f' ->
    vec_decreasing_expansion impl f' x = Ok (length (columns p)).
  Proof.
    intros [Hdf Hv]. induction x as [b id|cls cols IH] using obj_ind'; intros Hp f f' p H Hle.
    - destruct b.
      + destruct f as [|f]; [done|]. cbn [vec_proxy] in H. apply bind_Ok in H as (out & E & H).
        specialize (Hv _ _ E). destruct out; [|done]. by injection H as <-.
      + cbn [vec_decreasing_expansion]. rewrite (vec_proxy_mono _ _ _ _ H Hle). cbn [bind].
        by destruct p.
    - inversion Hp as [|? Hpc]; subst. destruct f as [|f]; [done|].
      destruct (vec_proxy_columns _ _ _ _ _ (Hdf cols) H) as (ps & HF & ->).
      cbn [vec_decreasing_expansion].
      rewrite (expansion_go f' cols (map length (map columns ps))).
      + by rewrite length_concat.
      + clear H Hp. induction HF as [|c q cols ps Hq HF IHF]; simpl; constructor.
        * inversion IH as [|? ? Hc _]; subst. inversion Hpc; subst. eapply Hc; [done|done|lia].
        * inversion IH; subst. inversion Hpc; subst. by apply IHF.
  Qed.
End proxy.

(** ** Flags *)
Definition spread (arg : list bool) (es : list nat) : list bool :=
  concat (zip_with (fun a e => replicate e a) arg es).
Lemma spread_length arg es : length arg = length es -> length (spread arg es) = sum es.
Proof.
  unfold spread. revert es. induction arg as [|a arg IH]; intros [|e es] H; simpl in *; try done.
  rewrite app_length, replicate_length, IH by lia. done.
Qed.
Lemma sum_app l1 l2 : sum (l1 ++ l2) = sum l1 + sum l2.
Proof. induction l1 as [|x l1 IH]; simpl; [done|]. rewrite IH. lia. Qed.
Lemma sum_take_le n l : sum (take n l) <= sum l.
Proof. rewrite <- (take_drop n l) at 2. rewrite sum_app. lia. Qed.

Lemma fill_loop (a : bool) e (pre rest : list bool) k :
  k = length pre -> e <= length rest ->
  for_ 0 e (fun _ '(out, k) => let! out := wr out k a in Ok (out, S k)) (pre ++ rest, k) =
  Ok (pre ++ replicate e a ++ drop e rest, k + e).
Proof.
  intros -> He. induction e as [|e IH].
  - simpl. rewrite drop_0, Nat.add_0_r. done.
  - rewrite for_snoc, IH by lia. cbn [bind].
    rewrite wr_Ok by (rewrite !app_length, replicate_length, drop_length; lia). cbn [bind].
    f_equal. f_equal; [|lia].
    rewrite insert_app_r. f_equal.
    rewrite insert_app_r_alt by by rewrite replicate_length. rewrite replicate_length, Nat.sub_diag.
    destruct (drop e rest) as [|r l] eqn:Ed.
    { apply (f_equal length) in Ed. rewrite drop_length in Ed. simpl in Ed. lia. }
    rewrite replicate_S_end, <- app_assoc. f_equal. simpl insert. cbn [app]. f_equal.
    replace (S e) with (e + 1) by lia. rewrite <- drop_drop, Ed. done.
Qed.

Lemma expand_arg_ok arg es : length arg <> 1 -> length arg = length es ->
  expand_arg arg es (length arg) (sum es) = Ok (spread arg es).
Proof.
  intros H1 Hl. unfold expand_arg. rewrite (proj2 (Nat.eqb_neq _ _) H1).
  assert (HL : forall m, m <= length arg ->
    for_ 0 m (fun i st =>
      let! col_arg := rd arg i in
      let! expansion := rd es i in
      for_ 0 expansion (fun _ '(out, k) => let! out := wr out k col_arg in Ok (out, S k)) st)
      (replicate (sum es) false, 0) =
    Ok (spread (take m arg) (take m es) ++ replicate (sum es - sum (take m es)) false,
        sum (take m es))).
  { induction m as [|m IH]; intros Hm.
    - simpl. rewrite Nat.sub_0_r. done.
    - rewrite for_snoc, IH by lia. cbn [bind Nat.add].
      destruct (lookup_lt_is_Some_2 arg m) as [a Ea]; [lia|].
      destruct (lookup_lt_is_Some_2 es m) as [e Ee]; [lia|].
      unfold rd at 1. rewrite Ea. cbn [bind]. unfold rd at 1. rewrite Ee. cbn [bind].
      pose proof (sum_take_le (S m) es) as Hs. rewrite (take_S_r _ _ _ Ee), sum_app in Hs. simpl in Hs.
      rewrite fill_loop.
      + rewrite (take_S_r _ _ _ Ee), (take_S_r _ _ _ Ea), sum_app. unfold spread.
        rewrite zip_with_app by (rewrite !take_length; lia). rewrite concat_app. simpl.
        rewrite app_nil_r, Nat.add_0_r, <- app_assoc. rewrite drop_replicate. do 4 f_equal. f_equal. lia.
      + rewrite spread_length; [done|]. rewrite !take_length. lia.
      + rewrite replicate_length. lia. }
  rewrite HL by lia. cbn [bind]. rewrite !take_ge by lia. rewrite Nat.sub_diag. cbn [replicate].
  by rewrite app_nil_r.
Qed.

Lemma spread_flags {A} arg (parts : list (list A)) :
  length arg = length parts -> forall i part j, parts !! i = Some part -> j < length part ->
  spread arg (map length parts) !! (length (concat (take i parts)) + j) = arg !! i.
Proof.
  unfold spread. revert arg. induction parts as [|p parts IH]; intros [|a arg] Hl i part j Ei Hj; try done.
  simpl. destruct i as [|i]; simpl in *.
  - injection Ei as ->. rewrite lookup_app_l by by rewrite replicate_length.
    by rewrite lookup_replicate_2.
  - rewrite app_length. rewrite lookup_app_r by (rewrite replicate_length; lia).
    rewrite replicate_length. rewrite <- (IH arg ltac:(lia) i part j Ei Hj). f_equal. lia.
Qed.

Lemma factors_ok impl fuel cols es :
  Forall2 (fun c e => vec_decreasing_expansion impl fuel c = Ok e) cols es ->
  for_ 0 (length cols) (fun i '(es, size, needs) =>
    let! col := rd cols i in
    let! e := vec_decreasing_expansion impl fuel col in
    let! es := wr es i e in
    Ok (es, size + e, needs || negb (e =? 1))) (replicate (length cols) 0, 0, false) =
  Ok (es, sum es, existsb (fun e => negb (e =? 1)) es).
Proof.
  intros HF. pose proof (Forall2_length _ _ _ HF) as Hl.
  assert (HL : forall m, m <= length cols ->
    for_ 0 m (fun i '(es, size, needs) =>
      let! col := rd cols i in
      let! e := vec_decreasing_expansion impl fuel col in
      let! es := wr es i e in
      Ok (es, size + e, needs || negb (e =? 1))) (replicate (length cols) 0, 0, false) =
    Ok (take m es ++ replicate (length cols - m) 0, sum (take m es),
        existsb (fun e => negb (e =? 1)) (take m es))).
  { induction m as [|m IH]; intros Hm.
    - simpl. rewrite Nat.sub_0_r. done.
    - rewrite for_snoc, IH by lia. cbn [bind Nat.add].
      destruct (lookup_lt_is_Some_2 cols m) as [c Ec]; [lia|].
      destruct (lookup_lt_is_Some_2 es m) as [e Ee]; [lia|].
      unfold rd at 1. rewrite Ec. cbn [bind].
      pose proof (Forall2_lookup_lr _ _ _ _ _ _ HF Ec Ee) as Hce. cbn beta in Hce. rewrite Hce. cbn [bind].
      rewrite wr_Ok by (rewrite app_length, take_length, replicate_length; lia). cbn [bind].
      rewrite (take_S_r _ _ _ Ee), sum_app, existsb_app. simpl. rewrite orb_false_r, Nat.add_0_r.
      do 3 f_equal. rewrite insert_app_r_alt by (rewrite take_length; lia).
      rewrite take_length, Nat.min_l by lia. rewrite Nat.sub_diag.
      replace (length cols - m) with (S (length cols - S m)) by lia. simpl. by rewrite <- app_assoc. }
  rewrite HL by lia. rewrite Nat.sub_diag. simpl. rewrite app_nil_r. rewrite take_ge by lia. done.
Qed.

(** Number of data frames of one column around an object *)
Fixpoint wrap_depth (x : obj) : nat :=
  match x with PDf _ [c] => S (wrap_depth c) | _ => 0 end.
