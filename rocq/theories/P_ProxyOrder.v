(** * C59: proxies are flat, and the flags of [vec_order()] follow their columns *)
From Verif Require Import Base M_ProxyOrder Spec_ProxyOrder L_ProxyOrder.

(** Whatever the methods do, a proxy holds no data frame inside a data frame
    and is no data frame of one column. *)
Theorem C59_flat impl fuel x p : vec_proxy impl fuel x = Ok p -> flat p.
Proof. apply vec_proxy_flat. Qed.

(** The columns of the proxy of a data frame are those of the proxies of its
    columns, in order. *)
Theorem C59_columns impl fuel x cls cols p :
  impl x = Ok (PDf cls cols) -> vec_proxy impl (S fuel) x = Ok p ->
  exists ps, Forall2 (fun c q => vec_proxy impl fuel c = Ok q) cols ps /\
    columns p = concat (map columns ps).
Proof. apply vec_proxy_columns. Qed.
(** It exists where those do. *)
Theorem C59_total impl fuel x cls cols ps :
  impl x = Ok (PDf cls cols) -> Forall2 (fun c q => vec_proxy impl fuel c = Ok q) cols ps ->
  exists p, vec_proxy impl (S fuel) x = Ok p /\ columns p = concat (map columns ps).
Proof. apply vec_proxy_total. Qed.

(** The expansion factor of an object without data frames of a class of their
    own is the number of columns of its proxy. *)
Theorem C59_expansion impl fuel x p :
  default_methods impl -> plain x -> vec_proxy impl fuel x = Ok p ->
  vec_decreasing_expansion impl fuel x = Ok (length (columns p)).
Proof. intros Hd Hp H. by eapply expansion_ok. Qed.

(** Unwrapping goes through all levels and keeps the columns. *)
Theorem C59_unwrap x :
  (forall cls c, vec_proxy_unwrap x <> PDf cls [c]) /\
  (vec_proxy_unwrap x = x \/ exists cls c, x = PDf cls [c] /\ vec_proxy_unwrap x = vec_proxy_unwrap c).
Proof.
  split; [|destruct x as [|cls [|c [|]]]; simpl; eauto].
  assert (H : forall n x, wrap_depth x <= n -> forall cls c, vec_proxy_unwrap x <> PDf cls [c]).
  { clear x. induction n as [|n IH]; intros [b z|cls [|c [|]]] Hn cls' c'; simpl in *; try done; [lia|].
    apply IH. lia. }
  by eapply H.
Qed.

(** Full statement: for every data frame and every methods, the flags go to
    the columns of the proxy that come from the column they were given for.
    It is proved for data frames without classes of their own (tibbles
    included), and is false for others (C59_args_refuted). *)
Theorem C59_args_partial impl fuel cols p decreasing na_largest :
  default_methods impl -> plain (PDf 0 cols) -> vec_proxy impl fuel (PDf 0 cols) = Ok p ->
  (length decreasing = 1 \/ length decreasing = length cols) ->
  (length na_largest = 1 \/ length na_largest = length cols) ->
  exists ps d n,
    Forall2 (fun c q => vec_proxy impl fuel c = Ok q) cols ps /\
    columns p = concat (map columns ps) /\
    order_args impl fuel (PDf 0 cols) decreasing na_largest = Ok (d, n) /\
    flags_ok decreasing (map columns ps) d /\ flags_ok na_largest (map columns ps) n.
Proof.
  intros Hd Hp H Hld Hln. destruct fuel as [|fuel]; [done|].
  pose proof Hd as [Hdf Hv].
  destruct (vec_proxy_columns _ _ _ _ _ _ (Hdf cols) H) as (ps & HF & Hc).
  assert (HF' : Forall2 (fun c q => vec_proxy impl (S fuel) c = Ok q) cols ps).
  { eapply Forall2_impl; [exact HF|]. intros c q Hq. eapply vec_proxy_mono; [exact Hq|lia]. }
  exists ps. inversion Hp as [|? Hpc]; subst.
  set (parts := map columns ps).
  assert (HE : Forall2 (fun c e => vec_decreasing_expansion impl (S fuel) c = Ok e) cols (map length parts)).
  { subst parts. clear - HF' Hd Hpc. induction HF' as [|c q cols ps Hq _ IH]; simpl; [constructor|].
    inversion Hpc; subst. constructor; [|by apply IH]. by eapply expansion_ok. }
  assert (Hlp : length parts = length cols) by by rewrite <- (map_length length), (Forall2_length _ _ _ HE).
  cbn [order_args]. unfold df_expand_args.
  destruct ((length decreasing =? 1) && (length na_largest =? 1)) eqn:E1.
  { apply andb_true_iff in E1 as [E1 E2]. apply Nat.eqb_eq in E1, E2.
    exists decreasing, na_largest. split; [done|]. split; [done|]. split; [done|].
    split; left; done. }
  assert (Ed : negb (length decreasing =? 1) && negb (length decreasing =? length cols) = false).
  { destruct Hld as [->| ->]; [done|]. rewrite Nat.eqb_refl. by rewrite andb_false_r. }
  assert (En : negb (length na_largest =? 1) && negb (length na_largest =? length cols) = false).
  { destruct Hln as [->| ->]; [done|]. rewrite Nat.eqb_refl. by rewrite andb_false_r. }
  rewrite Ed, En. rewrite (factors_ok _ _ _ _ HE). cbn [bind].
  destruct (existsb (fun e => negb (e =? 1)) (map length parts)) eqn:Ex; cbn [negb].
  - assert (HA : forall arg, length arg = 1 \/ length arg = length cols ->
      exists out, expand_arg arg (map length parts) (length arg) (sum (map length parts)) = Ok out /\
        flags_ok arg parts out).
    { intros arg Ha. destruct (decide (length arg = 1)) as [Hl|Hl].
      - exists arg. split; [|by left]. unfold expand_arg. by rewrite Hl.
      - exists (spread arg (map length parts)). rewrite expand_arg_ok by (rewrite ?map_length; lia).
        split; [done|]. right. split.
        + rewrite spread_length by (rewrite map_length; lia). by rewrite length_concat.
        + apply spread_flags. lia. }
    destruct (HA decreasing Hld) as (d & EEd & Hfd). destruct (HA na_largest Hln) as (n & EEn & Hfn).
    exists d, n. rewrite EEd. cbn [bind]. rewrite EEn. cbn [bind]. done.
  - assert (H1 : Forall (fun q => length q = 1) parts).
    { clear - Ex. induction parts as [|q parts IH]; simpl in *; [constructor|].
      apply orb_false_iff in Ex as [E1 E2]. apply negb_false_iff, Nat.eqb_eq in E1.
      constructor; [done|]. by apply IH. }
    assert (HC : forall l : list (list obj), Forall (fun q => length q = 1) l -> length (concat l) = length l).
    { induction 1 as [|q l Hq _ IH]; simpl; [done|]. rewrite app_length, IH, Hq. done. }
    assert (HA : forall arg : list bool, length arg = 1 \/ length arg = length cols -> flags_ok arg parts arg).
    { intros arg Ha. destruct (decide (length arg = 1)) as [Hl|Hl]; [by left|]. right.
      split; [rewrite HC by done; lia|]. intros i part j Ei Hj.
      rewrite HC by by apply Forall_take. rewrite take_length.
      pose proof (lookup_lt_Some _ _ _ Ei) as Hi. rewrite Nat.min_l by lia.
      rewrite Forall_lookup in H1. specialize (H1 _ _ Ei). replace (i + j) with i by lia. done. }
    exists decreasing, na_largest. split; [done|]. split; [done|]. split; [done|]. split; by apply HA.
Qed.

(** Data frames of a class of their own may have a proxy of another number of
    columns.  The sizes can agree in spite of this, and then a column of the
    proxy is ordered in the direction given for another column. *)
Theorem C59_args_refuted :
  exists impl fuel cols ps p decreasing na_largest d n,
    default_methods impl /\ vec_proxy impl fuel (PDf 0 cols) = Ok p /\
    length decreasing = length cols /\ length na_largest = 1 /\
    Forall2 (fun c q => vec_proxy impl fuel c = Ok q) cols ps /\
    columns p = concat (map columns ps) /\
    order_args impl fuel (PDf 0 cols) decreasing na_largest = Ok (d, n) /\
    length d = length (columns p) /\ ~ flags_ok decreasing (map columns ps) d.
Proof.
  (* class 1 doubles its first column, class 2 keeps its first column only *)
  set (impl := fun x => match x with
    | PDf 1%Z (c :: _) => Ok (PDf 0 [c; c])
    | PDf 2%Z (c :: _) => Ok (PDf 0 [c])
    | _ => Ok x end).
  set (a := PVec true 1). set (b := PVec true 2).
  exists impl, 3, [PDf 1 [a]; PDf 2 [b; a]], [PDf 0 [a; a]; b], (PDf 0 [a; a; b]),
    [false; true], [true], [false; true; true], [true].
  split. { split; [done|]. by intros id p [= <-]. }
  split; [reflexivity|]. split; [done|]. split; [done|].
  split; [repeat constructor|]. split; [done|]. split; [reflexivity|]. split; [done|].
  intros [[? _]|[_ H]]; [done|].
  by specialize (H 0 [a; a] 1 eq_refl ltac:(simpl; lia)).
Qed.

(** The strings are read one by one, and all others are errors. *)
Theorem C59_parse one x out :
  parse_words one x = Ok out <-> Forall2 (fun w b => one w = Ok b) x out.
Proof.
  unfold parse_words.
  assert (HL : forall todo (pre : list bool) done, x = done ++ todo -> length pre = length done ->
    for_ (length pre) (length todo) (fun i out =>
      let! w := rd x i in let! b := one w in wr out i b) (pre ++ replicate (length todo) false) =
    (let! r := mapR one todo in Ok (pre ++ r))).
  { induction todo as [|w todo IH]; intros pre dn Hx Hl; [done|].
    cbn [length for_ mapR]. unfold rd at 1. rewrite Hx at 1.
    rewrite Hl, lookup_app_r by lia. rewrite Nat.sub_diag. cbn [lookup list_lookup bind].
    destruct (one w) as [b|e|e]; cbn [bind]; [|reflexivity..].
    rewrite wr_Ok by (rewrite app_length; simpl; lia). cbn [bind].
    rewrite <- Hl. rewrite insert_app_r_alt by lia. rewrite Nat.sub_diag. simpl insert.
    specialize (IH (pre ++ [b]) (dn ++ [w])). rewrite app_length, <- !app_assoc in IH. cbn [app length] in IH.
    replace (length pre + 1) with (S (length pre)) in IH by lia.
    cbn [replicate]. cbn [insert list_insert]. rewrite IH.
    - destruct (mapR one todo); cbn [bind]; [|reflexivity..]. by rewrite <- app_assoc.
    - done.
    - rewrite app_length. simpl. lia. }
  pose proof (HL x [] [] eq_refl eq_refl) as H. cbn [length app] in H. rewrite H. rewrite <- mapR_Ok.
  destruct (mapR one x); simpl; split; congruence.
Qed.

(** Only the four strings are accepted, and [desc] and [largest] are the true ones. *)
Theorem C59_words w b :
  (parse_direction_one w = Ok b <-> (w = WAsc \/ w = WDesc) /\ (b = true <-> w = WDesc)) /\
  (parse_na_value_one w = Ok b <-> (w = WSmallest \/ w = WLargest) /\ (b = true <-> w = WLargest)).
Proof. destruct w, b; simpl; naive_solver. Qed.

(** Any other number of flags is an error. *)
Theorem C59_args_error impl fuel x decreasing na_largest :
  let n := match x with PDf _ cols => length cols | PVec _ _ => 1 end in
  ~ ((length decreasing = 1 \/ length decreasing = n) /\ (length na_largest = 1 \/ length na_largest = n)) ->
  exists e, order_args impl fuel x decreasing na_largest = Err e.
Proof.
  intros n H. destruct x as [b z|cls cols]; simpl in *.
  - destruct (Nat.eqb_spec (length decreasing) 1); simpl; [|eauto].
    destruct (Nat.eqb_spec (length na_largest) 1); simpl; [|eauto]. lia.
  - unfold df_expand_args.
    destruct (Nat.eqb_spec (length decreasing) 1), (Nat.eqb_spec (length na_largest) 1); simpl; try lia;
      destruct (Nat.eqb_spec (length decreasing) (length cols)), (Nat.eqb_spec (length na_largest) (length cols));
      simpl; eauto; exfalso; subst n; lia.
Qed.

(** ** Examples *)

(** A data frame with a bare column, a packed data frame with a record column
    of two fields, and a data frame without columns *)
Definition ex_impl (x : obj) : res obj :=
  match x with PVec false z => Ok (PDf 0 [PVec true (z * 10); PVec true (z * 10 + 1)]) | _ => Ok x end.
Definition ex_x : list obj := [PVec true 1; PDf 0 [PVec true 2; PVec false 3]; PDf 0 []].
Example C59_example_methods : default_methods ex_impl /\ plain (PDf 0 ex_x).
Proof.
  split; [split; [done|]; by intros id p [= <-]|]. repeat (constructor; try done).
Qed.
Example C59_example_proxy :
  vec_proxy ex_impl 4 (PDf 0 ex_x) = Ok (PDf 0 [PVec true 1; PVec true 2; PVec true 30; PVec true 31]).
Proof. reflexivity. Qed.
Example C59_example_unwrap :
  vec_proxy ex_impl 4 (PDf 0 [PDf 0 []; PDf 5 [PDf 0 [PVec true 7]]]) = Ok (PVec true 7).
Proof. reflexivity. Qed.
Example C59_example_expansion :
  vec_decreasing_expansion ex_impl 4 (PDf 0 [PVec true 2; PVec false 3]) = Ok 3.
Proof. reflexivity. Qed.
Example C59_example_args :
  order_args ex_impl 4 (PDf 0 ex_x) [false; true; false] [true] = Ok ([false; true; true; true], [true]).
Proof. reflexivity. Qed.
Example C59_example_parse :
  parse_words parse_direction_one [WAsc; WDesc] = Ok [false; true] /\
  parse_words parse_na_value_one [WLargest; WNA] = Err "`na_value` can't be missing.".
Proof. split; reflexivity. Qed.

Print Assumptions C59_flat.
Print Assumptions C59_columns.
Print Assumptions C59_total.
Print Assumptions C59_unwrap.
Print Assumptions C59_expansion.
Print Assumptions C59_args_partial.
Print Assumptions C59_args_refuted.
Print Assumptions C59_parse.
Print Assumptions C59_words.
Print Assumptions C59_args_error.
