(** * Properties C01, C02, C03: vec_equal and vec_compare *)
From Verif Require Import Base M_Double M_Scalar M_Hash M_Object M_Proxy Spec_Value Spec_Equal L_Scalar L_Proxy L_Equal.

(** ** Concrete inputs used to show that hypotheses are satisfiable. *)
Definition one_bits : dbl := 4607182418800017408%Z. (* 1.0 *)
Definition na_payload : dbl := 18442240474082183074%Z. (* 0xFFF00000000007A2: another NA *)
Definition ex_x : proxy := PDf 3
  [Vec TDbl [EDbl one_bits; EDbl NA_REAL; EDbl pos_zero]; Vec TChr [EChr (Some [97%Z]); EChr None; EChr None];
   Vec TRaw [ERaw 1; ERaw 2; ERaw 3]].
Definition ex_y : proxy := PDf 3
  [Vec TDbl [EDbl one_bits; EDbl na_payload; EDbl neg_zero]; Vec TChr [EChr (Some [98%Z]); EChr None; EChr None];
   Vec TRaw [ERaw 1; ERaw 2; ERaw 3]].
Ltac crush_ok :=
  unfold proxy_ok, proxy_plain, proxy_wf, vec_wf, cols_in_range, cols_plain, is_plain, same_shape, is_int, dbl_wf,
    cproxy_ok; simpl;
  repeat match goal with
  | |- _ /\ _ => split
  | |- Forall _ _ => constructor
  | |- Forall2 _ _ _ => constructor
  | |- csame _ _ => constructor
  | |- (_ <= _)%Z => unfold two64, two63, INT_MIN, INT_MAX in *; simpl; lia
  | |- (_ < _)%Z => unfold two64, two63, INT_MIN, INT_MAX in *; simpl; lia
  | |- _ <> _ => discriminate
  | |- dbl_wf _ => unfold dbl_wf
  | |- vec_wf _ => unfold vec_wf
  | |- is_int _ => unfold is_int
  | |- _ => progress simpl
  | |- _ => done
  end.

Example ex_x_ok : proxy_ok ex_x. Proof. crush_ok. Qed.
Example ex_y_ok : proxy_ok ex_y. Proof. crush_ok. Qed.
Example ex_shape : same_shape ex_x ex_y. Proof. done. Qed.
Example ex_atomic : proxy_plain ex_x. Proof. crush_ok. Qed.

(** ** C01 *)
Theorem C01_vec_equal_na_equal x y :
  proxy_ok x -> proxy_ok y -> same_shape x y -> proxy_plain x -> proxy_plain y ->
  exists out, vec_equal x y true = Ok out /\ length out = proxy_size x /\
    forall i, i < proxy_size x ->
      (row_same (proxy_row x i) (proxy_row y i) /\ out !! i = Some 1%Z) \/
      (~ row_same (proxy_row x i) (proxy_row y i) /\ out !! i = Some 0%Z).
Proof. exact (vec_equal_na_equal_correct x y). Qed.
Print Assumptions C01_vec_equal_na_equal.

Theorem C01_reflexive x :
  proxy_ok x -> proxy_plain x -> vec_equal x x true = Ok (replicate (proxy_size x) 1%Z).
Proof.
  intros Hx Ha. destruct (vec_equal_na_equal_correct x x) as (out & -> & Hl & Ho); try done.
  { by destruct x. }
  f_equal. apply list_eq. intros i. destruct (decide (i < proxy_size x)) as [Hi|Hi].
  - rewrite lookup_replicate_2 by done. destruct (Ho i Hi) as [[_ H]|[H _]]; [done|]. by destruct H.
  - rewrite !lookup_ge_None_2; [done| |lia]. rewrite replicate_length. lia.
Qed.
Print Assumptions C01_reflexive.

Lemma same_shape_sym x y : same_shape x y -> same_shape y x.
Proof. destruct x, y; simpl; try done; intros []; done. Qed.
Lemma same_shape_size x y : same_shape x y -> proxy_size x = proxy_size y.
Proof. destruct x, y; simpl; try done; intros []; done. Qed.
Theorem C01_symmetric x y :
  proxy_ok x -> proxy_ok y -> same_shape x y -> proxy_plain x -> proxy_plain y ->
  vec_equal x y true = vec_equal y x true.
Proof.
  intros Hx Hy Hs Ha Hb.
  pose proof (same_shape_sym _ _ Hs) as Hs'. pose proof (same_shape_size _ _ Hs) as Hz.
  destruct (vec_equal_na_equal_correct x y) as (o1 & -> & L1 & O1); try done.
  destruct (vec_equal_na_equal_correct y x) as (o2 & -> & L2 & O2); try done.
  f_equal. apply list_eq. intros i. destruct (decide (i < proxy_size x)) as [Hi|Hi].
  - destruct (O1 i) as [[E1 ->]|[E1 ->]]; [done| |]; destruct (O2 i) as [[E2 ->]|[E2 ->]]; try lia; try done.
  - rewrite !lookup_ge_None_2 by lia. done.
Qed.
Print Assumptions C01_symmetric.

Theorem C01_transitive x y z oxy oyz oxz i :
  proxy_ok x -> proxy_ok y -> proxy_ok z -> same_shape x y -> same_shape y z -> same_shape x z ->
  proxy_plain x -> proxy_plain y -> proxy_plain z ->
  vec_equal x y true = Ok oxy -> vec_equal y z true = Ok oyz -> vec_equal x z true = Ok oxz ->
  oxy !! i = Some 1%Z -> oyz !! i = Some 1%Z -> oxz !! i = Some 1%Z.
Proof.
  intros Hx Hy Hz Sxy Syz Sxz Ha Hb Hc E1 E2 E3 H1 H2.
  pose proof (same_shape_size _ _ Sxy) as Z1.
  destruct (vec_equal_na_equal_correct x y) as (o1 & F1 & L1 & O1); try done.
  destruct (vec_equal_na_equal_correct y z) as (o2 & F2 & L2 & O2); try done.
  destruct (vec_equal_na_equal_correct x z) as (o3 & F3 & L3 & O3); try done.
  assert (o1 = oxy) as -> by congruence. assert (o2 = oyz) as -> by congruence.
  assert (o3 = oxz) as -> by congruence.
  assert (Hi : i < proxy_size x). { apply lookup_lt_Some in H1. lia. }
  destruct (O1 i) as [[S1 _]|[_ K]]; [done| |congruence].
  destruct (O2 i) as [[S2 _]|[_ K]]; [lia| |congruence].
  destruct (O3 i) as [[_ K]|[S3 _]]; [done|done|]. destruct S3. unfold row_same in *. congruence.
Qed.
Print Assumptions C01_transitive.

(** NA and NaN are two distinct classes, whatever their payload; the zeros agree. *)
Theorem C01_double_classes a b : dbl_wf a -> dbl_wf b ->
  dbl_equal_na_equal a b = true <->
  match dbl_sem a, dbl_sem b with
  | SNa, SNa => True | SNan, SNan => True | SNum v, SNum w => v = w | _, _ => False
  end.
Proof.
  intros Ha Hb. rewrite dbl_equal_spec by done.
  destruct (dbl_sem a), (dbl_sem b); split; try congruence; try done; by intros ->.
Qed.
Print Assumptions C01_double_classes.
Example C01_zeros : dbl_sem pos_zero = dbl_sem neg_zero. Proof. reflexivity. Qed.
Example C01_na_nan : dbl_sem NA_REAL = SNa /\ dbl_sem na_payload = SNa /\ dbl_sem R_NaN = SNan.
Proof. repeat split. Qed.
Example C01_run : vec_equal ex_x ex_y true = Ok [0; 1; 1]%Z. Proof. reflexivity. Qed.

(** ** C02 *)
Theorem C02_vec_equal_na_propagate x y :
  proxy_ok x -> proxy_ok y -> same_shape x y -> proxy_plain x -> proxy_plain y ->
  exists out, vec_equal x y false = Ok out /\ length out = proxy_size x /\
    forall i, i < proxy_size x -> exists v, out !! i = Some v /\
      row_eq_propagate (proxy_row x i) (proxy_row y i) v.
Proof. exact (vec_equal_propagate_correct x y). Qed.
Print Assumptions C02_vec_equal_na_propagate.

(** For a bare vector: NA exactly when one of the two elements is missing,
    otherwise the same answer as with [na_equal = TRUE]. *)
Theorem C02_bare_vector v w :
  proxy_ok (PVec v) -> proxy_ok (PVec w) -> same_shape (PVec v) (PVec w) -> proxy_plain (PVec v) -> proxy_plain (PVec w) ->
  exists out outT, vec_equal (PVec v) (PVec w) false = Ok out /\ vec_equal (PVec v) (PVec w) true = Ok outT /\
    forall i a b, v_data v !! i = Some a -> v_data w !! i = Some b ->
      (missing_sem a \/ missing_sem b -> out !! i = Some NA_LOGICAL) /\
      (~ missing_sem a -> ~ missing_sem b -> out !! i = outT !! i).
Proof.
  intros Hx Hy Hs Ha Hb.
  destruct (vec_equal_propagate_correct (PVec v) (PVec w)) as (o1 & E1 & L1 & O1); try done.
  destruct (vec_equal_na_equal_correct (PVec v) (PVec w)) as (o2 & E2 & L2 & O2); try done.
  exists o1, o2. split_and!; try done. intros i a b Hai Hbi.
  assert (Hi : i < proxy_size (PVec v)) by (simpl; by eapply lookup_lt_Some).
  destruct (O1 i Hi) as (u & Eu & Hu). specialize (O2 i Hi).
  unfold proxy_row in *. simpl in *.
  rewrite (cols_row_cons _ _ _ a), (cols_row_cons _ _ _ b) in Hu, O2 by done.
  change (cols_row [] i) with (@nil elt) in *.
  split.
  - intros Hm. rewrite Eu. inversion Hu; subst; try done; tauto.
  - intros Ma Mb. rewrite Eu.
    assert (Hc : (u = 1%Z /\ row_same [a] [b]) \/ (u = 0%Z /\ ~ row_same [a] [b])).
    { eapply row_eq_propagate_complete; [done| |]; by repeat constructor. }
    destruct Hc as [[-> Hc]|[-> Hc]]; destruct O2 as [[Hr ->]|[Hr ->]]; try done.
Qed.
Print Assumptions C02_bare_vector.

(** Rows without missing values: the two modes agree. *)
Theorem C02_complete_rows r s v :
  row_eq_propagate r s v -> Forall (fun e => ~ missing_sem e) r -> Forall (fun e => ~ missing_sem e) s ->
  (v = 1%Z /\ row_same r s) \/ (v = 0%Z /\ ~ row_same r s).
Proof. exact (row_eq_propagate_complete r s v). Qed.
Print Assumptions C02_complete_rows.
Theorem C02_result_unique r s v w : row_eq_propagate r s v -> row_eq_propagate r s w -> v = w.
Proof. exact (row_eq_propagate_fun r s v w). Qed.
Print Assumptions C02_result_unique.
Example C02_run : vec_equal ex_x ex_y false = Ok [0; NA_LOGICAL; NA_LOGICAL]%Z. Proof. reflexivity. Qed.

(** ** C03 *)
Theorem C03_vec_compare_na_equal size x y :
  cproxy_ok size x -> cproxy_ok size y -> csame x y ->
  exists out, vec_compare size x y true = Ok out /\ length out = size /\
    forall i, i < size -> exists c, out !! i = Some c /\
      row_cmp (cols_row (cflatten x) i) (cols_row (cflatten y) i) c.
Proof. exact (vec_compare_correct size x y). Qed.
Print Assumptions C03_vec_compare_na_equal.

Theorem C03_vec_compare_na_propagate size x y :
  cproxy_ok size x -> cproxy_ok size y -> csame x y ->
  exists out, vec_compare size x y false = Ok out /\ length out = size /\
    forall i, i < size -> exists c, out !! i = Some c /\
      row_cmp_propagate (cols_row (cflatten x) i) (cols_row (cflatten y) i) c.
Proof. exact (vec_compare_propagate_correct size x y). Qed.
Print Assumptions C03_vec_compare_na_propagate.

(** [row_cmp] describes a strict total order up to [row_same]. *)
Theorem C03_order_irreflexive r s : row_lt r s -> ~ row_same r s.
Proof. exact (row_lt_not_same r s). Qed.
Theorem C03_order_transitive r s t : row_lt r s -> row_lt s t -> row_lt r t.
Proof. exact (row_lt_trans r s t). Qed.
Theorem C03_order_asymmetric r s : row_lt r s -> ~ row_lt s r.
Proof. exact (row_lt_asym r s). Qed.
Theorem C03_order_congruent r r' s s' :
  row_same r r' -> row_same s s' -> row_lt r s -> row_lt r' s'.
Proof. intros H1 H2 H. eapply row_lt_same_l; [done|]. by eapply row_lt_same_r. Qed.
Theorem C03_result_unique r s c d : row_cmp r s c -> row_cmp r s d -> c = d.
Proof. exact (row_cmp_fun r s c d). Qed.
Print Assumptions C03_order_transitive.
Print Assumptions C03_result_unique.

(** Swapping the arguments negates the answer. *)
Theorem C03_antisymmetric size x y oxy oyx i c :
  cproxy_ok size x -> cproxy_ok size y -> csame x y -> csame y x ->
  vec_compare size x y true = Ok oxy -> vec_compare size y x true = Ok oyx ->
  oxy !! i = Some c -> oyx !! i = Some (- c)%Z.
Proof.
  intros Hx Hy Hs Hs' E1 E2 Hc.
  destruct (vec_compare_correct size x y Hx Hy Hs) as (o1 & F1 & L1 & O1).
  destruct (vec_compare_correct size y x Hy Hx Hs') as (o2 & F2 & L2 & O2).
  assert (o1 = oxy) as -> by congruence. assert (o2 = oyx) as -> by congruence.
  assert (Hi : i < size) by (apply lookup_lt_Some in Hc; lia).
  destruct (O1 i Hi) as (c1 & K1 & R1). destruct (O2 i Hi) as (c2 & K2 & R2).
  assert (c1 = c) as -> by congruence. rewrite K2. f_equal.
  eapply row_cmp_fun; [exact R2|]. unfold row_cmp, row_same in *.
  destruct R1 as [[-> ?]|[[-> ?]|[-> ?]]]; simpl; auto.
Qed.
Print Assumptions C03_antisymmetric.

(** Agreement with vec_equal on rows. *)
Theorem C03_zero_iff_equal r s :
  row_cmp r s 0 -> row_same r s.
Proof. unfold row_cmp. intros [[? ?]|[[? ?]|[? ?]]]; done. Qed.
Theorem C03_equal_gives_zero r s c : row_cmp r s c -> row_same r s -> c = 0%Z.
Proof.
  intros H E. eapply row_cmp_fun; [exact H|]. right; left. done.
Qed.
Print Assumptions C03_equal_gives_zero.

(** The same in terms of the two API functions. *)
Theorem C03_agrees_with_vec_equal size x y oc oe i :
  cproxy_ok size x -> cproxy_ok size y -> csame x y ->
  proxy_ok (PDf size (cflatten x)) -> proxy_ok (PDf size (cflatten y)) ->
  same_shape (PDf size (cflatten x)) (PDf size (cflatten y)) ->
  proxy_plain (PDf size (cflatten x)) -> proxy_plain (PDf size (cflatten y)) ->
  vec_compare size x y true = Ok oc -> vec_equal (PDf size (cflatten x)) (PDf size (cflatten y)) true = Ok oe ->
  i < size -> oc !! i = Some 0%Z <-> oe !! i = Some 1%Z.
Proof.
  intros Hx Hy Hs Ox Oy Sh Px Py Ec Ee Hi.
  destruct (vec_compare_correct size x y Hx Hy Hs) as (o1 & F1 & L1 & O1).
  destruct (vec_equal_na_equal_correct _ _ Ox Oy Sh Px Py) as (o2 & F2 & L2 & O2).
  assert (o1 = oc) as -> by congruence. assert (o2 = oe) as -> by congruence.
  destruct (O1 i Hi) as (c & -> & Hc). destruct (O2 i Hi) as [[HS ->]|[HS ->]]; unfold proxy_row in HS; simpl in HS.
  - split; [done|]. intros _. f_equal. by eapply C03_equal_gives_zero.
  - split; [|done]. intros [= ->]. by apply C03_zero_iff_equal in Hc.
Qed.
Print Assumptions C03_agrees_with_vec_equal.

Definition ex_cx : cproxy := CDf [CVec (Vec TInt [EInt 1; EInt NA_INTEGER]); CDf [CVec (Vec TDbl [EDbl R_NaN; EDbl one_bits])]].
Definition ex_cy : cproxy := CDf [CVec (Vec TInt [EInt 1; EInt 5]); CDf [CVec (Vec TDbl [EDbl NA_REAL; EDbl one_bits])]].
Example C03_ok : cproxy_ok 2 ex_cx /\ cproxy_ok 2 ex_cy /\ csame ex_cx ex_cy /\ csame ex_cy ex_cx.
Proof. unfold NA_INTEGER, ex_cx, ex_cy, R_NaN, NA_REAL, one_bits. crush_ok. Qed.
Example C03_run : vec_compare 2 ex_cx ex_cy true = Ok [-1; -1]%Z. Proof. reflexivity. Qed.
