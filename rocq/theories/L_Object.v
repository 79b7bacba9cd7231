(** * Lemmas: object equality and hashing *)
From Verif Require Import Base M_Double M_Scalar M_Hash M_Object M_Proxy Spec_Value L_Dbl.

Lemma robj_ind' (P : robj -> Prop) :
  P RNull -> (forall k a, P (RRef k a)) -> (forall s, P (RCharsxp s)) ->
  (forall v a, P a -> P (RVec v a)) ->
  (forall e xs a, Forall P xs -> P a -> P (RList e xs a)) ->
  (forall k t car cdr a, P car -> P cdr -> P a -> P (RNode k t car cdr a)) ->
  (forall f b e a, P f -> P b -> P e -> P a -> P (RClo f b e a)) ->
  (forall n, P (ROther n)) -> forall x, P x.
Proof.
  intros H0 H1 H2 H3 H4 H5 H6 H7. fix IH 1. intros [| | |v a|e xs a|k t car cdr a|f b e a|n].
  - done.
  - apply H1.
  - apply H2.
  - apply H3, IH.
  - apply H4; [|apply IH]. induction xs as [|y ys IHxs]; constructor; [apply IH|exact IHxs].
  - apply H5; apply IH.
  - apply H6; apply IH.
  - apply H7.
Qed.

Fixpoint attrs_sem (a : robj) : list osem :=
  match a with RNode _ _ car cdr _ => obj_sem car :: attrs_sem cdr | _ => [] end.

Lemma obj_sem_vec v a : obj_sem (RVec v a) =
  match v with
  | Lgl xs => OLgl (map int_sem xs) (attrs_sem a)
  | Int xs => OInt (map int_sem xs) (attrs_sem a)
  | Dbl xs => ODbl (map dbl_sem xs) (attrs_sem a)
  | Cpl xs => OCpl (map (fun p => (dbl_sem p.1, dbl_sem p.2)) xs) (attrs_sem a)
  | Str xs => OStr xs (attrs_sem a)
  | Raw xs => ORaw xs (attrs_sem a)
  end.
Proof. reflexivity. Qed.
Lemma obj_sem_list e xs a : obj_sem (RList e xs a) = OList e (map obj_sem xs) (attrs_sem a).
Proof. reflexivity. Qed.

Fixpoint equal_list (xs ys : list robj) : bool :=
  match xs, ys with
  | [], _ => true
  | x :: xs', y :: ys' => if negb (equal_object x y) then false else equal_list xs' ys'
  | _ :: _, [] => false
  end.
Lemma equal_object_vec v xa w ya :
  equal_object (RVec v xa) (RVec w ya) =
  (if negb (atomic_same_type v w) then false
   else if negb (atomic_length v =? atomic_length w) then false
   else if negb (equal_attrib xa ya) then false
   else atomic_equal_all v w).
Proof. reflexivity. Qed.
Lemma equal_object_list e xs xa e' ys ya :
  equal_object (RList e xs xa) (RList e' ys ya) =
  (if negb (Bool.eqb e e') then false
   else if negb (length xs =? length ys) then false
   else if negb (equal_attrib xa ya) then false
   else equal_list xs ys).
Proof. reflexivity. Qed.

Lemma equal_all_spec {A B} (eq : A -> A -> bool) (f : A -> B) xs ys :
  length xs = length ys -> (forall x y, x ∈ xs -> y ∈ ys -> eq x y = true <-> f x = f y) ->
  equal_all eq xs ys = true <-> map f xs = map f ys.
Proof.
  revert ys. induction xs as [|x xs IH]; intros [|y ys] Hl H; simpl in *; try done.
  pose proof (H x y ltac:(left) ltac:(left)) as Hxy.
  assert (IH' := IH ys ltac:(lia) ltac:(intros; apply H; by right)).
  destruct (eq x y); simpl.
  - rewrite IH'. split; [intros ->; f_equal; by apply Hxy|by intros [= _ ?]].
  - split; [done|]. intros [= E _]. apply Hxy in E. done.
Qed.

Definition atomic_sem (v : atomic) : osem := obj_sem (RVec v RNull).
Lemma atomic_equal_all_spec v w :
  atomic_in_range v -> atomic_in_range w ->
  atomic_same_type v w && (atomic_length v =? atomic_length w) && atomic_equal_all v w = true
  <-> atomic_sem v = atomic_sem w.
Proof.
  intros Hv Hw. unfold atomic_sem. rewrite !obj_sem_vec.
  assert (Hcase : forall {A B} (eq : A -> A -> bool) (f : A -> B) (c : list B -> osem) xs ys,
    (forall a b, c a = c b -> a = b) ->
    (forall x y, x ∈ xs -> y ∈ ys -> eq x y = true <-> f x = f y) ->
    (length xs =? length ys) && equal_all eq xs ys = true <-> c (map f xs) = c (map f ys)).
  { intros A B eq f c xs ys Hc H. rewrite andb_true_iff, Nat.eqb_eq. split.
    - intros [Hl E]. f_equal. by apply (equal_all_spec eq f).
    - intros E. apply Hc in E. assert (Hl : length xs = length ys).
      { apply (f_equal length) in E. by rewrite !map_length in E. }
      split; [done|]. by apply (equal_all_spec eq f). }
  destruct v as [xs|xs|xs|xs|xs|xs], w as [ys|ys|ys|ys|ys|ys]; simpl atomic_same_type; simpl atomic_length;
    simpl atomic_equal_all; try (split; [discriminate|congruence]); simpl andb; cbn in Hv, Hw.
  - apply (Hcase _ _ _ int_sem (fun v => OLgl v (attrs_sem RNull))); [congruence|]. intros x y _ _. unfold lgl_equal_na_equal.
    by rewrite Z.eqb_eq, int_sem_inj.
  - apply (Hcase _ _ _ int_sem (fun v => OInt v (attrs_sem RNull))); [congruence|]. intros x y _ _. unfold int_equal_na_equal.
    by rewrite Z.eqb_eq, int_sem_inj.
  - apply (Hcase _ _ _ dbl_sem (fun v => ODbl v (attrs_sem RNull))); [congruence|]. intros x y Hx Hy.
    apply dbl_equal_spec; [by eapply Forall_forall in Hv|by eapply Forall_forall in Hw].
  - apply (Hcase _ _ _ (fun p => (dbl_sem p.1, dbl_sem p.2)) (fun v => OCpl v (attrs_sem RNull))); [congruence|]. intros x y Hx Hy.
    eapply Forall_forall in Hv; [|exact Hx]. eapply Forall_forall in Hw; [|exact Hy]. destruct Hv, Hw.
    unfold cpl_equal_na_equal. rewrite andb_true_iff, !dbl_equal_spec by done.
    split; [by intros [-> ->]|by intros [= -> ->]].
  - rewrite <- (map_id xs), <- (map_id ys) at 3. rewrite (map_id xs), (map_id ys) at 1. 
    pose proof (Hcase _ _ chr_equal_na_equal id (fun v => OStr v (attrs_sem RNull)) xs ys) as H.
    change (map id xs) with (map (fun x => x) xs) in H. rewrite !map_id in H. rewrite ?map_id. apply H; [congruence|].
    intros x y _ _. apply str_ptr_eqb_spec.
  - pose proof (Hcase _ _ raw_equal_na_equal id (fun v => ORaw v (attrs_sem RNull)) xs ys) as H.
    change (map id xs) with (map (fun x => x) xs) in H. rewrite !map_id in H. apply H; [congruence|].
    intros x y _ _. unfold raw_equal_na_equal. by rewrite Z.eqb_eq.
Qed.
Lemma obj_sem_vec_eq v a w b :
  obj_sem (RVec v a) = obj_sem (RVec w b) <-> atomic_sem v = atomic_sem w /\ attrs_sem a = attrs_sem b.
Proof.
  unfold atomic_sem. rewrite !obj_sem_vec. destruct v, w; split; try (intros [? ?]; congruence);
    intros [=]; split; congruence.
Qed.

Lemma ref_kind_eqb_spec a b : ref_kind_eqb a b = true <-> a = b.
Proof. destruct a, b; split; done. Qed.
Lemma node_kind_eqb_spec a b : node_kind_eqb a b = true <-> a = b.
Proof. destruct a, b; split; done. Qed.

(** *** Equality in both directions is equality of meanings. *)
Definition mutual (x y : robj) : Prop := equal_object x y = true /\ equal_object y x = true.
Definition mutual_attrib (x y : robj) : Prop := equal_attrib x y = true /\ equal_attrib y x = true.

Ltac split_ifs H :=
  repeat match type of H with
  | (if negb ?c then false else _) = true => let E := fresh "E" in destruct c eqn:E; simpl in H; [|discriminate H]
  end.

Lemma if_and (c d : bool) : (if negb c then false else d) = c && d.
Proof. by destruct c. Qed.

Lemma equal_list_spec xs ys :
  Forall (fun x => forall y, obj_wf x -> obj_wf y -> mutual x y <-> obj_sem x = obj_sem y) xs ->
  Forall obj_wf xs -> Forall obj_wf ys -> length xs = length ys ->
  (equal_list xs ys = true /\ equal_list ys xs = true) <-> map obj_sem xs = map obj_sem ys.
Proof.
  intros H. revert ys. induction H as [|x xs Hx H IH]; intros [|y ys] Wx Wy Hl; simpl in *; try done.
  apply Forall_cons in Wx as [Wx Fx]. apply Forall_cons in Wy as [Wy Fy].
  rewrite !if_and, !andb_true_iff. specialize (Hx y Wx Wy). specialize (IH ys Fx Fy ltac:(lia)).
  unfold mutual in Hx. split.
  - intros [[A B] [C D]]. f_equal; [apply Hx|apply IH]; done.
  - intros [= A B]. apply Hx in A as []. apply IH in B as []. done.
Qed.

Lemma equal_object_mutual_sem x :
  (forall y, obj_wf x -> obj_wf y -> mutual x y <-> obj_sem x = obj_sem y) /\
  (forall y, obj_wf x -> obj_wf y -> mutual_attrib x y <-> attrs_sem x = attrs_sem y).
Proof.
  induction x as [|k a|s|v a [IHa IHa']|e xs a IHxs [IHa IHa']|k t car cdr a [IH1 _] [IH2 IH2'] [IH3 _]
                 |f b e a [IH1 _] [IH2 _] [IH3 _] [IH4 _]|n] using robj_ind';
  (split; intros y Wx Wy; [|unfold mutual_attrib; destruct y; simpl; try done; try (split; [intros [? ?]; done|done])]).
  all: unfold mutual.
  - destruct y as [| | |w ?| | | |]; simpl; try (split; [intros [? ?]; done|]; try destruct w; congruence). done.
  - destruct y as [|k' a'| |w ?| | | |]; simpl; try (split; [intros [? ?]; done|]; try destruct w; congruence).
    + rewrite !andb_true_iff, !ref_kind_eqb_spec, !Z.eqb_eq. split; [by intros [[-> ->] _]|by intros [= -> ->]].
  - destruct y as [| |s'|w ?| | | |]; simpl; try (split; [intros [? ?]; done|]; try destruct w; congruence).
    + rewrite !str_ptr_eqb_spec. split; [by intros [-> _]|by intros [= ->]].
  - destruct y as [| | |w b| | | |]; try (simpl; split; [intros [? ?]; done|]; simpl; destruct v; congruence).
    + inversion Wx; subst. inversion Wy; subst. rewrite !equal_object_vec, obj_sem_vec_eq, !if_and.
      rewrite <- atomic_equal_all_spec by done. rewrite <- IHa' by done. unfold mutual_attrib.
      assert (Hsym : atomic_same_type v w && (atomic_length v =? atomic_length w) && atomic_equal_all v w = true <->
                     atomic_same_type w v && (atomic_length w =? atomic_length v) && atomic_equal_all w v = true).
      { rewrite !atomic_equal_all_spec by done. split; done. }
      rewrite !andb_true_iff in *. tauto.
  - destruct y as [| | |w ?|e' ys b| | |]; try (simpl; split; [intros [? ?]; done|]; simpl; try destruct w; congruence).
    + inversion Wx; subst. inversion Wy; subst. rewrite !equal_object_list, !obj_sem_list, !if_and.
      rewrite !andb_true_iff, !Bool.eqb_true_iff, !Nat.eqb_eq.
      assert (IH' : Forall (fun x => forall y, obj_wf x -> obj_wf y -> mutual x y <-> obj_sem x = obj_sem y) xs).
      { eapply Forall_impl; [exact IHxs|]. by intros ? []. }
      split.
      * intros [(? & ? & ? & ?) (? & ? & ? & ?)]. f_equal; [done| |].
        -- apply equal_list_spec; done.
        -- by apply IHa'.
      * intros [= -> E1 E2]. assert (Hl : length xs = length ys).
        { apply (f_equal length) in E1. by rewrite !map_length in E1. }
        apply equal_list_spec in E1 as []; try done. apply IHa' in E2 as []; try done.
  - destruct y as [| | |w ?| |k' t' car' cdr' a'| |]; simpl; try (split; [intros [? ?]; done|]; try destruct w; congruence).
    + inversion Wx; subst. inversion Wy; subst. rewrite !if_and, !andb_true_iff, !node_kind_eqb_spec.
      specialize (IH1 car'). specialize (IH2 cdr'). specialize (IH3 a'). unfold mutual in *. split.
      * intros [(-> & ? & ? & ?) (_ & ? & ? & ?)]. f_equal; [apply IH1|apply IH2|apply IH3]; done.
      * intros [= -> E1 E2 E3]. apply IH1 in E1 as []; [|done|done]. apply IH2 in E2 as []; [|done|done].
        apply IH3 in E3 as []; [|done|done]. done.
  - inversion Wx; subst. inversion Wy; subst. rewrite !if_and, !andb_true_iff.
    unfold mutual, mutual_attrib in *.
    specialize (IH1 y1 ltac:(done) ltac:(done)). specialize (IH2' y2 ltac:(done) ltac:(done)). split.
    + intros [[? ?] [? ?]]. f_equal; [apply IH1|apply IH2']; done.
    + intros [= E1 E2]. apply IH1 in E1 as []. apply IH2' in E2 as []. done.
  - destruct y as [| | |w ?| | |f' b' e' a'|]; simpl; try (split; [intros [? ?]; done|]; try destruct w; congruence).
    + inversion Wx; subst. inversion Wy; subst. rewrite !if_and, !andb_true_iff.
      specialize (IH1 f'). specialize (IH2 b'). specialize (IH3 e'). specialize (IH4 a'). unfold mutual in *. split.
      * intros [(? & ? & ? & ?) (? & ? & ? & ?)]. f_equal; [apply IH1|apply IH2|apply IH3|apply IH4]; done.
      * intros [= E1 E2 E3 E4]. apply IH1 in E1 as []; [|done|done]. apply IH2 in E2 as []; [|done|done].
        apply IH3 in E3 as []; [|done|done]. apply IH4 in E4 as []; [|done|done]. done.
  - inversion Wx.
Qed.

Theorem equal_object_mutual x y : obj_wf x -> obj_wf y ->
  (equal_object x y = true /\ equal_object y x = true) <-> obj_sem x = obj_sem y.
Proof. apply equal_object_mutual_sem. Qed.

Theorem equal_object_refl x : obj_wf x -> equal_object x x = true.
Proof. intros W. by apply (equal_object_mutual x x W W). Qed.

(** Same meaning implies equal, in both directions. *)
Lemma obj_sem_equal x y : obj_wf x -> obj_wf y -> obj_sem x = obj_sem y -> equal_object x y = true.
Proof. intros Wx Wy E. by apply equal_object_mutual. Qed.

Lemma atomic_equal_sym v w : atomic_in_range v -> atomic_in_range w ->
  atomic_same_type v w && (atomic_length v =? atomic_length w) && atomic_equal_all v w =
  atomic_same_type w v && (atomic_length w =? atomic_length v) && atomic_equal_all w v.
Proof.
  intros Hv Hw. apply Bool.eq_iff_eq_true. rewrite !atomic_equal_all_spec by done. split; done.
Qed.

Lemma equal_list_sym xs ys :
  Forall (fun x => forall y, obj_bare y -> obj_wf x -> obj_wf y -> equal_object x y = true -> equal_object y x = true) xs ->
  Forall obj_bare ys -> Forall obj_wf xs -> Forall obj_wf ys -> length xs = length ys ->
  equal_list xs ys = true -> equal_list ys xs = true.
Proof.
  intros H. revert ys. induction H as [|x xs Hx H IH]; intros [|y ys] By Wx Wy Hl; simpl in *; try done.
  apply Forall_cons in Wx as [Wx Fx]. apply Forall_cons in Wy as [Wy Fy]. apply Forall_cons in By as [By Fb].
  rewrite !if_and, !andb_true_iff. intros [A B]. split; [by apply Hx|]. apply IH; done || lia.
Qed.

Lemma bare_sym x y : obj_bare x -> obj_bare y -> obj_wf x -> obj_wf y ->
  equal_object x y = true -> equal_object y x = true.
Proof.
  intros Bx. revert y.
  induction x as [|k a|s|v a IHa|e xs a IHxs IHa|k t car cdr a IH1 IH2 IH3
                 |f b e a IH1 IH2 IH3 IH4|n] using robj_ind'; intros y By Wx Wy;
    destruct y as [|k' a'|s'|w a'|e' ys a'|k' t' car' cdr' a'|f' b' e' a'|n']; try done.
  - simpl. rewrite !andb_true_iff, !ref_kind_eqb_spec, !Z.eqb_eq. by intros [-> ->].
  - simpl. rewrite !str_ptr_eqb_spec. done.
  - inversion Bx; subst. inversion By; subst. inversion Wx; subst. inversion Wy; subst.
    rewrite !equal_object_vec, !if_and. simpl. intros E. rewrite andb_assoc in *.
    by rewrite atomic_equal_sym by done.
  - inversion Bx as [| | | |? ? Fx| |]; subst. inversion By as [| | | |? ? Fy| |]; subst.
    inversion Wx; subst. inversion Wy; subst.
    rewrite !equal_object_list, !if_and. simpl. rewrite !andb_true_iff, !Bool.eqb_true_iff, !Nat.eqb_eq.
    intros (-> & Hl & E). split_and!; [done|done|]. eapply equal_list_sym; try done.
    clear -IHxs Fx. induction Fx as [|x xs Hx Fx IH]; [constructor|]. apply Forall_cons in IHxs as [H1 H2].
    constructor; [|by apply IH]. intros y By Wx Wy E. by apply H1.
  - inversion Bx; subst. inversion By; subst. inversion Wx; subst. inversion Wy; subst.
    simpl. rewrite !if_and, !andb_true_iff, !node_kind_eqb_spec. intros (-> & E1 & E2). split_and!; auto.
  - inversion Bx; subst. inversion By; subst. inversion Wx; subst. inversion Wy; subst.
    simpl. rewrite !if_and, !andb_true_iff. intros (E1 & E2 & E3). split_and!; auto.
Qed.

Theorem equal_object_bare x y : obj_bare x -> obj_bare y -> obj_wf x -> obj_wf y ->
  equal_object x y = true <-> obj_sem x = obj_sem y.
Proof.
  intros Bx By Wx Wy. rewrite <- equal_object_mutual by done. split; [|tauto].
  intros E. split; [done|]. by apply bare_sym.
Qed.

(** Transitivity holds in general. *)
Lemma equal_list_trans xs ys zs :
  Forall (fun x => forall y z, obj_wf x -> obj_wf y -> obj_wf z ->
            equal_object x y = true -> equal_object y z = true -> equal_object x z = true) xs ->
  Forall obj_wf xs -> Forall obj_wf ys -> Forall obj_wf zs ->
  length xs = length ys -> equal_list xs ys = true -> equal_list ys zs = true -> equal_list xs zs = true.
Proof.
  intros H. revert ys zs. induction H as [|x xs Hx H IH]; intros [|y ys] [|z zs] Wx Wy Wz Hl; simpl in *; try done.
  apply Forall_cons in Wx as [Wx Fx]. apply Forall_cons in Wy as [Wy Fy]. apply Forall_cons in Wz as [Wz Fz].
  rewrite !if_and, !andb_true_iff. intros [A B] [C D]. split; [by apply (Hx y z)|]. eapply IH; [..|exact B|exact D]; done || lia.
Qed.

Lemma equal_object_trans_attr x :
  (forall y z, obj_wf x -> obj_wf y -> obj_wf z ->
     equal_object x y = true -> equal_object y z = true -> equal_object x z = true) /\
  (forall y z, obj_wf x -> obj_wf y -> obj_wf z ->
     equal_attrib x y = true -> equal_attrib y z = true -> equal_attrib x z = true).
Proof.
  induction x as [|k a|s|v a [IHa IHa']|e xs a IHxs [IHa IHa']|k t car cdr a [IH1 _] [IH2 IH2'] [IH3 _]
                 |f b e a [IH1 _] [IH2 _] [IH3 _] [IH4 _]|n] using robj_ind';
  (split; intros y z Wx Wy Wz; [|try done]).
  - destruct y; done.
  - destruct y, z; simpl; try done. rewrite !andb_true_iff, !ref_kind_eqb_spec, !Z.eqb_eq. intros [-> ->] [-> ->]; done.
  - destruct y, z; simpl; try done. rewrite !str_ptr_eqb_spec. by intros -> ->.
  - destruct y as [| | |w b| | | |]; try done. destruct z as [| | |u c| | | |]; try done.
    inversion Wx; subst. inversion Wy; subst. inversion Wz; subst.
    rewrite !equal_object_vec, !if_and. intros A B.
    rewrite !andb_true_iff in A, B. destruct A as (A1 & A2 & A3 & A4), B as (B1 & B2 & B3 & B4).
    assert (E1 : atomic_sem v = atomic_sem w) by (apply atomic_equal_all_spec; [done|done|by rewrite A1, A2, A4]).
    assert (E2 : atomic_sem w = atomic_sem u) by (apply atomic_equal_all_spec; [done|done|by rewrite B1, B2, B4]).
    rewrite <- E1 in E2. apply atomic_equal_all_spec in E2; [|done|done]. rewrite !andb_true_iff in *.
    destruct E2 as [[? ?] ?]. split_and!; try done. by apply (IHa' b c).
  - destruct y as [| | | |e' ys b| | |]; try done. destruct z as [| | | |e'' zs c| | |]; try done.
    inversion Wx; subst. inversion Wy; subst. inversion Wz; subst.
    rewrite !equal_object_list, !if_and, !andb_true_iff, !Bool.eqb_true_iff, !Nat.eqb_eq.
    intros (-> & A1 & A2 & A3) (-> & B1 & B2 & B3). split_and!; [done|lia|by apply (IHa' b c)|].
    eapply equal_list_trans; [..|exact A3|exact B3]; try done.
    eapply Forall_impl; [exact IHxs|]. by intros ? [].
  - destruct y; try done. destruct z; try done.
    inversion Wx; subst. inversion Wy; subst. inversion Wz; subst.
    simpl. rewrite !if_and, !andb_true_iff, !node_kind_eqb_spec.
    intros (-> & A1 & A2 & A3) (-> & B1 & B2 & B3). split_and!; eauto.
  - destruct y; try done. destruct z; try done.
    inversion Wx; subst. inversion Wy; subst. inversion Wz; subst.
    simpl. rewrite !if_and, !andb_true_iff. intros [? ?] [? ?]. split; eauto.
  - destruct y; try done. destruct z; try done.
    inversion Wx; subst. inversion Wy; subst. inversion Wz; subst.
    simpl. rewrite !if_and, !andb_true_iff.
    intros (A1 & A2 & A3 & A4) (B1 & B2 & B3 & B4). split_and!; eauto.
  - done.
Qed.
Theorem equal_object_trans x y z : obj_wf x -> obj_wf y -> obj_wf z ->
  equal_object x y = true -> equal_object y z = true -> equal_object x z = true.
Proof. apply equal_object_trans_attr. Qed.

(** *** Same meaning, same hash *)
Lemma dbl_number_bits a b v : dbl_wf a -> dbl_wf b -> dbl_sem a = SNum v -> dbl_sem b = SNum v ->
  v <> 0%Z -> a = b.
Proof.
  intros Wa Wb Ea Eb Hv.
  assert (Na : isnan a = false) by (by rewrite isnan_sem, Ea).
  assert (Nb : isnan b = false) by (by rewrite isnan_sem, Eb).
  rewrite dbl_value_spec in Ea, Eb by done. injection Ea as Ea. injection Eb as Eb.
  assert (Hm : forall c, dbl_wf c -> isnan c = false -> (0 <= dbl_mag c <= 2047 * two52)%Z).
  { intros c Wc Nc. unfold isnan, dbl_exp, dbl_frac in Nc. unfold dbl_wf, dbl_mag, two63, two52, two64 in *.
    pose proof (Z.mod_pos_bound c 9223372036854775808 ltac:(lia)).
    set (m := (c mod 9223372036854775808)%Z) in *.
    pose proof (Z.div_mod m 4503599627370496 ltac:(lia)).
    pose proof (Z.mod_pos_bound m 4503599627370496 ltac:(lia)).
    destruct (Z.eqb_spec (m / 4503599627370496) 2047); simpl in Nc.
    - apply negb_false_iff, Z.eqb_eq in Nc. lia.
    - lia. }
  pose proof (Hm a Wa Na) as Ma. pose proof (Hm b Wb Nb) as Mb.
  assert (Hpos : forall m, (0 <= m <= 2047 * two52 -> 0 <= mag_value m)%Z).
  { intros m Hmm. destruct (Z.eq_dec m 0%Z) as [->|]; [done|]. pose proof (mag_value_mono 0%Z m ltac:(lia) ltac:(lia)) as K.
    change (mag_value 0) with 0%Z in K. lia. }
  assert (Hinj : forall m n, (0 <= m <= 2047 * two52 -> 0 <= n <= 2047 * two52 -> mag_value m = mag_value n -> m = n)%Z).
  { intros m n Hmm Hnn E. destruct (Z.lt_trichotomy m n) as [L|[L|L]]; [|done|].
    - pose proof (mag_value_mono m n ltac:(lia) ltac:(lia)). lia.
    - pose proof (mag_value_mono n m ltac:(lia) ltac:(lia)). lia. }
  assert (Hb : forall c, dbl_wf c -> c = (dbl_mag c + (if dbl_sign c then two63 else 0))%Z).
  { intros c Wc. unfold dbl_wf, dbl_mag, dbl_sign, two63, two64 in *.
    destruct (Z.leb_spec 9223372036854775808 c).
    - pose proof (Z.mod_eq c 9223372036854775808 ltac:(lia)).
      assert (c / 9223372036854775808 = 1)%Z by (symmetry; apply (Z.div_unique c 9223372036854775808 1 (c - 9223372036854775808)); lia).
      lia.
    - rewrite Z.mod_small by lia. lia. }
  rewrite (Hb a Wa), (Hb b Wb). unfold dbl_value in *.
  pose proof (Hpos _ Ma). pose proof (Hpos _ Mb).
  destruct (dbl_sign a), (dbl_sign b).
  - rewrite (Hinj (dbl_mag a) (dbl_mag b)); lia.
  - lia.
  - lia.
  - rewrite (Hinj (dbl_mag a) (dbl_mag b)); lia.
Qed.

Lemma dbl_hash_sem a b : dbl_wf a -> dbl_wf b -> dbl_sem a = dbl_sem b -> dbl_hash_scalar a = dbl_hash_scalar b.
Proof.
  intros Wa Wb E. unfold dbl_hash_scalar. rewrite !dbl_classify_spec by done. rewrite <- E.
  destruct (dbl_sem a) as [| |v] eqn:Ea; try done. symmetry in E.
  destruct (Z.eq_dec v 0%Z) as [->|Hv].
  - unfold hash_double. rewrite (c_deq_spec a pos_zero 0%Z 0%Z), (c_deq_spec b pos_zero 0%Z 0%Z); try done.
  - by rewrite (dbl_number_bits a b v).
Qed.

Lemma hash_seq_sem {A B} (h : A -> Z) (f : A -> B) xs ys :
  (forall x y, x ∈ xs -> y ∈ ys -> f x = f y -> h x = h y) -> map f xs = map f ys -> hash_seq h xs = hash_seq h ys.
Proof.
  unfold hash_seq. generalize 0%Z. revert ys. induction xs as [|x xs IH]; intros [|y ys] z H E; simpl in *; try done.
  injection E as E1 E2. rewrite (H x y); [|by left|by left|done]. apply IH; [|done]. intros; apply H; by try right.
Qed.

Definition atomic_hash (addr : rstr -> Z) (v : atomic) : option Z :=
  match v with
  | Lgl xs => Some (hash_seq lgl_hash_scalar xs)
  | Int xs => Some (hash_seq int_hash_scalar xs)
  | Dbl xs => Some (hash_seq dbl_hash_scalar xs)
  | Str xs => Some (hash_seq (chr_hash_scalar addr) xs)
  | Cpl _ | Raw _ => None
  end.
Lemma atomic_hash_sem addr v w : atomic_in_range v -> atomic_in_range w ->
  atomic_sem v = atomic_sem w -> atomic_hash addr v = atomic_hash addr w.
Proof.
  unfold atomic_sem. rewrite !obj_sem_vec. intros Hv Hw E.
  destruct v, w; try discriminate E; simpl in *; try done; injection E as E; f_equal.
  - apply (hash_seq_sem _ int_sem); [|done]. intros x y _ _ K. f_equal. by apply int_sem_inj.
  - apply (hash_seq_sem _ int_sem); [|done]. intros x y _ _ K. f_equal. by apply int_sem_inj.
  - apply (hash_seq_sem _ dbl_sem); [|done]. intros x y Hx Hy K.
    apply dbl_hash_sem; [by eapply Forall_forall in Hv|by eapply Forall_forall in Hw|done].
  - by subst.
Qed.

Definition combine_attr (addr : rstr -> Z) (h : option Z) (a : robj) : option Z :=
  match h with
  | None => None
  | Some h => match a with
              | RNull => Some h
              | _ => match hash_object addr a with Some ha => Some (hash_combine h ha) | None => None end
              end
  end.
Definition list_hash (addr : rstr -> Z) : Z -> list robj -> option Z :=
  fix go (h : Z) (xs : list robj) {struct xs} : option Z :=
  match xs with
  | [] => Some h
  | x :: xs' => match hash_object addr x with
                | Some hx => go (hash_combine h hx) xs'
                | None => None
                end
  end.
Lemma hash_object_vec addr v a : hash_object addr (RVec v a) = combine_attr addr (atomic_hash addr v) a.
Proof. reflexivity. Qed.
Lemma hash_object_list addr e xs a : hash_object addr (RList e xs a) = combine_attr addr (list_hash addr 0 xs) a.
Proof. reflexivity. Qed.

Lemma hash_object_node addr k t car cdr a : hash_object addr (RNode k t car cdr a) =
  combine_attr addr (match hash_object addr car, hash_object addr cdr with
        | Some h1, Some h2 => Some (hash_combine (hash_combine 0 h1) h2) | _, _ => None end) a.
Proof. simpl. destruct (hash_object addr car), (hash_object addr cdr); reflexivity. Qed.
Lemma hash_object_clo addr f b e a : hash_object addr (RClo f b e a) =
  combine_attr addr (match hash_object addr b, hash_object addr e, hash_object addr f with
        | Some h1, Some h2, Some h3 => Some (hash_combine (hash_combine (hash_combine 0 h1) h2) h3)
        | _, _, _ => None end) a.
Proof. simpl. destruct (hash_object addr b), (hash_object addr e), (hash_object addr f); reflexivity. Qed.

Lemma list_hash_sem addr xs ys h :
  Forall (fun x => forall y, obj_wf x -> obj_wf y -> obj_sem x = obj_sem y -> hash_object addr x = hash_object addr y) xs ->
  Forall obj_wf xs -> Forall obj_wf ys -> map obj_sem xs = map obj_sem ys ->
  list_hash addr h xs = list_hash addr h ys.
Proof.
  intros H. revert ys h. induction H as [|x xs Hx H IH]; intros [|y ys] h Wx Wy E; simpl in *; try done.
  apply Forall_cons in Wx as [Wx Fx]. apply Forall_cons in Wy as [Wy Fy]. injection E as E1 E2.
  rewrite (Hx y) by done. destruct (hash_object addr y); [|done]. by apply IH.
Qed.

Lemma hash_object_sem_attr addr x :
  (forall y, obj_wf x -> obj_wf y -> obj_sem x = obj_sem y -> hash_object addr x = hash_object addr y) /\
  (forall y, obj_wf x -> obj_wf y -> attr_wf x -> attr_wf y -> attrs_sem x = attrs_sem y ->
     hash_object addr x = hash_object addr y /\ (x = RNull <-> y = RNull)).
Proof.
  induction x as [|k a|s|v a [IHa IHa']|e xs a IHxs [IHa IHa']|k t car cdr a [IH1 _] [IH2 IH2'] [IH3 IH3']
                 |f b e a [IH1 _] [IH2 _] [IH3 _] [IH4 IH4']|n] using robj_ind';
  (split; intros y Wx Wy; [intros E|intros Ax Ay E; try done]).
  all: assert (Hca : forall h a b, hash_object addr a = hash_object addr b /\ (a = RNull <-> b = RNull) ->
         combine_attr addr h a = combine_attr addr h b);
    [ intros h0 a0 b0 [K1 K2]; unfold combine_attr; destruct h0; [|done]; rewrite <- K1;
      destruct a0, b0; try done; destruct K2 as [K2 K2']; try (specialize (K2 eq_refl); done); try (specialize (K2' eq_refl); done)
    |].
  - destruct y as [| | |[]| | | |]; done.
  - destruct y; try done.
  - destruct y as [|k' b| |[]| | | |]; try done. simpl in E. injection E as -> ->. done.
  - destruct y as [| |s'|[]| | | |]; try done.
  - destruct y as [| | |w b| | | |]; try (by destruct v).
    inversion Wx; subst. inversion Wy; subst. apply obj_sem_vec_eq in E as [E1 E2].
    rewrite !hash_object_vec, (atomic_hash_sem addr v w) by done. apply Hca, IHa'; done.
  - destruct y as [| | |[]|e' ys b| | |]; try done.
    inversion Wx; subst. inversion Wy; subst. rewrite !obj_sem_list in E. injection E as -> E1 E2.
    rewrite !hash_object_list. erewrite list_hash_sem; [apply Hca, IHa'; done|..]; try done.
    eapply Forall_impl; [exact IHxs|]. by intros ? [].
  - destruct y as [| | |[]| |k' t' car' cdr' a'| |]; try done.
    inversion Wx; subst. inversion Wy; subst. simpl in E. injection E as -> E1 E2 E3.
    assert (Hn : a = RNull <-> a' = RNull).
    { split; intros ->; [destruct a' as [| | |[]| | | |]|destruct a as [| | |[]| | | |]]; done. }
    rewrite !hash_object_node.
    rewrite (IH1 car'), (IH2 cdr') by done. apply Hca. split; [by apply IH3|done].
  - destruct y as [| | |[]| |k' t' car' cdr' a'| |]; try done.
    destruct k; try done. destruct a; try done. destruct k'; try done. destruct a'; try done.
    inversion Wx; subst. inversion Wy; subst. simpl in E. injection E as E1 E2.
    simpl. rewrite (IH1 car') by done. destruct (IH2' cdr') as [-> _]; try done.
  - destruct y as [| | |[]| | |f' b' e' a'|]; try done.
    inversion Wx; subst. inversion Wy; subst. simpl in E. injection E as E1 E2 E3 E4.
    assert (Hn : a = RNull <-> a' = RNull).
    { split; intros ->; [destruct a' as [| | |[]| | | |]|destruct a as [| | |[]| | | |]]; done. }
    rewrite !hash_object_clo.
    rewrite (IH1 f'), (IH2 b'), (IH3 e') by done. apply Hca. split; [by apply IH4|done].
  - inversion Wx.
Qed.
Theorem hash_object_sem addr x y : obj_wf x -> obj_wf y -> obj_sem x = obj_sem y ->
  hash_object addr x = hash_object addr y.
Proof. apply hash_object_sem_attr. Qed.
