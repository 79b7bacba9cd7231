(** * The order in which [vec_ptype2()] tries things (C67) *)
From Verif Require Import Base M_Restore M_Types Spec_Types M_PtypeFlow Spec_PtypeFlow P_Types.
From stdpp Require Import list.
Open Scope nat_scope.

Section proofs.
  Context {obj : Type} (typ : obj -> vtype) (cls : obj -> class_type).
  Context (vptype : obj -> res obj) (eval : common -> obj -> obj -> res obj) (disp : obj -> obj -> res obj).

  Notation impl := (ptype2_impl typ cls vptype eval disp).
  Notation step := (ptype2_step typ cls vptype eval disp).
  Notation opts := (vec_ptype2_opts typ cls vptype eval disp).

  Lemma from_ext self self' s3 t o side :
    (s3 = true -> self o = self' o) ->
    from_unspecified vptype self s3 t o side = from_unspecified vptype self' s3 t o side.
  Proof. intros H. unfold from_unspecified. destruct t, s3; try done; by rewrite H. Qed.

  Lemma impl_self_false k s3 o side : impl (S k) s3 o o side false = impl 1 s3 o o side false.
  Proof.
    cbn [ptype2_impl]. unfold ptype2_step, is_null, is_unspecified. destruct (typ o); reflexivity.
  Qed.

  Lemma impl_self_true k s3 o side : impl (S (S k)) s3 o o side true = impl 2 s3 o o side true.
  Proof.
    cbn [ptype2_impl]. unfold ptype2_step, is_null, is_unspecified, is_scalar.
    destruct (typ o); try reflexivity. cbn [is_s3 negb andb].
    destruct (vec_ptype2_dispatch_native _ _ _ _); [reflexivity|].
    destruct (vptype o) as [p|?|?]; try reflexivity. cbn [bind].
    apply impl_self_false.
  Qed.

  Lemma impl_S n s3 x y side fp :
    impl (S n) s3 x y side fp =
    step (fun o => impl n s3 o o 0%Z true) (fun px py l => impl n s3 px py l false) s3 x y side fp.
  Proof. reflexivity. Qed.

  Lemma step_ext self self' second second' s3 x y side fp :
    (forall o, self o = self' o) -> (forall px py l, second px py l = second' px py l) ->
    step self second s3 x y side fp = step self' second' s3 x y side fp.
  Proof.
    intros H1 H2. unfold ptype2_step.
    rewrite !(from_ext self self') by (intros; apply H1).
    repeat case_match; try reflexivity.
    destruct (vptype x) as [px|?|?]; [|reflexivity..].
    destruct (vptype y) as [py|?|?]; [|reflexivity..]. apply H2.
  Qed.

  Lemma step_ext_false self self' second second' s3 x y side :
    (forall o, self o = self' o) -> step self second s3 x y side false = step self' second' s3 x y side false.
  Proof.
    intros H1. unfold ptype2_step. rewrite !(from_ext self self') by (intros; apply H1). by repeat case_match.
  Qed.

  Lemma impl_false k s3 x y side : impl (S (S (S k))) s3 x y side false = impl 3 s3 x y side false.
  Proof. rewrite (impl_S (S (S k))), (impl_S 2). apply step_ext_false. intros. apply impl_self_true. Qed.

  Lemma impl_true k s3 x y side : impl (S (S (S (S k)))) s3 x y side true = impl 4 s3 x y side true.
  Proof.
    rewrite (impl_S (S (S (S k)))), (impl_S 3). apply step_ext.
    - intros o. by rewrite (impl_self_true (S k)), (impl_self_true 1).
    - intros. apply impl_false.
  Qed.

  (** ** Four calls are within one another at most: more fuel changes nothing *)
  Theorem C67_calls : forall k s3 x y side,
    impl (4 + k) s3 x y side true = opts s3 x y side.
  Proof. intros. apply impl_true. Qed.

  (** ** NULL and unspecified vectors *)
  (** Without the fallback for classes, NULL and unspecified vectors give the
      type of the other one, on both sides. *)
  Theorem C67_identity_partial : forall x y side,
    (typ x = TNull -> type_only (opts false x y side) = vptype y) /\
    (typ y = TNull -> typ x <> TNull -> type_only (opts false x y side) = vptype x) /\
    (typ x = TUnspecified -> typ y <> TNull -> type_only (opts false x y side) = vptype y) /\
    (typ y = TUnspecified -> typ x <> TNull -> typ x <> TUnspecified ->
     type_only (opts false x y side) = vptype x).
  Proof.
    intros x y side. unfold vec_ptype2_opts. rewrite impl_S.
    generalize (fun o => impl 3 false o o 0%Z true) (fun px py l => impl 3 false px py l false). intros self second.
    assert (F : forall self t o l, type_only (from_unspecified vptype self false t o l) = vptype o).
    { intros. unfold from_unspecified, sided, type_only. by destruct t, (vptype o). }
    unfold ptype2_step, is_null, is_unspecified.
    repeat split.
    - intros ->. apply F.
    - intros -> Hx. destruct (typ x); try done; apply F.
    - intros -> Hy. destruct (typ y); try done; apply F.
    - intros -> Hx Hu. destruct (typ x); try done; apply F.
  Qed.

  (** With the fallback an unspecified vector gives the type of the other with
      itself, on both sides. *)
  Theorem C67_unspecified : forall x u side,
    typ u = TUnspecified -> proper (typ x) ->
    type_only (opts true u x side) = type_only (opts true x x 0%Z) /\
    type_only (opts true x u side) = type_only (opts true x x 0%Z).
  Proof.
    intros x u side Hu (Hn & Hs & _).
    assert (E : forall l, from_unspecified vptype (fun o => impl 3 true o o 0%Z true) true (typ x) x l =
      let! r := opts true x x 0%Z in Ok (fst r, l)).
    { intros l. unfold vec_ptype2_opts. rewrite (impl_self_true 2), <- (impl_self_true 1).
      unfold from_unspecified. destruct (typ x); done. }
    unfold vec_ptype2_opts at 1 3. rewrite !impl_S.
    generalize (fun px py l => impl 3 true px py l false). intros second.
    unfold ptype2_step, is_null, is_unspecified. rewrite Hu.
    split.
    - assert (match typ x with TNull => true | _ => false end = false) as -> by (by destruct (typ x)).
      rewrite E. by destruct (opts true x x 0%Z) as [[??]|?|?].
    - assert (match typ x with TNull => true | _ => false end = false) as -> by (by destruct (typ x)).
      assert (match typ x with TUnspecified => true | _ => false end = false) as -> by (by destruct (typ x)).
      rewrite E. by destruct (opts true x x 0%Z) as [[??]|?|?].
  Qed.

  (** ** Scalars are refused, whatever else is given *)
  Theorem C67_scalar : forall s3 x y side,
    typ x <> TNull -> typ x <> TUnspecified -> typ y <> TNull -> typ y <> TUnspecified ->
    typ x = TScalar \/ typ y = TScalar ->
    exists e, opts s3 x y side = Err e.
  Proof.
    intros s3 x y side Nx Ux Ny Uy H. unfold vec_ptype2_opts. rewrite impl_S.
    generalize (fun o => impl 3 s3 o o 0%Z true) (fun px py l => impl 3 s3 px py l false). intros self second.
    unfold ptype2_step, is_null, is_unspecified, is_scalar.
    destruct (typ x), (typ y); try done; try (by eexists); by destruct H.
  Qed.

  (** ** What is called if there is no native type: the method for two base
      types; otherwise the native type of the prototypes, and if they have
      none, their method *)
  Theorem C67_dispatch : forall s3 x y side,
    proper (typ x) -> proper (typ y) ->
    ptype2_native (typ x) (cls x) (typ y) (cls y) = None ->
    (typ x <> TS3 -> typ y <> TS3 -> type_only (opts s3 x y side) = disp x y) /\
    (typ x = TS3 \/ typ y = TS3 -> forall px py,
     vptype x = Ok px -> vptype y = Ok py -> proper (typ px) -> proper (typ py) ->
     type_only (opts s3 x y side) =
       match ptype2_native (typ px) (cls px) (typ py) (cls py) with
       | Some c => eval c px py
       | None => disp px py
       end).
  Proof.
    assert (T : forall (r : res obj) l, type_only (sided r l) = r) by (by intros []).
    assert (P : forall x, proper (typ x) ->
      is_null typ x = false /\ is_unspecified typ x = false /\ is_scalar typ x = false).
    { intros x (? & ? & ?). unfold is_null, is_unspecified, is_scalar. by destruct (typ x). }
    intros s3 x y side (Nx & Ux & Sx)%P (Ny & Uy & Sy)%P H. unfold vec_ptype2_opts. rewrite impl_S.
    unfold ptype2_step. rewrite Nx, Ny, Ux, Uy, Sx, Sy. unfold ptype2_native in H. split.
    - intros Hx Hy.
      assert (negb (is_s3 (typ x)) && negb (is_s3 (typ y)) = true) as E by (by destruct (typ x), (typ y)).
      rewrite E in *. unfold switch_native. rewrite H. apply T.
    - intros Hs px py Ex Ey (Nx' & Ux' & Sx')%P (Ny' & Uy' & Sy')%P.
      assert (negb (is_s3 (typ x)) && negb (is_s3 (typ y)) = false) as E.
      { destruct Hs as [-> | ->]; [done|]. apply andb_false_r. }
      rewrite E in *. rewrite H, Ex, Ey. cbn [bind]. clear H E. rewrite impl_S.
      unfold ptype2_step. rewrite Nx', Ny', Ux', Uy', Sx', Sy'. unfold ptype2_native, switch_native.
      destruct (negb (is_s3 (typ px)) && negb (is_s3 (typ py))).
      + destruct (vec_ptype2_switch_native _ _); apply T.
      + destruct (vec_ptype2_dispatch_native _ _ _ _); apply T.
  Qed.

  (** ** The order of the two *)
  Context (eval_sym : forall c x y, eval c x y = eval c y x).
  Context (disp_sym : forall x y, disp x y = disp y x).
  Context (null_one : forall x y, typ x = TNull -> typ y = TNull -> vptype x = vptype y).
  Context (unspecified_one : forall x y, typ x = TUnspecified -> typ y = TUnspecified -> vptype x = vptype y).

  Lemma sided_Ok (r : res obj) l o l' : sided r l = Ok (o, l') -> r = Ok o.
  Proof. unfold sided. destruct r; cbn; congruence. Qed.

  Lemma from_false self t o l r l' : from_unspecified vptype self false t o l = Ok (r, l') -> vptype o = Ok r.
  Proof. unfold from_unspecified. intros H. destruct t; by eapply sided_Ok. Qed.
  Lemma from_false_Ok self t o l r : vptype o = Ok r -> exists l', from_unspecified vptype self false t o l = Ok (r, l').
  Proof. unfold from_unspecified, sided. intros ->. exists l. by destruct t. Qed.

  Lemma switch_sym x y r l : switch_native typ eval disp x y = Ok (r, l) ->
    exists l', switch_native typ eval disp y x = Ok (r, l').
  Proof.
    unfold switch_native.
    assert (vec_ptype2_switch_native (typ y) (typ x) = vec_ptype2_switch_native (typ x) (typ y)) as ->
      by (destruct (typ x), (typ y); reflexivity).
    destruct (vec_ptype2_switch_native (typ x) (typ y)); intros H%sided_Ok;
      eexists; unfold sided; rewrite 1?eval_sym, 1?disp_sym, H; done.
  Qed.

  Lemma dispatch_sym tx cx ty cy : is_s3 tx || is_s3 ty = true ->
    vec_ptype2_dispatch_native tx cx ty cy = vec_ptype2_dispatch_native ty cy tx cx.
  Proof.
    intros H. pose proof (C66_common_sym tx cx ty cy) as E. unfold ptype2_native in E.
    destruct tx, ty; try discriminate H; exact E.
  Qed.

  Lemma null_typ x : is_null typ x = true -> typ x = TNull.
  Proof. unfold is_null. by destruct (typ x). Qed.
  Lemma unspecified_typ x : is_unspecified typ x = true -> typ x = TUnspecified.
  Proof. unfold is_unspecified. by destruct (typ x). Qed.

  Lemma impl_sym n x y side side' fp r l :
    impl n false x y side fp = Ok (r, l) -> exists l', impl n false y x side' fp = Ok (r, l').
  Proof.
    revert x y side side' fp r l. induction n as [|n IH]; [done|].
    intros x y side side' fp r l. rewrite !impl_S.
    set (self := fun o => impl n false o o 0%Z true). clearbody self.
    unfold ptype2_step.
    destruct (is_null typ x) eqn:Nx, (is_null typ y) eqn:Ny.
    - intros H%from_false. apply from_false_Ok.
      rewrite (null_one x y); auto using null_typ.
    - intros H%from_false. by apply from_false_Ok.
    - intros H%from_false. by apply from_false_Ok.
    - destruct (is_unspecified typ x) eqn:Ux, (is_unspecified typ y) eqn:Uy.
      + intros H%from_false. apply from_false_Ok.
        rewrite (unspecified_one x y); auto using unspecified_typ.
      + intros H%from_false. by apply from_false_Ok.
      + intros H%from_false. by apply from_false_Ok.
      + destruct (is_scalar typ x), (is_scalar typ y); try done.
        rewrite (andb_comm (negb (is_s3 (typ y)))).
        destruct (negb (is_s3 (typ x)) && negb (is_s3 (typ y))) eqn:B; [apply switch_sym|].
        rewrite (dispatch_sym (typ y)) by (by destruct (is_s3 (typ x)), (is_s3 (typ y))).
        destruct (vec_ptype2_dispatch_native _ _ _ _) as [c|].
        * intros H%sided_Ok. eexists. unfold sided. rewrite eval_sym, H. done.
        * destruct fp.
          -- destruct (vptype x) as [px|?|?]; [|done..].
             destruct (vptype y) as [py|?|?]; [|done..]. cbn [bind]. apply IH.
          -- intros H%sided_Ok. eexists. unfold sided. rewrite disp_sym, H. done.
  Qed.

  (** If the functions that are called do not depend on the order, then the
      common type does not. *)
  Theorem C67_symmetric_partial : forall x y side side' r l,
    opts false x y side = Ok (r, l) -> exists l', opts false y x side' = Ok (r, l').
  Proof. intros x y side side' r l. apply impl_sym. Qed.

  Lemma from_side self s3 t o l l1 r l' :
    from_unspecified vptype self s3 t o l = Ok (r, l') ->
    exists l2, from_unspecified vptype self s3 t o l1 = Ok (r, l2).
  Proof.
    unfold from_unspecified, sided. intros H. exists l1.
    destruct t, s3; try (destruct (vptype o); [|done..]; cbn in *; congruence);
      (destruct (self o) as [[??]|?|?]; [|done..]; cbn in *; congruence).
  Qed.

  (** With the fallback the same holds if neither is NULL and no prototype is. *)
  Theorem C67_symmetric_fallback_partial : forall s3 x y side side' r l,
    (forall o p, vptype o = Ok p -> typ o <> TNull -> typ p <> TNull) ->
    typ x <> TNull -> typ y <> TNull ->
    opts s3 x y side = Ok (r, l) -> exists l', opts s3 y x side' = Ok (r, l').
  Proof.
    intros s3 x y side side' r l Hp. unfold vec_ptype2_opts.
    generalize 4 true. intros n fp. revert x y side side' fp r l.
    induction n as [|n IH]; [done|].
    intros x y side side' fp r l Hx Hy. rewrite !impl_S.
    set (self := fun o => impl n s3 o o 0%Z true). clearbody self.
    assert (is_null typ x = false) as Nx by (unfold is_null; by destruct (typ x)).
    assert (is_null typ y = false) as Ny by (unfold is_null; by destruct (typ y)).
    unfold ptype2_step. rewrite Nx, Ny.
    destruct (is_unspecified typ x) eqn:Ux, (is_unspecified typ y) eqn:Uy.
    - rewrite (unspecified_typ x Ux), (unspecified_typ y Uy). unfold from_unspecified.
      intros H%sided_Ok. exists side'. unfold sided.
      rewrite (unspecified_one x y), H; auto using unspecified_typ.
    - apply from_side.
    - apply from_side.
    - destruct (is_scalar typ x), (is_scalar typ y); try done.
      rewrite (andb_comm (negb (is_s3 (typ y)))).
      destruct (negb (is_s3 (typ x)) && negb (is_s3 (typ y))) eqn:B; [apply switch_sym|].
      rewrite (dispatch_sym (typ y)) by (by destruct (is_s3 (typ x)), (is_s3 (typ y))).
      destruct (vec_ptype2_dispatch_native _ _ _ _) as [c|].
      + intros H%sided_Ok. eexists. unfold sided. rewrite eval_sym, H. done.
      + destruct fp.
        * destruct (vptype x) as [px|?|?] eqn:Ex; [|done..].
          destruct (vptype y) as [py|?|?] eqn:Ey; [|done..]. cbn [bind]. apply IH; eauto.
        * intros H%sided_Ok. eexists. unfold sided. rewrite disp_sym, H. done.
  Qed.
End proofs.

(** ** The side that gave the common type, which errors name *)

(** It is right if one of the two has the common type and the other has not,
    except for strings with factors and for two kinds of date-times. *)
Theorem C67_side_partial : forall {obj} typ cls vptype eval disp s3 (x y : obj) side r l c,
  let kx := kind_of (typ x) (cls x) in
  let ky := kind_of (typ y) (cls y) in
  proper (typ x) -> proper (typ y) ->
  ptype2_native (typ x) (cls x) (typ y) (cls y) = Some c ->
  vec_ptype2_opts typ cls vptype eval disp s3 x y side = Ok (r, l) ->
  ~ first_wins kx ky -> ~ first_wins ky kx ->
  eval c x y = Ok r /\
  (common_kind c = ky -> kx <> ky -> l = 0%Z) /\
  (common_kind c = kx -> kx <> ky -> l = 1%Z) /\
  (kx = ky -> l = (-1)%Z).
Proof.
  intros obj typ cls vptype eval disp s3 x y side r l c kx ky (Nx & Ux & Sx) (Ny & Uy & Sy) C H F1 F2.
  unfold vec_ptype2_opts in H. rewrite impl_S in H.
  revert H. generalize (fun o => ptype2_impl typ cls vptype eval disp 3 s3 o o 0%Z true)
    (fun px py l => ptype2_impl typ cls vptype eval disp 3 s3 px py l false). intros self second.
  unfold ptype2_step, is_null, is_unspecified, is_scalar, switch_native, ptype2_native in *.
  subst kx ky. unfold first_wins in *.
  destruct (typ x), (typ y); try done; cbn [is_s3 negb andb] in *;
    try (rewrite C; unfold sided; destruct (eval c x y); [|done..]; cbn [bind]; injection 1 as <- <-);
    try (cbn in C; try discriminate C; injection C as <-; cbn; repeat split; congruence).
  all: destruct (cls x); try discriminate C; try (destruct (cls y); try discriminate C);
    cbn in C; injection C as <-; cbn; cbn in F1, F2; repeat split; try congruence; intros; exfalso; tauto.
Qed.

(** ** Concrete objects: one of each base type and class, and the mark of a
    fallback *)
Inductive cobj := Obj (t : vtype) (c : class_type) | Common (c : common) | Mark.
Definition ctyp (o : cobj) : vtype :=
  match o with
  | Obj t _ => t
  | Common c =>
      match common_kind c with
      | KLogical => TLogical | KInteger => TInteger | KDouble => TDouble | KComplex => TComplex
      | KCharacter => TCharacter | KRaw => TRaw | KList => TList | KDataframe => TDataframe | _ => TS3
      end
  | Mark => TS3
  end.
Definition ccls (o : cobj) : class_type :=
  match o with
  | Obj _ c => c
  | Common c =>
      match common_kind c with
      | KBareFactor => CBareFactor | KBareOrdered => CBareOrdered | KBareDate => CBareDate
      | KBarePosixct => CBarePosixct | KBareTibble => CBareTibble | _ => CNone
      end
  | Mark => CUnknown
  end.
Definition copts : bool -> cobj -> cobj -> Z -> res (cobj * Z) :=
  vec_ptype2_opts ctyp ccls Ok (fun c _ _ => Ok (Common c)) (fun _ _ => Ok Mark).

(** A class that [vctrs] does not know, as in the first argument of [vec_c()]. *)
Definition foreign : cobj := Obj TS3 CUnknown.
Definition null : cobj := Obj TNull CNone.
Definition na : cobj := Obj TUnspecified CNone.

Example C67_calls_ex :
  ptype2_impl ctyp ccls Ok (fun c _ _ => Ok (Common c)) (fun _ _ => Ok Mark) 2 true na foreign (-1)%Z true = Err "no fuel" /\
  copts true na foreign (-1)%Z = Ok (Mark, (-1)%Z).
Proof. done. Qed.
Example C67_identity_ex :
  copts false null foreign (-1)%Z = Ok (foreign, 0%Z) /\
  copts false foreign null (-1)%Z = Ok (foreign, 0%Z) /\
  copts false na foreign (-1)%Z = Ok (foreign, (-1)%Z).
Proof. done. Qed.
Example C67_unspecified_ex :
  copts true foreign na (-1)%Z = Ok (Mark, (-1)%Z) /\ copts true na foreign (-1)%Z = Ok (Mark, (-1)%Z).
Proof. done. Qed.
Example C67_scalar_ex :
  copts true (Obj TScalar CNone) foreign (-1)%Z = Err "scalar x" /\
  copts false (Obj TDouble CNone) (Obj TScalar CNone) (-1)%Z = Err "scalar y".
Proof. done. Qed.
Example C67_dispatch_ex :
  ptype2_native TS3 CUnknown TDouble CNone = None /\
  copts false foreign (Obj TDouble CNone) (-1)%Z = Ok (Mark, 1%Z) /\
  (** a class whose prototype is a double *)
  vec_ptype2_opts ctyp ccls (fun o => Ok match o with Obj TS3 CUnknown => Obj TDouble CNone | _ => o end)
    (fun c _ _ => Ok (Common c)) (fun _ _ => Ok Mark) false foreign (Obj TInteger CNone) (-1)%Z = Ok (Common empty_dbl, 1%Z).
Proof. done. Qed.
Example C67_symmetric_ex :
  copts false (Obj TS3 CBareFactor) (Obj TCharacter CNone) (-1)%Z = Ok (Common empty_chr, 1%Z) /\
  copts false (Obj TCharacter CNone) (Obj TS3 CBareFactor) (-1)%Z = Ok (Common empty_chr, 0%Z).
Proof. done. Qed.

Example C67_symmetric_fallback_ex :
  copts true na foreign (-1)%Z = Ok (Mark, (-1)%Z) /\ copts true foreign na (-1)%Z = Ok (Mark, (-1)%Z) /\
  copts true (Obj TS3 CBareDate) foreign (-1)%Z = Ok (Mark, 0%Z) /\
  copts true foreign (Obj TS3 CBareDate) (-1)%Z = Ok (Mark, 1%Z).
Proof. done. Qed.

(** With the fallback, NULL gives the type of the other itself on the left and
    the type of the other with itself on the right: src/ptype2.c:42 hands on
    the type of [x], which is NULL, instead of that of [y]. *)
Theorem C67_identity_refuted : exists x y,
  ctyp x = TNull /\ proper (ctyp y) /\
  type_only (copts true x y (-1)%Z) = Ok y /\
  type_only (copts true y x (-1)%Z) = type_only (copts true y y 0%Z) /\
  type_only (copts true y x (-1)%Z) <> Ok y.
Proof. by exists null, foreign. Qed.

Example C67_side_ex :
  copts false (Obj TDouble CNone) (Obj TInteger CNone) (-1)%Z = Ok (Common empty_dbl, 1%Z) /\
  copts false (Obj TS3 CBareDate) (Obj TS3 CBarePosixct) (-1)%Z = Ok (Common date_datetime_ptype2, 0%Z).
Proof. done. Qed.

(** With a string and a factor the factor is said to have given the type, an
    unspecified vector stays the one that is named, and NULL on the right is
    said to have given the type of the left. *)
Theorem C67_side_refuted :
  (exists x y r, copts false x y (-1)%Z = Ok (r, 0%Z) /\
     kind_of (ctyp r) (ccls r) = kind_of (ctyp x) (ccls x) /\ kind_of (ctyp x) (ccls x) <> kind_of (ctyp y) (ccls y)) /\
  (exists x y l, ctyp x = TUnspecified /\ copts false x y (-1)%Z = Ok (y, l) /\ l <> 0%Z) /\
  (exists x y, proper (ctyp x) /\ ctyp y = TNull /\ copts false x y (-1)%Z = Ok (x, 0%Z)).
Proof.
  split; [|split].
  - by exists (Obj TCharacter CNone), (Obj TS3 CBareFactor), (Common empty_chr).
  - by exists na, (Obj TDouble CNone), (-1)%Z.
  - by exists (Obj TDouble CNone), null.
Qed.

Print Assumptions C67_calls.
Print Assumptions C67_identity_partial.
Print Assumptions C67_identity_refuted.
Print Assumptions C67_unspecified.
Print Assumptions C67_symmetric_partial.
Print Assumptions C67_side_partial.
Print Assumptions C67_side_refuted.
Print Assumptions C67_scalar.
Print Assumptions C67_dispatch.
Print Assumptions C67_symmetric_fallback_partial.
