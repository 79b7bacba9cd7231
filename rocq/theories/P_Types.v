(** * The types of objects and native double dispatch (C66) *)
From Verif Require Import Base M_Restore M_Types Spec_Types P_Restore.
From stdpp Require Import list strings.
Open Scope nat_scope.

(** ** The tables of pairs do not depend on the order of the two *)

Theorem C66_typeof2 : forall tx ty,
  let '(p, side) := vec_typeof2_impl tx ty in
  (side = -1 \/ side = 0 \/ side = 1)%Z /\
  vec_typeof2_impl ty tx = (p, other_side side) /\
  (side = 0%Z -> p = (tx, ty)) /\
  (side = 1%Z -> p = (ty, tx)) /\
  (side = (-1)%Z <-> tx = ty) /\
  (side = (-1)%Z -> p = (tx, tx)).
Proof.
  intros tx ty; destruct tx, ty; cbn; unfold other_side;
    repeat split; intros; try reflexivity; try discriminate; auto.
Qed.

Example C66_typeof2_ex :
  vec_typeof2_impl TDouble TLogical = (TLogical, TDouble, 1%Z) /\
  vec_typeof2_impl TLogical TDouble = (TLogical, TDouble, 0%Z).
Proof. done. Qed.

Theorem C66_typeof2_s3 : forall tx cx ty cy,
  tx = TS3 \/ ty = TS3 ->
  let '(p, side) := vec_typeof2_s3_impl tx cx ty cy in
  let kx := kind_of tx cx in
  let ky := kind_of ty cy in
  (side = -1 \/ side = 0 \/ side = 1)%Z /\
  vec_typeof2_s3_impl ty cy tx cx = (p, other_side side) /\
  (side = 0%Z -> p = (kx, ky)) /\
  (side = 1%Z -> p = (ky, kx)) /\
  (side = (-1)%Z <-> kx = ky) /\
  (side = (-1)%Z -> p = (kx, kx)).
Proof.
  intros tx cx ty cy [-> | ->];
    [ destruct ty, cx; try destruct cy | destruct tx, cy; try destruct cx ];
    cbn; unfold other_side;
    repeat split; intros; try reflexivity; try discriminate; auto.
Qed.

Example C66_typeof2_s3_ex :
  vec_typeof2_s3_impl TS3 CBareFactor TCharacter CNone = (KCharacter, KBareFactor, 1%Z) /\
  vec_typeof2_s3_impl TCharacter CNone TS3 CBareFactor = (KCharacter, KBareFactor, 0%Z).
Proof. done. Qed.

(** ** Native casts: the function called takes what is there and gives what is
    wanted, and one is called when there is one *)
Definition native (kx kt : kind) : option conv :=
  match kx, kt with
  | KCharacter, KBareFactor => Some chr_as_factor
  | KCharacter, KBareOrdered => Some chr_as_ordered
  | KBareFactor, KCharacter => Some fct_as_character
  | KBareOrdered, KCharacter => Some ord_as_character
  | KBareFactor, KBareFactor => Some fct_as_factor
  | KBareOrdered, KBareOrdered => Some ord_as_ordered
  | KBareDate, KBareDate => Some date_as_date
  | KBareDate, KBarePosixct => Some date_as_posixct
  | KBareDate, KBarePosixlt => Some date_as_posixlt
  | KBarePosixct, KBareDate => Some posixct_as_date
  | KBarePosixct, KBarePosixct => Some posixct_as_posixct
  | KBarePosixct, KBarePosixlt => Some posixct_as_posixlt
  | KBarePosixlt, KBareDate => Some posixlt_as_date
  | KBarePosixlt, KBarePosixct => Some posixlt_as_posixct
  | KBarePosixlt, KBarePosixlt => Some posixlt_as_posixlt
  | KDataframe, KDataframe => Some df_cast_opts
  | KBareTibble, KDataframe => Some df_cast_opts
  | KDataframe, KBareTibble => Some tib_cast
  | KBareTibble, KBareTibble => Some tib_cast
  | KLogical, KInteger => Some lgl_as_integer
  | KLogical, KDouble => Some lgl_as_double
  | KInteger, KLogical => Some int_as_logical
  | KInteger, KDouble => Some int_as_double
  | KDouble, KLogical => Some dbl_as_logical
  | KDouble, KInteger => Some dbl_as_integer
  | KLogical, KLogical | KInteger, KInteger | KDouble, KDouble | KComplex, KComplex
  | KRaw, KRaw | KCharacter, KCharacter | KList, KList => Some same_x
  | _, _ => None
  end.

Lemma cast_native_eq tx cx ty cy : cast_native tx cx ty cy = native (kind_of tx cx) (kind_of ty cy).
Proof.
  destruct tx; try (destruct ty; try destruct cy; reflexivity);
    destruct cx, ty; try reflexivity; destruct cy; reflexivity.
Qed.

Lemma native_eq f kx kt : native kx kt = Some f <-> takes f kx /\ gives f kx kt.
Proof.
  split.
  - destruct kx, kt; cbn; intros H; try discriminate; injection H as <-; cbn; auto.
  - intros [H1 H2]. destruct f; cbn in H1, H2; subst; try reflexivity.
    + by destruct H1 as [-> | ->].
    + by destruct H1 as [-> | ->].
    + by destruct kx.
Qed.

Theorem C66_cast : forall tx cx ty cy f,
  cast_native tx cx ty cy = Some f <-> takes f (kind_of tx cx) /\ gives f (kind_of tx cx) (kind_of ty cy).
Proof. intros. rewrite cast_native_eq. apply native_eq. Qed.

Example C66_cast_ex :
  cast_native TS3 CBarePosixlt TS3 CBareDate = Some posixlt_as_date /\
  cast_native TS3 CBareDate TS3 CBarePosixlt = Some date_as_posixlt /\
  cast_native TS3 CBareTibble TDataframe CBareDf = Some df_cast_opts /\
  cast_native TDouble CNone TLogical CNone = Some dbl_as_logical /\
  cast_native TS3 CBareFactor TS3 CBareOrdered = None.
Proof. done. Qed.

(** ** Native common types *)
Definition native2 (kx ky : kind) : option kind :=
  match kx, ky with
  | KLogical, KLogical => Some KLogical
  | KLogical, KInteger | KInteger, KLogical | KInteger, KInteger => Some KInteger
  | KLogical, KDouble | KDouble, KLogical | KInteger, KDouble | KDouble, KInteger | KDouble, KDouble => Some KDouble
  | KComplex, KInteger | KInteger, KComplex | KDouble, KComplex | KComplex, KDouble | KComplex, KComplex =>
      Some KComplex
  | KRaw, KRaw => Some KRaw
  | KList, KList => Some KList
  | KCharacter, (KCharacter | KBareFactor | KBareOrdered) | (KBareFactor | KBareOrdered), KCharacter =>
      Some KCharacter
  | KBareFactor, KBareFactor => Some KBareFactor
  | KBareOrdered, KBareOrdered => Some KBareOrdered
  | KBareDate, KBareDate => Some KBareDate
  | KBareDate, (KBarePosixct | KBarePosixlt) | (KBarePosixct | KBarePosixlt), KBareDate
  | (KBarePosixct | KBarePosixlt), (KBarePosixct | KBarePosixlt) => Some KBarePosixct
  | KDataframe, KDataframe => Some KDataframe
  | KDataframe, KBareTibble | KBareTibble, KDataframe | KBareTibble, KBareTibble => Some KBareTibble
  | _, _ => None
  end.

Lemma ptype2_native_eq tx cx ty cy :
  common_kind <$> ptype2_native tx cx ty cy = native2 (kind_of tx cx) (kind_of ty cy).
Proof.
  destruct tx; try (destruct ty; try destruct cy; reflexivity);
    destruct cx, ty; try reflexivity; destruct cy; reflexivity.
Qed.

Lemma ptype2_Some tx cx ty cy c :
  ptype2_native tx cx ty cy = Some c -> native2 (kind_of tx cx) (kind_of ty cy) = Some (common_kind c).
Proof. intros H. by rewrite <- ptype2_native_eq, H. Qed.

(** The order of the two does not matter. *)
Theorem C66_common_sym : forall tx cx ty cy,
  ptype2_native tx cx ty cy = ptype2_native ty cy tx cx.
Proof.
  intros. destruct tx; try (destruct ty; try destruct cy; reflexivity);
    destruct cx, ty; try reflexivity; destruct cy; reflexivity.
Qed.

(** Both can be cast to the common type, unless that is complex. *)
Theorem C66_common_partial : forall tx cx ty cy c tz cz,
  ptype2_native tx cx ty cy = Some c ->
  kind_of tz cz = common_kind c ->
  common_kind c <> KComplex ->
  cast_native tx cx tz cz <> None /\ cast_native ty cy tz cz <> None.
Proof.
  intros tx cx ty cy c tz cz H Hz Hc. apply ptype2_Some in H.
  rewrite !cast_native_eq, Hz. clear Hz tz cz.
  destruct (kind_of tx cx), (kind_of ty cy); try discriminate H;
    injection H as H; rewrite <- H in *; cbn; done.
Qed.

(** There is no native cast of integers to complex numbers: an R method is
    called instead. *)
Theorem C66_common_refuted : exists tx cx ty cy c tz cz,
  ptype2_native tx cx ty cy = Some c /\ kind_of tz cz = common_kind c /\ cast_native tx cx tz cz = None.
Proof. by exists TInteger, CNone, TComplex, CNone, empty_cpl, TComplex, CNone. Qed.

Example C66_common_ex :
  ptype2_native TS3 CBarePosixlt TS3 CBareDate = Some date_datetime_ptype2 /\
  cast_native TS3 CBarePosixlt TS3 CBarePosixct = Some posixlt_as_posixct /\
  cast_native TS3 CBareDate TS3 CBarePosixct = Some date_as_posixct /\
  ptype2_native TDataframe CBareDf TS3 CBareTibble = Some tib_ptype2.
Proof. done. Qed.

(** The common type absorbs both. *)
Theorem C66_common_absorbs : forall tx cx ty cy c tz cz,
  ptype2_native tx cx ty cy = Some c ->
  kind_of tz cz = common_kind c ->
  exists c', ptype2_native tx cx tz cz = Some c' /\ common_kind c' = common_kind c.
Proof.
  intros tx cx ty cy c tz cz H Hz. apply ptype2_Some in H.
  pose proof (ptype2_native_eq tx cx tz cz) as E. rewrite Hz in E.
  assert (N : native2 (kind_of tx cx) (common_kind c) = Some (common_kind c)).
  { clear E Hz. destruct (kind_of tx cx), (kind_of ty cy); try discriminate H;
      injection H as H; rewrite <- H in *; reflexivity. }
  rewrite N in E. destruct (ptype2_native tx cx tz cz) as [c'|]; [|discriminate E].
  exists c'. split; [done|]. by injection E.
Qed.

Example C66_common_absorbs_ex :
  ptype2_native TS3 CBareFactor TCharacter CNone = Some empty_chr /\
  ptype2_native TCharacter CNone TCharacter CNone = Some empty_chr.
Proof. done. Qed.

(** ** Lists and vectors *)
Lemma class_type_wf x : well_formed x ->
  match t_cls x with
  | None => t_obj x = false /\ class_type_t x = Ok CNone
  | Some cls => cls <> [] /\ t_obj x = true /\ class_type_t x = class_type_impl cls
  end.
Proof.
  unfold well_formed, class_type_t. destruct (t_cls x); [intros [? ->]; done|]. by intros ->.
Qed.

Theorem C66_list : forall x, well_formed x ->
  exists b, obj_is_list x = Ok b /\ (b = true <-> is_list_spec x).
Proof.
  intros x W%class_type_wf. unfold obj_is_list, is_list_spec.
  destruct (t_type x); try (exists false; split; [done|]; split; [done|]; by intros [? _]).
  destruct (t_cls x) as [cls|]; [|destruct W as [-> _]; by exists true].
  destruct W as (Hne & -> & ->). cbn [negb].
  destruct (C55_class cls Hne) as (t & -> & _ & _ & _ & _ & _ & _ & _ & _ & HA & _ & HL). cbn.
  eexists. split; [done|]. rewrite <- HA, <- HL.
  destruct t; naive_solver.
Qed.

Example C66_list_ex :
  obj_is_list (TObj RList true (Some ["vctrs_list_of"; "vctrs_vctr"; "list"]%string) false) = Ok true /\
  obj_is_list (TObj RList true (Some ["list"; "foo"]%string) false) = Ok false.
Proof. done. Qed.

Lemma inherits_spec x what : well_formed x ->
  inherits_t x what = true <-> match t_cls x with None => False | Some cls => what ∈ cls end.
Proof.
  unfold well_formed, inherits_t. destruct (t_cls x) as [cls|]; [|by intros ->].
  intros [_ ->]. cbn. rewrite existsb_exists. setoid_rewrite String.eqb_eq.
  split; [intros (s & ? & ->); by apply elem_of_list_In|]. intros H%elem_of_list_In. by exists what.
Qed.

Lemma base_own x : well_formed x ->
  exists t, vec_base_typeof x false = Ok t /\ (t <> TScalar <-> own_vector x).
Proof.
  intros W. pose proof (class_type_wf x W) as C. pose proof (inherits_spec x "list" W) as I.
  unfold vec_base_typeof, own_vector, is_data_frame_t.
  destruct (t_type x) eqn:T; try (eexists; split; [done|]; naive_solver).
  destruct (t_cls x) as [cls|]; [|destruct C as [-> _]; exists TList; naive_solver].
  destruct C as (Hne & -> & ->). cbn [negb].
  destruct (C55_class cls Hne) as (t & -> & _ & _ & _ & _ & _ & _ & _ & _ & _ & HD & _).
  cbn. destruct (inherits_t x "list").
  - exists (match t with CBareDf | CBareTibble | CDf => TDataframe | _ => TList end).
    split; [by destruct t|]. destruct t; naive_solver.
  - exists (match t with CBareDf | CBareTibble | CDf => TDataframe | _ => TScalar end).
    split; [by destruct t|]. rewrite <- HD. destruct t; naive_solver.
Qed.

Lemma base_proxied x : well_formed x ->
  exists t, vec_base_typeof x true = Ok t /\ (t <> TScalar <-> t_type x <> ROther).
Proof.
  intros W. pose proof (class_type_wf x W) as C.
  unfold vec_base_typeof, is_data_frame_t.
  destruct (t_type x) eqn:T; try (eexists; split; [done|]; naive_solver).
  destruct (t_cls x) as [cls|]; [|destruct C as [-> _]; exists TList; naive_solver].
  destruct C as (Hne & -> & ->). cbn [negb].
  destruct (C55_class cls Hne) as (t & -> & _). cbn.
  exists (match t with CBareDf | CBareTibble | CDf => TDataframe | _ => TList end).
  split; [by destruct t|]. destruct t; naive_solver.
Qed.

Theorem C66_vector : forall meth x,
  well_formed x ->
  (forall f, meth x = Some f -> well_formed (f x)) ->
  exists b, obj_is_vector meth x = Ok b /\
    (b = true <-> t_type x <> RNull /\
      match method_of meth x with None => own_vector x | Some f => t_type (f x) <> ROther end).
Proof.
  intros meth x W Wf. unfold obj_is_vector, vec_proxy_info_type.
  assert (Hn : t_type x = RNull \/ t_type x <> RNull) by (destruct (t_type x); auto).
  destruct Hn as [->|Hn]; [exists false; naive_solver|].
  set (m := if t_obj x then meth x else None).
  assert (Hm : method_of meth x = m).
  { unfold m, method_of. unfold well_formed in W. destruct (t_cls x); [by destruct W as [_ ->]|by rewrite W]. }
  rewrite Hm.
  assert (H : exists t, match m with None => vec_base_typeof x false | Some f => vec_base_typeof (f x) true end = Ok t
    /\ (t <> TScalar <-> match m with None => own_vector x | Some f => t_type (f x) <> ROther end)).
  { destruct m as [f|] eqn:E; [|by apply base_own]. apply base_proxied. apply Wf.
    unfold m in E. by destruct (t_obj x). }
  destruct H as (t & -> & Ht).
  exists (match t with TScalar => false | _ => true end).
  split; [by destruct (t_type x)|]. rewrite <- Ht. destruct t; naive_solver.
Qed.

Example C66_vector_ex :
  let rcrd := TObj RList true (Some ["my_rcrd"]%string) false in
  let proxy := TObj RList true (Some ["data.frame"]%string) false in
  obj_is_vector (fun _ => None) rcrd = Ok false /\
  obj_is_vector (fun _ => Some (fun _ => proxy)) rcrd = Ok true.
Proof. done. Qed.

(** Lists without a method for their proxies are vectors, unless they have
    class ["AsIs"]. *)
Theorem C66_list_vector_partial : forall meth x,
  well_formed x -> obj_is_list x = Ok true -> meth x = None ->
  t_cls x <> Some ["AsIs"%string] ->
  obj_is_vector meth x = Ok true.
Proof.
  intros meth x W L M A.
  destruct (C66_list x W) as (b & L' & Hb). rewrite L in L'. injection L' as <-.
  destruct (proj1 Hb eq_refl) as [T C].
  destruct (C66_vector meth x W) as (v & -> & Hv); [by rewrite M|].
  f_equal. apply Hv. split; [by rewrite T|].
  assert (method_of meth x = None) as -> by (unfold method_of; by destruct (t_cls x)).
  split; [by rewrite T|]. intros _. destruct (t_cls x) as [cls|]; [|done].
  destruct C as [->|[l ->]]; [done|]. left. apply elem_of_app. right. by apply elem_of_list_singleton.
Qed.

Example C66_list_vector_ex :
  obj_is_vector (fun _ => None) (TObj RList true (Some ["foo"; "list"]%string) false) = Ok true.
Proof. done. Qed.

(** A list whose proxy is a scalar, and a vector of class [c("list", "foo")]
    that is stored in a list and is no list. *)
Theorem C66_list_vector_refuted :
  (exists meth x, well_formed x /\ obj_is_list x = Ok true /\ obj_is_vector meth x = Ok false) /\
  (exists x, well_formed x /\ vec_base_typeof x false = Ok TList /\ obj_is_list x = Ok false).
Proof.
  split.
  - by exists (fun _ => Some (fun _ => TObj ROther false None false)),
      (TObj RList true (Some ["foo"; "list"]%string) false).
  - by exists (TObj RList true (Some ["list"; "foo"]%string) false).
Qed.

(** ** The type used for dispatch *)
Theorem C66_vec_typeof : forall x, well_formed x ->
  exists t, vec_typeof x = Ok t /\
    t = (if t_uns x then TUnspecified
         else match t_cls x with
              | None => base_kind (t_type x)
              | Some cls => if decide (cls = ["data.frame"%string]) then TDataframe else TS3
              end).
Proof.
  intros x W%class_type_wf. unfold vec_typeof. destruct (t_uns x); [by eexists|].
  destruct (t_cls x) as [cls|].
  - destruct W as (Hne & -> & ->). cbn [negb orb].
    destruct (C55_class cls Hne) as (t & -> & _ & HD & _). cbn.
    eexists. split; [done|]. destruct (decide (cls = ["data.frame"%string])) as [E|E].
    + by rewrite (proj2 HD E).
    + destruct t; naive_solver.
  - destruct W as [O _]. rewrite O. cbn [negb orb]. eexists. split; [|done].
    unfold vec_base_typeof. rewrite O. by destruct (t_type x).
Qed.

Example C66_vec_typeof_ex :
  vec_typeof (TObj RList true (Some ["tbl_df"; "tbl"; "data.frame"]%string) false) = Ok TS3 /\
  vec_typeof (TObj RList true (Some ["data.frame"]%string) false) = Ok TDataframe /\
  vec_typeof (TObj ROther false None false) = Ok TScalar.
Proof. done. Qed.

(** An object of class ["data.frame"] has the type of data frames although it
    is no list. *)
Theorem C66_vec_typeof_refuted : exists x,
  well_formed x /\ vec_typeof x = Ok TDataframe /\ is_data_frame_t x = Ok false.
Proof. by exists (TObj RInteger true (Some ["data.frame"]%string) false). Qed.

Print Assumptions C66_typeof2.
Print Assumptions C66_typeof2_s3.
Print Assumptions C66_cast.
Print Assumptions C66_common_sym.
Print Assumptions C66_common_partial.
Print Assumptions C66_common_refuted.
Print Assumptions C66_common_absorbs.
Print Assumptions C66_list.
Print Assumptions C66_vector.
Print Assumptions C66_list_vector_partial.
Print Assumptions C66_list_vector_refuted.
Print Assumptions C66_vec_typeof.
Print Assumptions C66_vec_typeof_refuted.
