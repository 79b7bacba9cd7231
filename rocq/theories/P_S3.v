(** * C61: which method is found, and when concatenation falls back *)
From Verif Require Import Base M_S3 Spec_S3 L_S3.

(** The name of a method is exact whatever the buffer held before, and never
    written past the buffer.  Full statement: for all strings; it is false for
    strings of about 2^31 bytes (C61_paste_refuted). *)
Theorem C61_paste_partial buf generic cls :
  length buf = 200 -> no_nul generic -> no_nul cls -> (Z.of_nat (length generic + length cls) < 2 ^ 31 - 1)%Z ->
  match s3_paste_method_sym buf generic cls with
  | Ok (sym, buf') => fits (method_name generic cls) /\ sym = method_name generic cls /\ length buf' = 200
  | Err _ => ~ fits (method_name generic cls)
  | UB _ => False
  end.
Proof.
  intros Hb Hg Hc Hi. destruct (decide (length (method_name generic cls) < 200)) as [Hf|Hf].
  - destruct (paste_ok buf generic cls Hb Hg Hc Hf) as (buf' & -> & Hl). done.
  - destruct (paste_err buf generic cls Hi Hf) as [e ->]. done.
Qed.
(** The sum of the lengths overflows an [int]. *)
Theorem C61_paste_refuted : exists cls, no_nul cls /\ Z.of_nat (length cls) = (2 ^ 31 - 1)%Z /\
  forall buf generic, exists m, s3_paste_method_sym buf generic cls = UB m.
Proof.
  exists (replicate (Z.to_nat (2 ^ 31 - 1)) 97%Z).
  assert (Hl : Z.of_nat (length (replicate (Z.to_nat (2 ^ 31 - 1)) 97%Z)) = (2 ^ 31 - 1)%Z).
  { rewrite replicate_length. rewrite Z2Nat.id; lia. }
  split; [|split; [done|]].
  - unfold no_nul. apply Forall_replicate. lia.
  - intros buf generic. unfold s3_paste_method_sym. rewrite Hl.
    destruct (Z.ltb_spec INT_MAX (Z.of_nat (length generic) + (2 ^ 31 - 1) + 1)); [by eexists|].
    unfold INT_MAX in *. lia.
Qed.

(** The method of the first class that has one is found. *)
Theorem C61_find global buf generic cls table :
  length buf = 200 -> no_nul generic -> Forall no_nul cls -> Forall (fun c => fits (method_name generic c)) cls ->
  exists r buf', s3_class_find_method global buf generic (Some cls) table = Ok (r, buf') /\ length buf' = 200 /\
    match r with
    | Some m => exists pre c post, cls = pre ++ c :: post /\ is_method global table (method_name generic c) m /\
        Forall (fun c => forall k, ~ is_method global table (method_name generic c) k) pre
    | None => Forall (fun c => forall k, ~ is_method global table (method_name generic c) k) cls
    end.
Proof.
  intros Hb Hg Hn Hf. unfold s3_class_find_method.
  assert (H : forall post pre buf, cls = pre ++ post -> length buf = 200 ->
    exists r buf', for_brk (length pre) (length post) (fun i '(_, buf) =>
      let! c := rd cls i in
      let! (method, buf) := s3_get_method global buf generic c table in
      Ok (match method with Some _ => Break (method, buf) | None => Next (None, buf) end)) (None, buf) = Ok (r, buf') /\
    length buf' = 200 /\
    match r with
    | Some m => exists mid c post', post = mid ++ c :: post' /\ is_method global table (method_name generic c) m /\
        Forall (fun c => forall k, ~ is_method global table (method_name generic c) k) mid
    | None => Forall (fun c => forall k, ~ is_method global table (method_name generic c) k) post
    end).
  { clear Hb buf. induction post as [|c post IH]; intros pre buf Hx Hb.
    { exists None, buf. done. }
    cbn [length for_brk].
    assert (Hrd : rd cls (length pre) = Ok c) by (apply rd_Ok; rewrite Hx; by apply list_lookup_middle).
    rewrite Hrd. cbn [bind]. rewrite Hx in Hn, Hf. apply Forall_app in Hn as [_ Hn], Hf as [_ Hf].
    destruct (paste_ok buf generic c Hb Hg (Forall_inv Hn) (Forall_inv Hf)) as (buf' & E & Hb').
    unfold s3_get_method at 1. rewrite E. cbn [bind].
    destruct (s3_sym_get_method global (method_name generic c) table) as [m|] eqn:Em; cbn [bind].
    - exists (Some m), buf'. split; [done|]. split; [done|]. exists [], c, post. split; [done|].
      split; [by apply sym_method|done].
    - destruct (IH (pre ++ [c]) buf') as (r & buf2 & E2 & Hb2 & Hr); [by rewrite Hx, <- app_assoc|done|].
      rewrite app_length in E2. cbn [length] in E2. replace (length pre + 1) with (S (length pre)) in E2 by lia.
      exists r, buf2. split; [exact E2|]. split; [done|]. pose proof (proj1 (sym_none _ _ _) Em) as Hno. destruct r as [m|].
      + destruct Hr as (mid & c' & post' & -> & Hm & HF). exists (c :: mid), c', post'. split; [done|]. split; [done|].
        by constructor.
      + by constructor. }
  apply (H cls [] buf); done.
Qed.

(** The same for S4 classes, whose table is indexed by the class itself *)
Theorem C61_find_s4 cls table :
  exists r, s4_class_find_method (Some cls) table = Ok r /\
    match r with
    | Some m => exists pre c post, cls = pre ++ c :: post /\ table c = Some (VFun m) /\
        Forall (fun c => forall k, table c <> Some (VFun k)) pre
    | None => Forall (fun c => forall k, table c <> Some (VFun k)) cls
    end.
Proof.
  unfold s4_class_find_method.
  assert (H : forall post pre, cls = pre ++ post ->
    exists r, for_brk (length pre) (length post) (fun i _ =>
      let! c := rd cls i in
      Ok (match table c with Some (VFun m) => Break (Some m) | _ => Next None end)) None = Ok r /\
    match r with
    | Some m => exists mid c post', post = mid ++ c :: post' /\ table c = Some (VFun m) /\
        Forall (fun c => forall k, table c <> Some (VFun k)) mid
    | None => Forall (fun c => forall k, table c <> Some (VFun k)) post
    end).
  { induction post as [|c post IH]; intros pre Hx.
    { exists None. done. }
    cbn [length for_brk].
    assert (Hrd : rd cls (length pre) = Ok c) by (apply rd_Ok; rewrite Hx; by apply list_lookup_middle).
    rewrite Hrd. cbn [bind].
    destruct (IH (pre ++ [c])) as (r & E2 & Hr); [by rewrite Hx, <- app_assoc|].
    rewrite app_length in E2. cbn [length] in E2. replace (length pre + 1) with (S (length pre)) in E2 by lia.
    assert (Hskip : (forall k, table c <> Some (VFun k)) -> match r with
      | Some m => exists mid c' post', c :: post = mid ++ c' :: post' /\ table c' = Some (VFun m) /\
          Forall (fun c => forall k, table c <> Some (VFun k)) mid
      | None => Forall (fun c => forall k, table c <> Some (VFun k)) (c :: post)
      end).
    { intros Hno. destruct r as [m|].
      - destruct Hr as (mid & c' & post' & -> & Hm & HF). exists (c :: mid), c', post'. split; [done|]. split; [done|].
        by constructor.
      - by constructor. }
    destruct (table c) as [[m|]|] eqn:Em.
    - exists (Some m). split; [done|]. exists [], c, post. done.
    - exists r. split; [exact E2|]. by apply Hskip.
    - exists r. split; [exact E2|]. by apply Hskip. }
  apply (H cls []). done.
Qed.

(** Methods for two objects: the name is made of both first classes. *)
Theorem C61_xy global buf generic x y cx cy table :
  length buf = 200 -> no_nul generic -> no_nul cx -> no_nul cy -> first_class x cx -> first_class y cy ->
  fits (method_name (method_name generic cx) cy) ->
  exists r buf', s3_find_method_xy global buf generic x y table = Ok (r, buf') /\ length buf' = 200 /\
    forall m sym, r = Some (m, sym) <->
      is_method global table (method_name (method_name generic cx) cy) m /\ sym = method_name (method_name generic cx) cy.
Proof.
  intros Hb Hg Hnx Hny Hx Hy Hf. unfold s3_find_method_xy. rewrite (class0_ok _ _ Hx), (class0_ok _ _ Hy). cbn [bind].
  assert (Hf1 : fits (method_name generic cx)).
  { unfold fits, method_name in *. rewrite app_length in Hf. lia. }
  destruct (paste_ok buf generic cx Hb Hg Hnx Hf1) as (buf1 & E1 & Hb1). rewrite E1. cbn [bind].
  assert (Hn1 : no_nul (method_name generic cx)).
  { unfold no_nul, method_name in *. apply Forall_app. split; [done|]. by constructor. }
  destruct (paste_ok buf1 _ cy Hb1 Hn1 Hny Hf) as (buf2 & E2 & Hb2). rewrite E2. cbn [bind].
  eexists _, buf2. split; [done|]. split; [done|]. intros m sym.
  rewrite <- sym_method. destruct (s3_sym_get_method _ _ _) as [k|]; naive_solver.
Qed.
(** No other pair of classes has the same name.  Full statement: for all
    classes; it is false where the first class has a dot (C61_pair_refuted). *)
Lemma dot_split a b c d : no_dot a -> no_dot c -> a ++ 46%Z :: b = c ++ 46%Z :: d -> a = c /\ b = d.
Proof.
  intros Ha. revert c. induction Ha as [|z a Hz _ IH]; intros [|w c] Hc E; cbn [app] in E.
  - by injection E as ->.
  - injection E as <- _. by destruct (Forall_inv Hc).
  - by injection E as -> _.
  - injection E as -> E2. destruct (IH c (Forall_inv_tail Hc) E2) as [-> ->]. done.
Qed.
Theorem C61_pair_partial generic cx cy cx' cy' : no_dot cx -> no_dot cx' ->
  method_name (method_name generic cx) cy = method_name (method_name generic cx') cy' -> cx = cx' /\ cy = cy'.
Proof.
  intros H1 H2. unfold method_name. rewrite <- !app_assoc. cbn [app]. intros E. apply app_inv_head in E.
  injection E as E. by apply dot_split.
Qed.
(** A method for the classes [a] and [b.c] is found for the classes [a.b] and [c]. *)
Theorem C61_pair_refuted : exists generic x y cx cy table m sym,
  first_class x cx /\ first_class y cy /\
  s3_find_method_xy (fun _ => None) (replicate 200 0%Z) generic x y table =
    Ok (Some (m, sym), sym ++ replicate (200 - length sym) 0%Z) /\
  exists cx' cy', cx' <> cx /\ cy' <> cy /\ sym = method_name (method_name generic cx') cy'.
Proof.
  exists [103%Z], (SObj true (Some [[97; 46; 98]%Z]) (Ok []) false), (SObj true (Some [[99]%Z]) (Ok []) false),
    [97; 46; 98]%Z, [99%Z],
    (fun n => if bool_decide (n = [103; 46; 97; 46; 98; 46; 99]%Z) then Some (VFun 5) else None), 5%Z, [103; 46; 97; 46; 98; 46; 99]%Z.
  split; [left; eauto|]. split; [left; eauto|]. split; [vm_compute; reflexivity|].
  exists [97%Z], [98; 46; 99]%Z. done.
Qed.

(** The method for a pair is looked for first; then one for the first class,
    in whose table the method for the second class is looked for. *)
Theorem C61_dispatch global table_of buf generic x y cx cy table :
  length buf = 200 -> no_nul generic -> no_nul cx -> no_nul cy -> first_class x cx -> first_class y cy ->
  let name1 := method_name generic cx in let name := method_name name1 cy in
  fits name ->
  exists r buf', dispatch_method global table_of buf generic x y table = Ok (r, buf') /\ length buf' = 200 /\
    forall m sym, r = Some (m, sym) <->
      sym = name /\
      (is_method global table name m \/
       ((forall k, ~ is_method global table name k) /\
        exists m1, is_method global table name1 m1 /\ is_method global (table_of m1) name m)).
Proof.
  intros Hb Hg Hnx Hny Hx Hy name1 name Hf. unfold dispatch_method.
  destruct (C61_xy global buf generic x y cx cy table Hb Hg Hnx Hny Hx Hy Hf) as (r & buf1 & E & Hb1 & Hr).
  rewrite E. cbn [bind]. destruct r as [[m sym]|].
  - exists (Some (m, sym)), buf1. split; [done|]. split; [done|]. destruct (proj1 (Hr m sym) eq_refl) as [Hm ->].
    intros m' sym'. rewrite Hr. change (method_name (method_name generic cx) cy) with name in *. split; [naive_solver|]. intros [-> [Hm'|[Hno _]]]; [done|].
    by destruct (Hno m).
  - assert (Hno : forall k, ~ is_method global table name k).
    { intros k Hk. discriminate (proj2 (Hr k name) (conj Hk eq_refl)). }
    assert (Hf1 : fits name1) by (unfold fits, name, method_name in *; rewrite app_length in Hf; lia).
    destruct (paste_ok buf1 generic cx Hb1 Hg Hnx Hf1) as (buf2 & E2 & Hb2).
    unfold s3_find_method2 at 1. rewrite (class0_ok _ _ Hx). cbn [bind]. rewrite E2. cbn [bind]. fold name1.
    destruct (s3_sym_get_method global name1 table) as [m1|] eqn:E1; cbn [bind].
    + assert (Hn1 : no_nul name1).
      { unfold name1, no_nul, method_name in *. apply Forall_app. split; [done|]. by constructor. }
      destruct (paste_ok buf2 name1 cy Hb2 Hn1 Hny Hf) as (buf3 & E3 & Hb3).
      unfold s3_find_method2. rewrite (class0_ok _ _ Hy). cbn [bind]. rewrite E3. cbn [bind]. fold name.
      eexists _, buf3. split; [done|]. split; [done|]. intros m sym. apply sym_method in E1.
      assert (Hu : forall k, is_method global table name1 k -> k = m1).
      { intros k Hk. pose proof (proj2 (sym_method _ _ _ _) Hk). pose proof (proj2 (sym_method _ _ _ _) E1). congruence. }
      destruct (s3_sym_get_method global name (table_of m1)) as [k|] eqn:E4.
      * split.
        -- intros [= <- <-]. split; [done|]. right. split; [done|]. exists m1. split; [done|]. by apply sym_method.
        -- intros [-> [Hm|(_ & k1 & Hk1 & Hk2)]]; [by destruct (Hno m)|]. apply Hu in Hk1. subst k1.
           pose proof (proj2 (sym_method _ _ _ _) Hk2). congruence.
      * split; [done|]. intros [-> [Hm|(_ & k1 & Hk1 & Hk2)]]; [by destruct (Hno m)|]. apply Hu in Hk1. subst k1.
        pose proof (proj2 (sym_method _ _ _ _) Hk2). congruence.
    + exists None, buf2. split; [done|]. split; [done|]. intros m sym. split; [done|].
      intros [-> [Hm|(_ & k1 & Hk1 & Hk2)]]; [by destruct (Hno m)|]. by destruct (proj1 (sym_none _ _ _) E1 k1).
Qed.

(** ** Fallback *)
Section fallback.
  Context {A : Type} (cls_eq : A -> A -> bool).
  Context (is_vector inherits_vctr implements_ptype2 implements_c : A -> bool).

  Lemma first_non_null_ok (xs : list (option A)) :
    list_first_non_null xs = Ok (None, length xs) /\ Forall (fun x => x = None) xs \/
    exists k x post, list_first_non_null xs = Ok (Some x, k) /\ xs = replicate k None ++ Some x :: post.
  Proof.
    unfold list_first_non_null.
    assert (H : forall post k, xs = replicate k None ++ post ->
      for_brk k (length post) (fun i _ => let! x := rd xs i in
        Ok (match x with Some _ => Break (x, i) | None => Next (x, S i) end)) (None, k) = Ok (None, length xs) /\
        Forall (fun x => x = None) xs \/
      exists k' x post', for_brk k (length post) (fun i _ => let! x := rd xs i in
        Ok (match x with Some _ => Break (x, i) | None => Next (x, S i) end)) (None, k) = Ok (Some x, k') /\
        xs = replicate k' None ++ Some x :: post').
    { induction post as [|x post IH]; intros k Hx.
      { left. rewrite app_nil_r in Hx. split; [by rewrite Hx, replicate_length|]. rewrite Hx. by apply Forall_replicate. }
      assert (Hrd : rd xs k = Ok x).
      { apply rd_Ok. rewrite Hx. apply list_lookup_middle. by rewrite replicate_length. }
      cbn [length for_brk]. rewrite Hrd. cbn [bind]. destruct x as [x|].
      - right. exists k, x, post. done.
      - apply IH. rewrite Hx, replicate_S_end, <- app_assoc. done. }
    apply (H xs 0). done.
  Qed.

  (** All elements other than NULL have the same class. *)
  Theorem C61_homogeneous xs :
    (forall x, cls_eq x x = true) -> (forall x y, cls_eq x y = true -> cls_eq y x = true) ->
    (forall x y z, cls_eq x y = true -> cls_eq y z = true -> cls_eq x z = true) ->
    exists b, list_is_homogeneously_classed cls_eq xs = Ok b /\
      (b = true <-> forall x y, Some x ∈ xs -> Some y ∈ xs -> cls_eq x y = true).
  Proof.
    intros Hr Hs Ht. unfold list_is_homogeneously_classed.
    destruct (Nat.eqb_spec (length xs) 0) as [H0|H0]; cbn [orb].
    { exists true. split; [done|]. split; [|done]. intros _ x y Hx. destruct xs; [by apply elem_of_nil in Hx|done]. }
    destruct (Nat.eqb_spec (length xs) 1) as [H1|H1].
    { exists true. split; [done|]. split; [|done]. intros _ x y Hx Hy. destruct xs as [|a [|]]; try done.
      apply elem_of_list_singleton in Hx, Hy. assert (x = y) as -> by congruence. done. }
    destruct (first_non_null_ok xs) as [[-> HN]|(k & f & post & -> & Hx)]; cbn [bind].
    { rewrite Nat.sub_diag. cbn. exists true. split; [done|]. split; [|done]. intros _ x y Hx.
      rewrite Forall_forall in HN. by specialize (HN _ Hx). }
    assert (Hlen : length xs - k = length (Some f :: post)).
    { rewrite Hx, app_length, replicate_length. lia. }
    rewrite Hlen.
    assert (H : forall todo pre, xs = pre ++ todo -> exists b,
      for_brk (length pre) (length todo) (fun i _ =>
        let! this := rd xs i in
        match this, Some f with
        | None, _ => Ok (Next true)
        | Some this, Some first => Ok (if cls_eq first this then Next true else Break false)
        | Some _, None => Err "unreachable"
        end) true = Ok b /\ (b = true <-> forall y, Some y ∈ todo -> cls_eq f y = true)).
    { induction todo as [|y todo IH]; intros pre Hp.
      { exists true. split; [done|]. split; [|done]. intros _ y Hy. by apply elem_of_nil in Hy. }
      cbn [length for_brk].
      assert (Hrd : rd xs (length pre) = Ok y) by (apply rd_Ok; rewrite Hp; by apply list_lookup_middle).
      rewrite Hrd. cbn [bind]. destruct (IH (pre ++ [y])) as (b & E & Hb); [by rewrite Hp, <- app_assoc|].
      rewrite app_length in E. cbn [length] in E. replace (length pre + 1) with (S (length pre)) in E by lia.
      destruct y as [y|].
      - destruct (cls_eq f y) eqn:Ey.
        + exists b. split; [exact E|]. rewrite Hb. setoid_rewrite elem_of_cons. naive_solver.
        + exists false. split; [done|]. split; [done|]. intros HH. rewrite HH in Ey; [done|by left].
      - exists b. split; [exact E|]. rewrite Hb. setoid_rewrite elem_of_cons. naive_solver. }
    destruct (H (Some f :: post) (replicate k None) Hx) as (b & E & Hb). rewrite replicate_length in E.
    exists b. split; [exact E|]. rewrite Hb.
    assert (Hin : forall y, Some y ∈ xs <-> Some y ∈ Some f :: post).
    { intros y. rewrite Hx, elem_of_app. split; [|by right]. intros [HH|HH]; [|done].
      apply elem_of_replicate in HH as [? _]. done. }
    split.
    - intros HH x y Hx' Hy'. apply Hin in Hx', Hy'. apply Ht with f; [by apply Hs, HH|by apply HH].
    - intros HH y Hy. apply HH; [apply Hin; by left|by apply Hin].
  Qed.

  (** When the fallback is used *)
  Theorem C61_fallback xs ptype :
    (forall x, cls_eq x x = true) -> (forall x y, cls_eq x y = true -> cls_eq y x = true) ->
    (forall x y z, cls_eq x y = true -> cls_eq y z = true -> cls_eq x z = true) ->
    exists b, needs_vec_c_homogeneous_fallback cls_eq is_vector inherits_vctr implements_ptype2 implements_c xs ptype = Ok b /\
      (b = true <-> exists k x post, xs = replicate k None ++ Some x :: post /\
        is_vector x = true /\ inherits_vctr x = false /\ implements_ptype2 x = false /\ implements_c x = true /\
        (forall y, Some y ∈ xs -> cls_eq x y = true) /\ (forall p, ptype = Some p -> cls_eq x p = true)).
  Proof.
    intros Hr Hs Ht. unfold needs_vec_c_homogeneous_fallback.
    assert (Hno : forall z : option A, forall k x post, xs = replicate k None ++ Some x :: post -> Some x ∈ xs).
    { intros _ k x post ->. apply elem_of_app. right. by left. }
    destruct (Nat.eqb_spec (length xs) 0) as [H0|H0].
    { exists false. split; [done|]. split; [done|]. intros (k & x & post & -> & _). rewrite app_length in H0. simpl in H0. lia. }
    destruct (first_non_null_ok xs) as [[-> HN]|(k & f & post & -> & Hx)]; cbn [bind].
    { exists false. split; [done|]. split; [done|]. intros (k & x & post & Hx & _). rewrite Forall_forall in HN.
      by specialize (HN _ (Hno None _ _ _ Hx)). }
    assert (Huniq : forall k' x' post', xs = replicate k' None ++ Some x' :: post' -> x' = f).
    { intros k' x' post' Hx'. rewrite Hx in Hx'. clear - Hx'. revert k' Hx'. induction k as [|k IH]; intros [|k'] E; simplify_eq/=; eauto. }
    assert (Hcase : forall P : Prop, (P -> False) -> (false = true <-> P)) by (intros; split; [done|tauto]).
    destruct (is_vector f) eqn:Ev; cbn [negb].
    2: { exists false. split; [done|]. apply Hcase. intros (k' & x & post' & E & H1 & _). apply Huniq in E. congruence. }
    destruct (inherits_vctr f) eqn:Ei.
    { exists false. split; [done|]. apply Hcase. intros (k' & x & post' & E & _ & H1 & _). apply Huniq in E. congruence. }
    assert (Hp : forall b, b = match ptype with Some p => negb (cls_eq f p) | None => false end ->
      (b = false <-> forall p, ptype = Some p -> cls_eq f p = true)).
    { intros b ->. destruct ptype as [p|]; [|naive_solver]. destruct (cls_eq f p) eqn:E; cbn; split; intros HH; try done.
      - naive_solver.
      - by rewrite HH in E. }
    destruct (match ptype with Some p => negb (cls_eq f p) | None => false end) eqn:Ep.
    { exists false. split; [done|]. apply Hcase. intros (k' & x & post' & E & _ & _ & _ & _ & _ & H1). apply Huniq in E. subst x.
      apply (Hp true) in H1; done. }
    destruct (implements_ptype2 f) eqn:E2.
    { exists false. split; [done|]. apply Hcase. intros (k' & x & post' & E & _ & _ & H1 & _). apply Huniq in E. congruence. }
    destruct (C61_homogeneous xs Hr Hs Ht) as (h & Eh & Hh). rewrite Eh. cbn [bind].
    exists (h && implements_c f). split; [done|]. rewrite andb_true_iff, Hh. split.
    - intros [H1 H2]. exists k, f, post. repeat split; try done.
      + intros y Hy. apply H1; [by eapply Hno|done].
      + apply (Hp false); done.
    - intros (k' & x & post' & E & _ & _ & _ & Hc & Hall & _). pose proof (Huniq _ _ _ E) as ->. split; [|done].
      intros a b Ha Hb. apply Ht with f; [by apply Hs, Hall|by apply Hall].
  Qed.
End fallback.

(** A data frame needs the fallback if one of its columns does, at any depth. *)
Theorem C61_df fuel : forall cols b, df_needs_fallback cols fuel = Ok b -> (b = true <-> has_fallback cols).
Proof.
  induction fuel as [|fuel IHf]; intros cols b; [done|]. cbn [df_needs_fallback].
  assert (H : forall post pre, cols = pre ++ post ->
    for_brk (length pre) (length post) (fun i _ =>
      let! col := rd cols i in
      match col with
      | PFallback => Ok (Break true)
      | PLeaf => Ok (Next false)
      | PFrame cs => let! b := df_needs_fallback cs fuel in Ok (if b : bool then Break true else Next false)
      end) false = Ok b -> (b = true <-> has_fallback post)).
  { assert (Hcons : forall c post, has_fallback (c :: post) <->
      c = PFallback \/ (exists cs, c = PFrame cs /\ has_fallback cs) \/ has_fallback post).
    { intros c post. split.
      - inversion 1 as [? Hin|cs ? Hin Hcs]; subst; apply elem_of_cons in Hin as [<-|Hin]; eauto.
        + right. right. by apply fallback_here.
        + right. right. by eapply fallback_col.
      - intros [->|[(cs & -> & H)|H]].
        + apply fallback_here. by left.
        + eapply fallback_col; [by left|done].
        + inversion H as [? Hin|cs ? Hin Hcs]; subst; [apply fallback_here; by right|eapply fallback_col; [by right|done]]. }
    induction post as [|c post IH]; intros pre Hp.
    { intros [= <-]. split; [done|]. inversion 1 as [? Hin|cs ? Hin]; by apply elem_of_nil in Hin. }
    cbn [length for_brk].
    assert (Hrd : rd cols (length pre) = Ok c) by (apply rd_Ok; rewrite Hp; by apply list_lookup_middle).
    rewrite Hrd. cbn [bind]. specialize (IH (pre ++ [c])). rewrite app_length in IH. cbn [length] in IH.
    replace (length pre + 1) with (S (length pre)) in IH by lia.
    assert (Hp' : cols = (pre ++ [c]) ++ post) by by rewrite Hp, <- app_assoc. specialize (IH Hp').
    rewrite Hcons. destruct c as [| |cs].
    - cbn. intros [= <-]. naive_solver.
    - intros E. apply IH in E. rewrite E. naive_solver.
    - destruct (df_needs_fallback cs fuel) as [b'|e|e] eqn:Eb; cbn [bind]; [|done|done].
      apply IHf in Eb. destruct b'; cbn.
      + intros [= <-]. split; [|done]. intros _. right. left. exists cs. split; [done|]. by apply Eb.
      + intros E. apply IH in E. rewrite E. split; [by right; right|]. intros [?|[(cs' & [= <-] & Hcs)|?]]; [done| |done].
        apply Eb in Hcs. done. }
  apply (H cols []). done.
Qed.

(** Enough fuel: more than the depth *)
Fixpoint pcol_depth (c : pcol) : nat :=
  match c with PFrame cs => S (fold_right (fun c d => max (pcol_depth c) d) 0 cs) | _ => 0 end.
Theorem C61_df_fuel fuel : forall cols, Forall (fun c => pcol_depth c < fuel) cols -> 0 < fuel ->
  exists b, df_needs_fallback cols fuel = Ok b.
Proof.
  induction fuel as [|fuel IHf]; intros cols HF H0; [lia|]. cbn [df_needs_fallback].
  assert (H : forall post pre, cols = pre ++ post -> exists b,
    for_brk (length pre) (length post) (fun i _ =>
      let! col := rd cols i in
      match col with
      | PFallback => Ok (Break true)
      | PLeaf => Ok (Next false)
      | PFrame cs => let! b := df_needs_fallback cs fuel in Ok (if b : bool then Break true else Next false)
      end) false = Ok b).
  { induction post as [|c post IH]; intros pre Hp; [by eexists|]. cbn [length for_brk].
    assert (Hrd : rd cols (length pre) = Ok c) by (apply rd_Ok; rewrite Hp; by apply list_lookup_middle).
    rewrite Hrd. cbn [bind]. specialize (IH (pre ++ [c])). rewrite app_length in IH. cbn [length] in IH.
    replace (length pre + 1) with (S (length pre)) in IH by lia.
    assert (Hp' : cols = (pre ++ [c]) ++ post) by by rewrite Hp, <- app_assoc. specialize (IH Hp').
    destruct c as [| |cs]; [by eexists|exact IH|].
    rewrite Hp in HF. apply Forall_app in HF as [_ HF]. pose proof (Forall_inv HF) as Hd. cbn [pcol_depth] in Hd.
    destruct (IHf cs) as [b ->]; [|lia|].
    - assert (Hl : forall d, fold_right (fun c d => max (pcol_depth c) d) 0 cs < d -> Forall (fun c => pcol_depth c < d) cs).
      { clear. induction cs as [|c cs IH]; intros d Hd; [done|]. cbn [fold_right] in Hd. constructor; [lia|]. apply IH. lia. }
      apply Hl. lia.
    - cbn [bind]. destruct b; [by eexists|exact IH]. }
  apply (H cols []). done.
Qed.

(** ** Examples *)
Definition ex_global : env := fun n => if bool_decide (n = [103; 46; 98]%Z) then Some (VFun 1) else
  if bool_decide (n = [103; 46; 97]%Z) then Some VOther else None.
Definition ex_table : env := fun n => if bool_decide (n = [103; 46; 98]%Z) then Some (VFun 2) else
  if bool_decide (n = [103; 46; 99]%Z) then Some (VFun 3) else None.
Example C61_example_find :
  (let! (r, _) := s3_class_find_method ex_global (replicate 200 7%Z) [103%Z] (Some [[97%Z]; [98%Z]; [99%Z]]) ex_table in Ok r) = Ok (Some 1%Z) /\
  (let! (r, _) := s3_class_find_method ex_global (replicate 200 7%Z) [103%Z] (Some [[97%Z]; [99%Z]]) ex_table in Ok r) = Ok (Some 3%Z) /\
  Forall no_nul [[97%Z]; [98%Z]; [99%Z]] /\ Forall (fun c => fits (method_name [103%Z] c)) [[97%Z]; [98%Z]; [99%Z]].
Proof.
  split; [vm_compute; reflexivity|]. split; [vm_compute; reflexivity|].
  split; repeat constructor; try done; unfold fits; simpl; lia.
Qed.
Example C61_example_s4 : s4_class_find_method (Some [[103; 46; 97]%Z; [103; 46; 99]%Z; [103; 46; 98]%Z]) ex_table = Ok (Some 3%Z).
Proof. reflexivity. Qed.
Example C61_example_fallback :
  needs_vec_c_homogeneous_fallback Z.eqb (fun _ => true) (Z.eqb 9) (Z.eqb 8) (Z.eqb 1) [None; Some 1; None; Some 1]%Z None = Ok true /\
  needs_vec_c_homogeneous_fallback Z.eqb (fun _ => true) (Z.eqb 9) (Z.eqb 8) (Z.eqb 1) [None; Some 1; None; Some 2]%Z None = Ok false.
Proof. split; reflexivity. Qed.
Example C61_example_df : df_needs_fallback [PLeaf; PFrame [PLeaf; PFrame [PFallback]]] 3 = Ok true /\
  df_needs_fallback [PLeaf; PFrame [PLeaf; PFrame []]] 3 = Ok false.
Proof. split; reflexivity. Qed.
Example C61_example_xy : first_class (SObj true (Some [[97%Z]; [98%Z]]) (Ok []) false) [97%Z] /\
  first_class (SObj false None (Ok [[100%Z]]) false) [100%Z].
Proof. split; [left; eauto|right; eauto]. Qed.
Example C61_example_dispatch :
  (let! (r, _) := dispatch_method ex_global (fun m => fun n => if (m =? 3)%Z && bool_decide (n = [103; 46; 99; 46; 100]%Z) then Some (VFun 8) else None)
    (replicate 200 7%Z) [103%Z] (SObj true (Some [[99%Z]]) (Ok []) false) (SObj false None (Ok [[100%Z]]) false) ex_table in Ok r)
  = Ok (Some (8, [103; 46; 99; 46; 100])%Z).
Proof. vm_compute. reflexivity. Qed.

Print Assumptions C61_paste_partial.
Print Assumptions C61_paste_refuted.
Print Assumptions C61_find.
Print Assumptions C61_find_s4.
Print Assumptions C61_xy.
Print Assumptions C61_pair_partial.
Print Assumptions C61_pair_refuted.
Print Assumptions C61_dispatch.
Print Assumptions C61_homogeneous.
Print Assumptions C61_fallback.
Print Assumptions C61_df.
Print Assumptions C61_df_fuel.
