(** * C63: proxies of two vectors that are compared with each other *)
From Verif Require Import Base M_JointProxy Spec_JointProxy.

Scheme stacked_mut := Induction for stacked Sort Prop
  with stacked_all_mut := Induction for stacked_all Sort Prop.

Section joint.
  Context {A B : Type} (p_ind : Z -> A -> B) (p_dep : Z -> list A -> list (list B)).
  Context (p_method : list (jcol A) -> list (list B)).

  Lemma splits_app nx ny (p px py q qx qy : list (list B)) :
    splits nx ny p px py -> splits nx ny q qx qy -> splits nx ny (p ++ q) (px ++ qx) (py ++ qy).
  Proof.
    intros (H1 & H2 & H3) (H4 & H5 & H6). unfold splits. rewrite !app_length. split; [lia|]. split; [lia|].
    intros k col Hk. apply lookup_app_Some in Hk as [Hk|[Hl Hk]].
    - destruct (H3 _ _ Hk) as (Hc & cx & cy & Hx & Hy & Hr). split; [done|]. exists cx, cy.
      split; [by apply lookup_app_l_Some|]. split; [by apply lookup_app_l_Some|done].
    - destruct (H6 _ _ Hk) as (Hc & cx & cy & Hx & Hy & Hr). split; [done|]. exists cx, cy.
      split; [rewrite lookup_app_r by lia; by rewrite H1|]. split; [rewrite lookup_app_r by lia; by rewrite H2|done].
  Qed.

  (** The two proxies are the rows of the proxy of both vectors combined, so
      that comparing a row of one with a row of the other is the same as
      comparing rows of one vector.  Full statement: for all data frames; it
      is false of those whose class has a proxy method (C63_joint_refuted). *)
  Theorem C63_joint_partial nx ny x y xy :
    (forall ty v col, col ∈ p_dep ty v -> length col = length v) ->
    stacked nx ny x y xy ->
    exists px py, vec_joint_proxy_order p_ind p_dep p_method x y = Ok (px, py) /\
      splits nx ny (vec_proxy_order p_ind p_dep p_method xy) px py.
  Proof.
    intros Hlen. revert x y xy. apply (stacked_mut A nx ny
      (fun x y xy _ => exists px py, vec_joint_proxy_order p_ind p_dep p_method x y = Ok (px, py) /\
        splits nx ny (vec_proxy_order p_ind p_dep p_method xy) px py)
      (fun xs ys xys _ => length xs = length ys /\ forall ox oy, exists px py,
        (fix go (xs ys : list (jcol A)) (out_x out_y : list (list B)) : res (list (list B) * list (list B)) :=
             match xs, ys with
             | [], _ => Ok (out_x, out_y)
             | x :: xs, y :: ys =>
                 let! (px, py) := vec_joint_proxy_order p_ind p_dep p_method x y in
                 go xs ys (out_x ++ px) (out_y ++ py)
             | _ :: _, [] => UB "read past the end of a list"
             end) xs ys ox oy = Ok (ox ++ px, oy ++ py) /\
        splits nx ny (concat (map (vec_proxy_order p_ind p_dep p_method) xys)) px py)).
    - intros ty dep v w Hv Hw. cbn [vec_joint_proxy_order]. rewrite Z.eqb_refl. cbn [negb]. destruct dep.
      + eexists _, _. split; [reflexivity|]. cbn [vec_proxy_order]. unfold slice_seq, splits. rewrite !map_length.
        split; [done|]. split; [done|]. intros k col Hk.
        assert (Hc : length col = nx + ny).
        { rewrite (Hlen ty (v ++ w) col); [rewrite app_length; lia|]. apply elem_of_list_lookup. by exists k. }
        split; [done|]. exists (take (length v) (drop 0 col)), (take (length w) (drop (length v) col)).
        rewrite !list_lookup_fmap, Hk. split; [done|]. split; [done|].
        rewrite !take_length, !drop_length. split; [lia|]. split; [lia|].
        rewrite drop_0, (take_ge (drop (length v) col)) by (rewrite drop_length; lia). by rewrite take_drop.
      + eexists _, _. split; [reflexivity|]. cbn [vec_proxy_order]. split; [done|]. split; [done|].
        intros [|k] col Hk; [|done]. injection Hk as <-. rewrite map_length, app_length. split; [lia|].
        exists (map (p_ind ty) v), (map (p_ind ty) w). rewrite !map_length, map_app. done.
    - intros xs ys xys _ [Hl IH]. destruct (IH [] []) as (px & py & E & HS). exists px, py.
      cbn [vec_joint_proxy_order]. rewrite Hl, Nat.eqb_refl. cbn [negb]. split; [exact E|]. exact HS.
    - split; [done|]. intros ox oy. exists [], []. rewrite !app_nil_r. split; [done|]. split; [done|]. done.
    - intros x y xy xs ys xys _ (px & py & E & HS) _ [Hl IH]. split; [simpl; lia|]. intros ox oy.
      destruct (IH (ox ++ px) (oy ++ py)) as (qx & qy & E2 & HS2). exists (px ++ qx), (py ++ qy).
      rewrite E. cbn [bind]. split; [|].
      + rewrite E2. by rewrite !app_assoc.
      + cbn [map concat]. by apply splits_app.
  Qed.
End joint.

(** The proxy method of a class of data frames is not used: here it reverses
    the order, but the joint proxies have the order of the columns. *)
Theorem C63_joint_refuted :
  exists (p_method : list (jcol Z) -> list (list Z)) x y xy px py,
    x = JDf true [JVec 0 false [1%Z]] /\ y = JDf true [JVec 0 false [2%Z]] /\ xy = JDf true [JVec 0 false [1; 2]%Z] /\
    vec_joint_proxy_order (fun _ v => v) (fun _ _ => []) p_method x y = Ok (px, py) /\
    vec_proxy_order (fun _ v => v) (fun _ _ => []) p_method xy = [[-1; -2]%Z] /\
    px = [[1%Z]] /\ py = [[2%Z]].
Proof.
  exists (fun cols => map (fun c => match c with JVec _ _ v => map Z.opp v | JDf _ _ => [] end) cols).
  do 5 eexists. split; [done|]. split; [done|]. split; [done|]. split; [reflexivity|]. done.
Qed.

(** Collation replaces the character columns, keeps the others, and fails
    where the function gives no character vector of the same size. *)
Theorem C63_collate {S} (collate : list S -> option (list S)) cols :
  match df_apply collate cols with
  | Ok out => Forall2 (collated collate) cols out
  | Err _ => exists v, CChr v ∈ cols /\ forall w, collate v = Some w -> length w <> length v
  | UB _ => False
  end.
Proof.
  unfold df_apply.
  assert (H1 : forall post pre ids, cols = pre ++ post -> pre = map COther ids ->
    exists i, for_brk (length pre) (length post) (fun i _ =>
      let! col := rd cols i in
      Ok (match col with CChr _ => Break i | COther _ => Next (i + 1) end)) (length pre) = Ok i /\ i <= length cols /\
      exists ids, take i cols = map COther ids).
  { induction post as [|c post IH]; intros pre ids Hp Hi.
    { exists (length pre). split; [done|]. rewrite Hp, app_nil_r. split; [done|]. exists ids. by rewrite take_ge. }
    assert (Hrd : rd cols (length pre) = Ok c) by (apply rd_Ok; rewrite Hp; by apply list_lookup_middle).
    cbn [length for_brk]. rewrite Hrd. cbn [bind]. destruct c as [v|id].
    - exists (length pre). split; [done|]. rewrite Hp, app_length. split; [lia|]. exists ids. by rewrite take_app.
    - destruct (IH (pre ++ [COther id]) (ids ++ [id])) as (i & E & Hr).
      + by rewrite Hp, <- app_assoc.
      + by rewrite map_app, Hi.
      + rewrite app_length in E. cbn [length] in E. exists i. split; [|done].
        replace (Datatypes.S (length pre)) with (length pre + 1) by lia. exact E. }
  destruct (H1 cols [] []) as (i & E & Hi & ids & Hids); [done|done|]. cbn [length] in E. rewrite E. cbn [bind].
  assert (Hsame : forall ids, Forall2 (collated collate) (map (@COther S) ids) (map COther ids)).
  { induction ids0; cbn; constructor; done. }
  destruct (Nat.eqb_spec i (length cols)) as [->|Hne].
  { rewrite firstn_all in Hids. rewrite Hids. apply Hsame. }
  assert (H2 : forall post pre out, cols = pre ++ post -> Forall2 (collated collate) pre out ->
    match for_ (length pre) (length post) (fun i out =>
        let! col := rd cols i in
        match col with
        | COther _ => Ok out
        | CChr v => let! v := chr_apply collate v in wr out i (CChr v)
        end) (out ++ post) with
    | Ok out => Forall2 (collated collate) cols out
    | Err _ => exists v, CChr v ∈ cols /\ forall w, collate v = Some w -> length w <> length v
    | UB _ => False
    end).
  { induction post as [|c post IH]; intros pre out Hp HF.
    { cbn. rewrite app_nil_r in *. by subst. }
    assert (Hrd : rd cols (length pre) = Ok c) by (apply rd_Ok; rewrite Hp; by apply list_lookup_middle).
    pose proof (Forall2_length _ _ _ HF) as Hl.
    cbn [length for_]. rewrite Hrd. cbn [bind].
    assert (Hgo : forall d, collated collate c d ->
      match for_ (Datatypes.S (length pre)) (length post) (fun i out =>
        let! col := rd cols i in
        match col with
        | COther _ => Ok out
        | CChr v => let! v := chr_apply collate v in wr out i (CChr v)
        end) (out ++ d :: post) with
      | Ok out => Forall2 (collated collate) cols out
      | Err _ => exists v, CChr v ∈ cols /\ forall w, collate v = Some w -> length w <> length v
      | UB _ => False
      end).
    { intros d Hd. specialize (IH (pre ++ [c]) (out ++ [d])). rewrite <- !app_assoc, app_length in IH. cbn [length app] in IH.
      replace (length pre + 1) with (Datatypes.S (length pre)) in IH by lia. apply IH; [done|].
      apply Forall2_app; [done|]. by constructor. }
    destruct c as [v|id].
    - unfold chr_apply at 1. destruct (collate v) as [w|] eqn:Ew; cbn [bind].
      + destruct (Nat.eqb_spec (length v) (length w)) as [Hvw|Hvw]; cbn [negb bind].
        * assert (Hwr : wr (out ++ CChr v :: post) (length pre) (CChr w) = Ok (out ++ CChr w :: post)).
          { rewrite wr_Ok by (rewrite app_length; simpl; lia). f_equal.
            rewrite Hl, <- (Nat.add_0_r (length out)), insert_app_r. done. }
          rewrite Hwr. cbn [bind]. apply Hgo. done.
        * exists v. split; [rewrite Hp; apply elem_of_app; right; by left|]. intros w' Hw'. rewrite Ew in Hw'.
          injection Hw' as <-. lia.
      + exists v. split; [rewrite Hp; apply elem_of_app; right; by left|]. intros w' Hw'. congruence.
    - cbn [bind]. apply (Hgo (COther id)). done. }
  specialize (H2 (drop i cols) (take i cols) (take i cols)). rewrite take_drop in H2.
  rewrite take_length, drop_length, Nat.min_l in H2 by done. apply H2; [done|]. rewrite Hids. apply Hsame.
Qed.
Theorem C63_collate_one {S} (collate : option (list S -> option (list S))) proxy out :
  proxy_apply_chr_proxy_collate collate proxy = Ok out ->
  match collate, proxy, out with
  | None, _, _ => out = proxy
  | Some f, CCol c, CCol d => collated f c d
  | Some f, CDf cols, CDf ds => Forall2 (collated f) cols ds
  | _, _, _ => False
  end.
Proof.
  destruct collate as [f|]; cbn; [|by intros [= ->]]. destruct proxy as [[v|id]|cols].
  - unfold chr_apply. destruct (f v) as [w|] eqn:Ew; cbn; [|done].
    destruct (Nat.eqb_spec (length v) (length w)); cbn; [|done]. intros [= <-]. done.
  - intros [= <-]. done.
  - pose proof (C63_collate f cols) as H. destruct (df_apply f cols); cbn; [|done|done]. intros [= <-]. done.
Qed.

(** ** Examples *)
(** Ranks are dependent: those of each vector alone do not compare. *)
Definition ex_rank (_ : Z) (v : list Z) : list (list Z) :=
  [map (fun x => Z.of_nat (length (filter (fun y => (y < x)%Z) v))) v].
Example C63_example_joint :
  let x := JDf false [JVec 0 false [7%Z; 8%Z]; JDf false [JVec 1 true [10; 30]%Z]] in
  let y := JDf false [JVec 0 false [9%Z]; JDf false [JVec 1 true [20]%Z]] in
  vec_joint_proxy_order (fun _ v => v) ex_rank (fun _ => []) x y = Ok ([[7; 8]; [0; 2]], [[9]; [1]])%Z /\
  (exists xy, stacked 2 1 x y xy) /\ (forall ty v col, col ∈ ex_rank ty v -> length col = length v).
Proof.
  cbn zeta. split; [vm_compute; reflexivity|]. split.
  - eexists. repeat econstructor.
  - intros ty v col H. apply elem_of_list_singleton in H as ->. by rewrite map_length.
Qed.
Example C63_example_collate :
  df_apply (fun v => Some (map Z.opp v)) [COther 4; CChr [1; 2]; COther 5; CChr [3; 4]]%Z =
    Ok [COther 4; CChr [-1; -2]; COther 5; CChr [-3; -4]]%Z /\
  df_apply (fun v => Some (1%Z :: v)) [COther 4; CChr [1; 2]]%Z = Err "`chr_proxy_collate` must return a vector of the same length".
Proof. split; reflexivity. Qed.

Print Assumptions C63_joint_partial.
Print Assumptions C63_joint_refuted.
Print Assumptions C63_collate.
Print Assumptions C63_collate_one.
