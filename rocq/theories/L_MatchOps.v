(** * Lemmas: storing rows and checking for multiple matches *)
From Verif Require Import Base M_Double M_Scalar M_Match.
From Coq Require Import Sorting.Sorted.
#[local] Arguments Z.mul : simpl never.
#[local] Arguments Z.add : simpl never.
#[local] Arguments Z.sub : simpl never.
#[local] Arguments Z.to_nat : simpl never.
#[local] Arguments Z.of_nat : simpl never.

(** The steps of [expand_compact_indices()] one after the other. *)
Inductive xop :=
| OpCheck (loc size : Z)
| OpRow (loc h : Z)
| OpVal (loc v : Z)
| OpErr (e : String.string).

Section ops.
  (** [n]: size of the output; [H]: size of the haystack. *)
  Context (m : multiple) (rel : relationship) (retain : bool) (n H : nat).
  Definition one : bool := match m with MULTIPLE_first | MULTIPLE_last => true | _ => false end.
  Definition run_op (op : xop) (s : xstate) : res xstate :=
    match op with
    | OpCheck loc size => check_needles m rel loc size s
    | OpRow loc h =>
        let! s := x_store (loc + 1) (h + 1) s in
        let! s := note_haystack rel retain one h s in Ok (x_next_out s)
    | OpVal loc v => let! s := x_store (loc + 1) v s in Ok (x_next_out s)
    | OpErr e => Err e
    end.
  Fixpoint run_ops (ops : list xop) (s : xstate) : res xstate :=
    match ops with [] => Ok s | op :: ops => let! s := run_op op s in run_ops ops s end.
  Lemma run_ops_app a b s : run_ops (a ++ b) s = let! s := run_ops a s in run_ops b s.
  Proof. revert s. induction a as [|op a IH]; intros s; [done|]. cbn. destruct (run_op op s); cbn; [apply IH|done|done]. Qed.

  Definition op_rows (op : xop) : list (Z * Z) :=
    match op with OpRow l h => [(l + 1, h + 1)%Z] | OpVal l v => [((l + 1)%Z, v)] | _ => [] end.
  Definition op_checks (op : xop) : list (Z * Z) := match op with OpCheck l k => [(l, k)] | _ => [] end.
  Definition op_hs (op : xop) : list Z := match op with OpRow _ h => [h] | _ => [] end.
  Definition rows (ops : list xop) : list (Z * Z) := concat (map op_rows ops).
  Definition checks (ops : list xop) : list (Z * Z) := concat (map op_checks ops).
  Definition hs (ops : list xop) : list Z := concat (map op_hs ops).
  Lemma rows_app a b : rows (a ++ b) = rows a ++ rows b.
  Proof. unfold rows. by rewrite map_app, concat_app. Qed.
  Lemma checks_app a b : checks (a ++ b) = checks a ++ checks b.
  Proof. unfold checks. by rewrite map_app, concat_app. Qed.
  Lemma hs_app a b : hs (a ++ b) = hs a ++ hs b.
  Proof. unfold hs. by rewrite map_app, concat_app. Qed.

  (** Several matches of a needle. *)
  Definition many (cs : list (Z * Z)) : Prop := (exists c, c ∈ cs /\ (1 < c.2)%Z) \/ ~ NoDup (map fst cs).
  Definition checks_n : bool := checks_needles m.
  Definition checks_h : bool := checks_haystack m rel.
  Definition track0 : bool := checks_h || retain.

  Definition init : xstate :=
    X (replicate n 0%Z) (replicate n 0%Z) 0 false false checks_n NA_INTEGER checks_h track0
      (if track0 then replicate H false else []) NA_INTEGER [].

  Definition warned (any_n any_h : bool) (w : mwarning) : Prop :=
    match w with
    | WARN_multiple => m = MULTIPLE_warning /\ any_n = true
    | WARN_many_to_many => rel = REL_warn_many_to_many /\ any_n = true /\ any_h = true
    end.

  Record sinv (pre : list xop) (s : xstate) : Prop := SI {
    si_len : length (x_needles s) = n /\ length (x_haystack s) = n;
    si_out : x_loc_out s = length (rows pre);
    si_needles : take (x_loc_out s) (x_needles s) = map fst (rows pre);
    si_haystack : take (x_loc_out s) (x_haystack s) = map snd (rows pre);
    si_check_n : x_check_needles s = checks_n && negb (x_any_multiple_needles s);
    si_any_n : x_any_multiple_needles s = true -> checks_n = true /\ many (checks pre);
    si_none_n : checks_n = true -> x_any_multiple_needles s = false ->
      ~ many (checks pre) /\ x_previous s = default NA_INTEGER (last (map fst (checks pre)));
    si_check_h : x_check_haystack s = checks_h && negb (x_any_multiple_haystack s);
    si_any_h : x_any_multiple_haystack s = true -> checks_h = true /\ ~ NoDup (hs pre);
    si_none_h : checks_h = true -> x_any_multiple_haystack s = false -> NoDup (hs pre);
    si_track : x_track s = if x_any_multiple_haystack s then retain else track0;
    si_detect : x_track s = true -> length (x_detect s) = H /\
      forall h d, x_detect s !! h = Some d -> d = bool_decide (Z.of_nat h ∈ hs pre);
    si_overall : x_overall s = NA_INTEGER;
    si_warn : NoDup (x_warnings s) /\ forall w, w ∈ x_warnings s <-> warned (x_any_multiple_needles s) (x_any_multiple_haystack s) w;
    si_err_n : x_any_multiple_needles s = true -> m <> MULTIPLE_error /\ rel <> REL_one_to_one /\ rel <> REL_many_to_one;
    si_err_h : x_any_multiple_haystack s = true -> rel = REL_warn_many_to_many }.

  (** Reasons for an error. *)
  Definition reason (ops : list xop) (e : String.string) : Prop :=
    OpErr e ∈ ops \/
    (checks_n = true /\ many (checks ops) /\
      ((m = MULTIPLE_error /\ e = "multiple matches"%string) \/
       (rel = REL_one_to_one /\ e = "relationship one-to-one: multiple matches of a needle"%string) \/
       (rel = REL_many_to_one /\ e = "relationship many-to-one: multiple matches of a needle"%string))) \/
    (~ NoDup (hs ops) /\
      ((rel = REL_one_to_one /\ e = "relationship one-to-one: multiple matches in the haystack"%string) \/
       (rel = REL_one_to_many /\ e = "relationship one-to-many: multiple matches in the haystack"%string))).

  Lemma many_app a b : many a -> many (a ++ b).
  Proof.
    intros [(c & Hc & Hs)|Hd]; [left; exists c; split; [apply elem_of_app; by left|done]|]. right. rewrite map_app.
    intros ND. apply Hd. by apply NoDup_app in ND as (? & _).
  Qed.
  Lemma reason_app a b e : reason a e -> reason (a ++ b) e.
  Proof.
    intros [He|[(C & M & R)|(D & R)]].
    - left. apply elem_of_app. by left.
    - right. left. split; [done|]. split; [|done]. rewrite checks_app. by apply many_app.
    - right. right. split; [|done]. rewrite hs_app. intros ND. apply D. by apply NoDup_app in ND as (? & _).
  Qed.

  Lemma init_ok : sinv [] init.
  Proof.
    split; cbn; try done.
    - by rewrite !replicate_length.
    - by rewrite andb_true_r.
    - intros _ _. split; [|done]. intros [(c & Hc & _)|Hd]; [by apply elem_of_nil in Hc|]. apply Hd. cbn. apply NoDup_nil_2.
    - by rewrite andb_true_r.
    - intros _ _. apply NoDup_nil_2.
    - intros ->. split; [apply replicate_length|]. intros h d Hd. apply lookup_replicate in Hd as [-> _]. symmetry.
      apply bool_decide_eq_false. apply not_elem_of_nil.
    - split; [apply NoDup_nil_2|]. intros w. rewrite elem_of_nil. split; [done|]. destruct w; cbn; intros (? & ? & ?) || intros (? & ?); done.
  Qed.

  Definition op_ok (op : xop) : Prop :=
    match op with
    | OpRow _ h => (0 <= h < Z.of_nat H)%Z
    | OpCheck l k => (0 <= l)%Z
    | _ => True
    end.

  (** Storing a row. *)
  Lemma store_ok a b s : x_loc_out s < n -> length (x_needles s) = n -> length (x_haystack s) = n ->
    x_store a b s = Ok (X (<[x_loc_out s := a]> (x_needles s)) (<[x_loc_out s := b]> (x_haystack s)) (x_loc_out s) (x_any_multiple_needles s)
      (x_any_multiple_haystack s) (x_check_needles s) (x_previous s) (x_check_haystack s) (x_track s) (x_detect s) (x_overall s) (x_warnings s)).
  Proof. intros Hl L1 L2. unfold x_store. rewrite !wr_Ok by lia. done. Qed.
  Lemma take_insert_snoc {A} (l : list A) k v : k < length l -> take (S k) (<[k:=v]> l) = take k l ++ [v].
  Proof.
    intros Hk. erewrite take_S_r; [|by apply list_lookup_insert]. by rewrite take_insert by lia.
  Qed.

  Lemma many_snoc_none cs l k : Forall (fun c : Z * Z => (0 <= c.1)%Z) cs -> Sorted (fun a b : Z * Z => (a.1 <= b.1)%Z) (cs ++ [(l, k)]) -> (0 <= l)%Z ->
    ~ many cs -> (many (cs ++ [(l, k)]) <-> (1 < k)%Z \/ l = default NA_INTEGER (last (map fst cs))).
  Proof.
    intros F S0 Hl Nm. assert (ND : NoDup (map fst cs)) by (destruct (decide (NoDup (map fst cs))); [done|exfalso; apply Nm; by right]).
    apply Sorted_StronglySorted in S0; [|intros x y z; lia].
    assert (Hle : forall x, x ∈ map fst cs -> (x <= l)%Z /\ (x <= default NA_INTEGER (last (map fst cs)))%Z).
    { intros x Hx. apply elem_of_list_In, in_map_iff in Hx as ([x1 x2] & <- & Hx). apply elem_of_list_In in Hx. cbn [fst].
      apply elem_of_list_lookup in Hx as [i Hi]. pose proof (lookup_lt_Some _ _ _ Hi) as Hil.
      assert (G : forall i j a b, i <= j -> (cs ++ [(l, k)]) !! i = Some a -> (cs ++ [(l, k)]) !! j = Some b -> (a.1 <= b.1)%Z).
      { clear -S0. intros i j a b Hij Hi Hj. destruct (decide (i = j)) as [->|]; [assert (a = b) as -> by congruence; lia|].
        revert i j Hij Hi Hj n. induction S0 as [|c cs' S0 IH F]; [done|]. intros [|i] [|j] Hij Hi Hj Nij; try lia.
        - cbn in Hi, Hj. injection Hi as ->. apply elem_of_list_lookup_2 in Hj. apply Forall_forall with (x := b) in F; done.
        - apply (IH i j); [lia|done|done|lia]. }
      split.
      - apply (G i (length cs) (x1, x2) (l, k)); [lia|by rewrite lookup_app_l|]. rewrite lookup_app_r by lia. by rewrite Nat.sub_diag.
      - rewrite last_lookup, map_length. destruct (lookup_lt_is_Some_2 cs (pred (length cs))) as [c Hc]; [lia|].
        rewrite list_lookup_fmap, Hc. cbn [fmap option_fmap option_map default from_option id].
        change (default NA_INTEGER (Some c.1)) with c.1.
        apply (G i (pred (length cs)) (x1, x2) c); [lia|by rewrite lookup_app_l|by rewrite lookup_app_l by lia]. }
    split.
    - intros [(c & Hc & Hs)|Hd].
      + apply elem_of_app in Hc as [Hc|Hc]; [exfalso; apply Nm; left; by exists c|]. apply elem_of_list_singleton in Hc as ->. by left.
      + right. rewrite map_app in Hd. cbn in Hd. destruct (decide (l ∈ map fst cs)) as [Hin|Hin].
        * destruct (Hle l Hin) as [_ Hle2]. destruct (last (map fst cs)) as [y|] eqn:El.
          -- cbn in Hle2 |- *. unfold id in *. apply last_Some_elem_of in El. destruct (Hle y El) as [Hy _]. lia.
          -- apply last_None in El. rewrite El in Hin. by apply elem_of_nil in Hin.
        * exfalso. apply Hd. apply NoDup_app. split; [done|]. split; [|apply NoDup_singleton].
          intros x Hx ->%elem_of_list_singleton. done.
    - intros [Hk|El].
      + left. exists (l, k). split; [apply elem_of_app; right; apply elem_of_list_here|done].
      + right. rewrite map_app. cbn. intros ND'. apply NoDup_app in ND' as (_ & Hx & _). apply (Hx l); [|apply elem_of_list_here].
        destruct (last (map fst cs)) as [y|] eqn:E2; cbn in El; [unfold id in El; subst y; by apply last_Some_elem_of|unfold NA_INTEGER, INT_MIN in El; lia].
  Qed.

  Lemma step_check pre s l k : sinv pre s -> Forall (fun c : Z * Z => (0 <= c.1)%Z) (checks pre) ->
    Sorted (fun a b : Z * Z => (a.1 <= b.1)%Z) (checks pre ++ [(l, k)]) -> (0 <= l)%Z ->
    match run_op (OpCheck l k) s with Ok s' => sinv (pre ++ [OpCheck l k]) s' | Err e => reason (pre ++ [OpCheck l k]) e | UB _ => False end.
  Proof.
    intros I F SO Hl. destruct I. unfold run_op, check_needles. rewrite si_check_n0.
    assert (ER : rows (pre ++ [OpCheck l k]) = rows pre) by (rewrite rows_app; cbn; apply app_nil_r).
    assert (EH : hs (pre ++ [OpCheck l k]) = hs pre) by (rewrite hs_app; cbn; apply app_nil_r).
    assert (EC : checks (pre ++ [OpCheck l k]) = checks pre ++ [(l, k)]) by (by rewrite checks_app).
    destruct checks_n eqn:CN; cbn [andb].
    2: { split; rewrite ?ER, ?EH, ?EC; try done.
         - by rewrite CN.
         - intros A. by destruct (si_any_n0 A).
         - by rewrite CN. }
    destruct (x_any_multiple_needles s) eqn:AN; cbn [negb].
    { split; rewrite ?ER, ?EH, ?EC, ?AN; try done.
      - by rewrite CN.
      - intros _. destruct (si_any_n0 eq_refl) as [_ M]. split; [done|]. by apply many_app. }
    destruct (si_none_n0 eq_refl eq_refl) as [NM EP]. cbn [orb].
    pose proof (many_snoc_none (checks pre) l k F SO Hl NM) as MS. rewrite <- EP in MS.
    destruct ((1 <? k)%Z || (l =? x_previous s)%Z) eqn:Any.
    - assert (M : many (checks (pre ++ [OpCheck l k]))).
      { rewrite EC. apply MS. apply orb_true_iff in Any as [A|A]; [left; lia|right; lia]. }
      assert (Nm : m <> MULTIPLE_any /\ m <> MULTIPLE_first /\ m <> MULTIPLE_last) by (unfold checks_n, checks_needles in CN; by destruct m).
      (* the result when there is no error *)
      assert (G : forall wm ws, m <> MULTIPLE_error -> rel <> REL_one_to_one -> rel <> REL_many_to_one ->
        wm = (match m with MULTIPLE_warning => [WARN_multiple] | _ => [] end) ->
        ws = (match rel with REL_warn_many_to_many => if x_any_multiple_haystack s then [WARN_many_to_many] else [] | _ => [] end) ->
        sinv (pre ++ [OpCheck l k])
          (X (x_needles s) (x_haystack s) (x_loc_out s) true (x_any_multiple_haystack s) false (x_previous s)
            (x_check_haystack s) (x_track s) (x_detect s) (x_overall s) ((x_warnings s ++ wm) ++ ws))).
      { intros wm ws N1 N2 N3 Ewm Ews. destruct si_warn0 as [WD WE].
        assert (W0 : x_warnings s = []).
        { destruct (x_warnings s) as [|w ws'] eqn:Ew; [done|]. exfalso. assert (Hw : w ∈ w :: ws') by apply elem_of_list_here.
          apply WE in Hw. destruct w; cbn in Hw; destruct Hw as (? & ?) || destruct Hw as (? & ? & ?); intuition congruence. }
        split; cbn; rewrite ?ER, ?EH; try done.
        - by rewrite CN.
        - rewrite W0. cbn [app]. subst wm ws. split.
          + destruct m, rel, (x_any_multiple_haystack s); cbn; repeat (apply NoDup_cons; split; [|]); try apply NoDup_nil_2; try apply not_elem_of_nil;
              rewrite ?elem_of_list_singleton; try done.
          + intros w. unfold warned. destruct m, rel, (x_any_multiple_haystack s), w; cbn; rewrite ?elem_of_cons, ?elem_of_nil; intuition congruence. }
      assert (Pv : (if (1 <? k)%Z || (l =? x_previous s)%Z then x_previous s else l) = x_previous s) by (by rewrite Any).
      assert (RM : forall e, ((m = MULTIPLE_error /\ e = "multiple matches"%string) \/
       (rel = REL_one_to_one /\ e = "relationship one-to-one: multiple matches of a needle"%string) \/
       (rel = REL_many_to_one /\ e = "relationship many-to-one: multiple matches of a needle"%string)) -> reason (pre ++ [OpCheck l k]) e).
      { intros e He. right. left. by rewrite CN. }
      destruct m eqn:Em, rel eqn:Er; cbn [bind]; try done; try (apply RM; tauto).
      all: match goal with |- sinv _ (X _ _ _ _ _ _ _ _ _ _ _ ?w) => idtac end.
      all: destruct (x_any_multiple_haystack s) eqn:AH.
      all: try (specialize (G [] [] ltac:(done) ltac:(done) ltac:(done) eq_refl eq_refl); rewrite !app_nil_r in G; exact G).
      all: try (specialize (G [WARN_multiple] [] ltac:(done) ltac:(done) ltac:(done) eq_refl eq_refl); rewrite !app_nil_r in G; exact G).
      all: try (specialize (G [] [WARN_many_to_many] ltac:(done) ltac:(done) ltac:(done) eq_refl eq_refl); rewrite !app_nil_r in G; exact G).
      all: try (exact (G [WARN_multiple] [WARN_many_to_many] ltac:(done) ltac:(done) ltac:(done) eq_refl eq_refl)).
    - apply orb_false_iff in Any as [A1 A2].
      split; cbn; rewrite ?ER, ?EH, ?EC; try done.
      + by rewrite CN.
      + intros _ _. split.
        * intros M. apply MS in M. lia.
        * rewrite map_app. cbn [map fst]. by rewrite last_snoc.
  Qed.

  Lemma step_val pre s l v : sinv pre s -> length (rows (pre ++ [OpVal l v])) <= n ->
    match run_op (OpVal l v) s with Ok s' => sinv (pre ++ [OpVal l v]) s' | Err e => reason (pre ++ [OpVal l v]) e | UB _ => False end.
  Proof.
    intros I Hn. destruct I. unfold run_op. rewrite rows_app, app_length in Hn. cbn in Hn.
    assert (EH : hs (pre ++ [OpVal l v]) = hs pre) by (rewrite hs_app; cbn; apply app_nil_r).
    assert (EC : checks (pre ++ [OpVal l v]) = checks pre) by (rewrite checks_app; cbn; apply app_nil_r).
    rewrite store_ok by (lia || tauto). cbn [bind].
    split; cbn; rewrite ?EH, ?EC, ?insert_length, ?rows_app, ?app_length; cbn; try done; try lia.
    - rewrite take_insert_snoc by lia. rewrite map_app, si_needles0. done.
    - rewrite take_insert_snoc by lia. rewrite map_app, si_haystack0. done.
  Qed.

  Lemma step_row pre s l h : sinv pre s -> (0 <= h < Z.of_nat H)%Z -> length (rows (pre ++ [OpRow l h])) <= n ->
    match run_op (OpRow l h) s with Ok s' => sinv (pre ++ [OpRow l h]) s' | Err e => reason (pre ++ [OpRow l h]) e | UB _ => False end.
  Proof.
    intros I Hh Hn. destruct I. unfold run_op. rewrite rows_app, app_length in Hn. cbn in Hn.
    assert (EC : checks (pre ++ [OpRow l h]) = checks pre) by (rewrite checks_app; cbn; apply app_nil_r).
    assert (EH : hs (pre ++ [OpRow l h]) = hs pre ++ [h]) by (by rewrite hs_app).
    assert (NDs : NoDup (hs pre) -> (NoDup (hs pre ++ [h]) <-> h ∉ hs pre)).
    { intros ND. split.
      - intros ND'. apply NoDup_app in ND' as (_ & Hx & _). intros Hin. apply (Hx h Hin). apply elem_of_list_here.
      - intros Hin. apply NoDup_app. split; [done|]. split; [|apply NoDup_singleton]. intros x Hx ->%elem_of_list_singleton. done. }
    rewrite store_ok by (lia || tauto). cbn [bind]. unfold note_haystack. cbn.
    assert (Hnd : ~ NoDup (hs pre) -> ~ NoDup (hs pre ++ [h])).
    { intros D D'. apply D. by apply NoDup_app in D' as (? & _). }
    (* the rows *)
    assert (GR : forall any chk trk det ws, chk = checks_h && negb any ->
      (any = true -> checks_h = true /\ ~ NoDup (hs pre ++ [h])) ->
      (checks_h = true -> any = false -> NoDup (hs pre ++ [h])) ->
      trk = (if any then retain else track0) ->
      (trk = true -> length det = H /\ forall i d, det !! i = Some d -> d = bool_decide (Z.of_nat i ∈ hs pre ++ [h])) ->
      (NoDup ws /\ forall w, w ∈ ws <-> warned (x_any_multiple_needles s) any w) -> (any = true -> rel = REL_warn_many_to_many) ->
      sinv (pre ++ [OpRow l h]) (x_next_out (X (<[x_loc_out s:=(l + 1)%Z]> (x_needles s)) (<[x_loc_out s:=(h + 1)%Z]> (x_haystack s)) (x_loc_out s)
        (x_any_multiple_needles s) any (x_check_needles s) (x_previous s) chk trk det (x_overall s) ws))).
    { intros any chk trk det ws Q1 Q2 Q3 Q4 Q5 Q6 Q7.
      split; cbn; rewrite ?EH, ?EC, ?insert_length, ?rows_app, ?app_length; cbn; try done; try lia.
      - rewrite take_insert_snoc by lia. rewrite map_app, si_needles0. done.
      - rewrite take_insert_snoc by lia. rewrite map_app, si_haystack0. done. }
    destruct (x_track s) eqn:TR.
    2: { cbn [bind]. apply (GR (x_any_multiple_haystack s) (x_check_haystack s) false (x_detect s) (x_warnings s)); try done.
         - intros A. destruct (si_any_h0 A) as [C D]. split; [done|]. by apply Hnd.
         - intros C A. exfalso. rewrite A in si_track0. unfold track0 in si_track0. rewrite C in si_track0. done. }
    destruct (si_detect0 eq_refl) as [LD HD].
    assert (Wd : wrZ (x_detect s) h true = Ok (<[Z.to_nat h:=true]> (x_detect s))).
    { unfold wrZ. rewrite (proj2 (Z.ltb_ge h 0)) by lia. apply wr_Ok. lia. }
    assert (HD' : length (<[Z.to_nat h:=true]> (x_detect s)) = H /\
      forall i d, <[Z.to_nat h:=true]> (x_detect s) !! i = Some d -> d = bool_decide (Z.of_nat i ∈ hs pre ++ [h])).
    { rewrite insert_length. split; [done|]. intros i d Hd. destruct (decide (i = Z.to_nat h)) as [->|Ne].
      - rewrite list_lookup_insert in Hd by lia. injection Hd as <-. symmetry. apply bool_decide_eq_true. apply elem_of_app. right.
        apply elem_of_list_singleton. lia.
      - rewrite list_lookup_insert_ne in Hd by done. rewrite (HD i d Hd). apply bool_decide_ext. rewrite elem_of_app, elem_of_list_singleton.
        split; [by left|]. intros [?|?]; [done|lia]. }
    rewrite si_check_h0. destruct checks_h eqn:CH; cbn [andb].
    2: { cbn [bind]. rewrite Wd. cbn [bind].
         assert (AH : x_any_multiple_haystack s = false) by (destruct (x_any_multiple_haystack s); [by destruct (si_any_h0 eq_refl)|done]).
         apply (GR (x_any_multiple_haystack s)); rewrite ?AH; try done. by rewrite AH in si_track0. by rewrite AH in si_warn0. }
    destruct (x_any_multiple_haystack s) eqn:AH; cbn [negb].
    { cbn [bind]. rewrite Wd. cbn [bind]. apply (GR true); try done. intros _. split; [done|]. apply Hnd. by destruct (si_any_h0 eq_refl). }
    assert (ND : NoDup (hs pre)) by (by apply si_none_h0).
    assert (Rd : rdZ (x_detect s) h = Ok (bool_decide (h ∈ hs pre))).
    { unfold rdZ. rewrite (proj2 (Z.ltb_ge h 0)) by lia. destruct (lookup_lt_is_Some_2 (x_detect s) (Z.to_nat h)) as [d Hd]; [lia|].
      apply rd_Ok. rewrite Hd. f_equal. rewrite (HD _ _ Hd). by rewrite Z2Nat.id by lia. }
    rewrite Rd. cbn [bind]. destruct (decide (h ∈ hs pre)) as [Hin|Hin].
    - rewrite (bool_decide_eq_true_2 _ Hin).
      assert (D : ~ NoDup (hs pre ++ [h])) by (rewrite NDs by done; tauto).
      assert (RH : forall e, ((rel = REL_one_to_one /\ e = "relationship one-to-one: multiple matches in the haystack"%string) \/
       (rel = REL_one_to_many /\ e = "relationship one-to-many: multiple matches in the haystack"%string)) -> reason (pre ++ [OpRow l h]) e).
      { intros e He. right. right. by rewrite EH. }
      unfold checks_h, checks_haystack in CH. destruct rel eqn:Er; try done; cbn [bind]; try (apply RH; tauto).
      assert (one = false) as -> by (unfold one; by destruct m). cbn [bind]. rewrite Wd. cbn [bind].
      apply (GR true); try done. destruct si_warn0 as [WD WE]. destruct (x_any_multiple_needles s) eqn:AN.
      + assert (Hnw : WARN_many_to_many ∉ x_warnings s) by (rewrite WE; cbn; intuition congruence). split.
        * apply NoDup_app. split; [done|]. split; [|apply NoDup_singleton]. intros x Hx ->%elem_of_list_singleton. done.
        * intros w. rewrite elem_of_app, elem_of_list_singleton, WE. destruct w; cbn; intuition congruence.
      + split; [done|]. intros w. rewrite WE. destruct w; cbn; intuition congruence.
    - rewrite (bool_decide_eq_false_2 _ Hin). cbn [bind]. rewrite Wd. cbn [bind]. apply (GR false); try done. intros _ _. by apply NDs.
  Qed.

  Theorem run_ops_ok ops : Forall op_ok ops -> Sorted (fun a b : Z * Z => (a.1 <= b.1)%Z) (checks ops) -> length (rows ops) <= n ->
    match run_ops ops init with
    | Ok s => sinv ops s /\ forall e, OpErr e ∉ ops
    | Err e => reason ops e
    | UB _ => False
    end.
  Proof.
    induction ops as [|op ops IH] using rev_ind; intros F SO Hn.
    - split; [apply init_ok|]. intros e. apply not_elem_of_nil.
    - apply Forall_app in F as [F Fo]. rewrite Forall_singleton in Fo.
      assert (SO' : Sorted (fun a b : Z * Z => (a.1 <= b.1)%Z) (checks ops)).
      { rewrite checks_app in SO. clear -SO. apply Sorted_StronglySorted in SO; [|intros x y z; lia]. apply StronglySorted_Sorted.
        induction (checks ops) as [|c cs IHc]; [constructor|]. cbn in SO. apply StronglySorted_inv in SO as [SO F]. constructor; [by apply IHc|].
        by apply Forall_app in F as [F _]. }
      pose proof (IH F SO') as X. specialize (X ltac:(rewrite rows_app, app_length in Hn; lia)).
      rewrite run_ops_app. destruct (run_ops ops init) as [s|e|w]; cbn [bind]; [|by apply reason_app|done].
      destruct X as [I NE]. cbn [run_ops].
      assert (Y : match run_op op s with Ok s' => sinv (ops ++ [op]) s' /\ (forall e, op <> OpErr e) | Err e => reason (ops ++ [op]) e | UB _ => False end).
      { destruct op as [l k|l h|l v|e].
        - assert (Fc : Forall (fun c : Z * Z => (0 <= c.1)%Z) (checks ops)).
          { unfold checks. apply Forall_concat, Forall_map. eapply Forall_impl; [exact F|]. intros [] Ho; cbn; try done. by apply Forall_singleton. }
          pose proof (step_check ops s l k I Fc) as Z0. rewrite checks_app in SO. specialize (Z0 SO Fo). destruct (run_op (OpCheck l k) s); done.
        - pose proof (step_row ops s l h I Fo Hn) as Z0. destruct (run_op (OpRow l h) s); done.
        - pose proof (step_val ops s l v I Hn) as Z0. destruct (run_op (OpVal l v) s); done.
        - cbn. left. apply elem_of_app. right. apply elem_of_list_here. }
      destruct (run_op op s) as [s'|e|w]; cbn [bind]; [|done|done]. destruct Y as [Y1 Y2]. split; [done|].
      intros e He. apply elem_of_app in He as [He|He]; [by apply (NE e)|]. apply elem_of_list_singleton in He. by apply (Y2 e).
  Qed.
End ops.
