(** * Lemmas: recording matches *)
From Verif Require Import Base M_Double M_Scalar M_Match L_OrderSpec L_MatchSearch L_MatchJoint L_MatchRec.
#[local] Arguments Z.mul : simpl never.
#[local] Arguments Z.add : simpl never.
#[local] Arguments Z.sub : simpl never.
#[local] Arguments Z.to_nat : simpl never.
#[local] Arguments Z.of_nat : simpl never.

(** ** Keeping the best of the ranges found *)
Section best.
  (** [fc] compares the filter columns of two places. *)
  Context (fc : Z -> Z -> comparison) (T : tpo fc).
  Definition hit_step (st : list (Z * Z) * Z) (h : Z * Z) : list (Z * Z) * Z :=
    match fc h.1 st.2 with Lt => st | Eq => (st.1 ++ [h], st.2) | Gt => (st.1 ++ [h], h.1) end.
  Definition run_hits (h : Z * Z) (hs : list (Z * Z)) : list (Z * Z) * Z := fold_left hit_step hs ([h], h.1).
  Definition ties (best : Z) (h : Z * Z) : bool := match fc h.1 best with Eq => true | _ => false end.

  Lemma run_hits_snoc h hs x : run_hits h (hs ++ [x]) = hit_step (run_hits h hs) x.
  Proof. unfold run_hits. by rewrite fold_left_app. Qed.

  Lemma run_hits_ok h hs : exists k ks best, run_hits h hs = (k :: ks, best) /\ k = h /\
    (exists h0, h0 ∈ h :: hs /\ best = h0.1) /\ (forall h', h' ∈ h :: hs -> fc h'.1 best <> Gt) /\
    List.filter (ties best) (k :: ks) = List.filter (ties best) (h :: hs) /\
    (exists pre lst, k :: ks = pre ++ [lst] /\ ties best lst = true) /\
    sublist (k :: ks) (h :: hs).
  Proof.
    induction hs as [|x hs IH] using rev_ind.
    - exists h, [], h.1. split; [done|]. split; [done|]. split; [exists h; split; [apply elem_of_list_here|done]|].
      split; [intros h' Hh; apply elem_of_list_singleton in Hh as ->; by rewrite (tp_refl _ T)|]. split; [done|]. split; [|done].
      exists [], h. split; [done|]. unfold ties. by rewrite (tp_refl _ T).
    - rewrite run_hits_snoc. destruct IH as (k & ks & best & E & -> & (h0 & H0 & E0) & Hmax & Hf & (pre & lst & El & Hl) & Hs).
      rewrite E. unfold hit_step. cbn [fst snd]. rewrite app_comm_cons.
      destruct (fc x.1 best) eqn:C.
      + (* a tie *)
        exists h, (ks ++ [x]), best. split; [done|]. split; [done|]. split; [exists h0; split; [apply elem_of_app; by left|done]|].
        split; [|split; [|split]].
        * intros h' Hh. apply elem_of_app in Hh as [Hh|Hh]; [by apply Hmax|]. apply elem_of_list_singleton in Hh as ->. congruence.
        * rewrite app_comm_cons, !List.filter_app, Hf. done.
        * exists (h :: ks), x. split; [done|]. unfold ties. by rewrite C.
        * rewrite app_comm_cons. by apply sublist_app.
      + exists h, ks, best. split; [done|]. split; [done|]. split; [exists h0; split; [apply elem_of_app; by left|done]|].
        split; [|split; [|split]].
        * intros h' Hh. apply elem_of_app in Hh as [Hh|Hh]; [by apply Hmax|]. apply elem_of_list_singleton in Hh as ->. congruence.
        * rewrite List.filter_app, Hf. assert (ties best x = false) as Ex by (unfold ties; by rewrite C). cbn [List.filter]. rewrite Ex. by rewrite app_nil_r.
        * by exists pre, lst.
        * by apply sublist_inserts_r.
      + exists h, (ks ++ [x]), x.1. split; [done|]. split; [done|]. split; [exists x; split; [apply elem_of_app; right; apply elem_of_list_here|done]|].
        assert (Hlt : forall h', h' ∈ h :: hs -> fc h'.1 x.1 = Lt).
        { intros h' Hh. specialize (Hmax h' Hh). pose proof (tp_gt_lt _ T _ _ C) as C'.
          destruct (fc h'.1 best) eqn:C2; [|by eapply (tp_lt _ T)|done]. by rewrite (tp_eq_l _ T _ _ _ C2). }
        assert (Hnone : forall l, (forall h', h' ∈ l -> h' ∈ h :: hs) -> List.filter (ties x.1) l = []).
        { intros l. induction l as [|y l IHl]; [done|]. intros Hy. cbn [List.filter]. unfold ties at 1.
          rewrite (Hlt y) by (apply Hy; apply elem_of_list_here). apply IHl. intros h' Hh. apply Hy. by apply elem_of_list_further. }
        split; [|split; [|split]].
        * intros h' Hh. apply elem_of_app in Hh as [Hh|Hh]; [by rewrite (Hlt h' Hh)|]. apply elem_of_list_singleton in Hh as ->. by rewrite (tp_refl _ T).
        * rewrite (app_comm_cons ks), !List.filter_app. rewrite (Hnone (h :: ks)); [by rewrite (Hnone (h :: hs))|].
          intros h' Hh. by eapply (elem_of_submseteq (h :: ks)); [|apply sublist_submseteq].
        * exists (h :: ks), x. split; [done|]. unfold ties. by rewrite (tp_refl _ T).
        * rewrite app_comm_cons. by apply sublist_app.
  Qed.
  (** The same choice with [multiple = "any"]. *)
  Lemma run_hits_any h hs : (run_hits h hs).2 = fold_left (fun b x => match fc x.1 b with Gt => x.1 | _ => b end) hs h.1.
  Proof.
    induction hs as [|x hs IH] using rev_ind; [done|]. rewrite run_hits_snoc, fold_left_app. cbn [fold_left]. rewrite <- IH.
    unfold hit_step. by destruct (fc x.1 (run_hits h hs).2).
  Qed.
End best.

(** ** Events of a needle *)
Definition ev_hit (ev : event) : list (Z * Z) := match ev with EHit _ a b => [(a, b - a + 1)%Z] | EInc _ => [] end.
Definition hits (es : list event) : list (Z * Z) := concat (map ev_hit es).
Definition is_inc (ev : event) : bool := match ev with EInc _ => true | _ => false end.
Definition has_inc (es : list event) : bool := existsb is_inc es.
Definition unmixed (es : list event) : Prop := has_inc es = true -> hits es = [].
Definition valid_event (N : nat) (H : Z) (ev : event) : Prop :=
  (0 <= ev_loc ev < Z.of_nat N)%Z /\ match ev with EHit _ a b => (0 <= a <= b)%Z /\ (b < H)%Z | EInc _ => True end.

Lemma hits_app a b : hits (a ++ b) = hits a ++ hits b.
Proof. unfold hits. by rewrite map_app, concat_app. Qed.
Lemma has_inc_app a b : has_inc (a ++ b) = has_inc a || has_inc b.
Proof. apply existsb_app. Qed.
Lemma unmixed_app a b : unmixed (a ++ b) -> unmixed a.
Proof. unfold unmixed. rewrite has_inc_app, hits_app. intros U E. rewrite E in U. by apply app_eq_nil in U as [U _]. Qed.
Lemma hits_range N H es h : Forall (valid_event N H) es -> h ∈ hits es -> (0 <= h.1 < H)%Z /\ (1 <= h.2)%Z /\ (h.1 + h.2 <= H)%Z.
Proof.
  unfold hits. intros F Hh. induction F as [|ev es V F IH]; [by apply elem_of_nil in Hh|]. cbn in Hh. apply elem_of_app in Hh as [Hh|Hh]; [|by apply IH].
  destruct ev as [l|l a b]; [by apply elem_of_nil in Hh|]. apply elem_of_list_singleton in Hh as ->. destruct V as (_ & V). cbn. lia.
Qed.
Lemma at_needle_valid N H l es : Forall (valid_event N H) es -> Forall (valid_event N H) (at_needle l es).
Proof. intros F. apply Forall_forall. intros ev Hev. unfold at_needle in Hev. apply elem_of_list_In, filter_In in Hev as [Hev _].
  apply elem_of_list_In in Hev. by eapply Forall_forall in F. Qed.

Section record.
  Context (e : menv) (N : nat) (H : Z) (fc : Z -> Z -> comparison) (T : tpo fc).
  Context (FC : any_filters (e_filters e) = true -> forall p q, (0 <= p < H)%Z -> (0 <= q < H)%Z ->
    exists a b, rdZ (e_o_haystack e) p = Ok a /\ rdZ (e_o_haystack e) q = Ok b /\
      p_matches_df_compare_na_equal (e_haystack e) (a - 1) (b - 1) (e_filters e) = Ok (cmp_code (fc p q))).
  Context (F0 : any_filters (e_filters e) = false -> forall p q, fc p q = Eq).

  (** The entries of a needle after some events. *)
  Definition entries (es : list event) : list (Z * Z) :=
    match hits es with
    | [] => [(if has_inc es then SIGNAL_INCOMPLETE else SIGNAL_NO_MATCH, 1%Z)]
    | h :: hs => (run_hits fc h hs).1
    end.
  Definition best (es : list event) : option Z := match hits es with [] => None | h :: hs => Some (run_hits fc h hs).2 end.

  Definition rinv (evs : list event) (s : mstate) : Prop :=
    exists (base : list (Z * Z)) (extra : list (Z * (Z * Z))), length base = N /\
      m_first s = map fst base ++ map (fun x => x.2.1) extra /\
      m_size s = map snd base ++ map (fun x => x.2.2) extra /\
      m_loc s = map Z.of_nat (seq 0 N) ++ map fst extra /\
      Forall (fun x : Z * (Z * Z) => 0 <= x.1 < Z.of_nat N)%Z extra /\
      forall l hd, base !! l = Some hd ->
        hd :: map snd (List.filter (fun x => x.1 =? Z.of_nat l)%Z extra) = entries (at_needle (Z.of_nat l) evs) /\
        (any_filters (e_filters e) = true -> m_filter s !! l = Some (best (at_needle (Z.of_nat l) evs))).

  Lemma entries_cons es : exists hd tl, entries es = hd :: tl.
  Proof.
    unfold entries. destruct (hits es) as [|h hs]; [by eexists _, _|]. destruct (run_hits_ok fc T h hs) as (k & ks & b & -> & _). by eexists _, _.
  Qed.
  Lemma at_needle_snoc l evs ev : at_needle l (evs ++ [ev]) = if (ev_loc ev =? l)%Z then at_needle l evs ++ [ev] else at_needle l evs.
  Proof. rewrite at_needle_app. unfold at_needle at 2. cbn [List.filter]. destruct (ev_loc ev =? l)%Z; [done|]. apply app_nil_r. Qed.

  Lemma record_all_step evs ev s : e_multiple e <> MULTIPLE_any -> rinv evs s -> Forall (valid_event N H) evs -> valid_event N H ev ->
    unmixed (at_needle (ev_loc ev) (evs ++ [ev])) ->
    exists s', apply_event e ev s = Ok s' /\ rinv (evs ++ [ev]) s'.
  Proof.
    intros Hm (base & extra & Lb & E1 & E2 & E3 & Hx & Hb) Hvs [Hl Hv] U. rewrite at_needle_snoc, Z.eqb_refl in U.
    set (l := Z.to_nat (ev_loc ev)). assert (El : ev_loc ev = Z.of_nat l) by (unfold l; lia).
    destruct (lookup_lt_is_Some_2 base l) as [hd Hhd]; [lia|]. destruct (Hb l hd Hhd) as [He Hf]. rewrite <- El in He, Hf.
    set (es := at_needle (ev_loc ev) evs) in *.
    assert (Ves : Forall (valid_event N H) es) by (by apply at_needle_valid).
    assert (Rf : rdZ (m_first s) (ev_loc ev) = Ok hd.1).
    { rewrite El, rdZ_nat. apply rd_Ok. rewrite E1, lookup_app_l by (rewrite map_length; lia). by rewrite list_lookup_fmap, Hhd. }
    assert (W1 : forall v, wrZ (m_first s) (ev_loc ev) v = Ok (map fst (<[l:=(v, hd.2)]> base) ++ map (fun x => x.2.1) extra)).
    { intros v. rewrite El, wrZ_nat, wr_Ok by (rewrite E1, app_length, map_length; lia). f_equal.
      rewrite E1, insert_app_l by (rewrite map_length; lia). f_equal. change (map fst) with (fmap (M := list) (@fst Z Z)). by rewrite list_fmap_insert. }
    assert (Hother : forall (base' : list (Z * Z)) extra' (fl' : list (option Z)), length base' = N -> (forall k, k <> l -> base' !! k = base !! k) ->
      (forall k, k <> l -> List.filter (fun x : Z * (Z * Z) => x.1 =? Z.of_nat k)%Z extra' = List.filter (fun x => x.1 =? Z.of_nat k)%Z extra) ->
      (any_filters (e_filters e) = true -> forall k, k <> l -> fl' !! k = m_filter s !! k) ->
      forall k h, k <> l -> base' !! k = Some h ->
        h :: map snd (List.filter (fun x => x.1 =? Z.of_nat k)%Z extra') = entries (at_needle (Z.of_nat k) (evs ++ [ev])) /\
        (any_filters (e_filters e) = true -> fl' !! k = Some (best (at_needle (Z.of_nat k) (evs ++ [ev]))))).
    { intros base' extra' fl' L' HB HE HF k h Nk Hh. rewrite HB in Hh by done. destruct (Hb k h Hh) as [He' Hf'].
      rewrite at_needle_snoc, (proj2 (Z.eqb_neq _ _)) by lia. rewrite HE by done. split; [done|]. intros A. rewrite HF by done. by apply Hf'. }
    destruct ev as [lo|lo a b]; cbn [ev_loc] in *.
    - (* incomplete *)
      unfold apply_event, signal_incomplete. rewrite W1. cbn [bind]. eexists. split; [done|].
      exists (<[l:=(SIGNAL_INCOMPLETE, hd.2)]> base), extra. cbn [m_first m_size m_loc m_filter].
      assert (Eh : hits es = []).
      { assert (has_inc (es ++ [EInc lo]) = true) as Hi by (rewrite has_inc_app; cbn; by rewrite orb_true_r).
        specialize (U Hi). rewrite hits_app in U. by apply app_eq_nil in U as [U _]. }
      unfold entries in He. rewrite Eh in He. injection He as -> Etl. apply map_eq_nil in Etl. cbn [snd].
      split; [by rewrite insert_length|]. split; [done|]. split; [|split; [done|split; [done|]]].
      { rewrite E2. f_equal. change (map snd) with (fmap (M := list) (@snd Z Z)). rewrite list_fmap_insert. cbn [snd].
        symmetry. apply list_insert_id. rewrite list_lookup_fmap, Hhd. done. }
      intros k h Hk. destruct (decide (k = l)) as [->|Nk].
      + rewrite list_lookup_insert in Hk by lia. injection Hk as <-. rewrite at_needle_snoc. cbn [ev_loc]. rewrite (proj2 (Z.eqb_eq _ _)) by lia.
        rewrite <- El. fold es. split.
        * unfold entries. rewrite hits_app, Eh. cbn [hits map concat ev_hit app]. rewrite has_inc_app. cbn. rewrite orb_true_r.
          rewrite El. rewrite El in Etl. by rewrite Etl.
        * intros A. rewrite (Hf A). unfold best. rewrite hits_app, Eh. done.
      + eapply (Hother (<[l:=(SIGNAL_INCOMPLETE, 1%Z)]> base) extra (m_filter s)); try done; [by rewrite insert_length|]. intros j Hj. by rewrite list_lookup_insert_ne by done.
    - (* a range *)
      destruct Hv as [Hab HbH]. unfold apply_event, record_match. rewrite Rf. cbn [bind].
      assert (Ni : has_inc es = false).
      { destruct (has_inc es) eqn:Hi; [|done]. exfalso.
        assert (has_inc (es ++ [EHit lo a b]) = true) as Hi' by (rewrite has_inc_app, Hi; done).
        specialize (U Hi'). rewrite hits_app in U. by apply app_eq_nil in U as [_ U]. }
      assert (W2 : forall v, wrZ (m_size s) lo v = Ok (map snd (<[l:=(hd.1, v)]> base) ++ map (fun x => x.2.2) extra)).
      { intros v. rewrite El, wrZ_nat, wr_Ok by (rewrite E2, app_length, map_length; lia). f_equal.
        rewrite E2, insert_app_l by (rewrite map_length; lia). f_equal. change (map snd) with (fmap (M := list) (@snd Z Z)). by rewrite list_fmap_insert. }
      assert (W3 : forall v, any_filters (e_filters e) = true -> wrZ (m_filter s) lo v = Ok (<[l:=v]> (m_filter s))).
      { intros v A. rewrite El, wrZ_nat. apply wr_Ok. specialize (Hf A). by eapply lookup_lt_Some. }
      assert (Hes : forall k, (ev_loc (EHit lo a b) =? Z.of_nat k)%Z = true -> k = l) by (intros k Hk; cbn in Hk; lia).
      destruct (hits es) as [|h hs] eqn:Eh.
      + (* the first *)
        assert (Ehd : hd = (NA_INTEGER, 1%Z) /\ map snd (List.filter (fun x => x.1 =? lo)%Z extra) = []).
        { unfold entries in He. rewrite Eh, Ni in He. injection He as He1 He2. done. }
        destruct Ehd as [-> Etl]. cbn [fst snd]. rewrite Z.eqb_refl.
        assert (exists fl, (if any_filters (e_filters e) then wrZ (m_filter s) lo (Some a) else Ok (m_filter s)) = Ok fl /\
          (any_filters (e_filters e) = true -> fl = <[l:=Some a]> (m_filter s))) as (fl & Efl & Hfl).
        { destruct (any_filters (e_filters e)); [rewrite W3 by done; by eexists|by eexists]. }
        assert (Hgoal : rinv (evs ++ [EHit lo a b]) (MS (map fst (<[l:=(a, (b - a + 1)%Z)]> base) ++ map (fun x => x.2.1) extra)
          (map snd (<[l:=(a, (b - a + 1)%Z)]> base) ++ map (fun x => x.2.2) extra) (m_loc s) fl)).
        { exists (<[l:=(a, (b - a + 1)%Z)]> base), extra. cbn [m_first m_size m_loc m_filter]. split; [by rewrite insert_length|].
          split; [done|]. split; [done|]. split; [done|]. split; [done|]. intros k h Hk. destruct (decide (k = l)) as [->|Nk].
          - rewrite list_lookup_insert in Hk by lia. injection Hk as <-. rewrite at_needle_snoc. cbn [ev_loc]. rewrite (proj2 (Z.eqb_eq _ _)) by lia.
            rewrite <- El. fold es. split.
            + unfold entries. rewrite hits_app, Eh. cbn. by rewrite Etl.
            + intros A. rewrite (Hfl A). rewrite list_lookup_insert by (specialize (Hf A); by eapply lookup_lt_Some).
              unfold best. rewrite hits_app, Eh. done.
          - eapply (Hother (<[l:=(a, (b - a + 1)%Z)]> base) extra fl); try done; [by rewrite insert_length| |].
            + intros j Hj. by rewrite list_lookup_insert_ne by done.
            + intros A j Hj. rewrite (Hfl A). by rewrite list_lookup_insert_ne by done. }
        destruct (e_multiple e) eqn:Em; try done.
        all: rewrite W1; cbn [bind snd]; rewrite W2; cbn [bind fst]; rewrite Efl; cbn [bind]; eexists; (split; [done|]).
        all: replace (map fst (<[l:=(a, 1%Z)]> base)) with (map fst (<[l:=(a, (b - a + 1)%Z)]> base));
          [|change (map fst) with (fmap (M := list) (@fst Z Z)); by rewrite !list_fmap_insert].
        all: replace (map snd (<[l:=(NA_INTEGER, (b - a + 1)%Z)]> base)) with (map snd (<[l:=(a, (b - a + 1)%Z)]> base));
          [|change (map snd) with (fmap (M := list) (@snd Z Z)); by rewrite !list_fmap_insert].
        all: exact Hgoal.
      + (* a further one *)
        assert (Nt : (hd.1 =? NA_INTEGER)%Z = false /\ hd = h).
        { unfold entries in He. rewrite Eh in He. destruct (run_hits_ok fc T h hs) as (k & ks & bst & Er & -> & _). rewrite Er in He.
          cbn [fst] in He. injection He as -> _. split; [|done]. apply Z.eqb_neq.
          pose proof (hits_range N H es h Ves ltac:(rewrite Eh; apply elem_of_list_here)). unfold NA_INTEGER, INT_MIN. lia. }
        destruct Nt as [Nt ->]. rewrite Nt.
        set (bst := (run_hits fc h hs).2).
        assert (Rb : (0 <= bst < H)%Z).
        { unfold bst. destruct (run_hits_ok fc T h hs) as (k & ks & bb & Er & _ & (h0 & H0 & ->) & _). rewrite Er. cbn [snd].
          apply (hits_range N H es h0 Ves). by rewrite Eh. }
        assert (Hkeep : forall fl, (any_filters (e_filters e) = true -> fl = match fc a bst with Gt => <[l:=Some a]> (m_filter s) | _ => m_filter s end) ->
          fc a bst <> Lt -> rinv (evs ++ [EHit lo a b])
            (MS (m_first s ++ [a]) (m_size s ++ [(b - a + 1)%Z]) (m_loc s ++ [lo]) fl)).
        { intros fl Hfl Nlt. exists base, (extra ++ [(lo, (a, (b - a + 1)%Z))]). cbn [m_first m_size m_loc m_filter].
          rewrite !map_app, E1, E2, E3, !app_assoc. split; [done|]. split; [done|]. split; [done|]. split; [done|].
          split; [apply Forall_app; split; [done|]; by apply Forall_singleton|].
          intros k hk Hk. destruct (decide (k = l)) as [->|Nk].
          - rewrite Hhd in Hk. injection Hk as <-. rewrite at_needle_snoc. cbn [ev_loc]. rewrite (proj2 (Z.eqb_eq _ _)) by lia.
            rewrite <- El. fold es. split.
            + rewrite List.filter_app. cbn [List.filter fst]. rewrite Z.eqb_refl, map_app. cbn [map snd]. rewrite app_comm_cons, He.
              unfold entries. rewrite hits_app, Eh. cbn [hits map concat ev_hit app]. rewrite run_hits_snoc. unfold hit_step. cbn [fst]. fold bst.
              by destruct (fc a bst).
            + intros A. rewrite (Hfl A). unfold best. rewrite hits_app, Eh. cbn [hits map concat ev_hit app]. rewrite run_hits_snoc. unfold hit_step. cbn [fst]. fold bst.
              specialize (Hf A). unfold best in Hf. rewrite Eh in Hf. fold bst in Hf.
              destruct (fc a bst); [done|done|]. by rewrite list_lookup_insert by (by eapply lookup_lt_Some).
          - apply (Hother base _ fl); try done.
            + intros j Hj. rewrite List.filter_app. cbn [List.filter fst]. rewrite (proj2 (Z.eqb_neq _ _)) by lia. apply app_nil_r.
            + intros A j Hj. rewrite (Hfl A). destruct (fc a bst); [done|done|]. by rewrite list_lookup_insert_ne by done. }
        assert (Hdrop : fc a bst = Lt -> rinv (evs ++ [EHit lo a b]) s).
        { intros C. exists base, extra. split; [done|]. split; [done|]. split; [done|]. split; [done|]. split; [done|].
          intros k hk Hk. destruct (decide (k = l)) as [->|Nk].
          - rewrite Hhd in Hk. injection Hk as <-. rewrite at_needle_snoc. cbn [ev_loc]. rewrite (proj2 (Z.eqb_eq _ _)) by lia.
            rewrite <- El. fold es. split.
            + rewrite He. unfold entries. rewrite hits_app, Eh. cbn [hits map concat ev_hit app]. rewrite run_hits_snoc. unfold hit_step. cbn [fst]. fold bst. by rewrite C.
            + intros A. rewrite (Hf A). unfold best. rewrite hits_app, Eh. cbn [hits map concat ev_hit app]. rewrite run_hits_snoc. unfold hit_step. cbn [fst]. fold bst. by rewrite C.
          - by apply (Hother base extra (m_filter s)). }
        assert (exists s', (let! r :=
          if any_filters (e_filters e) then
            let! old := rdZ (m_filter s) lo in
            match old with
            | None => UB "read of uninitialised memory"
            | Some old =>
                let! loc_filter := rdZ (e_o_haystack e) old in
                let! loc_lower := rdZ (e_o_haystack e) a in
                let! cmp := p_matches_df_compare_na_equal (e_haystack e) (loc_lower - 1) (loc_filter - 1) (e_filters e) in
                if (cmp =? -1)%Z then Ok None
                else if (cmp =? 1)%Z then let! fl := wrZ (m_filter s) lo (Some a) in Ok (Some fl)
                else Ok (Some (m_filter s))
            end
          else Ok (Some (m_filter s)) in
          match r with
          | None => Ok s
          | Some fl => Ok (MS (m_first s ++ [a]) (m_size s ++ [(b - a + 1)%Z]) (m_loc s ++ [lo]) fl)
          end) = Ok s' /\ rinv (evs ++ [EHit lo a b]) s') as (s' & Es & Hs').
        { destruct (any_filters (e_filters e)) eqn:A.
          - assert (Ro : rdZ (m_filter s) lo = Ok (Some bst)).
            { rewrite El, rdZ_nat. apply rd_Ok. rewrite Hf by done. unfold best. by rewrite Eh. }
            rewrite Ro. cbn [bind]. destruct (FC eq_refl a bst ltac:(lia) Rb) as (la & lb & Ra & Rb' & Ec). rewrite Rb'. cbn [bind].
            rewrite Ra. cbn [bind]. rewrite Ec. cbn [bind]. destruct (fc a bst) eqn:C; cbn.
            + eexists. split; [done|]. apply Hkeep; done.
            + eexists. split; [done|]. by apply Hdrop.
            + rewrite W3 by done. cbn [bind]. eexists. split; [done|]. apply Hkeep; done.
          - cbn [bind]. eexists. split; [done|]. apply Hkeep; [done|]. by rewrite F0. }
        destruct (e_multiple e); try done; exists s'; (split; [exact Es|done]).
  Qed.

  Lemma record_all evs s0 : e_multiple e <> MULTIPLE_any -> Forall (valid_event N H) evs ->
    (forall l, unmixed (at_needle l evs)) ->
    m_first s0 = replicate N SIGNAL_NO_MATCH -> m_size s0 = replicate N 1%Z -> m_loc s0 = map Z.of_nat (seq 0 N) ->
    (any_filters (e_filters e) = true -> m_filter s0 = replicate N None) ->
    exists s, apply_events e evs s0 = Ok s /\ rinv evs s.
  Proof.
    intros Hm Hv U I1 I2 I3 I4. induction evs as [|ev evs IH] using rev_ind.
    - exists s0. split; [done|]. exists (replicate N (SIGNAL_NO_MATCH, 1%Z)), []. split; [apply replicate_length|].
      cbn [map]. rewrite !app_nil_r. split; [|split; [|split; [done|split; [done|]]]].
      + rewrite I1. change (map fst) with (fmap (M := list) (@fst Z Z)). by rewrite fmap_replicate.
      + rewrite I2. change (map snd) with (fmap (M := list) (@snd Z Z)). by rewrite fmap_replicate.
      + intros l hd Hl. apply lookup_replicate in Hl as [-> Hl]. split; [done|]. intros A. rewrite (I4 A). by apply lookup_replicate.
    - apply Forall_app in Hv as [Hv Hev]. rewrite Forall_singleton in Hev.
      destruct IH as (s & Es & Is); [done| |].
      { intros l. specialize (U l). rewrite at_needle_app in U. by eapply unmixed_app. }
      destruct (record_all_step evs ev s Hm Is Hv Hev (U _)) as (s' & Es' & Is'). exists s'. split; [|done].
      rewrite apply_events_app, Es. cbn. by rewrite Es'.
  Qed.

  (** With [multiple = "any"] only the best place is kept. *)
  Definition any_first (es : list event) : Z :=
    match best es with Some b => b | None => if has_inc es then SIGNAL_INCOMPLETE else SIGNAL_NO_MATCH end.
  Definition ainv (evs : list event) (s : mstate) : Prop :=
    length (m_first s) = N /\ forall l v, m_first s !! l = Some v -> v = any_first (at_needle (Z.of_nat l) evs).

  Lemma best_range es b : Forall (valid_event N H) es -> best es = Some b -> (0 <= b < H)%Z.
  Proof.
    intros V. unfold best. destruct (hits es) as [|h hs] eqn:Eh; [done|]. intros [= <-].
    destruct (run_hits_ok fc T h hs) as (k & ks & bb & Er & _ & (h0 & H0 & ->) & _). rewrite Er. cbn [snd].
    apply (hits_range N H es h0 V). by rewrite Eh.
  Qed.

  Lemma record_any_step evs ev s : e_multiple e = MULTIPLE_any -> ainv evs s -> Forall (valid_event N H) evs -> valid_event N H ev ->
    unmixed (at_needle (ev_loc ev) (evs ++ [ev])) -> exists s', apply_event e ev s = Ok s' /\ ainv (evs ++ [ev]) s'.
  Proof.
    intros Hm (L & Hb) Hvs [Hl Hv] U. rewrite at_needle_snoc, Z.eqb_refl in U.
    set (l := Z.to_nat (ev_loc ev)). assert (El : ev_loc ev = Z.of_nat l) by (unfold l; lia).
    destruct (lookup_lt_is_Some_2 (m_first s) l) as [v Hlv]; [lia|]. pose proof (Hb l v Hlv) as Ev. rewrite <- El in Ev.
    set (es := at_needle (ev_loc ev) evs) in *.
    assert (Ves : Forall (valid_event N H) es) by (by apply at_needle_valid).
    assert (Hset : forall w s', m_first s' = <[l:=w]> (m_first s) -> w = any_first (es ++ [ev]) -> ainv (evs ++ [ev]) s').
    { intros w s' E1 E2. unfold ainv. rewrite E1, insert_length. split; [done|]. intros k x Hk. rewrite at_needle_snoc.
      destruct (decide (k = l)) as [->|Nk].
      - rewrite list_lookup_insert in Hk by lia. injection Hk as <-. rewrite (proj2 (Z.eqb_eq _ _)) by lia. rewrite <- El. done.
      - rewrite list_lookup_insert_ne in Hk by done. rewrite (proj2 (Z.eqb_neq _ _)) by lia. by apply Hb. }
    assert (Hid : v = any_first (es ++ [ev]) -> ainv (evs ++ [ev]) s).
    { intros E. apply (Hset v); [|done]. by rewrite list_insert_id. }
    assert (W : forall w, wrZ (m_first s) (ev_loc ev) w = Ok (<[l:=w]> (m_first s))).
    { intros w. rewrite El, wrZ_nat. apply wr_Ok. lia. }
    destruct ev as [lo|lo a b]; cbn [ev_loc] in *.
    - unfold apply_event, signal_incomplete. rewrite W. cbn [bind]. eexists. split; [done|]. apply (Hset SIGNAL_INCOMPLETE); [done|].
      assert (Eh : hits es = []).
      { assert (has_inc (es ++ [EInc lo]) = true) as Hi by (rewrite has_inc_app; cbn; by rewrite orb_true_r).
        specialize (U Hi). rewrite hits_app in U. by apply app_eq_nil in U as [U _]. }
      unfold any_first, best. rewrite hits_app, Eh, has_inc_app. cbn. by rewrite orb_true_r.
    - destruct Hv as [Hab HbH]. unfold apply_event, record_match. rewrite Hm.
      assert (Rf : rdZ (m_first s) lo = Ok v) by (rewrite El, rdZ_nat; by apply rd_Ok). rewrite Rf. cbn [bind].
      assert (Ni : has_inc es = false).
      { destruct (has_inc es) eqn:Hi; [|done]. exfalso.
        assert (has_inc (es ++ [EHit lo a b]) = true) as Hi' by (rewrite has_inc_app, Hi; done).
        specialize (U Hi'). rewrite hits_app in U. by apply app_eq_nil in U as [_ U]. }
      destruct (hits es) as [|h hs] eqn:Eh.
      + assert (v = NA_INTEGER) as -> by (rewrite Ev; unfold any_first, best; by rewrite Eh, Ni). rewrite Z.eqb_refl, W. cbn [bind].
        eexists. split; [done|]. apply (Hset a); [done|]. unfold any_first, best. rewrite hits_app, Eh. done.
      + set (bst := (run_hits fc h hs).2).
        assert (v = bst) as -> by (rewrite Ev; unfold any_first, best; by rewrite Eh).
        assert (Rb : (0 <= bst < H)%Z) by (apply (best_range es); [done|]; unfold best; by rewrite Eh).
        rewrite (proj2 (Z.eqb_neq _ _)) by (unfold NA_INTEGER, INT_MIN; lia).
        assert (Ea : any_first (es ++ [EHit lo a b]) = match fc a bst with Gt => a | _ => bst end).
        { unfold any_first, best. rewrite hits_app, Eh. cbn [hits map concat ev_hit app]. rewrite run_hits_snoc. unfold hit_step. cbn [fst]. fold bst.
          by destruct (fc a bst). }
        destruct (any_filters (e_filters e)) eqn:A.
        * destruct (FC eq_refl a bst ltac:(lia) Rb) as (la & lb & Ra & Rb' & Ec). rewrite Rb'. cbn [bind].
          rewrite Ra. cbn [bind]. rewrite Ec. cbn [bind]. destruct (fc a bst) eqn:C; cbn.
          -- eexists. split; [done|]. by apply Hid.
          -- eexists. split; [done|]. by apply Hid.
          -- rewrite W. cbn [bind]. eexists. split; [done|]. by apply (Hset a).
        * eexists. split; [done|]. apply Hid. rewrite Ea, F0; done.
  Qed.
  Lemma record_any evs s0 : e_multiple e = MULTIPLE_any -> Forall (valid_event N H) evs ->
    (forall l, unmixed (at_needle l evs)) -> m_first s0 = replicate N SIGNAL_NO_MATCH ->
    exists s, apply_events e evs s0 = Ok s /\ ainv evs s.
  Proof.
    intros Hm Hv U I1. induction evs as [|ev evs IH] using rev_ind.
    - exists s0. split; [done|]. split; [rewrite I1; apply replicate_length|]. intros l v Hl. rewrite I1 in Hl. by apply lookup_replicate in Hl as [-> _].
    - apply Forall_app in Hv as [Hv Hev]. rewrite Forall_singleton in Hev.
      destruct IH as (s & Es & Is); [done| |].
      { intros l. specialize (U l). rewrite at_needle_app in U. by eapply unmixed_app. }
      destruct (record_any_step evs ev s Hm Is Hv Hev (U _)) as (s' & Es' & Is'). exists s'. split; [|done].
      rewrite apply_events_app, Es. cbn. by rewrite Es'.
  Qed.
End record.
