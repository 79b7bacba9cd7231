(** * C62: casts between dates and date-times keep the times *)
From Verif Require Import Base M_Double M_Scalar M_Cast M_Ptype M_DateTime Spec_Value Spec_DateTime L_Dbl L_Cast L_Scalar L_DateTime.

(** Dates and date-times of integers become doubles of the same numbers. *)
Theorem C62_validate x : ints_wf (ct_data x) ->
  match datetime_validate x with
  | Ok y => (exists v, ct_data y = TDbl v /\ same_times (ct_data x) v) /\
      (ct_tzone y = ct_tzone x /\ ct_tzone x <> None \/ ct_tzone y = Some [Some []] /\ ct_tzone x = None)
  | Err _ => ct_data x = TOther
  | UB _ => False
  end.
Proof.
  intros H. destruct (validate_ok _ H) as [(v & -> & Hs & _)|[[e ->] Hd]]; [|done]. cbn. split; [by exists v|].
  destruct (ct_tzone x); [by left|by right].
Qed.
Theorem C62_date_validate x : ints_wf x ->
  match date_validate x with Ok v => same_times x v | Err _ => x = TOther | UB _ => False end.
Proof. intros H. destruct x as [w|w|]; [|done..]. cbn in *. by apply coerce_times. Qed.

(** A cast of date-times changes the zone and no time.  Full statement: the
    zone is that of the target; it is false for a missing zone
    (C62_cast_refuted). *)
Theorem C62_cast_partial x to : ints_wf (ct_data x) ->
  match posixct_as_posixct x to with
  | Ok y => (exists v, ct_data y = TDbl v /\ same_times (ct_data x) v) /\
      exists z z', zone_of (ct_tzone y) z /\ zone_of to z' /\ spelled z = spelled z' /\
        (forall b b', z = Some b -> z' = Some b' -> z = z')
  | Err _ => ct_data x = TOther \/ ct_tzone x = Some [] \/ to = Some []
  | UB _ => False
  end.
Proof.
  intros H. unfold posixct_as_posixct, posixct_as_posixct_impl.
  destruct (tzone_get_cases to) as [(z' & -> & Hz')|[[e ->] He]]; cbn [bind]; [|by right; right].
  destruct (validate_ok _ H) as [(v & -> & Hs & _)|[[e ->] Hd]]; cbn [bind]; [|by left].
  unfold datetime_rezone. cbn [ct_tzone ct_data].
  destruct (tzone_get_cases (validate_tzone (ct_tzone x))) as [(z & -> & Hz)|[[e ->] He]]; cbn [bind].
  2: { right. left. destruct (ct_tzone x); done. }
  destruct (tzone_equal z z') eqn:E; cbn; (split; [by exists v|]).
  - apply tzone_equal_spec in E. exists z, z'. split; [done|]. split; [done|]. split; [done|]. intros b b' -> ->. by f_equal.
  - exists z', z'. split; [right; by eexists|]. done.
Qed.
(** With the zone "NA" the cast to a missing zone does nothing. *)
Theorem C62_cast_refuted : exists x to y z z', posixct_as_posixct x to = Ok y /\
  zone_of (ct_tzone y) z /\ zone_of to z' /\ z <> z'.
Proof.
  exists (CT (TDbl [0%Z]) (Some [Some [78; 65]%Z])), (Some [None]), (CT (TDbl [0%Z]) (Some [Some [78; 65]%Z])), (Some [78; 65]%Z), None.
  split; [done|]. split; [right; by eexists|]. split; [right; by eexists|done].
Qed.
(** The attribute itself may differ from that of the target: the abbreviations
    that follow the name of the zone stay. *)
Theorem C62_cast_attr_refuted : exists x to y, posixct_as_posixct x (Some [to]) = Ok y /\ ct_tzone y <> Some [to].
Proof.
  exists (CT (TDbl [0%Z]) (Some [Some [85]; Some [86]]%Z)), (Some [85%Z]), (CT (TDbl [0%Z]) (Some [Some [85]; Some [86]]%Z)). done.
Qed.

Section base.
  Context {lt : Type} (lt_tzone : lt -> option (list rstr)).
  Context (as_date : lt -> list dbl) (as_posixct : lt -> rstr -> posixct) (as_posixlt : posixct -> rstr -> lt).
  Context (chr_posixct : list dbl -> rstr -> posixct).

  (** A cast to dates gives the dates of base R if each time is the start of
      its date, and is lossy otherwise.  Missing times are left out. *)
  Definition exact_dates (v back : list dbl) : Prop :=
    Forall2 (fun a b => missing_time a \/ same_time a b) v back.

  Lemma posixt_ok ct l z : ints_wf (ct_data ct) -> ct_data ct <> TOther -> zone_of (ct_tzone ct) z ->
    forall back bz, chr_posixct (as_date l) z = CT (TDbl back) bz -> Forall dbl_wf back ->
    length back = length (as_date l) ->
    exists v, same_times (ct_data ct) v /\
    (length v = length (as_date l) ->
    exists r, posixt_as_date as_date chr_posixct ct l = Ok r /\
      ((r = Some (as_date l) /\ exact_dates v back) \/ (r = None /\ ~ exact_dates v back))).
  Proof.
    intros H Hd Hz back bz Hback Hbw Hbl. unfold posixt_as_date.
    destruct (validate_ok _ H) as [(v & -> & Hs & Hw)|[[e ->] ?]]; [|done]. cbn [bind ct_real ct_data ct_tzone].
    exists v. split; [done|]. intros Hvl. unfold date_as_posixct.
    assert (Hz' : zone_of (validate_tzone (ct_tzone ct)) z) by by apply zone_validate.
    apply tzone_get_ok in Hz'. rewrite Hz'. cbn [bind]. rewrite Hback. cbn [bind ct_real ct_data].
    assert (HL : forall n k, k + n = length (as_date l) ->
      exists b, for_brk k n (fun i _ =>
        let! ct_elt := rd v i in
        if isnan ct_elt then Ok (Next false)
        else
          let! roundtrip_elt := rd back i in
          if negb (c_deq ct_elt roundtrip_elt) then Ok (Break true) else Ok (Next false)) false = Ok b /\
        (b = false <-> exact_dates (drop k v) (drop k back))).
    { induction n as [|n IH]; intros k Hk.
      { exists false. split; [done|]. split; [|done]. intros _. rewrite !drop_ge by lia. constructor. }
      destruct (lookup_lt_is_Some_2 v k) as [a Ea]; [lia|]. destruct (lookup_lt_is_Some_2 back k) as [b Eb]; [lia|].
      assert (Ha : dbl_wf a) by (rewrite Forall_lookup in Hw; by eapply Hw).
      assert (Hb : dbl_wf b) by (rewrite Forall_lookup in Hbw; by eapply Hbw).
      cbn [for_brk]. rewrite (proj2 (rd_Ok _ _ _) Ea). cbn [bind].
      destruct (IH (S k)) as (r & E & Hr); [lia|].
      rewrite (drop_S _ _ _ Ea), (drop_S _ _ _ Eb).
      assert (Hc : exact_dates (a :: drop (S k) v) (b :: drop (S k) back) <->
        (missing_time a \/ same_time a b) /\ exact_dates (drop (S k) v) (drop (S k) back)).
      { unfold exact_dates. split; [by inversion 1|]. intros [? ?]. by constructor. }
      setoid_rewrite Hc. pose proof (isnan_sem a Ha) as Hn. destruct (isnan a) eqn:En.
      - exists r. split; [exact E|]. rewrite Hr. split; [|tauto]. intros HH. split; [|done]. left. unfold missing_time.
        destruct (dbl_sem a); [by left|by right|done].
      - rewrite (proj2 (rd_Ok _ _ _) Eb). cbn [bind]. destruct (c_deq a b) eqn:Ed; cbn [negb bind].
        + exists r. split; [exact E|]. rewrite Hr. apply deq_same in Ed; [|done..]. tauto.
        + exists true. split; [done|]. split; [done|]. intros [[Hm|Hm] _].
          * unfold missing_time in Hm. destruct Hm as [Hm|Hm]; by rewrite Hm in Hn.
          * apply deq_same in Hm; [|done..]. congruence. }
    destruct (HL (length (as_date l)) 0) as (b & E & Hb); [done|]. rewrite !drop_0 in Hb.
    destruct b.
    - exists None. split; [by rewrite E|]. right. split; [done|]. intros HH. apply Hb in HH. done.
    - exists (Some (as_date l)). split; [by rewrite E|]. left. split; [done|]. by apply Hb.
  Qed.

  Theorem C62_as_date x z : ints_wf (ct_data x) -> ct_data x <> TOther -> zone_of (ct_tzone x) z ->
    exists v, same_times (ct_data x) v /\
    forall l back bz, l = as_posixlt (CT (TDbl v) (validate_tzone (ct_tzone x))) z ->
      chr_posixct (as_date l) z = CT (TDbl back) bz -> Forall dbl_wf back ->
      length back = length (as_date l) -> length v = length (as_date l) ->
      exists r, posixct_as_date as_date as_posixlt chr_posixct x = Ok r /\
        ((r = Some (as_date l) /\ exact_dates v back) \/ (r = None /\ ~ exact_dates v back)).
  Proof.
    intros H Hd Hz. unfold posixct_as_date.
    destruct (validate_ok _ H) as [(v & -> & Hs & Hw)|[[e ->] ?]]; [|done]. cbn [bind ct_tzone].
    exists v. split; [done|]. intros l back bz Hl Hback Hbw Hbl Hvl.
    assert (Hz' : zone_of (validate_tzone (ct_tzone x)) z) by by apply zone_validate.
    rewrite (proj2 (tzone_get_ok _ _) Hz'). cbn [bind]. unfold posixct_as_posixlt_impl. rewrite <- Hl.
    destruct (posixt_ok (CT (TDbl v) (validate_tzone (ct_tzone x))) l z Hw ltac:(done) Hz' back bz Hback Hbw Hbl) as (v' & Hv' & HR).
    cbn in Hv'. subst v'. by apply HR.
  Qed.

  (** A cast of broken-down times to the same zone changes nothing; to another
      zone it gives the same times, if base R's conversions do. *)
  Theorem C62_lt x to z z' : zone_of (lt_tzone x) z -> zone_of to z' ->
    (forall y q, zone_of (ct_tzone (as_posixct y q)) q /\ exists v, ct_data (as_posixct y q) = TDbl v) ->
    (forall v tz q, let l := as_posixlt (CT (TDbl v) tz) q in zone_of (lt_tzone l) q /\ ct_data (as_posixct l q) = TDbl v) ->
    exists y, posixlt_as_posixlt lt_tzone as_posixct as_posixlt x to = Ok y /\
      (spelled z = spelled z' -> y = x) /\
      (spelled z <> spelled z' -> zone_of (lt_tzone y) z' /\
         ct_data (as_posixct y z') = ct_data (as_posixct x z)).
  Proof.
    intros Hz Hz' Hct Hlt. unfold posixlt_as_posixlt.
    rewrite (proj2 (tzone_get_ok _ _) Hz), (proj2 (tzone_get_ok _ _) Hz'). cbn [bind].
    destruct (tzone_equal z z') eqn:E.
    { apply tzone_equal_spec in E. exists x. done. }
    assert (Hne : spelled z <> spelled z') by (rewrite <- tzone_equal_spec, E; done).
    unfold posixlt_as_posixct_impl. rewrite (proj2 (tzone_get_ok _ _) Hz). cbn [bind].
    destruct (Hct x z) as (Hcz & v & Hv). unfold posixct_as_posixct_impl, datetime_validate. rewrite Hv. cbn [datetime_validate_type bind].
    assert (Hcz' : zone_of (validate_tzone (ct_tzone (as_posixct x z))) z) by by apply zone_validate.
    unfold datetime_rezone at 1. cbn [ct_tzone ct_data]. rewrite (proj2 (tzone_get_ok _ _) Hcz'). cbn [bind].
    rewrite (proj2 (tzone_equal_spec z z) eq_refl). cbn [bind ct_data datetime_validate_type ct_tzone].
    assert (Hcz2 : zone_of (validate_tzone (validate_tzone (ct_tzone (as_posixct x z)))) z) by by apply zone_validate.
    unfold datetime_rezone. cbn [ct_tzone ct_data]. rewrite (proj2 (tzone_get_ok _ _) Hcz2). cbn [bind]. rewrite E. cbn [bind].
    eexists. split; [reflexivity|]. split; [done|]. intros _. unfold posixct_as_posixlt_impl.
    destruct (Hlt v (Some [z']) z') as [H1 H2]. split; [done|]. exact H2.
  Qed.

  (** The same for casts of broken-down times to date-times *)
  Theorem C62_lt_ct x to z z' v : zone_of (lt_tzone x) z -> zone_of to z' ->
    zone_of (ct_tzone (as_posixct x z)) z -> ct_data (as_posixct x z) = TDbl v ->
    exists y q, posixlt_as_posixct lt_tzone as_posixct x to = Ok y /\ ct_data y = TDbl v /\
      zone_of (ct_tzone y) q /\ spelled q = spelled z'.
  Proof.
    intros Hz Hz' Hc Hv. unfold posixlt_as_posixct, posixlt_as_posixct_impl.
    rewrite (proj2 (tzone_get_ok _ _) Hz), (proj2 (tzone_get_ok _ _) Hz'). cbn [bind].
    pose proof (C62_cast_partial (CT (TDbl v) (ct_tzone (as_posixct x z))) (Some [z'])) as HC.
    unfold posixct_as_posixct_impl, datetime_validate. rewrite Hv. cbn [datetime_validate_type bind].
    assert (Hcz' : zone_of (validate_tzone (ct_tzone (as_posixct x z))) z) by by apply zone_validate.
    unfold datetime_rezone. cbn [ct_tzone ct_data]. rewrite (proj2 (tzone_get_ok _ _) Hcz'). cbn [bind].
    destruct (tzone_equal z z') eqn:E.
    - exists (CT (TDbl v) (validate_tzone (ct_tzone (as_posixct x z)))), z. split; [done|]. split; [done|]. split; [done|].
      by apply tzone_equal_spec.
    - exists (CT (TDbl v) (Some [z'])), z'. split; [done|]. split; [done|]. split; [right; by eexists|done].
  Qed.
End base.

(** ** Examples.  Times are days, dates are days, and the zone does nothing. *)
Example C62_example_validate :
  datetime_validate (CT (TInt [1; NA_INTEGER]%Z) None) = Ok (CT (TDbl [4607182418800017408%Z; NA_REAL]) (Some [Some []])) /\
  ints_wf (TInt [1; NA_INTEGER]%Z).
Proof. split; [vm_compute; reflexivity|]. cbn. repeat constructor; unfold NA_INTEGER, INT_MAX, INT_MIN; lia. Qed.
Example C62_example_cast :
  posixct_as_posixct (CT (TInt [0%Z]) None) (Some [Some [85%Z]; Some [86%Z]]) = Ok (CT (TDbl [pos_zero]) (Some [Some [85%Z]])) /\
  posixct_as_posixct (CT (TInt [0%Z]) (Some [])) None = Err "Corrupt datetime with 0-length `tzone` attribute".
Proof. split; reflexivity. Qed.
Definition ex_ct_data (c : posixct) : list dbl := match ct_data c with TDbl v => v | _ => [] end.
Example C62_example_date :
  posixct_as_date (fun l => l) (fun c _ => ex_ct_data c) (fun d z => CT (TDbl d) (Some [z]))
    (CT (TInt [1; NA_INTEGER]%Z) None) = Ok (Some [4607182418800017408%Z; NA_REAL]) /\
  posixct_as_date (fun l => l) (fun c _ => ex_ct_data c) (fun d z => CT (TDbl (map (fun _ => pos_zero) d)) (Some [z]))
    (CT (TInt [1; NA_INTEGER]%Z) None) = Ok None /\
  exact_dates [4607182418800017408%Z; NA_REAL] [4607182418800017408%Z; NA_REAL].
Proof.
  split; [vm_compute; reflexivity|]. split; [vm_compute; reflexivity|].
  constructor; [right; eexists; split; reflexivity|]. constructor; [left; left; reflexivity|constructor].
Qed.
(** The hypotheses of C62_lt hold of times with a zone beside them. *)
Example C62_example_lt : exists (x : list dbl * rstr),
  let tz (l : list dbl * rstr) := Some [l.2] in
  let to_ct (l : list dbl * rstr) (q : rstr) := CT (TDbl l.1) (Some [q]) in
  let to_lt (c : posixct) (q : rstr) := (ex_ct_data c, q) in
  zone_of (tz x) (Some [85%Z]) /\
  (forall y q, zone_of (ct_tzone (to_ct y q)) q /\ exists v, ct_data (to_ct y q) = TDbl v) /\
  (forall v z q, let l := to_lt (CT (TDbl v) z) q in zone_of (tz l) q /\ ct_data (to_ct l q) = TDbl v) /\
  posixlt_as_posixlt tz to_ct to_lt x (Some [Some [86%Z]]) = Ok (x.1, Some [86%Z]) /\
  posixlt_as_posixlt tz to_ct to_lt x (Some [Some [85%Z]]) = Ok x.
Proof.
  exists ([pos_zero], Some [85%Z]). cbn. split; [right; by eexists|].
  split; [intros y q; split; [right; by eexists|by eexists]|]. split; [intros v z q; split; [right; by eexists|done]|]. done.
Qed.

Print Assumptions C62_validate.
Print Assumptions C62_date_validate.
Print Assumptions C62_cast_partial.
Print Assumptions C62_cast_refuted.
Print Assumptions C62_cast_attr_refuted.
Print Assumptions C62_as_date.
Print Assumptions C62_lt.
Print Assumptions C62_lt_ct.
