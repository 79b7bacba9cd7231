(** * Theorems on restoring attributes (C55) *)
From Verif Require Import Base M_Restore Spec_Restore L_Restore.

(** ** Classes *)
Theorem C55_class cls : cls <> [] -> exists t, class_type_impl cls = Ok t /\ t <> CNone /\
  (t = CBareDf <-> cls = ["data.frame"]%string) /\
  (t = CBareTibble <-> cls = ["tbl_df"; "tbl"; "data.frame"]%string) /\
  (t = CBareFactor <-> cls = ["factor"]%string) /\
  (t = CBareOrdered <-> cls = ["ordered"; "factor"]%string) /\
  (t = CBareDate <-> cls = ["Date"]%string) /\
  (t = CBarePosixct <-> cls = ["POSIXct"; "POSIXt"]%string) /\
  (t = CBarePosixlt <-> cls = ["POSIXlt"; "POSIXt"]%string) /\
  (t = CBareAsis <-> cls = ["AsIs"]%string) /\
  ((t = CBareDf \/ t = CBareTibble \/ t = CDf) <-> exists l, cls = (l ++ ["data.frame"%string])%list) /\
  (t = CList <-> exists l, cls = (l ++ ["list"%string])%list).
Proof.
  intros Hne. destruct cls as [|z l _] using rev_ind; [done|]. clear Hne.
  assert (HL : forall s, (exists l', (l ++ [z] = l' ++ [s])%list) <-> z = s).
  { intros s. split; [intros [l' H]; by apply app_inj_tail in H as [_ ->]|]. intros ->. by exists l. }
  setoid_rewrite HL. clear HL.
  assert (HE : forall a b, String.eqb a b = true -> a = b) by (intros a b; apply String.eqb_eq).
  assert (HN : forall a b, String.eqb a b = false -> a <> b) by (intros a b; apply String.eqb_neq).
  unfold class_type_impl. rewrite rev_unit.
  destruct l as [|a [|b [|c [|d l]]]]; cbn [app].
  all: repeat match goal with
    | |- context [String.eqb ?u ?v] => let E := fresh "E" in destruct (String.eqb u v) eqn:E; [apply HE in E; try subst|apply HN in E]
    end; cbn [andb].
  all: (eexists; split; [reflexivity|]; split; [done|]; repeat split; intros; try done; try congruence; naive_solver).
Qed.

Lemma class_type_ok o : wf_obj o -> exists t, class_type_of o = Ok t /\
  (t = CNone <-> forall v, ~ has o TClass v) /\
  ((t = CBareDf \/ t = CBareTibble \/ t = CDf) <-> exists cls, classed o (cls ++ ["data.frame"%string])) /\
  (t = CBareDf <-> classed o ["data.frame"]%string) /\
  (t = CBareTibble <-> classed o ["tbl_df"; "tbl"; "data.frame"]%string) /\
  (t = CBareFactor <-> classed o ["factor"]%string) /\
  (t = CBareOrdered <-> classed o ["ordered"; "factor"]%string).
Proof.
  intros [Hnd Hc]. unfold class_type_of, classed, has in *. destruct (r_attrib_get (o_attrib o) TClass) as [v|] eqn:E.
  - apply get_in in E; [|done]. destruct (Hc v E) as (c & cls & ->).
    assert (HU : forall s, In (TClass, AStrs s) (o_attrib o) <-> c :: cls = s).
    { intros s. rewrite <- get_in by done. apply (get_in _ _ _ Hnd) in E. rewrite E. split; [congruence|by intros ->]. }
    setoid_rewrite HU. destruct (C55_class (c :: cls)) as (t & Ht & H0 & H1 & H2 & H3 & H4 & _ & _ & _ & _ & H9 & _); [done|].
    exists t. split; [done|]. split; [split; [done|]; intros H; by destruct (H _ E)|].
    repeat split; try (by apply H1); try (by apply H2); try (by apply H3); try (by apply H4); by apply H9.
  - pose proof (proj1 (get_none _ _) E) as HN. exists CNone. split; [done|].
    split; [done|]. repeat split; intros H; try done; try (by apply HN in H).
    + by destruct H as [?|[?|?]].
    + destruct H as [s H]. by apply HN in H.
Qed.
Lemma is_data_frame_ok o : wf_obj o -> exists b, is_data_frame o = Ok b /\ (b = true <-> a_df o).
Proof.
  intros Hw. destruct (class_type_ok o Hw) as (t & Ht & _ & Hd & _). unfold is_data_frame, is_list, a_df. setoid_rewrite <- Hd.
  destruct (o_body o) as [l|l].
  - exists false. split; [done|]. split; [done|]. by intros [[l' [=]] _].
  - rewrite Ht. cbn. eexists. split; [done|]. split.
    + intros H. split; [by exists l|]. destruct t; try done; auto.
    + intros [_ [->|[->| ->]]]; done.
Qed.

Section proofs.
  Context (mr : heap -> nat -> bool) (uniq : list String.string -> list String.string).

  Lemma wf_put h x o : wf_heap h -> wf_obj o -> wf_heap (<[x := o]> h).
  Proof.
    intros Hw Ho z oz Hz. destruct (decide (z = x)) as [->|Hn].
    - destruct (decide (x < length h)) as [Hl|Hl].
      + rewrite list_lookup_insert in Hz by done. by injection Hz as <-.
      + rewrite list_insert_ge in Hz by lia. by apply (Hw x).
    - rewrite list_lookup_insert_ne in Hz by done. by apply (Hw z).
  Qed.
  Lemma wf_app h o : wf_heap h -> wf_obj o -> wf_heap (h ++ [o])%list.
  Proof.
    intros Hw Ho z oz Hz. apply lookup_app_Some in Hz as [Hz|[_ Hz]]; [by apply (Hw z)|].
    apply list_lookup_singleton_Some in Hz as [_ <-]. done.
  Qed.

  (** [y] is new, or the place of [x]; what is not [x] is kept; [x] is kept if it is in use. *)
  Definition placed (h h' : heap) (x y : nat) (owned : bool) : Prop :=
    length h <= length h' /\ (y = x \/ length h <= y) /\
    (forall z, z < length h -> z <> x -> h' !! z = h !! z) /\
    (owned = false -> mr h x = true -> length h <= y /\ forall z, z < length h -> h' !! z = h !! z).

  Lemma placed_trans h h1 h2 x y z owned : placed h h1 x y owned -> placed h1 h2 y z owned -> placed h h2 x z owned.
  Proof.
    intros (P1 & P2 & P3 & P4) (Q1 & Q2 & Q3 & Q4). unfold placed. split; [lia|]. split; [lia|]. split.
    - intros w Hw Hn. rewrite Q3 by lia. by apply P3.
    - intros Ho Hm. destruct (P4 Ho Hm) as [P5 P6]. split; [lia|]. intros w Hw. rewrite Q3 by lia. by apply P6.
  Qed.
  Lemma placed_put h h1 x y o owned : placed h h1 x y owned -> placed h (<[y := o]> h1) x y owned.
  Proof.
    intros (P1 & P2 & P3 & P4). unfold placed. rewrite insert_length. split; [done|]. split; [done|]. split.
    - intros z Hz Hn. rewrite list_lookup_insert_ne by lia. by apply P3.
    - intros Ho Hm. destruct (P4 Ho Hm) as [P5 P6]. split; [done|]. intros z Hz. rewrite list_lookup_insert_ne by lia. by apply P6.
  Qed.

  Lemma clone_ok h x ox owned : h !! x = Some ox -> exists h1 y,
    vec_clone_referenced mr h x owned = Ok (h1, y) /\ h1 !! y = Some ox /\ placed h h1 x y owned /\ (wf_heap h -> wf_heap h1) /\
    forall z o, h !! z = Some o -> h1 !! z = Some o.
  Proof.
    intros Hx. pose proof (lookup_lt_Some _ _ _ Hx) as Hl. unfold vec_clone_referenced.
    destruct owned; [exists h, x; unfold placed; split; [done|]; split; [done|]; split; [|by auto]; repeat split; auto; done|].
    destruct (mr h x) eqn:E; [|exists h, x; unfold placed; split; [done|]; split; [done|]; split; [|by auto]; repeat split; auto; congruence].
    unfold rd. rewrite Hx. cbn. exists (h ++ [ox])%list, (length h). split; [done|]. split; [by apply list_lookup_middle|].
    split; [|split; [intros Hw; apply wf_app; [done|by apply (Hw x)]|intros z o Hz; by apply lookup_app_l_Some]].
    unfold placed. rewrite app_length. cbn. split; [lia|]. split; [lia|]. split; [intros z Hz _; by rewrite lookup_app_l|]. intros _ _.
    split; [lia|]. intros z Hz; by rewrite lookup_app_l.
  Qed.

  Lemma default_ok h x to ox oto owned : wf_heap h -> h !! x = Some ox -> h !! to = Some oto -> exists h' y oy,
    vec_restore_default mr h x to owned = Ok (h', y) /\ h' !! y = Some oy /\ wf_heap h' /\
    default_restored ox oto oy /\
    ((no_attributes oto /\ h' = h /\ y = x) \/ (~ no_attributes oto /\ placed h h' x y owned)).
  Proof.
    intros Hw Hx Hto. unfold vec_restore_default. unfold rd at 1. rewrite Hto. cbn [bind].
    destruct (Hw _ _ Hx) as [Hndx Hcx]. destruct (Hw _ _ Hto) as [Hndt Hct].
    destruct (_ && _) eqn:Eb.
    - assert (Hno : no_attributes oto). { unfold no_attributes. destruct (o_attrib oto), (o_s4 oto); done. }
      exists h, x, ox. split; [done|]. split; [done|]. split; [done|]. split; [split; [done|by left]|by left].
    - assert (Hno : ~ no_attributes oto). { intros [H1 H2]. rewrite H1, H2 in Eb. done. }
      pose proof (strip_ok (o_attrib oto)) as HS. destruct (clone_pairs (o_attrib oto)) as [ns head].
      destruct HS as (ns' & head' & ES & EP).
      destruct (clone_ok h x ox owned Hx) as (h1 & y & -> & Hy & HP & Hw1 & _). cbn [bind].
      rewrite ES. cbn [bind]. rewrite EP. cbn [bind]. unfold rd. rewrite Hy. cbn [bind].
      destruct (is_data_frame_ok oto (Hw _ _ Hto)) as (df & -> & Hdf). cbn [bind].
      rewrite class_in_get by done.
      destruct (plain_in _ Hndt) as [HP1 HP2].
      set (attrib := plain (o_attrib oto)) in *.
      assert (HX : exists a1, match r_attrib_get (o_attrib ox) TDim with
        | Some _ => Ok (r_attrib_poke (r_attrib_poke attrib TDim (r_attrib_get (o_attrib ox) TDim)) TDimnames (r_attrib_get (o_attrib ox) TDimnames))
        | None => Ok match r_attrib_get (o_attrib ox) TRownames with
                     | Some rn => if df then r_attrib_poke (r_attrib_poke attrib TNames (r_attrib_get (o_attrib ox) TNames)) TRownames (Some rn)
                                  else r_attrib_poke attrib TNames (r_attrib_get (o_attrib ox) TNames)
                     | None => r_attrib_poke attrib TNames (r_attrib_get (o_attrib ox) TNames)
                     end
        end = Ok a1 /\ NoDup (map fst a1) /\ forall t v, In (t, v) a1 <->
          match t with
          | TClass => False
          | TOther _ => has oto t v
          | TDim => has ox TDim v
          | TDimnames => has ox TDimnames v /\ shaped ox
          | TNames => has ox TNames v /\ ~ shaped ox
          | TRownames => has ox TRownames v /\ ~ shaped ox /\ a_df oto
          end).
      { assert (HG : forall t v, r_attrib_get (o_attrib ox) t = Some v <-> has ox t v) by (intros; by apply get_in).
        destruct (r_attrib_get (o_attrib ox) TDim) as [dim|] eqn:Ed.
        - assert (Hsh : shaped ox) by (exists dim; by apply HG).
          eexists. split; [reflexivity|]. destruct (poke_in attrib TDim (Some dim) HP1) as [A1 A2].
          destruct (poke_in _ TDimnames (r_attrib_get (o_attrib ox) TDimnames) A1) as [B1 B2]. split; [done|].
          intros t v. rewrite B2, A2, HP2, HG. pose proof (HG TDim v) as HGd. rewrite Ed in HGd. unfold has in *.
          clear -HGd Hsh; destruct t; cbn; naive_solver.
        - assert (Hsh : ~ shaped ox) by (intros [v Hv]; apply HG in Hv; congruence).
          eexists. split; [reflexivity|]. destruct (poke_in attrib TNames (r_attrib_get (o_attrib ox) TNames) HP1) as [A1 A2].
          assert (HD : forall v, ~ has ox TDim v) by (intros v Hv; apply Hsh; by exists v).
          destruct (r_attrib_get (o_attrib ox) TRownames) as [rn|] eqn:Er.
          + destruct (poke_in _ TRownames (Some rn) A1) as [B1 B2]. pose proof (HG TRownames) as HGr. rewrite Er in HGr. destruct df.
            * split; [done|]. intros t v. rewrite B2, A2, HP2, HG. specialize (HGr v). specialize (HD v). unfold has in *.
              clear -HGr HD Hsh Hdf; destruct t; cbn; naive_solver.
            * split; [done|]. intros t v. rewrite A2, HP2, HG. specialize (HGr v). specialize (HD v). unfold has in *.
              assert (Hna : ~ a_df oto) by (intros H; by apply Hdf in H). clear -HGr HD Hsh Hna.
              destruct t; cbn; naive_solver.
          + split; [done|]. intros t v. rewrite A2, HP2, HG. pose proof (HG TRownames v) as HGr. rewrite Er in HGr. specialize (HD v). unfold has in *.
            clear -HGr HD Hsh; destruct t; cbn; naive_solver. }
      destruct HX as (a1 & EX & N1 & I1). rewrite EX. cbn [bind].
      set (a2 := match r_attrib_get (o_attrib oto) TClass with Some _ => r_attrib_poke a1 TClass (r_attrib_get (o_attrib oto) TClass) | None => a1 end).
      assert (Ha2 : attributes ox oto (Obj (o_body ox) a2 (o_s4 ox || o_s4 oto))).
      { assert (HG : forall v, r_attrib_get (o_attrib oto) TClass = Some v <-> has oto TClass v) by (intros; by apply get_in).
        unfold attributes, has, a2 in *. cbn [o_attrib]. destruct (r_attrib_get (o_attrib oto) TClass) as [c|] eqn:Ec.
        - destruct (poke_in a1 TClass (Some c) N1) as [B1 B2]. split; [done|]. intros t v. rewrite B2, I1. specialize (HG v). clear -HG; destruct t; cbn; naive_solver.
        - split; [done|]. intros t v. rewrite I1. specialize (HG v). clear -HG; destruct t; cbn; naive_solver. }
      rewrite wr_Ok by (by eapply lookup_lt_Some). cbn [bind].
      assert (Hwo : wf_obj (Obj (o_body ox) a2 (o_s4 ox || o_s4 oto))).
      { split; [apply Ha2|]. intros v Hv. apply (proj2 Ha2) in Hv. by apply Hct. }
      eexists _, y, _. split; [reflexivity|]. split; [apply list_lookup_insert; by eapply lookup_lt_Some|].
      split; [apply wf_put; [by apply Hw1|done]|]. split.
      + split; [done|]. right. split; [done|]. split; [done|]. cbn. rewrite orb_true_iff. done.
      + right. split; [done|]. by apply placed_put.
  Qed.

  (** ** Sizes *)
  Lemma rows_by_ok rn : rows_by rn (rownames_size rn).
  Proof.
    unfold rows_by. destruct rn as [l|l]; cbn; [left; by exists l|right].
    assert (Hother : (forall b, l <> [na_int; b]) -> exists l', AInts l = AInts l' /\ length l = length l' /\ forall b, l' <> [na_int; b]) by (intros H; by exists l).
    destruct l as [|a [|b [|c l]]]; try (right; by apply Hother).
    destruct (a =? na_int)%Z eqn:E.
    - apply Z.eqb_eq in E as ->. left. exists b. split; [done|]. lia.
    - right. apply Z.eqb_neq in E. apply (Hother). congruence.
  Qed.
  Lemma rows_by_unique rn n m : rows_by rn n -> rows_by rn m -> n = m.
  Proof.
    intros [(l & -> & ->)|[(b & -> & Hn)|(l & -> & -> & Hl)]] [(l' & E & ->)|[(b' & E & Hm)|(l' & E & -> & Hl')]]; try done.
    - by injection E as ->.
    - injection E as ->. lia.
    - injection E as <-. by destruct (Hl' b).
    - injection E as ->. by destruct (Hl b').
    - by injection E as ->.
  Qed.
  Lemma size_ok o : wf_obj o -> size_of o (vec_size o) /\ forall n, size_of o n -> n = vec_size o.
  Proof.
    intros [Hnd _]. assert (HG : forall t v, has o t v <-> r_attrib_get (o_attrib o) t = Some v) by (intros; symmetry; by apply get_in).
    unfold size_of. setoid_rewrite HG. unfold vec_size. destruct (r_attrib_get (o_attrib o) TRownames) as [rn|].
    - split; [left; exists rn; split; [done|apply rows_by_ok]|].
      intros n [(rn' & [= <-] & H)|[[H _]|[H _]]]; [by apply (rows_by_unique rn), rows_by_ok|by destruct (H rn)|by destruct (H rn)].
    - destruct (r_attrib_get (o_attrib o) TDim) as [[s|[|d ds]]|].
      + split; [right; right; repeat split; try done; by unfold r_length; destruct (o_body o)|].
        intros n [(rn' & [=] & _)|[(_ & d & ds & [=] & _)|(_ & _ & ->)]]. by unfold r_length; destruct (o_body o).
      + split; [right; right; repeat split; try done; by unfold r_length; destruct (o_body o)|].
        intros n [(rn' & [=] & _)|[(_ & d & ds & [=] & _)|(_ & _ & ->)]]. by unfold r_length; destruct (o_body o).
      + split; [right; left; split; [done|]; by exists d, ds|].
        intros n [(rn' & [=] & _)|[(_ & d' & ds' & [= -> ->] & ->)|(_ & H & _)]]; [done|by destruct (H d ds)].
      + split; [right; right; repeat split; try done; by unfold r_length; destruct (o_body o)|].
        intros n [(rn' & [=] & _)|[(_ & d & ds & [=] & _)|(_ & _ & ->)]]. by unfold r_length; destruct (o_body o).
  Qed.

  (** ** Data frames *)
  Lemma bare_df_facts oto : wf_obj oto -> bare_df oto -> a_df oto /\ ~ no_attributes oto /\ (class_type_of oto = Ok CBareDf \/ class_type_of oto = Ok CBareTibble).
  Proof.
    intros Hw [Hl Hc]. split; [|split].
    - split; [done|]. destruct Hc as [Hc|Hc]; [by exists []|by exists ["tbl_df"; "tbl"]%string].
    - intros [Ha _]. unfold classed, has in Hc. rewrite Ha in Hc. by destruct Hc.
    - destruct (class_type_ok oto Hw) as (t & -> & _ & _ & H1 & H2 & _). destruct Hc as [Hc|Hc]; [left|right]; f_equal; [by apply H1|by apply H2].
  Qed.

  Lemma df_ok h x to ox oto cx owned : wf_heap h -> h !! x = Some ox -> h !! to = Some oto -> bare_df oto ->
    o_body ox = BList cx -> (forall c, In c cx -> c <> x /\ c < length h) -> exists h' y oy,
    vec_bare_df_restore mr uniq None h x to owned = Ok (h', y) /\ h' !! y = Some oy /\ wf_heap h' /\ o_body oy = BList cx /\
    df_restored uniq h' ox oto oy /\ placed h h' x y owned.
  Proof.
    intros Hw Hx Hto Hbd Hb Hcx. destruct (bare_df_facts oto (Hw _ _ Hto) Hbd) as (Hdf & Hna & _).
    destruct (Hw _ _ Hx) as [Hndx _]. destruct (Hw _ _ Hto) as [_ Hct].
    unfold vec_bare_df_restore. unfold rd at 1 2. rewrite Hx, Hto. cbn [bind]. unfold is_list. rewrite Hb. cbn [negb bind].
    destruct (default_ok h x to ox oto owned Hw Hx Hto) as (h1 & y & o1 & -> & Hy & Hw1 & [HB HD] & HP). cbn [bind].
    destruct HP as [[H _]|[_ HP]]; [done|]. destruct HD as [[H _]|(_ & [N1 A1] & S1)]; [done|].
    unfold rd at 1. rewrite Hy. cbn [bind]. rewrite Hb in HB.
    set (a2 := match r_attrib_get (o_attrib o1) TNames with None => _ | Some _ => _ end).
    set (o2 := Obj (o_body o1) a2 (o_s4 o1)).
    assert (HG1 : forall t v, r_attrib_get (o_attrib o1) t = Some v <-> has o1 t v) by (intros; by apply get_in).
    assert (A2 : NoDup (map fst a2) /\ forall t v, has o2 t v <->
      match t with
      | TNames => (has ox TNames v /\ ~ shaped ox) \/ ((shaped ox \/ forall nms, ~ has ox TNames nms) /\ v = AStrs (replicate (length cx) ""%string))
      | _ => has o1 t v
      end).
    { unfold o2, a2, has. cbn [o_attrib]. destruct (r_attrib_get (o_attrib o1) TNames) as [nm|] eqn:En.
      - split; [done|]. apply HG1, A1 in En. destruct En as [En Hsh].
        intros t v. destruct t; try done. rewrite (A1 TNames v). split; [by left|]. intros [H|[[H|H] _]]; [done|done|by destruct (H nm)].
      - destruct (poke_in (o_attrib o1) TNames (Some (AStrs (replicate (r_length o1) ""%string))) N1) as [B1 B2]. split; [done|].
        assert (Hno : shaped ox \/ forall nms, ~ has ox TNames nms).
        { destruct (r_attrib_get (o_attrib ox) TDim) as [d|] eqn:Ed; [left; exists d; by apply get_in|right].
          intros nms Hn. assert (H : has o1 TNames nms); [|apply HG1 in H; congruence]. apply A1. split; [done|].
          intros [d Hd]. apply get_in in Hd; [|done]. congruence. }
        unfold r_length in B2 |- *. rewrite HB in B2 |- *.
        intros t v. rewrite B2. destruct t; split; try (intros [[? ?]|[_ ?]]; done); try (intros H; right; by split).
        + intros [[_ [= <-]]|[? _]]; [by right|done].
        + intros [[H1 H2]|[_ ->]]; [|by left]. exfalso. destruct Hno as [?|H3]; [done|by apply (H3 v)]. }
    destruct A2 as [N2 A2]. rewrite wr_Ok by (by eapply lookup_lt_Some). cbn [bind].
    change (Obj (o_body o1) a2 (o_s4 o1)) with o2. set (h2 := <[y := o2]> h1).
    assert (Hy2 : h2 !! y = Some o2) by (apply list_lookup_insert; by eapply lookup_lt_Some).
    assert (HP2 : placed h h2 x y owned) by (by apply placed_put).
    assert (HW2 : wf_heap h2).
    { apply wf_put; [done|]. split; [done|]. intros v Hv. apply A2, A1 in Hv. by apply Hct. }
    unfold rd at 1. rewrite Hy2. cbn [bind].
    assert (HG2 : forall t v, r_attrib_get (o_attrib o2) t = Some v <-> has o2 t v) by (intros; by apply get_in).
    assert (HR : forall rn, has o2 TRownames rn <-> has ox TRownames rn /\ ~ shaped ox).
    { intros rn. rewrite A2, A1. tauto. }
    assert (HU : forall rn rn', has o2 TRownames rn -> has o2 TRownames rn' -> rn = rn').
    { intros rn rn' H1 H2. apply HG2 in H1, H2. congruence. }
    (* the last write *)
    assert (FIN : forall h3 y3 rn', h3 !! y3 = Some o2 -> wf_heap h3 -> placed h h3 x y3 owned ->
      (forall v, v = rn' <->
        (~ shaped ox /\ exists rn, has ox TRownames rn /\ match rn with AInts _ => v = rn | AStrs l => v = AStrs (uniq l) end) \/
        ((shaped ox \/ forall rn, ~ has ox TRownames rn) /\
         exists n, df_rows h o2 n /\ v = AInts (if n =? 0 then [] else [na_int; (- Z.of_nat n)%Z]))) ->
      forall o3, o3 = Obj (o_body o2) (r_attrib_poke (o_attrib o2) TRownames (Some rn')) (o_s4 o2) ->
      wf_heap (<[y3 := o3]> h3) /\ df_restored uniq (<[y3 := o3]> h3) ox oto o3 /\ placed h (<[y3 := o3]> h3) x y3 owned).
    { intros h3 y3 rn' H3 HW3 HP3 Hrn o3 ->. destruct (poke_in (o_attrib o2) TRownames (Some rn') N2) as [B1 B2].
      split; [|split; [|by apply placed_put]].
      - apply wf_put; [done|]. split; [done|]. intros v Hv. apply B2 in Hv as [[? _]|[_ Hv]]; [done|]. apply A2, A1 in Hv. by apply Hct.
      - split; [|cbn; done]. split; [done|]. intros t v. unfold has at 1. cbn [o_attrib o_body]. rewrite B2. change (In (t, v) (o_attrib o2)) with (has o2 t v). rewrite A2.
        change (o_body o2) with (o_body o1). rewrite HB.
        assert (HDR : forall q o n, o_body o = BList cx -> df_rows (<[y3 := q]> h3) o n <-> df_rows h o2 n).
        { intros q o n Ho. unfold df_rows. rewrite Ho. change (o_body o2) with (o_body o1). rewrite HB. destruct cx as [|c cx]; [done|].
          destruct (Hcx c) as [Hc1 Hc2]; [by left|]. destruct HP3 as (_ & Q2 & Q3 & _). rewrite list_lookup_insert_ne by lia. by rewrite Q3. }
        destruct t; try (rewrite A1); try (split; [intros [[? ?]|[_ ?]]; done|intros; right; by split]).
        specialize (Hrn v). split.
        + intros [[_ [= ->]]|[? _]]; [|done]. destruct (proj1 Hrn eq_refl) as [H|(H1 & n & H2 & H3')]; [by left|right].
          split; [done|]. exists n. split; [|done]. by apply HDR.
        + intros H. left. split; [done|]. f_equal. symmetry. apply Hrn. destruct H as [H|(H1 & n & H2 & H3')]; [by left|right].
          split; [done|]. exists n. split; [|done]. by apply HDR in H2. }
    destruct (r_attrib_get (o_attrib o2) TRownames) as [rn|] eqn:Er.
    - apply HG2 in Er. pose proof Er as Er'. apply HR in Er' as [Erx Hsh]. destruct rn as [l|l].
      + destruct (clone_ok h2 y o2 owned Hy2) as (h3 & y3 & -> & Hy3 & HP3 & HW3 & _). cbn [bind]. unfold rd. rewrite Hy3. cbn [bind].
        rewrite wr_Ok by (by eapply lookup_lt_Some). cbn [bind].
        destruct (FIN h3 y3 (AStrs (uniq l)) Hy3 (HW3 HW2) (placed_trans _ _ _ _ _ _ _ HP2 HP3)) with (o3 := Obj (o_body o2) (r_attrib_poke (o_attrib o2) TRownames (Some (AStrs (uniq l)))) (o_s4 o2)) as (F1 & F2 & F3); [|done|].
        { intros v. split; [intros ->; left; split; [done|]; by exists (AStrs l)|].
          intros [(_ & rn & Hrn & Hv)|[[?|H] _]]; [|done|by destruct (H (AStrs l))].
          assert (rn = AStrs l) as ->; [|done]. apply HU; [by apply HR|done]. }
        eexists _, y3, _. split; [reflexivity|]. split; [apply list_lookup_insert; by eapply lookup_lt_Some|]. done.
      + exists h2, y, o2. split; [done|]. split; [done|]. split; [done|]. split; [done|]. split; [|done]. split; [|done]. split; [done|].
        intros t v. rewrite A2. change (o_body o2) with (o_body o1). rewrite HB. destruct t; try (by rewrite A1); try done.
        rewrite A1. split.
        * intros (H1 & H2 & _). left. split; [done|]. exists v. split; [done|]. assert (v = AInts l) as ->; [|done]. apply HU; [by apply HR|done].
        * intros [(_ & rn & Hrn & Hv)|[[?|H] _]]; [|done|by destruct (H (AInts l))]. assert (rn = AInts l) as ->; [apply HU; [by apply HR|done]|]. subst v. done.
    - assert (Hno : shaped ox \/ forall rn, ~ has ox TRownames rn).
      { destruct (r_attrib_get (o_attrib ox) TDim) as [d|] eqn:Ed; [left; exists d; by apply get_in|right].
        intros rn Hn. assert (H : has o2 TRownames rn); [|apply HG2 in H; congruence]. apply HR. split; [done|].
        intros [d Hd]. apply get_in in Hd; [|done]. congruence. }
      assert (HS : exists n, df_raw_size h2 o2 = Ok n /\ df_rows h o2 n /\ forall m, df_rows h o2 m -> m = n).
      { unfold df_raw_size, df_rows. rewrite Er. change (o_body o2) with (o_body o1). rewrite HB. destruct cx as [|c cx]; [by exists 0|].
        destruct (Hcx c) as [Hc1 Hc2]; [by left|]. destruct (lookup_lt_is_Some_2 h c Hc2) as [oc Hoc].
        destruct HP2 as (_ & Q2 & Q3 & _). unfold rd. rewrite Q3, Hoc by done. cbn. destruct (size_ok oc (Hw _ _ Hoc)) as [Z1 Z2].
        exists (vec_size oc). split; [done|]. split; [by exists oc|]. intros m (oc' & [= <-] & Hm). by apply Z2. }
      destruct HS as (n & -> & HS1 & HS2). cbn [bind]. rewrite wr_Ok by (by eapply lookup_lt_Some). cbn [bind].
      destruct (FIN h2 y (new_compact_rownames n) Hy2 HW2 HP2) with (o3 := Obj (o_body o2) (r_attrib_poke (o_attrib o2) TRownames (Some (new_compact_rownames n))) (o_s4 o2)) as (F1 & F2 & F3); [|done|].
      { intros v. split.
        - intros ->. right. split; [done|]. exists n. split; [done|]. unfold new_compact_rownames. by destruct (n =? 0).
        - intros [(Hsh & rn & Hrn & _)|[_ (m & Hm & ->)]].
          + exfalso. assert (H : has o2 TRownames rn) by (by apply HR). apply HG2 in H. congruence.
          + rewrite (HS2 _ Hm). unfold new_compact_rownames. by destruct (n =? 0). }
      eexists _, y, _. split; [reflexivity|]. split; [apply list_lookup_insert; by eapply lookup_lt_Some|]. done.
  Qed.

  (** ** Columns *)
  (** [carried_out] with the places [D] of the result *)
  Inductive co (h : heap) : plan -> nat -> list nat -> Prop :=
    | co_vector x to ox oto y oy : h !! y = Some oy -> default_restored ox oto oy -> co h (Vector x to ox oto) y [y]
    | co_frame x to ox oto cols y oy cy Ds : h !! y = Some oy -> o_body oy = BList cy -> length cy = length cols -> length Ds = length cols ->
        df_restored uniq h ox oto oy ->
        (forall i p c D, cols !! i = Some p -> cy !! i = Some c -> Ds !! i = Some D -> co h p c D) ->
        co h (Frame x to ox oto cols) y (y :: concat Ds).
  Lemma co_carried h p y D : co h p y D -> carried_out uniq h p y.
  Proof.
    induction 1 as [|x to ox oto cols y oy cy Ds Hy Hb Hl1 Hl2 Hd Hc IH]; [by econstructor|].
    econstructor; try done. intros i p c Hp Hcy. destruct (lookup_lt_is_Some_2 Ds i) as [D HD]; [apply lookup_lt_Some in Hp; lia|]. by eapply IH.
  Qed.
  Lemma co_head h p y D : co h p y D -> In y D.
  Proof. by intros [ | ]; left. Qed.
  Lemma co_lt h p y D : co h p y D -> forall z, In z D -> z < length h.
  Proof.
    induction 1 as [x to ox oto y oy Hy|x to ox oto cols y oy cy Ds Hy Hb Hl1 Hl2 Hd Hc IH]; intros z.
    { intros [<-|[]]. by eapply lookup_lt_Some. }
    intros [<-|Hz]; [by eapply lookup_lt_Some|].
    apply in_concat in Hz as (D & HD & Hz). apply elem_of_list_In, elem_of_list_lookup in HD as [i HD].
    destruct (lookup_lt_is_Some_2 cols i) as [p Hp]; [apply lookup_lt_Some in HD; lia|].
    destruct (lookup_lt_is_Some_2 cy i) as [c Hcy]; [apply lookup_lt_Some in HD; lia|]. by eapply IH.
  Qed.
  Lemma df_restored_frame h h' ox ox' oto oy : o_attrib ox' = o_attrib ox -> o_s4 ox' = o_s4 ox ->
    (forall n, df_rows h' oy n <-> df_rows h oy n) -> df_restored uniq h ox oto oy -> df_restored uniq h' ox' oto oy.
  Proof.
    intros E1 E2 HR [[N A] S]. split; [split; [done|]|by rewrite E2]. intros t v. rewrite A.
    assert (Hh : forall t v, has ox' t v <-> has ox t v) by (intros; unfold has; by rewrite E1).
    assert (Hs : shaped ox' <-> shaped ox) by (unfold shaped; by setoid_rewrite Hh).
    destruct t; try (by rewrite ?Hh, ?Hs).
    - rewrite Hs. by setoid_rewrite Hh.
    - rewrite Hs. setoid_rewrite Hh. by setoid_rewrite HR.
  Qed.
  Lemma df_rows_frame h h' oy cy : o_body oy = BList cy -> (forall c, In c cy -> h' !! c = h !! c) ->
    forall n, df_rows h' oy n <-> df_rows h oy n.
  Proof.
    intros Hb Hc n. unfold df_rows. rewrite Hb. destruct cy as [|c cy]; [done|]. rewrite Hc; [done|by left].
  Qed.
  Lemma co_frame_heap h h' p y D : co h p y D -> (forall z, In z D -> h' !! z = h !! z) -> co h' p y D.
  Proof.
    induction 1 as [x to ox oto y oy Hy|x to ox oto cols y oy cy Ds Hy Hb Hl1 Hl2 Hd Hc IH]; intros HK.
    - econstructor; [|done]. rewrite HK; [done|by left].
    - assert (HKi : forall i D, Ds !! i = Some D -> forall z, In z D -> h' !! z = h !! z).
      { intros i D HD z Hz. apply HK. right. apply in_concat. exists D. split; [|done]. by eapply elem_of_list_In, elem_of_list_lookup_2. }
      econstructor; try done.
      + rewrite HK; [done|by left].
      + eapply df_restored_frame; [done|done| |exact Hd]. apply (df_rows_frame _ _ _ _ Hb). intros c Hcc.
        apply elem_of_list_In, elem_of_list_lookup in Hcc as [i Hi].
        destruct (lookup_lt_is_Some_2 cols i) as [p Hp]; [apply lookup_lt_Some in Hi; lia|].
        destruct (lookup_lt_is_Some_2 Ds i) as [D HD]; [apply lookup_lt_Some in Hi; lia|].
        apply (HKi i D HD). eapply co_head. by eapply Hc.
      + intros i p c D Hp Hcy HD. eapply IH; try done. by apply (HKi i).
  Qed.
  Lemma planned_heap h h' x to p : planned h x to p -> (forall z, In z (places p) \/ In z (targets p) -> h' !! z = h !! z) -> planned h' x to p.
  Proof.
    induction 1 as [x to ox oto Hx Hto Hbv|x to ox oto cx cto cols Hx Hto Hbd Hb Hbt Hl1 Hl2 Hc IH]; intros HK; cbn [places targets] in HK.
    - constructor; try done; rewrite HK; try done; [left|right]; by left.
    - econstructor; try done; try (rewrite HK; [done|]; [left|right]; by left).
      + rewrite HK; [done|]. left. by left.
      + rewrite HK; [done|]. right. by left.
      + intros i p a b Hp Ha Hb'. eapply IH; try done. intros z Hz. apply HK.
        assert (Hin : In p cols) by (by eapply elem_of_list_In, elem_of_list_lookup_2).
        destruct Hz as [Hz|Hz]; [left|right]; right; apply in_concat; eexists; (split; [apply in_map; exact Hin|done]).
  Qed.
  Lemma planned_lt h x to p : planned h x to p -> In x (places p) /\ In to (targets p) /\ forall z, In z (places p) \/ In z (targets p) -> z < length h.
  Proof.
    induction 1 as [x to ox oto Hx Hto Hbv|x to ox oto cx cto cols Hx Hto Hbd Hb Hbt Hl1 Hl2 Hc IH]; cbn [places targets].
    - split; [by left|]. split; [by left|]. intros z [[<-|[]]|[<-|[]]]; by eapply lookup_lt_Some.
    - split; [by left|]. split; [by left|]. intros z [[<-|Hz]|[<-|Hz]]; try (by eapply lookup_lt_Some).
      all: apply in_concat in Hz as (D & HD & Hz); apply in_map_iff in HD as (p & <- & Hp);
        apply elem_of_list_In, elem_of_list_lookup in Hp as [i Hp];
        destruct (lookup_lt_is_Some_2 cx i) as [a Ha]; [apply lookup_lt_Some in Hp; lia|];
        destruct (lookup_lt_is_Some_2 cto i) as [b Hb']; [apply lookup_lt_Some in Hp; lia|];
        destruct (IH i p a b Hp Ha Hb') as (_ & _ & H); apply H; auto.
  Qed.
  Lemma concat_nth_disjoint (ls : list (list nat)) i j a b z : NoDup (concat ls) -> ls !! i = Some a -> ls !! j = Some b -> i <> j -> In z a -> In z b -> False.
  Proof.
    revert i j. induction ls as [|l ls IH]; intros i j Hnd; [done|]. cbn in Hnd. apply NoDup_app in Hnd as (_ & Hd & Hnd).
    assert (HC : forall k c, ls !! k = Some c -> In z c -> z ∈ concat ls).
    { intros k c Hk Hz. apply elem_of_list_In, in_concat. exists c. split; [by eapply elem_of_list_In, elem_of_list_lookup_2|done]. }
    destruct i as [|i], j as [|j]; cbn; intros Hi Hj Hn Ha Hb; try done.
    - injection Hi as ->. eapply (Hd z); [by apply elem_of_list_In|by eapply HC].
    - injection Hj as ->. eapply (Hd z); [by apply elem_of_list_In|by eapply HC].
    - apply (IH i j); auto.
  Qed.
  Lemma concat_nth_nodup (ls : list (list nat)) i a : NoDup (concat ls) -> ls !! i = Some a -> NoDup a.
  Proof.
    revert i. induction ls as [|l ls IH]; intros i Hnd; [done|]. cbn in Hnd. apply NoDup_app in Hnd as (H1 & _ & H2).
    destruct i as [|i]; cbn; intros Hi; [by injection Hi as <-|by apply (IH i)].
  Qed.

  Lemma depth_col cols i p : cols !! i = Some p -> depth p <= max_list (map depth cols).
  Proof.
    revert i. induction cols as [|q cols IH]; intros i; [done|]. destruct i as [|i]; cbn; intros H; [injection H as ->; lia|].
    specialize (IH _ H). lia.
  Qed.

  Lemma recurse_ok owned fuel : forall p h x to, depth p <= fuel -> wf_heap h -> planned h x to p -> NoDup (places p) ->
    (forall z, In z (places p) -> ~ In z (targets p)) -> exists h' y D,
    vec_restore_4 mr uniq fuel true owned h x to = Ok (h', y) /\ wf_heap h' /\ length h <= length h' /\ co h' p y D /\
    (forall z, In z D -> In z (places p) \/ length h <= z) /\
    (forall z, z < length h -> ~ In z (places p) -> h' !! z = h !! z).
  Proof.
    induction fuel as [|fuel IH]; intros p h x to Hf Hw Hpl Hnd Hdj; [destruct p; cbn in Hf; lia|].
    destruct Hpl as [x to ox oto Hx Hto Hbv|x to ox oto cx cto cols Hx Hto Hbd Hb Hbt Hl1 Hl2 Hc]; cbn [vec_restore_4].
    - unfold rd at 1. rewrite Hto. cbn [bind]. destruct (class_type_ok oto (Hw _ _ Hto)) as (t & -> & T0 & _ & _ & _ & T3 & T4). cbn [bind].
      destruct (default_ok h x to ox oto owned Hw Hx Hto) as (h' & y & oy & E & Hy & Hw' & HD & HP).
      exists h', y, [y]. split; [|split; [done|]].
      { destruct Hbv as [H|[H|H]]; [apply T0 in H|apply T3 in H|apply T4 in H]; by subst t. }
      cbn [places]. destruct HP as [(_ & -> & ->)|(_ & P1 & P2 & P3 & _)].
      + split; [done|]. split; [by econstructor|]. split; [intros z [<-|[]]; left; by left|done].
      + split; [done|]. split; [by econstructor|]. split; [intros z [<-|[]]; destruct P2 as [->|?]; [left; by left|by right]|].
        intros z Hz Hn. apply P3; [done|]. intros ->. apply Hn. by left.
    - unfold rd at 1. rewrite Hto. cbn [bind]. destruct (bare_df_facts oto (Hw _ _ Hto) Hbd) as (_ & _ & HT).
      assert (HX : exists h' y D, vec_bare_df_restore mr uniq (Some (vec_restore_4 mr uniq fuel true owned)) h x to owned = Ok (h', y) /\
        wf_heap h' /\ length h <= length h' /\ co h' (Frame x to ox oto cols) y D /\
        (forall z, In z D -> In z (places (Frame x to ox oto cols)) \/ length h <= z) /\
        (forall z, z < length h -> ~ In z (places (Frame x to ox oto cols)) -> h' !! z = h !! z));
      [|destruct HX as (h' & y & D & E & H); exists h', y, D; split; [|done]; by destruct HT as [-> | ->]].
      cbn [places targets depth] in *. apply NoDup_cons in Hnd as [Hnx Hnd].
      pose proof (lookup_lt_Some _ _ _ Hx) as Hxl.
      assert (Hin : forall i p z, cols !! i = Some p -> In z (places p) -> In z (concat (map places cols))).
      { intros i p z Hp Hz. apply in_concat. exists (places p). split; [|done]. apply in_map. by eapply elem_of_list_In, elem_of_list_lookup_2. }
      assert (Hit : forall i p z, cols !! i = Some p -> In z (targets p) -> In z (concat (map targets cols))).
      { intros i p z Hp Hz. apply in_concat. exists (targets p). split; [|done]. apply in_map. by eapply elem_of_list_In, elem_of_list_lookup_2. }
      assert (Hpx : forall i p, cols !! i = Some p -> ~ In x (places p)).
      { intros i p Hp Hz. apply Hnx, elem_of_list_In. by eapply Hin. }
      assert (Hpp : forall i j p q z, cols !! i = Some p -> cols !! j = Some q -> i <> j -> In z (places p) -> ~ In z (places q)).
      { intros i j p q z Hp Hq Hn Hz Hz'. assert (HM : forall k r, cols !! k = Some r -> map places cols !! k = Some (places r)).
        { intros k r Hr. change (map places cols) with (places <$> cols). rewrite list_lookup_fmap. by rewrite Hr. }
        by apply (concat_nth_disjoint (map places cols) i j (places p) (places q) z Hnd (HM _ _ Hp) (HM _ _ Hq)). }
      assert (Hpl : forall i p, cols !! i = Some p -> exists a b, cx !! i = Some a /\ cto !! i = Some b /\ planned h a b p).
      { intros i p Hp. destruct (lookup_lt_is_Some_2 cx i) as [a Ha]; [apply lookup_lt_Some in Hp; lia|].
        destruct (lookup_lt_is_Some_2 cto i) as [b Hb']; [apply lookup_lt_Some in Hp; lia|]. exists a, b. by eauto. }
      assert (Hplt : forall i p z, cols !! i = Some p -> In z (places p) -> z < length h).
      { intros i p z Hp Hz. destruct (Hpl i p Hp) as (a & b & _ & _ & HP). apply planned_lt in HP as (_ & _ & H). apply H. by left. }
      destruct (for_inv (fun i hi => wf_heap hi /\ length h <= length hi /\
        (exists ys Ds, hi !! x = Some (Obj (BList (ys ++ drop i cx)) (o_attrib ox) (o_s4 ox)) /\ length ys = i /\ length Ds = i /\
          (forall j p c D, cols !! j = Some p -> ys !! j = Some c -> Ds !! j = Some D ->
             co hi p c D /\ forall z, In z D -> In z (places p) \/ length h <= z)) /\
        (forall z, z < length h -> z <> x -> (forall j p, j < i -> cols !! j = Some p -> ~ In z (places p)) -> hi !! z = h !! z))
        0 (length cols) (column_step (vec_restore_4 mr uniq fuel true owned) x to) h) as (hn & En & HI).
      { split; [done|]. split; [done|]. split; [|done]. exists [], []. rewrite drop_0. cbn [app]. split; [|done]. rewrite Hx. f_equal. clear -Hb. destruct ox; cbn in *; congruence. }
      { intros i hi [_ Hi] (Hwi & Hli & (ys & Ds & Hxi & Hly & HlD & HDs) & Hki). cbn [Nat.add] in Hi.
        destruct (lookup_lt_is_Some_2 cols i Hi) as [p Hp]. destruct (Hpl i p Hp) as (a & b & Ha & Hb' & Hplab).
        unfold column_step. unfold rd at 1. rewrite Hxi. cbn [bind]. unfold rd at 1.
        assert (Hnto : hi !! to = Some oto).
        { rewrite Hki; [done|by eapply lookup_lt_Some| |].
          - intros ->. apply (Hdj x); by left.
          - intros j q Hj Hq Hz. apply (Hdj to); [right; by eapply Hin|by left]. }
        rewrite Hnto. cbn [bind o_body]. rewrite Hbt. unfold rd at 1. rewrite lookup_app_r by lia.
        rewrite lookup_drop, Hly, Nat.sub_diag, Nat.add_0_r, Ha. cbn [bind]. unfold rd at 1. rewrite Hb'. cbn [bind].
        destruct (IH p hi a b) as (h' & y & D & -> & Hw' & Hl' & Hco & HD & Hk'); try done.
        { pose proof (depth_col _ _ _ Hp). lia. }
        { eapply planned_heap; [exact Hplab|]. intros z Hz. apply Hki.
          - clear Hki. apply planned_lt in Hplab as (_ & _ & H). by apply H.
          - intros ->. destruct Hz as [Hz|Hz]; [by eapply Hpx|]. apply (Hdj x); [by left|]. right. by eapply Hit.
          - intros j q Hj Hq Hz'. destruct Hz as [Hz|Hz]; [eapply (Hpp i j); try done; lia|]. apply (Hdj z); right; [exact (Hin j q z Hq Hz')|exact (Hit i p z Hp Hz)]. }
        { eapply concat_nth_nodup; [exact Hnd|]. change (map places cols) with (places <$> cols). rewrite list_lookup_fmap. by rewrite Hp. }
        { intros z Hz Hz'. apply (Hdj z); right; [by eapply Hin|by eapply Hit]. }
        cbn [bind]. unfold rd at 1. rewrite Hk' by (try lia; by apply (Hpx i p Hp)). rewrite Hxi. cbn [bind o_body o_attrib o_s4].
        rewrite wr_Ok by (rewrite app_length, drop_length; apply lookup_lt_Some in Ha; lia). cbn [bind].
        rewrite wr_Ok by lia. eexists. split; [reflexivity|].
        rewrite insert_app_r_alt, Hly, Nat.sub_diag by lia. rewrite (drop_S _ _ _ Ha). cbn [insert list_insert].
        assert (Hkeep : forall j q c E, cols !! j = Some q -> ys !! j = Some c -> Ds !! j = Some E -> forall o z, In z E -> <[x := o]> h' !! z = hi !! z).
        { intros j q c E Hq Hcj HE o z Hz. destruct (HDs j q c E Hq Hcj HE) as [Hc1 Hc2]. pose proof (co_lt _ _ _ _ Hc1 z Hz) as Hzl.
          destruct (Hc2 z Hz) as [Hz'|Hz'].
          - rewrite list_lookup_insert_ne by (intros ->; by eapply Hpx). apply Hk'; [done|]. eapply (Hpp j i); try done. apply lookup_lt_Some in Hcj. lia.
          - rewrite list_lookup_insert_ne by lia. apply Hk'; [done|]. intros Hz''. specialize (Hplt _ _ _ Hp Hz''). lia. }
        split.
        { apply wf_put; [done|]. by apply (Hw x ox). }
        rewrite insert_length. split; [lia|]. split.
        { exists (ys ++ [y])%list, (Ds ++ [D])%list. rewrite list_lookup_insert by lia. rewrite <- app_assoc. split; [done|].
          rewrite !app_length. cbn [length]. split; [lia|]. split; [lia|].
          intros j q c E Hq Hcj HE. destruct (decide (j < i)) as [Hji|Hji].
          - rewrite lookup_app_l in Hcj by lia. rewrite lookup_app_l in HE by lia. destruct (HDs j q c E Hq Hcj HE) as [Hc1 Hc2]. split; [|done].
            eapply co_frame_heap; [exact Hc1|]. by eapply Hkeep.
          - rewrite lookup_app_r in Hcj by lia. apply list_lookup_singleton_Some in Hcj as [Hj <-].
            assert (j = i) as -> by lia. rewrite lookup_app_r in HE by lia. apply list_lookup_singleton_Some in HE as [_ <-].
            rewrite Hp in Hq. injection Hq as <-.
            assert (HD' : forall z, In z D -> In z (places p) \/ length h <= z).
            { intros z Hz. destruct (HD z Hz) as [?|?]; [by left|right; lia]. }
            split; [|done]. eapply co_frame_heap; [exact Hco|]. intros z Hz.
            rewrite list_lookup_insert_ne; [done|]. intros ->. destruct (HD' z Hz) as [Hz'|?]; [by eapply Hpx|lia]. }
        intros z Hz Hzx Hzj. rewrite list_lookup_insert_ne by done. rewrite Hk'; [|lia|apply (Hzj i); [lia|done]].
        apply Hki; [done|done|]. intros j q Hj. apply Hzj. lia. }
      destruct HI as (Hwn & Hln & (ys & Ds & Hxn & Hly & HlD & HDs) & Hkn). cbn [Nat.add] in Hly, HlD, Hxn, Hkn.
      rewrite drop_ge, app_nil_r in Hxn by lia.
      assert (Hnto : hn !! to = Some oto).
      { rewrite Hkn; [done|by eapply lookup_lt_Some| |].
        - intros ->. apply (Hdj x); by left.
        - intros j q Hj Hq Hz. apply (Hdj to); [right; by eapply Hin|by left]. }
      assert (Hys : forall j c, ys !! j = Some c -> exists p D, cols !! j = Some p /\ Ds !! j = Some D /\ co hn p c D /\ forall z, In z D -> z <> x /\ z < length hn).
      { intros j c Hcj. destruct (lookup_lt_is_Some_2 cols j) as [p Hp]; [apply lookup_lt_Some in Hcj; lia|].
        destruct (lookup_lt_is_Some_2 Ds j) as [D HD]; [apply lookup_lt_Some in Hcj; lia|].
        destruct (HDs j p c D Hp Hcj HD) as [Hc1 Hc2]. exists p, D. repeat split; try done.
        - intros ->. destruct (Hc2 x H) as [?|?]; [by eapply Hpx|lia].
        - by eapply co_lt. }
      destruct (df_ok hn x to (Obj (BList ys) (o_attrib ox) (o_s4 ox)) oto ys owned Hwn Hxn Hnto Hbd eq_refl) as (h' & y & oy & E & Hy & Hw' & Hby & Hdf & P1 & P2 & P3 & _).
      { intros c Hcc. apply elem_of_list_In, elem_of_list_lookup in Hcc as [j Hj]. destruct (Hys j c Hj) as (p & D & _ & _ & Hcd & H). apply H. by eapply co_head. }
      exists h', y, (y :: concat Ds). split; [|split; [done|]].
      { unfold vec_bare_df_restore in E |- *. unfold rd at 1 2 in E. rewrite Hxn, Hnto in E. cbn [bind is_list o_body negb] in E.
        unfold rd at 1 2. rewrite Hx, Hto. cbn [bind]. unfold is_list, r_length at 1 2 3. rewrite Hb, Hbt. cbn [negb].
        replace (length cx =? length cto) with true by (symmetry; apply Nat.eqb_eq; lia). cbn [negb]. rewrite Hl1, En. cbn [bind]. exact E. }
      assert (Hco' : forall j p c D, cols !! j = Some p -> ys !! j = Some c -> Ds !! j = Some D -> co h' p c D).
      { intros j p c D Hp Hcj HD. destruct (Hys j c Hcj) as (p' & D' & Hp' & HD' & Hcd & H). rewrite Hp in Hp'. rewrite HD in HD'. injection Hp' as <-. injection HD' as <-.
        eapply co_frame_heap; [exact Hcd|]. intros z Hz. apply P3; by apply H. }
      split; [lia|]. split; [|split].
      + eapply co_frame; try done; lia.
      + intros z [<-|Hz]; [destruct P2 as [->|?]; [left; by left|right; lia]|].
        apply in_concat in Hz as (D & HD & Hz). apply elem_of_list_In, elem_of_list_lookup in HD as [j HD].
        destruct (lookup_lt_is_Some_2 cols j) as [p Hp]; [apply lookup_lt_Some in HD; lia|].
        destruct (lookup_lt_is_Some_2 ys j) as [c Hcj]; [apply lookup_lt_Some in HD; lia|].
        destruct (HDs j p c D Hp Hcj HD) as [_ Hc2]. destruct (Hc2 z Hz) as [?|?]; [left; right; by eapply Hin|by right].
      + intros z Hz Hn. rewrite P3; [|lia|intros ->; apply Hn; by left]. apply Hkn; [done|intros ->; apply Hn; by left|].
        intros j p _ Hp Hzp. apply Hn. right. by eapply Hin.
  Qed.
End proofs.

(** ** Theorems *)
(** Vectors: the result is [x] with the attributes of [to].  Nothing but [x] changes,
    and [x] does not either if it is in use. *)
Theorem C55_default mr h x to ox oto owned : wf_heap h -> h !! x = Some ox -> h !! to = Some oto -> exists h' y oy,
  vec_restore_default mr h x to owned = Ok (h', y) /\ h' !! y = Some oy /\ default_restored ox oto oy /\
  (forall z, z < length h -> z <> x -> h' !! z = h !! z) /\
  (owned = false -> mr h x = true -> forall z, z < length h -> h' !! z = h !! z).
Proof.
  intros Hw Hx Hto. destruct (default_ok mr h x to ox oto owned Hw Hx Hto) as (h' & y & oy & E & Hy & _ & HD & HP).
  exists h', y, oy. split; [done|]. split; [done|]. split; [done|]. destruct HP as [(_ & -> & _)|(_ & _ & _ & P3 & P4)]; [done|].
  split; [done|]. intros Ho Hm. by apply P4.
Qed.
(** Data frames, without their columns *)
Theorem C55_df mr uniq fuel h x to ox oto cx owned : wf_heap h -> h !! x = Some ox -> h !! to = Some oto -> bare_df oto ->
  o_body ox = BList cx -> (forall c, In c cx -> c <> x /\ c < length h) -> exists h' y oy,
  vec_restore_4 mr uniq (Datatypes.S fuel) false owned h x to = Ok (h', y) /\ h' !! y = Some oy /\
  o_body oy = BList cx /\ df_restored uniq h' ox oto oy /\
  (forall z, z < length h -> z <> x -> h' !! z = h !! z) /\
  (owned = false -> mr h x = true -> forall z, z < length h -> h' !! z = h !! z).
Proof.
  intros Hw Hx Hto Hbd Hb Hcx. destruct (df_ok mr uniq h x to ox oto cx owned Hw Hx Hto Hbd Hb Hcx) as (h' & y & oy & E & Hy & _ & HB & HD & _ & _ & P3 & P4).
  destruct (bare_df_facts oto (Hw _ _ Hto) Hbd) as (_ & _ & HT).
  exists h', y, oy. split.
  { cbn [vec_restore_4]. unfold rd. rewrite Hto. cbn [bind]. by destruct HT as [-> | ->]. }
  split; [done|]. split; [done|]. split; [done|]. split; [done|]. intros Ho Hm. by apply P4.
Qed.
(** Data frames with their columns: only the places of [x] and its columns change. *)
Theorem C55_recurse_partial mr uniq owned fuel p h x to : depth p <= fuel -> wf_heap h -> planned h x to p ->
  NoDup (places p) -> (forall z, In z (places p) -> ~ In z (targets p)) -> exists h' y,
  vec_restore_4 mr uniq fuel true owned h x to = Ok (h', y) /\ carried_out uniq h' p y /\
  forall z, z < length h -> ~ In z (places p) -> h' !! z = h !! z.
Proof.
  intros Hf Hw Hpl Hnd Hdj. destruct (recurse_ok mr uniq owned fuel p h x to Hf Hw Hpl Hnd Hdj) as (h' & y & D & E & _ & _ & Hco & _ & Hk).
  exists h', y. split; [done|]. split; [by eapply co_carried|done].
Qed.

(** ** Examples *)
Local Open Scope Z_scope.
(** A vector with names and a factor: levels and class come from the factor, names stay.
    The vector is in use, so that the result is new. *)
Definition ex_vec : obj := Obj (BVec [1; 2]) [(TNames, AStrs ["a"; "b"]%string); (TOther 7, AInts [9])] false.
Definition ex_fct : obj := Obj (BVec [1]) [(TOther 3, AStrs ["u"; "v"]%string); (TClass, AStrs ["factor"%string]); (TNames, AStrs ["z"%string])] false.
Example C55_example : vec_restore_default (fun _ _ => true) [ex_vec; ex_fct] 0 1 false =
  Ok ([ex_vec; ex_fct; Obj (BVec [1; 2]) [(TOther 3, AStrs ["u"; "v"]%string); (TNames, AStrs ["a"; "b"]%string); (TClass, AStrs ["factor"%string])] false], 2%nat).
Proof. reflexivity. Qed.
(** A data frame with a data frame in it: row names and names are made up in both. *)
Definition ex_df (c : list nat) : obj := Obj (BList c) [(TClass, AStrs ["data.frame"%string])] false.
Definition ex_heap : heap :=
  [Obj (BList [1; 3]%nat) [] false; Obj (BList [2]%nat) [] false; Obj (BVec [5; 6; 7]) [] false; Obj (BVec [2; 2; 1]) [] false;
   ex_df [5; 7]%nat; ex_df [6]%nat; Obj (BVec []) [] false; ex_fct].
Definition ex_plan : plan :=
  Frame 0 4 (Obj (BList [1; 3]%nat) [] false) (ex_df [5; 7]%nat)
    [Frame 1 5 (Obj (BList [2]%nat) [] false) (ex_df [6]%nat) [Vector 2 6 (Obj (BVec [5; 6; 7]) [] false) (Obj (BVec []) [] false)];
     Vector 3 7 (Obj (BVec [2; 2; 1]) [] false) ex_fct].
Lemma ex_wf : wf_heap ex_heap.
Proof.
  intros z o Hz. do 8 (destruct z as [|z]; [injection Hz as <-; (split; [cbn; repeat constructor; cbn; rewrite ?elem_of_cons, ?elem_of_nil; intuition congruence|]);
    cbn; intros v Hv; repeat (destruct Hv as [Hv|Hv]; [injection Hv as <-; first [by eexists _, _|done]|]); try done; naive_solver|]). done.
Qed.
Example C55_recurse_example : planned ex_heap 0 4 ex_plan /\ wf_heap ex_heap /\ NoDup (places ex_plan) /\
  (forall z, In z (places ex_plan) -> ~ In z (targets ex_plan)) /\
  exists h', vec_restore_4 (fun _ _ => true) (fun l => l) 3 true true ex_heap 0 4 = Ok (h', 0%nat) /\
  h' !! 0%nat = Some (Obj (BList [1; 3]%nat) [(TClass, AStrs ["data.frame"%string]); (TNames, AStrs ["";""]%string); (TRownames, AInts [na_int; -3])] false) /\
  h' !! 1%nat = Some (Obj (BList [2]%nat) [(TClass, AStrs ["data.frame"%string]); (TNames, AStrs [""%string]); (TRownames, AInts [na_int; -3])] false) /\
  h' !! 3%nat = Some (Obj (BVec [2; 2; 1]) [(TOther 3, AStrs ["u"; "v"]%string); (TClass, AStrs ["factor"%string])] false).
Proof.
  split; [|split; [exact ex_wf|split; [|split]]].
  - eapply planned_frame; try reflexivity; [split; [by eexists|left; by left]|].
    intros i p a b Hp Ha Hb. destruct i as [|[|i]]; [| |done]; injection Hp as <-; injection Ha as <-; injection Hb as <-.
    + eapply planned_frame; try reflexivity; [split; [by eexists|left; by left]|].
      intros i p a b Hp Ha Hb. destruct i as [|i]; [|done]. injection Hp as <-. injection Ha as <-. injection Hb as <-.
      constructor; try reflexivity. left. by intros v [].
    + constructor; try reflexivity. right. left. right. by left.
  - cbn. repeat constructor; rewrite ?elem_of_cons, ?elem_of_nil; lia.
  - cbn. intros z Hz Hz'. lia.
  - eexists. split; [vm_compute; reflexivity|]. repeat split; vm_compute; reflexivity.
Qed.
(** A wrong case: with recursion the columns are restored into [x] before it is cloned,
    so that [x] changes although it is in use (src/proxy-restore.c:201-204). *)
Theorem C55_recurse_refuted : exists (mr : heap -> nat -> bool) uniq fuel h x to p,
  wf_heap h /\ planned h x to p /\ NoDup (places p) /\ (forall z, In z (places p) -> ~ In z (targets p)) /\ (depth p <= fuel)%nat /\
  (forall h z, mr h z = true) /\
  exists h' y, vec_restore_4 mr uniq fuel true false h x to = Ok (h', y) /\ h' !! x <> h !! x.
Proof.
  destruct C55_recurse_example as (H1 & H2 & H3 & H4 & _).
  exists (fun _ _ => true), (fun l => l), 3%nat, ex_heap, 0%nat, 4%nat, ex_plan.
  split; [done|]. split; [done|]. split; [done|]. split; [done|]. split; [cbn; lia|]. split; [done|].
  eexists _, _. split; [vm_compute; reflexivity|]. by vm_compute.
Qed.
(** A wrong case: if [to] has no attributes, the attributes of [x] are all kept, its class too. *)
Theorem C55_bare_refuted : exists (mr : heap -> nat -> bool) h x to,
  wf_heap h /\ exists ox oto h' y oy, h !! x = Some ox /\ h !! to = Some oto /\ vec_restore_default mr h x to false = Ok (h', y) /\ h' !! y = Some oy /\
  ~ attributes ox oto oy.
Proof.
  exists (fun _ _ => true), ex_heap, 7%nat, 6%nat. split; [exact ex_wf|].
  eexists _, _, _, _, _. split; [reflexivity|]. split; [reflexivity|]. split; [reflexivity|]. split; [reflexivity|].
  intros [_ A]. destruct (proj1 (A TClass (AStrs ["factor"%string]))). right. by left.
Qed.
Print Assumptions C55_class.
Print Assumptions C55_default.
Print Assumptions C55_df.
Print Assumptions C55_recurse_partial.
Print Assumptions C55_recurse_refuted.
Print Assumptions C55_bare_refuted.
