(** * Lemmas on restoring attributes *)
From Verif Require Import Base M_Restore.

Lemma tag_eqb_spec a b : tag_eqb a b = true <-> a = b.
Proof.
  destruct a, b; cbn; split; try done; intros H; try (by injection H as ->; apply Nat.eqb_refl).
  by apply Nat.eqb_eq in H as ->.
Qed.
Lemma tag_eqb_refl a : tag_eqb a a = true.
Proof. by apply tag_eqb_spec. Qed.
Lemma tag_eqb_neq a b : tag_eqb a b = false <-> a <> b.
Proof. rewrite <- tag_eqb_spec. by destruct (tag_eqb a b). Qed.

(** ** The pairlist without special attributes *)
Fixpoint linked (ns : list node) (head : option nat) (items : list (nat * (tag * aval))) (tl : option nat) : Prop :=
  match items with
  | [] => head = tl
  | (j, p) :: items => head = Some j /\ exists nx, ns !! j = Some (p, nx) /\ linked ns nx items tl
  end.
Lemma linked_snoc ns items j p nx : forall head, linked ns head items (Some j) -> ns !! j = Some (p, nx) -> linked ns head (items ++ [(j, p)]) nx.
Proof.
  induction items as [|[j' p'] items IH]; intros head; cbn.
  - intros -> Hj. split; [done|]. by exists nx.
  - intros [-> (nx' & Hj' & HL)] Hj. split; [done|]. exists nx'. split; [done|]. by apply IH.
Qed.
Lemma linked_frame ns j v items tl : forall head, ~ In j (map fst items) -> linked ns head items tl -> linked (<[j := v]> ns) head items tl.
Proof.
  induction items as [|[j' p'] items IH]; intros head; cbn; [done|]. intros Hn [-> (nx & Hj & HL)]. split; [done|].
  exists nx. split; [rewrite list_lookup_insert_ne; [done|]; intros ->; apply Hn; by left|]. apply IH; [|done]. intros H. apply Hn. by right.
Qed.
Lemma linked_relink ns items j p tl tl' : forall head, ~ In j (map fst items) -> linked ns head (items ++ [(j, p)]) tl ->
  linked (<[j := (p, tl')]> ns) head (items ++ [(j, p)]) tl'.
Proof.
  induction items as [|[j' p'] items IH]; intros head; cbn.
  - intros _ [-> (nx & Hj & ->)]. split; [done|]. exists tl'. split; [|done]. apply list_lookup_insert. by eapply lookup_lt_Some.
  - intros Hn [-> (nx & Hj & HL)]. split; [done|]. exists nx.
    split; [rewrite list_lookup_insert_ne; [done|]; intros ->; apply Hn; by left|]. apply IH; [|done]. intros H. apply Hn. by right.
Qed.
Lemma linked_pairs ns items : forall head fuel, length items <= fuel -> linked ns head items None -> pairs_of fuel ns head = Ok (map snd items).
Proof.
  induction items as [|[j p] items IH]; intros head fuel Hf; cbn.
  - intros ->. by destruct fuel.
  - intros [-> (nx & Hj & HL)]. destruct fuel as [|fuel]; [cbn in Hf; lia|]. cbn. unfold rd. rewrite Hj. cbn.
    rewrite (IH nx fuel); [done| |done]. cbn in Hf. lia.
Qed.

Definition class_in (l : attribs) (cls : option aval) : option aval :=
  fold_left (fun cls p => if tag_eqb p.1 TClass then Some p.2 else cls) l cls.
Definition plain (l : attribs) : attribs := filter (fun p => special p.1 = false) l.

Lemma strip_loop l : forall m i ns attrib items cls fuel,
  m = length l - i -> i <= length l -> m <= fuel -> length ns = length l ->
  (forall j, i <= j -> ns !! j = (fun p => (p, if Datatypes.S j =? length l then None else Some (Datatypes.S j))) <$> l !! j) ->
  Forall (fun q => q.1 < i) items -> NoDup (map fst items) ->
  linked ns attrib items (if i =? length l then None else Some i) ->
  exists ns' attrib' items',
    strip fuel ns attrib (if i =? length l then None else Some i) (fst <$> last items) cls = Ok (ns', attrib', class_in (drop i l) cls) /\
    length ns' = length l /\ linked ns' attrib' items' None /\ length items' <= length items + m /\ map snd items' = (map snd items ++ plain (drop i l))%list.
Proof.
  induction m as [|m IH]; intros i ns attrib items cls fuel Hm Hi Hf Hln Hns Hlt Hnd HL.
  - assert (i = length l) as -> by lia. rewrite Nat.eqb_refl in *. rewrite drop_all. exists ns, attrib, items.
    split; [by destruct fuel|]. split; [done|]. split; [done|]. split; [lia|]. unfold plain. rewrite filter_nil. by rewrite app_nil_r.
  - assert (Hil : i < length l) by lia. destruct fuel as [|fuel]; [lia|].
    destruct (lookup_lt_is_Some_2 l i Hil) as [p Hp].
    replace (i =? length l) with false in * by (symmetry; apply Nat.eqb_neq; lia).
    assert (Hnsi : ns !! i = Some (p, if Datatypes.S i =? length l then None else Some (Datatypes.S i))).
    { rewrite Hns by lia. by rewrite Hp. }
    cbn [strip]. unfold rd at 1. rewrite Hnsi. cbn [bind]. rewrite (drop_S _ _ _ Hp).
    assert (Hin : ~ In i (map fst items)).
    { intros H. apply in_map_iff in H as ([j q] & Hj & Hq). cbn in Hj. subst j.
      rewrite Forall_forall in Hlt. specialize (Hlt _ (proj2 (elem_of_list_In _ _) Hq)). cbn in Hlt. lia. }
    set (nx := if Datatypes.S i =? length l then None else Some (Datatypes.S i)) in *.
    assert (Hlt' : Forall (fun q => q.1 < Datatypes.S i) items) by (eapply Forall_impl; [exact Hlt|cbn; lia]).
    destruct (special p.1) eqn:Es.
    + assert (HX : exists ns1 attrib1,
        match fst <$> last items with
        | None => match attrib with None => UB "cdr of NULL" | Some a => let! (_, next') := rd ns a in Ok (ns, next') end
        | Some p0 => let! (tvp, _) := rd ns p0 in let! ns := wr ns p0 (tvp, nx) in Ok (ns, attrib)
        end = Ok (ns1, attrib1) /\ length ns1 = length l /\
        (forall j, i <= j -> ns1 !! j = ns !! j) /\ linked ns1 attrib1 items nx).
      { destruct items as [|q items _] using rev_ind.
        - cbn in HL |- *. subst attrib. unfold rd. rewrite Hnsi. cbn. by exists ns, nx.
        - rewrite last_snoc. cbn [fmap option_fmap option_map]. destruct q as [j q]. cbn [fst].
          rewrite map_app in Hnd. cbn in Hnd. apply NoDup_app in Hnd as (_ & Hnd & _).
          assert (Hj : ~ In j (map fst items)) by (intros H; apply (Hnd j); [by apply elem_of_list_In|by apply elem_of_list_singleton]).
          assert (Hji : j < i). { apply Forall_app in Hlt as [_ Hlt]. by apply Forall_inv in Hlt. }
          assert (Hnj : exists nxj, ns !! j = Some (q, nxj)).
          { clear -HL. revert attrib HL. induction items as [|[j' q'] items IH]; intros attrib; cbn.
            - intros [_ (nx & H & _)]. by exists nx.
            - intros [_ (nx & _ & H)]. by apply (IH nx). }
          destruct Hnj as [nxj Hnj]. unfold rd. rewrite Hnj. cbn [bind]. rewrite wr_Ok by (by eapply lookup_lt_Some). cbn [bind].
          eexists _, _. split; [done|]. rewrite insert_length. split; [done|]. split.
          + intros j' Hj'. rewrite list_lookup_insert_ne; [done|lia].
          + by eapply linked_relink. }
      destruct HX as (ns1 & attrib1 & -> & Hln1 & Hns1 & HL1). cbn [bind]. unfold rd. rewrite Hns1, Hnsi by lia. cbn [bind].
      destruct (IH (Datatypes.S i) ns1 attrib1 items (if tag_eqb p.1 TClass then Some p.2 else cls) fuel) as (ns' & attrib' & items' & E & H1 & H2 & H3 & H4); try done; try lia.
      { intros j Hj. rewrite Hns1 by lia. apply Hns. lia. }
      exists ns', attrib', items'. split; [exact E|]. split; [done|]. split; [done|]. split; [lia|]. rewrite H4. f_equal. unfold plain.
      rewrite filter_cons_False; [done|congruence].
    + destruct (IH (Datatypes.S i) ns attrib (items ++ [(i, p)])%list cls fuel) as (ns' & attrib' & items' & E & H1 & H2 & H3 & H4); try done; try lia.
      { intros j Hj. apply Hns. lia. }
      { apply Forall_app. split; [done|]. constructor; [cbn; lia|constructor]. }
      { rewrite map_app. apply NoDup_app. split; [done|]. split; [|apply NoDup_singleton]. intros j Hj Hj'. apply elem_of_list_singleton in Hj' as ->.
        by apply Hin, elem_of_list_In. }
      { by eapply linked_snoc. }
      rewrite last_snoc in E. cbn in E. exists ns', attrib', items'.
      assert (Hc : class_in (p :: drop (Datatypes.S i) l) cls = class_in (drop (Datatypes.S i) l) cls).
      { cbn. destruct p as [[] v]; done. }
      rewrite Hc. split; [exact E|]. split; [done|]. split; [done|]. split; [rewrite app_length in H3; cbn in H3; lia|].
      rewrite H4, map_app, <- app_assoc. unfold plain. by rewrite filter_cons_True.
Qed.

Lemma strip_ok l : let '(ns, head) := clone_pairs l in
  exists ns' head', strip (length ns) ns head head None None = Ok (ns', head', class_in l None) /\
  pairs_of (length ns') ns' head' = Ok (plain l).
Proof.
  unfold clone_pairs. set (ns := imap _ l). assert (Hln : length ns = length l) by (apply imap_length).
  destruct (strip_loop l (length l) 0 ns (match l with [] => None | _ => Some 0 end) [] None (length ns)) as (ns' & attrib' & items' & E & H1 & H2 & H3 & H4); try done; try lia.
  - intros j _. unfold ns. by rewrite list_lookup_imap.
  - constructor.
  - by destruct l.
  - exists ns', attrib'. split.
    + by destruct l.
    + rewrite (linked_pairs _ items'); [by rewrite H4|cbn in H3; lia|done].
Qed.

(** ** Attributes as sets *)
Lemma get_in l t v : NoDup (map fst l) -> (r_attrib_get l t = Some v <-> In (t, v) l).
Proof.
  induction l as [|[t' v'] l IH]; cbn; [done|]. intros Hnd. apply NoDup_cons in Hnd as [Hn Hnd]. specialize (IH Hnd).
  destruct (tag_eqb t t') eqn:E.
  - apply tag_eqb_spec in E as ->. split; [intros [= ->]; by left|]. intros [[= ->]|H]; [done|].
    exfalso. apply Hn, elem_of_list_In, in_map_iff. by exists (t', v).
  - apply tag_eqb_neq in E. rewrite IH. split; [by right|]. intros [[= -> ->]|H]; done.
Qed.
Lemma get_none l t : r_attrib_get l t = None <-> forall v, ~ In (t, v) l.
Proof.
  induction l as [|[t' v'] l IH]; cbn; [split; auto|]. destruct (tag_eqb t t') eqn:E.
  - apply tag_eqb_spec in E as ->. split; [done|]. intros H. exfalso. apply (H v'). by left.
  - apply tag_eqb_neq in E. rewrite IH. split; intros H v; [intros [[= -> ->]|H']; [done|by apply (H v)]|].
    intros H'. apply (H v). by right.
Qed.
Lemma set_tags l t v : forall t', In t' (map fst (attrib_set l t v)) <-> t' = t \/ In t' (map fst l).
Proof.
  induction l as [|[u w] l IH]; intros t'; cbn.
  - naive_solver.
  - destruct (tag_eqb t u) eqn:E; cbn.
    + apply tag_eqb_spec in E as ->. naive_solver.
    + rewrite IH. naive_solver.
Qed.
Lemma set_in l t v : NoDup (map fst l) -> NoDup (map fst (attrib_set l t v)) /\
  forall t' v', In (t', v') (attrib_set l t v) <-> (t' = t /\ v' = v) \/ (t' <> t /\ In (t', v') l).
Proof.
  induction l as [|[u w] l IH]; cbn; intros Hnd.
  - split; [by apply NoDup_singleton|]. intros t' v'. split; [intros [[= <- <-]|[]]; by left|]. intros [[-> ->]|[_ []]]. by left.
  - apply NoDup_cons in Hnd as [Hn Hnd]. destruct (IH Hnd) as [I1 I2]. destruct (tag_eqb t u) eqn:E.
    + apply tag_eqb_spec in E as ->. cbn. split; [by apply NoDup_cons|]. intros t' v'. split.
      * intros [[= <- <-]|H]; [by left|]. right. split; [|by right]. intros ->. apply Hn, elem_of_list_In, in_map_iff. by exists (u, v').
      * intros [[-> ->]|[H1 [[= -> ->]|H]]]; [by left|done|by right].
    + apply tag_eqb_neq in E. cbn. split.
      * apply NoDup_cons. split; [|done]. intros H. apply elem_of_list_In, set_tags in H as [->|H]; [done|]. by apply Hn, elem_of_list_In.
      * intros t' v'. rewrite I2. split; [intros [[= <- <-]|[?|[? ?]]]; [right; split; [congruence|by left]|by left|right; split; [done|by right]]|].
        intros [?|[? [?|?]]]; [right; by left|by left|right; right; done].
Qed.
Lemma poke_in l t v : NoDup (map fst l) -> NoDup (map fst (r_attrib_poke l t v)) /\
  forall t' v', In (t', v') (r_attrib_poke l t v) <-> (t' = t /\ v = Some v') \/ (t' <> t /\ In (t', v') l).
Proof.
  intros Hnd. destruct v as [v|]; cbn.
  - destruct (set_in l t v Hnd) as [H1 H2]. split; [done|]. intros t' v'. rewrite H2. naive_solver.
  - split.
    + clear -Hnd. induction l as [|[u w] l IH]; [done|]. cbn in Hnd. apply NoDup_cons in Hnd as [Hn Hnd].
      rewrite filter_cons. destruct (decide _); [|by apply IH]. cbn. apply NoDup_cons. split; [|by apply IH].
      intros H. apply Hn. apply elem_of_list_In, in_map_iff in H as ([u' w'] & <- & H). apply elem_of_list_In, elem_of_list_filter in H as [_ H].
      apply elem_of_list_In, in_map_iff. exists (u', w'). split; [done|]. by apply elem_of_list_In.
    + intros t' v'. rewrite <- !elem_of_list_In, elem_of_list_filter. cbn. rewrite tag_eqb_neq.
      split; [intros [? ?]; right; split; [congruence|done]|]. intros [[_ ?]|[? ?]]; [done|]. split; [congruence|done].
Qed.
Lemma plain_in l : NoDup (map fst l) -> NoDup (map fst (plain l)) /\
  forall t v, In (t, v) (plain l) <-> special t = false /\ In (t, v) l.
Proof.
  intros Hnd. unfold plain. split.
  - clear -Hnd. induction l as [|[u w] l IH]; [done|]. cbn in Hnd. apply NoDup_cons in Hnd as [Hn Hnd].
    rewrite filter_cons. destruct (decide _); [|by apply IH]. cbn. apply NoDup_cons. split; [|by apply IH].
    intros H. apply Hn. apply elem_of_list_In, in_map_iff in H as ([u' w'] & <- & H). apply elem_of_list_In, elem_of_list_filter in H as [_ H].
    apply elem_of_list_In, in_map_iff. exists (u', w'). split; [done|]. by apply elem_of_list_In.
  - intros t v. rewrite <- !elem_of_list_In, elem_of_list_filter. done.
Qed.
Lemma class_in_get l : NoDup (map fst l) -> class_in l None = r_attrib_get l TClass.
Proof.
  intros Hnd. cut (forall c, class_in l c = match r_attrib_get l TClass with Some v => Some v | None => c end).
  { intros ->. by destruct (r_attrib_get l TClass). }
  induction l as [|[u w] l IH]; intros c; cbn; [done|]. cbn in Hnd. apply NoDup_cons in Hnd as [Hn Hnd].
  change (fold_left _ l ?z) with (class_in l z). rewrite (IH Hnd).
  destruct u; cbn; try done.
  assert (r_attrib_get l TClass = None) as ->; [|done]. apply get_none. intros v Hv. apply Hn, elem_of_list_In, in_map_iff. by exists (TClass, v).
Qed.
