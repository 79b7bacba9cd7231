(** * Lemmas: matches of all nesting containers *)
From Verif Require Import Base M_Double M_Scalar M_Match L_MatchSearch L_MatchRec.
From Coq Require Import Sorting.Sorted.
#[local] Arguments Z.mul : simpl never.
#[local] Arguments Z.add : simpl never.
#[local] Arguments Z.sub : simpl never.
#[local] Arguments Z.to_nat : simpl never.
#[local] Arguments Z.of_nat : simpl never.

Section locate.
  Context (e : menv) (ncol : nat) (N H : Z) (op : nat -> mop) (fl : nat -> mfilter).
  Context (nl hl : Z -> Z) (nv : nat -> Z -> Z) (nc : nat -> Z -> bool) (hw : nat -> Z -> Z) (hd : nat -> Z -> bool) (f : nat).
  Context (OK : env_ok e ncol N H op fl nl hl nv nc hw hd f).
  Context (Hcol : 0 < ncol) (HN : (0 < N)%Z) (HH : (0 <= H)%Z).
  Context (Sn : n_sorted ncol nl nv 0 0 (N - 1)).
  (** [g]: the container of a place in the order of the haystack. *)
  Context (cn : nat) (g : Z -> Z) (ids : list Z).
  Context (Hg : forall p, (0 <= p < H)%Z -> (0 <= g p < Z.of_nat cn)%Z).
  Context (Hm : forall p q, (0 <= p)%Z -> (p <= q)%Z -> (q < H)%Z -> (g p <= g q)%Z).
  Context (Hs : forall lo hi, (0 <= lo)%Z -> (hi < H)%Z -> (forall p q, (lo <= p <= hi)%Z -> (lo <= q <= hi)%Z -> g p = g q) ->
    h_sorted ncol hl hw f 0 lo hi).
  Context (Hids : cn <> 1 -> sees ids (e_o_haystack e) 0 (H - 1) g).
  Notation Good := (good ncol op fl (e_incomplete e) nv nc (fun c p => hw c (hl p)) (fun c p => hd c (hl p))).

  (** The events of needle [l], container by container. *)
  Definition by_container (l : Z) (es : list event) : Prop :=
    exists ess, length ess = cn /\ es = concat ess /\
      forall k x, ess !! k = Some x -> exists lo hi, (0 <= lo)%Z /\ (hi < H)%Z /\
        (forall p, in_range lo hi p <-> (0 <= p < H)%Z /\ g p = Z.of_nat k) /\ Good 0 l lo hi x.

  Definition locate fuel s :=
    if cn =? 1 then df_locate_matches_recurse fuel e 0 0 (N - 1) 0 (H - 1) s
    else df_locate_matches_with_containers fuel e cn ids 0 (N - 1) 0 (H - 1) s.

  Lemma locate_ok fuel : (Z.of_nat ncol + N <= Z.of_nat fuel)%Z ->
    exists evs, (forall s, locate fuel s = apply_events e evs s) /\
      (forall ev, ev ∈ evs -> exists q, (0 <= q < N)%Z /\ ev_loc ev = nl q) /\
      forall q, (0 <= q < N)%Z -> by_container (nl q) (at_needle (nl q) evs).
  Proof.
    intros Hfuel. unfold locate. destruct (Nat.eqb_spec cn 1) as [E1|N1].
    - destruct (rec_ok _ _ _ _ _ _ _ _ _ _ _ _ _ OK fuel 0 0%Z (N - 1)%Z 0%Z (H - 1)%Z) as (evs & E & L & G); try lia || done.
      { apply Hs; [lia|lia|]. intros p q Hp Hq. pose proof (Hg p ltac:(lia)). pose proof (Hg q ltac:(lia)). lia. }
      exists evs. split; [done|]. split.
      { intros ev Hev. destruct (L ev Hev) as (q & Hq & Eq). exists q. split; [lia|done]. }
      intros q Hq. exists [at_needle (nl q) evs]. rewrite E1. split; [done|]. split; [cbn; by rewrite app_nil_r|].
      intros [|k] x Hx; [|done]. injection Hx as <-. exists 0%Z, (H - 1)%Z. split; [lia|]. split; [lia|]. split; [|apply G; lia].
      intros p. unfold in_range. split; [|lia]. intros Hp. split; [lia|]. pose proof (Hg p ltac:(lia)). lia.
    - specialize (Hids N1). unfold df_locate_matches_with_containers.
      set (body := fun i '((hlo, s) : Z * mstate) =>
        let! (lower, upper) := int_locate_match (Z.of_nat i) ids (e_o_haystack e) hlo (H - 1) in
        let! s := df_locate_matches_recurse fuel e 0 0 (N - 1) lower upper s in
        Ok ((upper + 1)%Z, s)).
      (* the loop from container [i] on *)
      assert (X : forall k i hlo, i + k <= cn -> (0 <= hlo <= H)%Z -> (forall p, (0 <= p < H)%Z -> (g p < Z.of_nat i <-> p < hlo)%Z) ->
        exists evs hend, (forall s, for_ i k body (hlo, s) = let! s := apply_events e evs s in Ok (hend, s)) /\
          (forall ev, ev ∈ evs -> exists q, (0 <= q < N)%Z /\ ev_loc ev = nl q) /\
          forall q, (0 <= q < N)%Z -> exists ess, length ess = k /\ at_needle (nl q) evs = concat ess /\
            forall j x, ess !! j = Some x -> exists lo hi, (0 <= lo)%Z /\ (hi < H)%Z /\
              (forall p, in_range lo hi p <-> (0 <= p < H)%Z /\ g p = Z.of_nat (i + j)) /\ Good 0 (nl q) lo hi x).
      { induction k as [|k IH]; intros i hlo Hik Hlo Hbelow.
        - exists [], hlo. split; [done|]. split; [intros ev Hev; by apply elem_of_nil in Hev|]. intros q Hq. exists []. done.
        - destruct (locate_match_ok (Z.of_nat i) ids (e_o_haystack e) g hlo (H - 1)) as (l & u & El & B1 & B2 & B3 & B4).
          { eapply sees_sub; [| |exact Hids]; lia. }
          { lia. }
          { intros p q H1 H2 H3. apply Hm; lia. }
          assert (Hl : l = hlo).
          { destruct (Z.eq_dec hlo H) as [->|Nh]; [lia|]. destruct (B4 hlo ltac:(lia)) as [B _]. pose proof (Hbelow hlo ltac:(lia)). lia. }
          assert (Hin : forall p, in_range l u p <-> (0 <= p < H)%Z /\ g p = Z.of_nat i).
          { intros p. unfold in_range. split.
            - intros Hp. split; [lia|]. destruct (B4 p ltac:(lia)). lia.
            - intros [Hp Eg]. pose proof (Hbelow p Hp). destruct (B4 p ltac:(lia)). lia. }
          destruct (rec_ok _ _ _ _ _ _ _ _ _ _ _ _ _ OK fuel 0 0%Z (N - 1)%Z l u) as (evs & E & L & G); try lia || done.
          { apply Hs; [lia|lia|]. intros p q Hp Hq. apply Hin in Hp as [_ ->], Hq as [_ ->]. done. }
          destruct (IH (S i) (u + 1)%Z) as (evs' & hend & E' & L' & G').
          { lia. } { lia. }
          { intros p Hp. destruct (Z_lt_ge_dec p hlo) as [C|C].
            - pose proof (Hbelow p Hp). lia.
            - destruct (B4 p ltac:(lia)). lia. }
          exists (evs ++ evs'), hend. split; [|split].
          + intros s. cbn [for_]. unfold body at 1. rewrite El. cbn [bind]. rewrite E, apply_events_app.
            destruct (apply_events e evs s) as [s'| |]; cbn [bind]; [|done|done]. apply E'.
          + intros ev Hev. apply elem_of_app in Hev as [Hev|Hev]; [|by apply L']. destruct (L ev Hev) as (q & Hq & Eq). exists q. split; [lia|done].
          + intros q Hq. destruct (G' q Hq) as (ess & Le & Ee & Ge). exists (at_needle (nl q) evs :: ess). split; [cbn; lia|].
            split; [rewrite at_needle_app, Ee; done|]. intros [|j] x Hx.
            * injection Hx as <-. exists l, u. split; [lia|]. split; [lia|]. rewrite Nat.add_0_r. split; [done|]. apply G. lia.
            * replace (i + S j) with (S i + j) by lia. by apply Ge. }
      destruct (X cn 0 0%Z) as (evs & hend & E & L & G); [lia|lia| |].
      { intros p Hp. pose proof (Hg p Hp). lia. }
      exists evs. split; [|by split]. intros s. rewrite E. destruct (apply_events e evs s); done.
  Qed.
End locate.
