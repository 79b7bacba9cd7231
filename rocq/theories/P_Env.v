(** * C65: environments, formulas and lazy character vectors *)
From Verif Require Import Base M_Env Spec_Env.
From stdpp Require Import list strings.
From Coq Require Import Lia ZifyBool ZifyNat.
Open Scope nat_scope.

(** ** The chain of parents *)
Lemma upto_refl t l : upto t (t :: l) = [t].
Proof. cbn. by rewrite decide_True. Qed.
Lemma upto_ne e t l : e <> t -> upto t (e :: l) = e :: upto t l.
Proof. intros H. cbn. by rewrite decide_False. Qed.

Lemma eqb_single a b : (a =? b) = bool_decide (b ∈ [a]).
Proof.
  symmetry. destruct (Nat.eqb_spec a b) as [->|n].
  - apply bool_decide_eq_true. left.
  - apply bool_decide_eq_false. by intros ->%elem_of_list_singleton.
Qed.

(** An environment inherits from those of its chain up to [top]. *)
Theorem C65_inherits_partial parent env l fuel ancestor top :
  chain parent env l -> env <> 0 -> length l <= fuel ->
  r_env_inherits parent fuel env ancestor top = Ok (bool_decide (ancestor ∈ upto (default 0 top) l)).
Proof.
  intros Hc Hne Hf. unfold r_env_inherits.
  destruct (Nat.eqb_spec env 0); [done|]. clear Hne n.
  replace (match top with Some t => t | None => 0 end) with (default 0 top) by (by destruct top).
  set (t := default 0 top). clearbody t. revert fuel Hf.
  induction Hc as [|e l He Hc IH]; intros fuel Hf; destruct fuel as [|fuel]; cbn [length] in Hf; try lia;
    cbn [inherits_loop].
  - rewrite andb_false_r. f_equal. assert (Hu : upto t [0] = [0]) by (cbn; by case_decide).
    rewrite Hu. apply eqb_single.
  - destruct (Nat.eqb_spec e 0); [done|]. destruct (Nat.eqb_spec e t) as [->|Ht]; cbn [negb andb].
    + rewrite upto_refl. f_equal. apply eqb_single.
    + rewrite upto_ne by done. destruct (Nat.eqb_spec e ancestor) as [->|Ha].
      * f_equal. symmetry. apply bool_decide_eq_true. left.
      * rewrite IH by lia. f_equal. apply bool_decide_ext. rewrite elem_of_cons.
        split; [auto|]. by intros [|].
Qed.
Example C65_inherits_ex :
  chain pred 3 [3;2;1;0] /\ r_env_inherits pred 9 3 1 None = Ok true /\
  r_env_inherits pred 9 3 1 (Some 2) = Ok false.
Proof. split; [|done]. repeat (constructor; [done|]). constructor. Qed.

(** The empty environment is the only one that does not inherit from itself. *)
Theorem C65_inherits_refuted :
  exists parent env l, chain parent env l /\ env ∈ upto 0 l /\
    forall fuel, r_env_inherits parent fuel env env None = Ok false.
Proof. exists pred, 0, [0]. split; [constructor|]. split; [left|done]. Qed.

Lemma chain_det parent e l l' : chain parent e l -> chain parent e l' -> l = l'.
Proof.
  intros H. revert l'. induction H as [|e l He Hc IH]; intros l' H'.
  - inversion H'; [done|]. by destruct H.
  - inversion H' as [E|e' l2 _ Hc2]; subst; [done|]. by rewrite (IH l2).
Qed.
Lemma chain_suffix parent e l x : chain parent e l -> x ∈ l ->
  exists l', chain parent x l' /\ length l' <= length l.
Proof.
  induction 1 as [|e l He Hc IH].
  - intros ->%elem_of_list_singleton. exists [0]. split; [constructor|done].
  - intros [->|Hx]%elem_of_cons.
    + exists (e :: l). split; [by constructor|done].
    + destruct (IH Hx) as (l' & ? & ?). exists l'. split; [done|]. cbn. lia.
Qed.
Lemma chain_last0 parent e l : chain parent e l -> e ∈ l.
Proof. destruct 1; left. Qed.
Lemma chain_stop parent e l last : chain parent e l -> last ∈ l -> last <> e -> last <> 0 ->
  e <> parent last.
Proof.
  intros Hc Hl Hne H0 ->.
  assert (Hl' : exists l', chain parent last l' /\ length l' <= length l) by (by eapply chain_suffix).
  destruct Hl' as (l' & Hc' & Hlen). inversion Hc' as [E|x l2 _ Hc2]; subst; [done|].
  rewrite (chain_det _ _ _ _ Hc2 Hc) in Hlen. cbn in Hlen. lia.
Qed.

Lemma until_loop_Some parent {V} (find : nat -> option V) fuel env stop v :
  until_loop parent find fuel env stop (Some v) = Ok (Some v).
Proof. by destruct fuel. Qed.

(** The first binding in the chain up to [last] is found. *)
Theorem C65_find_until {V} (find : nat -> option V) parent env l fuel last :
  chain parent env l -> last ∈ l -> length l <= fuel ->
  r_env_find_until parent find fuel env last = Ok (first_bound find (upto last l)).
Proof.
  intros Hc Hl Hf. unfold r_env_find_until.
  set (stop := if negb (last =? 0) then parent last else 0).
  revert fuel Hf. induction Hc as [|e l He Hc IH]; intros fuel Hf;
    destruct fuel as [|fuel]; cbn [length] in Hf; try lia; cbn [until_loop].
  - apply elem_of_list_singleton in Hl as ->. done.
  - assert (Hs : e <> stop).
    { unfold stop. destruct (Nat.eqb_spec last 0) as [->|H0]; [done|]. cbn [negb].
      destruct (decide (last = e)) as [->|Hne].
      - intros E. assert (Hc' : chain parent e (e :: l)) by (by constructor).
        rewrite <- E in Hc. pose proof (f_equal length (chain_det _ _ _ _ Hc Hc')) as Hlen. cbn in Hlen. lia.
      - eapply (chain_stop parent e (e :: l)); [by constructor|done..]. }
    destruct (Nat.eqb_spec e 0); [done|]. destruct (Nat.eqb_spec e stop); [done|]. cbn [negb andb].
    unfold first_bound.
    destruct (decide (e = last)) as [->|Hne].
    + rewrite upto_refl. rewrite filter_cons_True by done. cbn [filter list_filter].
      destruct (find last) as [v|] eqn:Ev.
      * rewrite until_loop_Some. cbn [omap list_omap]. rewrite Ev. done.
      * cbn [omap list_omap]. rewrite Ev. unfold stop.
        destruct (Nat.eqb_spec last 0); [done|]. cbn [negb].
        destruct fuel; cbn [until_loop]; by rewrite Nat.eqb_refl, andb_false_r.
    + rewrite upto_ne by done. rewrite filter_cons_True by done. cbn [omap list_omap].
      destruct (find e) as [v|] eqn:Ev.
      * by rewrite until_loop_Some.
      * apply IH; [|lia]. by apply elem_of_cons in Hl as [->|].
Qed.
Example C65_find_until_ex :
  let find := fun e => if e =? 1 then Some 7 else None in
  chain pred 3 [3;2;1;0] /\ r_env_find_until pred find 9 3 1 = Ok (Some 7) /\
  r_env_find_until pred find 9 3 2 = Ok None.
Proof. split; [|done]. repeat (constructor; [done|]). constructor. Qed.

(** ** Bindings *)
Lemma env_get_app {V} (e1 e2 : frame V) k :
  env_get (e1 ++ e2) k = match env_get e1 k with Some b => Some b | None => env_get e2 k end.
Proof. induction e1 as [|[k' b] e1 IH]; [done|]. cbn. by case_bool_decide. Qed.
Lemma env_get_nodup {V} (e : frame V) i k b :
  NoDup (map fst e) -> e !! i = Some (k, b) -> env_get e k = Some b.
Proof.
  revert i. induction e as [|[k' b'] e IH]; intros i Hn Hi; [done|]. cbn in Hn |- *.
  apply NoDup_cons in Hn as [Hk Hn]. destruct i as [|i]; cbn in Hi.
  - injection Hi as [= -> ->]. by rewrite bool_decide_eq_true_2.
  - case_bool_decide as E; [|by eapply IH]. subst. destruct Hk.
    apply elem_of_list_In, in_map_iff. exists (k, b). split; [done|].
    apply elem_of_list_In. by eapply elem_of_list_lookup_2.
Qed.
Lemma map_fst_lookup {V} (e : frame V) i : map fst e !! i = fst <$> e !! i.
Proof. exact (list_lookup_fmap fst e i). Qed.

Lemma detect_special_spec {V} (e : frame V) nms : forall i,
  (exists j, j < length nms /\ (exists k, nms !! j = Some k /\ which_env_binding e k <> TValue) /\
     (forall j' k, j' < j -> nms !! j' = Some k -> which_env_binding e k = TValue) /\
     detect_special_binding e nms i = Some (i + j)) \/
  ((forall k, k ∈ nms -> which_env_binding e k = TValue) /\ detect_special_binding e nms i = None).
Proof.
  induction nms as [|k nms IH]; intros i; cbn [detect_special_binding].
  - right. split; [|done]. by intros ? ?%elem_of_nil.
  - destruct (which_env_binding e k) eqn:E.
    + destruct (IH (S i)) as [(j & Hj & Hk & Hb & ->)|[Hn ->]].
      * left. exists (S j). split; [cbn; lia|]. split; [done|]. split; [|f_equal; lia].
        intros [|j'] k' Hlt; cbn; [by intros [= <-]|]. apply Hb. lia.
      * right. split; [|done]. intros k' [->|]%elem_of_cons; [done|by apply Hn].
    + left. exists 0. split; [cbn; lia|]. split; [exists k; by rewrite E|]. split; [intros; lia|f_equal; lia].
    + left. exists 0. split; [cbn; lia|]. split; [exists k; by rewrite E|]. split; [intros; lia|f_equal; lia].
Qed.

(** The types are those of the bindings; [NULL] means that all are values. *)
Theorem C65_types {V} (e : frame V) nms :
  let type := fun k => type_of_binding (env_get e k) in
  exists r, r_env_binding_types e nms = Ok r /\
    match r with
    | None => forall k, k ∈ nms -> type k = TValue
    | Some types => types = type <$> nms /\ exists k, k ∈ nms /\ type k <> TValue
    end.
Proof.
  intros type. change type with (fun k => which_env_binding e k).
  unfold r_env_binding_types.
  destruct (detect_special_spec e nms 0) as [(i & Hi & (k & Hk & Hne) & Hb & ->)|[Hn ->]]; [|by exists None].
  rewrite Nat.add_0_l.
  destruct (for_inv (fun j types => i <= j /\ types = (which_env_binding e <$> take j nms) ++ replicate (length nms - j) TValue)
    i (length nms - i) (fun j types => let! k := rd nms j in wr types j (which_env_binding e k))
    (replicate (length nms) TValue)) as (types & -> & _ & Ht).
  - split; [done|]. apply list_eq. intros j. destruct (decide (j < i)) as [Hj|Hj].
    + destruct (lookup_lt_is_Some_2 nms j) as [x Hx]; [lia|].
      rewrite lookup_replicate_2 by lia. rewrite lookup_app_l by (rewrite fmap_length, take_length; lia).
      rewrite list_lookup_fmap, lookup_take, Hx by lia. cbn. f_equal. symmetry. by eapply Hb.
    + rewrite lookup_app_r by (rewrite fmap_length, take_length; lia).
      rewrite fmap_length, take_length. replace (j - i `min` length nms) with (j - i) by lia.
      destruct (decide (j < length nms)).
      * by rewrite !lookup_replicate_2 by lia.
      * rewrite !lookup_ge_None_2; [done|rewrite replicate_length; lia..].
  - intros j types [Hlo Hhi] [Hij ->].
    destruct (lookup_lt_is_Some_2 nms j) as [x Hx]; [lia|].
    rewrite (proj2 (rd_Ok _ _ _) Hx). cbn [bind].
    rewrite wr_Ok by (rewrite app_length, fmap_length, take_length, replicate_length; lia).
    eexists. split; [reflexivity|]. split; [lia|].
    rewrite insert_app_r_alt by (rewrite fmap_length, take_length; lia).
    rewrite fmap_length, take_length. replace (j - j `min` length nms) with 0 by lia.
    replace (length nms - j) with (S (length nms - S j)) by lia. cbn [replicate insert list_insert].
    rewrite (take_S_r nms j x Hx), fmap_app, <- app_assoc. done.
  - cbn [bind]. exists (Some types). split; [done|]. split.
    + rewrite Ht. replace (i + (length nms - i)) with (length nms) by lia.
      by rewrite firstn_all, Nat.sub_diag, app_nil_r.
    + exists k. split; [by eapply elem_of_list_lookup_2|done].
Qed.
Example C65_types_ex :
  r_env_binding_types [("a", BVal 1); ("b", BAct 2); ("c", BProm 3)]%string ["c"; "a"; "b"]%string
  = Ok (Some [TPromise; TValue; TActive]).
Proof. reflexivity. Qed.

Lemma coalesce_step {V} (env from : frame V) i k b e :
  from !! i = Some (k, b) -> NoDup (map fst from) ->
  coalesced env (take i from) e ->
  (env_get e k <> None -> coalesced env (take (S i) from) e) /\
  (env_get e k = None -> coalesced env (take (S i) from) (env_poke e k b)).
Proof.
  intros Hi Hn He. rewrite (take_S_r _ _ _ Hi).
  split; intros Hk j; unfold env_poke; rewrite ?env_get_app, (He j).
  - destruct (env_get env j) as [|] eqn:Ej; [done|]. destruct (env_get (take i from) j) eqn:Ef; [done|].
    cbn. case_bool_decide as E; [|done]. subst j. destruct Hk. by rewrite He, Ej.
  - destruct (env_get env j) eqn:Ej; [done|]. done.
Qed.

(** The bindings that were there stay; the others of [from] are added as they
    are: promises are not forced and active bindings are not called. *)
Theorem C65_coalesce {V} (call_fn : V -> V) (env from : frame V) :
  NoDup (map fst from) ->
  exists e, r_env_coalesce call_fn env from = Ok e /\ coalesced env from e.
Proof.
  intros Hn. unfold r_env_coalesce. destruct (C65_types from (map fst from)) as (r & -> & Hr). cbn [bind].
  assert (Hstart : coalesced env (take 0 from) env).
  { intros k. rewrite take_0. cbn. by destruct (env_get env k). }
  destruct r as [types|].
  - destruct Hr as [-> _].
    edestruct (for_inv (fun i e => coalesced env (take i from) e) 0 (length (map fst from))) as (e & -> & He);
      [exact Hstart| |exists e; split; [done|]; by rewrite map_length, Nat.add_0_l, firstn_all in He].
    intros i e [_ Hi] He. rewrite Nat.add_0_l, map_length in Hi.
    destruct (lookup_lt_is_Some_2 from i) as [[k b] Hkb]; [done|].
    assert (Hk : map fst from !! i = Some k) by (by rewrite map_fst_lookup, Hkb).
    cbn beta. rewrite (proj2 (rd_Ok _ _ _) Hk). cbn [bind]. unfold env_has.
    destruct (coalesce_step env from i k b e Hkb Hn He) as [H1 H2].
    destruct (env_get e k) eqn:Ek; [eexists; split; [done|]; by apply H1|].
    rewrite (proj2 (rd_Ok _ i (type_of_binding (env_get from k)))); [|by rewrite list_lookup_fmap, Hk]. cbn [bind].
    unfold type_of_binding, r_env_find. rewrite (env_get_nodup from i k b Hn Hkb).
    destruct b; cbn [bind]; (eexists; split; [reflexivity|]); by apply H2.
  - unfold env_coalesce_plain.
    edestruct (for_inv (fun i e => coalesced env (take i from) e) 0 (length (map fst from))) as (e & -> & He);
      [exact Hstart| |exists e; split; [done|]; by rewrite map_length, Nat.add_0_l, firstn_all in He].
    intros i e [_ Hi] He. rewrite Nat.add_0_l, map_length in Hi.
    destruct (lookup_lt_is_Some_2 from i) as [[k b] Hkb]; [done|].
    assert (Hk : map fst from !! i = Some k) by (by rewrite map_fst_lookup, Hkb).
    cbn beta. rewrite (proj2 (rd_Ok _ _ _) Hk). cbn [bind]. unfold env_has.
    destruct (coalesce_step env from i k b e Hkb Hn He) as [H1 H2].
    destruct (env_get e k) eqn:Ek; [eexists; split; [done|]; by apply H1|].
    specialize (Hr k (elem_of_list_lookup_2 _ _ _ Hk)).
    unfold type_of_binding in Hr. unfold r_env_find. rewrite (env_get_nodup from i k b Hn Hkb) in Hr |- *.
    destruct b; try discriminate Hr. cbn [bind]. eexists. split; [reflexivity|]. by apply H2.
Qed.
Example C65_coalesce_ex :
  r_env_coalesce (fun _ => 0) [("a", BVal 9)]%string [("a", BAct 1); ("b", BAct 2); ("c", BProm 3); ("d", BVal 4)]%string
  = Ok [("a", BVal 9); ("b", BAct 2); ("c", BProm 3); ("d", BVal 4)]%string.
Proof. reflexivity. Qed.

Theorem C65_clone {V} (call_fn : V -> V) (env : frame V) :
  NoDup (map fst env) ->
  exists e, r_env_clone call_fn env = Ok e /\ forall k, env_get e k = env_get env k.
Proof. intros Hn. destruct (C65_coalesce call_fn [] env Hn) as (e & He & H). exists e. split; [done|]. exact H. Qed.
Example C65_clone_ex : r_env_clone (fun _ => 0) [("b", BAct 2)]%string = Ok [("b", BAct 2)]%string.
Proof. reflexivity. Qed.

(** ** Formulas *)
Theorem C65_formula {V} (lhs rhs env : option V) :
  let f := r_new_formula lhs rhs env in
  r_f_lhs f = Ok lhs /\ r_f_rhs f = Ok rhs /\
  r_is_formula f None None = true /\
  (forall s, r_is_formula f (Some s) None = Bool.eqb s (bool_decide (is_Some env))) /\
  (forall l, r_is_formula f None (Some l) = Bool.eqb l (bool_decide (is_Some lhs))).
Proof.
  cbn. split_and!; try (by destruct lhs).
  - intros s. destruct env; by destruct s.
  - intros l. destruct lhs; by destruct l.
Qed.
Example C65_formula_ex : r_f_lhs (r_new_formula (Some 1) (Some 2) None) = Ok (Some 1).
Proof. reflexivity. Qed.

(** ** Lazy character vectors *)
Lemma lazy_run_used {S} (fn : nat -> res (option (list S))) ops : forall n v,
  fst (lazy_run fn ops (Lazy n (Some v))) = plain_run ops v true /\
  calls (snd (lazy_run fn ops (Lazy n (Some v)))) = n.
Proof.
  induction ops as [|o ops IH]; intros n v; [done|].
  assert (H : lazy_op fn o (Lazy n (Some v)) = (fst (plain_op o v true), Lazy n (Some (snd (plain_op o v true))))).
  { destruct o; cbn; try done.
    - unfold rd. by destruct (v !! i).
    - unfold wr. case_decide as E; [by rewrite (proj2 (Nat.ltb_lt _ _) E)|].
      destruct (Nat.ltb_spec i (length v)); [lia|done]. }
  cbn [lazy_run plain_run]. rewrite H. cbn [orb].
  destruct (IH n (snd (plain_op o v true))) as [H1 H2].
  destruct (lazy_run fn ops _) as [rs x]. cbn in *. by rewrite H1.
Qed.

(** If the first call of the function gives a character vector, every
    sequence of uses sees this vector, and the function is called once if
    elements or the length are used and never otherwise, whatever it would
    give when called again. *)
Theorem C65_lazy {S} (fn : nat -> res (option (list S))) ops v :
  fn 0 = Ok (Some v) ->
  fst (lazy_run fn ops (Lazy 0 None)) = plain_run ops v false /\
  calls (snd (lazy_run fn ops (Lazy 0 None))) = if existsb uses ops then 1 else 0.
Proof.
  intros Hf. induction ops as [|o ops IH]; [done|]. cbn [lazy_run plain_run existsb].
  destruct (uses o) eqn:Eu.
  - assert (H : lazy_op fn o (Lazy 0 None) = (fst (plain_op o v false), Lazy 1 (Some (snd (plain_op o v false))))).
    { destruct o; try discriminate Eu; cbn; unfold with_data, materialize; cbn; rewrite Hf; cbn; try done.
      - unfold rd. by destruct (v !! i).
      - unfold wr. case_decide as E; [by rewrite (proj2 (Nat.ltb_lt _ _) E)|].
        destruct (Nat.ltb_spec i (length v)); [lia|done]. }
    rewrite H. clear IH. cbn [orb]. destruct (lazy_run_used fn ops 1 (snd (plain_op o v false))) as [H1 H2].
    destruct (lazy_run fn ops _) as [rs x]. cbn in *. by rewrite H1.
  - assert (H : lazy_op fn o (Lazy 0 None) = (fst (plain_op o v false), Lazy 0 None))
      by (by destruct o; try discriminate Eu).
    assert (H' : snd (plain_op o v false) = v) by (by destruct o; try discriminate Eu).
    rewrite H, H'. cbn [orb]. destruct IH as [H1 H2].
    destruct (lazy_run fn ops _) as [rs x]. cbn in *. by rewrite H1.
Qed.
Example C65_lazy_ex :
  lazy_run (fun k => Ok (Some [k; 5])) [LIsMat; LElt 1; LSet 0 7; LPtr; LIsMat; LElt 2] (Lazy 0 None)
  = ([Ok (OBool false); Ok (OElt 5); Ok OUnit; Ok (OData [7; 5]); Ok (OBool true); UB "out-of-bounds read"],
     Lazy 1 (Some [7; 5])).
Proof. reflexivity. Qed.

(** A call that fails leaves the vector as it was: the next use calls again. *)
Theorem C65_lazy_err {S} (fn : nat -> res (option (list S))) o n :
  uses o = true -> (forall v, fn n <> Ok (Some v)) ->
  (forall r, fst (lazy_op fn o (Lazy n None)) <> Ok r) /\
  snd (lazy_op fn o (Lazy n None)) = Lazy (n + 1) None.
Proof.
  intros Hu Hf. rewrite Nat.add_1_r. destruct (fn n) as [[v|]|m|m] eqn:E; [by destruct (Hf v)|..];
    (destruct o; try discriminate Hu; cbn; unfold with_data, materialize; cbn; rewrite E; done).
Qed.
Example C65_lazy_err_ex :
  lazy_run (fun k => if k =? 0 then Err "no" else Ok (Some [k])) [LLength; LLength] (Lazy 0 None)
  = ([Err "no"; Ok (ONum 1)], Lazy 2 (Some [1])).
Proof. reflexivity. Qed.

Print Assumptions C65_inherits_partial.
Print Assumptions C65_inherits_refuted.
Print Assumptions C65_find_until.
Print Assumptions C65_types.
Print Assumptions C65_coalesce.
Print Assumptions C65_clone.
Print Assumptions C65_formula.
Print Assumptions C65_lazy.
Print Assumptions C65_lazy_err.
