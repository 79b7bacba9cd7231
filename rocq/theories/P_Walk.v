(** * Properties: walking an object (C52) *)
From Verif Require Import Base M_Walk Spec_Walk.
From Coq Require Import Lia ZifyBool ZifyNat.
#[local] Arguments Z.mul : simpl never.
#[local] Arguments Z.add : simpl never.
#[local] Arguments Z.sub : simpl never.
#[local] Arguments Z.of_nat : simpl never.

Definition kids := children_by (fun _ => RListElt).
Lemma kids_snd x : map snd (kids x) = map snd (children x).
Proof. destruct x; try done. unfold kids, children. simpl. rewrite !map_app. f_equal. rewrite !map_map. done. Qed.
Lemma kids_nil x : kids x = [] <-> children x = [].
Proof. pose proof (kids_snd x) as H. split; intros E; rewrite E in H; [by destruct (children x)|by destruct (kids x)]. Qed.
Lemma leaf_spec x : is_leaf x = true <-> kids x = [].
Proof.
  unfold is_leaf, has_attrib. destruct x as [| |v a|k a tag car cdr|a tag prot|k a [|e l]]; simpl; try done.
  - by destruct a.
  - by destruct a, k.
  - by destruct a.
  - by destruct a.
  - by destruct a.
Qed.

(** ** Entries of the stack *)
Fixpoint rem_of (x : sx) (states : list it_state) (arr : list sx) : list (rel * sx) :=
  match states with
  | StAttrib :: s => (RAttrib, sexp_node_attrib x) :: rem_of x s arr
  | StTag :: s => ((sexp_node_tag x).2, (sexp_node_tag x).1) :: rem_of x s arr
  | StCar :: s => ((sexp_node_car x).2, (sexp_node_car x).1) :: rem_of x s arr
  | StCdr :: s => ((sexp_node_cdr x).2, (sexp_node_cdr x).1) :: rem_of x s arr
  | StElt :: _ => map (fun c => (RListElt, c)) arr
  | _ => []
  end.
Fixpoint wf_states (states : list it_state) (arr : option (list sx)) : Prop :=
  match states with
  | [] => False
  | StDone :: _ => match arr with Some (_ :: _) => False | _ => True end
  | StElt :: _ => match arr with Some (_ :: _) => True | _ => False end
  | _ :: s => wf_states s arr
  end.
Definition arr_list (arr : option (list sx)) : list sx := match arr with Some a => a | None => [] end.
Definition arr_kind (x : sx) (arr : option (list sx)) : Prop :=
  match x with XVector _ _ (_ :: _) => exists a, arr = Some a | _ => arr = None end.
(** An entry of [x] with the children [rem] left. *)
Definition entry (x : sx) (d : Z) (parent : sx) (r : rel) (rem : list (rel * sx)) (p : info) : Prop :=
  exists states, i_state p = Some states /\ wf_states states (i_arr p) /\ rem = rem_of x states (arr_list (i_arr p)) /\ arr_kind x (i_arr p) /\
    i_x p = x /\ i_depth p = d /\ i_parent p = parent /\ i_rel p = r /\ i_dir p = match rem with [] => Outgoing | _ => Incoming end.
Lemma init_entry x d parent r : is_leaf x = false -> entry x d parent r (kids x) (init_info x d parent r).
Proof.
  intros Hl. unfold init_info. rewrite Hl. unfold is_leaf in Hl. destruct x as [| |v a|k a tag car cdr|a tag prot|k a [|e l]]; simpl in *; try done; unfold skip_attrib, has_attrib in *; simpl in *.
  - eexists. split; [done|]. destruct a; try done; (split; [done|]); (split; [done|]); done.
  - eexists. split; [done|]. destruct a, k; (split; [done|]); (split; [done|]); done.
  - eexists. split; [done|]. destruct a; (split; [done|]); (split; [done|]); done.
  - eexists. split; [done|]. destruct a; try done; (split; [done|]); (split; [done|]); done.
  - eexists. split; [done|]. destruct a; (split; [done|]); (split; [done|]); (split; [by eexists|done]).
Qed.
Lemma init_visit x d parent r : visit_of (init_info x d parent r) = at_ x d parent r (if is_leaf x then Leaf else Incoming).
Proof.
  unfold init_info, at_. destruct (is_leaf x) eqn:Hl; [done|]. unfold is_leaf in Hl. destruct x as [| |v a|k a tag car cdr|a tag prot|k a [|e l]]; simpl in *; try done.
Qed.
Lemma entry_outgoing x d parent r p : entry x d parent r [] p -> visit_of p = at_ x d parent r Outgoing /\ i_dir p = Outgoing.
Proof.
  intros (states & E1 & Hw & Hr & Ha & <- & <- & <- & <- & Hd). split; [|done]. unfold visit_of, at_. rewrite Hd. f_equal. unfold arr_left, elts_left.
  unfold arr_kind in Ha. destruct (i_x p) as [| |v a|k a tag car cdr|a tag prot|k a [|e l]]; try (by rewrite Ha).
  destruct Ha as [arr Ea]. rewrite Ea in Hw, Hr |- *. destruct states as [|[] s]; try done; by destruct arr.
Qed.
Lemma rem_done x s states arr : wf_states (s :: states) arr -> match s with StDone => True | _ => rem_of x (s :: states) (arr_list arr) <> [] end.
Proof. destruct s; try done. simpl. by destruct arr as [[|]|]. Qed.
Lemma next_child x d parent r rc c rem p S cap : (0 <= d)%Z -> (Z.of_nat (length S) + 1 < cap)%Z \/ is_leaf c = true -> entry x d parent r ((rc, c) :: rem) p ->
  exists p', entry x d parent r rem p' /\
    next_visit (p :: S) cap = Ok (Some (visit_of (init_info c (d + 1) x rc), (if is_leaf c then [] else [init_info c (d + 1) x rc]) ++ p' :: S, cap)).
Proof.
  intros Hd Hcap (states & E1 & Hw & Hr & Ha & Ex & Ed & Ep & Er & Hdir). unfold next_visit. rewrite Ed, Hdir.
  destruct (Z.eqb_spec d (-1)); [lia|]. cbn [negb]. unfold sexp_next_incoming. rewrite E1, Ex, Ed, Ep, Er, Hdir.
  destruct states as [|st states]; [done|].
  assert (Hpush : (if is_leaf c then ([], cap, false) else let '(_, cap0, moved) := push (p :: S) cap (init_info c (d + 1) x rc) in ([init_info c (d + 1) x rc], cap0, moved)) = (if is_leaf c then [] else [init_info c (d + 1) x rc], cap, false)).
  { destruct (is_leaf c); [done|]. unfold push. cbn [length]. destruct (Z.ltb_spec cap (Z.of_nat (Datatypes.S (length S)) + 1)); [lia|]. done. }
  assert (Hplain : wf_states states (i_arr p) -> rem = rem_of x states (arr_list (i_arr p)) ->
    exists p', entry x d parent r rem p' /\
      (let! out := (let! p' := Ok (Info x (Some states) (i_arr p) d parent r Incoming) in
       let! p' := match i_state p' with
         | Some (StDone :: _) => Ok (Info x (i_state p') (i_arr p') (i_depth p') (i_parent p') (i_rel p') Outgoing)
         | Some (_ :: _) => Ok p'
         | _ => UB "read out of bounds" end in
       Ok (visit_of (init_info c (d + 1) x rc), (if is_leaf c then [] else [init_info c (d + 1) x rc]) ++ p' :: S, cap)) in Ok (Some out)) =
       Ok (Some (visit_of (init_info c (d + 1) x rc), (if is_leaf c then [] else [init_info c (d + 1) x rc]) ++ p' :: S, cap))).
  { intros Hw' Hr'. destruct states as [|s' states]; [done|]. pose proof (rem_done x _ _ _ Hw') as Hrd. cbn [bind i_state].
    exists (Info x (Some (s' :: states)) (i_arr p) d parent r (match rem with [] => Outgoing | _ => Incoming end)). split.
    - eexists. split; [done|]. done.
    - subst rem. destruct s'; cbn [bind i_arr i_depth i_parent i_rel]; try done; destruct (rem_of _ _ _); done. }
  destruct st; simpl in Hr, Hw.
  - done.
  - injection Hr as -> -> Hr. cbn [bind]. rewrite Hpush. by apply Hplain.
  - injection Hr as -> -> Hr. cbn [bind]. destruct (sexp_node_tag x) as [ct rt]; cbn [fst snd bind] in *. rewrite Hpush. by apply Hplain.
  - injection Hr as -> -> Hr. cbn [bind]. destruct (sexp_node_car x) as [ct rt]; cbn [fst snd bind] in *. rewrite Hpush. by apply Hplain.
  - injection Hr as -> -> Hr. cbn [bind]. destruct (sexp_node_cdr x) as [ct rt]; cbn [fst snd bind] in *. rewrite Hpush. by apply Hplain.
  - destruct (i_arr p) as [[|e a]|] eqn:Earr; try done. simpl in Hr. injection Hr as -> -> ->. cbn [bind]. rewrite Hpush. cbn [bind i_state].
    exists (Info x (Some (match a with [] => done_state | _ => StElt :: states end)) (Some a) d parent r (match a with [] => Outgoing | _ => Incoming end)). split.
    + eexists. split; [done|]. cbn [i_arr i_x i_depth i_parent i_rel i_dir arr_list]. split; [by destruct a|]. split; [by destruct a|].
      split; [unfold arr_kind in *; destruct x as [| | | | |k at' [|]]; try done; by eexists|]. destruct a; done.
    + destruct a; done.
Qed.

(** ** Runs *)
Section runs.
Context (skip : visit -> bool) (cap : Z).
Definition after (v : visit) (S : list info) : list info := if skip v then match v_dir v with Incoming => tl S | _ => S end else S.
Inductive runs : list info -> list visit -> list info -> Prop :=
| r_nil S : runs S [] S
| r_step S v S1 vs S2 : next_visit S cap = Ok (Some (v, S1, cap)) -> runs (after v S1) vs S2 -> runs S (v :: vs) S2.
Lemma runs_app S1 vs1 S2 vs2 S3 : runs S1 vs1 S2 -> runs S2 vs2 S3 -> runs S1 (vs1 ++ vs2) S3.
Proof. induction 1 as [|S v S1' vs S2' E H IH]; intros H2; [done|]. simpl. econstructor; [done|]. by apply IH. Qed.
Definition above (x : sx) (d : Z) (parent : sx) (r : rel) : list info := if is_leaf x then [] else [init_info x d parent r].
Lemma runs_outgoing x d parent r p S : (0 <= d)%Z -> entry x d parent r [] p -> runs (p :: S) [at_ x d parent r Outgoing] S.
Proof.
  intros Hd H. destruct (entry_outgoing _ _ _ _ _ H) as [Hv Hdir]. destruct H as (? & _ & _ & _ & _ & _ & Ed & _).
  econstructor; [|assert (after (at_ x d parent r Outgoing) S = S) as -> by (unfold after; by destruct (skip _)); constructor].
  unfold next_visit. rewrite Ed, Hdir. destruct (Z.eqb_spec d (-1)); [lia|]. cbn [negb]. by rewrite Hv.
Qed.
Lemma runs_kids n (IH : forall x d parent r vs S, nested n x -> (Z.of_nat (length S) + Z.of_nat n <= cap)%Z -> (0 <= d)%Z -> walks (fun _ => RListElt) skip d parent r x vs ->
    exists v vs', vs = v :: vs' /\ v = visit_of (init_info x d parent r) /\ runs (after v (above x d parent r ++ S)) vs' S) x d parent r :
  forall rem vss p S, Forall (fun rc : rel * sx => nested n rc.2) rem -> (Z.of_nat (length S) + 1 + Z.of_nat n <= cap)%Z -> (0 <= d)%Z ->
  Forall2 (fun rc vs => walks (fun _ => RListElt) skip (d + 1) x rc.1 rc.2 vs) rem vss ->
  entry x d parent r rem p -> runs (p :: S) (concat vss ++ [at_ x d parent r Outgoing]) S.
Proof.
  induction rem as [|[rc c] rem IHr]; intros vss p S Hn Hcap Hd HF He.
  - apply Forall2_nil_inv_l in HF as ->. by apply runs_outgoing.
  - apply Forall2_cons_inv_l in HF as (vs & vss' & Hvs & HF & ->). inversion Hn as [|? ? Hn1 Hn2]; subst. cbn [fst snd] in *.
    destruct (next_child x d parent r rc c rem p S cap Hd) as (p' & He' & E); [|done|].
    { destruct (is_leaf c) eqn:El; [by right|left]. inversion Hn1 as [? ? Hk|m ? Hk]; subst; [|lia]. apply kids_nil, leaf_spec in Hk. by rewrite El in Hk. }
    destruct (IH c (d + 1)%Z x rc vs (p' :: S) Hn1) as (v & vs' & -> & -> & Hrun); [cbn [length]; lia|lia|done|].
    simpl. econstructor; [exact E|]. rewrite <- app_assoc. eapply runs_app; [exact Hrun|]. by apply IHr.
Qed.
Lemma runs_object n : forall x d parent r vs S, nested n x -> (Z.of_nat (length S) + Z.of_nat n <= cap)%Z -> (0 <= d)%Z -> walks (fun _ => RListElt) skip d parent r x vs ->
  exists v vs', vs = v :: vs' /\ v = visit_of (init_info x d parent r) /\ runs (after v (above x d parent r ++ S)) vs' S.
Proof.
  induction n as [|n IH]; intros x d parent r vs S Hn Hcap Hd H; rewrite init_visit; unfold above;
    (inversion H as [d1 p1 r1 x1 Hk|d1 p1 r1 x1 Hk Hs|d1 p1 r1 x1 vss Hk Hs HF]; subst; fold (kids x) in *;
     [assert (is_leaf x = true) as Hl by (by apply leaf_spec)|assert (is_leaf x = false) as Hl by (apply not_true_iff_false; by rewrite leaf_spec)..]; rewrite Hl).
  - do 2 eexists. split; [done|]. split; [done|]. assert (after (at_ x d parent r Leaf) S = S) as E by (unfold after; by destruct (skip _)). simpl. rewrite E. constructor.
  - do 2 eexists. split; [done|]. split; [done|]. unfold after. rewrite Hs. simpl. constructor.
  - inversion Hn as [? ? Hc|]; subst. by apply kids_nil in Hc.
  - do 2 eexists. split; [done|]. split; [done|]. assert (after (at_ x d parent r Leaf) S = S) as E by (unfold after; by destruct (skip _)). simpl. rewrite E. constructor.
  - do 2 eexists. split; [done|]. split; [done|]. unfold after. rewrite Hs. simpl. constructor.
  - do 2 eexists. split; [done|]. split; [done|]. unfold after. rewrite Hs. simpl.
    inversion Hn as [? ? Hc|m ? Hc Hns]; subst; [by apply kids_nil in Hc|].
    eapply (runs_kids n IH); [|lia|done|exact HF|by apply init_entry]. rewrite <- kids_snd in Hns. exact (proj1 (Forall_fmap snd _ _) Hns).
Qed.
End runs.
Lemma runs_walk skip cap : forall vs S, runs skip cap S vs [] -> forall fuel it, length vs < fuel -> it_cap it = cap ->
  (if it_skip it then match v_dir (it_cur it) with Incoming => tl (it_stack it) | _ => it_stack it end else it_stack it) = S -> walk skip fuel it = Ok vs.
Proof.
  induction vs as [|v vs IH]; intros S H [|fuel] it Hf Hc HS; simpl in Hf; try lia.
  - inversion H; subst. simpl. unfold r_sexp_next. destruct (it_stack it) as [|p rest]; [done|]. simpl in *.
    assert ((if it_skip it then match v_dir (it_cur it) with Incoming => rest | _ => p :: rest end else p :: rest) = []) as -> by done. done.
  - inversion H as [|? ? S1 ? ? E Hr]; subst. simpl. unfold r_sexp_next. destruct (it_stack it) as [|p rest].
    { exfalso. assert (next_visit [] (it_cap it) = Ok (Some (v, S1, it_cap it))) as Hx; [|done]. destruct (it_skip it); [|done]. by destruct (v_dir (it_cur it)). }
    cbn [tl] in E. rewrite E. cbn [bind it_cur it_stack it_cap].
    rewrite (IH (after skip v S1) Hr fuel); [done|lia|done|]. cbn [it_skip it_cur it_stack]. done.
Qed.
(** The iterator visits an object as specified, if its nodes are nested at most
    256 deep. *)
Theorem C52_walk_partial skip root vs fuel : nested 256 root -> walks (fun _ => RListElt) skip 0 XNull RRoot root vs -> length vs < fuel ->
  walk skip fuel (r_new_sexp_iterator root) = Ok vs.
Proof.
  intros Hn Hw Hf. destruct (runs_object skip STACK_INIT_SIZE 256 root 0 XNull RRoot vs [] Hn) as (v & vs' & -> & -> & Hr); [unfold STACK_INIT_SIZE; simpl; lia|lia|done|].
  apply (runs_walk skip STACK_INIT_SIZE _ [init_info root (-1) XNull RRoot]); [|done|done|done].
  econstructor; [|exact Hr]. unfold next_visit, above. clear.
  unfold init_info. destruct (is_leaf root) eqn:El; [done|]. unfold is_leaf in El. destruct root as [| |x a|k a tag car cdr|a tag prot|k a [|e l]]; simpl in *; done.
Qed.
(** There is such a list of visits for every object, and only one. *)
Lemma sx_size_ind (P : sx -> Prop) : (forall x, Forall P (map snd (kids x)) -> P x) -> forall x, P x.
Proof.
  intros HP. fix IH 1. intros x. apply HP. destruct x as [| |x a|k a tag car cdr|a tag prot|k a elts].
  - constructor.
  - constructor.
  - unfold kids. simpl. pose proof (IH a) as Ha. destruct a; simpl; constructor; done || constructor.
  - unfold kids. simpl. rewrite map_app. apply Forall_app. split; [pose proof (IH a) as Ha; destruct a; simpl; constructor; done || constructor|].
    pose proof (IH tag). pose proof (IH car). pose proof (IH cdr). destruct k; repeat constructor; done.
  - unfold kids. simpl. rewrite map_app. apply Forall_app. split; [pose proof (IH a) as Ha; destruct a; simpl; constructor; done || constructor|].
    pose proof (IH tag). pose proof (IH prot). repeat constructor; done.
  - unfold kids. simpl. rewrite map_app. apply Forall_app. split; [pose proof (IH a) as Ha; destruct a; simpl; constructor; done || constructor|].
    rewrite map_map. simpl. induction elts as [|e l IHl]; simpl; [constructor|]. constructor; [apply IH|exact IHl].
Qed.
Theorem C52_visits skip d parent r x : exists! vs, walks (fun _ => RListElt) skip d parent r x vs.
Proof.
  revert d parent r. induction x as [x IH] using sx_size_ind. intros d parent r.
  destruct (decide (kids x = [])) as [Hk|Hk].
  - eexists. split; [by apply w_leaf|]. intros vs H. inversion H; subst; done.
  - destruct (skip (at_ x d parent r Incoming)) eqn:Es.
    + eexists. split; [by apply w_skip|]. intros vs H. inversion H; subst; [done|done|congruence].
    + assert (exists vss, Forall2 (fun rc vs => walks (fun _ => RListElt) skip (d + 1) x rc.1 rc.2 vs) (kids x) vss /\
        forall vss', Forall2 (fun rc vs => walks (fun _ => RListElt) skip (d + 1) x rc.1 rc.2 vs) (kids x) vss' -> vss = vss') as (vss & Hv & Hu).
      { clear Hk. induction (kids x) as [|[rc c] l IHl]; [exists []; split; [constructor|]; intros vss' H; by apply Forall2_nil_inv_l in H|].
        simpl in IH. inversion IH as [|? ? Hc Hl]; subst. destruct (IHl Hl) as (vss & Hv & Hu). destruct (Hc (d + 1)%Z x rc) as (vs & Hvs & Huv).
        exists (vs :: vss). split; [by constructor|]. intros vss' H. apply Forall2_cons_inv_l in H as (y & ys & Hy & Hys & ->). f_equal; [by apply Huv|by apply Hu]. }
      eexists. split; [by apply w_inner|]. intros vs H. inversion H; subst; [done|congruence|]. do 2 f_equal. f_equal. by apply Hu.
Qed.

(** ** Examples *)
(** structure(list("s", NULL), names = <character()>) without skipping *)
Definition ex_names := XNode KPairlist XNull (XAtom [7]%Z XNull) (XVector KChr XNull []) XNull.
Definition ex_list := XVector KList ex_names [XVector KChr XNull [XString [115]%Z]; XNull].
Lemma nested_mono n m x : n <= m -> nested n x -> nested m x.
Proof.
  revert m x. induction n as [|n IH]; intros m x Hm H; inversion H as [|? ? Hk Hn]; subst; try (by apply n_leaf).
  destruct m as [|m]; [lia|]. apply n_inner; [done|]. eapply Forall_impl; [exact Hn|]. intros c Hc. apply (IH m); [lia|done].
Qed.
Example C52_walk_example :
  (let! vs := walk (fun _ => false) 20 (r_new_sexp_iterator ex_list) in Ok (map (fun v => (v_rel v, v_depth v, v_dir v, v_i v)) vs)) =
    Ok [(RRoot, 0, Incoming, 2); (RAttrib, 1, Incoming, -1); (RNodeTag, 2, Leaf, -1); (RNodeCar, 2, Leaf, -1); (RNodeCdr, 2, Leaf, -1); (RAttrib, 1, Outgoing, -1);
        (RListElt, 1, Incoming, 1); (RListElt, 2, Leaf, -1); (RListElt, 1, Outgoing, 0); (RListElt, 1, Leaf, -1); (RRoot, 0, Outgoing, 0)]%Z /\
  (let! vs := walk (fun v => match v_rel v with RAttrib => true | _ => false end) 20 (r_new_sexp_iterator ex_list) in Ok (map (fun v => (v_rel v, v_depth v, v_dir v, v_i v)) vs)) =
    Ok [(RRoot, 0, Incoming, 2); (RAttrib, 1, Incoming, -1);
        (RListElt, 1, Incoming, 1); (RListElt, 2, Leaf, -1); (RListElt, 1, Outgoing, 0); (RListElt, 1, Leaf, -1); (RRoot, 0, Outgoing, 0)]%Z /\
  nested 256 ex_list.
Proof.
  split; [vm_compute; reflexivity|]. split; [vm_compute; reflexivity|]. apply (nested_mono 2); [lia|].
  apply n_inner; [done|]. simpl. constructor; [|constructor; [|constructor; [by apply n_leaf|constructor]]].
  - apply n_inner; [done|]. simpl. repeat constructor.
  - apply n_inner; [done|]. simpl. repeat constructor.
Qed.

(** ** Deep objects *)
(** [n] lists of one element around NULL *)
Fixpoint deep (n : nat) : sx := match n with 0 => XNull | S n => XVector KList XNull [deep n] end.
Lemma deep_length skip n : (forall v, skip v = false) -> forall d parent r vs, walks (fun _ => RListElt) skip d parent r (deep n) vs -> length vs = 2 * n + 1.
Proof.
  intros Hs. induction n as [|n IH]; intros d parent r vs H.
  - inversion H; subst; done.
  - inversion H as [? ? ? ? Hk|? ? ? ? Hk Hx|? ? ? ? vss Hk Hx HF]; subst; [done|by rewrite Hs in Hx|].
    simpl in HF. apply Forall2_cons_inv_l in HF as (y & ys & Hy & Hys & ->). apply Forall2_nil_inv_l in Hys as ->. cbn [fst snd] in Hy.
    apply IH in Hy. simpl. rewrite app_nil_r, app_length. simpl. lia.
Qed.
(** With the 257th node the stack is moved; the position in the parent is then
    advanced in the old memory, so that the same child is visited again. *)
Lemma deep_nested n : nested n (deep n).
Proof. induction n as [|n IH]; [by apply n_leaf|]. simpl. apply n_inner; [done|]. simpl. constructor; [exact IH|constructor]. Qed.
Lemma deep_walk root fuel n m k : nested k root -> (forall vs, walks (fun _ => RListElt) (fun _ => false) 0 XNull RRoot root vs -> length vs = n) ->
  (let! vs := walk (fun _ => false) fuel (r_new_sexp_iterator root) in Ok (length vs)) = Ok m ->
  exists root vs vs', nested k root /\ walks (fun _ => RListElt) (fun _ => false) 0 XNull RRoot root vs /\
    walk (fun _ => false) fuel (r_new_sexp_iterator root) = Ok vs' /\ length vs = n /\ length vs' = m.
Proof.
  intros Hn Hl E. exists root. destruct (C52_visits (fun _ => false) 0 XNull RRoot root) as (vs & Hw & _). exists vs.
  destruct (walk _ _ _) as [vs'| |]; cbn [bind] in E; try done. exists vs'. injection E as E. split; [done|]. split; [done|]. split; [done|]. split; [by apply Hl|done].
Qed.
Lemma deep_visits : (let! vs := walk (fun _ => false) 1000 (r_new_sexp_iterator (deep 257)) in Ok (length vs)) = Ok 518.
Proof. vm_compute. reflexivity. Qed.
Theorem C52_deep_refuted : exists root vs vs', nested 257 root /\ walks (fun _ => RListElt) (fun _ => false) 0 XNull RRoot root vs /\
  walk (fun _ => false) 1000 (r_new_sexp_iterator root) = Ok vs' /\ length vs = 515 /\ length vs' = 518.
Proof.
  apply (deep_walk (deep 257)); [apply deep_nested| |apply deep_visits]. intros vs H. exact (deep_length (fun _ => false) 257 (fun _ => eq_refl) _ _ _ _ H).
Qed.
(** The elements of character vectors and expressions are said to be elements of
    a list. *)
Theorem C52_relation_refuted : exists root vs vs', walks elt_rel (fun _ => false) 0 XNull RRoot root vs /\
  walk (fun _ => false) 10 (r_new_sexp_iterator root) = Ok vs' /\ map v_rel vs = [RRoot; RCharacterElt; RRoot] /\ map v_rel vs' = [RRoot; RListElt; RRoot].
Proof.
  exists (XVector KChr XNull [XString [97]%Z]). do 2 eexists. split.
  - apply w_inner; [done|done|]. constructor; [|constructor]. by apply w_leaf.
  - split; [vm_compute; reflexivity|]. done.
Qed.
Print Assumptions C52_walk_partial.
Print Assumptions C52_visits.
Print Assumptions C52_deep_refuted.
Print Assumptions C52_relation_refuted.
