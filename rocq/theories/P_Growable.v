(** * Property C43: growable vectors keep what was pushed *)
From Verif Require Import Base M_Growable L_Proxy L_Growable.
From Coq Require Import ZifyBool ZifyNat.

(** Push all of [vs], one after the other. *)
Fixpoint push_all (g : growable) (vs : list Z) : res growable :=
  match vs with [] => Ok g | v :: vs' => let! g' := growable_push_int g v in push_all g' vs' end.

Lemma push_all_inv vs : forall g us, ginv g us -> (Z.of_nat (length us + length vs) <= 2 ^ 30)%Z ->
  exists g', push_all g vs = Ok g' /\ ginv g' (us ++ vs).
Proof.
  induction vs as [|v vs IH]; intros g us I Hl; simpl in *.
  - exists g. by rewrite app_nil_r.
  - destruct (growable_push_inv g us v I ltac:(lia)) as (g' & -> & I' & _). simpl.
    destruct (IH g' (us ++ [v]) I') as (g'' & -> & I''); [rewrite app_length; simpl; lia|].
    exists g''. split; [done|]. by rewrite <- app_assoc in I''.
Qed.
(** The full statement has no bound on the number of values; see the refutation. *)
Theorem C43_growable_partial c vs : (1 <= c)%Z -> (Z.of_nat (length vs) <= 2 ^ 30)%Z ->
  exists g, push_all (new_growable c) vs = Ok g /\ growable_values g = vs.
Proof.
  intros Hc Hl. destruct (push_all_inv vs (new_growable c) [] (new_growable_inv c Hc) ltac:(simpl; lia)) as (g & E & I).
  exists g. split; [done|]. by apply growable_values_inv.
Qed.
Print Assumptions C43_growable_partial.
Example C43_growable_run : exists g, push_all (new_growable 2) [5; 7; 9; 11; 13]%Z = Ok g /\ growable_values g = [5; 7; 9; 11; 13]%Z /\ g_capacity g = 8%Z.
Proof. eexists. vm_compute. done. Qed.

(** The one caller starts at capacity 256 (src/dictionary.c:224): value number
    2^30 + 1 doubles an [int] capacity of 2^30. *)
Theorem C43_growable_refuted : exists vs, forall v, exists g,
  push_all (new_growable 256) vs = Ok g /\ growable_push_int g v = UB "signed integer overflow".
Proof.
  destruct (Z_of_nat_complete (2 ^ 30)) as [K HK]; [lia|].
  exists (replicate K 1%Z). intros v.
  assert (H : forall us vs g, ginv g us -> gcap 256 g -> (Z.of_nat (length us + length vs) <= 2 ^ 30)%Z ->
    exists g', push_all g vs = Ok g' /\ ginv g' (us ++ vs) /\ gcap 256 g').
  { intros us vs. revert us. clear. induction vs as [|w vs IH]; intros us g I G Hl; simpl in *.
    - exists g. by rewrite app_nil_r.
    - destruct (growable_push_inv g us w I ltac:(lia)) as (g' & -> & I' & E). simpl.
      destruct (IH (us ++ [w]) g' I') as (g'' & -> & I'' & G''); [by eapply gcap_push|rewrite app_length; simpl; lia|].
      exists g''. split; [done|]. by rewrite <- app_assoc in I''. }
  destruct (H [] (replicate K 1%Z) (new_growable 256)) as (g & E & I & G);
    [by apply new_growable_inv|apply gcap_new|simpl; rewrite replicate_length; lia|].
  exists g. split; [done|]. eapply growable_push_overflow; [exact I|done|]. simpl. rewrite replicate_length. lia.
Qed.
Print Assumptions C43_growable_refuted.

(** ** Dynamic arrays: any sequence of pushes and pops behaves like a stack *)
Inductive op A := Push (v : A) | Pop.
Arguments Push {A}. Arguments Pop {A}.
Section ops.
  Context {A : Type} (zero : A).
  (** What a stack does; popping an empty one is outside the contract. *)
  Fixpoint stack_run (vs : list A) (ops : list (op A)) : option (list A * list A) :=
    match ops with
    | [] => Some (vs, [])
    | Push v :: ops' => stack_run (vs ++ [v]) ops'
    | Pop :: ops' =>
        match reverse vs with
        | [] => None
        | v :: r => '(vs', out) ← stack_run (reverse r) ops'; Some (vs', v :: out)
        end
    end.
  (** What the array does. *)
  Fixpoint dyn_run (p : dyn_array) (ops : list (op A)) : res (dyn_array * list A) :=
    match ops with
    | [] => Ok (p, [])
    | Push v :: ops' => let! p' := r_dyn_push_back zero p v in dyn_run p' ops'
    | Pop :: ops' =>
        let! (p', v) := r_dyn_pop_back p in
        let! (p'', out) := dyn_run p' ops' in Ok (p'', v :: out)
    end.
  Lemma dyn_run_inv ops : forall p us vs out, dyninv p us ->
    (2 * Z.of_nat (length us + length ops) <= R_SSIZE_MAX)%Z -> stack_run us ops = Some (vs, out) ->
    exists p', dyn_run p ops = Ok (p', out) /\ dyninv p' vs.
  Proof.
    induction ops as [|[v|] ops IH]; intros p us vs out I Hl E; simpl in *.
    - injection E as <- <-. by exists p.
    - destruct (r_dyn_push_back_inv zero p us v I ltac:(lia)) as (p' & -> & I'). simpl.
      apply (IH p' (us ++ [v])); [done|rewrite app_length; simpl; lia|done].
    - destruct (reverse us) as [|v r] eqn:Er; [done|].
      assert (us = reverse r ++ [v]) as -> by (rewrite <- (reverse_involutive us), Er; apply reverse_cons).
      destruct (stack_run (reverse r) ops) as [[vs' out']|] eqn:Es; [|done]. simpl in E. injection E as <- <-.
      destruct (r_dyn_pop_back_inv p (reverse r) v I) as (p' & -> & I'). simpl.
      destruct (IH p' (reverse r) vs' out' I') as (p'' & -> & I''); [rewrite app_length in Hl; simpl in Hl; lia|done|].
      simpl. by exists p''.
  Qed.
  Theorem C43_dyn_array c ops vs out : (1 <= c)%Z -> (2 * Z.of_nat (length ops) <= R_SSIZE_MAX)%Z ->
    stack_run [] ops = Some (vs, out) ->
    exists p, dyn_run (r_new_dyn_vector zero c) ops = Ok (p, out) /\ r_dyn_unwrap zero p = vs.
  Proof.
    intros Hc Hl E. destruct (dyn_run_inv ops (r_new_dyn_vector zero c) [] vs out) as (p & E' & I);
      [by apply r_new_dyn_vector_inv|simpl; lia|done|].
    exists p. split; [done|]. by apply r_dyn_unwrap_inv.
  Qed.
  (** An array created with capacity 0 never grows: the first push stores out of bounds.
      (Every caller passes at least 1; see DESIGN.md.) *)
  Theorem C43_dyn_array_capacity0_refuted v : exists m, r_dyn_push_back zero (r_new_dyn_vector zero 0) v = UB m.
  Proof. eexists. reflexivity. Qed.
End ops.
Print Assumptions C43_dyn_array.
Print Assumptions C43_dyn_array_capacity0_refuted.
Example C43_dyn_run :
  stack_run [] [Push 1; Push 2; Push 3; Pop; Push 4; Push 5]%Z = Some ([1; 2; 4; 5], [3])%Z /\
  exists p, dyn_run 0%Z (r_new_dyn_vector 0%Z 1) [Push 1; Push 2; Push 3; Pop; Push 4; Push 5]%Z = Ok (p, [3]%Z) /\
    r_dyn_unwrap 0%Z p = [1; 2; 4; 5]%Z /\ dyn_capacity p = 4%Z.
Proof. split; [done|]. eexists. vm_compute. done. Qed.
