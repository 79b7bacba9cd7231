(** * Base: outcomes, C-like loops and arrays used by every model file.

    Nothing here models a specific vctrs function.  The C code of vctrs is
    modelled with three kinds of outcome:
    - [Ok v]    : the function returned [v];
    - [Err m]   : the function raised an R error (r_abort, r_stop_internal, ...);
    - [UB m]    : the C code performed an operation whose behaviour the C
                  standard (or R's memory model) does not define, such as an
                  out-of-bounds array access. *)
From Coq Require Export ZArith Lia.
From stdpp Require Export list list_numbers.

From Coq Require String.
Export String.StringSyntax.
Delimit Scope string_scope with string.

#[global] Open Scope Z_scope.
#[global] Open Scope nat_scope.

Inductive res (A : Type) : Type :=
| Ok (a : A)
| Err (msg : String.string)
| UB (msg : String.string).
Arguments Ok {A} a.
Arguments Err {A} msg%string.
Arguments UB {A} msg%string.

Definition bind {A B} (m : res A) (f : A -> res B) : res B :=
  match m with Ok a => f a | Err e => Err e | UB e => UB e end.
Notation "'let!' x := m 'in' k" := (bind m (fun x => k))
  (at level 200, x pattern, m at level 100, k at level 200, right associativity).

Lemma bind_Ok {A B} (m : res A) (f : A -> res B) b :
  bind m f = Ok b <-> exists a, m = Ok a /\ f a = Ok b.
Proof.
  destruct m as [a|e|e]; simpl; split; intros H;
    [eexists; split; [reflexivity | exact H]
    | destruct H as (a' & [= ->] & H); exact H
    | discriminate | destruct H as (? & ? & ?); discriminate
    | discriminate | destruct H as (? & ? & ?); discriminate ].
Qed.

(** ** Array access: [p[i]] and [p[i] = v] on an allocated block *)
Definition rd {A} (l : list A) (i : nat) : res A :=
  match l !! i with Some a => Ok a | None => UB "out-of-bounds read" end.
Definition wr {A} (l : list A) (i : nat) (v : A) : res (list A) :=
  if i <? length l then Ok (<[i:=v]> l) else UB "out-of-bounds write".
(** Access through a signed index (r_ssize, int). *)
Definition rdZ {A} (l : list A) (i : Z) : res A :=
  if (i <? 0)%Z then UB "out-of-bounds read" else rd l (Z.to_nat i).
Definition wrZ {A} (l : list A) (i : Z) (v : A) : res (list A) :=
  if (i <? 0)%Z then UB "out-of-bounds write" else wr l (Z.to_nat i) v.

Lemma rd_Ok {A} (l : list A) i a : rd l i = Ok a <-> l !! i = Some a.
Proof. unfold rd. destruct (l !! i); split; congruence. Qed.
Lemma wr_Ok {A} (l : list A) i v : i < length l -> wr l i v = Ok (<[i:=v]> l).
Proof. intros H. unfold wr. apply Nat.ltb_lt in H as ->. reflexivity. Qed.
Lemma wr_inv {A} (l l' : list A) i v :
  wr l i v = Ok l' -> i < length l /\ l' = <[i:=v]> l.
Proof. unfold wr. destruct (Nat.ltb_spec i (length l)); [|discriminate]. intros [= <-]; auto. Qed.
Lemma rdZ_nat {A} (l : list A) (i : nat) : rdZ l (Z.of_nat i) = rd l i.
Proof. unfold rdZ. destruct (Z.ltb_spec (Z.of_nat i) 0); [lia|]. by rewrite Nat2Z.id. Qed.
Lemma wrZ_nat {A} (l : list A) (i : nat) v : wrZ l (Z.of_nat i) v = wr l i v.
Proof. unfold wrZ. destruct (Z.ltb_spec (Z.of_nat i) 0); [lia|]. by rewrite Nat2Z.id. Qed.

(** ** Loops: [for (i = lo; i < lo + cnt; ++i) body] *)
Section loops.
  Context {S : Type}.

  Fixpoint for_ (lo cnt : nat) (body : nat -> S -> res S) (s : S) : res S :=
    match cnt with
    | O => Ok s
    | Datatypes.S c => let! s' := body lo s in for_ (Datatypes.S lo) c body s'
    end.

  (** A loop whose body may [break]. *)
  Inductive ctl : Type := Next (s : S) | Break (s : S).
  Definition ctl_state (c : ctl) : S := match c with Next s => s | Break s => s end.

  Fixpoint for_brk (lo cnt : nat) (body : nat -> S -> res ctl) (s : S) : res S :=
    match cnt with
    | O => Ok s
    | Datatypes.S c =>
        let! r := body lo s in
        match r with
        | Next s' => for_brk (Datatypes.S lo) c body s'
        | Break s' => Ok s'
        end
    end.

  Lemma for_inv (I : nat -> S -> Prop) lo cnt body s :
    I lo s ->
    (forall i s, lo <= i < lo + cnt -> I i s ->
       exists s', body i s = Ok s' /\ I (Datatypes.S i) s') ->
    exists s', for_ lo cnt body s = Ok s' /\ I (lo + cnt) s'.
  Proof.
    revert lo s. induction cnt as [|c IH]; intros lo s H0 Hstep; simpl.
    - exists s. split; [reflexivity|]. by rewrite Nat.add_0_r.
    - destruct (Hstep lo s) as (s' & Hb & HI); [lia|done|]. rewrite Hb. simpl.
      destruct (IH (Datatypes.S lo) s') as (s'' & Hf & HI'); [done| |].
      + intros i t Hi Ht. apply Hstep; [lia|done].
      + exists s''. split; [done|]. by replace (lo + Datatypes.S c) with (Datatypes.S lo + c) by lia.
  Qed.

  Lemma for_brk_inv (I : nat -> S -> Prop) (Q : S -> Prop) lo cnt body s :
    I lo s ->
    (forall i s, lo <= i < lo + cnt -> I i s ->
       (exists s', body i s = Ok (Next s') /\ I (Datatypes.S i) s') \/
       (exists s', body i s = Ok (Break s') /\ Q s')) ->
    (forall s, I (lo + cnt) s -> Q s) ->
    exists s', for_brk lo cnt body s = Ok s' /\ Q s'.
  Proof.
    revert lo s. induction cnt as [|c IH]; intros lo s H0 Hstep Hend; simpl.
    - exists s. split; [reflexivity|]. apply Hend. by rewrite Nat.add_0_r.
    - destruct (Hstep lo s) as [(s' & Hb & HI)|(s' & Hb & HQ)]; [lia|done| |]; rewrite Hb; simpl.
      + apply IH; [done| |].
        * intros i t Hi Ht. apply Hstep; [lia|done].
        * intros t Ht. apply Hend. by replace (lo + Datatypes.S c) with (Datatypes.S lo + c) by lia.
      + eauto.
  Qed.

  Lemma for_ext lo cnt body1 body2 s :
    (forall i s, lo <= i < lo + cnt -> body1 i s = body2 i s) ->
    for_ lo cnt body1 s = for_ lo cnt body2 s.
  Proof.
    revert lo s. induction cnt as [|c IH]; intros lo s H; simpl; [done|].
    rewrite H by lia. destruct (body2 lo s); simpl; [|done|done].
    apply IH. intros; apply H; lia.
  Qed.

  Lemma for_snoc lo cnt body s :
    for_ lo (Datatypes.S cnt) body s =
    (let! s' := for_ lo cnt body s in body (lo + cnt) s').
  Proof.
    revert lo s. induction cnt as [|c IH]; intros lo s.
    - simpl. rewrite Nat.add_0_r. by destruct (body lo s).
    - change (for_ lo (Datatypes.S (Datatypes.S c)) body s)
        with (let! s' := body lo s in for_ (Datatypes.S lo) (Datatypes.S c) body s').
      change (for_ lo (Datatypes.S c) body s)
        with (let! s' := body lo s in for_ (Datatypes.S lo) c body s').
      destruct (body lo s) as [s1|e|e]; simpl; [|done|done].
      change (let! s' := body (Datatypes.S lo) s1 in for_ (Datatypes.S (Datatypes.S lo)) c body s')
        with (for_ (Datatypes.S lo) (Datatypes.S c) body s1).
      rewrite IH. by replace (lo + Datatypes.S c) with (Datatypes.S lo + c) by lia.
  Qed.
End loops.
Arguments Next {S} s.
Arguments Break {S} s.

(** A loop running downwards: [for (i = hi - 1; i >= lo; --i)], [cnt = hi - lo]. *)
Fixpoint for_down {S} (lo cnt : nat) (body : nat -> S -> res S) (s : S) : res S :=
  match cnt with
  | O => Ok s
  | Datatypes.S c => let! s' := body (lo + c) s in for_down lo c body s'
  end.

Lemma for_down_inv {S} (I : nat -> S -> Prop) lo cnt body s :
  I (lo + cnt) s ->
  (forall i s, lo <= i < lo + cnt -> I (Datatypes.S i) s ->
     exists s', body i s = Ok s' /\ I i s') ->
  exists s', for_down lo cnt body s = Ok s' /\ I lo s'.
Proof.
  revert s. induction cnt as [|c IH]; intros s H0 Hstep; simpl.
  - exists s. split; [reflexivity|]. by rewrite Nat.add_0_r in H0.
  - destruct (Hstep (lo + c) s) as (s' & Hb & HI); [lia| |].
    { by replace (Datatypes.S (lo + c)) with (lo + Datatypes.S c) by lia. }
    rewrite Hb. simpl. apply IH; [done|]. intros i t Hi Ht. apply Hstep; [lia|done].
Qed.

(** ** C integer ranges (R only runs where [int] is 32 bits) *)
Definition INT_MIN : Z := (-2147483648)%Z.
Definition INT_MAX : Z := 2147483647%Z.
(** [R_NaInt] / [r_globals.na_int]: R encodes a missing integer or logical as INT_MIN. *)
Definition NA_INTEGER : Z := INT_MIN.
Definition NA_LOGICAL : Z := INT_MIN.
(** [R_LEN_T_MAX]: largest size of a short vector. *)
Definition R_LEN_T_MAX : Z := INT_MAX.
(** [R_SSIZE_MAX]/[R_SSIZE_MIN] (src/rlang/rlang-types.h:27-28): [r_ssize] is
    [R_xlen_t], a 64-bit [ptrdiff_t], of which R uses sizes up to [R_XLEN_T_MAX],
    which is 2^52. *)
Definition R_SSIZE_MAX : Z := 4503599627370496%Z.
Definition R_SSIZE_MIN : Z := (-4503599627370496)%Z.
Definition is_int (z : Z) : Prop := (INT_MIN <= z <= INT_MAX)%Z.

Definition two32 : Z := 4294967296%Z.
Definition two64 : Z := 18446744073709551616%Z.
Definition u32 (z : Z) : Z := (z mod two32)%Z.
Definition u64 (z : Z) : Z := (z mod two64)%Z.
