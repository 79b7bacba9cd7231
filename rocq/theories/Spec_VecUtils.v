(** * Specification of the small utilities: nothing here refers to the model
    beyond its types. *)
From Verif Require Import Base M_VecUtils.
From stdpp Require Import list strings.
Open Scope nat_scope.

(** The bytes an element shows to C code. *)
Definition shown (s : option string) : string := default "NA"%string s.

(** [i] is the first position where a string is shown. *)
Definition first_at (chr : list (option string)) (c : string) (i : nat) : Prop :=
  (exists s, chr !! i = Some s /\ shown s = c) /\
  forall j s, j < i -> chr !! j = Some s -> shown s <> c.

(** [y[from, from + n)] written over [x] from [offset]. *)
Definition spliced {A} (x : list A) (offset : nat) (y : list A) (from n : nat) : list A :=
  take offset x ++ take n (drop from y) ++ drop (offset + n) x.

(** The integers [from], [from + 1], …, [n] of them. *)
Definition ints (from : Z) (n : nat) : list Z := (fun i => (from + Z.of_nat i)%Z) <$> seq 0 n.

(** The value a list of attributes gives to a name. *)
Definition wanted {V} (l : list (string * option V)) (k : string) (v : V) : Prop :=
  (k, Some v) ∈ l.

(** How often an object is preserved more than released. *)
Fixpoint balance (ops : list pop) (x : nat) : Z :=
  match ops with
  | [] => 0
  | Preserve y :: ops => ((if decide (y = x) then 1 else 0) + balance ops x)%Z
  | Unpreserve y :: ops => ((if decide (y = x) then -1 else 0) + balance ops x)%Z
  end.
(** No object is released more often than it was preserved before. *)
Definition balanced (ops : list pop) : Prop :=
  forall k x, (0 <= balance (take k ops) x)%Z.
