(** * Specification: filling in missing values *)
From Verif Require Import Base.

(** The nearest non-missing row at or before / at or after row [i] is row [j]. *)
Definition prev_valid (miss : nat -> Prop) (n i j : nat) : Prop :=
  j <= i /\ ~ miss j /\ forall k, j < k <= i -> miss k.
Definition next_valid (miss : nat -> Prop) (n i j : nat) : Prop :=
  i <= j < n /\ ~ miss j /\ forall k, i <= k < j -> miss k.
Definition within (max : option Z) (i j : nat) : Prop :=
  match max with None => True | Some m => (Z.abs (Z.of_nat i - Z.of_nat j) <= m)%Z end.
(** Row [i] takes its value from row [j] unless that is too far away. *)
Definition takes (max : option Z) (i j l : nat) : Prop :=
  (within max i j -> l = j) /\ (~ within max i j -> l = i).
(** Row [i] of the result is row [l] of the input:
    - rows with a valid row before them (after them, when filling upwards) take that row;
    - with [leading], the other rows take the first (last) valid row;
    - rows that are not filled stay missing. *)
Definition filled (down leading : bool) (max : option Z) (n : nat) (miss : nat -> Prop) (i l : nat) : Prop :=
  let src := if down then prev_valid miss n i else next_valid miss n i in
  let alt := if down then next_valid miss n i else prev_valid miss n i in
  l < n /\
  (forall j, src j -> takes max i j l) /\
  ((forall j, ~ src j) -> leading = true -> forall j, alt j -> takes max i j l) /\
  ((forall j, ~ src j) -> (leading = false \/ forall j, ~ alt j) -> miss l).
