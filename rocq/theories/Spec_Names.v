(** * Specification: repaired names.  Strings are lists of bytes. *)
From Verif Require Import Base M_Double M_Scalar.

(** A run of decimal digits *)
Definition is_digit (c : Z) : Prop := (48 <= c <= 57)%Z.
Definition digit_run (ds : list Z) : Prop := ds <> [] /\ Forall is_digit ds.
(** The number a run of digits writes *)
Definition number (ds : list Z) : Z := fold_left (fun a d => a * 10 + (d - 48))%Z ds 0%Z.
(** [ds] is the decimal representation of [n]: digits, no leading zero *)
Definition writes (n : Z) (ds : list Z) : Prop :=
  digit_run ds /\ number ds = n /\ (length ds = 1 \/ ds !! 0 <> Some 48%Z).

Definition three_dots : list Z := [46; 46; 46]%Z.

(** [b] followed by one suffix [...j] *)
Definition one_suffix (b s : list Z) : Prop := b <> [] /\ exists ds, digit_run ds /\ s = b ++ three_dots ++ ds.
Definition unsuffixed (s : list Z) : Prop := forall b, ~ one_suffix b s.
(** [b] followed by any number of suffixes *)
Inductive suffixes (b : list Z) : list Z -> Prop :=
| suffixes_none : suffixes b b
| suffixes_one s t : suffixes b s -> one_suffix s t -> suffixes b t.

(** White space of C *)
Definition is_white (c : Z) : Prop := (c = 32 \/ 9 <= c <= 13)%Z.
(** Two or three dots followed by a number that is not 0 (and then anything):
    [..1], [...2], but also [..1abc] or [.. -1]. *)
Definition dotdot_number (s : list Z) : Prop :=
  exists pre white sign ds rest,
    s = pre ++ white ++ sign ++ ds ++ rest /\
    (pre = [46; 46]%Z \/ pre = three_dots) /\ Forall is_white white /\
    (sign = [] \/ sign = [43]%Z \/ sign = [45]%Z) /\
    Forall is_digit ds /\ exists d, d ∈ ds /\ d <> 48%Z.

(** Names that are replaced by their position *)
Definition replaced (s : rstr) : Prop :=
  match s with
  | None => True
  | Some s => s = [] \/ s = three_dots \/ dotdot_number s
  end.

(** What remains of a name when it is replaced or stripped of its suffixes *)
Definition stem (s : rstr) (b : list Z) : Prop :=
  (replaced s /\ b = []) \/
  (~ replaced s /\ b <> [] /\ unsuffixed b /\ exists t, s = Some t /\ suffixes b t).

(** The repaired names: the stem of the name, with the position of the name
    appended when the stem is empty or is also the stem of another name. *)
Definition repaired (names out : list (rstr)) : Prop :=
  exists stems, Forall2 stem names stems /\ length out = length names /\
    forall i b, stems !! i = Some b ->
      (b = [] \/ (exists j, j <> i /\ stems !! j = Some b)) /\
        (exists ds, writes (Z.of_nat i + 1) ds /\ out !! i = Some (Some (b ++ three_dots ++ ds))) \/
      b <> [] /\ (forall j, j <> i -> stems !! j <> Some b) /\ out !! i = Some (Some b).

(** Strings are C strings, so short that their length and 28 more fit an [int],
    and there are at most [INT_MAX] of them. *)
Definition name_ok (s : rstr) : Prop :=
  match s with
  | None => True
  | Some s => Forall (fun c => 0 < c < 256)%Z s /\ (Z.of_nat (length s) + 28 <= INT_MAX)%Z
  end.
Definition names_ok (names : list (rstr)) : Prop :=
  Forall name_ok names /\ (Z.of_nat (length names) <= INT_MAX)%Z.
(** Names to be repaired again must also leave room for their suffix. *)
Definition name_short (s : rstr) : Prop :=
  match s with
  | None => True
  | Some s => Forall (fun c => 0 < c < 256)%Z s /\ (Z.of_nat (length s) + 56 <= INT_MAX)%Z
  end.
Definition names_short (names : list (rstr)) : Prop :=
  Forall name_short names /\ (Z.of_nat (length names) <= INT_MAX)%Z.
