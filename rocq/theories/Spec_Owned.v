(** * Specification: assignment in memory *)
From Verif Require Import Base M_Owned.

(** The value of an object: data for vectors, values for lists, data frames and records *)
Inductive tree := Tree (k : kind) (a : option Z) (data : list nat) (elts : list tree).
Definition t_kind (t : tree) : kind := match t with Tree k _ _ _ => k end.

(** The value at the place [x], if it is no deeper than [n] *)
Fixpoint value_at (n : nat) (h : heap) (x : nat) : option tree :=
  match n with
  | O => None
  | Datatypes.S n =>
      match h !! x with
      | None => None
      | Some (Obj KVec c a) => Some (Tree KVec a c [])
      | Some (Obj k c a) => match mapM (value_at n h) c with Some ts => Some (Tree k a [] ts) | None => None end
      end
  end.

(** What is at [j] after [new] has been put at the locations [idx]: the last one that
    was put there, or [d], what was there *)
Fixpoint last_put {A} (idx : list (option nat)) (new : list A) (j : nat) (d : A) : A :=
  match idx, new with
  | i :: idx, v :: new => last_put idx new j (if bool_decide (i = Some j) then v else d)
  | _, _ => d
  end.
Definition put {A} (idx : list (option nat)) (new old : list A) : list A := imap (last_put idx new) old.
(** Rows of data frames and records are put column by column. *)
Fixpoint put_rows (idx : list (option nat)) (old new : tree) : tree :=
  match old, new with
  | Tree k a c ts, Tree _ _ c' ts' =>
      match k with
      | KVec => Tree k a (put idx c' c) []
      | KList => Tree k a [] (put idx ts' ts)
      | _ => Tree k a [] (zip_with (put_rows idx) ts ts')
      end
  end.
(** [new] has the type of [old] and the size of [idx], and the locations are in [old]. *)
Fixpoint fits (idx : list (option nat)) (old new : tree) : Prop :=
  match old, new with
  | Tree k _ c ts, Tree k' _ c' ts' =>
      k = k' /\
      match k with
      | KVec => length c' = length idx /\ forall i, In (Some i) idx -> i < length c
      | KList => length ts' = length idx /\ forall i, In (Some i) idx -> i < length ts
      | _ => length ts = length ts' /\ foldr and True (zip_with (fits idx) ts ts')
      end
  end.

(** An object is in use if a variable holds it ([roots]) or another object refers to it. *)
Definition fields (o : obj) : list nat := match o_kind o with KVec => [] | _ => o_cells o end.
Definition referred (h : heap) (x : nat) : Prop := exists y o, h !! y = Some o /\ In x (fields o).
Definition in_use (roots : list nat) (h : heap) (x : nat) : Prop := In x roots \/ referred h x.
(** The counts of references: an object in use has a count that is not 0. *)
Definition counts (roots : list nat) (mr : heap -> nat -> bool) : Prop :=
  forall h x, in_use roots h x -> mr h x = true.

(** All that can be reached from [x], no deeper than [n] *)
Fixpoint reach (n : nat) (h : heap) (x : nat) : list nat :=
  match n with
  | O => []
  | Datatypes.S n => x :: match h !! x with Some o => concat (map (reach n h) (fields o)) | None => [] end
  end.
(** The part of it that holds the rows: [x] and its columns or fields, not the elements of lists ... *)
Fixpoint rows (n : nat) (h : heap) (x : nat) : list nat :=
  match n with
  | O => []
  | Datatypes.S n =>
      x :: match h !! x with
           | Some (Obj (KDf | KRcrd) c _) => concat (map (rows n h) c)
           | _ => []
           end
  end.
(** ... and what can be reached from the elements of lists *)
Fixpoint elements (n : nat) (h : heap) (x : nat) : list nat :=
  match n with
  | O => []
  | Datatypes.S n =>
      match h !! x with
      | Some (Obj (KDf | KRcrd) c _) => concat (map (elements n h) c)
      | Some (Obj KList c _) => concat (map (reach n h) c)
      | _ => []
      end
  end.
(** No column is there twice, in an element of a list or in [v]. *)
Definition unshared (n : nat) (h : heap) (x v : nat) : Prop :=
  List.NoDup (rows n h x) /\
  forall z, In z (rows n h x) -> ~ In z (elements n h x) /\ ~ In z (reach n h v).
(** The counts of R without its bound: the number of references *)
Definition count_refs (roots : list nat) (h : heap) (x : nat) : bool :=
  existsb (Nat.eqb x) roots || existsb (fun o => existsb (Nat.eqb x) (fields o)) h.
