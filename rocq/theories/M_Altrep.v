(** * Model: run-length encoded strings as ALTREP (src/altrep-rle.c) *)
From Verif Require Import Base M_Scalar.

(** [data1] is a named integer vector: run lengths [rle_p] and their strings
    [nms]; [data2] is the materialised vector, if any. *)
Record altrep_rle := Rle { rle_p : list Z; rle_nms : list rstr; rle_data2 : option (list rstr) }.

(** src/altrep-rle.c:31-35 [altrep_rle_Make] *)
Definition altrep_rle_Make (rle_p : list Z) (nms : list rstr) : altrep_rle := Rle rle_p nms None.

(** src/altrep-rle.c:39-54 [altrep_rle_Length]; [R_xlen_t] is 64 bits wide, so the
    sum of fewer than 2^32 [int]s does not overflow. *)
Definition altrep_rle_Length (vec : altrep_rle) : res Z :=
  match rle_data2 vec with
  | Some data2 => Ok (Z.of_nat (length data2))
  | None => for_ 0 (length (rle_p vec)) (fun i sz => let! n := rd (rle_p vec) i in Ok (sz + n)%Z) 0%Z
  end.

(** src/altrep-rle.c:89-95 [find_rle_index]; the same loop is in lines 81-84. *)
Fixpoint find_rle_loop (rle_data : list Z) (i idx : Z) : Z :=
  match rle_data with
  | [] => idx
  | n :: rle_data => if (0 <=? i)%Z then find_rle_loop rle_data (i - n) (idx + 1) else idx
  end.
Definition find_rle_index (rle_data : list Z) (i : Z) : Z := (find_rle_loop rle_data i 0 - 1)%Z.

(** src/altrep-rle.c:71-87 [altrep_rle_string_Elt] *)
Definition altrep_rle_string_Elt (vec : altrep_rle) (i : Z) : res rstr :=
  match rle_data2 vec with
  | Some data2 => rdZ data2 i
  | None => rdZ (rle_nms vec) (find_rle_index (rle_p vec) i)
  end.

(** src/altrep-rle.c:100-135 [altrep_rle_Extract_subset]; [None] is the default
    method of R. *)
Definition altrep_rle_Extract_subset (x : altrep_rle) (indx : list Z) : res (option (list rstr)) :=
  match rle_data2 x with
  | Some _ => Ok None
  | None =>
      let! out := for_ 0 (length indx) (fun i out =>
        let! index_elt := rd indx i in
        if (index_elt =? NA_INTEGER)%Z then wr out i None
        else
          let! s := rdZ (rle_nms x) (find_rle_index (rle_p x) (index_elt - 1)) in
          wr out i s) (replicate (length indx) (Some [])) in
      Ok (Some out)
  end.

(** src/altrep-rle.c:138-162 [altrep_rle_string_Materialize] *)
Definition altrep_rle_string_Materialize (vec : altrep_rle) : res altrep_rle :=
  match rle_data2 vec with
  | Some _ => Ok vec
  | None =>
      let! sz := altrep_rle_Length vec in
      if (sz <? 0)%Z then Err "negative length vectors are not allowed" else
      let! (out, _) := for_ 0 (length (rle_p vec)) (fun i '((out, idx) : list rstr * nat) =>
        let! n := rd (rle_p vec) i in
        for_ 0 (Z.to_nat n) (fun _ '((out, idx) : list rstr * nat) =>
          let! s := rd (rle_nms vec) i in
          let! out := wr out idx s in
          Ok (out, S idx)) (out, idx)) (replicate (Z.to_nat sz) (Some []), 0) in
      Ok (Rle (rle_p vec) (rle_nms vec) (Some out))
  end.
