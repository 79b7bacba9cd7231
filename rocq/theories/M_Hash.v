(** * Model: hash arithmetic of src/hash.c (lines 3-103) *)
From Verif Require Import Base M_Double M_Scalar.

(** src/hash.h:4 *)
Definition HASH_MISSING : Z := 1%Z.

(** src/hash.c:4-6.  All arithmetic is on [uint32_t], i.e. modulo 2^32. *)
Definition hash_combine (x y : Z) : Z :=
  Z.lxor x (u32 (y + 2654435769 (* 0x9e3779b9 *) + u32 (Z.shiftl x 6) + Z.shiftr x 2)).

(** src/hash.c:10-18 *)
Definition hash_uint32 (x : Z) : Z :=
  let x := u32 x in
  let x := Z.lxor x (Z.shiftr x 16) in
  let x := u32 (x * 2246822507) (* 0x85ebca6b *) in
  let x := Z.lxor x (Z.shiftr x 13) in
  let x := u32 (x * 3266489909) (* 0xc2b2ae35 *) in
  Z.lxor x (Z.shiftr x 16).

(** src/hash.c:22-29.  The [uint64_t] result is truncated to [uint32_t]. *)
Definition hash_uint64 (x : Z) : Z :=
  let x := u64 x in
  let x := Z.lxor x (Z.shiftr x 33) in
  let x := u64 (x * 18397679294719823053) (* 0xff51afd7ed558ccd *) in
  let x := Z.lxor x (Z.shiftr x 33) in
  let x := u64 (x * 14181476777654086739) (* 0xc4ceb9fe1a85ec53 *) in
  u32 (Z.lxor x (Z.shiftr x 33)).

(** src/hash.c:33-46 *)
Definition hash_double (x : dbl) : Z :=
  let x := if c_deq x pos_zero then pos_zero else x in
  hash_uint64 x.

(** src/hash.c:62-91 *)
Definition lgl_hash_scalar (x : Z) : Z := hash_uint32 x.
Definition int_hash_scalar (x : Z) : Z := hash_uint32 x.
Definition dbl_hash_scalar (x : dbl) : Z :=
  let val := match dbl_classify x with
             | DblNumber => x
             | DblMissing => NA_REAL
             | DblNan => R_NaN
             end in
  hash_double val.
Definition cpl_hash_scalar (r i : dbl) : Z :=
  hash_combine (hash_combine 0 (dbl_hash_scalar r)) (dbl_hash_scalar i).
Definition raw_hash_scalar (x : Z) : Z := hash_uint32 x.
(** src/hash.c:48-50, 86-88: strings are hashed by address; [addr] is the
    address of the interned CHARSXP. *)
Definition chr_hash_scalar (addr : rstr -> Z) (x : rstr) : Z := hash_uint64 (addr x).
