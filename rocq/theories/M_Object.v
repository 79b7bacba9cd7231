(** * Model: object equality (src/equal.c:259-414) and hashing
      (src/hash.c:107-218) on arbitrary R objects *)
From Verif Require Import Base M_Double M_Scalar M_Hash.

(** SEXP types compared by address only (src/equal.c:279-288). *)
Inductive ref_kind := SYMSXP | SPECIALSXP | BUILTINSXP | ENVSXP | EXTPTRSXP.
(** Cons-cell types (src/equal.c:307-310). *)
Inductive node_kind := DOTSXP | LANGSXP | LISTSXP | BCODESXP.
(** Atomic payloads *)
Inductive atomic :=
| Lgl (xs : list Z) | Int (xs : list Z) | Dbl (xs : list dbl)
| Cpl (xs : list (dbl * dbl)) | Str (xs : list rstr) | Raw (xs : list Z).

(** R objects as finite trees.  [attr] is the ATTRIB field: [RNull] or a
    LISTSXP pairlist.  [tag] is the address of the TAG symbol of a node
    ([None] for R_NilValue).  Simplification: S4 objects, promises, weak
    references and cyclic structures through environments are represented only
    by the address of the reference object. *)
Inductive robj :=
| RNull
| RRef (k : ref_kind) (addr : Z)
| RCharsxp (s : rstr)
| RVec (v : atomic) (attr : robj)
| RList (expr : bool) (xs : list robj) (attr : robj)
| RNode (k : node_kind) (tag : option Z) (car cdr attr : robj)
| RClo (formals body env attr : robj)
| ROther (n : Z).  (* any type not listed in src/equal.c:296-356 *)

Definition ref_kind_eqb (a b : ref_kind) : bool :=
  match a, b with
  | SYMSXP, SYMSXP | SPECIALSXP, SPECIALSXP | BUILTINSXP, BUILTINSXP
  | ENVSXP, ENVSXP | EXTPTRSXP, EXTPTRSXP => true
  | _, _ => false
  end.
Definition node_kind_eqb (a b : node_kind) : bool :=
  match a, b with
  | DOTSXP, DOTSXP | LANGSXP, LANGSXP | LISTSXP, LISTSXP | BCODESXP, BCODESXP => true
  | _, _ => false
  end.

(** src/equal.c:242-254 [EQUAL_ALL]; lengths were compared before. *)
Fixpoint equal_all {A} (eq : A -> A -> bool) (xs ys : list A) : bool :=
  match xs, ys with
  | [], _ => true
  | x :: xs', y :: ys' => if negb (eq x y) then false else equal_all eq xs' ys'
  | _ :: _, [] => false (* unreachable: lengths are equal *)
  end.

Definition atomic_length (v : atomic) : nat :=
  match v with
  | Lgl xs | Int xs | Raw xs => length xs
  | Dbl xs => length xs | Cpl xs => length xs | Str xs => length xs
  end.

Definition atomic_same_type (a b : atomic) : bool :=
  match a, b with
  | Lgl _, Lgl _ | Int _, Int _ | Dbl _, Dbl _ | Cpl _, Cpl _ | Str _, Str _ | Raw _, Raw _ => true
  | _, _ => false
  end.

(** src/equal.c:367-373 *)
Definition atomic_equal_all (a b : atomic) : bool :=
  match a, b with
  | Lgl x, Lgl y => equal_all lgl_equal_na_equal x y
  | Int x, Int y => equal_all int_equal_na_equal x y
  | Dbl x, Dbl y => equal_all dbl_equal_na_equal x y
  | Str x, Str y => equal_all chr_equal_na_equal x y
  | Raw x, Raw y => equal_all raw_equal_na_equal x y
  | Cpl x, Cpl y => equal_all (fun p q => cpl_equal_na_equal p.1 p.2 q.1 q.2) x y
  | _, _ => false
  end.

(** src/equal.c:271-378 [equal_object_normalized].  The shortcut
    [x == y => true] (line 292) is not modelled: on trees the function is
    reflexive (lemma [equal_object_refl]), so the shortcut never changes the
    result.  [ROther] (an error in C) returns [false].

    The inner [fix attrs] is src/equal.c:389-414 [vec_equal_attrib].  Line 399
    reads the tag of [x_attrs] twice ([SEXP y_tag = TAG(x_attrs)]), so the tag
    test on lines 401-403 never fails and is absent from the model. *)
Fixpoint equal_object (x y : robj) {struct x} : bool :=
  match x, y with
  | RNull, RNull => true
  | RRef k a, RRef k' a' => ref_kind_eqb k k' && (a =? a')%Z
  | RCharsxp s, RCharsxp s' => str_ptr_eqb s s'
  | RVec v xa, RVec w ya =>
      if negb (atomic_same_type v w) then false
      else if negb (atomic_length v =? atomic_length w) then false
      else if negb ((fix attrs (xa ya : robj) {struct xa} : bool :=
                       match xa with
                       | RNode _ _ xcar xcdr _ =>
                           match ya with
                           | RNode _ _ ycar ycdr _ =>
                               if negb (equal_object xcar ycar) then false else attrs xcdr ycdr
                           | _ => false
                           end
                       | _ => true
                       end) xa ya) then false
      else atomic_equal_all v w
  | RList e xs xa, RList e' ys ya =>
      if negb (Bool.eqb e e') then false
      else if negb (length xs =? length ys) then false
      else if negb ((fix attrs (xa ya : robj) {struct xa} : bool :=
                       match xa with
                       | RNode _ _ xcar xcdr _ =>
                           match ya with
                           | RNode _ _ ycar ycdr _ =>
                               if negb (equal_object xcar ycar) then false else attrs xcdr ycdr
                           | _ => false
                           end
                       | _ => true
                       end) xa ya) then false
      else (fix all (xs ys : list robj) {struct xs} : bool :=
              match xs, ys with
              | [], _ => true
              | x :: xs', y :: ys' => if negb (equal_object x y) then false else all xs' ys'
              | _ :: _, [] => false
              end) xs ys
  | RNode k _ xcar xcdr xa, RNode k' _ ycar ycdr ya =>
      if negb (node_kind_eqb k k') then false
      else if negb (equal_object xa ya) then false
      else if negb (equal_object xcar ycar) then false
      else equal_object xcdr ycdr
  | RClo xf xb xe xa, RClo yf yb ye ya =>
      if negb (equal_object xa ya) then false
      else if negb (equal_object xb yb) then false
      else if negb (equal_object xe ye) then false
      else equal_object xf yf
  | _, _ => false
  end.

(** src/equal.c:389-414 as a function of its own (same recursion). *)
Fixpoint equal_attrib (xa ya : robj) : bool :=
  match xa with
  | RNode _ _ xcar xcdr _ =>
      match ya with
      | RNode _ _ ycar ycdr _ => if negb (equal_object xcar ycar) then false else equal_attrib xcdr ycdr
      | _ => false
      end
  | _ => true
  end.

(** src/missing.h:40-42: a list element is missing iff it is NULL. *)
Definition list_is_missing (x : robj) : bool :=
  match x with RNull => true | _ => false end.

Section hash.
  Context (addr : rstr -> Z).

  (** src/hash.c:161-196 [HASH]/[HASH_BARRIER] *)
  Definition hash_seq {A} (hasher : A -> Z) (xs : list A) : Z :=
    foldl (fun h x => hash_combine h (hasher x)) 0%Z xs.

  (** src/hash.c:116-159, 198-218 [hash_object]/[sexp_hash].  [None] is the
      "Unsupported type" error, raised for raw, complex, CHARSXP and other
      types. *)
  Fixpoint hash_object (x : robj) : option Z :=
    match x with
    | RNull => Some 0%Z
    | RRef _ a => Some (hash_uint64 a)
    | RCharsxp _ => None
    | ROther _ => None
    | RVec v xa =>
        match (match v with
               | Lgl xs => Some (hash_seq lgl_hash_scalar xs)
               | Int xs => Some (hash_seq int_hash_scalar xs)
               | Dbl xs => Some (hash_seq dbl_hash_scalar xs)
               | Str xs => Some (hash_seq (chr_hash_scalar addr) xs)
               | Cpl _ | Raw _ => None
               end) with
        | None => None
        | Some h => match xa with
                    | RNull => Some h
                    | _ => match hash_object xa with Some ha => Some (hash_combine h ha) | None => None end
                    end
        end
    | RList _ xs xa =>
        match (fix go (h : Z) (xs : list robj) {struct xs} : option Z :=
                 match xs with
                 | [] => Some h
                 | x :: xs' => match hash_object x with
                               | Some hx => go (hash_combine h hx) xs'
                               | None => None
                               end
                 end) 0%Z xs with
        | None => None
        | Some h => match xa with
                    | RNull => Some h
                    | _ => match hash_object xa with Some ha => Some (hash_combine h ha) | None => None end
                    end
        end
    | RNode _ _ xcar xcdr xa =>
        match hash_object xcar, hash_object xcdr with
        | Some h1, Some h2 =>
            let h := hash_combine (hash_combine 0 h1) h2 in
            match xa with
            | RNull => Some h
            | _ => match hash_object xa with Some ha => Some (hash_combine h ha) | None => None end
            end
        | _, _ => None
        end
    | RClo xf xb xe xa =>
        match hash_object xb, hash_object xe, hash_object xf with
        | Some h1, Some h2, Some h3 =>
            let h := hash_combine (hash_combine (hash_combine 0 h1) h2) h3 in
            match xa with
            | RNull => Some h
            | _ => match hash_object xa with Some ha => Some (hash_combine h ha) | None => None end
            end
        | _, _, _ => None
        end
    end.

  (** src/hash.c:128-135 [vctrs_hash_object] (R: [obj_hash()]) *)
  Definition obj_hash (x : robj) : option Z :=
    match hash_object x with Some h => Some (hash_combine 0 h) | None => None end.
End hash.
