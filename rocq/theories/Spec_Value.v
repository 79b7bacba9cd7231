(** * Specification: what the elements of R vectors mean.

    Written without any function of the M_* files except the encoding of the
    raw data ([elt], [dbl] as bit pattern). *)
From Verif Require Import Base M_Double M_Scalar M_Object M_Proxy.

(** A double is NA, NaN or a number.  Numbers are given by sign, exponent and
    fraction fields as the exact value times 2^1074 (infinities as the two
    extreme values). *)
Inductive dsem := SNa | SNan | SNum (v : Z).

Definition field_sign (b : dbl) : Z := if Z.testbit b 63 then (-1)%Z else 1%Z.
Definition field_exp (b : dbl) : Z := ((b / 2 ^ 52) mod 2 ^ 11)%Z.
Definition field_frac (b : dbl) : Z := (b mod 2 ^ 52)%Z.

Definition dbl_sem (b : dbl) : dsem :=
  let e := field_exp b in
  let f := field_frac b in
  if (e =? 2047)%Z && negb (f =? 0)%Z then
    if (b mod 2 ^ 32 =? 1954)%Z then SNa else SNan
  else SNum (field_sign b * (if e =? 0 then f else (2 ^ 52 + f) * 2 ^ (e - 1)))%Z.

(** Meaning of an integer or logical; [None] is R's NA. *)
Definition int_sem (x : Z) : option Z := if (x =? -2 ^ 31)%Z then None else Some x.

(** Meaning of an R object (list element).  Tags of pairlists (argument names,
    attribute names) are not part of it; the values of the attributes are. *)
Inductive osem :=
| ONull
| ORef (k : ref_kind) (a : Z)
| OCharsxp (s : rstr)
| OLgl (v : list (option Z)) (attr : list osem)
| OInt (v : list (option Z)) (attr : list osem)
| ODbl (v : list dsem) (attr : list osem)
| OCpl (v : list (dsem * dsem)) (attr : list osem)
| OStr (v : list (option (list Z))) (attr : list osem)
| ORaw (v : list Z) (attr : list osem)
| OList (expr : bool) (v : list osem) (attr : list osem)
| ONode (k : node_kind) (car cdr attr : osem)
| OClo (formals body env attr : osem)
| OOther.

Fixpoint obj_sem (x : robj) : osem :=
  let attrs := (fix attrs (a : robj) : list osem :=
                  match a with RNode _ _ car cdr _ => obj_sem car :: attrs cdr | _ => [] end) in
  match x with
  | RNull => ONull
  | RRef k a => ORef k a
  | RCharsxp s => OCharsxp s
  | RVec v a =>
      match v with
      | Lgl xs => OLgl (map int_sem xs) (attrs a)
      | Int xs => OInt (map int_sem xs) (attrs a)
      | Dbl xs => ODbl (map dbl_sem xs) (attrs a)
      | Cpl xs => OCpl (map (fun p => (dbl_sem p.1, dbl_sem p.2)) xs) (attrs a)
      | Str xs => OStr xs (attrs a)
      | Raw xs => ORaw xs (attrs a)
      end
  | RList e xs a => OList e (map obj_sem xs) (attrs a)
  | RNode k _ car cdr a => ONode k (obj_sem car) (obj_sem cdr) (obj_sem a)
  | RClo f b e a => OClo (obj_sem f) (obj_sem b) (obj_sem e) (obj_sem a)
  | ROther _ => OOther
  end.

(** Objects whose numbers are C values, whose attribute lists are proper
    pairlists and which contain none of the types vctrs does not support. *)
Definition atomic_in_range (v : atomic) : Prop :=
  match v with
  | Lgl xs | Int xs => Forall is_int xs
  | Dbl xs => Forall dbl_wf xs
  | Cpl xs => Forall (fun p => dbl_wf p.1 /\ dbl_wf p.2) xs
  | Str xs => True
  | Raw xs => True
  end.
Fixpoint attr_wf (a : robj) : Prop :=
  match a with
  | RNull => True
  | RNode LISTSXP _ _ cdr RNull => attr_wf cdr
  | _ => False
  end.
Inductive obj_wf : robj -> Prop :=
| wf_null : obj_wf RNull
| wf_ref k a : obj_wf (RRef k a)
| wf_charsxp s : obj_wf (RCharsxp s)
| wf_vec v a : atomic_in_range v -> attr_wf a -> obj_wf a -> obj_wf (RVec v a)
| wf_list e xs a : Forall obj_wf xs -> attr_wf a -> obj_wf a -> obj_wf (RList e xs a)
| wf_node k t car cdr a : obj_wf car -> obj_wf cdr -> attr_wf a -> obj_wf a -> obj_wf (RNode k t car cdr a)
| wf_clo f b e a : obj_wf f -> obj_wf b -> obj_wf e -> attr_wf a -> obj_wf a -> obj_wf (RClo f b e a).

(** Objects without attributes, at any depth. *)
Inductive obj_bare : robj -> Prop :=
| bare_null : obj_bare RNull
| bare_ref k a : obj_bare (RRef k a)
| bare_charsxp s : obj_bare (RCharsxp s)
| bare_vec v : obj_bare (RVec v RNull)
| bare_list e xs : Forall obj_bare xs -> obj_bare (RList e xs RNull)
| bare_node k t car cdr : obj_bare car -> obj_bare cdr -> obj_bare (RNode k t car cdr RNull)
| bare_clo f b e : obj_bare f -> obj_bare b -> obj_bare e -> obj_bare (RClo f b e RNull).

(** Meaning of an element. *)
Inductive esem :=
| QLgl (v : option Z) | QInt (v : option Z) | QDbl (d : dsem) | QCpl (r i : dsem)
| QChr (s : option (list Z)) | QRaw (v : Z) | QList (o : osem).

Definition elt_sem (e : elt) : esem :=
  match e with
  | ELgl x => QLgl (int_sem x)
  | EInt x => QInt (int_sem x)
  | EDbl b => QDbl (dbl_sem b)
  | ECpl r i => QCpl (dbl_sem r) (dbl_sem i)
  | EChr s => QChr s
  | ERaw x => QRaw x
  | ELst o => QList (obj_sem o)
  end.
(** Atomic elements, and list elements without attributes. *)
Definition is_plain (e : elt) : Prop := match e with ELst o => obj_bare o | _ => True end.
(** Values a C object of the respective type can hold. *)
Definition elt_in_range (e : elt) : Prop :=
  match e with
  | ELgl x | EInt x => is_int x
  | EDbl b => dbl_wf b
  | ECpl r i => dbl_wf r /\ dbl_wf i
  | ERaw x => (0 <= x < 256)%Z
  | EChr (Some s) => Forall (fun b => 0 < b < 256)%Z s
  | EChr None => True
  | ELst o => obj_wf o
  end.

(** Missingness as documented: NA for every type, NaN for doubles, either part
    for complex, NULL for lists; raw is never missing. *)
Definition missing_sem (e : elt) : Prop :=
  match e with
  | ELgl x | EInt x => int_sem x = None
  | EDbl b => dbl_sem b = SNa \/ dbl_sem b = SNan
  | ECpl r i => (dbl_sem r = SNa \/ dbl_sem r = SNan) \/ (dbl_sem i = SNa \/ dbl_sem i = SNan)
  | EChr s => s = None
  | ERaw _ => False
  | ELst o => o = RNull
  end.

(** Strict order on meanings: NaN < NA < numbers; NA_character_ < strings, which
    are in C-locale (bytewise lexicographic) order; logical/integer NA first. *)
Inductive bytes_lt : list Z -> list Z -> Prop :=
| bytes_lt_nil y b : bytes_lt [] (y :: b)
| bytes_lt_head x y a b : (x < y)%Z -> bytes_lt (x :: a) (y :: b)
| bytes_lt_tail x a b : bytes_lt a b -> bytes_lt (x :: a) (x :: b).

Inductive opt_lt {A} (R : A -> A -> Prop) : option A -> option A -> Prop :=
| opt_lt_none v : opt_lt R None (Some v)
| opt_lt_some a b : R a b -> opt_lt R (Some a) (Some b).

Inductive dsem_lt : dsem -> dsem -> Prop :=
| dlt_nan_na : dsem_lt SNan SNa
| dlt_nan_num v : dsem_lt SNan (SNum v)
| dlt_na_num v : dsem_lt SNa (SNum v)
| dlt_num a b : (a < b)%Z -> dsem_lt (SNum a) (SNum b).

Inductive elt_lt : elt -> elt -> Prop :=
| elt_lt_lgl a b : opt_lt Z.lt (int_sem a) (int_sem b) -> elt_lt (ELgl a) (ELgl b)
| elt_lt_int a b : opt_lt Z.lt (int_sem a) (int_sem b) -> elt_lt (EInt a) (EInt b)
| elt_lt_dbl a b : dsem_lt (dbl_sem a) (dbl_sem b) -> elt_lt (EDbl a) (EDbl b)
| elt_lt_chr a b : opt_lt bytes_lt a b -> elt_lt (EChr a) (EChr b).

(** Lexicographic order on rows. *)
Inductive row_lt : list elt -> list elt -> Prop :=
| row_lt_head x y r s : elt_lt x y -> row_lt (x :: r) (y :: s)
| row_lt_tail x y r s : elt_sem x = elt_sem y -> row_lt r s -> row_lt (x :: r) (y :: s).

(** Two rows mean the same. *)
Definition row_same (r s : list elt) : Prop := map elt_sem r = map elt_sem s.
