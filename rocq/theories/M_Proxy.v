(** * Model: vector proxies; elementwise operations of equal.c, compare.c,
      missing.c, complete.c and hash.c *)
From Verif Require Import Base M_Double M_Scalar M_Hash M_Object.

(** src/vctrs-core.h [enum vctrs_type], the types a flattened equality proxy
    column can have. *)
Inductive vtype := TLgl | TInt | TDbl | TCpl | TChr | TRaw | TList.
Definition vtype_eqb (a b : vtype) : bool :=
  match a, b with
  | TLgl, TLgl | TInt, TInt | TDbl, TDbl | TCpl, TCpl | TChr, TChr | TRaw, TRaw | TList, TList => true
  | _, _ => false
  end.

(** One element of a vector. *)
Inductive elt :=
| ELgl (x : Z) | EInt (x : Z) | EDbl (x : dbl) | ECpl (r i : dbl)
| EChr (s : rstr) | ERaw (x : Z) | ELst (o : robj).
Definition elt_type (e : elt) : vtype :=
  match e with
  | ELgl _ => TLgl | EInt _ => TInt | EDbl _ => TDbl | ECpl _ _ => TCpl
  | EChr _ => TChr | ERaw _ => TRaw | ELst _ => TList
  end.

(** A bare vector: its type and its elements. *)
Record vec := Vec { v_type : vtype; v_data : list elt }.
Definition vec_wf (v : vec) : Prop := Forall (fun e => elt_type e = v_type v) (v_data v).

(** An equality proxy: a bare vector or a data frame whose df-cols have been
    flattened (src/proxy.c), with its number of rows. *)
Inductive proxy := PVec (v : vec) | PDf (size : nat) (cols : list vec).
Definition proxy_size (p : proxy) : nat :=
  match p with PVec v => length (v_data v) | PDf n _ => n end.
Definition proxy_cols (p : proxy) : list vec :=
  match p with PVec v => [v] | PDf _ cs => cs end.
Definition proxy_wf (p : proxy) : Prop :=
  Forall (fun v => vec_wf v /\ length (v_data v) = proxy_size p) (proxy_cols p).

(** ** Scalar dispatch.  In C the operation is selected by the type of the
    column and applied to two elements of that type; the cases with differing
    constructors are unreachable when the columns have the same type. *)

(** src/equal.h:78-93 *)
Definition elt_equal_na_equal (x y : elt) : bool :=
  match x, y with
  | ELgl a, ELgl b => lgl_equal_na_equal a b
  | EInt a, EInt b => int_equal_na_equal a b
  | EDbl a, EDbl b => dbl_equal_na_equal a b
  | ECpl ar ai, ECpl br bi => cpl_equal_na_equal ar ai br bi
  | EChr a, EChr b => chr_equal_na_equal a b
  | ERaw a, ERaw b => raw_equal_na_equal a b
  | ELst a, ELst b => equal_object a b
  | _, _ => false
  end.

(** src/equal.h:97-146 *)
Definition list_equal_na_propagate (x y : robj) : Z :=
  if list_is_missing x || list_is_missing y then NA_LOGICAL else b2i (equal_object x y).
Definition elt_equal_na_propagate (x y : elt) : Z :=
  match x, y with
  | ELgl a, ELgl b => lgl_equal_na_propagate a b
  | EInt a, EInt b => int_equal_na_propagate a b
  | EDbl a, EDbl b => dbl_equal_na_propagate a b
  | ECpl ar ai, ECpl br bi => cpl_equal_na_propagate ar ai br bi
  | EChr a, EChr b => chr_equal_na_propagate a b
  | ERaw a, ERaw b => raw_equal_na_propagate a b
  | ELst a, ELst b => list_equal_na_propagate a b
  | _, _ => 0%Z
  end.

(** src/missing.h:86-99 *)
Definition elt_is_missing (x : elt) : bool :=
  match x with
  | ELgl a => lgl_is_missing a
  | EInt a => int_is_missing a
  | EDbl a => dbl_is_missing a
  | ECpl r i => cpl_is_missing r i
  | EChr s => chr_is_missing s
  | ERaw a => raw_is_missing a
  | ELst o => list_is_missing o
  end.

(** src/compare.h:149-166, 262-279 (complex, raw, list: errors) *)
Definition elt_compare_na_equal (x y : elt) : res Z :=
  match x, y with
  | ELgl a, ELgl b => Ok (lgl_compare_na_equal a b)
  | EInt a, EInt b => Ok (int_compare_na_equal a b)
  | EDbl a, EDbl b => Ok (dbl_compare_na_equal a b)
  | EChr a, EChr b => chr_compare_na_equal a b
  | _, _ => Err "can't compare"
  end.
Definition elt_compare_na_propagate (x y : elt) : res Z :=
  match x, y with
  | ELgl a, ELgl b => Ok (lgl_compare_na_propagate a b)
  | EInt a, EInt b => Ok (int_compare_na_propagate a b)
  | EDbl a, EDbl b => Ok (dbl_compare_na_propagate a b)
  | EChr a, EChr b => chr_compare_na_propagate a b
  | _, _ => Err "can't compare"
  end.

(** Freshly allocated output vector.  (Uninitialised in C; every function
    below overwrites all of it before returning it.) *)
Definition alloc (n : nat) : list Z := replicate n 0%Z.

(** ** The loops of [EQUAL] (src/equal.c:62-80) and [COMPARE]
    (src/compare.c:13-28): one pass writing [f(x[i], y[i])]. *)
Definition zip_loop (f : elt -> elt -> res Z) (size : nat) (x y : list elt) : res (list Z) :=
  for_ 0 size (fun i out =>
    let! a := rd x i in
    let! b := rd y i in
    let! v := f a b in
    wr out i v) (alloc size).

(** ** Data frame short-circuiting, src/vctrs.h:130-180 *)
Record sc_state := SC { sc_out : list Z; sc_known : list bool; sc_remaining : Z }.

(** [EQUAL_COL] (src/equal.c:174-195; [decided eq := eq <= 0]) and
    [COMPARE_COL] (src/compare.c:129-152; [decided cmp := cmp != 0]). *)
Definition sc_col (decided : Z -> bool) (f : elt -> elt -> res Z) (size : nat)
    (x y : list elt) (st : sc_state) : res sc_state :=
  for_brk 0 size (fun i st =>
    let! known := rd (sc_known st) i in
    if known then Ok (Next st)
    else
      let! a := rd x i in
      let! b := rd y i in
      let! v := f a b in
      if decided v then
        let! out := wr (sc_out st) i v in
        let! kn := wr (sc_known st) i true in
        let st' := SC out kn (sc_remaining st - 1)%Z in
        if (sc_remaining st' =? 0)%Z then Ok (Break st') else Ok (Next st')
      else Ok (Next st)) st.

(** Column loop of [df_equal] (src/equal.c:160-166). *)
Fixpoint sc_cols (decided : Z -> bool) (f : elt -> elt -> res Z) (size : nat)
    (xs ys : list vec) (st : sc_state) : res sc_state :=
  match xs, ys with
  | x :: xs', y :: ys' =>
      let! st' := sc_col decided f size (v_data x) (v_data y) st in
      if (sc_remaining st' =? 0)%Z then Ok st' else sc_cols decided f size xs' ys' st'
  | _, _ => Ok st
  end.

Definition sc_init (size : nat) (v : Z) : sc_state :=
  SC (replicate size v) (replicate size false) (Z.of_nat size).

Definition eq_decided (v : Z) : bool := (v <=? 0)%Z.
Definition cmp_decided (v : Z) : bool := negb (v =? 0)%Z.

(** The scalar function used by [vec_equal()] for the given [na_equal]. *)
Definition elt_equal (na_equal : bool) (x y : elt) : res Z :=
  if na_equal then Ok (b2i (elt_equal_na_equal x y)) else Ok (elt_equal_na_propagate x y).

(** src/equal.c:126-170 [df_equal] *)
Definition df_equal (size : nat) (x y : list vec) (na_equal : bool) : res (list Z) :=
  if negb (length x =? length y) then Err "must have the same number of columns"
  else
    let! st := sc_cols eq_decided (elt_equal na_equal) size x y (sc_init size 1) in
    Ok (sc_out st).

(** src/equal.c:26-58 [vec_equal] on proxies *)
Definition vec_equal (x y : proxy) (na_equal : bool) : res (list Z) :=
  match x, y with
  | PVec v, PVec w =>
      if negb (vtype_eqb (v_type v) (v_type w)) || negb (length (v_data v) =? length (v_data w))
      then Err "must have same types and lengths"
      else zip_loop (elt_equal na_equal) (length (v_data v)) (v_data v) (v_data w)
  | PDf n xs, PDf m ys =>
      if negb (n =? m) then Err "must have same types and lengths"
      else df_equal n xs ys na_equal
  | _, _ => Err "must have same types and lengths"
  end.

(** ** Comparison *)
Definition elt_compare (na_equal : bool) (x y : elt) : res Z :=
  if na_equal then elt_compare_na_equal x y else elt_compare_na_propagate x y.

(** src/compare.c:47-69, 167-189: which types can be compared. *)
Definition vtype_comparable (t : vtype) : bool :=
  match t with TLgl | TInt | TDbl | TChr => true | _ => false end.

(** Comparison proxies may nest data frames (src/compare.c:162-165). *)
Inductive cproxy := CVec (v : vec) | CDf (cols : list cproxy).

(** src/compare.c:102-190 [df_compare_impl] / [vec_compare_col], mutually
    recursive through df-cols. *)
Fixpoint vec_compare_col (na_equal : bool) (size : nat) (x y : cproxy) (st : sc_state) {struct x}
    : res sc_state :=
  match x, y with
  | CVec v, CVec w =>
      if negb (vtype_comparable (v_type v)) then Err "can't compare"
      else sc_col cmp_decided (elt_compare na_equal) size (v_data v) (v_data w) st
  | CDf xs, CDf ys =>
      if negb (length xs =? length ys) then Err "must have the same number of columns"
      else (fix cols (xs ys : list cproxy) (st : sc_state) {struct xs} : res sc_state :=
              match xs, ys with
              | x :: xs', y :: ys' =>
                  let! st' := vec_compare_col na_equal size x y st in
                  if (sc_remaining st' =? 0)%Z then Ok st' else cols xs' ys' st'
              | _, _ => Ok st
              end) xs ys st
  | _, _ => UB "columns of different type"
  end.

(** src/compare.c:30-100 [vec_compare], [df_compare].  The top level also checks types and sizes. *)
Definition vec_compare (size : nat) (x y : cproxy) (na_equal : bool) : res (list Z) :=
  match x, y with
  | CVec v, CVec w =>
      if negb (vtype_eqb (v_type v) (v_type w)) || negb (length (v_data v) =? length (v_data w))
      then Err "must have the same types and lengths"
      else if negb (vtype_comparable (v_type v)) then Err "can't compare"
      else zip_loop (elt_compare na_equal) (length (v_data v)) (v_data v) (v_data w)
  | CDf _, CDf _ =>
      let! st := vec_compare_col na_equal size x y (sc_init size 0) in
      Ok (sc_out st)
  | _, _ => Err "must have the same types and lengths"
  end.

(** src/poly-op.c:60-88 [p_df_compare_na_equal]: compare row [i] with row [j].
    The rows are given as lists of elements. *)
Fixpoint row_compare (r s : list elt) : res Z :=
  match r, s with
  | x :: r', y :: s' =>
      let! c := elt_compare_na_equal x y in
      if negb (c =? 0)%Z then Ok c else row_compare r' s'
  | _, _ => Ok 0%Z
  end.

(** ** Rows.  Element [i] of a proxy, as the list of its column values. *)
Definition cols_row (cols : list vec) (i : nat) : list elt :=
  omap (fun c => v_data c !! i) cols.
#[global] Arguments cols_row : simpl never.
Definition proxy_row (p : proxy) (i : nat) : list elt := cols_row (proxy_cols p) i.
Definition proxy_rows (p : proxy) : list (list elt) :=
  map (proxy_row p) (seq 0 (proxy_size p)).

(** src/poly-op.c:20-42 [p_df_equal_na_equal] (and the scalar versions for
    bare vectors, which are the one-column case): equality of two rows.
    [n_col] differing is an internal error in C, [false] here. *)
Fixpoint row_equal (r s : list elt) : bool :=
  match r, s with
  | [], [] => true
  | x :: r', y :: s' => if negb (elt_equal_na_equal x y) then false else row_equal r' s'
  | _, _ => false
  end.

(** src/poly-op.c:106-122 [p_df_is_missing], 140-157 [p_df_is_incomplete];
    for a bare vector both are [p_<type>_is_missing], the one-column case. *)
Fixpoint row_is_missing (r : list elt) : bool :=
  match r with
  | [] => true
  | x :: r' => if negb (elt_is_missing x) then false else row_is_missing r'
  end.
Fixpoint row_is_incomplete (r : list elt) : bool :=
  match r with
  | [] => false
  | x :: r' => if elt_is_missing x then true else row_is_incomplete r'
  end.

(** ** Missing values, src/missing.c *)

(** src/missing.c:41-55 [DETECT_MISSING] *)
Definition detect_missing_loop (x : list elt) : res (list Z) :=
  for_ 0 (length x) (fun i out =>
    let! a := rd x i in
    wr out i (b2i (elt_is_missing a))) (alloc (length x)).

(** src/missing.c:203-214 [COL_DETECT_MISSING]: narrows [v_loc] in place. *)
Definition col_detect_missing (x : list elt) (v_loc : list nat) (loc_size : nat)
    : res (list nat * nat) :=
  for_ 0 loc_size (fun i '(v_loc, new_loc_size) =>
    let! loc := rd v_loc i in
    let! v_loc := wr v_loc new_loc_size loc in
    let! a := rd x loc in
    Ok (v_loc, new_loc_size + (if elt_is_missing a then 1 else 0))) (v_loc, 0).

(** src/missing.c:109-118 column loop of [df_detect_missing] *)
Fixpoint df_detect_missing_cols (cols : list vec) (v_loc : list nat) (loc_size : nat)
    : res (list nat * nat) :=
  match cols with
  | [] => Ok (v_loc, loc_size)
  | c :: cs =>
      let! (v_loc, loc_size) := col_detect_missing (v_data c) v_loc loc_size in
      if loc_size =? 0 then Ok (v_loc, loc_size) else df_detect_missing_cols cs v_loc loc_size
  end.

(** src/missing.c:90-131 [df_detect_missing] *)
Definition df_detect_missing (size : nat) (cols : list vec) : res (list Z) :=
  let! (v_loc, loc_size) := df_detect_missing_cols cols (seq 0 size) size in
  for_ 0 loc_size (fun i out =>
    let! loc := rd v_loc i in
    wr out loc 1%Z) (replicate size 0%Z).

(** src/missing.c:11-37 [vec_detect_missing] *)
Definition vec_detect_missing (p : proxy) : res (list Z) :=
  match p with
  | PVec v => detect_missing_loop (v_data v)
  | PDf n cols => df_detect_missing n cols
  end.

(** src/missing.c:301-313 [FIRST_MISSING] *)
Definition first_missing_loop (x : list elt) : res nat :=
  let size := length x in
  for_brk 0 size (fun i _ =>
    let! a := rd x i in
    if elt_is_missing a then Ok (Break i) else Ok (Next size)) size.

(** src/missing.c:348-388 [df_first_missing] *)
Definition df_first_missing (size : nat) (cols : list vec) : res nat :=
  let! i := (match cols with
             | [] => Ok 0
             | c :: _ => first_missing_loop (v_data c)
             end) in
  if negb (length cols =? 0) && (i =? size) then Ok size
  else
    for_brk i (size - i) (fun i _ =>
      if row_is_missing (cols_row cols i) then Ok (Break i) else Ok (Next size)) size.

(** src/missing.c:267-297 [vec_first_missing], [vec_any_missing] *)
Definition vec_first_missing (p : proxy) : res nat :=
  match p with
  | PVec v => first_missing_loop (v_data v)
  | PDf n cols => df_first_missing n cols
  end.
Definition vec_any_missing (p : proxy) : res bool :=
  let! i := vec_first_missing p in Ok (negb (i =? proxy_size p)).

(** ** Complete cases, src/complete.c *)

(** src/complete.c:128-138 [VEC_DETECT_COMPLETE] *)
Definition detect_complete_loop (x : list elt) (size : nat) (out : list Z) : res (list Z) :=
  for_ 0 size (fun i out =>
    let! a := rd x i in
    if elt_is_missing a then wr out i 0%Z else Ok out) out.

(** src/complete.c:51-68, 176-183 [vec_detect_complete], [df_detect_complete] *)
Definition vec_detect_complete (p : proxy) : res (list Z) :=
  foldl (fun acc c => let! out := acc in detect_complete_loop (v_data c) (proxy_size p) out)
        (Ok (replicate (proxy_size p) 1%Z)) (proxy_cols p).

(** src/rlang/vec-lgl.c:3-27 [r_lgl_sum] (na_true = false: counts 1s) *)
Definition r_lgl_sum (x : list Z) : nat := length (filter (fun v => v = 1%Z) x).
(** src/rlang/vec-lgl.c:29-106 [r_lgl_which] with [na_propagate = false], unnamed:
    [for (i = 0, j = 0; i < n && j < out_n; ++i) { v_out[j] = i + 1; j += (x[i] == 1) }] *)
Definition r_lgl_which (x : list Z) : res (list Z) :=
  let out_n := r_lgl_sum x in
  let! (out, _) :=
    for_brk 0 (length x) (fun i '(out, j) =>
      if out_n <=? j then Ok (Break (out, j))
      else
        let! out := wr out j (Z.of_nat i + 1)%Z in
        let! v := rd x i in
        Ok (Next (out, j + (if (v =? 1)%Z then 1 else 0)))) (alloc out_n, 0) in
  Ok out.

(** src/complete.c:33-39 [vec_locate_complete] *)
Definition vec_locate_complete (p : proxy) : res (list Z) :=
  let! where_ := vec_detect_complete p in r_lgl_which where_.

(** ** Hashing, src/hash.c:239-419 *)
Section hash.
  Context (addr : rstr -> Z).

  (** src/hash.c:62-103; [None]: unsupported list element. *)
  Definition elt_hash_scalar (e : elt) : option Z :=
    match e with
    | ELgl x => Some (lgl_hash_scalar x)
    | EInt x => Some (int_hash_scalar x)
    | EDbl x => Some (dbl_hash_scalar x)
    | ECpl r i => Some (cpl_hash_scalar r i)
    | EChr s => Some (chr_hash_scalar addr s)
    | ERaw x => Some (raw_hash_scalar x)
    | ELst o => hash_object addr o
    end.

  (** src/hash.c:282-287, 366-369 [HASH_FILL], [HASH_FILL_BARRIER]: one step *)
  Definition hash_step_na_equal (h : Z) (e : elt) : res Z :=
    match elt_hash_scalar e with
    | Some he => Ok (hash_combine h he)
    | None => Err "Unsupported type"
    end.
  (** src/hash.c:289-317 [HASH_FILL_NA_PROPAGATE(_CMP)], 371-383
      [HASH_FILL_BARRIER_NA_PROPAGATE].  For raw (357-359) missingness is not
      looked at, and neither is [h]. For lists the hash of the element is
      compared with [HASH_MISSING]. *)
  Definition hash_step_na_propagate (h : Z) (e : elt) : res Z :=
    match e with
    | ERaw x => Ok (hash_combine h (raw_hash_scalar x))
    | ELst o =>
        if (h =? HASH_MISSING)%Z then Ok h
        else
          match (match o with RNull => Some HASH_MISSING | _ => hash_object addr o end) with
          | None => Err "Unsupported type"
          | Some eh => if (eh =? HASH_MISSING)%Z then Ok HASH_MISSING else Ok (hash_combine h eh)
          end
    | _ =>
        if (h =? HASH_MISSING)%Z then Ok h
        else if elt_is_missing e then Ok HASH_MISSING
        else match elt_hash_scalar e with
             | Some he => Ok (hash_combine h he)
             | None => Err "Unsupported type"
             end
    end.
  Definition hash_step (na_equal : bool) (h : Z) (e : elt) : res Z :=
    if na_equal then hash_step_na_equal h e else hash_step_na_propagate h e.

  (** One column pass over the hash array [p]. *)
  Definition hash_fill_col (na_equal : bool) (size : nat) (x : list elt) (p : list Z) : res (list Z) :=
    for_ 0 size (fun i p =>
      let! h := rd p i in
      let! e := rd x i in
      let! h' := hash_step na_equal h e in
      wr p i h') p.

  (** src/hash.c:243-280, 396-403 [hash_fill], [df_hash_fill], on the zeroed
      array of [vctrs_hash] (406-419) / [new_dictionary_opts]
      (src/dictionary.c:96-108). Arrays ([has_dim]) are converted to data
      frames first; that conversion is not modelled. *)
  Definition hash_fill (na_equal : bool) (p : proxy) : res (list Z) :=
    foldl (fun acc c => let! hs := acc in hash_fill_col na_equal (proxy_size p) (v_data c) hs)
          (Ok (replicate (proxy_size p) 0%Z)) (proxy_cols p).

  (** src/hash.c:406-419 [vctrs_hash] *)
  Definition vec_hash (p : proxy) : res (list Z) := hash_fill true p.
End hash.
