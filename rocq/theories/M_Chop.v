(** * Model: chopping, unchopping, combining and interleaving
    (src/slice-chop.c, src/c-unchop.c, src/c.c, src/slice-interleave.c).

    Not modelled: classes with a [ `[` ] or [c()] method and no proxy (the
    fallback branches), row names and dimnames, name specifications other than
    [NULL], name repair other than "minimal", outer names.  The common prototype
    and the cast to it are parameters (see M_Cast and C35 to C38 for them). *)
From Verif Require Import Base M_Double M_Scalar M_Hash M_Object M_Proxy M_Cast M_Growable M_Slice M_Subscript M_Rep.

(** ** Chopping *)

(** src/slice-chop.c:44-60, 64-104: no indices, indices, or sizes. *)
Inductive chop_indices := CNone | CIdx (locs : list (list Z)) | CSizes (sizes : list Z).
(** The state: [loc] and the first two integers at [p_index]. *)
Definition chop_state : Type := (nat * (Z * Z))%type.
Definition chop_init : chop_state := (0, (0, 0)%Z).
(** src/slice-chop.c:115-132 [indices_next] *)
Definition indices_next (c : chop_indices) (st : chop_state) : res (subscript * chop_state) :=
  let '(loc, (p0, p1)) := st in
  match c with
  | CIdx idx => let! l := rd idx loc in Ok (SLoc l, (S loc, (p0, p1)))
  | CSizes sizes =>
      let! start := int_add p0 p1 in
      let! size := rd sizes loc in
      Ok (SSeq start size 1, (S loc, (start, size)))
  | CNone => Ok (SLoc [Z.of_nat loc + 1]%Z, (S loc, (p0, p1)))
  end.
(** src/slice-chop.c:134-143 [indices_out_size] *)
Definition indices_out_size (c : chop_indices) (n : Z) : nat :=
  match c with CIdx idx => length idx | CSizes sizes => length sizes | CNone => Z.to_nat n end.

(** The loops of src/slice-chop.c:250-289 [chop] and 356-400 [chop_shaped]: the
    slice of [x] at each index.  [vec_restore()] puts attributes back. *)
Definition chop_loop {A} (f : subscript -> res A) (c : chop_indices) (out_size : nat) : res (list A) :=
  let! (out, _) :=
    for_ 0 out_size (fun _ '(out, st) =>
      let! (index, st) := indices_next c st in
      let! elt := f index in
      Ok (out ++ [elt], st)) ([], chop_init) in
  Ok out.
(** src/slice-chop.c:196-207 [vec_chop_unsafe], 209-248 [vec_chop_base],
    291-354 [chop_df]: data frames chop each column and distribute the pieces. *)
Fixpoint vec_chop_unsafe (x : value) (c : chop_indices) : res (list value) :=
  match x with
  | VVec _ _ _ | VArr _ _ _ => chop_loop (vec_slice_unsafe x) c (indices_out_size c (value_size x))
  | VDf n names cols =>
      let out_size := indices_out_size c (Z.of_nat n) in
      let! sizes := chop_loop (fun i => Ok (vec_subscript_size i)) c out_size in
      let! elts :=
        (fix go (cols : list value) (elts : list (list value)) : res (list (list value)) :=
           match cols with
           | [] => Ok elts
           | col :: cols' =>
               let! chopped := vec_chop_unsafe col c in
               let! elts := for_ 0 out_size (fun j elts =>
                 let! elt := rd elts j in
                 let! piece := rd chopped j in
                 wr elts j (elt ++ [piece])) elts in
               go cols' elts
           end) cols (replicate out_size []) in
      Ok (zip_with (fun size elt => VDf (Z.to_nat size) names elt) sizes elts)
  end.

(** src/unspecified.c:37-75 [vec_is_unspecified] for a bare logical vector *)
Definition vec_is_unspecified (x : list Z) : bool :=
  match x with [] => false | _ => forallb (fun e => (e =? NA_LOGICAL)%Z) x end.
(** src/slice-chop.c:478-509 [list_as_locations]; src/subscript.c:5-92 with
    logical and character subscripts being errors, except unspecified ones. *)
Definition chop_opts : location_opts := LocOpts MissingPropagate NegativeError OobError ZeroError.
Definition index_as_location (i : index) (n : Z) : res (list Z) :=
  let! r :=
    match i with
    | INull => int_as_location ([], None) n chop_opts
    | ILgl x =>
        if vec_is_unspecified x.1 then int_as_location (map (fun _ => NA_INTEGER) x.1, x.2) n chop_opts
        else Err "Can't subset elements with a logical subscript."
    | IInt x => int_as_location x n chop_opts
    | IDbl x => let! v := dbl_cast_subscript x.1 in int_as_location (v, x.2) n chop_opts
    | IChr _ => Err "Can't subset elements with a character subscript."
    end in
  Ok r.1.
Definition list_as_locations (indices : list index) (n : Z) : res (list (list Z)) :=
  for_ 0 (length indices) (fun k out =>
    let! i := rd indices k in
    let! loc := index_as_location i n in
    Ok (out ++ [loc])) [].

(** src/slice-chop.c:509-545 [vec_as_chop_sizes], after the cast of [sizes] to
    integer. *)
Definition vec_as_chop_sizes (sizes : list Z) (size : Z) : res (list Z) :=
  let! total :=
    for_ 0 (length sizes) (fun i total =>
      let! elt := rd sizes i in
      if (elt =? NA_INTEGER)%Z then Err "`sizes` can't contain missing values."
      else if (elt <? 0)%Z then Err "`sizes` can't contain negative sizes."
      else if (size <? elt)%Z then Err "`sizes` can't contain sizes larger than the size."
      else Ok (total + elt)%Z) 0%Z in
  if negb (total =? size)%Z then Err "`sizes` must sum to size." else Ok sizes.

(** src/slice-chop.c:171-193 [vec_chop] *)
Definition vec_chop (x : value) (indices : option (list index)) (sizes : option (list Z)) : res (list value) :=
  let n := value_size x in
  match indices, sizes with
  | Some _, Some _ => Err "Can't supply both `indices` and `sizes`."
  | Some i, None => let! locs := list_as_locations i n in vec_chop_unsafe x (CIdx locs)
  | None, Some s => let! s := vec_as_chop_sizes s n in vec_chop_unsafe x (CSizes s)
  | None, None => vec_chop_unsafe x CNone
  end.

(** ** Assigning with names *)

(** src/slice-assign.c:390-415 [vec_proxy_assign_names] *)
Definition assign_names (names : option (list rstr)) (size : nat) (s : subscript) (vnames : option (list rstr))
    : res (option (list rstr)) :=
  match vnames with
  | None => Ok names
  | Some v =>
      let nms := match names with None => replicate size empty_str | Some n => n end in
      let! nms := assign_base nms s v in
      Ok (Some nms)
  end.
(** src/slice-assign.c:141-186 [vec_proxy_assign_opts] with [assign_names] set,
    341-380 [df_assign]: the columns are assigned with their names. *)
Fixpoint vec_proxy_assign_opts (ignore_outer : bool) (x : value) (s : subscript) (val : value) : res value :=
  if negb (value_kind_eqb x val) then Err "`proxy` incompatible with `value` proxy"
  else
    match x, val with
    | VVec t data names, VVec _ vdata vnames =>
        let! out := assign_base data s vdata in
        let! nms := (if ignore_outer then Ok names else assign_names names (length data) s vnames) in
        Ok (VVec t out nms)
    | VArr t dim data, VArr _ _ vdata =>
        let! out := assign_shaped data dim s vdata in Ok (VArr t dim out)
    | VDf size names cols, VDf _ _ vcols =>
        if negb (length vcols =? length cols) then Err "Can't assign columns to df"
        else
          let! cols' :=
            (fix go (cols vcols : list value) : res (list value) :=
               match cols, vcols with
               | c :: cs, w :: ws =>
                   let! c' := vec_proxy_assign_opts false c s w in
                   let! cs' := go cs ws in
                   Ok (c' :: cs')
               | _, _ => Ok []
               end) cols vcols in
          Ok (VDf size names cols')
    | _, _ => Err "`proxy` incompatible with `value` proxy"
    end.

(** ** Combining *)

(** src/slice.c:427-441 [vec_init]; [n] is passed to [compact_rep()] as an int *)
Definition vec_init (x : value) (n : Z) : res value :=
  if (n <? 0)%Z then Err "`n` must be a positive integer."
  else if (INT_MAX <? n)%Z then UB "r_ssize truncated to int"
  else let! s := compact_rep NA_INTEGER n in vec_slice_unsafe x s.
(** src/names.c [ffi_as_minimal_names]: missing names become empty. *)
Definition minimal_names (names : list rstr) : list rstr :=
  map (fun s => match s with None => empty_str | Some _ => s end) names.
(** src/names.c:801-833 [vec_set_names_impl], [vec_set_names] for bare vectors *)
Definition vec_set_names (x : value) (names : list rstr) : value :=
  match x with VVec t data _ => VVec t data (Some names) | _ => x end.
Definition finish_names (x : value) (out_names : option (list rstr)) : value :=
  match out_names with None => x | Some nms => vec_set_names x (minimal_names nms) end.

Section combine.
  (** [vec_cast(x, ptype)] *)
  Context (cast : value -> res value).

  (** src/c-unchop.c:77-83 *)
  Definition index_length (i : index) : nat :=
    match i with
    | INull => 0 | ILgl x => length x.1 | IInt x => length x.1 | IDbl x => length x.1 | IChr x => length x.1
    end.
  Definition unchop_size (indices : list index) (n : nat) : res Z :=
    for_ 0 n (fun i out => let! idx := rd indices i in Ok (out + Z.of_nat (index_length idx))%Z) 0%Z.

  (** src/c-unchop.c:120-157: one iteration of the loop *)
  Definition unchop_step (out_size : nat) (x : option value) (loc : list Z) (st : value * option (list rstr))
      : res (value * option (list rstr)) :=
    let '(proxy, out_names) := st in
    match x with
    | None => Ok st
    | Some _ =>
        let! x := vec_check_recycle x (Z.of_nat (length loc)) in
        match x with
        | None => Err "unreachable"
        | Some x =>
            let! out_names :=
              match vec_names x with
              | None => Ok out_names
              | Some nms =>
                  let o := match out_names with None => replicate out_size empty_str | Some o => o end in
                  let! o := assign_base o (SLoc loc) nms in
                  Ok (Some o)
              end in
            let! x := cast x in
            let! proxy := vec_proxy_assign_opts true proxy (SLoc loc) x in
            Ok (proxy, out_names)
        end
    end.
  (** src/c-unchop.c:12-184 [list_unchop] with non-NULL indices *)
  Definition list_unchop (ptype : option value) (xs : list (option value)) (indices : list index) : res (option value) :=
    if negb (length xs =? length indices) then Err "`x` and `indices` must be lists of the same size."
    else
      match ptype with
      | None => Ok None
      | Some p =>
          let! out_size := unchop_size indices (length xs) in
          let! locs := list_as_locations indices out_size in
          let! proxy := vec_init p out_size in
          let! (proxy, out_names) :=
            for_ 0 (length xs) (fun i st =>
              let! x := rd xs i in
              let! loc := rd locs i in
              unchop_step (Z.to_nat out_size) x loc st) (proxy, None) in
          Ok (Some (finish_names proxy out_names))
      end.

  (** src/c.c:18-170 [vec_c_opts] *)
  Definition vec_c (ptype : option value) (xs : list (option value)) : res (option value) :=
    match ptype with
    | None => Ok None
    | Some p =>
        let size_of (x : option value) := match x with None => 0%Z | Some v => value_size v end in
        let sizes := map size_of xs in
        let out_size := fold_left Z.add sizes 0%Z in
        let! out := vec_init p out_size in
        let! (out, out_names, _) :=
          for_ 0 (length xs) (fun i '(out, out_names, counter) =>
            let! x := rd xs i in
            let! size := rd sizes i in
            let loc := SSeq counter size 1 in
            let! out_names :=
              match x with
              | None => Ok out_names
              | Some v =>
                  match vec_names v with
                  | None => Ok out_names
                  | Some nms =>
                      let o := match out_names with None => replicate (Z.to_nat out_size) empty_str | Some o => o end in
                      let! o := assign_base o loc nms in
                      Ok (Some o)
                  end
              end in
            if (size =? 0)%Z then Ok (out, out_names, counter)
            else
              match x with
              | None => Err "unreachable"
              | Some v =>
                  let! v := cast v in
                  let! out := vec_proxy_assign_opts true out loc v in
                  Ok (out, out_names, counter + size)%Z
              end) (out, None, 0%Z) in
        Ok (Some (finish_names out out_names))
    end.

  (** ** src/slice-interleave.c *)

  (** src/slice-interleave.c:11-53 [vec_interleave_indices] *)
  Definition vec_interleave_indices (n size : Z) : res (list (list Z)) :=
    if (n <? 0)%Z then Err "`n` must be greater than or equal to 0."
    else if (size <? 0)%Z then Err "`size` must be greater than or equal to 0."
    else
      let! total := r_ssize_mult n size in
      if (R_LEN_T_MAX <? total)%Z then Err "Long vectors are not yet supported in `vec_interleave()`."
      else
        for_ 0 (Z.to_nat n) (fun i out =>
          let start := (Z.of_nat i + 1)%Z in
          let! elt := for_ 0 (Z.to_nat size) (fun j elt =>
            wr elt j (start + n * Z.of_nat j)%Z) (alloc (Z.to_nat size)) in
          wr out i elt) (replicate (Z.to_nat n) []).
  (** R/slice-interleave.R:38-62 [vec_interleave] *)
  Definition vec_interleave (ptype : option value) (xs : list (option value)) : res (option value) :=
    let args := filter (fun x => is_Some x) xs in
    let! size := vec_size_common args 0 in
    let! indices := vec_interleave_indices (Z.of_nat (length args)) size in
    list_unchop ptype args (map (fun l => IInt (l, None)) indices).
End combine.
