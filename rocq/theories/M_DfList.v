(** * Model: building and flattening data frames (src/type-data-frame.c) *)
From Verif Require Import Base M_Double M_Scalar M_Object M_Proxy M_Slice M_Rep M_Names M_Subscript M_Chop M_Shape M_Factor M_Ptype M_Bind.

(** ** Row names *)

(** The [row.names] attribute: strings, integers, or anything else.  Compact row
    names are the integers [NA] and minus the size. *)
Inductive rownames := RnChr (names : list rstr) | RnInt (x : list Z) | RnOther.
(** src/type-data-frame.c:402-415 [rownames_type] *)
Inductive rownames_kind := Identifiers | Automatic | AutomaticCompact.
Definition rownames_type (rn : rownames) : res rownames_kind :=
  match rn with
  | RnChr _ => Ok Identifiers
  | RnInt x =>
      if length x =? 2 then
        let! x0 := rd x 0 in
        Ok (if (x0 =? NA_INTEGER)%Z then AutomaticCompact else Automatic)
      else Ok Automatic
  | RnOther => Err "Unexpected type"
  end.
(** [abs()] of an [int] *)
Definition c_abs (x : Z) : res Z := if (x =? INT_MIN)%Z then UB "abs(INT_MIN)" else Ok (Z.abs x).
(** src/type-data-frame.c:417-420 [compact_rownames_length], 423-433 [rownames_size] *)
Definition rownames_length (rn : rownames) : nat :=
  match rn with RnChr l => length l | RnInt l => length l | RnOther => 0 end.
Definition rownames_size (rn : rownames) : res Z :=
  let! kind := rownames_type rn in
  match kind, rn with
  | AutomaticCompact, RnInt x => let! n := rd x 1 in c_abs n
  | _, _ => Ok (Z.of_nat (rownames_length rn))
  end.
(** src/type-data-frame.c:462-472 [new_compact_rownames] *)
Definition new_compact_rownames (n : Z) : rownames :=
  if (n <=? 0)%Z then RnInt [] else RnInt [NA_INTEGER; - n]%Z.

(** ** new_data_frame() *)

(** Attributes: those that a data frame uses, and others *)
Inductive tag := TagNames | TagRowNames | TagClass | TagOther (sym : Z).
Inductive attr := AttrChr (x : list rstr) | AttrRn (rn : rownames) | AttrOther (x : Z).
Definition tag_eqb (a b : tag) : bool :=
  match a, b with
  | TagNames, TagNames | TagRowNames, TagRowNames | TagClass, TagClass => true
  | TagOther a, TagOther b => (a =? b)%Z
  | _, _ => false
  end.
Definition attrs : Type := list (tag * attr).
(** The list [x]: elements (the size of a vector, an error if it is not one) and
    attributes. *)
Record rlist := RList { rl_sizes : list (res Z); rl_attrs : attrs }.
Fixpoint attr_get (a : attrs) (t : tag) : option attr :=
  match a with
  | [] => None
  | (t', v) :: a => if tag_eqb t' t then Some v else attr_get a t
  end.
(** src/size.c:157-169 [df_rownames_size] *)
Definition df_rownames_size (x : rlist) : res Z :=
  match attr_get (rl_attrs x) TagRowNames with
  | None => Ok (-1)%Z
  | Some (AttrRn rn) => rownames_size rn
  | Some (AttrChr l) => rownames_size (RnChr l)
  | Some (AttrOther _) => rownames_size RnOther
  end.
(** src/size.c:183-190 [df_raw_size], 192-198 [df_raw_size_from_list] *)
Definition df_raw_size (x : rlist) : res Z :=
  let! n := df_rownames_size x in
  if (0 <=? n)%Z then Ok n
  else if 1 <=? length (rl_sizes x) then let! s := rd (rl_sizes x) 0 in s
  else Ok 0%Z.
(** src/type-data-frame.c:135-151 [df_size_from_n]; [n] is an integer vector *)
Definition df_size_from_n (n : list Z) : res Z :=
  if negb (length n =? 1) then Err "`n` must be an integer of size 1."
  else
    let! out := rd n 0 in
    if (out =? NA_INTEGER)%Z then Err "`n` can't be missing."
    else if (out <? 0)%Z then Err "`n` can't be negative."
    else Ok out.
Definition str_data_frame : rstr := Some [100; 97; 116; 97; 46; 102; 114; 97; 109; 101]%Z.
(** src/type-data-frame.c:36-133 [ffi_new_data_frame]: the attributes of the
    result, whose elements are those of [x].  [n] and [cls] are [None] when
    [NULL]. *)
Definition ffi_new_data_frame (x : rlist) (n : option (list Z)) (cls : option (list rstr)) (attrib : attrs) : res rlist :=
  let! (has_names, has_rownames) :=
    for_ 0 (length attrib) (fun i '(has_names, has_rownames) =>
      let! (t, _) := rd attrib i in
      match t with
      | TagClass => Err "Can't supply `class` in `...`."
      | TagNames => Ok (true, has_rownames)
      | TagRowNames => Ok (has_names, true)
      | _ => Ok (has_names, has_rownames)
      end) (false, false) in
  let attrib' :=
    if has_names : bool then attrib
    else
      match (if 0 <? length (rl_sizes x) then attr_get (rl_attrs x) TagNames else Some (AttrChr [])) with
      | Some nms => (TagNames, nms) :: attrib
      | None => attrib
      end in
  let! attrib' :=
    (if has_rownames : bool then Ok attrib'
     else
       let! size := match n with Some n => df_size_from_n n | None => df_raw_size x end in
       Ok ((TagRowNames, AttrRn (new_compact_rownames size)) :: attrib')) in
  let cls := match cls with None => [str_data_frame] | Some cls => cls ++ [str_data_frame] end in
  Ok (RList (rl_sizes x) ((TagClass, AttrChr cls) :: attrib')).

(** ** df_list() and data_frame() *)

(** src/type-data-frame.c:266-301 [df_list_drop_null] *)
Definition df_list_drop_null (x : list (option value)) (names : list rstr) : res (list (option value) * list rstr) :=
  let n_cols := length x in
  let! count := for_ 0 n_cols (fun i count =>
    let! col := rd x i in
    Ok (match col with None => S count | Some _ => count end)) 0 in
  if count =? 0 then Ok (x, names)
  else
    let n_out := n_cols - count in
    let! (out, out_names, _) :=
      for_ 0 n_cols (fun i '(out, out_names, out_i) =>
        let! col := rd x i in
        match col with
        | None => Ok (out, out_names, out_i)
        | Some _ =>
            let! out := wr out out_i col in
            let! name := rd names i in
            let! out_names := wr out_names out_i name in
            Ok (out, out_names, S out_i)
        end) (replicate n_out None, replicate n_out empty_str, 0) in
    Ok (out, out_names).

Definition is_df (x : option value) : bool := match x with Some (VDf _ _ _) => true | _ => false end.
(** src/type-data-frame.c:303-399 [df_list_unpack] *)
Definition df_list_unpack (x : list (option value)) (names : list rstr) : res (list (option value) * list rstr) :=
  let n_cols := length x in
  let! (i, any_needs_unpack) :=
    for_brk 0 n_cols (fun i _ =>
      let! name := rd names i in
      if negb (str_ptr_eqb name empty_str) then Ok (Next (S i, false))
      else
        let! col := rd x i in
        Ok (if is_df col then Break (i, true) else Next (S i, false))) (0, false) in
  if negb any_needs_unpack then Ok (x, names)
  else
    let! (unpack, width) :=
      for_ i (n_cols - i) (fun i '(unpack, width) =>
        let! name := rd names i in
        if negb (str_ptr_eqb name empty_str) then Ok (unpack, S width)
        else
          let! col := rd x i in
          match col with
          | Some (VDf _ _ cols) =>
              let! unpack := wr unpack i true in
              Ok (unpack, width + length cols)
          | _ => Ok (unpack, S width)
          end) (replicate n_cols false, i) in
    let! (out, out_names, _) :=
      for_ 0 n_cols (fun i '(out, out_names, loc) =>
        let! u := rd unpack i in
        let! col := rd x i in
        if negb u then
          let! out := wr out loc col in
          let! name := rd names i in
          let! out_names := wr out_names loc name in
          Ok (out, out_names, S loc)
        else
          match col with
          | Some (VDf _ col_names cols) =>
              let! (out, out_names) :=
                for_ 0 (length cols) (fun col_i '(out, out_names) =>
                  let! c := rd cols col_i in
                  let! out := wr out (loc + col_i) (Some c) in
                  let! name := rd col_names col_i in
                  let! out_names := wr out_names (loc + col_i) name in
                  Ok (out, out_names)) (out, out_names) in
              Ok (out, out_names, loc + length cols)
          | _ => UB "not a list"
          end) (replicate width None, replicate width empty_str, 0) in
    Ok (out, out_names).

Section df_list.
  Context (addr : rstr -> Z).
  (** src/type-data-frame.c:230-264 [df_list]; [size] as computed in
      src/type-data-frame.c:202-228 [ffi_df_list]. *)
  Definition df_list (r : repair) (size : Z) (unpack : bool) (x : list (option value)) (names : option (list rstr))
      : res (list (option value) * list rstr) :=
    let! x := vec_recycle_common_opts x size in
    let names := match names with None => replicate (length x) empty_str | Some l => l end in
    let! (x, names) := df_list_drop_null x names in
    let! (x, names) := (if unpack then df_list_unpack x names else Ok (x, names)) in
    let! names := vec_as_names addr r names in
    Ok (x, names).
  Definition ffi_df_list (r : repair) (size : option Z) (unpack : bool) (x : list (option value)) (names : option (list rstr))
      : res (list (option value) * list rstr) :=
    let! size := match size with None => vec_size_common x 0 | Some s => Ok s end in
    df_list r size unpack x names.
  (** src/type-data-frame.c:162-186 [ffi_data_frame], 188-198 [data_frame] *)
  Definition ffi_data_frame (r : repair) (size : option Z) (x : list (option value)) (names : option (list rstr)) : res value :=
    let! size := match size with None => vec_size_common x 0 | Some s => Ok s end in
    let! (x, names) := df_list r size true x names in
    let! cols := all_assigned x in
    let! n := rownames_size (new_compact_rownames size) in
    Ok (VDf (Z.to_nat n) names cols).
End df_list.

(** ** df_flatten() *)

(** src/type-data-frame.c:858-873 [df_flat_width] *)
Fixpoint df_flat_width (x : value) : Z :=
  match x with
  | VDf _ _ cols =>
      (fix go (cols : list value) (out : Z) : Z :=
         match cols with
         | [] => out
         | c :: cols => go cols (match c with VDf _ _ _ => out + df_flat_width c - 1 | _ => out end)%Z
         end) cols (Z.of_nat (length cols))
  | _ => 0%Z
  end.
(** src/type-data-frame.c:880-898 [df_flatten_info] *)
Definition df_flatten_info (cols : list value) : res (bool * Z) :=
  for_ 0 (length cols) (fun i '(flatten, width) =>
    let! col := rd cols i in
    Ok (match col with VDf _ _ _ => (true, width + df_flat_width col - 1)%Z | _ => (flatten, width) end))
    (false, Z.of_nat (length cols)).
(** src/type-data-frame.c:936-958 [df_flatten_loop] *)
Definition flat_state : Type := (list (option value) * list rstr * nat)%type.
Fixpoint df_flatten_loop (x : value) (st : flat_state) : res flat_state :=
  match x with
  | VDf _ x_names cols =>
      (fix go (cols : list value) (i : nat) (st : flat_state) : res flat_state :=
         match cols with
         | [] => Ok st
         | col :: cols =>
             let! st :=
               match col with
               | VDf _ _ _ => df_flatten_loop col st
               | _ =>
                   let '(out, out_names, counter) := st in
                   let! out := wr out counter (Some col) in
                   let! name := rd x_names i in
                   let! out_names := wr out_names counter name in
                   Ok (out, out_names, S counter)
               end in
             go cols (S i) st
         end) cols 0 st
  | _ => UB "not a list"
  end.
(** src/type-data-frame.c:917-934 [df_flatten] *)
Definition df_flatten (x : value) : res value :=
  match x with
  | VDf n _ cols =>
      let! (flatten, width) := df_flatten_info cols in
      if negb flatten then Ok x
      else
        let! (out, out_names, _) :=
          df_flatten_loop x (replicate (Z.to_nat width) None, replicate (Z.to_nat width) empty_str, 0) in
        let! out := all_assigned out in
        Ok (VDf n out_names out)
  | _ => UB "not a list"
  end.

(** ** df_poke() and df_poke_at() *)

(** src/type-data-frame.c:825-840 [df_poke]; [r_resize()] adds an empty name. *)
Definition df_poke (names : list rstr) (cols : list value) (i : Z) (v : value) : res (list rstr * list value) :=
  if (0 <=? i)%Z then let! cols := wrZ cols i v in Ok (names, cols)
  else Ok (names ++ [empty_str], cols ++ [v]).
(** src/type-data-frame.c:841-856 [df_poke_at] *)
Definition df_poke_at (names : list rstr) (cols : list value) (name : rstr) (v : value) : res (list rstr * list value) :=
  let! i := r_chr_find names name in
  let! (names, cols) := df_poke names cols i v in
  if (i <? 0)%Z then let! names := wrZ names (Z.of_nat (length cols) - 1) name in Ok (names, cols)
  else Ok (names, cols).
