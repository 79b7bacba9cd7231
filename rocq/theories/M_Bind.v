(** * Model: binding rows and columns (src/bind.c)

    A data frame comes with its row names: [Some] when they are identifiers,
    [None] when they are compact.  Row names of data frame columns and dimnames
    are not modelled, nor is the fallback to [c()] (src/bind.c:242).  The cast
    between vectors that are not both data frames is a parameter (see M_Cast),
    as are name repairs other than "minimal" and "unique". *)
From Verif Require Import Base M_Double M_Scalar M_Hash M_Object M_Proxy M_Slice M_Subscript M_Rep M_Chop M_Names M_Shape M_Factor M_Ptype.

(** An input: a vector and the row names of a data frame. *)
Definition rowed : Type := (value * option (list rstr))%type.

(** ** Names *)

(** [struct name_repair_opts], [NULL] being [RepairNone]; "universal",
    "check_unique" and functions are [RepairFn] *)
Inductive repair := RepairNone | RepairMinimal | RepairUnique | RepairFn (f : list rstr -> res (list rstr)).
(** src/names.c:10-23 [vec_as_names] *)
Definition vec_as_names (addr : rstr -> Z) (r : repair) (names : list rstr) : res (list rstr) :=
  match r with
  | RepairNone => Ok names
  | RepairMinimal => as_minimal_names names
  | RepairUnique => vec_as_unique_names addr names
  | RepairFn f => f names
  end.

(** A name specification: [NULL], [zap()], or a function of the outer name and
    of the inner names, which are [inl n] when they are the integers 1 to [n]. *)
Inductive name_spec := SpecNull | SpecZap | SpecFn (f : rstr -> nat + list rstr -> res (option (list rstr))).
(** src/names.c:551-624 [apply_name_spec].  [ChrsEmpty] is the shared empty name
    [chrs_empty], a character vector of size 1. *)
Inductive spec_names := NoNames | ChrsEmpty | Names (names : list rstr).
Definition names_of_opt (names : option (list rstr)) : spec_names :=
  match names with None => NoNames | Some l => Names l end.
Definition recycle_names (names : option (list rstr)) (n : nat) : res spec_names :=
  match names with
  | None => Ok NoNames
  | Some l =>
      if Nat.eqb (length l) n then Ok (Names l)
      else match l with [s] => Ok (Names (replicate n s)) | _ => Err "Can't recycle" end
  end.
Definition apply_name_spec (spec : name_spec) (outer : option rstr) (inner : option (list rstr)) (n : nat) : res spec_names :=
  match spec with
  | SpecZap => Ok NoNames
  | _ =>
      match outer with
      | None => Ok (names_of_opt inner)
      | Some outer =>
          if str_ptr_eqb outer empty_str || str_ptr_eqb outer None then
            Ok (match inner with None => ChrsEmpty | Some l => Names l end)
          else
            let! empty := r_is_empty_names inner in
            if empty && Nat.eqb n 0 then Ok (Names [])
            else if empty && Nat.eqb n 1 then Ok (Names [outer])
            else
              match spec with
              | SpecFn f =>
                  let! out := f outer (match inner with Some l => if empty then inl n else inr l | None => inl n end) in
                  recycle_names out n
              | _ => Err "Can't merge the outer name"
              end
      end
  end.

(** ** Columns *)

(** src/bind.c:543-601 [as_df_col], [shaped_as_df_col], [vec_as_df_col].  The
    object is a vector or array that becomes one packed column, [df_self], or a
    list of columns with optional names, [df_cols] and [df_names]; a data frame
    is both.  [as.data.frame()] of a matrix without column names takes its
    columns. *)
Record df_col := DfCol { df_self : value; df_cols : list value; df_names : option (list rstr) }.
Definition mat_cols (t : vtype) (dim : list Z) (data : list elt) : list value :=
  match dim with
  | d :: rest =>
      map (fun e => VVec t (take (Z.to_nat d) (drop (e * Z.to_nat d) data)) None)
        (seq 0 (match rest with [] => 1 | n :: _ => Z.to_nat n end))
  | [] => []
  end.
Definition as_df_col (x : value) (outer : rstr) : res (df_col * bool) :=
  match x with
  | VDf _ names cols => Ok (DfCol x cols (Some names), true)
  | VArr t dim data =>
      if 2 <? length dim then Err "Can't bind arrays."
      else if negb (str_ptr_eqb outer empty_str) then Ok (DfCol x [] None, true)
      else Ok (DfCol x (mat_cols t dim data) None, true)
  | VVec _ _ _ => Ok (DfCol x [x] (if negb (str_ptr_eqb outer empty_str) then Some [outer] else None), false)
  end.

(** src/bind.c:515-533 [cbind_container_type]: the first row names *)
Definition learn_rownames (xs : list (option rowed)) (ptype_rn : option (list rstr)) : option (list rstr) :=
  let learn (learned : option (list rstr)) (x : option rowed) :=
    match x with
    | Some (VDf _ _ _, Some rn) => match learned with None => Some rn | _ => learned end
    | _ => learned
    end in
  match fold_left learn xs None with None => ptype_rn | Some rn => Some rn end.

Section bind.
  Context (addr : rstr -> Z).

  (** src/bind.c:408-413 *)
  Definition cbind_rownames (rn : option (list rstr)) (nrow : Z) : res (option (list rstr)) :=
    match rn with
    | None => Ok None
    | Some l =>
        if (Z.of_nat (length l) =? nrow)%Z then Ok rn
        else
          let! l := match l with [s] => Ok (replicate (Z.to_nat nrow) s) | _ => Err "Can't recycle" end in
          let! l := vec_as_unique_names addr l in
          Ok (Some l)
    end.
  (** src/proxy-restore.c:215-224: what [vec_restore()] does with row names *)
  Definition restore_rownames (rn : option (list rstr)) : res (option (list rstr)) :=
    match rn with
    | None => Ok None
    | Some l => let! l := vec_as_unique_names addr l in Ok (Some l)
    end.

  (** src/bind.c:415-445: inputs to columns, and the number of columns *)
  Definition cbind_inputs (xs : list (option rowed)) (xs_names : option (list rstr)) (nrow : Z)
      : res (list (option df_col) * option (list rstr) * nat) :=
    for_ 0 (length xs) (fun i '(out, names, ncol) =>
      let! x := rd xs i in
      match x with
      | None => Ok (out, names, ncol)
      | Some (x, _) =>
          let! x := vec_check_recycle (Some x) nrow in
          match x with
          | None => Err "unreachable"
          | Some x =>
              let! outer := match names with Some names => rd names i | None => Ok empty_str end in
              let! (x, allow_packing) := as_df_col x outer in
              let! names :=
                match names with
                | Some names => if negb allow_packing then let! names := wr names i empty_str in Ok (Some names) else Ok (Some names)
                | None => Ok None
                end in
              let! out := wr out i (Some x) in
              let x_ncol := if str_ptr_eqb outer empty_str then length (df_cols x) else 1 in
              Ok (out, names, ncol + x_ncol)
          end
      end) (replicate (length xs) None, xs_names, 0).
  (** src/bind.c:448-493: the columns, [None] being an element that was not
      assigned *)
  Definition cbind_fill (xs : list (option df_col)) (xs_names : option (list rstr)) (ncol : nat)
      : res (list (option value) * list rstr) :=
    let! (out, names, _) :=
      for_ 0 (length xs) (fun i '(out, names, counter) =>
        let! x := rd xs i in
        match x with
        | None => Ok (out, names, counter)
        | Some x =>
            let! outer := match xs_names with Some l => rd l i | None => Ok empty_str end in
            if negb (str_ptr_eqb outer empty_str) then
              let! out := wr out counter (Some (df_self x)) in
              let! names := wr names counter outer in
              Ok (out, names, S counter)
            else
              let xn := length (df_cols x) in
              let idx := SSeq (Z.of_nat counter) (Z.of_nat xn) 1 in
              let! out := assign_base out idx (map Some (df_cols x)) in
              let! names := match df_names x with Some l => assign_base names idx l | None => Ok names end in
              Ok (out, names, counter + xn)
        end) (replicate ncol None, replicate ncol empty_str, 0) in
    Ok (out, names).
  Fixpoint all_assigned (l : list (option value)) : res (list value) :=
    match l with
    | [] => Ok []
    | None :: _ => Err "NULL column"
    | Some v :: l => let! l := all_assigned l in Ok (v :: l)
    end.
  (** src/bind.c:371-506 [vec_cbind].  [size] has been through
      [vec_as_short_length()]; [ptype_rn] are the row names of the prototype, of
      which the class is not modelled. *)
  Definition vec_cbind (r : repair) (size : option Z) (ptype_rn : option (list rstr)) (xs : list (option rowed)) (xs_names : option (list rstr))
      : res rowed :=
    let rownames := learn_rownames xs ptype_rn in
    let! nrow := match size with None => vec_size_common (map (option_map fst) xs) 0 | Some s => Ok s end in
    let! rownames := cbind_rownames rownames nrow in
    let! (cols, xs_names, ncol) := cbind_inputs xs xs_names nrow in
    let! (out, names) := cbind_fill cols xs_names ncol in
    let! out := all_assigned out in
    let! names := vec_as_names addr r names in
    let! rownames := restore_rownames rownames in
    Ok (VDf (Z.to_nat nrow) names out, rownames).

  (** ** Rows *)

  (** src/bind.c:267-313 [as_df_row_impl].  [as.data.frame()] of a matrix takes
      its columns, which are unnamed here. *)
  Definition as_df_row_impl (r : repair) (x : rowed) : res rowed :=
    let chopped (t : vtype) (data : list elt) (names : list rstr) : res rowed :=
      let! names := vec_as_names addr r names in
      let! cols := vec_chop_unsafe (VVec t data None) CNone in
      Ok (VDf 1 names cols, None) in
    match x.1 with
    | VDf n names cols =>
        let! names := vec_as_names addr r names in
        Ok (VDf n names cols, x.2)
    | VArr t dim data =>
        match dim with
        | [_] => chopped t data (replicate (length data) empty_str)
        | [d; n] =>
            let! names := vec_as_names addr r (replicate (Z.to_nat n) empty_str) in
            Ok (VDf (Z.to_nat d) names (mat_cols t dim data), None)
        | _ => Err "Can't bind arrays."
        end
    | VVec t data names =>
        chopped t data (match names with None => replicate (length data) empty_str | Some l => l end)
    end.
  (** src/unspecified.c:37-75 [vec_is_unspecified] *)
  Definition lgl_of (e : elt) : Z := match e with ELgl z => z | _ => 0%Z end.
  Definition is_unspecified (x : value) : bool :=
    match x with VVec TLgl data _ => vec_is_unspecified (map lgl_of data) | _ => false end.
  (** src/bind.c:256-265 [as_df_row] *)
  Definition as_df_row (r : repair) (x : option rowed) : res (option rowed) :=
    match x with
    | None => Ok None
    | Some x =>
        if is_unspecified x.1 && match x.1 with VVec _ _ (Some _) => false | _ => true end then Ok (Some x)
        else let! x := as_df_row_impl r x in Ok (Some x)
    end.

  (** The type of a vector, and the prototype of a type (see M_Ptype): types with
      a class other than data frames do not occur here. *)
  Fixpoint ty_of (x : value) : ty :=
    match x with
    | VVec t _ _ => if is_unspecified x then TyUnspecified else TyBare t None
    | VArr t dim _ => TyBare t (Some dim)
    | VDf _ names cols => TyDf false names (map ty_of cols)
    end.
  Fixpoint proto_val (p : ty) : res value :=
    match p with
    | TyBare t None => Ok (VVec t [] None)
    | TyBare t (Some dim) => Ok (VArr t dim [])
    | TyDf _ names cols =>
        let! cols := (fix go cols := match cols with
          | [] => Ok []
          | c :: cols => let! c := proto_val c in let! cols := go cols in Ok (c :: cols)
          end) cols in
        Ok (VDf 0 names cols)
    | _ => Err "not modelled"
    end.

  (** src/utils.c:1096-1110 [r_chr_find] *)
  Definition r_chr_find (x : list rstr) (value : rstr) : res Z :=
    for_brk 0 (length x) (fun i loc =>
      let! elt := rd x i in
      Ok (if str_ptr_eqb elt value then Break (Z.of_nat i) else Next loc)) (-1)%Z.
  (** src/bind.c:326-347 [cbind_names_to] *)
  Definition cbind_names_to (has_names : bool) (names_to : rstr) (p : rowed) : res rowed :=
    let index := if has_names then VVec TChr [] None else VVec TInt [] None in
    vec_cbind RepairNone None None [Some (index, None); Some p] (Some [names_to; empty_str]).

  (** [vec_init()] on a data frame whose prototype has character row names, as
      [has_rn] says: src/slice.c:200-204 and 270-282 [slice_rownames] on missing
      locations *)
  Definition init_rownames (has_rn : option (list rstr)) (n : Z) : res (option (list rstr)) :=
    match has_rn with
    | None => Ok None
    | Some _ =>
        let! l := vec_as_unique_names addr (replicate (Z.to_nat n) None) in
        Ok (Some l)
    end.

  Section rbind.
    (** [vec_cast_opts()] unless both are data frames *)
    Context (cast : value -> value -> res value).

    (** src/cast.c:20-74 [vec_cast_opts]: unspecified vectors become missing;
        src/type-data-frame.c:761, 818: row names are kept *)
    Definition cast_row (p : rowed) (x : option rowed) : res (option rowed) :=
      match x with
      | None => Ok None
      | Some (v, rn) =>
          if is_unspecified v then
            let! out := vec_init p.1 (value_size v) in
            let! rn := init_rownames p.2 (value_size v) in
            Ok (Some (out, rn))
          else
            let! out := vec_cast addr cast v p.1 in
            Ok (Some (out, rn))
      end.
    (** src/cast.c:247-283 [vec_cast_common_opts]: one after the other *)
    Definition map_res {A B} (f : A -> res B) (xs : list A) : res (list B) :=
      for_ 0 (length xs) (fun i out => let! x := rd xs i in let! y := f x in Ok (out ++ [y])) [].

    (** src/bind.c:65-89: the prototype.  [None] is [NULL].  [ptype] is the
        [.ptype] argument, complete unless [TyNull], with the row names a complete
        one has (src/ptype.c:99-115 [df_ptype]). *)
    Definition rbind_ptype (r : repair) (ptype : ty) (ptype_rn : bool) (xs : list (option rowed)) : res (option rowed) :=
      let! p := vec_ptype_common addr ptype (map (fun x => match x with None => TyNull | Some x => ty_of x.1 end) xs) in
      match p with
      | TyNull => Ok None
      | TyBare TLgl None =>
          let! p := as_df_row_impl r (VVec TLgl [ELgl NA_LOGICAL] None, None) in
          Ok (Some p)
      | TyDf _ _ _ =>
          let! v := proto_val p in
          Ok (Some (v, match ptype with TyNull => None | _ => if ptype_rn then Some [] else None end))
      | _ => Err "Can't bind objects that are not coercible to a data frame."
      end.

    (** src/bind.c:91-115: the location of the [.names_to] column and the
        prototype with it *)
    Definition rbind_names_to (spec : name_spec) (names_to : option rstr) (has_names : bool) (p : rowed) : res (rowed * Z) :=
      match names_to with
      | None => Ok (p, 0%Z)
      | Some name =>
          match spec with
          | SpecZap => Err "Can't zap outer names when `.names_to` is supplied."
          | _ =>
              let! loc := match p.1 with VDf _ names _ => r_chr_find names name | _ => Err "unreachable" end in
              if (loc <? 0)%Z then
                let! p := cbind_names_to has_names name p in Ok (p, 0%Z)
              else Ok (p, loc)
          end
      end.

    (** src/utils.c:1007-1040 [r_vec_fill] *)
    Definition r_vec_fill (dest : list elt) (dest_i : Z) (src : list elt) (src_i n : nat) : res (list elt) :=
      for_ 0 n (fun i dest =>
        let! v := rd src src_i in
        wrZ dest (dest_i + Z.of_nat i) v) dest.

    (** src/bind.c:197-237: one iteration of the loop; [index] is [Some] when
        [.names_to] is supplied *)
    Definition rbind_state : Type := (value * option (list rstr) * list elt * Z)%type.
    Definition rbind_step (spec : name_spec) (n_rows : nat) (xs : list (option rowed)) (ns : list Z) (xs_names : option (list rstr))
        (index : option (list elt)) (i : nat) (st : rbind_state) : res rbind_state :=
      let '(out, row_names, names_to_col, counter) := st in
      let! size := rd ns i in
      if (size =? 0)%Z then Ok st
      else
        let! x := rd xs i in
        match x with
        | None => Err "unreachable"
        | Some (x, inner) =>
            let loc := SSeq counter size 1 in
            let! out := vec_proxy_assign_opts false out loc x in
            let! row_names :=
              match spec with
              | SpecZap => Ok row_names
              | _ =>
                  let! outer := match xs_names with Some l => let! o := rd l i in Ok (Some o) | None => Ok None end in
                  let! x_nms := apply_name_spec spec outer inner (Z.to_nat size) in
                  match x_nms with
                  | NoNames => Ok row_names
                  | _ =>
                      let rn := match row_names with Some l => l | None => replicate n_rows empty_str end in
                      (* [inner] is never [chrs_empty] *)
                      let! rn := assign_base rn loc (match x_nms with Names l => l | _ => [empty_str] end) in
                      Ok (Some rn)
                  end
              end in
            let! names_to_col :=
              match index with
              | None => Ok names_to_col
              | Some index => r_vec_fill names_to_col counter index i (Z.to_nat size)
              end in
            Ok (out, row_names, names_to_col, counter + size)%Z
        end.

    (** src/bind.c:46-254 [vec_rbind].  [xs] without names when [.names_to] is
        [zap()] (src/bind.c:18-20). *)
    Definition vec_rbind (r : repair) (spec : name_spec) (ptype : ty) (ptype_rn : bool) (names_to : option rstr)
        (xs : list (option rowed)) (xs_names : option (list rstr)) : res rowed :=
      let! xs := map_res (as_df_row r) xs in
      let! p := rbind_ptype r ptype ptype_rn xs in
      match p with
      | None => Ok (VDf 0 [] [], None)
      | Some p =>
          let! (p, names_to_loc) := rbind_names_to spec names_to (match xs_names with Some _ => true | None => false end) p in
          let! xs := map_res (cast_row p) xs in
          let ns := map (fun x : option rowed => match x with None => 0%Z | Some x => value_size x.1 end) xs in
          let n_rows := fold_left Z.add ns 0%Z in
          let! out := vec_init p.1 n_rows in
          let! out_rn := init_rownames p.2 n_rows in
          let index :=
            match names_to with
            | None => None
            | Some _ =>
                Some match xs_names with
                     | Some l => map EChr l
                     | None => map (fun i => EInt (Z.of_nat i + 1)%Z) (seq 0 (length xs))
                     end
            end in
          let blank := match xs_names with Some _ => EChr empty_str | None => EInt 0%Z end in
          let! (out, row_names, names_to_col, _) :=
            for_ 0 (length xs) (rbind_step spec (Z.to_nat n_rows) xs ns (match names_to with Some _ => None | None => xs_names end) index)
              (out, None, replicate (Z.to_nat n_rows) blank, 0%Z) in
          let! rn := restore_rownames (match row_names with Some l => Some l | None => out_rn end) in
          match index, out with
          | Some _, VDf n names cols =>
              let col := VVec (match xs_names with Some _ => TChr | None => TInt end) names_to_col None in
              let! cols := wrZ cols names_to_loc col in
              Ok (VDf n names cols, rn)
          | _, _ => Ok (out, rn)
          end
      end.
  End rbind.
End bind.
