(** * Model: factors, src/type-factor.c, and the R methods of R/type-factor.R it
      falls back to.

    A factor is a vector of integer codes with an attribute [levels].  Other
    attributes (names, dimensions) are not modelled, nor are the encodings of
    the levels: all strings are as after [vec_normalize_encoding()]. *)
From Verif Require Import Base M_Double M_Scalar M_Hash M_Object M_Proxy M_Growable M_Dict M_DictApi M_Cast M_Slice M_Subscript M_Rep M_Chop.

(** The attribute [levels]: a character vector at address [ptr], or something
    that is no character vector. *)
Inductive lattr := LOther | LChr (ptr : Z) (levels : list rstr).

Definition chr_value (xs : list rstr) : value := VVec TChr (map EChr xs) None.
Definition chr_proxy (xs : list rstr) : proxy := PVec (Vec TChr (map EChr xs)).
(** [STRING_PTR_RO()] *)
Definition value_chr (v : value) : list rstr :=
  match v with
  | VVec _ data _ => map (fun e => match e with EChr s => s | _ => None end) data
  | _ => []
  end.

Section factor.
  Context (addr : rstr -> Z).

  (** src/dictionary.c:243-248 [vec_unique] on a character vector *)
  Definition chr_unique (xs : list rstr) : res (list rstr) :=
    let! index := api_unique_loc addr (chr_proxy xs) in
    let! out := vec_slice (chr_value xs) (IInt (index, None)) in
    Ok (value_chr out).
  (** src/dictionary.c:355-359 [vec_match], [na_equal = true] *)
  Definition chr_match (needles haystack : list rstr) : res (list Z) :=
    api_match addr (chr_proxy needles) (chr_proxy haystack) true.

  (** src/type-factor.c:65-90 [levels_union] *)
  Definition levels_union (x y : list rstr) : res (list rstr) :=
    let! xy := vec_c Ok (Some (chr_value [])) [Some (chr_value x); Some (chr_value y)] in
    match xy with
    | Some v => chr_unique (value_chr v)
    | None => Err "unreachable"
    end.

  (** src/type-factor.c:6-32 [fct_ptype2]; the result is an empty factor, given
      by its levels. *)
  Definition fct_ptype2 (x y : lattr) : res (list rstr) :=
    match x, y with
    | LOther, _ => Err "corrupt factor levels"
    | _, LOther => Err "corrupt factor levels"
    | LChr px xl, LChr py yl => if (px =? py)%Z then Ok xl else levels_union xl yl
    end.

  (** src/type-factor.c:34-46 [ord_ptype2_validate] *)
  Definition ord_ptype2_validate (x y : lattr) : res bool :=
    match x, y with
    | LOther, _ => Err "corrupt ordered levels"
    | _, LOther => Err "corrupt ordered levels"
    | LChr _ xl, LChr _ yl => Ok (equal_object (RVec (Str xl) RNull) (RVec (Str yl) RNull))
    end.
  (** src/type-factor.c:48-64 [ord_ptype2]; [vec_ptype2_default()] is an
      incompatible type error *)
  Definition ord_ptype2 (x y : lattr) : res (list rstr) :=
    let! same := ord_ptype2_validate x y in
    match x with
    | LChr _ xl => if same then Ok xl else Err "Can't combine"
    | LOther => Err "unreachable"
    end.
  (** src/type-factor.c:259-275 [ord_as_ordered] *)
  Definition ord_as_ordered (codes : list Z) (x to : lattr) : res (list Z * lattr) :=
    let! same := ord_ptype2_validate x to in
    if same then Ok (codes, x) else Err "Can't convert".

  (** src/type-factor.c:99-108 [fct_as_character]; R's [asCharacterFactor()]
      (src/main/coerce.c) *)
  Definition as_character_factor (codes : list Z) (levels : list rstr) : res (list rstr) :=
    for_ 0 (length codes) (fun i out =>
      let! elt := rd codes i in
      if (elt =? NA_INTEGER)%Z then wr out i None
      else if (1 <=? elt)%Z && (elt <=? Z.of_nat (length levels))%Z then
        let! s := rdZ levels (elt - 1) in wr out i s
      else Err "malformed factor") (replicate (length codes) None).
  Definition fct_as_character (codes : list Z) (x : lattr) : res (list rstr) :=
    match x with LOther => Err "corrupt factor levels" | LChr _ levels => as_character_factor codes levels end.

  (** Casts returning [None] have set [*lossy]. *)

  (** src/type-factor.c:160-186 [chr_as_factor_impl] *)
  Definition chr_as_factor_impl (x : list rstr) (levels : list rstr) : res (option (list Z * list rstr)) :=
    let! out := chr_match x levels in
    let! lossy := for_brk 0 (length x) (fun i (_ : bool) =>
      let! o := rd out i in
      let! s := rd x i in
      if (o =? NA_INTEGER)%Z && negb (str_ptr_eqb s None) then Ok (Break true) else Ok (Next false)) false in
    if lossy then Ok None else Ok (Some (out, levels)).
  (** src/type-factor.c:210-230 [remove_na_levels] *)
  Definition remove_na_levels (levels : list rstr) : res (list rstr) :=
    let! loc := for_brk 0 (length levels) (fun i (_ : option Z) =>
      let! s := rd levels i in
      if str_ptr_eqb s None then Ok (Break (Some ((Z.of_nat i + 1) * -1)%Z)) else Ok (Next None)) None in
    match loc with
    | Some na_loc => let! out := vec_slice (chr_value levels) (IInt ([na_loc], None)) in Ok (value_chr out)
    | None => Ok levels
    end.
  (** src/type-factor.c:193-208 [chr_as_factor_from_self] *)
  Definition chr_as_factor_from_self (x : list rstr) : res (list Z * list rstr) :=
    let! levels := chr_unique x in
    let! levels := remove_na_levels levels in
    let! out := chr_match x levels in
    Ok (out, levels).
  (** src/type-factor.c:120-139 [chr_as_factor], 142-161 [chr_as_ordered] *)
  Definition chr_as_factor (x : list rstr) (to : lattr) : res (option (list Z * list rstr)) :=
    match to with
    | LOther => Err "corrupt factor levels"
    | LChr _ levels =>
        if Nat.eqb (length levels) 0 then let! r := chr_as_factor_from_self x in Ok (Some r)
        else chr_as_factor_impl x levels
    end.

  (** src/type-factor.c:277-366 [fct_as_factor_impl] *)
  Definition fct_as_factor_impl (x : list Z) (x_ptr : Z) (x_levels : list rstr) (to_ptr : Z) (to_levels : list rstr)
      : res (option (list Z * list rstr)) :=
    if (x_ptr =? to_ptr)%Z then Ok (Some (x, x_levels))
    else if Nat.eqb (length to_levels) 0 then Ok (Some (x, x_levels))
    else if Nat.ltb (length to_levels) (length x_levels) then Ok None
    else
      let! is_contiguous_subset := for_brk 0 (length x_levels) (fun i (_ : bool) =>
        let! a := rd x_levels i in
        let! b := rd to_levels i in
        if negb (str_ptr_eqb a b) then Ok (Break false) else Ok (Next true)) true in
      if is_contiguous_subset then Ok (Some (x, to_levels))
      else
        let! recode := chr_match x_levels to_levels in
        let! lossy := for_brk 0 (length x_levels) (fun i (_ : bool) =>
          let! r := rd recode i in
          if (r =? NA_INTEGER)%Z then Ok (Break true) else Ok (Next false)) false in
        if lossy then Ok None
        else
          let! out := for_ 0 (length x) (fun i out =>
            let! elt := rd x i in
            if (elt =? NA_INTEGER)%Z then wr out i NA_INTEGER
            else let! r := rdZ recode (elt - 1) in wr out i r) (alloc (length x)) in
          Ok (Some (out, to_levels)).
  (** src/type-factor.c:235-256 [fct_as_factor] *)
  Definition fct_as_factor (x : list Z) (x_attr to : lattr) : res (option (list Z * list rstr)) :=
    match x_attr, to with
    | LOther, _ => Err "corrupt factor levels"
    | _, LOther => Err "corrupt factor levels"
    | LChr px xl, LChr pt tl => fct_as_factor_impl x px xl pt tl
    end.

  (** ** The R method, called when the native cast was lossy *)

  (** [match(x, table)] and [x %in% table] of base R *)
  Fixpoint r_match (table : list rstr) (s : rstr) (k : Z) : Z :=
    match table with
    | [] => NA_INTEGER
    | t :: table => if str_ptr_eqb t s then k else r_match table s (k + 1)
    end.
  Definition r_in (s : rstr) (table : list rstr) : bool := existsb (fun t => str_ptr_eqb t s) table.
  Fixpoint r_any_duplicated (xs : list rstr) : bool :=
    match xs with [] => false | x :: xs => r_in x xs || r_any_duplicated xs end.
  (** [factor(x, levels, exclude = NULL)] of base R *)
  Definition r_factor (x levels : list rstr) : res (list Z * list rstr) :=
    if r_any_duplicated levels then Err "factor level is duplicated"
    else Ok (map (fun s => r_match levels s 1) x, levels).

  (** R/type-factor.R:143-183 [fct_cast_impl] with a target that has levels; [x]
      are the labels, [na] the result of [is.na()], R/conditions.R:441-471
      [maybe_lossy_cast()] *)
  Definition fct_cast_impl (x : list rstr) (na : list bool) (levels : list rstr) : res (list Z * list rstr) :=
    let lossy := zip_with (fun s n => negb (r_in s levels || n)) x na in
    let! out := r_factor x levels in
    if existsb id lossy then Err "Can't convert due to loss of generality" else Ok out.

  (** src/cast.c:20-74 [vec_cast_opts] for a factor or a character vector and a
      target factor: the native implementation, then the R method. *)
  Definition vec_cast_fct_fct (x : list Z) (x_attr to : lattr) : res (list Z * list rstr) :=
    let! out := fct_as_factor x x_attr to in
    match out, x_attr, to with
    | Some r, _, _ => Ok r
    | None, LChr _ xl, LChr _ tl =>
        let! s := as_character_factor x xl in
        fct_cast_impl s (map (fun c => (c =? NA_INTEGER)%Z) x) tl
    | None, _, _ => Err "unreachable"
    end.
  Definition vec_cast_chr_fct (x : list rstr) (to : lattr) : res (list Z * list rstr) :=
    let! out := chr_as_factor x to in
    match out, to with
    | Some r, _ => Ok r
    | None, LChr _ tl => fct_cast_impl x (map (fun s => str_ptr_eqb s None) x) tl
    | None, LOther => Err "unreachable"
    end.
End factor.
