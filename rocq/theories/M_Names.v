(** * Model: name repair, src/names.c and [r_chr_iota] of src/utils.c

    A string is a list of bytes ([rstr] of M_Scalar: [None] is [NA_STRING]).
    Simplifications: encodings are not modelled; the messages of
    [describe_repair()] are not modelled; [R_CheckStack2()] is taken to succeed;
    [isdigit()] of a byte above 127, which C leaves undefined because [char] is
    signed, is taken to be false, as in every common C library; [strtol()] is
    the one of the "C" numeric format, which R always uses. *)
From Verif Require Import Base M_Double M_Scalar M_Hash M_Object M_Proxy M_Growable M_Dict M_DictApi M_Slice M_Factor.

Notation bytes := (list Z).

(** ['.'] and the C string literals *)
Definition ch_dot : Z := 46%Z.
Definition dots3 : bytes := [46; 46; 46]%Z.
(** [strings_dots] and [strings_empty] *)
Definition dots_str : rstr := Some dots3.
(** [r_str_c_string()]: the C string of [NA_STRING] is ["NA"] *)
Definition c_string (s : rstr) : bytes := match s with Some b => b | None => [78; 65]%Z end.
(** [int n = strlen(name)] *)
Definition strlen_int (b : bytes) : res Z :=
  if (Z.of_nat (length b) <=? INT_MAX)%Z then Ok (Z.of_nat (length b)) else UB "strlen() does not fit an int".

(** [isdigit()] and [isspace()] *)
Definition isdigit (c : Z) : bool := ((48 <=? c) && (c <=? 57))%Z.
Definition isspace (c : Z) : bool := ((c =? 32) || ((9 <=? c) && (c <=? 13)))%Z.

(** [strtol(s, NULL, 10) != 0]: skip white space, one optional sign, then read
    digits.  Out of range numbers give [LONG_MAX] or [LONG_MIN], which are not 0. *)
Fixpoint skip_space (s : bytes) : bytes :=
  match s with c :: s' => if isspace c then skip_space s' else s | [] => [] end.
Definition skip_sign (s : bytes) : bytes :=
  match s with c :: s' => if ((c =? 43) || (c =? 45))%Z then s' else s | [] => [] end.
Fixpoint read_digits (acc : Z) (s : bytes) : Z :=
  match s with
  | c :: s' => if isdigit c then read_digits (acc * 10 + (c - 48))%Z s' else acc
  | [] => acc
  end.
Definition strtol_nonzero (s : bytes) : bool := negb (read_digits 0 (skip_sign (skip_space s)) =? 0)%Z.

(** src/names.c:356-374 [is_dotdotint].  Reading [name[2]] is in range once
    [n >= 3]. *)
Definition is_dotdotint (name : bytes) : res bool :=
  let! n := strlen_int name in
  if (n <? 3)%Z then Ok false else
  let! c0 := rd name 0 in
  let! c1 := rd name 1 in
  if negb (c0 =? ch_dot)%Z || negb (c1 =? ch_dot)%Z then Ok false else
  let! c2 := rd name 2 in
  let name := if (c2 =? ch_dot)%Z then drop 3 name else drop 2 name in
  Ok (strtol_nonzero name).

(** src/names.c:376-434 [suffix_pos].  The loop runs [ptr] from the last
    character down to the first: [ptr = name + k].  [suffix_end] is an offset from
    [name], [None] for the null pointer. *)
Fixpoint suffix_loop (name : bytes) (k : nat) (suffix_end : option nat) (in_dots : Z) (in_digits : bool) : res (option nat) :=
  match k with
  | O => Ok suffix_end
  | S ptr =>
      let! c := rd name ptr in
      if in_digits then
        if (c =? ch_dot)%Z then suffix_loop name ptr suffix_end 1 false
        else if isdigit c then suffix_loop name ptr suffix_end in_dots true
        else Ok suffix_end
      else if (in_dots =? 0)%Z then
        if isdigit c then suffix_loop name ptr suffix_end in_dots true else Ok suffix_end
      else if ((in_dots =? 1) || (in_dots =? 2))%Z then
        if (c =? ch_dot)%Z then suffix_loop name ptr suffix_end (in_dots + 1) in_digits else Ok suffix_end
      else if (in_dots =? 3)%Z then
        let suffix_end := Some (ptr + 1) in
        if isdigit c then suffix_loop name ptr suffix_end 0 true else Ok suffix_end
      else Err "Unexpected state."
  end.
Definition suffix_pos (name : bytes) : res Z :=
  let! n := strlen_int name in
  if (n =? 0)%Z then UB "pointer before the start of the string" else
  let! suffix_end := suffix_loop name (length name) None 0 false in
  Ok (match suffix_end with Some p => Z.of_nat p | None => (-1)%Z end).

(** src/names.c:440-446 [needs_suffix].  CHARSXPs are compared by pointer. *)
Definition needs_suffix (str : rstr) : res bool :=
  if str_ptr_eqb str None || str_ptr_eqb str dots_str || str_ptr_eqb str empty_str then Ok true
  else is_dotdotint (c_string str).

(** [snprintf(buf, size, "%d", n)] of a number that is not negative: its decimal
    digits.  An [int] has at most ten of them, the fuel. *)
Fixpoint decimal_loop (fuel : nat) (n : Z) : res bytes :=
  match fuel with
  | O => Err "fuel"
  | S fuel =>
      if (n <? 10)%Z then Ok [(48 + n)%Z]
      else let! ds := decimal_loop fuel (n / 10)%Z in Ok (ds ++ [(48 + n mod 10)%Z])
  end.
Definition decimal (n : Z) : res bytes := decimal_loop 10 n.
(** [(int) i + 1] *)
Definition int_plus1 (i : nat) : res Z :=
  if (Z.of_nat i <? INT_MAX)%Z then Ok (Z.of_nat i + 1)%Z else UB "int overflow".

(** src/names.c:6-7 [MAX_IOTA_SIZE] *)
Definition MAX_IOTA_SIZE : Z := 28%Z.

Section names.
  Context (addr : rstr -> Z).

  (** src/dictionary.c:256-282 [duplicated_any] *)
  Definition duplicated_any (names : list rstr) : res bool := api_duplicate_any addr (chr_proxy names).
  (** src/dictionary.c:595-641 [vctrs_duplicated] *)
  Definition vctrs_duplicated (names : list rstr) : res (list Z) := api_duplicate_detect addr (chr_proxy names).

  (** src/names.c:243-263 [is_unique_names] *)
  Definition is_unique_names (names : list rstr) : res bool :=
    let! dup := duplicated_any names in
    if dup then Ok false else
    for_brk 0 (length names) (fun i b =>
      let! s := rd names i in
      let! need := needs_suffix s in
      Ok (if need then Break false else Next b)) true.

  (** src/names.c:265-276 [any_has_suffix] *)
  Definition any_has_suffix (names : list rstr) : res bool :=
    for_brk 0 (length names) (fun i b =>
      let! s := rd names i in
      let! pos := suffix_pos (c_string s) in
      Ok (if (0 <=? pos)%Z then Break true else Next b)) false.

  (** src/names.c:284-303, the body of the first loop of [as_unique_names_impl] *)
  Definition strip_step (i : nat) (new_names : list rstr) : res (list rstr) :=
    let! elt := rd new_names i in
    let! need := needs_suffix elt in
    if need then wr new_names i empty_str else
    let nm := c_string elt in
    let! pos := suffix_pos nm in
    if (0 <=? pos)%Z then wr new_names i (Some (take (Z.to_nat pos) nm)) else Ok new_names.

  (** src/names.c:317-334, the name with its position appended.  [snprintf] writes
      at most [remaining] bytes and returns the length it needs. *)
  Definition append_iota (elt : rstr) (i : nat) : res rstr :=
    let name := c_string elt in
    let! size := strlen_int name in
    if (INT_MAX <? size + MAX_IOTA_SIZE)%Z then UB "int overflow" else
    let! i1 := int_plus1 i in
    let! ds := decimal i1 in
    let written := dots3 ++ ds in
    if (MAX_IOTA_SIZE <=? Z.of_nat (length written))%Z then Err "Can't tidy up name because it is too large."
    else Ok (Some (name ++ written)).

  (** src/names.c:310-335, the body of the second loop *)
  Definition suffix_step (dups : list Z) (i : nat) (new_names : list rstr) : res (list rstr) :=
    let! elt := rd new_names i in
    let! dup := rd dups i in
    if negb (str_ptr_eqb elt empty_str) && (dup =? 0)%Z then Ok new_names else
    let! s := append_iota elt i in
    wr new_names i s.

  (** src/names.c:278-343 [as_unique_names_impl] *)
  Definition as_unique_names_impl (names : list rstr) : res (list rstr) :=
    let n := length names in
    let! new_names := for_ 0 n strip_step names in
    let! dups := vctrs_duplicated new_names in
    for_ 0 n (suffix_step dups) new_names.

  (** src/names.c:234-241 [vec_as_unique_names] *)
  Definition vec_as_unique_names (names : list rstr) : res (list rstr) :=
    let! uniq := is_unique_names names in
    if uniq then
      let! suffixed := any_has_suffix names in
      if suffixed then as_unique_names_impl names else Ok names
    else as_unique_names_impl names.

  (** src/utils.c:1150-1175 [r_chr_iota].  [len] is the size of the buffer; the
      result is [None] for [R_NilValue].  Simplification: the strings are given to
      [Rf_mkChar()] as prefix and digits, the buffer itself is not modelled beyond
      its size. *)
  Definition r_chr_iota (n : nat) (len : Z) (prefix : bytes) : res (option (list rstr)) :=
    let! prefix_len := strlen_int prefix in
    if (len - 1 <? prefix_len)%Z then Err "Prefix is larger than iota buffer." else
    let len := (len - prefix_len)%Z in
    for_brk 0 n (fun i out =>
      let! i1 := int_plus1 i in
      let! ds := decimal i1 in
      if (len <=? Z.of_nat (length ds))%Z then Ok (Break None)
      else match out with
           | Some l => let! l := wr l i (Some (prefix ++ ds)) in Ok (Next (Some l))
           | None => Ok (Next None)
           end) (Some (replicate n empty_str)).

  (** src/names.c:481-491 [names_iota] *)
  Definition names_iota (n : nat) : res (list rstr) :=
    let! nms := r_chr_iota n MAX_IOTA_SIZE dots3 in
    match nms with None => Err "Too many names to repair." | Some nms => Ok nms end.

  (** src/names.c:465-479 [vec_unique_names_impl] *)
  Definition vec_unique_names_impl (names : option (list rstr)) (n : nat) : res (list rstr) :=
    match names with
    | None => names_iota n
    | Some names => vec_as_unique_names names
    end.
End names.

(** src/names.c:187-215 [ffi_as_minimal_names] *)
Definition as_minimal_names (names : list rstr) : res (list rstr) :=
  let n := length names in
  let! i := for_brk 0 n (fun j i =>
    let! s := rd names j in
    Ok (if str_ptr_eqb s None then Break j else Next (j + 1))) 0 in
  if (i =? n) then Ok names else
  for_ i (n - i) (fun j out =>
    let! s := rd names j in
    if str_ptr_eqb s None then wr out j empty_str else Ok out) names.

(** src/utils.c:1274-1294 [r_is_empty_names] *)
Definition r_is_empty_names (x : option (list rstr)) : res bool :=
  match x with
  | None => Ok true
  | Some x =>
      for_brk 0 (length x) (fun i b =>
        let! elt := rd x i in
        Ok (if negb (str_ptr_eqb elt None) && negb (str_ptr_eqb elt empty_str) then Break false else Next b)) true
  end.

(** src/names.c:691-698 [r_seq_chr] *)
Definition r_seq_chr (prefix : bytes) (n : nat) : res (option (list rstr)) :=
  let! len := strlen_int prefix in
  if (INT_MAX <? 24 + len + 1)%Z then UB "int overflow" else
  r_chr_iota n (24 + len + 1)%Z prefix.

(** src/utils.c:1129-1140 [r_chr_max_len], the longest C string *)
Definition r_chr_max_len (names : list rstr) : Z :=
  fold_right Z.max 0%Z (map (fun s => Z.of_nat (length (c_string s))) names).

(** Overwrite [length src] bytes of a buffer at offset [k]: [memcpy()] *)
Definition memcpy_at (buf : bytes) (k : nat) (src : bytes) : res bytes :=
  if k + length src <=? length buf then Ok (take k buf ++ src ++ drop (k + length src) buf) else UB "memcpy() out of bounds".
(** The C string at the start of a buffer: up to the first null byte *)
Fixpoint until_nul (buf : bytes) : bytes :=
  match buf with [] => [] | c :: buf => if (c =? 0)%Z then [] else c :: until_nul buf end.

(** src/names.c:639-683 [r_chr_paste_prefix].  The buffer holds [total_len] bytes
    or 4096 if that is more; its first contents do not matter and are [filler]. *)
Definition r_chr_paste_prefix (filler : nat -> Z) (names : list rstr) (prefix sep : bytes) : res (list rstr) :=
  let! outer_len := strlen_int prefix in
  let names_len := r_chr_max_len names in
  let! sep_len := strlen_int sep in
  let total_len := (outer_len + names_len + sep_len + 1)%Z in
  if (INT_MAX <? total_len)%Z then UB "int overflow" else
  let buf := map filler (seq 0 (Z.to_nat (Z.max 4096 total_len))) in
  let! buf := wrZ buf (total_len - 1)%Z 0%Z in
  let! buf := memcpy_at buf 0 prefix in
  let! buf := memcpy_at buf (length prefix) sep in
  let bufp := length prefix + length sep in
  let! (_, out) := for_ 0 (length names) (fun i '(buf, out) =>
    let! s := rd out i in
    let inner := c_string s in
    let! buf := memcpy_at buf bufp inner in
    let! buf := wr buf (bufp + length inner) 0%Z in
    let! out := wr out i (Some (until_nul buf)) in
    Ok (buf, out)) (buf, names) in
  Ok out.

(** src/names.c:524-545 [outer_names].  [None] for [outer] is [R_NilValue]. *)
Definition outer_names (filler : nat -> Z) (names : option (list rstr)) (outer : option rstr) (n : nat) : res (option (list rstr)) :=
  match outer with
  | None => Ok names
  | Some outer =>
      if str_ptr_eqb outer empty_str || str_ptr_eqb outer None then Ok names else
      let! empty := r_is_empty_names names in
      if empty then
        if (n =? 1)%nat then Ok (Some [outer]) else r_seq_chr (c_string outer) n
      else match names with
           | Some names => let! out := r_chr_paste_prefix filler names (c_string outer) [46; 46]%Z in Ok (Some out)
           | None => Ok None
           end
  end.
