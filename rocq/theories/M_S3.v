(** * Model: how methods are found, and when concatenation falls back to
    methods of [c()] (src/utils.c, src/c.c, src/ptype2-dispatch.c, src/cast.c).

    Strings are bytes without a NUL; symbols are their names (encodings are
    left out).  A method is a number. *)
From Verif Require Import Base.

Notation bytes := (list Z).
Definition dot : Z := 46%Z.

(** What an environment binds to a symbol: a function or something else *)
Inductive value := VFun (id : Z) | VOther.
Notation env := (bytes -> option value).

(** The C string at the start of a buffer *)
Fixpoint c_string (buf : bytes) : res bytes :=
  match buf with
  | [] => UB "string without an end"
  | b :: buf => if (b =? 0)%Z then Ok [] else let! s := c_string buf in Ok (b :: s)
  end.
(** [memcpy()] to an offset of a buffer *)
Definition memcpy (buf : bytes) (off : nat) (src : bytes) : res bytes :=
  for_ 0 (length src) (fun i buf => let! b := rd src i in wr buf (off + i) b) buf.

(** src/utils.c:440-459 [s3_buf] and [s3_paste_method_sym]; the buffer keeps
    what was written before.  The lengths are [int]. *)
Definition s3_buf_size : nat := 200.
Definition s3_paste_method_sym (buf generic cls : bytes) : res (bytes * bytes) :=
  let gen_len := length generic in
  let cls_len := length cls in
  if (INT_MAX <? Z.of_nat gen_len + Z.of_nat cls_len + 1)%Z then UB "signed overflow in s3_paste_method_sym"
  else if s3_buf_size <=? gen_len + cls_len + 1 then Err "Generic or class name is too long."
  else
    let! buf := memcpy buf 0 generic in
    let! buf := wr buf gen_len dot in
    let! buf := memcpy buf (gen_len + 1) cls in
    let! buf := wr buf (gen_len + 1 + cls_len) 0%Z in
    let! sym := c_string buf in
    Ok (sym, buf).

Section methods.
  (** The global environment *)
  Context (global : env).

  (** src/utils.c:466-478 [s3_sym_get_method] *)
  Definition s3_sym_get_method (sym : bytes) (table : env) : option Z :=
    match global sym with
    | Some (VFun m) => Some m
    | _ => match table sym with Some (VFun m) => Some m | _ => None end
    end.
  (** src/utils.c:462-465 [s3_get_method] *)
  Definition s3_get_method (buf generic cls : bytes) (table : env) : res (option Z * bytes) :=
    let! (sym, buf) := s3_paste_method_sym buf generic cls in
    Ok (s3_sym_get_method sym table, buf).

  (** src/utils.c:512-529 [s3_class_find_method]; [None] is the class NULL *)
  Definition s3_class_find_method (buf generic : bytes) (cls : option (list bytes)) (table : env)
    : res (option Z * bytes) :=
    match cls with
    | None => Ok (None, buf)
    | Some cls =>
        for_brk 0 (length cls) (fun i '(_, buf) =>
          let! c := rd cls i in
          let! (method, buf) := s3_get_method buf generic c table in
          Ok (match method with Some _ => Break (method, buf) | None => Next (None, buf) end)) (None, buf)
    end.
  (** src/utils.c:624-633 [s4_get_method], 647-664 [s4_class_find_method] *)
  Definition s4_class_find_method (cls : option (list bytes)) (table : env) : res (option Z) :=
    match cls with
    | None => Ok None
    | Some cls =>
        for_brk 0 (length cls) (fun i _ =>
          let! c := rd cls i in
          Ok (match table c with Some (VFun m) => Break (Some m) | _ => Next None end)) None
    end.

  (** An object: whether the object bit is set, the attribute [class], the
      class of its type ([s3_bare_class()], which fails for some types) *)
  Record sobj := SObj { so_object : bool; so_class : option (list bytes); so_bare : res (list bytes); so_s4 : bool }.
  (** src/utils.c:499-509 [s3_find_method] *)
  Definition s3_find_method (buf generic : bytes) (x : sobj) (table : env) : res (option Z * bytes) :=
    if negb (so_object x) then Ok (None, buf) else s3_class_find_method buf generic (so_class x) table.
  (** src/utils.c:636-646 [s4_find_method] *)
  Definition s4_find_method (x : sobj) (table : env) : res (option Z) :=
    if negb (so_s4 x) then Ok None else s4_class_find_method (so_class x) table.
  (** src/utils.c:532-550 [s3_get_class] *)
  Definition s3_get_class (x : sobj) : res (list bytes) :=
    let cls := if so_object x then so_class x else None in
    let! cls := match cls with Some cls => Ok cls | None => so_bare x end in
    if length cls =? 0 then Err "Class must have length." else Ok cls.
  (** src/utils.c:552-557 [s3_get_class0] *)
  Definition s3_get_class0 (x : sobj) : res bytes :=
    let! cls := s3_get_class x in
    rd cls 0.

  (** src/utils.c:560-583 [s3_find_method_xy]: the method and its symbol *)
  Definition s3_find_method_xy (buf generic : bytes) (x y : sobj) (table : env)
    : res (option (Z * bytes) * bytes) :=
    let! x_class := s3_get_class0 x in
    let! y_class := s3_get_class0 y in
    let! (sym, buf) := s3_paste_method_sym buf generic x_class in
    let! (sym, buf) := s3_paste_method_sym buf sym y_class in
    Ok (match s3_sym_get_method sym table with Some m => Some (m, sym) | None => None end, buf).
  (** src/utils.c:585-602 [s3_find_method2] *)
  Definition s3_find_method2 (buf generic : bytes) (x : sobj) (table : env)
    : res (option (Z * bytes) * bytes) :=
    let! cls := s3_get_class0 x in
    let! (sym, buf) := s3_paste_method_sym buf generic cls in
    Ok (match s3_sym_get_method sym table with Some m => Some (m, sym) | None => None end, buf).
  (** src/ptype2-dispatch.c:86-114 [vec_ptype2_dispatch_s3] and src/cast.c:165-192
      [vec_cast_dispatch_s3] up to the call of the method; [table_of] is the
      method table of the environment of a method ([s3_get_table()]). *)
  Definition dispatch_method (table_of : Z -> env) (buf generic : bytes) (x y : sobj) (table : env)
    : res (option (Z * bytes) * bytes) :=
    let! (method, buf) := s3_find_method_xy buf generic x y table in
    match method with
    | Some _ => Ok (method, buf)
    | None =>
        let! (x_method, buf) := s3_find_method2 buf generic x table in
        match x_method with
        | Some (m, sym) => s3_find_method2 buf sym y (table_of m)
        | None => Ok (None, buf)
        end
    end.
End methods.

(** ** Fallback of concatenation *)
Section fallback.
  Context {A : Type}.
  Context (cls_eq : A -> A -> bool).   (* [equal_object()] of the classes *)
  Context (is_vector inherits_vctr implements_ptype2 implements_c : A -> bool).

  (** src/utils.c:693-709 [list_first_non_null]; [None] is NULL *)
  Definition list_first_non_null (xs : list (option A)) : res (option A * nat) :=
    for_brk 0 (length xs) (fun i _ =>
      let! x := rd xs i in
      Ok (match x with Some _ => Break (x, i) | None => Next (x, S i) end)) (None, 0).
  (** src/utils.c:712-739 [list_is_homogeneously_classed] *)
  Definition list_is_homogeneously_classed (xs : list (option A)) : res bool :=
    let n := length xs in
    if (n =? 0) || (n =? 1) then Ok true
    else
      let! (first, i) := list_first_non_null xs in
      for_brk i (n - i) (fun i _ =>
        let! this := rd xs i in
        match this, first with
        | None, _ => Ok (Next true)
        | Some this, Some first => Ok (if cls_eq first this then Next true else Break false)
        | Some _, None => Err "unreachable"
        end) true.
  (** src/c.c:211-242 [needs_vec_c_homogeneous_fallback] *)
  Definition needs_vec_c_homogeneous_fallback (xs : list (option A)) (ptype : option A) : res bool :=
    if length xs =? 0 then Ok false
    else
      let! (x, _) := list_first_non_null xs in
      match x with
      | None => Ok false
      | Some x =>
          if negb (is_vector x) then Ok false
          else if inherits_vctr x then Ok false
          else if match ptype with Some p => negb (cls_eq x p) | None => false end then Ok false
          else if implements_ptype2 x then Ok false
          else
            let! h := list_is_homogeneously_classed xs in
            Ok (h && implements_c x)
      end.
End fallback.

(** A prototype: a data frame, a fallback of a common class or something else *)
Inductive pcol := PFallback | PLeaf | PFrame (cols : list pcol).
(** src/c.c:429-445 [df_needs_fallback] *)
Fixpoint df_needs_fallback (cols : list pcol) (fuel : nat) : res bool :=
  match fuel with
  | O => Err "out of fuel"
  | S fuel =>
      for_brk 0 (length cols) (fun i _ =>
        let! col := rd cols i in
        match col with
        | PFallback => Ok (Break true)
        | PLeaf => Ok (Next false)
        | PFrame cs => let! b := df_needs_fallback cs fuel in Ok (if b : bool then Break true else Next false)
        end) false
  end.
