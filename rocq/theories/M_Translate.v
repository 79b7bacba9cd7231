(** * Model: normalisation of encodings (src/translate.c, src/translate.h) *)
From Verif Require Import Base.

(** A string of R: [NA_STRING], or bytes with the encoding that its [LEVELS()]
    tell.  Strings are in a global cache: they are the same pointer if they are
    the same value. *)
Inductive enc := EAscii | EUtf8 | ELatin1 | ENative | EBytes.
Inductive estr := NaStr | Str (b : list Z) (e : enc).

(** Objects in memory: a place is an index.  Attributes are a pairlist, an object
    of its own; its tags are left out, and a pairlist has no attributes.
    - [BChr]: character vectors
    - [BList]: lists (and data frames)
    - [BPairs]: the pairlist of attributes, as the values of its nodes
    - [BOther]: other types that [Rf_shallow_duplicate()] copies, such as numeric vectors and functions
    - [BRef]: types that it does not copy: environments, external pointers and symbols *)
Inductive body := BChr (l : list estr) | BList (l : list nat) | BPairs (l : list nat) | BOther (v : Z) | BRef (v : Z).
Record obj := Obj { o_body : body; o_attrib : option nat }.
Notation heap := (list obj).

(** src/rlang/obj.h:75-78 [r_clone].  The pairlist of attributes is copied, its values are not. *)
Definition r_clone (h : heap) (x : nat) : res (heap * nat) :=
  let! o := rd h x in
  match o_body o with
  | BRef _ => Ok (h, x)
  | b =>
      match o_attrib o with
      | None => Ok (h ++ [Obj b None], length h)
      | Some a =>
          let! oa := rd h a in
          Ok (h ++ [Obj (o_body oa) None; Obj b (Some (length h))], length h + 1)
      end
  end.

(** src/translate.h:17-33 [string_is_ascii_or_utf8], [string_is_normalized] *)
Definition string_is_normalized (s : estr) : bool :=
  match s with
  | NaStr => true
  | Str _ EAscii | Str _ EUtf8 => true
  | Str _ _ => false
  end.

Section translate.
  (** What [Rf_translateCharUTF8()] returns for a string that is neither ASCII nor UTF-8 nor bytes *)
  Context (tr : list Z -> enc -> list Z).
  (** [MAYBE_REFERENCED()]: whether the count of references of an object is not 0 *)
  Context (mr : heap -> nat -> bool).

  (** src/translate.h:27-29 [string_normalize].  [Rf_mkCharCE()] marks ASCII strings as such. *)
  Definition string_normalize (s : estr) : res estr :=
    match s with
    | NaStr => Ok NaStr
    | Str _ EBytes => Err "translating strings with bytes encoding is not allowed"
    | Str b e => let b := match e with EAscii | EUtf8 => b | _ => tr b e end in
        Ok (Str b (if forallb (fun c => c <? 128)%Z b then EAscii else EUtf8))
    end.

  (** src/utils.c:1308-1314 [r_clone_referenced] *)
  Definition r_clone_referenced (h : heap) (x : nat) : res (heap * nat) :=
    if mr h x then r_clone h x else Ok (h, x).

  (** src/translate.c:100-115 [chr_find_normalize_start] *)
  Fixpoint chr_find_normalize_start (l : list estr) : nat :=
    match l with
    | [] => 0
    | s :: l => if string_is_normalized s then Datatypes.S (chr_find_normalize_start l) else 0
    end.
  (** src/translate.c:71-98 [chr_normalize_encoding].  The elements are stored
      after the loop instead of one by one. *)
  Definition chr_normalize_encoding (h : heap) (x : nat) (l : list estr) : res (heap * nat) :=
    let size := length l in
    let start := chr_find_normalize_start l in
    if size =? start then Ok (h, x)
    else
      let! (h, x) := r_clone_referenced h x in
      let! l := for_ start (size - start) (fun i l =>
        let! s := rd l i in
        if string_is_normalized s then Ok l else let! s := string_normalize s in wr l i s) l in
      let! o := rd h x in
      let! h := wr h x (Obj (BChr l) (o_attrib o)) in
      Ok (h, x).

  (** src/translate.c:119-149 [list_normalize_encoding], the body of its loop and
      the loop; [rec] is [obj_normalize_encoding] *)
  Definition list_step (rec : heap -> nat -> res (heap * nat)) (i : nat) (st : heap * nat) : res (heap * nat) :=
    let '(h, x) := st in
    let! o := rd h x in
    match o_body o with
    | BList l =>
        let! elt_old := rd l i in
        let! (h, elt_new) := rec h elt_old in
        if elt_old =? elt_new then Ok (h, x)
        else
          let! (h, x) := r_clone_referenced h x in
          let! o := rd h x in
          match o_body o with
          | BList l =>
              let! l := wr l i elt_new in
              let! h := wr h x (Obj (BList l) (o_attrib o)) in
              Ok (h, x)
          | _ => UB "not a list"
          end
    | _ => UB "not a list"
    end.
  Definition list_normalize_encoding (rec : heap -> nat -> res (heap * nat)) (h : heap) (x size : nat) : res (heap * nat) :=
    for_ 0 size (list_step rec) (h, x).

  (** src/translate.c:171-208 [attrib_normalize_encoding], the body of its loop and the loop *)
  Definition attrib_step (rec : heap -> nat -> res (heap * nat)) (loc : nat) (st : heap * nat * bool) : res (heap * nat * bool) :=
    let '(h, x, owned) := st in
    let! o := rd h x in
    match o_body o with
    | BPairs l =>
        let! elt_old := rd l loc in
        let! (h, elt_new) := rec h elt_old in
        if elt_old =? elt_new then Ok (h, x, owned)
        else
          let! (h, x) := if owned : bool then Ok (h, x) else r_clone h x in
          let! o := rd h x in
          match o_body o with
          | BPairs l =>
              let! l := wr l loc elt_new in
              let! h := wr h x (Obj (BPairs l) (o_attrib o)) in
              Ok (h, x, true)
          | _ => UB "not a pairlist"
          end
    | _ => UB "not a pairlist"
    end.
  Definition attrib_normalize_encoding (rec : heap -> nat -> res (heap * nat)) (h : heap) (x size : nat) : res (heap * nat) :=
    let! (h, x, _) := for_ 0 size (attrib_step rec) (h, x, false) in
    Ok (h, x).

  (** src/translate.c:151-169 [obj_attrib_normalize_encoding] *)
  Definition obj_attrib_normalize_encoding (rec : heap -> nat -> res (heap * nat)) (h : heap) (x attrib : nat) : res (heap * nat) :=
    let! oa := rd h attrib in
    match o_body oa with
    | BPairs l =>
        let! (h, attrib_new) := attrib_normalize_encoding rec h attrib (length l) in
        if attrib_new =? attrib then Ok (h, x)
        else
          let! (h, x) := r_clone_referenced h x in
          let! o := rd h x in
          let! h := wr h x (Obj (o_body o) (Some attrib_new)) in
          Ok (h, x)
    | _ => UB "not a pairlist"
    end.

  (** src/translate.c:48-66 [obj_normalize_encoding].  [fuel] is the room on the
      stack: each level of an object takes one. *)
  Fixpoint obj_normalize_encoding (fuel : nat) (h : heap) (x : nat) : res (heap * nat) :=
    match fuel with
    | O => Err "stack overflow"
    | Datatypes.S fuel =>
        let! o := rd h x in
        let! (h, x) :=
          match o_body o with
          | BChr l => chr_normalize_encoding h x l
          | BList l => list_normalize_encoding (obj_normalize_encoding fuel) h x (length l)
          | _ => Ok (h, x)
          end in
        let! o := rd h x in
        match o_attrib o with
        | None => Ok (h, x)
        | Some attrib => obj_attrib_normalize_encoding (obj_normalize_encoding fuel) h x attrib
        end
    end.
  (** src/translate.c:38-40 *)
  Definition vec_normalize_encoding := obj_normalize_encoding.
End translate.
