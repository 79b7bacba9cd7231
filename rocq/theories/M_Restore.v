(** * Model: restoring attributes (src/proxy-restore.c, src/utils-dispatch.c) *)
From Verif Require Import Base.

(** Attributes: a tag and a value that is strings or integers *)
Inductive tag := TNames | TDim | TDimnames | TClass | TRownames | TOther (k : nat).
Definition tag_eqb (a b : tag) : bool :=
  match a, b with
  | TNames, TNames | TDim, TDim | TDimnames, TDimnames | TClass, TClass | TRownames, TRownames => true
  | TOther i, TOther j => i =? j
  | _, _ => false
  end.
Inductive aval := AStrs (l : list String.string) | AInts (l : list Z).
Notation attribs := (list (tag * aval)).

(** Objects in memory: a place is an index.  A vector has data, a list has the places
    of its elements. *)
Inductive body := BVec (l : list Z) | BList (l : list nat).
Record obj := Obj { o_body : body; o_attrib : attribs; o_s4 : bool }.
Notation heap := (list obj).
Definition is_list (o : obj) : bool := match o_body o with BList _ => true | _ => false end.
Definition r_length (o : obj) : nat := match o_body o with BList l => length l | BVec l => length l end.

(** [r_attrib_get()] and [r_attrib_poke()] of R, [None] is [NULL].  The class is set as
    any other attribute; the OBJECT bit is that there is one. *)
Fixpoint r_attrib_get (l : attribs) (t : tag) : option aval :=
  match l with [] => None | (t', v) :: l => if tag_eqb t t' then Some v else r_attrib_get l t end.
Fixpoint attrib_set (l : attribs) (t : tag) (v : aval) : attribs :=
  match l with [] => [(t, v)] | (t', v') :: l => if tag_eqb t t' then (t, v) :: l else (t', v') :: attrib_set l t v end.
Definition r_attrib_poke (l : attribs) (t : tag) (v : option aval) : attribs :=
  match v with None => filter (fun p => tag_eqb t p.1 = false) l | Some v => attrib_set l t v end.

(** src/utils-dispatch.c:29-91 [class_type_impl] *)
Inductive class_type := CNone | CBareDf | CBareTibble | CDf | CBareFactor | CBareOrdered | CBareDate | CBarePosixct | CBarePosixlt | CBareAsis | CList | CUnknown.
Definition class_type_impl (cls : list String.string) : res class_type :=
  let last :=
    match rev cls with
    | [] => UB "read before the start of the class"
    | last :: _ =>
        if String.eqb last "data.frame" then Ok CDf else if String.eqb last "list" then Ok CList else Ok CUnknown
    end in
  match cls with
  | [p0] =>
      if String.eqb p0 "data.frame" then Ok CBareDf
      else if String.eqb p0 "factor" then Ok CBareFactor
      else if String.eqb p0 "Date" then Ok CBareDate
      else if String.eqb p0 "AsIs" then Ok CBareAsis
      else last
  | [p0; p1] =>
      if String.eqb p0 "ordered" && String.eqb p1 "factor" then Ok CBareOrdered
      else if String.eqb p1 "POSIXt" then
        if String.eqb p0 "POSIXct" then Ok CBarePosixct
        else if String.eqb p0 "POSIXlt" then Ok CBarePosixlt
        else last
      else last
  | [p0; p1; p2] =>
      if String.eqb p0 "tbl_df" && String.eqb p1 "tbl" && String.eqb p2 "data.frame" then Ok CBareTibble else last
  | _ => last
  end.
(** src/utils-dispatch.c:10-27 [class_type] *)
Definition class_type_of (o : obj) : res class_type :=
  match r_attrib_get (o_attrib o) TClass with
  | Some (AStrs cls) => class_type_impl cls
  | Some (AInts _) => UB "class is no character vector"
  | None => Ok CNone
  end.
(** src/type-data-frame.c:6-10 [is_data_frame] *)
Definition is_data_frame (o : obj) : res bool :=
  if is_list o then
    let! t := class_type_of o in
    Ok match t with CBareDf | CBareTibble | CDf => true | _ => false end
  else Ok false.

(** Row names: src/type-data-frame.c:402-415 [rownames_type], 423-433 [rownames_size],
    463-473 [new_compact_rownames] *)
Definition na_int : Z := (-2147483648)%Z.
Definition rownames_size (rn : aval) : nat :=
  match rn with
  | AStrs l => length l
  | AInts [a; b] => if (a =? na_int)%Z then Z.abs_nat b else 2
  | AInts l => length l
  end.
Definition new_compact_rownames (n : nat) : aval :=
  if n =? 0 then AInts [] else AInts [na_int; (- Z.of_nat n)%Z].
(** src/size.c:11-57 [vec_size]: data frames have row names, shaped vectors have dims *)
Definition vec_size (o : obj) : nat :=
  match r_attrib_get (o_attrib o) TRownames, r_attrib_get (o_attrib o) TDim with
  | Some rn, _ => rownames_size rn
  | _, Some (AInts (d :: _)) => Z.to_nat d
  | _, _ => r_length o
  end.
(** src/size.c:183-198 [df_raw_size] *)
Definition df_raw_size (h : heap) (o : obj) : res nat :=
  match r_attrib_get (o_attrib o) TRownames with
  | Some rn => Ok (rownames_size rn)
  | None =>
      match o_body o with
      | BList (c :: _) => let! oc := rd h c in Ok (vec_size oc)
      | _ => Ok 0
      end
  end.

(** The clone of a pairlist: nodes with a tag, a value and the next node *)
Notation node := (tag * aval * option nat)%type.
Definition clone_pairs (l : attribs) : list node * option nat :=
  (imap (fun i p => (p, if Datatypes.S i =? length l then None else Some (Datatypes.S i))) l,
   match l with [] => None | _ => Some 0 end).
(** The attributes from a node on.  [fuel] is the number of nodes. *)
Fixpoint pairs_of (fuel : nat) (ns : list node) (head : option nat) : res attribs :=
  match head with
  | None => Ok []
  | Some i =>
      match fuel with
      | O => Err "endless pairlist"
      | Datatypes.S fuel =>
          let! n := rd ns i in
          let! l := pairs_of fuel ns n.2 in
          Ok (n.1 :: l)
      end
  end.
Definition special (t : tag) : bool := match t with TOther _ => false | _ => true end.
(** src/proxy-restore.c:89-116 of [vec_restore_default]: the loop that takes special
    attributes off and finds the class *)
Fixpoint strip (fuel : nat) (ns : list node) (attrib cur prev : option nat) (cls : option aval) : res (list node * option nat * option aval) :=
  match cur with
  | None => Ok (ns, attrib, cls)
  | Some i =>
      match fuel with
      | O => Err "endless pairlist"
      | Datatypes.S fuel =>
          let! (tv, next) := rd ns i in
          if special tv.1 then
            let cls := if tag_eqb tv.1 TClass then Some tv.2 else cls in
            let! (ns, attrib) :=
              match prev with
              | None =>
                  match attrib with
                  | None => UB "cdr of NULL"
                  | Some a => let! (_, next') := rd ns a in Ok (ns, next')
                  end
              | Some p => let! (tvp, _) := rd ns p in let! ns := wr ns p (tvp, next) in Ok (ns, attrib)
              end in
            let! (_, next) := rd ns i in
            strip fuel ns attrib next prev cls
          else strip fuel ns attrib next (Some i) cls
      end
  end.

Section restore.
  (** [MAYBE_REFERENCED()]: whether the count of references of an object is not 0 *)
  Context (mr : heap -> nat -> bool).
  (** [vec_as_names()] that makes names unique without a message *)
  Context (uniq : list String.string -> list String.string).

  (** src/rlang/obj.h:75-78 [r_clone], src/utils.c:1308-1314 [r_clone_referenced],
      src/owned.h:15-21 [vec_clone_referenced] *)
  Definition vec_clone_referenced (h : heap) (x : nat) (owned : bool) : res (heap * nat) :=
    if owned then Ok (h, x)
    else if mr h x then let! o := rd h x in Ok ((h ++ [o])%list, length h) else Ok (h, x).

  (** src/proxy-restore.c:62-157 [vec_restore_default] *)
  Definition vec_restore_default (h : heap) (x to : nat) (owned : bool) : res (heap * nat) :=
    let! oto := rd h to in
    if (match o_attrib oto with [] => true | _ => false end) && negb (o_s4 oto) then Ok (h, x)
    else
      let '(ns, head) := clone_pairs (o_attrib oto) in
      let! (h, x) := vec_clone_referenced h x owned in
      let! (ns, head, cls) := strip (length ns) ns head head None None in
      let! attrib := pairs_of (length ns) ns head in
      let! o := rd h x in
      let dim := r_attrib_get (o_attrib o) TDim in
      let! attrib :=
        match dim with
        | None =>
            let nms := r_attrib_get (o_attrib o) TNames in
            let rownms := r_attrib_get (o_attrib o) TRownames in
            let! df := is_data_frame oto in
            let attrib := r_attrib_poke attrib TNames nms in
            Ok (match rownms with
                | Some rn => if df then r_attrib_poke attrib TRownames (Some rn) else attrib
                | None => attrib
                end)
        | Some _ =>
            let dimnames := r_attrib_get (o_attrib o) TDimnames in
            Ok (r_attrib_poke (r_attrib_poke attrib TDim dim) TDimnames dimnames)
        end in
      let attrib := match cls with Some _ => r_attrib_poke attrib TClass cls | None => attrib end in
      let! h := wr h x (Obj (o_body o) attrib (o_s4 o || o_s4 oto)) in
      Ok (h, x).

  (** src/proxy-restore.c:195-204, the loop of [vec_bare_df_restore] over the columns;
      [rec] is [vec_restore_recurse] *)
  Definition column_step (rec : heap -> nat -> nat -> res (heap * nat)) (x to : nat) (i : nat) (h : heap) : res heap :=
    let! o := rd h x in
    let! oto := rd h to in
    match o_body o, o_body oto with
    | BList l, BList lto =>
        let! c := rd l i in
        let! cto := rd lto i in
        let! (h, c') := rec h c cto in
        let! o := rd h x in
        match o_body o with
        | BList l =>
            let! l := wr l i c' in
            wr h x (Obj (BList l) (o_attrib o) (o_s4 o))
        | _ => UB "not a list"
        end
    | _, _ => UB "not a list"
    end.
  (** src/proxy-restore.c:174-229 [vec_bare_df_restore].  [to] is a data frame.  Names
      are set with src/names.c:773-798 [vec_set_df_rownames]. *)
  Definition vec_bare_df_restore (rec : option (heap -> nat -> nat -> res (heap * nat))) (h : heap) (x to : nat) (owned : bool) : res (heap * nat) :=
    let! o := rd h x in
    let! oto := rd h to in
    if negb (is_list o) then Err "Attempt to restore data frame"
    else
      let! h :=
        match rec with
        | None => Ok h
        | Some rec =>
            if negb (r_length o =? r_length oto) then Err "Shape of `x` doesn't match `to`"
            else for_ 0 (r_length o) (column_step rec x to) h
        end in
      let! (h, x) := vec_restore_default h x to owned in
      let! o := rd h x in
      let attrib :=
        match r_attrib_get (o_attrib o) TNames with
        | None => r_attrib_poke (o_attrib o) TNames (Some (AStrs (replicate (r_length o) ""%string)))
        | Some _ => o_attrib o
        end in
      let! h := wr h x (Obj (o_body o) attrib (o_s4 o)) in
      let! o := rd h x in
      match r_attrib_get (o_attrib o) TRownames with
      | None =>
          let! size := df_raw_size h o in
          let! h := wr h x (Obj (o_body o) (r_attrib_poke (o_attrib o) TRownames (Some (new_compact_rownames size))) (o_s4 o)) in
          Ok (h, x)
      | Some (AStrs rn) =>
          let! (h, x) := vec_clone_referenced h x owned in
          let! o := rd h x in
          let! h := wr h x (Obj (o_body o) (r_attrib_poke (o_attrib o) TRownames (Some (AStrs (uniq rn)))) (o_s4 o)) in
          Ok (h, x)
      | Some (AInts _) => Ok (h, x)
      end.

  (** src/proxy-restore.c:27-51 [vec_restore_4].  Methods of other classes are left out.
      [fuel] is the room on the stack. *)
  Fixpoint vec_restore_4 (fuel : nat) (recurse owned : bool) (h : heap) (x to : nat) : res (heap * nat) :=
    match fuel with
    | O => Err "stack overflow"
    | Datatypes.S fuel =>
        let! oto := rd h to in
        let! t := class_type_of oto in
        match t with
        | CBareFactor | CBareOrdered | CNone => vec_restore_default h x to owned
        | CBareDf | CBareTibble =>
            vec_bare_df_restore (if recurse then Some (vec_restore_4 fuel recurse owned) else None) h x to owned
        | _ => Err "method"
        end
    end.
  (** src/owned.h:9-11 [vec_owned], src/proxy-restore.c:19-24 *)
  Definition ffi_vec_restore (fuel : nat) (h : heap) (x to : nat) : res (heap * nat) :=
    vec_restore_4 fuel false (negb (mr h x)) h x to.
  Definition ffi_vec_restore_recurse (fuel : nat) (h : heap) (x to : nat) : res (heap * nat) :=
    vec_restore_4 fuel true (negb (mr h x)) h x to.
End restore.
