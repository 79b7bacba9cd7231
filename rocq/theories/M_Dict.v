(** * Model: the hash table of dictionary.c and the functions built on it
      (dictionary.c, group.c, set.c) *)
From Verif Require Import Base M_Growable M_Hash.

(** src/dictionary.c:12-32 [u32_safe_ceil2] *)
Definition u32_safe_ceil2 (x : Z) : res Z :=
  let x := if (x =? 0)%Z then 1%Z else x in
  let x := (x - 1)%Z in
  let x := Z.lor x (Z.shiftr x 1) in
  let x := Z.lor x (Z.shiftr x 2) in
  let x := Z.lor x (Z.shiftr x 4) in
  let x := Z.lor x (Z.shiftr x 8) in
  let x := Z.lor x (Z.shiftr x 16) in
  let x := u32 (x + 1) in
  if (x =? 0)%Z then Err "`x` results in an `uint32_t` overflow." else Ok x.

(** src/dictionary.c:177-207 [dict_key_size] for a vector of [x_size] elements.
    [x_size / 0.50] is computed in double precision, which is exact here:
    twice the size. *)
Definition dict_key_size (x_size : Z) : res Z :=
  if (R_LEN_T_MAX <? x_size)%Z then Err "Dictionary functions do not support long vectors."
  else
    let load_adjusted_size := (2 * x_size)%Z in
    if (two32 - 1 <? load_adjusted_size)%Z
    then Err "Can't safely cast load adjusted size to a `uint32_t`."
    else
      let size := load_adjusted_size in
      let size := if (INT_MAX <? size)%Z then INT_MAX else size in
      let! size := u32_safe_ceil2 size in
      let size := if (size <? 16)%Z then 16%Z else size in
      if (size <? x_size)%Z then Err "Hash table size must be at least as large as input"
      else Ok size.

(** src/dictionary.h:7 *)
Definition DICT_EMPTY : Z := (-1)%Z.

Section dict.
  (** [p_equal_na_equal], [p_is_incomplete] (src/dictionary.c:76-77), selected
      by type in C and applied to elements of the vectors. *)
  Context {A : Type} (eqb : A -> A -> bool) (incomplete : A -> bool).

  (** src/dictionary.h:15-27 [struct dictionary] *)
  Record dict := Dict {
    d_vec : list A;       (* p_poly_vec *)
    d_hash : list Z;
    d_key : list Z;
    d_size : Z;
    d_used : Z
  }.

  (** src/dictionary.c:62-111 [new_dictionary_opts]; [hash] is the result of
      [hash_fill] on [vec] (src/hash.c) with the option [na_equal]. *)
  Definition new_dictionary_opts (vec : list A) (hash : list Z) (partial : bool) : res dict :=
    let! size := (if partial then Ok 0%Z else dict_key_size (Z.of_nat (length vec))) in
    Ok (Dict vec hash (replicate (Z.to_nat size) DICT_EMPTY) size 0).

  (** src/dictionary.c:127: the slot tried in step [k].  All operations are on [uint32_t]. *)
  Definition dict_probe (size hash k : Z) : Z :=
    Z.land (u32 (hash + u32 (k * u32 (k + 1)) / 2)) (size - 1).

  (** src/dictionary.c:117-152 [dict_hash_with] *)
  Definition dict_hash_with (d x : dict) (i : nat) : res Z :=
    let! hash := rd (d_hash x) i in
    let! r :=
      for_brk 0 (Z.to_nat (d_size d)) (fun k st =>
        let probe := dict_probe (d_size d) hash (Z.of_nat k) in
        if (1 <? k) && (probe =? hash)%Z then Ok (Break None)
        else
          let! idx := rdZ (d_key d) probe in
          if (idx =? DICT_EMPTY)%Z then Ok (Break (Some probe))
          else
            let! a := rdZ (d_vec d) idx in
            let! b := rd (d_vec x) i in
            if eqb a b then Ok (Break (Some probe)) else Ok (Next st)) None in
    match r with
    | Some probe => Ok probe
    | None => Err "Dictionary is full."
    end.

  (** src/dictionary.c:154-156 *)
  Definition dict_hash_scalar (d : dict) (i : nat) : res Z := dict_hash_with d d i.

  (** src/dictionary.c:158-161 *)
  Definition dict_is_incomplete (d : dict) (i : nat) : res bool :=
    let! h := rd (d_hash d) i in
    if (h =? HASH_MISSING)%Z then
      let! a := rd (d_vec d) i in Ok (incomplete a)
    else Ok false.

  (** src/dictionary.c:164-167 *)
  Definition dict_put (d : dict) (hash : Z) (i : nat) : res dict :=
    let! key := wrZ (d_key d) hash (Z.of_nat i) in
    Ok (Dict (d_vec d) (d_hash d) key (d_size d) (u32 (d_used d + 1))).

  (** The statements
      [hash = dict_hash_scalar(d, i); if (d->key[hash] == DICT_EMPTY) dict_put(d, hash, i)]
      that every loop below starts with (e.g. src/dictionary.c:228-234).
      Returns the table, [hash] and the key found {before} the put. *)
  Definition dict_visit (d : dict) (i : nat) : res (dict * Z * Z) :=
    let! hash := dict_hash_scalar d i in
    let! key := rdZ (d_key d) hash in
    if (key =? DICT_EMPTY)%Z then
      let! d := dict_put d hash i in Ok (d, hash, key)
    else Ok (d, hash, key).

  (** ** dictionary.c *)

  (** src/dictionary.c:213-240 [vctrs_unique_loc] *)
  Definition vec_unique_loc (x : list A) (hash : list Z) : res (list Z) :=
    let! d := new_dictionary_opts x hash false in
    let! (_, g) :=
      for_ 0 (length x) (fun i '(d, g) =>
        let! (d, _, key) := dict_visit d i in
        if (key =? DICT_EMPTY)%Z then
          let! g := growable_push_int g (Z.of_nat i + 1) in Ok (d, g)
        else Ok (d, g)) (d, new_growable 256) in
    Ok (growable_values g).

  (** src/dictionary.c:256-282 [duplicated_any] *)
  Definition vec_duplicate_any (x : list A) (hash : list Z) : res bool :=
    let! d := new_dictionary_opts x hash false in
    let! (_, out) :=
      for_brk 0 (length x) (fun i '(d, out) =>
        let! (d, _, key) := dict_visit d i in
        if (key =? DICT_EMPTY)%Z then Ok (Next (d, out))
        else Ok (Break (d, true))) (d, false) in
    Ok out.

  (** The loading loop, src/dictionary.c:300-306, 397-403, 503-509, src/set.c:76-82 *)
  Definition dict_load (d : dict) (n : nat) : res dict :=
    for_ 0 n (fun i d => let! (d, _, _) := dict_visit d i in Ok d) d.

  (** src/dictionary.c:284-305 [vctrs_n_distinct] *)
  Definition vec_unique_count (x : list A) (hash : list Z) : res Z :=
    let! d := new_dictionary_opts x hash false in
    let! d := dict_load d (length x) in
    Ok (d_used d).

  (** src/dictionary.c:307-332 [vctrs_id] *)
  Definition vec_duplicate_id (x : list A) (hash : list Z) : res (list Z) :=
    let! d := new_dictionary_opts x hash false in
    let! (_, out) :=
      for_ 0 (length x) (fun i '(d, out) =>
        let! (d, hash, _) := dict_visit d i in
        let! key := rdZ (d_key d) hash in
        let! out := wr out i (key + 1)%Z in
        Ok (d, out)) (d, replicate (length x) 0%Z) in
    Ok out.

  (** src/dictionary.c:426-440 [vec_match_loop], 441-460 [vec_match_loop_propagate] *)
  Definition vec_match_loop (propagate : bool) (d d_needles : dict) (n_needle : nat) : res (list Z) :=
    for_ 0 n_needle (fun i out =>
      let! inc := (if propagate then dict_is_incomplete d_needles i else Ok false) in
      if inc : bool then wr out i NA_INTEGER
      else
        let! hash := dict_hash_with d d_needles i in
        let! key := rdZ (d_key d) hash in
        if (key =? DICT_EMPTY)%Z then wr out i NA_INTEGER
        else wr out i (key + 1)%Z) (replicate n_needle 0%Z).

  (** src/dictionary.c:362-424 [vec_match_params], after casting both to the
      common type; the hashes are those of the mode [na_equal]. *)
  Definition vec_match (needles : list A) (h_needles : list Z) (haystack : list A)
      (h_haystack : list Z) (na_equal : bool) : res (list Z) :=
    let! d := new_dictionary_opts haystack h_haystack false in
    let! d := dict_load d (length haystack) in
    let! d_needles := new_dictionary_opts needles h_needles true in
    vec_match_loop (negb na_equal) d d_needles (length needles).

  (** src/dictionary.c:463-536 [vctrs_in] *)
  Definition vec_in (needles : list A) (h_needles : list Z) (haystack : list A)
      (h_haystack : list Z) (na_equal : bool) : res (list Z) :=
    let! d := new_dictionary_opts haystack h_haystack false in
    let! d := dict_load d (length haystack) in
    let! d_needles := new_dictionary_opts needles h_needles true in
    for_ 0 (length needles) (fun i out =>
      let! inc := (if na_equal then Ok false else dict_is_incomplete d_needles i) in
      if inc : bool then wr out i NA_LOGICAL
      else
        let! hash := dict_hash_with d d_needles i in
        let! key := rdZ (d_key d) hash in
        wr out i (if (key =? DICT_EMPTY)%Z then 0%Z else 1%Z)) (replicate (length needles) 0%Z).

  (** src/dictionary.c:536-593 [vctrs_count]: the locations and the counts.
      The count buffer, one entry per slot, is compacted in place. *)
  Definition vec_count (x : list A) (hash : list Z) : res (list Z * list Z) :=
    let! d := new_dictionary_opts x hash false in
    let! (d, p_count) :=
      for_ 0 (length x) (fun i '(d, p_count) =>
        let! (d, hash, key) := dict_visit d i in
        let! p_count := (if (key =? DICT_EMPTY)%Z then wrZ p_count hash 0%Z else Ok p_count) in
        let! c := rdZ p_count hash in
        let! p_count := wrZ p_count hash (c + 1)%Z in
        Ok (d, p_count)) (d, replicate (Z.to_nat (d_size d)) 0%Z) in
    let! (_, p_out_loc, p_count) :=
      for_ 0 (Z.to_nat (d_size d)) (fun hash '(i, p_out_loc, p_count) =>
        let! key := rd (d_key d) hash in
        if (key =? DICT_EMPTY)%Z then Ok (i, p_out_loc, p_count)
        else
          let! p_out_loc := wr p_out_loc i (key + 1)%Z in
          let! c := rd p_count hash in
          let! p_count := wr p_count i c in
          Ok (S i, p_out_loc, p_count)) (0, replicate (Z.to_nat (d_used d)) 0%Z, p_count) in
    Ok (p_out_loc, lengthgets p_count (Z.to_nat (d_used d))).

  (** src/dictionary.c:595-641 [vctrs_duplicated] *)
  Definition vec_duplicate_detect (x : list A) (hash : list Z) : res (list Z) :=
    let n := length x in
    let! d := new_dictionary_opts x hash false in
    let! (d, out, p_hashes) :=
      for_ 0 n (fun i '(d, out, p_hashes) =>
        let! (d, hash, key) := dict_visit d i in
        let! p_hashes := wr p_hashes i hash in
        if (key =? DICT_EMPTY)%Z then Ok (d, out, p_hashes)
        else let! out := wr out i 1%Z in Ok (d, out, p_hashes))
        (d, replicate n 0%Z, replicate n 0%Z) in
    let! key :=
      for_ 0 (Z.to_nat (d_size d)) (fun i key => wr key i DICT_EMPTY) (d_key d) in
    let d := Dict (d_vec d) (d_hash d) key (d_size d) (d_used d) in
    let! (_, out) :=
      for_down 0 n (fun i '(d, out) =>
        let! hash := rd p_hashes i in
        let! key := rdZ (d_key d) hash in
        if (key =? DICT_EMPTY)%Z then
          let! d := dict_put d hash i in Ok (d, out)
        else let! out := wr out i 1%Z in Ok (d, out)) (d, out) in
    Ok out.

  (** ** group.c *)

  (** src/group.c:5-39 [vctrs_group_id]: the ids and the attribute [n].
      (src/group.c:150-166 is the same loop with [g] starting at 0.) *)
  Definition group_id_loop (g0 : Z) (x : list A) (hash : list Z) : res (dict * list Z) :=
    let! d := new_dictionary_opts x hash false in
    let! (d, _, out) :=
      for_ 0 (length x) (fun i '(d, g, out) =>
        let! (d, _, key) := dict_visit d i in
        if (key =? DICT_EMPTY)%Z then
          let! out := wr out i g in Ok (d, (g + 1)%Z, out)
        else
          let! v := rdZ out key in
          let! out := wr out i v in Ok (d, g, out)) (d, g0, replicate (length x) 0%Z) in
    Ok (d, out).
  Definition vec_group_id (x : list A) (hash : list Z) : res (list Z * Z) :=
    let! (d, out) := group_id_loop 1 x hash in Ok (out, d_used d).

  (** src/group.c:46-114 [vctrs_group_rle]: groups, lengths, attribute [n].
      [p_l] is an advancing pointer, here the index [il]. *)
  Definition vec_group_rle (x : list A) (hash : list Z) : res (list Z * list Z * Z) :=
    let n := length x in
    let! d := new_dictionary_opts x hash false in
    let g := replicate n 0%Z in
    let l := replicate n 0%Z in
    if n =? 0 then Ok (g, l, 0%Z)
    else
      let map := replicate (Z.to_nat (d_size d)) 0%Z in
      let! hash0 := dict_hash_scalar d 0 in
      let! d := dict_put d hash0 0 in
      let! map := wrZ map hash0 0%Z in
      let! g := wr g 0 1%Z in
      let! l := wr l 0 1%Z in
      let! (d, _, g, l, _, loc) :=
        for_ 1 (n - 1) (fun i '(d, map, g, l, il, loc) =>
          let! a := rd (d_vec d) (i - 1) in
          let! b := rd (d_vec d) i in
          if eqb a b then
            let! c := rd l il in
            let! l := wr l il (c + 1)%Z in
            Ok (d, map, g, l, il, loc)
          else
            let il := S il in
            let! l := wr l il 1%Z in
            let! (d, hash, key) := dict_visit d i in
            if (key =? DICT_EMPTY)%Z then
              let! map := wrZ map hash (Z.of_nat loc) in
              let! g := wr g loc (d_used d) in
              Ok (d, map, g, l, il, S loc)
            else
              let! m := rdZ map hash in
              let! v := rdZ g m in
              let! g := wr g loc v in
              Ok (d, map, g, l, il, S loc)) (d, map, g, l, 0, 1) in
      Ok (lengthgets g loc, lengthgets l loc, d_used d).

  (** src/group.c:133-236 [vec_group_loc]: [key_loc] (the rows of [x] to slice
      for the column [key]) and the list column [loc]. *)
  Definition vec_group_loc (x : list A) (hash : list Z) : res (list Z * list (list Z)) :=
    let n := length x in
    let! (d, p_groups) := group_id_loop 0 x hash in
    let n_groups := Z.to_nat (d_used d) in
    let! (p_key_loc, _, p_counts) :=
      for_ 0 n (fun i '(p_key_loc, key_loc_current, p_counts) =>
        let! group := rd p_groups i in
        let! (p_key_loc, key_loc_current) :=
          (if (group =? Z.of_nat key_loc_current)%Z then
             let! p_key_loc := wr p_key_loc key_loc_current (Z.of_nat i + 1)%Z in
             Ok (p_key_loc, S key_loc_current)
           else Ok (p_key_loc, key_loc_current)) in
        let! c := rdZ p_counts group in
        let! p_counts := wrZ p_counts group (c + 1)%Z in
        Ok (p_key_loc, key_loc_current, p_counts))
        (replicate n_groups 0%Z, 0, replicate n_groups 0%Z) in
    let out_loc := map (fun c => replicate (Z.to_nat c) 0%Z) p_counts in
    let! (out_loc, _) :=
      for_ 0 n (fun i '(out_loc, p_locations) =>
        let! group := rd p_groups i in
        let! location := rdZ p_locations group in
        let! elt := rdZ out_loc group in
        let! elt := wrZ elt location (Z.of_nat i + 1)%Z in
        let! out_loc := wrZ out_loc group elt in
        let! p_locations := wrZ p_locations group (location + 1)%Z in
        Ok (out_loc, p_locations)) (out_loc, replicate n_groups 0%Z) in
    Ok (p_key_loc, out_loc).

  (** ** set.c.  All results are locations to slice from [x] (and [y]). *)

  (** src/set.c:105-121, 223-239, 338-345: count the marks, then collect the
      marked locations in a vector of that size. *)
  Definition marked_loc (n_marked : Z) (v_marked : list bool) : res (list Z) :=
    let! (v_loc, _) :=
      for_ 0 (length v_marked) (fun i '(v_loc, j) =>
        let! m := rd v_marked i in
        if m : bool then
          let! v_loc := wr v_loc j (Z.of_nat i + 1)%Z in Ok (v_loc, S j)
        else Ok (v_loc, j)) (replicate (Z.to_nat n_marked) 0%Z, 0) in
    Ok v_loc.
  Definition count_marked (v_marked : list bool) : res Z :=
    for_ 0 (length v_marked) (fun i n =>
      let! m := rd v_marked i in Ok (n + (if m : bool then 1 else 0))%Z) 0%Z.

  (** src/set.c:191-204 etc.: load and mark first occurrences. *)
  Definition load_marking (d : dict) (n : nat) : res (dict * list bool) :=
    for_ 0 n (fun i '(d, v_marked) =>
      let! (d, _, key) := dict_visit d i in
      let! v_marked := wr v_marked i (key =? DICT_EMPTY)%Z in
      Ok (d, v_marked)) (d, replicate n false).

  (** src/set.c:20-124 [vec_set_intersect] *)
  Definition vec_set_intersect (x : list A) (hx : list Z) (y : list A) (hy : list Z) : res (list Z) :=
    let! x_dict := new_dictionary_opts x hx false in
    let! x_dict := dict_load x_dict (length x) in
    let! y_dict := new_dictionary_opts y hy true in
    let! v_marked :=
      for_ 0 (length y) (fun i v_marked =>
        let! hash := dict_hash_with x_dict y_dict i in
        let! loc := rdZ (d_key x_dict) hash in
        if (loc =? DICT_EMPTY)%Z then Ok v_marked else wrZ v_marked loc true)
        (replicate (length x) false) in
    let! n_marked := count_marked v_marked in
    marked_loc n_marked v_marked.

  (** src/set.c:143-250 [vec_set_difference] *)
  Definition vec_set_difference (x : list A) (hx : list Z) (y : list A) (hy : list Z) : res (list Z) :=
    let! x_dict := new_dictionary_opts x hx false in
    let! (x_dict, v_marked) := load_marking x_dict (length x) in
    let! y_dict := new_dictionary_opts y hy true in
    let! v_marked :=
      for_ 0 (length y) (fun i v_marked =>
        let! hash := dict_hash_with x_dict y_dict i in
        let! loc := rdZ (d_key x_dict) hash in
        if (loc =? DICT_EMPTY)%Z then Ok v_marked else wrZ v_marked loc false) v_marked in
    let! n_marked := count_marked v_marked in
    marked_loc n_marked v_marked.

  (** src/set.c:269-426 [vec_set_union]: locations from [x], then from [y]. *)
  Definition vec_set_union (x : list A) (hx : list Z) (y : list A) (hy : list Z)
      : res (list Z * list Z) :=
    let! x_dict := new_dictionary_opts x hx false in
    let! (x_dict, v_marked) := load_marking x_dict (length x) in
    let! loc_x := marked_loc (d_used x_dict) v_marked in
    let! y_dict := new_dictionary_opts y hy false in
    let! (y_dict, v_marked) := load_marking y_dict (length y) in
    let! (v_marked, n_marked) :=
      for_ 0 (length y) (fun i '(v_marked, n_marked) =>
        let! m := rd v_marked i in
        if negb m then Ok (v_marked, n_marked)
        else
          let! hash := dict_hash_with x_dict y_dict i in
          let! key := rdZ (d_key x_dict) hash in
          let in_x := negb (key =? DICT_EMPTY)%Z in
          let! v_marked := wr v_marked i (negb in_x) in
          Ok (v_marked, (n_marked - (if in_x then 1 else 0))%Z)) (v_marked, d_used y_dict) in
    let! loc_y := marked_loc n_marked v_marked in
    Ok (loc_x, loc_y).

  (** src/set.c:445-608 [vec_set_symmetric_difference] *)
  Definition vec_set_symmetric_difference (x : list A) (hx : list Z) (y : list A) (hy : list Z)
      : res (list Z * list Z) :=
    let! x_dict := new_dictionary_opts x hx false in
    let! y_dict := new_dictionary_opts y hy false in
    let! (x_dict, v_x_marked) := load_marking x_dict (length x) in
    let! (y_dict, v_y_marked) := load_marking y_dict (length y) in
    let! (v_x_marked, v_y_marked, n_x_marked, n_y_marked) :=
      for_ 0 (length y) (fun i '(v_x_marked, v_y_marked, n_x_marked, n_y_marked) =>
        let! m := rd v_y_marked i in
        if negb m then Ok (v_x_marked, v_y_marked, n_x_marked, n_y_marked)
        else
          let! hash := dict_hash_with x_dict y_dict i in
          let! loc := rdZ (d_key x_dict) hash in
          if (loc =? DICT_EMPTY)%Z then Ok (v_x_marked, v_y_marked, n_x_marked, n_y_marked)
          else
            let! v_x_marked := wrZ v_x_marked loc false in
            let! v_y_marked := wr v_y_marked i false in
            Ok (v_x_marked, v_y_marked, (n_x_marked - 1)%Z, (n_y_marked - 1)%Z))
        (v_x_marked, v_y_marked, d_used x_dict, d_used y_dict) in
    let! loc_x := marked_loc n_x_marked v_x_marked in
    let! loc_y := marked_loc n_y_marked v_y_marked in
    Ok (loc_x, loc_y).
End dict.
Arguments Dict {A}.
Arguments d_vec {A}.
Arguments d_hash {A}.
Arguments d_key {A}.
Arguments d_size {A}.
Arguments d_used {A}.
