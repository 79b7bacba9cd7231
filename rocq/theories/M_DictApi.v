(** * Model: the dictionary functions applied to equality proxies

    src/dictionary.c:62-112 [new_dictionary_opts] hashes the proxy with
    [hash_fill] (in [na_equal] or [na_propagate] mode) and compares its rows with
    [p_equal_na_equal]; src/dictionary.c:213-660, src/group.c, src/set.c use it.
    Inputs are the proxies after [vec_proxy_equal()], [vec_normalize_encoding()]
    and, for two-argument functions, the cast to the common type.  [addr] gives
    the pointer of each CHARSXP in R's global string cache. *)
From Verif Require Import Base M_Double M_Scalar M_Hash M_Object M_Proxy M_Growable M_Dict.

Section api.
  Context (addr : rstr -> Z).
  Definition with_hash {T} (na_equal : bool) (p : proxy) (k : list (list elt) -> list Z -> res T) : res T :=
    let! h := hash_fill addr na_equal p in k (proxy_rows p) h.

  (** src/dictionary.c:213-240 *)
  Definition api_unique_loc p := with_hash true p (vec_unique_loc row_equal).
  (** src/dictionary.c:255-281 *)
  Definition api_duplicate_any p := with_hash true p (vec_duplicate_any row_equal).
  (** src/dictionary.c:284-304 *)
  Definition api_unique_count p := with_hash true p (vec_unique_count row_equal).
  (** src/dictionary.c:307-332 *)
  Definition api_duplicate_id p := with_hash true p (vec_duplicate_id row_equal).
  (** src/dictionary.c:595-641 *)
  Definition api_duplicate_detect p := with_hash true p (vec_duplicate_detect row_equal).
  (** src/dictionary.c:538-593: locations of the keys and their counts *)
  Definition api_count p := with_hash true p (vec_count row_equal).
  (** src/dictionary.c:362-459 *)
  Definition api_match needles haystack na_equal :=
    with_hash na_equal needles (fun y hy => with_hash na_equal haystack (fun x hx =>
      vec_match row_equal row_is_incomplete y hy x hx na_equal)).
  (** src/dictionary.c:463-536 *)
  Definition api_in needles haystack na_equal :=
    with_hash na_equal needles (fun y hy => with_hash na_equal haystack (fun x hx =>
      vec_in row_equal row_is_incomplete y hy x hx na_equal)).
  (** src/group.c:5-41 *)
  Definition api_group_id p := with_hash true p (vec_group_id row_equal).
  (** src/group.c:46-114 *)
  Definition api_group_rle p := with_hash true p (vec_group_rle row_equal).
  (** src/group.c:139-236 *)
  Definition api_group_loc p := with_hash true p (vec_group_loc row_equal).
  (** src/set.c *)
  Definition api_set_intersect x y :=
    with_hash true x (fun x hx => with_hash true y (fun y hy => vec_set_intersect row_equal x hx y hy)).
  Definition api_set_difference x y :=
    with_hash true x (fun x hx => with_hash true y (fun y hy => vec_set_difference row_equal x hx y hy)).
  Definition api_set_union x y :=
    with_hash true x (fun x hx => with_hash true y (fun y hy => vec_set_union row_equal x hx y hy)).
  Definition api_set_symmetric_difference x y :=
    with_hash true x (fun x hx => with_hash true y (fun y hy => vec_set_symmetric_difference row_equal x hx y hy)).
End api.
