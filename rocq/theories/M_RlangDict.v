(** * Model: the hash table of src/rlang/dict.c *)
From Verif Require Import Base.

(** Keys are compared by address ([V_DICT_KEY(v_bucket) == key]), so a key is its
    address.  A bucket is a chain of nodes (key, value, next): here the list of
    its keys and values.  [hash] is [r_xxh3_64bits()] of the address.  Failing
    allocations are not modelled: the number of buckets is not bounded. *)

(** src/rlang/dict.c:95-101 [size_round_power_2]; the loop runs [log2_up(size)]
    times.  Overflow of [size_t] (sizes above 2^63) is not modelled. *)
Fixpoint round_power_2 (fuel : nat) (size out : Z) : Z :=
  match fuel with
  | O => out
  | S fuel => if (out <? size)%Z then round_power_2 fuel size (out * 2) else out
  end.
Definition size_round_power_2 (size : Z) : Z := round_power_2 (Z.to_nat (Z.log2_up size)) size 1.

(** [(float) n]: the nearest number with 24 bits, ties to even. *)
Definition float_of (n : Z) : Z :=
  if (n <? 2 ^ 24)%Z then n
  else
    let e := (Z.log2 n - 23)%Z in
    let q := (n / 2 ^ e)%Z in
    let r := (n mod 2 ^ e)%Z in
    let up := (2 ^ e <? 2 * r)%Z || ((2 * r =? 2 ^ e)%Z && Z.odd q) in
    ((if up then q + 1 else q) * 2 ^ e)%Z.

Section dict.
  Context {V : Type} (hash : Z -> Z).

  (** src/rlang/dict.h:10-22 [struct r_dict] *)
  Record r_dict := Dict { d_buckets : list (list (Z * V)); d_n_entries : Z; d_prevent_resize : bool }.
  Definition d_n_buckets (d : r_dict) : Z := Z.of_nat (length (d_buckets d)).

  (** src/rlang/dict.c:33-58 [r_new_dict] *)
  Definition r_new_dict (size : Z) : res r_dict :=
    if (size <=? 0)%Z then Err "`size` of dictionary must be positive."
    else Ok (Dict (replicate (Z.to_nat (size_round_power_2 size)) []) 0 false).

  (** src/rlang/dict.c:104-107 [dict_hash] *)
  Definition dict_hash (d : r_dict) (key : Z) : Z := (hash key mod d_n_buckets d)%Z.

  (** The loops of src/rlang/dict.c:215-229 [dict_find_node] and 232-254
      [dict_find_node_info]: the place of the key in the chain. *)
  Fixpoint chain_find (chain : list (Z * V)) (key : Z) : option nat :=
    match chain with
    | [] => None
    | (k, _) :: chain => if (k =? key)%Z then Some 0 else S <$> chain_find chain key
    end.
  (** The hash, the chain, and the place; the parent of a node that is not there
      is the last node of the chain. *)
  Definition dict_find_node_info (d : r_dict) (key : Z) : res (Z * list (Z * V) * option nat) :=
    let i := dict_hash d key in
    let! chain := rdZ (d_buckets d) i in
    Ok (i, chain, chain_find chain key).

  (** [load > DICT_LOAD_THRESHOLD]; the number of buckets is a power of 2, so that
      the division is exact. *)
  Definition load_exceeds (d : r_dict) : bool := (3 * d_n_buckets d <? 4 * float_of (d_n_entries d))%Z.

  Section resize.
    Context (resize : r_dict -> Z -> res r_dict).
    (** src/rlang/dict.c:142-165 [dict_push] *)
    Definition dict_push_ (d : r_dict) (i : Z) (chain : list (Z * V)) (key : Z) (value : V) : res r_dict :=
      let! buckets := wrZ (d_buckets d) i (chain ++ [(key, value)]) in
      let d := Dict buckets (d_n_entries d + 1) (d_prevent_resize d) in
      if negb (d_prevent_resize d) && load_exceeds d then resize d (-1)%Z else Ok d.
    (** src/rlang/dict.c:129-140 [r_dict_put] *)
    Definition r_dict_put_ (d : r_dict) (key : Z) (value : V) : res (r_dict * bool) :=
      let! (i, chain, node) := dict_find_node_info d key in
      match node with
      | Some _ => Ok (d, false)
      | None => let! d := dict_push_ d i chain key value in Ok (d, true)
      end.
  End resize.

  (** src/rlang/dict.c:59-92 [r_dict_resize].  Everything but the shelter is copied
      from the new dictionary, [prevent_resize] too.  Putting into the new one may
      resize it in turn; [fuel] bounds the nesting. *)
  Fixpoint r_dict_resize (fuel : nat) (d : r_dict) (size : Z) : res r_dict :=
    match fuel with
    | O => Err "out of fuel"
    | S fuel =>
        let size := if (size <? 0)%Z then (d_n_buckets d * 2)%Z else size in
        let! new := r_new_dict size in
        for_ 0 (length (d_buckets d)) (fun i new =>
          let! bucket := rd (d_buckets d) i in
          for_ 0 (length bucket) (fun j new =>
            let! (key, value) := rd bucket j in
            let! (new, _) := r_dict_put_ (r_dict_resize fuel) new key value in Ok new) new) new
    end.
  (** Two levels are enough (proved). *)
  Definition FUEL := 2.
  Definition r_dict_put := r_dict_put_ (r_dict_resize FUEL).
  Definition dict_push := dict_push_ (r_dict_resize FUEL).

  (** src/rlang/dict.c:110-125 [r_dict_poke] *)
  Definition r_dict_poke (d : r_dict) (key : Z) (value : V) : res (r_dict * option V) :=
    let! (i, chain, node) := dict_find_node_info d key in
    match node with
    | Some j =>
        let! (_, old) := rd chain j in
        let! chain := wr chain j (key, value) in
        let! buckets := wrZ (d_buckets d) i chain in
        Ok (Dict buckets (d_n_entries d) (d_prevent_resize d), Some old)
    | None => let! d := dict_push d i chain key value in Ok (d, None)
    end.

  (** src/rlang/dict.c:169-187 [r_dict_del]; [n_entries] stays as it is. *)
  Definition r_dict_del (d : r_dict) (key : Z) : res (r_dict * bool) :=
    let! (i, chain, node) := dict_find_node_info d key in
    match node with
    | None => Ok (d, false)
    | Some j =>
        let! buckets := wrZ (d_buckets d) i (take j chain ++ drop (S j) chain) in
        Ok (Dict buckets (d_n_entries d) (d_prevent_resize d), true)
    end.

  (** src/rlang/dict.c:189-191 [r_dict_has] *)
  Definition r_dict_has (d : r_dict) (key : Z) : res bool :=
    let! (_, _, node) := dict_find_node_info d key in
    Ok (match node with Some _ => true | None => false end).
  (** src/rlang/dict.c:205-213 [r_dict_get0] *)
  Definition r_dict_get0 (d : r_dict) (key : Z) : res (option V) :=
    let! (_, chain, node) := dict_find_node_info d key in
    match node with
    | None => Ok None
    | Some j => let! (_, value) := rd chain j in Ok (Some value)
    end.
  (** src/rlang/dict.c:193-201 [r_dict_get] *)
  Definition r_dict_get (d : r_dict) (key : Z) : res V :=
    let! out := r_dict_get0 d key in
    match out with None => Err "Can't find key in dictionary." | Some v => Ok v end.

  (** src/rlang/dict.h:42-53 [struct r_dict_iterator]: the buckets ([None] at the
      end), the index and the rest of the chain. *)
  Record r_dict_it := It { it_buckets : option (list (list (Z * V))); it_i : nat; it_node : list (Z * V) }.
  (** src/rlang/dict.c:257-274 [r_new_dict_iterator] *)
  Definition r_new_dict_iterator (d : r_dict) : res r_dict_it :=
    if length (d_buckets d) =? 0 then Err "Empty dictionary."
    else let! node := rd (d_buckets d) 0 in Ok (It (Some (d_buckets d)) 0 node).
  (** src/rlang/dict.c:276-299 [r_dict_next]; [fuel] is the number of buckets that
      are left. *)
  Fixpoint it_advance (fuel : nat) (bs : list (list (Z * V))) (i : nat) (node : list (Z * V))
      : res (option (nat * list (Z * V))) :=
    match node with
    | _ :: _ => Ok (Some (i, node))
    | [] =>
        let i := S i in
        if length bs <=? i then Ok None
        else match fuel with
             | O => Err "out of fuel"
             | S fuel => let! node := rd bs i in it_advance fuel bs i node
             end
    end.
  Definition r_dict_next (it : r_dict_it) : res (r_dict_it * option (Z * V)) :=
    match it_buckets it with
    | None => Ok (it, None)
    | Some bs =>
        let! r := it_advance (length bs) bs (it_i it) (it_node it) in
        match r with
        | None => Ok (It None (it_i it) [], None)
        | Some (i, kv :: node) => Ok (It (Some bs) i node, Some kv)
        | Some (i, []) => UB "dereference of a null node"
        end
    end.

  (** src/rlang/dict.c:317-339 [r_dict_as_df_list], and 340-352 [r_dict_as_list],
      which keeps the values only.  The loop runs until the iterator is at its
      end; [fuel] is the number of entries plus one. *)
  Fixpoint as_df_loop (fuel : nat) (it : r_dict_it) (i : nat) (out : list (option (Z * V))) : res (list (option (Z * V))) :=
    match fuel with
    | O => Err "out of fuel"
    | S fuel =>
        let! (it, kv) := r_dict_next it in
        match kv with
        | None => Ok out
        | Some kv => let! out := wr out i (Some kv) in as_df_loop fuel it (S i) out
        end
    end.
  Definition r_dict_as_df_list (d : r_dict) : res (list (option (Z * V))) :=
    let! it := r_new_dict_iterator d in
    as_df_loop (S (length (concat (d_buckets d)))) it 0 (replicate (Z.to_nat (d_n_entries d)) None).
End dict.
Arguments Dict {V}.
