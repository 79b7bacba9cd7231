(** * Model: ranking (src/rank.c) *)
From Verif Require Import Base M_Double M_Scalar M_Object M_Proxy M_OrderChr M_OrderDf.

(** Ranks are [r_ssize] stored in an [int]; they are at most the size of the
    input, for which ordering fails when it exceeds [INT_MAX]. *)

(** src/rank.c:124-143 [vec_rank_min] *)
Definition vec_rank_min (o : list Z) (group_sizes : list nat) (v_rank : list Z) : res (list Z) :=
  let! (_, _, v_rank) := for_ 0 (length group_sizes) (fun i '((k, rank, v_rank) : nat * nat * list Z) =>
    let! group_size := rd group_sizes i in
    let! (k, v_rank) := for_ 0 group_size (fun _ '((k, v_rank) : nat * list Z) =>
      let! l := rd o k in
      let! v_rank := wrZ v_rank (l - 1) (Z.of_nat rank) in
      Ok (S k, v_rank)) (k, v_rank) in
    Ok (k, rank + group_size, v_rank)) (0, 1, v_rank) in
  Ok v_rank.

(** src/rank.c:145-163 [vec_rank_max] *)
Definition vec_rank_max (o : list Z) (group_sizes : list nat) (v_rank : list Z) : res (list Z) :=
  let! (_, _, v_rank) := for_ 0 (length group_sizes) (fun i '((k, rank, v_rank) : nat * nat * list Z) =>
    let! group_size := rd group_sizes i in
    let rank := rank + group_size in
    let! (k, v_rank) := for_ 0 group_size (fun _ '((k, v_rank) : nat * list Z) =>
      let! l := rd o k in
      let! v_rank := wrZ v_rank (l - 1) (Z.of_nat rank) in
      Ok (S k, v_rank)) (k, v_rank) in
    Ok (k, rank, v_rank)) (0, 0, v_rank) in
  Ok v_rank.

(** src/rank.c:165-183 [vec_rank_sequential] *)
Definition vec_rank_sequential (o : list Z) (group_sizes : list nat) (v_rank : list Z) : res (list Z) :=
  let! (_, _, v_rank) := for_ 0 (length group_sizes) (fun i '((k, rank, v_rank) : nat * nat * list Z) =>
    let! group_size := rd group_sizes i in
    let! (k, rank, v_rank) := for_ 0 group_size (fun _ '((k, rank, v_rank) : nat * nat * list Z) =>
      let! l := rd o k in
      let! v_rank := wrZ v_rank (l - 1) (Z.of_nat rank) in
      Ok (S k, S rank, v_rank)) (k, rank, v_rank) in
    Ok (k, rank, v_rank)) (0, 1, v_rank) in
  Ok v_rank.

(** src/rank.c:183-203 [vec_rank_dense] *)
Definition vec_rank_dense (o : list Z) (group_sizes : list nat) (v_rank : list Z) : res (list Z) :=
  let! (_, _, v_rank) := for_ 0 (length group_sizes) (fun i '((k, rank, v_rank) : nat * nat * list Z) =>
    let! group_size := rd group_sizes i in
    let! (k, v_rank) := for_ 0 group_size (fun _ '((k, v_rank) : nat * list Z) =>
      let! l := rd o k in
      let! v_rank := wrZ v_rank (l - 1) (Z.of_nat rank) in
      Ok (S k, v_rank)) (k, v_rank) in
    Ok (k, S rank, v_rank)) (0, 1, v_rank) in
  Ok v_rank.

(** src/rank.c:247-263 [r_lgl_all] *)
Definition r_lgl_all (x : list Z) : res bool :=
  for_brk 0 (length x) (fun i (_ : bool) =>
    let! v := rd x i in
    if (v =? 0)%Z then Ok (Break false) else Ok (Next true)) true.

(** For bare vectors and data frames of bare columns the equality proxy has
    the same columns as the order proxy. *)
Definition ocol_vec (c : ocol) : vec :=
  match c with
  | OLgl l => Vec TLgl (map ELgl l)
  | OInt l => Vec TInt (map EInt l)
  | ODbl l => Vec TDbl (map EDbl l)
  | OCpl l => Vec TCpl (map (fun z => ECpl z.1 z.2) l)
  | OChr l => Vec TChr (map EChr l)
  end.
Definition oproxy_proxy (p : oproxy) : proxy :=
  match p with OVec c => PVec (ocol_vec c) | ODf cols n => PDf n (map ocol_vec cols) end.

(** [vec_slice(x, complete)] with a logical vector of [TRUE] and [FALSE]
    (slicing is modelled in [M_Slice] and [M_Subscript]; here only its effect
    on the columns). *)
Definition keep {A} (lgl : list Z) (x : list A) : list A :=
  omap (fun '((v, a) : Z * A) => if (v =? 1)%Z then Some a else None) (zip lgl x).
Definition ocol_keep (lgl : list Z) (c : ocol) : ocol :=
  match c with
  | OLgl l => OLgl (keep lgl l) | OInt l => OInt (keep lgl l) | ODbl l => ODbl (keep lgl l)
  | OCpl l => OCpl (keep lgl l) | OChr l => OChr (keep lgl l)
  end.
Definition oproxy_keep (lgl : list Z) (p : oproxy) : oproxy :=
  match p with
  | OVec c => OVec (ocol_keep lgl c)
  | ODf cols n => ODf (map (ocol_keep lgl) cols) (length (keep lgl lgl))
  end.

Inductive ties := TIES_min | TIES_max | TIES_sequential | TIES_dense.

(** src/rank.c:40-120 [vec_rank]; [incomplete_na] is [incomplete = "na"].
    The memory of [rank] and [out] is not initialised by the allocation. *)
Definition vec_rank (fuel : nat) (x : ox) (p : oproxy) (t : ties) (incomplete_na : bool)
    (decreasing na_largest : list bool) (nan_distinct : bool) (tls : truelengths) : res (list Z) :=
  let size := oproxy_size p in
  let! (complete, rank_na, p) :=
    if incomplete_na then
      let! complete := vec_detect_complete (oproxy_proxy p) in
      let! all := r_lgl_all complete in
      if (all : bool) then Ok (complete, false, p) else Ok (complete, true, oproxy_keep complete p)
    else Ok ([], false, p) in
  let v_rank := alloc (oproxy_size p) in
  let! (o, sizes) := vec_order_info fuel x p decreasing na_largest nan_distinct tls in
  let! v_rank := match t with
    | TIES_min => vec_rank_min o sizes v_rank
    | TIES_max => vec_rank_max o sizes v_rank
    | TIES_sequential => vec_rank_sequential o sizes v_rank
    | TIES_dense => vec_rank_dense o sizes v_rank
    end in
  if (rank_na : bool) then
    let! (out, _) := for_ 0 size (fun i '((out, j) : list Z * nat) =>
      let! c := rd complete i in
      if negb (c =? 0)%Z then
        let! r := rd v_rank j in
        let! out := wr out i r in
        Ok (out, S j)
      else
        let! out := wr out i NA_INTEGER in
        Ok (out, j)) (alloc size, 0) in
    Ok out
  else Ok v_rank.
