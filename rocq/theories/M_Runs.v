(** * Model: equality proxies of vectors (src/proxy.c), runs (src/runs.c) *)
From Verif Require Import Base M_Double M_Scalar M_Hash M_Object M_Proxy M_Slice.

(** R/type-bare.R:370-378 [vec_proxy_equal.array]: the columns of an array as a
    data frame. *)
Definition array_cols (t : vtype) (dim : list Z) (data : list elt) : list vec :=
  let d := Z.to_nat (hd 0%Z dim) in
  map (fun e => Vec t (take d (drop (e * d) data))) (seq 0 (Z.to_nat (fold_right Z.mul 1%Z (tail dim)))).

(** src/proxy.c:216-234 [df_proxy] on a data frame whose columns have been
    proxied: src/type-data-frame.c:918-960 [df_flatten] (nested data frames are
    spliced), then src/proxy.c:246-251 [vec_proxy_unwrap] (a single column is
    taken out).  Column names are dropped. *)
Definition df_flatten_unwrap (n : nat) (cols : list proxy) : proxy :=
  match flat_map proxy_cols cols with
  | [c] => PVec c
  | cs => PDf n cs
  end.
(** src/proxy.c:57-68 [vec_proxy_equal], 141-160 [vec_proxy_method_impl] *)
Fixpoint eq_proxy (v : value) : proxy :=
  match v with
  | VVec t data _ => PVec (Vec t data)
  | VArr t dim data =>
      if 1 <? length dim then df_flatten_unwrap (Z.to_nat (hd 0%Z dim)) (map PVec (array_cols t dim data))
      else PVec (Vec t data)
  | VDf n _ cols => df_flatten_unwrap n (map eq_proxy cols)
  end.

(** ** src/runs.c *)
Inductive run_bound := RStart | REnd.
(** src/runs.c:343-359 *)
Definition compute_iter_loc (size : Z) (which : run_bound) : Z :=
  match which with RStart => 0 | REnd => size - 1 end%Z.
Definition compute_iter_step (which : run_bound) : Z := match which with RStart => 1 | REnd => -1 end%Z.

Section runs.
  Context (equal : elt -> elt -> bool).

  (** src/runs.c:187-209 [VEC_DETECT_RUN_BOUNDS_BOOL] *)
  Definition detect_run_bounds_vec (x : list elt) (size : nat) (which : run_bound) (out : list bool) : res (list bool) :=
    if size =? 0 then Ok out
    else
      let loc := compute_iter_loc (Z.of_nat size) which in
      let step := compute_iter_step which in
      let! ref := rdZ x loc in
      let! out := wrZ out loc true in
      let! (out, _, _) :=
        for_ 1 (size - 1) (fun _ '(out, ref, loc) =>
          let! e := rdZ x loc in
          let! out := wrZ out loc (negb (equal e ref)) in
          Ok (out, e, loc + step)%Z) (out, ref, loc + step)%Z in
      Ok out.
  (** src/runs.c:293-308 [VEC_COL_DETECT_RUN_BOUNDS_BOOL] *)
  Definition detect_run_bounds_col (size : nat) (which : run_bound) (x : list elt) (out : list bool) : res (list bool) :=
    let loc := compute_iter_loc (Z.of_nat size) which in
    let step := compute_iter_step which in
    let! ref := rdZ x loc in
    let! (out, _, _) :=
      for_ 1 (size - 1) (fun _ '(out, ref, loc) =>
        let! e := rdZ x loc in
        let! o := rdZ out loc in
        let! out := wrZ out loc (o && equal ref e) in
        Ok (out, e, loc + step)%Z) (out, ref, loc + step)%Z in
    Ok out.
  (** src/runs.c:244-275 [df_detect_run_bounds_bool] *)
  Definition detect_run_bounds_df (cols : list vec) (size : nat) (which : run_bound) (out : list bool) : res (list bool) :=
    if size =? 0 then Ok out
    else
      let loc := compute_iter_loc (Z.of_nat size) which in
      let step := compute_iter_step which in
      let! out := wrZ out loc false in
      let! (out, _) :=
        for_ 1 (size - 1) (fun _ '(out, loc) =>
          let! out := wrZ out loc true in Ok (out, loc + step)%Z) (out, loc + step)%Z in
      let! out :=
        for_ 0 (length cols) (fun i out =>
          let! c := rd cols i in
          detect_run_bounds_col size which (v_data c) out) out in
      for_ 0 size (fun i out => let! o := rd out i in wr out i (negb o)) out.
  (** src/runs.c:149-181 [vec_detect_run_bounds_bool] *)
  Definition vec_detect_run_bounds_bool (p : proxy) (which : run_bound) : res (list bool) :=
    let size := proxy_size p in
    let out := replicate size false in
    match p with
    | PVec v => detect_run_bounds_vec (v_data v) size which out
    | PDf _ cols => detect_run_bounds_df cols size which out
    end.
End runs.

(** src/runs.c:19-36 [vec_detect_run_bounds] *)
Definition vec_detect_run_bounds (p : proxy) (which : run_bound) : res (list Z) :=
  let! where_ := vec_detect_run_bounds_bool elt_equal_na_equal p which in
  for_ 0 (length where_) (fun i out => let! w := rd where_ i in wr out i (b2i w)) (alloc (length where_)).

(** Number of [true]s, src/runs.c:54-57, 121-124 *)
Definition count_bounds (where_ : list bool) : res Z :=
  for_ 0 (length where_) (fun i n => let! w := rd where_ i in Ok (n + b2i w)%Z) 0%Z.

(** src/runs.c:46-76 [vec_locate_run_bounds] *)
Definition vec_locate_run_bounds (p : proxy) (which : run_bound) : res (list Z) :=
  let! where_ := vec_detect_run_bounds_bool elt_equal_na_equal p which in
  let size := length where_ in
  let! n := count_bounds where_ in
  let step := compute_iter_step which in
  let! (out, _, _) :=
    for_ 0 size (fun _ '(out, j, loc) =>
      let! out := wrZ out j (loc + 1)%Z in
      let! w := rdZ where_ loc in
      Ok (out, j + step * b2i w, loc + step)%Z)
      (alloc (Z.to_nat n), compute_iter_loc n which, compute_iter_loc (Z.of_nat size) which) in
  Ok out.

(** src/runs.c:85-107 [vec_identify_runs]; also returns the [n] attribute *)
Definition vec_identify_runs (p : proxy) : res (list Z * Z) :=
  let! starts := vec_detect_run_bounds_bool elt_equal_na_equal p RStart in
  for_ 0 (length starts) (fun i '(out, n) =>
    let! w := rd starts i in
    let! n := int_add n (b2i w) in
    let! out := wr out i n in
    Ok (out, n)) (alloc (length starts), 0%Z).

(** src/runs.c:116-143 [vec_run_sizes] *)
Definition vec_run_sizes (p : proxy) : res (list Z) :=
  let! ends := vec_detect_run_bounds_bool elt_equal_na_equal p REnd in
  let! n := count_bounds ends in
  let! (out, _, _) :=
    for_ 0 (length ends) (fun i '(out, j, count) =>
      let! e := rd ends i in
      let! out := wrZ out j count in
      let! c := int_mul (b2i (negb e)) count in
      let! count := int_add c 1 in
      Ok (out, j + b2i e, count)%Z) (alloc (Z.to_nat n), 0%Z, 1%Z) in
  Ok out.
