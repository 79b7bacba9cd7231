(** * Model: names of combined vectors (src/c.c, src/c-unchop.c)

    [vec_c()] and [list_unchop()] with outer names, a name specification and name
    repair.  M_Chop has the same loops without outer names.  The fallback to
    [c()] and dimnames are not modelled; the cast to the common type is a
    parameter.  An input is a vector with the row names of a data frame (see
    M_Bind). *)
From Verif Require Import Base M_Double M_Scalar M_Hash M_Object M_Proxy M_Slice M_Subscript M_Rep M_Chop M_Names M_Shape M_Factor M_Ptype M_Bind.

(** src/names.c:136-168 [vec_names_impl] *)
Definition input_vec_names (x : rowed) : option (list rstr) :=
  match x.1 with VDf _ _ _ => x.2 | v => vec_names v end.
Definition is_zap (spec : name_spec) : bool := match spec with SpecZap => true | _ => false end.
Definition is_df_value (x : value) : bool := match x with VDf _ _ _ => true | _ => false end.

Section combine.
  Context (addr : rstr -> Z) (cast : value -> res value) (spec : name_spec) (r : repair).

  (** src/c.c:115-133 and src/c-unchop.c:134-152: the names of one input go to
      the locations [loc] *)
  Definition combine_names (out_size : nat) (loc : subscript) (outer : option rstr) (inner : option (list rstr)) (size : nat)
      (out_names : option (list rstr)) : res (option (list rstr)) :=
    if is_zap spec then Ok out_names
    else
      let! x_nms := apply_name_spec spec outer inner size in
      match x_nms with
      | NoNames => Ok out_names
      | _ =>
          let o := match out_names with None => replicate out_size empty_str | Some o => o end in
          match x_nms with
          | Names l => let! o := assign_base o loc l in Ok (Some o)
          | _ => Ok (Some o)
          end
      end.
  (** src/c.c:76-77: outer names are ignored if the result is a data frame *)
  Definition outer_name (xs_names : option (list rstr)) (p : value) (i : nat) : res (option rstr) :=
    match xs_names with
    | Some l => if is_df_value p then Ok None else let! o := rd l i in Ok (Some o)
    | None => Ok None
    end.
  (** src/c.c:153-170, src/c-unchop.c:169-181: restore, and set the names
      (src/names.c:773-797 [vec_set_df_rownames], 801-833 [vec_set_names_impl]) *)
  Definition combine_finish (out : value) (rn : option (list rstr)) (out_names : option (list rstr)) : res rowed :=
    let! rn := restore_rownames addr rn in
    match out_names with
    | Some nms =>
        let! nms := vec_as_names addr r nms in
        if negb (Z.of_nat (length nms) =? value_size out)%Z then Err "The size of `names` must be the same as that of `x`."
        else
          match out with
          | VVec t data _ => Ok (VVec t data (Some nms), None)
          | VArr _ _ _ => Ok (out, None)
          | VDf _ _ _ => let! nms := vec_as_unique_names addr nms in Ok (out, Some nms)
          end
    | None =>
        if is_zap spec then
          match out with VVec t data _ => Ok (VVec t data None, None) | _ => Ok (out, None) end
        else Ok (out, rn)
    end.

  (** src/c.c:18-170 [vec_c_opts] *)
  Definition vec_c_named (ptype : option rowed) (xs : list (option rowed)) (xs_names : option (list rstr)) : res (option rowed) :=
    match ptype with
    | None => Ok None
    | Some p =>
        let sizes := map (fun x : option rowed => match x with None => 0%Z | Some v => value_size v.1 end) xs in
        let out_size := fold_left Z.add sizes 0%Z in
        let! out := vec_init p.1 out_size in
        let! rn := init_rownames addr p.2 out_size in
        let! (out, out_names, _) :=
          for_ 0 (length xs) (fun i '(out, out_names, counter) =>
            let! x := rd xs i in
            let! size := rd sizes i in
            let loc := SSeq counter size 1 in
            let! outer := outer_name xs_names p.1 i in
            let inner := match x with None => None | Some x => input_vec_names x end in
            let! out_names := combine_names (Z.to_nat out_size) loc outer inner (Z.to_nat size) out_names in
            if (size =? 0)%Z then Ok (out, out_names, counter)
            else
              match x with
              | None => Err "unreachable"
              | Some v =>
                  let! v := cast v.1 in
                  let! out := vec_proxy_assign_opts true out loc v in
                  Ok (out, out_names, counter + size)%Z
              end) (out, None, 0%Z) in
        let! out := combine_finish out rn out_names in
        Ok (Some out)
    end.

  (** src/c-unchop.c:120-167: one iteration of the loop; data frames are recycled
      with their row names *)
  Definition recycle_rownames (rn : option (list rstr)) (n : Z) : res (option (list rstr)) :=
    match rn with
    | None => Ok None
    | Some l =>
        if (Z.of_nat (length l) =? n)%Z then Ok (Some l)
        else match l with
             | [s] => let! l := vec_as_unique_names addr (replicate (Z.to_nat n) s) in Ok (Some l)
             | _ => Err "Can't recycle"
             end
    end.
  Definition unchop_named_step (out_size : nat) (outer : option rstr) (x : option rowed) (loc : list Z) (st : value * option (list rstr))
      : res (value * option (list rstr)) :=
    let '(proxy, out_names) := st in
    match x with
    | None => Ok st
    | Some (x, rn) =>
        let! x := vec_check_recycle (Some x) (Z.of_nat (length loc)) in
        match x with
        | None => Err "unreachable"
        | Some x =>
            let! rn := (if is_df_value x then recycle_rownames rn (Z.of_nat (length loc)) else Ok None) in
            let! out_names := combine_names out_size (SLoc loc) outer (input_vec_names (x, rn)) (length loc) out_names in
            let! x := cast x in
            let! proxy := vec_proxy_assign_opts true proxy (SLoc loc) x in
            Ok (proxy, out_names)
        end
    end.
  (** src/c-unchop.c:12-184 [list_unchop] with non-NULL indices *)
  Definition list_unchop_named (ptype : option rowed) (xs : list (option rowed)) (xs_names : option (list rstr)) (indices : list index)
      : res (option rowed) :=
    if negb (length xs =? length indices) then Err "`x` and `indices` must be lists of the same size."
    else
      match ptype with
      | None => Ok None
      | Some p =>
          let! out_size := unchop_size indices (length xs) in
          let! locs := list_as_locations indices out_size in
          let! proxy := vec_init p.1 out_size in
          let! rn := init_rownames addr p.2 out_size in
          let! (proxy, out_names) :=
            for_ 0 (length xs) (fun i st =>
              let! x := rd xs i in
              let! loc := rd locs i in
              let! outer := outer_name xs_names p.1 i in
              unchop_named_step (Z.to_nat out_size) outer x loc st) (proxy, None) in
          let! out := combine_finish proxy rn out_names in
          Ok (Some out)
      end.
End combine.
