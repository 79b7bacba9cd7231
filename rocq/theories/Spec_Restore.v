(** * Specification: restoring attributes *)
From Verif Require Import Base M_Restore.

(** [o] has the attribute [t] with the value [v]. *)
Definition has (o : obj) (t : tag) (v : aval) : Prop := In (t, v) (o_attrib o).
Definition shaped (o : obj) : Prop := exists v, has o TDim v.
Definition classed (o : obj) (cls : list String.string) : Prop := has o TClass (AStrs cls).
(** Tags are distinct, and the class is strings, at least one. *)
Definition wf_obj (o : obj) : Prop :=
  NoDup (map fst (o_attrib o)) /\ forall v, has o TClass v -> exists c cls, v = AStrs (c :: cls).
Definition wf_heap (h : heap) : Prop := forall z o, h !! z = Some o -> wf_obj o.
(** Lists whose last class is data.frame *)
Definition a_df (o : obj) : Prop := (exists l, o_body o = BList l) /\ exists cls, classed o (cls ++ ["data.frame"%string]).
(** Data frames that are not of a class of their own *)
Definition bare_df (o : obj) : Prop :=
  (exists l, o_body o = BList l) /\
  (classed o ["data.frame"%string] \/ classed o ["tbl_df"; "tbl"; "data.frame"]%string).
(** Vectors without class, and factors *)
Definition bare_vector (o : obj) : Prop :=
  (forall v, ~ has o TClass v) \/ classed o ["factor"%string] \/ classed o ["ordered"; "factor"]%string.
Definition no_attributes (o : obj) : Prop := o_attrib o = [] /\ o_s4 o = false.

(** [y] is [x] with the attributes of [to], but for names, row names, dim and dimnames. *)
Definition attributes (x to y : obj) : Prop :=
  NoDup (map fst (o_attrib y)) /\
  forall t v, has y t v <->
    match t with
    | TClass | TOther _ => has to t v
    | TDim => has x TDim v
    | TDimnames => has x TDimnames v /\ shaped x
    | TNames => has x TNames v /\ ~ shaped x
    | TRownames => has x TRownames v /\ ~ shaped x /\ a_df to
    end.
Definition default_restored (x to y : obj) : Prop :=
  o_body y = o_body x /\
  ((no_attributes to /\ y = x) \/
   (~ no_attributes to /\ attributes x to y /\ (o_s4 y = true <-> o_s4 x = true \/ o_s4 to = true))).

(** The number of rows by the row names: in short form [NA, n] *)
Definition rows_by (rn : aval) (n : nat) : Prop :=
  (exists l, rn = AStrs l /\ n = length l) \/
  (exists b, rn = AInts [na_int; b] /\ Z.of_nat n = Z.abs b) \/
  (exists l, rn = AInts l /\ n = length l /\ forall b, l <> [na_int; b]).
(** The size of a column *)
Definition size_of (o : obj) (n : nat) : Prop :=
  (exists rn, has o TRownames rn /\ rows_by rn n) \/
  ((forall rn, ~ has o TRownames rn) /\ exists d ds, has o TDim (AInts (d :: ds)) /\ n = Z.to_nat d) \/
  ((forall rn, ~ has o TRownames rn) /\ (forall d ds, ~ has o TDim (AInts (d :: ds))) /\
   n = match o_body o with BVec l => length l | BList l => length l end).
(** The rows of a list of columns: those of the first *)
Definition df_rows (h : heap) (y : obj) (n : nat) : Prop :=
  match o_body y with
  | BList (c :: _) => exists oc, h !! c = Some oc /\ size_of oc n
  | _ => n = 0
  end.
(** The names and the row names of data frames.  Row names that are strings are made
    unique.  Both are made up if [x] has none. *)
Definition df_attributes (uniq : list String.string -> list String.string) (h : heap) (x to y : obj) : Prop :=
  NoDup (map fst (o_attrib y)) /\
  forall t v, has y t v <->
    match t with
    | TClass | TOther _ => has to t v
    | TDim => has x TDim v
    | TDimnames => has x TDimnames v /\ shaped x
    | TNames =>
        (has x TNames v /\ ~ shaped x) \/
        ((shaped x \/ forall nms, ~ has x TNames nms) /\
         v = AStrs (replicate (match o_body y with BList l => length l | BVec _ => 0 end) ""%string))
    | TRownames =>
        (~ shaped x /\ exists rn, has x TRownames rn /\
           match rn with AInts _ => v = rn | AStrs l => v = AStrs (uniq l) end) \/
        ((shaped x \/ forall rn, ~ has x TRownames rn) /\
         exists n, df_rows h y n /\ v = AInts (if n =? 0 then [] else [na_int; (- Z.of_nat n)%Z]))
    end.
Definition df_restored (uniq : list String.string -> list String.string) (h : heap) (x to y : obj) : Prop :=
  df_attributes uniq h x to y /\ (o_s4 y = true <-> o_s4 x = true \/ o_s4 to = true).

(** What there is to restore, down the columns: the places and the objects of [x] and [to] *)
Inductive plan :=
  | Vector (x to : nat) (ox oto : obj)
  | Frame (x to : nat) (ox oto : obj) (cols : list plan).
(** [h] has the plan [p] for [x] and [to] *)
Inductive planned (h : heap) : nat -> nat -> plan -> Prop :=
  | planned_vector x to ox oto : h !! x = Some ox -> h !! to = Some oto -> bare_vector oto ->
      planned h x to (Vector x to ox oto)
  | planned_frame x to ox oto cx cto cols : h !! x = Some ox -> h !! to = Some oto -> bare_df oto ->
      o_body ox = BList cx -> o_body oto = BList cto -> length cx = length cols -> length cto = length cols ->
      (forall i p a b, cols !! i = Some p -> cx !! i = Some a -> cto !! i = Some b -> planned h a b p) ->
      planned h x to (Frame x to ox oto cols).
(** The places of [x] and its columns, and those of [to] *)
Fixpoint places (p : plan) : list nat :=
  match p with Vector x _ _ _ => [x] | Frame x _ _ _ cols => x :: concat (map places cols) end.
Fixpoint targets (p : plan) : list nat :=
  match p with Vector _ to _ _ => [to] | Frame _ to _ _ cols => to :: concat (map targets cols) end.
Fixpoint depth (p : plan) : nat :=
  match p with Vector _ _ _ _ => 1 | Frame _ _ _ _ cols => Datatypes.S (max_list (map depth cols)) end.
(** [y] is what the plan says, in [h] *)
Inductive carried_out (uniq : list String.string -> list String.string) (h : heap) : plan -> nat -> Prop :=
  | carried_out_vector x to ox oto y oy : h !! y = Some oy -> default_restored ox oto oy ->
      carried_out uniq h (Vector x to ox oto) y
  | carried_out_frame x to ox oto cols y oy cy : h !! y = Some oy -> o_body oy = BList cy -> length cy = length cols ->
      df_restored uniq h ox oto oy ->
      (forall i p c, cols !! i = Some p -> cy !! i = Some c -> carried_out uniq h p c) ->
      carried_out uniq h (Frame x to ox oto cols) y.
