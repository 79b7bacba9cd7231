(** * Model: the iterator over R objects of rlang
    src/rlang/walk.c.  Objects are finite trees (cycles through environments are
    not modelled; a caller must skip them).  The stack is a list with its last
    element first, and a capacity: a push beyond it moves the stack to new memory
    (src/rlang/dyn-array.h:144-154, src/rlang/dyn-array.c:85-112). *)
From Verif Require Import Base.

(** ** Objects *)
Inductive nkind := KClosure | KEnv | KPromise | KPairlist | KCall | KDots.
Inductive vkind := KList | KExpr | KChr.
Inductive sx :=
| XNull
| XString (s : list Z)
| XAtom (v : list Z) (attrib : sx)
| XNode (k : nkind) (attrib tag car cdr : sx)
| XPointer (attrib tag prot : sx)
| XVector (k : vkind) (attrib : sx) (elts : list sx).

(** src/rlang/walk.h:19-23, 25-59 *)
Inductive dir := Leaf | Incoming | Outgoing.
Inductive rel :=
| RNone | RRoot | RAttrib | RNodeCar | RNodeCdr | RNodeTag | RFunctionFmls | RFunctionBody | RFunctionEnv
| REnvFrame | REnvEnclos | REnvHashtab | RPromiseValue | RPromiseExpr | RPromiseEnv | RPointerProt | RPointerTag
| RListElt | RCharacterElt | RExpressionElt.
(** src/rlang/walk.h:71-85: what a visit shows *)
Record visit := Visit { v_x : sx; v_depth : Z; v_parent : sx; v_rel : rel; v_i : Z; v_dir : dir }.

(** src/rlang/walk.c:6-20 *)
Inductive it_type := TypeNode | TypePointer | TypeVector | TypeAtomic.
Inductive it_state := StDone | StAttrib | StTag | StCar | StCdr | StElt.
(** src/rlang/walk.c:22-34.  [p_state] is what is left of the array of states;
    [v_arr] the elements from [v_arr] to [v_arr_end]. *)
Record info := Info { i_x : sx; i_state : option (list it_state); i_arr : option (list sx); i_depth : Z; i_parent : sx; i_rel : rel; i_dir : dir }.

(** src/rlang/walk.c:39-68 *)
Definition node_states := [StAttrib; StTag; StCar; StCdr; StDone].
Definition pointer_states := [StAttrib; StTag; StCdr; StDone].
Definition vector_states := [StAttrib; StElt; StDone].
Definition structure_states := [StAttrib; StDone].
Definition done_state := [StDone].

(** src/rlang/walk.c:278-302 [sexp_iterator_type] *)
Definition sexp_iterator_type (x : sx) : it_type :=
  match x with
  | XNode _ _ _ _ _ => TypeNode
  | XPointer _ _ _ => TypePointer
  | XVector _ _ elts => match elts with [] => TypeAtomic | _ => TypeVector end
  | _ => TypeAtomic
  end.
(** src/rlang/walk.c:303-311 [sexp_node_attrib]; a null or a string has none *)
Definition sexp_node_attrib (x : sx) : sx :=
  match x with
  | XAtom _ a | XNode _ a _ _ _ | XPointer a _ _ | XVector _ a _ => a
  | XNull | XString _ => XNull
  end.
Definition is_xnull (x : sx) : bool := match x with XNull => true | _ => false end.
Definition has_attrib (x : sx) : bool := negb (is_xnull (sexp_node_attrib x)).
(** src/rlang/walk.c:312-326, 327-341, 342-356 *)
Definition sexp_node_car (x : sx) : sx * rel :=
  match x with
  | XNode KClosure _ _ car _ => (car, RFunctionFmls)
  | XNode KEnv _ _ car _ => (car, REnvFrame)
  | XNode KPromise _ _ car _ => (car, RPromiseValue)
  | XNode _ _ _ car _ => (car, RNodeCar)
  | _ => (XNull, RNone)
  end.
Definition sexp_node_cdr (x : sx) : sx * rel :=
  match x with
  | XNode KClosure _ _ _ cdr => (cdr, RFunctionBody)
  | XNode KEnv _ _ _ cdr => (cdr, REnvEnclos)
  | XNode KPromise _ _ _ cdr => (cdr, RPromiseExpr)
  | XNode _ _ _ _ cdr => (cdr, RNodeCdr)
  | XPointer _ _ prot => (prot, RPointerProt)
  | _ => (XNull, RNone)
  end.
Definition sexp_node_tag (x : sx) : sx * rel :=
  match x with
  | XNode KClosure _ tag _ _ => (tag, RFunctionEnv)
  | XNode KEnv _ tag _ _ => (tag, REnvHashtab)
  | XNode KPromise _ tag _ _ => (tag, RPromiseEnv)
  | XNode _ _ tag _ _ => (tag, RNodeTag)
  | XPointer _ tag _ => (tag, RPointerTag)
  | _ => (XNull, RNone)
  end.

(** src/rlang/walk.c:254-276 [init_incoming_stack_info] with 93-98 and 208-212:
    the entry of a node, and whether it is a leaf *)
Definition is_leaf (x : sx) : bool := match sexp_iterator_type x with TypeAtomic => negb (has_attrib x) | _ => false end.
Definition skip_attrib (x : sx) (states : list it_state) : list it_state := if has_attrib x then states else tl states.
Definition init_info (x : sx) (depth : Z) (parent : sx) (r : rel) : info :=
  if is_leaf x then Info x None None depth parent r Leaf
  else
    match sexp_iterator_type x with
    | TypeAtomic => Info x (Some structure_states) None depth parent r Incoming
    | TypeNode => Info x (Some (skip_attrib x node_states)) None depth parent r Incoming
    | TypePointer => Info x (Some (skip_attrib x pointer_states)) None depth parent r Incoming
    | TypeVector => Info x (Some (skip_attrib x vector_states)) (Some match x with XVector _ _ elts => elts | _ => [] end) depth parent r Incoming
    end.

(** ** The iterator *)
Record iterator := Iter { it_skip : bool; it_cur : visit; it_stack : list info; it_cap : Z }.
Definition no_visit := Visit XNull 0 XNull RRoot 0 Leaf.
(** src/rlang/walk.c:71-111 [r_new_sexp_iterator]; 4: [SEXP_STACK_INIT_SIZE] *)
Definition STACK_INIT_SIZE : Z := 256.
Definition r_new_sexp_iterator (root : sx) : iterator :=
  Iter false no_visit [init_info root (-1) XNull RRoot] STACK_INIT_SIZE.
(** [r_dyn_push_back()]: the new stack and capacity, and whether it moved *)
Definition push (stack : list info) (cap : Z) (e : info) : list info * Z * bool :=
  if (cap <? Z.of_nat (length stack) + 1)%Z then (e :: stack, (cap * 2)%Z, true) else (e :: stack, cap, false).
(** src/rlang/walk.c:145-155, 238-249 *)
Definition arr_left (e : info) : Z := match i_arr e with Some a => Z.of_nat (length a) | None => -1 end.
Definition visit_of (e : info) : visit := Visit (i_x e) (i_depth e) (i_parent e) (i_rel e) (arr_left e) (i_dir e).

(** src/rlang/walk.c:171-251 [sexp_next_incoming].  [info] is the last entry;
    what is written through [p_info] after the push is lost if the stack moved. *)
Definition sexp_next_incoming (p : info) (rest : list info) (cap : Z) : res (visit * list info * Z) :=
  match i_state p with
  | None => UB "null pointer"
  | Some [] => UB "read out of bounds"
  | Some (state :: states) =>
      let x := i_x p in
      let! (cx, crel) :=
        match state with
        | StAttrib => Ok (sexp_node_attrib x, RAttrib)
        | StElt => match i_arr p with Some (e :: _) => Ok (e, RListElt) | _ => UB "read out of bounds" end
        | StTag => Ok (sexp_node_tag x)
        | StCar => Ok (sexp_node_car x)
        | StCdr => Ok (sexp_node_cdr x)
        | StDone => Err "unreachable"
        end in
      let child := init_info cx (i_depth p + 1) x crel in
      let '(above, cap, moved) := if is_leaf cx then ([], cap, false) else let '(_, cap, moved) := push (p :: rest) cap child in ([child], cap, moved) in
      let! p' :=
        match state with
        | StElt =>
            match i_arr p with
            | Some (_ :: a) => Ok (Info x (Some match a with [] => done_state | _ => state :: states end) (Some a) (i_depth p) (i_parent p) (i_rel p) (i_dir p))
            | _ => UB "read out of bounds"
            end
        | _ => Ok (Info x (Some states) (i_arr p) (i_depth p) (i_parent p) (i_rel p) (i_dir p))
        end in
      let! p' :=
        match i_state p' with
        | Some (StDone :: _) => Ok (Info x (i_state p') (i_arr p') (i_depth p') (i_parent p') (i_rel p') Outgoing)
        | Some (_ :: _) => Ok p'
        | _ => UB "read out of bounds"
        end in
      Ok (visit_of child, above ++ (if moved then p else p') :: rest, cap)
  end.
(** src/rlang/walk.c:118-169 [r_sexp_next] without the first lines (124-133) *)
Definition next_visit (stack : list info) (cap : Z) : res (option (visit * list info * Z)) :=
  match stack with
  | [] => Ok None
  | p :: rest =>
      let root := (i_depth p =? -1)%Z in
      match negb root, i_dir p with
      | true, Incoming => let! out := sexp_next_incoming p rest cap in Ok (Some out)
      | _, _ =>
          let v := visit_of p in
          if root then
            let v := Visit (v_x v) (v_depth v + 1) (v_parent v) (v_rel v) (v_i v) (v_dir v) in
            match i_dir p with
            | Incoming => Ok (Some (v, Info (i_x p) (i_state p) (i_arr p) (i_depth p + 1) (i_parent p) (i_rel p) (i_dir p) :: rest, cap))
            | _ => Ok (Some (v, rest, cap))
            end
          else Ok (Some (v, rest, cap))
      end
  end.
(** src/rlang/walk.c:118-169 [r_sexp_next]; [None] when it returns [false].  It
    calls itself once, with [skip_incoming] unset. *)
Definition r_sexp_next (it : iterator) : res (option iterator) :=
  match it_stack it with
  | [] => Ok None
  | _ :: rest =>
      let stack := if it_skip it then match v_dir (it_cur it) with Incoming => rest | _ => it_stack it end else it_stack it in
      let! out := next_visit stack (it_cap it) in
      Ok (match out with Some (v, stack, cap) => Some (Iter false v stack cap) | None => None end)
  end.

(** A caller's loop: [skip] says after each visit whether to set [skip_incoming]. *)
Fixpoint walk (skip : visit -> bool) (fuel : nat) (it : iterator) : res (list visit) :=
  match fuel with
  | 0 => Err "out of fuel"
  | S fuel =>
      let! out := r_sexp_next it in
      match out with
      | None => Ok []
      | Some it =>
          let! vs := walk skip fuel (Iter (skip (it_cur it)) (it_cur it) (it_stack it) (it_cap it)) in
          Ok (it_cur it :: vs)
      end
  end.
