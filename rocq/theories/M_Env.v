(** * Model of environments, formulas and lazy character vectors

    src/rlang/env.c:112-200 and 247-287, src/rlang/env-binding.c,
    src/rlang/formula.c, src/altrep-lazy-character.c.

    Simplifications: the branches for R before 4.0 are left out; frames are
    lists of bindings with distinct names; values, promises and functions are
    of any type; evaluating the function of a lazy vector does not use the
    vector itself. *)
From Verif Require Import Base.
From stdpp Require Import list strings.
Open Scope nat_scope.

(** ** The chain of parents.  Environments are numbers; 0 is the empty one. *)
Section parents.
  Context (parent : nat -> nat).

  (** src/rlang/env.c:264-271: the loop and the last comparison *)
  Fixpoint inherits_loop (fuel env ancestor top : nat) : res bool :=
    if negb (env =? top) && negb (env =? 0) then
      if env =? ancestor then Ok true
      else match fuel with
           | O => Err "out of fuel"
           | S fuel => inherits_loop fuel (parent env) ancestor top
           end
    else Ok (env =? ancestor).

  (** src/rlang/env.c:247-272 [r_env_inherits]; [top = None] is [NULL] *)
  Definition r_env_inherits (fuel env ancestor : nat) (top : option nat) : res bool :=
    let top := match top with Some t => t | None => 0 end in
    if env =? 0 then Ok false else inherits_loop fuel env ancestor top.

  Context {V : Type} (find : nat -> option V).

  (** src/rlang/env.c:281-284; [find env] is [r_env_find(env, sym)] *)
  Fixpoint until_loop (fuel env stop : nat) (out : option V) : res (option V) :=
    match out with
    | Some _ => Ok out
    | None =>
        if negb (env =? 0) && negb (env =? stop) then
          match fuel with
          | O => Err "out of fuel"
          | S fuel => until_loop fuel (parent env) stop (find env)
          end
        else Ok out
    end.

  (** src/rlang/env.c:274-287 [r_env_find_until] *)
  Definition r_env_find_until (fuel env last : nat) : res (option V) :=
    let stop := if negb (last =? 0) then parent last else 0 in
    until_loop fuel env stop None.
End parents.

(** ** Bindings *)
Inductive binding (V : Type) :=
  | BVal (v : V)    (* a value, or a promise that was forced *)
  | BProm (p : V)   (* a promise *)
  | BAct (f : V).   (* an active binding *)
Arguments BVal {V}. Arguments BProm {V}. Arguments BAct {V}.

Inductive btype := TValue | TPromise | TActive.

Notation frame V := (list (string * binding V)).

Fixpoint env_get {V} (e : frame V) (k : string) : option (binding V) :=
  match e with
  | [] => None
  | (k', b) :: e => if bool_decide (k' = k) then Some b else env_get e k
  end.
Definition env_has {V} (e : frame V) (k : string) : bool :=
  match env_get e k with Some _ => true | None => false end.
(** A new binding; only used for names that are not bound. *)
Definition env_poke {V} (e : frame V) (k : string) (b : binding V) : frame V := e ++ [(k, b)].

Section bindings.
  (** What the function of an active binding gives. *)
  Context {V : Type} (call_fn : V -> V).

  (** [r_env_find()]: the object bound; an active binding is called. *)
  Definition r_env_find (e : frame V) (k : string) : res (binding V) :=
    match env_get e k with
    | None => Err "unbound"
    | Some (BAct f) => Ok (BVal (call_fn f))
    | Some b => Ok b
    end.

  (** src/rlang/env-binding.c:22-34 [which_env_binding] *)
  Definition which_env_binding (e : frame V) (k : string) : btype :=
    match env_get e k with
    | Some (BAct _) => TActive
    | Some (BProm _) => TPromise
    | _ => TValue
    end.

  (** src/rlang/env-binding.c:50-63 [detect_special_binding]; [None] is -1 *)
  Fixpoint detect_special_binding (e : frame V) (nms : list string) (i : nat) : option nat :=
    match nms with
    | [] => None
    | k :: nms =>
        match which_env_binding e k with
        | TValue => detect_special_binding e nms (S i)
        | _ => Some i
        end
    end.

  (** src/rlang/env-binding.c:66-97 [r_env_binding_types]; [None] is [NULL] *)
  Definition r_env_binding_types (e : frame V) (nms : list string) : res (option (list btype)) :=
    match detect_special_binding e nms 0 with
    | None => Ok None
    | Some i =>
        let n := length nms in
        let! types := for_ i (n - i) (fun j types =>
          let! k := rd nms j in
          wr types j (which_env_binding e k)) (replicate n TValue) in
        Ok (Some types)
    end.

  (** src/rlang/env.c:185-200 [env_coalesce_plain] *)
  Definition env_coalesce_plain (env from : frame V) (nms : list string) : res (frame V) :=
    for_ 0 (length nms) (fun i env =>
      let! sym := rd nms i in
      if env_has env sym then Ok env
      else let! b := r_env_find from sym in Ok (env_poke env sym b)) env.

  (** src/rlang/env.c:129-182 [r_env_coalesce] *)
  Definition r_env_coalesce (env from : frame V) : res (frame V) :=
    let nms := map fst from in
    let! types := r_env_binding_types from nms in
    match types with
    | None => env_coalesce_plain env from nms
    | Some types =>
        for_ 0 (length nms) (fun i env =>
          let! sym := rd nms i in
          if env_has env sym then Ok env
          else
            let! t := rd types i in
            match t with
            | TValue | TPromise => let! b := r_env_find from sym in Ok (env_poke env sym b)
            | TActive =>
                (* R_ActiveBindingFunction() *)
                match env_get from sym with
                | Some (BAct f) => Ok (env_poke env sym (BAct f))
                | _ => Err "no active binding"
                end
            end) env
    end.

  (** src/rlang/env.c:112-127 [r_env_clone]: the new frame *)
  Definition r_env_clone (env : frame V) : res (frame V) := r_env_coalesce [] env.
End bindings.

(** ** Formulas: calls with arguments and the two attributes.  [None] is [NULL]. *)
Inductive fobj (V : Type) :=
  | FCall (tilde : bool) (args : list (option V)) (env : option V) (formula_class : bool)
  | FOther.
Arguments FCall {V}. Arguments FOther {V}.

(** src/rlang/formula.c:4-14 [r_f_rhs] *)
Definition r_f_rhs {V} (f : fobj V) : res (option V) :=
  match f with
  | FOther => Err "`x` must be a formula"
  | FCall _ [a] _ _ => Ok a
  | FCall _ [_; b] _ _ => Ok b
  | FCall _ _ _ _ => Err "Invalid formula"
  end.
(** src/rlang/formula.c:15-25 [r_f_lhs] *)
Definition r_f_lhs {V} (f : fobj V) : res (option V) :=
  match f with
  | FOther => Err "`x` must be a formula"
  | FCall _ [a] _ _ => Ok None
  | FCall _ [a; _] _ _ => Ok a
  | FCall _ _ _ _ => Err "Invalid formula"
  end.
(** src/rlang/formula.c:34-59 [r_is_formula]; [None] is a negative number *)
Definition r_is_formula {V} (x : fobj V) (scoped lhs : option bool) : bool :=
  match x with
  | FOther => false
  | FCall tilde args env cls =>
      if negb tilde then false
      else
        let has_env := match env with Some _ => true | None => false end in
        if match scoped with Some s => negb (Bool.eqb s (has_env && cls)) | None => false end then false
        else if match lhs with Some l => negb (Bool.eqb l (2 <? S (length args))) | None => false end
        then false
        else true
  end.
(** src/rlang/formula.c:61-85 [new_raw_formula], 86-92 [r_new_formula]; the
    environment is one or [NULL] *)
Definition new_raw_formula {V} (lhs rhs env : option V) : fobj V :=
  let args := match lhs with None => [rhs] | Some _ => [lhs; rhs] end in
  FCall true args env false.
Definition r_new_formula {V} (lhs rhs env : option V) : fobj V :=
  match new_raw_formula lhs rhs env with
  | FCall t args e _ => FCall t args e true
  | FOther => FOther
  end.

(** ** Lazy character vectors *)
Section lazy.
  Context {S : Type}.
  (** The result of the [k]-th call of the function: [Ok None] is an object
      that is no character vector. *)
  Context (fn : nat -> res (option (list S))).

  (** [data2], and the number of calls made so far *)
  Record lazy := Lazy { calls : nat; data2 : option (list S) }.

  (** src/altrep-lazy-character.c:38-58 [altrep_lazy_character_Materialize] *)
  Definition materialize (x : lazy) : res (list S) * lazy :=
    match data2 x with
    | Some out => (Ok out, x)
    | None =>
        let x' := Lazy (Datatypes.S (calls x)) None in
        match fn (calls x) with
        | Ok (Some out) => (Ok out, Lazy (calls x') (Some out))
        | Ok None => (Err "`fn` must evaluate to a character vector.", x')
        | Err m => (Err m, x')
        | UB m => (UB m, x')
        end
    end.

  Inductive lop := LLength | LElt (i : nat) | LSet (i : nat) (v : S) | LPtr | LPtrOrNull | LIsMat.
  (** What a call gives *)
  Inductive lout := ONum (n : nat) | OElt (s : S) | OUnit | OData (l : list S) | ONull | OBool (b : bool).

  Definition with_data (x : lazy) (k : list S -> lazy -> res lout * lazy) : res lout * lazy :=
    match data2 x with
    | Some out => k out x
    | None =>
        match materialize x with
        | (Ok out, x) => k out x
        | (Err m, x) => (Err m, x)
        | (UB m, x) => (UB m, x)
        end
    end.

  (** src/altrep-lazy-character.c:25-27, 60-85, 101-119: the methods.  A
      pointer to the data shows the strings it points to. *)
  Definition lazy_op (o : lop) (x : lazy) : res lout * lazy :=
    match o with
    | LLength => with_data x (fun out x => (Ok (ONum (length out)), x))
    | LElt i => with_data x (fun out x => ((let! s := rd out i in Ok (OElt s)), x))
    | LSet i v => with_data x (fun out x =>
        match wr out i v with
        | Ok out => (Ok OUnit, Lazy (calls x) (Some out))
        | Err m => (Err m, x)
        | UB m => (UB m, x)
        end)
    | LPtr =>
        match materialize x with
        | (Ok out, x) => (Ok (OData out), x)
        | (Err m, x) => (Err m, x)
        | (UB m, x) => (UB m, x)
        end
    | LPtrOrNull =>
        match data2 x with None => (Ok ONull, x) | Some out => (Ok (OData out), x) end
    | LIsMat => (Ok (OBool (match data2 x with None => false | Some _ => true end)), x)
    end.

  (** A sequence of uses of one vector, [src/altrep-lazy-character.c:25-119] *)
  Fixpoint lazy_run (ops : list lop) (x : lazy) : list (res lout) * lazy :=
    match ops with
    | [] => ([], x)
    | o :: ops =>
        let (r, x) := lazy_op o x in
        let (rs, x) := lazy_run ops x in
        (r :: rs, x)
    end.
End lazy.
Arguments LLength {S}. Arguments LElt {S}. Arguments LPtr {S}. Arguments LPtrOrNull {S}. Arguments LIsMat {S}.
