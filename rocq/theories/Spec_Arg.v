(** * Specification: argument tags *)
From Verif Require Import Base M_Scalar Spec_Names M_Arg.

(** The name of an element: [""] and [NA] are no names *)
Definition name_at (names : option (list rstr)) (k : nat) : option (list Z) :=
  match names with
  | None => None
  | Some nms => match nms !! k with Some (Some (c :: s)) => Some (c :: s) | _ => None end
  end.
(** How the element [k] is shown, below a parent ([child]) or not:
    [$name] or [[[k + 1]]], [name] or [..k + 1] *)
Inductive element_text : bool -> option (list Z) -> nat -> list Z -> Prop :=
| et_child_name s k : element_text true (Some s) k (36%Z :: s)
| et_name s k : element_text false (Some s) k s
| et_child k ds : writes (Z.of_nat k + 1) ds -> element_text true None k ([91; 91] ++ ds ++ [93; 93])%Z
| et_top k ds : writes (Z.of_nat k + 1) ds -> element_text false None k ([46; 46] ++ ds)%Z.

(** The names, if there are any, have an element [k]. *)
Definition named_to (names : option (list rstr)) (k : nat) : Prop :=
  match names with None => True | Some nms => k < length nms end.

(** The text that a link of a tag adds, and whether it adds any *)
Inductive own : arg -> list Z -> Prop :=
| own_str p s : own (AStr p s) s
| own_lazy_null : own (ALazy LNull) []
| own_lazy s : own (ALazy (LStr s)) s
| own_sub p names n i child s : shown p child -> (Z.of_nat i < n <= XLEN_MAX)%Z -> named_to names i ->
    element_text child (name_at names i) i s -> own (ASub p names n (Z.of_nat i)) s
| own_counter p i names k child s : shown p child -> (Z.of_nat i < XLEN_MAX)%Z -> named_to names k ->
    element_text child (name_at names k) i s -> own (ACounter p p (Z.of_nat i) names (Z.of_nat k)) s
with shown : arg -> bool -> Prop :=
| shown_null : shown ANull false
| shown_nothing p : own p [] -> shown p false
| shown_some p c s : own p (c :: s) -> shown p true.

(** A tag is the texts of its links, from the outermost. *)
Inductive tag : arg -> list Z -> Prop :=
| tag_null : tag ANull []
| tag_link a ps s : a <> ANull -> tag (arg_parent a) ps -> own a s -> tag a (ps ++ s).

(** A string that R can hold *)
Definition r_string (s : list Z) : Prop := Forall (fun c => c <> 0%Z) s /\ (Z.of_nat (length s) <= INT_MAX)%Z.

(** The tag of the input [k] of a function, below the tag of [parent] *)
Definition input_tag (parent : arg) (names : option (list rstr)) (k : nat) (s : list Z) : Prop :=
  r_string s /\ exists ps child t, tag parent ps /\ shown parent child /\
    element_text child (name_at names k) k t /\ s = ps ++ t.

(** What a reduction should do: [impl] is given the tag of the input that gave
    the current value and the tag of the next input. *)
Section spec.
  Context {A X : Type} (impl : A -> X -> res (list Z) -> res (list Z) -> res (A * bool)).
  Context (tag_at : nat -> list Z).
  Fixpoint reduction (current : A) (current_tag : list Z) (k : nat) (xs : list X) : res A :=
    match xs with
    | [] => Ok current
    | x :: xs =>
        let! (current, taken) := impl current x (Ok current_tag) (Ok (tag_at k)) in
        reduction current (if taken : bool then tag_at k else current_tag) (k + 1) xs
    end.
End spec.
