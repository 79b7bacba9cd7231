(** * Specification: proxies that are jointly comparable *)
From Verif Require Import Base M_JointProxy.

(** [x] and [y] are of one type, with [nx] and [ny] rows, and [xy] is [x]
    followed by [y].  No data frame has a method of its own. *)
Inductive stacked {A} (nx ny : nat) : jcol A -> jcol A -> jcol A -> Prop :=
| stacked_vec ty dep v w : length v = nx -> length w = ny ->
    stacked nx ny (JVec ty dep v) (JVec ty dep w) (JVec ty dep (v ++ w))
| stacked_df xs ys xys : stacked_all nx ny xs ys xys ->
    stacked nx ny (JDf false xs) (JDf false ys) (JDf false xys)
with stacked_all {A} (nx ny : nat) : list (jcol A) -> list (jcol A) -> list (jcol A) -> Prop :=
| stacked_nil : stacked_all nx ny [] [] []
| stacked_cons x y xy xs ys xys : stacked nx ny x y xy -> stacked_all nx ny xs ys xys ->
    stacked_all nx ny (x :: xs) (y :: ys) (xy :: xys).

(** [px] and [py] are the first [nx] and the last [ny] rows of [p]. *)
Definition splits {B} (nx ny : nat) (p px py : list (list B)) : Prop :=
  length px = length p /\ length py = length p /\
  forall k col, p !! k = Some col -> length col = nx + ny /\
    exists cx cy, px !! k = Some cx /\ py !! k = Some cy /\ length cx = nx /\ length cy = ny /\ col = cx ++ cy.

(** The columns after collation *)
Definition collated {S} (collate : list S -> option (list S)) (c d : ccol S) : Prop :=
  match c, d with
  | CChr v, CChr w => collate v = Some w /\ length w = length v
  | COther i, COther j => i = j
  | _, _ => False
  end.
