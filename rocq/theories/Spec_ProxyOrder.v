(** * Specification: proxies of nested objects *)
From Verif Require Import Base M_ProxyOrder.

(** The columns of a proxy: its own, or itself where it is no data frame *)
Definition columns (p : obj) : list obj := match p with PDf _ cols => cols | _ => [p] end.
(** No data frame inside a data frame, and none with a single column *)
Definition flat (p : obj) : Prop :=
  match p with
  | PDf _ cols => length cols <> 1 /\ Forall (fun c => is_df c = false) cols
  | PVec _ _ => True
  end.
(** All data frames have no class of their own. *)
Inductive plain : obj -> Prop :=
| plain_vec b id : plain (PVec b id)
| plain_df cols : Forall plain cols -> plain (PDf 0 cols).
(** Methods that leave such data frames alone and give no data frame for bare
    vectors *)
Definition default_methods (impl : obj -> res obj) : Prop :=
  (forall cols, impl (PDf 0 cols) = Ok (PDf 0 cols)) /\
  (forall id p, impl (PVec true id) = Ok p -> is_df p = false).

(** [parts] are the columns of a proxy by the column of [x] they come from.
    The flags are recycled, or each column has the flag of the column of [x]
    it comes from. *)
Definition flags_ok {A} (flags : list bool) (parts : list (list A)) (out : list bool) : Prop :=
  (length flags = 1 /\ out = flags) \/
  (length out = length (concat parts) /\
   forall i part j, parts !! i = Some part -> j < length part ->
     out !! (length (concat (take i parts)) + j) = flags !! i).
