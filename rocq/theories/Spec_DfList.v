(** * Specification: building and flattening data frames *)
From Verif Require Import Base M_Double M_Scalar M_Object M_Proxy M_Slice M_DfList.

(** What an input named [o] contributes to a data frame: [NULL] nothing, an
    unnamed data frame its columns if it is unpacked, all others one column. *)
Definition entry (unpack : bool) (o : rstr) (w : option value) : list (rstr * value) :=
  match w with
  | None => []
  | Some (VDf n names cols) => if unpack && bool_decide (o = empty_str) then zip names cols else [(o, VDf n names cols)]
  | Some w => [(o, w)]
  end.
Definition entries (unpack : bool) (names : option (list rstr)) (ws : list (option value)) : list (rstr * value) :=
  concat (zip_with (entry unpack) (match names with Some l => l | None => replicate (length ws) empty_str end) ws).

(** The columns that are not data frames, at any depth, with their own names. *)
Inductive leaves : rstr -> value -> list (rstr * value) -> Prop :=
| leaf o x : (forall n names cols, x <> VDf n names cols) -> leaves o x [(o, x)]
| leaves_df o n names cols ls : leaves_cols names cols ls -> leaves o (VDf n names cols) ls
with leaves_cols : list rstr -> list value -> list (rstr * value) -> Prop :=
| lc_nil : leaves_cols [] [] []
| lc_cons o names c cols l ls : leaves o c l -> leaves_cols names cols ls -> leaves_cols (o :: names) (c :: cols) (l ++ ls).

(** The attribute with a tag: the first one. *)
Inductive has_attr : attrs -> tag -> attr -> Prop :=
| ha_here t v a : has_attr ((t, v) :: a) t v
| ha_there t t' v w a : t' <> t -> has_attr a t v -> has_attr ((t', w) :: a) t v.
(** The size that row names stand for. *)
Inductive stands_for : rownames -> Z -> Prop :=
| sf_chr l : stands_for (RnChr l) (Z.of_nat (length l))
| sf_compact n : stands_for (RnInt [NA_INTEGER; n]) (Z.abs n)
| sf_int l : ~ (exists n, l = [NA_INTEGER; n]) -> stands_for (RnInt l) (Z.of_nat (length l)).
