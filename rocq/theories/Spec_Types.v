(** * Specification of the types of objects and of native double dispatch *)
From Verif Require Import Base M_Restore M_Types.
From stdpp Require Import list.
Open Scope nat_scope.

(** What an object is: its base type, or its class if it has type [TS3]. *)
Definition kind_of (t : vtype) (c : class_type) : kind :=
  match t with
  | TNull => KNull | TUnspecified => KUnspecified | TLogical => KLogical | TInteger => KInteger
  | TDouble => KDouble | TComplex => KComplex | TCharacter => KCharacter | TRaw => KRaw
  | TList => KList | TDataframe => KDataframe | TScalar => KScalar
  | TS3 =>
      match c with
      | CBareFactor => KBareFactor | CBareOrdered => KBareOrdered | CBareDate => KBareDate
      | CBarePosixct => KBarePosixct | CBarePosixlt => KBarePosixlt | CBareTibble => KBareTibble
      | _ => KUnknown
      end
  end.

(** What a conversion takes and what it gives. *)
Definition takes (f : conv) (k : kind) : Prop :=
  match f with
  | chr_as_factor | chr_as_ordered => k = KCharacter
  | fct_as_character | fct_as_factor => k = KBareFactor
  | ord_as_character | ord_as_ordered => k = KBareOrdered
  | date_as_posixct | date_as_posixlt | date_as_date => k = KBareDate
  | posixct_as_date | posixct_as_posixlt | posixct_as_posixct => k = KBarePosixct
  | posixlt_as_date | posixlt_as_posixct | posixlt_as_posixlt => k = KBarePosixlt
  | tib_cast | df_cast_opts => k = KDataframe \/ k = KBareTibble
  | same_x => match k with KLogical | KInteger | KDouble | KComplex | KRaw | KCharacter | KList => True | _ => False end
  | lgl_as_integer | lgl_as_double => k = KLogical
  | int_as_logical | int_as_double => k = KInteger
  | dbl_as_logical | dbl_as_integer => k = KDouble
  end.
Definition gives (f : conv) (from to : kind) : Prop :=
  match f with
  | chr_as_factor | fct_as_factor => to = KBareFactor
  | chr_as_ordered | ord_as_ordered => to = KBareOrdered
  | fct_as_character | ord_as_character => to = KCharacter
  | posixct_as_date | posixlt_as_date | date_as_date => to = KBareDate
  | date_as_posixct | posixlt_as_posixct | posixct_as_posixct => to = KBarePosixct
  | date_as_posixlt | posixct_as_posixlt | posixlt_as_posixlt => to = KBarePosixlt
  | tib_cast => to = KBareTibble
  | df_cast_opts => to = KDataframe
  | same_x => to = from
  | lgl_as_integer | dbl_as_integer => to = KInteger
  | lgl_as_double | int_as_double => to = KDouble
  | int_as_logical | dbl_as_logical => to = KLogical
  end.

(** What a common type is. *)
Definition common_kind (c : common) : kind :=
  match c with
  | empty_lgl => KLogical | empty_int => KInteger | empty_dbl => KDouble | empty_cpl => KComplex
  | empty_chr => KCharacter | empty_raw => KRaw | empty_list => KList | df_ptype2 => KDataframe
  | fct_ptype2 => KBareFactor | ord_ptype2 => KBareOrdered | shared_empty_date => KBareDate
  | date_datetime_ptype2 | datetime_datetime_ptype2 => KBarePosixct | tib_ptype2 => KBareTibble
  end.

(** The side the type comes from, with the sides exchanged. *)
Definition other_side (left : Z) : Z := if decide (left = (-1)%Z) then (-1)%Z else (1 - left)%Z.

(** Objects are those with a class. *)
Definition well_formed (x : tobj) : Prop :=
  match t_cls x with Some cls => cls <> [] /\ t_obj x = true | None => t_obj x = false end.

(** What the documentation of [obj_is_list()] says. *)
Definition is_list_spec (x : tobj) : Prop :=
  t_type x = RList /\
  match t_cls x with
  | None => True
  | Some cls => cls = ["AsIs"%string] \/ exists l, cls = l ++ ["list"%string]
  end.

(** Vectors by themselves: atomic ones, bare lists, data frames and lists with
    class ["list"]. *)
Definition own_vector (x : tobj) : Prop :=
  t_type x <> ROther /\
  (t_type x = RList ->
   match t_cls x with
   | None => True
   | Some cls => "list"%string ∈ cls \/ exists l, cls = l ++ ["data.frame"%string]
   end).

(** The method of an object; only classes have methods. *)
Definition method_of (meth : tobj -> option (tobj -> tobj)) (x : tobj) : option (tobj -> tobj) :=
  match t_cls x with None => None | Some _ => meth x end.

Definition base_kind (t : rtype) : vtype :=
  match t with
  | RNull => TNull | RLogical => TLogical | RInteger => TInteger | RDouble => TDouble
  | RComplex => TComplex | RCharacter => TCharacter | RRaw => TRaw | RList => TList | ROther => TScalar
  end.
