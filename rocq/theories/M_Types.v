(** * Model of the types of objects and of native double dispatch

    src/type-info.c, src/typeof2.c, src/typeof2-s3.c, src/cast-dispatch.c,
    src/cast.c:56-126, src/ptype2.c:100-147, src/ptype2-dispatch.c:7-45.

    The values of [enum vctrs_type2] and [enum vctrs_type2_s3] are the pairs of
    types in their names.  Which function is called is modelled, not what it
    does (see C35 to C38 and C62); an object is its R type, its class and whether
    [vec_is_unspecified()] holds of it. *)
From Verif Require Import Base M_Restore.
From stdpp Require Import list.
Open Scope nat_scope.

(** The values of [enum vctrs_type], and the names in [enum vctrs_type2_s3]. *)
Inductive vtype := TNull | TUnspecified | TLogical | TInteger | TDouble | TComplex | TCharacter | TRaw | TList | TDataframe | TS3 | TScalar.
Inductive kind := KNull | KUnspecified | KLogical | KInteger | KDouble | KComplex | KCharacter | KRaw | KList | KDataframe | KScalar | KBareFactor | KBareOrdered | KBareDate | KBarePosixct | KBarePosixlt | KBareTibble | KUnknown.

Inductive rtype := RNull | RLogical | RInteger | RDouble | RComplex | RCharacter | RRaw | RList | ROther.

(** [t_obj] is the object bit, [t_cls] the class attribute. *)
Record tobj := TObj { t_type : rtype; t_obj : bool; t_cls : option (list String.string); t_uns : bool }.

(** src/utils-dispatch.c:10-27 [class_type] *)
Definition class_type_t (x : tobj) : res class_type :=
  if negb (t_obj x) then Ok CNone
  else match t_cls x with None => Ok CNone | Some cls => class_type_impl cls end.

(** src/type-data-frame.c:6-10 [is_data_frame] *)
Definition is_data_frame_t (x : tobj) : res bool :=
  match t_type x with
  | RList =>
      let! t := class_type_t x in
      Ok match t with CBareDf | CBareTibble | CDf => true | _ => false end
  | _ => Ok false
  end.

(** [Rf_inherits()] *)
Definition inherits_t (x : tobj) (what : String.string) : bool :=
  t_obj x && match t_cls x with None => false | Some cls => existsb (String.eqb what) cls end.

(** src/type-info.c:66-85 [vec_base_typeof] *)
Definition vec_base_typeof (x : tobj) (proxied : bool) : res vtype :=
  match t_type x with
  | RNull => Ok TNull
  | RLogical => Ok TLogical
  | RInteger => Ok TInteger
  | RDouble => Ok TDouble
  | RComplex => Ok TComplex
  | RCharacter => Ok TCharacter
  | RRaw => Ok TRaw
  | RList =>
      if negb (t_obj x) then Ok TList
      else
        let! df := is_data_frame_t x in
        if df then Ok TDataframe
        else if proxied || inherits_t x "list"%string then Ok TList
        else Ok TScalar
  | ROther => Ok TScalar
  end.

(** src/type-info.c:19-39 [vec_proxy_info]: the type.  [meth] is what
    [vec_proxy_method()] finds. *)
Definition vec_proxy_info_type (meth : tobj -> option (tobj -> tobj)) (x : tobj) : res vtype :=
  match (if t_obj x then meth x else None) with
  | None => vec_base_typeof x false
  | Some f => vec_base_typeof (f x) true
  end.

(** src/type-info.c:119-126 [obj_is_vector] *)
Definition obj_is_vector (meth : tobj -> option (tobj -> tobj)) (x : tobj) : res bool :=
  match t_type x with
  | RNull => Ok false
  | _ =>
      let! t := vec_proxy_info_type meth x in
      Ok match t with TScalar => false | _ => true end
  end.

(** src/type-info.c:97-113 [obj_is_list] *)
Definition obj_is_list (x : tobj) : res bool :=
  match t_type x with
  | RList =>
      if negb (t_obj x) then Ok true
      else
        let! t := class_type_t x in
        Ok match t with CList | CBareAsis => true | _ => false end
  | _ => Ok false
  end.

(** src/type-info.c:166-185 [vec_typeof]; src/type-data-frame.c:19-21
    [is_bare_data_frame] *)
Definition vec_typeof (x : tobj) : res vtype :=
  if t_uns x then Ok TUnspecified
  else if negb (t_obj x) || match t_cls x with None => true | Some _ => false end
  then vec_base_typeof x false
  else
    let! t := class_type_t x in
    Ok match t with CBareDf => TDataframe | _ => TS3 end.

(** src/typeof2.c:21-219 [vec_typeof2_impl]: the two types named by the value,
    and [*left] *)
Definition vec_typeof2_impl (type_x type_y : vtype) : vtype * vtype * Z :=
  match type_x with
  | TNull =>
      match type_y with
      | TNull => (TNull, TNull, (-1)%Z)
      | TUnspecified => (TNull, TUnspecified, 0%Z)
      | TLogical => (TNull, TLogical, 0%Z)
      | TInteger => (TNull, TInteger, 0%Z)
      | TDouble => (TNull, TDouble, 0%Z)
      | TComplex => (TNull, TComplex, 0%Z)
      | TCharacter => (TNull, TCharacter, 0%Z)
      | TRaw => (TNull, TRaw, 0%Z)
      | TList => (TNull, TList, 0%Z)
      | TDataframe => (TNull, TDataframe, 0%Z)
      | TS3 => (TNull, TS3, 0%Z)
      | TScalar => (TNull, TScalar, 0%Z)
      end
  | TUnspecified =>
      match type_y with
      | TNull => (TNull, TUnspecified, 1%Z)
      | TUnspecified => (TUnspecified, TUnspecified, (-1)%Z)
      | TLogical => (TUnspecified, TLogical, 0%Z)
      | TInteger => (TUnspecified, TInteger, 0%Z)
      | TDouble => (TUnspecified, TDouble, 0%Z)
      | TComplex => (TUnspecified, TComplex, 0%Z)
      | TCharacter => (TUnspecified, TCharacter, 0%Z)
      | TRaw => (TUnspecified, TRaw, 0%Z)
      | TList => (TUnspecified, TList, 0%Z)
      | TDataframe => (TUnspecified, TDataframe, 0%Z)
      | TS3 => (TUnspecified, TS3, 0%Z)
      | TScalar => (TUnspecified, TScalar, 0%Z)
      end
  | TLogical =>
      match type_y with
      | TNull => (TNull, TLogical, 1%Z)
      | TUnspecified => (TUnspecified, TLogical, 1%Z)
      | TLogical => (TLogical, TLogical, (-1)%Z)
      | TInteger => (TLogical, TInteger, 0%Z)
      | TDouble => (TLogical, TDouble, 0%Z)
      | TComplex => (TLogical, TComplex, 0%Z)
      | TCharacter => (TLogical, TCharacter, 0%Z)
      | TRaw => (TLogical, TRaw, 0%Z)
      | TList => (TLogical, TList, 0%Z)
      | TDataframe => (TLogical, TDataframe, 0%Z)
      | TS3 => (TLogical, TS3, 0%Z)
      | TScalar => (TLogical, TScalar, 0%Z)
      end
  | TInteger =>
      match type_y with
      | TNull => (TNull, TInteger, 1%Z)
      | TUnspecified => (TUnspecified, TInteger, 1%Z)
      | TLogical => (TLogical, TInteger, 1%Z)
      | TInteger => (TInteger, TInteger, (-1)%Z)
      | TDouble => (TInteger, TDouble, 0%Z)
      | TComplex => (TInteger, TComplex, 0%Z)
      | TCharacter => (TInteger, TCharacter, 0%Z)
      | TRaw => (TInteger, TRaw, 0%Z)
      | TList => (TInteger, TList, 0%Z)
      | TDataframe => (TInteger, TDataframe, 0%Z)
      | TS3 => (TInteger, TS3, 0%Z)
      | TScalar => (TInteger, TScalar, 0%Z)
      end
  | TDouble =>
      match type_y with
      | TNull => (TNull, TDouble, 1%Z)
      | TUnspecified => (TUnspecified, TDouble, 1%Z)
      | TLogical => (TLogical, TDouble, 1%Z)
      | TInteger => (TInteger, TDouble, 1%Z)
      | TDouble => (TDouble, TDouble, (-1)%Z)
      | TComplex => (TDouble, TComplex, 0%Z)
      | TCharacter => (TDouble, TCharacter, 0%Z)
      | TRaw => (TDouble, TRaw, 0%Z)
      | TList => (TDouble, TList, 0%Z)
      | TDataframe => (TDouble, TDataframe, 0%Z)
      | TS3 => (TDouble, TS3, 0%Z)
      | TScalar => (TDouble, TScalar, 0%Z)
      end
  | TComplex =>
      match type_y with
      | TNull => (TNull, TComplex, 1%Z)
      | TUnspecified => (TUnspecified, TComplex, 1%Z)
      | TLogical => (TLogical, TComplex, 1%Z)
      | TInteger => (TInteger, TComplex, 1%Z)
      | TDouble => (TDouble, TComplex, 1%Z)
      | TComplex => (TComplex, TComplex, (-1)%Z)
      | TCharacter => (TComplex, TCharacter, 0%Z)
      | TRaw => (TComplex, TRaw, 0%Z)
      | TList => (TComplex, TList, 0%Z)
      | TDataframe => (TComplex, TDataframe, 0%Z)
      | TS3 => (TComplex, TS3, 0%Z)
      | TScalar => (TComplex, TScalar, 0%Z)
      end
  | TCharacter =>
      match type_y with
      | TNull => (TNull, TCharacter, 1%Z)
      | TUnspecified => (TUnspecified, TCharacter, 1%Z)
      | TLogical => (TLogical, TCharacter, 1%Z)
      | TInteger => (TInteger, TCharacter, 1%Z)
      | TDouble => (TDouble, TCharacter, 1%Z)
      | TComplex => (TComplex, TCharacter, 1%Z)
      | TCharacter => (TCharacter, TCharacter, (-1)%Z)
      | TRaw => (TCharacter, TRaw, 0%Z)
      | TList => (TCharacter, TList, 0%Z)
      | TDataframe => (TCharacter, TDataframe, 0%Z)
      | TS3 => (TCharacter, TS3, 0%Z)
      | TScalar => (TCharacter, TScalar, 0%Z)
      end
  | TRaw =>
      match type_y with
      | TNull => (TNull, TRaw, 1%Z)
      | TUnspecified => (TUnspecified, TRaw, 1%Z)
      | TLogical => (TLogical, TRaw, 1%Z)
      | TInteger => (TInteger, TRaw, 1%Z)
      | TDouble => (TDouble, TRaw, 1%Z)
      | TComplex => (TComplex, TRaw, 1%Z)
      | TCharacter => (TCharacter, TRaw, 1%Z)
      | TRaw => (TRaw, TRaw, (-1)%Z)
      | TList => (TRaw, TList, 0%Z)
      | TDataframe => (TRaw, TDataframe, 0%Z)
      | TS3 => (TRaw, TS3, 0%Z)
      | TScalar => (TRaw, TScalar, 0%Z)
      end
  | TList =>
      match type_y with
      | TNull => (TNull, TList, 1%Z)
      | TUnspecified => (TUnspecified, TList, 1%Z)
      | TLogical => (TLogical, TList, 1%Z)
      | TInteger => (TInteger, TList, 1%Z)
      | TDouble => (TDouble, TList, 1%Z)
      | TComplex => (TComplex, TList, 1%Z)
      | TCharacter => (TCharacter, TList, 1%Z)
      | TRaw => (TRaw, TList, 1%Z)
      | TList => (TList, TList, (-1)%Z)
      | TDataframe => (TList, TDataframe, 0%Z)
      | TS3 => (TList, TS3, 0%Z)
      | TScalar => (TList, TScalar, 0%Z)
      end
  | TDataframe =>
      match type_y with
      | TNull => (TNull, TDataframe, 1%Z)
      | TUnspecified => (TUnspecified, TDataframe, 1%Z)
      | TLogical => (TLogical, TDataframe, 1%Z)
      | TInteger => (TInteger, TDataframe, 1%Z)
      | TDouble => (TDouble, TDataframe, 1%Z)
      | TComplex => (TComplex, TDataframe, 1%Z)
      | TCharacter => (TCharacter, TDataframe, 1%Z)
      | TRaw => (TRaw, TDataframe, 1%Z)
      | TList => (TList, TDataframe, 1%Z)
      | TDataframe => (TDataframe, TDataframe, (-1)%Z)
      | TS3 => (TDataframe, TS3, 0%Z)
      | TScalar => (TDataframe, TScalar, 0%Z)
      end
  | TS3 =>
      match type_y with
      | TNull => (TNull, TS3, 1%Z)
      | TUnspecified => (TUnspecified, TS3, 1%Z)
      | TLogical => (TLogical, TS3, 1%Z)
      | TInteger => (TInteger, TS3, 1%Z)
      | TDouble => (TDouble, TS3, 1%Z)
      | TComplex => (TComplex, TS3, 1%Z)
      | TCharacter => (TCharacter, TS3, 1%Z)
      | TRaw => (TRaw, TS3, 1%Z)
      | TList => (TList, TS3, 1%Z)
      | TDataframe => (TDataframe, TS3, 1%Z)
      | TS3 => (TS3, TS3, (-1)%Z)
      | TScalar => (TS3, TScalar, 0%Z)
      end
  | TScalar =>
      match type_y with
      | TNull => (TNull, TScalar, 1%Z)
      | TUnspecified => (TUnspecified, TScalar, 1%Z)
      | TLogical => (TLogical, TScalar, 1%Z)
      | TInteger => (TInteger, TScalar, 1%Z)
      | TDouble => (TDouble, TScalar, 1%Z)
      | TComplex => (TComplex, TScalar, 1%Z)
      | TCharacter => (TCharacter, TScalar, 1%Z)
      | TRaw => (TRaw, TScalar, 1%Z)
      | TList => (TList, TScalar, 1%Z)
      | TDataframe => (TDataframe, TScalar, 1%Z)
      | TS3 => (TS3, TScalar, 1%Z)
      | TScalar => (TScalar, TScalar, (-1)%Z)
      end
  end.

(** src/typeof2-s3.c:139-322 [vec_typeof2_s3_impl2] *)
Definition vec_typeof2_s3_impl2 (class_x : class_type) (type_y : vtype) (class_y : class_type)
  : kind * kind * Z :=
  match class_x with
  | CBareFactor =>
      match type_y with
      | TNull => (KNull, KBareFactor, 1%Z)
      | TUnspecified => (KUnspecified, KBareFactor, 1%Z)
      | TLogical => (KLogical, KBareFactor, 1%Z)
      | TInteger => (KInteger, KBareFactor, 1%Z)
      | TDouble => (KDouble, KBareFactor, 1%Z)
      | TComplex => (KComplex, KBareFactor, 1%Z)
      | TCharacter => (KCharacter, KBareFactor, 1%Z)
      | TRaw => (KRaw, KBareFactor, 1%Z)
      | TList => (KList, KBareFactor, 1%Z)
      | TDataframe => (KDataframe, KBareFactor, 1%Z)
      | TScalar => (KScalar, KBareFactor, 1%Z)
      | TS3 =>
          match class_y with
          | CBareFactor => (KBareFactor, KBareFactor, (-1)%Z)
          | CBareOrdered => (KBareFactor, KBareOrdered, 0%Z)
          | CBareDate => (KBareFactor, KBareDate, 0%Z)
          | CBarePosixct => (KBareFactor, KBarePosixct, 0%Z)
          | CBarePosixlt => (KBareFactor, KBarePosixlt, 0%Z)
          | CBareTibble => (KBareFactor, KBareTibble, 0%Z)
          | _ => (KBareFactor, KUnknown, 0%Z)
          end
      end
  | CBareOrdered =>
      match type_y with
      | TNull => (KNull, KBareOrdered, 1%Z)
      | TUnspecified => (KUnspecified, KBareOrdered, 1%Z)
      | TLogical => (KLogical, KBareOrdered, 1%Z)
      | TInteger => (KInteger, KBareOrdered, 1%Z)
      | TDouble => (KDouble, KBareOrdered, 1%Z)
      | TComplex => (KComplex, KBareOrdered, 1%Z)
      | TCharacter => (KCharacter, KBareOrdered, 1%Z)
      | TRaw => (KRaw, KBareOrdered, 1%Z)
      | TList => (KList, KBareOrdered, 1%Z)
      | TDataframe => (KDataframe, KBareOrdered, 1%Z)
      | TScalar => (KScalar, KBareOrdered, 1%Z)
      | TS3 =>
          match class_y with
          | CBareFactor => (KBareFactor, KBareOrdered, 1%Z)
          | CBareOrdered => (KBareOrdered, KBareOrdered, (-1)%Z)
          | CBareDate => (KBareOrdered, KBareDate, 0%Z)
          | CBarePosixct => (KBareOrdered, KBarePosixct, 0%Z)
          | CBarePosixlt => (KBareOrdered, KBarePosixlt, 0%Z)
          | CBareTibble => (KBareOrdered, KBareTibble, 0%Z)
          | _ => (KBareOrdered, KUnknown, 0%Z)
          end
      end
  | CBareDate =>
      match type_y with
      | TNull => (KNull, KBareDate, 1%Z)
      | TUnspecified => (KUnspecified, KBareDate, 1%Z)
      | TLogical => (KLogical, KBareDate, 1%Z)
      | TInteger => (KInteger, KBareDate, 1%Z)
      | TDouble => (KDouble, KBareDate, 1%Z)
      | TComplex => (KComplex, KBareDate, 1%Z)
      | TCharacter => (KCharacter, KBareDate, 1%Z)
      | TRaw => (KRaw, KBareDate, 1%Z)
      | TList => (KList, KBareDate, 1%Z)
      | TDataframe => (KDataframe, KBareDate, 1%Z)
      | TScalar => (KScalar, KBareDate, 1%Z)
      | TS3 =>
          match class_y with
          | CBareFactor => (KBareFactor, KBareDate, 1%Z)
          | CBareOrdered => (KBareOrdered, KBareDate, 1%Z)
          | CBareDate => (KBareDate, KBareDate, (-1)%Z)
          | CBarePosixct => (KBareDate, KBarePosixct, 0%Z)
          | CBarePosixlt => (KBareDate, KBarePosixlt, 0%Z)
          | CBareTibble => (KBareDate, KBareTibble, 0%Z)
          | _ => (KBareDate, KUnknown, 0%Z)
          end
      end
  | CBarePosixct =>
      match type_y with
      | TNull => (KNull, KBarePosixct, 1%Z)
      | TUnspecified => (KUnspecified, KBarePosixct, 1%Z)
      | TLogical => (KLogical, KBarePosixct, 1%Z)
      | TInteger => (KInteger, KBarePosixct, 1%Z)
      | TDouble => (KDouble, KBarePosixct, 1%Z)
      | TComplex => (KComplex, KBarePosixct, 1%Z)
      | TCharacter => (KCharacter, KBarePosixct, 1%Z)
      | TRaw => (KRaw, KBarePosixct, 1%Z)
      | TList => (KList, KBarePosixct, 1%Z)
      | TDataframe => (KDataframe, KBarePosixct, 1%Z)
      | TScalar => (KScalar, KBarePosixct, 1%Z)
      | TS3 =>
          match class_y with
          | CBareFactor => (KBareFactor, KBarePosixct, 1%Z)
          | CBareOrdered => (KBareOrdered, KBarePosixct, 1%Z)
          | CBareDate => (KBareDate, KBarePosixct, 1%Z)
          | CBarePosixct => (KBarePosixct, KBarePosixct, (-1)%Z)
          | CBarePosixlt => (KBarePosixct, KBarePosixlt, 0%Z)
          | CBareTibble => (KBarePosixct, KBareTibble, 0%Z)
          | _ => (KBarePosixct, KUnknown, 0%Z)
          end
      end
  | CBarePosixlt =>
      match type_y with
      | TNull => (KNull, KBarePosixlt, 1%Z)
      | TUnspecified => (KUnspecified, KBarePosixlt, 1%Z)
      | TLogical => (KLogical, KBarePosixlt, 1%Z)
      | TInteger => (KInteger, KBarePosixlt, 1%Z)
      | TDouble => (KDouble, KBarePosixlt, 1%Z)
      | TComplex => (KComplex, KBarePosixlt, 1%Z)
      | TCharacter => (KCharacter, KBarePosixlt, 1%Z)
      | TRaw => (KRaw, KBarePosixlt, 1%Z)
      | TList => (KList, KBarePosixlt, 1%Z)
      | TDataframe => (KDataframe, KBarePosixlt, 1%Z)
      | TScalar => (KScalar, KBarePosixlt, 1%Z)
      | TS3 =>
          match class_y with
          | CBareFactor => (KBareFactor, KBarePosixlt, 1%Z)
          | CBareOrdered => (KBareOrdered, KBarePosixlt, 1%Z)
          | CBareDate => (KBareDate, KBarePosixlt, 1%Z)
          | CBarePosixct => (KBarePosixct, KBarePosixlt, 1%Z)
          | CBarePosixlt => (KBarePosixlt, KBarePosixlt, (-1)%Z)
          | CBareTibble => (KBarePosixlt, KBareTibble, 0%Z)
          | _ => (KBarePosixlt, KUnknown, 0%Z)
          end
      end
  | CBareTibble =>
      match type_y with
      | TNull => (KNull, KBareTibble, 1%Z)
      | TUnspecified => (KUnspecified, KBareTibble, 1%Z)
      | TLogical => (KLogical, KBareTibble, 1%Z)
      | TInteger => (KInteger, KBareTibble, 1%Z)
      | TDouble => (KDouble, KBareTibble, 1%Z)
      | TComplex => (KComplex, KBareTibble, 1%Z)
      | TCharacter => (KCharacter, KBareTibble, 1%Z)
      | TRaw => (KRaw, KBareTibble, 1%Z)
      | TList => (KList, KBareTibble, 1%Z)
      | TDataframe => (KDataframe, KBareTibble, 1%Z)
      | TScalar => (KScalar, KBareTibble, 1%Z)
      | TS3 =>
          match class_y with
          | CBareFactor => (KBareFactor, KBareTibble, 1%Z)
          | CBareOrdered => (KBareOrdered, KBareTibble, 1%Z)
          | CBareDate => (KBareDate, KBareTibble, 1%Z)
          | CBarePosixct => (KBarePosixct, KBareTibble, 1%Z)
          | CBarePosixlt => (KBarePosixlt, KBareTibble, 1%Z)
          | CBareTibble => (KBareTibble, KBareTibble, (-1)%Z)
          | _ => (KBareTibble, KUnknown, 0%Z)
          end
      end
  | _ =>
      match type_y with
      | TNull => (KNull, KUnknown, 1%Z)
      | TUnspecified => (KUnspecified, KUnknown, 1%Z)
      | TLogical => (KLogical, KUnknown, 1%Z)
      | TInteger => (KInteger, KUnknown, 1%Z)
      | TDouble => (KDouble, KUnknown, 1%Z)
      | TComplex => (KComplex, KUnknown, 1%Z)
      | TCharacter => (KCharacter, KUnknown, 1%Z)
      | TRaw => (KRaw, KUnknown, 1%Z)
      | TList => (KList, KUnknown, 1%Z)
      | TDataframe => (KDataframe, KUnknown, 1%Z)
      | TScalar => (KScalar, KUnknown, 1%Z)
      | TS3 =>
          match class_y with
          | CBareFactor => (KBareFactor, KUnknown, 1%Z)
          | CBareOrdered => (KBareOrdered, KUnknown, 1%Z)
          | CBareDate => (KBareDate, KUnknown, 1%Z)
          | CBarePosixct => (KBarePosixct, KUnknown, 1%Z)
          | CBarePosixlt => (KBarePosixlt, KUnknown, 1%Z)
          | CBareTibble => (KBareTibble, KUnknown, 1%Z)
          | _ => (KUnknown, KUnknown, (-1)%Z)
          end
      end
  end.

(** src/typeof2-s3.c:4-136 [vec_typeof2_s3_impl] *)
Definition vec_typeof2_s3_impl (type_x : vtype) (class_x : class_type) (type_y : vtype) (class_y : class_type)
  : kind * kind * Z :=
  match type_x with
  | TNull =>
      match class_y with
      | CBareFactor => (KNull, KBareFactor, 0%Z)
      | CBareOrdered => (KNull, KBareOrdered, 0%Z)
      | CBareDate => (KNull, KBareDate, 0%Z)
      | CBarePosixct => (KNull, KBarePosixct, 0%Z)
      | CBarePosixlt => (KNull, KBarePosixlt, 0%Z)
      | CBareTibble => (KNull, KBareTibble, 0%Z)
      | _ => (KNull, KUnknown, 0%Z)
      end
  | TUnspecified =>
      match class_y with
      | CBareFactor => (KUnspecified, KBareFactor, 0%Z)
      | CBareOrdered => (KUnspecified, KBareOrdered, 0%Z)
      | CBareDate => (KUnspecified, KBareDate, 0%Z)
      | CBarePosixct => (KUnspecified, KBarePosixct, 0%Z)
      | CBarePosixlt => (KUnspecified, KBarePosixlt, 0%Z)
      | CBareTibble => (KUnspecified, KBareTibble, 0%Z)
      | _ => (KUnspecified, KUnknown, 0%Z)
      end
  | TLogical =>
      match class_y with
      | CBareFactor => (KLogical, KBareFactor, 0%Z)
      | CBareOrdered => (KLogical, KBareOrdered, 0%Z)
      | CBareDate => (KLogical, KBareDate, 0%Z)
      | CBarePosixct => (KLogical, KBarePosixct, 0%Z)
      | CBarePosixlt => (KLogical, KBarePosixlt, 0%Z)
      | CBareTibble => (KLogical, KBareTibble, 0%Z)
      | _ => (KLogical, KUnknown, 0%Z)
      end
  | TInteger =>
      match class_y with
      | CBareFactor => (KInteger, KBareFactor, 0%Z)
      | CBareOrdered => (KInteger, KBareOrdered, 0%Z)
      | CBareDate => (KInteger, KBareDate, 0%Z)
      | CBarePosixct => (KInteger, KBarePosixct, 0%Z)
      | CBarePosixlt => (KInteger, KBarePosixlt, 0%Z)
      | CBareTibble => (KInteger, KBareTibble, 0%Z)
      | _ => (KInteger, KUnknown, 0%Z)
      end
  | TDouble =>
      match class_y with
      | CBareFactor => (KDouble, KBareFactor, 0%Z)
      | CBareOrdered => (KDouble, KBareOrdered, 0%Z)
      | CBareDate => (KDouble, KBareDate, 0%Z)
      | CBarePosixct => (KDouble, KBarePosixct, 0%Z)
      | CBarePosixlt => (KDouble, KBarePosixlt, 0%Z)
      | CBareTibble => (KDouble, KBareTibble, 0%Z)
      | _ => (KDouble, KUnknown, 0%Z)
      end
  | TComplex =>
      match class_y with
      | CBareFactor => (KComplex, KBareFactor, 0%Z)
      | CBareOrdered => (KComplex, KBareOrdered, 0%Z)
      | CBareDate => (KComplex, KBareDate, 0%Z)
      | CBarePosixct => (KComplex, KBarePosixct, 0%Z)
      | CBarePosixlt => (KComplex, KBarePosixlt, 0%Z)
      | CBareTibble => (KComplex, KBareTibble, 0%Z)
      | _ => (KComplex, KUnknown, 0%Z)
      end
  | TCharacter =>
      match class_y with
      | CBareFactor => (KCharacter, KBareFactor, 0%Z)
      | CBareOrdered => (KCharacter, KBareOrdered, 0%Z)
      | CBareDate => (KCharacter, KBareDate, 0%Z)
      | CBarePosixct => (KCharacter, KBarePosixct, 0%Z)
      | CBarePosixlt => (KCharacter, KBarePosixlt, 0%Z)
      | CBareTibble => (KCharacter, KBareTibble, 0%Z)
      | _ => (KCharacter, KUnknown, 0%Z)
      end
  | TRaw =>
      match class_y with
      | CBareFactor => (KRaw, KBareFactor, 0%Z)
      | CBareOrdered => (KRaw, KBareOrdered, 0%Z)
      | CBareDate => (KRaw, KBareDate, 0%Z)
      | CBarePosixct => (KRaw, KBarePosixct, 0%Z)
      | CBarePosixlt => (KRaw, KBarePosixlt, 0%Z)
      | CBareTibble => (KRaw, KBareTibble, 0%Z)
      | _ => (KRaw, KUnknown, 0%Z)
      end
  | TList =>
      match class_y with
      | CBareFactor => (KList, KBareFactor, 0%Z)
      | CBareOrdered => (KList, KBareOrdered, 0%Z)
      | CBareDate => (KList, KBareDate, 0%Z)
      | CBarePosixct => (KList, KBarePosixct, 0%Z)
      | CBarePosixlt => (KList, KBarePosixlt, 0%Z)
      | CBareTibble => (KList, KBareTibble, 0%Z)
      | _ => (KList, KUnknown, 0%Z)
      end
  | TDataframe =>
      match class_y with
      | CBareFactor => (KDataframe, KBareFactor, 0%Z)
      | CBareOrdered => (KDataframe, KBareOrdered, 0%Z)
      | CBareDate => (KDataframe, KBareDate, 0%Z)
      | CBarePosixct => (KDataframe, KBarePosixct, 0%Z)
      | CBarePosixlt => (KDataframe, KBarePosixlt, 0%Z)
      | CBareTibble => (KDataframe, KBareTibble, 0%Z)
      | _ => (KDataframe, KUnknown, 0%Z)
      end
  | TScalar =>
      match class_y with
      | CBareFactor => (KScalar, KBareFactor, 0%Z)
      | CBareOrdered => (KScalar, KBareOrdered, 0%Z)
      | CBareDate => (KScalar, KBareDate, 0%Z)
      | CBarePosixct => (KScalar, KBarePosixct, 0%Z)
      | CBarePosixlt => (KScalar, KBarePosixlt, 0%Z)
      | CBareTibble => (KScalar, KBareTibble, 0%Z)
      | _ => (KScalar, KUnknown, 0%Z)
      end
  | TS3 => vec_typeof2_s3_impl2 class_x type_y class_y
  end.

(** The functions called by the native dispatch. *)
Inductive conv :=
  | chr_as_factor | fct_as_character | chr_as_ordered | ord_as_character | fct_as_factor | ord_as_ordered
  | date_as_posixct | posixct_as_date | date_as_posixlt | posixlt_as_date | posixct_as_posixlt
  | posixlt_as_posixct | date_as_date | posixct_as_posixct | posixlt_as_posixlt | tib_cast | df_cast_opts
  | same_x | lgl_as_integer | int_as_logical | lgl_as_double | dbl_as_logical | int_as_double | dbl_as_integer.

(** src/cast-dispatch.c:6-83 [vec_cast_dispatch_native]; [None] is [NULL] *)
Definition vec_cast_dispatch_native (x_type : vtype) (x_class : class_type) (to_type : vtype) (to_class : class_type)
  : option conv :=
  let '(type2_s3, dir) := vec_typeof2_s3_impl x_type x_class to_type to_class in
  match type2_s3 with
  | (KCharacter, KBareFactor) => Some (if (dir =? 0)%Z then chr_as_factor else fct_as_character)
  | (KCharacter, KBareOrdered) => Some (if (dir =? 0)%Z then chr_as_ordered else ord_as_character)
  | (KBareFactor, KBareFactor) => Some fct_as_factor
  | (KBareOrdered, KBareOrdered) => Some ord_as_ordered
  | (KBareDate, KBarePosixct) => Some (if (dir =? 0)%Z then date_as_posixct else posixct_as_date)
  | (KBareDate, KBarePosixlt) => Some (if (dir =? 0)%Z then date_as_posixlt else posixlt_as_date)
  | (KBarePosixct, KBarePosixlt) => Some (if (dir =? 0)%Z then posixct_as_posixlt else posixlt_as_posixct)
  | (KBareDate, KBareDate) => Some date_as_date
  | (KBarePosixct, KBarePosixct) => Some posixct_as_posixct
  | (KBarePosixlt, KBarePosixlt) => Some posixlt_as_posixlt
  | (KDataframe, KBareTibble) => Some (if (dir =? 0)%Z then tib_cast else df_cast_opts)
  | (KBareTibble, KBareTibble) => Some tib_cast
  | _ => None
  end.

(** src/cast.c:77-126 [vec_cast_switch_native] *)
Definition vec_cast_switch_native (x_type to_type : vtype) : option conv :=
  let '(type2, dir) := vec_typeof2_impl x_type to_type in
  match type2 with
  | (TLogical, TLogical) | (TInteger, TInteger) | (TDouble, TDouble) | (TComplex, TComplex)
  | (TRaw, TRaw) | (TCharacter, TCharacter) | (TList, TList) => Some same_x
  | (TLogical, TInteger) => Some (if (dir =? 0)%Z then lgl_as_integer else int_as_logical)
  | (TLogical, TDouble) => Some (if (dir =? 0)%Z then lgl_as_double else dbl_as_logical)
  | (TInteger, TDouble) => Some (if (dir =? 0)%Z then int_as_double else dbl_as_integer)
  | (TDataframe, TDataframe) => Some df_cast_opts
  | _ => None
  end.

Definition is_s3 (t : vtype) : bool := match t with TS3 => true | _ => false end.

(** src/cast.c:56-60 *)
Definition cast_native (x_type : vtype) (x_class : class_type) (to_type : vtype) (to_class : class_type)
  : option conv :=
  if is_s3 to_type || is_s3 x_type
  then vec_cast_dispatch_native x_type x_class to_type to_class
  else vec_cast_switch_native x_type to_type.

(** The functions and constants giving a common type. *)
Inductive common :=
  | empty_lgl | empty_int | empty_dbl | empty_cpl | empty_chr | empty_raw | empty_list | df_ptype2
  | fct_ptype2 | ord_ptype2 | shared_empty_date | date_datetime_ptype2 | datetime_datetime_ptype2 | tib_ptype2.

(** src/ptype2-dispatch.c:7-45 [vec_ptype2_dispatch_native] *)
Definition vec_ptype2_dispatch_native (x_type : vtype) (x_class : class_type) (y_type : vtype) (y_class : class_type)
  : option common :=
  match fst (vec_typeof2_s3_impl x_type x_class y_type y_class) with
  | (KCharacter, KBareFactor) | (KCharacter, KBareOrdered) => Some empty_chr
  | (KBareFactor, KBareFactor) => Some fct_ptype2
  | (KBareOrdered, KBareOrdered) => Some ord_ptype2
  | (KBareDate, KBareDate) => Some shared_empty_date
  | (KBareDate, KBarePosixct) | (KBareDate, KBarePosixlt) => Some date_datetime_ptype2
  | (KBarePosixct, KBarePosixct) | (KBarePosixct, KBarePosixlt) | (KBarePosixlt, KBarePosixlt) =>
      Some datetime_datetime_ptype2
  | (KDataframe, KBareTibble) | (KBareTibble, KBareTibble) => Some tib_ptype2
  | _ => None
  end.

(** src/ptype2.c:101-147 [vec_ptype2_switch_native]; [None] is [NULL] or the
    dispatch on S3 classes *)
Definition vec_ptype2_switch_native (x_type y_type : vtype) : option common :=
  match fst (vec_typeof2_impl x_type y_type) with
  | (TLogical, TLogical) => Some empty_lgl
  | (TLogical, TInteger) | (TInteger, TInteger) => Some empty_int
  | (TLogical, TDouble) | (TInteger, TDouble) | (TDouble, TDouble) => Some empty_dbl
  | (TInteger, TComplex) | (TDouble, TComplex) | (TComplex, TComplex) => Some empty_cpl
  | (TCharacter, TCharacter) => Some empty_chr
  | (TRaw, TRaw) => Some empty_raw
  | (TList, TList) => Some empty_list
  | (TDataframe, TDataframe) => Some df_ptype2
  | _ => None
  end.

(** src/ptype2.c:63-68 *)
Definition ptype2_native (x_type : vtype) (x_class : class_type) (y_type : vtype) (y_class : class_type)
  : option common :=
  if negb (is_s3 x_type) && negb (is_s3 y_type) then vec_ptype2_switch_native x_type y_type
  else vec_ptype2_dispatch_native x_type x_class y_type y_class.
