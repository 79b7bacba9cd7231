(** * Model of the order in which [vec_ptype2()] tries things

    src/ptype2.c:29-98, 101-148, 158-180; src/ptype2-dispatch.c:7-45.

    Objects are abstract.  [typ] is [vec_typeof()], [cls] is [class_type()],
    [vptype] is [vec_ptype()], [eval] is the function or constant that the
    native tables name, with the shape of both, and [disp] is
    [vec_ptype2_dispatch_s3()] (see C61); they are taken to give the same at
    each call.  A call gives the type and the side written to [*left]. *)
From Verif Require Import Base M_Restore M_Types.
From stdpp Require Import list.
Open Scope nat_scope.

Section ptype2.
  Context {obj : Type} (typ : obj -> vtype) (cls : obj -> class_type).
  Context (vptype : obj -> res obj) (eval : common -> obj -> obj -> res obj) (disp : obj -> obj -> res obj).

  Definition is_null (x : obj) : bool := match typ x with TNull => true | _ => false end.
  Definition is_unspecified (x : obj) : bool := match typ x with TUnspecified => true | _ => false end.
  Definition is_scalar (x : obj) : bool := match typ x with TScalar => true | _ => false end.

  (** The type with the side. *)
  Definition sided (r : res obj) (side : Z) : res (obj * Z) := let! o := r in Ok (o, side).

  (** src/ptype2.c:158-180 [vec_ptype2_from_unspecified]; [self] is the call
      of [vec_ptype2_opts()] with the object twice, which writes to a side of
      its own *)
  Definition from_unspecified (self : obj -> res (obj * Z)) (s3 : bool) (other_type : vtype) (other : obj) (side : Z)
    : res (obj * Z) :=
    match other_type with
    | TUnspecified | TNull => sided (vptype other) side
    | _ =>
        if s3 then let! r := self other in Ok (fst r, side)
        else sided (vptype other) side
    end.

  (** src/ptype2.c:101-148 [vec_ptype2_switch_native] *)
  Definition switch_native (x y : obj) : res (obj * Z) :=
    let side := snd (vec_typeof2_impl (typ x) (typ y)) in
    match vec_ptype2_switch_native (typ x) (typ y) with
    | Some c => sided (eval c x y) side
    | None => sided (disp x y) side
    end.

  (** src/ptype2.c:29-93 [vec_ptype2_opts_impl], given the calls within it:
      [self] as above, [second] the second pass *)
  Definition ptype2_step (self : obj -> res (obj * Z)) (second : obj -> obj -> Z -> res (obj * Z))
    (s3 : bool) (x y : obj) (side : Z) (first_pass : bool) : res (obj * Z) :=
    let x_type := typ x in
    let y_type := typ y in
    if is_null x then from_unspecified self s3 x_type y (Z.b2z (is_null y))
    else if is_null y then from_unspecified self s3 x_type x (Z.b2z (is_null x))
    else if is_unspecified x then from_unspecified self s3 y_type y side
    else if is_unspecified y then from_unspecified self s3 x_type x side
    else if is_scalar x then Err "scalar x"
    else if is_scalar y then Err "scalar y"
    else if negb (is_s3 x_type) && negb (is_s3 y_type) then switch_native x y
    else
      let side := snd (vec_typeof2_s3_impl x_type (cls x) y_type (cls y)) in
      match vec_ptype2_dispatch_native x_type (cls x) y_type (cls y) with
      | Some c => sided (eval c x y) side
      | None =>
          if first_pass then let! px := vptype x in let! py := vptype y in second px py side
          else sided (disp x y) side
      end.

  (** The same with the calls; [fuel] is the number of calls within one another *)
  Fixpoint ptype2_impl (fuel : nat) (s3 : bool) (x y : obj) (side : Z) (first_pass : bool) : res (obj * Z) :=
    match fuel with
    | O => Err "no fuel"
    | S fuel =>
        ptype2_step (fun o => ptype2_impl fuel s3 o o 0%Z true)
          (fun px py side => ptype2_impl fuel s3 px py side false) s3 x y side first_pass
    end.

  (** src/ptype2.c:95-98 [vec_ptype2_opts]; four calls are within one another
      at most (C67_calls) *)
  Definition vec_ptype2_opts (s3 : bool) (x y : obj) (side : Z) : res (obj * Z) :=
    ptype2_impl 4 s3 x y side true.
End ptype2.
