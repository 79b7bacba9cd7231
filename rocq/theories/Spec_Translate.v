(** * Specification: normalisation of encodings *)
From Verif Require Import Base M_Translate.

(** The value of an object: what it holds and its attributes.  Environments and
    the like ([VRef]) are themselves, and have attributes. *)
Inductive tree := Tree (b : tbody) (attribs : list tree)
with tbody := VChr (l : list estr) | VList (l : list tree) | VOther (v : Z) | VRef (x : nat).

(** The value at the place [x], if it is no deeper than [n] *)
Fixpoint value_at (n : nat) (h : heap) (x : nat) : option tree :=
  match n with
  | O => None
  | Datatypes.S n =>
      match h !! x with
      | None => None
      | Some o =>
          match
            match o_attrib o with
            | None => Some []
            | Some a =>
                match h !! a with
                | Some (Obj (BPairs l) None) => mapM (value_at n h) l
                | _ => None
                end
            end
          with
          | None => None
          | Some attribs =>
              match o_body o with
              | BChr l => Some (Tree (VChr l) attribs)
              | BList l => match mapM (value_at n h) l with Some l => Some (Tree (VList l) attribs) | None => None end
              | BOther v => Some (Tree (VOther v) attribs)
              | BRef _ => Some (Tree (VRef x) attribs)
              | BPairs _ => None
              end
          end
      end
  end.

(** A string in UTF-8: the same text, marked as ASCII if it is *)
Definition utf8 (tr : list Z -> enc -> list Z) (s : estr) : estr :=
  match s with
  | NaStr | Str _ EAscii | Str _ EUtf8 | Str _ EBytes => s
  | Str b e => Str (tr b e) (if forallb (fun c => c <? 128)%Z (tr b e) then EAscii else EUtf8)
  end.
Fixpoint normal (tr : list Z -> enc -> list Z) (t : tree) : tree :=
  match t with
  | Tree b attribs =>
      Tree match b with
           | VChr l => VChr (map (utf8 tr) l)
           | VList l => VList (map (normal tr) l)
           | b => b
           end (map (normal tr) attribs)
  end.

(** All strings of a value satisfy [P]; all its environments have no attributes. *)
Fixpoint strings (P : estr -> bool) (t : tree) : bool :=
  match t with
  | Tree b attribs =>
      match b with VChr l => forallb P l | VList l => forallb (strings P) l | _ => true end &&
      forallb (strings P) attribs
  end.
Fixpoint plain_refs (t : tree) : bool :=
  match t with
  | Tree b attribs =>
      match b with
      | VList l => forallb plain_refs l
      | VRef _ => match attribs with [] => true | _ => false end
      | _ => true
      end && forallb plain_refs attribs
  end.
Definition not_bytes (s : estr) : bool := match s with Str _ EBytes => false | _ => true end.
Definition in_utf8 (s : estr) : bool := match s with NaStr | Str _ EAscii | Str _ EUtf8 => true | _ => false end.

(** An object is in use if a variable holds it ([roots]) or another object refers to it. *)
Definition fields (o : obj) : list nat :=
  match o_body o with BList l | BPairs l => l | _ => [] end ++ match o_attrib o with Some a => [a] | None => [] end.
Definition referred (h : heap) (x : nat) : Prop := exists y o, h !! y = Some o /\ In x (fields o).
Definition in_use (roots : list nat) (h : heap) (x : nat) : Prop := In x roots \/ referred h x.
(** The counts of references: an object in use has a count that is not 0. *)
Definition counts (roots : list nat) (mr : heap -> nat -> bool) : Prop :=
  forall h x, in_use roots h x -> mr h x = true.
(** All references are to objects. *)
Definition closed (h : heap) : Prop := forall y o f, h !! y = Some o -> In f (fields o) -> f < length h.

(** The text of a string in UTF-8, and whether it is marked as R marks it *)
Definition text (tr : list Z -> enc -> list Z) (s : estr) : option (list Z) :=
  match s with NaStr => None | Str b (EAscii | EUtf8) => Some b | Str b e => Some (tr b e) end.
Definition marked (s : estr) : Prop :=
  match s with
  | Str b EAscii => forallb (fun c => c <? 128)%Z b = true
  | Str b EUtf8 => forallb (fun c => c <? 128)%Z b = false
  | Str _ EBytes => False
  | _ => True
  end.
Definition bytes_error : String.string := "translating strings with bytes encoding is not allowed"%string.
