(** * Model of pythoncard/framework/aid.py

    An AID object is its attribute [self.aid], a list.  Simplification: every
    array is a Python list (comparing a list with bytes, which Python answers
    with False, is not modelled). *)
From Verif Require Import Py.

Definition aid := list Z.

(** aid.py:4-9 *)
Definition newAID (bArray : list Z) (offset length : Z) : res aid :=
  if (length <? 5) || (16 <? length) then Err ValueError
  else if zlen bArray <? offset + length then Err ArrayIndexOutOfBounds
  else Ok (py_slice bArray offset (offset + length)).

(** aid.py:11-14 *)
Definition equals (self : aid) (bArray : list Z) (offset length : Z) : res bool :=
  if zlen bArray <? offset + length then Err ArrayIndexOutOfBounds
  else Ok (list_eqb self (py_slice bArray offset (offset + length))).

(** aid.py:16-20; the state is [dest] *)
Definition getBytes (self : aid) (offset : Z) : M (list Z) Z :=
  fun dest =>
    if zlen dest <? offset + zlen self then (Err ArrayIndexOutOfBounds, dest)
    else (Ok (zlen self), py_slice_set dest offset (offset + zlen self) self).

(** aid.py:22-30; the state is [dest].  Line 29 evaluates its right-hand side
    first, which names the undefined variable [aidOfset]: NameError. *)
Definition getPartialBytes (self : aid) (aidOffset oOffset oLength : Z) : M (list Z) Z :=
  fun dest =>
    let oLength := if oLength =? 0 then zlen self else oLength in
    if zlen dest <? oOffset + oLength then (Err ArrayIndexOutOfBounds, dest)
    else if zlen self <? aidOffset + oLength then (Err ArrayIndexOutOfBounds, dest)
    else (Err NameError, dest).

(** aid.py:32-37 *)
Definition partialEquals (self : aid) (bArray : list Z) (offset length : Z) : res bool :=
  if zlen self <? length then Err ArrayIndexOutOfBounds
  else if zlen bArray <? offset + length then Err ArrayIndexOutOfBounds
  else Ok (list_eqb (py_slice self 0 length) (py_slice bArray offset (offset + length))).

(** aid.py:39-40 *)
Definition RIDEquals (self other : aid) : bool :=
  list_eqb (py_slice self 0 5) (py_slice other 0 5).

(** aid.py:42-43 *)
Definition aid_eq (self other : aid) : bool := list_eqb self other.
