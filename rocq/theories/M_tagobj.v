(** * BERTag objects over time: pythoncardx/framework/tlv/bertag.py

    M_bertag.v models [init] as a function that returns the tag; here the object is a
    state, so that what a raising [init] leaves behind, and what is left of earlier
    calls, is observable. *)
From Verif Require Import Py M_utils M_util M_bertag.

(** The attributes [_tagClass], [_tagConstr], [_tagNumber], [_size]; None is Python's. *)
Record tagobj : Set := mkObj { oclass : option Z; oconstr : bool; onumber : option Z; osize : Z }.
Definition set_class (c : option Z) : M tagobj unit :=
  fun o => (Ok tt, mkObj c (oconstr o) (onumber o) (osize o)).
Definition set_constr (k : bool) : M tagobj unit :=
  fun o => (Ok tt, mkObj (oclass o) k (onumber o) (osize o)).
Definition set_number (n : option Z) : M tagobj unit :=
  fun o => (Ok tt, mkObj (oclass o) (oconstr o) n (osize o)).
Definition set_size (s : Z) : M tagobj unit :=
  fun o => (Ok tt, mkObj (oclass o) (oconstr o) (onumber o) s).
(** [self._tagNumber] in an arithmetic expression *)
Definition num_attr : M tagobj Z :=
  fun o => (match onumber o with Some n => Ok n | None => Err TypeError end, o).

(** bertag.py:26-29 with 134-136 (PrimitiveBERTag) and 153-155 (ConstructedBERTag) *)
Definition new_obj (k : bool) : tagobj := mkObj (Some 0) k (Some 0) 0.

(** bertag.py:50-53 *)
Fixpoint obj_loop (fuel : nat) (bArray : list Z) (bOff bLen : Z) : M tagobj Z :=
  match fuel with
  | O => raise OutOfFuel
  | S f =>
      x <- lift (py_get bArray (bOff + bLen)) ;;
      if Z.land x 128 =? 128 then
        n <- num_attr ;; set_number (Some (Z.shiftl n 7)) ;;;
        y <- lift (py_get bArray (bOff + bLen)) ;;
        n' <- num_attr ;; set_number (Some (n' + Z.land y 127)) ;;;
        obj_loop f bArray bOff (bLen + 1)
      else ret bLen
  end.
(** bertag.py:43-59 *)
Definition obj_BERTag_init (bArray : list Z) (bOff : Z) : M tagobj unit :=
  b <- lift (py_get bArray bOff) ;;
  set_class (Some (Z.shiftr (Z.land b 255) 6)) ;;;
  set_constr (negb (Z.land b 32 =? 0)) ;;;
  if Z.land b 31 =? 31 then
    set_number (Some 0) ;;;
    bLen <- obj_loop (tag_fuel bArray bOff) bArray bOff 1 ;;
    n <- num_attr ;; set_number (Some (Z.shiftl n 7)) ;;;
    x <- lift (py_get bArray (bOff + bLen)) ;;
    n' <- num_attr ;; set_number (Some (n' + Z.land x 127)) ;;;
    set_size bLen
  else set_number (Some (Z.land b 31)) ;;; set_size 1.

(** bertag.py:138-150 and 157-167.  [k]: the object is a ConstructedBERTag. *)
Inductive call : Set :=
| InitBytes (bArray : list Z) (bOff : Z)   (* init(list, offset) *)
| InitClass (tagClass tagNumber : Z).      (* init(class, number) *)
Definition step (k : bool) (c : call) : M tagobj unit :=
  set_class None ;;; set_number None ;;;
  match c with
  | InitBytes bArray bOff =>
      b <- lift (py_get bArray bOff) ;;
      if (if k then Z.land b 32 =? 0 else Z.land b 32 =? 32) then raise MALFORMED_TAG
      else obj_BERTag_init bArray bOff
  | InitClass tagClass tagNumber => set_class (Some tagClass) ;;; set_number (Some tagNumber)
  end.

(** a history of calls, exceptions caught by the caller: what each call returned, and the
    object after the last *)
Fixpoint run (k : bool) (cs : list call) (o : tagobj) : list (res unit) * tagobj :=
  match cs with
  | [] => ([], o)
  | c :: cs' =>
      let '(r, o1) := step k c o in
      let '(rs, o2) := run k cs' o1 in
      (r :: rs, o2)
  end.

(** bertag.py:61-83; [None << 6] and [None <= 30] raise TypeError *)
Definition obj_toBytes (o : tagobj) (bOffset : Z) : M (list Z) Z :=
  match oclass o with
  | None => raise TypeError
  | Some c =>
      match onumber o with
      | Some n => tag_toBytes (mkTag c (oconstr o) n (osize o)) bOffset
      | None => aset bOffset (Z.shiftl c 6) ;;;
                aadd bOffset (Z.shiftl (if oconstr o then 1 else 0) 5) ;;; raise TypeError
      end
  end.
(** bertag.py:128-131 *)
Definition optZ_eqb (a b : option Z) : bool :=
  match a, b with Some x, Some y => x =? y | None, None => true | _, _ => false end.
Definition obj_eqb (o p : tagobj) : bool :=
  optZ_eqb (oclass o) (oclass p) && Bool.eqb (oconstr o) (oconstr p) && optZ_eqb (onumber o) (onumber p).
