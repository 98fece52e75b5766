(** * Model of pythoncard/framework/util.py

    The functions that take two arrays work on a heap of arrays, so that the
    two arguments may be the same object.  Functions on one array are
    [M (list Z)]: the state is that array. *)
From Verif Require Import Py M_utils.

(** Heap of array objects.  Not in the code: Python's object store, reduced to
    lists of ints named by locations. *)
Definition loc := nat.
Definition heap := loc -> list Z.
Definition hset (h : heap) (l : loc) (v : list Z) : heap :=
  fun k => if Nat.eqb k l then v else h k.

(** [a[i]] where [a] is the array at [l] *)
Definition hget_at (l : loc) (i : Z) : M heap Z :=
  fun h => (py_get (h l) i, h).

(** [a[i] = v] where [a] is the array at [l] *)
Definition hset_at (l : loc) (i v : Z) : M heap unit :=
  fun h => match py_set (h l) i v with
           | Ok a => (Ok tt, hset h l a)
           | Err e => (Err e, h)
           end.

(** pythoncard/framework/jcsystem.py:19-26: the transaction functions do
    nothing. *)
Definition beginTransaction {S} : M S unit := ret tt.
Definition commitTransaction {S} : M S unit := ret tt.
Definition abortTransaction {S} : M S unit := ret tt.

(** pythoncard/framework/util.py:10-19.  Read-only, so the two arrays are
    passed by value; the two element reads of line 15 repeat those of line 13
    and cannot fail. *)
Fixpoint arrayCompare_loop (n : nat) (i : Z) (src : list Z) (srcOff : Z)
    (dest : list Z) (destOff : Z) : res Z :=
  match n with
  | O => Ok 0
  | Datatypes.S n' =>
      let? x := py_get src (srcOff + i) in
      let? y := py_get dest (destOff + i) in
      if y <? x then Ok 1
      else if x <? y then Ok (-1)
      else arrayCompare_loop n' (i + 1) src srcOff dest destOff
  end.
Definition arrayCompare (src : list Z) (srcOff : Z) (dest : list Z)
    (destOff len : Z) : res Z :=
  match arrayCompare_loop (Z.to_nat len) 0 src srcOff dest destOff with
  | Err IndexError => Err ArrayIndexOutOfBounds
  | r => r
  end.

(** pythoncard/framework/util.py:24-25 and 37-38: the copy loop, the right-hand
    side is evaluated before the store. *)
Definition copy_loop (src : loc) (srcOff : Z) (dest : loc) (destOff len : Z)
  : M heap unit :=
  for_range 0 len (fun i =>
    v <- hget_at src (srcOff + i) ;;
    hset_at dest (destOff + i) v).

(** pythoncard/framework/util.py:21-32.  Line 29 (other exceptions) cannot be
    reached with arrays of ints. *)
Definition arrayCopy (src : loc) (srcOff : Z) (dest : loc) (destOff len : Z)
  : M heap unit :=
  beginTransaction ;;;
  (fun h => match copy_loop src srcOff dest destOff len h with
            | (Err IndexError, h') =>
                (abortTransaction ;;; raise ArrayIndexOutOfBounds) h'
            | r => r
            end) ;;;
  commitTransaction.

(** pythoncard/framework/util.py:35-40.  Line 40 names
    [ArrayIndexoutOfBoundsException], which is not defined: NameError. *)
Definition arrayCopyNonAtomic (src : loc) (srcOff : Z) (dest : loc)
    (destOff len : Z) : M heap unit :=
  catch_index (copy_loop src srcOff dest destOff len) NameError.

(** arrayCopy as called by the rest of the library with a source that is a
    freshly built list: two distinct arrays, the source at location 0 and the
    destination at location 1.  Returns the outcome and the destination. *)
Definition arrayCopy_into (src : list Z) (srcOff : Z) (destOff len : Z)
  : M (list Z) unit :=
  fun dest =>
    let '(r, h) := arrayCopy 0%nat srcOff 1%nat destOff len
                     (fun k => match k with O => src | _ => dest end) in
    (r, h 1%nat).

(** [a[i] = v] on the array that is the state *)
Definition aset (i v : Z) : M (list Z) unit :=
  fun a => match py_set a i v with
           | Ok a' => (Ok tt, a')
           | Err e => (Err e, a)
           end.
Definition aget (i : Z) : M (list Z) Z := fun a => (py_get a i, a).

(** pythoncard/framework/util.py:42-47 *)
Definition arrayFillNonAtomic (bOff bLen bValue : Z) : M (list Z) unit :=
  catch_index
    (for_range 0 bLen (fun i => aset (bOff + i) bValue))
    ArrayIndexOutOfBounds.

(** pythoncard/framework/util.py:49-51 *)
Definition makeShort (b1 b2 : Z) : Z :=
  s2 (Z.lor (Z.land (Z.shiftl b1 8) 65280) (Z.land b2 255)).

(** pythoncard/framework/util.py:53-57 *)
Definition getShort (bArray : list Z) (bOff : Z) : res Z :=
  match (let? x := py_get bArray bOff in
         let? y := py_get bArray (bOff + 1) in
         Ok (makeShort x y)) with
  | Err IndexError => Err ArrayIndexOutOfBounds
  | r => r
  end.

(** pythoncard/framework/util.py:59-66 *)
Definition setShort (bOff sValue : Z) : M (list Z) unit :=
  let b1 := s1 (Z.shiftr (Z.land sValue 65280) 8) in
  let b2 := s1 (Z.land sValue 255) in
  catch_index (aset bOff b1 ;;; aset (bOff + 1) b2) ArrayIndexOutOfBounds.
