(** * Model of pythoncardx/framework/tlv/bertag.py *)
From Verif Require Import Py M_utils M_util.

(** bertag.py:10-14.  Lines 13-14 are [s1] of pythoncard/utils.py written
    out; the state is [array]. *)
Definition sanitycheck : M (list Z) unit :=
  fun array =>
    for_range 0 (zlen array)
      (fun i => v <- aget i ;;
                if (Z.shiftl 1 (8 - 1) - 1) <? v
                then aset i (- (Z.land (Z.lnot (v - 1)) (Z.shiftl 1 8 - 1)))
                else ret tt) array.

(** The attributes (bertag.py:26-29, 136, 155).  [_tagClass] and [_tagNumber]
    are None only on an object whose [init] has raised: such an object is not
    modelled, [init] returns the object on success. *)
Record tag : Set := mkTag { tclass : Z; tconstr : bool; tnumber : Z; tsize : Z }.

(** tlv/__init__.py:9 *)
Definition MALFORMED_TAG := TLVExc 5.

(** bertag.py:134-136 and 153-155 *)
Definition newPrimitiveBERTag : tag := mkTag 0 false 0 0.
Definition newConstructedBERTag : tag := mkTag 0 true 0 0.

(** bertag.py:50-53, the loop over the continuation bytes.  Returns the tag
    number so far and [bLen]. *)
Fixpoint tag_loop (fuel : nat) (bArray : list Z) (bOff : Z) (num bLen : Z) : res (Z * Z) :=
  match fuel with
  | O => Err OutOfFuel
  | S f =>
      let? x := py_get bArray (bOff + bLen) in
      if Z.land x 128 =? 128
      then tag_loop f bArray bOff (Z.shiftl num 7 + Z.land x 127) (bLen + 1)
      else Ok (num, bLen)
  end.
(** Enough for any array ([tag_loop_fuel]): the index grows until it leaves
    the array. *)
Definition tag_fuel (bArray : list Z) (bOff : Z) : nat := Z.to_nat (zlen bArray - bOff) + 1.

(** bertag.py:43-59.  The byte at [bOff] is read up to four times; the reads
    all succeed or all fail. *)
Definition BERTag_init (bArray : list Z) (bOff : Z) : res tag :=
  let? b := py_get bArray bOff in
  let cls := Z.shiftr (Z.land b 255) 6 in
  let constr := negb (Z.land b 32 =? 0) in
  if Z.land b 31 =? 31 then
    let? (num, bLen) := tag_loop (tag_fuel bArray bOff) bArray bOff 0 1 in
    let? x := py_get bArray (bOff + bLen) in
    Ok (mkTag cls constr (Z.shiftl num 7 + Z.land x 127) bLen)
  else Ok (mkTag cls constr (Z.land b 31) 1).

(** bertag.py:138-145, [param1] a list *)
Definition Primitive_init_bytes (bArray : list Z) (bOff : Z) : res tag :=
  let? b := py_get bArray bOff in
  if Z.land b 32 =? 32 then Err MALFORMED_TAG else BERTag_init bArray bOff.
(** bertag.py:157-164, [param1] a list *)
Definition Constructed_init_bytes (bArray : list Z) (bOff : Z) : res tag :=
  let? b := py_get bArray bOff in
  if Z.land b 32 =? 0 then Err MALFORMED_TAG else BERTag_init bArray bOff.

(** bertag.py:146-150 and 165-167, [param1] not a list: [_size] keeps the value it had. *)
Definition init_class_number (t : tag) (tagClass tagNumber : Z) : tag :=
  mkTag tagClass (tconstr t) tagNumber (tsize t).

(** bertag.py:31-41 *)
Definition BERTag_getInstance (bArray : list Z) (bOff : Z) : res tag :=
  match (let? b := py_get bArray bOff in
         if negb (Z.land (Z.shiftr b 5) 1 =? 0)
         then Constructed_init_bytes bArray bOff
         else Primitive_init_bytes bArray bOff) with
  | Err IndexError => Err ArrayIndexOutOfBounds
  | r => r
  end.

(** bertag.py:72-74 *)
Fixpoint chunk_loop (fuel : nat) (tagNumber : Z) (chunks : list Z) : res (list Z) :=
  match fuel with
  | O => Err OutOfFuel
  | S f =>
      if 0 <? tagNumber
      then chunk_loop f (Z.shiftr tagNumber 7) (chunks ++ [Z.land tagNumber 127])
      else Ok chunks
  end.
Definition chunk_fuel (n : Z) : nat := Z.to_nat (Z.log2 n + 2).

(** [outBuf[i] += v] *)
Definition aadd (i v : Z) : M (list Z) unit := x <- aget i ;; aset i (x + v).

(** bertag.py:76-79: [for i in reversed(chunks)]; returns [bLen] *)
Fixpoint put_chunks (l : list Z) (bOffset bLen : Z) : M (list Z) Z :=
  match l with
  | [] => ret bLen
  | i :: l' => aset (bOffset + bLen) 128 ;;; aadd (bOffset + bLen) i ;;;
               put_chunks l' bOffset (bLen + 1)
  end.

(** bertag.py:61-83; the state is [outBuf]. *)
Definition tag_toBytes (t : tag) (bOffset : Z) : M (list Z) Z :=
  aset bOffset (Z.shiftl (tclass t) 6) ;;;
  aadd bOffset (Z.shiftl (if tconstr t then 1 else 0) 5) ;;;
  if tnumber t <=? 30 then
    aadd bOffset (tnumber t) ;;; sanitycheck ;;; ret 1
  else
    aadd bOffset 31 ;;;
    chunks <- lift (chunk_loop (chunk_fuel (tnumber t)) (tnumber t) []) ;;
    bLen <- put_chunks (rev chunks) bOffset 1 ;;
    x <- aget (bOffset + bLen - 1) ;;
    aset (bOffset + bLen - 1) (Z.land x 127) ;;;
    sanitycheck ;;; ret bLen.

(** bertag.py:84-89, [isConstructed] a bool *)
Definition tag_toBytesStatic (tagClass : Z) (isConstructed : bool) (tagNumber bOff : Z) : M (list Z) Z :=
  tag_toBytes (init_class_number (if isConstructed then newConstructedBERTag else newPrimitiveBERTag)
                 tagClass tagNumber) bOff.

(** bertag.py:92-98 *)
Definition tag_size (t : tag) : Z := tsize t.
Definition tag_sizeStatic (berTagArray : list Z) (bOff : Z) : res Z :=
  rmap tsize (BERTag_init berTagArray bOff).
(** bertag.py:103-106, 111-114, 119-122 *)
Definition tag_isConstructedStatic (a : list Z) (off : Z) : res bool := rmap tconstr (BERTag_getInstance a off).
Definition tag_tagClassStatic (a : list Z) (off : Z) : res Z := rmap tclass (BERTag_getInstance a off).
Definition tag_tagNumberStatic (a : list Z) (off : Z) : res Z := rmap tnumber (BERTag_getInstance a off).

(** bertag.py:128-131 *)
Definition tag_eqb (t u : tag) : bool :=
  (tclass t =? tclass u) && Bool.eqb (tconstr t) (tconstr u) && (tnumber t =? tnumber u).
