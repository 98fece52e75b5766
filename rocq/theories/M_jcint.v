(** * Model of pythoncardx/framework/util/intx.py (JCint) *)
From Verif Require Import Py M_utils M_util.

(** intx.py:25-31.  Reading past the end raises IndexError: nothing catches it. *)
Definition getInt (bArray : list Z) (bOff : Z) : res Z :=
  let? a := py_get bArray bOff in
  let? b := py_get bArray (bOff + 1) in
  let? c := py_get bArray (bOff + 2) in
  let? d := py_get bArray (bOff + 3) in
  Ok (s4 (Z.shiftl a 24 + Z.shiftl b 16 + Z.shiftl c 8 + d)).

(** intx.py:35-38 *)
Definition makeInt4 (b1 b2 b3 b4 : Z) : Z :=
  s4 (Z.shiftl b1 24 + Z.shiftl b2 16 + Z.shiftl b3 8 + b4).
(** intx.py:39-42 *)
Definition makeInt2 (s1 s2 : Z) : Z := s4 (Z.shiftl s1 16 + s2).

(** intx.py:49-57; the state is [bArray] *)
Definition setInt (bOff iValue1 iValue2 : Z) : M (list Z) Z :=
  let iVal := makeInt2 iValue1 iValue2 in
  aset bOff (s1 (Z.land (Z.shiftr iVal 24) 255)) ;;;
  aset (bOff + 1) (s1 (Z.land (Z.shiftr iVal 16) 255)) ;;;
  aset (bOff + 2) (s1 (Z.land (Z.shiftr iVal 8) 255)) ;;;
  aset (bOff + 3) (s1 (Z.land iVal 255)) ;;;
  ret (bOff + 4).

(** intx.py:44-47 (the warning is not modelled) *)
Definition makeTransientIntArray (length event : Z) : list Z := py_repeat 0 length.

(** intx.py:19-21; the state is the array *)
Definition sanatize : M (list Z) unit :=
  fun a => for_range 0 (zlen a) (fun i => v <- aget i ;; aset i (s1 v)) a.
