(** * Model of pythoncard/utils.py *)
From Verif Require Import Py.

(** pythoncard/utils.py:2-10 (identical copy in
    pythoncardx/framework/util/intx.py:3-11).  [depth] is a byte count; the
    only values used are 1, 2 and 4.  For depth <= 0 Python raises ValueError
    (negative shift count) in line 7: not modelled, callers pass 1, 2, 4. *)
Definition signed (value depth : Z) : Z :=
  let mask := Z.shiftl 1 (depth * 8) - 1 in
  if (Z.shiftl 1 (depth * 8 - 1) - 1) <? value
  then - (Z.land (Z.lnot (value - 1)) mask)
  else value.

(** pythoncard/utils.py:12-13 *)
Definition s1 (value : Z) : Z := signed value 1.

(** pythoncard/utils.py:15-16 *)
Definition s2 (value : Z) : Z := signed value 2.

(** pythoncardx/framework/util/intx.py:13-14 *)
Definition s4 (value : Z) : Z := signed value 4.

(** pythoncard/utils.py:18-19 *)
Definition u1 (value : Z) : Z := Z.land value 255.
