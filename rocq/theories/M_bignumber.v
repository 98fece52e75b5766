(** * Model of pythoncardx/framework/math.py (BigNumber) *)
From Verif Require Import Py M_utils M_util.

(** math.py:6-12 *)
Definition from_bcd (data : Z) : Z :=
  let data := Z.land data 255 in
  Z.shiftr data 4 * 10 + Z.land data 15.

(** math.py:14-22 *)
Definition to_bcd (data : Z) : Z :=
  let data := Z.land data 255 in
  let a := data / 10 in
  let b := data mod 10 in
  s1 (Z.shiftl a 4 + b).

(** math.py:24-33 *)
Definition from_hex (data : Z) : Z := Z.land data 255.

(** math.py:35-36 *)
Definition to_hex (data : Z) : Z := s1 (Z.land data 255).

(** math.py:40-41 *)
Definition FORMAT_BCD := 1.
Definition FORMAT_HEX := 2.

(** The attributes (math.py:46-47); [None] is Python's None. *)
Record bignum : Set := mkBig { maxBytes : option Z; value : option Z }.

(** math.py:43-47 *)
Definition newBigNumber (maxBytes : option Z) : res bignum :=
  match maxBytes with
  | Some m => if m <=? 0 then Err Arithmetic else Ok (mkBig maxBytes None)
  | None => Ok (mkBig maxBytes None)
  end.

Definition set_value (v : Z) : M bignum unit :=
  fun s => (Ok tt, mkBig (maxBytes s) (Some v)).
(** [self._value] in an arithmetic expression: None raises TypeError *)
Definition get_value : M bignum Z :=
  fun s => match value s with Some v => (Ok v, s) | None => (Err TypeError, s) end.

(** math.py:49-65.  The attribute is updated at each turn of the loop, so a
    read past the end leaves the value built so far. *)
Definition init (bArray : option (list Z)) (bOff bLen arrayFormat : Z) : M bignum unit :=
  if bLen =? 0 then raise Arithmetic
  else match bArray with
  | None => raise NullPointer
  | Some a =>
      if arrayFormat =? FORMAT_BCD then
        set_value 0 ;;;
        for_range 0 bLen (fun i =>
          v <- get_value ;; set_value (v * 100) ;;;
          v <- get_value ;; x <- lift (py_get a (bOff + i)) ;; set_value (v + from_bcd x))
      else if arrayFormat =? FORMAT_HEX then
        set_value 0 ;;;
        for_range 0 bLen (fun i =>
          v <- get_value ;; set_value (Z.shiftl v 8) ;;;
          v <- get_value ;; x <- lift (py_get a (bOff + i)) ;; set_value (v + from_hex x))
      else raise Arithmetic
  end.

(** [other = BigNumber(); other.init(...)] then [other._value] (math.py:73-74,
    78-79, 83-84, 99-100) *)
Definition operand (bArray : option (list Z)) (bOff bLen arrayFormat : Z) : res bignum :=
  match init bArray bOff bLen arrayFormat (mkBig None None) with
  | (Ok _, o) => Ok o
  | (Err e, _) => Err e
  end.

(** [self._value OP= other._value]: self first, then other *)
Definition combine (op : Z -> Z -> Z) (o : bignum) : M bignum unit :=
  fun s => match value s, value o with
           | Some v, Some w => (Ok tt, mkBig (maxBytes s) (Some (op v w)))
           | _, _ => (Err TypeError, s)
           end.

(** math.py:72-75 *)
Definition multiply (bArray : option (list Z)) (bOff bLen arrayFormat : Z) : M bignum unit :=
  o <- lift (operand bArray bOff bLen arrayFormat) ;; combine Z.mul o.
(** math.py:77-80 *)
Definition subtract (bArray : option (list Z)) (bOff bLen arrayFormat : Z) : M bignum unit :=
  o <- lift (operand bArray bOff bLen arrayFormat) ;; combine Z.sub o.
(** math.py:82-85 *)
Definition add (bArray : option (list Z)) (bOff bLen arrayFormat : Z) : M bignum unit :=
  o <- lift (operand bArray bOff bLen arrayFormat) ;; combine Z.add o.

(** math.py:88-95: None == None is True, ordering with None is a TypeError *)
Definition compareTo_big (s o : bignum) : res Z :=
  match value s, value o with
  | Some v, Some w => Ok (if v =? w then 0 else if w <? v then 1 else -1)
  | None, None => Ok 0
  | _, _ => Err TypeError
  end.
(** math.py:96-101 *)
Definition compareTo (s : bignum) (bArray : option (list Z)) (bOff bLen arrayFormat : Z) : res Z :=
  let? o := operand bArray bOff bLen arrayFormat in compareTo_big s o.

(** math.py:107-109 and 112-114: the digit loop [while value > 0], appending
    [enc(value mod base)] *)
Fixpoint digit_loop (fuel : nat) (base : Z) (enc : Z -> Z) (value : Z) (array : list Z) : res (list Z) :=
  match fuel with
  | O => Err OutOfFuel
  | S f =>
      if 0 <? value then digit_loop f base enc (value / base) (array ++ [enc (value mod base)])
      else Ok array
  end.

(** Fuel that is always enough for these loops (proved: [digit_loop_ok]). *)
Definition digit_fuel (value : Z) : nat := Z.to_nat (Z.log2 value + 2).

(** math.py:103-121; the state is [outBuf].  [value & 0xff] and [value >> 8]
    (lines 113-114) are written as mod and division by 256, which they are for
    every Python int.  While loops on None: TypeError. *)
Definition toBytes (s : bignum) (bOff numBytes arrayFormat : Z) : M (list Z) unit :=
  fun outBuf =>
    let digits :=
      if arrayFormat =? FORMAT_BCD then
        match value s with
        | None => Err TypeError
        | Some v => digit_loop (digit_fuel v) 100 to_bcd v []
        end
      else if arrayFormat =? FORMAT_HEX then
        match value s with
        | None => Err TypeError
        | Some v => digit_loop (digit_fuel v) 256 to_hex v []
        end
      else Err Arithmetic in
    match digits with
    | Err e => (Err e, outBuf)
    | Ok array =>
        if numBytes <? zlen array then (Err Arithmetic, outBuf)
        else arrayCopy_into (rev (array ++ py_repeat 0 (numBytes - zlen array))) 0 bOff numBytes outBuf
    end.

(** The state-changing calls of a client. *)
Inductive big_op : Set :=
| OpInit (a : option (list Z)) (off len fmt : Z)
| OpAdd (a : option (list Z)) (off len fmt : Z)
| OpSubtract (a : option (list Z)) (off len fmt : Z)
| OpMultiply (a : option (list Z)) (off len fmt : Z).
Definition big_step (o : big_op) : M bignum unit :=
  match o with
  | OpInit a off len fmt => init a off len fmt
  | OpAdd a off len fmt => add a off len fmt
  | OpSubtract a off len fmt => subtract a off len fmt
  | OpMultiply a off len fmt => multiply a off len fmt
  end.
(** calls in sequence, stopping at the first exception *)
Fixpoint big_seq (ops : list big_op) : M bignum unit :=
  match ops with
  | [] => ret tt
  | o :: ops' => big_step o ;;; big_seq ops'
  end.
