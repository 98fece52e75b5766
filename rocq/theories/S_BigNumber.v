(** * Meaning of a sequence of BigNumber calls *)
From Verif Require Import Py S_Base S_Number M_bignumber.

(** the operand bytes are a non-empty range of an existing array, in one of the
    two formats *)
Definition range_ok (a : option (list Z)) (off len fmt : Z) : Prop :=
  exists l, a = Some l /\ 0 <= off /\ 0 < len /\ off + len <= zlen l /\ (fmt = 1 \/ fmt = 2).

(** the number those bytes denote *)
Definition range_value (a : option (list Z)) (off len fmt : Z) : Z :=
  match a with
  | Some l => denote fmt (sub l (Z.to_nat off) (Z.to_nat len))
  | None => 0
  end.

(** the [big_op] calls of the model, as integer arithmetic *)
Definition op_ok (o : big_op) : Prop :=
  match o with
  | OpInit a off len fmt | OpAdd a off len fmt
  | OpSubtract a off len fmt | OpMultiply a off len fmt => range_ok a off len fmt
  end.
Definition op_value (v : Z) (o : big_op) : Z :=
  match o with
  | OpInit a off len fmt => range_value a off len fmt
  | OpAdd a off len fmt => v + range_value a off len fmt
  | OpSubtract a off len fmt => v - range_value a off len fmt
  | OpMultiply a off len fmt => v * range_value a off len fmt
  end.

(** sign of the comparison of two integers *)
Definition cmp_sign (v w : Z) : Z :=
  match v ?= w with Lt => -1 | Eq => 0 | Gt => 1 end.
