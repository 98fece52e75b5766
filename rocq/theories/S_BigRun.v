(** * BigNumber as an integer register, exceptions included *)
From Verif Require Import Py S_Base S_Number M_bignumber.

(** what the operand of a call is; a negative length reads nothing *)
Definition operand_value (a : option (list Z)) (off len fmt : Z) : res Z :=
  if len =? 0 then Err Arithmetic
  else match a with
  | None => Err NullPointer
  | Some l =>
      if (fmt =? 1) || (fmt =? 2) then
        if zlen l <? off + len then if 0 <? len then Err IndexError else Ok 0
        else Ok (denote fmt (sub l (Z.to_nat off) (Z.to_nat len)))
      else Err Arithmetic
  end.

(** the register (None: never initialised) after a call, and how the call ends *)
Definition arith (f : Z -> Z -> Z) (w : res Z) (r : option Z) : res unit * option Z :=
  match w, r with
  | Ok w, Some v => (Ok tt, Some (f v w))
  | Ok _, None => (Err TypeError, None)
  | Err e, _ => (Err e, r)
  end.
Definition reg_step (o : big_op) (r : option Z) : res unit * option Z :=
  match o with
  | OpInit a off len fmt =>
      match operand_value a off len fmt with
      | Ok v => (Ok tt, Some v)
      | Err IndexError => (Err IndexError,
          match a with Some l => Some (base_of fmt * denote fmt (skipn (Z.to_nat off) l)) | None => r end)
      | Err e => (Err e, r)
      end
  | OpAdd a off len fmt => arith Z.add (operand_value a off len fmt) r
  | OpSubtract a off len fmt => arith Z.sub (operand_value a off len fmt) r
  | OpMultiply a off len fmt => arith Z.mul (operand_value a off len fmt) r
  end.
Fixpoint reg_run (ops : list big_op) (r : option Z) : list (res unit) * option Z :=
  match ops with
  | [] => ([], r)
  | o :: ops' =>
      let '(x, r1) := reg_step o r in
      let '(xs, r2) := reg_run ops' r1 in
      (x :: xs, r2)
  end.
Definition op_offset (o : big_op) : Z :=
  match o with OpInit _ off _ _ | OpAdd _ off _ _ | OpSubtract _ off _ _ | OpMultiply _ off _ _ => off end.
