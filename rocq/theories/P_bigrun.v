(** * C104-C105: BigNumber histories and conversions: property theorems *)
From Verif Require Import LP_bigrun Py S_Base S_Number S_BigNumber L_Py M_utils L_utils M_util L_util M_bignumber LP_bignumber M_bigrun S_BigRun.
From Coq Require Import ZifyBool ZifyNat.
Ltac Zify.zify_post_hook ::= Z.div_mod_to_equations.

(** any history of calls on a BigNumber, with any operands, formats and lengths and with
    non-negative offsets, the caller catching what is raised: every call ends as on an
    integer register, and the number is the register *)
Theorem C104_history : forall ops mb v, Forall (fun o => 0 <= op_offset o) ops ->
  big_run ops (mkBig mb v) = let '(rs, w) := reg_run ops v in (rs, mkBig mb w).
Proof. exact C104_history_pf. Qed.
Print Assumptions C104_history.

(** the observers after any such history *)
Theorem C104_observe : forall ops mb rs v boff nb fmt out, Forall (fun o => 0 <= op_offset o) ops ->
  reg_run ops None = (rs, v) -> fmt = 1 \/ fmt = 2 -> 0 <= boff -> boff + nb <= zlen out ->
  let s := snd (big_run ops (mkBig mb None)) in
  (v = None -> toBytes s boff nb fmt out = (Err TypeError, out))
  /\ (forall x, v = Some x -> 0 <= x ->
      toBytes s boff nb fmt out
      = if x <? base_of fmt ^ nb
        then (Ok tt, splice out (Z.to_nat boff) (map (digit_byte fmt) (to_base (base_of fmt) (Z.to_nat nb) x)))
        else (Err Arithmetic, out))
  /\ (forall x mb' y, v = Some x -> compareTo_big s (mkBig mb' (Some y)) = Ok (cmp_sign x y)).
Proof. exact C104_observe_pf. Qed.
Print Assumptions C104_observe.

Example C104_ex : big_run [OpAdd (Some [1]) 0 1 2; OpInit (Some [1; 0]) 0 2 2; OpAdd None 0 1 2; OpMultiply (Some [0x25]) 0 1 1;
                           OpSubtract (Some [1]) 0 2 2; OpInit (Some [3]) 0 1 7; OpAdd (Some [7]) 0 1 2] (mkBig None None)
  = ([Err TypeError; Ok tt; Err NullPointer; Ok tt; Err IndexError; Err Arithmetic; Ok tt], mkBig None (Some 6407))
  /\ reg_run [OpAdd (Some [1]) 0 1 2; OpInit (Some [1; 0]) 0 2 2; OpAdd None 0 1 2; OpMultiply (Some [0x25]) 0 1 1;
              OpSubtract (Some [1]) 0 2 2; OpInit (Some [3]) 0 1 7; OpAdd (Some [7]) 0 1 2] None
  = ([Err TypeError; Ok tt; Err NullPointer; Ok tt; Err IndexError; Err Arithmetic; Ok tt], Some 6407).
Proof. split; reflexivity. Qed.

(** what toBytes writes, init reads back as the same number, in either format *)
Theorem C105_write_read : forall mb v boff nb fmt out s', 0 <= v < base_of fmt ^ nb -> 0 < nb -> fmt = 1 \/ fmt = 2 ->
  0 <= boff -> boff + nb <= zlen out ->
  exists out', toBytes (mkBig mb (Some v)) boff nb fmt out = (Ok tt, out')
    /\ init (Some out') boff nb fmt s' = (Ok tt, mkBig (maxBytes s') (Some v)).
Proof. exact C105_write_read_pf. Qed.
Print Assumptions C105_write_read.

(** converting between the formats: the digits of the same number, or ArithmeticException *)
Theorem C105_convert : forall a off len f1 nb f2, 0 <= off -> 0 < len -> off + len <= zlen a -> 0 <= nb ->
  f1 = 1 \/ f1 = 2 -> f2 = 1 \/ f2 = 2 ->
  let v := denote f1 (sub a (Z.to_nat off) (Z.to_nat len)) in
  convert a off len f1 nb f2
  = if v <? base_of f2 ^ nb then Ok (map (digit_byte f2) (to_base (base_of f2) (Z.to_nat nb) v)) else Err Arithmetic.
Proof. exact C105_convert_pf. Qed.
Print Assumptions C105_convert.

(** bytes in one format (valid BCD if it is BCD), converted to the other format with enough
    room and back, are the same bytes *)
Theorem C105_there_and_back : forall a off len f1 nb f2, 0 <= off -> 0 < len -> off + len <= zlen a -> 0 < nb ->
  f1 = 2 \/ (f1 = 1 /\ Forall valid_bcd (sub a (Z.to_nat off) (Z.to_nat len))) -> f2 = 1 \/ f2 = 2 ->
  base_of f1 ^ len <= base_of f2 ^ nb ->
  exists out, convert a off len f1 nb f2 = Ok out
    /\ convert out 0 nb f2 len f1 = Ok (map (twos 1) (sub a (Z.to_nat off) (Z.to_nat len))).
Proof. exact C105_there_and_back_pf. Qed.
Print Assumptions C105_there_and_back.

Example C105_ex : convert [0x12; -0x67; 0x34] 1 2 1 2 2 = Ok [38; -50]
  /\ convert [38; -50] 0 2 2 2 1 = Ok [-0x67; 0x34] /\ denote 1 [-0x67; 0x34] = 9934
  /\ convert [0x12; -0x67] 0 2 1 1 2 = Err Arithmetic /\ base_of 1 ^ 2 <= base_of 2 ^ 2.
Proof. vm_compute. repeat split; discriminate || reflexivity. Qed.
