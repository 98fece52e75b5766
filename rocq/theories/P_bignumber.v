(** * C32-C37: BigNumber: property theorems *)
From Verif Require Import LP_bignumber Py S_Base S_Number S_BigNumber L_Py M_utils L_utils M_util L_util M_bignumber.
From Coq Require Import ZifyBool ZifyNat.
Ltac Zify.zify_post_hook ::= Z.div_mod_to_equations.

(** C32: init then toBytes with the same format writes the same bytes (as
    signed bytes), left padded with zeros, at the offset, and nothing else. *)
Theorem C32_roundtrip : forall a off len fmt s out boff nb,
  0 <= off -> 0 < len -> off + len <= zlen a ->
  fmt = 2 \/ (fmt = 1 /\ Forall valid_bcd (sub a (Z.to_nat off) (Z.to_nat len))) ->
  len <= nb -> 0 <= boff -> boff + nb <= zlen out ->
  let '(r, s') := init (Some a) off len fmt s in
  r = Ok tt
  /\ toBytes s' boff nb fmt out
     = (Ok tt, splice out (Z.to_nat boff)
                 (repeat 0 (Z.to_nat (nb - len))
                  ++ map (twos 1) (sub a (Z.to_nat off) (Z.to_nat len)))).
Proof. exact C32_roundtrip_pf. Qed.
Print Assumptions C32_roundtrip.

Example C32_ex : let s := snd (init (Some [7; 0x12; -0x67; 9]) 1 2 2 (mkBig None None)) in
  value s = Some 0x1299 /\ toBytes s 1 4 2 [5; 5; 5; 5; 5; 5] = (Ok tt, [5; 0; 0; 0x12; -0x67; 5])
  /\ value (snd (init (Some [7; 0x12; -0x67; 9]) 1 2 1 (mkBig None None))) = Some 1299
  /\ toBytes (mkBig None (Some 1299)) 0 3 1 [5; 5; 5; 5] = (Ok tt, [0; 0x12; -0x67; 5]).
Proof. vm_compute. auto. Qed.

(** C33, init: the number denoted by the bytes, in base 256 or base 100. *)
Theorem C33_init : forall a off len fmt s, range_ok a off len fmt ->
  init a off len fmt s = (Ok tt, mkBig (maxBytes s) (Some (range_value a off len fmt)))
  /\ 0 <= range_value a off len fmt.
Proof. exact C33_init_pf. Qed.
Print Assumptions C33_init.

(** C33: a sequence of calls computes the integer expression, whatever its
    length and the sizes of the operands. *)
Theorem C33_arithmetic : forall ops mb v, Forall op_ok ops ->
  big_seq ops (mkBig mb (Some v)) = (Ok tt, mkBig mb (Some (fold_left op_value ops v))).
Proof. exact C33_arithmetic_pf. Qed.
Print Assumptions C33_arithmetic.

Example C33_ex : big_seq [OpInit (Some [1; 0]) 0 2 2; OpMultiply (Some [0x25]) 0 1 1; OpSubtract (Some [9; -1]) 1 1 2;
                          OpAdd (Some [1]) 0 1 2] (mkBig (Some 3) None)
   = (Ok tt, mkBig (Some 3) (Some (256 * 25 - 255 + 1))).
Proof. reflexivity. Qed.

(** C33, compareTo: the sign of the integer comparison. *)
Theorem C33_compareTo : forall mb v a off len fmt mb' w, 
  compareTo_big (mkBig mb (Some v)) (mkBig mb' (Some w)) = Ok (cmp_sign v w)
  /\ (range_ok a off len fmt ->
      compareTo (mkBig mb (Some v)) a off len fmt = Ok (cmp_sign v (range_value a off len fmt))).
Proof. exact C33_compareTo_pf. Qed.
Print Assumptions C33_compareTo.

(** C33, toBytes: the base-256 or base-100 digits when the value fits, else
    ArithmeticException with the output untouched. *)
Theorem C33_toBytes : forall mb v boff nb fmt out, 0 <= v -> fmt = 1 \/ fmt = 2 ->
  0 <= boff -> boff + nb <= zlen out ->
  toBytes (mkBig mb (Some v)) boff nb fmt out
  = if v <? base_of fmt ^ nb
    then (Ok tt, splice out (Z.to_nat boff) (map (digit_byte fmt) (to_base (base_of fmt) (Z.to_nat nb) v)))
    else (Err Arithmetic, out).
Proof. exact C33_toBytes_pf. Qed.
Print Assumptions C33_toBytes.

Example C33_ex2 : toBytes (mkBig None (Some 65535)) 0 2 2 [7; 7; 7] = (Ok tt, [-1; -1; 7])
  /\ toBytes (mkBig None (Some 65536)) 0 2 2 [7; 7; 7] = (Err Arithmetic, [7; 7; 7])
  /\ toBytes (mkBig None (Some 65536)) 0 3 1 [7; 7; 7] = (Ok tt, [6; 0x55; 0x36]).
Proof. vm_compute. auto. Qed.

(** C34 is false: subtracting any larger operand succeeds and leaves a negative
    number, which toBytes then writes as zeros. *)
Theorem C34_refuted : forall mb v a off len fmt, range_ok a off len fmt -> v < range_value a off len fmt ->
  subtract a off len fmt (mkBig mb (Some v)) = (Ok tt, mkBig mb (Some (v - range_value a off len fmt)))
  /\ v - range_value a off len fmt < 0
  /\ forall out boff nb, 0 <= nb -> 0 <= boff -> boff + nb <= zlen out ->
     toBytes (mkBig mb (Some (v - range_value a off len fmt))) boff nb fmt out
     = (Ok tt, splice out (Z.to_nat boff) (repeat 0 (Z.to_nat nb))).
Proof. exact C34_refuted_pf. Qed.
Print Assumptions C34_refuted.

(** C34, what holds: the difference is exact and non-negative when the operand
    does not exceed the number. *)
Theorem C34_partial : forall mb v a off len fmt, range_ok a off len fmt -> range_value a off len fmt <= v ->
  exists w, subtract a off len fmt (mkBig mb (Some v)) = (Ok tt, mkBig mb (Some w))
    /\ 0 <= w /\ w + range_value a off len fmt = v.
Proof. exact C34_partial_pf. Qed.
Print Assumptions C34_partial.

Example C34_ex : subtract (Some [5]) 0 1 2 (mkBig None (Some 3)) = (Ok tt, mkBig None (Some (-2)))
  /\ toBytes (mkBig None (Some (-2))) 0 2 2 [7; 7] = (Ok tt, [0; 0]).
Proof. vm_compute. auto. Qed.

(** C35 is false: no in-range byte string is ever rejected, valid or not; an
    invalid nibble counts for its value (0xFF is 15*10+15). *)
Theorem C35_refuted : forall a off len s, 0 <= off -> 0 < len -> off + len <= zlen a ->
  init (Some a) off len 1 s
  = (Ok tt, mkBig (maxBytes s) (Some (digits_value 100 (map bcd_digit (sub a (Z.to_nat off) (Z.to_nat len)))))).
Proof. exact C35_refuted_pf. Qed.
Print Assumptions C35_refuted.

Example C35_ex : init (Some [-1]) 0 1 1 (mkBig None None) = (Ok tt, mkBig None (Some 165)) /\ ~ valid_bcd (-1).
Proof. split; [reflexivity|]. unfold valid_bcd. cbn. lia. Qed.

(** C36 is false: whatever the capacity [m], a value of any size is accepted by
    init, add and multiply. *)
Theorem C36_refuted : forall m v w, 0 < m -> 0 <= v -> 0 <= w -> exists s a len,
  newBigNumber (Some m) = Ok s /\ range_ok (Some a) 0 len 2 /\ range_value (Some a) 0 len 2 > w
  /\ init (Some a) 0 len 2 s = (Ok tt, mkBig (Some m) (Some (range_value (Some a) 0 len 2)))
  /\ add (Some a) 0 len 2 (mkBig (Some m) (Some v)) = (Ok tt, mkBig (Some m) (Some (v + range_value (Some a) 0 len 2)))
  /\ multiply (Some a) 0 len 2 (mkBig (Some m) (Some v)) = (Ok tt, mkBig (Some m) (Some (v * range_value (Some a) 0 len 2))).
Proof. exact C36_refuted_pf. Qed.
Print Assumptions C36_refuted.

(** C36, what holds: the constructor rejects a non-positive capacity, and only
    that. *)
Theorem C36_partial : forall m, newBigNumber m
  = match m with
    | Some k => if k <=? 0 then Err Arithmetic else Ok (mkBig m None)
    | None => Ok (mkBig m None)
    end.
Proof. exact C36_partial_pf. Qed.
Print Assumptions C36_partial.

Example C36_ex : init (Some [1; 2; 3]) 0 3 2 (mkBig (Some 1) None) = (Ok tt, mkBig (Some 1) (Some 66051)).
Proof. reflexivity. Qed.

(** C37 is false: an init whose range runs past the end of the array raises a
    raw IndexError and has already replaced the value. *)
Theorem C37_refuted : forall a off len fmt s,
  0 <= off <= zlen a -> 0 < len -> zlen a < off + len -> fmt = 1 \/ fmt = 2 ->
  init (Some a) off len fmt s
  = (Err IndexError, mkBig (maxBytes s) (Some (base_of fmt * denote fmt (skipn (Z.to_nat off) a)))).
Proof. exact C37_refuted_pf. Qed.
Print Assumptions C37_refuted.

(** C37, what holds: add, subtract and multiply never change the number when
    they raise, nor does an init that raises anything but IndexError (toBytes does
    not write the number at all). *)
Theorem C37_partial : forall o s e s', big_step o s = (Err e, s') ->
  match o with OpInit _ _ _ _ => e <> IndexError -> s' = s | _ => s' = s end.
Proof. exact C37_partial_pf. Qed.
Print Assumptions C37_partial.

Example C37_ex : init (Some [1; 2]) 1 2 2 (mkBig None (Some 77)) = (Err IndexError, mkBig None (Some 512))
  /\ add (Some [1; 2]) 1 2 2 (mkBig None (Some 77)) = (Err IndexError, mkBig None (Some 77))
  /\ init (Some [1]) 0 1 7 (mkBig None (Some 77)) = (Err Arithmetic, mkBig None (Some 77)).
Proof. vm_compute. auto. Qed.
