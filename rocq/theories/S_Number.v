(** * Positional number systems, written down independently of the code *)
From Coq Require Import ZArith List.
From Verif Require Import S_Base.
Import ListNotations.
Open Scope Z_scope.

(** Value of big-endian digits in base [B]. *)
Fixpoint digits_value (B : Z) (ds : list Z) : Z :=
  match ds with
  | [] => 0
  | d :: ds' => d * B ^ Z.of_nat (length ds') + digits_value B ds'
  end.

(** The [n] big-endian digits of [v] in base [B]. *)
Fixpoint to_base (B : Z) (n : nat) (v : Z) : list Z :=
  match n with
  | O => []
  | S n' => (v / B ^ Z.of_nat n') mod B :: to_base B n' v
  end.

(** Two decimal digits per byte. *)
Definition bcd_digit (b : Z) : Z := (b mod 256) / 16 * 10 + (b mod 256) mod 16.
Definition bcd_byte (d : Z) : Z := 16 * (d / 10) + d mod 10.
Definition valid_bcd (b : Z) : Prop := (b mod 256) / 16 <= 9 /\ (b mod 256) mod 16 <= 9.

(** Number denoted by a byte string in the two formats (1 = BCD, 2 = HEX). *)
Definition denote (fmt : Z) (l : list Z) : Z :=
  if fmt =? 1 then digits_value 100 (map bcd_digit l)
  else digits_value 256 (map (fun b => b mod 256) l).
Definition base_of (fmt : Z) : Z := if fmt =? 1 then 100 else 256.
(** the signed byte written for a digit *)
Definition digit_byte (fmt d : Z) : Z := if fmt =? 1 then twos 1 (bcd_byte d) else twos 1 d.
