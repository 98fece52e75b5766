(** * BER (X.690) identifiers, lengths and data objects, independently of the
    code.  Octets are unsigned. *)
From Coq Require Import ZArith List.
From Verif Require Import S_Base S_Number.
Import ListNotations.
Open Scope Z_scope.

(** [ds] are the base-128 digits of [n], most significant first, without
    leading zero. *)
Definition base128 (n : Z) (ds : list Z) : Prop :=
  Forall (fun d => 0 <= d < 128) ds /\ digits_value 128 ds = n /\ hd 0 ds <> 0.

(** Identifier octets of class [c] (0..3), constructed bit [k], number [n]
    (X.690 8.1.2): one octet up to 30, else 31 in the low bits followed by the
    base-128 digits, bit 8 set on all but the last. *)
Inductive identifier (c : Z) (k : bool) (n : Z) : list Z -> Prop :=
| ident_low : 0 <= n <= 30 -> identifier c k n [64 * c + (if k then 32 else 0) + n]
| ident_high ds d : 31 <= n -> base128 n (ds ++ [d]) ->
    identifier c k n ((64 * c + (if k then 32 else 0) + 31) :: map (fun x => 128 + x) ds ++ [d]).

(** Definite length octets of [n] (X.690 8.1.3): short form, or long form with
    any number 1..126 of big-endian octets. *)
Inductive length_octets (n : Z) : list Z -> Prop :=
| len_short : 0 <= n <= 127 -> length_octets n [n]
| len_long ds : (1 <= length ds <= 126)%nat -> Forall (fun d => 0 <= d <= 255) ds ->
    digits_value 256 ds = n -> length_octets n (128 + Z.of_nat (length ds) :: ds).

(** The octets held by an array of Python ints, signed or not. *)
Definition octets (l : list Z) : list Z := map (fun b => b mod 256) l.
