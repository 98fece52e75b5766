(** * What RSA keys should hold *)
From Verif Require Import Py S_Base S_Number.

(** the calls of a client that builds a key, and what a key built by them should
    hold: the last exponent, and the last modulus of the right length *)
Inductive setter : Set :=
| SExp (buffer : list Z) (offset len : Z)
| SMod (buffer : list Z) (offset len : Z).
Definition in_bounds (o : setter) : Prop :=
  match o with SExp b f l | SMod b f l => 0 <= f /\ 0 <= l /\ f + l <= zlen b end.
Definition last_exp (h : list setter) : option (list Z) :=
  fold_left (fun a o => match o with SExp b f l => Some (sub b (Z.to_nat f) (Z.to_nat l)) | _ => a end) h None.
Definition last_mod (size : Z) (h : list setter) : option (list Z) :=
  fold_left (fun a o => match o with
    | SMod b f l => if l =? size / 8 then Some (sub b (Z.to_nat f) (Z.to_nat l)) else a
    | _ => a end) h None.

(** the value of little-endian bytes *)
Definition le_value (l : list Z) : Z := digits_value 256 (rev l).
