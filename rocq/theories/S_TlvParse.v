(** * Specification for C39 and C42 over all arrays: how the cells of an array are read as a tag
      and a length.  The two departures from X.690 are visible here: the size of a tag above 30
      is one too small, and a long-form length counts neither its first cell nor its order. *)
From Verif Require Import Py S_Base S_Number.

(** The cells that the indices [off], [off + 1], ... name, up to the first index that names none;
    negative indices count from the end, and go on with the first cell. *)
Definition cells_from (a : list Z) (off : Z) : list Z :=
  if off <? - zlen a then []
  else if off <? 0 then skipn (Z.to_nat (zlen a + off)) a ++ a
  else skipn (Z.to_nat off) a.

(** bit 8 set: another cell follows *)
Definition goes_on (x : Z) : Prop := Z.testbit x 7 = true.

(** The cells [l] begin with a tag of class [c], constructed if [k], of number [n]; [s] is the size
    reported for it. *)
Inductive reads_tag : list Z -> Z -> bool -> Z -> Z -> Prop :=
| low_tag b r : b mod 32 <> 31 -> reads_tag (b :: r) (b mod 256 / 64) (Z.testbit b 5) (b mod 32) 1
| high_tag b ds d r : b mod 32 = 31 -> Forall goes_on ds -> ~ goes_on d ->
    reads_tag (b :: ds ++ d :: r) (b mod 256 / 64) (Z.testbit b 5) (digits_value 128 (map (fun x => x mod 128) (ds ++ [d]))) (zlen ds + 1).

(** The cells end before the tag does. *)
Definition cut_tag (l : list Z) : Prop := l = [] \/ exists b ds, l = b :: ds /\ b mod 32 = 31 /\ Forall goes_on ds.

(** The cells [l] begin with a length [n], said to take [k] cells. *)
Inductive reads_length : list Z -> Z -> Z -> Prop :=
| short_length b r : ~ goes_on b -> reads_length (b :: r) 1 b
| long_length b r : goes_on b -> reads_length (b :: r) (b mod 128) (digits_value 256 (rev (firstn (Z.to_nat (b mod 128)) r))).
