(** * Specification for the identifiers of ISO/IEC 7816-4 / X.690 8.1.2 that end inside an array *)
From Verif Require Import Py.

(** The octets stop before the identifier does: there is none, or the first announces a number
    in the following octets and each of these announces another one. *)
Definition unfinished (bs : list Z) : Prop :=
  bs = [] \/ exists b rest, bs = b :: rest /\ b mod 32 = 31 /\ Forall (fun x => 128 <= x mod 256) rest.
