(** * Instances of the external libraries, for the examples only *)
From Verif Require Import Py M_key M_digest.

(** textbook RSA with the key n = 61*53, e = 17, d = 413 *)
Definition X0 : pycrypto :=
  mkPyCrypto true (fun n e => Ok (mkRsa n e 0 0 0 0)) (fun _ => Ok (mkRsa 3233 17 413 61 53 38))
    (fun r x => Ok (x ^ r_e r mod r_n r)) (fun r x => Ok (x ^ r_d r mod r_n r)).

(** a toy hash: the sum and the length *)
Definition H0 : hashlib := mkHashlib (fun _ => true) (fun _ => 2) (fun _ m => [fold_right Z.add 0 m mod 256; zlen m mod 256]).
