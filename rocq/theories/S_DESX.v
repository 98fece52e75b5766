(** * Facts about DES stated on byte strings (independent of the model):
      complement of a byte string, the weak and semi-weak keys of FIPS 74 *)
From Coq Require Import ZArith List.
Import ListNotations.
Open Scope Z_scope.

(** The byte with every bit inverted *)
Definition inverted (l : list Z) : list Z := map (fun v => 255 - v) l.

(** The four weak keys (FIPS 74, section 3.6.1) *)
Definition weak_keys : list (list Z) :=
  [[0x01;0x01;0x01;0x01;0x01;0x01;0x01;0x01];
   [0xFE;0xFE;0xFE;0xFE;0xFE;0xFE;0xFE;0xFE];
   [0xE0;0xE0;0xE0;0xE0;0xF1;0xF1;0xF1;0xF1];
   [0x1F;0x1F;0x1F;0x1F;0x0E;0x0E;0x0E;0x0E]].
(** The six pairs of semi-weak keys *)
Definition semi_weak_pairs : list (list Z * list Z) :=
  [([0x01;0xFE;0x01;0xFE;0x01;0xFE;0x01;0xFE], [0xFE;0x01;0xFE;0x01;0xFE;0x01;0xFE;0x01]);
   ([0x1F;0xE0;0x1F;0xE0;0x0E;0xF1;0x0E;0xF1], [0xE0;0x1F;0xE0;0x1F;0xF1;0x0E;0xF1;0x0E]);
   ([0x01;0xE0;0x01;0xE0;0x01;0xF1;0x01;0xF1], [0xE0;0x01;0xE0;0x01;0xF1;0x01;0xF1;0x01]);
   ([0x1F;0xFE;0x1F;0xFE;0x0E;0xFE;0x0E;0xFE], [0xFE;0x1F;0xFE;0x1F;0xFE;0x0E;0xFE;0x0E]);
   ([0x01;0x1F;0x01;0x1F;0x01;0x0E;0x01;0x0E], [0x1F;0x01;0x1F;0x01;0x0E;0x01;0x0E;0x01]);
   ([0xE0;0xFE;0xE0;0xFE;0xF1;0xFE;0xF1;0xFE], [0xFE;0xE0;0xFE;0xE0;0xFE;0xF1;0xFE;0xF1])].

(** Keys that undo each other *)
Definition undoing (k k' : list Z) : Prop :=
  (k = k' /\ In k weak_keys) \/ In (k, k') semi_weak_pairs \/ In (k', k) semi_weak_pairs.

(** *** Locality: [dec] is a decryption function on whole messages.  Replacing
    the ciphertext block [c] by [c'] changes the plaintext block at the same
    place, and (CBC) xors the difference into the next one; all the others stay. *)
From Verif Require Import Py S_Base S_DES.
Definition local_change (dec : list Z -> res (list Z)) (cbc : bool) : Prop :=
  forall cs1 c c' n cs2, Forall (fun b => length b = 8%nat) (cs1 ++ c :: c' :: n :: cs2) ->
    Forall (Forall ubyte) (cs1 ++ c :: c' :: n :: cs2) ->
    exists ps1 p p' pn ps2, Forall (fun b => length b = 8%nat) (ps1 ++ p :: p' :: pn :: ps2) /\ length ps1 = length cs1
      /\ dec (concat (cs1 ++ c :: n :: cs2)) = Ok (concat (ps1 ++ p :: pn :: ps2))
      /\ dec (concat (cs1 ++ c' :: n :: cs2))
         = Ok (concat (ps1 ++ p' :: (if cbc then xor_bytes pn (xor_bytes c c') else pn) :: ps2))
      /\ (c <> c' -> p <> p').
