(** * C79-C84: algebraic properties of pyDes: property theorems *)
From Verif Require Import LP_desx Py S_Base L_Py S_DES S_DESX M_des L_des LP_des LP_tdes.
From Coq Require Import ZifyBool ZifyNat.
Ltac Zify.zify_post_hook ::= Z.div_mod_to_equations.

(** Inverting every bit of the key and of the block inverts every bit of the
    result, for encryption and decryption *)
Theorem C79_complement : forall key iv iv' padmode padmode' d d' blk,
  des_reach key ECB iv [] padmode d -> des_reach (inverted key) ECB iv' [] padmode' d' ->
  Forall ubyte key -> length blk = 8%nat -> Forall ubyte blk ->
  (exists c, fst (des_encrypt blk [] (Some PAD_NORMAL) d) = Ok c
     /\ fst (des_encrypt (inverted blk) [] (Some PAD_NORMAL) d') = Ok (inverted c))
  /\ (exists p, fst (des_decrypt blk [] (Some PAD_NORMAL) d) = Ok p
     /\ fst (des_decrypt (inverted blk) [] (Some PAD_NORMAL) d') = Ok (inverted p)).
Proof. exact C79_complement_pf. Qed.
Print Assumptions C79_complement.

(** the same for triple DES *)
Theorem C79_triple : forall key iv iv' pad pad' padmode padmode' d d' blk,
  tdes_reach key ECB iv pad padmode d -> tdes_reach (inverted key) ECB iv' pad' padmode' d' ->
  Forall ubyte key -> length blk = 8%nat -> Forall ubyte blk ->
  exists c, fst (tdes_encrypt blk [] (Some PAD_NORMAL) d) = Ok c
     /\ fst (tdes_encrypt (inverted blk) [] (Some PAD_NORMAL) d') = Ok (inverted c).
Proof. exact C79_triple_pf. Qed.
Print Assumptions C79_triple.

Example C79_ex : exists d d',
  des_new [0x13;0x34;0x57;0x79;0x9B;0xBC;0xDF;0xF1] ECB [] [] PAD_NORMAL = Ok d
  /\ des_new (inverted [0x13;0x34;0x57;0x79;0x9B;0xBC;0xDF;0xF1]) ECB [] [] PAD_NORMAL = Ok d'
  /\ inverted [0x13;0x34;0x57;0x79;0x9B;0xBC;0xDF;0xF1] = [0xEC;0xCB;0xA8;0x86;0x64;0x43;0x20;0x0E]
  /\ fst (des_encrypt [0x01;0x23;0x45;0x67;0x89;0xAB;0xCD;0xEF] [] (Some PAD_NORMAL) d) = Ok [0x85;0xE8;0x13;0x54;0x0F;0x0A;0xB4;0x05]
  /\ fst (des_encrypt [0xFE;0xDC;0xBA;0x98;0x76;0x54;0x32;0x10] [] (Some PAD_NORMAL) d') = Ok [0x7A;0x17;0xEC;0xAB;0xF0;0xF5;0x4B;0xFA].
Proof.
  eexists. eexists. split; [vm_compute; reflexivity|]. split; [vm_compute; reflexivity|].
  split; [reflexivity|]. split; vm_compute; reflexivity.
Qed.

(** A weak key undoes itself and the two keys of a semi-weak pair undo each
    other, on messages of any number of blocks *)
Theorem C80_weak : forall k k' iv iv' pad pad' padmode padmode' d d' bs, undoing k k' ->
  des_reach k ECB iv pad padmode d -> des_reach k' ECB iv' pad' padmode' d' ->
  Forall (fun b => length b = 8%nat) bs -> Forall (Forall ubyte) bs ->
  exists c, fst (des_encrypt (concat bs) [] (Some PAD_NORMAL) d) = Ok c
    /\ fst (des_encrypt c [] (Some PAD_NORMAL) d') = Ok (concat bs).
Proof. exact C80_weak_pf. Qed.
Print Assumptions C80_weak.

(** there are such objects *)
Theorem C80_constructible : forall k k', undoing k k' ->
  exists d d', des_new k ECB [] [] PAD_NORMAL = Ok d /\ des_new k' ECB [] [] PAD_NORMAL = Ok d'.
Proof. exact C80_constructible_pf. Qed.
Print Assumptions C80_constructible.

Example C80_ex : undoing [0x01;0xFE;0x01;0xFE;0x01;0xFE;0x01;0xFE] [0xFE;0x01;0xFE;0x01;0xFE;0x01;0xFE;0x01]
  /\ DES_bytes [0x01;0xFE;0x01;0xFE;0x01;0xFE;0x01;0xFE] [1;2;3;4;5;6;7;8] <> [1;2;3;4;5;6;7;8]
  /\ DES_bytes [0x01;0xFE;0x01;0xFE;0x01;0xFE;0x01;0xFE] (DES_bytes [0x01;0xFE;0x01;0xFE;0x01;0xFE;0x01;0xFE] [1;2;3;4;5;6;7;8]) <> [1;2;3;4;5;6;7;8]
  /\ DES_bytes [0xFE;0x01;0xFE;0x01;0xFE;0x01;0xFE;0x01] (DES_bytes [0x01;0xFE;0x01;0xFE;0x01;0xFE;0x01;0xFE] [1;2;3;4;5;6;7;8]) = [1;2;3;4;5;6;7;8].
Proof.
  split; [right; left; cbn; auto|]. split; [vm_compute; discriminate|]. split; [vm_compute; discriminate|].
  vm_compute. reflexivity.
Qed.

(** Every byte string of whole blocks is the ciphertext of exactly one message
    of whole blocks, which has its length *)
Theorem C81_bijection : forall key mode iv pad padmode d c, des_reach key mode iv pad padmode d ->
  (mode = CBC -> iv <> [] /\ Forall ubyte iv) -> zlen c mod 8 = 0 -> Forall ubyte c ->
  exists m, zlen m = zlen c /\ Forall ubyte m /\ fst (des_encrypt m [] (Some PAD_NORMAL) d) = Ok c
    /\ forall m', zlen m' mod 8 = 0 -> Forall ubyte m' -> fst (des_encrypt m' [] (Some PAD_NORMAL) d) = Ok c -> m' = m.
Proof. exact C81_bijection_pf. Qed.
Print Assumptions C81_bijection.

(** the same for triple DES *)
Theorem C81_triple : forall key mode iv pad padmode d c, tdes_reach key mode iv pad padmode d ->
  (mode = CBC -> Forall ubyte (iv ++ key)) -> zlen c mod 8 = 0 -> Forall ubyte c ->
  exists m, zlen m = zlen c /\ Forall ubyte m /\ fst (tdes_encrypt m [] (Some PAD_NORMAL) d) = Ok c
    /\ forall m', zlen m' mod 8 = 0 -> Forall ubyte m' -> fst (tdes_encrypt m' [] (Some PAD_NORMAL) d) = Ok c -> m' = m.
Proof. exact C81_triple_pf. Qed.
Print Assumptions C81_triple.

Example C81_ex : exists d, des_new [0x13;0x34;0x57;0x79;0x9B;0xBC;0xDF;0xF1] CBC [1;1;1;1;1;1;1;1] [] PAD_NORMAL = Ok d
  /\ fst (des_encrypt [217;254;214;188;37;184;44;61;84;239;109;150;242;98;119;18] [] (Some PAD_NORMAL) d) = Ok [1;2;3;4;5;6;7;8;9;10;11;12;13;14;15;16].
Proof. eexists. split; [vm_compute; reflexivity|]. vm_compute. reflexivity. Qed.

(** Replacing one ciphertext block *)
Theorem C82_des : forall key mode iv padmode d, des_reach key mode iv [] padmode d ->
  (mode = ECB -> local_change (fun c => fst (des_decrypt c [] (Some PAD_NORMAL) d)) false)
  /\ (mode = CBC -> iv <> [] -> Forall ubyte iv -> local_change (fun c => fst (des_decrypt c [] (Some PAD_NORMAL) d)) true).
Proof. exact C82_des_pf. Qed.
Print Assumptions C82_des.

(** the same for triple DES *)
Theorem C82_triple : forall key mode iv padmode d, tdes_reach key mode iv [] padmode d ->
  (mode = ECB -> local_change (fun c => fst (tdes_decrypt c [] (Some PAD_NORMAL) d)) false)
  /\ (mode = CBC -> Forall ubyte (iv ++ key) -> local_change (fun c => fst (tdes_decrypt c [] (Some PAD_NORMAL) d)) true).
Proof. exact C82_triple_pf. Qed.
Print Assumptions C82_triple.

Example C82_ex : exists d, des_new [0x13;0x34;0x57;0x79;0x9B;0xBC;0xDF;0xF1] CBC [1;1;1;1;1;1;1;1] [] PAD_NORMAL = Ok d
  /\ fst (des_decrypt [1;2;3;4;5;6;7;8;9;10;11;12;13;14;15;16] [] (Some PAD_NORMAL) d) = Ok [217;254;214;188;37;184;44;61;84;239;109;150;242;98;119;18]
  /\ fst (des_decrypt [1;2;3;4;5;6;7;9;9;10;11;12;13;14;15;16] [] (Some PAD_NORMAL) d) = Ok [30;202;240;25;241;166;60;69;84;239;109;150;242;98;119;19].
Proof. eexists. split; [vm_compute; reflexivity|]. split; vm_compute; reflexivity. Qed.

(** The ciphertext of a message starts with that of its prefix; the rest is the
    ciphertext of the rest, in CBC mode with the last block as IV *)
Theorem C83_des : forall key mode iv pad padmode d bs bs', des_reach key mode iv pad padmode d ->
  (mode = ECB \/ mode = CBC /\ iv <> []) -> bs <> [] ->
  Forall (fun b => length b = 8%nat) bs -> Forall (fun b => length b = 8%nat) bs' ->
  exists e e', fst (des_encrypt (concat bs) [] (Some PAD_NORMAL) d) = Ok e
    /\ fst (des_encrypt (concat bs ++ concat bs') [] (Some PAD_NORMAL) d) = Ok (e ++ e')
    /\ length e = length (concat bs)
    /\ forall iv2 d2, iv2 = (if mode =? CBC then skipn (length e - 8) e else iv) -> des_reach key mode iv2 pad padmode d2 ->
         fst (des_encrypt (concat bs') [] (Some PAD_NORMAL) d2) = Ok e'.
Proof. exact C83_des_pf. Qed.
Print Assumptions C83_des.

(** the same with three keys *)
Theorem C83_triple : forall key mode iv pad padmode d bs bs', tdes_reach key mode iv pad padmode d ->
  mode = ECB \/ mode = CBC /\ Forall ubyte (iv ++ key) -> bs <> [] ->
  Forall (fun b => length b = 8%nat) bs -> Forall (fun b => length b = 8%nat) bs' ->
  exists e e', fst (tdes_encrypt (concat bs) [] (Some PAD_NORMAL) d) = Ok e
    /\ fst (tdes_encrypt (concat bs ++ concat bs') [] (Some PAD_NORMAL) d) = Ok (e ++ e')
    /\ length e = length (concat bs)
    /\ forall iv2 d2, iv2 = (if mode =? CBC then skipn (length e - 8) e else iv) -> tdes_reach key mode iv2 pad padmode d2 ->
         fst (tdes_encrypt (concat bs') [] (Some PAD_NORMAL) d2) = Ok e'.
Proof. exact C83_triple_pf. Qed.
Print Assumptions C83_triple.

(** decryption of the pieces: the initialisation vector of the second object is the last
    ciphertext block of the first piece *)
Theorem C83_decrypt : forall key mode iv padmode d bs bs', des_reach key mode iv [] padmode d ->
  mode = ECB \/ mode = CBC /\ iv <> [] /\ Forall ubyte iv -> bs <> [] ->
  Forall (fun b => length b = 8%nat) (bs ++ bs') -> Forall (Forall ubyte) (bs ++ bs') ->
  exists e e', fst (des_decrypt (concat bs) [] (Some PAD_NORMAL) d) = Ok e
    /\ fst (des_decrypt (concat bs ++ concat bs') [] (Some PAD_NORMAL) d) = Ok (e ++ e')
    /\ length e = length (concat bs)
    /\ forall iv2 d2, iv2 = (if mode =? CBC then last bs [] else iv) -> des_reach key mode iv2 [] padmode d2 ->
         fst (des_decrypt (concat bs') [] (Some PAD_NORMAL) d2) = Ok e'.
Proof. exact C83_decrypt_pf. Qed.
Print Assumptions C83_decrypt.

Theorem C83_decrypt_triple : forall key mode iv padmode d bs bs', tdes_reach key mode iv [] padmode d ->
  mode = ECB \/ mode = CBC /\ Forall ubyte (iv ++ key) -> bs <> [] ->
  Forall (fun b => length b = 8%nat) (bs ++ bs') -> Forall (Forall ubyte) (bs ++ bs') ->
  exists e e', fst (tdes_decrypt (concat bs) [] (Some PAD_NORMAL) d) = Ok e
    /\ fst (tdes_decrypt (concat bs ++ concat bs') [] (Some PAD_NORMAL) d) = Ok (e ++ e')
    /\ length e = length (concat bs)
    /\ forall iv2 d2, iv2 = (if mode =? CBC then last bs [] else iv) -> tdes_reach key mode iv2 [] padmode d2 ->
         fst (tdes_decrypt (concat bs') [] (Some PAD_NORMAL) d2) = Ok e'.
Proof. exact C83_decrypt_triple_pf. Qed.
Print Assumptions C83_decrypt_triple.

Example C83_ex : exists d d2, des_new [0x13;0x34;0x57;0x79;0x9B;0xBC;0xDF;0xF1] CBC [1;1;1;1;1;1;1;1] [] PAD_NORMAL = Ok d
  /\ fst (des_encrypt [217;254;214;188;37;184;44;61] [] (Some PAD_NORMAL) d) = Ok [1;2;3;4;5;6;7;8]
  /\ des_new [0x13;0x34;0x57;0x79;0x9B;0xBC;0xDF;0xF1] CBC [1;2;3;4;5;6;7;8] [] PAD_NORMAL = Ok d2
  /\ fst (des_encrypt [84;239;109;150;242;98;119;18] [] (Some PAD_NORMAL) d2) = Ok [9;10;11;12;13;14;15;16].
Proof. eexists. eexists. split; [vm_compute; reflexivity|]. split; [vm_compute; reflexivity|]. split; [vm_compute; reflexivity|]. vm_compute; reflexivity. Qed.

Example C83_triple_ex : exists d d2, tdes_new (repeat 7 8 ++ repeat 9 8) CBC [1;1;1;1;1;1;1;1] [] PAD_NORMAL = Ok d
  /\ exists e e', fst (tdes_encrypt (repeat 65 8) [] (Some PAD_NORMAL) d) = Ok e
  /\ tdes_new (repeat 7 8 ++ repeat 9 8) CBC e [] PAD_NORMAL = Ok d2
  /\ fst (tdes_encrypt (repeat 66 8) [] (Some PAD_NORMAL) d2) = Ok e'
  /\ fst (tdes_encrypt (repeat 65 8 ++ repeat 66 8) [] (Some PAD_NORMAL) d) = Ok (e ++ e')
  /\ fst (tdes_decrypt (e ++ e') [] (Some PAD_NORMAL) d) = Ok (repeat 65 8 ++ repeat 66 8)
  /\ fst (tdes_decrypt e' [] (Some PAD_NORMAL) d2) = Ok (repeat 66 8).
Proof.
  eexists. eexists. split; [vm_compute; reflexivity|]. eexists. eexists.
  split; [vm_compute; reflexivity|]. split; [vm_compute; reflexivity|]. split; [vm_compute; reflexivity|].
  split; [vm_compute; reflexivity|]. split; vm_compute; reflexivity.
Qed.

(** A 16-byte key k1 k2 is the 24-byte key k1 k2 k1 *)
Theorem C84_two_keys : forall k1 k2 mode iv pad padmode pad' padmode' d d' bs, length k1 = 8%nat -> length k2 = 8%nat ->
  tdes_reach (k1 ++ k2) mode iv pad padmode d -> tdes_reach (k1 ++ k2 ++ k1) mode iv pad' padmode' d' ->
  (mode = ECB \/ mode = CBC /\ iv <> [] /\ Forall ubyte iv) -> Forall (fun b => length b = 8%nat) bs ->
  fst (tdes_encrypt (concat bs) [] (Some PAD_NORMAL) d) = fst (tdes_encrypt (concat bs) [] (Some PAD_NORMAL) d').
Proof. exact C84_two_keys_pf. Qed.
Print Assumptions C84_two_keys.

(** When two adjacent keys are equal, triple DES is single DES with the other one *)
Theorem C84_collapse : forall k k' key mode iv pad padmode pad' padmode' d d' bs, length k = 8%nat -> length k' = 8%nat ->
  (key = k ++ k ++ k' \/ key = k' ++ k ++ k) ->
  tdes_reach key mode iv pad padmode d -> des_reach k' mode iv pad' padmode' d' ->
  (mode = ECB \/ mode = CBC /\ iv <> [] /\ Forall ubyte iv) -> Forall (fun b => length b = 8%nat) bs -> Forall (Forall ubyte) bs ->
  fst (tdes_encrypt (concat bs) [] (Some PAD_NORMAL) d) = fst (des_encrypt (concat bs) [] (Some PAD_NORMAL) d').
Proof. exact C84_collapse_pf. Qed.
Print Assumptions C84_collapse.

Example C84_ex : exists d d', tdes_new ([1;2;3;4;5;6;7;8] ++ [9;9;9;9;9;9;9;9] ++ [9;9;9;9;9;9;9;9]) ECB [] [] PAD_NORMAL = Ok d
  /\ des_new [1;2;3;4;5;6;7;8] ECB [] [] PAD_NORMAL = Ok d'
  /\ fst (tdes_encrypt [1;2;3;4;5;6;7;8] [] None d) = fst (des_encrypt [1;2;3;4;5;6;7;8] [] None d')
  /\ fst (tdes_encrypt [1;2;3;4;5;6;7;8] [] None d) = Ok (DES_bytes [1;2;3;4;5;6;7;8] [1;2;3;4;5;6;7;8]).
Proof. eexists. eexists. split; [vm_compute; reflexivity|]. split; [vm_compute; reflexivity|]. split; vm_compute; reflexivity. Qed.
