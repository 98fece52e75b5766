(** * C52-C55, C57, C63, C64: pyDes.des: property theorems *)
From Verif Require Import LP_des Py S_Base L_Py S_DES M_des L_des.
From Coq Require Import ZifyBool ZifyNat.
Ltac Zify.zify_post_hook ::= Z.div_mod_to_equations.

(** C53: on every 8-byte block pyDes.des in ECB mode computes FIPS 46-3, for
    every key, whatever was done with the object before. *)
Theorem C53_fips : forall key iv pad padmode d blk, des_reach key ECB iv pad padmode d -> length blk = 8%nat ->
  Forall ubyte blk ->
  fst (des_encrypt blk [] (Some PAD_NORMAL) d) = Ok (DES_bytes key blk)
  /\ fst (crypt blk DECRYPT d) = Ok (DES_inv_bytes key blk).
Proof. exact C53_fips_pf. Qed.
Print Assumptions C53_fips.

(** objects exist for every 8-byte key *)
Theorem C53_constructible : forall key mode iv pad padmode,
  (exists d, des_reach key mode iv pad padmode d)
  <-> length key = 8%nat /\ (iv = [] \/ length iv = 8%nat) /\ (pad = [] \/ padmode <> PAD_PKCS5).
Proof. exact C53_constructible_pf. Qed.
Print Assumptions C53_constructible.

Example C53_ex :
  (let? d := des_new [0x13;0x34;0x57;0x79;0x9B;0xBC;0xDF;0xF1] ECB [] [] PAD_NORMAL in
   fst (des_encrypt [0x01;0x23;0x45;0x67;0x89;0xAB;0xCD;0xEF] [] None d))
  = Ok [0x85;0xE8;0x13;0x54;0x0F;0x0A;0xB4;0x05].
Proof. vm_compute. reflexivity. Qed.

(** C52: decryption inverts encryption and conversely, every key and block. *)
Theorem C52_inverse : forall key iv pad padmode d blk, des_reach key ECB iv pad padmode d -> length blk = 8%nat ->
  Forall ubyte blk ->
  (exists c d1, crypt blk ENCRYPT d = (Ok c, d1) /\ length c = 8%nat /\ Forall ubyte c /\ fst (crypt c DECRYPT d1) = Ok blk)
  /\ (exists p d1, crypt blk DECRYPT d = (Ok p, d1) /\ length p = 8%nat /\ Forall ubyte p /\ fst (crypt p ENCRYPT d1) = Ok blk).
Proof. exact C52_inverse_pf. Qed.
Print Assumptions C52_inverse.

(** C54: the parity bit of each key byte is ignored: same result or same error
    for all data, mode, padding and IV, whatever was done with the objects before. *)
Theorem C54_parity : forall key key' mode iv pad padmode d d' data p pm,
  des_reach key mode iv pad padmode d -> des_reach key' mode iv pad padmode d' ->
  Forall2 (fun a b => a / 2 = b / 2) key key' ->
  fst (des_encrypt data p pm d) = fst (des_encrypt data p pm d')
  /\ fst (des_decrypt data p pm d) = fst (des_decrypt data p pm d').
Proof. exact C54_parity_pf. Qed.
Print Assumptions C54_parity.

Example C54_ex : Forall2 (fun a b => a / 2 = b / 2) [0;0x34;0x57;0x79;0x9B;0xBC;0xDF;0xF1] [1;0x35;0x56;0x79;0x9A;0xBD;0xDF;0xF0]
  /\ (exists d, des_reach [0;0x34;0x57;0x79;0x9B;0xBC;0xDF;0xF1] CBC [1;2;3;4;5;6;7;8] [] PAD_PKCS5 d).
Proof. split; [repeat constructor|]. apply C53_constructible_pf. cbn. auto. Qed.

(** C57: in ECB mode encryption and decryption work block by block; in CBC mode
    each block is chained to the previous ciphertext block (the IV for the
    first one), on any number of blocks, whatever was done before. *)
Theorem C57_ecb_cbc : forall key iv pad padmode d bs, Forall (fun b => length b = 8%nat) bs -> Forall (Forall ubyte) bs ->
  (des_reach key ECB iv pad padmode d ->
     fst (des_encrypt (concat bs) [] (Some PAD_NORMAL) d) = Ok (concat (ecb (DES_bytes key) bs))
     /\ fst (crypt (concat bs) DECRYPT d) = Ok (concat (ecb (DES_inv_bytes key) bs)))
  /\ (des_reach key CBC iv pad padmode d -> iv <> [] -> Forall ubyte iv ->
     fst (des_encrypt (concat bs) [] (Some PAD_NORMAL) d) = Ok (concat (cbc_enc (DES_bytes key) iv bs))
     /\ fst (crypt (concat bs) DECRYPT d) = Ok (concat (cbc_dec (DES_inv_bytes key) iv bs))).
Proof. exact C57_ecb_cbc_pf. Qed.
Print Assumptions C57_ecb_cbc.

Example C57_ex :
  (let? d := des_new [0x13;0x34;0x57;0x79;0x9B;0xBC;0xDF;0xF1] CBC [1;2;3;4;5;6;7;8] [] PAD_NORMAL in
   fst (des_encrypt (repeat 0 8 ++ repeat 0 8) [] (Some PAD_NORMAL) d))
  = Ok (concat (cbc_enc (DES_bytes [0x13;0x34;0x57;0x79;0x9B;0xBC;0xDF;0xF1]) [1;2;3;4;5;6;7;8] [repeat 0 8; repeat 0 8]))
  /\ cbc_enc (DES_bytes [0x13;0x34;0x57;0x79;0x9B;0xBC;0xDF;0xF1]) [1;2;3;4;5;6;7;8] [repeat 0 8; repeat 0 8]
     <> ecb (DES_bytes [0x13;0x34;0x57;0x79;0x9B;0xBC;0xDF;0xF1]) [repeat 0 8; repeat 0 8].
Proof. split; vm_compute; [reflexivity|discriminate]. Qed.

(** same result or error as on a new object, after any calls, failing ones
    included *)
Theorem C57_history : forall key mode iv pad padmode d0 d data p pm,
  des_new key mode iv pad padmode = Ok d0 -> des_reach key mode iv pad padmode d ->
  fst (des_encrypt data p pm d) = fst (des_encrypt data p pm d0)
  /\ fst (des_decrypt data p pm d) = fst (des_decrypt data p pm d0).
Proof. exact C57_history_pf. Qed.
Print Assumptions C57_history.

(** C55: decrypting what was encrypted gives the message back: ECB and CBC
    modes; aligned messages without padding and all messages with PKCS5; the
    length of the ciphertext; whatever was done with the object before. *)
Theorem C55_roundtrip : forall key mode iv padmode d m,
  des_reach key mode iv [] padmode d -> (mode = CBC -> iv <> [] /\ Forall ubyte iv) -> Forall ubyte m ->
  (padmode = PAD_NORMAL /\ zlen m mod 8 = 0 \/ padmode = PAD_PKCS5) ->
  exists c d1, des_encrypt m [] None d = (Ok c, d1)
    /\ zlen c = (if padmode =? PAD_PKCS5 then 8 * (zlen m / 8 + 1) else zlen m)
    /\ fst (des_decrypt c [] None d1) = Ok m.
Proof. exact C55_roundtrip_pf. Qed.
Print Assumptions C55_roundtrip.

Example C55_ex :
  (let? d := des_new [0x13;0x34;0x57;0x79;0x9B;0xBC;0xDF;0xF1] CBC [1;2;3;4;5;6;7;8] [] PAD_PKCS5 in
   let? c := fst (des_encrypt [1;2;3;4;5;6;7;8;9] [] None d) in
   let? m := fst (des_decrypt c [] None d) in Ok (zlen c, m))
  = Ok (16, [1;2;3;4;5;6;7;8;9]).
Proof. vm_compute. reflexivity. Qed.

(** C63 is violated: PKCS5 decryption never reports invalid padding: it
    succeeds on the encryption of every non-empty sequence of blocks, cutting as
    many bytes as the last byte says (everything when that byte is 0 or
    exceeds the length), whatever the other bytes are. *)
Theorem C63_refuted : forall key mode iv d p, des_reach key mode iv [] PAD_PKCS5 d ->
  (mode = CBC -> iv <> [] /\ Forall ubyte iv) -> Forall ubyte p -> zlen p mod 8 = 0 -> p <> [] ->
  exists c d1, des_encrypt p [] (Some PAD_NORMAL) d = (Ok c, d1) /\ zlen c = zlen p
    /\ fst (des_decrypt c [] None d1)
       = Ok (if last p 0 =? 0 then [] else firstn (length p - Z.to_nat (last p 0)) p).
Proof. exact C63_refuted_pf. Qed.
Print Assumptions C63_refuted.

(** the part that holds: padding that is valid is removed exactly *)
Theorem C63_valid_partial : forall key mode iv d m n, des_reach key mode iv [] PAD_PKCS5 d ->
  (mode = CBC -> iv <> [] /\ Forall ubyte iv) -> Forall ubyte m -> 1 <= n <= 8 -> (zlen m + n) mod 8 = 0 ->
  exists c d1, des_encrypt (m ++ repeat n (Z.to_nat n)) [] (Some PAD_NORMAL) d = (Ok c, d1)
    /\ fst (des_decrypt c [] None d1) = Ok m.
Proof. exact C63_valid_partial_pf. Qed.
Print Assumptions C63_valid_partial.

Example C63_ex :
  (let? d := des_new [0x13;0x34;0x57;0x79;0x9B;0xBC;0xDF;0xF1] ECB [] [] PAD_PKCS5 in
   let? c := fst (des_encrypt [1;2;3;4;5;6;7;5] [] (Some PAD_NORMAL) d) in
   fst (des_decrypt c [] None d))
  = Ok [1;2;3].
Proof. vm_compute. reflexivity. Qed.

(** C64 is violated, exactly: with padding character [c], decrypting what was
    encrypted gives the message back if and only if the message is empty or does
    not end with [c]. *)
Theorem C64_refuted : forall key mode iv d m c, des_reach key mode iv [c] PAD_NORMAL d ->
  (mode = CBC -> iv <> [] /\ Forall ubyte iv) -> Forall ubyte m -> ubyte c ->
  exists e d1 m', des_encrypt m [] None d = (Ok e, d1) /\ fst (des_decrypt e [] None d1) = Ok m'
    /\ (m' = m <-> m = [] \/ last m 0 <> c).
Proof. exact C64_refuted_pf. Qed.
Print Assumptions C64_refuted.

Example C64_ex :
  (let? d := des_new [0x13;0x34;0x57;0x79;0x9B;0xBC;0xDF;0xF1] ECB [] [0] PAD_NORMAL in
   let? c := fst (des_encrypt [1;2;3;0] [] None d) in
   fst (des_decrypt c [] None d))
  = Ok [1;2;3].
Proof. vm_compute. reflexivity. Qed.
