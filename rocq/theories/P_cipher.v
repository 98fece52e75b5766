(** * C58-C62: the DES ciphers of pythoncardx/crypto/cipher.py: property theorems *)
From Verif Require Import LP_cipher Py S_Base L_Py S_DES S_Cipher M_utils L_utils M_util L_util M_des L_des LP_des LP_tdes M_key M_cipher.
From Coq Require Import ZifyBool ZifyNat.
Ltac Zify.zify_post_hook ::= Z.div_mod_to_equations.

(** C59: after a successful init, doFinal's result and output depend only on the
    algorithm, key, mode and IV of that init: not on the state of the cipher
    before it, nor on the calls of update and doFinal since. *)
Theorem C59_history : forall alg k mode bArray bOff c c' inBuff io il out oo,
  cipher_reach alg k mode bArray bOff c -> cipher_reach alg k mode bArray bOff c' ->
  fst (des_doFinal inBuff io il oo (c, out)) = fst (des_doFinal inBuff io il oo (c', out))
  /\ snd (snd (des_doFinal inBuff io il oo (c, out))) = snd (snd (des_doFinal inBuff io il oo (c', out))).
Proof. exact C59_history_pf. Qed.
Print Assumptions C59_history.

(** C58: doFinal in encrypt mode writes the ciphertext of the specification
    (DES or triple DES, ECB or CBC, with PKCS#5 padding if asked for), as
    signed bytes, at outOffset and nothing else, and returns its length: for all
    arrays of signed or unsigned bytes, whatever the cipher did before.
    inBuff and out may be the same array. *)
Theorem C58_encrypt : forall alg typ size keyData keyOff bArray bOff c inBuff io il out oo,
  des_alg alg -> In size [64; 128; 192] -> 0 <= keyOff -> keyOff + size / 8 <= zlen keyData ->
  0 <= bOff -> bOff + 8 <= zlen bArray ->
  cipher_reach alg (snd (setKey keyData keyOff (deskey_new typ size))) MODE_ENCRYPT bArray bOff c ->
  0 <= io -> 0 <= il -> io + il <= zlen inBuff -> (alg_pkcs5 alg = false -> il mod 8 = 0) ->
  let key := map unsigned (sub keyData (Z.to_nat keyOff) (Z.to_nat (size / 8))) in
  let iv := map unsigned (sub bArray (Z.to_nat bOff) 8) in
  let e := jc_encrypt alg key iv (map unsigned (sub inBuff (Z.to_nat io) (Z.to_nat il))) in
  (zlen e = if alg_pkcs5 alg then 8 * (il / 8 + 1) else il)
  /\ (0 <= oo -> oo + zlen e <= zlen out ->
      exists c', des_doFinal inBuff io il oo (c, out) = (Ok (zlen e), (c', splice out (Z.to_nat oo) (map (twos 1) e)))).
Proof. exact C58_encrypt_pf. Qed.
Print Assumptions C58_encrypt.

(** C58: decrypting the range just written with the same key and IV gives the
    message back as signed bytes, writes nothing else and returns its length; the
    two ciphers may have been used for anything since their init *)
Theorem C58_roundtrip : forall alg typ size keyData keyOff bArray bOff c1 c2 inBuff io il out oo out2 oo2,
  des_alg alg -> In size [64; 128; 192] -> 0 <= keyOff -> keyOff + size / 8 <= zlen keyData ->
  0 <= bOff -> bOff + 8 <= zlen bArray ->
  cipher_reach alg (snd (setKey keyData keyOff (deskey_new typ size))) MODE_ENCRYPT bArray bOff c1 ->
  cipher_reach alg (snd (setKey keyData keyOff (deskey_new typ size))) MODE_DECRYPT bArray bOff c2 ->
  0 <= io -> 0 <= il -> io + il <= zlen inBuff -> (alg_pkcs5 alg = false -> il mod 8 = 0) ->
  0 <= oo -> oo + (if alg_pkcs5 alg then 8 * (il / 8 + 1) else il) <= zlen out ->
  0 <= oo2 -> oo2 + il <= zlen out2 ->
  exists n c1' out' c2',
    des_doFinal inBuff io il oo (c1, out) = (Ok n, (c1', out'))
    /\ des_doFinal out' oo n oo2 (c2, out2)
      = (Ok il, (c2', splice out2 (Z.to_nat oo2) (map (twos 1) (sub inBuff (Z.to_nat io) (Z.to_nat il))))).
Proof. exact C58_roundtrip_pf. Qed.
Print Assumptions C58_roundtrip.

(** such ciphers exist: getInstance gives a cipher that init accepts *)
Theorem C58_constructible : forall alg typ size keyData keyOff bArray bOff mode,
  des_alg alg -> In size [64; 128; 192] -> 0 <= keyOff -> keyOff + size / 8 <= zlen keyData ->
  0 <= bOff -> bOff + 8 <= zlen bArray -> (mode = MODE_ENCRYPT \/ mode = MODE_DECRYPT) ->
  exists c0 c, getInstance2 alg = Ok c0
    /\ des_init (Some (KDes (snd (setKey keyData keyOff (deskey_new typ size))))) mode bArray bOff 8 c0 = (Ok tt, c)
    /\ cipher_reach alg (snd (setKey keyData keyOff (deskey_new typ size))) mode bArray bOff c.
Proof. exact C58_constructible_pf. Qed.
Print Assumptions C58_constructible.

Example C58_ex :
  (let k := snd (setKey [99; 0x13; 0x34; 0x57; 0x79; -101; -68; -33; -15] 1 (deskey_new 3 64)) in
   let c := snd (des_init_default (Some (KDes k)) 2 (cipher_new 8)) in
   let d := snd (des_init_default (Some (KDes k)) 1 (cipher_new 8)) in
   let '(r, (_, out)) := des_doFinal [1; 2; -3; 200; 5; 6; 7; 8; 9; 10] 0 9 1 (c, repeat 77 20) in
   let '(r', (_, out')) := des_doFinal out 1 16 0 (d, out) in
   (r, r', firstn 9 out', nth 0 out 0, nth 17 out 0))
  = (Ok 16, Ok 9, [1; 2; -3; -56; 5; 6; 7; 8; 9], 77, 77).
Proof. vm_compute. reflexivity. Qed.

(** C60 is false: update ignores the data, writes nothing and changes nothing *)
Theorem C60_refuted : forall alg typ size keyData keyOff bArray bOff c in1 io1 il1 inBuff io il out oo oo1,
  des_alg alg -> In size [64; 128; 192] -> 0 <= keyOff -> keyOff + size / 8 <= zlen keyData ->
  0 <= bOff -> bOff + 8 <= zlen bArray ->
  cipher_reach alg (snd (setKey keyData keyOff (deskey_new typ size))) MODE_ENCRYPT bArray bOff c ->
  0 <= io1 -> 8 <= il1 -> io1 + il1 <= zlen in1 -> il1 mod 8 = 0 ->
  0 <= io -> 0 <= il -> io + il <= zlen inBuff -> il mod 8 = 0 ->
  let whole := sub in1 (Z.to_nat io1) (Z.to_nat il1) ++ sub inBuff (Z.to_nat io) (Z.to_nat il) in
  0 <= oo -> oo + il1 + il + 8 <= zlen out ->
  exists n n', cipher_update in1 io1 il1 oo1 (c, out) = (Ok tt, (c, out))
    /\ fst (des_doFinal inBuff io il oo (c, out)) = Ok n
    /\ fst (des_doFinal whole 0 (il1 + il) oo (c, out)) = Ok n'
    /\ n + il1 = n'.
Proof. exact C60_refuted_pf. Qed.
Print Assumptions C60_refuted.

(** what holds: doFinal alone on the whole message (C58), and update raises
    INVALID_INIT on a cipher that was not initialised *)
Theorem C60_update_partial : forall c inBuff io il oo out,
  cipher_update inBuff io il oo (c, out) = ((if c_init c then Ok tt else Err (CryptoExc 4)), (c, out)).
Proof. exact C60_update_partial_pf. Qed.
Print Assumptions C60_update_partial.

(** C61 is false: init stores the mode before it checks the class of the key and the
    IV.  For an initialised encrypting cipher, a failing init in decrypt mode
    turns it into a decrypting cipher with the old key and IV: it then behaves
    as one initialised in decrypt mode. *)
Theorem C61_refuted : forall alg k bArray bOff c c2 k2 arr2 off2 len2,
  cipher_reach alg k MODE_ENCRYPT bArray bOff c -> cipher_reach alg k MODE_DECRYPT bArray bOff c2 ->
  isInitialized k2 = true -> (len2 <> 8 \/ match k2 with KDes _ => False | _ => True end) ->
  exists c', des_init (Some k2) MODE_DECRYPT arr2 off2 len2 c = (Err (CryptoExc 1), c')
    /\ forall inBuff io il out oo,
        fst (des_doFinal inBuff io il oo (c', out)) = fst (des_doFinal inBuff io il oo (c2, out))
        /\ snd (snd (des_doFinal inBuff io il oo (c', out))) = snd (snd (des_doFinal inBuff io il oo (c2, out))).
Proof. exact C61_refuted_pf. Qed.
Print Assumptions C61_refuted.

(** what holds: a failing init changes nothing but the mode, and not even that when
    it is the key's presence or initialisation or the mode that is refused *)
Theorem C61_partial : forall k mode bArray bOff bLen c e c',
  des_init k mode bArray bOff bLen c = (Err e, c') ->
  (c' = c \/ c' = mkCipher (c_alg c) (c_init c) (Some mode) (c_engine c))
  /\ ((k = None \/ (exists k0, k = Some k0 /\ isInitialized k0 = false) \/ (mode <> 1 /\ mode <> 2)) -> c' = c).
Proof. exact C61_partial_pf. Qed.
Print Assumptions C61_partial.

(** C62 is false: on input whose length is not a multiple of 8 doFinal raises
    ValueError (not CryptoException) when encrypting without padding, and when
    decrypting; that the output stays untouched holds. *)
Theorem C62_refuted : forall alg typ size keyData keyOff bArray bOff mode c inBuff io il out oo,
  des_alg alg -> In size [64; 128; 192] -> 0 <= keyOff -> keyOff + size / 8 <= zlen keyData ->
  0 <= bOff -> bOff + 8 <= zlen bArray ->
  cipher_reach alg (snd (setKey keyData keyOff (deskey_new typ size))) mode bArray bOff c ->
  0 <= io -> 0 <= il -> io + il <= zlen inBuff -> il mod 8 <> 0 -> (mode = MODE_ENCRYPT -> alg_pkcs5 alg = false) ->
  exists c', des_doFinal inBuff io il oo (c, out) = (Err ValueError, (c', out)).
Proof. exact C62_refuted_pf. Qed.
Print Assumptions C62_refuted.

Example C62_ex :
  (let k := snd (setKey [1; 2; 3; 4; 5; 6; 7; 8; 9; 10; 11; 12; 13; 14; 15; 16] 0 (deskey_new 3 128)) in
   let c := snd (des_init_default (Some (KDes k)) 2 (cipher_new 1)) in
   let '(r, (_, out)) := des_doFinal [1; 2; 3] 0 3 0 (c, [0; 0]) in (r, out)) = (Err ValueError, [0; 0]).
Proof. vm_compute. reflexivity. Qed.
