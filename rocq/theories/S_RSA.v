(** * The RSA cipher: what its results should be, and the full statements of the
      properties C88-C90, C92 and C93 *)
From Verif Require Import Py S_Base S_Number S_Key M_key M_cipher M_signature.

(** [c] is an RSA cipher of algorithm [alg], in any state before, after a
    successful init with the key [k] and [mode].  (Its other methods do not
    change it.) *)
Definition rsa_ready (alg : Z) (k : akey) (mode : Z) (c : cipher) : Prop :=
  exists c0, c_alg c0 = alg /\ rsa_init (Some k) mode c0 = (Ok tt, c).
(** The number that pycrypto computes from [x]: its public operation for the mode
    ENCRYPT (2) and for public keys, its private operation otherwise *)
Definition rsa_op (X : pycrypto) (k : akey) (r : rsa) (mode x : Z) : res Z :=
  if mode =? 2 then pc_encrypt X r x
  else match k with KPub _ => pc_encrypt X r x | _ => pc_decrypt X r x end.
(** The [il] bytes at [io] *)
Definition input (inBuff : list Z) (io il : Z) : list Z := sub inBuff (Z.to_nat io) (Z.to_nat il).
Definition in_range (l : list Z) (off len : Z) : Prop := 0 <= off /\ 0 <= len /\ off + len <= zlen l.
(** A PKCS #1 v1.5 encryption block *)
Definition pkcs1_block (msg block : list Z) : Prop :=
  exists PS, block = [0; 2] ++ PS ++ [0] ++ msg /\ 8 <= zlen PS /\ Forall (fun x => 1 <= x <= 255) PS.

(** C88: raw RSA gives the number as size/8 bytes *)
Definition C88_full : Prop := forall X rnd k r mode c inBuff io oo out y,
  rsa_ready 12 k mode c -> the_rsa k = Ok r ->
  in_range inBuff io (getSize k / 8) -> in_range out oo (getSize k / 8) ->
  rsa_op X k r mode (le_value (input inBuff io (getSize k / 8))) = Ok y -> 0 <= y < 256 ^ (getSize k / 8) ->
  exists B, rsa_doFinal X rnd c k inBuff io (getSize k / 8) oo out = (Ok (getSize k / 8), splice out (Z.to_nat oo) B)
    /\ zlen B = getSize k / 8 /\ le_value B = y.
(** C89: decryption removes PKCS #1 padding *)
Definition C89_full : Prop := forall X rnd k r c inBuff io oo out msg block,
  rsa_ready 10 k 1 c -> the_rsa k = Ok r -> in_range inBuff io (getSize k / 8) ->
  pkcs1_block msg block -> zlen block = getSize k / 8 -> Forall ubyte msg ->
  rsa_op X k r 1 (le_value (input inBuff io (getSize k / 8))) = Ok (le_value block) ->
  in_range out oo (zlen msg) ->
  rsa_doFinal X rnd c k inBuff io (getSize k / 8) oo out = (Ok (zlen msg), splice out (Z.to_nat oo) msg).
(** C90: a private key whose components have been set can be used *)
Definition C90_full : Prop := forall X rnd size h c inBuff io oo out mode,
  let k := KPriv (run_priv h (privkey_new size)) in
  isInitialized k = true -> rsa_ready 12 k mode c -> in_range inBuff io (size / 8) -> in_range out oo (size / 8) ->
  (forall r x, exists y, pc_encrypt X r x = Ok y /\ 0 <= y < 256 ^ (size / 8)) ->
  (forall r x, exists y, pc_decrypt X r x = Ok y /\ 0 <= y < 256 ^ (size / 8)) ->
  exists n, fst (rsa_doFinal X rnd c k inBuff io (size / 8) oo out) = Ok n.
(** C92: the algorithm constant of a cipher and padding, if supported *)
Definition jc_algorithm (cipherAlgorithm padding : Z) : option Z :=
  match cipherAlgorithm, padding with
  | 7, 1 => Some 12 | 7, 7 => Some 10      (* RSA: NOPAD, PKCS1 *)
  | 3, 1 => Some 1  | 3, 6 => Some 4       (* DES_CBC: NOPAD, PKCS5 *)
  | 4, 1 => Some 5  | 4, 6 => Some 8       (* DES_ECB: NOPAD, PKCS5 *)
  | _, _ => None
  end.
Definition C92_full : Prop := forall c p ext,
  cipher_getInstance [c; p; ext]
  = match jc_algorithm c p with Some a => cipher_getInstance [a; ext] | None => Err (CryptoExc 3) end.
(** C93: Signature.getInstance knows ALG_RSA_SHA_PKCS1 (10) and refuses the others *)
Definition C93_full : Prop := forall alg ext,
  signature_getInstance [alg; ext] = if alg =? 10 then Ok 10 else Err (CryptoExc 3).
