(** * C65-C72: keys, RSA padding, KeyBuilder and KeyPair: property theorems *)
From Verif Require Import LP_keys Py S_Base S_Number S_Key L_Py M_utils L_utils M_util L_util M_key M_digest S_Samples M_des M_cipher.
From Coq Require Import ZifyBool ZifyNat.
Ltac Zify.zify_post_hook ::= Z.div_mod_to_equations.

(** C65: setKey then getKey gives the size/8 bytes back (as signed bytes) and
    writes nothing else, whatever was done with the key before *)
Theorem C65_roundtrip : forall k keyData keyOff buf off,
  0 <= dk_size k / 8 -> 0 <= keyOff -> keyOff + dk_size k / 8 <= zlen keyData -> 0 <= off -> off + dk_size k / 8 <= zlen buf ->
  exists k', setKey keyData keyOff k = (Ok tt, k') /\ isInitialized (KDes k') = true
    /\ getSize (KDes k') = getSize (KDes k) /\ getType (KDes k') = getType (KDes k)
    /\ getKey k' off buf
      = (Ok tt, splice buf (Z.to_nat off) (map (twos 1) (sub keyData (Z.to_nat keyOff) (Z.to_nat (dk_size k / 8))))).
Proof. exact C65_roundtrip_pf. Qed.
Print Assumptions C65_roundtrip.

(** C65 is false for clearKey: it does nothing, the key stays initialised and
    readable *)
Theorem C65_clear_refuted : forall k, isInitialized (KDes k) = true ->
  exists k', clearKey k = (Ok tt, k') /\ isInitialized (KDes k') = true /\ dk_key k' = dk_key k.
Proof. exact C65_clear_refuted_pf. Qed.
Print Assumptions C65_clear_refuted.

(** a key array that is too short is accepted: the key is initialised with fewer
    bytes than its size, and reading it back raises *)
Theorem C65_short_refuted : forall k keyData keyOff buf off,
  0 <= keyOff <= zlen keyData -> zlen keyData < keyOff + dk_size k / 8 -> 0 <= off -> off + dk_size k / 8 <= zlen buf ->
  exists k', setKey keyData keyOff k = (Ok tt, k') /\ isInitialized (KDes k') = true
    /\ fst (getKey k' off buf) = Err ArrayIndexOutOfBounds.
Proof. exact C65_short_refuted_pf. Qed.
Print Assumptions C65_short_refuted.

Example C65_ex :
  (let '(r, k) := setKey [9; 1; 2; 3; -4; 5; 6; 7; 200] 1 (deskey_new 3 64) in (r, fst (getKey k 0 (repeat 0 8)), snd (getKey k 0 (repeat 0 8))))
  = (Ok tt, Ok tt, [1; 2; 3; -4; 5; 6; 7; -56])
  /\ fst (getKey (snd (setKey [1; 2; 3] 0 (deskey_new 3 64))) 0 (repeat 0 8)) = Err ArrayIndexOutOfBounds.
Proof. split; vm_compute; reflexivity. Qed.

(** C66 for private keys: after any sequence of setter calls the key is
    initialised iff both parts have been set (a modulus of another length is
    refused and does not count); the getters then return the bytes last set, write
    nothing else and return their number; otherwise they raise
    UNINITIALIZED_KEY and write nothing. *)
Theorem C66_private : forall size h buf off, Forall in_bounds h ->
  let k := run_priv h (privkey_new size) in
  match last_exp h, last_mod size h with
  | Some e, Some m => isInitialized (KPriv k) = true
      /\ (0 <= off -> off + zlen e <= zlen buf -> priv_getExponent k off buf = (Ok (zlen e), splice buf (Z.to_nat off) e))
      /\ (0 <= off -> off + zlen m <= zlen buf -> priv_getModulus k off buf = (Ok (zlen m), splice buf (Z.to_nat off) m))
  | _, _ => isInitialized (KPriv k) = false
      /\ priv_getExponent k off buf = (Err (CryptoExc 2), buf) /\ priv_getModulus k off buf = (Err (CryptoExc 2), buf)
  end.
Proof. exact C66_private_pf. Qed.
Print Assumptions C66_private.

(** C66 for public keys, provided pycrypto is installed and accepts the
    components *)
Theorem C66_public : forall X size h buf off, pc_avail X = true -> (forall n e, exists r, pc_construct X n e = Ok r) -> Forall in_bounds h ->
  let k := run_pub X h (pubkey_new size) in
  match last_exp h, last_mod size h with
  | Some e, Some m => isInitialized (KPub k) = true
      /\ (0 <= off -> off + zlen e <= zlen buf -> pub_getExponent k off buf = (Ok (zlen e), splice buf (Z.to_nat off) e))
      /\ (0 <= off -> off + zlen m <= zlen buf -> pub_getModulus k off buf = (Ok (zlen m), splice buf (Z.to_nat off) m))
  | _, _ => isInitialized (KPub k) = false
      /\ pub_getExponent k off buf = (Err (CryptoExc 2), buf) /\ pub_getModulus k off buf = (Err (CryptoExc 2), buf)
  end.
Proof. exact C66_public_pf. Qed.
Print Assumptions C66_public.

(** without pycrypto no public key is ever initialised: the setter that completes
    the key raises NO_SUCH_ALGORITHM *)
Theorem C66_unavailable : forall X size h b f l, pc_avail X = false ->
  let k := run_pub X h (pubkey_new size) in
  isInitialized (KPub k) = false
  /\ (pk_mod k <> None -> fst (pub_setExponent X b f l k) = Err (CryptoExc 3)).
Proof. exact C66_unavailable_pf. Qed.
Print Assumptions C66_unavailable.

(** a modulus of the wrong length is refused and changes nothing: INVALID_INIT for
    public, ILLEGAL_VALUE for private keys *)
Theorem C66_modulus_length : forall X b f l kp kv,
  (l <> pk_size kp / 8 -> pub_setModulus X b f l kp = (Err (CryptoExc 4), kp))
  /\ (l <> vk_size kv / 8 -> priv_setModulus b f l kv = (Err (CryptoExc 1), kv)).
Proof. exact C66_modulus_length_pf. Qed.
Print Assumptions C66_modulus_length.

Example C66_ex :
  let h := [SExp [17; 0] 0 2; SMod [1; 2; 3] 0 1; SMod [1; 2; 3] 1 2; SExp [3] 0 1] in
  last_exp h = Some [3] /\ last_mod 16 h = Some [2; 3]
  /\ pub_getModulus (run_pub X0 h (pubkey_new 16)) 1 [0; 0; 0; 0] = (Ok 2, [0; 2; 3; 0])
  /\ priv_getExponent (run_priv h (privkey_new 16)) 1 [0; 0; 0; 0] = (Ok 1, [0; 3; 0; 0]).
Proof. repeat split; vm_compute; reflexivity. Qed.

(** C67 is false: once a public key is initialised, further setter calls have no
    effect on the ciphers: they go on using the components first set, although
    the getters show the new ones (C66). *)
Theorem C67_refuted : forall X size h1 h2 rnd c inBuff io il oo out,
  pc_avail X = true -> (forall n e, exists r, pc_construct X n e = Ok r) -> Forall in_bounds h1 -> Forall in_bounds h2 ->
  isInitialized (KPub (run_pub X h1 (pubkey_new size))) = true ->
  rsa_doFinal X rnd c (KPub (run_pub X (h1 ++ h2) (pubkey_new size))) inBuff io il oo out
  = rsa_doFinal X rnd c (KPub (run_pub X h1 (pubkey_new size))) inBuff io il oo out.
Proof. exact C67_refuted_pf. Qed.
Print Assumptions C67_refuted.

Example C67_ex :
  let h1 := [SExp [3] 0 1; SMod [251; 0] 0 2] in
  let h2 := [SMod [241; 0] 0 2] in
  let go h := rsa_doFinal X0 [] (mkCipher 12 true (Some 2) None) (KPub (run_pub X0 h (pubkey_new 16))) [10; 0] 0 2 0 [99; 99] in
  isInitialized (KPub (run_pub X0 h1 (pubkey_new 16))) = true /\ go (h1 ++ h2) = (Ok 1, [15; 99])
  /\ go (SExp [3] 0 1 :: h2) = (Ok 1, [2; 99]).
Proof. repeat split; vm_compute; reflexivity. Qed.

(** C70 is false: turning a number into an array and back divides it by sixteen,
    because the last hexadecimal digit is dropped (the code expects the trailing
    L of a Python 2 long). *)
Theorem C70_refuted : forall n, 0 <= n ->
  arrayTolong (longToArray n) = n / 16 /\ (0 < n -> arrayTolong (longToArray n) <> n).
Proof. exact C70_refuted_pf. Qed.
Print Assumptions C70_refuted.

(** what holds: the second conversion is the little-endian value of any array, and
    the first gives the shortest little-endian array of unsigned bytes for n/16
    (missing from C70: the low digit) *)
Theorem C70_partial :
  (forall l, arrayTolong l = le_value l)
  /\ forall n, 0 <= n -> le_value (longToArray n) = n / 16 /\ Forall ubyte (longToArray n)
      /\ (longToArray n <> [] -> last (longToArray n) 0 <> 0).
Proof. exact C70_partial_pf. Qed.
Print Assumptions C70_partial.

Example C70_ex : longToArray 4867 = [48; 1] /\ arrayTolong [3; 19] = 4867 /\ arrayTolong (longToArray 4867) = 304.
Proof. repeat split; vm_compute; reflexivity. Qed.

(** C70 is false for the getters too: whatever RSA key is generated, they show n/16
    and e/16 in little-endian order, so never a positive modulus or exponent *)
Theorem C70_getters_refuted : forall X n s r buf off, pc_avail X = true -> pc_generate X n = Ok r -> 0 <= r_e r -> 0 <= r_n r ->
  keypair_new 1 n = Ok s \/ keypair_new 2 n = Ok s ->
  0 <= off -> off + zlen (longToArray (r_e r)) <= zlen buf -> off + zlen (longToArray (r_n r)) <= zlen buf ->
  exists s' ebytes nbytes, genKeyPair X s = (Ok tt, s')
    /\ pub_getExponent (kp_pub s') off buf = (Ok (zlen ebytes), splice buf (Z.to_nat off) ebytes)
    /\ pub_getModulus (kp_pub s') off buf = (Ok (zlen nbytes), splice buf (Z.to_nat off) nbytes)
    /\ le_value ebytes = r_e r / 16 /\ le_value nbytes = r_n r / 16.
Proof. exact C70_getters_refuted_pf. Qed.
Print Assumptions C70_getters_refuted.

(** C68 is false: the "exponent" of a generated private key is the public exponent
    (without its low digit), its "modulus" the private exponent (likewise) *)
Theorem C68_refuted : forall X n s r buf off, pc_avail X = true -> pc_generate X n = Ok r ->
  0 <= r_e r -> 0 <= r_d r ->
  keypair_new 1 n = Ok s \/ keypair_new 2 n = Ok s ->
  0 <= off -> off + zlen (longToArray (r_e r)) <= zlen buf -> off + zlen (longToArray (r_d r)) <= zlen buf ->
  exists s' ebytes dbytes, genKeyPair X s = (Ok tt, s')
    /\ priv_getExponent (kp_priv s') off buf = (Ok (zlen ebytes), splice buf (Z.to_nat off) ebytes)
    /\ priv_getModulus (kp_priv s') off buf = (Ok (zlen dbytes), splice buf (Z.to_nat off) dbytes)
    /\ le_value ebytes = r_e r / 16 /\ le_value dbytes = r_d r / 16.
Proof. exact C68_refuted_pf. Qed.
Print Assumptions C68_refuted.

(** n = 61*53, e = 17, d = 413: the private key claims exponent 1 and modulus 25 *)
Example C68_ex : let '(r, s) := genKeyPair X0 (mkPair (Some 1) (Some 16) (pubkey_new 16) (privkey_new 16)) in
  r = Ok tt /\ priv_getExponent (kp_priv s) 0 [0; 0] = (Ok 1, [1; 0]) /\ priv_getModulus (kp_priv s) 0 [0; 0] = (Ok 1, [25; 0])
  /\ pub_getModulus (kp_pub s) 0 [0; 0] = (Ok 1, [202; 0]).
Proof. repeat split; vm_compute; reflexivity. Qed.

(** C69: for every random stream, key size and message, a successful encoding has
    the size of the key, the form 0,2,PS,0,M with at least eight non-zero bytes PS,
    and decoding gives the message back *)
Theorem C69_roundtrip : forall rnd size Msg buf, Forall ubyte rnd ->
  EME_enc rnd size Msg = Ok buf ->
  zlen buf = size / 8
  /\ (exists PS, buf = [0; 2] ++ PS ++ [0] ++ Msg /\ 8 <= zlen PS /\ Forall (fun x => 1 <= x <= 255) PS)
  /\ EME_dec buf = Ok Msg.
Proof. exact C69_roundtrip_pf. Qed.
Print Assumptions C69_roundtrip.

(** encoding succeeds exactly for messages that fit, given enough non-zero random
    bytes; others raise ILLEGAL_VALUE *)
Theorem C69_total : forall rnd size Msg,
  (zlen Msg <= size / 8 - 11 -> size / 8 - zlen Msg - 3 <= zlen (filter (fun x => negb (x =? 0)) rnd) -> exists buf, EME_enc rnd size Msg = Ok buf)
  /\ (size / 8 - 11 < zlen Msg -> EME_enc rnd size Msg = Err (CryptoExc 1)).
Proof. exact C69_total_pf. Qed.
Print Assumptions C69_total.

Example C69_ex : EME_enc [0; 1; 2; 3; 0; 4; 5; 6; 7; 8; 9] 112 [0; 7; 0] = Ok [0; 2; 1; 2; 3; 4; 5; 6; 7; 8; 0; 0; 7; 0]
  /\ EME_dec [0; 2; 1; 2; 3; 4; 5; 6; 7; 8; 0; 0; 7; 0] = Ok [0; 7; 0] /\ EME_enc [] 112 [1; 2; 3; 4] = Err (CryptoExc 1).
Proof. repeat split; vm_compute; reflexivity. Qed.

(** unpadding is laxer than the standard: a block with a single filler byte is
    accepted, and a block without separator raises ValueError, not a
    CryptoException *)
Theorem C69_lax : forall PS Msg, Forall (fun x => 1 <= x <= 255) PS -> PS <> [] ->
  EME_dec ([0; 2] ++ PS ++ [0] ++ Msg) = Ok Msg /\ EME_dec ([0; 2] ++ PS) = Err ValueError.
Proof. exact C69_lax_pf. Qed.
Print Assumptions C69_lax.

(** C71 for the types 1 to 5: an uninitialised key of that type and size *)
Theorem C71_partial : forall t l b, 1 <= t <= 5 ->
  exists k, buildKey_args [t; l; b] = Ok (Some k) /\ getType k = t /\ getSize k = l /\ isInitialized k = false.
Proof. exact C71_partial_pf. Qed.
Print Assumptions C71_partial.

(** C71 is false: no other type raises.  A CRT key (6) is an ordinary private key
    whose type reads 5; any other type gives None; and only three or four
    arguments are accepted, four raising NotImplementedError *)
Theorem C71_refuted : forall l b,
  (exists k, buildKey_args [6; l; b] = Ok (Some k) /\ getType k = 5 /\ getSize k = l)
  /\ (forall t, t < 1 \/ 6 < t -> buildKey_args [t; l; b] = Ok None)
  /\ (forall t c, buildKey_args [t; l; b; c] = Err NotImplementedError).
Proof. exact C71_refuted_pf. Qed.
Print Assumptions C71_refuted.

Example C71_ex : buildKey_args [3; 128; 0] = Ok (Some (KDes (deskey_new 3 128))) /\ buildKey_args [15; 128; 0] = Ok None.
Proof. split; reflexivity. Qed.

(** a pair with an initialised key refuses to generate and is unchanged *)
Theorem C72_refuses : forall X s,
  isInitialized (KPub (kp_pub s)) = true \/ isInitialized (KPriv (kp_priv s)) = true ->
  genKeyPair X s = (Err (CryptoExc 1), s).
Proof. exact C72_refuses_pf. Qed.
Print Assumptions C72_refuses.

(** a new RSA pair holds uninitialised keys; generation makes both initialised, of
    the requested size, and both ciphers use the same generated key *)
Theorem C72_generates : forall X a n r, pc_avail X = true -> a = 1 \/ a = 2 -> pc_generate X n = Ok r ->
  exists s s', keypair_new a n = Ok s
    /\ isInitialized (KPub (kp_pub s)) = false /\ isInitialized (KPriv (kp_priv s)) = false
    /\ genKeyPair X s = (Ok tt, s')
    /\ isInitialized (KPub (kp_pub s')) = true /\ isInitialized (KPriv (kp_priv s')) = true
    /\ getSize (KPub (kp_pub s')) = n /\ getSize (KPriv (kp_priv s')) = n
    /\ the_rsa (KPub (kp_pub s')) = Ok r /\ the_rsa (KPriv (kp_priv s')) = Ok r
    /\ genKeyPair X s' = (Err (CryptoExc 1), s').
Proof. exact C72_generates_pf. Qed.
Print Assumptions C72_generates.

(** other algorithms, and a missing pycrypto, raise NO_SUCH_ALGORITHM *)
Theorem C72_unsupported : forall a n,
  (a <> 1 -> a <> 2 -> keypair_new a n = Err (CryptoExc 3))
  /\ (forall X s, (a = 1 \/ a = 2) -> pc_avail X = false -> keypair_new a n = Ok s -> genKeyPair X s = (Err (CryptoExc 3), s)).
Proof. exact C72_unsupported_pf. Qed.
Print Assumptions C72_unsupported.

(** C72 is false for a pair built from two uninitialised keys: with pycrypto,
    genKeyPair raises AttributeError *)
Theorem C72_refuted : forall X p v, pc_avail X = true ->
  isInitialized (KPub p) = false -> isInitialized (KPriv v) = false ->
  exists s, keypair_of (KPub p) (KPriv v) = Ok s /\ genKeyPair X s = (Err AttributeError, s).
Proof. exact C72_refuted_pf. Qed.
Print Assumptions C72_refuted.

(** the constructor refuses keys of the wrong kind *)
Theorem C72_kinds : forall a b s, keypair_of a b = Ok s <-> exists p v, a = KPub p /\ b = KPriv v /\ s = mkPair None None p v.
Proof. exact C72_kinds_pf. Qed.
Print Assumptions C72_kinds.

Example C72_ex : exists s, keypair_new 2 16 = Ok s /\ fst (genKeyPair X0 s) = Ok tt /\ fst (genKeyPair X0 (snd (genKeyPair X0 s))) = Err (CryptoExc 1).
Proof. eexists. split; [reflexivity|]. split; vm_compute; reflexivity. Qed.
