(** * C88-C93: the RSA cipher and the factories: property theorems *)
From Verif Require Import LP_rsa Py S_Base S_Number S_Key L_Py M_utils L_utils M_util L_util M_key LP_keys M_des M_cipher LP_cipher M_signature S_RSA M_digest S_Samples.
From Coq Require Import ZifyBool ZifyNat.
Ltac Zify.zify_post_hook ::= Z.div_mod_to_equations.

(** C88: what raw RSA does write: the shortest little-endian bytes of a sixteenth of
    the number *)
Theorem C88_exact_partial : forall X rnd k r mode c inBuff io oo out y,
  rsa_ready 12 k mode c -> the_rsa k = Ok r -> in_range inBuff io (getSize k / 8) ->
  rsa_op X k r mode (le_value (input inBuff io (getSize k / 8))) = Ok y -> 0 <= y ->
  exists B, le_value B = y / 16 /\ Forall ubyte B /\ (B <> [] -> last B 0 <> 0)
    /\ (in_range out oo (zlen B) ->
        rsa_doFinal X rnd c k inBuff io (getSize k / 8) oo out = (Ok (zlen B), splice out (Z.to_nat oo) B)).
Proof. exact C88_exact_partial_pf. Qed.
Print Assumptions C88_exact_partial.

(** so the number written is wrong whenever it is positive *)
Theorem C88_refuted : forall X rnd k r mode c inBuff io oo out y n out',
  rsa_ready 12 k mode c -> the_rsa k = Ok r -> in_range inBuff io (getSize k / 8) ->
  rsa_op X k r mode (le_value (input inBuff io (getSize k / 8))) = Ok y -> 0 < y -> 0 <= oo ->
  rsa_doFinal X rnd c k inBuff io (getSize k / 8) oo out = (Ok n, out') ->
  le_value (input out' oo n) = y / 16 /\ le_value (input out' oo n) <> y.
Proof. exact C88_refuted_pf. Qed.
Print Assumptions C88_refuted.

Theorem C88_full_refuted : ~ C88_full.
Proof. exact C88_full_refuted_pf. Qed.
Print Assumptions C88_full_refuted.

(** what the numbers are for X0: 10^17 mod 3233 = 1863, 1863 / 16 = 116 *)
Example C88_ex :
  let k := KPub (mkPub 16 true (Some []) (Some []) (Some (mkRsa 3233 17 413 61 53 38))) in
  let c := mkCipher 12 true (Some 2) None in
  rsa_ready 12 k 2 c /\ rsa_op X0 k (mkRsa 3233 17 413 61 53 38) 2 (le_value [10; 0]) = Ok (10 ^ 17 mod 3233)
  /\ rsa_doFinal X0 [] c k [10; 0] 0 2 0 [9; 9] = (Ok 1, [10 ^ 17 mod 3233 / 16; 9]).
Proof. split; [exists (cipher_new 12); split; reflexivity|]. split; vm_compute; reflexivity. Qed.

(** decrypting a ciphertext whose RSA decryption is any correctly padded block raises
    ILLEGAL_VALUE and writes nothing *)
Theorem C89_refuted : forall X rnd k r c inBuff io oo out msg block,
  rsa_ready 10 k 1 c -> the_rsa k = Ok r -> in_range inBuff io (getSize k / 8) ->
  pkcs1_block msg block -> Forall ubyte msg ->
  rsa_op X k r 1 (le_value (input inBuff io (getSize k / 8))) = Ok (le_value block) ->
  rsa_doFinal X rnd c k inBuff io (getSize k / 8) oo out = (Err (CryptoExc 1), out).
Proof. exact C89_refuted_pf. Qed.
Print Assumptions C89_refuted.

Theorem C89_full_refuted : ~ C89_full.
Proof. exact C89_full_refuted_pf. Qed.
Print Assumptions C89_full_refuted.

(** a correctly padded block, textbook RSA with exponent 1 *)
Example C89_ex : let r := mkRsa 0 0 0 0 0 0 in
  let X := mkPyCrypto true (fun _ _ => Ok r) (fun _ => Ok r) (fun _ x => Ok x) (fun _ x => Ok x) in
  let block := [0; 2; 1; 1; 1; 1; 1; 1; 1; 1; 0; 7] in
  let k := KPriv (mkPriv 96 true (Some []) (Some []) (Some r)) in
  rsa_ready 10 k 1 (mkCipher 10 true (Some 1) None) /\ the_rsa k = Ok r /\ in_range block 0 (getSize k / 8)
  /\ pkcs1_block [7] block /\ zlen block = getSize k / 8 /\ rsa_op X k r 1 (le_value (input block 0 (getSize k / 8))) = Ok (le_value block).
Proof. exact C89_sample. Qed.

(** a private key whose components were set is accepted by init, and every doFinal on
    size/8 bytes raises AttributeError *)
Theorem C90_refuted : forall X rnd size h c inBuff io oo out mode,
  let k := KPriv (run_priv h (privkey_new size)) in
  rsa_ready 12 k mode c -> in_range inBuff io (size / 8) ->
  rsa_doFinal X rnd c k inBuff io (size / 8) oo out = (Err AttributeError, out).
Proof. exact C90_refuted_pf. Qed.
Print Assumptions C90_refuted.

(** the key is initialised and init succeeds as soon as both components are set *)
Theorem C90_accepted : forall size h mode, Forall in_bounds h -> last_exp h <> None -> last_mod size h <> None -> mode = 1 \/ mode = 2 ->
  let k := KPriv (run_priv h (privkey_new size)) in
  isInitialized k = true /\ exists c, rsa_ready 12 k mode c.
Proof. exact C90_accepted_pf. Qed.
Print Assumptions C90_accepted.

Theorem C90_full_refuted : ~ C90_full.
Proof. exact C90_full_refuted_pf. Qed.
Print Assumptions C90_full_refuted.

Example C90_ex : let h := [SExp [3] 0 1; SMod [251; 0] 0 2] in
  Forall in_bounds h /\ last_exp h = Some [3] /\ last_mod 16 h = Some [251; 0].
Proof. split; [repeat constructor; vm_compute; congruence|]. split; reflexivity. Qed.

(** init succeeds exactly for initialised RSA keys and the two modes; when it raises, the
    cipher stays unusable if it was, and its algorithm and engine are the same *)
Theorem C91_init : forall key mode c,
  (fst (rsa_init key mode c) = Ok tt <->
     exists k, key = Some k /\ isInitialized k = true /\ (mode = 1 \/ mode = 2) /\ forall d, k <> KDes d)
  /\ c_alg (snd (rsa_init key mode c)) = c_alg c
  /\ (fst (rsa_init key mode c) = Ok tt -> c_init (snd (rsa_init key mode c)) = true)
  /\ (forall e, fst (rsa_init key mode c) = Err e -> c_init (snd (rsa_init key mode c)) = c_init c)
  /\ (key = None -> fst (rsa_init key mode c) = Err (CryptoExc 1))
  /\ (forall k, key = Some k -> isInitialized k = false -> rsa_init key mode c = (Err (CryptoExc 2), c))
  /\ (forall k, key = Some k -> isInitialized k = true -> mode <> 1 -> mode <> 2 -> rsa_init key mode c = (Err (CryptoExc 1), c))
  /\ (forall d, key = Some (KDes d) -> isInitialized (KDes d) = true -> fst (rsa_init key mode c) = Err (CryptoExc 1)).
Proof. exact C91_init_pf. Qed.
Print Assumptions C91_init.

(** an RSA cipher that was not initialised, an input range that is not in the array, an
    input of the wrong size: doFinal raises and writes nothing *)
Theorem C91_errors : forall X rnd c k mode inBuff io il oo out,
  (c_init c = false -> rsa_doFinal X rnd c k inBuff io il oo out = (Err (CryptoExc 4), out))
  /\ (rsa_ready 12 k mode c \/ rsa_ready 10 k mode c -> 0 <= io -> 0 < il -> zlen inBuff < io + il ->
      rsa_doFinal X rnd c k inBuff io il oo out = (Err ArrayIndexOutOfBounds, out))
  /\ (rsa_ready 12 k mode c \/ (rsa_ready 10 k mode c /\ mode = 1) -> in_range inBuff io il -> il <> getSize k / 8 ->
      rsa_doFinal X rnd c k inBuff io il oo out = (Err (CryptoExc 1), out))
  /\ (rsa_ready 10 k 2 c -> in_range inBuff io il -> getSize k / 8 - 11 < il ->
      rsa_doFinal X rnd c k inBuff io il oo out = (Err (CryptoExc 1), out)).
Proof. exact C91_errors_pf. Qed.
Print Assumptions C91_errors.

Example C91_ex :
  let k := KPub (mkPub 16 true (Some []) (Some []) (Some (mkRsa 3233 17 413 61 53 38))) in
  rsa_init (Some k) 2 (cipher_new 10) = (Ok tt, mkCipher 10 true (Some 2) None)
  /\ rsa_doFinal X0 [] (cipher_new 12) k [10; 0] 0 2 0 [9; 9] = (Err (CryptoExc 4), [9; 9])
  /\ rsa_doFinal X0 [] (mkCipher 12 true (Some 2) None) k [10; 0] 1 2 0 [9; 9] = (Err ArrayIndexOutOfBounds, [9; 9])
  /\ rsa_doFinal X0 [] (mkCipher 12 true (Some 2) None) k [10; 0] 1 1 0 [9; 9] = (Err (CryptoExc 1), [9; 9])
  /\ rsa_doFinal X0 [] (mkCipher 10 true (Some 2) None) k [10; 0] 1 1 0 [9; 9] = (Err (CryptoExc 1), [9; 9]).
Proof. repeat split; vm_compute; reflexivity. Qed.

(** a supported cipher and padding give the cipher of the corresponding algorithm, which
    is uninitialised *)
Theorem C92_supported_partial : forall c p ext a, jc_algorithm c p = Some a ->
  cipher_getInstance [c; p; ext] = cipher_getInstance [a; ext]
  /\ cipher_getInstance [a; ext] = Ok (mkCipher a false None None).
Proof. exact C92_supported_partial_pf. Qed.
Print Assumptions C92_supported_partial.

(** with two arguments the six supported algorithms are accepted, all others refused *)
Theorem C92_two_arguments : forall a ext,
  cipher_getInstance [a; ext]
  = if existsb (Z.eqb a) [1; 4; 5; 8; 10; 12] then Ok (mkCipher a false None None) else Err (CryptoExc 3).
Proof. exact C92_two_arguments_pf. Qed.
Print Assumptions C92_two_arguments.

(** an unknown cipher raises UnboundLocalError, an unknown padding TypeError *)
Theorem C92_refuted : forall c p ext, jc_algorithm c p = None ->
  cipher_getInstance [c; p; ext] = Err (if existsb (Z.eqb c) [3; 4; 7] then TypeError else UnboundLocalError).
Proof. exact C92_refuted_pf. Qed.
Print Assumptions C92_refuted.

Theorem C92_full_refuted : ~ C92_full.
Proof. exact C92_full_refuted_pf. Qed.
Print Assumptions C92_full_refuted.

(** RSA with PKCS #1 padding; RSA with PKCS #5 padding; DES MAC *)
Example C92_ex : jc_algorithm 7 7 = Some 10 /\ cipher_getInstance [7; 7; 0] = Ok (mkCipher 10 false None None)
  /\ jc_algorithm 7 6 = None /\ cipher_getInstance [7; 6; 0] = Err TypeError
  /\ jc_algorithm 9 1 = None /\ cipher_getInstance [9; 1; 0] = Err UnboundLocalError
  /\ cipher_getInstance [2; 0] = Err (CryptoExc 3).
Proof. repeat split. Qed.

(** *** C93 *)
Theorem C93_refuted : forall args, signature_getInstance args = Err TypeError.
Proof. exact C93_refuted_pf. Qed.
Print Assumptions C93_refuted.

Theorem C93_full_refuted : ~ C93_full.
Proof. exact C93_full_refuted_pf. Qed.
Print Assumptions C93_full_refuted.
