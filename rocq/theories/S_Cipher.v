(** * Specification of the Java Card DES cipher algorithms (independent of the
      model): ALG_DES_{CBC,ECB}_{NOPAD,PKCS5} on byte strings *)
From Verif Require Import S_Base S_DES.
From Coq Require Import ZArith List.
Import ListNotations.
Open Scope Z_scope.

(** The unsigned value of the byte held by an int *)
Definition unsigned (v : Z) : Z := v mod 256.

(** The algorithm constants: CBC_NOPAD 1, CBC_PKCS5 4, ECB_NOPAD 5, ECB_PKCS5 8 *)
Definition alg_cbc (alg : Z) : bool := (alg =? 1) || (alg =? 4).
Definition alg_pkcs5 (alg : Z) : bool := (alg =? 4) || (alg =? 8).
Definition des_alg (alg : Z) : Prop := alg = 1 \/ alg = 4 \/ alg = 5 \/ alg = 8.

(** PKCS #5 padding to a multiple of 8 bytes: n bytes of value n, 1 <= n <= 8 *)
Definition pkcs5 (m : list Z) : list Z :=
  let n := (8 - length m mod 8)%nat in m ++ repeat (Z.of_nat n) n.

(** The 8-byte blocks of a string *)
Fixpoint chunk8 (l : list Z) : list block :=
  match l with
  | a :: b :: c :: d :: e :: f :: g :: h :: l' => [a; b; c; d; e; f; g; h] :: chunk8 l'
  | _ => []
  end.

(** Single DES for 8-byte keys, triple DES (EDE) for longer ones *)
Definition block_enc (key : list Z) (b : block) : block :=
  if (length key =? 8)%nat then DES_bytes key b else EDE key b.
Definition block_dec (key : list Z) (b : block) : block :=
  if (length key =? 8)%nat then DES_inv_bytes key b else DED key b.

(** The ciphertext of [m]; [key], [iv] and [m] are unsigned bytes *)
Definition jc_encrypt (alg : Z) (key iv m : list Z) : list Z :=
  let bs := chunk8 (if alg_pkcs5 alg then pkcs5 m else m) in
  concat (if alg_cbc alg then cbc_enc (block_enc key) iv bs else ecb (block_enc key) bs).
(** The decryption of [c], padding included *)
Definition jc_decrypt (alg : Z) (key iv c : list Z) : list Z :=
  let bs := chunk8 c in
  concat (if alg_cbc alg then cbc_dec (block_dec key) iv bs else ecb (block_dec key) bs).
