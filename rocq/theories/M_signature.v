(** * Model of pythoncard/security/signature.py, and of Cipher.getInstance with a
      variable number of arguments *)
From Verif Require Import Py M_key M_cipher.

(** The built-in [len] applied to a bool *)
Definition len_of_bool (b : bool) : res Z := Err TypeError.

(** pythoncard/security/signature.py:11, 47-59.  Line 49 computes [len(args == 2)]:
    a tuple never equals an int, and a bool has no len.  The branch for three
    arguments unpacks four variables: ValueError.  CryptoException is not
    imported in this file: NameError.  The result stands for a
    _RSASHASignature of the given algorithm. *)
Definition ALG_RSA_SHA_PKCS1 := 10.
Definition signature_getInstance (args : list Z) : res Z :=
  let? n := len_of_bool false in
  let? algorithm :=
    (if negb (n =? 0) then
       match args with [algorithm; _] => Ok algorithm | _ => Err ValueError end
     else if zlen args =? 3 then Err ValueError
     else Err TypeError) in
  if algorithm =? ALG_RSA_SHA_PKCS1 then Ok algorithm else Err NameError.

(** pythoncardx/crypto/cipher.py:73-95 *)
Definition cipher_getInstance (args : list Z) : res cipher :=
  match args with
  | [algorithm; externalAccess] => getInstance2 algorithm
  | [cipherAlgorithm; paddingAlgorithm; externalAccess] => getInstance3 cipherAlgorithm paddingAlgorithm
  | _ => Err TypeError
  end.
