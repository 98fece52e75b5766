(** * Model of pythoncardx/crypto/cipher.py *)
From Verif Require Import Py M_utils M_util M_des M_key.

(** cipher.py:20-46, 48-50 *)
Definition ALG_DES_CBC_NOPAD := 1.
Definition ALG_DES_CBC_PKCS5 := 4.
Definition ALG_DES_ECB_NOPAD := 5.
Definition ALG_DES_ECB_PKCS5 := 8.
Definition ALG_RSA_PKCS1 := 10.
Definition ALG_RSA_NOPAD := 12.
Definition MODE_DECRYPT := 1.
Definition MODE_ENCRYPT := 2.
(** cipher.py:51-71 *)
Definition CIPHER_DES_CBC := 3.
Definition CIPHER_DES_ECB := 4.
Definition CIPHER_RSA := 7.
Definition CPAD_NOPAD := 1.
Definition CPAD_PKCS5 := 6.
Definition CPAD_PKCS1 := 7.

(** The pyDes object held by a DES cipher *)
Inductive engine : Set :=
| EDes (d : des)
| ETdes (d : tdes).

(** Attributes algorithm, initialized, mode (missing: [None]), _cipher (missing:
    [None]).  The class is determined by the algorithm. *)
Record cipher : Set := mkCipher { c_alg : Z; c_init : bool; c_mode : option Z; c_engine : option engine }.

(** cipher.py:106-108, 134-135, 202-206 *)
Definition cipher_new (alg : Z) : cipher := mkCipher alg false None None.
Definition is_rsa (alg : Z) : bool := (alg =? ALG_RSA_NOPAD) || (alg =? ALG_RSA_PKCS1).
Definition is_des (alg : Z) : bool :=
  (alg =? ALG_DES_ECB_NOPAD) || (alg =? ALG_DES_ECB_PKCS5) || (alg =? ALG_DES_CBC_NOPAD) || (alg =? ALG_DES_CBC_PKCS5).

(** cipher.py:96-104; [None]: the Python value None, for which line 103 raises
    TypeError *)
Definition getInstance_alg (algorithm : option Z) : res cipher :=
  match algorithm with
  | Some a => if is_rsa a || is_des a then Ok (cipher_new a) else Err (CryptoExc NO_SUCH_ALGORITHM)
  | None => Err TypeError
  end.
(** cipher.py:74-77 *)
Definition getInstance2 (algorithm : Z) : res cipher := getInstance_alg (Some algorithm).
(** cipher.py:78-93; an unknown cipher leaves the variable [algorithm] unbound *)
Definition getInstance3 (cipherAlgorithm paddingAlgorithm : Z) : res cipher :=
  if cipherAlgorithm =? CIPHER_RSA then
    getInstance_alg (if paddingAlgorithm =? CPAD_NOPAD then Some ALG_RSA_NOPAD
                     else if paddingAlgorithm =? CPAD_PKCS1 then Some ALG_RSA_PKCS1 else None)
  else if cipherAlgorithm =? CIPHER_DES_CBC then
    getInstance_alg (if paddingAlgorithm =? CPAD_NOPAD then Some ALG_DES_CBC_NOPAD
                     else if paddingAlgorithm =? CPAD_PKCS5 then Some ALG_DES_CBC_PKCS5 else None)
  else if cipherAlgorithm =? CIPHER_DES_ECB then
    getInstance_alg (if paddingAlgorithm =? CPAD_NOPAD then Some ALG_DES_ECB_NOPAD
                     else if paddingAlgorithm =? CPAD_PKCS5 then Some ALG_DES_ECB_PKCS5 else None)
  else Err UnboundLocalError.

(** cipher.py:110-117; [None]: an argument that is not a Key *)
Definition base_cipher_init (theKey : option akey) (theMode : Z) : M cipher akey :=
  match theKey with
  | None => raise (CryptoExc ILLEGAL_VALUE)
  | Some k =>
      if negb (isInitialized k) then raise (CryptoExc UNINITIALIZED_KEY)
      else if negb ((theMode =? MODE_ENCRYPT) || (theMode =? MODE_DECRYPT)) then raise (CryptoExc ILLEGAL_VALUE)
      else
        s <- get ;;
        put (mkCipher (c_alg s) (c_init s) (Some theMode) (c_engine s)) ;;;
        ret k
  end.

(** cipher.py:124-126 (inherited by both classes): the data is ignored.  The state
    is the cipher and outBuff. *)
Definition cipher_update (inBuff : list Z) (inOffset inLength outOffset : Z) : M (cipher * list Z) unit :=
  s <- get ;;
  if negb (c_init (fst s)) then raise (CryptoExc INVALID_INIT) else ret tt.

(** ** _pyDesDESCipher *)

(** cipher.py:207-222 for the four algorithms getInstance accepts *)
Definition desmode (alg : Z) : Z :=
  if (alg =? ALG_DES_ECB_NOPAD) || (alg =? ALG_DES_ECB_PKCS5) then ECB else CBC.
Definition padmode (alg : Z) : Z :=
  if (alg =? ALG_DES_ECB_NOPAD) || (alg =? ALG_DES_CBC_NOPAD) then PAD_NORMAL else PAD_PKCS5.

(** cipher.py:224-247.  [len(None)] raises TypeError. *)
Definition des_init (theKey : option akey) (theMode : Z) (bArray : list Z) (bOff bLen : Z) : M cipher unit :=
  k <- base_cipher_init theKey theMode ;;
  match k with
  | KDes dk =>
      if negb (bLen =? 8) then raise (CryptoExc ILLEGAL_VALUE)
      else
        match arrayCopy_into bArray bOff 0 bLen (py_repeat 0 8) with
        | (Err e, _) => raise e
        | (Ok _, iv) =>
            let iv := arrayTobinary iv in
            s <- get ;;
            match dk_key dk with
            | None => raise TypeError
            | Some kb =>
                e <- (if 64 =? dk_size dk
                      then lift (rmap EDes (des_new kb (desmode (c_alg s)) iv [] (padmode (c_alg s))))
                      else lift (rmap ETdes (tdes_new kb (desmode (c_alg s)) iv [] (padmode (c_alg s))))) ;;
                put (mkCipher (c_alg s) true (c_mode s) (Some e))
            end
        end
  | _ => raise (CryptoExc ILLEGAL_VALUE)
  end.
(** cipher.py:224: the default arguments *)
Definition des_init_default (theKey : option akey) (theMode : Z) : M cipher unit :=
  des_init theKey theMode (repeat 0 8) 0 8.

(** self._cipher.encrypt(data) and self._cipher.decrypt(data) *)
Definition engine_run (enc : bool) (data : list Z) (e : engine) : res (list Z) * engine :=
  match e with
  | EDes d => let '(r, d) := (if enc then des_encrypt data [] None else des_decrypt data [] None) d in (r, EDes d)
  | ETdes d => let '(r, d) := (if enc then tdes_encrypt data [] None else tdes_decrypt data [] None) d in (r, ETdes d)
  end.

(** cipher.py:249-264; the state is the cipher and outBuff.  inBuff is copied
    before anything is written, so it is passed by value and may be the same
    array as outBuff (then it is the second component of the initial state). *)
Definition des_doFinal (inBuff : list Z) (inOffset inLength outOffset : Z) : M (cipher * list Z) Z :=
  s <- get ;;
  let '(c, outBuff) := s in
  if negb (c_init c) then raise (CryptoExc INVALID_INIT)
  else
    match arrayCopy_into inBuff inOffset 0 inLength (py_repeat 0 inLength) with
    | (Err e, _) => raise e
    | (Ok _, data) =>
        let data := arrayTobinary data in
        match c_mode c, c_engine c with
        | Some m, Some e =>
            let '(r, e) := engine_run (m =? MODE_ENCRYPT) data e in
            put (mkCipher (c_alg c) (c_init c) (c_mode c) (Some e), outBuff) ;;;
            result <- lift r ;;
            let result := binaryToarray result in
            s <- get ;;
            let '(r, outBuff) := arrayCopy_into result 0 outOffset (zlen result) (snd s) in
            put (fst s, outBuff) ;;;
            lift r ;;;
            ret (zlen result)
        | _, _ => raise AttributeError
        end
    end.

(** ** _PyCryptoRSACipher *)

(** cipher.py:137-144.  The cipher keeps a reference to the key; [rsa_doFinal] takes
    the current state of that key object. *)
Definition rsa_init (theKey : option akey) (theMode : Z) : M cipher unit :=
  k <- base_cipher_init theKey theMode ;;
  match k with
  | KDes _ => raise (CryptoExc ILLEGAL_VALUE)
  | _ => s <- get ;; put (mkCipher (c_alg s) true (c_mode s) (c_engine s))
  end.

(** cipher.py:149-155: [rnd] are the successive bytes delivered by os.urandom; the
    loop may run for ever: [OutOfFuel] when [rnd] is used up. *)
Fixpoint zeroFreeRandom (rnd : list Z) (n : Z) (out : list Z) : res (list Z) :=
  if zlen out <? n then
    match rnd with
    | [] => Err OutOfFuel
    | x :: rnd' => zeroFreeRandom rnd' n (if negb (x =? 0) then out ++ [x] else out)
    end
  else Ok out.

(** cipher.py:146-160; [size] is self._theKey.getSize() *)
Definition EME_enc (rnd : list Z) (size : Z) (Msg : list Z) : res (list Z) :=
  if size / 8 - 11 <? zlen Msg then Err (CryptoExc ILLEGAL_VALUE)
  else
    let? PS := zeroFreeRandom rnd (size / 8 - zlen Msg - 3) [] in
    Ok ([0; 2] ++ PS ++ [0] ++ Msg).

(** [l.index(v, start)] for [0 <= start] *)
Fixpoint index_from (l : list Z) (v : Z) (i start : Z) : res Z :=
  match l with
  | [] => Err ValueError
  | x :: l' => if (start <=? i) && (x =? v) then Ok i else index_from l' v (i + 1) start
  end.

(** cipher.py:162-165 *)
Definition EME_dec (buf : list Z) : res (list Z) :=
  if negb (list_eqb (py_slice buf 0 2) [0; 2]) then Err (CryptoExc ILLEGAL_VALUE)
  else
    let? i := index_from buf 0 0 3 in
    Ok (py_slice_from buf (i + 1)).

(** self._theKey._theKey; missing: AttributeError; on a public key None has no
    method encrypt: AttributeError too *)
Definition the_rsa (k : akey) : res rsa :=
  match k with
  | KPub p => match pk_the p with Some r => Ok r | None => Err AttributeError end
  | KPriv v => match vk_the v with Some r => Ok r | None => Err AttributeError end
  | KDes _ => Err AttributeError
  end.

(** cipher.py:167-198; the state is outBuff, [k] the key given to init, in its
    current state *)
Definition rsa_doFinal (X : pycrypto) (rnd : list Z) (c : cipher) (k : akey)
    (inBuff : list Z) (inOffset inLength outOffset : Z) : M (list Z) Z :=
  if negb (c_init c) then raise (CryptoExc INVALID_INIT)
  else
    match arrayCopy_into inBuff inOffset 0 inLength (py_repeat 0 inLength) with
    | (Err e, _) => raise e
    | (Ok _, data) =>
        match c_mode c with
        | None => raise AttributeError
        | Some m =>
            data <- lift (if (c_alg c =? ALG_RSA_PKCS1) && (m =? MODE_ENCRYPT)
                          then EME_enc rnd (getSize k) data else Ok data) ;;
            if negb (zlen data =? getSize k / 8) then raise (CryptoExc ILLEGAL_VALUE)
            else
              r <- lift (the_rsa k) ;;
              x <- lift (if m =? MODE_ENCRYPT then pc_encrypt X r (arrayTolong data)
                         else match k with
                              | KPub _ => pc_encrypt X r (arrayTolong data)
                              | _ => pc_decrypt X r (arrayTolong data)
                              end) ;;
              let buf := longToArray x in
              buf <- lift (if (c_alg c =? ALG_RSA_PKCS1) && (m =? MODE_DECRYPT) then EME_dec buf else Ok buf) ;;
              arrayCopy_into buf 0 outOffset (zlen buf) ;;;
              ret (zlen buf)
        end
    end.

(** ** Histories of calls on a DES cipher (not in /repo: what the theorems
    quantify over) *)
Inductive ccall : Set :=
| CUpdate (inBuff : list Z) (inOffset inLength : Z) (outBuff : list Z) (outOffset : Z)
| CFinal (inBuff : list Z) (inOffset inLength : Z) (outBuff : list Z) (outOffset : Z).
Definition cipher_call (c : cipher) (k : ccall) : cipher :=
  match k with
  | CUpdate i io il o oo => fst (snd (cipher_update i io il oo (c, o)))
  | CFinal i io il o oo => fst (snd (des_doFinal i io il oo (c, o)))
  end.
(** [c] is a cipher of algorithm [alg], in any state before, after a successful
    init with the key [k], [mode] and IV at [bOff] in [bArray], and after any
    calls of update and doFinal, successful or not *)
Definition cipher_reach (alg : Z) (k : deskey) (mode : Z) (bArray : list Z) (bOff : Z) (c : cipher) : Prop :=
  exists c0 c1 h, c_alg c0 = alg
    /\ des_init (Some (KDes k)) mode bArray bOff 8 c0 = (Ok tt, c1)
    /\ c = fold_left cipher_call h c1.
