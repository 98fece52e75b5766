(** * Model of pythoncard/security/key.py, secretkey.py, publickey.py,
      privatekey.py, keybuilder.py and keypair.py

    The RSA implementation (pycrypto's Crypto.PublicKey.RSA) is outside the
    repository: it is the record argument [pycrypto], over which the theorems
    quantify. *)
From Verif Require Import Py M_utils M_util S_Key.

(** pythoncard/security/__init__.py:3-8 *)
Definition ILLEGAL_VALUE := 1.
Definition UNINITIALIZED_KEY := 2.
Definition NO_SUCH_ALGORITHM := 3.
Definition INVALID_INIT := 4.
Definition ILLEGAL_USE := 5.

(** ** key.py *)

(** The digits of [hex(n)] for [n >= 0], most significant first: the string
    without its prefix "0x".  (For negative numbers hex starts with "-0x";
    RSA numbers are not negative.) *)
Fixpoint hex_loop (fuel : nat) (n : Z) (acc : list Z) : list Z :=
  match fuel with
  | O => acc
  | S fuel' => if n <? 16 then n :: acc else hex_loop fuel' (n / 16) (n mod 16 :: acc)
  end.
Definition hex_digits (n : Z) : list Z := hex_loop (S (Z.to_nat (Z.log2 n))) n [].

(** [int(s[i-2:i], 16)] for consecutive pairs of digits; the list has even length *)
Fixpoint pairs (s : list Z) : list Z :=
  match s with
  | a :: b :: s' => (16 * a + b) :: pairs s'
  | _ => []
  end.

(** pythoncard/security/key.py:3-17.  [hex(long)[2:-1]] drops the last hexadecimal
    digit in Python 3 (in Python 2 it dropped the suffix L). *)
Definition longToArray (n : Z) : list Z :=
  let s := removelast (hex_digits n) in
  let s := if zlen s mod 2 =? 0 then s else 0 :: s in
  rev (pairs s).

(** pythoncard/security/key.py:19-31: from the last element to the first *)
Definition arrayTolong (bytes : list Z) : Z :=
  fold_right (fun b l => Z.shiftl l 8 + b) 0 bytes.

(** pythoncard/security/key.py:33-34 *)
Definition binaryToarray (bytes : list Z) : list Z := map s1 bytes.
(** pythoncard/security/key.py:36-37 *)
Definition arrayTobinary (array : list Z) : list Z := map (fun i => Z.land i 255) array.

(** ** secretkey.py *)

(** Attributes type, size, initialized, _key (None: [None]) of pyDesDESKey *)
Record deskey : Set := mkDesKey { dk_type : Z; dk_size : Z; dk_init : bool; dk_key : option (list Z) }.
(** secretkey.py:17-19, key.py:41-44 *)
Definition deskey_new (typ size : Z) : deskey := mkDesKey typ size false None.
(** secretkey.py:21-23 *)
Definition setKey (keyData : list Z) (keyOff : Z) : M deskey unit :=
  fun k => (Ok tt, mkDesKey (dk_type k) (dk_size k) true
     (Some (arrayTobinary (py_slice keyData keyOff (keyOff + dk_size k / 8))))).
(** secretkey.py:25-26; the state is keyData.  Iterating over None raises
    TypeError. *)
Definition getKey (k : deskey) (keyOff : Z) : M (list Z) unit :=
  match dk_key k with
  | None => raise TypeError
  | Some b => arrayCopy_into (binaryToarray b) 0 keyOff (dk_size k / 8)
  end.
(** key.py:52-53: clearKey does nothing, for all keys *)
Definition clearKey {K} : M K unit := ret tt.

(** ** The RSA implementation (not in /repo) *)
Record rsa : Set := mkRsa { r_n : Z; r_e : Z; r_d : Z; r_p : Z; r_q : Z; r_u : Z }.
Record pycrypto : Type := mkPyCrypto {
  pc_avail : bool;                        (* the import succeeded *)
  pc_construct : Z -> Z -> res rsa;       (* construct([n, e]) *)
  pc_generate : Z -> res rsa;
  pc_encrypt : rsa -> Z -> res Z;         (* encrypt(x, None)[0] *)
  pc_decrypt : rsa -> Z -> res Z }.

(** ** publickey.py *)

(** size, initialized, exponent, modulus, _theKey; the type is 4 (line 17) *)
Record pubkey : Set := mkPub { pk_size : Z; pk_init : bool; pk_exp : option (list Z);
                               pk_mod : option (list Z); pk_the : option rsa }.
(** publickey.py:52-56 *)
Definition pubkey_new (size : Z) : pubkey := mkPub size false None None None.

(** publickey.py:84-88.  Only called when both components are set. *)
Definition pub_construct (X : pycrypto) : M pubkey unit :=
  k <- get ;;
  if negb (pc_avail X) then raise (CryptoExc NO_SUCH_ALGORITHM)
  else match pk_mod k, pk_exp k with
       | Some m, Some e =>
           r <- lift (pc_construct X (arrayTolong m) (arrayTolong e)) ;;
           put (mkPub (pk_size k) (pk_init k) (pk_exp k) (pk_mod k) (Some r))
       | _, _ => raise TypeError
       end.

(** publickey.py:38-49: the decorator of the setters *)
Definition pub_setter (X : pycrypto) (f : M pubkey unit) : M pubkey unit :=
  f ;;;
  k <- get ;;
  match pk_mod k, pk_exp k with
  | Some _, Some _ =>
      (match pk_the k with None => pub_construct X | Some _ => ret tt end) ;;;
      k <- get ;;
      put (mkPub (pk_size k) true (pk_exp k) (pk_mod k) (pk_the k))
  | _, _ => ret tt
  end.

(** publickey.py:68-70 *)
Definition pub_setExponent (X : pycrypto) (buffer : list Z) (offset len : Z) : M pubkey unit :=
  pub_setter X (k <- get ;;
    put (mkPub (pk_size k) (pk_init k) (Some (py_slice buffer offset (offset + len))) (pk_mod k) (pk_the k))).
(** publickey.py:72-76 *)
Definition pub_setModulus (X : pycrypto) (buffer : list Z) (offset len : Z) : M pubkey unit :=
  pub_setter X (k <- get ;;
    if negb (len =? pk_size k / 8) then raise (CryptoExc INVALID_INIT)
    else put (mkPub (pk_size k) (pk_init k) (pk_exp k) (Some (py_slice buffer offset (offset + len))) (pk_the k))).
(** publickey.py:78-82 *)
Definition pub_setTheKey (X : pycrypto) (theKey : rsa) : M pubkey unit :=
  pub_setter X (k <- get ;;
    put (mkPub (pk_size k) (pk_init k) (Some (longToArray (r_e theKey))) (Some (longToArray (r_n theKey))) (Some theKey))).

(** publickey.py:31-36, 58-66: the getters; the state is the buffer *)
Definition rsa_getter (init : bool) (part : option (list Z)) (offset : Z) : M (list Z) Z :=
  if negb init then raise (CryptoExc UNINITIALIZED_KEY)
  else match part with
       | None => raise TypeError
       | Some p => arrayCopy_into p 0 offset (zlen p) ;;; ret (zlen p)
       end.
Definition pub_getExponent (k : pubkey) (offset : Z) : M (list Z) Z := rsa_getter (pk_init k) (pk_exp k) offset.
Definition pub_getModulus (k : pubkey) (offset : Z) : M (list Z) Z := rsa_getter (pk_init k) (pk_mod k) offset.

(** ** privatekey.py *)

(** The type is 5 (line 11); the attribute _theKey exists only after setTheKey
    ([None]: missing). *)
Record privkey : Set := mkPriv { vk_size : Z; vk_init : bool; vk_exp : option (list Z);
                                 vk_mod : option (list Z); vk_the : option rsa }.
(** privatekey.py:41-44 *)
Definition privkey_new (size : Z) : privkey := mkPriv size false None None None.
(** privatekey.py:32-37 *)
Definition priv_setter (f : M privkey unit) : M privkey unit :=
  f ;;;
  k <- get ;;
  match vk_mod k, vk_exp k with
  | Some _, Some _ => put (mkPriv (vk_size k) true (vk_exp k) (vk_mod k) (vk_the k))
  | _, _ => ret tt
  end.
(** privatekey.py:56-58 *)
Definition priv_setExponent (buffer : list Z) (offset len : Z) : M privkey unit :=
  priv_setter (k <- get ;;
    put (mkPriv (vk_size k) (vk_init k) (Some (py_slice buffer offset (offset + len))) (vk_mod k) (vk_the k))).
(** privatekey.py:60-64 *)
Definition priv_setModulus (buffer : list Z) (offset len : Z) : M privkey unit :=
  priv_setter (k <- get ;;
    if negb (len =? vk_size k / 8) then raise (CryptoExc ILLEGAL_VALUE)
    else put (mkPriv (vk_size k) (vk_init k) (vk_exp k) (Some (py_slice buffer offset (offset + len))) (vk_the k))).
(** privatekey.py:66-70: [e] is stored as the exponent and [d] as the modulus *)
Definition priv_setTheKey (theKey : rsa) : M privkey unit :=
  priv_setter (k <- get ;;
    put (mkPriv (vk_size k) (vk_init k) (Some (longToArray (r_e theKey))) (Some (longToArray (r_d theKey))) (Some theKey))).
(** privatekey.py:46-54 *)
Definition priv_getExponent (k : privkey) (offset : Z) : M (list Z) Z := rsa_getter (vk_init k) (vk_exp k) offset.
Definition priv_getModulus (k : privkey) (offset : Z) : M (list Z) Z := rsa_getter (vk_init k) (vk_mod k) offset.

(** ** keybuilder.py *)

(** The key objects the library creates.  (PyCryptoRSAPrivateCrtKey,
    privatekey.py:106-118, is never instantiated.) *)
Inductive akey : Set :=
| KDes (k : deskey)
| KPub (k : pubkey)
| KPriv (k : privkey).
(** key.py:46-47, 55-59 *)
Definition isInitialized (k : akey) : bool :=
  match k with KDes k => dk_init k | KPub k => pk_init k | KPriv k => vk_init k end.
Definition getType (k : akey) : Z :=
  match k with KDes k => dk_type k | KPub _ => 4 | KPriv _ => 5 end.
Definition getSize (k : akey) : Z :=
  match k with KDes k => dk_size k | KPub k => pk_size k | KPriv k => vk_size k end.

(** keybuilder.py:49-70 *)
Definition TYPE_DES_TRANSIENT_RESET := 1.
Definition TYPE_DES_TRANSIENT_DESELECT := 2.
Definition TYPE_DES := 3.
Definition TYPE_RSA_PUBLIC := 4.
Definition TYPE_RSA_PRIVATE := 5.
Definition TYPE_RSA_CRT_PRIVATE := 6.

(** keybuilder.py:72-91 with three arguments; [None]: the method falls off its end
    and returns None.  With four arguments it raises NotImplementedError, with
    any other number TypeError. *)
Definition buildKey (keyType keyLength : Z) : res (option akey) :=
  if keyType =? TYPE_RSA_PUBLIC then Ok (Some (KPub (pubkey_new keyLength)))
  else if keyType =? TYPE_RSA_PRIVATE then Ok (Some (KPriv (privkey_new keyLength)))
  else if keyType =? TYPE_RSA_CRT_PRIVATE then Ok (Some (KPriv (privkey_new keyLength)))
  else if (keyType =? TYPE_DES) || (keyType =? TYPE_DES_TRANSIENT_DESELECT) || (keyType =? TYPE_DES_TRANSIENT_RESET)
       then Ok (Some (KDes (deskey_new keyType keyLength)))
  else Ok None.
Definition buildKey_args (args : list Z) : res (option akey) :=
  match args with
  | [t; l; _] => buildKey t l
  | [_; _; _; _] => Err NotImplementedError
  | _ => Err TypeError
  end.

(** ** keypair.py *)

(** _algorithm and _keylength are missing ([None]) when built from two keys. *)
Record keypair : Set := mkPair { kp_alg : option Z; kp_len : option Z; kp_pub : pubkey; kp_priv : privkey }.
Definition ALG_RSA := 1.
Definition ALG_RSA_CRT := 2.
(** keypair.py:18-30 *)
Definition keypair_new (algorithm keylength : Z) : res keypair :=
  if (algorithm =? ALG_RSA) || (algorithm =? ALG_RSA_CRT)
  then Ok (mkPair (Some algorithm) (Some keylength) (pubkey_new keylength) (privkey_new keylength))
  else Err (CryptoExc NO_SUCH_ALGORITHM).
(** keypair.py:31-36 *)
Definition keypair_of (param1 param2 : akey) : res keypair :=
  match param1 with
  | KPub p => match param2 with
              | KPriv v => Ok (mkPair None None p v)
              | _ => Err (CryptoExc ILLEGAL_VALUE)
              end
  | _ => Err (CryptoExc ILLEGAL_VALUE)
  end.
(** keypair.py:38-53; the keys generated are fresh objects *)
Definition pyCryptogenKeyPair (X : pycrypto) : M keypair unit :=
  s <- get ;;
  if negb (pc_avail X) then raise (CryptoExc NO_SUCH_ALGORITHM)
  else match kp_alg s with
       | None => raise AttributeError
       | Some a =>
           if negb ((a =? ALG_RSA) || (a =? ALG_RSA_CRT)) then raise (CryptoExc ILLEGAL_VALUE)
           else match kp_len s with
                | None => raise AttributeError
                | Some n =>
                    r <- lift (pc_generate X n) ;;
                    put (mkPair (kp_alg s) (kp_len s) (snd (pub_setTheKey X r (pubkey_new n))) (kp_priv s)) ;;;
                    s <- get ;;
                    put (mkPair (kp_alg s) (kp_len s) (kp_pub s) (snd (priv_setTheKey r (privkey_new n))))
                end
       end.
(** keypair.py:55-58 *)
Definition genKeyPair (X : pycrypto) : M keypair unit :=
  s <- get ;;
  if pk_init (kp_pub s) || vk_init (kp_priv s) then raise (CryptoExc ILLEGAL_VALUE)
  else pyCryptogenKeyPair X.

(** ** Histories of setter calls (not in /repo: what the theorems quantify over);
    a call that raises is caught by the client *)
Definition run_pub (X : pycrypto) (h : list setter) (k : pubkey) : pubkey :=
  fold_left (fun k o => match o with
    | SExp b f l => snd (pub_setExponent X b f l k)
    | SMod b f l => snd (pub_setModulus X b f l k) end) h k.
Definition run_priv (h : list setter) (k : privkey) : privkey :=
  fold_left (fun k o => match o with
    | SExp b f l => snd (priv_setExponent b f l k)
    | SMod b f l => snd (priv_setModulus b f l k) end) h k.
