(** * Specification for C135: the exceptions that the calls of the API can end with *)
From Verif Require Import Py M_util M_aid M_ownerpin M_apdu M_bignumber M_jcint M_bertag M_bertlv M_system M_digest M_key M_cipher M_signature S_Cipher S_RSA.
From Coq Require List.
Import List.ListNotations.

(** RuntimeException and its subclasses (python/lang.py:5-23, pythoncard/framework/__init__.py:22-61,
    service/__init__.py:3, security/__init__.py:3, tlv/__init__.py:3, external/__init__.py:3), which
    applets know; the other exceptions are those of Python. *)
Definition java (e : exn) : bool :=
  match e with
  | ArrayIndexOutOfBounds | NullPointer | Arithmetic => true
  | ISOExc _ | PINExc _ | APDUExc _ | SystemExc _ | TransactionExc _ | CryptoExc _ | TLVExc _ | ServiceExc _ | ExternalExc _ => true
  | _ => false
  end.

(** The calls.  Arguments are ints, arrays of ints and objects of the expected classes. *)
Inductive fn : Set :=
| Util_arrayCopy | Util_arrayCopyNonAtomic | Util_arrayFillNonAtomic | Util_arrayCompare | Util_getShort | Util_setShort
| AID_new | AID_equals | AID_getBytes | AID_getPartialBytes | AID_partialEquals
| OwnerPIN_check | OwnerPIN_update
| APDU_new | APDU_setIncomingAndReceive | APDU_receiveBytes | APDU_setOutgoing | APDU_setOutgoingLength | APDU_sendBytes
| APDU_sendBytesLong | APDU_setOutgoingAndSend | APDU_isCommandChainingCLA
| BigNumber_new | BigNumber_init | BigNumber_add | BigNumber_subtract | BigNumber_multiply | BigNumber_compareTo | BigNumber_toBytes
| JCint_getInt | JCint_setInt
| BERTag_getInstance_ | PrimitiveBERTag_init | ConstructedBERTag_init | BERTag_toBytes | BERTag_size_static | BERTag_tagNumber_static
| BERTLV_getInstance | BERTLV_getLength_static | BERTLV_size | BERTLV_toBytes | ConstructedBERTLV_append | ConstructedBERTLV_append_static
| ConstructedBERTLV_find | ConstructedBERTLV_find_static | ConstructedBERTLV_findNext | ConstructedBERTLV_findNext_static
| PrimitiveBERTLV_getValueOffset | PrimitiveBERTLV_getValue | PrimitiveBERTLV_replaceValue
| JCSystem_makeGlobalArray | JCSystem_getAvailableMemory | Dispatcher_new | Dispatcher_addService | Memory_getMemoryAccessInstance
| MessageDigest_getInstance | MessageDigest_update | MessageDigest_doFinal
| RandomData_getInstance | RandomData_generateData
| KeyBuilder_buildKey | DESKey_getKey | RSAPublicKey_getExponent | RSAPublicKey_getModulus | RSAPrivateKey_setModulus
| KeyPair_new | KeyPair_of | Cipher_getInstance | Cipher_update | Signature_getInstance
| DESKey_setKey | RSAPublicKey_setExponent | RSAPublicKey_setModulus
| RSAPrivateKey_setExponent | RSAPrivateKey_getExponent | RSAPrivateKey_getModulus | KeyPair_genKeyPair
| DESCipher_init | DESCipher_doFinal | RSACipher_init | RSACipher_doFinal.

(** the objects a program can hold *)
Definition a_pin (s : ownerpin) : Prop := exists limit size ops, 1 <= size /\ s = snd (pin_run ops (newOwnerPIN limit size)).
Definition an_apdu (s : apdu) : Prop := exists cmd s0 ops, newAPDU cmd = Ok s0 /\ s = snd (apdu_run ops s0).
(** a TLV without value is one that was not initialised *)
Definition a_tlv (t : tlv) : Prop := tval t = None -> ttag t = None /\ tlen t = 0.
Definition a_digest (H : hashlib) (s : digest) : Prop :=
  exists alg h s0, digest_getInstance H alg = Ok s0 /\ s = digest_run H h s0.
(** a DES key: a new one, then any calls of setKey *)
Definition a_deskey (k : deskey) : Prop :=
  exists typ size h, k = List.fold_left (fun k x => snd (setKey (fst x) (snd x) k)) h (deskey_new typ size).
Definition a_key (k : option akey) : Prop := match k with Some (KDes d) => a_deskey d | _ => True end.
(** a DES cipher: one of the four algorithms, then any calls, failing or not, of init, update and doFinal *)
Inductive dcall : Set :=
| DInit (k : option akey) (mode : Z) (b : list Z) (o n : Z)
| DOther (x : ccall).
Definition dcall_step (c : cipher) (x : dcall) : cipher :=
  match x with
  | DInit k mode b o n => snd (des_init k mode b o n c)
  | DOther x => cipher_call c x
  end.
Definition a_des_cipher (c : cipher) : Prop :=
  exists alg h, des_alg alg /\ List.Forall (fun x => match x with DInit k _ _ _ _ => a_key k | _ => True end) h
    /\ c = List.fold_left dcall_step h (cipher_new alg).
(** RSA: an implementation whose operations succeed, a key set by calls or generated, and a
    cipher before or after init *)
Definition pc_total (X : pycrypto) : Prop :=
  (forall n e, exists r, pc_construct X n e = Ok r) /\ (forall n, exists r, pc_generate X n = Ok r)
  /\ (forall r x, exists y, pc_encrypt X r x = Ok y /\ 0 <= y) /\ (forall r x, exists y, pc_decrypt X r x = Ok y /\ 0 <= y).
Definition an_rsakey (X : pycrypto) (k : akey) : Prop :=
  exists size h, k = KPub (run_pub X h (pubkey_new size)) \/ k = KPriv (run_priv h (privkey_new size))
    \/ exists a s0 s, keypair_new a size = Ok s0 /\ genKeyPair X s0 = (Ok tt, s)
         /\ (k = KPub (run_pub X h (kp_pub s)) \/ k = KPriv (run_priv h (kp_priv s))).
Definition an_rsa_cipher (k : akey) (c : cipher) : Prop :=
  (c_alg c = ALG_RSA_NOPAD \/ c_alg c = ALG_RSA_PKCS1) /\ (c_init c = false \/ exists mode, rsa_ready (c_alg c) k mode c).
Definition a_pair (X : pycrypto) (s : keypair) : Prop :=
  exists j s0, ((exists a n, keypair_new a n = Ok s0) \/ exists k v, keypair_of k v = Ok s0)
    /\ s = Nat.iter j (fun s => snd (genKeyPair X s)) s0.

(** [e] is the outcome of some call of [f] *)
Definition raised (f : fn) (e : exn) : Prop :=
  match f with
  | Util_arrayCopy => exists s so d do n h, fst (arrayCopy s so d do n h) = Err e
  | Util_arrayCopyNonAtomic => exists s so d do n h, fst (arrayCopyNonAtomic s so d do n h) = Err e
  | Util_arrayFillNonAtomic => exists o n v a, fst (arrayFillNonAtomic o n v a) = Err e
  | Util_arrayCompare => exists s so d do n, arrayCompare s so d do n = Err e
  | Util_getShort => exists a o, getShort a o = Err e
  | Util_setShort => exists o v a, fst (setShort o v a) = Err e
  | AID_new => exists a o n, newAID a o n = Err e
  | AID_equals => exists s a o n, equals s a o n = Err e
  | AID_getBytes => exists s o a, fst (getBytes s o a) = Err e
  | AID_getPartialBytes => exists s ao o n a, fst (getPartialBytes s ao o n a) = Err e
  | AID_partialEquals => exists s a o n, partialEquals s a o n = Err e
  | OwnerPIN_check => exists s p o n, a_pin s /\ fst (check p o n s) = Err e
  | OwnerPIN_update => exists s p o n, a_pin s /\ fst (update p o n s) = Err e
  | APDU_new => exists cmd, newAPDU cmd = Err e
  | APDU_setIncomingAndReceive => exists s, an_apdu s /\ fst (setIncomingAndReceive s) = Err e
  | APDU_receiveBytes => exists s o, an_apdu s /\ fst (receiveBytes o s) = Err e
  | APDU_setOutgoing => exists s, an_apdu s /\ fst (setOutgoing s) = Err e
  | APDU_setOutgoingLength => exists s n, an_apdu s /\ fst (setOutgoingLength n s) = Err e
  | APDU_sendBytes => exists s o n, an_apdu s /\ fst (sendBytes o n s) = Err e
  | APDU_sendBytesLong => exists s d o n, an_apdu s /\ fst (sendBytesLong d o n s) = Err e
  | APDU_setOutgoingAndSend => exists s o n, an_apdu s /\ fst (setOutgoingAndSend o n s) = Err e
  | APDU_isCommandChainingCLA => exists s, an_apdu s /\ isCommandChainingCLA s = Err e
  | BigNumber_new => exists m, newBigNumber m = Err e
  | BigNumber_init => exists b a o n f, fst (M_bignumber.init a o n f b) = Err e
  | BigNumber_add => exists b a o n f, fst (add a o n f b) = Err e
  | BigNumber_subtract => exists b a o n f, fst (subtract a o n f b) = Err e
  | BigNumber_multiply => exists b a o n f, fst (multiply a o n f b) = Err e
  | BigNumber_compareTo => exists b a o n f, compareTo b a o n f = Err e
  | BigNumber_toBytes => exists b o n f a, fst (toBytes b o n f a) = Err e
  | JCint_getInt => exists a o, getInt a o = Err e
  | JCint_setInt => exists o h l a, fst (setInt o h l a) = Err e
  | BERTag_getInstance_ => exists a o, BERTag_getInstance a o = Err e
  | PrimitiveBERTag_init => exists a o, Primitive_init_bytes a o = Err e
  | ConstructedBERTag_init => exists a o, Constructed_init_bytes a o = Err e
  | BERTag_toBytes => exists g o a, fst (tag_toBytes g o a) = Err e
  | BERTag_size_static => exists a o, tag_sizeStatic a o = Err e
  | BERTag_tagNumber_static => exists a o, tag_tagNumberStatic a o = Err e
  | BERTLV_getInstance => exists a o n, getInstance a o n = Err e
  | BERTLV_getLength_static => exists a o, getLengthStatic a o = Err e
  | BERTLV_size => exists t, a_tlv t /\ tlv_size t = Err e
  | BERTLV_toBytes => exists t o a, a_tlv t /\ fst (tlv_toBytes t o a) = Err e
  | ConstructedBERTLV_append => exists t u, a_tlv t /\ a_tlv u /\ fst (append u t) = Err e
  | ConstructedBERTLV_append_static => exists a o b p, fst (appendStatic a o p b) = Err e
  | ConstructedBERTLV_find => exists k t g, a_tlv t /\ e <> OutOfFuel /\ findBound k t g = Err e
  | ConstructedBERTLV_find_static => exists k a o g p, e <> OutOfFuel /\ findStatic k a o g p = Err e
  | ConstructedBERTLV_findNext => exists k t g u n, a_tlv t /\ a_tlv u /\ e <> OutOfFuel /\ findNextBound k t g u n = Err e
  | ConstructedBERTLV_findNext_static => exists k a o s g p, e <> OutOfFuel /\ findNextStatic k a o s g p = Err e
  | PrimitiveBERTLV_getValueOffset => exists a o, getValueOffset a o = Err e
  | PrimitiveBERTLV_getValue => exists t o a, a_tlv t /\ fst (getValue t o a) = Err e
  | PrimitiveBERTLV_replaceValue => exists t a o n, a_tlv t /\ fst (replaceValue a o n t) = Err e
  | JCSystem_makeGlobalArray => exists t n, makeGlobalArray t n = Err e
  | JCSystem_getAvailableMemory => exists o t b, fst (getAvailableMemory3 o t b) = Err e
  | Dispatcher_new => exists n, dispatcher_new n = Err e
  | Dispatcher_addService => exists s v p, fst (addService v p s) = Err e
  | Memory_getMemoryAccessInstance => exists t o m, getMemoryAccessInstance t o m = Err e
  | MessageDigest_getInstance => exists H alg, digest_getInstance H alg = Err e
  | MessageDigest_update => exists H s a o n, a_digest H s /\ fst (digest_update a o n s) = Err e
  | MessageDigest_doFinal => exists H s a o n out p, a_digest H s /\ fst (digest_doFinal H a o n p (s, out)) = Err e
  | RandomData_getInstance => exists alg, random_getInstance alg = Err e
  | RandomData_generateData => exists rnd o n a, fst (generateData rnd o n a) = Err e
  | KeyBuilder_buildKey => exists args, buildKey_args args = Err e
  | DESKey_getKey => exists k o a, fst (getKey k o a) = Err e
  | RSAPublicKey_getExponent => exists X size h o a, fst (pub_getExponent (run_pub X h (pubkey_new size)) o a) = Err e
  | RSAPublicKey_getModulus => exists X size h o a, fst (pub_getModulus (run_pub X h (pubkey_new size)) o a) = Err e
  | RSAPrivateKey_setModulus => exists size h b o n, fst (priv_setModulus b o n (run_priv h (privkey_new size))) = Err e
  | KeyPair_new => exists alg n, keypair_new alg n = Err e
  | KeyPair_of => exists k v, keypair_of k v = Err e
  | Cipher_getInstance => exists args, cipher_getInstance args = Err e
  | Cipher_update => exists a o n p s, fst (cipher_update a o n p s) = Err e
  | Signature_getInstance => exists args, signature_getInstance args = Err e
  | DESKey_setKey => exists k b o, fst (setKey b o k) = Err e
  | RSAPublicKey_setExponent => exists X size h b o n, pc_total X /\ fst (pub_setExponent X b o n (run_pub X h (pubkey_new size))) = Err e
  | RSAPublicKey_setModulus => exists X size h b o n, pc_total X /\ fst (pub_setModulus X b o n (run_pub X h (pubkey_new size))) = Err e
  | RSAPrivateKey_setExponent => exists size h b o n, fst (priv_setExponent b o n (run_priv h (privkey_new size))) = Err e
  | RSAPrivateKey_getExponent => exists size h o a, fst (priv_getExponent (run_priv h (privkey_new size)) o a) = Err e
  | RSAPrivateKey_getModulus => exists size h o a, fst (priv_getModulus (run_priv h (privkey_new size)) o a) = Err e
  | KeyPair_genKeyPair => exists X s, pc_total X /\ a_pair X s /\ fst (genKeyPair X s) = Err e
  | DESCipher_init => exists c k mode b o n, a_des_cipher c /\ a_key k /\ fst (des_init k mode b o n c) = Err e
  | DESCipher_doFinal => exists c b o n p out, a_des_cipher c /\ fst (des_doFinal b o n p (c, out)) = Err e
  | RSACipher_init => exists c k mode, fst (rsa_init k mode c) = Err e
  | RSACipher_doFinal => exists X rnd k c b o n p out, pc_total X /\ an_rsakey X k /\ an_rsa_cipher k c /\ e <> OutOfFuel
      /\ fst (rsa_doFinal X rnd c k b o n p out) = Err e
  end.

(** ... and which they are *)
Definition allowed (f : fn) (e : exn) : Prop :=
  match f with
  | OwnerPIN_update => e = ArrayIndexOutOfBounds \/ e = IndexError \/ exists n, 2 <= n /\ e = PINExc n
  | _ => List.In e
      match f with
      | Util_arrayCopyNonAtomic => [NameError]
      | AID_new => [ValueError; ArrayIndexOutOfBounds]
      | AID_getPartialBytes => [ArrayIndexOutOfBounds; NameError]
      | OwnerPIN_check => [ArrayIndexOutOfBounds; IndexError]
      | APDU_new => [APDUExc BAD_LENGTH; IndexError]
      | APDU_setIncomingAndReceive => [APDUExc M_apdu.ILLEGAL_USE; ISOExc SW_WRONG_LENGTH]
      | APDU_receiveBytes => [APDUExc M_apdu.ILLEGAL_USE; IndexError]
      | APDU_setOutgoing => [APDUExc M_apdu.ILLEGAL_USE]
      | APDU_setOutgoingLength => [APDUExc M_apdu.ILLEGAL_USE; APDUExc BAD_LENGTH]
      | APDU_sendBytes => [APDUExc M_apdu.ILLEGAL_USE; APDUExc BUFFER_BOUNDS]
      | APDU_sendBytesLong => [AttributeError; APDUExc BUFFER_BOUNDS]
      | APDU_setOutgoingAndSend => [APDUExc M_apdu.ILLEGAL_USE; APDUExc BAD_LENGTH; APDUExc BUFFER_BOUNDS]
      | APDU_isCommandChainingCLA => [IndexError]
      | BigNumber_new => [Arithmetic]
      | BigNumber_init => [Arithmetic; NullPointer; IndexError]
      | BigNumber_add | BigNumber_subtract | BigNumber_multiply | BigNumber_compareTo => [Arithmetic; NullPointer; IndexError; TypeError]
      | BigNumber_toBytes => [Arithmetic; TypeError; ArrayIndexOutOfBounds]
      | JCint_getInt | JCint_setInt | BERTag_toBytes | BERTag_size_static => [IndexError]
      | PrimitiveBERTag_init | ConstructedBERTag_init => [TLVExc 5; IndexError]
      | BERTLV_getInstance | BERTLV_getLength_static | PrimitiveBERTLV_getValueOffset | ConstructedBERTLV_find => [ArrayIndexOutOfBounds; IndexError]
      | BERTLV_size => [AttributeError]
      | BERTLV_toBytes | ConstructedBERTLV_append | ConstructedBERTLV_append_static | ConstructedBERTLV_findNext_static =>
          [AttributeError; IndexError; NameError; ArrayIndexOutOfBounds]
      | ConstructedBERTLV_find_static => [AttributeError; IndexError; ArrayIndexOutOfBounds]
      | ConstructedBERTLV_findNext => [AttributeError; IndexError; ArrayIndexOutOfBounds; TypeError]
      | JCSystem_makeGlobalArray => [NameError; KeyError]
      | JCSystem_getAvailableMemory | MessageDigest_update | MessageDigest_doFinal => [NameError]
      | Dispatcher_new | Dispatcher_addService => [ServiceExc SE_ILLEGAL_PARAM]
      | Memory_getMemoryAccessInstance => [ExternalExc 1]
      | MessageDigest_getInstance => [KeyError; ValueError]
      | RandomData_getInstance | KeyPair_new => [CryptoExc NO_SUCH_ALGORITHM]
      | RandomData_generateData => [CryptoExc ILLEGAL_VALUE; NameError]
      | KeyBuilder_buildKey => [NotImplementedError; TypeError]
      | DESKey_getKey => [TypeError; ArrayIndexOutOfBounds]
      | RSAPublicKey_getExponent | RSAPublicKey_getModulus => [CryptoExc UNINITIALIZED_KEY; ArrayIndexOutOfBounds]
      | RSAPrivateKey_setModulus | KeyPair_of => [CryptoExc ILLEGAL_VALUE]
      | Cipher_getInstance => [CryptoExc NO_SUCH_ALGORITHM; TypeError; UnboundLocalError]
      | Cipher_update => [CryptoExc INVALID_INIT]
      | Signature_getInstance => [TypeError]
      | DESKey_setKey | RSAPrivateKey_setExponent => []
      | RSAPublicKey_setExponent => [CryptoExc NO_SUCH_ALGORITHM]
      | RSAPublicKey_setModulus => [CryptoExc INVALID_INIT; CryptoExc NO_SUCH_ALGORITHM]
      | RSAPrivateKey_getExponent | RSAPrivateKey_getModulus => [CryptoExc UNINITIALIZED_KEY; ArrayIndexOutOfBounds]
      | KeyPair_genKeyPair => [CryptoExc ILLEGAL_VALUE; CryptoExc NO_SUCH_ALGORITHM; AttributeError]
      | DESCipher_init => [CryptoExc ILLEGAL_VALUE; CryptoExc UNINITIALIZED_KEY; ArrayIndexOutOfBounds; ValueError]
      | DESCipher_doFinal => [CryptoExc INVALID_INIT; ArrayIndexOutOfBounds; ValueError]
      | RSACipher_init => [CryptoExc ILLEGAL_VALUE; CryptoExc UNINITIALIZED_KEY]
      | RSACipher_doFinal => [CryptoExc INVALID_INIT; ArrayIndexOutOfBounds; CryptoExc ILLEGAL_VALUE; AttributeError; ValueError]
      | _ => [ArrayIndexOutOfBounds]
      end
  end.

(** the calls that can end with an exception of Python *)
Definition leaks (f : fn) : bool :=
  match f with
  | Util_arrayCopyNonAtomic | AID_new | AID_getPartialBytes | OwnerPIN_check | OwnerPIN_update
  | APDU_new | APDU_receiveBytes | APDU_sendBytesLong | APDU_isCommandChainingCLA
  | BigNumber_init | BigNumber_add | BigNumber_subtract | BigNumber_multiply | BigNumber_compareTo | BigNumber_toBytes
  | JCint_getInt | JCint_setInt | PrimitiveBERTag_init | ConstructedBERTag_init | BERTag_toBytes | BERTag_size_static
  | BERTLV_getInstance | BERTLV_getLength_static | BERTLV_size | BERTLV_toBytes | ConstructedBERTLV_append
  | ConstructedBERTLV_append_static | ConstructedBERTLV_find | ConstructedBERTLV_find_static | ConstructedBERTLV_findNext
  | ConstructedBERTLV_findNext_static | PrimitiveBERTLV_getValueOffset
  | JCSystem_makeGlobalArray | JCSystem_getAvailableMemory | MessageDigest_getInstance | MessageDigest_update | MessageDigest_doFinal
  | RandomData_generateData | KeyBuilder_buildKey | DESKey_getKey | Cipher_getInstance | Signature_getInstance
  | KeyPair_genKeyPair | DESCipher_init | DESCipher_doFinal | RSACipher_doFinal => true
  | _ => false
  end.

(** C135 in full: every exception is one of the API *)
Definition C135_full : Prop := forall f e, raised f e -> java e = true.
