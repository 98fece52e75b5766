(** * The constants of the library, by class and name *)
From Coq Require Import String.
From Verif Require Import Py M_apdu M_cla M_world M_rsaapplet M_key M_system M_digest M_signature M_bignumber M_cipher.
Open Scope string_scope.

(** A class, a name, a value.  Constants that the models of the other files use
    are those of the other files. *)
Definition const : Set := string * string * Z.

(** pythoncard/framework/ISO7816.py:11-48 *)
Definition iso7816_consts : list const :=
  [ ("ISO7816", "CLA_ISO7816", 0)
  ; ("ISO7816", "INS_EXTERNAL_AUTHENTICATE", 130)
  ; ("ISO7816", "INS_SELECT", 164)
  ; ("ISO7816", "OFFSET_CDATA", M_apdu.OFFSET_CDATA)
  ; ("ISO7816", "OFFSET_CLA", M_apdu.OFFSET_CLA)
  ; ("ISO7816", "OFFSET_EXT_CDATA", 7)
  ; ("ISO7816", "OFFSET_INS", M_world.OFFSET_INS)
  ; ("ISO7816", "OFFSET_LC", M_apdu.OFFSET_LC)
  ; ("ISO7816", "OFFSET_P1", M_rsaapplet.OFFSET_P1)
  ; ("ISO7816", "OFFSET_P2", 3)
  ; ("ISO7816", "SW_APPLET_SELECT_FAILED", 27033)
  ; ("ISO7816", "SW_BYTES_REMAINING_00", 24832)
  ; ("ISO7816", "SW_CLA_NOT_SUPPORTED", M_world.SW_CLA_NOT_SUPPORTED)
  ; ("ISO7816", "SW_COMMAND_CHAINING_NOT_SUPPORTED", 26756)
  ; ("ISO7816", "SW_COMMAND_NOT_ALLOWED", 27014)
  ; ("ISO7816", "SW_CONDITIONS_NOT_SATISFIED", 27013)
  ; ("ISO7816", "SW_CORRECT_LENGTH_00", 27648)
  ; ("ISO7816", "SW_DATA_INVALID", 27012)
  ; ("ISO7816", "SW_FILE_FULL", 27268)
  ; ("ISO7816", "SW_FILE_INVALID", 27011)
  ; ("ISO7816", "SW_FILE_NOT_FOUND", 27266)
  ; ("ISO7816", "SW_FUNC_NOT_SUPPORTED", 27265)
  ; ("ISO7816", "SW_INCORRECT_P1P2", 27270)
  ; ("ISO7816", "SW_INS_NOT_SUPPORTED", M_world.SW_INS_NOT_SUPPORTED)
  ; ("ISO7816", "SW_LAST_COMMAND_EXPECTED", 26755)
  ; ("ISO7816", "SW_LOGICAL_CHANNEL_NOT_SUPPORTED", 26753)
  ; ("ISO7816", "SW_NO_ERROR", 36864)
  ; ("ISO7816", "SW_RECORD_NOT_FOUND", 27267)
  ; ("ISO7816", "SW_SECURE_MESSAGING_NOT_SUPPORTED", 26754)
  ; ("ISO7816", "SW_SECURITY_STATUS_NOT_SATISFIED", 27010)
  ; ("ISO7816", "SW_UNKNOWN", 28416)
  ; ("ISO7816", "SW_WARNING_STATE_UNCHANGED", 25088)
  ; ("ISO7816", "SW_WRONG_DATA", 27264)
  ; ("ISO7816", "SW_WRONG_LENGTH", M_apdu.SW_WRONG_LENGTH)
  ; ("ISO7816", "SW_WRONG_P1P2", M_rsaapplet.SW_WRONG_P1P2) ]%Z.

(** pythoncard/framework/apdu.py:38-44 *)
Definition apdu_states_consts : list const :=
  [ ("APDU", "STATE_INITIAL", M_apdu.STATE_INITIAL)
  ; ("APDU", "STATE_PARTIAL_INCOMING", M_apdu.STATE_PARTIAL_INCOMING)
  ; ("APDU", "STATE_FULL_INCOMING", M_apdu.STATE_FULL_INCOMING)
  ; ("APDU", "STATE_OUTGOING", M_apdu.STATE_OUTGOING)
  ; ("APDU", "STATE_OUTGOING_LENGTH_KNOWN", M_apdu.STATE_OUTGOING_LENGTH_KNOWN)
  ; ("APDU", "STATE_PARTIAL_OUTGOING", M_apdu.STATE_PARTIAL_OUTGOING)
  ; ("APDU", "STATE_FULL_OUTGOING", M_apdu.STATE_FULL_OUTGOING) ]%Z.

(** pythoncard/framework/apdu.py:46-57 *)
Definition apdu_more_consts : list const :=
  [ ("APDU", "PROTOCOL_MEDIA_CONTACTLESS_TYPE_A", M_cla.PROTOCOL_MEDIA_CONTACTLESS_TYPE_A)
  ; ("APDU", "PROTOCOL_MEDIA_CONTACTLESS_TYPE_B", M_cla.PROTOCOL_MEDIA_CONTACTLESS_TYPE_B)
  ; ("APDU", "PROTOCOL_MEDIA_DEFAULT", M_cla.PROTOCOL_MEDIA_DEFAULT)
  ; ("APDU", "PROTOCOL_MEDIA_MASK", M_cla.PROTOCOL_MEDIA_MASK)
  ; ("APDU", "PROTOCOL_MEDIA_USB", M_cla.PROTOCOL_MEDIA_USB)
  ; ("APDU", "PROTOCOL_T0", M_cla.PROTOCOL_T0)
  ; ("APDU", "PROTOCOL_T1", M_cla.PROTOCOL_T1)
  ; ("APDU", "PROTOCOL_TYPE_MASK", M_cla.PROTOCOL_TYPE_MASK)
  ; ("APDU", "STATE_ERROR_IO", (-1))
  ; ("APDU", "STATE_ERROR_NO_T0_GETRESPONSE", (-2))
  ; ("APDU", "STATE_ERROR_NO_T0_REISSUE", (-3))
  ; ("APDU", "STATE_ERROR_T1_IFD_ABORT", (-4)) ]%Z.

(** pythoncard/framework/__init__.py:40 *)
Definition pinexc_consts : list const :=
  [ ("PINException", "ILLEGAL_VALUE", 0) ]%Z.

(** pythoncard/framework/__init__.py:43-49 *)
Definition apduexc_consts : list const :=
  [ ("APDUException", "BAD_LENGTH", M_apdu.BAD_LENGTH)
  ; ("APDUException", "BUFFER_BOUNDS", M_apdu.BUFFER_BOUNDS)
  ; ("APDUException", "ILLEGAL_USE", M_apdu.ILLEGAL_USE)
  ; ("APDUException", "IO_ERROR", 3)
  ; ("APDUException", "NO_T0_GETRESPONSE", 4)
  ; ("APDUException", "NO_T0_REISSUE", 5)
  ; ("APDUException", "T1_IFD_ABORT", 6) ]%Z.

(** pythoncard/framework/__init__.py:52-57 *)
Definition sysexc_consts : list const :=
  [ ("SystemException", "ILLEGAL_AID", 4)
  ; ("SystemException", "ILLEGAL_TRANSIENT", 3)
  ; ("SystemException", "ILLEGAL_USE", 6)
  ; ("SystemException", "ILLEGAL_VALUE", 1)
  ; ("SystemException", "NO_RESOURCE", 5)
  ; ("SystemException", "NO_TRANSIENT_SPACE", 2) ]%Z.

(** pythoncard/framework/__init__.py:60-63 *)
Definition traexc_consts : list const :=
  [ ("TransactionException", "BUFFER_FULL", 3)
  ; ("TransactionException", "IN_PROGRESS", 1)
  ; ("TransactionException", "INTERNAL_FAILURE", 4)
  ; ("TransactionException", "NOT_IN_PROGRESS", 2) ]%Z.

(** pythoncard/security/__init__.py:4-8 *)
Definition cryexc_consts : list const :=
  [ ("CryptoException", "ILLEGAL_VALUE", M_key.ILLEGAL_VALUE)
  ; ("CryptoException", "UNINITIALIZED_KEY", M_key.UNINITIALIZED_KEY)
  ; ("CryptoException", "NO_SUCH_ALGORITHM", M_key.NO_SUCH_ALGORITHM)
  ; ("CryptoException", "INVALID_INIT", M_key.INVALID_INIT)
  ; ("CryptoException", "ILLEGAL_USE", M_key.ILLEGAL_USE) ]%Z.

(** pythoncard/framework/service/__init__.py:4-10 *)
Definition serexc_consts : list const :=
  [ ("ServiceException", "CANNOT_ACCESS_IN_COMMAND", 4)
  ; ("ServiceException", "CANNOT_ACCESS_OUT_COMMAND", 5)
  ; ("ServiceException", "COMMAND_DATA_TOO_LONG", 3)
  ; ("ServiceException", "COMMAND_IS_FINISHED", 6)
  ; ("ServiceException", "DISPATCH_TABLE_FULL", M_system.SE_DISPATCH_TABLE_FULL)
  ; ("ServiceException", "ILLEGAL_PARAM", M_system.SE_ILLEGAL_PARAM)
  ; ("ServiceException", "REMOTE_OBJECT_NOT_EXPORTED", 7) ]%Z.

(** pythoncardx/framework/tlv/__init__.py:4-14 *)
Definition tlvexc_consts : list const :=
  [ ("TLVException", "EMPTY_TAG", 0)
  ; ("TLVException", "EMPTY_TLV", 1)
  ; ("TLVException", "ILLEGAL_SIZE", 2)
  ; ("TLVException", "INSUFFICIENT_STORAGE", 3)
  ; ("TLVException", "INVALID_PARAM", 4)
  ; ("TLVException", "MALFORMED_TAG", 5)
  ; ("TLVException", "MALFORMED_TLV", 6)
  ; ("TLVException", "TAG_NUMBER_GREATER_THAN_32767", 7)
  ; ("TLVException", "TAG_SIZE_GREATER_THAN_127", 8)
  ; ("TLVException", "TLV_LENGTH_GREATER_THAN_32767", 9)
  ; ("TLVException", "TLV_SIZE_GREATER_THAN_32767", 10) ]%Z.

(** pythoncardx/external/__init__.py:4-6 *)
Definition extexc_consts : list const :=
  [ ("ExternalException", "NO_SUCH_SUBSYSTEM", 1)
  ; ("ExternalException", "INVALID_PARAM", 2)
  ; ("ExternalException", "INTERNAL_ERROR", 3) ]%Z.

(** pythoncardx/external/memory.py:4-5 *)
Definition memory_consts : list const :=
  [ ("Memory", "MEMORY_TYPE_MIFARE", 1)
  ; ("Memory", "MEMORY_TYPE_EXTENDED_STORE", 2) ]%Z.

(** pythoncard/framework/jcsystem.py:3-16 *)
Definition jcsystem_consts : list const :=
  [ ("JCSystem", "ARRAY_TYPE_BOOLEAN", M_system.ARRAY_TYPE_BOOLEAN)
  ; ("JCSystem", "ARRAY_TYPE_BYTE", M_system.ARRAY_TYPE_BYTE)
  ; ("JCSystem", "ARRAY_TYPE_INT", M_system.ARRAY_TYPE_INT)
  ; ("JCSystem", "ARRAY_TYPE_OBJECT", M_system.ARRAY_TYPE_OBJECT)
  ; ("JCSystem", "ARRAY_TYPE_SHORT", M_system.ARRAY_TYPE_SHORT)
  ; ("JCSystem", "CLEAR_ON_DESELECT", 2)
  ; ("JCSystem", "CLEAR_ON_RESET", 1)
  ; ("JCSystem", "MEMORY_TYPE_PERSISTENT", 0)
  ; ("JCSystem", "MEMORY_TYPE_TRANSIENT_DESELECT", 2)
  ; ("JCSystem", "MEMORY_TYPE_TRANSIENT_RESET", 1)
  ; ("JCSystem", "NOT_A_TRANSIENT_OBJECT", 0) ]%Z.

(** pythoncard/framework/service/dispatcher.py:4-7 *)
Definition dispatcher_consts : list const :=
  [ ("Dispatcher", "PROCESS_COMMAND", M_system.PROCESS_COMMAND)
  ; ("Dispatcher", "PROCESS_INPUT_DATA", M_system.PROCESS_INPUT_DATA)
  ; ("Dispatcher", "PROCESS_NONE", M_system.PROCESS_NONE)
  ; ("Dispatcher", "PROCESS_OUTPUT_DATA", M_system.PROCESS_OUTPUT_DATA) ]%Z.

(** pythoncard/security/messagedigest.py:10-31 *)
Definition messagedigest_consts : list const :=
  [ ("MessageDigest", "ALG_MD5", 2)
  ; ("MessageDigest", "ALG_RIPEMD160", 3)
  ; ("MessageDigest", "ALG_SHA", 1)
  ; ("MessageDigest", "ALG_SHA_224", 7)
  ; ("MessageDigest", "ALG_SHA_256", 4)
  ; ("MessageDigest", "ALG_SHA_384", 5)
  ; ("MessageDigest", "ALG_SHA_512", 6)
  ; ("MessageDigest", "ALG_SHA3_224", 8)
  ; ("MessageDigest", "ALG_SHA3_256", 9)
  ; ("MessageDigest", "ALG_SHA3_384", 10)
  ; ("MessageDigest", "ALG_SHA3_512", 11)
  ; ("MessageDigest", "LENGTH_MD5", 16)
  ; ("MessageDigest", "LENGTH_RIPEMD160", 20)
  ; ("MessageDigest", "LENGTH_SHA", 20)
  ; ("MessageDigest", "LENGTH_SHA_224", 28)
  ; ("MessageDigest", "LENGTH_SHA_256", 32)
  ; ("MessageDigest", "LENGTH_SHA_384", 48)
  ; ("MessageDigest", "LENGTH_SHA_512", 64)
  ; ("MessageDigest", "LENGTH_SHA3_224", 28)
  ; ("MessageDigest", "LENGTH_SHA3_256", 32)
  ; ("MessageDigest", "LENGTH_SHA3_384", 48)
  ; ("MessageDigest", "LENGTH_SHA3_512", 64) ]%Z.

(** pythoncard/security/signature.py:2-45 *)
Definition signature_consts : list const :=
  [ ("Signature", "ALG_DES_MAC4_NOPAD", 1)
  ; ("Signature", "ALG_DES_MAC8_NOPAD", 2)
  ; ("Signature", "ALG_DES_MAC4_ISO9797_M1", 3)
  ; ("Signature", "ALG_DES_MAC8_ISO9797_M1", 4)
  ; ("Signature", "ALG_DES_MAC4_ISO9797_M2", 5)
  ; ("Signature", "ALG_DES_MAC8_ISO9797_M2", 6)
  ; ("Signature", "ALG_DES_MAC4_PKCS5", 7)
  ; ("Signature", "ALG_DES_MAC8_PKCS5", 8)
  ; ("Signature", "ALG_RSA_SHA_ISO9796", 9)
  ; ("Signature", "ALG_RSA_SHA_PKCS1", M_signature.ALG_RSA_SHA_PKCS1)
  ; ("Signature", "ALG_RSA_MD5_PKCS1", 11)
  ; ("Signature", "ALG_RSA_RIPEMD160_ISO9796", 12)
  ; ("Signature", "ALG_RSA_RIPEMD160_PKCS1", 13)
  ; ("Signature", "ALG_DSA_SHA", 14)
  ; ("Signature", "ALG_RSA_SHA_RFC2409", 15)
  ; ("Signature", "ALG_RSA_MD5_RFC2409", 16)
  ; ("Signature", "ALG_ECDSA_SHA", 17)
  ; ("Signature", "ALG_AES_MAC_128_NOPAD", 18)
  ; ("Signature", "ALG_DES_MAC4_ISO9797_1_M2_ALG3", 19)
  ; ("Signature", "ALG_DES_MAC8_ISO9797_1_M2_ALG3", 20)
  ; ("Signature", "ALG_RSA_SHA_PKCS1_PSS", 21)
  ; ("Signature", "ALG_RSA_MD5_PKCS1_PSS", 22)
  ; ("Signature", "ALG_RSA_RIPEMD160_PKCS1_PSS", 23)
  ; ("Signature", "ALG_HMAC_SHA1", 24)
  ; ("Signature", "ALG_HMAC_SHA_256", 25)
  ; ("Signature", "ALG_HMAC_SHA_384", 26)
  ; ("Signature", "ALG_HMAC_SHA_512", 27)
  ; ("Signature", "ALG_HMAC_MD5", 28)
  ; ("Signature", "ALG_HMAC_RIPEMD160", 29)
  ; ("Signature", "ALG_RSA_SHA_ISO9796_MR", 30)
  ; ("Signature", "ALG_RSA_RIPEMD160_ISO9796_MR", 31)
  ; ("Signature", "ALG_KOREAN_SEED_MAC_NOPAD", 32)
  ; ("Signature", "MODE_SIGN", 1)
  ; ("Signature", "MODE_VERIFY", 2)
  ; ("Signature", "SIG_CIPHER_DES_MAC4", 1)
  ; ("Signature", "SIG_CIPHER_DES_MAC8", 2)
  ; ("Signature", "SIG_CIPHER_RSA", 3)
  ; ("Signature", "SIG_CIPHER_DSA", 4)
  ; ("Signature", "SIG_CIPHER_ECDSA", 5)
  ; ("Signature", "SIG_CIPHER_AES_MAC128", 6)
  ; ("Signature", "SIG_CIPHER_HMAC", 7)
  ; ("Signature", "SIG_CIPHER_KOREAN_SEED_MAC", 8) ]%Z.

(** pythoncard/security/keypair.py:12-16 *)
Definition keypair_consts : list const :=
  [ ("KeyPair", "ALG_DSA", 3)
  ; ("KeyPair", "ALG_EC_F2M", 4)
  ; ("KeyPair", "ALG_EC_FP", 5)
  ; ("KeyPair", "ALG_RSA", M_key.ALG_RSA)
  ; ("KeyPair", "ALG_RSA_CRT", M_key.ALG_RSA_CRT) ]%Z.

(** pythoncard/security/keybuilder.py:4-70 *)
Definition keybuilder_consts : list const :=
  [ ("KeyBuilder", "ALG_TYPE_AES", 2)
  ; ("KeyBuilder", "ALG_TYPE_DES", 1)
  ; ("KeyBuilder", "ALG_TYPE_DSA_PRIVATE", 4)
  ; ("KeyBuilder", "ALG_TYPE_DSA_PUBLIC", 3)
  ; ("KeyBuilder", "ALG_TYPE_EC_F2M_PRIVATE", 6)
  ; ("KeyBuilder", "ALG_TYPE_EC_F2M_PUBLIC", 5)
  ; ("KeyBuilder", "ALG_TYPE_EC_FP_PRIVATE", 8)
  ; ("KeyBuilder", "ALG_TYPE_EC_FP_PUBLIC", 7)
  ; ("KeyBuilder", "ALG_TYPE_HMAC", 9)
  ; ("KeyBuilder", "ALG_TYPE_KOREAN_SEED", 10)
  ; ("KeyBuilder", "ALG_TYPE_RSA_CRT_PRIVATE", 13)
  ; ("KeyBuilder", "ALG_TYPE_RSA_PRIVATE", 12)
  ; ("KeyBuilder", "ALG_TYPE_RSA_PUBLIC", 11)
  ; ("KeyBuilder", "LENGTH_AES_128", 128)
  ; ("KeyBuilder", "LENGTH_AES_192", 192)
  ; ("KeyBuilder", "LENGTH_AES_256", 256)
  ; ("KeyBuilder", "LENGTH_DES", 64)
  ; ("KeyBuilder", "LENGTH_DES3_2KEY", 128)
  ; ("KeyBuilder", "LENGTH_DES3_3KEY", 192)
  ; ("KeyBuilder", "LENGTH_DSA_1024", 1024)
  ; ("KeyBuilder", "LENGTH_DSA_512", 512)
  ; ("KeyBuilder", "LENGTH_DSA_768", 768)
  ; ("KeyBuilder", "LENGTH_EC_F2M_113", 113)
  ; ("KeyBuilder", "LENGTH_EC_F2M_131", 131)
  ; ("KeyBuilder", "LENGTH_EC_F2M_163", 163)
  ; ("KeyBuilder", "LENGTH_EC_F2M_193", 193)
  ; ("KeyBuilder", "LENGTH_EC_FP_112", 112)
  ; ("KeyBuilder", "LENGTH_EC_FP_128", 128)
  ; ("KeyBuilder", "LENGTH_EC_FP_160", 160)
  ; ("KeyBuilder", "LENGTH_EC_FP_192", 192)
  ; ("KeyBuilder", "LENGTH_HMAC_SHA_1_BLOCK_64", 64)
  ; ("KeyBuilder", "LENGTH_HMAC_SHA_256_BLOCK_64", 64)
  ; ("KeyBuilder", "LENGTH_HMAC_SHA_384_BLOCK_128", 128)
  ; ("KeyBuilder", "LENGTH_HMAC_SHA_512_BLOCK_128", 128)
  ; ("KeyBuilder", "LENGTH_KOREAN_SEED_128", 128)
  ; ("KeyBuilder", "LENGTH_RSA_1024", 1024)
  ; ("KeyBuilder", "LENGTH_RSA_1280", 1280)
  ; ("KeyBuilder", "LENGTH_RSA_1536", 1536)
  ; ("KeyBuilder", "LENGTH_RSA_1984", 1984)
  ; ("KeyBuilder", "LENGTH_RSA_2048", 2048)
  ; ("KeyBuilder", "LENGTH_RSA_512", 512)
  ; ("KeyBuilder", "LENGTH_RSA_736", 736)
  ; ("KeyBuilder", "LENGTH_RSA_768", 768)
  ; ("KeyBuilder", "LENGTH_RSA_896", 896)
  ; ("KeyBuilder", "TYPE_AES", 15)
  ; ("KeyBuilder", "TYPE_AES_TRANSIENT_DESELECT", 14)
  ; ("KeyBuilder", "TYPE_AES_TRANSIENT_RESET", 13)
  ; ("KeyBuilder", "TYPE_DES", M_key.TYPE_DES)
  ; ("KeyBuilder", "TYPE_DES_TRANSIENT_DESELECT", M_key.TYPE_DES_TRANSIENT_DESELECT)
  ; ("KeyBuilder", "TYPE_DES_TRANSIENT_RESET", M_key.TYPE_DES_TRANSIENT_RESET)
  ; ("KeyBuilder", "TYPE_DSA_PRIVATE", 8)
  ; ("KeyBuilder", "TYPE_DSA_PUBLIC", 7)
  ; ("KeyBuilder", "TYPE_EC_F2M_PRIVATE", 10)
  ; ("KeyBuilder", "TYPE_EC_F2M_PUBLIC", 9)
  ; ("KeyBuilder", "TYPE_EC_FP_PRIVATE", 12)
  ; ("KeyBuilder", "TYPE_EC_FP_PUBLIC", 11)
  ; ("KeyBuilder", "TYPE_HMAC", 21)
  ; ("KeyBuilder", "TYPE_HMAC_TRANSIENT_DESELECT", 20)
  ; ("KeyBuilder", "TYPE_HMAC_TRANSIENT_RESET", 19)
  ; ("KeyBuilder", "TYPE_KOREAN_SEED", 18)
  ; ("KeyBuilder", "TYPE_KOREAN_SEED_TRANSIENT_DESELECT", 17)
  ; ("KeyBuilder", "TYPE_KOREAN_SEED_TRANSIENT_RESET", 16)
  ; ("KeyBuilder", "TYPE_RSA_CRT_PRIVATE", M_key.TYPE_RSA_CRT_PRIVATE)
  ; ("KeyBuilder", "TYPE_RSA_PRIVATE", M_key.TYPE_RSA_PRIVATE)
  ; ("KeyBuilder", "TYPE_RSA_PUBLIC", M_key.TYPE_RSA_PUBLIC) ]%Z.

(** pythoncard/security/random.py:6-7 *)
Definition randomdata_consts : list const :=
  [ ("RandomData", "ALG_PSEUDO_RANDOM", 1)
  ; ("RandomData", "ALG_SECURE_RANDOM", M_digest.ALG_SECURE_RANDOM) ]%Z.

(** pythoncardx/framework/math.py:40-41 *)
Definition bignumber_consts : list const :=
  [ ("BigNumber", "FORMAT_BCD", M_bignumber.FORMAT_BCD)
  ; ("BigNumber", "FORMAT_HEX", M_bignumber.FORMAT_HEX) ]%Z.

(** pythoncardx/framework/tlv/bertag.py:19-24 *)
Definition bertag_consts : list const :=
  [ ("BERTag", "BER_TAG_CLASS_MASK_APPLICATION", 0)
  ; ("BERTag", "BER_TAG_CLASS_MASK_CONTEXT_SPECIFIC", 1)
  ; ("BERTag", "BER_TAG_CLASS_MASK_PRIVATE", 2)
  ; ("BERTag", "BER_TAG_CLASS_MASK_UNIVERSAL", 3)
  ; ("BERTag", "BER_TAG_TYPE_CONSTRUCTED", 4)
  ; ("BERTag", "BER_TAG_TYPE_PRIMITIVE", 5) ]%Z.

(** pythoncardx/crypto/cipher.py:20-71 *)
Definition cipher_consts : list const :=
  [ ("Cipher", "ALG_DES_CBC_NOPAD", M_cipher.ALG_DES_CBC_NOPAD)
  ; ("Cipher", "ALG_DES_CBC_ISO9797_M1", 2)
  ; ("Cipher", "ALG_DES_CBC_ISO9797_M2", 3)
  ; ("Cipher", "ALG_DES_CBC_PKCS5", M_cipher.ALG_DES_CBC_PKCS5)
  ; ("Cipher", "ALG_DES_ECB_NOPAD", M_cipher.ALG_DES_ECB_NOPAD)
  ; ("Cipher", "ALG_DES_ECB_ISO9797_M1", 6)
  ; ("Cipher", "ALG_DES_ECB_ISO9797_M2", 7)
  ; ("Cipher", "ALG_DES_ECB_PKCS5", M_cipher.ALG_DES_ECB_PKCS5)
  ; ("Cipher", "ALG_RSA_ISO14888", 9)
  ; ("Cipher", "ALG_RSA_PKCS1", M_cipher.ALG_RSA_PKCS1)
  ; ("Cipher", "ALG_RSA_ISO9796", 11)
  ; ("Cipher", "ALG_RSA_NOPAD", M_cipher.ALG_RSA_NOPAD)
  ; ("Cipher", "ALG_AES_BLOCK_128_CBC_NOPAD", 13)
  ; ("Cipher", "ALG_AES_BLOCK_128_ECB_NOPAD", 14)
  ; ("Cipher", "ALG_RSA_PKCS1_OAEP", 15)
  ; ("Cipher", "ALG_KOREAN_SEED_ECB_NOPAD", 16)
  ; ("Cipher", "ALG_KOREAN_SEED_CBC_NOPAD", 17)
  ; ("Cipher", "ALG_AES_BLOCK_192_CBC_NOPAD", 18)
  ; ("Cipher", "ALG_AES_BLOCK_192_ECB_NOPAD", 19)
  ; ("Cipher", "ALG_AES_BLOCK_256_CBC_NOPAD", 20)
  ; ("Cipher", "ALG_AES_BLOCK_256_ECB_NOPAD", 21)
  ; ("Cipher", "ALG_AES_CBC_ISO9797_M1", 22)
  ; ("Cipher", "ALG_AES_CBC_ISO9797_M2", 23)
  ; ("Cipher", "ALG_AES_CBC_PKCS5", 24)
  ; ("Cipher", "ALG_AES_ECB_ISO9797_M1", 25)
  ; ("Cipher", "ALG_AES_ECB_ISO9797_M2", 26)
  ; ("Cipher", "ALG_AES_ECB_PKCS5", 27)
  ; ("Cipher", "MODE_DECRYPT", M_cipher.MODE_DECRYPT)
  ; ("Cipher", "MODE_ENCRYPT", M_cipher.MODE_ENCRYPT)
  ; ("Cipher", "CIPHER_AES_CBC", 1)
  ; ("Cipher", "CIPHER_AES_ECB", 2)
  ; ("Cipher", "CIPHER_DES_CBC", M_cipher.CIPHER_DES_CBC)
  ; ("Cipher", "CIPHER_DES_ECB", M_cipher.CIPHER_DES_ECB)
  ; ("Cipher", "CIPHER_KOREAN_SEED_CBC", 5)
  ; ("Cipher", "CIPHER_KOREAN_SEED_ECB", 6)
  ; ("Cipher", "CIPHER_RSA", M_cipher.CIPHER_RSA)
  ; ("Cipher", "PAD_NULL", 0)
  ; ("Cipher", "PAD_NOPAD", M_cipher.CPAD_NOPAD)
  ; ("Cipher", "PAD_ISO9797_M1", 2)
  ; ("Cipher", "PAD_ISO9797_M2", 3)
  ; ("Cipher", "PAD_ISO9797_1_M1_ALG3", 4)
  ; ("Cipher", "PAD_ISO9797_1_M2_ALG3", 5)
  ; ("Cipher", "PAD_PKCS5", M_cipher.CPAD_PKCS5)
  ; ("Cipher", "PAD_PKCS1", M_cipher.CPAD_PKCS1)
  ; ("Cipher", "PAD_PKCS1_PSS", 8)
  ; ("Cipher", "PAD_PKCS1_OAEP", 9)
  ; ("Cipher", "PAD_ISO9796", 10)
  ; ("Cipher", "PAD_ISO9796_MR", 11)
  ; ("Cipher", "PAD_RFC2409", 12) ]%Z.

Definition all_consts : list const :=
  iso7816_consts ++ apdu_states_consts ++ apdu_more_consts ++ pinexc_consts ++ apduexc_consts ++ sysexc_consts
  ++ traexc_consts ++ cryexc_consts ++ serexc_consts ++ tlvexc_consts ++ extexc_consts ++ memory_consts ++ jcsystem_consts
  ++ dispatcher_consts ++ messagedigest_consts ++ signature_consts ++ keypair_consts ++ keybuilder_consts ++ randomdata_consts ++ bignumber_consts ++ bertag_consts ++ cipher_consts.

(** [getattr(cls, name)] for the constants *)
Definition named_const (l : list const) (c n : string) : option Z :=
  option_map snd (find (fun e => String.eqb (fst (fst e)) c && String.eqb (snd (fst e)) n) l).
