(** * Specification for C125: the constants of the Java Card API (2.2.2; bytes and
      shorts unsigned) *)
From Coq Require Import Ascii String DecimalString.
From Verif Require Import Py S_Base S_BER M_bertag.
Open Scope string_scope.

Definition jc_ISO7816 : list (string * string * Z) :=
  map (fun e => ("ISO7816", fst e, snd e))
  [ ("CLA_ISO7816", 0)
  ; ("INS_EXTERNAL_AUTHENTICATE", 130)
  ; ("INS_SELECT", 164)
  ; ("OFFSET_CLA", 0)
  ; ("OFFSET_INS", 1)
  ; ("OFFSET_P1", 2)
  ; ("OFFSET_P2", 3)
  ; ("OFFSET_LC", 4)
  ; ("OFFSET_CDATA", 5)
  ; ("OFFSET_EXT_CDATA", 7)
  ; ("SW_NO_ERROR", 36864 (* 0x9000 *))
  ; ("SW_BYTES_REMAINING_00", 24832 (* 0x6100 *))
  ; ("SW_WRONG_LENGTH", 26368 (* 0x6700 *))
  ; ("SW_SECURITY_STATUS_NOT_SATISFIED", 27010 (* 0x6982 *))
  ; ("SW_FILE_INVALID", 27011 (* 0x6983 *))
  ; ("SW_DATA_INVALID", 27012 (* 0x6984 *))
  ; ("SW_CONDITIONS_NOT_SATISFIED", 27013 (* 0x6985 *))
  ; ("SW_COMMAND_NOT_ALLOWED", 27014 (* 0x6986 *))
  ; ("SW_APPLET_SELECT_FAILED", 27033 (* 0x6999 *))
  ; ("SW_WRONG_DATA", 27264 (* 0x6a80 *))
  ; ("SW_FUNC_NOT_SUPPORTED", 27265 (* 0x6a81 *))
  ; ("SW_FILE_NOT_FOUND", 27266 (* 0x6a82 *))
  ; ("SW_RECORD_NOT_FOUND", 27267 (* 0x6a83 *))
  ; ("SW_INCORRECT_P1P2", 27270 (* 0x6a86 *))
  ; ("SW_WRONG_P1P2", 27392 (* 0x6b00 *))
  ; ("SW_CORRECT_LENGTH_00", 27648 (* 0x6c00 *))
  ; ("SW_INS_NOT_SUPPORTED", 27904 (* 0x6d00 *))
  ; ("SW_CLA_NOT_SUPPORTED", 28160 (* 0x6e00 *))
  ; ("SW_UNKNOWN", 28416 (* 0x6f00 *))
  ; ("SW_FILE_FULL", 27268 (* 0x6a84 *))
  ; ("SW_LOGICAL_CHANNEL_NOT_SUPPORTED", 26753 (* 0x6881 *))
  ; ("SW_SECURE_MESSAGING_NOT_SUPPORTED", 26754 (* 0x6882 *))
  ; ("SW_LAST_COMMAND_EXPECTED", 26755 (* 0x6883 *))
  ; ("SW_COMMAND_CHAINING_NOT_SUPPORTED", 26756 (* 0x6884 *))
  ; ("SW_WARNING_STATE_UNCHANGED", 25088 (* 0x6200 *)) ]%Z.
Definition jc_APDU : list (string * string * Z) :=
  map (fun e => ("APDU", fst e, snd e))
  [ ("STATE_INITIAL", 0)
  ; ("STATE_PARTIAL_INCOMING", 1)
  ; ("STATE_FULL_INCOMING", 2)
  ; ("STATE_OUTGOING", 3)
  ; ("STATE_OUTGOING_LENGTH_KNOWN", 4)
  ; ("STATE_PARTIAL_OUTGOING", 5)
  ; ("STATE_FULL_OUTGOING", 6)
  ; ("PROTOCOL_T0", 0)
  ; ("PROTOCOL_T1", 1)
  ; ("PROTOCOL_TYPE_MASK", 15)
  ; ("PROTOCOL_MEDIA_DEFAULT", 0)
  ; ("PROTOCOL_MEDIA_CONTACTLESS_TYPE_A", 128)
  ; ("PROTOCOL_MEDIA_CONTACTLESS_TYPE_B", 144)
  ; ("PROTOCOL_MEDIA_USB", 160)
  ; ("PROTOCOL_MEDIA_MASK", 240) ]%Z.
Definition jc_PINException : list (string * string * Z) :=
  map (fun e => ("PINException", fst e, snd e))
  [ ("ILLEGAL_VALUE", 1) ]%Z.
Definition jc_APDUException : list (string * string * Z) :=
  map (fun e => ("APDUException", fst e, snd e))
  [ ("ILLEGAL_USE", 1)
  ; ("BUFFER_BOUNDS", 2)
  ; ("BAD_LENGTH", 3)
  ; ("IO_ERROR", 4)
  ; ("NO_T0_GETRESPONSE", 170)
  ; ("T1_IFD_ABORT", 171)
  ; ("NO_T0_REISSUE", 172) ]%Z.
Definition jc_SystemException : list (string * string * Z) :=
  map (fun e => ("SystemException", fst e, snd e))
  [ ("ILLEGAL_VALUE", 1)
  ; ("NO_TRANSIENT_SPACE", 2)
  ; ("ILLEGAL_TRANSIENT", 3)
  ; ("ILLEGAL_AID", 4)
  ; ("NO_RESOURCE", 5)
  ; ("ILLEGAL_USE", 6) ]%Z.
Definition jc_TransactionException : list (string * string * Z) :=
  map (fun e => ("TransactionException", fst e, snd e))
  [ ("IN_PROGRESS", 1)
  ; ("NOT_IN_PROGRESS", 2)
  ; ("BUFFER_FULL", 3)
  ; ("INTERNAL_FAILURE", 4) ]%Z.
Definition jc_CryptoException : list (string * string * Z) :=
  map (fun e => ("CryptoException", fst e, snd e))
  [ ("ILLEGAL_VALUE", 1)
  ; ("UNINITIALIZED_KEY", 2)
  ; ("NO_SUCH_ALGORITHM", 3)
  ; ("INVALID_INIT", 4)
  ; ("ILLEGAL_USE", 5) ]%Z.
Definition jc_ServiceException : list (string * string * Z) :=
  map (fun e => ("ServiceException", fst e, snd e))
  [ ("ILLEGAL_PARAM", 1)
  ; ("DISPATCH_TABLE_FULL", 2)
  ; ("COMMAND_DATA_TOO_LONG", 3)
  ; ("CANNOT_ACCESS_IN_COMMAND", 4)
  ; ("CANNOT_ACCESS_OUT_COMMAND", 5)
  ; ("COMMAND_IS_FINISHED", 6)
  ; ("REMOTE_OBJECT_NOT_EXPORTED", 7) ]%Z.
Definition jc_JCSystem : list (string * string * Z) :=
  map (fun e => ("JCSystem", fst e, snd e))
  [ ("ARRAY_TYPE_BOOLEAN", 1)
  ; ("ARRAY_TYPE_BYTE", 2)
  ; ("ARRAY_TYPE_SHORT", 3)
  ; ("ARRAY_TYPE_INT", 4)
  ; ("ARRAY_TYPE_OBJECT", 5)
  ; ("NOT_A_TRANSIENT_OBJECT", 0)
  ; ("CLEAR_ON_RESET", 1)
  ; ("CLEAR_ON_DESELECT", 2)
  ; ("MEMORY_TYPE_PERSISTENT", 0)
  ; ("MEMORY_TYPE_TRANSIENT_RESET", 1)
  ; ("MEMORY_TYPE_TRANSIENT_DESELECT", 2) ]%Z.
Definition jc_Dispatcher : list (string * string * Z) :=
  map (fun e => ("Dispatcher", fst e, snd e))
  [ ("PROCESS_NONE", 0)
  ; ("PROCESS_INPUT_DATA", 1)
  ; ("PROCESS_COMMAND", 2)
  ; ("PROCESS_OUTPUT_DATA", 3) ]%Z.
Definition jc_MessageDigest : list (string * string * Z) :=
  map (fun e => ("MessageDigest", fst e, snd e))
  [ ("ALG_SHA", 1)
  ; ("ALG_MD5", 2)
  ; ("ALG_RIPEMD160", 3)
  ; ("ALG_SHA_256", 4)
  ; ("ALG_SHA_384", 5)
  ; ("ALG_SHA_512", 6)
  ; ("ALG_SHA_224", 7)
  ; ("LENGTH_SHA", 20)
  ; ("LENGTH_MD5", 16)
  ; ("LENGTH_RIPEMD160", 20)
  ; ("LENGTH_SHA_224", 28)
  ; ("LENGTH_SHA_256", 32)
  ; ("LENGTH_SHA_384", 48)
  ; ("LENGTH_SHA_512", 64) ]%Z.
Definition jc_Signature : list (string * string * Z) :=
  map (fun e => ("Signature", fst e, snd e))
  [ ("ALG_DES_MAC4_NOPAD", 1)
  ; ("ALG_DES_MAC8_NOPAD", 2)
  ; ("ALG_DES_MAC4_ISO9797_M1", 3)
  ; ("ALG_DES_MAC8_ISO9797_M1", 4)
  ; ("ALG_DES_MAC4_ISO9797_M2", 5)
  ; ("ALG_DES_MAC8_ISO9797_M2", 6)
  ; ("ALG_DES_MAC4_PKCS5", 7)
  ; ("ALG_DES_MAC8_PKCS5", 8)
  ; ("ALG_RSA_SHA_ISO9796", 9)
  ; ("ALG_RSA_SHA_PKCS1", 10)
  ; ("ALG_RSA_MD5_PKCS1", 11)
  ; ("ALG_RSA_RIPEMD160_ISO9796", 12)
  ; ("ALG_RSA_RIPEMD160_PKCS1", 13)
  ; ("ALG_DSA_SHA", 14)
  ; ("ALG_RSA_SHA_RFC2409", 15)
  ; ("ALG_RSA_MD5_RFC2409", 16)
  ; ("ALG_ECDSA_SHA", 17)
  ; ("ALG_AES_MAC_128_NOPAD", 18)
  ; ("ALG_DES_MAC4_ISO9797_1_M2_ALG3", 19)
  ; ("ALG_DES_MAC8_ISO9797_1_M2_ALG3", 20)
  ; ("ALG_RSA_SHA_PKCS1_PSS", 21)
  ; ("ALG_RSA_MD5_PKCS1_PSS", 22)
  ; ("ALG_RSA_RIPEMD160_PKCS1_PSS", 23)
  ; ("ALG_HMAC_SHA1", 24)
  ; ("ALG_HMAC_SHA_256", 25)
  ; ("ALG_HMAC_SHA_384", 26)
  ; ("ALG_HMAC_SHA_512", 27)
  ; ("ALG_HMAC_MD5", 28)
  ; ("ALG_HMAC_RIPEMD160", 29)
  ; ("ALG_RSA_SHA_ISO9796_MR", 30)
  ; ("ALG_RSA_RIPEMD160_ISO9796_MR", 31)
  ; ("ALG_KOREAN_SEED_MAC_NOPAD", 32)
  ; ("MODE_SIGN", 1)
  ; ("MODE_VERIFY", 2) ]%Z.
Definition jc_KeyPair : list (string * string * Z) :=
  map (fun e => ("KeyPair", fst e, snd e))
  [ ("ALG_RSA", 1)
  ; ("ALG_RSA_CRT", 2)
  ; ("ALG_DSA", 3)
  ; ("ALG_EC_F2M", 4)
  ; ("ALG_EC_FP", 5) ]%Z.
Definition jc_KeyBuilder : list (string * string * Z) :=
  map (fun e => ("KeyBuilder", fst e, snd e))
  [ ("TYPE_DES_TRANSIENT_RESET", 1)
  ; ("TYPE_DES_TRANSIENT_DESELECT", 2)
  ; ("TYPE_DES", 3)
  ; ("TYPE_RSA_PUBLIC", 4)
  ; ("TYPE_RSA_PRIVATE", 5)
  ; ("TYPE_RSA_CRT_PRIVATE", 6)
  ; ("TYPE_DSA_PUBLIC", 7)
  ; ("TYPE_DSA_PRIVATE", 8)
  ; ("TYPE_EC_F2M_PUBLIC", 9)
  ; ("TYPE_EC_F2M_PRIVATE", 10)
  ; ("TYPE_EC_FP_PUBLIC", 11)
  ; ("TYPE_EC_FP_PRIVATE", 12)
  ; ("TYPE_AES_TRANSIENT_RESET", 13)
  ; ("TYPE_AES_TRANSIENT_DESELECT", 14)
  ; ("TYPE_AES", 15)
  ; ("TYPE_KOREAN_SEED_TRANSIENT_RESET", 16)
  ; ("TYPE_KOREAN_SEED_TRANSIENT_DESELECT", 17)
  ; ("TYPE_KOREAN_SEED", 18)
  ; ("TYPE_HMAC_TRANSIENT_RESET", 19)
  ; ("TYPE_HMAC_TRANSIENT_DESELECT", 20)
  ; ("TYPE_HMAC", 21)
  ; ("LENGTH_DES", 64)
  ; ("LENGTH_DES3_2KEY", 128)
  ; ("LENGTH_DES3_3KEY", 192)
  ; ("LENGTH_AES_128", 128)
  ; ("LENGTH_AES_192", 192)
  ; ("LENGTH_AES_256", 256)
  ; ("LENGTH_RSA_512", 512)
  ; ("LENGTH_RSA_736", 736)
  ; ("LENGTH_RSA_768", 768)
  ; ("LENGTH_RSA_896", 896)
  ; ("LENGTH_RSA_1024", 1024)
  ; ("LENGTH_RSA_1280", 1280)
  ; ("LENGTH_RSA_1536", 1536)
  ; ("LENGTH_RSA_1984", 1984)
  ; ("LENGTH_RSA_2048", 2048) ]%Z.
Definition jc_RandomData : list (string * string * Z) :=
  map (fun e => ("RandomData", fst e, snd e))
  [ ("ALG_PSEUDO_RANDOM", 1)
  ; ("ALG_SECURE_RANDOM", 2) ]%Z.
Definition jc_BigNumber : list (string * string * Z) :=
  map (fun e => ("BigNumber", fst e, snd e))
  [ ("FORMAT_BCD", 1)
  ; ("FORMAT_HEX", 2) ]%Z.
Definition jc_Cipher : list (string * string * Z) :=
  map (fun e => ("Cipher", fst e, snd e))
  [ ("ALG_DES_CBC_NOPAD", 1)
  ; ("ALG_DES_CBC_ISO9797_M1", 2)
  ; ("ALG_DES_CBC_ISO9797_M2", 3)
  ; ("ALG_DES_CBC_PKCS5", 4)
  ; ("ALG_DES_ECB_NOPAD", 5)
  ; ("ALG_DES_ECB_ISO9797_M1", 6)
  ; ("ALG_DES_ECB_ISO9797_M2", 7)
  ; ("ALG_DES_ECB_PKCS5", 8)
  ; ("ALG_RSA_ISO14888", 9)
  ; ("ALG_RSA_PKCS1", 10)
  ; ("ALG_RSA_ISO9796", 11)
  ; ("ALG_RSA_NOPAD", 12)
  ; ("ALG_AES_BLOCK_128_CBC_NOPAD", 13)
  ; ("ALG_AES_BLOCK_128_ECB_NOPAD", 14)
  ; ("ALG_RSA_PKCS1_OAEP", 15)
  ; ("ALG_KOREAN_SEED_ECB_NOPAD", 16)
  ; ("ALG_KOREAN_SEED_CBC_NOPAD", 17)
  ; ("MODE_DECRYPT", 1)
  ; ("MODE_ENCRYPT", 2) ]%Z.

Definition jc_consts : list (string * string * Z) :=
  jc_ISO7816
  ++ jc_APDU
  ++ jc_PINException
  ++ jc_APDUException
  ++ jc_SystemException
  ++ jc_TransactionException
  ++ jc_CryptoException
  ++ jc_ServiceException
  ++ jc_JCSystem
  ++ jc_Dispatcher
  ++ jc_MessageDigest
  ++ jc_Signature
  ++ jc_KeyPair
  ++ jc_KeyBuilder
  ++ jc_RandomData
  ++ jc_BigNumber
  ++ jc_Cipher.

(** the classes of exceptions with reason codes *)
Definition exception_class (c : string) : bool :=
  existsb (String.eqb c) ["PINException"; "APDUException"; "SystemException"; "TransactionException";
    "CryptoException"; "ServiceException"; "TLVException"; "ExternalException"].

(** C125: the groups of constants that name alternatives of one choice, by class and
    prefix (lengths and masks are not alternatives) *)
Definition choices : list (string * string) :=
  [ ("ISO7816", "SW_"); ("ISO7816", "INS_"); ("ISO7816", "OFFSET_"); ("APDU", "STATE_"); ("APDU", "PROTOCOL_");
    ("Memory", "MEMORY_TYPE_"); ("JCSystem", "ARRAY_TYPE_"); ("JCSystem", "CLEAR_ON_"); ("JCSystem", "MEMORY_TYPE_");
    ("Dispatcher", "PROCESS_"); ("MessageDigest", "ALG_"); ("Signature", "ALG_"); ("Signature", "MODE_");
    ("Signature", "SIG_CIPHER_"); ("KeyPair", "ALG_"); ("KeyBuilder", "ALG_TYPE_"); ("KeyBuilder", "TYPE_");
    ("RandomData", "ALG_"); ("BigNumber", "FORMAT_"); ("BERTag", "BER_TAG_CLASS_MASK_"); ("BERTag", "BER_TAG_TYPE_");
    ("Cipher", "ALG_"); ("Cipher", "MODE_"); ("Cipher", "CIPHER_"); ("Cipher", "PAD_") ].

(** the part of a name after its last underscore, as a decimal number: 128 for
    LENGTH_AES_128, none for LENGTH_DES *)
Fixpoint last_field (s field : string) : string :=
  match s with
  | EmptyString => field
  | String c s' => last_field s' (if Ascii.eqb c "_"%char then EmptyString else (field ++ String c EmptyString)%string)
  end.
Definition number_in_name (name : string) : option Z :=
  option_map Z.of_int (NilZero.int_of_string (last_field name EmptyString)).

(** C125: every constant of the Java Card API above has its value in the library.
    [value] looks a constant up by class and name. *)
Definition C125_full (value : string -> string -> option Z) : Prop :=
  forall c n v, In (c, n, v) jc_consts -> value c n = Some v.

(** the reason codes of APDUException and PINException and the protocol codes of APDU *)
Definition own_numbering (c n : string) : bool :=
  String.eqb c "APDUException" || String.eqb c "PINException" || (String.eqb c "APDU" && prefix "PROTOCOL_" n).

(** C126: the four tag classes, the name of the constant for each, and the class bits
    of the identifier octet (X.690, 8.1.2.2) *)
Definition tag_classes : list (string * Z) :=
  [ ("BER_TAG_CLASS_MASK_UNIVERSAL", 0); ("BER_TAG_CLASS_MASK_APPLICATION", 1);
    ("BER_TAG_CLASS_MASK_CONTEXT_SPECIFIC", 2); ("BER_TAG_CLASS_MASK_PRIVATE", 3) ]%Z.

(** C126: a tag made with the constant of a class is encoded in that class, and the
    tagClass() of a parsed tag is the constant of its class. *)
Definition C126_full (value : string -> string -> option Z) : Prop :=
  forall name bits, In (name, bits) tag_classes ->
  exists K, value "BERTag" name = Some K
  /\ (forall t n out off os, (t = newPrimitiveBERTag \/ t = newConstructedBERTag) -> 0 <= off ->
        identifier bits (tconstr t) n os -> off + zlen os <= zlen out ->
        exists out', tag_toBytes (init_class_number t K n) off out = (Ok (zlen os), out')
          /\ octets (sub out' (Z.to_nat off) (List.length os)) = os)%Z
  /\ (forall k n os arr off, identifier bits k n os -> 0 <= off ->
        octets (sub arr (Z.to_nat off) (List.length os)) = os ->
        exists t, BERTag_getInstance arr off = Ok t /\ tclass t = K)%Z.
