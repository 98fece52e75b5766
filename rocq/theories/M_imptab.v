(** * The top-level statements of the modules of the library

    One entry for each file of /repo/python, pythoncard, pythoncardx and pyDes (setup.py and
    the tests left out), in the order of the files; the statements in the order of the file.
    The uses of a class or def are the names its statement evaluates at import: bases,
    decorators, default arguments and the class body without the bodies of its methods. *)
From Verif Require Import Py M_lookup M_import.
From Coq Require Import String.
Open Scope string_scope.

(** pyDes/__init__.py:1 (empty) *)
Definition b_pyDes : list stmt :=
  [].
(** pyDes/pyDes.py:1-852 *)
Definition b_pyDes_pyDes : list stmt :=
  [ SImport "sys" "sys"; SBind "_pythonMajorVersion" [("sys", ["version_info"])]; SBind "ECB" []; SBind "CBC"
    []; SBind "PAD_NORMAL" []; SBind "PAD_PKCS5" []; SBind "_baseDes" [("object", []); ("ECB", []);
    ("PAD_NORMAL", [])]; SBind "des" [("_baseDes", []); ("ECB", []); ("PAD_NORMAL", [])]; SBind "triple_des"
    [("_baseDes", []); ("ECB", []); ("PAD_NORMAL", [])] ].
(** python/__init__.py:1 (empty) *)
Definition b_python : list stmt :=
  [].
(** python/io.py:1-2 *)
Definition b_python_io : list stmt :=
  [ SBind "IOException" [("Exception", [])] ].
(** python/lang.py:1-24 *)
Definition b_python_lang : list stmt :=
  [ SBind "Object" [("object", [])]; SBind "RuntimeException" [("Exception", [])]; SBind
    "IndexOutOfBoundsException" [("RuntimeException", [])]; SBind "ArrayIndexOutOfBoundsException"
    [("IndexOutOfBoundsException", [])]; SBind "SecurityException" [("RuntimeException", [])]; SBind
    "NullPointerException" [("RuntimeException", [])]; SBind "ArithmeticException" [("RuntimeException", [])];
    SBind "ClassCastException" [("RuntimeException", [])] ].
(** python/rmi.py:1-7 *)
Definition b_python_rmi : list stmt :=
  [ SFrom "python.io" "IOException" "IOException"; SBind "RemoteException" [("IOException", [])]; SBind
    "Remote" [("object", [])] ].
(** pythoncard/__init__.py:1 (empty) *)
Definition b_pythoncard : list stmt :=
  [].
(** pythoncard/framework/ISO7816.py:1-48 *)
Definition b_pythoncard_framework_ISO7816 : list stmt :=
  [ SBind "CLA_ISO7816" []; SBind "INS_EXTERNAL_AUTHENTICATE" []; SBind "INS_SELECT" []; SBind "OFFSET_CDATA"
    []; SBind "OFFSET_CLA" []; SBind "OFFSET_EXT_CDATA" []; SBind "OFFSET_INS" []; SBind "OFFSET_LC" []; SBind
    "OFFSET_P1" []; SBind "OFFSET_P2" []; SBind "SW_APPLET_SELECT_FAILED" []; SBind "SW_BYTES_REMAINING_00" [];
    SBind "SW_CLA_NOT_SUPPORTED" []; SBind "SW_COMMAND_CHAINING_NOT_SUPPORTED" []; SBind
    "SW_COMMAND_NOT_ALLOWED" []; SBind "SW_CONDITIONS_NOT_SATISFIED" []; SBind "SW_CORRECT_LENGTH_00" []; SBind
    "SW_DATA_INVALID" []; SBind "SW_FILE_FULL" []; SBind "SW_FILE_INVALID" []; SBind "SW_FILE_NOT_FOUND" [];
    SBind "SW_FUNC_NOT_SUPPORTED" []; SBind "SW_INCORRECT_P1P2" []; SBind "SW_INS_NOT_SUPPORTED" []; SBind
    "SW_LAST_COMMAND_EXPECTED" []; SBind "SW_LOGICAL_CHANNEL_NOT_SUPPORTED" []; SBind "SW_NO_ERROR" []; SBind
    "SW_RECORD_NOT_FOUND" []; SBind "SW_SECURE_MESSAGING_NOT_SUPPORTED" []; SBind
    "SW_SECURITY_STATUS_NOT_SATISFIED" []; SBind "SW_UNKNOWN" []; SBind "SW_WARNING_STATE_UNCHANGED" []; SBind
    "SW_WRONG_DATA" []; SBind "SW_WRONG_LENGTH" []; SBind "SW_WRONG_P1P2" [] ].
(** pythoncard/framework/__init__.py:1-78 *)
Definition b_pythoncard_framework : list stmt :=
  [ SFrom "python.lang" "RuntimeException" "RuntimeException"; SBind "CardException" [("Exception", [])];
    SBind "UserException" [("CardException", [])]; SBind "CardRuntimeException" [("RuntimeException", []);
    ("classmethod", [])]; SBind "ISOException" [("CardRuntimeException", [])]; SBind "PINException"
    [("CardRuntimeException", [])]; SBind "APDUException" [("CardRuntimeException", [])]; SBind
    "SystemException" [("CardRuntimeException", [])]; SBind "TransactionException" [("CardRuntimeException",
    [])]; SBind "Shareable" []; SFrom "pythoncard.framework" "applet" "applet"; SFrom "pythoncard.framework"
    "aid" "aid"; SFrom "pythoncard.framework" "apdu" "apdu"; SFrom "pythoncard.framework" "ownerpin" "ownerpin";
    SSame "Applet" ("applet", ["Applet"]); SSame "AID" ("aid", ["AID"]); SSame "APDU" ("apdu", ["APDU"]); SSame
    "OwnerPIN" ("ownerpin", ["OwnerPIN"]); SFrom "pythoncard.framework" "jcsystem" "JCSystem"; SFrom
    "pythoncard.framework" "util" "Util" ].
(** pythoncard/framework/aid.py:1-43 *)
Definition b_pythoncard_framework_aid : list stmt :=
  [ SFrom "python.lang" "ArrayIndexOutOfBoundsException" "ArrayIndexOutOfBoundsException"; SBind "AID"
    [("object", [])] ].
(** pythoncard/framework/apdu.py:1-283 *)
Definition b_pythoncard_framework_apdu : list stmt :=
  [ SBind "IN_BLOCKSIZE" []; SBind "OUT_BLOCKSIZE" []; SFrom "pythoncard.framework" "APDUException"
    "APDUException"; SFrom "pythoncard.framework" "ISOException" "ISOException"; SFrom "pythoncard.framework"
    "ISO7816" "ISO7816"; SFrom "pythoncard.utils" "u1" "u1"; SBind "_current" []; SBind "APDU" [("object", []);
    ("staticmethod", [])] ].
(** pythoncard/framework/applet.py:1-52 *)
Definition b_pythoncard_framework_applet : list stmt :=
  [ SImport "warnings" "warnings"; SBind "Applet" [("object", []); ("property", []); ("staticmethod", [])] ].
(** pythoncard/framework/jcsystem.py:1-72 *)
Definition b_pythoncard_framework_jcsystem : list stmt :=
  [ SImport "warnings" "warnings"; SBind "ARRAY_TYPE_BOOLEAN" []; SBind "ARRAY_TYPE_BYTE" []; SBind
    "ARRAY_TYPE_INT" []; SBind "ARRAY_TYPE_OBJECT" []; SBind "ARRAY_TYPE_SHORT" []; SBind "CLEAR_ON_DESELECT"
    []; SBind "CLEAR_ON_RESET" []; SBind "MEMORY_TYPE_PERSISTENT" []; SBind "MEMORY_TYPE_TRANSIENT_DESELECT" [];
    SBind "MEMORY_TYPE_TRANSIENT_RESET" []; SBind "NOT_A_TRANSIENT_OBJECT" []; SBind "abortTransaction" [];
    SBind "beginTransaction" []; SBind "commitTransaction" []; SBind "makeTransientShortArray" []; SSame
    "makeTransientByteArray" ("makeTransientShortArray", []); SBind "makeTransientBooleanArray" []; SBind
    "makeTransientObjectArray" []; SBind "requestObjectDeletion" []; SBind "getAvailableMemory" []; SBind
    "makeGlobalArray" [] ].
(** pythoncard/framework/ownerpin.py:1-88 *)
Definition b_pythoncard_framework_ownerpin : list stmt :=
  [ SFrom "python.lang" "ArrayIndexOutOfBoundsException" "ArrayIndexOutOfBoundsException"; SFrom
    "pythoncard.framework" "PINException" "PINException"; SBind "OwnerPIN" [("object", [])] ].
(** pythoncard/framework/service/__init__.py:1-25 *)
Definition b_pythoncard_framework_service : list stmt :=
  [ SFrom "pythoncard.framework" "CardRuntimeException" "CardRuntimeException"; SBind "ServiceException"
    [("CardRuntimeException", [])]; SBind "Service" [("object", [])]; SFrom "pythoncard.framework.service"
    "cardremoteobject" "cardremoteobject"; SSame "CardRemoteObject" ("cardremoteobject", ["CardRemoteObject"]);
    SFrom "pythoncard.framework.service" "dispatcher" "dispatcher"; SSame "Dispatcher" ("dispatcher",
    ["Dispatcher"]); SFrom "pythoncard.framework.service" "basicservice" "basicservice"; SSame "BasicService"
    ("basicservice", ["BasicService"]); SFrom "pythoncard.framework.service" "rmiservice" "rmiservice"; SSame
    "RMIService" ("rmiservice", ["RMIService"]) ].
(** pythoncard/framework/service/basicservice.py:1-4 *)
Definition b_pythoncard_framework_service_basicservice : list stmt :=
  [ SFrom "pythoncard.framework.service" "Service" "Service"; SBind "BasicService" [("Service", [])] ].
(** pythoncard/framework/service/cardremoteobject.py:1-4 *)
Definition b_pythoncard_framework_service_cardremoteobject : list stmt :=
  [ SFrom "python.rmi" "Remote" "Remote"; SBind "CardRemoteObject" [("Remote", [])] ].
(** pythoncard/framework/service/dispatcher.py:1-24 *)
Definition b_pythoncard_framework_service_dispatcher : list stmt :=
  [ SFrom "pythoncard.framework.service" "ServiceException" "ServiceException"; SBind "Dispatcher" [("object",
    [])] ].
(** pythoncard/framework/service/rmiservice.py:1-5 *)
Definition b_pythoncard_framework_service_rmiservice : list stmt :=
  [ SFrom "pythoncard.framework.service" "BasicService" "BasicService"; SBind "RMIService" [("BasicService",
    [])] ].
(** pythoncard/framework/util.py:1-66 *)
Definition b_pythoncard_framework_util : list stmt :=
  [ SFrom "python.lang" "ArrayIndexOutOfBoundsException" "ArrayIndexOutOfBoundsException"; SFrom
    "pythoncard.framework" "JCSystem" "JCSystem"; SFrom "pythoncard.utils" "s1" "s1"; SFrom "pythoncard.utils"
    "s2" "s2"; SBind "arrayCompare" []; SBind "arrayCopy" []; SBind "arrayCopyNonAtomic" []; SBind
    "arrayFillNonAtomic" []; SBind "makeShort" []; SBind "getShort" []; SBind "setShort" [] ].
(** pythoncard/security/__init__.py:1-33 *)
Definition b_pythoncard_security : list stmt :=
  [ SFrom "pythoncard.framework" "CardRuntimeException" "CardRuntimeException"; SBind "CryptoException"
    [("CardRuntimeException", [])]; SFrom "pythoncard.security" "key" "key"; SFrom "pythoncard.security"
    "keybuilder" "keybuilder"; SFrom "pythoncard.security" "privatekey" "privatekey"; SFrom
    "pythoncard.security" "publickey" "publickey"; SFrom "pythoncard.security" "secretkey" "secretkey"; SSame
    "Key" ("key", ["Key"]); SSame "KeyBuilder" ("keybuilder", ["KeyBuilder"]); SSame "PrivateKey" ("privatekey",
    ["PrivateKey"]); SSame "PublicKey" ("publickey", ["PublicKey"]); SSame "RSAPrivateCrtKey" ("privatekey",
    ["RSAPrivateCrtKey"]); SSame "RSAPrivateKey" ("privatekey", ["RSAPrivateKey"]); SSame "RSAPublicKey"
    ("publickey", ["RSAPublicKey"]); SSame "SecretKey" ("secretkey", ["SecretKey"]); SSame "DESKey"
    ("secretkey", ["DESKey"]); SFrom "pythoncard.security" "keypair" "keypair"; SSame "KeyPair" ("keypair",
    ["KeyPair"]); SFrom "pythoncard.security" "signature" "signature"; SFrom "pythoncard.security" "random"
    "random"; SSame "Signature" ("signature", ["Signature"]); SSame "RandomData" ("random", ["RandomData"]);
    SFrom "pythoncard.security" "messagedigest" "messagedigest"; SSame "MessageDigest" ("messagedigest",
    ["MessageDigest"]) ].
(** pythoncard/security/key.py:1-59 *)
Definition b_pythoncard_security_key : list stmt :=
  [ SFrom "pythoncard.utils" "s1" "s1"; SBind "_longToArray" []; SBind "_arrayTolong" []; SBind
    "_binaryToarray" []; SBind "_arrayTobinary" []; SBind "Key" [("object", [])] ].
(** pythoncard/security/keybuilder.py:1-91 *)
Definition b_pythoncard_security_keybuilder : list stmt :=
  [ SFrom "pythoncard.security" "publickey" "publickey"; SFrom "pythoncard.security" "privatekey"
    "privatekey"; SFrom "pythoncard.security" "secretkey" "secretkey"; SBind "KeyBuilder" [("object", []);
    ("staticmethod", [])] ].
(** pythoncard/security/keypair.py:1-65 *)
Definition b_pythoncard_security_keypair : list stmt :=
  [ SFrom "pythoncard.security" "CryptoException" "CryptoException"; SFrom "pythoncard.security"
    "RSAPrivateKey" "RSAPrivateKey"; SFrom "pythoncard.security" "RSAPrivateCrtKey" "RSAPrivateCrtKey"; SFrom
    "pythoncard.security" "RSAPublicKey" "RSAPublicKey"; SFrom "pythoncard.security" "KeyBuilder" "KeyBuilder";
    SFrom "pythoncard.security.key" "_longToArray" "_longToArray"; STry "Crypto.PublicKey" "RSA" "pyCryptoRSA";
    SBind "KeyPair" [("object", [])] ].
(** pythoncard/security/messagedigest.py:1-89 *)
Definition b_pythoncard_security_messagedigest : list stmt :=
  [ SFrom "pythoncard.security" "CryptoException" "CryptoException"; SFrom "pythoncard.utils" "s1" "s1"; SFrom
    "pythoncard.security.key" "_arrayTobinary" "_arrayTobinary"; SImport "hashlib" "hashlib"; SBind
    "MessageDigest" [("object", []); ("staticmethod", [])]; SBind "_HashLibMessageDigest" [("MessageDigest",
    []); ("MessageDigest", ["ALG_SHA"]); ("MessageDigest", ["ALG_MD5"]); ("MessageDigest", ["ALG_RIPEMD160"]);
    ("MessageDigest", ["ALG_SHA_224"]); ("MessageDigest", ["ALG_SHA_256"]); ("MessageDigest", ["ALG_SHA_384"]);
    ("MessageDigest", ["ALG_SHA_512"]); ("MessageDigest", ["ALG_SHA3_224"]); ("MessageDigest",
    ["ALG_SHA3_256"]); ("MessageDigest", ["ALG_SHA3_384"]); ("MessageDigest", ["ALG_SHA3_512"])] ].
(** pythoncard/security/privatekey.py:1-118 *)
Definition b_pythoncard_security_privatekey : list stmt :=
  [ SFrom "pythoncard.framework" "Util" "Util"; SFrom "pythoncard.security" "CryptoException"
    "CryptoException"; SFrom "pythoncard.security.key" "Key" "Key"; SFrom "pythoncard.security.key"
    "_longToArray" "_longToArray"; SBind "PrivateKey" [("Key", [])]; SBind "RSAPrivateKey" [("PrivateKey", [])];
    SBind "standardGetter" []; SBind "standardSetter" []; SBind "PyCryptoRSAPrivateKey" [("RSAPrivateKey", []);
    ("standardGetter", []); ("standardSetter", [])]; SBind "RSAPrivateCrtKey" [("PrivateKey", [])]; SBind
    "PyCryptoRSAPrivateCrtKey" [("RSAPrivateCrtKey", [])] ].
(** pythoncard/security/publickey.py:1-88 *)
Definition b_pythoncard_security_publickey : list stmt :=
  [ SFrom "python.lang" "ArrayIndexOutOfBoundsException" "ArrayIndexOutOfBoundsException"; SFrom
    "pythoncard.framework" "Util" "Util"; SFrom "pythoncard.security" "CryptoException" "CryptoException"; SFrom
    "pythoncard.security.key" "Key" "Key"; SFrom "pythoncard.security.key" "_longToArray" "_longToArray"; SFrom
    "pythoncard.security.key" "_arrayTolong" "_arrayTolong"; STry "Crypto.PublicKey" "RSA" "pyCryptoRSA"; SBind
    "PublicKey" [("Key", [])]; SBind "RSAPublicKey" [("PublicKey", [])]; SBind "standardGetter" []; SBind
    "standardSetter" []; SBind "PyCryptoRSAPublicKey" [("RSAPublicKey", []); ("standardGetter", []);
    ("standardSetter", [])] ].
(** pythoncard/security/random.py:1-29 *)
Definition b_pythoncard_security_random : list stmt :=
  [ SImport "os" "os"; SFrom "pythoncard.security" "CryptoException" "CryptoException"; SBind "RandomData"
    [("object", []); ("staticmethod", [])]; SBind "_SecureRandomData" [("RandomData", [])] ].
(** pythoncard/security/secretkey.py:1-26 *)
Definition b_pythoncard_security_secretkey : list stmt :=
  [ SFrom "pythoncard.framework.util" "arrayCopy" "arrayCopy"; SFrom "pythoncard.security.key" "Key" "Key";
    SFrom "pythoncard.security.key" "_arrayTobinary" "_arrayTobinary"; SFrom "pythoncard.security.key"
    "_binaryToarray" "_binaryToarray"; SFrom "pyDes" "pyDes" "pyDes"; SBind "SecretKey" [("Key", [])]; SBind
    "DESKey" [("SecretKey", [])]; SBind "pyDesDESKey" [("DESKey", [])] ].
(** pythoncard/security/signature.py:1-76 *)
Definition b_pythoncard_security_signature : list stmt :=
  [ SBind "Signature" [("object", []); ("staticmethod", [])]; SBind "_RSASHASignature" [("Signature", [])] ].
(** pythoncard/utils.py:1-41 *)
Definition b_pythoncard_utils : list stmt :=
  [ SBind "signed" []; SBind "s1" []; SBind "s2" []; SBind "u1" []; SBind "NotAlwaysStatic" [("object", [])] ].
(** pythoncardx/__init__.py:1 (empty) *)
Definition b_pythoncardx : list stmt :=
  [].
(** pythoncardx/apdu.py:1-2 *)
Definition b_pythoncardx_apdu : list stmt :=
  [ SBind "ExtendedLength" [("object", [])] ].
(** pythoncardx/crypto/__init__.py:1-3 *)
Definition b_pythoncardx_crypto : list stmt :=
  [ SImport "pythoncardx.crypto.cipher" "pythoncardx"; SSame "Cipher" ("cipher", ["Cipher"]) ].
(** pythoncardx/crypto/cipher.py:1-264 *)
Definition b_pythoncardx_crypto_cipher : list stmt :=
  [ SImport "os" "os"; SFrom "pythoncard.framework" "Util" "Util"; SFrom "pythoncard.security"
    "CryptoException" "CryptoException"; SFrom "pythoncard.security" "Key" "Key"; SFrom "pythoncard.security"
    "RSAPrivateKey" "RSAPrivateKey"; SFrom "pythoncard.security" "RSAPrivateCrtKey" "RSAPrivateCrtKey"; SFrom
    "pythoncard.security" "RSAPublicKey" "RSAPublicKey"; SFrom "pythoncard.security.secretkey" "pyDesDESKey"
    "pyDesDESKey"; SFrom "pythoncard.security.key" "_arrayTolong" "_arrayTolong"; SFrom
    "pythoncard.security.key" "_longToArray" "_longToArray"; SFrom "pythoncard.security.key" "_arrayTobinary"
    "_arrayTobinary"; SFrom "pythoncard.security.key" "_binaryToarray" "_binaryToarray"; STry "pyDes" "pyDes"
    "pyDes"; SBind "Cipher" [("object", []); ("staticmethod", [])]; SBind "_PyCryptoRSACipher" [("Cipher", [])];
    SBind "_pyDesDESCipher" [("Cipher", [])] ].
(** pythoncardx/external/__init__.py:1-11 *)
Definition b_pythoncardx_external : list stmt :=
  [ SFrom "pythoncard.framework" "CardRuntimeException" "CardRuntimeException"; SBind "ExternalException"
    [("CardRuntimeException", [])]; SFrom "pythoncardx.external" "memory" "memory"; SSame "Memory" ("memory",
    ["Memory"]) ].
(** pythoncardx/external/memory.py:1-9 *)
Definition b_pythoncardx_external_memory : list stmt :=
  [ SFrom "pythoncardx.external" "ExternalException" "ExternalException"; SBind "Memory" [("object", []);
    ("staticmethod", [])] ].
(** pythoncardx/framework/__init__.py:1 (empty) *)
Definition b_pythoncardx_framework : list stmt :=
  [].
(** pythoncardx/framework/math.py:1-122 *)
Definition b_pythoncardx_framework_math : list stmt :=
  [ SFrom "python.lang" "NullPointerException" "NullPointerException"; SFrom "python.lang"
    "ArithmeticException" "ArithmeticException"; SFrom "pythoncard.framework" "Util" "Util"; SFrom
    "pythoncard.utils" "s1" "s1"; SBind "from_bcd" []; SBind "to_bcd" []; SBind "from_hex" []; SBind "to_hex"
    []; SBind "BigNumber" [("object", []); ("staticmethod", [])] ].
(** pythoncardx/framework/tlv/__init__.py:1-26 *)
Definition b_pythoncardx_framework_tlv : list stmt :=
  [ SFrom "pythoncard.framework" "CardRuntimeException" "CardRuntimeException"; SBind "TLVException"
    [("CardRuntimeException", [])]; SFrom "pythoncardx.framework.tlv" "bertag" "bertag"; SSame "BERTag"
    ("bertag", ["BERTag"]); SSame "PrimitiveBERTag" ("bertag", ["PrimitiveBERTag"]); SSame "ConstructedBERTag"
    ("bertag", ["ConstructedBERTag"]); SFrom "pythoncardx.framework.tlv" "bertlv" "bertlv"; SSame "BERTLV"
    ("bertlv", ["BERTLV"]); SSame "PrimitiveBERTLV" ("bertlv", ["PrimitiveBERTLV"]); SSame "ConstructedBERTLV"
    ("bertlv", ["ConstructedBERTLV"]) ].
(** pythoncardx/framework/tlv/bertag.py:1-168 *)
Definition b_pythoncardx_framework_tlv_bertag : list stmt :=
  [ SFrom "pythoncard.utils" "NotAlwaysStatic" "NotAlwaysStatic"; SFrom "python.lang"
    "ArrayIndexOutOfBoundsException" "ArrayIndexOutOfBoundsException"; SBind "sanitycheck" []; SFrom
    "pythoncardx.framework.tlv" "TLVException" "TLVException"; SBind "BERTag" [("object", []); ("staticmethod",
    []); ("NotAlwaysStatic", [])]; SBind "PrimitiveBERTag" [("BERTag", [])]; SBind "ConstructedBERTag"
    [("BERTag", [])] ].
(** pythoncardx/framework/tlv/bertlv.py:1-233 *)
Definition b_pythoncardx_framework_tlv_bertlv : list stmt :=
  [ SFrom "pythoncard.utils" "NotAlwaysStatic" "NotAlwaysStatic"; SFrom "pythoncard.framework" "Util" "Util";
    SFrom "pythoncardx.framework.tlv.bertag" "BERTag" "BERTag"; SFrom "copy" "copy" "copy"; SBind "_getLength"
    []; SBind "getLengthLen" []; SBind "BERTLV" [("object", []); ("staticmethod", []); ("NotAlwaysStatic", [])];
    SBind "ConstructedBERTLV" [("BERTLV", []); ("staticmethod", []); ("NotAlwaysStatic", [])]; SBind
    "PrimitiveBERTLV" [("BERTLV", []); ("staticmethod", [])] ].
(** pythoncardx/framework/util/__init__.py:1 (empty) *)
Definition b_pythoncardx_framework_util : list stmt :=
  [].
(** pythoncardx/framework/util/intx.py:1-57 *)
Definition b_pythoncardx_framework_util_intx : list stmt :=
  [ SImport "warnings" "warnings"; SBind "signed" []; SBind "s4" []; SBind "s1" []; SBind "sanatize" []; SBind
    "JCint" [("object", []); ("staticmethod", [])] ].

(** The library as in the checkout: /repo on the path *)
Definition lib : table :=
  [ ("pyDes", mkMod None true b_pyDes);
    ("pyDes.pyDes", mkMod (Some ("pyDes", "pyDes")) false b_pyDes_pyDes);
    ("python", mkMod None true b_python);
    ("python.io", mkMod (Some ("python", "io")) false b_python_io);
    ("python.lang", mkMod (Some ("python", "lang")) false b_python_lang);
    ("python.rmi", mkMod (Some ("python", "rmi")) false b_python_rmi);
    ("pythoncard", mkMod None true b_pythoncard);
    ("pythoncard.framework.ISO7816", mkMod (Some ("pythoncard.framework", "ISO7816")) false b_pythoncard_framework_ISO7816);
    ("pythoncard.framework", mkMod (Some ("pythoncard", "framework")) true b_pythoncard_framework);
    ("pythoncard.framework.aid", mkMod (Some ("pythoncard.framework", "aid")) false b_pythoncard_framework_aid);
    ("pythoncard.framework.apdu", mkMod (Some ("pythoncard.framework", "apdu")) false b_pythoncard_framework_apdu);
    ("pythoncard.framework.applet", mkMod (Some ("pythoncard.framework", "applet")) false b_pythoncard_framework_applet);
    ("pythoncard.framework.jcsystem", mkMod (Some ("pythoncard.framework", "jcsystem")) false b_pythoncard_framework_jcsystem);
    ("pythoncard.framework.ownerpin", mkMod (Some ("pythoncard.framework", "ownerpin")) false b_pythoncard_framework_ownerpin);
    ("pythoncard.framework.service", mkMod (Some ("pythoncard.framework", "service")) true b_pythoncard_framework_service);
    ("pythoncard.framework.service.basicservice", mkMod (Some ("pythoncard.framework.service", "basicservice")) false b_pythoncard_framework_service_basicservice);
    ("pythoncard.framework.service.cardremoteobject", mkMod (Some ("pythoncard.framework.service", "cardremoteobject")) false b_pythoncard_framework_service_cardremoteobject);
    ("pythoncard.framework.service.dispatcher", mkMod (Some ("pythoncard.framework.service", "dispatcher")) false b_pythoncard_framework_service_dispatcher);
    ("pythoncard.framework.service.rmiservice", mkMod (Some ("pythoncard.framework.service", "rmiservice")) false b_pythoncard_framework_service_rmiservice);
    ("pythoncard.framework.util", mkMod (Some ("pythoncard.framework", "util")) false b_pythoncard_framework_util);
    ("pythoncard.security", mkMod (Some ("pythoncard", "security")) true b_pythoncard_security);
    ("pythoncard.security.key", mkMod (Some ("pythoncard.security", "key")) false b_pythoncard_security_key);
    ("pythoncard.security.keybuilder", mkMod (Some ("pythoncard.security", "keybuilder")) false b_pythoncard_security_keybuilder);
    ("pythoncard.security.keypair", mkMod (Some ("pythoncard.security", "keypair")) false b_pythoncard_security_keypair);
    ("pythoncard.security.messagedigest", mkMod (Some ("pythoncard.security", "messagedigest")) false b_pythoncard_security_messagedigest);
    ("pythoncard.security.privatekey", mkMod (Some ("pythoncard.security", "privatekey")) false b_pythoncard_security_privatekey);
    ("pythoncard.security.publickey", mkMod (Some ("pythoncard.security", "publickey")) false b_pythoncard_security_publickey);
    ("pythoncard.security.random", mkMod (Some ("pythoncard.security", "random")) false b_pythoncard_security_random);
    ("pythoncard.security.secretkey", mkMod (Some ("pythoncard.security", "secretkey")) false b_pythoncard_security_secretkey);
    ("pythoncard.security.signature", mkMod (Some ("pythoncard.security", "signature")) false b_pythoncard_security_signature);
    ("pythoncard.utils", mkMod (Some ("pythoncard", "utils")) false b_pythoncard_utils);
    ("pythoncardx", mkMod None true b_pythoncardx);
    ("pythoncardx.apdu", mkMod (Some ("pythoncardx", "apdu")) false b_pythoncardx_apdu);
    ("pythoncardx.crypto", mkMod (Some ("pythoncardx", "crypto")) true b_pythoncardx_crypto);
    ("pythoncardx.crypto.cipher", mkMod (Some ("pythoncardx.crypto", "cipher")) false b_pythoncardx_crypto_cipher);
    ("pythoncardx.external", mkMod (Some ("pythoncardx", "external")) true b_pythoncardx_external);
    ("pythoncardx.external.memory", mkMod (Some ("pythoncardx.external", "memory")) false b_pythoncardx_external_memory);
    ("pythoncardx.framework", mkMod (Some ("pythoncardx", "framework")) true b_pythoncardx_framework);
    ("pythoncardx.framework.math", mkMod (Some ("pythoncardx.framework", "math")) false b_pythoncardx_framework_math);
    ("pythoncardx.framework.tlv", mkMod (Some ("pythoncardx.framework", "tlv")) true b_pythoncardx_framework_tlv);
    ("pythoncardx.framework.tlv.bertag", mkMod (Some ("pythoncardx.framework.tlv", "bertag")) false b_pythoncardx_framework_tlv_bertag);
    ("pythoncardx.framework.tlv.bertlv", mkMod (Some ("pythoncardx.framework.tlv", "bertlv")) false b_pythoncardx_framework_tlv_bertlv);
    ("pythoncardx.framework.util", mkMod (Some ("pythoncardx.framework", "util")) true b_pythoncardx_framework_util);
    ("pythoncardx.framework.util.intx", mkMod (Some ("pythoncardx.framework.util", "intx")) false b_pythoncardx_framework_util_intx) ].

(** The library as installed: /repo/setup.py:15 leaves the package pyDes out and requires the
    distribution pyDes, which is the plain module pyDes.py (/repo/pyDes/setup.py:13) *)
Definition lib_installed : table :=
  [ ("pyDes", mkMod None false b_pyDes_pyDes);
    ("python", mkMod None true b_python);
    ("python.io", mkMod (Some ("python", "io")) false b_python_io);
    ("python.lang", mkMod (Some ("python", "lang")) false b_python_lang);
    ("python.rmi", mkMod (Some ("python", "rmi")) false b_python_rmi);
    ("pythoncard", mkMod None true b_pythoncard);
    ("pythoncard.framework.ISO7816", mkMod (Some ("pythoncard.framework", "ISO7816")) false b_pythoncard_framework_ISO7816);
    ("pythoncard.framework", mkMod (Some ("pythoncard", "framework")) true b_pythoncard_framework);
    ("pythoncard.framework.aid", mkMod (Some ("pythoncard.framework", "aid")) false b_pythoncard_framework_aid);
    ("pythoncard.framework.apdu", mkMod (Some ("pythoncard.framework", "apdu")) false b_pythoncard_framework_apdu);
    ("pythoncard.framework.applet", mkMod (Some ("pythoncard.framework", "applet")) false b_pythoncard_framework_applet);
    ("pythoncard.framework.jcsystem", mkMod (Some ("pythoncard.framework", "jcsystem")) false b_pythoncard_framework_jcsystem);
    ("pythoncard.framework.ownerpin", mkMod (Some ("pythoncard.framework", "ownerpin")) false b_pythoncard_framework_ownerpin);
    ("pythoncard.framework.service", mkMod (Some ("pythoncard.framework", "service")) true b_pythoncard_framework_service);
    ("pythoncard.framework.service.basicservice", mkMod (Some ("pythoncard.framework.service", "basicservice")) false b_pythoncard_framework_service_basicservice);
    ("pythoncard.framework.service.cardremoteobject", mkMod (Some ("pythoncard.framework.service", "cardremoteobject")) false b_pythoncard_framework_service_cardremoteobject);
    ("pythoncard.framework.service.dispatcher", mkMod (Some ("pythoncard.framework.service", "dispatcher")) false b_pythoncard_framework_service_dispatcher);
    ("pythoncard.framework.service.rmiservice", mkMod (Some ("pythoncard.framework.service", "rmiservice")) false b_pythoncard_framework_service_rmiservice);
    ("pythoncard.framework.util", mkMod (Some ("pythoncard.framework", "util")) false b_pythoncard_framework_util);
    ("pythoncard.security", mkMod (Some ("pythoncard", "security")) true b_pythoncard_security);
    ("pythoncard.security.key", mkMod (Some ("pythoncard.security", "key")) false b_pythoncard_security_key);
    ("pythoncard.security.keybuilder", mkMod (Some ("pythoncard.security", "keybuilder")) false b_pythoncard_security_keybuilder);
    ("pythoncard.security.keypair", mkMod (Some ("pythoncard.security", "keypair")) false b_pythoncard_security_keypair);
    ("pythoncard.security.messagedigest", mkMod (Some ("pythoncard.security", "messagedigest")) false b_pythoncard_security_messagedigest);
    ("pythoncard.security.privatekey", mkMod (Some ("pythoncard.security", "privatekey")) false b_pythoncard_security_privatekey);
    ("pythoncard.security.publickey", mkMod (Some ("pythoncard.security", "publickey")) false b_pythoncard_security_publickey);
    ("pythoncard.security.random", mkMod (Some ("pythoncard.security", "random")) false b_pythoncard_security_random);
    ("pythoncard.security.secretkey", mkMod (Some ("pythoncard.security", "secretkey")) false b_pythoncard_security_secretkey);
    ("pythoncard.security.signature", mkMod (Some ("pythoncard.security", "signature")) false b_pythoncard_security_signature);
    ("pythoncard.utils", mkMod (Some ("pythoncard", "utils")) false b_pythoncard_utils);
    ("pythoncardx", mkMod None true b_pythoncardx);
    ("pythoncardx.apdu", mkMod (Some ("pythoncardx", "apdu")) false b_pythoncardx_apdu);
    ("pythoncardx.crypto", mkMod (Some ("pythoncardx", "crypto")) true b_pythoncardx_crypto);
    ("pythoncardx.crypto.cipher", mkMod (Some ("pythoncardx.crypto", "cipher")) false b_pythoncardx_crypto_cipher);
    ("pythoncardx.external", mkMod (Some ("pythoncardx", "external")) true b_pythoncardx_external);
    ("pythoncardx.external.memory", mkMod (Some ("pythoncardx.external", "memory")) false b_pythoncardx_external_memory);
    ("pythoncardx.framework", mkMod (Some ("pythoncardx", "framework")) true b_pythoncardx_framework);
    ("pythoncardx.framework.math", mkMod (Some ("pythoncardx.framework", "math")) false b_pythoncardx_framework_math);
    ("pythoncardx.framework.tlv", mkMod (Some ("pythoncardx.framework", "tlv")) true b_pythoncardx_framework_tlv);
    ("pythoncardx.framework.tlv.bertag", mkMod (Some ("pythoncardx.framework.tlv", "bertag")) false b_pythoncardx_framework_tlv_bertag);
    ("pythoncardx.framework.tlv.bertlv", mkMod (Some ("pythoncardx.framework.tlv", "bertlv")) false b_pythoncardx_framework_tlv_bertlv);
    ("pythoncardx.framework.util", mkMod (Some ("pythoncardx.framework", "util")) true b_pythoncardx_framework_util);
    ("pythoncardx.framework.util.intx", mkMod (Some ("pythoncardx.framework.util", "intx")) false b_pythoncardx_framework_util_intx) ].

(** Modules outside the library: the standard library is there, pycrypto if [c]. *)
Definition ext_of (c : bool) (p : string) : bool :=
  if String.eqb p "Crypto.PublicKey" then c else existsb (String.eqb p) ["sys"; "os"; "warnings"; "hashlib"; "copy"].

(** The global names in the bodies of the functions and methods: module, function, first
    line of its def, the names (with the attributes taken from them) in the order of first use. *)
Definition fn_refs : list (string * string * Z * list use) :=
  [ ("pyDes.pyDes", "_baseDes.__init__", 108%Z,
     [("PAD_PKCS5", []); ("ValueError", []); ("len", []); ("str", [])]);
    ("pyDes.pyDes", "_baseDes.setIV", 165%Z,
     [("len", []); ("ValueError", []); ("str", [])]);
    ("pyDes.pyDes", "_baseDes._padData", 172%Z,
     [("PAD_PKCS5", []); ("ValueError", []); ("PAD_NORMAL", []); ("len", []); ("str", []);
      ("_pythonMajorVersion", []); ("chr", []); ("bytes", [])]);
    ("pyDes.pyDes", "_baseDes._unpadData", 201%Z,
     [("PAD_PKCS5", []); ("ValueError", []); ("PAD_NORMAL", []); ("_pythonMajorVersion", []); ("ord", [])]);
    ("pyDes.pyDes", "_baseDes._guardAgainstUnicode", 228%Z,
     [("_pythonMajorVersion", []); ("isinstance", []); ("unicode", []); ("ValueError", []); ("str", []);
      ("UnicodeEncodeError", [])]);
    ("pyDes.pyDes", "des.__init__", 397%Z,
     [("len", []); ("ValueError", []); ("_baseDes", ["__init__"])]);
    ("pyDes.pyDes", "des.setKey", 411%Z,
     [("_baseDes", ["setKey"])]);
    ("pyDes.pyDes", "des.__String_to_BitList", 416%Z,
     [("_pythonMajorVersion", []); ("ord", []); ("len", [])]);
    ("pyDes.pyDes", "des.__BitList_to_String", 437%Z,
     [("len", []); ("_pythonMajorVersion", []); ("chr", []); ("bytes", [])]);
    ("pyDes.pyDes", "des.__permutate", 454%Z,
     [("list", []); ("map", [])]);
    ("pyDes.pyDes", "des.__create_sub_keys", 460%Z,
     [("des", ["__pc1"]); ("des", ["__left_rotations"]); ("des", ["__pc2"])]);
    ("pyDes.pyDes", "des.__des_crypt", 485%Z,
     [("des", ["__ip"]); ("des", ["ENCRYPT"]); ("des", ["__expansion_table"]); ("list", []); ("map", []);
      ("des", ["__sbox"]); ("des", ["__p"]); ("des", ["__fp"])]);
    ("pyDes.pyDes", "des.crypt", 564%Z,
     [("len", []); ("des", ["DECRYPT"]); ("ValueError", []); ("str", []); ("CBC", []); ("des", ["ENCRYPT"]);
      ("list", []); ("map", []); ("_pythonMajorVersion", []); ("bytes", ["fromhex"])]);
    ("pyDes.pyDes", "des.encrypt", 642%Z,
     [("des", ["ENCRYPT"])]);
    ("pyDes.pyDes", "des.decrypt", 661%Z,
     [("des", ["DECRYPT"])]);
    ("pyDes.pyDes", "triple_des.__init__", 708%Z,
     [("_baseDes", ["__init__"])]);
    ("pyDes.pyDes", "triple_des.setKey", 712%Z,
     [("len", []); ("ValueError", []); ("CBC", []); ("des", []); ("_baseDes", ["setKey"])]);
    ("pyDes.pyDes", "triple_des.setMode", 739%Z,
     [("_baseDes", ["setMode"])]);
    ("pyDes.pyDes", "triple_des.setPadding", 745%Z,
     [("_baseDes", ["setPadding"])]);
    ("pyDes.pyDes", "triple_des.setPadMode", 751%Z,
     [("_baseDes", ["setPadMode"])]);
    ("pyDes.pyDes", "triple_des.setIV", 757%Z,
     [("_baseDes", ["setIV"])]);
    ("pyDes.pyDes", "triple_des.encrypt", 763%Z,
     [("des", ["ENCRYPT"]); ("des", ["DECRYPT"]); ("CBC", []); ("len", []); ("_pythonMajorVersion", []);
      ("bytes", ["fromhex"])]);
    ("pyDes.pyDes", "triple_des.decrypt", 807%Z,
     [("des", ["ENCRYPT"]); ("des", ["DECRYPT"]); ("CBC", []); ("len", []); ("_pythonMajorVersion", []);
      ("bytes", ["fromhex"])]);
    ("pythoncard.framework.aid", "AID.__init__", 4%Z,
     [("ValueError", []); ("len", []); ("ArrayIndexOutOfBoundsException", [])]);
    ("pythoncard.framework.aid", "AID.equals", 11%Z,
     [("len", []); ("ArrayIndexOutOfBoundsException", [])]);
    ("pythoncard.framework.aid", "AID.getBytes", 16%Z,
     [("len", []); ("ArrayIndexOutOfBoundsException", [])]);
    ("pythoncard.framework.aid", "AID.getPartialBytes", 22%Z,
     [("len", []); ("ArrayIndexOutOfBoundsException", []); ("aidOfset", [])]);
    ("pythoncard.framework.aid", "AID.partialEquals", 32%Z,
     [("len", []); ("ArrayIndexOutOfBoundsException", [])]);
    ("pythoncard.framework.apdu", "APDU.__init__", 59%Z,
     [("len", []); ("APDUException", []); ("APDUException", ["BAD_LENGTH"]); ("range", []); ("ISO7816",
      ["OFFSET_LC"]); ("ISO7816", ["OFFSET_CDATA"])]);
    ("pythoncard.framework.apdu", "APDU.__getInLengths", 117%Z,
     [("ISO7816", ["OFFSET_LC"]); ("u1", [])]);
    ("pythoncard.framework.apdu", "APDU.__getOutLengths", 125%Z,
     [("ISO7816", ["OFFSET_LC"]); ("u1", [])]);
    ("pythoncard.framework.apdu", "APDU.getInBlockSize", 146%Z,
     [("IN_BLOCKSIZE", [])]);
    ("pythoncard.framework.apdu", "APDU.getOutBlockSize", 150%Z,
     [("OUT_BLOCKSIZE", [])]);
    ("pythoncard.framework.apdu", "APDU.getProtocol", 154%Z,
     [("APDU", ["PROTOCOL_MEDIA_DEFAULT"]); ("APDU", ["PROTOCOL_T1"])]);
    ("pythoncard.framework.apdu", "APDU.setIncomingAndReceive", 160%Z,
     [("APDUException", []); ("APDUException", ["ILLEGAL_USE"]); ("ISOException", []); ("ISO7816",
      ["SW_WRONG_LENGTH"]); ("min", []); ("IN_BLOCKSIZE", []); ("len", []); ("range", [])]);
    ("pythoncard.framework.apdu", "APDU.receiveBytes", 179%Z,
     [("APDUException", []); ("APDUException", ["ILLEGAL_USE"]); ("min", []); ("IN_BLOCKSIZE", []); ("len",
      []); ("range", [])]);
    ("pythoncard.framework.apdu", "APDU.setOutgoing", 193%Z,
     [("APDUException", []); ("APDUException", ["ILLEGAL_USE"])]);
    ("pythoncard.framework.apdu", "APDU.setOutgoingLength", 205%Z,
     [("APDUException", []); ("APDUException", ["ILLEGAL_USE"]); ("APDUException", ["BAD_LENGTH"])]);
    ("pythoncard.framework.apdu", "APDU.sendBytes", 214%Z,
     [("APDUException", []); ("APDUException", ["ILLEGAL_USE"]); ("OUT_BLOCKSIZE", []); ("APDUException",
      ["BUFFER_BOUNDS"])]);
    ("pythoncard.framework.apdu", "APDU.sendBytesLong", 226%Z,
     [("APDUException", []); ("APDUException", ["ILLEGAL_USE"]); ("OUT_BLOCKSIZE", []); ("APDUException",
      ["BUFFER_BOUNDS"])]);
    ("pythoncard.framework.apdu", "APDU.getCurrentAPDU", 247%Z,
     [("_current", [])]);
    ("pythoncard.framework.apdu", "APDU.getCurrentAPDUBuffer", 251%Z,
     [("_current", ["getBuffer"])]);
    ("pythoncard.framework.apdu", "APDU.getCLAChannel", 255%Z,
     [("_current", ["getBuffer"]); ("ISO7816", ["OFFSET_CLA"])]);
    ("pythoncard.framework.apdu", "APDU.isCommandChainingCLA", 262%Z,
     [("ISO7816", ["OFFSET_CLA"]); ("bool", [])]);
    ("pythoncard.framework.apdu", "APDU.isISOInterindustryCLA", 269%Z,
     [("ISO7816", ["OFFSET_CLA"])]);
    ("pythoncard.framework.applet", "Applet.install", 34%Z,
     [("NotImplementedError", [])]);
    ("pythoncard.framework.applet", "Applet.process", 42%Z,
     [("NotImplementedError", [])]);
    ("pythoncard.framework.applet", "Applet.getShareableInterfaceObject", 45%Z,
     [("NotImplementedError", [])]);
    ("pythoncard.framework.applet", "Applet.register", 48%Z,
     [("warnings", ["warn"]); ("RuntimeWarning", [])]);
    ("pythoncard.framework.jcsystem", "makeTransientShortArray", 28%Z,
     [("warnings", ["warn"]); ("range", [])]);
    ("pythoncard.framework.jcsystem", "makeTransientBooleanArray", 34%Z,
     [("warnings", ["warn"]); ("range", [])]);
    ("pythoncard.framework.jcsystem", "makeTransientObjectArray", 39%Z,
     [("warnings", ["warn"]); ("range", [])]);
    ("pythoncard.framework.jcsystem", "getAvailableMemory", 46%Z,
     [("len", []); ("NullPointerException", []); ("IndexError", []); ("ArrayIndexOutOfBoundsException", []);
      ("TypeError", [])]);
    ("pythoncard.framework.jcsystem", "makeGlobalArray", 63%Z,
     [("NegativeArraySizeException", []); ("warnings", ["warn"]); ("ARRAY_TYPE_BOOLEAN", []);
      ("ARRAY_TYPE_BYTE", []); ("ARRAY_TYPE_INT", []); ("ARRAY_TYPE_OBJECT", []); ("ARRAY_TYPE_SHORT", []);
      ("range", [])]);
    ("pythoncard.framework.ownerpin", "OwnerPIN.__init__", 10%Z,
     [("range", [])]);
    ("pythoncard.framework.ownerpin", "OwnerPIN.check", 26%Z,
     [("len", []); ("ArrayIndexOutOfBoundsException", []); ("range", []); ("isinstance", []); ("str", []);
      ("ord", [])]);
    ("pythoncard.framework.ownerpin", "OwnerPIN.update", 65%Z,
     [("PINException", []); ("len", []); ("ArrayIndexOutOfBoundsException", []); ("isinstance", []); ("str",
      []); ("ord", []); ("range", [])]);
    ("pythoncard.framework.service.dispatcher", "Dispatcher.__init__", 9%Z,
     [("ServiceException", []); ("ServiceException", ["ILLEGAL_PARAM"]); ("Dispatcher",
      ["PROCESS_INPUT_DATA"]); ("Dispatcher", ["PROCESS_COMMAND"]); ("Dispatcher", ["PROCESS_OUTPUT_DATA"]);
      ("Dispatcher", ["PROCESS_NONE"])]);
    ("pythoncard.framework.service.dispatcher", "Dispatcher.addService", 17%Z,
     [("ServiceException", []); ("ServiceException", ["ILLEGAL_PARAM"]); ("KeyError", [])]);
    ("pythoncard.framework.util", "arrayCompare", 10%Z,
     [("range", []); ("IndexError", []); ("ArrayIndexOutOfBoundsException", [])]);
    ("pythoncard.framework.util", "arrayCopy", 21%Z,
     [("JCSystem", ["beginTransaction"]); ("range", []); ("IndexError", []); ("JCSystem",
      ["abortTransaction"]); ("ArrayIndexOutOfBoundsException", []); ("JCSystem", ["commitTransaction"])]);
    ("pythoncard.framework.util", "arrayCopyNonAtomic", 35%Z,
     [("range", []); ("IndexError", []); ("ArrayIndexoutOfBoundsException", [])]);
    ("pythoncard.framework.util", "arrayFillNonAtomic", 42%Z,
     [("range", []); ("IndexError", []); ("ArrayIndexOutOfBoundsException", [])]);
    ("pythoncard.framework.util", "makeShort", 49%Z,
     [("s2", [])]);
    ("pythoncard.framework.util", "getShort", 53%Z,
     [("makeShort", []); ("IndexError", []); ("ArrayIndexOutOfBoundsException", [])]);
    ("pythoncard.framework.util", "setShort", 59%Z,
     [("s1", []); ("IndexError", []); ("ArrayIndexOutOfBoundsException", [])]);
    ("pythoncard.security.key", "_longToArray", 3%Z,
     [("hex", []); ("len", []); ("range", []); ("int", [])]);
    ("pythoncard.security.key", "_arrayTolong", 19%Z,
     [("range", []); ("len", [])]);
    ("pythoncard.security.key", "_binaryToarray", 33%Z,
     [("s1", [])]);
    ("pythoncard.security.key", "_arrayTobinary", 36%Z,
     [("bytes", [])]);
    ("pythoncard.security.keybuilder", "KeyBuilder.buildKey", 73%Z,
     [("len", []); ("NotImplementedError", []); ("TypeError", []); ("KeyBuilder", ["TYPE_RSA_PUBLIC"]);
      ("publickey", ["PyCryptoRSAPublicKey"]); ("KeyBuilder", ["TYPE_RSA_PRIVATE"]); ("privatekey",
      ["PyCryptoRSAPrivateKey"]); ("KeyBuilder", ["TYPE_RSA_CRT_PRIVATE"]); ("KeyBuilder", ["TYPE_DES"]);
      ("KeyBuilder", ["TYPE_DES_TRANSIENT_DESELECT"]); ("KeyBuilder", ["TYPE_DES_TRANSIENT_RESET"]);
      ("secretkey", ["pyDesDESKey"])]);
    ("pythoncard.security.keypair", "KeyPair.__init__", 18%Z,
     [("isinstance", []); ("int", []); ("KeyBuilder", ["buildKey"]); ("KeyBuilder", ["TYPE_RSA_PUBLIC"]);
      ("KeyBuilder", ["TYPE_RSA_PRIVATE"]); ("KeyBuilder", ["TYPE_RSA_CRT_PRIVATE"]); ("CryptoException", []);
      ("CryptoException", ["NO_SUCH_ALGORITHM"]); ("RSAPublicKey", []); ("CryptoException", ["ILLEGAL_VALUE"]);
      ("RSAPrivateKey", []); ("RSAPrivateCrtKey", [])]);
    ("pythoncard.security.keypair", "KeyPair._pyCryptogenKeyPair", 38%Z,
     [("pyCryptoRSA", []); ("CryptoException", []); ("CryptoException", ["NO_SUCH_ALGORITHM"]);
      ("CryptoException", ["ILLEGAL_VALUE"]); ("pyCryptoRSA", ["generate"]); ("KeyBuilder", ["buildKey"]);
      ("KeyBuilder", ["TYPE_RSA_PUBLIC"]); ("KeyBuilder", ["TYPE_RSA_PRIVATE"]); ("KeyBuilder",
      ["TYPE_RSA_CRT_PRIVATE"])]);
    ("pythoncard.security.keypair", "KeyPair.genKeyPair", 55%Z,
     [("CryptoException", []); ("CryptoException", ["ILLEGAL_VALUE"])]);
    ("pythoncard.security.messagedigest", "MessageDigest.getInstance", 36%Z,
     [("_HashLibMessageDigest", [])]);
    ("pythoncard.security.messagedigest", "MessageDigest.getInitializedMessageDigestInstance", 40%Z,
     [("CryptoException", []); ("CryptoException", ["NO_SUCH_ALGORITHM"])]);
    ("pythoncard.security.messagedigest", "_HashLibMessageDigest.reset", 63%Z,
     [("hashlib", ["new"])]);
    ("pythoncard.security.messagedigest", "_HashLibMessageDigest.update", 66%Z,
     [("range", []); ("IndexError", []); ("ArrayIndexOutOfBoundsException", []); ("_arrayTobinary", [])]);
    ("pythoncard.security.messagedigest", "_HashLibMessageDigest.doFinal", 76%Z,
     [("enumerate", []); ("s1", []); ("IndexError", []); ("ArrayIndexOutOfBoundsException", [])]);
    ("pythoncard.security.privatekey", "RSAPrivateKey.__init__", 10%Z,
     [("PrivateKey", ["__init__"])]);
    ("pythoncard.security.privatekey", "RSAPrivateKey.getExponent", 13%Z,
     [("NotImplementedError", [])]);
    ("pythoncard.security.privatekey", "RSAPrivateKey.getModulus", 16%Z,
     [("NotImplementedError", [])]);
    ("pythoncard.security.privatekey", "RSAPrivateKey.setExponent", 19%Z,
     [("NotImplementedError", [])]);
    ("pythoncard.security.privatekey", "RSAPrivateKey.setModulus", 22%Z,
     [("NotImplementedError", [])]);
    ("pythoncard.security.privatekey", "standardGetter", 25%Z,
     [("CryptoException", []); ("CryptoException", ["UNINITIALIZED_KEY"])]);
    ("pythoncard.security.privatekey", "PyCryptoRSAPrivateKey.__init__", 41%Z,
     [("RSAPrivateKey", ["__init__"])]);
    ("pythoncard.security.privatekey", "PyCryptoRSAPrivateKey.getExponent", 47%Z,
     [("Util", ["arrayCopy"]); ("len", [])]);
    ("pythoncard.security.privatekey", "PyCryptoRSAPrivateKey.getModulus", 52%Z,
     [("Util", ["arrayCopy"]); ("len", [])]);
    ("pythoncard.security.privatekey", "PyCryptoRSAPrivateKey.setModulus", 61%Z,
     [("CryptoException", []); ("CryptoException", ["ILLEGAL_VALUE"])]);
    ("pythoncard.security.privatekey", "PyCryptoRSAPrivateKey.setTheKey", 67%Z,
     [("_longToArray", [])]);
    ("pythoncard.security.privatekey", "RSAPrivateCrtKey.__init__", 73%Z,
     [("PrivateKey", ["__init__"])]);
    ("pythoncard.security.privatekey", "RSAPrivateCrtKey.getDP1", 76%Z,
     [("NotImplementedError", [])]);
    ("pythoncard.security.privatekey", "RSAPrivateCrtKey.getDQ1", 79%Z,
     [("NotImplementedError", [])]);
    ("pythoncard.security.privatekey", "RSAPrivateCrtKey.getP", 82%Z,
     [("NotImplementedError", [])]);
    ("pythoncard.security.privatekey", "RSAPrivateCrtKey.getPQ", 85%Z,
     [("NotImplementedError", [])]);
    ("pythoncard.security.privatekey", "RSAPrivateCrtKey.getQ", 88%Z,
     [("NotImplementedError", [])]);
    ("pythoncard.security.privatekey", "RSAPrivateCrtKey.setDP1", 91%Z,
     [("NotImplementedError", [])]);
    ("pythoncard.security.privatekey", "RSAPrivateCrtKey.setDQ1", 94%Z,
     [("NotImplementedError", [])]);
    ("pythoncard.security.privatekey", "RSAPrivateCrtKey.setP", 97%Z,
     [("NotImplementedError", [])]);
    ("pythoncard.security.privatekey", "RSAPrivateCrtKey.setPQ", 100%Z,
     [("NotImplementedError", [])]);
    ("pythoncard.security.privatekey", "RSAPrivateCrtKey.setQ", 103%Z,
     [("NotImplementedError", [])]);
    ("pythoncard.security.privatekey", "PyCryptoRSAPrivateCrtKey.__init__", 107%Z,
     [("RSAPrivateKey", ["__init__"])]);
    ("pythoncard.security.privatekey", "PyCryptoRSAPrivateCrtKey.setTheKey", 110%Z,
     [("_longToArray", []); ("keypair", ["p"]); ("keypair", ["q"]); ("keypair", ["u"]); ("keypair", ["d"])]);
    ("pythoncard.security.publickey", "RSAPublicKey.__init__", 16%Z,
     [("PublicKey", ["__init__"])]);
    ("pythoncard.security.publickey", "RSAPublicKey.getExponent", 19%Z,
     [("NotImplementedError", [])]);
    ("pythoncard.security.publickey", "RSAPublicKey.getModulus", 22%Z,
     [("NotImplementedError", [])]);
    ("pythoncard.security.publickey", "RSAPublicKey.setExponent", 25%Z,
     [("NotImplementedError", [])]);
    ("pythoncard.security.publickey", "RSAPublicKey.setModulus", 28%Z,
     [("NotImplementedError", [])]);
    ("pythoncard.security.publickey", "standardGetter", 31%Z,
     [("CryptoException", []); ("CryptoException", ["UNINITIALIZED_KEY"])]);
    ("pythoncard.security.publickey", "PyCryptoRSAPublicKey.__init__", 52%Z,
     [("RSAPublicKey", ["__init__"])]);
    ("pythoncard.security.publickey", "PyCryptoRSAPublicKey.getExponent", 59%Z,
     [("Util", ["arrayCopy"]); ("len", [])]);
    ("pythoncard.security.publickey", "PyCryptoRSAPublicKey.getModulus", 64%Z,
     [("Util", ["arrayCopy"]); ("len", [])]);
    ("pythoncard.security.publickey", "PyCryptoRSAPublicKey.setModulus", 73%Z,
     [("CryptoException", []); ("CryptoException", ["INVALID_INIT"])]);
    ("pythoncard.security.publickey", "PyCryptoRSAPublicKey.setTheKey", 79%Z,
     [("_longToArray", [])]);
    ("pythoncard.security.publickey", "PyCryptoRSAPublicKey._construct", 84%Z,
     [("pyCryptoRSA", []); ("CryptoException", []); ("CryptoException", ["NO_SUCH_ALGORITHM"]);
      ("pyCryptoRSA", ["construct"]); ("_arrayTolong", [])]);
    ("pythoncard.security.random", "RandomData.getInstance", 10%Z,
     [("RandomData", ["ALG_SECURE_RANDOM"]); ("_SecureRandomData", []); ("CryptoException", []);
      ("CryptoException", ["NO_SUCH_ALGORITHM"])]);
    ("pythoncard.security.random", "RandomData.generateData", 15%Z,
     [("CryptoException", []); ("CryptoException", ["ILLEGAL_VALUE"])]);
    ("pythoncard.security.random", "_SecureRandomData.generateData", 23%Z,
     [("RandomData", ["generateData"]); ("range", []); ("ord", []); ("os", ["urandom"]); ("IndexError", []);
      ("ArrayIndexOutOfBoundException", [])]);
    ("pythoncard.security.secretkey", "DESKey.getKey", 10%Z,
     [("NotImplementedError", [])]);
    ("pythoncard.security.secretkey", "DESKey.setKey", 13%Z,
     [("NotImplementedError", [])]);
    ("pythoncard.security.secretkey", "pyDesDESKey.__init__", 17%Z,
     [("DESKey", ["__init__"])]);
    ("pythoncard.security.secretkey", "pyDesDESKey.setKey", 21%Z,
     [("_arrayTobinary", [])]);
    ("pythoncard.security.secretkey", "pyDesDESKey.getKey", 25%Z,
     [("arrayCopy", []); ("_binaryToarray", [])]);
    ("pythoncard.security.signature", "Signature.getInstance", 48%Z,
     [("len", []); ("NotImplementedError", []); ("TypeError", []); ("Signature", ["ALG_RSA_SHA_PKCS1"]);
      ("_RSASHASignature", []); ("CryptoException", []); ("CryptoException", ["NO_SUCH_ALGORITHM"])]);
    ("pythoncard.security.signature", "Signature.getLength", 60%Z,
     [("NotImplementedError", [])]);
    ("pythoncard.utils", "s1", 12%Z,
     [("signed", [])]);
    ("pythoncard.utils", "s2", 15%Z,
     [("signed", [])]);
    ("pythoncard.utils", "NotAlwaysStatic.__get__", 37%Z,
     [("getattr", [])]);
    ("pythoncardx.crypto.cipher", "Cipher.getInstance", 75%Z,
     [("len", []); ("Cipher", ["CIPHER_RSA"]); ("dict", []); ("Cipher", ["PAD_NOPAD"]); ("Cipher",
      ["ALG_RSA_NOPAD"]); ("Cipher", ["PAD_PKCS1"]); ("Cipher", ["ALG_RSA_PKCS1"]); ("Cipher",
      ["CIPHER_DES_CBC"]); ("Cipher", ["ALG_DES_CBC_NOPAD"]); ("Cipher", ["PAD_PKCS5"]); ("Cipher",
      ["ALG_DES_CBC_PKCS5"]); ("Cipher", ["CIPHER_DES_ECB"]); ("Cipher", ["ALG_DES_ECB_NOPAD"]); ("Cipher",
      ["ALG_DES_ECB_PKCS5"]); ("TypeError", []); ("_PyCryptoRSACipher", []); ("_pyDesDESCipher", []); ("print",
      []); ("CryptoException", []); ("CryptoException", ["NO_SUCH_ALGORITHM"])]);
    ("pythoncardx.crypto.cipher", "Cipher.init", 110%Z,
     [("isinstance", []); ("Key", []); ("CryptoException", []); ("CryptoException", ["ILLEGAL_VALUE"]);
      ("CryptoException", ["UNINITIALIZED_KEY"])]);
    ("pythoncardx.crypto.cipher", "Cipher.update", 124%Z,
     [("CryptoException", []); ("CryptoException", ["INVALID_INIT"])]);
    ("pythoncardx.crypto.cipher", "Cipher.doFinal", 128%Z,
     [("CryptoException", []); ("CryptoException", ["INVALID_INIT"])]);
    ("pythoncardx.crypto.cipher", "_PyCryptoRSACipher.__init__", 134%Z,
     [("Cipher", ["__init__"])]);
    ("pythoncardx.crypto.cipher", "_PyCryptoRSACipher.init", 137%Z,
     [("Cipher", ["init"]); ("isinstance", []); ("RSAPublicKey", []); ("RSAPrivateKey", []);
      ("RSAPrivateCrtKey", []); ("CryptoException", []); ("CryptoException", ["ILLEGAL_VALUE"])]);
    ("pythoncardx.crypto.cipher", "_PyCryptoRSACipher.EME_PKCS1_v1_5_enc", 146%Z,
     [("len", []); ("ord", []); ("os", ["urandom"]); ("CryptoException", []); ("CryptoException",
      ["ILLEGAL_VALUE"])]);
    ("pythoncardx.crypto.cipher", "_PyCryptoRSACipher.EME_PKCS1_v1_5_dec", 162%Z,
     [("CryptoException", []); ("CryptoException", ["ILLEGAL_VALUE"])]);
    ("pythoncardx.crypto.cipher", "_PyCryptoRSACipher.doFinal", 167%Z,
     [("Cipher", ["doFinal"]); ("range", []); ("Util", ["arrayCopy"]); ("len", []); ("CryptoException", []);
      ("CryptoException", ["ILLEGAL_VALUE"]); ("_arrayTolong", []); ("isinstance", []); ("RSAPublicKey", []);
      ("_longToArray", [])]);
    ("pythoncardx.crypto.cipher", "_pyDesDESCipher.__init__", 202%Z,
     [("pyDes", []); ("CryptoException", []); ("CryptoException", ["NO_SUCH_ALGORITHM"]); ("Cipher",
      ["__init__"]); ("Cipher", ["ALG_DES_ECB_NOPAD"]); ("Cipher", ["ALG_DES_ECB_ISO9797_M1"]); ("Cipher",
      ["ALG_DES_ECB_ISO9797_M2"]); ("Cipher", ["ALG_DES_ECB_PKCS5"]); ("Cipher", ["ALG_DES_CBC_NOPAD"]);
      ("Cipher", ["ALG_DES_CBC_ISO9797_M1"]); ("Cipher", ["ALG_DES_CBC_ISO9797_M2"]); ("Cipher",
      ["ALG_DES_CBC_PKCS5"]); ("pyDes", ["ECB"]); ("pyDes", ["CBC"]); ("pyDes", ["PAD_NORMAL"]); ("pyDes",
      ["PAD_PKCS5"])]);
    ("pythoncardx.crypto.cipher", "_pyDesDESCipher.init", 224%Z,
     [("Cipher", ["init"]); ("isinstance", []); ("pyDesDESKey", []); ("CryptoException", []);
      ("CryptoException", ["ILLEGAL_VALUE"]); ("range", []); ("Util", ["arrayCopy"]); ("_arrayTobinary", []);
      ("pyDes", ["des"]); ("pyDes", ["triple_des"])]);
    ("pythoncardx.crypto.cipher", "_pyDesDESCipher.doFinal", 249%Z,
     [("Cipher", ["doFinal"]); ("range", []); ("Util", ["arrayCopy"]); ("_arrayTobinary", []); ("Cipher",
      ["MODE_ENCRYPT"]); ("_binaryToarray", []); ("len", [])]);
    ("pythoncardx.external.memory", "Memory.getMemoryAccessInstance", 8%Z,
     [("ExternalException", []); ("ExternalException", ["NO_SUCH_SUBSYSTEM"])]);
    ("pythoncardx.framework.math", "to_bcd", 14%Z,
     [("s1", [])]);
    ("pythoncardx.framework.math", "to_hex", 35%Z,
     [("s1", [])]);
    ("pythoncardx.framework.math", "BigNumber.__init__", 43%Z,
     [("ArithmeticException", [])]);
    ("pythoncardx.framework.math", "BigNumber.init", 49%Z,
     [("ArithmeticException", []); ("NullPointerException", []); ("range", []); ("from_bcd", []); ("from_hex",
      [])]);
    ("pythoncardx.framework.math", "BigNumber.multiply", 72%Z,
     [("BigNumber", [])]);
    ("pythoncardx.framework.math", "BigNumber.subtract", 77%Z,
     [("BigNumber", [])]);
    ("pythoncardx.framework.math", "BigNumber.add", 82%Z,
     [("BigNumber", [])]);
    ("pythoncardx.framework.math", "BigNumber.compareTo", 87%Z,
     [("isinstance", []); ("BigNumber", [])]);
    ("pythoncardx.framework.math", "BigNumber.toBytes", 103%Z,
     [("to_bcd", []); ("to_hex", []); ("ArithmeticException", []); ("len", []); ("range", []); ("Util",
      ["arrayCopy"])]);
    ("pythoncardx.framework.tlv.bertag", "sanitycheck", 10%Z,
     [("range", []); ("len", [])]);
    ("pythoncardx.framework.tlv.bertag", "BERTag.getInstance", 32%Z,
     [("ConstructedBERTag", []); ("PrimitiveBERTag", []); ("IndexError", []);
      ("ArrayIndexOutOfBoundsException", [])]);
    ("pythoncardx.framework.tlv.bertag", "BERTag.init", 43%Z,
     [("bool", [])]);
    ("pythoncardx.framework.tlv.bertag", "BERTag._toBytesBound", 61%Z,
     [("sanitycheck", []); ("reversed", [])]);
    ("pythoncardx.framework.tlv.bertag", "BERTag._toBytesStatic", 85%Z,
     [("ConstructedBERTag", []); ("PrimitiveBERTag", [])]);
    ("pythoncardx.framework.tlv.bertag", "BERTag._sizeStatic", 95%Z,
     [("BERTag", [])]);
    ("pythoncardx.framework.tlv.bertag", "BERTag._isConstructedStatic", 104%Z,
     [("BERTag", ["getInstance"])]);
    ("pythoncardx.framework.tlv.bertag", "BERTag._tagClassStatic", 112%Z,
     [("BERTag", ["getInstance"])]);
    ("pythoncardx.framework.tlv.bertag", "BERTag._tagNumberStatic", 120%Z,
     [("BERTag", ["getInstance"])]);
    ("pythoncardx.framework.tlv.bertag", "PrimitiveBERTag.__init__", 134%Z,
     [("BERTag", ["__init__"])]);
    ("pythoncardx.framework.tlv.bertag", "PrimitiveBERTag.init", 138%Z,
     [("isinstance", []); ("list", []); ("TLVException", []); ("TLVException", ["MALFORMED_TAG"]); ("BERTag",
      ["init"])]);
    ("pythoncardx.framework.tlv.bertag", "ConstructedBERTag.__init__", 153%Z,
     [("BERTag", ["__init__"])]);
    ("pythoncardx.framework.tlv.bertag", "ConstructedBERTag.init", 157%Z,
     [("isinstance", []); ("list", []); ("TLVException", []); ("TLVException", ["MALFORMED_TAG"]); ("BERTag",
      ["init"])]);
    ("pythoncardx.framework.tlv.bertlv", "_getLength", 13%Z,
     [("reversed", [])]);
    ("pythoncardx.framework.tlv.bertlv", "BERTLV.getInstance", 40%Z,
     [("BERTLV", ["getLength"]); ("BERTag", ["getInstance"]); ("ConstructedBERTLV", []); ("PrimitiveBERTLV",
      []); ("_getLength", [])]);
    ("pythoncardx.framework.tlv.bertlv", "BERTLV.init", 56%Z,
     [("BERTLV", ["getInstance"])]);
    ("pythoncardx.framework.tlv.bertlv", "BERTLV._getLengthStatic", 67%Z,
     [("BERTag", ["getInstance"]); ("_getLength", [])]);
    ("pythoncardx.framework.tlv.bertlv", "BERTLV.size", 74%Z,
     [("getLengthLen", [])]);
    ("pythoncardx.framework.tlv.bertlv", "BERTLV._toBytesBound", 77%Z,
     [("chunk", ["reverse"]); ("len", []); ("chunk", []); ("Util", ["arrayCopy"])]);
    ("pythoncardx.framework.tlv.bertlv", "ConstructedBERTLV.__init__", 99%Z,
     [("BERTLV", ["__init__"])]);
    ("pythoncardx.framework.tlv.bertlv", "ConstructedBERTLV.init", 102%Z,
     [("isinstance", []); ("BERTag", []); ("copy", []); ("BERTLV", ["init"])]);
    ("pythoncardx.framework.tlv.bertlv", "ConstructedBERTLV._appendBound", 115%Z,
     [("range", [])]);
    ("pythoncardx.framework.tlv.bertlv", "ConstructedBERTLV._appendStatic", 122%Z,
     [("BERTLV", ["getInstance"])]);
    ("pythoncardx.framework.tlv.bertlv", "ConstructedBERTLV._find", 131%Z,
     [("BERTLV", ["getInstance"])]);
    ("pythoncardx.framework.tlv.bertlv", "ConstructedBERTLV._findBound", 140%Z,
     [("BERTLV", ["getInstance"])]);
    ("pythoncardx.framework.tlv.bertlv", "ConstructedBERTLV._findStatic", 152%Z,
     [("BERTLV", ["getInstance"]); ("getLengthLen", []); ("BERTag", ["getInstance"])]);
    ("pythoncardx.framework.tlv.bertlv", "ConstructedBERTLV._findNextBound", 167%Z,
     [("BERTLV", ["getInstance"])]);
    ("pythoncardx.framework.tlv.bertlv", "ConstructedBERTLV._findNextStatic", 185%Z,
     [("BERTLV", ["getInstance"]); ("getLengthLen", []); ("startOff", []); ("BERTag", ["getInstance"])]);
    ("pythoncardx.framework.tlv.bertlv", "PrimitiveBERTLV.__init__", 205%Z,
     [("BERTLV", ["__init__"])]);
    ("pythoncardx.framework.tlv.bertlv", "PrimitiveBERTLV.init", 208%Z,
     [("isinstance", []); ("BERTag", []); ("copy", []); ("BERTLV", ["init"])]);
    ("pythoncardx.framework.tlv.bertlv", "PrimitiveBERTLV.getValueOffset", 222%Z,
     [("BERTLV", ["getInstance"]); ("getLengthLen", [])]);
    ("pythoncardx.framework.tlv.bertlv", "PrimitiveBERTLV.getValue", 226%Z,
     [("Util", ["arrayCopy"])]);
    ("pythoncardx.framework.tlv.bertlv", "PrimitiveBERTLV.replaceValue", 230%Z,
     [("range", []); ("Util", ["arrayCopy"])]);
    ("pythoncardx.framework.util.intx", "s4", 13%Z,
     [("signed", [])]);
    ("pythoncardx.framework.util.intx", "s1", 16%Z,
     [("signed", [])]);
    ("pythoncardx.framework.util.intx", "sanatize", 19%Z,
     [("range", []); ("len", []); ("s1", [])]);
    ("pythoncardx.framework.util.intx", "JCint.getInt", 26%Z,
     [("s4", [])]);
    ("pythoncardx.framework.util.intx", "JCint.makeInt", 34%Z,
     [("len", []); ("s4", [])]);
    ("pythoncardx.framework.util.intx", "JCint.makeTransientIntArray", 45%Z,
     [("warnings", ["warn"]); ("range", [])]);
    ("pythoncardx.framework.util.intx", "JCint.setInt", 50%Z,
     [("JCint", ["makeInt"]); ("s1", [])]) ].
