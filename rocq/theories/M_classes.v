(** * The classes of the library (generated from the text of the files, then read through)

    For each class its base and its attributes: functions with the least and greatest number
    of parameters (self included), @staticmethod, NotAlwaysStatic, anything else.  A
    @classmethod is given as a static method without its first parameter, which is what both
    ways of calling it come to; a @property and a constant are Data; a method under
    standardGetter or standardSetter (publickey.py:31-48, privatekey.py:26-40) has the
    parameters of the function inside, to which the wrapper passes on what it gets. *)
From Verif Require Import Py M_lookup M_import.
From Coq Require Import String.
Open Scope string_scope.

(** pyDes/pyDes.py:107-242 *)
Definition k_pyDes_pyDes__baseDes : cdict :=
  [("__init__", Func "_baseDes.__init__" 1 (Some 5%nat)); ("getKey", Func "_baseDes.getKey" 1 (Some 1%nat));
   ("setKey", Func "_baseDes.setKey" 2 (Some 2%nat)); ("getMode", Func "_baseDes.getMode" 1 (Some 1%nat));
   ("setMode", Func "_baseDes.setMode" 2 (Some 2%nat));
   ("getPadding", Func "_baseDes.getPadding" 1 (Some 1%nat));
   ("setPadding", Func "_baseDes.setPadding" 2 (Some 2%nat));
   ("getPadMode", Func "_baseDes.getPadMode" 1 (Some 1%nat));
   ("setPadMode", Func "_baseDes.setPadMode" 2 (Some 2%nat)); ("getIV", Func "_baseDes.getIV" 1 (Some 1%nat));
   ("setIV", Func "_baseDes.setIV" 2 (Some 2%nat)); ("_padData", Func "_baseDes._padData" 4 (Some 4%nat));
   ("_unpadData", Func "_baseDes._unpadData" 4 (Some 4%nat));
   ("_guardAgainstUnicode", Func "_baseDes._guardAgainstUnicode" 2 (Some 2%nat))].
(** pyDes/pyDes.py:247-680 *)
Definition k_pyDes_pyDes_des : cdict :=
  [("__pc1", Data); ("__left_rotations", Data); ("__pc2", Data); ("__ip", Data); ("__expansion_table", Data);
   ("__sbox", Data); ("__p", Data); ("__fp", Data); ("ENCRYPT", Data); ("DECRYPT", Data);
   ("__init__", Func "des.__init__" 2 (Some 6%nat)); ("setKey", Func "des.setKey" 2 (Some 2%nat));
   ("__String_to_BitList", Func "des.__String_to_BitList" 2 (Some 2%nat));
   ("__BitList_to_String", Func "des.__BitList_to_String" 2 (Some 2%nat));
   ("__permutate", Func "des.__permutate" 3 (Some 3%nat));
   ("__create_sub_keys", Func "des.__create_sub_keys" 1 (Some 1%nat));
   ("__des_crypt", Func "des.__des_crypt" 3 (Some 3%nat)); ("crypt", Func "des.crypt" 3 (Some 3%nat));
   ("encrypt", Func "des.encrypt" 2 (Some 4%nat)); ("decrypt", Func "des.decrypt" 2 (Some 4%nat))].
(** pyDes/pyDes.py:687-852 *)
Definition k_pyDes_pyDes_triple_des : cdict :=
  [("__init__", Func "triple_des.__init__" 2 (Some 6%nat));
   ("setKey", Func "triple_des.setKey" 2 (Some 2%nat)); ("setMode", Func "triple_des.setMode" 2 (Some 2%nat));
   ("setPadding", Func "triple_des.setPadding" 2 (Some 2%nat));
   ("setPadMode", Func "triple_des.setPadMode" 2 (Some 2%nat));
   ("setIV", Func "triple_des.setIV" 2 (Some 2%nat)); ("encrypt", Func "triple_des.encrypt" 2 (Some 4%nat));
   ("decrypt", Func "triple_des.decrypt" 2 (Some 4%nat))].
(** python/io.py:1-2 *)
Definition k_python_io_IOException : cdict :=
  [].
(** python/lang.py:1-3 *)
Definition k_python_lang_Object : cdict :=
  [("equals", Func "Object.equals" 2 (Some 2%nat))].
(** python/lang.py:5-6 *)
Definition k_python_lang_RuntimeException : cdict :=
  [].
(** python/lang.py:8-9 *)
Definition k_python_lang_IndexOutOfBoundsException : cdict :=
  [].
(** python/lang.py:11-12 *)
Definition k_python_lang_ArrayIndexOutOfBoundsException : cdict :=
  [].
(** python/lang.py:14-15 *)
Definition k_python_lang_SecurityException : cdict :=
  [].
(** python/lang.py:17-18 *)
Definition k_python_lang_NullPointerException : cdict :=
  [].
(** python/lang.py:20-21 *)
Definition k_python_lang_ArithmeticException : cdict :=
  [].
(** python/lang.py:23-24 *)
Definition k_python_lang_ClassCastException : cdict :=
  [].
(** python/rmi.py:3-4 *)
Definition k_python_rmi_RemoteException : cdict :=
  [].
(** python/rmi.py:6-7 *)
Definition k_python_rmi_Remote : cdict :=
  [].
(** pythoncard/framework/__init__.py:16-17 *)
Definition k_pythoncard_framework_CardException : cdict :=
  [].
(** pythoncard/framework/__init__.py:19-20 *)
Definition k_pythoncard_framework_UserException : cdict :=
  [].
(** pythoncard/framework/__init__.py:22-34 *)
Definition k_pythoncard_framework_CardRuntimeException : cdict :=
  [("__init__", Func "CardRuntimeException.__init__" 2 (Some 2%nat));
   ("getReason", Func "CardRuntimeException.getReason" 1 (Some 1%nat));
   ("setReason", Func "CardRuntimeException.setReason" 2 (Some 2%nat));
   ("throwIt", StaticFn "CardRuntimeException.throwIt" 1 (Some 1%nat))].
(** pythoncard/framework/__init__.py:36-37 *)
Definition k_pythoncard_framework_ISOException : cdict :=
  [].
(** pythoncard/framework/__init__.py:39-40 *)
Definition k_pythoncard_framework_PINException : cdict :=
  [("ILLEGAL_VALUE", Data)].
(** pythoncard/framework/__init__.py:42-49 *)
Definition k_pythoncard_framework_APDUException : cdict :=
  [("BAD_LENGTH", Data); ("BUFFER_BOUNDS", Data); ("ILLEGAL_USE", Data); ("IO_ERROR", Data);
   ("NO_T0_GETRESPONSE", Data); ("NO_T0_REISSUE", Data); ("T1_IFD_ABORT", Data)].
(** pythoncard/framework/__init__.py:51-57 *)
Definition k_pythoncard_framework_SystemException : cdict :=
  [("ILLEGAL_AID", Data); ("ILLEGAL_TRANSIENT", Data); ("ILLEGAL_USE", Data); ("ILLEGAL_VALUE", Data);
   ("NO_RESOURCE", Data); ("NO_TRANSIENT_SPACE", Data)].
(** pythoncard/framework/__init__.py:59-63 *)
Definition k_pythoncard_framework_TransactionException : cdict :=
  [("BUFFER_FULL", Data); ("IN_PROGRESS", Data); ("INTERNAL_FAILURE", Data); ("NOT_IN_PROGRESS", Data)].
(** pythoncard/framework/__init__.py:65-65 *)
Definition k_pythoncard_framework_Shareable : cdict :=
  [].
(** pythoncard/framework/aid.py:3-43 *)
Definition k_pythoncard_framework_aid_AID : cdict :=
  [("__init__", Func "AID.__init__" 4 (Some 4%nat)); ("equals", Func "AID.equals" 4 (Some 4%nat));
   ("getBytes", Func "AID.getBytes" 3 (Some 3%nat));
   ("getPartialBytes", Func "AID.getPartialBytes" 5 (Some 5%nat));
   ("partialEquals", Func "AID.partialEquals" 4 (Some 4%nat));
   ("RIDEquals", Func "AID.RIDEquals" 2 (Some 2%nat)); ("__eq__", Func "AID.__eq__" 2 (Some 2%nat))].
(** pythoncard/framework/apdu.py:33-281 *)
Definition k_pythoncard_framework_apdu_APDU : cdict :=
  [("STATE_INITIAL", Data); ("STATE_PARTIAL_INCOMING", Data); ("STATE_FULL_INCOMING", Data);
   ("STATE_OUTGOING", Data); ("STATE_OUTGOING_LENGTH_KNOWN", Data); ("STATE_PARTIAL_OUTGOING", Data);
   ("STATE_FULL_OUTGOING", Data); ("PROTOCOL_MEDIA_CONTACTLESS_TYPE_A", Data);
   ("PROTOCOL_MEDIA_CONTACTLESS_TYPE_B", Data); ("PROTOCOL_MEDIA_DEFAULT", Data);
   ("PROTOCOL_MEDIA_MASK", Data); ("PROTOCOL_MEDIA_USB", Data); ("PROTOCOL_T0", Data); ("PROTOCOL_T1", Data);
   ("PROTOCOL_TYPE_MASK", Data); ("STATE_ERROR_IO", Data); ("STATE_ERROR_NO_T0_GETRESPONSE", Data);
   ("STATE_ERROR_NO_T0_REISSUE", Data); ("STATE_ERROR_T1_IFD_ABORT", Data);
   ("__init__", Func "APDU.__init__" 2 (Some 2%nat));
   ("__getInLengths", Func "APDU.__getInLengths" 1 (Some 1%nat));
   ("__getOutLengths", Func "APDU.__getOutLengths" 2 (Some 2%nat));
   ("getBuffer", Func "APDU.getBuffer" 1 (Some 1%nat));
   ("getInBlockSize", StaticFn "APDU.getInBlockSize" 0 (Some 0%nat));
   ("getOutBlockSize", StaticFn "APDU.getOutBlockSize" 0 (Some 0%nat));
   ("getProtocol", StaticFn "APDU.getProtocol" 0 (Some 0%nat)); ("getNAD", Func "APDU.getNAD" 1 (Some 1%nat));
   ("setIncomingAndReceive", Func "APDU.setIncomingAndReceive" 1 (Some 1%nat));
   ("receiveBytes", Func "APDU.receiveBytes" 2 (Some 2%nat));
   ("setOutgoing", Func "APDU.setOutgoing" 1 (Some 1%nat));
   ("setoutgoingNoChaining", Func "APDU.setoutgoingNoChaining" 1 (Some 1%nat));
   ("setOutgoingLength", Func "APDU.setOutgoingLength" 2 (Some 2%nat));
   ("sendBytes", Func "APDU.sendBytes" 3 (Some 3%nat));
   ("sendBytesLong", Func "APDU.sendBytesLong" 4 (Some 4%nat));
   ("setOutgoingAndSend", Func "APDU.setOutgoingAndSend" 3 (Some 3%nat));
   ("getCurrentState", Func "APDU.getCurrentState" 1 (Some 1%nat));
   ("getCurrentAPDU", StaticFn "APDU.getCurrentAPDU" 0 (Some 0%nat));
   ("getCurrentAPDUBuffer", StaticFn "APDU.getCurrentAPDUBuffer" 0 (Some 0%nat));
   ("getCLAChannel", StaticFn "APDU.getCLAChannel" 0 (Some 0%nat));
   ("waitExtension", StaticFn "APDU.waitExtension" 0 (Some 0%nat));
   ("isCommandChainingCLA", Func "APDU.isCommandChainingCLA" 1 (Some 1%nat));
   ("isSecureMessagingCLA", Func "APDU.isSecureMessagingCLA" 1 (Some 1%nat));
   ("isISOInterindustryCLA", Func "APDU.isISOInterindustryCLA" 1 (Some 1%nat));
   ("getIncomingLength", Func "APDU.getIncomingLength" 1 (Some 1%nat));
   ("_getOutgoingLength", Func "APDU._getOutgoingLength" 1 (Some 1%nat));
   ("getOffsetCdata", Func "APDU.getOffsetCdata" 1 (Some 1%nat))].
(** pythoncard/framework/applet.py:3-52 *)
Definition k_pythoncard_framework_applet_Applet : cdict :=
  [("__init__", Func "Applet.__init__" 1 (Some 1%nat)); ("RID", Data); ("PIX", Data); ("AID", Data);
   ("deselect", Func "Applet.deselect" 1 (Some 1%nat)); ("select", Func "Applet.select" 1 (Some 1%nat));
   ("selectingApplet", Func "Applet.selectingApplet" 1 (Some 1%nat));
   ("reSelectingApplet", Func "Applet.reSelectingApplet" 1 (Some 1%nat));
   ("install", StaticFn "Applet.install" 3 (Some 3%nat)); ("process", Func "Applet.process" 2 (Some 2%nat));
   ("getShareableInterfaceObject", Func "Applet.getShareableInterfaceObject" 3 (Some 3%nat));
   ("register", Func "Applet.register" 1 (Some 4%nat))].
(** pythoncard/framework/ownerpin.py:5-87 *)
Definition k_pythoncard_framework_ownerpin_OwnerPIN : cdict :=
  [("__init__", Func "OwnerPIN.__init__" 3 (Some 3%nat));
   ("getValidatedFlag", Func "OwnerPIN.getValidatedFlag" 1 (Some 1%nat));
   ("setValidatedFlag", Func "OwnerPIN.setValidatedFlag" 2 (Some 2%nat));
   ("getTriesRemaining", Func "OwnerPIN.getTriesRemaining" 1 (Some 1%nat));
   ("check", Func "OwnerPIN.check" 4 (Some 4%nat));
   ("isValidated", Func "OwnerPIN.isValidated" 1 (Some 1%nat));
   ("reset", Func "OwnerPIN.reset" 1 (Some 1%nat)); ("update", Func "OwnerPIN.update" 4 (Some 4%nat));
   ("resetAndUnblock", Func "OwnerPIN.resetAndUnblock" 1 (Some 1%nat))].
(** pythoncard/framework/service/__init__.py:3-10 *)
Definition k_pythoncard_framework_service_ServiceException : cdict :=
  [("CANNOT_ACCESS_IN_COMMAND", Data); ("CANNOT_ACCESS_OUT_COMMAND", Data); ("COMMAND_DATA_TOO_LONG", Data);
   ("COMMAND_IS_FINISHED", Data); ("DISPATCH_TABLE_FULL", Data); ("ILLEGAL_PARAM", Data);
   ("REMOTE_OBJECT_NOT_EXPORTED", Data)].
(** pythoncard/framework/service/__init__.py:12-13 *)
Definition k_pythoncard_framework_service_Service : cdict :=
  [].
(** pythoncard/framework/service/basicservice.py:3-4 *)
Definition k_pythoncard_framework_service_basicservice_BasicService : cdict :=
  [].
(** pythoncard/framework/service/cardremoteobject.py:3-4 *)
Definition k_pythoncard_framework_service_cardremoteobject_CardRemoteObject : cdict :=
  [].
(** pythoncard/framework/service/dispatcher.py:3-23 *)
Definition k_pythoncard_framework_service_dispatcher_Dispatcher : cdict :=
  [("PROCESS_COMMAND", Data); ("PROCESS_INPUT_DATA", Data); ("PROCESS_NONE", Data);
   ("PROCESS_OUTPUT_DATA", Data); ("__init__", Func "Dispatcher.__init__" 2 (Some 2%nat));
   ("addService", Func "Dispatcher.addService" 3 (Some 3%nat))].
(** pythoncard/framework/service/rmiservice.py:3-5 *)
Definition k_pythoncard_framework_service_rmiservice_RMIService : cdict :=
  [("__init__", Func "RMIService.__init__" 2 (Some 2%nat))].
(** pythoncard/security/__init__.py:3-8 *)
Definition k_pythoncard_security_CryptoException : cdict :=
  [("ILLEGAL_VALUE", Data); ("UNINITIALIZED_KEY", Data); ("NO_SUCH_ALGORITHM", Data); ("INVALID_INIT", Data);
   ("ILLEGAL_USE", Data)].
(** pythoncard/security/key.py:39-59 *)
Definition k_pythoncard_security_key_Key : cdict :=
  [("__init__", Func "Key.__init__" 3 (Some 3%nat));
   ("isInitialized", Func "Key.isInitialized" 1 (Some 1%nat));
   ("_setInitialized", Func "Key._setInitialized" 1 (Some 1%nat));
   ("clearKey", Func "Key.clearKey" 1 (Some 1%nat)); ("getType", Func "Key.getType" 1 (Some 1%nat));
   ("getSize", Func "Key.getSize" 1 (Some 1%nat))].
(** pythoncard/security/keybuilder.py:3-91 *)
Definition k_pythoncard_security_keybuilder_KeyBuilder : cdict :=
  [("ALG_TYPE_AES", Data); ("ALG_TYPE_DES", Data); ("ALG_TYPE_DSA_PRIVATE", Data);
   ("ALG_TYPE_DSA_PUBLIC", Data); ("ALG_TYPE_EC_F2M_PRIVATE", Data); ("ALG_TYPE_EC_F2M_PUBLIC", Data);
   ("ALG_TYPE_EC_FP_PRIVATE", Data); ("ALG_TYPE_EC_FP_PUBLIC", Data); ("ALG_TYPE_HMAC", Data);
   ("ALG_TYPE_KOREAN_SEED", Data); ("ALG_TYPE_RSA_CRT_PRIVATE", Data); ("ALG_TYPE_RSA_PRIVATE", Data);
   ("ALG_TYPE_RSA_PUBLIC", Data); ("LENGTH_AES_128", Data); ("LENGTH_AES_192", Data); ("LENGTH_AES_256", Data);
   ("LENGTH_DES", Data); ("LENGTH_DES3_2KEY", Data); ("LENGTH_DES3_3KEY", Data); ("LENGTH_DSA_1024", Data);
   ("LENGTH_DSA_512", Data); ("LENGTH_DSA_768", Data); ("LENGTH_EC_F2M_113", Data);
   ("LENGTH_EC_F2M_131", Data); ("LENGTH_EC_F2M_163", Data); ("LENGTH_EC_F2M_193", Data);
   ("LENGTH_EC_FP_112", Data); ("LENGTH_EC_FP_128", Data); ("LENGTH_EC_FP_160", Data);
   ("LENGTH_EC_FP_192", Data); ("LENGTH_HMAC_SHA_1_BLOCK_64", Data); ("LENGTH_HMAC_SHA_256_BLOCK_64", Data);
   ("LENGTH_HMAC_SHA_384_BLOCK_128", Data); ("LENGTH_HMAC_SHA_512_BLOCK_128", Data);
   ("LENGTH_KOREAN_SEED_128", Data); ("LENGTH_RSA_1024", Data); ("LENGTH_RSA_1280", Data);
   ("LENGTH_RSA_1536", Data); ("LENGTH_RSA_1984", Data); ("LENGTH_RSA_2048", Data); ("LENGTH_RSA_512", Data);
   ("LENGTH_RSA_736", Data); ("LENGTH_RSA_768", Data); ("LENGTH_RSA_896", Data); ("TYPE_AES", Data);
   ("TYPE_AES_TRANSIENT_DESELECT", Data); ("TYPE_AES_TRANSIENT_RESET", Data); ("TYPE_DES", Data);
   ("TYPE_DES_TRANSIENT_DESELECT", Data); ("TYPE_DES_TRANSIENT_RESET", Data); ("TYPE_DSA_PRIVATE", Data);
   ("TYPE_DSA_PUBLIC", Data); ("TYPE_EC_F2M_PRIVATE", Data); ("TYPE_EC_F2M_PUBLIC", Data);
   ("TYPE_EC_FP_PRIVATE", Data); ("TYPE_EC_FP_PUBLIC", Data); ("TYPE_HMAC", Data);
   ("TYPE_HMAC_TRANSIENT_DESELECT", Data); ("TYPE_HMAC_TRANSIENT_RESET", Data); ("TYPE_KOREAN_SEED", Data);
   ("TYPE_KOREAN_SEED_TRANSIENT_DESELECT", Data); ("TYPE_KOREAN_SEED_TRANSIENT_RESET", Data);
   ("TYPE_RSA_CRT_PRIVATE", Data); ("TYPE_RSA_PRIVATE", Data); ("TYPE_RSA_PUBLIC", Data);
   ("buildKey", StaticFn "KeyBuilder.buildKey" 0 None)].
(** pythoncard/security/keypair.py:11-65 *)
Definition k_pythoncard_security_keypair_KeyPair : cdict :=
  [("ALG_DSA", Data); ("ALG_EC_F2M", Data); ("ALG_EC_FP", Data); ("ALG_RSA", Data); ("ALG_RSA_CRT", Data);
   ("__init__", Func "KeyPair.__init__" 3 (Some 3%nat));
   ("_pyCryptogenKeyPair", Func "KeyPair._pyCryptogenKeyPair" 1 (Some 1%nat));
   ("genKeyPair", Func "KeyPair.genKeyPair" 1 (Some 1%nat));
   ("getPrivate", Func "KeyPair.getPrivate" 1 (Some 1%nat));
   ("getPublic", Func "KeyPair.getPublic" 1 (Some 1%nat))].
(** pythoncard/security/messagedigest.py:8-44 *)
Definition k_pythoncard_security_messagedigest_MessageDigest : cdict :=
  [("ALG_MD5", Data); ("ALG_RIPEMD160", Data); ("ALG_SHA", Data); ("ALG_SHA_224", Data); ("ALG_SHA_256", Data);
   ("ALG_SHA_384", Data); ("ALG_SHA_512", Data); ("ALG_SHA3_224", Data); ("ALG_SHA3_256", Data);
   ("ALG_SHA3_384", Data); ("ALG_SHA3_512", Data); ("LENGTH_MD5", Data); ("LENGTH_RIPEMD160", Data);
   ("LENGTH_SHA", Data); ("LENGTH_SHA_224", Data); ("LENGTH_SHA_256", Data); ("LENGTH_SHA_384", Data);
   ("LENGTH_SHA_512", Data); ("LENGTH_SHA3_224", Data); ("LENGTH_SHA3_256", Data); ("LENGTH_SHA3_384", Data);
   ("LENGTH_SHA3_512", Data); ("_algorithm", Data);
   ("getInstance", StaticFn "MessageDigest.getInstance" 2 (Some 2%nat));
   ("getInitializedMessageDigestInstance", StaticFn "MessageDigest.getInitializedMessageDigestInstance" 2 (Some 2%nat));
   ("getAlgorithm", Func "MessageDigest.getAlgorithm" 1 (Some 1%nat))].
(** pythoncard/security/messagedigest.py:46-89 *)
Definition k_pythoncard_security_messagedigest__HashLibMessageDigest : cdict :=
  [("algos", Data); ("m", Data); ("__init__", Func "_HashLibMessageDigest.__init__" 2 (Some 2%nat));
   ("reset", Func "_HashLibMessageDigest.reset" 1 (Some 1%nat));
   ("update", Func "_HashLibMessageDigest.update" 4 (Some 4%nat));
   ("doFinal", Func "_HashLibMessageDigest.doFinal" 6 (Some 6%nat));
   ("getLength", Func "_HashLibMessageDigest.getLength" 1 (Some 1%nat))].
(** pythoncard/security/privatekey.py:5-6 *)
Definition k_pythoncard_security_privatekey_PrivateKey : cdict :=
  [].
(** pythoncard/security/privatekey.py:9-23 *)
Definition k_pythoncard_security_privatekey_RSAPrivateKey : cdict :=
  [("__init__", Func "RSAPrivateKey.__init__" 2 (Some 2%nat));
   ("getExponent", Func "RSAPrivateKey.getExponent" 3 (Some 3%nat));
   ("getModulus", Func "RSAPrivateKey.getModulus" 3 (Some 3%nat));
   ("setExponent", Func "RSAPrivateKey.setExponent" 4 (Some 4%nat));
   ("setModulus", Func "RSAPrivateKey.setModulus" 4 (Some 4%nat))].
(** pythoncard/security/privatekey.py:39-70 *)
Definition k_pythoncard_security_privatekey_PyCryptoRSAPrivateKey : cdict :=
  [("__init__", Func "PyCryptoRSAPrivateKey.__init__" 2 (Some 2%nat));
   ("getExponent", Func "PyCryptoRSAPrivateKey.getExponent" 3 (Some 3%nat));
   ("getModulus", Func "PyCryptoRSAPrivateKey.getModulus" 3 (Some 3%nat));
   ("setExponent", Func "PyCryptoRSAPrivateKey.setExponent" 4 (Some 4%nat));
   ("setModulus", Func "PyCryptoRSAPrivateKey.setModulus" 4 (Some 4%nat));
   ("setTheKey", Func "PyCryptoRSAPrivateKey.setTheKey" 2 (Some 2%nat))].
(** pythoncard/security/privatekey.py:72-104 *)
Definition k_pythoncard_security_privatekey_RSAPrivateCrtKey : cdict :=
  [("__init__", Func "RSAPrivateCrtKey.__init__" 2 (Some 2%nat));
   ("getDP1", Func "RSAPrivateCrtKey.getDP1" 2 (Some 2%nat));
   ("getDQ1", Func "RSAPrivateCrtKey.getDQ1" 2 (Some 2%nat));
   ("getP", Func "RSAPrivateCrtKey.getP" 2 (Some 2%nat));
   ("getPQ", Func "RSAPrivateCrtKey.getPQ" 2 (Some 2%nat));
   ("getQ", Func "RSAPrivateCrtKey.getQ" 2 (Some 2%nat));
   ("setDP1", Func "RSAPrivateCrtKey.setDP1" 3 (Some 3%nat));
   ("setDQ1", Func "RSAPrivateCrtKey.setDQ1" 3 (Some 3%nat));
   ("setP", Func "RSAPrivateCrtKey.setP" 3 (Some 3%nat));
   ("setPQ", Func "RSAPrivateCrtKey.setPQ" 3 (Some 3%nat));
   ("setQ", Func "RSAPrivateCrtKey.setQ" 3 (Some 3%nat))].
(** pythoncard/security/privatekey.py:106-118 *)
Definition k_pythoncard_security_privatekey_PyCryptoRSAPrivateCrtKey : cdict :=
  [("__init__", Func "PyCryptoRSAPrivateCrtKey.__init__" 2 (Some 2%nat));
   ("setTheKey", Func "PyCryptoRSAPrivateCrtKey.setTheKey" 2 (Some 2%nat))].
(** pythoncard/security/publickey.py:12-13 *)
Definition k_pythoncard_security_publickey_PublicKey : cdict :=
  [].
(** pythoncard/security/publickey.py:15-29 *)
Definition k_pythoncard_security_publickey_RSAPublicKey : cdict :=
  [("__init__", Func "RSAPublicKey.__init__" 2 (Some 2%nat));
   ("getExponent", Func "RSAPublicKey.getExponent" 3 (Some 3%nat));
   ("getModulus", Func "RSAPublicKey.getModulus" 3 (Some 3%nat));
   ("setExponent", Func "RSAPublicKey.setExponent" 4 (Some 4%nat));
   ("setModulus", Func "RSAPublicKey.setModulus" 4 (Some 4%nat))].
(** pythoncard/security/publickey.py:51-88 *)
Definition k_pythoncard_security_publickey_PyCryptoRSAPublicKey : cdict :=
  [("__init__", Func "PyCryptoRSAPublicKey.__init__" 2 (Some 2%nat));
   ("getExponent", Func "PyCryptoRSAPublicKey.getExponent" 3 (Some 3%nat));
   ("getModulus", Func "PyCryptoRSAPublicKey.getModulus" 3 (Some 3%nat));
   ("setExponent", Func "PyCryptoRSAPublicKey.setExponent" 4 (Some 4%nat));
   ("setModulus", Func "PyCryptoRSAPublicKey.setModulus" 4 (Some 4%nat));
   ("setTheKey", Func "PyCryptoRSAPublicKey.setTheKey" 2 (Some 2%nat));
   ("_construct", Func "PyCryptoRSAPublicKey._construct" 1 (Some 1%nat))].
(** pythoncard/security/random.py:5-20 *)
Definition k_pythoncard_security_random_RandomData : cdict :=
  [("ALG_PSEUDO_RANDOM", Data); ("ALG_SECURE_RANDOM", Data);
   ("getInstance", StaticFn "RandomData.getInstance" 1 (Some 1%nat));
   ("generateData", Func "RandomData.generateData" 4 (Some 4%nat));
   ("setSeed", Func "RandomData.setSeed" 4 (Some 4%nat))].
(** pythoncard/security/random.py:22-29 *)
Definition k_pythoncard_security_random__SecureRandomData : cdict :=
  [("generateData", Func "_SecureRandomData.generateData" 4 (Some 4%nat))].
(** pythoncard/security/secretkey.py:6-7 *)
Definition k_pythoncard_security_secretkey_SecretKey : cdict :=
  [].
(** pythoncard/security/secretkey.py:9-14 *)
Definition k_pythoncard_security_secretkey_DESKey : cdict :=
  [("getKey", Func "DESKey.getKey" 3 (Some 3%nat)); ("setKey", Func "DESKey.setKey" 3 (Some 3%nat))].
(** pythoncard/security/secretkey.py:16-26 *)
Definition k_pythoncard_security_secretkey_pyDesDESKey : cdict :=
  [("__init__", Func "pyDesDESKey.__init__" 3 (Some 3%nat));
   ("setKey", Func "pyDesDESKey.setKey" 3 (Some 3%nat)); ("getKey", Func "pyDesDESKey.getKey" 3 (Some 3%nat))].
(** pythoncard/security/signature.py:1-73 *)
Definition k_pythoncard_security_signature_Signature : cdict :=
  [("ALG_DES_MAC4_NOPAD", Data); ("ALG_DES_MAC8_NOPAD", Data); ("ALG_DES_MAC4_ISO9797_M1", Data);
   ("ALG_DES_MAC8_ISO9797_M1", Data); ("ALG_DES_MAC4_ISO9797_M2", Data); ("ALG_DES_MAC8_ISO9797_M2", Data);
   ("ALG_DES_MAC4_PKCS5", Data); ("ALG_DES_MAC8_PKCS5", Data); ("ALG_RSA_SHA_ISO9796", Data);
   ("ALG_RSA_SHA_PKCS1", Data); ("ALG_RSA_MD5_PKCS1", Data); ("ALG_RSA_RIPEMD160_ISO9796", Data);
   ("ALG_RSA_RIPEMD160_PKCS1", Data); ("ALG_DSA_SHA", Data); ("ALG_RSA_SHA_RFC2409", Data);
   ("ALG_RSA_MD5_RFC2409", Data); ("ALG_ECDSA_SHA", Data); ("ALG_AES_MAC_128_NOPAD", Data);
   ("ALG_DES_MAC4_ISO9797_1_M2_ALG3", Data); ("ALG_DES_MAC8_ISO9797_1_M2_ALG3", Data);
   ("ALG_RSA_SHA_PKCS1_PSS", Data); ("ALG_RSA_MD5_PKCS1_PSS", Data); ("ALG_RSA_RIPEMD160_PKCS1_PSS", Data);
   ("ALG_HMAC_SHA1", Data); ("ALG_HMAC_SHA_256", Data); ("ALG_HMAC_SHA_384", Data); ("ALG_HMAC_SHA_512", Data);
   ("ALG_HMAC_MD5", Data); ("ALG_HMAC_RIPEMD160", Data); ("ALG_RSA_SHA_ISO9796_MR", Data);
   ("ALG_RSA_RIPEMD160_ISO9796_MR", Data); ("ALG_KOREAN_SEED_MAC_NOPAD", Data); ("MODE_SIGN", Data);
   ("MODE_VERIFY", Data); ("SIG_CIPHER_DES_MAC4", Data); ("SIG_CIPHER_DES_MAC8", Data);
   ("SIG_CIPHER_RSA", Data); ("SIG_CIPHER_DSA", Data); ("SIG_CIPHER_ECDSA", Data);
   ("SIG_CIPHER_AES_MAC128", Data); ("SIG_CIPHER_HMAC", Data); ("SIG_CIPHER_KOREAN_SEED_MAC", Data);
   ("getInstance", StaticFn "Signature.getInstance" 0 None);
   ("getLength", Func "Signature.getLength" 1 (Some 1%nat)); ("init", Func "Signature.init" 3 (Some 6%nat));
   ("sign", Func "Signature.sign" 6 (Some 6%nat)); ("update", Func "Signature.update" 4 (Some 4%nat));
   ("verify", Func "Signature.verify" 7 (Some 7%nat))].
(** pythoncard/security/signature.py:75-76 *)
Definition k_pythoncard_security_signature__RSASHASignature : cdict :=
  [].
(** pythoncard/utils.py:21-41 *)
Definition k_pythoncard_utils_NotAlwaysStatic : cdict :=
  [("__init__", Func "NotAlwaysStatic.__init__" 3 (Some 3%nat));
   ("__get__", Func "NotAlwaysStatic.__get__" 2 (Some 3%nat))].
(** pythoncardx/apdu.py:1-2 *)
Definition k_pythoncardx_apdu_ExtendedLength : cdict :=
  [].
(** pythoncardx/crypto/cipher.py:18-130 *)
Definition k_pythoncardx_crypto_cipher_Cipher : cdict :=
  [("ALG_DES_CBC_NOPAD", Data); ("ALG_DES_CBC_ISO9797_M1", Data); ("ALG_DES_CBC_ISO9797_M2", Data);
   ("ALG_DES_CBC_PKCS5", Data); ("ALG_DES_ECB_NOPAD", Data); ("ALG_DES_ECB_ISO9797_M1", Data);
   ("ALG_DES_ECB_ISO9797_M2", Data); ("ALG_DES_ECB_PKCS5", Data); ("ALG_RSA_ISO14888", Data);
   ("ALG_RSA_PKCS1", Data); ("ALG_RSA_ISO9796", Data); ("ALG_RSA_NOPAD", Data);
   ("ALG_AES_BLOCK_128_CBC_NOPAD", Data); ("ALG_AES_BLOCK_128_ECB_NOPAD", Data); ("ALG_RSA_PKCS1_OAEP", Data);
   ("ALG_KOREAN_SEED_ECB_NOPAD", Data); ("ALG_KOREAN_SEED_CBC_NOPAD", Data);
   ("ALG_AES_BLOCK_192_CBC_NOPAD", Data); ("ALG_AES_BLOCK_192_ECB_NOPAD", Data);
   ("ALG_AES_BLOCK_256_CBC_NOPAD", Data); ("ALG_AES_BLOCK_256_ECB_NOPAD", Data);
   ("ALG_AES_CBC_ISO9797_M1", Data); ("ALG_AES_CBC_ISO9797_M2", Data); ("ALG_AES_CBC_PKCS5", Data);
   ("ALG_AES_ECB_ISO9797_M1", Data); ("ALG_AES_ECB_ISO9797_M2", Data); ("ALG_AES_ECB_PKCS5", Data);
   ("MODE_DECRYPT", Data); ("MODE_ENCRYPT", Data); ("CIPHER_AES_CBC", Data); ("CIPHER_AES_ECB", Data);
   ("CIPHER_DES_CBC", Data); ("CIPHER_DES_ECB", Data); ("CIPHER_KOREAN_SEED_CBC", Data);
   ("CIPHER_KOREAN_SEED_ECB", Data); ("CIPHER_RSA", Data); ("PAD_NULL", Data); ("PAD_NOPAD", Data);
   ("PAD_ISO9797_M1", Data); ("PAD_ISO9797_M2", Data); ("PAD_ISO9797_1_M1_ALG3", Data);
   ("PAD_ISO9797_1_M2_ALG3", Data); ("PAD_PKCS5", Data); ("PAD_PKCS1", Data); ("PAD_PKCS1_PSS", Data);
   ("PAD_PKCS1_OAEP", Data); ("PAD_ISO9796", Data); ("PAD_ISO9796_MR", Data); ("PAD_RFC2409", Data);
   ("getInstance", StaticFn "Cipher.getInstance" 0 None); ("__init__", Func "Cipher.__init__" 2 (Some 2%nat));
   ("init", Func "Cipher.init" 3 (Some 6%nat)); ("getAlgorithm", Func "Cipher.getAlgorithm" 1 (Some 1%nat));
   ("update", Func "Cipher.update" 6 (Some 6%nat)); ("doFinal", Func "Cipher.doFinal" 6 (Some 6%nat))].
(** pythoncardx/crypto/cipher.py:132-198 *)
Definition k_pythoncardx_crypto_cipher__PyCryptoRSACipher : cdict :=
  [("__init__", Func "_PyCryptoRSACipher.__init__" 2 (Some 2%nat));
   ("init", Func "_PyCryptoRSACipher.init" 3 (Some 6%nat));
   ("EME_PKCS1_v1_5_enc", Func "_PyCryptoRSACipher.EME_PKCS1_v1_5_enc" 2 (Some 2%nat));
   ("EME_PKCS1_v1_5_dec", Func "_PyCryptoRSACipher.EME_PKCS1_v1_5_dec" 2 (Some 2%nat));
   ("doFinal", Func "_PyCryptoRSACipher.doFinal" 6 (Some 6%nat))].
(** pythoncardx/crypto/cipher.py:200-264 *)
Definition k_pythoncardx_crypto_cipher__pyDesDESCipher : cdict :=
  [("__init__", Func "_pyDesDESCipher.__init__" 2 (Some 2%nat));
   ("init", Func "_pyDesDESCipher.init" 3 (Some 6%nat));
   ("doFinal", Func "_pyDesDESCipher.doFinal" 6 (Some 6%nat))].
(** pythoncardx/external/__init__.py:3-6 *)
Definition k_pythoncardx_external_ExternalException : cdict :=
  [("NO_SUCH_SUBSYSTEM", Data); ("INVALID_PARAM", Data); ("INTERNAL_ERROR", Data)].
(** pythoncardx/external/memory.py:3-9 *)
Definition k_pythoncardx_external_memory_Memory : cdict :=
  [("MEMORY_TYPE_MIFARE", Data); ("MEMORY_TYPE_EXTENDED_STORE", Data);
   ("getMemoryAccessInstance", StaticFn "Memory.getMemoryAccessInstance" 3 (Some 3%nat))].
(** pythoncardx/framework/math.py:38-121 *)
Definition k_pythoncardx_framework_math_BigNumber : cdict :=
  [("FORMAT_BCD", Data); ("FORMAT_HEX", Data); ("__init__", Func "BigNumber.__init__" 1 (Some 2%nat));
   ("init", Func "BigNumber.init" 5 (Some 5%nat));
   ("getMaxBytesSupported", StaticFn "BigNumber.getMaxBytesSupported" 0 (Some 0%nat));
   ("multiply", Func "BigNumber.multiply" 5 (Some 5%nat));
   ("subtract", Func "BigNumber.subtract" 5 (Some 5%nat)); ("add", Func "BigNumber.add" 5 (Some 5%nat));
   ("compareTo", Func "BigNumber.compareTo" 2 None); ("toBytes", Func "BigNumber.toBytes" 5 (Some 5%nat))].
(** pythoncardx/framework/tlv/__init__.py:3-14 *)
Definition k_pythoncardx_framework_tlv_TLVException : cdict :=
  [("EMPTY_TAG", Data); ("EMPTY_TLV", Data); ("ILLEGAL_SIZE", Data); ("INSUFFICIENT_STORAGE", Data);
   ("INVALID_PARAM", Data); ("MALFORMED_TAG", Data); ("MALFORMED_TLV", Data);
   ("TAG_NUMBER_GREATER_THAN_32767", Data); ("TAG_SIZE_GREATER_THAN_127", Data);
   ("TLV_LENGTH_GREATER_THAN_32767", Data); ("TLV_SIZE_GREATER_THAN_32767", Data)].
(** pythoncardx/framework/tlv/bertag.py:18-131 *)
Definition k_pythoncardx_framework_tlv_bertag_BERTag : cdict :=
  [("BER_TAG_CLASS_MASK_APPLICATION", Data); ("BER_TAG_CLASS_MASK_CONTEXT_SPECIFIC", Data);
   ("BER_TAG_CLASS_MASK_PRIVATE", Data); ("BER_TAG_CLASS_MASK_UNIVERSAL", Data);
   ("BER_TAG_TYPE_CONSTRUCTED", Data); ("BER_TAG_TYPE_PRIMITIVE", Data);
   ("__init__", Func "BERTag.__init__" 1 (Some 1%nat));
   ("getInstance", StaticFn "BERTag.getInstance" 2 (Some 2%nat)); ("init", Func "BERTag.init" 3 (Some 3%nat));
   ("_toBytesBound", Func "BERTag._toBytesBound" 3 (Some 3%nat));
   ("_toBytesStatic", StaticFn "BERTag._toBytesStatic" 5 (Some 5%nat));
   ("toBytes", NAS "_toBytesBound" "_toBytesStatic"); ("_sizeBound", Func "BERTag._sizeBound" 1 (Some 1%nat));
   ("_sizeStatic", StaticFn "BERTag._sizeStatic" 2 (Some 2%nat)); ("size", NAS "_sizeBound" "_sizeStatic");
   ("_isConstructedBound", Func "BERTag._isConstructedBound" 1 (Some 1%nat));
   ("_isConstructedStatic", StaticFn "BERTag._isConstructedStatic" 2 (Some 2%nat));
   ("isConstructed", NAS "_isConstructedBound" "_isConstructedStatic");
   ("_tagClassBound", Func "BERTag._tagClassBound" 1 (Some 1%nat));
   ("_tagClassStatic", StaticFn "BERTag._tagClassStatic" 2 (Some 2%nat));
   ("tagClass", NAS "_tagClassBound" "_tagClassStatic");
   ("_tagNumberBound", Func "BERTag._tagNumberBound" 1 (Some 1%nat));
   ("_tagNumberStatic", StaticFn "BERTag._tagNumberStatic" 2 (Some 2%nat));
   ("tagNumber", NAS "_tagNumberBound" "_tagNumberStatic"); ("__str__", Func "BERTag.__str__" 1 (Some 1%nat));
   ("__eq__", Func "BERTag.__eq__" 2 (Some 2%nat))].
(** pythoncardx/framework/tlv/bertag.py:133-150 *)
Definition k_pythoncardx_framework_tlv_bertag_PrimitiveBERTag : cdict :=
  [("__init__", Func "PrimitiveBERTag.__init__" 1 (Some 1%nat));
   ("init", Func "PrimitiveBERTag.init" 3 (Some 3%nat))].
(** pythoncardx/framework/tlv/bertag.py:152-167 *)
Definition k_pythoncardx_framework_tlv_bertag_ConstructedBERTag : cdict :=
  [("__init__", Func "ConstructedBERTag.__init__" 1 (Some 1%nat));
   ("init", Func "ConstructedBERTag.init" 3 (Some 3%nat))].
(** pythoncardx/framework/tlv/bertlv.py:33-96 *)
Definition k_pythoncardx_framework_tlv_bertlv_BERTLV : cdict :=
  [("__init__", Func "BERTLV.__init__" 1 (Some 1%nat));
   ("getInstance", StaticFn "BERTLV.getInstance" 2 (Some 3%nat)); ("init", Func "BERTLV.init" 4 (Some 4%nat));
   ("getTag", Func "BERTLV.getTag" 1 (Some 1%nat));
   ("_getLengthBound", Func "BERTLV._getLengthBound" 1 (Some 1%nat));
   ("_getLengthStatic", StaticFn "BERTLV._getLengthStatic" 2 (Some 2%nat));
   ("getLength", NAS "_getLengthBound" "_getLengthStatic"); ("size", Func "BERTLV.size" 1 (Some 1%nat));
   ("_toBytesBound", Func "BERTLV._toBytesBound" 3 (Some 3%nat));
   ("toBytes", Func "BERTLV._toBytesBound" 3 (Some 3%nat))].
(** pythoncardx/framework/tlv/bertlv.py:98-202 *)
Definition k_pythoncardx_framework_tlv_bertlv_ConstructedBERTLV : cdict :=
  [("__init__", Func "ConstructedBERTLV.__init__" 2 (Some 2%nat));
   ("init", Func "ConstructedBERTLV.init" 2 None);
   ("_appendBound", Func "ConstructedBERTLV._appendBound" 2 (Some 2%nat));
   ("_appendStatic", StaticFn "ConstructedBERTLV._appendStatic" 4 (Some 4%nat));
   ("append", NAS "_appendBound" "_appendStatic"); ("_find", Func "ConstructedBERTLV._find" 2 (Some 3%nat));
   ("_findBound", Func "ConstructedBERTLV._findBound" 2 (Some 2%nat));
   ("_findStatic", StaticFn "ConstructedBERTLV._findStatic" 4 (Some 4%nat));
   ("find", NAS "_findBound" "_findStatic");
   ("_findNextBound", Func "ConstructedBERTLV._findNextBound" 4 (Some 4%nat));
   ("_findNextStatic", Func "ConstructedBERTLV._findNextStatic" 5 (Some 5%nat));
   ("findNext", NAS "_findNextBound" "_findNextStatic")].
(** pythoncardx/framework/tlv/bertlv.py:204-233 *)
Definition k_pythoncardx_framework_tlv_bertlv_PrimitiveBERTLV : cdict :=
  [("__init__", Func "PrimitiveBERTLV.__init__" 2 (Some 2%nat)); ("init", Func "PrimitiveBERTLV.init" 2 None);
   ("getValueOffset", StaticFn "PrimitiveBERTLV.getValueOffset" 2 (Some 2%nat));
   ("getValue", Func "PrimitiveBERTLV.getValue" 3 (Some 3%nat));
   ("replaceValue", Func "PrimitiveBERTLV.replaceValue" 4 (Some 4%nat))].
(** pythoncardx/framework/util/intx.py:23-57 *)
Definition k_pythoncardx_framework_util_intx_JCint : cdict :=
  [("getInt", StaticFn "JCint.getInt" 2 (Some 2%nat)); ("makeInt", StaticFn "JCint.makeInt" 0 None);
   ("makeTransientIntArray", StaticFn "JCint.makeTransientIntArray" 2 (Some 2%nat));
   ("setInt", StaticFn "JCint.setInt" 4 (Some 4%nat))].

(** module, class, the expression for its base, its attributes *)
Definition class_table : list (string * string * option use * cdict) :=
  [ ("pyDes.pyDes", "_baseDes", Some ("object", []), k_pyDes_pyDes__baseDes);
    ("pyDes.pyDes", "des", Some ("_baseDes", []), k_pyDes_pyDes_des);
    ("pyDes.pyDes", "triple_des", Some ("_baseDes", []), k_pyDes_pyDes_triple_des);
    ("python.io", "IOException", Some ("Exception", []), k_python_io_IOException);
    ("python.lang", "Object", Some ("object", []), k_python_lang_Object);
    ("python.lang", "RuntimeException", Some ("Exception", []), k_python_lang_RuntimeException);
    ("python.lang", "IndexOutOfBoundsException", Some ("RuntimeException", []), k_python_lang_IndexOutOfBoundsException);
    ("python.lang", "ArrayIndexOutOfBoundsException", Some ("IndexOutOfBoundsException", []), k_python_lang_ArrayIndexOutOfBoundsException);
    ("python.lang", "SecurityException", Some ("RuntimeException", []), k_python_lang_SecurityException);
    ("python.lang", "NullPointerException", Some ("RuntimeException", []), k_python_lang_NullPointerException);
    ("python.lang", "ArithmeticException", Some ("RuntimeException", []), k_python_lang_ArithmeticException);
    ("python.lang", "ClassCastException", Some ("RuntimeException", []), k_python_lang_ClassCastException);
    ("python.rmi", "RemoteException", Some ("IOException", []), k_python_rmi_RemoteException);
    ("python.rmi", "Remote", Some ("object", []), k_python_rmi_Remote);
    ("pythoncard.framework", "CardException", Some ("Exception", []), k_pythoncard_framework_CardException);
    ("pythoncard.framework", "UserException", Some ("CardException", []), k_pythoncard_framework_UserException);
    ("pythoncard.framework", "CardRuntimeException", Some ("RuntimeException", []), k_pythoncard_framework_CardRuntimeException);
    ("pythoncard.framework", "ISOException", Some ("CardRuntimeException", []), k_pythoncard_framework_ISOException);
    ("pythoncard.framework", "PINException", Some ("CardRuntimeException", []), k_pythoncard_framework_PINException);
    ("pythoncard.framework", "APDUException", Some ("CardRuntimeException", []), k_pythoncard_framework_APDUException);
    ("pythoncard.framework", "SystemException", Some ("CardRuntimeException", []), k_pythoncard_framework_SystemException);
    ("pythoncard.framework", "TransactionException", Some ("CardRuntimeException", []), k_pythoncard_framework_TransactionException);
    ("pythoncard.framework", "Shareable", None, k_pythoncard_framework_Shareable);
    ("pythoncard.framework.aid", "AID", Some ("object", []), k_pythoncard_framework_aid_AID);
    ("pythoncard.framework.apdu", "APDU", Some ("object", []), k_pythoncard_framework_apdu_APDU);
    ("pythoncard.framework.applet", "Applet", Some ("object", []), k_pythoncard_framework_applet_Applet);
    ("pythoncard.framework.ownerpin", "OwnerPIN", Some ("object", []), k_pythoncard_framework_ownerpin_OwnerPIN);
    ("pythoncard.framework.service", "ServiceException", Some ("CardRuntimeException", []), k_pythoncard_framework_service_ServiceException);
    ("pythoncard.framework.service", "Service", Some ("object", []), k_pythoncard_framework_service_Service);
    ("pythoncard.framework.service.basicservice", "BasicService", Some ("Service", []), k_pythoncard_framework_service_basicservice_BasicService);
    ("pythoncard.framework.service.cardremoteobject", "CardRemoteObject", Some ("Remote", []), k_pythoncard_framework_service_cardremoteobject_CardRemoteObject);
    ("pythoncard.framework.service.dispatcher", "Dispatcher", Some ("object", []), k_pythoncard_framework_service_dispatcher_Dispatcher);
    ("pythoncard.framework.service.rmiservice", "RMIService", Some ("BasicService", []), k_pythoncard_framework_service_rmiservice_RMIService);
    ("pythoncard.security", "CryptoException", Some ("CardRuntimeException", []), k_pythoncard_security_CryptoException);
    ("pythoncard.security.key", "Key", Some ("object", []), k_pythoncard_security_key_Key);
    ("pythoncard.security.keybuilder", "KeyBuilder", Some ("object", []), k_pythoncard_security_keybuilder_KeyBuilder);
    ("pythoncard.security.keypair", "KeyPair", Some ("object", []), k_pythoncard_security_keypair_KeyPair);
    ("pythoncard.security.messagedigest", "MessageDigest", Some ("object", []), k_pythoncard_security_messagedigest_MessageDigest);
    ("pythoncard.security.messagedigest", "_HashLibMessageDigest", Some ("MessageDigest", []), k_pythoncard_security_messagedigest__HashLibMessageDigest);
    ("pythoncard.security.privatekey", "PrivateKey", Some ("Key", []), k_pythoncard_security_privatekey_PrivateKey);
    ("pythoncard.security.privatekey", "RSAPrivateKey", Some ("PrivateKey", []), k_pythoncard_security_privatekey_RSAPrivateKey);
    ("pythoncard.security.privatekey", "PyCryptoRSAPrivateKey", Some ("RSAPrivateKey", []), k_pythoncard_security_privatekey_PyCryptoRSAPrivateKey);
    ("pythoncard.security.privatekey", "RSAPrivateCrtKey", Some ("PrivateKey", []), k_pythoncard_security_privatekey_RSAPrivateCrtKey);
    ("pythoncard.security.privatekey", "PyCryptoRSAPrivateCrtKey", Some ("RSAPrivateCrtKey", []), k_pythoncard_security_privatekey_PyCryptoRSAPrivateCrtKey);
    ("pythoncard.security.publickey", "PublicKey", Some ("Key", []), k_pythoncard_security_publickey_PublicKey);
    ("pythoncard.security.publickey", "RSAPublicKey", Some ("PublicKey", []), k_pythoncard_security_publickey_RSAPublicKey);
    ("pythoncard.security.publickey", "PyCryptoRSAPublicKey", Some ("RSAPublicKey", []), k_pythoncard_security_publickey_PyCryptoRSAPublicKey);
    ("pythoncard.security.random", "RandomData", Some ("object", []), k_pythoncard_security_random_RandomData);
    ("pythoncard.security.random", "_SecureRandomData", Some ("RandomData", []), k_pythoncard_security_random__SecureRandomData);
    ("pythoncard.security.secretkey", "SecretKey", Some ("Key", []), k_pythoncard_security_secretkey_SecretKey);
    ("pythoncard.security.secretkey", "DESKey", Some ("SecretKey", []), k_pythoncard_security_secretkey_DESKey);
    ("pythoncard.security.secretkey", "pyDesDESKey", Some ("DESKey", []), k_pythoncard_security_secretkey_pyDesDESKey);
    ("pythoncard.security.signature", "Signature", Some ("object", []), k_pythoncard_security_signature_Signature);
    ("pythoncard.security.signature", "_RSASHASignature", Some ("Signature", []), k_pythoncard_security_signature__RSASHASignature);
    ("pythoncard.utils", "NotAlwaysStatic", Some ("object", []), k_pythoncard_utils_NotAlwaysStatic);
    ("pythoncardx.apdu", "ExtendedLength", Some ("object", []), k_pythoncardx_apdu_ExtendedLength);
    ("pythoncardx.crypto.cipher", "Cipher", Some ("object", []), k_pythoncardx_crypto_cipher_Cipher);
    ("pythoncardx.crypto.cipher", "_PyCryptoRSACipher", Some ("Cipher", []), k_pythoncardx_crypto_cipher__PyCryptoRSACipher);
    ("pythoncardx.crypto.cipher", "_pyDesDESCipher", Some ("Cipher", []), k_pythoncardx_crypto_cipher__pyDesDESCipher);
    ("pythoncardx.external", "ExternalException", Some ("CardRuntimeException", []), k_pythoncardx_external_ExternalException);
    ("pythoncardx.external.memory", "Memory", Some ("object", []), k_pythoncardx_external_memory_Memory);
    ("pythoncardx.framework.math", "BigNumber", Some ("object", []), k_pythoncardx_framework_math_BigNumber);
    ("pythoncardx.framework.tlv", "TLVException", Some ("CardRuntimeException", []), k_pythoncardx_framework_tlv_TLVException);
    ("pythoncardx.framework.tlv.bertag", "BERTag", Some ("object", []), k_pythoncardx_framework_tlv_bertag_BERTag);
    ("pythoncardx.framework.tlv.bertag", "PrimitiveBERTag", Some ("BERTag", []), k_pythoncardx_framework_tlv_bertag_PrimitiveBERTag);
    ("pythoncardx.framework.tlv.bertag", "ConstructedBERTag", Some ("BERTag", []), k_pythoncardx_framework_tlv_bertag_ConstructedBERTag);
    ("pythoncardx.framework.tlv.bertlv", "BERTLV", Some ("object", []), k_pythoncardx_framework_tlv_bertlv_BERTLV);
    ("pythoncardx.framework.tlv.bertlv", "ConstructedBERTLV", Some ("BERTLV", []), k_pythoncardx_framework_tlv_bertlv_ConstructedBERTLV);
    ("pythoncardx.framework.tlv.bertlv", "PrimitiveBERTLV", Some ("BERTLV", []), k_pythoncardx_framework_tlv_bertlv_PrimitiveBERTLV);
    ("pythoncardx.framework.util.intx", "JCint", Some ("object", []), k_pythoncardx_framework_util_intx_JCint) ].

(** The functions of the modules, with the least and greatest number of parameters *)
Definition fun_table : list (string * string * nat * option nat) :=
  [ ("pythoncard.framework.jcsystem", "abortTransaction", 0%nat, (Some 0%nat));
    ("pythoncard.framework.jcsystem", "beginTransaction", 0%nat, (Some 0%nat));
    ("pythoncard.framework.jcsystem", "commitTransaction", 0%nat, (Some 0%nat));
    ("pythoncard.framework.jcsystem", "makeTransientShortArray", 2%nat, (Some 2%nat));
    ("pythoncard.framework.jcsystem", "makeTransientBooleanArray", 2%nat, (Some 2%nat));
    ("pythoncard.framework.jcsystem", "makeTransientObjectArray", 2%nat, (Some 2%nat));
    ("pythoncard.framework.jcsystem", "requestObjectDeletion", 0%nat, (Some 0%nat));
    ("pythoncard.framework.jcsystem", "getAvailableMemory", 0%nat, None);
    ("pythoncard.framework.jcsystem", "makeGlobalArray", 2%nat, (Some 2%nat));
    ("pythoncard.framework.util", "arrayCompare", 5%nat, (Some 5%nat));
    ("pythoncard.framework.util", "arrayCopy", 5%nat, (Some 5%nat));
    ("pythoncard.framework.util", "arrayCopyNonAtomic", 5%nat, (Some 5%nat));
    ("pythoncard.framework.util", "arrayFillNonAtomic", 4%nat, (Some 4%nat));
    ("pythoncard.framework.util", "makeShort", 2%nat, (Some 2%nat));
    ("pythoncard.framework.util", "getShort", 2%nat, (Some 2%nat));
    ("pythoncard.framework.util", "setShort", 3%nat, (Some 3%nat));
    ("pythoncard.security.key", "_longToArray", 1%nat, (Some 1%nat));
    ("pythoncard.security.key", "_arrayTolong", 1%nat, (Some 1%nat));
    ("pythoncard.security.key", "_binaryToarray", 1%nat, (Some 1%nat));
    ("pythoncard.security.key", "_arrayTobinary", 1%nat, (Some 1%nat));
    ("pythoncard.security.privatekey", "standardGetter", 1%nat, (Some 1%nat));
    ("pythoncard.security.privatekey", "standardSetter", 1%nat, (Some 1%nat));
    ("pythoncard.security.publickey", "standardGetter", 1%nat, (Some 1%nat));
    ("pythoncard.security.publickey", "standardSetter", 1%nat, (Some 1%nat));
    ("pythoncard.utils", "signed", 2%nat, (Some 2%nat)); ("pythoncard.utils", "s1", 1%nat, (Some 1%nat));
    ("pythoncard.utils", "s2", 1%nat, (Some 1%nat)); ("pythoncard.utils", "u1", 1%nat, (Some 1%nat));
    ("pythoncardx.framework.math", "from_bcd", 1%nat, (Some 1%nat));
    ("pythoncardx.framework.math", "to_bcd", 1%nat, (Some 1%nat));
    ("pythoncardx.framework.math", "from_hex", 1%nat, (Some 1%nat));
    ("pythoncardx.framework.math", "to_hex", 1%nat, (Some 1%nat));
    ("pythoncardx.framework.tlv.bertag", "sanitycheck", 1%nat, (Some 1%nat));
    ("pythoncardx.framework.tlv.bertlv", "_getLength", 1%nat, (Some 1%nat));
    ("pythoncardx.framework.tlv.bertlv", "getLengthLen", 1%nat, (Some 1%nat));
    ("pythoncardx.framework.util.intx", "signed", 2%nat, (Some 2%nat));
    ("pythoncardx.framework.util.intx", "s4", 1%nat, (Some 1%nat));
    ("pythoncardx.framework.util.intx", "s1", 1%nat, (Some 1%nat));
    ("pythoncardx.framework.util.intx", "sanatize", 1%nat, (Some 1%nat)) ].

(** The attributes methods set on self: module, class, names *)
Definition self_sets : list (string * string * list string) :=
  [ ("pyDes.pyDes", "_baseDes",
     ["__key"; "_iv"; "_mode"; "_padding"; "_padmode"; "block_size"]);
    ("pyDes.pyDes", "des",
     ["Kn"; "L"; "R"; "final"; "key_size"]);
    ("pyDes.pyDes", "triple_des",
     ["__key1"; "__key2"; "__key3"; "_iv"; "key_size"]);
    ("pythoncard.framework", "CardRuntimeException",
     ["_reason"]);
    ("pythoncard.framework.aid", "AID",
     ["aid"]);
    ("pythoncard.framework.apdu", "APDU",
     ["Nc"; "Ne"; "__buffer"; "_broken"; "_cdataoffs"; "_curoutgoinglength"; "_lelength"; "_offsetincoming";
     "_outgoinglength"; "_state"; "buffer"; "type"]);
    ("pythoncard.framework.ownerpin", "OwnerPIN",
     ["__pin"; "_maxpinsize"; "_triesremaining"; "_trylimit"; "_validated"]);
    ("pythoncard.framework.service.dispatcher", "Dispatcher",
     ["services"]);
    ("pythoncard.framework.service.rmiservice", "RMIService",
     ["initialObject"]);
    ("pythoncard.security.key", "Key",
     ["initialized"; "size"; "type"]);
    ("pythoncard.security.keypair", "KeyPair",
     ["_algorithm"; "_keylength"; "_privateKey"; "_publicKey"]);
    ("pythoncard.security.messagedigest", "_HashLibMessageDigest",
     ["_algorithm"; "m"]);
    ("pythoncard.security.privatekey", "PyCryptoRSAPrivateKey",
     ["_theKey"; "exponent"; "modulus"]);
    ("pythoncard.security.privatekey", "PyCryptoRSAPrivateCrtKey",
     ["_theKey"; "dp1"; "dq1"; "p"; "pq"; "q"]);
    ("pythoncard.security.publickey", "PyCryptoRSAPublicKey",
     ["_theKey"; "exponent"; "modulus"]);
    ("pythoncard.security.secretkey", "pyDesDESKey",
     ["_key"]);
    ("pythoncard.utils", "NotAlwaysStatic",
     ["boundname"; "staticname"]);
    ("pythoncardx.crypto.cipher", "Cipher",
     ["algorithm"; "initialized"; "mode"]);
    ("pythoncardx.crypto.cipher", "_PyCryptoRSACipher",
     ["_theKey"; "initialized"]);
    ("pythoncardx.crypto.cipher", "_pyDesDESCipher",
     ["_cipher"; "desmode"; "initialized"; "padmode"]);
    ("pythoncardx.framework.math", "BigNumber",
     ["_value"; "maxBytes"]);
    ("pythoncardx.framework.tlv.bertag", "BERTag",
     ["_size"; "_tagClass"; "_tagConstr"; "_tagNumber"]);
    ("pythoncardx.framework.tlv.bertag", "PrimitiveBERTag",
     ["_tagClass"; "_tagConstr"; "_tagNumber"]);
    ("pythoncardx.framework.tlv.bertag", "ConstructedBERTag",
     ["_tagClass"; "_tagConstr"; "_tagNumber"]);
    ("pythoncardx.framework.tlv.bertlv", "BERTLV",
     ["_length"; "_tag"; "_value"]);
    ("pythoncardx.framework.tlv.bertlv", "ConstructedBERTLV",
     ["_length"; "_tag"; "_value"]);
    ("pythoncardx.framework.tlv.bertlv", "PrimitiveBERTLV",
     ["_length"; "_tag"; "_value"]) ].

(** The attributes methods read from self: module, class, method, first line of its def, names *)
Definition self_refs : list (string * string * string * Z * list string) :=
  [ ("pyDes.pyDes", "_baseDes", "__init__", 108%Z,
     ["_guardAgainstUnicode"; "block_size"]);
    ("pyDes.pyDes", "_baseDes", "getKey", 126%Z,
     ["__key"]);
    ("pyDes.pyDes", "_baseDes", "setKey", 130%Z,
     ["_guardAgainstUnicode"]);
    ("pyDes.pyDes", "_baseDes", "getMode", 135%Z,
     ["_mode"]);
    ("pyDes.pyDes", "_baseDes", "getPadding", 143%Z,
     ["_padding"]);
    ("pyDes.pyDes", "_baseDes", "setPadding", 147%Z,
     ["_guardAgainstUnicode"]);
    ("pyDes.pyDes", "_baseDes", "getPadMode", 153%Z,
     ["_padmode"]);
    ("pyDes.pyDes", "_baseDes", "getIV", 161%Z,
     ["_iv"]);
    ("pyDes.pyDes", "_baseDes", "setIV", 165%Z,
     ["_guardAgainstUnicode"; "block_size"]);
    ("pyDes.pyDes", "_baseDes", "_padData", 172%Z,
     ["getPadMode"; "block_size"; "getPadding"]);
    ("pyDes.pyDes", "_baseDes", "_unpadData", 201%Z,
     ["getPadMode"; "getPadding"; "block_size"]);
    ("pyDes.pyDes", "des", "__init__", 397%Z,
     ["setKey"]);
    ("pyDes.pyDes", "des", "setKey", 411%Z,
     ["__create_sub_keys"]);
    ("pyDes.pyDes", "des", "__create_sub_keys", 460%Z,
     ["__permutate"; "__String_to_BitList"; "Kn"; "getKey"; "L"; "R"]);
    ("pyDes.pyDes", "des", "__des_crypt", 485%Z,
     ["final"; "__permutate"; "R"; "L"; "Kn"]);
    ("pyDes.pyDes", "des", "crypt", 564%Z,
     ["block_size"; "getMode"; "getIV"; "__String_to_BitList"; "getPadding"; "__des_crypt";
     "__BitList_to_String"]);
    ("pyDes.pyDes", "des", "encrypt", 642%Z,
     ["_guardAgainstUnicode"; "_padData"; "crypt"]);
    ("pyDes.pyDes", "des", "decrypt", 661%Z,
     ["_guardAgainstUnicode"; "crypt"; "_unpadData"]);
    ("pyDes.pyDes", "triple_des", "__init__", 708%Z,
     ["setKey"]);
    ("pyDes.pyDes", "triple_des", "setKey", 712%Z,
     ["key_size"; "_mode"; "_iv"; "_padding"; "_padmode"; "__key1"; "getMode"; "block_size"; "getIV"]);
    ("pyDes.pyDes", "triple_des", "setMode", 739%Z,
     ["__key1"; "__key2"; "__key3"]);
    ("pyDes.pyDes", "triple_des", "setPadding", 745%Z,
     ["__key1"; "__key2"; "__key3"]);
    ("pyDes.pyDes", "triple_des", "setPadMode", 751%Z,
     ["__key1"; "__key2"; "__key3"]);
    ("pyDes.pyDes", "triple_des", "setIV", 757%Z,
     ["__key1"; "__key2"; "__key3"]);
    ("pyDes.pyDes", "triple_des", "encrypt", 763%Z,
     ["_guardAgainstUnicode"; "_padData"; "getMode"; "__key1"; "getIV"; "__key2"; "__key3"]);
    ("pyDes.pyDes", "triple_des", "decrypt", 807%Z,
     ["_guardAgainstUnicode"; "_unpadData"; "getMode"; "__key1"; "getIV"; "__key2"; "__key3"]);
    ("pythoncard.framework", "CardRuntimeException", "getReason", 26%Z,
     ["_reason"]);
    ("pythoncard.framework.aid", "AID", "equals", 11%Z,
     ["aid"]);
    ("pythoncard.framework.aid", "AID", "getBytes", 16%Z,
     ["aid"]);
    ("pythoncard.framework.aid", "AID", "getPartialBytes", 22%Z,
     ["aid"]);
    ("pythoncard.framework.aid", "AID", "partialEquals", 32%Z,
     ["aid"]);
    ("pythoncard.framework.aid", "AID", "RIDEquals", 39%Z,
     ["aid"]);
    ("pythoncard.framework.aid", "AID", "__eq__", 42%Z,
     ["aid"]);
    ("pythoncard.framework.apdu", "APDU", "__init__", 59%Z,
     ["STATE_INITIAL"; "buffer"; "__getOutLengths"; "__getInLengths"; "__buffer"; "Nc"; "_lelength"]);
    ("pythoncard.framework.apdu", "APDU", "__getInLengths", 117%Z,
     ["__buffer"]);
    ("pythoncard.framework.apdu", "APDU", "__getOutLengths", 125%Z,
     ["__buffer"]);
    ("pythoncard.framework.apdu", "APDU", "getBuffer", 142%Z,
     ["buffer"]);
    ("pythoncard.framework.apdu", "APDU", "setIncomingAndReceive", 160%Z,
     ["_broken"; "_state"; "STATE_INITIAL"; "_offsetincoming"; "STATE_FULL_INCOMING"; "STATE_PARTIAL_INCOMING";
     "_lelength"; "buffer"; "__buffer"]);
    ("pythoncard.framework.apdu", "APDU", "receiveBytes", 179%Z,
     ["_offsetincoming"; "STATE_FULL_INCOMING"; "STATE_PARTIAL_INCOMING"; "_state"; "STATE_OUTGOING";
     "_lelength"; "buffer"; "__buffer"]);
    ("pythoncard.framework.apdu", "APDU", "setOutgoing", 193%Z,
     ["STATE_OUTGOING"; "_state"; "_getOutgoingLength"]);
    ("pythoncard.framework.apdu", "APDU", "setOutgoingLength", 205%Z,
     ["STATE_OUTGOING_LENGTH_KNOWN"; "_state"; "STATE_OUTGOING"; "Ne"]);
    ("pythoncard.framework.apdu", "APDU", "sendBytes", 214%Z,
     ["_state"; "STATE_OUTGOING"; "__buffer"; "buffer"; "_curoutgoinglength"; "_outgoinglength";
     "STATE_PARTIAL_OUTGOING"; "STATE_FULL_OUTGOING"]);
    ("pythoncard.framework.apdu", "APDU", "sendBytesLong", 226%Z,
     ["STATE_PARTIAL_OUTGOING"; "_state"; "STATE_OUTGOING_LENGTH_KNOWN"; "__buffer"; "_curoutgoinglength";
     "_outgoinglength"; "STATE_FULL_OUTGOING"]);
    ("pythoncard.framework.apdu", "APDU", "setOutgoingAndSend", 238%Z,
     ["setOutgoing"; "setOutgoingLength"; "sendBytes"]);
    ("pythoncard.framework.apdu", "APDU", "getCurrentState", 243%Z,
     ["_state"]);
    ("pythoncard.framework.apdu", "APDU", "isCommandChainingCLA", 262%Z,
     ["__buffer"]);
    ("pythoncard.framework.apdu", "APDU", "isISOInterindustryCLA", 269%Z,
     ["__buffer"]);
    ("pythoncard.framework.apdu", "APDU", "getIncomingLength", 273%Z,
     ["Nc"]);
    ("pythoncard.framework.apdu", "APDU", "_getOutgoingLength", 276%Z,
     ["Ne"]);
    ("pythoncard.framework.apdu", "APDU", "getOffsetCdata", 280%Z,
     ["_cdataoffs"]);
    ("pythoncard.framework.applet", "Applet", "selectingApplet", 26%Z,
     ["_selectingApplet"]);
    ("pythoncard.framework.ownerpin", "OwnerPIN", "getValidatedFlag", 17%Z,
     ["_validated"]);
    ("pythoncard.framework.ownerpin", "OwnerPIN", "getTriesRemaining", 23%Z,
     ["_triesremaining"]);
    ("pythoncard.framework.ownerpin", "OwnerPIN", "check", 26%Z,
     ["_trylimit"; "_triesremaining"; "__pin"; "_maxpinsize"]);
    ("pythoncard.framework.ownerpin", "OwnerPIN", "isValidated", 58%Z,
     ["_validated"]);
    ("pythoncard.framework.ownerpin", "OwnerPIN", "reset", 61%Z,
     ["_validated"; "resetAndUnblock"]);
    ("pythoncard.framework.ownerpin", "OwnerPIN", "update", 65%Z,
     ["_trylimit"; "_maxpinsize"; "__pin"]);
    ("pythoncard.framework.ownerpin", "OwnerPIN", "resetAndUnblock", 85%Z,
     ["_trylimit"]);
    ("pythoncard.framework.service.dispatcher", "Dispatcher", "addService", 17%Z,
     ["services"]);
    ("pythoncard.security.key", "Key", "isInitialized", 46%Z,
     ["initialized"]);
    ("pythoncard.security.key", "Key", "getType", 55%Z,
     ["type"]);
    ("pythoncard.security.key", "Key", "getSize", 58%Z,
     ["size"]);
    ("pythoncard.security.keypair", "KeyPair", "__init__", 18%Z,
     ["_algorithm"; "ALG_RSA"; "_keylength"; "ALG_RSA_CRT"]);
    ("pythoncard.security.keypair", "KeyPair", "_pyCryptogenKeyPair", 38%Z,
     ["_algorithm"; "_keylength"; "ALG_RSA"; "ALG_RSA_CRT"; "_publicKey"; "_privateKey"]);
    ("pythoncard.security.keypair", "KeyPair", "genKeyPair", 55%Z,
     ["_pyCryptogenKeyPair"; "_publicKey"; "_privateKey"]);
    ("pythoncard.security.keypair", "KeyPair", "getPrivate", 61%Z,
     ["_privateKey"]);
    ("pythoncard.security.keypair", "KeyPair", "getPublic", 64%Z,
     ["_publicKey"]);
    ("pythoncard.security.messagedigest", "MessageDigest", "getAlgorithm", 43%Z,
     ["_algorithm"]);
    ("pythoncard.security.messagedigest", "_HashLibMessageDigest", "__init__", 59%Z,
     ["reset"]);
    ("pythoncard.security.messagedigest", "_HashLibMessageDigest", "reset", 63%Z,
     ["algos"; "_algorithm"]);
    ("pythoncard.security.messagedigest", "_HashLibMessageDigest", "update", 66%Z,
     ["m"]);
    ("pythoncard.security.messagedigest", "_HashLibMessageDigest", "doFinal", 76%Z,
     ["update"; "getLength"; "reset"; "m"]);
    ("pythoncard.security.messagedigest", "_HashLibMessageDigest", "getLength", 88%Z,
     ["m"]);
    ("pythoncard.security.privatekey", "PyCryptoRSAPrivateKey", "getExponent", 47%Z,
     ["exponent"]);
    ("pythoncard.security.privatekey", "PyCryptoRSAPrivateKey", "getModulus", 52%Z,
     ["modulus"]);
    ("pythoncard.security.privatekey", "PyCryptoRSAPrivateKey", "setModulus", 61%Z,
     ["size"]);
    ("pythoncard.security.privatekey", "PyCryptoRSAPrivateCrtKey", "setTheKey", 110%Z,
     ["_setInitialized"]);
    ("pythoncard.security.publickey", "PyCryptoRSAPublicKey", "getExponent", 59%Z,
     ["exponent"]);
    ("pythoncard.security.publickey", "PyCryptoRSAPublicKey", "getModulus", 64%Z,
     ["modulus"]);
    ("pythoncard.security.publickey", "PyCryptoRSAPublicKey", "setModulus", 73%Z,
     ["getSize"]);
    ("pythoncard.security.publickey", "PyCryptoRSAPublicKey", "_construct", 84%Z,
     ["modulus"; "exponent"]);
    ("pythoncard.security.secretkey", "pyDesDESKey", "setKey", 21%Z,
     ["_setInitialized"; "size"]);
    ("pythoncard.security.secretkey", "pyDesDESKey", "getKey", 25%Z,
     ["_key"; "size"]);
    ("pythoncard.utils", "NotAlwaysStatic", "__get__", 37%Z,
     ["boundname"; "staticname"]);
    ("pythoncardx.crypto.cipher", "Cipher", "init", 110%Z,
     ["MODE_ENCRYPT"; "MODE_DECRYPT"]);
    ("pythoncardx.crypto.cipher", "Cipher", "getAlgorithm", 121%Z,
     ["algorithm"]);
    ("pythoncardx.crypto.cipher", "Cipher", "update", 124%Z,
     ["initialized"]);
    ("pythoncardx.crypto.cipher", "Cipher", "doFinal", 128%Z,
     ["initialized"]);
    ("pythoncardx.crypto.cipher", "_PyCryptoRSACipher", "EME_PKCS1_v1_5_enc", 146%Z,
     ["_theKey"]);
    ("pythoncardx.crypto.cipher", "_PyCryptoRSACipher", "doFinal", 167%Z,
     ["mode"; "MODE_ENCRYPT"; "algorithm"; "ALG_RSA_PKCS1"; "EME_PKCS1_v1_5_enc"; "_theKey"; "MODE_DECRYPT";
     "EME_PKCS1_v1_5_dec"]);
    ("pythoncardx.crypto.cipher", "_pyDesDESCipher", "init", 224%Z,
     ["desmode"; "padmode"]);
    ("pythoncardx.crypto.cipher", "_pyDesDESCipher", "doFinal", 249%Z,
     ["mode"; "_cipher"]);
    ("pythoncardx.framework.math", "BigNumber", "init", 49%Z,
     ["FORMAT_BCD"; "FORMAT_HEX"; "_value"]);
    ("pythoncardx.framework.math", "BigNumber", "compareTo", 87%Z,
     ["_value"; "compareTo"]);
    ("pythoncardx.framework.math", "BigNumber", "toBytes", 103%Z,
     ["FORMAT_BCD"; "_value"; "FORMAT_HEX"]);
    ("pythoncardx.framework.tlv.bertag", "BERTag", "init", 43%Z,
     ["_tagNumber"]);
    ("pythoncardx.framework.tlv.bertag", "BERTag", "_toBytesBound", 61%Z,
     ["_tagClass"; "_tagNumber"; "_tagConstr"]);
    ("pythoncardx.framework.tlv.bertag", "BERTag", "_sizeBound", 92%Z,
     ["_size"]);
    ("pythoncardx.framework.tlv.bertag", "BERTag", "_isConstructedBound", 101%Z,
     ["_tagConstr"]);
    ("pythoncardx.framework.tlv.bertag", "BERTag", "_tagClassBound", 109%Z,
     ["_tagClass"]);
    ("pythoncardx.framework.tlv.bertag", "BERTag", "_tagNumberBound", 117%Z,
     ["_tagNumber"]);
    ("pythoncardx.framework.tlv.bertag", "BERTag", "__str__", 125%Z,
     ["_tagClass"; "_tagNumber"; "_tagConstr"]);
    ("pythoncardx.framework.tlv.bertag", "BERTag", "__eq__", 128%Z,
     ["_tagClass"; "_tagConstr"; "_tagNumber"]);
    ("pythoncardx.framework.tlv.bertlv", "BERTLV", "init", 56%Z,
     ["size"]);
    ("pythoncardx.framework.tlv.bertlv", "BERTLV", "getTag", 61%Z,
     ["_tag"]);
    ("pythoncardx.framework.tlv.bertlv", "BERTLV", "_getLengthBound", 64%Z,
     ["_length"]);
    ("pythoncardx.framework.tlv.bertlv", "BERTLV", "size", 74%Z,
     ["_length"; "_tag"]);
    ("pythoncardx.framework.tlv.bertlv", "BERTLV", "_toBytesBound", 77%Z,
     ["_length"; "_value"; "_tag"]);
    ("pythoncardx.framework.tlv.bertlv", "ConstructedBERTLV", "init", 102%Z,
     ["size"]);
    ("pythoncardx.framework.tlv.bertlv", "ConstructedBERTLV", "_appendBound", 115%Z,
     ["size"; "_value"]);
    ("pythoncardx.framework.tlv.bertlv", "ConstructedBERTLV", "_find", 131%Z,
     ["_length"; "_value"]);
    ("pythoncardx.framework.tlv.bertlv", "ConstructedBERTLV", "_findBound", 140%Z,
     ["_find"; "_value"; "_length"]);
    ("pythoncardx.framework.tlv.bertlv", "ConstructedBERTLV", "_findNextBound", 167%Z,
     ["_find"; "_value"]);
    ("pythoncardx.framework.tlv.bertlv", "PrimitiveBERTLV", "init", 208%Z,
     ["size"]);
    ("pythoncardx.framework.tlv.bertlv", "PrimitiveBERTLV", "getValue", 226%Z,
     ["_length"; "_value"]);
    ("pythoncardx.framework.tlv.bertlv", "PrimitiveBERTLV", "replaceValue", 230%Z,
     ["_value"]) ].

(** ** Looking things up *)
Definition class_of (m c : string) : option (option use * cdict) :=
  match find (fun e => String.eqb (fst (fst (fst e))) m && String.eqb (snd (fst (fst e))) c) class_table with
  | Some e => Some (snd (fst e), snd e)
  | None => None
  end.
(** The method resolution order (no class of the library has two bases), and the built-in
    class at its end; the bases are found through the names of the module, as when the class
    statement was executed *)
Fixpoint mro (t : istate) (fuel : nat) (m c : string) : option (list cdict * string) :=
  match fuel with
  | O => None
  | S f =>
      match class_of m c with
      | None => None
      | Some (None, d) => Some ([d], "object")
      | Some (Some u, d) =>
          match resolve t m u with
          | inl (VDef m' c') => match mro t f m' c' with Some (ds, r) => Some (d :: ds, r) | None => None end
          | inl VSome => Some ([d], fst u)
          | _ => None
          end
      end
  end.
Definition depth : nat := 10.

(** obj.n(k arguments), obj an object of class c of module m *)
Definition on_object (t : istate) (m c n : string) (k : nat) : res string :=
  match mro t depth m c with Some (ds, _) => call (getattr_obj 3 [] ds n) k | None => Err OutOfFuel end.
(** C.n(k arguments), C being what the name cl of package p is bound to: a class or a module *)
Definition fun_of (m n : string) : option (nat * option nat) :=
  match find (fun e => String.eqb (fst (fst (fst e))) m && String.eqb (snd (fst (fst e))) n) fun_table with
  | Some e => Some (snd (fst e), snd e)
  | None => None
  end.
Definition on_class (t : istate) (p cl n : string) (k : nat) : res string :=
  match bnd t p cl with
  | Some (VDef m c) => match mro t depth m c with Some (ds, _) => call (getattr_cls 3 ds n) k | None => Err TypeError end
  | Some (VMod q) =>
      match bnd t q n with
      | Some (VDef q' n') => match fun_of q' n' with Some (lo, hi) => if fits k lo hi then Ok n' else Err TypeError | None => Err TypeError end
      | Some _ => Err TypeError
      | None => Err AttributeError
      end
  | Some _ => Err TypeError
  | None => Err AttributeError
  end.
(** C(k arguments): __init__ of the class, else of the built-in class at the end *)
Definition construct (t : istate) (p cl : string) (k : nat) : res string :=
  match bnd t p cl with
  | Some (VDef m c) =>
      match mro t depth m c with
      | Some (ds, r) =>
          match mro_find ds "__init__" with
          | Some (Func id lo hi) => if fits (S k) lo hi then Ok id else Err TypeError
          | Some _ => Err TypeError
          | None => if String.eqb r "Exception" || Nat.eqb k 0 then Ok r else Err TypeError
          end
      | None => Err TypeError
      end
  | Some _ => Err TypeError
  | None => Err AttributeError
  end.

(** a.b.c in module m, as [resolve], looking into the attributes of classes too *)
Fixpoint attrs_deep (t : istate) (v : val) (l : list string) : val + iexn :=
  match l with
  | [] => inl v
  | a :: l' =>
      match v with
      | VMod q => match bnd t q a with Some v' => attrs_deep t v' l' | None => inr AttrErr end
      | VNone => inr AttrErr
      | VDef m c =>
          match class_of m c with
          | None => attrs_deep t VSome l'
          | Some _ =>
              match mro t depth m c with
              | Some (ds, _) => match mro_find ds a with Some _ => attrs_deep t VSome l' | None => inr AttrErr end
              | None => inr AttrErr
              end
          end
      | _ => attrs_deep t VSome l'
      end
  end.
Definition resolve_deep (t : istate) (m : string) (u : use) : val + iexn :=
  match bnd t m (fst u) with
  | Some v => attrs_deep t v (snd u)
  | None => if builtin (fst u) then attrs_deep t VSome (snd u) else inr NameErr
  end.

(** self.a in a method of class c: an attribute of the class or its bases, or one that a
    method of these sets on self *)
Definition set_by (m c a : string) : bool :=
  existsb (fun e => String.eqb (fst (fst e)) m && String.eqb (snd (fst e)) c && existsb (String.eqb a) (snd e)) self_sets.
(** names Python mangles with the class they are written in: __x, not __x__ *)
Definition private (a : string) : bool :=
  String.prefix "__" a && negb (String.eqb (substring (String.length a - 2) 2 a) "__").
Fixpoint on_self (t : istate) (fuel : nat) (m c a : string) : bool :=
  match fuel with
  | O => false
  | S f =>
      match class_of m c with
      | None => false
      | Some (b, d) =>
          match assoc d a with Some _ => true | None => false end || set_by m c a
          || match b with
             | Some u => if private a then false else match resolve t m u with inl (VDef m' c') => on_self t f m' c' a | _ => false end
             | None => false
             end
      end
  end.
