(** * Vocabulary of the statements about C130-C131: methods and attributes *)
From Verif Require Import Py S_Base M_lookup M_import M_imptab S_Import M_classes.
From Coq Require Import String.
Open Scope string_scope.

(** The methods of the Java Card API 2.2.2 for the classes the library has (the classes it
    does not have are in [jc_missing]), with the number of arguments; package and class, the
    classes of the objects an applet works with (module and class: for the abstract classes
    those the factories return), the methods of the objects *)
Definition jc_objects : list (string * string * list (string * string) * list (string * nat)) :=
  [ ("python.lang", "Object", [("python.lang", "Object")],
      [("equals", 1%nat)]);
    ("pythoncard.framework", "CardException", [("pythoncard.framework", "CardException")],
      [("getReason", 0%nat); ("setReason", 1%nat)]);
    ("pythoncard.framework", "CardRuntimeException", [("pythoncard.framework", "CardRuntimeException")],
      [("getReason", 0%nat); ("setReason", 1%nat)]);
    ("pythoncard.framework", "UserException", [("pythoncard.framework", "UserException")],
      [("getReason", 0%nat); ("setReason", 1%nat)]);
    ("pythoncard.framework", "ISOException", [("pythoncard.framework", "ISOException")],
      [("getReason", 0%nat); ("setReason", 1%nat)]);
    ("pythoncard.framework", "PINException", [("pythoncard.framework", "PINException")],
      [("getReason", 0%nat); ("setReason", 1%nat)]);
    ("pythoncard.framework", "APDUException", [("pythoncard.framework", "APDUException")],
      [("getReason", 0%nat); ("setReason", 1%nat)]);
    ("pythoncard.framework", "SystemException", [("pythoncard.framework", "SystemException")],
      [("getReason", 0%nat); ("setReason", 1%nat)]);
    ("pythoncard.framework", "TransactionException", [("pythoncard.framework", "TransactionException")],
      [("getReason", 0%nat); ("setReason", 1%nat)]);
    ("pythoncard.security", "CryptoException", [("pythoncard.security", "CryptoException")],
      [("getReason", 0%nat); ("setReason", 1%nat)]);
    ("pythoncard.framework.service", "ServiceException", [("pythoncard.framework.service", "ServiceException")],
      [("getReason", 0%nat); ("setReason", 1%nat)]);
    ("pythoncardx.framework.tlv", "TLVException", [("pythoncardx.framework.tlv", "TLVException")],
      [("getReason", 0%nat); ("setReason", 1%nat)]);
    ("pythoncardx.external", "ExternalException", [("pythoncardx.external", "ExternalException")],
      [("getReason", 0%nat); ("setReason", 1%nat)]);
    ("pythoncard.framework", "AID", [("pythoncard.framework.aid", "AID")],
      [("RIDEquals", 1%nat); ("equals", 1%nat); ("equals", 3%nat); ("getBytes", 2%nat); ("getPartialBytes", 4%nat);
      ("partialEquals", 3%nat)]);
    ("pythoncard.framework", "APDU", [("pythoncard.framework.apdu", "APDU")],
      [("getBuffer", 0%nat); ("getCurrentState", 0%nat); ("getIncomingLength", 0%nat); ("getNAD", 0%nat);
      ("getOffsetCdata", 0%nat); ("isCommandChainingCLA", 0%nat); ("isISOInterindustryCLA", 0%nat);
      ("isSecureMessagingCLA", 0%nat); ("setIncomingAndReceive", 0%nat); ("setOutgoing", 0%nat);
      ("setOutgoingNoChaining", 0%nat); ("receiveBytes", 1%nat); ("sendBytes", 2%nat); ("sendBytesLong", 3%nat);
      ("setOutgoingAndSend", 2%nat); ("setOutgoingLength", 1%nat)]);
    ("pythoncard.framework", "Applet", [("pythoncard.framework.applet", "Applet")],
      [("deselect", 0%nat); ("getShareableInterfaceObject", 2%nat); ("process", 1%nat); ("register", 0%nat);
      ("register", 3%nat); ("select", 0%nat); ("selectingApplet", 0%nat)]);
    ("pythoncard.framework", "OwnerPIN", [("pythoncard.framework.ownerpin", "OwnerPIN")],
      [("check", 3%nat); ("getTriesRemaining", 0%nat); ("getValidatedFlag", 0%nat); ("isValidated", 0%nat);
      ("reset", 0%nat); ("resetAndUnblock", 0%nat); ("setValidatedFlag", 1%nat); ("update", 3%nat)]);
    ("pythoncard.framework.service", "Service", [("pythoncard.framework.service", "Service")],
      [("processCommand", 1%nat); ("processDataIn", 1%nat); ("processDataOut", 1%nat)]);
    ("pythoncard.framework.service", "BasicService", [("pythoncard.framework.service.basicservice", "BasicService")],
      [("fail", 2%nat); ("getCLA", 1%nat); ("getINS", 1%nat); ("getOutputLength", 1%nat); ("getP1", 1%nat);
      ("getP2", 1%nat); ("getStatusWord", 1%nat); ("isProcessed", 1%nat); ("processCommand", 1%nat);
      ("processDataIn", 1%nat); ("processDataOut", 1%nat); ("receiveInData", 1%nat); ("selectingApplet", 0%nat);
      ("setOutputLength", 2%nat); ("setProcessed", 1%nat); ("setStatusWord", 2%nat); ("succeed", 1%nat);
      ("succeedWithStatusWord", 2%nat)]);
    ("pythoncard.framework.service", "Dispatcher", [("pythoncard.framework.service.dispatcher", "Dispatcher")],
      [("addService", 2%nat); ("dispatch", 1%nat); ("process", 1%nat); ("removeService", 2%nat)]);
    ("pythoncard.framework.service", "RMIService", [("pythoncard.framework.service.rmiservice", "RMIService")],
      [("processCommand", 1%nat); ("setInvokeInstructionByte", 1%nat)]);
    ("pythoncard.security", "Key", [("pythoncard.security.secretkey", "pyDesDESKey"); ("pythoncard.security.publickey", "PyCryptoRSAPublicKey"); ("pythoncard.security.privatekey", "PyCryptoRSAPrivateKey"); ("pythoncard.security.privatekey", "PyCryptoRSAPrivateCrtKey")],
      [("clearKey", 0%nat); ("getSize", 0%nat); ("getType", 0%nat); ("isInitialized", 0%nat)]);
    ("pythoncard.security", "DESKey", [("pythoncard.security.secretkey", "pyDesDESKey")],
      [("clearKey", 0%nat); ("getSize", 0%nat); ("getType", 0%nat); ("isInitialized", 0%nat); ("getKey", 2%nat);
      ("setKey", 2%nat)]);
    ("pythoncard.security", "RSAPublicKey", [("pythoncard.security.publickey", "PyCryptoRSAPublicKey")],
      [("clearKey", 0%nat); ("getSize", 0%nat); ("getType", 0%nat); ("isInitialized", 0%nat); ("getExponent", 2%nat);
      ("getModulus", 2%nat); ("setExponent", 3%nat); ("setModulus", 3%nat)]);
    ("pythoncard.security", "RSAPrivateKey", [("pythoncard.security.privatekey", "PyCryptoRSAPrivateKey")],
      [("clearKey", 0%nat); ("getSize", 0%nat); ("getType", 0%nat); ("isInitialized", 0%nat); ("getExponent", 2%nat);
      ("getModulus", 2%nat); ("setExponent", 3%nat); ("setModulus", 3%nat)]);
    ("pythoncard.security", "RSAPrivateCrtKey", [("pythoncard.security.privatekey", "PyCryptoRSAPrivateCrtKey")],
      [("clearKey", 0%nat); ("getSize", 0%nat); ("getType", 0%nat); ("isInitialized", 0%nat); ("getDP1", 2%nat);
      ("getDQ1", 2%nat); ("getP", 2%nat); ("getPQ", 2%nat); ("getQ", 2%nat); ("setDP1", 3%nat); ("setDQ1", 3%nat);
      ("setP", 3%nat); ("setPQ", 3%nat); ("setQ", 3%nat)]);
    ("pythoncard.security", "KeyPair", [("pythoncard.security.keypair", "KeyPair")],
      [("genKeyPair", 0%nat); ("getPrivate", 0%nat); ("getPublic", 0%nat)]);
    ("pythoncard.security", "MessageDigest", [("pythoncard.security.messagedigest", "_HashLibMessageDigest")],
      [("doFinal", 5%nat); ("getAlgorithm", 0%nat); ("getLength", 0%nat); ("reset", 0%nat); ("update", 3%nat)]);
    ("pythoncard.security", "RandomData", [("pythoncard.security.random", "_SecureRandomData")],
      [("generateData", 3%nat); ("setSeed", 3%nat)]);
    ("pythoncard.security", "Signature", [("pythoncard.security.signature", "_RSASHASignature")],
      [("getAlgorithm", 0%nat); ("getLength", 0%nat); ("init", 2%nat); ("init", 5%nat); ("sign", 5%nat);
      ("update", 3%nat); ("verify", 6%nat)]);
    ("pythoncardx.crypto", "Cipher", [("pythoncardx.crypto.cipher", "_PyCryptoRSACipher"); ("pythoncardx.crypto.cipher", "_pyDesDESCipher")],
      [("getAlgorithm", 0%nat); ("init", 2%nat); ("init", 5%nat); ("update", 5%nat); ("doFinal", 5%nat)]);
    ("pythoncardx.framework.math", "BigNumber", [("pythoncardx.framework.math", "BigNumber")],
      [("add", 4%nat); ("compareTo", 1%nat); ("compareTo", 4%nat); ("getByteLength", 1%nat); ("init", 4%nat);
      ("multiply", 4%nat); ("reset", 0%nat); ("setMaximum", 4%nat); ("subtract", 4%nat); ("toBytes", 4%nat)]);
    ("pythoncardx.framework.tlv", "BERTag", [("pythoncardx.framework.tlv.bertag", "PrimitiveBERTag"); ("pythoncardx.framework.tlv.bertag", "ConstructedBERTag")],
      [("equals", 1%nat); ("init", 2%nat); ("isConstructed", 0%nat); ("size", 0%nat); ("tagClass", 0%nat);
      ("tagNumber", 0%nat); ("toBytes", 2%nat)]);
    ("pythoncardx.framework.tlv", "PrimitiveBERTag", [("pythoncardx.framework.tlv.bertag", "PrimitiveBERTag")],
      [("init", 2%nat)]);
    ("pythoncardx.framework.tlv", "ConstructedBERTag", [("pythoncardx.framework.tlv.bertag", "ConstructedBERTag")],
      [("init", 2%nat)]);
    ("pythoncardx.framework.tlv", "BERTLV", [("pythoncardx.framework.tlv.bertlv", "PrimitiveBERTLV"); ("pythoncardx.framework.tlv.bertlv", "ConstructedBERTLV")],
      [("getLength", 0%nat); ("getTag", 0%nat); ("init", 3%nat); ("size", 0%nat); ("toBytes", 2%nat)]);
    ("pythoncardx.framework.tlv", "ConstructedBERTLV", [("pythoncardx.framework.tlv.bertlv", "ConstructedBERTLV")],
      [("append", 1%nat); ("delete", 2%nat); ("find", 1%nat); ("findNext", 3%nat); ("init", 2%nat); ("init", 3%nat);
      ("init", 4%nat)]);
    ("pythoncardx.framework.tlv", "PrimitiveBERTLV", [("pythoncardx.framework.tlv.bertlv", "PrimitiveBERTLV")],
      [("appendValue", 3%nat); ("getValue", 2%nat); ("init", 3%nat); ("init", 4%nat); ("replaceValue", 3%nat)]) ].
(** the static methods *)
Definition jc_statics : list (string * string * list (string * nat)) :=
  [ ("pythoncard.framework", "CardException",
      [("throwIt", 1%nat)]);
    ("pythoncard.framework", "CardRuntimeException",
      [("throwIt", 1%nat)]);
    ("pythoncard.framework", "UserException",
      [("throwIt", 1%nat)]);
    ("pythoncard.framework", "ISOException",
      [("throwIt", 1%nat)]);
    ("pythoncard.framework", "PINException",
      [("throwIt", 1%nat)]);
    ("pythoncard.framework", "APDUException",
      [("throwIt", 1%nat)]);
    ("pythoncard.framework", "SystemException",
      [("throwIt", 1%nat)]);
    ("pythoncard.framework", "TransactionException",
      [("throwIt", 1%nat)]);
    ("pythoncard.security", "CryptoException",
      [("throwIt", 1%nat)]);
    ("pythoncard.framework.service", "ServiceException",
      [("throwIt", 1%nat)]);
    ("pythoncardx.framework.tlv", "TLVException",
      [("throwIt", 1%nat)]);
    ("pythoncardx.external", "ExternalException",
      [("throwIt", 1%nat)]);
    ("pythoncard.framework", "APDU",
      [("getCLAChannel", 0%nat); ("getCurrentAPDU", 0%nat); ("getCurrentAPDUBuffer", 0%nat);
      ("getInBlockSize", 0%nat); ("getOutBlockSize", 0%nat); ("getProtocol", 0%nat); ("waitExtension", 0%nat)]);
    ("pythoncard.framework", "Applet",
      [("install", 3%nat)]);
    ("pythoncard.framework", "JCSystem",
      [("abortTransaction", 0%nat); ("beginTransaction", 0%nat); ("commitTransaction", 0%nat); ("getAID", 0%nat);
      ("getAppletShareableInterfaceObject", 2%nat); ("getAssignedChannel", 0%nat); ("getAvailableMemory", 1%nat);
      ("getMaxCommitCapacity", 0%nat); ("getPreviousContextAID", 0%nat); ("getTransactionDepth", 0%nat);
      ("getUnusedCommitCapacity", 0%nat); ("getVersion", 0%nat); ("isAppletActive", 1%nat);
      ("isObjectDeletionSupported", 0%nat); ("isTransient", 1%nat); ("lookupAID", 3%nat);
      ("makeTransientBooleanArray", 2%nat); ("makeTransientByteArray", 2%nat); ("makeTransientObjectArray", 2%nat);
      ("makeTransientShortArray", 2%nat); ("requestObjectDeletion", 0%nat)]);
    ("pythoncard.framework", "Util",
      [("arrayCompare", 5%nat); ("arrayCopy", 5%nat); ("arrayCopyNonAtomic", 5%nat); ("arrayFillNonAtomic", 4%nat);
      ("getShort", 2%nat); ("makeShort", 2%nat); ("setShort", 3%nat)]);
    ("pythoncard.framework.service", "CardRemoteObject",
      [("export", 1%nat); ("unexport", 1%nat)]);
    ("pythoncard.security", "KeyBuilder",
      [("buildKey", 3%nat)]);
    ("pythoncard.security", "MessageDigest",
      [("getInstance", 2%nat); ("getInitializedMessageDigestInstance", 2%nat)]);
    ("pythoncard.security", "RandomData",
      [("getInstance", 1%nat)]);
    ("pythoncard.security", "Signature",
      [("getInstance", 2%nat)]);
    ("pythoncardx.crypto", "Cipher",
      [("getInstance", 2%nat)]);
    ("pythoncardx.external", "Memory",
      [("getMemoryAccessInstance", 3%nat)]);
    ("pythoncardx.framework.math", "BigNumber",
      [("getMaxBytesSupported", 0%nat)]);
    ("pythoncardx.framework.tlv", "BERTag",
      [("getInstance", 2%nat); ("isConstructed", 2%nat); ("size", 2%nat); ("tagClass", 2%nat); ("tagNumber", 2%nat);
      ("toBytes", 5%nat)]);
    ("pythoncardx.framework.tlv", "BERTLV",
      [("getInstance", 2%nat); ("getLength", 2%nat); ("getTag", 4%nat); ("verifyFormat", 3%nat)]);
    ("pythoncardx.framework.tlv", "ConstructedBERTLV",
      [("append", 4%nat); ("delete", 5%nat); ("find", 4%nat); ("findNext", 5%nat)]);
    ("pythoncardx.framework.tlv", "PrimitiveBERTLV",
      [("appendValue", 5%nat); ("getValueOffset", 2%nat)]);
    ("pythoncardx.framework.util.intx", "JCint",
      [("getInt", 2%nat); ("makeInt", 2%nat); ("makeInt", 4%nat); ("makeTransientIntArray", 2%nat); ("setInt", 3%nat)]) ].
(** the constructors, by number of arguments *)
Definition jc_ctors : list (string * string * list nat) :=
  [ ("pythoncard.framework", "CardException", [1%nat]); ("pythoncard.framework", "CardRuntimeException", [1%nat]);
    ("pythoncard.framework", "UserException", [0%nat; 1%nat]); ("pythoncard.framework", "ISOException", [1%nat]);
    ("pythoncard.framework", "PINException", [1%nat]); ("pythoncard.framework", "APDUException", [1%nat]);
    ("pythoncard.framework", "SystemException", [1%nat]); ("pythoncard.framework", "TransactionException", [1%nat]);
    ("pythoncard.security", "CryptoException", [1%nat]);
    ("pythoncard.framework.service", "ServiceException", [1%nat]);
    ("pythoncardx.framework.tlv", "TLVException", [1%nat]); ("pythoncardx.external", "ExternalException", [1%nat]);
    ("pythoncard.framework", "AID", [3%nat]); ("pythoncard.framework", "Applet", [0%nat]);
    ("pythoncard.framework", "OwnerPIN", [2%nat]); ("pythoncard.framework.service", "BasicService", [0%nat]);
    ("pythoncard.framework.service", "Dispatcher", [1%nat]); ("pythoncard.framework.service", "RMIService", [1%nat]);
    ("pythoncard.framework.service", "CardRemoteObject", [0%nat]); ("pythoncard.security", "KeyPair", [2%nat]);
    ("pythoncardx.framework.math", "BigNumber", [1%nat]); ("pythoncardx.framework.tlv", "PrimitiveBERTag", [0%nat]);
    ("pythoncardx.framework.tlv", "ConstructedBERTag", [0%nat]);
    ("pythoncardx.framework.tlv", "ConstructedBERTLV", [1%nat]);
    ("pythoncardx.framework.tlv", "PrimitiveBERTLV", [1%nat]) ].

(** C130: every method of the API can be called, in every program that has imported the
    package, with the number of arguments of the API: the call reaches a function of the library *)
Definition C130_full : Prop := forall c fuel l t, (40 <= fuel)%nat -> of_library l -> program c fuel l = Done t ->
  (forall p cl objs ms m k n a, In (p, cl, objs, ms) jc_objects -> In (m, k) objs -> In (n, a) ms -> loaded t m = true -> exists f, on_object t m k n a = Ok f)
  /\ (forall p cl ms n a, In (p, cl, ms) jc_statics -> In (n, a) ms -> loaded t p = true -> exists f, on_class t p cl n a = Ok f)
  /\ (forall p cl ks a, In (p, cl, ks) jc_ctors -> In a ks -> loaded t p = true -> exists f, construct t p cl a = Ok f).

(** What fails: class of the object, method, number of arguments, exception *)
Definition objects_broken : list (string * string * string * nat * exn) :=
  [ ("pythoncard.framework", "CardException", "getReason", 0%nat, AttributeError);
    ("pythoncard.framework", "CardException", "setReason", 1%nat, AttributeError);
    ("pythoncard.framework", "UserException", "getReason", 0%nat, AttributeError);
    ("pythoncard.framework", "UserException", "setReason", 1%nat, AttributeError);
    ("pythoncard.framework.aid", "AID", "equals", 1%nat, TypeError);
    ("pythoncard.framework.apdu", "APDU", "setOutgoingNoChaining", 0%nat, AttributeError);
    ("pythoncard.framework.service", "Service", "processCommand", 1%nat, AttributeError);
    ("pythoncard.framework.service", "Service", "processDataIn", 1%nat, AttributeError);
    ("pythoncard.framework.service", "Service", "processDataOut", 1%nat, AttributeError);
    ("pythoncard.framework.service.basicservice", "BasicService", "fail", 2%nat, AttributeError);
    ("pythoncard.framework.service.basicservice", "BasicService", "getCLA", 1%nat, AttributeError);
    ("pythoncard.framework.service.basicservice", "BasicService", "getINS", 1%nat, AttributeError);
    ("pythoncard.framework.service.basicservice", "BasicService", "getOutputLength", 1%nat, AttributeError);
    ("pythoncard.framework.service.basicservice", "BasicService", "getP1", 1%nat, AttributeError);
    ("pythoncard.framework.service.basicservice", "BasicService", "getP2", 1%nat, AttributeError);
    ("pythoncard.framework.service.basicservice", "BasicService", "getStatusWord", 1%nat, AttributeError);
    ("pythoncard.framework.service.basicservice", "BasicService", "isProcessed", 1%nat, AttributeError);
    ("pythoncard.framework.service.basicservice", "BasicService", "processCommand", 1%nat, AttributeError);
    ("pythoncard.framework.service.basicservice", "BasicService", "processDataIn", 1%nat, AttributeError);
    ("pythoncard.framework.service.basicservice", "BasicService", "processDataOut", 1%nat, AttributeError);
    ("pythoncard.framework.service.basicservice", "BasicService", "receiveInData", 1%nat, AttributeError);
    ("pythoncard.framework.service.basicservice", "BasicService", "selectingApplet", 0%nat, AttributeError);
    ("pythoncard.framework.service.basicservice", "BasicService", "setOutputLength", 2%nat, AttributeError);
    ("pythoncard.framework.service.basicservice", "BasicService", "setProcessed", 1%nat, AttributeError);
    ("pythoncard.framework.service.basicservice", "BasicService", "setStatusWord", 2%nat, AttributeError);
    ("pythoncard.framework.service.basicservice", "BasicService", "succeed", 1%nat, AttributeError);
    ("pythoncard.framework.service.basicservice", "BasicService", "succeedWithStatusWord", 2%nat, AttributeError);
    ("pythoncard.framework.service.dispatcher", "Dispatcher", "dispatch", 1%nat, AttributeError);
    ("pythoncard.framework.service.dispatcher", "Dispatcher", "process", 1%nat, AttributeError);
    ("pythoncard.framework.service.dispatcher", "Dispatcher", "removeService", 2%nat, AttributeError);
    ("pythoncard.framework.service.rmiservice", "RMIService", "processCommand", 1%nat, AttributeError);
    ("pythoncard.framework.service.rmiservice", "RMIService", "setInvokeInstructionByte", 1%nat, AttributeError);
    ("pythoncard.security.privatekey", "PyCryptoRSAPrivateCrtKey", "getDP1", 2%nat, TypeError);
    ("pythoncard.security.privatekey", "PyCryptoRSAPrivateCrtKey", "getDQ1", 2%nat, TypeError);
    ("pythoncard.security.privatekey", "PyCryptoRSAPrivateCrtKey", "getP", 2%nat, TypeError);
    ("pythoncard.security.privatekey", "PyCryptoRSAPrivateCrtKey", "getPQ", 2%nat, TypeError);
    ("pythoncard.security.privatekey", "PyCryptoRSAPrivateCrtKey", "getQ", 2%nat, TypeError);
    ("pythoncard.security.privatekey", "PyCryptoRSAPrivateCrtKey", "setDP1", 3%nat, TypeError);
    ("pythoncard.security.privatekey", "PyCryptoRSAPrivateCrtKey", "setDQ1", 3%nat, TypeError);
    ("pythoncard.security.privatekey", "PyCryptoRSAPrivateCrtKey", "setP", 3%nat, TypeError);
    ("pythoncard.security.privatekey", "PyCryptoRSAPrivateCrtKey", "setPQ", 3%nat, TypeError);
    ("pythoncard.security.privatekey", "PyCryptoRSAPrivateCrtKey", "setQ", 3%nat, TypeError);
    ("pythoncard.security.signature", "_RSASHASignature", "getAlgorithm", 0%nat, AttributeError);
    ("pythoncardx.framework.math", "BigNumber", "getByteLength", 1%nat, AttributeError);
    ("pythoncardx.framework.math", "BigNumber", "reset", 0%nat, AttributeError);
    ("pythoncardx.framework.math", "BigNumber", "setMaximum", 4%nat, AttributeError);
    ("pythoncardx.framework.tlv.bertag", "PrimitiveBERTag", "equals", 1%nat, AttributeError);
    ("pythoncardx.framework.tlv.bertag", "ConstructedBERTag", "equals", 1%nat, AttributeError);
    ("pythoncardx.framework.tlv.bertlv", "ConstructedBERTLV", "delete", 2%nat, AttributeError);
    ("pythoncardx.framework.tlv.bertlv", "PrimitiveBERTLV", "appendValue", 3%nat, AttributeError) ].
Definition statics_broken : list (string * string * string * nat * exn) :=
  [ ("pythoncard.framework", "CardException", "throwIt", 1%nat, AttributeError);
    ("pythoncard.framework", "UserException", "throwIt", 1%nat, AttributeError);
    ("pythoncard.framework", "JCSystem", "getAID", 0%nat, AttributeError);
    ("pythoncard.framework", "JCSystem", "getAppletShareableInterfaceObject", 2%nat, AttributeError);
    ("pythoncard.framework", "JCSystem", "getAssignedChannel", 0%nat, AttributeError);
    ("pythoncard.framework", "JCSystem", "getMaxCommitCapacity", 0%nat, AttributeError);
    ("pythoncard.framework", "JCSystem", "getPreviousContextAID", 0%nat, AttributeError);
    ("pythoncard.framework", "JCSystem", "getTransactionDepth", 0%nat, AttributeError);
    ("pythoncard.framework", "JCSystem", "getUnusedCommitCapacity", 0%nat, AttributeError);
    ("pythoncard.framework", "JCSystem", "getVersion", 0%nat, AttributeError);
    ("pythoncard.framework", "JCSystem", "isAppletActive", 1%nat, AttributeError);
    ("pythoncard.framework", "JCSystem", "isObjectDeletionSupported", 0%nat, AttributeError);
    ("pythoncard.framework", "JCSystem", "isTransient", 1%nat, AttributeError);
    ("pythoncard.framework", "JCSystem", "lookupAID", 3%nat, AttributeError);
    ("pythoncard.framework.service", "CardRemoteObject", "export", 1%nat, AttributeError);
    ("pythoncard.framework.service", "CardRemoteObject", "unexport", 1%nat, AttributeError);
    ("pythoncardx.framework.tlv", "BERTLV", "getTag", 4%nat, TypeError);
    ("pythoncardx.framework.tlv", "BERTLV", "verifyFormat", 3%nat, AttributeError);
    ("pythoncardx.framework.tlv", "ConstructedBERTLV", "delete", 5%nat, AttributeError);
    ("pythoncardx.framework.tlv", "PrimitiveBERTLV", "appendValue", 5%nat, AttributeError);
    ("pythoncardx.framework.util.intx", "JCint", "setInt", 3%nat, TypeError) ].

(** C131: every attribute of a class of the library that a function names, and every attribute
    a method reads from self, exists (where the function could be called at all, see C128) *)
Definition C131_full : Prop := forall c fuel l t, (40 <= fuel)%nat -> of_library l -> program c fuel l = Done t ->
  (forall m f ln us u v, In (m, f, ln, us) fn_refs -> In u us -> loaded t m = true -> resolve t m u = inl v -> exists w, resolve_deep t m u = inl w)
  /\ (forall m k f ln ns a, In (m, k, f, ln, ns) self_refs -> In a ns -> loaded t m = true -> on_self t depth m k a = true).
