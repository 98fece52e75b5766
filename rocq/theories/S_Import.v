(** * Vocabulary of the statements about C127-C129: importing the library *)
From Verif Require Import Py S_Base M_lookup M_import M_imptab.
From Coq Require Import String.
Open Scope string_scope.

(** the modules of the library *)
Definition lib_names : list string := map fst lib.
(** a program that imports the modules [l] in this order *)
Definition program (c : bool) (fuel : nat) (l : list string) : oc := import_all lib (ext_of c) fuel l [].
Definition of_library (l : list string) : Prop := forall m, In m l -> In m lib_names.

(** the name a top-level statement binds *)
Definition binds (x : stmt) : string :=
  match x with SBind n _ => n | SSame n _ => n | SImport _ top => top | SFrom _ _ a => a | STry _ _ a => a end.

(** Two interpreters look the same: the same modules are loaded and their names have the same values. *)
Definition same_modules (s t : istate) : Prop :=
  (forall m, loaded s m = loaded t m) /\ (forall m n, bnd s m n = bnd t m n).

(** C127: the modules can be imported in every order, with the same result; from the
    checkout and installed, with and without pycrypto *)
Definition C127_full : Prop :=
  forall T, T = lib \/ T = lib_installed -> forall c fuel l1 l2, (40 <= fuel)%nat ->
    (forall m, In m l1 -> In m (map fst T)) -> (forall m, In m l1 <-> In m l2) ->
    exists t1 t2, import_all T (ext_of c) fuel l1 [] = Done t1 /\ import_all T (ext_of c) fuel l2 [] = Done t2 /\ same_modules t1 t2.

(** The classes of exceptions that cross module borders, with the module that defines them *)
Definition shared_classes : list (string * string) :=
  [ ("ArrayIndexOutOfBoundsException", "python.lang"); ("NullPointerException", "python.lang"); ("ArithmeticException", "python.lang");
    ("RuntimeException", "python.lang"); ("IOException", "python.io"); ("Remote", "python.rmi");
    ("CardRuntimeException", "pythoncard.framework"); ("APDUException", "pythoncard.framework"); ("ISOException", "pythoncard.framework");
    ("PINException", "pythoncard.framework"); ("CryptoException", "pythoncard.security"); ("TLVException", "pythoncardx.framework.tlv");
    ("ServiceException", "pythoncard.framework.service"); ("ExternalException", "pythoncardx.external");
    ("APDU", "pythoncard.framework.apdu"); ("AID", "pythoncard.framework.aid"); ("Applet", "pythoncard.framework.applet");
    ("Key", "pythoncard.security.key"); ("RSAPublicKey", "pythoncard.security.publickey"); ("RSAPrivateKey", "pythoncard.security.privatekey");
    ("RSAPrivateCrtKey", "pythoncard.security.privatekey"); ("KeyBuilder", "pythoncard.security.keybuilder");
    ("BERTag", "pythoncardx.framework.tlv.bertag"); ("BERTLV", "pythoncardx.framework.tlv.bertlv") ].

(** C128: every global name in the body of a function has a value when the function can be
    called, that is in a program that has imported its module *)
Definition C128_full : Prop := forall c fuel l t, (40 <= fuel)%nat -> of_library l -> program c fuel l = Done t ->
  forall m f ln us u, In (m, f, ln, us) fn_refs -> In u us -> loaded t m = true -> exists v, resolve t m u = inl v.

(** The uses that have none: module, function, use, exception.  The last two are guarded by
    a test for None. *)
Definition undefined_names : list (string * string * use) :=
  [ ("pyDes.pyDes", "_baseDes._guardAgainstUnicode", ("unicode", []));
    ("pythoncard.framework.aid", "AID.getPartialBytes", ("aidOfset", []));
    ("pythoncard.framework.jcsystem", "getAvailableMemory", ("NullPointerException", []));
    ("pythoncard.framework.jcsystem", "getAvailableMemory", ("ArrayIndexOutOfBoundsException", []));
    ("pythoncard.framework.jcsystem", "makeGlobalArray", ("NegativeArraySizeException", []));
    ("pythoncard.framework.util", "arrayCopyNonAtomic", ("ArrayIndexoutOfBoundsException", []));
    ("pythoncard.security.messagedigest", "_HashLibMessageDigest.update", ("ArrayIndexOutOfBoundsException", []));
    ("pythoncard.security.messagedigest", "_HashLibMessageDigest.doFinal", ("ArrayIndexOutOfBoundsException", []));
    ("pythoncard.security.privatekey", "PyCryptoRSAPrivateCrtKey.setTheKey", ("keypair", ["p"]));
    ("pythoncard.security.privatekey", "PyCryptoRSAPrivateCrtKey.setTheKey", ("keypair", ["q"]));
    ("pythoncard.security.privatekey", "PyCryptoRSAPrivateCrtKey.setTheKey", ("keypair", ["u"]));
    ("pythoncard.security.privatekey", "PyCryptoRSAPrivateCrtKey.setTheKey", ("keypair", ["d"]));
    ("pythoncard.security.random", "_SecureRandomData.generateData", ("ArrayIndexOutOfBoundException", []));
    ("pythoncard.security.signature", "Signature.getInstance", ("CryptoException", []));
    ("pythoncard.security.signature", "Signature.getInstance", ("CryptoException", ["NO_SUCH_ALGORITHM"]));
    ("pythoncardx.framework.tlv.bertlv", "BERTLV._toBytesBound", ("chunk", ["reverse"]));
    ("pythoncardx.framework.tlv.bertlv", "BERTLV._toBytesBound", ("chunk", []));
    ("pythoncardx.framework.tlv.bertlv", "ConstructedBERTLV._findNextStatic", ("startOff", [])) ].
Definition none_without_pycrypto : list (string * string * use) :=
  [ ("pythoncard.security.keypair", "KeyPair._pyCryptogenKeyPair", ("pyCryptoRSA", ["generate"]));
    ("pythoncard.security.publickey", "PyCryptoRSAPublicKey._construct", ("pyCryptoRSA", ["construct"])) ].

(** C129: the classes of the Java Card API 2.2.2 and where they should be importable from:
    java.x is python.x, javacard.x is pythoncard.x, javacardx.x is pythoncardx.x *)
Definition jc_classes : list (string * list string) :=
  [ ("python.lang", ["ArithmeticException"; "ArrayIndexOutOfBoundsException"; "ArrayStoreException"; "ClassCastException"; "Exception";
       "IndexOutOfBoundsException"; "NegativeArraySizeException"; "NullPointerException"; "Object"; "RuntimeException";
       "SecurityException"; "Throwable"]);
    ("python.io", ["IOException"]);
    ("python.rmi", ["Remote"; "RemoteException"]);
    ("pythoncard.framework", ["AID"; "APDU"; "APDUException"; "Applet"; "AppletEvent"; "CardException"; "CardRuntimeException"; "ISO7816";
       "ISOException"; "JCSystem"; "MultiSelectable"; "OwnerPIN"; "PIN"; "PINException"; "Shareable"; "SystemException";
       "TransactionException"; "UserException"; "Util"]);
    ("pythoncard.framework.service", ["BasicService"; "CardRemoteObject"; "Dispatcher"; "RMIService"; "RemoteService"; "SecurityService";
       "Service"; "ServiceException"]);
    ("pythoncard.security", ["AESKey"; "Checksum"; "CryptoException"; "DESKey"; "DSAKey"; "DSAPrivateKey"; "DSAPublicKey"; "ECKey";
       "ECPrivateKey"; "ECPublicKey"; "HMACKey"; "InitializedMessageDigest"; "Key"; "KeyAgreement"; "KeyBuilder"; "KeyPair"; "KoreanSEEDKey";
       "MessageDigest"; "PrivateKey"; "PublicKey"; "RSAPrivateCrtKey"; "RSAPrivateKey"; "RSAPublicKey"; "RandomData"; "SecretKey";
       "Signature"; "SignatureMessageRecovery"]);
    ("pythoncardx.apdu", ["ExtendedLength"]);
    ("pythoncardx.biometry", ["BioBuilder"; "BioException"; "BioTemplate"; "OwnerBioTemplate"; "SharedBioTemplate"]);
    ("pythoncardx.crypto", ["Cipher"; "KeyEncryption"]);
    ("pythoncardx.external", ["ExternalException"; "Memory"; "MemoryAccess"]);
    ("pythoncardx.framework.math", ["BCDUtil"; "BigNumber"; "ParityBit"]);
    ("pythoncardx.framework.tlv", ["BERTLV"; "BERTag"; "ConstructedBERTLV"; "ConstructedBERTag"; "PrimitiveBERTLV"; "PrimitiveBERTag";
       "TLVException"]);
    ("pythoncardx.framework.util", ["ArrayLogic"; "UtilException"]);
    ("pythoncardx.framework.util.intx", ["JCint"]) ].
(** [from p import n] in the program, after it has imported the modules [l] *)
Definition program_from (c : bool) (fuel : nat) (l : list string) (p n : string) : oc :=
  match program c fuel l with
  | Done t => from_import lib (ext_of c) (imp lib (ext_of c) is_import_error fuel) "__main__" p n n t
  | r => r
  end.
Definition C129_full : Prop := forall c fuel l p ns n, (40 <= fuel)%nat -> of_library l ->
  In (p, ns) jc_classes -> In n ns -> exists t, program_from c fuel l p n = Done t.
(** The classes that are not there *)
Definition jc_missing : list (string * string) :=
  [ ("python.lang", "ArrayStoreException"); ("python.lang", "Exception"); ("python.lang", "NegativeArraySizeException"); ("python.lang", "Throwable");
    ("pythoncard.framework", "AppletEvent"); ("pythoncard.framework", "MultiSelectable"); ("pythoncard.framework", "PIN");
    ("pythoncard.framework.service", "RemoteService"); ("pythoncard.framework.service", "SecurityService");
    ("pythoncard.security", "AESKey"); ("pythoncard.security", "Checksum"); ("pythoncard.security", "DSAKey");
    ("pythoncard.security", "DSAPrivateKey"); ("pythoncard.security", "DSAPublicKey"); ("pythoncard.security", "ECKey");
    ("pythoncard.security", "ECPrivateKey"); ("pythoncard.security", "ECPublicKey"); ("pythoncard.security", "HMACKey");
    ("pythoncard.security", "InitializedMessageDigest"); ("pythoncard.security", "KeyAgreement"); ("pythoncard.security", "KoreanSEEDKey");
    ("pythoncard.security", "SignatureMessageRecovery");
    ("pythoncardx.biometry", "BioBuilder"); ("pythoncardx.biometry", "BioException"); ("pythoncardx.biometry", "BioTemplate");
    ("pythoncardx.biometry", "OwnerBioTemplate"); ("pythoncardx.biometry", "SharedBioTemplate");
    ("pythoncardx.crypto", "KeyEncryption"); ("pythoncardx.external", "MemoryAccess");
    ("pythoncardx.framework.math", "BCDUtil"); ("pythoncardx.framework.math", "ParityBit");
    ("pythoncardx.framework.util", "ArrayLogic"); ("pythoncardx.framework.util", "UtilException") ].
