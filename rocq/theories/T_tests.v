(** * The repository's own tests, run on the model

    These are tests of the model, not proofs of properties: every [Example] is a closed
    computation with the literals of /repo/test/*.py and /repo/pyDes/test_pydes.py, and
    no property is claimed on the strength of it.  They show that the model does what
    the authors of /repo assert about the code.  Assertions made in /repo one after the
    other on one object are kept together.

    Not here: tests that need the real pycrypto or hashlib
    (testCipher.testRSAEncryptDecrypt and testRSASignVerify, testApplet.testRSA2048Applet,
    testMessageDigest.testComplexSHA1), which C89, C108 and C73 treat for every such
    library, the isinstance tests, testImport.py, and testMemory.py, whose subject
    allocates until Python runs out of memory (C97). *)
From Coq Require Import String Ascii.
From Verif Require Import Py M_utils M_util M_apdu M_aid M_ownerpin M_bignumber M_bertag M_bertlv
  M_key M_cipher M_digest M_des M_desstr M_exc M_world S_Samples.
Open Scope list_scope.
Open Scope Z_scope.

(** a Python literal as code points; a str and a bytes object of pyDes; None *)
Fixpoint cps (s : string) : list Z :=
  match s with
  | EmptyString => []
  | String c s' => Z.of_nat (nat_of_ascii c) :: cps s'
  end.
Definition u (s : string) : pystr := M_desstr.PStr (cps s).
Definition b (s : string) : pystr := PBytes (cps s).
Definition none : pystr := PBytes [].

(** ** test/testUtil.py *)
(** lines 9-39; a1[3] is assigned before the three calls that raise *)
Example testArrayCompare :
  arrayCompare [1;2;3;4] 0 [0;1;2;3;4] 1 4 = Ok 0 /\
  arrayCompare [1;2;3;4] 2 [0;1;2;3;4] 0 2 = Ok 1 /\
  arrayCompare [0;1;2;3;4] 0 [1;2;3;4] 2 2 = Ok (-1) /\
  arrayCompare [1;2;3;0] 3 [0;1;2;3;4] 0 5 = Err ArrayIndexOutOfBounds /\
  arrayCompare [1;2;3;0] 8 [0;1;2;3;4] 0 5 = Err ArrayIndexOutOfBounds /\
  arrayCompare [1;2;3;0] 0 [0;1;2;3;4] 8 5 = Err ArrayIndexOutOfBounds.
Proof. vm_compute. repeat split. Qed.
(** lines 41-46 *)
Example testArrayCopy :
  arrayCopy_into [1;2;3;4;5] 2 0 3 (repeat 0 9) = (Ok tt, [3;4;5;0;0;0;0;0;0]).
Proof. reflexivity. Qed.
(** lines 48-57 with one choice of the random bytes (C01 and C02 cover them all) *)
Example testShort :
  let s := makeShort (-3) 127 in
  setShort 1 s [0;0;0;0] = (Ok tt, [0;-3;127;0]) /\ getShort [0;-3;127;0] 1 = Ok s.
Proof. vm_compute. split; reflexivity. Qed.

(** ** test/testOwnerPIN.py *)
Definition outcomes (ops : list pin_op) (s : ownerpin) : list (res pin_val) := map snd (fst (pin_run ops s)).
(** lines 7-17 *)
Example testOk :
  outcomes
    [OpIsValidated; OpUpdate (M_ownerpin.PStr (cps "1234")) 0 4; OpCheck (M_ownerpin.PStr (cps "oo1234--")) 2 4; OpIsValidated;
     OpReset; OpIsValidated; OpCheck (M_ownerpin.PStr (cps "123456")) 0 3; OpCheck (M_ownerpin.PStr (cps "1111")) 0 4; OpGetTries]
    (newOwnerPIN 3 15)
  = map Ok [VBool false; VUnit; VBool true; VBool true; VUnit; VBool false; VBool false; VBool false; VInt 1].
Proof. vm_compute. reflexivity. Qed.
(** lines 19-40 *)
Definition the_pin := PArr [0;0;1;2;3;4;5;6;7;8;9;0].
Definition guesses (n : nat) : list pin_op := concat (repeat [OpGetTries; OpCheck (M_ownerpin.PStr (cps "0000")) 0 4] n).
Definition wrong (tries : list Z) : list (res pin_val) := flat_map (fun i => [Ok (VInt i); Ok (VBool false)]) tries.
Example testRetryCounter :
  outcomes
    (OpUpdate the_pin 3 5 :: OpCheck the_pin 3 5 :: guesses 14 ++ OpCheck the_pin 3 5
     :: OpResetAndUnblock :: OpCheck the_pin 3 5 :: guesses 14 ++ [OpCheck the_pin 3 5])
    (newOwnerPIN 9 6)
  = Ok VUnit :: Ok (VBool true) :: wrong [9;8;7;6;5;4;3;2;1;0;0;0;0;0] ++ Ok (VBool false)
    :: Ok VUnit :: Ok (VBool true) :: wrong [9;8;7;6;5;4;3;2;1;0;0;0;0;0] ++ [Ok (VBool false)].
Proof. vm_compute. reflexivity. Qed.

(** ** test/testAID.py *)
(** lines 8-24 *)
Example testAIDInit :
  newAID [160;0;0;0;98;3;4;0] 0 8 = Ok [160;0;0;0;98;3;4;0] /\
  newAID [160;0;0;0;98;3;4;0] 4 4 = Err ValueError /\
  newAID [160;0;0;0;98;3;4;0;3;7] 4 6 = Ok [98;3;4;0;3;7] /\
  newAID [7;8;9;160;0;0] 3 5 = Err ArrayIndexOutOfBounds.
Proof. vm_compute. repeat split. Qed.
(** lines 26-36 *)
Example testEquals :
  exists a1, newAID [1;2;3;4;5;6;7;8] 0 8 = Ok a1 /\
  M_aid.equals a1 [0;1;2;3;4;5;6;7;8] 1 8 = Ok true /\
  M_aid.equals a1 [0;1;2;3;4;5;6;7;8] 1 7 = Ok false /\
  M_aid.equals a1 [0;1;2;3;4;5;6;7;8] 0 8 = Ok false /\
  M_aid.equals a1 [7;8;9;10;11;12;160;0;0;0;0;97;98] 6 8 = Err ArrayIndexOutOfBounds.
Proof. eexists. vm_compute. repeat split. Qed.
(** lines 38-42 *)
Example testEquality :
  exists a1 a2 a3 a4, newAID [1;2;3;4;5;6;7;8] 0 8 = Ok a1 /\ newAID [0;1;2;3;4;5;6;7;8] 1 8 = Ok a2 /\
  newAID [0;1;2;3;4;5;6;7;8] 1 7 = Ok a3 /\ newAID [0;1;2;3;4;5;6;7;8] 0 8 = Ok a4 /\
  aid_eq a2 a1 = true /\ aid_eq a1 a3 = false /\ aid_eq a1 a4 = false.
Proof. do 4 eexists. vm_compute. repeat split. Qed.
(** lines 44-54 *)
Example testgetBytes :
  exists a1, newAID [160;0;0;0;98;3;4;0] 0 8 = Ok a1 /\
  fst (M_aid.getBytes a1 5 (repeat 0 100)) = Ok 8 /\
  py_slice (snd (M_aid.getBytes a1 5 (repeat 0 100))) 5 13 = a1 /\
  fst (M_aid.getBytes a1 5 []) = Err ArrayIndexOutOfBounds.
Proof. eexists. vm_compute. repeat split. Qed.
(** lines 62-68 *)
Example testRIDEquals :
  exists a1 a2 a3, newAID [1;2;3;4;5;6;7;8] 0 8 = Ok a1 /\ newAID [1;2;3;4;5;248;7;255] 0 8 = Ok a2 /\
  newAID [1;166;3;201;5;6;7;8] 0 8 = Ok a3 /\
  RIDEquals a1 a2 = true /\ RIDEquals a1 a3 = false /\ aid_eq a2 a1 = false.
Proof. do 3 eexists. vm_compute. repeat split. Qed.

(** ** test/testAPDU.py *)
(** the states after each call of a history *)
Fixpoint states (ops : list apdu_op) (s : apdu) : list (bool * Z) :=
  match ops with
  | [] => []
  | o :: ops' =>
      let '(r, s') := apdu_step o s in
      (match r with Ok _ => true | Err _ => false end, getCurrentState s') :: states ops' s'
  end.
(** lines 7-21; line 11 only asserts that the state is at least PARTIAL_INCOMING *)
Example testState :
  exists s, newAPDU [0;32;1;0;4;49;50;51;52;0] = Ok s /\
  getCurrentState s = STATE_INITIAL /\
  states [OpSetIncomingAndReceive; OpReceiveBytes OFFSET_CDATA; OpSetOutgoing; OpSetOutgoingLength 10;
          OpSendBytes 0 2; OpSendBytes 0 8] s
  = [(true, STATE_FULL_INCOMING); (true, STATE_FULL_INCOMING); (true, STATE_OUTGOING);
     (true, STATE_OUTGOING_LENGTH_KNOWN); (true, STATE_PARTIAL_OUTGOING); (true, STATE_FULL_OUTGOING)].
Proof. eexists. vm_compute. repeat split. Qed.
(** lines 23-36 *)
Example testBuffer :
  exists s, newAPDU [0;32;1;0;4;49;50;51;52] = Ok s /\
  py_slice (getBuffer s) 0 4 = [0;32;1;0] /\
  py_slice (getBuffer (snd (apdu_run [OpWriteBuffer 0 1; OpWriteBuffer 1 2; OpWriteBuffer 2 3] s))) 0 3 = [1;2;3].
Proof. eexists. vm_compute. repeat split. Qed.
(** lines 38-71; bytesLeft is 4 and readCount 4, so receiveBytes is called once *)
Example testAPDUDoc :
  exists s, newAPDU [0;32;1;0;4;49;50;51;52;0] = Ok s /\
  py_get (getBuffer s) OFFSET_CLA = Ok 0 /\ py_get (getBuffer s) 1 = Ok 32 /\
  py_get (getBuffer s) OFFSET_LC = Ok 4 /\
  fst (setIncomingAndReceive s) = Ok 4 /\
  last (states [OpSetIncomingAndReceive; OpReceiveBytes OFFSET_CDATA; OpSetOutgoing; OpSetOutgoingLength 3;
                OpWriteBuffer 0 1; OpWriteBuffer 1 2; OpWriteBuffer 3 3; OpSendBytes 0 3] s) (false, -1)
  = (true, STATE_FULL_OUTGOING).
Proof. eexists. vm_compute. repeat split. Qed.

(** ** test/testBigNum.py *)
Definition big_of (arr : list Z) (f : Z) : res bignum :=
  let? n := newBigNumber (Some 8) in
  match M_bignumber.init (Some arr) 0 2 f n with (Ok _, n') => Ok n' | (Err e, _) => Err e end.
(** lines 7-15 *)
Example testInitBig :
  rmap (fun n => fst (get_value n)) (big_of [-128; 0] FORMAT_BCD) = Ok (Ok 8000) /\
  rmap (fun n => fst (get_value n)) (big_of [16; 0] FORMAT_HEX) = Ok (Ok 4096).
Proof. vm_compute. split; reflexivity. Qed.
(** lines 17-29 *)
Example testtoBytesBig :
  (exists n, big_of [18; -128] FORMAT_BCD = Ok n /\ toBytes n 0 2 FORMAT_BCD [0;0;0] = (Ok tt, [18; -128; 0])) /\
  (exists n, big_of [-127; 52] FORMAT_HEX = Ok n /\ toBytes n 0 2 FORMAT_HEX [0;0;0] = (Ok tt, [-127; 52; 0])).
Proof. split; eexists; vm_compute; split; reflexivity. Qed.

(** ** test/tlvtag.py: the helper classes *)
(** lines 7-11 *)
Definition sane (x : Z) : Z := if 127 <? x then - Z.land (Z.lnot (x - 1)) 255 else x.
(** lines 14-32; the loop of lines 20-22 *)
Fixpoint chunks7 (fuel : nat) (n : Z) : list Z :=
  match fuel with
  | O => []
  | S f => if 0 <? n then Z.land n 127 :: chunks7 f (Z.shiftr n 7) else []
  end.
Definition Tag (cls : Z) (constr : bool) (number : Z) : list Z :=
  let first := Z.shiftl cls 6 + Z.shiftl (if constr then 1 else 0) 5 in
  map sane
    (if 31 <=? number then
       let cs := rev (chunks7 (Z.to_nat (Z.log2 number + 1)) number) in
       first + 31 :: map (fun i => 128 + i) (removelast cs) ++ [Z.land (128 + last cs 0) 127]
     else [first + number]).
(** lines 34-46 for values of at most 127 cells *)
Definition TLV (tag value : list Z) : list Z := map sane (tag ++ zlen value :: value).

(** ** test/testTLVTag.py *)
(** lines 9-14 *)
Example testTagConstrInit :
  let t := init_class_number newConstructedBERTag 3 1 in tclass t = 3 /\ tconstr t = true /\ tnumber t = 1.
Proof. vm_compute. repeat split. Qed.
(** lines 16-25 *)
Example testTagGetInstance :
  (exists t, BERTag_getInstance (Tag 3 true 5) 0 = Ok t /\ tclass t = 3 /\ tconstr t = true /\ tnumber t = 5) /\
  (exists t, BERTag_getInstance (Tag 2 false 6780087076965536589667) 0 = Ok t /\
     tclass t = 2 /\ tconstr t = false /\ tnumber t = 6780087076965536589667).
Proof. split; eexists; vm_compute; repeat split. Qed.
(** lines 29-40 *)
Example testTagtoBytes :
  (r1 <- tag_toBytesStatic 1 false 5 0 ;;
   r2 <- tag_toBytesStatic 1 false 16383 0 ;;
   r3 <- tag_toBytesStatic 3 true 1 3 ;;
   ret [r1; r2; r3]) (repeat 0 10)
  = (Ok [1; 3; 1], [95; -1; 127; -31; 0; 0; 0; 0; 0; 0]) /\
  tag_toBytesStatic 1 false 5 0 (repeat 0 10) = (Ok 1, [69; 0; 0; 0; 0; 0; 0; 0; 0; 0]).
Proof. vm_compute. split; reflexivity. Qed.

(** ** test/testTLVTLV.py *)
Definition tlv_of (l : list Z) : res tlv := M_bertlv.getInstance l 0 None.
(** getValue into an array of ten zeros: the size and the cells array[0:size] *)
Definition value_of (t : tlv) : res (list Z) :=
  match M_bertlv.getValue t 0 (repeat 0 10) with (Ok n, a) => Ok (py_slice a 0 n) | (Err e, _) => Err e end.
Definition same_tag (t : tlv) (l : list Z) : bool :=
  match ttag t, BERTag_getInstance l 0 with Some g, Ok h => tag_eqb g h | _, _ => false end.
(** lines 10-16 *)
Example testTLVConstrInit :
  let g := init_class_number newConstructedBERTag 3 1 in
  let a := snd (tag_toBytes g 0 (repeat 0 10)) in
  exists t, M_bertlv.getInstance a 0 (Some 2) = Ok t /\
  match ttag t with Some h => tag_eqb g h = true | None => False end.
Proof. eexists. vm_compute. split; reflexivity. Qed.
(** lines 20-71: the object all four tests search *)
Definition two : list Z := TLV (Tag 0 true 8) (TLV (Tag 0 false 7) [0;6;7;56] ++ TLV (Tag 2 false 5) [89;4;3;6;1;6]).
(** what a search found: whether the tag is the one expected, and the value *)
Definition found (r : res (option tlv)) (l : list Z) : res (option (bool * res (list Z))) :=
  rmap (fun o => match o with Some t => Some (same_tag t l, value_of t) | None => None end) r.
Definition search (l : list Z) (g : option (list Z)) : res (option tlv) :=
  let? t := tlv_of l in
  match g with
  | None => findBound 100 t None
  | Some g => let? h := BERTag_getInstance g 0 in findBound 100 t (Some h)
  end.
Example testfind :
  found (search two (Some (Tag 0 false 7))) (Tag 0 false 7) = Ok (Some (true, Ok [0;6;7;56])) /\
  found (search two (Some (Tag 2 false 5))) (Tag 2 false 5) = Ok (Some (true, Ok [89;4;3;6;1;6])) /\
  search two (Some (Tag 0 false 3)) = Ok None /\
  found (search two None) (Tag 0 false 7) = Ok (Some (true, Ok [0;6;7;56])) /\
  search (TLV (Tag 0 true 17) []) None = Ok None.
Proof. vm_compute. repeat split. Qed.
(** lines 75-130 *)
Definition seven : list Z :=
  let tag1 := Tag 0 false 1 in
  let tag2 := Tag 2 false 2 in
  TLV (Tag 0 true 0)
    (TLV tag1 [0;6;7;56] ++ TLV tag2 [89;4;3;6;1;6] ++ TLV tag2 [0;6;7;56] ++ TLV tag1 [89;4;3;3;1;6;7;8] ++
     TLV tag2 [0;6;7;0;0;0;0] ++ TLV tag1 [0;6;7;56] ++ TLV tag1 [89;4]).
Definition search_next (l g : list Z) (n : Z) : res (option tlv) :=
  let? t := tlv_of l in
  let? h1 := BERTag_getInstance (Tag 0 false 1) 0 in
  let? o := findBound 100 t (Some h1) in
  let? h := BERTag_getInstance g 0 in
  match o with Some t2 => findNextBound 100 t (Some h) t2 n | None => Err TypeError end.
Example testfindNext :
  found (search_next seven (Tag 0 false 1) 1) (Tag 0 false 1) = Ok (Some (true, Ok [89;4;3;3;1;6;7;8])) /\
  found (search_next seven (Tag 0 false 1) 2) (Tag 0 false 1) = Ok (Some (true, Ok [89;4])) /\
  search_next seven (Tag 0 false 5) 1 = Ok None.
Proof. vm_compute. repeat split. Qed.

(** ** test/testCipher.py, testKeyBuilder.py, testRSAKeys.py: [X0] stands for pycrypto *)
Definition pub_after (m : M pubkey unit) (k : pubkey) : pubkey := snd (m k).
Definition pub1024 : pubkey := pubkey_new 1024.
Definition ten : list Z := [0;1;2;3;4;5;6;7;8;9].
(** testCipher.py:7-31 *)
Example testCipherInit :
  exists c, getInstance2 ALG_RSA_NOPAD = Ok c /\ c_alg c = ALG_RSA_NOPAD /\
  fst (cipher_update [] 0 0 0 (c, [])) = Err (CryptoExc INVALID_INIT) /\
  fst (rsa_init None MODE_ENCRYPT c) = Err (CryptoExc ILLEGAL_VALUE) /\
  buildKey TYPE_RSA_PUBLIC 1024 = Ok (Some (KPub pub1024)) /\
  fst (rsa_init (Some (KPub pub1024)) MODE_ENCRYPT c) = Err (CryptoExc UNINITIALIZED_KEY) /\
  let k := pub_after (pub_setModulus X0 (repeat 7 128) 0 128) (pub_after (pub_setExponent X0 ten 5 5) pub1024) in
  fst (rsa_init (Some (KPub k)) MODE_ENCRYPT c) = Ok tt.
Proof. eexists. vm_compute. repeat split. Qed.
(** testCipher.py:87-102 *)
Example testDES :
  buildKey TYPE_DES 64 = Ok (Some (KDes (deskey_new TYPE_DES 64))) /\
  getInstance2 ALG_DES_ECB_PKCS5 = Ok (cipher_new ALG_DES_ECB_PKCS5) /\
  let k := snd (setKey [1;2;3;4;5;6;7;8] 0 (deskey_new TYPE_DES 64)) in
  let c1 := snd (des_init_default (Some (KDes k)) MODE_ENCRYPT (cipher_new ALG_DES_ECB_PKCS5)) in
  let '(r1, (c1', byt)) := des_doFinal [7;5;6;8] 0 4 0 (c1, repeat 0 8) in
  let c2 := snd (des_init_default (Some (KDes k)) MODE_DECRYPT c1') in
  r1 = Ok 8 /\ snd (snd (des_doFinal byt 0 8 0 (c2, [7;5;6;8]))) = [7;5;6;8].
Proof. vm_compute. repeat split. Qed.
(** testKeyBuilder.py:7-9 *)
Example testLength : rmap (option_map getSize) (buildKey TYPE_RSA_PUBLIC 768) = Ok (Some 768).
Proof. reflexivity. Qed.
(** testRSAKeys.py:15-34 *)
Example testGetters :
  fst (pub_getExponent pub1024 0 []) = Err (CryptoExc UNINITIALIZED_KEY) /\
  fst (pub_getModulus pub1024 0 []) = Err (CryptoExc UNINITIALIZED_KEY) /\
  let k := pub_after (pub_setModulus X0 (repeat 65 128) 0 128) (pub_after (pub_setExponent X0 [] 0 0) pub1024) in
  fst (pub_getExponent k 0 []) = Ok 0.
Proof. vm_compute. repeat split. Qed.
(** testRSAKeys.py:36-48 *)
Example testValue :
  let k := pub_after (pub_setModulus X0 (repeat 65 128) 0 128) (pub_after (pub_setExponent X0 ten 5 5) pub1024) in
  fst (pub_getExponent k 7 []) = Err ArrayIndexOutOfBounds /\
  pub_getExponent k 7 (repeat 0 20) = (Ok 5, repeat 0 7 ++ [5;6;7;8;9] ++ repeat 0 8).
Proof. vm_compute. split; reflexivity. Qed.
(** testRSAKeys.py:50-64 *)
Example testKeyInit :
  let modulus := repeat 0 5 ++ concat (repeat [0;1;2;3;4;5;6;7] 16) in
  let e := pub_setExponent X0 ten 5 5 in
  let m := pub_setModulus X0 modulus 5 128 in
  pk_init pub1024 = false /\ pk_init (pub_after e pub1024) = false /\
  pk_init (pub_after m (pub_after e pub1024)) = true /\
  pk_init (pub_after m pub1024) = false /\ pk_init (pub_after e (pub_after m pub1024)) = true.
Proof. vm_compute. repeat split. Qed.

(** ** test/testMessageDigest.py *)
(** lines 7-14, with a library that only knows the digest of the empty message *)
Definition empty_sha1 : list Z :=
  [218;57;163;238;94;107;75;13;50;85;191;239;149;96;24;144;175;216;7;9].
Definition H1 : hashlib := mkHashlib (fun a => a =? 1) (fun _ => 20) (fun _ m => match m with [] => empty_sha1 | _ => [] end).
Example testEmptySHA1 :
  exists md, digest_getInstance H1 1 = Ok md /\ digest_getAlgorithm md = 1 /\ digest_getLength H1 md = 20 /\
  let '(r, (_, res)) := digest_doFinal H1 [] 0 0 0 (md, repeat 0 20) in r = Ok 20 /\ res = map s1 empty_sha1.
Proof. eexists. vm_compute. repeat split. Qed.

(** ** test/testRandom.py: lines 7-28 with one source of random bytes *)
Example testRandomData :
  random_getInstance ALG_SECURE_RANDOM = Ok tt /\
  random_getInstance 1 = Err (CryptoExc NO_SUCH_ALGORITHM) /\
  let buf1 := snd (generateData (fun i => Z.of_nat i + 3) 0 25 (repeat 0 50)) in
  py_slice buf1 25 50 = repeat 0 25 /\
  let buf2 := snd (generateData (fun i => Z.of_nat i + 77) 25 25 buf1) in
  py_slice buf2 0 25 <> py_slice buf2 25 50.
Proof. vm_compute. repeat split. discriminate. Qed.

(** ** test/testExceptions.py *)
Example testExceptions :
  handle (throwIt CISOException 36864) [CISOException] = Some (0%nat, Thrown (Inst CISOException (Some 36864))) /\
  getReason (Inst CISOException (Some 36864)) = inl 36864 /\
  handle (raise_new CArrayIndexOutOfBoundsException []) [CIndexOutOfBoundsException; CException]
  = Some (0%nat, Thrown (Inst CArrayIndexOutOfBoundsException None)) /\
  handle (raise_new CCryptoException [2]) [CCryptoException] = Some (0%nat, Thrown (Inst CCryptoException (Some 2))) /\
  handle (raise_new CRemoteException []) [CIOException; CException] = Some (0%nat, Thrown (Inst CRemoteException None)).
Proof. vm_compute. repeat split. Qed.

(** ** test/testApplet.py: lines 7-20 and 22-84 *)
Example testMiniApplet :
  applet_select = Ok true /\ respond (raise (ISOExc 36864)) [0;0;0;0] = Ok [144;0].
Proof. vm_compute. split; reflexivity. Qed.
Example testBaseProcessApplet :
  respond (base_process (Some false)) [0;128;0;0] = Ok [110;0] /\
  respond (base_process (Some false)) [128;0;0;0] = Ok [109;0] /\
  respond (base_process (Some true)) [0;164;0;0] = Ok [144;0] /\
  respond (base_process (Some false)) [128;8;0;0;0] = Ok [55;77;99;144;0].
Proof. vm_compute. repeat split. Qed.

(** ** pyDes/test_pydes.py *)
(** [k.decrypt(k.encrypt(data, pad, padmode), pad, padmode)] *)
Definition trip (k : res des) (data pad : pystr) (m : option Z) : res pystr :=
  let? k := k in fst ((d <- s_encrypt data pad m ;; s_decrypt d pad m) k).
Definition ttrip (k : res stdes) (data pad : pystr) (m : option Z) : res pystr :=
  let? k := k in fst ((d <- s_tencrypt data pad m ;; s_tdecrypt d pad m) k).
Definition chr (l : list Z) : pystr := M_desstr.PStr l.
Definition zeros8 := chr (repeat 0 8).
Definition crlf (s : string) : list Z := [13;10;9] ++ cps s ++ [13;10].
Definition h15 : list Z := [0;1;2;3;4;5;6;7;8;255;143;220;176;64;128].
Definition h120 : list Z := concat (repeat h15 8).
Definition P5 := Some PAD_PKCS5.
(** lines 107-158: tests 1 to 5 *)
Example test_des :
  trip (s_new zeros8 CBC zeros8 none PAD_NORMAL) (b "DES encryption algorithm") none None = Ok (b "DES encryption algorithm") /\
  trip (s_new zeros8 CBC zeros8 none PAD_NORMAL) (b "Default string of text") (u "*") None = Ok (b "Default string of text") /\
  trip (s_new (chr (crlf "ABC")) ECB none none PAD_NORMAL) (b "String to Pad") (u "*") None = Ok (b "String to Pad") /\
  trip (s_new (chr (crlf "ABC")) ECB none none PAD_NORMAL) (PBytes h15) (PBytes [68]) None = Ok (PBytes h15) /\
  (let? k := s_new (chr (crlf "ABC")) ECB none none PAD_NORMAL in
   fst ((d <- s_encrypt (PBytes h15) (PBytes [68]) None ;; s_decrypt d none None) k)) = Ok (PBytes (h15 ++ [68])) /\
  trip (s_new (chr (crlf "key")) ECB none none PAD_NORMAL) (b "String to Pad") none P5 = Ok (b "String to Pad") /\
  trip (s_new (chr (crlf "key")) ECB none none PAD_PKCS5) (b "String to Pad") none None = Ok (b "String to Pad").
Proof. vm_compute. repeat split. Qed.
(** lines 160-172: tests 6 and 7 *)
Example test_tdes_ecb :
  ttrip (s_tnew (chr (cps "MyDesKey" ++ crlf "ABC" ++ cps "0987*543")) ECB none none PAD_NORMAL) (PBytes h120) none None = Ok (PBytes h120) /\
  ttrip (s_tnew (chr (crlf "ABC" ++ cps "0987*543")) ECB none none PAD_NORMAL) (PBytes h120) none None = Ok (PBytes h120).
Proof. vm_compute. split; reflexivity. Qed.
(** lines 174-186: tests 8 and 9; the data of test 9 is three bytes shorter *)
Example test_tdes_cbc :
  let k := s_tnew (chr (cps "MyDesKey" ++ crlf "ABC" ++ cps "0987*54B")) CBC (u "12341234") none PAD_NORMAL in
  ttrip k (PBytes h120) none None = Ok (PBytes h120) /\
  ttrip k (PBytes (firstn 117 h120)) (u ".") None = Ok (PBytes (firstn 117 h120)).
Proof. vm_compute. split; reflexivity. Qed.
(** lines 188-238: tests 10 to 16 *)
Definition good : pystr := chr ([13;10;9] ++ cps "key" ++ [13] ++ cps "IsGoodKey").
Definition iv07 : pystr := chr [0;1;2;3;4;5;6;7].
Example test_pkcs5 :
  ttrip (s_tnew good ECB none none PAD_NORMAL) (b "String to Pad") none P5 = Ok (b "String to Pad") /\
  ttrip (s_tnew good ECB none none PAD_NORMAL) (b "String not need Padding.") none P5 = Ok (b "String not need Padding.") /\
  trip (s_new (u "IGoodKey") CBC iv07 none PAD_NORMAL) (b "String to Pad") none P5 = Ok (b "String to Pad") /\
  trip (s_new (u "IGoodKey") CBC iv07 none PAD_NORMAL) (b "String not need Padding.") none P5 = Ok (b "String not need Padding.") /\
  ttrip (s_tnew good CBC iv07 none PAD_NORMAL) (b "String to Pad") none P5 = Ok (b "String to Pad") /\
  ttrip (s_tnew good CBC iv07 none PAD_NORMAL) (b "String not need Padding.") none P5 = Ok (b "String not need Padding.") /\
  ttrip (s_tnew good CBC iv07 none PAD_PKCS5) (b "String to Pad") none None = Ok (b "String to Pad").
Proof. vm_compute. repeat split. Qed.
(** lines 240-248: test 17, no initial value given *)
Example test_no_iv :
  ttrip (s_tnew (chr (repeat 0 24)) CBC none none PAD_PKCS5) (b "String to Pad") none None = Ok (b "String to Pad").
Proof. vm_compute. reflexivity. Qed.
