(** * Model of test/AppletRSA2048.py, the RSA example applet *)
From Verif Require Import Py M_utils M_util M_apdu M_world M_des M_key M_cipher.

(** ISO7816.py: the constants used *)
Definition SW_WRONG_P1P2 := 27392. (* 0x6B00 *)
Definition OFFSET_P1 := 2.

(** The attributes of the applet (AppletRSA2048.py:8-11, 16-20); dataOffset is
    OFFSET_CDATA (line 13).  The key objects are the ones held by rsa_KeyPair, which is
    not used again. *)
Record rsacard : Set := mkCard { cd_pub : pubkey; cd_priv : privkey; cd_cipher : cipher }.

(** AppletRSA2048.py:15-25 with bArray[bOffset] in range; register only warns *)
Definition rsa_install (X : pycrypto) : res rsacard :=
  let? kp := keypair_new ALG_RSA 1024 in
  match genKeyPair X kp with
  | (Err e, _) => Err e
  | (Ok _, kp) =>
      let? c := getInstance2 ALG_RSA_PKCS1 in
      Ok (mkCard (kp_pub kp) (kp_priv kp) c)
  end.

(** The state is the cipher and the APDU; the keys do not change. *)
Definition on_apdu {A} (m : M apdu A) : M (cipher * apdu) A :=
  fun s => let '(r, a) := m (snd s) in (r, (fst s, a)).
Definition on_cipher {A} (m : M cipher A) : M (cipher * apdu) A :=
  fun s => let '(r, c) := m (fst s) in (r, (c, snd s)).

(** AppletRSA2048.py:48-49, 51-56 and 59-66: the two methods differ in the key, the mode
    and the assertion of line 50.  The buffer is
    both the input and the output of doFinal, which copies its input first. *)
Definition rsa_command (X : pycrypto) (rnd : list Z) (k : akey) (mode : Z) : M (cipher * apdu) unit :=
  byteRead <- on_apdu setIncomingAndReceive ;;
  on_cipher (rsa_init (Some k) mode) ;;;
  s <- get ;;
  let '(r, b) := rsa_doFinal X rnd (fst s) k (buf (snd s)) OFFSET_CDATA byteRead OFFSET_CDATA (buf (snd s)) in
  put (fst s, with_buf b (snd s)) ;;;
  n <- lift r ;;
  on_apdu setOutgoing ;;;
  on_apdu (setOutgoingLength n) ;;;
  s <- get ;;
  on_apdu (sendBytesLong (buf (snd s)) OFFSET_CDATA n).
(** AppletRSA2048.py:47-56 *)
Definition encryptRSA (X : pycrypto) (rnd : list Z) (card : rsacard) : M (cipher * apdu) unit :=
  if negb (vk_init (cd_priv card))
  then on_apdu setIncomingAndReceive ;;; raise AssertionError
  else rsa_command X rnd (KPub (cd_pub card)) MODE_ENCRYPT.
(** AppletRSA2048.py:58-66 *)
Definition decryptRSA (X : pycrypto) (card : rsacard) : M (cipher * apdu) unit :=
  rsa_command X [] (KPriv (cd_priv card)) MODE_DECRYPT.

(** AppletRSA2048.py:27-45.  Line 34 names a module that is not imported.  The except
    clause catches KeyError: the lookup's and any that the method raises. *)
Definition rsa_process (X : pycrypto) (rnd : list Z) (card : rsacard) (selecting : option bool) : M (cipher * apdu) unit :=
  match selecting with
  | None => raise AttributeError
  | Some true => ret tt
  | Some false =>
      s <- get ;;
      cla <- lift (py_get (buf (snd s)) OFFSET_CLA) ;;
      if negb (cla =? 0) then raise NameError
      else
        ins <- lift (py_get (buf (snd s)) OFFSET_INS) ;;
        if negb (ins =? 170) then raise (ISOExc SW_INS_NOT_SUPPORTED)
        else fun s0 =>
          match (p1 <- lift (py_get (buf (snd s)) OFFSET_P1) ;;
                 if p1 =? 1 then encryptRSA X rnd card
                 else if p1 =? 2 then decryptRSA X card
                 else raise KeyError) s0 with
          | (Err KeyError, s1) => (Err (ISOExc SW_WRONG_P1P2), s1)
          | r => r
          end
  end.

(** testApplet.py:82-106 with the handler of 69-84: what the card answers to a command,
    and the card afterwards; exceptions other than ISOException escape. *)
Definition rsa_respond (X : pycrypto) (rnd : list Z) (selecting : option bool) (command : list Z)
    (card : rsacard) : res (list Z) * rsacard :=
  match newAPDU command with
  | Err e => (Err e, card)
  | Ok a =>
      let '(r, (c, a)) := rsa_process X rnd card selecting (cd_cipher card, a) in
      (match r with
       | Ok _ => Ok (py_slice (raw a) 0 (outlen a) ++ [144; 0])
       | Err (ISOExc sw) => Ok [sw / 256; sw mod 256]
       | Err e => Err e
       end, mkCard (cd_pub card) (cd_priv card) c)
  end.
