(** * Challenge and response: the client of APDU, RandomData, DESKey, Cipher and Util that
      C144 is about

    The applet is not in /repo; what it calls is: APDU (M_apdu.v), RandomData (M_digest.v),
    DESKey (M_key.v), the DES Cipher (M_cipher.v), Util.arrayCopy and arrayCompare
    (M_util.v), and the handler of test/testApplet.py:69-84 around process. *)
From Verif Require Import Py M_utils M_util M_apdu M_world M_des M_key M_cipher M_digest M_rsaapplet M_pincard.

(** ISO7816.py:29 (0x6985); 0x6300 is not among its constants *)
Definition SW_CONDITIONS_NOT_SATISFIED := 27013.
Definition SW_AUTHENTICATION_FAILED := 25344.

(** The attributes of the applet: the key, the cipher, the array of the challenge, whether it
    may still be answered, and whether the last answer was right. *)
Record ccard : Set := mkCC { cc_key : deskey; cc_cipher : cipher; cc_chal : list Z; cc_fresh : bool; cc_open : bool }.

(** install: [self.key = KeyBuilder.buildKey(TYPE_DES, size, False); self.key.setKey(key, 0);
     self.cipher = Cipher.getInstance(alg, False); self.challenge = [0] * 8]
    (keybuilder.py:72-91, secretkey.py:21-23, cipher.py:73-104) *)
Definition ccard_install (alg size : Z) (key : list Z) : res ccard :=
  let? k := buildKey TYPE_DES size in
  let? c := getInstance2 alg in
  match k with
  | Some (KDes k) =>
      match setKey key 0 k with
      | (Ok _, k) => Ok (mkCC k c (py_repeat 0 8) false false)
      | (Err e, _) => Err e
      end
  | _ => Err AttributeError
  end.

(** The state is the applet and the APDU. *)
Definition with_apdu {C A} (m : M apdu A) : M (C * apdu) A :=
  fun s => let '(r, a) := m (snd s) in (r, (fst s, a)).

(** [Util.arrayCopy(data, 0, buffer, OFFSET_CDATA, len(data)); apdu.setOutgoing();
     apdu.setOutgoingLength(len(data)); apdu.sendBytesLong(buffer, OFFSET_CDATA, len(data))] *)
Definition send_data {C} (data : list Z) : M (C * apdu) unit :=
  s <- get ;;
  let '(r, b) := arrayCopy_into data 0 OFFSET_CDATA (zlen data) (buf (snd s)) in
  put (fst s, with_buf b (snd s)) ;;;
  lift r ;;;
  with_apdu (setOutgoing ;;; setOutgoingLength (zlen data) ;;; sendBytesLong b OFFSET_CDATA (zlen data)).

(** [random.generateData(self.challenge, 0, 8); self.fresh = True], and send it; with [fix]
    the bytes are made signed first: [self.challenge[i] = s1(self.challenge[i])] *)
Definition ccard_challenge (fix_ : bool) (rnd : nat -> Z) : M (ccard * apdu) unit :=
  s <- get ;;
  let card := fst s in
  let '(r, ch) := generateData rnd 0 8 (cc_chal card) in
  put (mkCC (cc_key card) (cc_cipher card) ch (cc_fresh card) (cc_open card), snd s) ;;;
  lift r ;;;
  let ch := if fix_ then map s1 ch else ch in
  put (mkCC (cc_key card) (cc_cipher card) ch true (cc_open card), snd s) ;;;
  send_data ch.

(** [self.open = False; if not self.fresh: raise ISOException(SW_CONDITIONS_NOT_SATISFIED);
     self.fresh = False;
     self.cipher.init(self.key, MODE_DECRYPT);
     self.cipher.doFinal(buffer, OFFSET_CDATA, 8, buffer, OFFSET_CDATA);
     if Util.arrayCompare(buffer, OFFSET_CDATA, self.challenge, 0, 8) != 0:
         raise ISOException(0x6300);
     self.open = True] *)
Definition ccard_authenticate : M (ccard * apdu) unit :=
  s <- get ;;
  let card := fst s in
  let k := cc_key card in
  let ch := cc_chal card in
  put (mkCC k (cc_cipher card) ch false false, snd s) ;;;
  if negb (cc_fresh card) then raise (ISOExc SW_CONDITIONS_NOT_SATISFIED)
  else
    let '(r, c) := des_init_default (Some (KDes k)) MODE_DECRYPT (cc_cipher card) in
    put (mkCC k c ch false false, snd s) ;;;
    lift r ;;;
    let '(r, (c, b)) := des_doFinal (buf (snd s)) OFFSET_CDATA 8 OFFSET_CDATA (c, buf (snd s)) in
    put (mkCC k c ch false false, with_buf b (snd s)) ;;;
    lift r ;;;
    x <- lift (arrayCompare b OFFSET_CDATA ch 0 8) ;;
    if x =? 0 then put (mkCC k c ch false true, with_buf b (snd s))
    else raise (ISOExc SW_AUTHENTICATION_FAILED).

(** process: GET CHALLENGE is 0x84, EXTERNAL AUTHENTICATE 0x82 with 8 bytes of data, READ 0xB0. *)
Definition ccard_process (fix_ : bool) (secret : list Z) (rnd : nat -> Z) : M (ccard * apdu) unit :=
  s <- get ;;
  ins <- lift (py_get (buf (snd s)) OFFSET_INS) ;;
  if ins =? 132 then ccard_challenge fix_ rnd
  else if ins =? 130 then
    if negb (getIncomingLength (snd s) =? 8) then raise (ISOExc SW_WRONG_LENGTH)
    else with_apdu setIncomingAndReceive ;;; ccard_authenticate
  else if ins =? 176 then
    if cc_open (fst s) then send_data secret else raise (ISOExc SW_SECURITY_STATUS_NOT_SATISFIED)
  else raise (ISOExc SW_INS_NOT_SUPPORTED).

(** the answer to a command (testApplet.py:72-80), and the card afterwards; [rnd] is what
    os.urandom would deliver meanwhile *)
Definition ccard_answer (fix_ : bool) (secret : list Z) (command rnd : list Z) (card : ccard) : res (list Z) * ccard :=
  match newAPDU command with
  | Err e => (Err e, card)
  | Ok a =>
      match ccard_process fix_ secret (fun i => nth i rnd 0) (card, a) with
      | (Ok _, (card', a')) => (Ok (py_slice (raw a') 0 (outlen a') ++ [144; 0]), card')
      | (Err (ISOExc sw), (card', _)) => (Ok [sw / 256; sw mod 256], card')
      | (Err e, (card', _)) => (Err e, card')
      end
  end.
Fixpoint ccard_run (fix_ : bool) (secret : list Z) (h : list (list Z * list Z)) (card : ccard) : list (res (list Z)) * ccard :=
  match h with
  | [] => ([], card)
  | (command, rnd) :: h' =>
      let '(r, card') := ccard_answer fix_ secret command rnd card in
      let '(rs, card'') := ccard_run fix_ secret h' card' in
      (r :: rs, card'')
  end.
