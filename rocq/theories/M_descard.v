(** * A card that encrypts and decrypts with DES: the client of APDU, DESKey and Cipher that
      C142 is about

    The applet is not in /repo; what it calls is: APDU (M_apdu.v), DESKey (M_key.v), the DES
    Cipher (M_cipher.v), and the handler of test/testApplet.py:69-84 around process. *)
From Verif Require Import Py M_utils M_util M_apdu M_world M_des M_key M_cipher M_rsaapplet.

(** The attributes key and cipher of the applet. *)
Record dcard : Set := mkDC { dc_key : deskey; dc_cipher : cipher }.

(** install: [self.key = KeyBuilder.buildKey(TYPE_DES, size, False);
     self.cipher = Cipher.getInstance(alg, False)]
    (keybuilder.py:72-91, cipher.py:73-104) *)
Definition dcard_install (alg size : Z) : res dcard :=
  let? k := buildKey TYPE_DES size in
  let? c := getInstance2 alg in
  match k with Some (KDes k) => Ok (mkDC k c) | _ => Err AttributeError end.

(** The state is the applet and the APDU. *)
Definition to_apdu {A} (m : M apdu A) : M (dcard * apdu) A :=
  fun s => let '(r, a) := m (snd s) in (r, (fst s, a)).

(** [if n != self.key.getSize() // 8: raise ISOException(SW_WRONG_LENGTH);
     self.key.setKey(buffer, OFFSET_CDATA)] *)
Definition dcard_put_key (n : Z) : M (dcard * apdu) unit :=
  s <- get ;;
  let k := dc_key (fst s) in
  if negb (n =? dk_size k / 8) then raise (ISOExc SW_WRONG_LENGTH)
  else
    let '(r, k) := setKey (buf (snd s)) OFFSET_CDATA k in
    put (mkDC k (dc_cipher (fst s)), snd s) ;;; lift r.

(** [self.cipher.init(self.key, mode);
     n = self.cipher.doFinal(buffer, OFFSET_CDATA, n, buffer, OFFSET_CDATA);
     apdu.setOutgoing(); apdu.setOutgoingLength(n); apdu.sendBytesLong(buffer, OFFSET_CDATA, n)] *)
Definition dcard_crypt (mode n : Z) : M (dcard * apdu) unit :=
  s <- get ;;
  let k := dc_key (fst s) in
  let '(r, c) := des_init_default (Some (KDes k)) mode (dc_cipher (fst s)) in
  put (mkDC k c, snd s) ;;;
  lift r ;;;
  let '(r, (c, b)) := des_doFinal (buf (snd s)) OFFSET_CDATA n OFFSET_CDATA (c, buf (snd s)) in
  put (mkDC k c, with_buf b (snd s)) ;;;
  n <- lift r ;;
  to_apdu (setOutgoing ;;; setOutgoingLength n ;;; sendBytesLong b OFFSET_CDATA n).

(** process: PUT KEY is 0x24; CRYPT is 0x2A with the mode in P1.  The data of both are
    1 to 128 bytes, which one call of setIncomingAndReceive delivers. *)
Definition dcard_process : M (dcard * apdu) unit :=
  s <- get ;;
  ins <- lift (py_get (buf (snd s)) OFFSET_INS) ;;
  p1 <- lift (py_get (buf (snd s)) OFFSET_P1) ;;
  if negb ((ins =? 36) || (ins =? 42)) then raise (ISOExc SW_INS_NOT_SUPPORTED)
  else if (getIncomingLength (snd s) <? 1) || (128 <? getIncomingLength (snd s)) then raise (ISOExc SW_WRONG_LENGTH)
  else
    n <- to_apdu setIncomingAndReceive ;;
    if ins =? 36 then dcard_put_key n else dcard_crypt p1 n.

(** the answer to a command (testApplet.py:72-80), and the card afterwards *)
Definition dcard_answer (command : list Z) (card : dcard) : res (list Z) * dcard :=
  match newAPDU command with
  | Err e => (Err e, card)
  | Ok a =>
      match dcard_process (card, a) with
      | (Ok _, (card', a')) => (Ok (py_slice (raw a') 0 (outlen a') ++ [144; 0]), card')
      | (Err (ISOExc sw), (card', _)) => (Ok [sw / 256; sw mod 256], card')
      | (Err e, (card', _)) => (Err e, card')
      end
  end.
Fixpoint dcard_run (h : list (list Z)) (card : dcard) : list (res (list Z)) * dcard :=
  match h with
  | [] => ([], card)
  | command :: h' =>
      let '(r, card') := dcard_answer command card in
      let '(rs, card'') := dcard_run h' card' in
      (r :: rs, card'')
  end.
