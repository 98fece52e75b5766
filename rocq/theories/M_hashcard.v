(** * A card that hashes files: the client of APDU and MessageDigest that C145 is about

    The applet is not in /repo; what it calls is: APDU (M_apdu.v) and MessageDigest
    (M_digest.v), and the handler of test/testApplet.py:69-84 around process. *)
From Verif Require Import Py M_utils M_util M_apdu M_world M_digest M_rsaapplet M_chalcard.

(** install: [self.digest = MessageDigest.getInstance(alg, False)] is [digest_getInstance]
    (messagedigest.py:35-37).  The state is the digest and the APDU. *)
Definition on_digest {A} (m : M digest A) : M (digest * apdu) A :=
  fun s => let '(r, d) := m (fst s) in (r, (d, snd s)).

(** [while True:
        n = apdu.receiveBytes(OFFSET_CDATA)
        if n == 0: break
        self.digest.update(buffer, OFFSET_CDATA, n)] *)
Fixpoint hash_loop (fuel : nat) : M (digest * apdu) unit :=
  match fuel with
  | O => raise OutOfFuel
  | S f =>
      n <- with_apdu (receiveBytes OFFSET_CDATA) ;;
      if n =? 0 then ret tt
      else s <- get ;; on_digest (digest_update (buf (snd s)) OFFSET_CDATA n) ;;; hash_loop f
  end.
(** [n = apdu.setIncomingAndReceive()
     if n > 0:
         self.digest.update(buffer, apdu.getOffsetCdata(), n); (the loop)]
    The fuel is enough: each turn takes a byte of the command. *)
Definition hash_receive : M (digest * apdu) unit :=
  n <- with_apdu setIncomingAndReceive ;;
  s <- get ;;
  if 0 <? n then
    on_digest (digest_update (buf (snd s)) (getOffsetCdata (snd s)) n) ;;;
    hash_loop (Z.to_nat (zlen (raw (snd s)) + 1))
  else ret tt.
(** [n = self.digest.doFinal(buffer, 0, 0, buffer, OFFSET_CDATA); apdu.setOutgoing();
     apdu.setOutgoingLength(n); apdu.sendBytesLong(buffer, OFFSET_CDATA, n)] *)
Definition hash_finish (H : hashlib) : M (digest * apdu) unit :=
  s <- get ;;
  let '(r, (d, b)) := digest_doFinal H (buf (snd s)) 0 0 OFFSET_CDATA (fst s, buf (snd s)) in
  put (d, with_buf b (snd s)) ;;;
  n <- lift r ;;
  with_apdu (setOutgoing ;;; setOutgoingLength n ;;; sendBytesLong b OFFSET_CDATA n).

(** process: HASH is 0x2A; P1 = 0 announces more commands, otherwise the digest is the answer. *)
Definition hash_process (H : hashlib) : M (digest * apdu) unit :=
  s <- get ;;
  ins <- lift (py_get (buf (snd s)) OFFSET_INS) ;;
  p1 <- lift (py_get (buf (snd s)) OFFSET_P1) ;;
  if negb (ins =? 42) then raise (ISOExc SW_INS_NOT_SUPPORTED)
  else hash_receive ;;; if p1 =? 0 then ret tt else hash_finish H.

(** the answer to a command (testApplet.py:72-80), and the digest afterwards *)
Definition hash_answer (H : hashlib) (command : list Z) (d : digest) : res (list Z) * digest :=
  match newAPDU command with
  | Err e => (Err e, d)
  | Ok a =>
      match hash_process H (d, a) with
      | (Ok _, (d', a')) => (Ok (py_slice (raw a') 0 (outlen a') ++ [144; 0]), d')
      | (Err (ISOExc sw), (d', _)) => (Ok [sw / 256; sw mod 256], d')
      | (Err e, (d', _)) => (Err e, d')
      end
  end.
Fixpoint hcard_run (H : hashlib) (h : list (list Z)) (d : digest) : list (res (list Z)) * digest :=
  match h with
  | [] => ([], d)
  | command :: h' =>
      let '(r, d') := hash_answer H command d in
      let '(rs, d'') := hcard_run H h' d' in
      (r :: rs, d'')
  end.
