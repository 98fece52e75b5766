(** * A card that guards a secret with a PIN: the client of OwnerPIN and APDU that C141
      is about

    The applet is not in /repo (pythoncard is a library for writing such applets); what
    it calls is: APDU (M_apdu.v), OwnerPIN (M_ownerpin.v), and the handler of
    test/testApplet.py:69-84 around process (as [respond] in M_world.v). *)
From Verif Require Import Py M_utils M_util M_ownerpin M_apdu M_world.

(** ISO7816.py:29; 0x6300 is the warning "verification failed" of ISO 7816-4 *)
Definition SW_SECURITY_STATUS_NOT_SATISFIED := 27010. (* 0x6982 *)
Definition SW_VERIFICATION_FAILED := 25344. (* 0x6300 *)

(** The state is the applet's OwnerPIN and the APDU. *)
Definition with_apdu {A} (m : M apdu A) : M (ownerpin * apdu) A :=
  fun s => let '(r, a) := m (snd s) in (r, (fst s, a)).
Definition with_pin {A} (m : M ownerpin A) : M (ownerpin * apdu) A :=
  fun s => let '(r, p) := m (fst s) in (r, (p, snd s)).

(** [n = apdu.setIncomingAndReceive();
     if not self.pin.check(apdu.getBuffer(), OFFSET_CDATA, n): raise ISOException(0x6300)] *)
Definition card_verify : M (ownerpin * apdu) unit :=
  n <- with_apdu setIncomingAndReceive ;;
  s <- get ;;
  ok <- with_pin (check (PArr (getBuffer (snd s))) OFFSET_CDATA n) ;;
  if ok : bool then ret tt else raise (ISOExc SW_VERIFICATION_FAILED).

(** [if not self.pin.isValidated(): raise ISOException(SW_SECURITY_STATUS_NOT_SATISFIED);
     apdu.setOutgoing(); apdu.setOutgoingLength(len(self.secret));
     apdu.sendBytesLong(self.secret, 0, len(self.secret))] *)
Definition card_read (secret : list Z) : M (ownerpin * apdu) unit :=
  v <- with_pin isValidated ;;
  if negb v then raise (ISOExc SW_SECURITY_STATUS_NOT_SATISFIED)
  else
    with_apdu setOutgoing ;;;
    with_apdu (setOutgoingLength (zlen secret)) ;;;
    with_apdu (sendBytesLong secret 0 (zlen secret)).

(** process: VERIFY is 0x20, READ 0xB0 *)
Definition card_process (secret : list Z) : M (ownerpin * apdu) unit :=
  s <- get ;;
  ins <- lift (py_get (getBuffer (snd s)) OFFSET_INS) ;;
  if Z.land ins 255 =? 32 then card_verify
  else if Z.land ins 255 =? 176 then card_read secret
  else raise (ISOExc SW_INS_NOT_SUPPORTED).

(** the answer to a command (testApplet.py:72-80), and the PIN afterwards *)
Definition card_answer (secret command : list Z) (pin : ownerpin) : res (list Z) * ownerpin :=
  match newAPDU command with
  | Err e => (Err e, pin)
  | Ok a =>
      match card_process secret (pin, a) with
      | (Ok _, (pin', a')) => (Ok (py_slice (raw a') 0 (outlen a') ++ [144; 0]), pin')
      | (Err (ISOExc sw), (pin', _)) => (Ok [sw / 256; sw mod 256], pin')
      | (Err e, (pin', _)) => (Err e, pin')
      end
  end.

(** What happens to the card: it is selected (the applet's select calls reset of the
    PIN), or it gets a command. *)
Inductive card_event : Set :=
| CardSelect
| CardCommand (command : list Z).
Definition card_step (secret : list Z) (e : card_event) (pin : ownerpin) : res (list Z) * ownerpin :=
  match e with
  | CardSelect => let '(r, pin') := reset pin in (rmap (fun _ => []) r, pin')
  | CardCommand command => card_answer secret command pin
  end.
Fixpoint card_run (secret : list Z) (h : list card_event) (pin : ownerpin) : list (res (list Z)) * ownerpin :=
  match h with
  | [] => ([], pin)
  | e :: h' =>
      let '(r, pin') := card_step secret e pin in
      let '(rs, pin'') := card_run secret h' pin' in
      (r :: rs, pin'')
  end.

(** install: [self.pin = OwnerPIN(tryLimit, maxPINSize); self.pin.update(code, 0, len(code))] *)
Definition card_install (tryLimit maxPINSize : Z) (code : list Z) : ownerpin :=
  snd (update (PArr code) 0 (zlen code) (newOwnerPIN tryLimit maxPINSize)).
