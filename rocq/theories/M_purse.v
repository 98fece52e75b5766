(** * A purse: the client of APDU and BigNumber that C143 is about

    The applet is not in /repo; what it calls is: APDU (M_apdu.v) and BigNumber
    (M_bignumber.v), and the handler of test/testApplet.py:69-84 around process. *)
From Verif Require Import Py M_utils M_util M_apdu M_world M_bignumber M_rsaapplet.

(** ISO7816.py:46, 36 *)
Definition SW_WRONG_DATA := 27264. (* 0x6A80 *)
Definition SW_INCORRECT_P1P2 := 27270. (* 0x6A86 *)

(** install: [self.balance = BigNumber(m); self.balance.init([0] * m, 0, m, FORMAT_HEX)]
    (math.py:43-65) *)
Definition purse_install (m : Z) : res bignum :=
  let? b := newBigNumber (Some m) in
  match init (Some (py_repeat 0 m)) 0 m FORMAT_HEX b with
  | (Ok _, b) => Ok b
  | (Err e, _) => Err e
  end.

(** The state is the balance and the APDU. *)
Definition in_big {A} (m : M bignum A) : M (bignum * apdu) A :=
  fun s => let '(r, b) := m (fst s) in (r, (b, snd s)).
Definition in_apdu {A} (m : M apdu A) : M (bignum * apdu) A :=
  fun s => let '(r, a) := m (snd s) in (r, (fst s, a)).
(** [try: ... except ArithmeticException: raise ISOException(SW_WRONG_DATA)] *)
Definition wrong_data {S A} (m : M S A) : M S A :=
  fun s => match m s with
           | (Err Arithmetic, s') => (Err (ISOExc SW_WRONG_DATA), s')
           | x => x
           end.

(** [self.balance.add(buffer, OFFSET_CDATA, n, fmt)]; with [guard] it then takes the amount
    back [if self.balance.compareTo([-1] * m, 0, m, FORMAT_HEX) > 0] *)
Definition purse_credit (guard : bool) (m n fmt : Z) : M (bignum * apdu) unit :=
  s <- get ;;
  let a := Some (buf (snd s)) in
  in_big (add a OFFSET_CDATA n fmt) ;;;
  if guard then
    s <- get ;;
    c <- lift (compareTo (fst s) (Some (py_repeat (-1) m)) 0 m FORMAT_HEX) ;;
    if 0 <? c then in_big (subtract a OFFSET_CDATA n fmt) ;;; raise (ISOExc SW_WRONG_DATA) else ret tt
  else ret tt.
(** [self.balance.subtract(buffer, OFFSET_CDATA, n, fmt)]; with [guard] only
    [if self.balance.compareTo(buffer, OFFSET_CDATA, n, fmt) >= 0] *)
Definition purse_debit (guard : bool) (n fmt : Z) : M (bignum * apdu) unit :=
  s <- get ;;
  let a := Some (buf (snd s)) in
  (if guard then
     c <- lift (compareTo (fst s) a OFFSET_CDATA n fmt) ;;
     if c <? 0 then raise (ISOExc SW_WRONG_DATA) else ret tt
   else ret tt) ;;;
  in_big (subtract a OFFSET_CDATA n fmt).
(** [self.balance.toBytes(buffer, OFFSET_CDATA, nb, fmt)], and send it *)
Definition purse_balance (nb fmt : Z) : M (bignum * apdu) unit :=
  s <- get ;;
  let '(r, b) := toBytes (fst s) OFFSET_CDATA nb fmt (buf (snd s)) in
  put (fst s, with_buf b (snd s)) ;;;
  lift r ;;;
  in_apdu (setOutgoing ;;; setOutgoingLength nb ;;; sendBytesLong b OFFSET_CDATA nb).

(** process: CREDIT is 0x30, DEBIT 0x40, BALANCE 0x50 with the number of bytes in P2; the
    format is P1.  The data of an amount are 1 to 128 bytes, which one call of
    setIncomingAndReceive delivers. *)
Definition purse_process (guard : bool) (m : Z) : M (bignum * apdu) unit :=
  s <- get ;;
  ins <- lift (py_get (buf (snd s)) OFFSET_INS) ;;
  p1 <- lift (py_get (buf (snd s)) OFFSET_P1) ;;
  p2 <- lift (py_get (buf (snd s)) 3) ;;
  if (ins =? 48) || (ins =? 64) then
    if (getIncomingLength (snd s) <? 1) || (128 <? getIncomingLength (snd s)) then raise (ISOExc SW_WRONG_LENGTH)
    else
      n <- in_apdu setIncomingAndReceive ;;
      wrong_data (if ins =? 48 then purse_credit guard m n p1 else purse_debit guard n p1)
  else if ins =? 80 then
    if 128 <? p2 then raise (ISOExc SW_INCORRECT_P1P2)
    else wrong_data (purse_balance p2 p1)
  else raise (ISOExc SW_INS_NOT_SUPPORTED).

(** the answer to a command (testApplet.py:72-80), and the balance afterwards *)
Definition purse_answer (guard : bool) (m : Z) (command : list Z) (b : bignum) : res (list Z) * bignum :=
  match newAPDU command with
  | Err e => (Err e, b)
  | Ok a =>
      match purse_process guard m (b, a) with
      | (Ok _, (b', a')) => (Ok (py_slice (raw a') 0 (outlen a') ++ [144; 0]), b')
      | (Err (ISOExc sw), (b', _)) => (Ok [sw / 256; sw mod 256], b')
      | (Err e, (b', _)) => (Err e, b')
      end
  end.
Fixpoint purse_run (guard : bool) (m : Z) (h : list (list Z)) (b : bignum) : list (res (list Z)) * bignum :=
  match h with
  | [] => ([], b)
  | command :: h' =>
      let '(r, b') := purse_answer guard m command b in
      let '(rs, b'') := purse_run guard m h' b' in
      (r :: rs, b'')
  end.
