(** * A card that keeps data objects: the client of APDU and the TLV package that C146 is about

    The applet is not in /repo; what it calls is: APDU (M_apdu.v), BERTag (M_bertag.v), BERTLV
    and ConstructedBERTLV (M_bertlv.v), and the handler of test/testApplet.py:69-84 around
    process. *)
From Verif Require Import Py M_utils M_util M_apdu M_world M_bertag M_bertlv M_rsaapplet M_purse M_chalcard.

(** ISO7816.py:41 *)
Definition SW_RECORD_NOT_FOUND := 27267.

(** install: [self.store = ConstructedBERTLV(); self.store.init(BERTag.getInstance([0x61], 0), [], 0, 0)]
    (bertag.py:31-41, bertlv.py:99-109).  The state is the store and the APDU. *)
Definition data_install : res tlv :=
  let? g := BERTag_getInstance [97] 0 in
  Ok (init_tag (newTLV true) g [] 0 0).

(** [buffer[OFFSET_CDATA] & 31 == 31: raise ISOException(SW_WRONG_DATA)] (tags of one byte only);
    [tlv = BERTLV.getInstance(buffer, OFFSET_CDATA)
     if tlv.size() != n: raise ISOException(SW_WRONG_DATA)
     self.store.append(tlv)] *)
Definition data_put (n : Z) : M (tlv * apdu) unit :=
  s <- get ;;
  let b := buf (snd s) in
  tb <- lift (py_get b OFFSET_CDATA) ;;
  if Z.land tb 31 =? 31 then raise (ISOExc SW_WRONG_DATA)
  else
    t <- lift (getInstance b OFFSET_CDATA None) ;;
    size <- lift (tlv_size t) ;;
    if negb (size =? n) then raise (ISOExc SW_WRONG_DATA)
    else
      let '(r, store) := append t (fst s) in
      put (store, snd s) ;;;
      lift r ;;;
      ret tt.

(** [if buffer[OFFSET_P2] & 31 == 31: raise ISOException(SW_INCORRECT_P1P2)
     found = self.store.find(BERTag.getInstance(buffer, OFFSET_P2))
     if found is None: raise ISOException(SW_RECORD_NOT_FOUND)
     n = found.toBytes(buffer, OFFSET_CDATA); apdu.setOutgoing(); apdu.setOutgoingLength(n);
     apdu.sendBytesLong(buffer, OFFSET_CDATA, n)]
    The fuel of find is enough: every object has a byte. *)
Definition data_get : M (tlv * apdu) unit :=
  s <- get ;;
  let b := buf (snd s) in
  p2 <- lift (py_get b 3) ;;
  if Z.land p2 31 =? 31 then raise (ISOExc SW_INCORRECT_P1P2)
  else
    g <- lift (BERTag_getInstance b 3) ;;
    f <- lift (findBound (Z.to_nat (tlen (fst s) + 1)) (fst s) (Some g)) ;;
    match f with
    | None => raise (ISOExc SW_RECORD_NOT_FOUND)
    | Some t =>
        let '(r, b) := tlv_toBytes t OFFSET_CDATA b in
        put (fst s, with_buf b (snd s)) ;;;
        n <- lift r ;;
        with_apdu (setOutgoing ;;; setOutgoingLength n ;;; sendBytesLong b OFFSET_CDATA n)
    end.

(** process: PUT DATA is 0xDA with 2 to 128 bytes of data, GET DATA 0xCA with the tag in P2. *)
Definition data_process : M (tlv * apdu) unit :=
  s <- get ;;
  ins <- lift (py_get (buf (snd s)) OFFSET_INS) ;;
  if ins =? 218 then
    if (getIncomingLength (snd s) <? 2) || (128 <? getIncomingLength (snd s)) then raise (ISOExc SW_WRONG_LENGTH)
    else n <- with_apdu setIncomingAndReceive ;; data_put n
  else if ins =? 202 then data_get
  else raise (ISOExc SW_INS_NOT_SUPPORTED).

(** the answer to a command (testApplet.py:72-80), and the store afterwards *)
Definition data_answer (command : list Z) (store : tlv) : res (list Z) * tlv :=
  match newAPDU command with
  | Err e => (Err e, store)
  | Ok a =>
      match data_process (store, a) with
      | (Ok _, (store', a')) => (Ok (py_slice (raw a') 0 (outlen a') ++ [144; 0]), store')
      | (Err (ISOExc sw), (store', _)) => (Ok [sw / 256; sw mod 256], store')
      | (Err e, (store', _)) => (Err e, store')
      end
  end.
Fixpoint data_run (h : list (list Z)) (store : tlv) : list (res (list Z)) * tlv :=
  match h with
  | [] => ([], store)
  | command :: h' =>
      let '(r, store') := data_answer command store in
      let '(rs, store'') := data_run h' store' in
      (r :: rs, store'')
  end.
