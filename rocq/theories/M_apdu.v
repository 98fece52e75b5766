(** * Model of pythoncard/framework/apdu.py (class APDU)

    [raw] is the attribute __buffer (the list given to the constructor, which
    the code keeps and overwrites with the response), [buf] is the attribute
    buffer.  The global _current (apdu.py:31, 78-79, 246-256) is in
    M_world.v.  The methods whose body is [pass] (getNAD, setoutgoingNoChaining, waitExtension,
    isSecureMessagingCLA) are in M_cla.v, the constant getters in M_world.v.  The argument is a Python
    list of ints (with an immutable bytes object sendBytes would raise
    TypeError). *)
From Verif Require Import Py M_utils M_util.

(** ISO7816.py:16-21, 44; apdu.py:23-24; framework/__init__.py:43-45 *)
Definition OFFSET_CDATA := 5.
Definition OFFSET_CLA := 0.
Definition OFFSET_LC := 4.
Definition SW_WRONG_LENGTH := 26368. (* 0x6700 *)
Definition IN_BLOCKSIZE := 128.
Definition OUT_BLOCKSIZE := 256.
Definition BAD_LENGTH := 0.
Definition BUFFER_BOUNDS := 1.
Definition ILLEGAL_USE := 2.

(** apdu.py:38-44 *)
Definition STATE_INITIAL := 0.
Definition STATE_PARTIAL_INCOMING := 1.
Definition STATE_FULL_INCOMING := 2.
Definition STATE_OUTGOING := 3.
Definition STATE_OUTGOING_LENGTH_KNOWN := 4.
Definition STATE_PARTIAL_OUTGOING := 5.
Definition STATE_FULL_OUTGOING := 6.

(** The attributes set in apdu.py:59-114.  [curout] is None while the attribute
    _curoutgoinglength does not exist (it is created by setOutgoing and
    setOutgoingLength). *)
Record apdu : Set := mkAPDU {
  raw : list Z;
  buf : list Z;
  offin : Z;
  st : Z;
  broken : bool;
  cdataoffs : Z;
  type : Z;
  Nc : Z;
  Ne : option Z;
  lelength : Z;
  outlen : Z;
  curout : option Z }.

(** [for i in range(a, a+n): buffer[i] = bytesarr[i]] (apdu.py:65-66, 74-75) *)
Definition copy_cells (bytesarr : list Z) (a n : Z) : M (list Z) unit :=
  for_range a (a + n) (fun i => v <- lift (py_get bytesarr i) ;; aset i v).

(** apdu.py:117-123 *)
Definition getInLengths (b : list Z) : res (Z * Z) :=
  let? lc := py_get b OFFSET_LC in
  if lc =? 0 then
    let? x := py_get b (OFFSET_LC + 1) in
    let? y := py_get b (OFFSET_LC + 2) in
    Ok (u1 x * 256 + u1 y, 3)
  else Ok (u1 lc, 1).

(** apdu.py:125-139 *)
Definition getOutLengths (b : list Z) (length : Z) : res (Z * Z) :=
  let length := length - 1 in
  let? x := py_get b length in
  if x =? 0 then
    if negb (length =? OFFSET_LC) then
      let? lc := py_get b OFFSET_LC in
      if lc =? 0 then
        let? y := py_get b (length - 1) in
        if y =? 0 then Ok (65536, 2) else Ok (256, 1)
      else Ok (256, 1)
    else Ok (256, 1)
  else
    if negb (length =? OFFSET_LC) then
      let? lc := py_get b OFFSET_LC in
      if lc =? 0 then
        let? y := py_get b (length - 1) in
        Ok (u1 y * 256 + u1 x, 2)
      else Ok (u1 x, 1)
    else Ok (u1 x, 1).

(** the test of apdu.py:97-98 *)
Definition is_type3 (b : list Z) : res bool :=
  let? b4 := py_get b 4 in
  if zlen b =? b4 + 5 then Ok true
  else let? il := getInLengths b in Ok (zlen b =? fst il + 5).

(** apdu.py:59-114 *)
Definition newAPDU (b : list Z) : res apdu :=
  if zlen b <? 4 then Err (APDUExc BAD_LENGTH)
  else
    match copy_cells b 0 4 (py_repeat 0 (255 + 2)) with
    | (Err e, _) => Err e
    | (Ok _, buf4) =>
        let? P3len :=
          (if 4 <? zlen b then
             let? lc := py_get b OFFSET_LC in
             Ok (if (lc =? 0) && (OFFSET_LC + 3 <? zlen b) then 3 else 1)
           else Ok 0) in
        match copy_cells b OFFSET_LC P3len buf4 with
        | (Err e, _) => Err e
        | (Ok _, bufP3) =>
            let offin := 4 + P3len in
            if zlen b =? 4 then
              Ok (mkAPDU b bufP3 offin STATE_INITIAL false OFFSET_CDATA 1 0 None 0 0 None)
            else
              let? b4 := py_get b 4 in
              if (zlen b =? 5) || ((b4 =? 0) && (zlen b =? 7)) then
                let? ol := getOutLengths b (zlen b) in
                Ok (mkAPDU b bufP3 offin STATE_INITIAL false OFFSET_CDATA 2 0 (Some (fst ol)) (snd ol) 0 None)
              else
                let? t3 := is_type3 b in
                if t3 : bool then
                  let? il := getInLengths b in
                  Ok (mkAPDU b bufP3 offin STATE_INITIAL false (OFFSET_CDATA + (snd il - 1)) 3 (fst il) None 0 0 None)
                else
                  let? il := getInLengths b in
                  let? ol := getOutLengths b (zlen b) in
                  Ok (mkAPDU b bufP3 offin STATE_INITIAL
                        (negb (4 + snd il + snd ol + fst il =? zlen b))
                        (OFFSET_CDATA + (snd il - 1)) 4 (fst il) (Some (fst ol)) (snd ol) 0 None)
        end
    end.

(** attribute updates *)
Definition with_buf (b : list Z) (s : apdu) : apdu :=
  mkAPDU (raw s) b (offin s) (st s) (broken s) (cdataoffs s) (type s) (Nc s) (Ne s) (lelength s) (outlen s) (curout s).
Definition with_in (b : list Z) (o x : Z) (s : apdu) : apdu :=
  mkAPDU (raw s) b o x (broken s) (cdataoffs s) (type s) (Nc s) (Ne s) (lelength s) (outlen s) (curout s).
Definition with_out (r : list Z) (x n : Z) (c : option Z) (s : apdu) : apdu :=
  mkAPDU r (buf s) (offin s) x (broken s) (cdataoffs s) (type s) (Nc s) (Ne s) (lelength s) n c.

(** apdu.py:169-177 with bOffs = self._offsetincoming, and apdu.py:183-191: the
    two bodies are the same but for the destination offset.  If the store
    raises, the bytes already stored stay and nothing else changes. *)
Definition receive_block (bOffs : Z) : M apdu Z :=
  fun s =>
    let tobeprocessed := Z.min IN_BLOCKSIZE (zlen (raw s) - offin s - lelength s) in
    match for_range 0 tobeprocessed (fun i =>
            v <- lift (py_get (raw s) (offin s + i)) ;; aset (bOffs + i) v) (buf s) with
    | (Err e, b) => (Err e, with_buf b s)
    | (Ok _, b) =>
        let o := offin s + tobeprocessed in
        (Ok tobeprocessed,
         with_in b o (if o =? zlen (raw s) - lelength s
                      then STATE_FULL_INCOMING else STATE_PARTIAL_INCOMING) s)
    end.

(** apdu.py:160-177 *)
Definition setIncomingAndReceive : M apdu Z :=
  s <- get ;;
  if negb (st s =? STATE_INITIAL) then raise (APDUExc ILLEGAL_USE)
  else if broken s then raise (ISOExc SW_WRONG_LENGTH)
  else receive_block (offin s).

(** apdu.py:179-191 *)
Definition receiveBytes (bOffs : Z) : M apdu Z :=
  s <- get ;;
  if (st s <? STATE_PARTIAL_INCOMING) || (STATE_OUTGOING <=? st s)
  then raise (APDUExc ILLEGAL_USE)
  else receive_block bOffs.

(** apdu.py:276-278 *)
Definition getOutgoingLength (s : apdu) : Z :=
  match Ne s with Some n => n | None => 0 end.

(** apdu.py:193-200 *)
Definition setOutgoing : M apdu Z :=
  s <- get ;;
  if STATE_OUTGOING <=? st s then raise (APDUExc ILLEGAL_USE)
  else
    let outgoinglength := getOutgoingLength s in
    put (with_out (raw s) STATE_OUTGOING outgoinglength (Some 0) s) ;;;
    ret outgoinglength.

(** apdu.py:205-212 *)
Definition setOutgoingLength (len : Z) : M apdu unit :=
  s <- get ;;
  if st s <? STATE_OUTGOING then raise (APDUExc ILLEGAL_USE)
  else if (match Ne s with Some n => n <? len | None => false end)
  then raise (APDUExc BAD_LENGTH)
  else put (with_out (raw s) STATE_OUTGOING_LENGTH_KNOWN len (Some 0) s).

(** apdu.py:217-224 and 229-236: [data] is the slice that is sent.  Reading the
    missing attribute _curoutgoinglength raises AttributeError. *)
Definition send_block (src : list Z) (bOffs len : Z) : M apdu unit :=
  s <- get ;;
  match curout s with
  | None => raise AttributeError
  | Some c =>
      if OUT_BLOCKSIZE <? c + len then raise (APDUExc BUFFER_BOUNDS)
      else
        put (with_out (py_slice_set (raw s) c (c + len) (py_slice src bOffs (bOffs + len)))
               (if c + len <? outlen s then STATE_PARTIAL_OUTGOING else STATE_FULL_OUTGOING)
               (outlen s) (Some (c + len)) s)
  end.

(** apdu.py:214-224 *)
Definition sendBytes (bOffs len : Z) : M apdu unit :=
  s <- get ;;
  if st s <? STATE_OUTGOING then raise (APDUExc ILLEGAL_USE)
  else send_block (buf s) bOffs len.

(** apdu.py:226-236 *)
Definition sendBytesLong (outData : list Z) (bOffs len : Z) : M apdu unit :=
  s <- get ;;
  if (STATE_PARTIAL_OUTGOING <? st s) && (st s <? STATE_OUTGOING_LENGTH_KNOWN)
  then raise (APDUExc ILLEGAL_USE)
  else send_block outData bOffs len.

(** apdu.py:238-241 *)
Definition setOutgoingAndSend (bOffs len : Z) : M apdu unit :=
  setOutgoing ;;; setOutgoingLength len ;;; sendBytes bOffs len.

(** apdu.py:262-264, 269-271 *)
Definition isCommandChainingCLA (s : apdu) : res bool :=
  let? cla := py_get (raw s) OFFSET_CLA in Ok (negb (Z.land cla 16 =? 0)).
Definition isISOInterindustryCLA (s : apdu) : res bool :=
  let? cla := py_get (raw s) OFFSET_CLA in Ok (Z.land cla 128 =? 0).

(** apdu.py:142-143, 243-244, 273-274, 280-281 *)
Definition getBuffer (s : apdu) : list Z := buf s.
Definition getCurrentState (s : apdu) : Z := st s.
Definition getIncomingLength (s : apdu) : Z := Nc s.
Definition getOffsetCdata (s : apdu) : Z := cdataoffs s.

(** The calls an applet can make on its APDU, including writing a cell of the
    buffer it obtained from getBuffer (not a method: the applet's own code). *)
Inductive apdu_op : Set :=
| OpSetIncomingAndReceive
| OpReceiveBytes (bOffs : Z)
| OpSetOutgoing
| OpSetOutgoingLength (len : Z)
| OpSendBytes (bOffs len : Z)
| OpSendBytesLong (outData : list Z) (bOffs len : Z)
| OpSetOutgoingAndSend (bOffs len : Z)
| OpWriteBuffer (i v : Z).

Definition mvoid {S A} (m : M S A) : M S (option Z) := m ;;; ret None.
Definition msome {S} (m : M S Z) : M S (option Z) := z <- m ;; ret (Some z).

Definition apdu_step (o : apdu_op) : M apdu (option Z) :=
  match o with
  | OpSetIncomingAndReceive => msome setIncomingAndReceive
  | OpReceiveBytes b => msome (receiveBytes b)
  | OpSetOutgoing => msome setOutgoing
  | OpSetOutgoingLength n => mvoid (setOutgoingLength n)
  | OpSendBytes b n => mvoid (sendBytes b n)
  | OpSendBytesLong d b n => mvoid (sendBytesLong d b n)
  | OpSetOutgoingAndSend b n => mvoid (setOutgoingAndSend b n)
  | OpWriteBuffer i v =>
      fun s => match aset i v (buf s) with
               | (Ok _, b) => (Ok None, with_buf b s)
               | (Err e, _) => (Err e, s)
               end
  end.

(** A history: outcomes in order and final object; exceptions are caught. *)
Fixpoint apdu_run (ops : list apdu_op) (s : apdu) : list (apdu_op * res (option Z)) * apdu :=
  match ops with
  | [] => ([], s)
  | o :: ops' =>
      let '(r, s') := apdu_step o s in
      let '(tr, s'') := apdu_run ops' s' in
      ((o, r) :: tr, s'')
  end.

(** The usual receive loop of an applet (not library code): call receiveBytes
    until it returns 0, collecting the bytes it put into the buffer. *)
Fixpoint receive_loop (fuel : nat) (bOffs : Z) (acc : list (list Z)) : M apdu (list (list Z)) :=
  match fuel with
  | O => raise OutOfFuel
  | S f =>
      n <- receiveBytes bOffs ;;
      if n =? 0 then ret acc
      else s <- get ;; receive_loop f bOffs (acc ++ [py_slice (buf s) bOffs (bOffs + n)])
  end.
Definition receive_all (fuel : nat) (bOffs : Z) : M apdu (list (list Z)) :=
  s0 <- get ;;
  n <- setIncomingAndReceive ;;
  s <- get ;;
  receive_loop fuel bOffs [py_slice (buf s) (getOffsetCdata s0) (getOffsetCdata s0 + n)].
