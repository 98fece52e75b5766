(** * An APDU constructed from an immutable bytes object: pythoncard/framework/apdu.py

    The constructor keeps the object it is given in __buffer (apdu.py:62) and only
    reads it; the methods that send assign to a slice of it (lines 219 and 231).  A
    bytes object refuses that with TypeError, after the right-hand side has been
    evaluated and before anything else is changed.  All other methods read __buffer
    only and are those of M_apdu.v; the integers read from a bytes object are
    0 to 255. *)
From Verif Require Import Py M_util M_apdu.

(** apdu.py:217-224 and 229-236 with __buffer a bytes object *)
Definition send_block_b (len : Z) : M apdu unit :=
  s <- get ;;
  match curout s with
  | None => raise AttributeError
  | Some c =>
      if OUT_BLOCKSIZE <? c + len then raise (APDUExc BUFFER_BOUNDS)
      else raise TypeError
  end.
(** apdu.py:214-224 *)
Definition sendBytes_b (bOffs len : Z) : M apdu unit :=
  s <- get ;;
  if st s <? STATE_OUTGOING then raise (APDUExc ILLEGAL_USE)
  else send_block_b len.
(** apdu.py:226-236 *)
Definition sendBytesLong_b (outData : list Z) (bOffs len : Z) : M apdu unit :=
  s <- get ;;
  if (STATE_PARTIAL_OUTGOING <? st s) && (st s <? STATE_OUTGOING_LENGTH_KNOWN)
  then raise (APDUExc ILLEGAL_USE)
  else send_block_b len.
(** apdu.py:238-241 *)
Definition setOutgoingAndSend_b (bOffs len : Z) : M apdu unit :=
  setOutgoing ;;; setOutgoingLength len ;;; sendBytes_b bOffs len.

Definition apdu_step_b (o : apdu_op) : M apdu (option Z) :=
  match o with
  | OpSendBytes b n => mvoid (sendBytes_b b n)
  | OpSendBytesLong d b n => mvoid (sendBytesLong_b d b n)
  | OpSetOutgoingAndSend b n => mvoid (setOutgoingAndSend_b b n)
  | _ => apdu_step o
  end.
Fixpoint apdu_run_b (ops : list apdu_op) (s : apdu) : list (apdu_op * res (option Z)) * apdu :=
  match ops with
  | [] => ([], s)
  | o :: ops' =>
      let '(r, s') := apdu_step_b o s in
      let '(tr, s'') := apdu_run_b ops' s' in
      ((o, r) :: tr, s'')
  end.
