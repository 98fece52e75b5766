(** * What an applet can observe of an APDU (vocabulary of the statements about
    C22-C31; only the calls of the model are used) *)
From Verif Require Import Py S_Base S_APDU M_apdu.

(** The outcome of decoding that an applet can observe. *)
Definition decoded_as (s : apdu) (nc : Z) (ne : option Z) (off : Z) : Prop :=
  getIncomingLength s = nc
  /\ fst (setOutgoing s) = Ok (match ne with Some n => n | None => 0 end)
  /\ (forall n, let '(r, s') := (setOutgoing ;;; setOutgoingLength n) s in
        match ne with
        | Some m => if n <=? m then r = Ok tt else r = Err (APDUExc BAD_LENGTH)
        | None => r = Ok tt
        end)
  /\ getOffsetCdata s = off
  /\ fst (setIncomingAndReceive s) <> Err (ISOExc SW_WRONG_LENGTH).

(** What a sequence of in-bounds sends (interleaved with writes of the applet
    into the buffer) sends, and that all its ranges are in bounds. *)
Fixpoint sent (ops : list apdu_op) (b : list Z) : list Z :=
  match ops with
  | OpSendBytes off n :: r => sub b (Z.to_nat off) (Z.to_nat n) ++ sent r b
  | OpSendBytesLong d off n :: r => sub d (Z.to_nat off) (Z.to_nat n) ++ sent r b
  | OpWriteBuffer i v :: r => sent r (splice b (Z.to_nat i) [v])
  | _ => []
  end.
Definition in_range (off n len : Z) : Prop := 0 <= off /\ 0 <= n /\ off + n <= len.
Definition send_in_range (o : apdu_op) : Prop :=
  match o with
  | OpSendBytes off n => in_range off n 257
  | OpSendBytesLong d off n => in_range off n (zlen d)
  | OpWriteBuffer i v => 0 <= i < 257
  | _ => False
  end.
Definition is_send (o : apdu_op) : bool :=
  match o with OpSendBytes _ _ | OpSendBytesLong _ _ _ => true | _ => false end.

(** The calls that begin the outgoing phase. *)
Definition starts_output (o : apdu_op) : bool :=
  match o with OpSetOutgoing | OpSetOutgoingAndSend _ _ => true | _ => false end.

(** The call is refused with ILLEGAL_USE and changes nothing. *)
Definition illegal {A} (m : M apdu A) (s : apdu) : Prop := m s = (Err (APDUExc ILLEGAL_USE), s).
