(** * A reference for C119: one command-response exchange

    What the applet sees of the exchange, without lengths, offsets into the command and
    other bookkeeping: the command data still to be delivered, the buffer, what was sent. *)
From Verif Require Import Py S_Base S_APDU M_apdu S_ApduObs.

Inductive phase : Set := Initial | PartialIn | FullIn | Outgoing | LengthKnown | PartialOut | FullOut.
Definition phase_code (p : phase) : Z :=
  match p with Initial => 0 | PartialIn => 1 | FullIn => 2 | Outgoing => 3 | LengthKnown => 4 | PartialOut => 5 | FullOut => 6 end.
Definition incoming (p : phase) : bool := match p with Initial | PartialIn | FullIn => true | _ => false end.

Record session : Set := mkSes {
  se_phase : phase;
  se_left : list Z;            (* command data not yet delivered *)
  se_le : option Z;            (* expected length of the response *)
  se_out : Z;                  (* announced length of the response *)
  se_sent : list Z;            (* response so far, since the length was announced *)
  se_buf : list Z }.           (* the 257 cells of the applet's buffer *)

(** The next block of at most 128 bytes goes to the buffer at [off]; if it does not fit, the
    cells that do fit are written and IndexError is raised.  [none]: what is returned for a
    command without data and with an Le byte only. *)
Definition deliver (off : Z) (none : Z) (s : session) : res (option Z) * session :=
  let blk := firstn 128 (se_left s) in
  let rest := skipn 128 (se_left s) in
  if (zlen blk =? 0) || (off + zlen blk <=? 257) then
    (Ok (Some (if zlen blk =? 0 then none else zlen blk)),
     mkSes (match rest with [] => FullIn | _ => PartialIn end) rest (se_le s) (se_out s) (se_sent s)
       (if zlen blk =? 0 then se_buf s else splice (se_buf s) (Z.to_nat off) blk))
  else (Err IndexError,
     mkSes (se_phase s) (se_left s) (se_le s) (se_out s) (se_sent s)
       (if off <? 257 then splice (se_buf s) (Z.to_nat off) (firstn (Z.to_nat (257 - off)) blk) else se_buf s)).
Definition open_output (p : phase) (n : Z) (s : session) : session :=
  mkSes p (se_left s) (se_le s) n [] (se_buf s).
Definition announce (n : Z) (s : session) : res (option Z) * session :=
  if match se_le s with Some e => e <? n | None => false end then (Err (APDUExc BAD_LENGTH), s)
  else (Ok None, open_output LengthKnown n s).
Definition emit (data : list Z) (s : session) : res (option Z) * session :=
  let all := se_sent s ++ data in
  if 256 <? zlen all then (Err (APDUExc BUFFER_BOUNDS), s)
  else (Ok None, mkSes (if zlen all <? se_out s then PartialOut else FullOut) (se_left s) (se_le s) (se_out s) all (se_buf s)).

(** The exchange for a command whose data start at cell [first] of the command; [none] as above. *)
Definition ref_step (first none : Z) (o : apdu_op) (s : session) : res (option Z) * session :=
  let refuse := (Err (APDUExc ILLEGAL_USE), s) in
  match o with
  | OpSetIncomingAndReceive => match se_phase s with Initial => deliver first none s | _ => refuse end
  | OpReceiveBytes b => match se_phase s with PartialIn | FullIn => deliver b 0 s | _ => refuse end
  | OpSetOutgoing =>
      if incoming (se_phase s) then
        let n := match se_le s with Some e => e | None => 0 end in (Ok (Some n), open_output Outgoing n s)
      else refuse
  | OpSetOutgoingLength n => if incoming (se_phase s) then refuse else announce n s
  | OpSendBytes b n => if incoming (se_phase s) then refuse else emit (sub (se_buf s) (Z.to_nat b) (Z.to_nat n)) s
  | OpSendBytesLong d b n => if incoming (se_phase s) then (Err AttributeError, s) else emit (sub d (Z.to_nat b) (Z.to_nat n)) s
  | OpSetOutgoingAndSend b n =>
      if incoming (se_phase s) then
        let s1 := open_output Outgoing (match se_le s with Some e => e | None => 0 end) s in
        match announce n s1 with
        | (Err e, s2) => (Err e, s2)
        | (Ok _, s2) => emit (sub (se_buf s) (Z.to_nat b) (Z.to_nat n)) s2
        end
      else refuse
  | OpWriteBuffer i v => (Ok None, mkSes (se_phase s) (se_left s) (se_le s) (se_out s) (se_sent s) (splice (se_buf s) (Z.to_nat i) [v]))
  end.
Fixpoint ref_run (first none : Z) (ops : list apdu_op) (s : session) : list (apdu_op * res (option Z)) * session :=
  match ops with
  | [] => ([], s)
  | o :: ops' =>
      let '(r, s') := ref_step first none o s in
      let '(tr, s'') := ref_run first none ops' s' in
      ((o, r) :: tr, s'')
  end.

(** Commands the library decodes correctly (C23, C24), where their data start, and the cells
    of the header and of the length of the data. *)
Definition understood (c : command) : Prop :=
  match c with
  | Case3E _ => False
  | Case2E le | Case4E _ le => le = 65536 \/ le mod 256 <> 0
  | _ => True
  end.
Definition data_at (c : command) : Z := match c with Case4E _ _ => 7 | _ => 5 end.
Definition head_len (c : command) : nat := match c with Case1 => 4 | Case4E _ _ => 7 | _ => 5 end.
Definition only_le (c : command) : Z := match c with Case2S _ => -1 | _ => 0 end.
Definition ref_start (raw : list Z) (c : command) : session :=
  mkSes Initial (sub raw (Z.to_nat (data_at c)) (length (command_data c))) (command_le c) 0 []
    (firstn (head_len c) raw ++ repeat 0 (257 - head_len c)).

(** ranges inside the arrays (Python would read or write others from the end, or shift the
    response) *)
Definition op_in_range (o : apdu_op) : Prop :=
  match o with
  | OpReceiveBytes b => 0 <= b
  | OpSendBytes b n | OpSetOutgoingAndSend b n => in_range b n 257
  | OpSendBytesLong d b n => in_range b n (zlen d)
  | OpWriteBuffer i _ => 0 <= i < 257
  | _ => True
  end.

(** C119: every sequence of calls on an understood command has the outcomes, the buffer, the
    state and the response of the reference exchange. *)
Definition C119_full : Prop := forall raw0 c s ops, wf_command c -> understood c -> encodes raw0 c -> newAPDU raw0 = Ok s ->
  Forall op_in_range ops ->
  let '(tr, s') := apdu_run ops s in
  let '(tr', x) := ref_run (data_at c) (only_le c) ops (ref_start raw0 c) in
  tr = tr' /\ getBuffer s' = se_buf x /\ getCurrentState s' = phase_code (se_phase x)
  /\ (incoming (se_phase x) = false -> curout s' = Some (zlen (se_sent x)) /\ firstn (length (se_sent x)) (raw s') = se_sent x).
