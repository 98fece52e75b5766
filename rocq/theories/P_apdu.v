(** * C22-C31: APDU: property theorems *)
From Verif Require Import LP_apdu Py S_Base S_APDU L_Py M_utils M_util L_utils L_util M_apdu S_ApduObs L_apdu.
From Coq Require Import ZifyBool ZifyNat.
Ltac Zify.zify_post_hook ::= Z.div_mod_to_equations.

(** C22: fewer than 4 bytes are refused; an accepted APDU is in STATE_INITIAL
    and its buffer has 257 cells: the received header (and P3: one length byte,
    or three when it is extended and followed by something), then zeros. *)
Theorem C22_constructor : forall b,
  (zlen b < 4 -> newAPDU b = Err (APDUExc BAD_LENGTH))
  /\ (forall s, newAPDU b = Ok s ->
      4 <= zlen b
      /\ getCurrentState s = STATE_INITIAL
      /\ length (getBuffer s) = 257%nat
      /\ exists k, (k = 4 \/ 5 <= k <= 7)%nat /\ (zlen b = 4 <-> k = 4%nat)
         /\ (k <= length b)%nat
         /\ ((5 < k)%nat -> k = 7%nat /\ nth 4 b 1 = 0 /\ (7 < length b)%nat)
         /\ getBuffer s = firstn k b ++ repeat 0 (257 - k)).
Proof. exact C22_constructor_pf. Qed.
Print Assumptions C22_constructor.

Example C22_ex : exists s, newAPDU [0; -92; 4; 0; 2; 63; 0] = Ok s
  /\ firstn 8 (getBuffer s) = [0; -92; 4; 0; 2; 0; 0; 0].
Proof. eexists; split; vm_compute; reflexivity. Qed.

(** C23: every well-formed short command is accepted and decoded. *)
Theorem C23_short : forall raw c, wf_command c -> is_short c = true -> encodes raw c ->
  exists s, newAPDU raw = Ok s
    /\ decoded_as s (zlen (command_data c)) (command_le c) 5.
Proof. exact C23_short_pf. Qed.
Print Assumptions C23_short.

Example C23_ex : wf_command (Case4S [1; 200] 256)
  /\ encodes [0; -92; 4; 0; 2; 1; -56; 0] (Case4S [1; 200] 256).
Proof.
  split.
  - split; [repeat constructor; unfold ubyte; lia|]. cbn. lia.
  - split; [repeat constructor; unfold anybyte; lia|]. exists 0, 164, 4, 0. reflexivity.
Qed.

(** C24 is false of every case 3E command: it is accepted by the constructor
    but then refused as malformed. *)
Theorem C24_case3E_refuted : forall raw d, wf_command (Case3E d) -> encodes raw (Case3E d) ->
  exists s, newAPDU raw = Ok s /\ setIncomingAndReceive s = (Err (ISOExc SW_WRONG_LENGTH), s).
Proof. exact C24_case3E_refuted_pf. Qed.
Print Assumptions C24_case3E_refuted.

Example C24_ex1 : wf_command (Case3E [1; 2]) /\ encodes [0; 0; 0; 0; 0; 0; 2; 1; 2] (Case3E [1; 2]).
Proof.
  split; [split; [repeat constructor; unfold ubyte; lia|cbn; lia]|].
  split; [repeat constructor; unfold anybyte; lia|]. exists 0, 0, 0, 0. reflexivity.
Qed.

(** C24 is also false when Le is a multiple of 256 other than 65536: case 2E
    is decoded as Le = 256 (and one byte of Le is received as data), case 4E is
    refused as malformed. *)
Theorem C24_le_refuted : forall raw d le, le mod 256 = 0 -> le <> 65536 ->
  (wf_command (Case2E le) -> encodes raw (Case2E le) ->
     exists s, newAPDU raw = Ok s /\ fst (setOutgoing s) = Ok 256
       /\ fst (setIncomingAndReceive s) = Ok 1)
  /\ (wf_command (Case4E d le) -> encodes raw (Case4E d le) ->
     exists s, newAPDU raw = Ok s /\ setIncomingAndReceive s = (Err (ISOExc SW_WRONG_LENGTH), s)).
Proof. exact C24_le_refuted_pf. Qed.
Print Assumptions C24_le_refuted.

(** C24, what holds: cases 2E and 4E are decoded when Le is 65536 or not a
    multiple of 256.  (Missing: case 3E and the other Le; getOffsetCdata is 5,
    not 7, in case 2E, which has no data.) *)
Theorem C24_extended_partial : forall raw d le, le = 65536 \/ le mod 256 <> 0 ->
  (wf_command (Case2E le) -> encodes raw (Case2E le) ->
     exists s, newAPDU raw = Ok s /\ decoded_as s 0 (Some le) 5)
  /\ (wf_command (Case4E d le) -> encodes raw (Case4E d le) ->
     exists s, newAPDU raw = Ok s /\ decoded_as s (zlen d) (Some le) 7).
Proof. exact C24_extended_partial_pf. Qed.
Print Assumptions C24_extended_partial.

Example C24_ex2 : wf_command (Case4E [7] 258) /\ encodes [0; 0; 0; 0; 0; 0; 1; 7; 1; 2] (Case4E [7] 258)
  /\ wf_command (Case2E 512) /\ encodes [0; 0; 0; 0; 0; 2; 0] (Case2E 512).
Proof.
  split; [split; [repeat constructor; unfold ubyte; lia|cbn; lia]|].
  split; [split; [repeat constructor; unfold anybyte; lia|exists 0, 0, 0, 0; reflexivity]|].
  split; [split; [constructor|cbn; lia]|].
  split; [repeat constructor; unfold anybyte; lia|exists 0, 0, 0, 0; reflexivity].
Qed.

(** C25: for every command with data that the library accepts, the receive
    loop ends (any fuel above the data length is enough) and the chunks, each
    at most 128 bytes, are the command data in order. *)
Theorem C25_receive_loop : forall raw c s fuel off,
  wf_command c -> encodes raw c -> command_data c <> [] ->
  newAPDU raw = Ok s -> fst (setIncomingAndReceive s) <> Err (ISOExc SW_WRONG_LENGTH) ->
  zlen (command_data c) < Z.of_nat fuel -> 0 <= off -> off + 128 <= 257 ->
  exists chunks s', receive_all fuel off s = (Ok chunks, s')
    /\ Forall (fun ch => zlen ch <= 128) chunks
    /\ concat chunks = sub raw (Z.to_nat (getOffsetCdata s)) (length (command_data c))
    /\ map (fun b => b mod 256) (concat chunks) = command_data c
    /\ getCurrentState s' = STATE_FULL_INCOMING.
Proof. exact C25_receive_loop_pf. Qed.
Print Assumptions C25_receive_loop.

Example C25_ex : exists s ch s', newAPDU ([0; 0; 0; 0; 200] ++ repeat 7 150 ++ repeat 9 50) = Ok s
  /\ receive_all 201 5 s = (Ok ch, s') /\ map (@length Z) ch = [128; 72]%nat
  /\ concat ch = repeat 7 150 ++ repeat 9 50.
Proof. do 3 eexists. split; [vm_compute; reflexivity|]. split; [vm_compute; reflexivity|]. split; vm_compute; reflexivity. Qed.

(** C26 is false of every 5-byte command (case 2S): setIncomingAndReceive
    returns -1. *)
Theorem C26_case2S_refuted : forall raw s, length raw = 5%nat -> newAPDU raw = Ok s ->
  fst (setIncomingAndReceive s) = Ok (-1).
Proof. exact C26_case2S_refuted_pf. Qed.
Print Assumptions C26_case2S_refuted.

Example C26_ex : exists s, newAPDU [0; 176; 0; 0; 16] = Ok s /\ fst (setIncomingAndReceive s) = Ok (-1).
Proof. eexists; split; vm_compute; reflexivity. Qed.

(** C26, what holds: in every history on every APDU, a receive call that
    returns gives a count in 0..128, except setIncomingAndReceive on a 5-byte
    command. *)
Theorem C26_counts_partial : forall raw s ops tr s', newAPDU raw = Ok s -> apdu_run ops s = (tr, s') ->
  Forall (fun x =>
    match x with
    | (OpSetIncomingAndReceive, Ok (Some n)) => length raw = 5%nat /\ n = -1 \/ length raw <> 5%nat /\ 0 <= n <= 128
    | (OpReceiveBytes _, Ok (Some n)) => 0 <= n <= 128
    | _ => True
    end) tr.
Proof. exact C26_counts_partial_pf. Qed.
Print Assumptions C26_counts_partial.

(** C26, the count is the number of bytes copied: a receive into a non-negative
    offset that returns n has put the next n command bytes at that offset and
    changed no other cell. *)
Theorem C26_copied_partial : forall bOffs s n s', 0 <= bOffs -> length (buf s) = 257%nat ->
  0 <= offin s -> 0 <= lelength s ->
  receiveBytes bOffs s = (Ok n, s') -> 0 <= n ->
  (bOffs + n <= 257 \/ n = 0)
  /\ buf s' = splice (buf s) (Z.to_nat bOffs) (sub (raw s) (Z.to_nat (offin s)) (Z.to_nat n))
  /\ offin s' = offin s + n /\ raw s' = raw s.
Proof. exact C26_copied_partial_pf. Qed.
Print Assumptions C26_copied_partial.

Example C26_ex2 : exists s s1, newAPDU ([0; 0; 0; 0; 130] ++ repeat 7 130) = Ok s
  /\ setIncomingAndReceive s = (Ok 128, s1) /\ fst (receiveBytes 5 s1) = Ok 2 /\ offin s1 = 133.
Proof. do 2 eexists. split; [vm_compute; reflexivity|]. split; [vm_compute; reflexivity|]. split; vm_compute; reflexivity. Qed.

(** C27: after setOutgoingLength(n), any sequence of in-bounds sends of at most
    256 bytes in all succeeds; the response starts with exactly the sent bytes
    in order; once something was sent the state is STATE_FULL_OUTGOING iff at
    least n bytes were sent. *)
Theorem C27_response : forall n s0 s ops, length (buf s0) = 257%nat ->
  setOutgoingLength n s0 = (Ok tt, s) ->
  Forall send_in_range ops -> zlen (sent ops (getBuffer s)) <= 256 ->
  let '(tr, s') := apdu_run ops s in
  Forall (fun x => snd x = Ok None) tr
  /\ firstn (length (sent ops (getBuffer s))) (raw s') = sent ops (getBuffer s)
  /\ (existsb is_send ops = true ->
        (getCurrentState s' = STATE_FULL_OUTGOING <-> n <= zlen (sent ops (getBuffer s)))
        /\ (getCurrentState s' = STATE_PARTIAL_OUTGOING <-> zlen (sent ops (getBuffer s)) < n)).
Proof. exact C27_response_pf. Qed.
Print Assumptions C27_response.

(** C27, sending past 256 bytes raises BUFFER_BOUNDS and changes nothing. *)
Theorem C27_bounds : forall s c off n d, 3 <= getCurrentState s -> curout s = Some c -> 256 < c + n ->
  sendBytes off n s = (Err (APDUExc BUFFER_BOUNDS), s)
  /\ sendBytesLong d off n s = (Err (APDUExc BUFFER_BOUNDS), s).
Proof. exact C27_bounds_pf. Qed.
Print Assumptions C27_bounds.

(** C27, setOutgoingAndSend: from any state in which nothing is outgoing yet. *)
Theorem C27_setOutgoingAndSend : forall s off n, getCurrentState s < 3 -> length (buf s) = 257%nat ->
  in_range off n 257 -> n <= 256 -> (forall m, Ne s = Some m -> n <= m) ->
  exists s', setOutgoingAndSend off n s = (Ok tt, s')
    /\ firstn (Z.to_nat n) (raw s') = sub (getBuffer s) (Z.to_nat off) (Z.to_nat n)
    /\ getCurrentState s' = STATE_FULL_OUTGOING.
Proof. exact C27_setOutgoingAndSend_pf. Qed.
Print Assumptions C27_setOutgoingAndSend.

Example C27_ex : exists s s1 s2, newAPDU [0; 176; 0; 0; 16] = Ok s
  /\ setOutgoing s = (Ok 16, s1) /\ setOutgoingLength 4 s1 = (Ok tt, s2)
  /\ sent [OpWriteBuffer 9 55; OpSendBytes 8 3; OpSendBytesLong [1; 2; 3] 1 1] (getBuffer s2) = [0; 55; 0; 2]
  /\ firstn 4 (raw (snd (apdu_run [OpWriteBuffer 9 55; OpSendBytes 8 3; OpSendBytesLong [1; 2; 3] 1 1] s2))) = [0; 55; 0; 2].
Proof. do 3 eexists. repeat (split; [vm_compute; reflexivity|]). vm_compute; reflexivity. Qed.

(** C28 is false: the length can be announced again and again; *)
Theorem C28_second_length_refuted : forall s n m s', setOutgoingLength n s = (Ok tt, s') ->
  (forall e, Ne s = Some e -> m <= e) -> exists s'', setOutgoingLength m s' = (Ok tt, s'').
Proof. exact C28_second_length_refuted_pf. Qed.
Print Assumptions C28_second_length_refuted.

(** sending is possible before the length was announced; *)
Theorem C28_send_early_refuted : forall s r s' off n, setOutgoing s = (Ok r, s') ->
  length (buf s) = 257%nat -> in_range off n 257 -> n <= 256 ->
  exists s'', sendBytes off n s' = (Ok tt, s'')
    /\ firstn (Z.to_nat n) (raw s'') = sub (buf s) (Z.to_nat off) (Z.to_nat n).
Proof. exact C28_send_early_refuted_pf. Qed.
Print Assumptions C28_send_early_refuted.

Theorem C28_sendBytesLong_refuted : forall raw s ops tr s' d off n,
  newAPDU raw = Ok s -> apdu_run ops s = (tr, s') -> existsb starts_output ops = false ->
  sendBytesLong d off n s' = (Err AttributeError, s').
Proof. exact C28_sendBytesLong_refuted_pf. Qed.
Print Assumptions C28_sendBytesLong_refuted.

Theorem C28_order_partial : forall raw s ops tr s', newAPDU raw = Ok s -> apdu_run ops s = (tr, s') ->
  ((exists n, In (OpSetOutgoing, Ok n) tr) ->
     illegal setIncomingAndReceive s' /\ (forall b, illegal (receiveBytes b) s')
     /\ illegal setOutgoing s' /\ (forall b n, illegal (setOutgoingAndSend b n) s'))
  /\ ((exists n, In (OpSetIncomingAndReceive, Ok n) tr) -> illegal setIncomingAndReceive s')
  /\ (existsb starts_output ops = false ->
        (forall n, illegal (setOutgoingLength n) s') /\ (forall b n, illegal (sendBytes b n) s'))
  /\ (existsb starts_output ops = false -> ~ In OpSetIncomingAndReceive ops ->
        forall b, illegal (receiveBytes b) s').
Proof. exact C28_order_partial_pf. Qed.
Print Assumptions C28_order_partial.

Example C28_ex : exists s tr s', newAPDU [0; 176; 0; 0; 16] = Ok s
  /\ apdu_run [OpSetIncomingAndReceive; OpSetOutgoing; OpSetOutgoingLength 3; OpSetOutgoingLength 4; OpSendBytes 0 4] s = (tr, s')
  /\ map snd tr = [Ok (Some (-1)); Ok (Some 16); Ok None; Ok None; Ok None]
  /\ In (OpSetOutgoing, Ok (Some 16)) tr.
Proof.
  do 3 eexists. split; [vm_compute; reflexivity|]. split; [vm_compute; reflexivity|].
  split; [reflexivity|]. cbn. auto.
Qed.

(** C29 is false: whatever length below 256 was announced, one byte more can be
    sent. *)
Theorem C29_oversend_refuted : forall n s0 s, length (buf s0) = 257%nat -> 0 <= n < 256 ->
  setOutgoingLength n s0 = (Ok tt, s) ->
  exists s', sendBytes 0 (n + 1) s = (Ok tt, s')
    /\ firstn (Z.to_nat (n + 1)) (raw s') = sub (getBuffer s) 0 (Z.to_nat (n + 1))
    /\ getCurrentState s' = STATE_FULL_OUTGOING.
Proof. exact C29_oversend_refuted_pf. Qed.
Print Assumptions C29_oversend_refuted.

(** C29, what holds in every history: the sent total never exceeds 256 (the
    size of the response area used), and the announced length never exceeds
    Le when the command has one. *)
Theorem C29_limits_partial : forall raw s ops tr s', newAPDU raw = Ok s -> apdu_run ops s = (tr, s') ->
  (forall c, curout s' = Some c -> c <= 256)
  /\ (forall e, Ne s = Some e -> outlen s' <= e)
  /\ Forall (fun x => match x with
       | (OpSetOutgoingLength n, Ok _) => forall e, Ne s = Some e -> n <= e
       | _ => True end) tr.
Proof. exact C29_limits_partial_pf. Qed.
Print Assumptions C29_limits_partial.

Example C29_ex : exists s s1 s2 s3, newAPDU [0; 176; 0; 0; 2] = Ok s /\ setOutgoing s = (Ok 2, s1)
  /\ setOutgoingLength 2 s1 = (Ok tt, s2) /\ sendBytes 0 3 s2 = (Ok tt, s3) /\ firstn 3 (raw s3) = [0; 176; 0].
Proof. do 4 eexists. repeat (split; [vm_compute; reflexivity|]). vm_compute; reflexivity. Qed.

(** C30 is false: sending a byte changes the answers. *)
Theorem C30_cla_refuted : exists raw s ops tr s', newAPDU raw = Ok s /\ apdu_run ops s = (tr, s')
  /\ Forall (fun x => is_ok (snd x) = true) tr
  /\ isISOInterindustryCLA s <> isISOInterindustryCLA s'
  /\ isCommandChainingCLA s <> isCommandChainingCLA s'.
Proof. exact C30_cla_refuted_pf. Qed.
Print Assumptions C30_cla_refuted.

(** C30, what holds: the answers are bits 7 and 4 of the CLA byte received, after
    any history without successful sends. *)
Theorem C30_cla_partial : forall raw s ops tr s' cla, newAPDU raw = Ok s -> nth_error raw 0 = Some cla ->
  apdu_run ops s = (tr, s') ->
  Forall (fun x => match x with
     | ((OpSendBytes _ _ | OpSendBytesLong _ _ _ | OpSetOutgoingAndSend _ _), Ok _) => False
     | _ => True end) tr ->
  isISOInterindustryCLA s' = Ok (negb (Z.testbit cla 7))
  /\ isCommandChainingCLA s' = Ok (Z.testbit cla 4).
Proof. exact C30_cla_partial_pf. Qed.
Print Assumptions C30_cla_partial.

Example C30_ex : exists s tr s', newAPDU [-112; 176; 0; 0; 2] = Ok s
  /\ apdu_run [OpSetIncomingAndReceive; OpWriteBuffer 0 0; OpSetOutgoing; OpSetOutgoingLength 2] s = (tr, s')
  /\ Forall (fun x => is_ok (snd x) = true) tr
  /\ isISOInterindustryCLA s' = Ok false /\ isCommandChainingCLA s' = Ok true.
Proof. do 3 eexists. do 2 (split; [vm_compute; reflexivity|]). split; [repeat constructor|]. split; reflexivity. Qed.

(** C31 is false: a 6-byte command with a zero fifth byte is no well-formed
    command, and the constructor itself raises IndexError; *)
Theorem C31_six_bytes_refuted : forall raw, length raw = 6%nat -> nth 4 raw 1 = 0 ->
  newAPDU raw = Err IndexError /\ ~ (exists c, wf_command c /\ encodes raw c).
Proof. exact C31_six_bytes_refuted_pf. Qed.
Print Assumptions C31_six_bytes_refuted.

(** an extended command that declares two data bytes more than it has is
    accepted and received; *)
Theorem C31_too_short_refuted : forall raw, 8 <= zlen raw -> nth 4 raw 1 = 0 ->
  zlen raw = (nth 5 raw 0) mod 256 * 256 + (nth 6 raw 0) mod 256 + 5 ->
  ~ (exists c, wf_command c /\ encodes raw c)
  /\ exists s n s', newAPDU raw = Ok s /\ setIncomingAndReceive s = (Ok n, s') /\ 0 < n.
Proof. exact C31_too_short_refuted_pf. Qed.
Print Assumptions C31_too_short_refuted.

Example C31_ex1 : exists s s', newAPDU [0; 0; 0; 0; 0; 0; 5; 1; 2; 3] = Ok s
  /\ setIncomingAndReceive s = (Ok 3, s') /\ getIncomingLength s' = 5.
Proof. do 2 eexists. split; [vm_compute; reflexivity|]. split; vm_compute; reflexivity. Qed.

(** C31, what holds for commands of at least 6 bytes with a non-zero fifth byte
    (the short format): the constructor accepts them and setIncomingAndReceive
    refuses them with SW_WRONG_LENGTH, changing nothing, exactly when they are
    not the encoding of a well-formed command. *)
Theorem C31_short_partial : forall raw, Forall anybyte raw -> (6 <= length raw)%nat -> nth 4 raw 0 <> 0 ->
  exists s, newAPDU raw = Ok s
    /\ (setIncomingAndReceive s = (Err (ISOExc SW_WRONG_LENGTH), s)
        <-> ~ (exists c, wf_command c /\ encodes raw c))
    /\ (fst (setIncomingAndReceive s) = Err (ISOExc SW_WRONG_LENGTH)
        <-> ~ (exists c, wf_command c /\ encodes raw c)).
Proof. exact C31_short_partial_pf. Qed.
Print Assumptions C31_short_partial.

(** C31, extended format of at least 8 bytes, exact: refused unchanged unless
    the length is Nc + 5, Nc + 9, or Nc + 8 with a last byte 0 after a non-zero
    byte (and Nc + 9 is refused too when the last two bytes are xx 00, xx <> 0).
    Of the accepted ones only those of length Nc + 9 can be well-formed. *)
Theorem C31_extended_partial : forall raw nc, 8 <= zlen raw -> nth 4 raw 0 = 0 ->
  nc = (nth 5 raw 0) mod 256 * 256 + (nth 6 raw 0) mod 256 ->
  exists s, newAPDU raw = Ok s
    /\ let l1 := nth (length raw - 1) raw 0 in
       let l2 := nth (length raw - 2) raw 0 in
       if (zlen raw =? nc + 5) || ((zlen raw =? nc + 9) && negb ((l1 =? 0) && negb (l2 =? 0)))
          || ((zlen raw =? nc + 8) && ((l1 =? 0) && negb (l2 =? 0)))
       then exists n s', setIncomingAndReceive s = (Ok n, s') /\ getIncomingLength s = nc
       else setIncomingAndReceive s = (Err (ISOExc SW_WRONG_LENGTH), s).
Proof. exact C31_extended_partial_pf. Qed.
Print Assumptions C31_extended_partial.

Example C31_ex2 : exists s, newAPDU [0; 0; 0; 0; 3; 1; 2; 3; 4; 5] = Ok s
  /\ fst (setIncomingAndReceive s) = Err (ISOExc 26368).
Proof. eexists. split; vm_compute; reflexivity. Qed.
