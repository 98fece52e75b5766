(** * C119: an APDU object is the reference exchange: property theorems *)
From Verif Require Import LP_apduref Py S_Base S_APDU L_Py L_util M_apdu S_ApduObs L_apdu LP_apdu S_ApduRef.
From Coq Require Import ZifyBool ZifyNat.
Ltac Zify.zify_post_hook ::= Z.div_mod_to_equations.

(** C119.  For a command the library understands, the outcomes of every sequence of calls with
    ranges inside the arrays, the buffer and the state are those of the reference exchange, and
    from the moment the output is opened the response to be returned is what was sent. *)
Theorem C119_exchange : C119_full.
Proof. exact C119_exchange_pf. Qed.
Print Assumptions C119_exchange.

Example C119_case : exists s, newAPDU [0;1;2;3;3;10;11;12;4] = Ok s
  /\ fst (apdu_run [OpSetIncomingAndReceive; OpWriteBuffer 5 99; OpReceiveBytes 0; OpSetOutgoing; OpSetOutgoingLength 5; OpSetOutgoingLength 3; OpSendBytes 5 2; OpSendBytes 6 1] s)
     = [(OpSetIncomingAndReceive, Ok (Some 3)); (OpWriteBuffer 5 99, Ok None); (OpReceiveBytes 0, Ok (Some 0)); (OpSetOutgoing, Ok (Some 4));
        (OpSetOutgoingLength 5, Err (APDUExc 0)); (OpSetOutgoingLength 3, Ok None); (OpSendBytes 5 2, Ok None); (OpSendBytes 6 1, Ok None)]
  /\ se_sent (snd (ref_run 5 0 [OpSetIncomingAndReceive; OpWriteBuffer 5 99; OpReceiveBytes 0; OpSetOutgoing; OpSetOutgoingLength 5; OpSetOutgoingLength 3; OpSendBytes 5 2; OpSendBytes 6 1]
       (ref_start [0;1;2;3;3;10;11;12;4] (Case4S [10;11;12] 4)))) = [99; 11; 11]
  /\ encodes [0;1;2;3;3;10;11;12;4] (Case4S [10;11;12] 4).
Proof.
  eexists. split; [vm_compute; reflexivity|]. split; [vm_compute; reflexivity|]. split; [vm_compute; reflexivity|].
  split; [repeat constructor; unfold anybyte; lia|]. exists 0, 1, 2, 3. reflexivity.
Qed.
