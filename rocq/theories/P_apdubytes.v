(** * C123: an APDU constructed from a bytes object: property theorems *)
From Verif Require Import LP_apdubytes Py S_Base S_ApduBytes L_Py M_utils M_util L_util M_apdu L_apdu M_apdubytes LP_apdu.
From Coq Require Import ZifyBool ZifyNat.

(** C123, one call from any state: the calls that do not send are the same; a call
    that sends raises what it raises for a list, and where it would send it raises
    TypeError.  sendBytes and sendBytesLong then leave the object as it was,
    setOutgoingAndSend leaves it with the output opened and its length announced. *)
Theorem C123_step_partial : forall o s,
  (sends o = false -> apdu_step_b o s = apdu_step o s)
  /\ (sends o = true ->
      (forall e, fst (apdu_step o s) = Err e -> apdu_step_b o s = apdu_step o s)
      /\ (forall x, fst (apdu_step o s) = Ok x ->
          fst (apdu_step_b o s) = Err TypeError
          /\ snd (apdu_step_b o s)
             = match o with
               | OpSetOutgoingAndSend _ n => snd (apdu_run [OpSetOutgoing; OpSetOutgoingLength n] s)
               | _ => s
               end)).
Proof. exact C123_step_partial_pf. Qed.
Print Assumptions C123_step_partial.

(** C123, histories that do not send: the same outcomes and the same object. *)
Theorem C123_receive_partial : forall ops s, Forall (fun o => sends o = false) ops ->
  apdu_run_b ops s = apdu_run ops s.
Proof. exact C123_receive_partial_pf. Qed.
Print Assumptions C123_receive_partial.

(** C123 is false: no call that sends ever returns, whatever was called before. *)
Theorem C123_refuted : forall ops s tr s', apdu_run_b ops s = (tr, s') ->
  Forall (fun x => sends (fst x) = true -> is_ok (snd x) = false) tr.
Proof. exact C123_refuted_pf. Qed.
Print Assumptions C123_refuted.

(** C123: the command is never overwritten, so that (unlike for a list, C30) the
    questions about the class byte have the same answers after every history; and
    the two states of a response under way are never reached. *)
Theorem C123_frame_partial : forall b s ops cla, newAPDU b = Ok s -> nth_error b 0 = Some cla ->
  let s' := snd (apdu_run_b ops s) in
  raw s' = b
  /\ isISOInterindustryCLA s' = Ok (negb (Z.testbit cla 7))
  /\ isCommandChainingCLA s' = Ok (Z.testbit cla 4)
  /\ 0 <= getCurrentState s' <= 4.
Proof. exact C123_frame_partial_pf. Qed.
Print Assumptions C123_frame_partial.

Theorem C123_full_refuted : ~ C123_full.
Proof. exact C123_full_refuted_pf. Qed.
Print Assumptions C123_full_refuted.

Example C123_ex :
  match newAPDU [0; 1; 2; 3; 1; 9] with
  | Ok s =>
      map snd (fst (apdu_run_b [OpSetIncomingAndReceive; OpSetOutgoingAndSend 0 2; OpSendBytes 0 2; OpSendBytesLong [7; 8] 0 300] s))
      = [Ok (Some 1); Err TypeError; Err TypeError; Err (APDUExc BUFFER_BOUNDS)]
      /\ map snd (fst (apdu_run [OpSetIncomingAndReceive; OpSetOutgoingAndSend 0 2; OpSendBytes 0 2] s))
      = [Ok (Some 1); Ok None; Ok None]
  | Err _ => False
  end.
Proof. vm_compute. auto. Qed.
