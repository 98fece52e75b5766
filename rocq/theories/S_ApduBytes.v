(** * Specification for C123: what a bytes object as the command changes *)
From Verif Require Import Py M_apdu M_apdubytes.

Definition sends (o : apdu_op) : bool :=
  match o with OpSendBytes _ _ | OpSendBytesLong _ _ _ | OpSetOutgoingAndSend _ _ => true | _ => false end.

(** C123 as claimed: the kind of sequence the command is makes no difference *)
Definition C123_full : Prop := forall b s ops, Forall (fun v => 0 <= v <= 255) b -> newAPDU b = Ok s ->
  fst (apdu_run_b ops s) = fst (apdu_run ops s)
  /\ getBuffer (snd (apdu_run_b ops s)) = getBuffer (snd (apdu_run ops s))
  /\ getCurrentState (snd (apdu_run_b ops s)) = getCurrentState (snd (apdu_run ops s)).
