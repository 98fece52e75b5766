(** * C121-C122: the class byte; block sizes and protocol: property theorems *)
From Verif Require Import LP_cla Py S_Base S_APDU L_Py M_utils M_util L_utils L_util M_apdu S_ApduObs L_apdu M_system M_world S_World LP_apdu LP_world M_cla S_Cla.
From Coq Require Import ZifyBool ZifyNat.
Ltac Zify.zify_post_hook ::= Z.div_mod_to_equations.

(** C121, what holds: the interindustry and chaining queries are right for every class byte, and
    getCLAChannel is the channel number modulo 4: right exactly for the first interindustry
    classes. *)
Theorem C121_partial : forall h b s tr w cla, newAPDU b = Ok s -> nth_error b 0 = Some cla -> -128 <= cla <= 255 ->
  wrun (h ++ [WNew b]) world0 = (tr, w) ->
  isISOInterindustryCLA s = Ok (cla mod 256 <? 128)
  /\ forall i, iso_cla (cla mod 256) = Some i ->
       isCommandChainingCLA s = Ok (ci_chaining i)
       /\ getCLAChannel w = Ok (ci_channel i mod 4)
       /\ (getCLAChannel w = Ok (ci_channel i) <-> cla mod 256 < 32).
Proof. exact C121_partial_pf. Qed.
Print Assumptions C121_partial.

(** C121 is false of secure messaging: the answer is never True. *)
Theorem C121_secure_refuted : forall b s i, newAPDU b = Ok s -> iso_cla (nth 0 b 0 mod 256) = Some i ->
  truth (isSecureMessagingCLA s) = false /\ (ci_secure i = true -> truth (isSecureMessagingCLA s) <> ci_secure i).
Proof. exact C121_secure_refuted_pf. Qed.
Print Assumptions C121_secure_refuted.

Theorem C121_full_refuted : ~ C121_full.
Proof. exact C121_full_refuted_pf. Qed.
Print Assumptions C121_full_refuted.

(** CLA = 47: further interindustry, no chaining, channel 11; the answer is 3 *)
Example C121_ex : exists s tr w, newAPDU [0x47; 0; 0; 0] = Ok s /\ wrun ([WNew [1; 2; 3; 4]] ++ [WNew [0x47; 0; 0; 0]]) world0 = (tr, w)
  /\ iso_cla 0x47 = Some (mkCla false false 11) /\ getCLAChannel w = Ok 3 /\ iso_cla 0x15 = Some (mkCla true true 1).
Proof. do 3 eexists. split; [vm_compute; reflexivity|]. split; [vm_compute; reflexivity|]. repeat split; vm_compute; reflexivity. Qed.

(** C122: in every history on every APDU a receive call never delivers more than
    getInBlockSize bytes and the bytes sent are never more than getOutBlockSize; *)
Theorem C122_blocks : forall b s ops tr s', newAPDU b = Ok s -> apdu_run ops s = (tr, s') ->
  Forall (fun x => match x with
    | ((OpSetIncomingAndReceive | OpReceiveBytes _), Ok (Some n)) => n <= getInBlockSize
    | _ => True end) tr
  /\ forall c, curout s' = Some c -> c <= getOutBlockSize.
Proof. exact C122_blocks_pf. Qed.
Print Assumptions C122_blocks.

(** both limits are reached *)
Example C122_ex : (exists s s1, newAPDU ([0; 0; 0; 0; 200] ++ repeat 7 200) = Ok s /\ setIncomingAndReceive s = (Ok getInBlockSize, s1))
  /\ exists s s1 s2 s3, newAPDU [0; 0; 0; 0; 0] = Ok s /\ setOutgoing s = (Ok getOutBlockSize, s1)
     /\ setOutgoingLength getOutBlockSize s1 = (Ok tt, s2) /\ sendBytes 0 getOutBlockSize s2 = (Ok tt, s3) /\ curout s3 = Some getOutBlockSize.
Proof.
  split; [do 2 eexists; split; vm_compute; reflexivity|].
  do 4 eexists. repeat (split; [vm_compute; reflexivity|]). vm_compute. reflexivity.
Qed.

(** getProtocol compared through the masks gives T=1 over the default media, and neither of the
    other protocols and media. *)
Theorem C122_protocol :
  Z.land getProtocol PROTOCOL_TYPE_MASK = PROTOCOL_T1 /\ Z.land getProtocol PROTOCOL_TYPE_MASK <> PROTOCOL_T0
  /\ Z.land getProtocol PROTOCOL_MEDIA_MASK = PROTOCOL_MEDIA_DEFAULT
  /\ Forall (fun m => Z.land getProtocol PROTOCOL_MEDIA_MASK <> m)
       [PROTOCOL_MEDIA_CONTACTLESS_TYPE_A; PROTOCOL_MEDIA_CONTACTLESS_TYPE_B; PROTOCOL_MEDIA_USB]
  /\ Z.shiftr getProtocol 4 = PROTOCOL_MEDIA_DEFAULT /\ Z.land getProtocol 15 = PROTOCOL_T1.
Proof. exact C122_protocol_pf. Qed.
Print Assumptions C122_protocol.
