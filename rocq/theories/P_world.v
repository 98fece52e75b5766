(** * C94-C97: the current APDU, a complete applet, available memory: property theorems *)
From Verif Require Import LP_world Py S_Base S_APDU L_Py M_utils M_util L_utils L_util M_apdu S_ApduObs L_apdu M_system M_world S_World LP_apdu LP_util.
From Coq Require Import ZifyBool ZifyNat.
Ltac Zify.zify_post_hook ::= Z.div_mod_to_equations.


(** each creation: refused with nothing changed; or it becomes the current APDU; or
    the constructor raises IndexError and the half-made object becomes current *)
Theorem C94_exact_partial : forall b w,
  (zlen b < 4 -> construct b w = (Err (APDUExc BAD_LENGTH), w))
  /\ (4 <= zlen b -> ~ six_bytes b -> exists s, newAPDU b = Ok s
        /\ construct b w = (Ok (length (w_objs w)), mkWorld (w_objs w ++ [WFull s]) (Some (length (w_objs w)))))
  /\ (six_bytes b -> exists w', construct b w = (Err IndexError, w')
        /\ getCurrentAPDU w' = Some (length (w_objs w))
        /\ getCurrentAPDUBuffer w' = Ok (firstn 5 b ++ repeat 0 252)).
Proof. exact C94_exact_partial_pf. Qed.
Print Assumptions C94_exact_partial.

(** in a history without such commands getCurrentAPDU is the APDU last created *)
Theorem C94_current_partial : forall h tr w, (forall b, In (WNew b) h -> ~ six_bytes b) ->
  wrun h world0 = (tr, w) -> getCurrentAPDU w = last_created tr None.
Proof. exact C94_current_partial_pf. Qed.
Print Assumptions C94_current_partial.

Theorem C94_full_refuted : ~ C94_full.
Proof. exact C94_full_refuted_pf. Qed.
Print Assumptions C94_full_refuted.

Example C94_ex : exists tr w, wrun [WNew [0; 0; 0; 0]; WNew [1; 2; 3]; WNew [0; 176; 0; 0; 2]; WCall 0 OpSetOutgoing; WCall 1 OpSetIncomingAndReceive] world0 = (tr, w)
  /\ last_created tr None = Some 1%nat /\ six_bytes [0; 0; 0; 0; 0; 1] /\ ~ six_bytes [0; 0; 0; 0].
Proof. do 2 eexists. split; [vm_compute; reflexivity|]. split; [reflexivity|]. split; [split; reflexivity|]. intros [H _]. discriminate H. Qed.

(** after a creation and any calls on any objects, none of which aims at the first cell of
    a buffer, the channel is the one of the class byte of the last command *)
Theorem C95_channel_partial : forall b s h h' tr w, newAPDU b = Ok s ->
  Forall (fun o => match o with WCall _ o => keeps_cla o | WNew _ => False end) h' ->
  wrun (h ++ [WNew b] ++ h') world0 = (tr, w) -> getCLAChannel w = Ok (nth 0 b 0 mod 4).
Proof. exact C95_channel_partial_pf. Qed.
Print Assumptions C95_channel_partial.

(** before the first APDU the method raises *)
Theorem C95_none : getCLAChannel world0 = Err AttributeError.
Proof. exact C95_none_pf. Qed.
Print Assumptions C95_none.

Theorem C95_full_refuted : ~ C95_full.
Proof. exact C95_full_refuted_pf. Qed.
Print Assumptions C95_full_refuted.

Example C95_ex : exists s tr w, newAPDU [131; 8; 0; 0; 2; 7; 9] = Ok s
  /\ wrun ([WNew [1; 2; 3; 4]] ++ [WNew [131; 8; 0; 0; 2; 7; 9]] ++ [WCall 1 OpSetIncomingAndReceive; WCall 1 (OpWriteBuffer 5 4); WCall 1 (OpSetOutgoingAndSend 5 2); WCall 0 OpSetOutgoing]) world0 = (tr, w)
  /\ getCLAChannel w = Ok 3.
Proof. do 3 eexists. split; [vm_compute; reflexivity|]. split; [vm_compute; reflexivity|]. reflexivity. Qed.

(** the test applet: what the card answers to every short command, whatever the header
    and the data are, once the attribute _selectingApplet is set *)
Theorem C96_base : forall raw c, wf_command c -> is_short c = true -> encodes raw c ->
  respond (base_process (Some false)) raw
  = match base_answer (nth 0 raw 0) (nth 1 raw 0) (command_le c) with Some a => Ok a | None => Err (APDUExc BAD_LENGTH) end
  /\ respond (base_process (Some true)) raw = Ok [0x90; 0].
Proof. exact C96_base_pf. Qed.
Print Assumptions C96_base.

(** until the surrounding system sets it, and whatever the command, the applet raises *)
Theorem C96_unselected : forall raw s, newAPDU raw = Ok s -> respond (base_process None) raw = Err AttributeError.
Proof. exact C96_unselected_pf. Qed.
Print Assumptions C96_unselected.

(** the class Applet itself has no process and no install *)
Theorem C96_abstract : forall s, applet_install = Err NotImplementedError /\ applet_process s = (Err NotImplementedError, s).
Proof. exact C96_abstract_pf. Qed.
Print Assumptions C96_abstract.

Example C96_ex : wf_command (Case4S [1; 2] 3) /\ encodes [128; 8; 0; 0; 2; 1; 2; 3] (Case4S [1; 2] 3)
  /\ respond (base_process (Some false)) [128; 8; 0; 0; 2; 1; 2; 3] = Ok [55; 77; 99; 0x90; 0]
  /\ respond (base_process (Some false)) [-128; 8; 0; 0; 2] = Err (APDUExc BAD_LENGTH)
  /\ respond (base_process (Some false)) [0; 8; 0; 0] = Ok [0x6e; 0]
  /\ respond (base_process (Some false)) [128; 10; 0; 0] = Ok [0x6d; 0].
Proof.
  split; [split; [repeat constructor; unfold ubyte; lia|cbn; lia]|].
  split; [split; [repeat constructor; unfold anybyte; lia|exists 128, 8, 0, 0; reflexivity]|]. repeat split; reflexivity.
Qed.

(** in range the short 32767 is written and nothing else *)
Theorem C97_partial : forall offset memoryType buffer, 0 <= offset -> offset + 2 <= zlen buffer ->
  exists b', getAvailableMemory3 offset memoryType (Some buffer) = (Ok tt, Some b')
    /\ getShort b' offset = Ok 32767 /\ length b' = length buffer
    /\ forall i, Z.of_nat i <> offset -> Z.of_nat i <> offset + 1 -> nth_error b' i = nth_error buffer i.
Proof. exact C97_partial_pf. Qed.
Print Assumptions C97_partial.

(** without a buffer and out of range the method raises NameError: the exceptions it
    names are not imported; when only the second byte is outside, the first is written *)
Theorem C97_errors_refuted : forall offset memoryType,
  getAvailableMemory3 offset memoryType None = (Err NameError, None)
  /\ forall buffer, 0 <= offset -> zlen buffer < offset + 2 ->
     getAvailableMemory3 offset memoryType (Some buffer)
     = (Err NameError, Some (if offset <? zlen buffer then list_upd buffer (Z.to_nat offset) 127 else buffer)).
Proof. exact C97_errors_refuted_pf. Qed.
Print Assumptions C97_errors_refuted.

Theorem C97_full_refuted : ~ C97_full.
Proof. exact C97_full_refuted_pf. Qed.
Print Assumptions C97_full_refuted.

Example C97_ex : getAvailableMemory3 1 0 (Some [1; 2; 3; 4]) = (Ok tt, Some [1; 127; 255; 4])
  /\ getAvailableMemory3 3 0 (Some [1; 2; 3; 4]) = (Err NameError, Some [1; 2; 3; 127])
  /\ getAvailableMemory3 (-1) 0 (Some [1; 2; 3; 4]) = (Ok tt, Some [255; 2; 3; 127]).
Proof. repeat split; reflexivity. Qed.
