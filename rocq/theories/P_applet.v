(** * C96 for every command, C97 with one argument, C134: applet objects: property theorems *)
From Verif Require Import LP_applet Py S_Base S_APDU L_Py M_utils M_util L_utils L_util M_apdu S_ApduObs L_apdu M_system M_world S_World LP_apdu LP_util LP_world M_applet S_Applet.
From Coq Require Import Lia Bool ZifyBool ZifyNat.

(** C96 for every command the APDU class accepts, well formed or not, short or extended: the
    answer follows from the header and from what the APDU object says about the lengths *)
Theorem C96_every : forall raw s le, Forall anybyte raw -> newAPDU raw = Ok s -> fst (setOutgoing s) = Ok le ->
  respond (base_process (Some false)) raw = every_answer (nth 0 raw 0) (nth 1 raw 0) (fst (setIncomingAndReceive s)) le
  /\ respond (base_process (Some true)) raw = Ok [0x90; 0].
Proof. exact C96_every_pf. Qed.
Print Assumptions C96_every.

(** Examples: an extended command and one whose Lc does not fit *)
Example C96_ex2 : exists s, newAPDU [128; 8; 0; 0; 0; 0; 2; 5; 6; 0; 9] = Ok s /\ respond (base_process (Some false)) [128; 8; 0; 0; 0; 0; 2; 5; 6; 0; 9] = Ok [55; 77; 99; 0x90; 0]
  /\ fst (setOutgoing s) = Ok 9 /\ exists t, newAPDU [128; 8; 0; 0; 7; 1; 2] = Ok t /\ fst (setOutgoing t) = Ok 2
  /\ respond (base_process (Some false)) [128; 8; 0; 0; 7; 1; 2] = Ok [0x67; 0].
Proof. eexists. split; [vm_compute; reflexivity|]. split; [vm_compute; reflexivity|]. split; [vm_compute; reflexivity|]. eexists. repeat split; vm_compute; reflexivity. Qed.

(** C97: with one argument the method returns the short that it writes with three *)
Theorem C97_one_partial : forall memoryType offset mt buffer, 0 <= offset -> offset + 2 <= zlen buffer ->
  exists b, getAvailableMemory3 offset mt (Some buffer) = (Ok tt, Some b) /\ getShort b offset = getAvailableMemory1 memoryType.
Proof. exact C97_one_partial_pf. Qed.
Print Assumptions C97_one_partial.

Example C97_ex2 : getAvailableMemory1 1 = Ok 32767.
Proof. reflexivity. Qed.

(** C134, what holds: in every history, whatever is done with this and other applets,
    selectingApplet returns what the system stored last for this applet *)
Theorem C134_partial : forall pre post b, last_set (created pre) post = Some b -> asked pre post = Ok (RBool b).
Proof. exact C134_partial_pf. Qed.
Print Assumptions C134_partial.

(** C134 is false for every applet the system has stored nothing for *)
Theorem C134_refuted : forall pre post, last_set (created pre) post = None -> asked pre post = Err AttributeError.
Proof. exact C134_refuted_pf. Qed.
Print Assumptions C134_refuted.

Theorem C134_full_refuted : ~ C134_full.
Proof. exact C134_full_refuted_pf. Qed.
Print Assumptions C134_full_refuted.

(** The other methods: an applet agrees to be selected, is never selected anew while
    selected, the methods it must define raise NotImplementedError, and no call changes any
    applet *)
Theorem C134_defaults : forall i w s, (i < length w)%nat ->
  acall_step (ASelect i) w = (Ok (RBool true), w) /\ acall_step (AReselecting i) w = (Ok (RBool false), w)
  /\ acall_step (ADeselect i) w = (Ok RNone, w) /\ acall_step (ARegister i) w = (Ok RNone, w) /\ acall_step (AIds i) w = (Ok RNone, w)
  /\ acall_step AInstall w = (Err NotImplementedError, w) /\ acall_step (AProcess i s) w = (Err NotImplementedError, w)
  /\ acall_step (AShareable i) w = (Err NotImplementedError, w) /\ snd (acall_step (ASelecting i) w) = w.
Proof. exact C134_defaults_pf. Qed.
Print Assumptions C134_defaults.

Example C134_ex : asked [ANew] [ASet 1 true; ASet 0 false; ASelect 1] = Ok (RBool true) /\ last_set (created [ANew]) [ASet 1 true; ASet 0 false; ASelect 1] = Some true
  /\ asked [ANew; ASet 0 true] [ASet 0 false] = Err AttributeError.
Proof. repeat split; reflexivity. Qed.
