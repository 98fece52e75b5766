(** * C146: a card that keeps data objects: property theorems *)
From Verif Require Import LP_datacard Py S_Base S_Number S_APDU S_BER S_TLV L_Py M_utils M_util L_utils L_util LP_util M_apdu S_ApduObs L_apdu LP_apdu M_world LP_world S_Cipher LP_des LP_cipher M_bertag LP_bertag M_bertlv LP_bertlv M_rsaapplet M_pincard LP_pincard S_DesCard LP_descard M_purse LP_purse M_chalcard S_Chal M_datacard S_DataCard.
From Coq Require Import ZifyBool ZifyNat.
Ltac Zify.zify_post_hook ::= Z.div_mod_to_equations.

(** C146: for every history of short commands in which PUT DATA carries a length in short form,
    right or wrong, every answer is the one of the list of objects.  Missing: lengths in long
    form. *)
Theorem C146_exact_partial : forall store qs,
  data_install = Ok store -> Forall request_ok qs -> Forall short_form qs -> data_replies qs store = objects_run qs [].
Proof. exact C146_exact_partial_pf. Qed.
Print Assumptions C146_exact_partial.

(** [whole] says what X.690 says *)
Theorem C146_whole : forall data, Forall ubyte data -> zlen data <= 128 ->
  (whole data = true <-> exists tb lo v, data = tb :: lo ++ v /\ tb mod 32 <> 31 /\ length_octets (zlen v) lo).
Proof. exact C146_whole_pf. Qed.
Print Assumptions C146_whole.

(** C146: the first object put with a tag is answered to every later GET DATA of the tag,
    byte for byte, whatever happens in between. *)
Theorem C146_first_partial : forall store tb h1 p h2 g,
  data_install = Ok store -> Forall request_ok (h1 ++ p :: h2 ++ [g]) -> Forall short_form (h1 ++ p :: h2 ++ [g]) ->
  Forall (fun q => ~ puts tb q) h1 -> puts tb p -> whole (command_data (q_body p)) = true -> zlen (command_data (q_body p)) <= 128 -> asks tb g ->
  last (data_replies (h1 ++ p :: h2 ++ [g]) store) None = with_data g (command_data (q_body p)).
Proof. exact C146_first_partial_pf. Qed.
Print Assumptions C146_first_partial.

(** A well-formed object whose length is in long form with one octet is refused with 6A80, and
    the store is unchanged. *)
Theorem C146_long_refuted : forall store q tb v,
  request_ok q -> q_ins q = 0xDA -> tb mod 32 <> 31 -> zlen v <= 125 ->
  command_data (q_body q) = tb :: 129 :: zlen v :: v ->
  whole (command_data (q_body q)) = true /\ data_answer (bytes_of q) store = (Ok [0x6a; 0x80], store).
Proof. exact C146_long_refuted_pf. Qed.
Print Assumptions C146_long_refuted.

(** Data that are not a BER object are taken if the two octets of a long length, read in the
    wrong order and without the octet before them, give the right number; what GET DATA answers
    is another object, with a byte that was never sent. *)
Theorem C146_malformed_refuted : forall store p g tb rest,
  data_install = Ok store -> request_ok p -> request_ok g -> puts tb p -> asks tb g -> tb mod 32 <> 31 -> zlen rest <= 124 ->
  command_data (q_body p) = tb :: 130 :: zlen rest + 2 :: 0 :: rest ->
  whole (command_data (q_body p)) = false
  /\ data_replies [p; g] store = [Some [0x90; 0]; with_data g (tb :: zlen rest + 2 :: 0 :: rest ++ [0])].
Proof. exact C146_malformed_refuted_pf. Qed.
Print Assumptions C146_malformed_refuted.

Theorem C146_full_refuted : ~ C146_full.
Proof. exact C146_full_refuted_pf. Qed.
Print Assumptions C146_full_refuted.

(** three objects, one of them twice, one malformed; the tags are found, the others are not *)
Example C146_ex : exists store, data_install = Ok store
  /\ data_replies [mkReq 0 218 0 0 (Case3S [4; 2; 7; 200]); mkReq 0 218 0 0 (Case3S [0xE1; 3; 4; 1; 9]); mkReq 0 218 0 0 (Case3S [4; 1; 8]);
                   mkReq 0 218 0 0 (Case3S [5; 9; 1]); mkReq 0 202 0 4 (Case2S 256); mkReq 0 202 0 0xE1 (Case2S 5); mkReq 0 202 0 5 (Case2S 256);
                   mkReq 0 202 0 31 (Case2S 256); mkReq 0 202 0 4 (Case2S 3); mkReq 0 218 0 0 (Case3S [4])] store
  = [Some [144; 0]; Some [144; 0]; Some [144; 0]; Some [106; 128]; Some [4; 2; 7; 200; 144; 0]; Some [225; 3; 4; 1; 9; 144; 0]; Some [106; 131]; Some [106; 134]; None; Some [103; 0]].
Proof. eexists. split; [reflexivity|]. vm_compute. reflexivity. Qed.

(** malformed data that are kept: 04 82 03 00 AA, and the answer 04 03 00 AA 00 *)
Example C146_malformed_ex : exists store, data_install = Ok store
  /\ data_replies [mkReq 0 218 0 0 (Case3S [4; 130; 3; 0; 170]); mkReq 0 202 0 4 (Case2S 256)] store = [Some [144; 0]; Some [4; 3; 0; 170; 0; 144; 0]].
Proof. eexists. split; [reflexivity|]. vm_compute. reflexivity. Qed.
