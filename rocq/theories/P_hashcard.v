(** * C145: a card that hashes files: property theorems *)
From Verif Require Import LP_hashcard Py S_Base S_APDU S_System S_Samples L_Py M_utils M_util L_utils L_util LP_util M_apdu S_ApduObs L_apdu LP_apdu M_world LP_world S_Cipher LP_des LP_cipher M_digest LP_system M_rsaapplet M_pincard LP_pincard S_DesCard LP_descard M_chalcard S_Chal M_hashcard S_HashCard.
From Coq Require Import ZifyBool ZifyNat.
Ltac Zify.zify_post_hook ::= Z.div_mod_to_equations.

(** C145: for every hash function and every history of commands that the library decodes, the
    card answers the digest of all data since the last digest, in whatever commands it came.
    Missing: extended commands with data and no Le, or whose Le ends in a zero byte. *)
Theorem C145_exact_partial : forall H alg d qs,
  sane_hash H alg -> digest_getInstance H alg = Ok d -> Forall request_wf qs -> Forall taken qs ->
  hcard_replies H qs d = hash_run (hl_digest H alg) qs [].
Proof. exact C145_exact_partial_pf. Qed.
Print Assumptions C145_exact_partial.

(** C145: a message cut in any way into commands; whatever happened before the previous digest
    does not matter. *)
Theorem C145_message_partial : forall H alg d h last ps q,
  sane_hash H alg -> digest_getInstance H alg = Ok d -> final last -> Forall part ps -> final q ->
  Forall request_wf (h ++ last :: ps ++ [q]) -> Forall taken (h ++ last :: ps ++ [q]) ->
  skipn (S (length h)) (hcard_replies H (h ++ last :: ps ++ [q]) d)
  = repeat (Some [0x90; 0]) (length ps) ++ [with_data q (hl_digest H alg (concat (map (fun p => command_data (q_body p)) (ps ++ [q]))))].
Proof. exact C145_message_partial_pf. Qed.
Print Assumptions C145_message_partial.

(** A well-formed extended command with data is refused with 6700 if it carries no Le, or an Le
    that ends in a zero byte; the data are not hashed. *)
Theorem C145_extended_refuted : forall H q d data le,
  request_wf q -> q_ins q = 0x2A -> q_body q = Case3E data \/ (q_body q = Case4E data le /\ le mod 256 = 0 /\ le <> 65536) ->
  hash_answer H (bytes_of q) d = (Ok [0x67; 0], d).
Proof. exact C145_extended_refuted_pf. Qed.
Print Assumptions C145_extended_refuted.

(** A well-formed extended command without data whose Le ends in a zero byte has a byte hashed:
    the first byte of Le. *)
Theorem C145_phantom_refuted : forall H q alg acc le,
  request_wf q -> part q -> q_body q = Case2E le -> le mod 256 = 0 -> le <> 65536 ->
  hash_answer H (bytes_of q) (mkDigest alg acc) = (Ok [0x90; 0], mkDigest alg (acc ++ [le / 256])).
Proof. exact C145_phantom_refuted_pf. Qed.
Print Assumptions C145_phantom_refuted.

Theorem C145_full_refuted : ~ C145_full.
Proof. exact C145_full_refuted_pf. Qed.
Print Assumptions C145_full_refuted.

(** the hypotheses can be met: three messages, one of them over 300 bytes in an extended command,
    cut into commands of every kind that is taken *)
Example C145_sane_ex : sane_hash H0 1.
Proof. split; [cbn; lia|]. intro m. split; [reflexivity|]. unfold H0. cbn [hl_digest]. repeat constructor; unfold ubyte; lia. Qed.

Example C145_ex :
  hcard_replies H0 [mkReq 0 42 0 0 (Case3S [1; 2; 3]); mkReq 0 42 0 0 Case1; mkReq 0 42 0 0 (Case4E (repeat 1 300) 65536); mkReq 0 42 1 0 (Case4S [250] 256);
                    mkReq 0 42 1 0 (Case2S 256); mkReq 0 42 0 0 (Case3S [9]); mkReq 0 66 0 0 Case1; mkReq 0 42 1 0 (Case4S [8] 1); mkReq 0 42 1 0 (Case2E 513)] (mkDigest 1 [])
  = [Some [144; 0]; Some [144; 0]; Some [144; 0]; Some [44; 48; 144; 0]; Some [0; 0; 144; 0]; Some [144; 0]; Some [109; 0]; None; Some [0; 0; 144; 0]].
Proof. vm_compute. reflexivity. Qed.

(** the refused and the phantom data *)
Example C145_refused_ex :
  hcard_replies H0 [mkReq 0 42 0 0 (Case3E [1; 2; 3]); mkReq 0 42 0 0 (Case4E [1; 2; 3] 512); mkReq 0 42 0 0 (Case2E 512); mkReq 0 42 1 0 (Case2S 256)] (mkDigest 1 [])
  = [Some [103; 0]; Some [103; 0]; Some [144; 0]; Some [2; 1; 144; 0]].
Proof. vm_compute. reflexivity. Qed.
