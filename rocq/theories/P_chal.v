(** * C144: challenge and response: property theorems *)
From Verif Require Import LP_chal Py S_Base S_APDU L_Py M_utils M_util L_utils L_util LP_util M_apdu S_ApduObs L_apdu LP_apdu M_world LP_world S_DES S_Cipher M_des L_des LP_des LP_tdes LP_desx M_key M_cipher LP_cipher M_digest LP_system M_rsaapplet M_pincard LP_pincard M_descard S_DesCard LP_descard LP_purse M_chalcard S_Chal.
From Coq Require Import ZifyBool ZifyNat.
Ltac Zify.zify_post_hook ::= Z.div_mod_to_equations.

(** ** C144 *)
Theorem C144_exact_partial : forall alg size key secret card h,
  chal_card alg size key secret card -> Forall drawn h ->
  ccard_replies false secret h card
  = chal_run (fun r d => forallb (fun b => b <? 128) r && right alg key r d) secret h (mkDoor None false).
Proof. exact C144_exact_partial_pf. Qed.
Print Assumptions C144_exact_partial.

Theorem C144_fixed : forall alg size key secret card h,
  chal_card alg size key secret card -> Forall drawn h ->
  ccard_replies true secret h card = chal_run (right alg key) secret h (mkDoor None false).
Proof. exact C144_fixed_pf. Qed.
Print Assumptions C144_fixed.

(** Nobody reads the secret without the key: whatever the commands and the random bytes, the
    last authentication was the encryption of the challenge drawn just before. *)
Theorem C144_sound : forall fix_ alg size key secret card h q rnd,
  chal_card alg size key secret card -> Forall drawn (h ++ [(q, rnd)]) -> reads q ->
  ccard_replies fix_ secret (h ++ [(q, rnd)]) card = ccard_replies fix_ secret h card ++ [Some (secret ++ [0x90; 0])] ->
  exists h1 qc r h2 qa ra h3, h = h1 ++ (qc, r) :: h2 ++ (qa, ra) :: h3
  /\ asks_challenge qc /\ authenticates qa /\ command_data (q_body qa) = jc_encrypt alg key (repeat 0 8) r
  /\ Forall (fun e => ~ asks_challenge (fst e) /\ ~ authenticates (fst e)) h2 /\ Forall (fun e => ~ authenticates (fst e)) h3.
Proof. exact C144_sound_pf. Qed.
Print Assumptions C144_sound.

(** A challenge is answered once. *)
Theorem C144_once : forall fix_ alg size key secret card h1 q1 r1 h2 q2 r2,
  chal_card alg size key secret card -> Forall drawn (h1 ++ (q1, r1) :: h2 ++ [(q2, r2)]) ->
  authenticates q1 -> authenticates q2 -> Forall (fun e => ~ asks_challenge (fst e)) h2 ->
  ccard_replies fix_ secret (h1 ++ (q1, r1) :: h2 ++ [(q2, r2)]) card
  = ccard_replies fix_ secret (h1 ++ (q1, r1) :: h2) card ++ [Some [0x69; 0x85]].
Proof. exact C144_once_pf. Qed.
Print Assumptions C144_once.

(** The right answer is refused unless all bytes of the challenge are below 128: generateData
    stores unsigned bytes and doFinal signed ones, and arrayCompare tells them apart. *)
Theorem C144_refused_refuted : forall alg size key secret card qc r qa ra,
  chal_card alg size key secret card -> Forall drawn [(qc, r); (qa, ra)] ->
  asks_challenge qc -> authenticates qa -> command_data (q_body qa) = jc_encrypt alg key (repeat 0 8) r ->
  Exists (fun b => 128 <= b) r ->
  ccard_replies false secret [(qc, r); (qa, ra)] card = [with_data qc r; Some [0x63; 0]].
Proof. exact C144_refused_refuted_pf. Qed.
Print Assumptions C144_refused_refuted.

Theorem C144_full_refuted : ~ C144_full.
Proof. exact C144_full_refuted_pf. Qed.
Print Assumptions C144_full_refuted.

(** A challenge with small bytes is answered rightly and the secret read; with a byte above 127
    the same terminal is refused, unless the applet makes the challenge signed. *)
Example C144_ex :
  let key := [1; 2; 3; 4; 5; 6; 7; 8] in
  let c := mkReq 0 0x84 0 0 (Case2S 8) in let a r := mkReq 0 0x82 0 0 (Case3S (jc_encrypt 5 key (repeat 0 8) r)) in let g := mkReq 0 0xB0 0 0 (Case2S 256) in
  let r := [1; 2; 3; 4; 5; 6; 7; 8] in let r' := [1; 2; 3; 4; 5; 6; 7; 200] in
  exists card, chal_card 5 64 key [42; 43] card
  /\ ccard_replies false [42; 43] [(g, r); (c, r); (a r, r); (g, r); (a r, r); (g, r)] card
     = [Some [0x69; 0x82]; Some (r ++ [0x90; 0]); Some [0x90; 0]; Some [42; 43; 0x90; 0]; Some [0x69; 0x85]; Some [0x69; 0x82]]
  /\ ccard_replies false [42; 43] [(c, r'); (a r', r); (g, r)] card = [Some (r' ++ [0x90; 0]); Some [0x63; 0]; Some [0x69; 0x82]]
  /\ ccard_replies true [42; 43] [(c, r'); (a r', r); (g, r)] card = [Some (r' ++ [0x90; 0]); Some [0x90; 0]; Some [42; 43; 0x90; 0]].
Proof.
  intros key c a g r r'. eexists. split.
  - split; [now right|]. split; [now left|]. split; [reflexivity|]. split; [repeat constructor; lia|]. split; [repeat constructor; lia|]. split; [cbn; lia|reflexivity].
  - vm_compute. repeat split.
Qed.

(** a history that meets the hypotheses *)
Example C144_drawn_ex :
  let key := [1; 2; 3; 4; 5; 6; 7; 8] in let r := [255; 2; 3; 4; 5; 6; 7; 8] in
  exists d, d = jc_encrypt 5 key (repeat 0 8) r
  /\ Forall drawn [(mkReq 0 0x84 0 0 (Case2S 8), r); (mkReq 0 0x82 0 0 (Case3S d), r)] /\ authenticates (mkReq 0 0x82 0 0 (Case3S d))
  /\ Exists (fun b => 128 <= b) r.
Proof.
  intros key r. let v := eval vm_compute in (jc_encrypt 5 key (repeat 0 8) r) in exists v.
  split; [vm_compute; reflexivity|]. split; [repeat constructor; cbn; unfold ubyte; lia|]. split; [split; reflexivity|]. constructor. lia.
Qed.
