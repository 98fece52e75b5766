(** * C143: a purse: property theorems *)
From Verif Require Import LP_purse Py S_Base S_APDU S_Number S_BigNumber S_Cipher L_Py M_utils M_util L_utils L_util M_apdu S_ApduObs L_apdu LP_apdu LP_des M_world LP_world M_bignumber LP_bignumber LP_cipher M_rsaapplet LP_pincard S_DesCard LP_descard M_purse S_Purse.
From Coq Require Import ZifyBool ZifyNat.
Ltac Zify.zify_post_hook ::= Z.div_mod_to_equations.

(** ** C143 *)
Theorem C143_exact_partial : forall m b qs, 1 <= m <= 128 -> purse_install m = Ok b -> Forall request_ok qs ->
  purse_replies false m qs b = account_run (fun _ => true) (fun _ _ => true) qs 0.
Proof. exact C143_exact_partial_pf. Qed.
Print Assumptions C143_exact_partial.

Theorem C143_guarded : forall m b qs, 1 <= m <= 128 -> purse_install m = Ok b -> Forall request_ok qs ->
  purse_replies true m qs b = account_run (in_purse m) (fun _ _ => true) qs 0.
Proof. exact C143_guarded_pf. Qed.
Print Assumptions C143_guarded.

Theorem C143_conserved : forall m b qs q, 1 <= m <= 128 -> purse_install m = Ok b -> Forall request_ok qs -> asks_balance 2 m q ->
  let rs := purse_replies true m qs b in
  0 <= concluded qs rs < 256 ^ m
  /\ purse_replies true m (qs ++ [q]) b = rs ++ [Some (to_base 256 (Z.to_nat m) (concluded qs rs) ++ [0x90; 0])].
Proof. exact C143_conserved_pf. Qed.
Print Assumptions C143_conserved.

Theorem C143_overdraft_refuted : forall m b a d c q1 q2 q3 q4, 1 <= m <= 128 -> purse_install m = Ok b ->
  moves 0x30 2 a q1 -> moves 0x40 2 d q2 -> moves 0x30 2 c q3 -> asks_balance 2 m q4 ->
  1 <= zlen a <= 128 -> 1 <= zlen d <= 128 -> 1 <= zlen c <= 128 ->
  denote 2 a < denote 2 d -> denote 2 c <= denote 2 d - denote 2 a ->
  purse_replies false m [q1; q2; q3; q4] b
  = [Some [0x90; 0]; Some [0x90; 0]; Some [0x90; 0]; Some (repeat 0 (Z.to_nat m) ++ [0x90; 0])].
Proof. exact C143_overdraft_refuted_pf. Qed.
Print Assumptions C143_overdraft_refuted.

Theorem C143_capacity_refuted : forall m b a q1 q2, 1 <= m <= 128 -> purse_install m = Ok b ->
  moves 0x30 2 a q1 -> asks_balance 2 m q2 -> 1 <= zlen a <= 128 -> 256 ^ m <= denote 2 a ->
  purse_replies false m [q1; q2] b = [Some [0x90; 0]; Some [0x6a; 0x80]].
Proof. exact C143_capacity_refuted_pf. Qed.
Print Assumptions C143_capacity_refuted.

Theorem C143_bcd_refuted : forall guard m b a q1 q2, 1 <= m <= 128 -> purse_install m = Ok b ->
  moves 0x30 1 a q1 -> asks_balance 2 m q2 -> 1 <= zlen a <= 128 -> bcd_ok 1 a = false -> denote 1 a < 256 ^ m ->
  purse_replies guard m [q1; q2] b = [Some [0x90; 0]; Some (to_base 256 (Z.to_nat m) (denote 1 a) ++ [0x90; 0])].
Proof. exact C143_bcd_refuted_pf. Qed.
Print Assumptions C143_bcd_refuted.

Theorem C143_full_refuted : ~ C143_full.
Proof. exact C143_full_refuted_pf. Qed.
Print Assumptions C143_full_refuted.

(** A history with refusals: 1000 in, 250 out (in BCD), 800 out is refused, a fourth command
    unknown, 65000 more do not fit. *)
Example C143_ex :
  let qs := [mkReq 0 0x30 2 0 (Case3S [3; 232]); mkReq 0 0x40 1 0 (Case3S [2; 0x50]); mkReq 0 0x40 2 0 (Case3S [3; 32]);
             mkReq 0 0x60 2 0 Case1; mkReq 0 0x30 2 0 (Case3S [253; 232])] in
  let q := mkReq 0 0x50 2 2 (Case2S 2) in
  exists b, purse_install 2 = Ok b /\ Forall request_ok qs /\ asks_balance 2 2 q
  /\ purse_replies true 2 qs b = [Some [0x90; 0]; Some [0x90; 0]; Some [0x6a; 0x80]; Some [0x6d; 0]; Some [0x6a; 0x80]]
  /\ concluded qs (purse_replies true 2 qs b) = 750
  /\ purse_replies true 2 (qs ++ [q]) b = purse_replies true 2 qs b ++ [Some [2; 238; 0x90; 0]].
Proof.
  eexists. split; [reflexivity|]. split; [repeat constructor; cbn; unfold ubyte; lia|].
  split; [repeat constructor; cbn; unfold ubyte; lia|]. vm_compute. repeat split.
Qed.

(** The overdraft: 5 in, 9 out, 3 in, and nothing is there; a terminal concludes -1. *)
Example C143_overdraft_ex :
  let q1 := mkReq 0 0x30 2 0 (Case3S [5]) in let q2 := mkReq 0 0x40 2 0 (Case3S [9]) in
  let q3 := mkReq 0 0x30 2 0 (Case3S [3]) in let q4 := mkReq 0 0x50 2 1 (Case2S 1) in
  exists b, purse_install 1 = Ok b
  /\ moves 0x30 2 [5] q1 /\ moves 0x40 2 [9] q2 /\ moves 0x30 2 [3] q3 /\ asks_balance 2 1 q4
  /\ purse_replies false 1 [q1; q2; q3; q4] b = [Some [0x90; 0]; Some [0x90; 0]; Some [0x90; 0]; Some [0; 0x90; 0]]
  /\ concluded [q1; q2; q3; q4] (purse_replies false 1 [q1; q2; q3; q4] b) = -1
  /\ purse_replies true 1 [q1; q2; q3; q4] b = [Some [0x90; 0]; Some [0x6a; 0x80]; Some [0x90; 0]; Some [8; 0x90; 0]].
Proof.
  eexists. split; [reflexivity|]. do 4 (split; [repeat constructor; cbn; unfold ubyte; lia|]). vm_compute. repeat split.
Qed.

(** A purse of one byte swallows 256, and 0xAF is 115 in BCD. *)
Example C143_capacity_ex :
  let q1 := mkReq 0 0x30 2 0 (Case3S [1; 0]) in let q2 := mkReq 0 0x50 2 1 (Case2S 1) in let q3 := mkReq 0 0x30 1 0 (Case3S [0xAF]) in
  exists b, purse_install 1 = Ok b /\ 256 ^ 1 <= denote 2 [1; 0] /\ bcd_ok 1 [0xAF] = false /\ denote 1 [0xAF] < 256 ^ 1
  /\ purse_replies false 1 [q1; q2] b = [Some [0x90; 0]; Some [0x6a; 0x80]]
  /\ purse_replies true 1 [q3; q2] b = [Some [0x90; 0]; Some [115; 0x90; 0]].
Proof. eexists. split; [reflexivity|]. split; [cbn; lia|]. split; [reflexivity|]. split; [reflexivity|]. split; vm_compute; reflexivity. Qed.
