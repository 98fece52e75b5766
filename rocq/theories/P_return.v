(** * C139: calls return the number the API defines: property theorems *)
From Verif Require Import LP_return Py S_Base S_Cipher L_Py M_utils M_util M_aid M_jcint M_bertag M_bertlv M_digest M_key M_des M_cipher.
From Verif Require Import S_DES L_utils L_util L_des LP_bertag LP_keys LP_des LP_tdes LP_desx LP_cipher LP_rsa S_RSA S_Samples S_Return.
From Coq Require Import Lia Bool ZifyBool ZifyNat.
Ltac Zify.zify_post_hook ::= Z.div_mod_to_equations.

(** which calls return the number of the API *)
Theorem C139_exact_partial : forall f, as_defined f <-> defined f = true.
Proof. exact C139_exact_partial_pf. Qed.
Print Assumptions C139_exact_partial.

Theorem C139_full_refuted : ~ C139_full.
Proof. exact C139_full_refuted_pf. Qed.
Print Assumptions C139_full_refuted.

(** results of calls: setInt of 16909060 returns 4; a tag of number 201 is three bytes; a DES key written by getKey, and None *)
Example C139_ex :
  fst (setInt 0 258 772 [0; 0; 0; 0]) = Ok 4
  /\ fst (tag_toBytes (mkTag 3 false 201 0) 1 [0; 0; 0; 0]) = Ok 3 /\ id_size 201 = 3
  /\ fst (getBytes [1; 2; 3; 4; 5] 1 [0; 0; 0; 0; 0; 0]) = Ok 5
  /\ fst (tlv_toBytes (mkTLV false (Some (mkTag 0 false 1 1)) 2 (Some [7; 8])) 0 [0; 0; 0; 0]) = Ok 4
  /\ tlv_size (init_tag (newTLV false) (mkTag 0 false 1 1) (py_repeat 0 254) 0 254) = Ok 258 /\ octets_of (mkTag 0 false 1 1) 254 = 257
  /\ getKey (snd (setKey [1; 2; 3; 4; 5; 6; 7; 8] 0 (deskey_new 3 64))) 0 [0; 0; 0; 0; 0; 0; 0; 0] = (Ok tt, [1; 2; 3; 4; 5; 6; 7; 8]).
Proof. vm_compute. intuition reflexivity. Qed.
