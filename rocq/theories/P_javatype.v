(** * C140: returned numbers fit the result type of the API: property theorems *)
From Verif Require Import LP_javatype Py S_Base L_Py M_utils M_util M_aid M_ownerpin M_apdu M_world M_bignumber M_jcint M_bertag M_bertlv M_digest M_key M_cipher.
From Verif Require Import L_utils L_util LP_util LP_aid LP_ownerpin LP_apdu LP_bertag LP_keys LP_des LP_cipher LP_arrayall S_ArrayAll LP_return S_Return S_JavaType.
From Coq Require Import Lia Bool ZifyBool ZifyNat.
Ltac Zify.zify_post_hook ::= Z.div_mod_to_equations.

(** which calls return numbers of the type of the API only *)
Theorem C140_exact_partial : forall f, keeps_type f <-> typed f = true.
Proof. exact C140_exact_partial_pf. Qed.
Print Assumptions C140_exact_partial.

Theorem C140_full_refuted : ~ C140_full.
Proof. exact C140_full_refuted_pf. Qed.
Print Assumptions C140_full_refuted.

(** numbers outside their type: getInt, makeInt, setOutgoing, the length and the encoding of a TLV *)
Example C140_ex :
  getInt [-128; -1; 0; 0] 0 = Ok (-2147549184) /\ makeInt2 (-32768) (-1) = -2147483649
  /\ (exists s s', newAPDU [0; 0; 0; 0; 0; 0; 0] = Ok s /\ setOutgoing s = (Ok 65536, s'))
  /\ (exists t b, getInstance [1; -124; 0; 0; 0; -128] 0 None = Ok t /\ tlv_toBytes t 0 [0; 0] = (Ok (-2147483646), b))
  /\ getShort [-128; 0] 0 = Ok (-32768) /\ fst (setInt 0 1 2 [0; 0; 0; 0]) = Ok 4.
Proof. repeat split; try reflexivity; eexists; eexists; split; vm_compute; reflexivity. Qed.
