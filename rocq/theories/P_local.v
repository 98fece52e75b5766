(** * C138: a call reads the bytes it is given, and no others: property theorems *)
From Verif Require Import LP_local Py S_Base L_Py M_utils M_util M_aid M_ownerpin M_apdu M_bignumber M_jcint M_bertag M_bertlv M_digest M_key M_cipher.
From Verif Require Import L_utils L_util LP_bertag LP_keys S_Local.
From Coq Require Import Lia Bool ZifyBool ZifyNat.
Ltac Zify.zify_post_hook ::= Z.div_mod_to_equations.

(** C138: which calls read the bytes of their range only *)
Theorem C138_exact_partial : forall f, local f <-> is_local f = true.
Proof. exact C138_exact_partial_pf. Qed.
Print Assumptions C138_exact_partial.

Theorem C138_full_refuted : ~ C138_full.
Proof. exact C138_full_refuted_pf. Qed.
Print Assumptions C138_full_refuted.

(** ... and a TLV read with its length depends on no byte behind the array that holds its first [n] bytes *)
Theorem C138_tlv_partial : forall a b p n t, same a 0 b p (zlen a) -> 0 <= n <= zlen a ->
  getInstance a 0 (Some n) = Ok t -> getInstance b p (Some n) = Ok t.
Proof. exact C138_tlv_partial_pf. Qed.
Print Assumptions C138_tlv_partial.

Example C138_ex :
  same [9; 1; 2; 9] 1 [1; 2; 7] 0 2 /\ getShort [9; 1; 2; 9] 1 = Ok 258 /\ getShort [1; 2; 7] 0 = Ok 258
  /\ same [4; 1; 7] 0 [5; 4; 1; 7; 8] 1 3 /\ getInstance [5; 4; 1; 7; 8] 1 (Some 3) = getInstance [4; 1; 7] 0 (Some 3)
  /\ getInstance [4] 0 (Some 1) = Err IndexError /\ getInstance [4; 0] 0 (Some 1) = Ok (mkTLV false (Some (mkTag 0 false 4 1)) (-1) (Some [])).
Proof. repeat split; try reflexivity; unfold zlen; cbn; lia. Qed.
