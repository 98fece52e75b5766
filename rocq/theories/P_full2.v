(** * The violated properties C60-C78: their full statements do not hold: property theorems *)
From Verif Require Import LP_full2 Py S_Base S_Number S_Key S_System S_DES S_Cipher L_Py M_utils M_util M_des M_key M_cipher
  M_digest S_Samples M_system S_Full2 LP_des LP_keys.
From Coq Require Import ZifyBool ZifyNat.
Ltac Zify.zify_post_hook ::= Z.div_mod_to_equations.


Theorem C60_full_refuted : ~ C60_full.
Proof. exact C60_full_refuted_pf. Qed.
Print Assumptions C60_full_refuted.

Theorem C61_full_refuted : ~ C61_full.
Proof. exact C61_full_refuted_pf. Qed.
Print Assumptions C61_full_refuted.

Theorem C62_full_refuted : ~ C62_full.
Proof. exact C62_full_refuted_pf. Qed.
Print Assumptions C62_full_refuted.

Theorem C63_full_refuted : ~ C63_full.
Proof. exact C63_full_refuted_pf. Qed.
Print Assumptions C63_full_refuted.

Theorem C64_full_refuted : ~ C64_full.
Proof. exact C64_full_refuted_pf. Qed.
Print Assumptions C64_full_refuted.

Theorem C65_full_refuted : ~ C65_full.
Proof. exact C65_full_refuted_pf. Qed.
Print Assumptions C65_full_refuted.

Theorem C67_full_refuted : ~ C67_full.
Proof. exact C67_full_refuted_pf. Qed.
Print Assumptions C67_full_refuted.

Theorem C68_full_refuted : ~ C68_full.
Proof. exact C68_full_refuted_pf. Qed.
Print Assumptions C68_full_refuted.

Theorem C70_full_refuted : ~ C70_full.
Proof. exact C70_full_refuted_pf. Qed.
Print Assumptions C70_full_refuted.

Theorem C71_full_refuted : ~ C71_full.
Proof. exact C71_full_refuted_pf. Qed.
Print Assumptions C71_full_refuted.

Theorem C72_full_refuted : ~ C72_full.
Proof. exact C72_full_refuted_pf. Qed.
Print Assumptions C72_full_refuted.

Theorem C74_full_refuted : ~ C74_full.
Proof. exact C74_full_refuted_pf. Qed.
Print Assumptions C74_full_refuted.

Theorem C75_full_refuted : ~ C75_full.
Proof. exact C75_full_refuted_pf. Qed.
Print Assumptions C75_full_refuted.

Theorem C76_full_refuted : ~ C76_full.
Proof. exact C76_full_refuted_pf. Qed.
Print Assumptions C76_full_refuted.

Theorem C77_full_refuted : ~ C77_full.
Proof. exact C77_full_refuted_pf. Qed.
Print Assumptions C77_full_refuted.

Theorem C78_full_refuted : ~ C78_full.
Proof. exact C78_full_refuted_pf. Qed.
Print Assumptions C78_full_refuted.
