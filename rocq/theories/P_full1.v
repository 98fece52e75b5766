(** * The violated properties C05-C51: their full statements do not hold: property theorems *)
From Verif Require Import LP_full1 Py S_Base S_Number S_APDU L_Py M_utils M_util M_ownerpin S_OwnerPIN M_aid
  M_apdu S_ApduObs M_bignumber S_BigNumber M_jcint S_BER M_bertag M_bertlv S_TLV S_Full1 LP_bertlv LP_apdu.
From Coq Require Import ZifyBool ZifyNat.
Ltac Zify.zify_post_hook ::= Z.div_mod_to_equations.


Theorem C05_full_refuted : ~ C05_full.
Proof. exact C05_full_refuted_pf. Qed.
Print Assumptions C05_full_refuted.

Theorem C06_full_refuted : ~ C06_full.
Proof. exact C06_full_refuted_pf. Qed.
Print Assumptions C06_full_refuted.

Theorem C08_full_refuted : ~ C08_full.
Proof. exact C08_full_refuted_pf. Qed.
Print Assumptions C08_full_refuted.

Theorem C09_full_refuted : ~ C09_full.
Proof. exact C09_full_refuted_pf. Qed.
Print Assumptions C09_full_refuted.

Theorem C13_full_refuted : ~ C13_full.
Proof. exact C13_full_refuted_pf. Qed.
Print Assumptions C13_full_refuted.

Theorem C14_full_refuted : ~ C14_full.
Proof. exact C14_full_refuted_pf. Qed.
Print Assumptions C14_full_refuted.

Theorem C15_full_refuted : ~ C15_full.
Proof. exact C15_full_refuted_pf. Qed.
Print Assumptions C15_full_refuted.

Theorem C20_full_refuted : ~ C20_full.
Proof. exact C20_full_refuted_pf. Qed.
Print Assumptions C20_full_refuted.

Theorem C21_full_refuted : ~ C21_full.
Proof. exact C21_full_refuted_pf. Qed.
Print Assumptions C21_full_refuted.

Theorem C24_full_refuted : ~ C24_full.
Proof. exact C24_full_refuted_pf. Qed.
Print Assumptions C24_full_refuted.

Theorem C26_full_refuted : ~ C26_full.
Proof. exact C26_full_refuted_pf. Qed.
Print Assumptions C26_full_refuted.

Theorem C28_full_refuted : ~ C28_full.
Proof. exact C28_full_refuted_pf. Qed.
Print Assumptions C28_full_refuted.

Theorem C29_full_refuted : ~ C29_full.
Proof. exact C29_full_refuted_pf. Qed.
Print Assumptions C29_full_refuted.

Theorem C30_full_refuted : ~ C30_full.
Proof. exact C30_full_refuted_pf. Qed.
Print Assumptions C30_full_refuted.

Theorem C31_full_refuted : ~ C31_full.
Proof. exact C31_full_refuted_pf. Qed.
Print Assumptions C31_full_refuted.

Theorem C34_full_refuted : ~ C34_full.
Proof. exact C34_full_refuted_pf. Qed.
Print Assumptions C34_full_refuted.

Theorem C35_full_refuted : ~ C35_full.
Proof. exact C35_full_refuted_pf. Qed.
Print Assumptions C35_full_refuted.

Theorem C36_full_refuted : ~ C36_full.
Proof. exact C36_full_refuted_pf. Qed.
Print Assumptions C36_full_refuted.

Theorem C37_full_refuted : ~ C37_full.
Proof. exact C37_full_refuted_pf. Qed.
Print Assumptions C37_full_refuted.

Theorem C38_full_refuted : ~ C38_full.
Proof. exact C38_full_refuted_pf. Qed.
Print Assumptions C38_full_refuted.

Theorem C40_full_refuted : ~ C40_full.
Proof. exact C40_full_refuted_pf. Qed.
Print Assumptions C40_full_refuted.

Theorem C41_full_refuted : ~ C41_full.
Proof. exact C41_full_refuted_pf. Qed.
Print Assumptions C41_full_refuted.

Theorem C42_full_refuted : ~ C42_full.
Proof. exact C42_full_refuted_pf. Qed.
Print Assumptions C42_full_refuted.

Theorem C43_full_refuted : ~ C43_full.
Proof. exact C43_full_refuted_pf. Qed.
Print Assumptions C43_full_refuted.

Theorem C44_full_refuted : ~ C44_full.
Proof. exact C44_full_refuted_pf. Qed.
Print Assumptions C44_full_refuted.

Theorem C45_full_refuted : ~ C45_full.
Proof. exact C45_full_refuted_pf. Qed.
Print Assumptions C45_full_refuted.

Theorem C46_full_refuted : ~ C46_full.
Proof. exact C46_full_refuted_pf. Qed.
Print Assumptions C46_full_refuted.

Theorem C47_full_refuted : ~ C47_full.
Proof. exact C47_full_refuted_pf. Qed.
Print Assumptions C47_full_refuted.

Theorem C48_full_refuted : ~ C48_full.
Proof. exact C48_full_refuted_pf. Qed.
Print Assumptions C48_full_refuted.

Theorem C49_full_refuted : ~ C49_full.
Proof. exact C49_full_refuted_pf. Qed.
Print Assumptions C49_full_refuted.

Theorem C51_full_refuted : ~ C51_full.
Proof. exact C51_full_refuted_pf. Qed.
Print Assumptions C51_full_refuted.
