(** * C137: byte arrays stay byte arrays: property theorems *)
From Verif Require Import LP_jbytes Py S_Base S_Key S_Cipher L_Py M_utils M_util M_aid M_apdu M_bignumber M_jcint M_bertag M_bertlv M_system M_digest M_des M_key M_cipher.
From Verif Require Import L_utils L_util LP_bertag LP_des LP_tdes LP_cipher LP_desx S_Bytes.
From Coq Require Import Lia Bool ZifyBool ZifyNat.
Ltac Zify.zify_post_hook ::= Z.div_mod_to_equations.

(** C137: which calls keep the property, for all their calls or for those that succeed *)
Theorem C137_exact_partial : forall ok f, (forall a, leaves ok f a -> jbytes a) <-> byte_safe ok f = true.
Proof. exact C137_exact_partial_pf. Qed.
Print Assumptions C137_exact_partial.

Theorem C137_refuted : forall ok f, (exists a, leaves ok f a /\ ~ jbytes a) <-> byte_safe ok f = false.
Proof. exact C137_refuted_pf. Qed.
Print Assumptions C137_refuted.

Theorem C137_full_refuted : ~ C137_full.
Proof. exact C137_full_refuted_pf. Qed.
Print Assumptions C137_full_refuted.

Example C137_ex :
  leaves true B_generateData [255] /\ leaves true B_getAvailableMemory [127; 255] /\ leaves false B_tag_toBytes [223]
  /\ leaves true B_tag_toBytes [-33; 31] /\ leaves true B_setShort [-1; -1].
Proof.
  split; [exists (fun _ => 255), 0, 1; split; [intros _; unfold ubyte; lia|]; exists [0]; repeat split; [repeat constructor; lia|now exists tt]|].
  split; [exists 0, 0, [0; 0]; repeat split; [repeat constructor; lia|now exists tt]|].
  split; [exists (mkTag 3 false 31 1), 0; split; [unfold a_tag; cbn; lia|]; exists [0]; repeat split; [repeat constructor; lia|discriminate]|].
  split; [exists (mkTag 3 false 31 1), 0; split; [unfold a_tag; cbn; lia|]; exists [0; 0]; repeat split; [repeat constructor; lia|now exists 2]|].
  exists 0, 65535. exists [0; 0]. repeat split; [repeat constructor; lia|now exists tt].
Qed.
