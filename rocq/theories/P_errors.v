(** * C135: the exceptions that reach an applet: property theorems *)
From Verif Require Import LP_errors Py S_Base L_Py M_util M_aid M_ownerpin M_apdu M_bignumber M_jcint M_bertag M_bertlv M_system M_digest M_key M_cipher M_signature.
From Verif Require Import L_utils S_APDU S_ApduObs L_apdu L_util LP_util LP_arrayall LP_apdu LP_world LP_bignumber LP_bertag LP_tlvparse LP_system LP_tlvterm LP_cipher LP_keys LP_rsa S_Cipher S_RSA M_des LP_des LP_tdes S_Errors.
From Coq Require Import Lia Bool ZifyBool ZifyNat.
Ltac Zify.zify_post_hook ::= Z.div_mod_to_equations.

(** C135: the exceptions of the calls of the API, in full *)
Theorem C135_exact_partial : forall f e, raised f e <-> allowed f e.
Proof. exact C135_exact_partial_pf. Qed.
Print Assumptions C135_exact_partial.

(** the calls that let an exception of Python through: 46 of the 81 *)
Theorem C135_refuted : forall f, (exists e, raised f e /\ java e = false) <-> leaks f = true.
Proof. exact C135_refuted_pf. Qed.
Print Assumptions C135_refuted.

Theorem C135_full_refuted : ~ C135_full.
Proof. exact C135_full_refuted_pf. Qed.
Print Assumptions C135_full_refuted.

Example C135_ex :
  raised Util_arrayCopyNonAtomic NameError /\ ~ raised Util_arrayCopyNonAtomic ArrayIndexOutOfBounds
  /\ raised APDU_sendBytesLong AttributeError /\ ~ raised APDU_sendBytes AttributeError
  /\ raised OwnerPIN_update (PINExc 2) /\ ~ raised OwnerPIN_update (PINExc 1)
  /\ length (filter leaks [JCint_getInt; Util_getShort; AID_new]) = 2%nat
  /\ raised DESCipher_doFinal ValueError /\ ~ raised DESCipher_doFinal TypeError /\ ~ raised RSACipher_init AttributeError.
Proof.
  split; [apply C135_exact_partial; cbn; tauto|]. split; [rewrite C135_exact_partial; cbn; intuition discriminate|].
  split; [apply C135_exact_partial; cbn; tauto|]. split; [rewrite C135_exact_partial; cbn; intuition discriminate|].
  split; [apply C135_exact_partial; cbn; right; right; exists 2; split; [lia|reflexivity]|].
  split; [rewrite C135_exact_partial; cbn; intros [Q|[Q|(n & N & Q)]]; try discriminate; assert (n = 1) by congruence; lia|]. split; [reflexivity|].
  rewrite !C135_exact_partial; cbn. split; [tauto|]. split; intuition discriminate.
Qed.
