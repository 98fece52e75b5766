(** * C136: a call that raises an exception changes nothing: property theorems *)
From Verif Require Import LP_atomic Py S_Base S_Key L_Py M_util M_aid M_ownerpin M_apdu M_bignumber M_jcint M_bertag M_bertlv M_system M_digest M_key M_cipher.
From Verif Require Import L_utils S_APDU S_ApduObs L_apdu L_util LP_apdu LP_errors S_Errors S_Atomic.
From Coq Require Import Lia Bool ZifyBool ZifyNat.

(** C136: which calls keep the property *)
Theorem C136_exact_partial : forall f, ~ spoiler f <-> clean f = true.
Proof. exact C136_exact_partial_pf. Qed.
Print Assumptions C136_exact_partial.

(** the calls that do not: 27 of the 43 *)
Theorem C136_refuted : forall f, spoiler f <-> clean f = false.
Proof. exact C136_refuted_pf. Qed.
Print Assumptions C136_refuted.

Theorem C136_full_refuted : ~ C136_full.
Proof. exact C136_full_refuted_pf. Qed.
Print Assumptions C136_full_refuted.

Example C136_ex :
  arrayCopy 0%nat 0 1%nat 0 2 (fun l => match l with O => [1; 2] | _ => [0] end) = (Err ArrayIndexOutOfBounds, snd (arrayCopy 0%nat 0 1%nat 0 2 (fun l => match l with O => [1; 2] | _ => [0] end)))
  /\ snd (arrayCopy 0%nat 0 1%nat 0 2 (fun l => match l with O => [1; 2] | _ => [0] end)) 1%nat = [1]
  /\ fst (des_init (Some (KDes (mkDesKey 3 64 true (Some (repeat 0 8))))) MODE_ENCRYPT [] 0 0 (cipher_new ALG_DES_ECB_NOPAD)) = Err (CryptoExc 1)
  /\ c_mode (snd (des_init (Some (KDes (mkDesKey 3 64 true (Some (repeat 0 8))))) MODE_ENCRYPT [] 0 0 (cipher_new ALG_DES_ECB_NOPAD))) = Some MODE_ENCRYPT
  /\ c_mode (cipher_new ALG_DES_ECB_NOPAD) = None.
Proof. repeat split. Qed.
