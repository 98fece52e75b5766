(** * C112: the padding arguments of pyDes: property theorems *)
From Verif Require Import LP_despad Py S_Base L_Py S_DES M_des M_desx S_DesSettings M_desstr S_DesPad L_des LP_des LP_tdes LP_desset LP_desstr.
From Coq Require Import ZifyBool ZifyNat.
Ltac Zify.zify_post_hook ::= Z.div_mod_to_equations.

(** With arguments that do not clash, encrypt and decrypt do what they do without
    arguments after setPadding and setPadMode, for PAD_NORMAL with at most one
    pad character and for PAD_PKCS5; decrypt for all modes and pads *)
Theorem C112_des_partial : forall d data p pm,
  let m := eff_mode (getPadMode d) pm in let q := eff_pad (getPadding d) p in
  ~ clash m p ->
  (m = PAD_PKCS5 \/ m = PAD_NORMAL /\ (length q <= 1)%nat ->
    fst (des_encrypt data p pm d) = fst (des_encrypt data [] None (with_padding q m d)))
  /\ fst (des_decrypt data p pm d) = fst (des_decrypt data [] None (with_padding q m d)).
Proof. exact C112_des_partial_pf. Qed.
Print Assumptions C112_des_partial.

(** Arguments that clash: encrypt refuses them, decrypt only when the mode is
    the argument and there is data *)
Theorem C112_clash_refuted : forall d data p, p <> [] ->
  (forall pm, eff_mode (getPadMode d) pm = PAD_PKCS5 -> des_encrypt data p pm d = (Err ValueError, d))
  /\ des_decrypt [] p (Some PAD_PKCS5) d = (Ok [], d)
  /\ (forall v, fst (des_decrypt data [] (Some PAD_PKCS5) d) = Ok v -> data <> [] -> fst (des_decrypt data p (Some PAD_PKCS5) d) = Err ValueError)
  /\ (getPadMode d = PAD_PKCS5 -> des_decrypt data p None d = des_decrypt data [] None d).
Proof. exact C112_clash_refuted_pf. Qed.
Print Assumptions C112_clash_refuted.

(** In the other padding modes the pad character of the call is ignored *)
Theorem C112_other_refuted : forall d data p pm, let m := eff_mode (getPadMode d) pm in
  m <> PAD_NORMAL -> m <> PAD_PKCS5 -> des_encrypt data p pm d = des_encrypt data [] pm d.
Proof. exact C112_other_refuted_pf. Qed.
Print Assumptions C112_other_refuted.

Theorem C112_full_refuted : ~ C112_full.
Proof. exact C112_full_refuted_pf. Qed.
Print Assumptions C112_full_refuted.

(** triple_des objects, whatever was done with them before *)
Theorem C112_tdes_partial : forall key mode iv pad padmode d0 h data p pm, tdes_new key mode iv pad padmode = Ok d0 ->
  let d := tdes_ops h d0 in
  let m := eff_mode (t_getPadMode d) pm in let q := eff_pad (t_getPadding d) p in
  ~ clash m p ->
  (m = PAD_PKCS5 \/ m = PAD_NORMAL /\ (length q <= 1)%nat ->
    fst (tdes_encrypt data p pm d) = fst (tdes_encrypt data [] None (t_with_padding q m d)))
  /\ fst (tdes_decrypt data p pm d) = fst (tdes_decrypt data [] None (t_with_padding q m d)).
Proof. exact C112_tdes_partial_pf. Qed.
Print Assumptions C112_tdes_partial.

(** and arguments that clash *)
Theorem C112_tdes_clash_refuted : forall d data p, p <> [] ->
  (forall pm, eff_mode (t_getPadMode d) pm = PAD_PKCS5 -> tdes_encrypt data p pm d = (Err ValueError, d))
  /\ (t_getPadMode d = PAD_PKCS5 -> tdes_decrypt data p None d = tdes_decrypt data [] None d).
Proof. exact C112_tdes_clash_refuted_pf. Qed.
Print Assumptions C112_tdes_clash_refuted.

Example C112_ex : exists d, des_new (repeat 1 8) ECB [] [32] PAD_NORMAL = Ok d
  /\ fst (des_encrypt [104;105] [] (Some PAD_PKCS5) d) = fst (des_encrypt [104;105] [] None (with_padding [32] PAD_PKCS5 d))
  /\ fst (des_encrypt [104;105] [33] None d) = fst (des_encrypt [104;105] [] None (with_padding [33] PAD_NORMAL d))
  /\ fst (des_encrypt [104;105] [33] None d) <> fst (des_encrypt [104;105] [] None d)
  /\ exists c, fst (des_encrypt [104;105] [33] None d) = Ok c /\ length c = 8%nat /\ fst (des_decrypt c [33] None d) = Ok [104;105].
Proof.
  eexists. split; [vm_compute; reflexivity|]. split; [vm_compute; reflexivity|]. split; [vm_compute; reflexivity|]. split; [vm_compute; discriminate|].
  eexists. split; [vm_compute; reflexivity|]. split; vm_compute; reflexivity.
Qed.

Example C112_other_ex : exists d, des_new (repeat 1 8) ECB [] [] 0 = Ok d
  /\ fst (des_encrypt [104;105] [33] None d) = Err ValueError
  /\ exists c, fst (des_encrypt [104;105] [] None (with_padding [33] 0 d)) = Ok c.
Proof. eexists. split; [vm_compute; reflexivity|]. split; [vm_compute; reflexivity|]. eexists. vm_compute. reflexivity. Qed.
