(** * C136: a call that raises an exception changes nothing: proofs *)
From Verif Require Import Py S_Base S_Key L_Py M_util M_aid M_ownerpin M_apdu M_bignumber M_jcint M_bertag M_bertlv M_system M_digest M_key M_cipher.
From Verif Require Import L_utils S_APDU S_ApduObs L_apdu L_util LP_apdu LP_errors S_Errors S_Atomic.
From Coq Require Import Lia Bool ZifyBool ZifyNat.

Definition keeps {S A} (m : M S A) : Prop := forall s, ~ spoils m s.
Ltac kept := intros (e & s' & E & N); apply N; clear N.
Ltac spoil := eexists _, _; split; [vm_compute; reflexivity|let Q := fresh in intros Q; discriminate Q].
Lemma same_combine op a o n f : keeps (x <- lift (operand a o n f) ;; combine op x).
Proof.
  intros s. kept. unfold bind, lift in E. destruct (operand a o n f) as [x|e']; [|congruence]. unfold combine in E. destruct (value s), (value x); congruence.
Qed.
Lemma keeps_send src o n : keeps (send_block src o n).
Proof.
  intros s. kept. unfold send_block, bind, get, raise, put in E. destruct (curout s); [|congruence]. destruct (_ <? _); congruence.
Qed.
Lemma append_keeps t u : a_ctlv t -> ~ spoils (append u) t.
Proof.
  intros A. kept. unfold append, bind, lift, get, put, raise in E. destruct (tlv_size u) as [n|e1]; [|congruence].
  destruct (tlv_toBytes u 0 (py_repeat 0 n)) as [[m|e1] arr]; [|congruence]. destruct (tval t) as [v|] eqn:V; [|congruence].
  unfold tlv_size in E. cbn [ttag] in E. destruct (ttag t) eqn:T; [discriminate|]. destruct A; congruence.
Qed.
Definition big1 := mkBig None (Some 1).
Definition pin2 := newOwnerPIN 3 2.
Definition apdu200 := obj ([0; 0; 0; 0; 200] ++ repeat 1 200) [OpSetIncomingAndReceive].
Definition rsbad : pycrypto := mkPyCrypto true (fun n e => Err ValueError) (fun _ => Err ValueError) (fun _ _ => Ok 74565) (fun _ _ => Err ValueError).
Definition dk0 := mkDesKey 3 64 true (Some (repeat 0 8)).
Definition dc0 := snd (des_init (Some (KDes dk0)) MODE_ENCRYPT (repeat 0 8) 0 8 (cipher_new ALG_DES_ECB_NOPAD)).

Lemma sp_arrayCopy : spoiler W_arrayCopy.
Proof.
  unfold spoiler. exists 0%nat, 0, 1%nat, 0, 2, (fun l => match l with O => [1; 2] | _ => [0] end). eexists _, _, 1%nat. split; [reflexivity|]. cbn. discriminate.
Qed.
Lemma sp_arrayCopyNonAtomic : spoiler W_arrayCopyNonAtomic.
Proof.
  unfold spoiler. exists 0%nat, 0, 1%nat, 0, 2, (fun l => match l with O => [1; 2] | _ => [0] end). eexists _, _, 1%nat. split; [reflexivity|]. cbn. discriminate.
Qed.
Lemma sp_arrayFillNonAtomic : spoiler W_arrayFillNonAtomic.
Proof.
  unfold spoiler. exists 0, 2, 1, [0]. spoil.
Qed.
Lemma sp_setShort : spoiler W_setShort.
Proof.
  unfold spoiler. exists 0, 257, [0]. spoil.
Qed.
Lemma sp_setInt : spoiler W_setInt.
Proof.
  unfold spoiler. exists 0, 257, 257, [0]. spoil.
Qed.
Lemma sp_update : spoiler W_update.
Proof.
  unfold spoiler. exists pin2, (PStr [1; 2; 3; 4; 5]), 2, (-3). split; [now apply new_pin|]. spoil.
Qed.
Lemma sp_receiveBytes : spoiler W_receiveBytes.
Proof.
  unfold spoiler. exists apdu200, 200. split; [now apply obj_is|]. eexists _, _. split; [vm_compute; reflexivity|]. intros Q. apply (f_equal (fun s => nth 200 (buf s) 0)) in Q. vm_compute in Q. discriminate.
Qed.
Lemma sp_setOutgoingAndSend : spoiler W_setOutgoingAndSend.
Proof.
  unfold spoiler. exists (obj [0; 0; 0; 0; 5] []), 0, 6. split; [now apply obj_is|]. spoil.
Qed.
Lemma sp_init : spoiler W_init.
Proof.
  unfold spoiler. exists big1, (Some []), 0, 1, 1. spoil.
Qed.
Lemma sp_toBytes : spoiler W_toBytes.
Proof.
  unfold spoiler. exists (mkBig None (Some 257)), 0, 2, 2, [0]. spoil.
Qed.
Lemma sp_tag_toBytes : spoiler W_tag_toBytes.
Proof.
  unfold spoiler. exists (mkTag 0 false 31 1), 0, [0]. spoil.
Qed.
Lemma sp_tlv_toBytes : spoiler W_tlv_toBytes.
Proof.
  unfold spoiler. exists (mkTLV false (Some (mkTag 0 false 4 1)) 1 (Some [7])), 0, [0]. split; [apply full_tlv|]. spoil.
Qed.
Lemma sp_append_static : spoiler W_append_static.
Proof.
  unfold spoiler. exists [4; 0], 0, 0, [32; 0]. spoil.
Qed.
Lemma sp_getValue : spoiler W_getValue.
Proof.
  unfold spoiler. exists (mkTLV false (Some (mkTag 0 false 4 1)) 2 (Some [7; 8])), 0, [0]. split; [apply full_tlv|]. spoil.
Qed.
Lemma sp_replaceValue : spoiler W_replaceValue.
Proof.
  unfold spoiler. exists (mkTLV false (Some (mkTag 0 false 4 1)) 1 (Some [7])), [], 0, 1. split; [apply full_tlv|]. spoil.
Qed.
Lemma sp_getAvailableMemory : spoiler W_getAvailableMemory.
Proof.
  unfold spoiler. exists 0, 0, (Some [0]). spoil.
Qed.
Lemma sp_digest_doFinal : spoiler W_digest_doFinal.
Proof.
  unfold spoiler. exists (hl1 true), (mkDigest 1 [5]), [], 0, 0, [], 0. split; [|spoil]. exists 1, [S_System.DUpdate [5] 0 1], (mkDigest 1 []). split; reflexivity.
Qed.
Lemma sp_generateData : spoiler W_generateData.
Proof.
  unfold spoiler. exists (fun _ => 1), 0, 2, [0]. spoil.
Qed.
Lemma sp_getKey : spoiler W_getKey.
Proof.
  unfold spoiler. exists (mkDesKey 3 16 true (Some [1; 2])), 0, [0]. spoil.
Qed.
Lemma sp_setExponent : spoiler W_setExponent.
Proof.
  unfold spoiler. exists rsbad, 8, [SMod [5] 0 1], [3], 0, 1. spoil.
Qed.
Lemma sp_setModulus : spoiler W_setModulus.
Proof.
  unfold spoiler. exists rsbad, 8, [SExp [3] 0 1], [5], 0, 1. spoil.
Qed.
Lemma sp_getExponent : spoiler W_getExponent.
Proof.
  unfold spoiler. exists rs0, 8, [SExp [3; 4] 0 2; SMod [5] 0 1], 0, [0]. spoil.
Qed.
Lemma sp_getModulus : spoiler W_getModulus.
Proof.
  unfold spoiler. exists rs0, 16, [SExp [3] 0 1; SMod [5; 6] 0 2], 0, [0]. spoil.
Qed.
Lemma sp_des_init : spoiler W_des_init.
Proof.
  unfold spoiler. exists (Some (KDes dk0)), MODE_ENCRYPT, [], 0, 0, (cipher_new ALG_DES_ECB_NOPAD). spoil.
Qed.
Lemma sp_rsa_init : spoiler W_rsa_init.
Proof.
  unfold spoiler. exists (Some (KDes dk0)), MODE_ENCRYPT, (cipher_new ALG_RSA_NOPAD). spoil.
Qed.
Lemma pair_of {A B} (p : A * B) a : fst p = a -> p = (a, snd p).
Proof. destruct p. cbn [fst snd]. now intros ->. Qed.
Lemma reach_now alg k m b o c0 c1 : c_alg c0 = alg -> des_init (Some (KDes k)) m b o 8 c0 = (Ok tt, c1) -> cipher_reach alg k m b o c1.
Proof. intros A E. exists c0, c1, []. split; [exact A|]. split; [exact E|reflexivity]. Qed.
Lemma spoils_at {S T A} (m : M (S * list T) A) s (a : list T) e x d : fst (m (s, a)) = Err e -> nth 0 (snd (snd (m (s, a)))) d = x -> nth 0 a d <> x -> spoils m (s, a).
Proof. intros E V N. exists e, (snd (m (s, a))). split; [now apply pair_of|]. intros Q. rewrite Q in V. cbn [snd] in V. contradiction. Qed.
Lemma sp_des_doFinal : spoiler W_des_doFinal.
Proof.
  unfold spoiler. exists dk0, MODE_ENCRYPT, (repeat 0 8), 0, dc0, (repeat 0 8), 0, 8, 0, [0]. split.
  - eapply reach_now; [|apply pair_of]; vm_compute; reflexivity.
  - eapply spoils_at with (e := ArrayIndexOutOfBounds) (x := -116) (d := 0); [vm_compute; reflexivity|vm_compute; reflexivity|discriminate].
Qed.
Lemma sp_rsa_doFinal : spoiler W_rsa_doFinal.
Proof.
  unfold spoiler. exists rsbad, [], (mkCipher ALG_RSA_NOPAD true (Some MODE_ENCRYPT) None), (KPub (mkPub 8 true (Some [3]) (Some [5]) (Some (mkRsa 5 3 0 0 0 0)))), [9], 0, 1, 0, [0]. spoil.
Qed.
Lemma cl_getBytes : ~ spoiler W_getBytes.
Proof.
  unfold spoiler. intros (s & o & a & K). revert K. kept. unfold getBytes, raise in E. destruct (_ <? _); [congruence|]. discriminate E || congruence.
Qed.
Lemma cl_getPartialBytes : ~ spoiler W_getPartialBytes.
Proof.
  unfold spoiler. intros (s & ao & o & n & a & K). revert K. kept. unfold getPartialBytes, raise in E. cbv zeta in E. destruct (_ <? _); [congruence|]. destruct (zlen s <? _); congruence.
Qed.
Lemma cl_setIncomingAndReceive : ~ spoiler W_setIncomingAndReceive.
Proof.
  unfold spoiler. intros (s & A & K). revert K. kept. assert (F : fst (setIncomingAndReceive s) = Err e) by now rewrite E.
  assert (R : e = APDUExc M_apdu.ILLEGAL_USE \/ e = ISOExc SW_WRONG_LENGTH).
  { destruct (proj1 (C135_exact_partial_pf APDU_setIncomingAndReceive e) (ex_intro _ s (conj A F))) as [Q|[Q|[]]]; subst; auto. }
  unfold setIncomingAndReceive, bind, get, raise in E. destruct (negb _); [congruence|]. destruct (broken s); [congruence|].
  assert (e = IndexError) by (apply (receive_err (offin s) s); now rewrite E). destruct R; congruence.
Qed.
Lemma cl_setOutgoing : ~ spoiler W_setOutgoing.
Proof.
  unfold spoiler. intros (s & A & K). revert K. kept. unfold setOutgoing, bind, get, raise, put, ret in E. destruct (_ <=? _); congruence.
Qed.
Lemma cl_setOutgoingLength : ~ spoiler W_setOutgoingLength.
Proof.
  unfold spoiler. intros (s & n & A & K). revert K. kept. unfold setOutgoingLength, bind, get, raise, put in E. destruct (_ <? _); [congruence|].
  destruct (match Ne s with Some m => m <? n | None => false end); congruence.
Qed.
Lemma cl_sendBytes : ~ spoiler W_sendBytes.
Proof.
  unfold spoiler. intros (s & o & n & A & K). revert K. kept. unfold sendBytes, bind at 1, get, raise in E. destruct (_ <? _); [congruence|].
  destruct (list_eq_dec Z.eq_dec (raw s') (raw s)); pose proof (keeps_send (buf s) o n s) as L; unfold spoils in L;
  unfold send_block, bind, get, raise, put in E; (destruct (curout s); [|congruence]); destruct (_ <? _); congruence.
Qed.
Lemma cl_sendBytesLong : ~ spoiler W_sendBytesLong.
Proof.
  unfold spoiler. intros (s & d & o & n & A & K). revert K. kept. unfold sendBytesLong, bind at 1, get, raise in E. destruct (_ && _); [congruence|].
  unfold send_block, bind, get, raise, put in E; (destruct (curout s); [|congruence]); destruct (_ <? _); congruence.
Qed.
Lemma cl_add : ~ spoiler W_add.
Proof.
  unfold spoiler. intros (b & a & o & n & f & K). revert K. apply same_combine.
Qed.
Lemma cl_subtract : ~ spoiler W_subtract.
Proof.
  unfold spoiler. intros (b & a & o & n & f & K). revert K. apply same_combine.
Qed.
Lemma cl_multiply : ~ spoiler W_multiply.
Proof.
  unfold spoiler. intros (b & a & o & n & f & K). revert K. apply same_combine.
Qed.
Lemma cl_append : ~ spoiler W_append.
Proof.
  unfold spoiler. intros (t & u & A & _ & K). revert K. now apply append_keeps.
Qed.
Lemma cl_addService : ~ spoiler W_addService.
Proof.
  unfold spoiler. intros (s & v & p & K). revert K. kept. unfold addService, raise in E. destruct v; [|congruence]. unfold bind, get, put in E.
  repeat match type of E with context [if ?c then _ else _] => destruct c; [discriminate|] end. congruence.
Qed.
Lemma cl_digest_update : ~ spoiler W_digest_update.
Proof.
  unfold spoiler. intros (s & a & o & n & K). revert K. kept. unfold digest_update, bind, get, raise, put in E. destruct (catch_index _ _ _) as [[u|e1] x]; congruence.
Qed.
Lemma cl_private_setModulus : ~ spoiler W_private_setModulus.
Proof.
  unfold spoiler. intros (size & h & b & o & n & K). revert K. kept. unfold priv_setModulus, priv_setter, bind, get, raise, put, ret in E. destruct (negb _); [congruence|].
  cbn [vk_mod vk_exp] in E. destruct (vk_exp _); discriminate.
Qed.
Lemma cl_genKeyPair : ~ spoiler W_genKeyPair.
Proof.
  unfold spoiler. intros (X & s & K). revert K. kept. unfold genKeyPair, pyCryptogenKeyPair, bind, get, raise, put, lift in E. destruct (_ || _); [congruence|]. destruct (negb _); [congruence|].
  destruct (kp_alg s); [|congruence]. destruct (negb _); [congruence|]. destruct (kp_len s); [|congruence]. destruct (pc_generate _ _); congruence.
Qed.
Lemma cl_cipher_update : ~ spoiler W_cipher_update.
Proof.
  unfold spoiler. intros (a & o & n & p & s & K). revert K. kept. unfold cipher_update, bind, get, raise, ret in E. destruct (negb _); congruence.
Qed.

Lemma C136_exact_partial_pf : forall f, ~ spoiler f <-> clean f = true.
Proof.
  intros f. split.
  - intros H. destruct f; try reflexivity; exfalso; apply H; clear H; auto using sp_arrayCopy, sp_arrayCopyNonAtomic, sp_arrayFillNonAtomic, sp_setShort, sp_setInt, sp_update, sp_receiveBytes, sp_setOutgoingAndSend, sp_init, sp_toBytes, sp_tag_toBytes, sp_tlv_toBytes, sp_append_static, sp_getValue, sp_replaceValue, sp_getAvailableMemory, sp_digest_doFinal, sp_generateData, sp_getKey, sp_setExponent, sp_setModulus, sp_getExponent, sp_getModulus, sp_des_init, sp_rsa_init, sp_des_doFinal, sp_rsa_doFinal.
  - destruct f; try discriminate; intros _; auto using cl_getBytes, cl_getPartialBytes, cl_setIncomingAndReceive, cl_setOutgoing, cl_setOutgoingLength, cl_sendBytes, cl_sendBytesLong, cl_add, cl_subtract, cl_multiply, cl_append, cl_addService, cl_digest_update, cl_private_setModulus, cl_genKeyPair, cl_cipher_update.
Qed.

Lemma C136_refuted_pf : forall f, spoiler f <-> clean f = false.
Proof.
  intros f. split.
  - intros S. destruct (clean f) eqn:C; [|reflexivity]. exfalso. exact (proj2 (C136_exact_partial_pf f) C S).
  - destruct f; intros C; try discriminate C; clear C; auto using sp_arrayCopy, sp_arrayCopyNonAtomic, sp_arrayFillNonAtomic, sp_setShort, sp_setInt, sp_update, sp_receiveBytes, sp_setOutgoingAndSend, sp_init, sp_toBytes, sp_tag_toBytes, sp_tlv_toBytes, sp_append_static, sp_getValue, sp_replaceValue, sp_getAvailableMemory, sp_digest_doFinal, sp_generateData, sp_getKey, sp_setExponent, sp_setModulus, sp_getExponent, sp_getModulus, sp_des_init, sp_rsa_init, sp_des_doFinal, sp_rsa_doFinal.
Qed.

Lemma C136_full_refuted_pf : ~ C136_full.
Proof. intros H. exact (H W_arrayCopy sp_arrayCopy). Qed.
