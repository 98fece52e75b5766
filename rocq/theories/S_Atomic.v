(** * Specification for C136: a call that raises an exception changes nothing *)
From Verif Require Import Py S_Key M_util M_aid M_ownerpin M_apdu M_bignumber M_jcint M_bertag M_bertlv M_system M_digest M_key M_cipher S_Errors.
From Coq Require List.
Import List.ListNotations.

(** The calls that write an array or an object, but for OwnerPIN.check, whose task it is to count
    failures. *)
Inductive wr : Set :=
| W_arrayCopy | W_arrayCopyNonAtomic | W_arrayFillNonAtomic | W_setShort | W_setInt
| W_getBytes | W_getPartialBytes | W_update
| W_setIncomingAndReceive | W_receiveBytes | W_setOutgoing | W_setOutgoingLength | W_sendBytes | W_sendBytesLong | W_setOutgoingAndSend
| W_init | W_add | W_subtract | W_multiply | W_toBytes
| W_tag_toBytes | W_tlv_toBytes | W_append | W_append_static | W_getValue | W_replaceValue
| W_getAvailableMemory | W_addService | W_digest_update | W_digest_doFinal | W_generateData
| W_getKey | W_setExponent | W_setModulus | W_getExponent | W_getModulus | W_private_setModulus | W_genKeyPair
| W_des_init | W_rsa_init | W_cipher_update | W_des_doFinal | W_rsa_doFinal.

(** [m] raises in the state [s], and [s] is not what it was *)
Definition spoils {S A} (m : M S A) (s : S) : Prop := exists e s', m s = (Err e, s') /\ s' <> s.
(** ... for arrays in a heap: one of them *)
Definition spoils_heap {A} (m : M heap A) (h : heap) : Prop := exists e h' l, m h = (Err e, h') /\ h' l <> h l.

(** a ConstructedBERTLV: init sets tag and value together *)
Definition a_ctlv (t : tlv) : Prop := tval t <> None -> ttag t <> None.

(** some failing call of [f] changes its array or object *)
Definition spoiler (f : wr) : Prop :=
  match f with
  | W_arrayCopy => exists s so d do n h, spoils_heap (arrayCopy s so d do n) h
  | W_arrayCopyNonAtomic => exists s so d do n h, spoils_heap (arrayCopyNonAtomic s so d do n) h
  | W_arrayFillNonAtomic => exists o n v a, spoils (arrayFillNonAtomic o n v) a
  | W_setShort => exists o v a, spoils (setShort o v) a
  | W_setInt => exists o v w a, spoils (setInt o v w) a
  | W_getBytes => exists s o a, spoils (getBytes s o) a
  | W_getPartialBytes => exists s ao o n a, spoils (getPartialBytes s ao o n) a
  | W_update => exists s p o n, a_pin s /\ spoils (update p o n) s
  | W_setIncomingAndReceive => exists s, an_apdu s /\ spoils setIncomingAndReceive s
  | W_receiveBytes => exists s o, an_apdu s /\ spoils (receiveBytes o) s
  | W_setOutgoing => exists s, an_apdu s /\ spoils setOutgoing s
  | W_setOutgoingLength => exists s n, an_apdu s /\ spoils (setOutgoingLength n) s
  | W_sendBytes => exists s o n, an_apdu s /\ spoils (sendBytes o n) s
  | W_sendBytesLong => exists s d o n, an_apdu s /\ spoils (sendBytesLong d o n) s
  | W_setOutgoingAndSend => exists s o n, an_apdu s /\ spoils (setOutgoingAndSend o n) s
  | W_init => exists b a o n f, spoils (M_bignumber.init a o n f) b
  | W_add => exists b a o n f, spoils (add a o n f) b
  | W_subtract => exists b a o n f, spoils (subtract a o n f) b
  | W_multiply => exists b a o n f, spoils (multiply a o n f) b
  | W_toBytes => exists b o n f a, spoils (toBytes b o n f) a
  | W_tag_toBytes => exists g o a, spoils (tag_toBytes g o) a
  | W_tlv_toBytes => exists t o a, a_tlv t /\ spoils (tlv_toBytes t o) a
  | W_append => exists t u, a_ctlv t /\ a_tlv u /\ spoils (append u) t
  | W_append_static => exists a o p b, spoils (appendStatic a o p) b
  | W_getValue => exists t o a, a_tlv t /\ spoils (getValue t o) a
  | W_replaceValue => exists t a o n, a_tlv t /\ spoils (replaceValue a o n) t
  | W_getAvailableMemory => exists o t b, spoils (getAvailableMemory3 o t) b
  | W_addService => exists s v p, spoils (addService v p) s
  | W_digest_update => exists s a o n, spoils (digest_update a o n) s
  | W_digest_doFinal => exists H s a o n out p, a_digest H s /\ spoils (digest_doFinal H a o n p) (s, out)
  | W_generateData => exists rnd o n a, spoils (generateData rnd o n) a
  | W_getKey => exists k o a, spoils (getKey k o) a
  | W_setExponent => exists X size h b o n, spoils (pub_setExponent X b o n) (run_pub X h (pubkey_new size))
  | W_setModulus => exists X size h b o n, spoils (pub_setModulus X b o n) (run_pub X h (pubkey_new size))
  | W_getExponent => exists X size h o a, spoils (pub_getExponent (run_pub X h (pubkey_new size)) o) a
  | W_getModulus => exists X size h o a, spoils (pub_getModulus (run_pub X h (pubkey_new size)) o) a
  | W_private_setModulus => exists size h b o n, spoils (priv_setModulus b o n) (run_priv h (privkey_new size))
  | W_genKeyPair => exists X s, spoils (genKeyPair X) s
  | W_des_init => exists k m a o n c, spoils (des_init k m a o n) c
  | W_rsa_init => exists k m c, spoils (rsa_init k m) c
  | W_cipher_update => exists a o n p s, spoils (cipher_update a o n p) s
  | W_des_doFinal => exists k m b off c a o n p out, cipher_reach ALG_DES_ECB_NOPAD k m b off c /\ spoils (des_doFinal a o n p) (c, out)
  | W_rsa_doFinal => exists X rnd c k a o n p out, spoils (rsa_doFinal X rnd c k a o n p) out
  end.

(** the calls that keep the property *)
Definition clean (f : wr) : bool :=
  match f with
  | W_getBytes | W_getPartialBytes | W_setIncomingAndReceive | W_setOutgoing | W_setOutgoingLength | W_sendBytes | W_sendBytesLong
  | W_add | W_subtract | W_multiply | W_append | W_addService | W_digest_update | W_private_setModulus | W_genKeyPair | W_cipher_update => true
  | _ => false
  end.

(** C136 in full *)
Definition C136_full : Prop := forall f, ~ spoiler f.
