(** * Specification for C137: byte arrays stay byte arrays *)
From Verif Require Import Py S_Base S_Key S_Cipher M_util M_aid M_apdu M_bignumber M_jcint M_bertag M_bertlv M_system M_digest M_key M_cipher.
From Coq Require List.
Import List.ListNotations.

(** every cell is a byte of Java *)
Definition jbytes (a : list Z) : Prop := Forall sbyte a.

(** The calls that store bytes in an array of the caller.  APDU: the buffer of the object and
    the array with the response.  [B_rsa private exponent generated]: getExponent or getModulus
    of a private or public key that genKeyPair made, or that setExponent and setModulus filled. *)
Inductive bw : Set :=
| B_arrayCopy | B_arrayCopyNonAtomic | B_arrayFillNonAtomic | B_setShort | B_setInt | B_getBytes
| B_apdu_buffer | B_apdu_response | B_toBytes | B_tag_toBytes | B_tlv_toBytes | B_append_static | B_getValue
| B_getAvailableMemory | B_digest_doFinal | B_generateData | B_getKey | B_rsa (private exponent generated : bool)
| B_des_doFinal | B_rsa_doFinal.

(** [ok]: only calls that succeed count *)
Definition outcome {A} (ok : bool) (r : res A) : Prop := ok = true -> exists v, r = Ok v.
(** [m] leaves the array [a], started on an array of bytes *)
Definition left_by {A} (ok : bool) (m : M (list Z) A) (a : list Z) : Prop :=
  exists a0, jbytes a0 /\ outcome ok (fst (m a0)) /\ a = snd (m a0).

(** what a tag of the standard is, and a TLV with a value of bytes *)
Definition a_tag (g : tag) : Prop := 0 <= tclass g <= 3 /\ 0 <= tnumber g.
Definition byte_tlv (t : tlv) : Prop :=
  (forall g, ttag t = Some g -> a_tag g) /\ 0 <= tlen t /\ (forall v, tval t = Some v -> jbytes v).
(** calls on an APDU, on a key, with arrays of bytes *)
Definition byte_op (o : apdu_op) : Prop :=
  match o with OpSendBytesLong d _ _ => jbytes d | OpWriteBuffer _ v => sbyte v | _ => True end.
Definition byte_setter (o : setter) : Prop := match o with SExp b _ _ => jbytes b | SMod b _ _ => jbytes b end.
Definition byte_apdu (s : apdu) : Prop :=
  exists cmd s0 ops, jbytes cmd /\ newAPDU cmd = Ok s0 /\ Forall byte_op ops /\ s = snd (apdu_run ops s0).

(** [a] is what some call of [f], with arrays of bytes only, leaves in the array *)
Definition leaves (ok : bool) (f : bw) (a : list Z) : Prop :=
  match f with
  | B_arrayCopy => exists s so d do n h l, (forall k, jbytes (h k)) /\ outcome ok (fst (arrayCopy s so d do n h)) /\ a = snd (arrayCopy s so d do n h) l
  | B_arrayCopyNonAtomic => exists s so d do n h l, (forall k, jbytes (h k)) /\ outcome ok (fst (arrayCopyNonAtomic s so d do n h)) /\ a = snd (arrayCopyNonAtomic s so d do n h) l
  | B_arrayFillNonAtomic => exists o n v, sbyte v /\ left_by ok (arrayFillNonAtomic o n v) a
  | B_setShort => exists o v, left_by ok (setShort o v) a
  | B_setInt => exists o v w, left_by ok (setInt o v w) a
  | B_getBytes => exists b o n s p, jbytes b /\ newAID b o n = Ok s /\ left_by ok (getBytes s p) a
  | B_apdu_buffer => exists s, byte_apdu s /\ a = buf s
  | B_apdu_response => exists s, byte_apdu s /\ a = raw s
  | B_toBytes => exists b o n f, left_by ok (toBytes b o n f) a
  | B_tag_toBytes => exists g o, a_tag g /\ left_by ok (tag_toBytes g o) a
  | B_tlv_toBytes => exists t o, byte_tlv t /\ left_by ok (tlv_toBytes t o) a
  | B_append_static => exists b o p, jbytes b /\ left_by ok (appendStatic b o p) a
  | B_getValue => exists t o, byte_tlv t /\ left_by ok (getValue t o) a
  | B_getAvailableMemory => exists o t b, jbytes b /\ outcome ok (fst (getAvailableMemory3 o t (Some b))) /\ Some a = snd (getAvailableMemory3 o t (Some b))
  | B_digest_doFinal => exists H s b o n p a0, (forall alg d, Forall ubyte (hl_digest H alg d)) /\ jbytes b /\ jbytes a0
      /\ outcome ok (fst (digest_doFinal H b o n p (s, a0))) /\ a = snd (snd (digest_doFinal H b o n p (s, a0)))
  | B_generateData => exists rnd o n, (forall i, ubyte (rnd i)) /\ left_by ok (generateData rnd o n) a
  | B_getKey => exists t size kd ko o, jbytes kd /\ left_by ok (getKey (snd (setKey kd ko (deskey_new t size))) o) a
  | B_rsa private exponent generated => exists X o,
      if generated
      then exists kp kp', genKeyPair X kp = (Ok tt, kp')
        /\ left_by ok (if private then (if exponent then priv_getExponent else priv_getModulus) (kp_priv kp') o
                       else (if exponent then pub_getExponent else pub_getModulus) (kp_pub kp') o) a
      else exists size h, Forall byte_setter h
        /\ left_by ok (if private then (if exponent then priv_getExponent else priv_getModulus) (run_priv h (privkey_new size)) o
                       else (if exponent then pub_getExponent else pub_getModulus) (run_pub X h (pubkey_new size)) o) a
  | B_des_doFinal => exists alg k m iv off c b o n p a0, des_alg alg
      /\ cipher_reach alg k m iv off c /\ jbytes b /\ jbytes a0 /\ outcome ok (fst (des_doFinal b o n p (c, a0))) /\ a = snd (snd (des_doFinal b o n p (c, a0)))
  | B_rsa_doFinal => exists X rnd c k b o n p, Forall ubyte rnd /\ jbytes b /\ left_by ok (rsa_doFinal X rnd c k b o n p) a
  end.

(** the calls that keep the property; the first two of the second line only if they succeed *)
Definition byte_safe (ok : bool) (f : bw) : bool :=
  match f with
  | B_append_static | B_getAvailableMemory | B_generateData | B_rsa _ _ true | B_rsa_doFinal => false
  | B_tag_toBytes | B_tlv_toBytes => ok
  | _ => true
  end.

(** C137 in full *)
Definition C137_full : Prop := forall ok f a, leaves ok f a -> jbytes a.
