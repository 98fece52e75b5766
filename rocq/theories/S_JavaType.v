(** * Specification for C140: returned numbers fit the result type of the Java Card API *)
From Verif Require Import Py S_Base M_util M_aid M_ownerpin M_apdu M_world M_bignumber M_jcint M_bertag M_bertlv M_digest M_key M_cipher.
From Coq Require List.
Import List.ListNotations.

(** The numeric types of the Java Card virtual machine, and its byte arrays *)
Inductive jtype : Set := JByte | JShort | JInt.
Definition within_type (t : jtype) (v : Z) : Prop :=
  match t with
  | JByte => -128 <= v <= 127
  | JShort => -32768 <= v <= 32767
  | JInt => -2147483648 <= v <= 2147483647
  end.
Definition jbytes (a : list Z) : Prop := Forall (within_type JByte) a /\ zlen a <= 32767.
Definition joffset (o : Z) : Prop := 0 <= o <= 32767.

(** Calls whose result is a number *)
Inductive nv : Set :=
| N_arrayCompare | N_makeShort | N_getShort | N_makeInt_bytes | N_makeInt_shorts | N_getInt | N_setInt
| N_getBytes | N_getTriesRemaining
| N_getCurrentState | N_getCLAChannel | N_getIncomingLength | N_getOffsetCdata | N_setIncomingAndReceive | N_receiveBytes | N_setOutgoing
| N_compareTo
| N_tagClass | N_tagNumber | N_tag_size | N_tag_toBytes
| N_getLength | N_size | N_getLength_static | N_getValueOffset | N_tlv_toBytes | N_getValue
| N_getExponent | N_getModulus | N_digest_doFinal | N_des_doFinal.

(** the result type in the Java Card API 2.2.2 *)
Definition result_type (f : nv) : jtype :=
  match f with
  | N_arrayCompare | N_getBytes | N_getTriesRemaining | N_getCurrentState | N_getCLAChannel | N_compareTo | N_tagClass | N_tag_size => JByte
  | N_makeInt_bytes | N_makeInt_shorts | N_getInt => JInt
  | _ => JShort
  end.

(** [returns f r]: some call of [f] whose arguments have their Java types, in a state that calls
    with such arguments lead to, returns [r] *)
Definition returns (f : nv) (r : Z) : Prop :=
  match f with
  | N_arrayCompare => exists s so d do n, jbytes s /\ jbytes d /\ arrayCompare s so d do n = Ok r
  | N_makeShort => exists b c, within_type JByte b /\ within_type JByte c /\ makeShort b c = r
  | N_getShort => exists a o, jbytes a /\ joffset o /\ getShort a o = Ok r
  | N_makeInt_bytes => exists a b c d, Forall (within_type JByte) [a; b; c; d] /\ makeInt4 a b c d = r
  | N_makeInt_shorts => exists s t, within_type JShort s /\ within_type JShort t /\ makeInt2 s t = r
  | N_getInt => exists a o, jbytes a /\ joffset o /\ getInt a o = Ok r
  | N_setInt => exists a o v w a', jbytes a /\ joffset o /\ setInt o v w a = (Ok r, a')
  | N_getBytes => exists b o n x p a a', newAID b o n = Ok x /\ jbytes a /\ joffset p /\ getBytes x p a = (Ok r, a')
  | N_getTriesRemaining => exists lim max ops s, within_type JByte lim /\ snd (pin_run ops (newOwnerPIN lim max)) = s /\ getTriesRemaining s = (Ok r, s)
  | N_getCurrentState => exists b s0 ops, newAPDU b = Ok s0 /\ getCurrentState (snd (apdu_run ops s0)) = r
  | N_getCLAChannel => exists w, getCLAChannel w = Ok r
  | N_getIncomingLength => exists b s0 ops, newAPDU b = Ok s0 /\ getIncomingLength (snd (apdu_run ops s0)) = r
  | N_getOffsetCdata => exists b s0 ops, newAPDU b = Ok s0 /\ getOffsetCdata (snd (apdu_run ops s0)) = r
  | N_setIncomingAndReceive => exists b s0 ops s', newAPDU b = Ok s0 /\ setIncomingAndReceive (snd (apdu_run ops s0)) = (Ok r, s')
  | N_receiveBytes => exists b s0 ops o s', newAPDU b = Ok s0 /\ receiveBytes o (snd (apdu_run ops s0)) = (Ok r, s')
  | N_setOutgoing => exists b s0 ops s', newAPDU b = Ok s0 /\ setOutgoing (snd (apdu_run ops s0)) = (Ok r, s')
  | N_compareTo => exists s a o n fmt, compareTo s a o n fmt = Ok r
  | N_tagClass => exists a o g, jbytes a /\ joffset o /\ BERTag_getInstance a o = Ok g /\ tclass g = r
  | N_tagNumber => exists a o g, jbytes a /\ joffset o /\ BERTag_getInstance a o = Ok g /\ tnumber g = r
  | N_tag_size => exists a o g, jbytes a /\ joffset o /\ BERTag_getInstance a o = Ok g /\ tag_size g = r
  | N_tag_toBytes => exists g o a a', jbytes a /\ joffset o /\ tag_toBytes g o a = (Ok r, a')
  | N_getLength => exists a o t, jbytes a /\ joffset o /\ getInstance a o None = Ok t /\ tlen t = r
  | N_size => exists a o t, jbytes a /\ joffset o /\ getInstance a o None = Ok t /\ tlv_size t = Ok r
  | N_getLength_static => exists a o, jbytes a /\ joffset o /\ getLengthStatic a o = Ok r
  | N_getValueOffset => exists a o, jbytes a /\ joffset o /\ getValueOffset a o = Ok r
  | N_tlv_toBytes => exists a o t p b b', jbytes a /\ joffset o /\ getInstance a o None = Ok t /\ jbytes b /\ joffset p /\ tlv_toBytes t p b = (Ok r, b')
  | N_getValue => exists a o t p b b', jbytes a /\ joffset o /\ getInstance a o None = Ok t /\ jbytes b /\ joffset p /\ getValue t p b = (Ok r, b')
  | N_getExponent => exists k o a a', jbytes a /\ joffset o /\ pub_getExponent k o a = (Ok r, a')
  | N_getModulus => exists k o a a', jbytes a /\ joffset o /\ pub_getModulus k o a = (Ok r, a')
  | N_digest_doFinal => exists H s b o n p a s', (forall alg d, zlen (hl_digest H alg d) = hl_size H alg) /\ jbytes a /\ joffset p /\
      digest_doFinal H b o n p (s, a) = (Ok r, s')
  | N_des_doFinal => exists b o n p c a s', jbytes a /\ joffset p /\ des_doFinal b o n p (c, a) = (Ok r, s')
  end.

Definition keeps_type (f : nv) : Prop := forall r, returns f r -> within_type (result_type f) r.

(** the calls that keep the property *)
Definition typed (f : nv) : bool :=
  match f with
  | N_makeInt_bytes | N_makeInt_shorts | N_getInt | N_getIncomingLength | N_setOutgoing
  | N_tagNumber | N_tag_size | N_getLength | N_size | N_getLength_static | N_getValueOffset | N_tlv_toBytes | N_getValue => false
  | _ => true
  end.

(** C140 in full *)
Definition C140_full : Prop := forall f, keeps_type f.
