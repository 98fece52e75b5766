(** * Specification for C139: calls return the number the Java Card API defines *)
From Verif Require Import Py S_Base S_Cipher M_util M_aid M_jcint M_bertag M_bertlv M_digest M_key M_cipher.
From Coq Require List.
Import List.ListNotations.

(** What a Python function returns: the models have the result type [unit] where the code
    has no return statement. *)
Inductive pyv : Set := VNone | VInt (n : Z).
Definition vu (_ : unit) : pyv := VNone.
Definition vz (n : Z) : pyv := VInt n.

(** The calls that return a number in the Java Card API 2.2.2 *)
Inductive rv : Set :=
| V_arrayCopy | V_arrayCopyNonAtomic | V_arrayFillNonAtomic | V_setShort | V_setInt | V_getBytes
| V_tag_toBytes | V_tlv_toBytes | V_init | V_append | V_getValue | V_replaceValue
| V_getKey | V_getExponent | V_getModulus | V_private_getExponent | V_private_getModulus
| V_digest_doFinal | V_cipher_update | V_des_doFinal | V_rsa_doFinal.

(** Number of octets of a BER identifier, of a length, of a TLV *)
Definition id_size (number : Z) : Z := if number <=? 30 then 1 else 2 + Z.log2 number / 7.
Definition len_size (n : Z) : Z := if n <=? 127 then 1 else 2 + Z.log2 n / 8.
Definition octets_of (g : tag) (n : Z) : Z := id_size (tnumber g) + len_size n + n.
(** a tag whose size() is right *)
Definition good_tag (g : tag) : Prop := 0 <= tclass g <= 3 /\ 0 <= tnumber g /\ tsize g = id_size (tnumber g).
Definition within (b : list Z) (o n : Z) : Prop := 0 <= o /\ 0 <= n /\ o + n <= zlen b.

(** Every call of [f] that succeeds returns the number of the API: the offset behind the last
    byte written (Util, JCint), the number of bytes written, or the size of the TLV. *)
Definition as_defined (f : rv) : Prop :=
  match f with
  | V_arrayCopy => forall s so d do n h r h', arrayCopy s so d do n h = (Ok r, h') -> vu r = VInt (do + n)
  | V_arrayCopyNonAtomic => forall s so d do n h r h', arrayCopyNonAtomic s so d do n h = (Ok r, h') -> vu r = VInt (do + n)
  | V_arrayFillNonAtomic => forall o n v a r a', arrayFillNonAtomic o n v a = (Ok r, a') -> vu r = VInt (o + n)
  | V_setShort => forall o v a r a', setShort o v a = (Ok r, a') -> vu r = VInt (o + 2)
  | V_setInt => forall o v w a r a', setInt o v w a = (Ok r, a') -> vz r = VInt (o + 4)
  | V_getBytes => forall b o n x p a r a', within b o n -> newAID b o n = Ok x -> getBytes x p a = (Ok r, a') -> vz r = VInt n
  | V_tag_toBytes => forall g o a r a', 0 <= tnumber g -> tag_toBytes g o a = (Ok r, a') -> vz r = VInt (id_size (tnumber g))
  | V_tlv_toBytes => forall t g o a r a', ttag t = Some g -> 0 <= tnumber g -> tlv_toBytes t o a = (Ok r, a') -> vz r = VInt (octets_of g (tlen t))
  | V_init => forall t g b o n r, good_tag g -> within b o n -> tlv_size (init_tag t g b o n) = Ok r -> vz r = VInt (octets_of g n)
  | V_append => forall u t g r t', ttag t = Some g -> good_tag g -> append u t = (Ok r, t') -> vz r = VInt (octets_of g (tlen t'))
  | V_getValue => forall t v o a r a', tval t = Some v -> tlen t = zlen v -> getValue t o a = (Ok r, a') -> vz r = VInt (zlen v)
  | V_replaceValue => forall t g b o n r t', ttag t = Some g -> good_tag g -> within b o n -> replaceValue b o n t = (Ok r, t') -> vu r = VInt (octets_of g n)
  | V_getKey => forall t size kd ko o a r a', getKey (snd (setKey kd ko (deskey_new t size))) o a = (Ok r, a') -> vu r = VInt (size / 8)
  | V_getExponent => forall X k0 b o n k p a r a', within b o n -> pub_setExponent X b o n k0 = (Ok tt, k) -> pub_getExponent k p a = (Ok r, a') -> vz r = VInt n
  | V_getModulus => forall X k0 b o n k p a r a', within b o n -> pub_setModulus X b o n k0 = (Ok tt, k) -> pub_getModulus k p a = (Ok r, a') -> vz r = VInt n
  | V_private_getExponent => forall k0 b o n k p a r a', within b o n -> priv_setExponent b o n k0 = (Ok tt, k) -> priv_getExponent k p a = (Ok r, a') -> vz r = VInt n
  | V_private_getModulus => forall k0 b o n k p a r a', within b o n -> priv_setModulus b o n k0 = (Ok tt, k) -> priv_getModulus k p a = (Ok r, a') -> vz r = VInt n
  | V_digest_doFinal => forall H s b o n p a r s', (forall alg d, zlen (hl_digest H alg d) = hl_size H alg) ->
      digest_doFinal H b o n p (s, a) = (Ok r, s') -> forall d, vz r = VInt (zlen (hl_digest H (md_alg s) d))
  | V_cipher_update => forall b o n p s r s', n mod 8 = 0 -> within b o n -> cipher_update b o n p s = (Ok r, s') -> vu r = VInt n
  | V_des_doFinal => forall alg k m iv off c b o n p a r s', des_alg alg -> cipher_reach alg k m iv off c -> within b o n ->
      des_doFinal b o n p (c, a) = (Ok r, s') -> (alg_pkcs5 alg = true -> m = MODE_ENCRYPT) ->
      vz r = VInt (if alg_pkcs5 alg then 8 * (n / 8 + 1) else n)
  | V_rsa_doFinal => forall X rnd c k b o n p a r a', c_alg c = ALG_RSA_NOPAD -> rsa_doFinal X rnd c k b o n p a = (Ok r, a') -> vz r = VInt (getSize k / 8)
  end.

(** the calls that keep the property *)
Definition defined (f : rv) : bool :=
  match f with
  | V_setInt | V_getBytes | V_tag_toBytes | V_tlv_toBytes | V_getValue | V_getExponent | V_getModulus
  | V_private_getExponent | V_private_getModulus | V_digest_doFinal | V_des_doFinal => true
  | _ => false
  end.

(** C139 in full *)
Definition C139_full : Prop := forall f, as_defined f.
