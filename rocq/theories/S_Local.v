(** * Specification for C138: a call reads the bytes it is given, and no others *)
From Verif Require Import Py S_Base M_util M_aid M_ownerpin M_apdu M_bignumber M_jcint M_bertag M_bertlv M_digest M_key M_cipher.
From Coq Require List.
Import List.ListNotations.

(** The [n] bytes of [a] from [o] on are those of [b] from [p] on; what is before and behind
    them, and where they are, may differ. *)
Definition same (a : list Z) (o : Z) (b : list Z) (p n : Z) : Prop :=
  0 <= n /\ 0 <= o /\ o + n <= zlen a /\ 0 <= p /\ p + n <= zlen b
  /\ sub a (Z.to_nat o) (Z.to_nat n) = sub b (Z.to_nat p) (Z.to_nat n).

(** The calls that read a range of an array.  [R_check str], [R_update str]: with a string or an array. *)
Inductive rd : Set :=
| R_arrayCompare | R_arrayCopy | R_arrayCopyNonAtomic | R_getShort | R_getInt
| R_newAID | R_equals | R_partialEquals | R_check (str : bool) | R_update (str : bool) | R_sendBytesLong
| R_bn_init | R_bn_add | R_bn_subtract | R_bn_multiply | R_bn_compareTo
| R_tag | R_primitive_init | R_constructed_init | R_tlv_length | R_tlv | R_tlv_self | R_tlv_init | R_tlv_init_tag | R_replaceValue
| R_digest_update | R_digest_doFinal | R_setKey | R_setExponent | R_setModulus | R_private_setExponent | R_private_setModulus
| R_cipher_init | R_cipher_update | R_des_doFinal | R_rsa_doFinal.

Definition pin_of (str : bool) (a : list Z) : pinarg := if str then PStr a else PArr a.

(** Result and effect of [f] depend on the bytes of the range only.  An encoding that tells its
    own length (tags, TLVs without length): if the range alone holds it, an array with the same
    bytes somewhere is read the same. *)
Definition local (f : rd) : Prop :=
  match f with
  | R_arrayCompare => forall a o b p c q d r n, same a o b p n -> same c q d r n -> arrayCompare a o c q n = arrayCompare b p d r n
  | R_arrayCopy => forall h s so h' s' so' d d' do n, s <> d -> s' <> d' -> same (h s) so (h' s') so' n -> h d = h' d' ->
      fst (arrayCopy s so d do n h) = fst (arrayCopy s' so' d' do n h') /\ snd (arrayCopy s so d do n h) d = snd (arrayCopy s' so' d' do n h') d'
  | R_arrayCopyNonAtomic => forall h s so h' s' so' d d' do n, s <> d -> s' <> d' -> same (h s) so (h' s') so' n -> h d = h' d' ->
      fst (arrayCopyNonAtomic s so d do n h) = fst (arrayCopyNonAtomic s' so' d' do n h') /\ snd (arrayCopyNonAtomic s so d do n h) d = snd (arrayCopyNonAtomic s' so' d' do n h') d'
  | R_getShort => forall a o b p, same a o b p 2 -> getShort a o = getShort b p
  | R_getInt => forall a o b p, same a o b p 4 -> getInt a o = getInt b p
  | R_newAID => forall a o b p n, same a o b p n -> newAID a o n = newAID b p n
  | R_equals => forall x a o b p n, same a o b p n -> equals x a o n = equals x b p n
  | R_partialEquals => forall x a o b p n, same a o b p n -> partialEquals x a o n = partialEquals x b p n
  | R_check str => forall s a o b p n, same a o b p n -> check (pin_of str a) o n s = check (pin_of str b) p n s
  | R_update str => forall s a o b p n, same a o b p n -> update (pin_of str a) o n s = update (pin_of str b) p n s
  | R_sendBytesLong => forall s a o b p n, same a o b p n -> sendBytesLong a o n s = sendBytesLong b p n s
  | R_bn_init => forall s f a o b p n, same a o b p n -> M_bignumber.init (Some a) o n f s = M_bignumber.init (Some b) p n f s
  | R_bn_add => forall s f a o b p n, same a o b p n -> add (Some a) o n f s = add (Some b) p n f s
  | R_bn_subtract => forall s f a o b p n, same a o b p n -> subtract (Some a) o n f s = subtract (Some b) p n f s
  | R_bn_multiply => forall s f a o b p n, same a o b p n -> multiply (Some a) o n f s = multiply (Some b) p n f s
  | R_bn_compareTo => forall s f a o b p n, same a o b p n -> compareTo s (Some a) o n f = compareTo s (Some b) p n f
  | R_tag => forall a b p g, same a 0 b p (zlen a) -> BERTag_getInstance a 0 = Ok g -> BERTag_getInstance b p = Ok g
  | R_primitive_init => forall a b p g, same a 0 b p (zlen a) -> Primitive_init_bytes a 0 = Ok g -> Primitive_init_bytes b p = Ok g
  | R_constructed_init => forall a b p g, same a 0 b p (zlen a) -> Constructed_init_bytes a 0 = Ok g -> Constructed_init_bytes b p = Ok g
  | R_tlv_length => forall a b p n, same a 0 b p (zlen a) -> getLengthStatic a 0 = Ok n -> getLengthStatic b p = Ok n
  | R_tlv => forall a o b p n, same a o b p n -> getInstance a o (Some n) = getInstance b p (Some n)
  | R_tlv_self => forall a b p t, same a 0 b p (zlen a) -> getInstance a 0 None = Ok t -> getInstance b p None = Ok t
  | R_tlv_init => forall s a o b p n, same a o b p n -> init_bytes a o n s = init_bytes b p n s
  | R_tlv_init_tag => forall t g a o b p n, same a o b p n -> init_tag t g a o n = init_tag t g b p n
  | R_replaceValue => forall t a o b p n, same a o b p n -> replaceValue a o n t = replaceValue b p n t
  | R_digest_update => forall s a o b p n, same a o b p n -> digest_update a o n s = digest_update b p n s
  | R_digest_doFinal => forall H q s a o b p n, same a o b p n -> digest_doFinal H a o n q s = digest_doFinal H b p n q s
  | R_setKey => forall k a o b p, same a o b p (dk_size k / 8) -> setKey a o k = setKey b p k
  | R_setExponent => forall X k a o b p n, same a o b p n -> pub_setExponent X a o n k = pub_setExponent X b p n k
  | R_setModulus => forall X k a o b p n, same a o b p n -> pub_setModulus X a o n k = pub_setModulus X b p n k
  | R_private_setExponent => forall k a o b p n, same a o b p n -> priv_setExponent a o n k = priv_setExponent b p n k
  | R_private_setModulus => forall k a o b p n, same a o b p n -> priv_setModulus a o n k = priv_setModulus b p n k
  | R_cipher_init => forall k m c a o b p n, same a o b p n -> des_init k m a o n c = des_init k m b p n c
  | R_cipher_update => forall q s a o b p n, same a o b p n -> cipher_update a o n q s = cipher_update b p n q s
  | R_des_doFinal => forall q s a o b p n, same a o b p n -> des_doFinal a o n q s = des_doFinal b p n q s
  | R_rsa_doFinal => forall X rnd c k q s a o b p n, same a o b p n -> rsa_doFinal X rnd c k a o n q s = rsa_doFinal X rnd c k b p n q s
  end.

(** the calls that keep the property *)
Definition is_local (f : rd) : bool := match f with R_tlv_length | R_tlv | R_tlv_self | R_tlv_init => false | _ => true end.

(** C138 in full *)
Definition C138_full : Prop := forall f, local f.
