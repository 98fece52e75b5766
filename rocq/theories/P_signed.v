(** * Proofs of C132: signed and unsigned bytes: property theorems *)
From Verif Require Import LP_signed Py S_Base M_utils M_util S_System S_Key S_Signed L_Py L_util.
From Verif Require M_aid M_ownerpin M_bignumber M_jcint M_bertag M_bertlv M_apdu M_world M_des M_key M_cipher M_digest.
From Verif Require S_OwnerPIN LP_ownerpin.
From Coq Require Import Lia Bool.

(** Shorts, copies and fills do not depend on how the bytes are stored: the same outcome,
    the same bytes in the arrays. *)
Theorem C132_util_partial : forall a a' h h' off v v' len src so dest do_ b, same_bytes a a' -> same_heap h h' -> same_byte v v' ->
  getShort a off = getShort a' off
  /\ makeShort v b = makeShort v' b
  /\ same_call same_bytes eq (setShort off b a) (setShort off b a')
  /\ same_call same_bytes eq (arrayFillNonAtomic off len v a) (arrayFillNonAtomic off len v' a')
  /\ same_call same_heap eq (arrayCopy src so dest do_ len h) (arrayCopy src so dest do_ len h')
  /\ same_call same_heap eq (arrayCopyNonAtomic src so dest do_ len h) (arrayCopyNonAtomic src so dest do_ len h').
Proof. exact C132_util_partial_pf. Qed.
Print Assumptions C132_util_partial.

(** AIDs made of the same bytes hold and deliver the same bytes. *)
Theorem C132_aid_partial : forall a a' d d' off len, same_bytes a a' -> same_bytes d d' ->
  same_res same_bytes (M_aid.newAID a off len) (M_aid.newAID a' off len)
  /\ same_call same_bytes eq (M_aid.getBytes a off d) (M_aid.getBytes a' off d').
Proof. exact C132_aid_partial_pf. Qed.
Print Assumptions C132_aid_partial.

(** But two AIDs of the same bytes are equal only if the bytes are stored alike. *)
Theorem C132_aid_refuted : forall a a', same_bytes a a' ->
  (M_aid.aid_eq a a' = true <-> a = a') /\ (M_aid.equals a a' 0 (zlen a') = Ok true <-> a = a')
  /\ (M_aid.RIDEquals a a' = true <-> py_slice a 0 5 = py_slice a' 0 5).
Proof. exact C132_aid_refuted_pf. Qed.
Print Assumptions C132_aid_refuted.

(** arrayCompare never finds two arrays of the same bytes equal if the bytes are stored
    differently anywhere. *)
Theorem C132_compare_refuted : forall a a', same_bytes a a' -> a <> a' ->
  arrayCompare a 0 a' 0 (zlen a) = Ok 1 \/ arrayCompare a 0 a' 0 (zlen a) = Ok (-1).
Proof. exact C132_compare_refuted_pf. Qed.
Print Assumptions C132_compare_refuted.

(** A PIN set with one way of storing the bytes is refused in the other: the check returns
    False (PINs that fill the PIN object, after any calls but update). *)
Theorem C132_pin_refuted : forall s p p' ops, let max := M_ownerpin.maxpinsize s in
  zlen (M_ownerpin.thepin s) = max -> zlen p = max -> same_bytes p p' -> p <> p' ->
  forallb (fun o => negb (S_OwnerPIN.is_update o)) ops = true ->
  let s2 := snd (M_ownerpin.pin_run ops (snd (M_ownerpin.update (M_ownerpin.PArr p) 0 max s))) in
  0 < M_ownerpin.triesremaining s2 -> fst (M_ownerpin.check (M_ownerpin.PArr p') 0 max s2) = Ok false.
Proof. exact C132_pin_refuted_pf. Qed.
Print Assumptions C132_pin_refuted.

(** getInt: storing the last byte signed makes the int 256 smaller, for every int whose
    last byte is 128 or more. *)
Theorem C132_int_refuted : forall b0 b1 b2 b3, 0 <= b0 <= 127 -> ubyte b1 -> ubyte b2 -> 128 <= b3 <= 255 ->
  exists v, M_jcint.getInt [b0; b1; b2; b3] 0 = Ok v /\ M_jcint.getInt [b0; b1; b2; b3 - 256] 0 = Ok (v - 256).
Proof. exact C132_int_refuted_pf. Qed.
Print Assumptions C132_int_refuted.

(** BigNumber: every sequence of calls gives the same number and the same outcome; numbers
    compare alike and are written alike. *)
Theorem C132_big_partial : forall ops ops' s a a' off len fmt out out', Forall2 same_big_op ops ops' -> same_opt same_bytes a a' -> same_bytes out out' ->
  M_bignumber.big_seq ops s = M_bignumber.big_seq ops' s
  /\ M_bignumber.compareTo s a off len fmt = M_bignumber.compareTo s a' off len fmt
  /\ same_call same_bytes eq (M_bignumber.toBytes s off len fmt out) (M_bignumber.toBytes s off len fmt out').
Proof. exact C132_big_partial_pf. Qed.
Print Assumptions C132_big_partial.

(** APDU: the same command bytes make the same object up to the stored bytes, every sequence
    of calls then has the same outcomes and leaves such objects, and the class byte is read
    alike. *)
Theorem C132_apdu_partial : forall b b' s s' ops ops', same_bytes b b' -> same_apdu s s' -> Forall2 same_apdu_op ops ops' ->
  same_res same_apdu (M_apdu.newAPDU b) (M_apdu.newAPDU b')
  /\ map snd (fst (M_apdu.apdu_run ops s)) = map snd (fst (M_apdu.apdu_run ops' s'))
  /\ same_apdu (snd (M_apdu.apdu_run ops s)) (snd (M_apdu.apdu_run ops' s'))
  /\ M_apdu.isCommandChainingCLA s = M_apdu.isCommandChainingCLA s' /\ M_apdu.isISOInterindustryCLA s = M_apdu.isISOInterindustryCLA s'.
Proof. exact C132_apdu_partial_pf. Qed.
Print Assumptions C132_apdu_partial.

(** Tags are read alike: object, size, class, number and kind. *)
Theorem C132_tag_partial : forall a a' off, same_bytes a a' ->
  M_bertag.BERTag_getInstance a off = M_bertag.BERTag_getInstance a' off
  /\ M_bertag.Primitive_init_bytes a off = M_bertag.Primitive_init_bytes a' off
  /\ M_bertag.Constructed_init_bytes a off = M_bertag.Constructed_init_bytes a' off
  /\ M_bertag.tag_sizeStatic a off = M_bertag.tag_sizeStatic a' off
  /\ M_bertag.tag_isConstructedStatic a off = M_bertag.tag_isConstructedStatic a' off
  /\ M_bertag.tag_tagClassStatic a off = M_bertag.tag_tagClassStatic a' off
  /\ M_bertag.tag_tagNumberStatic a off = M_bertag.tag_tagNumberStatic a' off.
Proof. exact C132_tag_partial_pf. Qed.
Print Assumptions C132_tag_partial.

(** TLVs are read alike if the length is given, or if the length octet is of the short form. *)
Theorem C132_tlv_partial : forall a a' off len, same_bytes a a' ->
  (len = None -> forall g x, M_bertag.BERTag_getInstance a off = Ok g -> py_get (py_slice_from a (off + M_bertag.tag_size g)) 0 = Ok x -> Z.land x 128 = 0) ->
  same_res same_tlv (M_bertlv.getInstance a off len) (M_bertlv.getInstance a' off len)
  /\ (len = None -> M_bertlv.getLengthStatic a off = M_bertlv.getLengthStatic a' off).
Proof. exact C132_tlv_partial_pf. Qed.
Print Assumptions C132_tlv_partial.

(** With a long form the length is read from the cells themselves: storing the length octet
    signed makes it 256 smaller. *)
Theorem C132_tlv_refuted : forall L rest, 128 <= L <= 255 ->
  exists t t', M_bertlv.getInstance (4 :: 129 :: L :: rest) 0 None = Ok t /\ M_bertlv.getInstance (4 :: 129 :: (L - 256) :: rest) 0 None = Ok t'
    /\ M_bertlv.tlen t = L /\ M_bertlv.tlen t' = L - 256.
Proof. exact C132_tlv_refuted_pf. Qed.
Print Assumptions C132_tlv_refuted.

(** DES: keys, ciphers and every history of calls are the same; the output holds the same
    bytes. *)
Theorem C132_des_partial : forall kd kd' off k key mode iv iv' ioff n c h h' i i' o o' x m y, same_bytes kd kd' -> same_bytes iv iv' ->
  Forall2 same_ccall h h' -> same_bytes i i' -> same_bytes o o' ->
  M_key.setKey kd off k = M_key.setKey kd' off k
  /\ M_cipher.des_init key mode iv ioff n c = M_cipher.des_init key mode iv' ioff n c
  /\ fold_left M_cipher.cipher_call h c = fold_left M_cipher.cipher_call h' c
  /\ same_call (fun s s' => fst s = fst s' /\ same_bytes (snd s) (snd s')) eq (M_cipher.des_doFinal i x m y (c, o)) (M_cipher.des_doFinal i' x m y (c, o')).
Proof. exact C132_des_partial_pf. Qed.
Print Assumptions C132_des_partial.

(** Message digests, for every hash function: every history of calls leaves the same object, the output holds the same
    bytes. *)
Theorem C132_digest_partial : forall H s h h' i i' o o' x n y, Forall2 same_dcall h h' -> same_bytes i i' -> same_bytes o o' ->
  M_digest.digest_run H h s = M_digest.digest_run H h' s
  /\ same_call (fun s s' => fst s = fst s' /\ same_bytes (snd s) (snd s')) eq (M_digest.digest_doFinal H i x n y (s, o)) (M_digest.digest_doFinal H i' x n y (s, o')).
Proof. exact C132_digest_partial_pf. Qed.
Print Assumptions C132_digest_partial.

(** RSA: the number built from a modulus with one byte of 128 or more stored signed is another
    one, and that is the number the key is constructed from. *)
Theorem C132_rsa_refuted : forall X k b x c e, 128 <= x <= 255 -> let m := b ++ x :: c in let m' := b ++ (x - 256) :: c in
  M_key.pc_avail X = true -> M_key.pk_exp k = Some e -> M_key.pk_the k = None -> zlen m = M_key.pk_size k / 8 ->
  same_bytes m m' /\ M_key.arrayTolong m' = M_key.arrayTolong m - 2 ^ (8 * zlen b + 8)
  /\ forall w, w = m \/ w = m' -> M_key.pk_the (snd (M_key.pub_setModulus X w 0 (zlen m) k))
       = match M_key.pc_construct X (M_key.arrayTolong w) (M_key.arrayTolong e) with Ok r => Some r | Err _ => None end.
Proof. exact C132_rsa_refuted_pf. Qed.
Print Assumptions C132_rsa_refuted.

Theorem C132_full_refuted : ~ C132_full.
Proof. exact C132_full_refuted_pf. Qed.
Print Assumptions C132_full_refuted.

(** Examples: the command [80; 4; 0; 0; 130; ...] and its signed form; an AID; a TLV *)
Example C132_ex : same_bytes [-96; 4; 0; 0; 2; -56; 1; -1] [160; 4; 0; 0; 2; 200; 1; 255]
  /\ match M_apdu.newAPDU [-96; 4; 0; 0; 2; -56; 1; -1], M_apdu.newAPDU [160; 4; 0; 0; 2; 200; 1; 255] with
     | Ok s, Ok s' => M_apdu.Nc s = 2 /\ M_apdu.Ne s = Some 255 /\ M_apdu.Ne s' = Some 255
         /\ fst (M_apdu.apdu_run [M_apdu.OpSetIncomingAndReceive; M_apdu.OpSetOutgoing] s) = [(M_apdu.OpSetIncomingAndReceive, Ok (Some 2)); (M_apdu.OpSetOutgoing, Ok (Some 255))]
     | _, _ => False
     end
  /\ getShort [-1; -2] 0 = Ok (-2) /\ getShort [255; 254] 0 = Ok (-2) /\ arrayCompare [-1; -2] 0 [255; 254] 0 2 = Ok (-1)
  /\ M_jcint.getInt [0; 0; 0; -1] 0 = Ok (-1) /\ M_jcint.getInt [0; 0; 0; 255] 0 = Ok 255
  /\ M_aid.aid_eq [-96; 0; 0; 0; 98] [160; 0; 0; 0; 98] = false
  /\ M_bertag.BERTag_getInstance [-1; -127; 5] 0 = M_bertag.BERTag_getInstance [255; 129; 5] 0
  /\ rmap M_bertag.tnumber (M_bertag.BERTag_getInstance [255; 129; 5] 0) = Ok 133
  /\ rmap M_bertlv.tlen (M_bertlv.getInstance [4; -127; -56] 0 None) = Ok (-56) /\ rmap M_bertlv.tlen (M_bertlv.getInstance [4; 129; 200] 0 None) = Ok 200.
Proof.
  split; [repeat (constructor; [first [left; reflexivity|right; unfold anybyte; repeat split; lia]|]); constructor|]. vm_compute. repeat split.
Qed.

Example C132_ex2 :
  (let s := M_ownerpin.newOwnerPIN 3 2 in
   let s2 := snd (M_ownerpin.update (M_ownerpin.PArr [200; 5]) 0 2 s) in
   zlen (M_ownerpin.thepin s) = 2 /\ M_ownerpin.triesremaining s2 = 3 /\ fst (M_ownerpin.check (M_ownerpin.PArr [200; 5]) 0 2 s2) = Ok true
   /\ fst (M_ownerpin.check (M_ownerpin.PArr [-56; 5]) 0 2 s2) = Ok false)
  /\ (exists v, M_bignumber.big_seq [M_bignumber.OpInit (Some [-103; 18]) 0 2 1] (M_bignumber.mkBig (Some 8) (Some 0)) = (Ok tt, M_bignumber.mkBig (Some 8) (Some v))
       /\ M_bignumber.big_seq [M_bignumber.OpInit (Some [153; 18]) 0 2 1] (M_bignumber.mkBig (Some 8) (Some 0)) = (Ok tt, M_bignumber.mkBig (Some 8) (Some v)))
  /\ M_key.dk_key (snd (M_key.setKey [-1; -2; 3; 4; 5; 6; 7; -128] 0 (M_key.deskey_new 3 64))) = Some [255; 254; 3; 4; 5; 6; 7; 128]
  /\ (let X := M_key.mkPyCrypto true (fun n e => Ok (M_key.mkRsa n e 0 0 0 0)) (fun _ => Err ValueError) (fun _ _ => Err ValueError) (fun _ _ => Err ValueError) in
      let k := M_key.mkPub 16 false (Some [3]) None None in
      option_map M_key.r_n (M_key.pk_the (snd (M_key.pub_setModulus X [1; 200] 0 2 k))) = Some 51201
      /\ option_map M_key.r_n (M_key.pk_the (snd (M_key.pub_setModulus X [1; -56] 0 2 k))) = Some (-14335)).
Proof. vm_compute. repeat split. eexists. now split. Qed.
