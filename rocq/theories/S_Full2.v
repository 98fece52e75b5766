(** * The properties that the code violates, in full: C60-C78
    Each [Cxx_full] is the property as stated in properties.jsonl.  They are
    refuted in P_full2.v; the strongest true fragments are the [_partial]
    theorems of the P_ files. *)
From Verif Require Import Py S_Base S_Number S_Key S_System S_DES S_Cipher M_utils M_util M_des M_key M_cipher
  M_digest M_system.

(** a DES key of a supported size whose bytes are in the array *)
Definition good_key (typ size : Z) (keyData : list Z) (keyOff : Z) : Prop :=
  In size [64; 128; 192] /\ 0 <= keyOff /\ keyOff + size / 8 <= zlen keyData.
Definition the_key (typ size : Z) (keyData : list Z) (keyOff : Z) : deskey :=
  snd (setKey keyData keyOff (deskey_new typ size)).

(** [n1] is the number of bytes that update has written *)
Definition C60_full : Prop := forall alg typ size keyData keyOff bArray bOff mode c in1 io1 il1 inBuff io il out oo,
  des_alg alg -> good_key typ size keyData keyOff -> 0 <= bOff -> bOff + 8 <= zlen bArray ->
  cipher_reach alg (the_key typ size keyData keyOff) mode bArray bOff c ->
  0 <= io1 -> 0 <= il1 -> io1 + il1 <= zlen in1 -> 0 <= io -> 0 <= il -> io + il <= zlen inBuff ->
  (il1 + il) mod 8 = 0 -> 0 <= oo -> oo + il1 + il + 8 <= zlen out ->
  let whole := sub in1 (Z.to_nat io1) (Z.to_nat il1) ++ sub inBuff (Z.to_nat io) (Z.to_nat il) in
  exists n1, 0 <= n1 /\
    let s1 := snd (cipher_update in1 io1 il1 oo (c, out)) in
    snd (snd (des_doFinal inBuff io il (oo + n1) s1)) = snd (snd (des_doFinal whole 0 (il1 + il) oo (c, out))).

Definition C61_full : Prop := forall alg k mode bArray bOff c k2 mode2 arr2 off2 len2 e c',
  cipher_reach alg k mode bArray bOff c ->
  des_init k2 mode2 arr2 off2 len2 c = (Err e, c') ->
  forall inBuff io il out oo,
    fst (des_doFinal inBuff io il oo (c', out)) = fst (des_doFinal inBuff io il oo (c, out))
    /\ snd (snd (des_doFinal inBuff io il oo (c', out))) = snd (snd (des_doFinal inBuff io il oo (c, out))).

Definition C62_full : Prop := forall alg typ size keyData keyOff bArray bOff mode c inBuff io il out oo,
  des_alg alg -> alg_pkcs5 alg = false -> good_key typ size keyData keyOff -> 0 <= bOff -> bOff + 8 <= zlen bArray ->
  cipher_reach alg (the_key typ size keyData keyOff) mode bArray bOff c ->
  0 <= io -> 0 <= il -> io + il <= zlen inBuff -> il mod 8 <> 0 ->
  fst (des_doFinal inBuff io il oo (c, out)) = Err (CryptoExc 5)
  /\ snd (snd (des_doFinal inBuff io il oo (c, out))) = out.

(** text that ends in valid PKCS #5 padding *)
Definition padded (p : list Z) : Prop :=
  exists m n, 1 <= n <= 8 /\ p = m ++ repeat n (Z.to_nat n).
Definition C63_full : Prop := forall key mode iv d c, des_reach key mode iv [] PAD_PKCS5 d ->
  (mode = CBC -> length iv = 8%nat /\ Forall ubyte iv) -> Forall ubyte c -> c <> [] -> zlen c mod 8 = 0 ->
  let p := concat (if mode =? CBC then cbc_dec (DES_inv_bytes key) iv (chunk8 c) else ecb (DES_inv_bytes key) (chunk8 c)) in
  ~ padded p -> exists e, fst (des_decrypt c [] None d) = Err e.

Definition C64_full : Prop := forall key mode iv d m c, des_reach key mode iv [c] PAD_NORMAL d ->
  (mode = CBC -> iv <> [] /\ Forall ubyte iv) -> Forall ubyte m -> ubyte c ->
  exists e d1, des_encrypt m [] None d = (Ok e, d1) /\ fst (des_decrypt e [] None d1) = Ok m.

Definition C65_full : Prop :=
  (forall k keyData keyOff k' off buf, setKey keyData keyOff k = (Ok tt, k') -> 0 <= keyOff -> 0 <= dk_size k ->
     0 <= off -> off + dk_size k / 8 <= zlen buf ->
     exists bs, getKey k' off buf = (Ok tt, splice buf (Z.to_nat off) bs)
       /\ bs = map (twos 1) (sub keyData (Z.to_nat keyOff) (Z.to_nat (dk_size k / 8))))
  /\ (forall k k', clearKey k = (Ok tt, k') -> isInitialized (KDes k') = false).

(** the key behaves as one that was given only the components last set *)
Definition C67_full : Prop := forall X size h e m rnd c inBuff io il oo out,
  pc_avail X = true -> (forall n e, exists r, pc_construct X n e = Ok r) -> Forall in_bounds h ->
  last_exp h = Some e -> last_mod size h = Some m ->
  rsa_doFinal X rnd c (KPub (run_pub X h (pubkey_new size))) inBuff io il oo out
  = rsa_doFinal X rnd c (KPub (run_pub X [SExp e 0 (zlen e); SMod m 0 (zlen m)] (pubkey_new size))) inBuff io il oo out.

(** in either byte order *)
Definition C68_full : Prop := forall X n a s r s' off buf, pc_avail X = true -> keypair_new a n = Ok s ->
  pc_generate X n = Ok r -> 0 < r_n r -> 0 < r_d r -> genKeyPair X s = (Ok tt, s') ->
  0 <= off -> off + r_n r + r_d r <= zlen buf ->
  exists dbytes nbytes,
    priv_getExponent (kp_priv s') off buf = (Ok (zlen dbytes), splice buf (Z.to_nat off) dbytes)
    /\ priv_getModulus (kp_priv s') off buf = (Ok (zlen nbytes), splice buf (Z.to_nat off) nbytes)
    /\ (le_value dbytes = r_d r \/ le_value (rev dbytes) = r_d r)
    /\ (le_value nbytes = r_n r \/ le_value (rev nbytes) = r_n r).

Definition C70_full : Prop :=
  (forall n, 0 <= n -> arrayTolong (longToArray n) = n)
  /\ (forall X n a s r s' off buf, pc_avail X = true -> keypair_new a n = Ok s ->
        pc_generate X n = Ok r -> 0 < r_n r -> 0 < r_e r -> genKeyPair X s = (Ok tt, s') ->
        0 <= off -> off + r_n r + r_e r <= zlen buf ->
        exists ebytes nbytes,
          pub_getExponent (kp_pub s') off buf = (Ok (zlen ebytes), splice buf (Z.to_nat off) ebytes)
          /\ pub_getModulus (kp_pub s') off buf = (Ok (zlen nbytes), splice buf (Z.to_nat off) nbytes)
          /\ le_value ebytes = r_e r /\ le_value nbytes = r_n r).

Definition C71_full : Prop := forall t l b,
  match buildKey_args [t; l; b] with
  | Ok (Some k) => isInitialized k = false /\ getType k = t /\ getSize k = l
  | Ok None => False
  | Err e => e = CryptoExc 3
  end.

(** the pair is new: made by KeyPair(algorithm, length), or of two uninitialised
    keys of the same length *)
Definition fresh_pair (n : Z) (s : keypair) : Prop :=
  (exists a, keypair_new a n = Ok s) \/ keypair_of (KPub (pubkey_new n)) (KPriv (privkey_new n)) = Ok s.
Definition C72_full : Prop :=
  (forall X s, isInitialized (KPub (kp_pub s)) = true \/ isInitialized (KPriv (kp_priv s)) = true ->
     exists e, genKeyPair X s = (Err e, s))
  /\ (forall X n s r, pc_avail X = true -> pc_generate X n = Ok r -> fresh_pair n s ->
       exists s', genKeyPair X s = (Ok tt, s') /\ isInitialized (KPub (kp_pub s')) = true
         /\ isInitialized (KPriv (kp_priv s')) = true /\ the_rsa (KPub (kp_pub s')) = the_rsa (KPriv (kp_priv s')))
  /\ (forall a n, a <> 1 -> a <> 2 -> keypair_new a n = Err (CryptoExc 3)).

Definition C74_full : Prop := forall H s inBuff io il oo out, 0 < il -> io < 0 \/ zlen inBuff < io + il ->
  fst (digest_update inBuff io il s) = Err ArrayIndexOutOfBounds
  /\ fst (digest_doFinal H inBuff io il oo (s, out)) = Err ArrayIndexOutOfBounds.

Definition C75_full : Prop := forall rnd buf off n, (forall i, anybyte (rnd i)) ->
  (0 < n -> 0 <= off -> off + n <= zlen buf ->
     exists bs, generateData rnd off n buf = (Ok tt, splice buf (Z.to_nat off) bs) /\ zlen bs = n /\ Forall anybyte bs)
  /\ generateData rnd off 0 buf = (Err (CryptoExc 1), buf)
  /\ (0 < n -> off < 0 \/ zlen buf < off + n -> fst (generateData rnd off n buf) = Err ArrayIndexOutOfBounds).

Definition C76_full : Prop := forall maxServices s0 h service phase, dispatcher_new maxServices = Ok s0 ->
  let s := disp_run h s0 in
  let count := zlen (expected 0 h ++ expected 1 h ++ expected 2 h ++ expected 3 h) in
  (count < maxServices -> 0 <= phase <= 3 -> services s phase = Ok (expected phase h))
  /\ ((service = None \/ ~ 0 <= phase <= 3) -> addService service phase s = (Err (ServiceExc 1), s))
  /\ (maxServices <= count -> forall v, 0 <= phase <= 3 -> fst (addService (Some v) phase s) = Err (ServiceExc 2)).

(** for every kind of state and every computation on it *)
Definition C77_full : Prop := forall (S A : Type) (f : M S A) (s : S),
  (forall a s', f s = (Ok a, s') -> (beginTransaction ;;; (x <- f ;; (abortTransaction ;;; ret x))) s = (Ok a, s))
  /\ (exists r, fst ((beginTransaction ;;; beginTransaction) s) = Err (TransactionExc r))
  /\ (exists r, fst (commitTransaction s) = Err (TransactionExc r))
  /\ (exists r, fst (abortTransaction s) = Err (TransactionExc r)).

Definition all_default (n : Z) (d : pyval) (r : res (list pyval)) : Prop :=
  if n <? 0 then exists e, r = Err e else exists a, r = Ok a /\ zlen a = n /\ forall v, In v a -> v = d.
Definition C78_full : Prop := forall n event t,
  all_default n (VInt 0) (makeTransientShortArray n event)
  /\ all_default n (VInt 0) (makeTransientByteArray n event)
  /\ all_default n (VBool false) (makeTransientBooleanArray n event)
  /\ all_default n VNone (makeTransientObjectArray n event)
  /\ (1 <= t <= 5 -> all_default n (if t =? 1 then VBool false else if t =? 5 then VNone else VInt 0) (makeGlobalArray t n)).
