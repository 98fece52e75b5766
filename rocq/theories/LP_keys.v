(** * C65-C72: keys, RSA padding, KeyBuilder and KeyPair: proofs *)
From Verif Require Import Py S_Base S_Number S_Key L_Py M_utils L_utils M_util L_util M_key M_digest S_Samples M_des M_cipher.
From Coq Require Import ZifyBool ZifyNat.
Ltac Zify.zify_post_hook ::= Z.div_mod_to_equations.


(** *** DES keys *)
Lemma k_tob l : arrayTobinary l = map (fun v => v mod 256) l.
Proof. apply map_ext. intro; apply land_255. Qed.
Lemma k_frombin l : binaryToarray (arrayTobinary l) = map (twos 1) l.
Proof. rewrite k_tob. unfold binaryToarray. rewrite map_map. apply map_ext. intro. apply s1_of_mod. Qed.

Lemma C65_roundtrip_pf : forall k keyData keyOff buf off,
  0 <= dk_size k / 8 -> 0 <= keyOff -> keyOff + dk_size k / 8 <= zlen keyData -> 0 <= off -> off + dk_size k / 8 <= zlen buf ->
  exists k', setKey keyData keyOff k = (Ok tt, k') /\ isInitialized (KDes k') = true
    /\ getSize (KDes k') = getSize (KDes k) /\ getType (KDes k') = getType (KDes k)
    /\ getKey k' off buf
      = (Ok tt, splice buf (Z.to_nat off) (map (twos 1) (sub keyData (Z.to_nat keyOff) (Z.to_nat (dk_size k / 8))))).
Proof.
  intros k keyData keyOff buf off Hs H0 H1 H2 H3. eexists. split; [reflexivity|].
  split; [reflexivity|]. split; [reflexivity|]. split; [reflexivity|].
  unfold getKey. cbn [dk_key dk_size]. rewrite k_frombin, py_slice_in by lia.
  replace (keyOff + dk_size k / 8 - keyOff) with (dk_size k / 8) by lia. set (n := dk_size k / 8) in *.
  assert (L : length (map (twos 1) (sub keyData (Z.to_nat keyOff) (Z.to_nat n))) = Z.to_nat n)
    by (rewrite map_length; apply sub_length; unfold zlen in *; lia).
  rewrite arrayCopy_into_ok by (unfold zlen in *; lia). do 2 f_equal. apply sub_full. lia.
Qed.

Lemma C65_clear_refuted_pf : forall k, isInitialized (KDes k) = true ->
  exists k', clearKey k = (Ok tt, k') /\ isInitialized (KDes k') = true /\ dk_key k' = dk_key k.
Proof. intros k H. exists k. auto. Qed.

Lemma C65_short_refuted_pf : forall k keyData keyOff buf off,
  0 <= keyOff <= zlen keyData -> zlen keyData < keyOff + dk_size k / 8 -> 0 <= off -> off + dk_size k / 8 <= zlen buf ->
  exists k', setKey keyData keyOff k = (Ok tt, k') /\ isInitialized (KDes k') = true
    /\ fst (getKey k' off buf) = Err ArrayIndexOutOfBounds.
Proof.
  intros k keyData keyOff buf off H0 H1 H2 H3. eexists. split; [reflexivity|]. split; [reflexivity|].
  unfold getKey. cbn [dk_key dk_size]. rewrite k_frombin. set (n := dk_size k / 8) in *.
  assert (L : zlen (map (twos 1) (py_slice keyData keyOff (keyOff + n))) = zlen keyData - keyOff).
  { unfold zlen. rewrite map_length. unfold py_slice, py_clamp. destruct (Z.ltb_spec keyOff 0); [lia|].
    destruct (Z.ltb_spec (keyOff + n) 0); [lia|]. cbv zeta. rewrite firstn_length, skipn_length. unfold zlen in *. lia. }
  rewrite arrayCopy_into_err by (rewrite ?L; lia). reflexivity.
Qed.

(** *** C66: RSA keys *)
Lemma getter_ok p off buf : 0 <= off -> off + zlen p <= zlen buf ->
  rsa_getter true (Some p) off buf = (Ok (zlen p), splice buf (Z.to_nat off) p).
Proof.
  intros H0 H1. unfold rsa_getter. cbn [negb]. pose proof (zlen_nonneg p).
  rewrite (bind_ok _ _ _ tt (splice buf (Z.to_nat off) p)); [reflexivity|].
  rewrite arrayCopy_into_ok by lia. do 2 f_equal. apply sub_full. unfold zlen. lia.
Qed.

Lemma slice_sub (b : list Z) f l : 0 <= f -> 0 <= l -> f + l <= zlen b -> py_slice b f (f + l) = sub b (Z.to_nat f) (Z.to_nat l).
Proof. intros. rewrite py_slice_in by lia. f_equal. lia. Qed.

(** invariant of the private key *)
Definition vinv (size : Z) (e m : option (list Z)) (k : privkey) : Prop :=
  vk_size k = size /\ vk_exp k = e /\ vk_mod k = m
  /\ vk_init k = match e, m with Some _, Some _ => true | _, _ => false end.
Lemma vinv_setter size e m e' m' k f : vinv size e m k ->
  f k = (Ok tt, mkPriv (vk_size k) (vk_init k) e' m' (vk_the k)) ->
  (e <> None -> e' <> None) -> (m <> None -> m' <> None) ->
  vinv size e' m' (snd (priv_setter f k)) /\ fst (priv_setter f k) = Ok tt.
Proof.
  intros (A & B & C & D) E He Hm. unfold priv_setter. rewrite (bind_ok _ _ _ _ _ E). unfold bind, get. cbn [vk_mod vk_exp].
  destruct m' as [m'|], e' as [e'|]; cbn [put ret snd fst]; split; try reflexivity; unfold vinv; cbn [vk_size vk_exp vk_mod vk_init];
    repeat split; auto; rewrite D; destruct e, m; auto; exfalso; (now apply He) || (now apply Hm).
Qed.
Lemma run_priv_inv size h : Forall in_bounds h -> vinv size (last_exp h) (last_mod size h) (run_priv h (privkey_new size)).
Proof.
  intros Hb. unfold last_exp, last_mod, run_priv.
  assert (G : forall e m k, vinv size e m k ->
    vinv size
     (fold_left (fun a o => match o with SExp b f l => Some (sub b (Z.to_nat f) (Z.to_nat l)) | _ => a end) h e)
     (fold_left (fun a o => match o with
        | SMod b f l => if l =? size / 8 then Some (sub b (Z.to_nat f) (Z.to_nat l)) else a | _ => a end) h m)
     (fold_left (fun k o => match o with
        | SExp b f l => snd (priv_setExponent b f l k) | SMod b f l => snd (priv_setModulus b f l k) end) h k)).
  { induction Hb as [|o h Ho Hh IH]; intros e m k H; [exact H|]. cbn [fold_left]. apply IH.
    pose proof H as (A & B & C & D). destruct o as [b f l|b f l]; cbn [in_bounds] in Ho; destruct Ho as (H0 & H1 & H2).
    - unfold priv_setExponent. eapply vinv_setter; [exact H| | |].
      + unfold bind, get, put. rewrite slice_sub by lia. rewrite C. reflexivity.
      + discriminate.
      + auto.
    - unfold priv_setModulus. destruct (Z.eqb_spec l (size / 8)) as [El|El].
      + eapply vinv_setter; [exact H| | |].
        * unfold bind, get, put. rewrite A. replace (l =? size / 8) with true by lia. cbn [negb]. rewrite slice_sub by lia. rewrite B. reflexivity.
        * auto.
        * discriminate.
      + unfold priv_setter, bind, get, put. rewrite A. replace (l =? size / 8) with false by lia. exact H. }
  apply G. repeat split.
Qed.

Lemma C66_private_pf : forall size h buf off, Forall in_bounds h ->
  let k := run_priv h (privkey_new size) in
  match last_exp h, last_mod size h with
  | Some e, Some m => isInitialized (KPriv k) = true
      /\ (0 <= off -> off + zlen e <= zlen buf -> priv_getExponent k off buf = (Ok (zlen e), splice buf (Z.to_nat off) e))
      /\ (0 <= off -> off + zlen m <= zlen buf -> priv_getModulus k off buf = (Ok (zlen m), splice buf (Z.to_nat off) m))
  | _, _ => isInitialized (KPriv k) = false
      /\ priv_getExponent k off buf = (Err (CryptoExc 2), buf) /\ priv_getModulus k off buf = (Err (CryptoExc 2), buf)
  end.
Proof.
  intros size h buf off Hb k. destruct (run_priv_inv size h Hb) as (A & B & C & D). fold k in A, B, C, D.
  unfold priv_getExponent, priv_getModulus. cbn [isInitialized]. rewrite B, C, D.
  destruct (last_exp h) as [e|], (last_mod size h) as [m|]; (split; [reflexivity|]; split; [|]); try reflexivity; intros; now apply getter_ok.
Qed.

(** the public key *)
Lemma bget {S A} (f : S -> M S A) s : bind get f s = f s s.
Proof. reflexivity. Qed.
Definition works (X : pycrypto) : Prop := pc_avail X = true /\ forall n e, exists r, pc_construct X n e = Ok r.
Definition pinv (size : Z) (e m : option (list Z)) (k : pubkey) : Prop :=
  pk_size k = size /\ pk_exp k = e /\ pk_mod k = m
  /\ pk_init k = match e, m with Some _, Some _ => true | _, _ => false end
  /\ (pk_the k = None <-> pk_init k = false).
Lemma pinv_setter X size e m e' m' k f : works X -> pinv size e m k ->
  f k = (Ok tt, mkPub (pk_size k) (pk_init k) e' m' (pk_the k)) ->
  (e <> None -> e' <> None) -> (m <> None -> m' <> None) ->
  pinv size e' m' (snd (pub_setter X f k)) /\ fst (pub_setter X f k) = Ok tt.
Proof.
  intros [WA WC] (A & B & C & D & F) E He Hm. unfold pub_setter. rewrite (bind_ok _ _ _ _ _ E).
  rewrite !bget. cbn [pk_mod pk_exp].
  destruct m' as [m'|], e' as [e'|].
  - cbn [pk_the]. destruct (pk_the k) as [r|] eqn:Er.
    + cbn [bind ret get put snd fst pk_size pk_exp pk_mod pk_the]. split; [|reflexivity]. unfold pinv. cbn [pk_size pk_exp pk_mod pk_init pk_the].
      repeat split; auto; discriminate.
    + destruct (WC (arrayTolong m') (arrayTolong e')) as [r Hr].
      set (st := mkPub (pk_size k) (pk_init k) (Some e') (Some m') None).
      assert (K : pub_construct X st = (Ok tt, mkPub (pk_size k) (pk_init k) (Some e') (Some m') (Some r))).
      { unfold pub_construct, bind, get, put, lift, st. rewrite WA. cbn [negb pk_mod pk_exp]. rewrite Hr. reflexivity. }
      rewrite (bind_ok _ _ _ _ _ K). unfold bind, get, put.
      cbn [snd fst pk_size pk_exp pk_mod pk_the]. split; [|reflexivity]. unfold pinv. cbn [pk_size pk_exp pk_mod pk_init pk_the].
      repeat split; auto; discriminate.
  - cbn [ret snd fst]. split; [|reflexivity]. unfold pinv; cbn [pk_size pk_exp pk_mod pk_init pk_the]. split; [exact A|split; [reflexivity|split; [reflexivity|split; [|exact F]]]].
    rewrite D. destruct e, m; auto. exfalso. now apply He.
  - cbn [ret snd fst]. split; [|reflexivity]. unfold pinv; cbn [pk_size pk_exp pk_mod pk_init pk_the]. split; [exact A|split; [reflexivity|split; [reflexivity|split; [|exact F]]]].
    rewrite D. destruct e, m; auto. exfalso. now apply Hm.
  - cbn [ret snd fst]. split; [|reflexivity]. unfold pinv; cbn [pk_size pk_exp pk_mod pk_init pk_the]. split; [exact A|split; [reflexivity|split; [reflexivity|split; [|exact F]]]].
    rewrite D. destruct e, m; auto. exfalso. now apply He.
Qed.
Lemma run_pub_inv X size h : works X -> Forall in_bounds h -> pinv size (last_exp h) (last_mod size h) (run_pub X h (pubkey_new size)).
Proof.
  intros HX Hb. unfold last_exp, last_mod, run_pub.
  assert (G : forall e m k, pinv size e m k ->
    pinv size
     (fold_left (fun a o => match o with SExp b f l => Some (sub b (Z.to_nat f) (Z.to_nat l)) | _ => a end) h e)
     (fold_left (fun a o => match o with
        | SMod b f l => if l =? size / 8 then Some (sub b (Z.to_nat f) (Z.to_nat l)) else a | _ => a end) h m)
     (fold_left (fun k o => match o with
        | SExp b f l => snd (pub_setExponent X b f l k) | SMod b f l => snd (pub_setModulus X b f l k) end) h k)).
  { induction Hb as [|o h Ho Hh IH]; intros e m k H; [exact H|]. cbn [fold_left]. apply IH.
    pose proof H as (A & B & C & D & F). destruct o as [b f l|b f l]; cbn [in_bounds] in Ho; destruct Ho as (H0 & H1 & H2).
    - unfold pub_setExponent. eapply pinv_setter; [exact HX|exact H| | |].
      + unfold bind, get, put. rewrite slice_sub by lia. rewrite C. reflexivity.
      + discriminate.
      + auto.
    - unfold pub_setModulus. destruct (Z.eqb_spec l (size / 8)) as [El|El].
      + eapply pinv_setter; [exact HX|exact H| | |].
        * unfold bind, get, put. rewrite A. replace (l =? size / 8) with true by lia. cbn [negb]. rewrite slice_sub by lia. rewrite B. reflexivity.
        * auto.
        * discriminate.
      + unfold pub_setter, bind, get, put. rewrite A. replace (l =? size / 8) with false by lia. exact H. }
  apply G. repeat split.
Qed.

Lemma C66_public_pf : forall X size h buf off, pc_avail X = true -> (forall n e, exists r, pc_construct X n e = Ok r) -> Forall in_bounds h ->
  let k := run_pub X h (pubkey_new size) in
  match last_exp h, last_mod size h with
  | Some e, Some m => isInitialized (KPub k) = true
      /\ (0 <= off -> off + zlen e <= zlen buf -> pub_getExponent k off buf = (Ok (zlen e), splice buf (Z.to_nat off) e))
      /\ (0 <= off -> off + zlen m <= zlen buf -> pub_getModulus k off buf = (Ok (zlen m), splice buf (Z.to_nat off) m))
  | _, _ => isInitialized (KPub k) = false
      /\ pub_getExponent k off buf = (Err (CryptoExc 2), buf) /\ pub_getModulus k off buf = (Err (CryptoExc 2), buf)
  end.
Proof.
  intros X size h buf off H1 H2 Hb k. destruct (run_pub_inv X size h (conj H1 H2) Hb) as (A & B & C & D & _). fold k in A, B, C, D.
  unfold pub_getExponent, pub_getModulus. cbn [isInitialized]. rewrite B, C, D.
  destruct (last_exp h) as [e|], (last_mod size h) as [m|]; (split; [reflexivity|]; split; [|]); try reflexivity; intros; now apply getter_ok.
Qed.

Lemma C66_unavailable_pf : forall X size h b f l, pc_avail X = false ->
  let k := run_pub X h (pubkey_new size) in
  isInitialized (KPub k) = false
  /\ (pk_mod k <> None -> fst (pub_setExponent X b f l k) = Err (CryptoExc 3)).
Proof.
  intros X size h b f l HX k.
  assert (G : pk_init k = false /\ pk_the k = None).
  { unfold k, run_pub. assert (G : forall k, pk_init k = false /\ pk_the k = None ->
      let k := fold_left (fun k o => match o with
        | SExp b f l => snd (pub_setExponent X b f l k) | SMod b f l => snd (pub_setModulus X b f l k) end) h k in pk_init k = false /\ pk_the k = None).
    { clear k. cbv zeta. induction h as [|o h IH]; intros k [H1 H2]; [auto|]. cbn [fold_left]. apply IH.
      destruct o as [b0 f0 l0|b0 f0 l0]; unfold pub_setExponent, pub_setModulus, pub_setter, bind, get, put, ret, pub_construct, raise.
      - cbn [pk_mod pk_exp pk_the]. rewrite H2, HX. destruct (pk_mod k); cbn [negb snd pk_init pk_the]; auto.
      - destruct (negb (l0 =? pk_size k / 8)); [auto|]. cbn [pk_mod pk_exp pk_the]. rewrite H2, HX. destruct (pk_exp k); cbn [negb snd pk_init pk_the]; auto. }
    apply G. auto. }
  destruct G as [G1 G2]. split; [exact G1|]. intros Hm.
  unfold pub_setExponent, pub_setter, bind, get, put, ret, pub_construct, raise. cbn [pk_mod pk_exp pk_the]. rewrite G2, HX.
  destruct (pk_mod k); [reflexivity|congruence].
Qed.

Lemma C66_modulus_length_pf : forall X b f l kp kv,
  (l <> pk_size kp / 8 -> pub_setModulus X b f l kp = (Err (CryptoExc 4), kp))
  /\ (l <> vk_size kv / 8 -> priv_setModulus b f l kv = (Err (CryptoExc 1), kv)).
Proof.
  intros X b f l kp kv. split; intros H.
  - unfold pub_setModulus, pub_setter, bind, get. replace (l =? pk_size kp / 8) with false by lia. reflexivity.
  - unfold priv_setModulus, priv_setter, bind, get. replace (l =? vk_size kv / 8) with false by lia. reflexivity.
Qed.

(** *** C67 *)
Lemma the_kept X h : forall k r, pk_the k = Some r -> pk_the (run_pub X h k) = Some r /\ pk_size (run_pub X h k) = pk_size k.
Proof.
  unfold run_pub. induction h as [|o h IH]; intros k r H; [auto|]. cbn [fold_left].
  assert (G : let k' := match o with SExp b f l => snd (pub_setExponent X b f l k) | SMod b f l => snd (pub_setModulus X b f l k) end in
    pk_the k' = Some r /\ pk_size k' = pk_size k).
  { destruct o as [b f l|b f l]; unfold pub_setExponent, pub_setModulus, pub_setter, bind, get, put, ret, raise.
    - cbn [pk_mod pk_exp pk_the]. rewrite H. destruct (pk_mod k); cbn [snd pk_the pk_size]; auto.
    - destruct (negb (l =? pk_size k / 8)); [auto|]. cbn [pk_mod pk_exp pk_the]. rewrite H. destruct (pk_exp k); cbn [snd pk_the pk_size]; auto. }
  cbv zeta in G. destruct G as [G1 G2]. destruct (IH _ r G1) as [I1 I2]. split; [exact I1|congruence].
Qed.

Lemma C67_refuted_pf : forall X size h1 h2 rnd c inBuff io il oo out,
  pc_avail X = true -> (forall n e, exists r, pc_construct X n e = Ok r) -> Forall in_bounds h1 -> Forall in_bounds h2 ->
  isInitialized (KPub (run_pub X h1 (pubkey_new size))) = true ->
  rsa_doFinal X rnd c (KPub (run_pub X (h1 ++ h2) (pubkey_new size))) inBuff io il oo out
  = rsa_doFinal X rnd c (KPub (run_pub X h1 (pubkey_new size))) inBuff io il oo out.
Proof.
  intros X size h1 h2 rnd c inBuff io il oo out HA HC Hb1 Hb2 Hi.
  assert (E : run_pub X (h1 ++ h2) (pubkey_new size) = run_pub X h2 (run_pub X h1 (pubkey_new size))) by (unfold run_pub; apply fold_left_app).
  rewrite E. set (k1 := run_pub X h1 (pubkey_new size)) in *.
  destruct (run_pub_inv X size h1 (conj HA HC) Hb1) as (_ & _ & _ & _ & F). fold k1 in F. cbn [isInitialized] in Hi.
  destruct (pk_the k1) as [r|] eqn:Er; [|exfalso; rewrite (proj1 F eq_refl) in Hi; discriminate].
  destruct (the_kept X h2 k1 r Er) as [K1 K2].
  unfold rsa_doFinal. cbn [getSize the_rsa]. rewrite K1, K2, Er. reflexivity.
Qed.

(** *** numbers and arrays *)
Lemma dv_app B a b : digits_value B (a ++ b) = digits_value B a * B ^ Z.of_nat (length b) + digits_value B b.
Proof.
  induction a as [|x a IH]; [cbn; lia|]. cbn [app digits_value]. rewrite IH, app_length, Nat2Z.inj_add, Z.pow_add_r by lia. ring.
Qed.
Lemma hex_loop_spec fuel : forall n acc, 0 <= n < 16 ^ Z.of_nat fuel -> (1 <= fuel)%nat ->
  exists d s, hex_loop fuel n acc = d :: s ++ acc /\ (n <> 0 -> d <> 0) /\ Forall (fun x => 0 <= x <= 15) (d :: s)
    /\ digits_value 16 (d :: s) = n.
Proof.
  induction fuel as [|fuel IH]; intros n acc Hn Hf; [lia|]. cbn [hex_loop]. destruct (Z.ltb_spec n 16).
  - exists n, []. split; [reflexivity|]. split; [auto|]. split; [repeat constructor; lia|]. cbn. lia.
  - destruct fuel as [|fuel]; [cbn in Hn; lia|].
    destruct (IH (n / 16) (n mod 16 :: acc)) as (d & s & E & H1 & H2 & H3).
    { rewrite Nat2Z.inj_succ, Z.pow_succ_r in Hn by lia. set (p := 16 ^ _) in *. clearbody p. lia. } { lia. }
    exists d, (s ++ [n mod 16]). rewrite E, <- app_assoc. split; [reflexivity|]. split; [intros _; apply H1; lia|].
    split. { rewrite app_comm_cons. apply Forall_app. split; [exact H2|]. constructor; [lia|constructor]. }
    rewrite app_comm_cons, dv_app, H3. cbn. lia.
Qed.
Lemma hex_digits_spec n : 0 <= n ->
  exists d s, hex_digits n = d :: s /\ (n <> 0 -> d <> 0) /\ Forall (fun x => 0 <= x <= 15) (d :: s) /\ digits_value 16 (d :: s) = n.
Proof.
  intros Hn. unfold hex_digits. destruct (hex_loop_spec (S (Z.to_nat (Z.log2 n))) n []) as (d & s & E & H).
  - split; [exact Hn|]. assert (Hl : 0 <= Z.log2 n) by apply Z.log2_nonneg. rewrite Nat2Z.inj_succ, Z2Nat.id by exact Hl.
    destruct (Z.eq_dec n 0) as [->|]; [cbn; lia|]. destruct (Z.log2_spec n) as [_ H2]; [lia|].
    eapply Z.lt_le_trans; [exact H2|]. apply Z.pow_le_mono_l. lia.
  - lia.
  - exists d, s. rewrite E, app_nil_r. now split.
Qed.
Lemma pairs_spec : forall n s, length s = (2 * n)%nat -> Forall (fun x => 0 <= x <= 15) s ->
  digits_value 256 (pairs s) = digits_value 16 s /\ Forall ubyte (pairs s) /\ length (pairs s) = n
  /\ (s <> [] -> hd 0 (pairs s) = 16 * hd 0 s + hd 0 (tl s)).
Proof.
  induction n as [|n IH]; intros s Hl Hs.
  - destruct s; [|discriminate]. repeat split; constructor.
  - destruct s as [|a [|b s]]; cbn [length] in Hl; [lia|lia|].
    inversion Hs as [|? ? Ha Hs1]; subst. inversion Hs1 as [|? ? Hb Hs2]; subst.
    destruct (IH s) as (H1 & H2 & H3 & _); [lia|exact Hs2|]. cbn [pairs digits_value]. rewrite H1, H3.
    split; [|split; [constructor; [unfold ubyte; lia|exact H2]|split; [cbn [length]; lia|reflexivity]]].
    cbn [length]. replace (Z.of_nat (length s)) with (2 * Z.of_nat n) by lia.
    replace (Z.of_nat (S (length s))) with (1 + 2 * Z.of_nat n) by lia. rewrite Z.pow_add_r by lia.
    replace (16 ^ (2 * Z.of_nat n)) with (256 ^ Z.of_nat n) by (change 256 with (16 ^ 2); rewrite <- Z.pow_mul_r by lia; reflexivity). lia.
Qed.

Lemma longToArray_spec n : 0 <= n ->
  le_value (longToArray n) = n / 16 /\ Forall ubyte (longToArray n) /\ (longToArray n <> [] -> last (longToArray n) 0 <> 0).
Proof.
  intros Hn. destruct (Z.eq_dec n 0) as [->|Hn0]; [split; [reflexivity|split; [constructor|intros H; exfalso; now apply H]]|].
  destruct (hex_digits_spec n Hn) as (d & s & E & Hd & Hf & Hv).
  assert (Hne : d :: s <> []) by discriminate.
  pose proof (app_removelast_last 0 Hne) as Happ. set (t := removelast (d :: s)) in *. set (z := last (d :: s) 0) in *.
  assert (Hft : Forall (fun x => 0 <= x <= 15) t /\ 0 <= z <= 15).
  { rewrite Happ in Hf. apply Forall_app in Hf as [A B]. split; [exact A|]. now inversion B. }
  destruct Hft as [Hft Hz].
  assert (Hvt : digits_value 16 t = n / 16).
  { rewrite Happ, dv_app in Hv. cbn [length digits_value] in Hv. change (16 ^ Z.of_nat 1) with 16 in Hv. change (16 ^ Z.of_nat 0) with 1 in Hv. lia. }
  unfold longToArray. rewrite E. fold t. cbv zeta.
  set (u := if zlen t mod 2 =? 0 then t else 0 :: t).
  assert (Hu : Forall (fun x => 0 <= x <= 15) u /\ digits_value 16 u = n / 16 /\ exists k, length u = (2 * k)%nat).
  { unfold u. destruct (Z.eqb_spec (zlen t mod 2) 0) as [He|He]; unfold zlen in He.
    - split; [exact Hft|]. split; [exact Hvt|]. exists (length t / 2)%nat. lia.
    - split; [constructor; [lia|exact Hft]|]. split; [cbn [digits_value]; lia|]. exists (S (length t) / 2)%nat. cbn [length]. lia. }
  destruct Hu as (Hfu & Hvu & k & Hk). destruct (pairs_spec k u Hk Hfu) as (P1 & P2 & P3 & P4).
  split; [unfold le_value; now rewrite rev_involutive, P1|]. split; [now apply Forall_rev|].
  intros Hnr. assert (Hun : u <> []) by (intros Hu0; apply Hnr; rewrite Hu0; reflexivity).
  destruct (pairs u) as [|p ps] eqn:Ep; [exfalso; now apply Hnr|]. cbn [rev]. rewrite last_last. cbn [hd] in P4. rewrite (P4 Hun).
  assert (Hhd : t <> [] -> hd 0 t <> 0).
  { intros Htn. destruct s as [|d2 s]; [unfold t in Htn; cbn in Htn; congruence|].
    assert (Eh : hd 0 t = d) by reflexivity. rewrite Eh. now apply Hd. }
  unfold u in Hun |- *. destruct (Z.eqb_spec (zlen t mod 2) 0) as [He|He].
  - specialize (Hhd Hun). clearbody t. destruct t as [|a [|b t']]; [congruence|cbn in He; lia|].
    cbn [hd tl] in *. inversion Hft as [|? ? Ha Hft']; subst. inversion Hft' as [|? ? Hb ?]; subst. lia.
  - clearbody t. destruct t as [|a t']; [cbn in He; lia|]. cbn [hd tl] in *. assert (a <> 0) by (apply Hhd; discriminate). lia.
Qed.

Lemma arrayTolong_le l : arrayTolong l = le_value l.
Proof.
  unfold le_value, arrayTolong. induction l as [|v l IH]; [reflexivity|]. cbn [fold_right rev].
  rewrite dv_app, <- IH, shiftl_mul by lia. cbn [length digits_value]. change (2 ^ 8) with 256. change (256 ^ Z.of_nat 1) with 256. change (Z.of_nat 0) with 0. lia.
Qed.

Lemma C70_refuted_pf : forall n, 0 <= n ->
  arrayTolong (longToArray n) = n / 16 /\ (0 < n -> arrayTolong (longToArray n) <> n).
Proof.
  intros n Hn. destruct (longToArray_spec n Hn) as (H1 & _).
  assert (E : arrayTolong (longToArray n) = n / 16) by (rewrite arrayTolong_le; exact H1).
  split; [exact E|]. rewrite E. lia.
Qed.

Lemma C70_partial_pf :
  (forall l, arrayTolong l = le_value l)
  /\ forall n, 0 <= n -> le_value (longToArray n) = n / 16 /\ Forall ubyte (longToArray n)
      /\ (longToArray n <> [] -> last (longToArray n) 0 <> 0).
Proof. split; [exact arrayTolong_le|exact longToArray_spec]. Qed.

Lemma gen_eq X s n r : pc_avail X = true -> kp_alg s = Some 1 \/ kp_alg s = Some 2 -> kp_len s = Some n ->
  pk_init (kp_pub s) = false -> vk_init (kp_priv s) = false -> pc_generate X n = Ok r ->
  genKeyPair X s = (Ok tt, mkPair (kp_alg s) (kp_len s)
    (mkPub n true (Some (longToArray (r_e r))) (Some (longToArray (r_n r))) (Some r))
    (mkPriv n true (Some (longToArray (r_e r))) (Some (longToArray (r_d r))) (Some r))).
Proof.
  intros HA Ha Hn Hp Hv Hg. unfold genKeyPair. unfold bind at 1. cbn [get]. rewrite Hp, Hv. cbn [orb].
  unfold pyCryptogenKeyPair. unfold bind at 1. cbn [get]. rewrite HA, Hn. cbn [negb].
  destruct Ha as [Ha | Ha]; rewrite Ha; cbn [Z.eqb Pos.eqb orb negb ALG_RSA ALG_RSA_CRT]; unfold bind, lift, get, put; rewrite Hg; cbn [kp_alg kp_len kp_pub]; reflexivity.
Qed.

Lemma C70_getters_refuted_pf : forall X n s r buf off, pc_avail X = true -> pc_generate X n = Ok r -> 0 <= r_e r -> 0 <= r_n r ->
  keypair_new 1 n = Ok s \/ keypair_new 2 n = Ok s ->
  0 <= off -> off + zlen (longToArray (r_e r)) <= zlen buf -> off + zlen (longToArray (r_n r)) <= zlen buf ->
  exists s' ebytes nbytes, genKeyPair X s = (Ok tt, s')
    /\ pub_getExponent (kp_pub s') off buf = (Ok (zlen ebytes), splice buf (Z.to_nat off) ebytes)
    /\ pub_getModulus (kp_pub s') off buf = (Ok (zlen nbytes), splice buf (Z.to_nat off) nbytes)
    /\ le_value ebytes = r_e r / 16 /\ le_value nbytes = r_n r / 16.
Proof.
  intros X n s r buf off HA Hg He Hn Hs H0 H1 H2.
  assert (E : kp_alg s = Some 1 \/ kp_alg s = Some 2).
  { destruct Hs as [Hs|Hs]; unfold keypair_new in Hs; cbn in Hs; inversion Hs; subst; cbn; auto. }
  assert (E2 : kp_len s = Some n /\ pk_init (kp_pub s) = false /\ vk_init (kp_priv s) = false).
  { destruct Hs as [Hs|Hs]; unfold keypair_new in Hs; cbn in Hs; inversion Hs; subst; cbn; auto. }
  destruct E2 as (E2 & E3 & E4). eexists. exists (longToArray (r_e r)), (longToArray (r_n r)).
  split; [apply (gen_eq X s n r); assumption|]. cbn [kp_pub]. unfold pub_getExponent, pub_getModulus. cbn [pk_init pk_exp pk_mod].
  split; [now apply getter_ok|]. split; [now apply getter_ok|]. split; [exact (proj1 (longToArray_spec _ He))|exact (proj1 (longToArray_spec _ Hn))].
Qed.

Lemma C68_refuted_pf : forall X n s r buf off, pc_avail X = true -> pc_generate X n = Ok r ->
  0 <= r_e r -> 0 <= r_d r ->
  keypair_new 1 n = Ok s \/ keypair_new 2 n = Ok s ->
  0 <= off -> off + zlen (longToArray (r_e r)) <= zlen buf -> off + zlen (longToArray (r_d r)) <= zlen buf ->
  exists s' ebytes dbytes, genKeyPair X s = (Ok tt, s')
    /\ priv_getExponent (kp_priv s') off buf = (Ok (zlen ebytes), splice buf (Z.to_nat off) ebytes)
    /\ priv_getModulus (kp_priv s') off buf = (Ok (zlen dbytes), splice buf (Z.to_nat off) dbytes)
    /\ le_value ebytes = r_e r / 16 /\ le_value dbytes = r_d r / 16.
Proof.
  intros X n s r buf off HA Hg He Hd Hs H0 H1 H2.
  assert (E : kp_alg s = Some 1 \/ kp_alg s = Some 2).
  { destruct Hs as [Hs|Hs]; unfold keypair_new in Hs; cbn in Hs; inversion Hs; subst; cbn; auto. }
  assert (E2 : kp_len s = Some n /\ pk_init (kp_pub s) = false /\ vk_init (kp_priv s) = false).
  { destruct Hs as [Hs|Hs]; unfold keypair_new in Hs; cbn in Hs; inversion Hs; subst; cbn; auto. }
  destruct E2 as (E2 & E3 & E4). eexists. exists (longToArray (r_e r)), (longToArray (r_d r)).
  split; [apply (gen_eq X s n r); assumption|]. cbn [kp_priv]. unfold priv_getExponent, priv_getModulus. cbn [vk_init vk_exp vk_mod].
  split; [now apply getter_ok|]. split; [now apply getter_ok|]. split; [exact (proj1 (longToArray_spec _ He))|exact (proj1 (longToArray_spec _ Hd))].
Qed.

(** *** C69: PKCS#1 v1.5 padding *)
Lemma zfr_spec rnd : forall n out PS, 0 <= n -> zlen out <= n -> Forall (fun x => 0 <= x <= 255) rnd -> Forall (fun x => 1 <= x <= 255) out ->
  zeroFreeRandom rnd n out = Ok PS -> zlen PS = n /\ Forall (fun x => 1 <= x <= 255) PS.
Proof.
  induction rnd as [|x rnd IH]; intros n out PS Hn Hl Hr Ho; cbn [zeroFreeRandom]; destruct (Z.ltb_spec (zlen out) n); try discriminate;
    try (intros E; inversion E; subst; split; [lia|assumption]).
  inversion Hr as [|? ? Hx Hr']; subst. apply IH; auto.
  - destruct (x =? 0); cbn [negb]; [lia|]. rewrite zlen_app. change (zlen [x]) with 1. lia.
  - destruct (Z.eqb_spec x 0); cbn [negb]; [assumption|]. apply Forall_app. split; [assumption|]. constructor; [lia|constructor].
Qed.
Definition nonzero (rnd : list Z) : list Z := filter (fun x => negb (x =? 0)) rnd.
Lemma zfr_total rnd : forall n out, n - zlen out <= zlen (nonzero rnd) ->
  exists PS, zeroFreeRandom rnd n out = Ok PS.
Proof.
  induction rnd as [|x rnd IH]; intros n out H; cbn [zeroFreeRandom]; destruct (Z.ltb_spec (zlen out) n); eauto.
  - change (zlen (nonzero [])) with 0 in H. lia.
  - apply IH. unfold nonzero in *. cbn [filter] in H. destruct (x =? 0); cbn [negb] in *; [lia|]. rewrite zlen_app. rewrite zlen_cons in H. change (zlen [x]) with 1. lia.
Qed.
Lemma index_app PS M : forall i, Forall (fun x => 1 <= x <= 255) PS -> 3 <= i + zlen PS ->
  index_from (PS ++ 0 :: M) 0 i 3 = Ok (i + zlen PS).
Proof.
  induction PS as [|x PS IH]; intros i Hp Hi; cbn [app index_from].
  - change (zlen []) with 0 in *. replace (3 <=? i) with true by lia. cbn. f_equal. lia.
  - inversion Hp as [|? ? Hx Hp']; subst. replace (x =? 0) with false by lia. rewrite andb_false_r, zlen_cons in *.
    rewrite IH by (auto; lia). f_equal. lia.
Qed.

Lemma slice_from_app (a b : list Z) : py_slice_from (a ++ b) (zlen a) = b.
Proof.
  unfold py_slice_from, py_clamp. pose proof (zlen_nonneg a). pose proof (zlen_nonneg b). rewrite zlen_app.
  destruct (Z.ltb_spec (zlen a) 0); [lia|]. rewrite Z.min_l by lia. unfold zlen. rewrite Nat2Z.id, skipn_app, skipn_all, Nat.sub_diag. reflexivity.
Qed.

Lemma C69_roundtrip_pf : forall rnd size Msg buf, Forall ubyte rnd ->
  EME_enc rnd size Msg = Ok buf ->
  zlen buf = size / 8
  /\ (exists PS, buf = [0; 2] ++ PS ++ [0] ++ Msg /\ 8 <= zlen PS /\ Forall (fun x => 1 <= x <= 255) PS)
  /\ EME_dec buf = Ok Msg.
Proof.
  intros rnd size Msg buf Hr. unfold EME_enc. destruct (Z.ltb_spec (size / 8 - 11) (zlen Msg)); [discriminate|].
  destruct (zeroFreeRandom rnd (size / 8 - zlen Msg - 3) []) as [PS|] eqn:E; cbn [rbind]; [|discriminate].
  intros F; assert (Eb : buf = [0; 2] ++ PS ++ [0] ++ Msg) by congruence. clear F. subst buf.
  apply zfr_spec in E; [|lia|change (zlen []) with 0; lia|exact Hr|constructor]. destruct E as [E1 E2].
  split; [rewrite !zlen_app; change (zlen [0; 2]) with 2; change (zlen [0]) with 1; lia|].
  split; [exists PS; split; [reflexivity|split; [lia|exact E2]]|].
  unfold EME_dec. cbn [app]. assert (S2 : py_slice (0 :: 2 :: PS ++ 0 :: Msg) 0 2 = [0; 2]).
  { rewrite py_slice_in; [reflexivity|lia|]. rewrite !zlen_cons. pose proof (zlen_nonneg (PS ++ 0 :: Msg)). lia. }
  rewrite S2. change (list_eqb [0; 2] [0; 2]) with true. cbn [negb index_from].
  change (3 <=? 0) with false. change (3 <=? 0 + 1) with false. cbn [andb]. rewrite index_app by (auto; lia). cbn [rbind].
  f_equal. change (0 :: 2 :: PS ++ 0 :: Msg) with ([0; 2] ++ PS ++ [0] ++ Msg). rewrite !app_assoc.
  replace (0 + 1 + 1 + zlen PS + 1) with (zlen (([0; 2] ++ PS) ++ [0])) by (rewrite !zlen_app; change (zlen [0; 2]) with 2; change (zlen [0]) with 1; lia).
  apply slice_from_app.
Qed.

Lemma C69_total_pf : forall rnd size Msg,
  (zlen Msg <= size / 8 - 11 -> size / 8 - zlen Msg - 3 <= zlen (filter (fun x => negb (x =? 0)) rnd) -> exists buf, EME_enc rnd size Msg = Ok buf)
  /\ (size / 8 - 11 < zlen Msg -> EME_enc rnd size Msg = Err (CryptoExc 1)).
Proof.
  intros rnd size Msg. unfold EME_enc. destruct (Z.ltb_spec (size / 8 - 11) (zlen Msg)); split; intros; try lia; [reflexivity|].
  destruct (zfr_total rnd (size / 8 - zlen Msg - 3) []) as [PS E]; [change (zlen []) with 0; unfold nonzero; lia|].
  rewrite E. cbn [rbind]. eauto.
Qed.

Lemma C69_lax_pf : forall PS Msg, Forall (fun x => 1 <= x <= 255) PS -> PS <> [] ->
  EME_dec ([0; 2] ++ PS ++ [0] ++ Msg) = Ok Msg /\ EME_dec ([0; 2] ++ PS) = Err ValueError.
Proof.
  intros PS Msg Hp Hne. assert (HL : 1 <= zlen PS) by (destruct PS; [congruence|rewrite zlen_cons; pose proof (zlen_nonneg PS); lia]).
  split.
  - unfold EME_dec. cbn [app]. assert (S2 : py_slice (0 :: 2 :: PS ++ 0 :: Msg) 0 2 = [0; 2]).
    { rewrite py_slice_in; [reflexivity|lia|]. rewrite !zlen_cons. pose proof (zlen_nonneg (PS ++ 0 :: Msg)). lia. }
    rewrite S2. change (list_eqb [0; 2] [0; 2]) with true. cbn [negb index_from].
    change (3 <=? 0) with false. change (3 <=? 0 + 1) with false. cbn [andb]. rewrite index_app by (auto; lia). cbn [rbind].
    f_equal. change (0 :: 2 :: PS ++ 0 :: Msg) with ([0; 2] ++ PS ++ [0] ++ Msg). rewrite !app_assoc.
  replace (0 + 1 + 1 + zlen PS + 1) with (zlen (([0; 2] ++ PS) ++ [0])) by (rewrite !zlen_app; change (zlen [0; 2]) with 2; change (zlen [0]) with 1; lia).
  apply slice_from_app.
  - unfold EME_dec. cbn [app]. assert (S2 : py_slice (0 :: 2 :: PS) 0 2 = [0; 2]).
    { rewrite py_slice_in; [reflexivity|lia|]. rewrite !zlen_cons. lia. }
    rewrite S2. change (list_eqb [0; 2] [0; 2]) with true. cbn [negb index_from].
    change (3 <=? 0) with false. change (3 <=? 0 + 1) with false. cbn [andb].
    assert (G : forall i, index_from PS 0 i 3 = Err ValueError).
    { clear -Hp. induction Hp as [|x PS Hx Hp IH]; intros i; [reflexivity|]. cbn [index_from]. replace (x =? 0) with false by lia. rewrite andb_false_r. apply IH. }
    rewrite G. reflexivity.
Qed.

(** *** C71: KeyBuilder *)

Lemma C71_partial_pf : forall t l b, 1 <= t <= 5 ->
  exists k, buildKey_args [t; l; b] = Ok (Some k) /\ getType k = t /\ getSize k = l /\ isInitialized k = false.
Proof.
  intros t l b Ht. cbn [buildKey_args]. unfold buildKey.
  assert (C : t = 1 \/ t = 2 \/ t = 3 \/ t = 4 \/ t = 5) by lia.
  destruct C as [-> | [-> | [-> | [-> | ->]]]]; eexists; (split; [reflexivity|]); auto.
Qed.

Lemma C71_refuted_pf : forall l b,
  (exists k, buildKey_args [6; l; b] = Ok (Some k) /\ getType k = 5 /\ getSize k = l)
  /\ (forall t, t < 1 \/ 6 < t -> buildKey_args [t; l; b] = Ok None)
  /\ (forall t c, buildKey_args [t; l; b; c] = Err NotImplementedError).
Proof.
  intros l b. split; [eexists; split; [reflexivity|auto]|]. split; [|reflexivity]. intros t Ht. cbn [buildKey_args]. unfold buildKey.
  unfold TYPE_RSA_PUBLIC, TYPE_RSA_PRIVATE, TYPE_RSA_CRT_PRIVATE, TYPE_DES, TYPE_DES_TRANSIENT_DESELECT, TYPE_DES_TRANSIENT_RESET.
  replace (t =? 4) with false by lia. replace (t =? 5) with false by lia. replace (t =? 6) with false by lia.
  replace (t =? 3) with false by lia. replace (t =? 2) with false by lia. replace (t =? 1) with false by lia. reflexivity.
Qed.

(** *** C72: KeyPair *)

Lemma C72_refuses_pf : forall X s,
  isInitialized (KPub (kp_pub s)) = true \/ isInitialized (KPriv (kp_priv s)) = true ->
  genKeyPair X s = (Err (CryptoExc 1), s).
Proof.
  intros X s H. unfold genKeyPair, bind, get. cbn [isInitialized] in H.
  replace (pk_init (kp_pub s) || vk_init (kp_priv s)) with true by (destruct H as [-> | ->]; [|rewrite orb_true_r]; reflexivity). reflexivity.
Qed.

Lemma C72_generates_pf : forall X a n r, pc_avail X = true -> a = 1 \/ a = 2 -> pc_generate X n = Ok r ->
  exists s s', keypair_new a n = Ok s
    /\ isInitialized (KPub (kp_pub s)) = false /\ isInitialized (KPriv (kp_priv s)) = false
    /\ genKeyPair X s = (Ok tt, s')
    /\ isInitialized (KPub (kp_pub s')) = true /\ isInitialized (KPriv (kp_priv s')) = true
    /\ getSize (KPub (kp_pub s')) = n /\ getSize (KPriv (kp_priv s')) = n
    /\ the_rsa (KPub (kp_pub s')) = Ok r /\ the_rsa (KPriv (kp_priv s')) = Ok r
    /\ genKeyPair X s' = (Err (CryptoExc 1), s').
Proof.
  intros X a n r HA Ha Hg. exists (mkPair (Some a) (Some n) (pubkey_new n) (privkey_new n)). eexists.
  split; [destruct Ha as [-> | ->]; reflexivity|]. split; [reflexivity|]. split; [reflexivity|].
  split; [apply (gen_eq X _ n r HA); auto; cbn [kp_alg]; destruct Ha as [-> | ->]; auto|].
  repeat split.
Qed.

Lemma C72_unsupported_pf : forall a n,
  (a <> 1 -> a <> 2 -> keypair_new a n = Err (CryptoExc 3))
  /\ (forall X s, (a = 1 \/ a = 2) -> pc_avail X = false -> keypair_new a n = Ok s -> genKeyPair X s = (Err (CryptoExc 3), s)).
Proof.
  intros a n. split.
  - intros H1 H2. unfold keypair_new, ALG_RSA, ALG_RSA_CRT. replace (a =? 1) with false by lia. replace (a =? 2) with false by lia. reflexivity.
  - intros X s Ha HX Hs. assert (E : s = mkPair (Some a) (Some n) (pubkey_new n) (privkey_new n)).
    { unfold keypair_new in Hs. destruct Ha as [-> | ->]; cbn in Hs; congruence. }
    subst s. unfold genKeyPair, pyCryptogenKeyPair, bind, get. cbn. rewrite HX. reflexivity.
Qed.

Lemma C72_refuted_pf : forall X p v, pc_avail X = true ->
  isInitialized (KPub p) = false -> isInitialized (KPriv v) = false ->
  exists s, keypair_of (KPub p) (KPriv v) = Ok s /\ genKeyPair X s = (Err AttributeError, s).
Proof.
  intros X p v HA Hp Hv. eexists. split; [reflexivity|]. unfold genKeyPair, pyCryptogenKeyPair, bind, get.
  cbn [kp_pub kp_priv]. cbn [isInitialized] in Hp, Hv. rewrite Hp, Hv, HA. reflexivity.
Qed.

Lemma C72_kinds_pf : forall a b s, keypair_of a b = Ok s <-> exists p v, a = KPub p /\ b = KPriv v /\ s = mkPair None None p v.
Proof.
  intros a b s. split.
  - destruct a, b; cbn [keypair_of]; try discriminate. intros E. exists k, k0. repeat split. congruence.
  - intros (p & v & -> & -> & ->). reflexivity.
Qed.
