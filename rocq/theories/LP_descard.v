(** * C142: a card that encrypts and decrypts with DES: proofs *)
From Verif Require Import Py S_Base S_APDU L_Py M_utils M_util L_utils L_util M_apdu S_ApduObs L_apdu LP_apdu M_world LP_world S_DES S_Cipher M_des L_des LP_des LP_tdes LP_desx M_key M_cipher LP_cipher M_rsaapplet LP_pincard M_descard S_DesCard.
From Coq Require Import ZifyBool ZifyNat.
Ltac Zify.zify_post_hook ::= Z.div_mod_to_equations.


(** ** the APDU side *)
Lemma receive_des cla ins p1 p2 c : ubyte cla -> ubyte ins -> ubyte p1 -> ubyte p2 -> wf_command c -> is_short c = true ->
  exists s, newAPDU ([cla; ins; p1; p2] ++ body c) = Ok s
  /\ py_get (buf s) OFFSET_INS = Ok ins /\ py_get (buf s) OFFSET_P1 = Ok p1 /\ Nc s = zlen (command_data c)
  /\ (1 <= zlen (command_data c) <= 128 -> exists s', setIncomingAndReceive s = (Ok (zlen (command_data c)), s')
        /\ outlen s' = 0 /\ length (buf s') = 257%nat /\ st s' < 3 /\ Ne s' = command_le c
        /\ sub (buf s') 5 (length (command_data c)) = command_data c).
Proof.
  intros U1 U2 U3 U4 Hw Hs. set (rw := [cla; ins; p1; p2] ++ body c).
  assert (He : encodes rw c) by now apply wire_encodes.
  destruct (short_exact rw c Hw Hs He) as (ty & ll & Q & Hcd & Hll).
  pose proof (encodes_len rw c He) as HL. pose proof (zlen_nonneg (body c)) as HB. assert (H4 : 4 <= zlen rw) by lia.
  pose proof (p3len_bounds rw H4) as Hp. pose proof (initbuf_length rw H4) as HI.
  eexists. split; [exact Q|]. cbn [buf mk_apdu Nc].
  assert (G : forall i, 0 <= i < 4 -> py_get (initbuf rw) i = Ok (nth (Z.to_nat i) [cla; ins; p1; p2] 0)).
  { intros i Hi. rewrite (py_get_in _ _ 0) by (unfold zlen; lia). f_equal. unfold initbuf.
    replace (Z.to_nat (4 + p3len rw)) with (S (S (S (S (Z.to_nat (p3len rw)))))) by lia. unfold rw. cbn [app firstn].
    assert (Hn : (Z.to_nat i < 4)%nat) by lia. generalize dependent (Z.to_nat i). clear Hi. intros n Hn. do 4 (destruct n as [|n]; [reflexivity|]). lia. }
  split; [apply G; unfold OFFSET_INS; lia|]. split; [apply G; unfold OFFSET_P1; lia|]. split; [reflexivity|].
  intros H128. unfold setIncomingAndReceive, bind, get. cbn [st mk_apdu broken STATE_INITIAL Z.eqb negb].
  assert (Hne : command_data c <> []) by (intros E; rewrite E, zlen_nil in H128; lia).
  destruct (Hcd Hne) as [P1 P2]. pose proof (zlen_nonneg (command_data c)).
  rewrite (receive_block_ok _ _ (zlen (command_data c))); cbn [M_apdu.raw offin lelength buf mk_apdu]; try lia; try (unfold IN_BLOCKSIZE; lia).
  2:{ unfold zlen at 2. rewrite HI. lia. }
  assert (D : sub rw 5 (length (command_data c)) = command_data c).
  { unfold rw. destruct c; try discriminate; cbn [command_data] in *; try congruence; cbn [app body sub skipn]; unfold sub; cbn [skipn].
    - apply firstn_all.
    - rewrite firstn_app, firstn_all, Nat.sub_diag, app_nil_r. reflexivity. }
  rewrite P1. eexists. split; [reflexivity|]. cbn [outlen with_in mk_apdu buf st Ne]. split; [reflexivity|].
  replace (Z.to_nat (zlen (command_data c))) with (length (command_data c)) by (unfold zlen; lia).
  change (Z.to_nat 5) with 5%nat. rewrite D. split; [rewrite splice_length; [exact HI|rewrite HI; unfold zlen in *; lia]|].
  split; [unfold STATE_FULL_INCOMING, STATE_PARTIAL_INCOMING; destruct (_ =? _); lia|]. split; [reflexivity|].
  apply sub_splice; [reflexivity|rewrite HI; unfold zlen in *; lia].
Qed.

Lemma send_crypted s ct : zlen (buf s) = 257 -> st s < 3 -> zlen ct <= 200 -> sub (buf s) 5 (length ct) = ct ->
  exists s', (setOutgoing ;;; setOutgoingLength (zlen ct) ;;; sendBytesLong (buf s) 5 (zlen ct)) s
  = (if match Ne s with Some n => n <? zlen ct | None => false end then Err (APDUExc BAD_LENGTH) else Ok tt, s')
  /\ (match Ne s with Some n => n <? zlen ct | None => false end = false -> py_slice (raw s') 0 (outlen s') = ct).
Proof.
  intros Lb Hx Lc Hs. pose proof (zlen_nonneg ct).
  unfold setOutgoing, setOutgoingLength, bind, get, raise, put, ret. unfold STATE_OUTGOING.
  replace (3 <=? st s) with false by lia. cbn [st with_out Ne Z.ltb Z.compare Pos.compare Pos.compare_cont].
  destruct (match Ne s with Some n => n <? zlen ct | None => false end) eqn:E.
  { eexists. split; [reflexivity|discriminate]. }
  unfold sendBytesLong, send_block, bind, get, raise, put. cbn [st with_out curout buf M_apdu.raw outlen].
  unfold STATE_PARTIAL_OUTGOING, STATE_OUTGOING_LENGTH_KNOWN, OUT_BLOCKSIZE. cbn [Z.ltb Z.compare Pos.compare Pos.compare_cont andb].
  cbn [st with_out curout buf M_apdu.raw outlen]. replace (256 <? 0 + zlen ct) with false by lia.
  eexists. split; [reflexivity|]. intros _. cbn [outlen with_out M_apdu.raw].
  rewrite (py_slice_in (buf s) 5 (5 + zlen ct)) by lia. replace (Z.to_nat (5 + zlen ct - 5)) with (length ct) by (unfold zlen; lia).
  change (Z.to_nat 5) with 5%nat. rewrite Hs.
  destruct (slice_set_head (raw s) ct (zlen ct) eq_refl) as [rest ->]. now apply slice_prefix.
Qed.

(** ** the cipher side *)
Lemma init_des alg size k key mode c : des_alg alg -> In size [64; 128; 192] -> c_alg c = alg ->
  dk_init k = true -> dk_size k = size -> dk_key k = Some key -> zlen key = size / 8 -> mode = 1 \/ mode = 2 ->
  exists c', des_init_default (Some (KDes k)) mode c = (Ok tt, c') /\ cst alg mode key (repeat 0 8) c'.
Proof.
  intros Ha Hs Hc K1 K2 K3 KL Hm.
  assert (KL' : length key = Z.to_nat (size / 8)) by (unfold zlen in KL; lia).
  assert (E : exists e, (if 64 =? dk_size k
                      then rmap EDes (des_new key (desmode alg) (repeat 0 8) [] (padmode alg))
                      else rmap ETdes (tdes_new key (desmode alg) (repeat 0 8) [] (padmode alg))) = Ok e).
  { rewrite K2. destruct (Z.eqb_spec 64 size) as [<-|Hn].
    - destruct (des_new_exists key (desmode alg) (repeat 0 8) [] (padmode alg) KL' (or_intror eq_refl) (or_introl eq_refl)) as [d Ed]. rewrite Ed. cbn [rmap]. eauto.
    - destruct (tdes_new_exists key (desmode alg) (repeat 0 8) [] (padmode alg)) as [d Ed]; [|now right|now left|rewrite Ed; cbn [rmap]; eauto].
      cbn [In] in Hs. destruct Hs as [<-|[<-|[<-|[]]]]; [congruence|now left|now right]. }
  destruct E as [e Ee].
  assert (I : des_init_default (Some (KDes k)) mode c = (Ok tt, mkCipher alg true (Some mode) (Some e))).
  { unfold des_init_default, des_init, base_cipher_init. cbn [isInitialized]. rewrite K1. cbn [negb].
    replace ((mode =? MODE_ENCRYPT) || (mode =? MODE_DECRYPT)) with true by (unfold MODE_ENCRYPT, MODE_DECRYPT in *; lia). cbn [negb].
    unfold bind at 1 2 3. cbn [get put ret fst snd]. change (8 =? 8) with true. cbn [negb].
    rewrite copy_in by (cbn; lia). cbv zeta. rewrite bind_get, K3. cbn [c_alg c_mode]. rewrite arrayTobinary_unsigned, Hc.
    change (map unsigned (sub (repeat 0 8) (Z.to_nat 0) (Z.to_nat 8))) with (repeat 0 8).
    rewrite (bind_ok _ _ _ e (mkCipher alg (c_init c) (Some mode) (c_engine c))); [reflexivity|].
    destruct (64 =? dk_size k); unfold lift; rewrite Ee; reflexivity. }
  exists (mkCipher alg true (Some mode) (Some e)). split; [exact I|].
  destruct (init_cst alg k mode (repeat 0 8) 0 c _ Hc I) as (key' & v & _ & B & _ & D & F).
  assert (key' = key) by congruence. subst key'.
  rewrite copy_in in D by (cbn; lia).
  assert (v = repeat 0 8) as -> by (apply (f_equal snd) in D; cbn [snd] in D; rewrite <- D; reflexivity). exact F.
Qed.

Lemma cut_unpad alg key iv p : des_alg alg -> Forall ubyte p ->
  exists r, (if alg_pkcs5 alg then cut5 p else Some p) = Some r /\ unpadData (cbase alg key iv) p [] None = Ok r
    /\ Forall ubyte r /\ zlen r <= zlen p.
Proof.
  intros Ha Hu. pose proof (padmode_pkcs5 alg Ha) as Hp. unfold unpadData. cbn [cbase b_padmode b_pad nonempty andb].
  rewrite Hp. destruct (alg_pkcs5 alg).
  - unfold cut5. eexists. split; [reflexivity|].
    assert (Hf : forall n, Forall ubyte (firstn n p)) by (intro n; rewrite Forall_forall in *; intros x Hx; apply Hu; rewrite <- (firstn_skipn n p), in_app_iff; now left).
    assert (Hz : forall n, zlen (firstn n p) <= zlen p) by (intro n; unfold zlen; rewrite firstn_length; lia).
    split; [|destruct (last p 0 =? 0); [split; [constructor|apply zlen_nonneg]|split; [apply Hf|apply Hz]]].
    destruct p as [|x p]; [reflexivity|]. cbn [nonempty negb]. change (PAD_PKCS5 =? PAD_NORMAL) with false. change (PAD_PKCS5 =? PAD_PKCS5) with true. cbv iota.
    rewrite py_get_last by discriminate.
    assert (B : ubyte (last (x :: p) 0)).
    { rewrite Forall_forall in Hu. apply Hu. destruct (@exists_last _ (x :: p)) as (l & a & ->); [discriminate|]. rewrite last_last, in_app_iff. right. now left. }
    set (l := x :: p) in *. set (n := last l 0) in *. clearbody n l. unfold ubyte in B. cbn [rbind]. f_equal.
    destruct (Z.eqb_spec n 0) as [->|N]; [apply py_slice_00|]. destruct (Z.leb_spec n (zlen l)).
    + rewrite py_slice_neg by lia. f_equal. unfold zlen. lia.
    + rewrite py_slice_neg_big by lia. replace (length l - Z.to_nat n)%nat with O by (unfold zlen in *; lia). reflexivity.
  - exists p. split; [reflexivity|]. split; [|split; [exact Hu|lia]]. change (PAD_NORMAL =? PAD_NORMAL) with true. destruct (negb (nonempty p)); reflexivity.
Qed.

Lemma e_dec_ok mode key iv bs : keylen key -> blocks bs -> Forall (Forall ubyte) bs -> iv_ok mode iv ->
  Forall ubyte (concat (e_dec mode key iv bs)) /\ zlen (concat (e_dec mode key iv bs)) = 8 * Z.of_nat (length bs).
Proof.
  intros HK B U I.
  assert (T : blocks (e_dec mode key iv bs) /\ Forall (Forall ubyte) (e_dec mode key iv bs) /\ length (e_dec mode key iv bs) = length bs).
  { destruct HK as [H|H]; [rewrite e_dec_des by exact H; now apply mode_dec_blocks|rewrite e_dec_tdes by exact H; now apply t_mode_dec_blocks]. }
  destruct T as (T1 & T2 & T3). split.
  - clear -T2. induction T2; [constructor|]. cbn [concat]. apply Forall_app. now split.
  - unfold zlen. rewrite concat_blocks_length by exact T1. rewrite T3. apply (Nat2Z.inj_mul 8).
Qed.

Lemma doFinal_crypt alg mode key c inBuff io il out oo : des_alg alg -> cst alg mode key (repeat 0 8) c -> mode = 1 \/ mode = 2 ->
  0 <= io -> 0 <= il -> io + il <= zlen inBuff -> 0 <= oo -> oo + il + 8 <= zlen out ->
  let m := map unsigned (sub inBuff (Z.to_nat io) (Z.to_nat il)) in
  exists c', c_alg c' = alg /\
    match crypted cut5 alg key mode m with
    | None => des_doFinal inBuff io il oo (c, out) = (Err ValueError, (c', out))
    | Some r => Forall ubyte r /\ zlen r <= il + 8
        /\ des_doFinal inBuff io il oo (c, out) = (Ok (zlen r), (c', splice out (Z.to_nat oo) (map (twos 1) r)))
    end.
Proof.
  intros Ha (H1 & H2 & H3 & en & H4 & W) Hm Hio Hil Hin Hoo Hout m.
  assert (Zm : zlen m = il) by (unfold zlen, m; rewrite map_length, sub_length; unfold zlen in *; lia).
  assert (Um : Forall ubyte m) by apply unsigned_ubyte.
  assert (Liv : length (repeat 0 8) = 8%nat) by reflexivity.
  assert (Uiv : Forall ubyte (repeat 0 8)) by (repeat constructor; lia).
  assert (HI : iv_ok (desmode alg) (repeat 0 8)) by (intro; auto).
  pose proof (ewf_keylen _ _ _ W) as HK.
  rewrite (doFinal_eq alg mode key (repeat 0 8) c en inBuff io il oo out (sub inBuff (Z.to_nat io) (Z.to_nat il)) H1 H2 H3 H4 W (copy_in _ _ _ Hio Hil Hin)).
  cbv zeta. fold m. unfold crypted. exists (mkCipher alg true (Some mode) (Some (snd (engine_run (mode =? MODE_ENCRYPT) m en)))).
  assert (FIN : forall r, fst (engine_run (mode =? MODE_ENCRYPT) m en) = Ok r -> Forall ubyte r -> zlen r <= il + 8 ->
    c_alg (mkCipher alg true (Some mode) (Some (snd (engine_run (mode =? MODE_ENCRYPT) m en)))) = alg /\
    Forall ubyte r /\ zlen r <= il + 8 /\
    (match fst (engine_run (mode =? MODE_ENCRYPT) m en) with
     | Err x => (Err x, (mkCipher alg true (Some mode) (Some (snd (engine_run (mode =? MODE_ENCRYPT) m en))), out))
     | Ok r => let '(w, out') := arrayCopy_into (binaryToarray r) 0 oo (zlen (binaryToarray r)) out in
               (rmap (fun _ => zlen (binaryToarray r)) w, (mkCipher alg true (Some mode) (Some (snd (engine_run (mode =? MODE_ENCRYPT) m en))), out'))
     end) = (Ok (zlen r), (mkCipher alg true (Some mode) (Some (snd (engine_run (mode =? MODE_ENCRYPT) m en))), splice out (Z.to_nat oo) (map (twos 1) r)))).
  { intros r -> Ur Lr. split; [reflexivity|]. split; [exact Ur|]. split; [exact Lr|]. rewrite binaryToarray_twos by exact Ur.
    rewrite copy_out by (try lia; unfold zlen in *; rewrite map_length; lia). cbn [rmap]. do 2 f_equal. unfold zlen. now rewrite map_length. }
  destruct Hm as [-> | ->].
  - change (1 =? 2) with false. change (1 =? 1) with true. change (1 =? MODE_ENCRYPT) with false in *. cbn [negb andb]. cbv iota.
    destruct (Z.eqb_spec (zlen m mod 8) 0) as [E8|E8]; cbn [negb].
    + destruct (split_blocks (length m / 8) m) as (bs & E & Hb & Hbu & Hbl); [unfold zlen in E8; lia|exact Um|].
      destruct (e_dec_ok (desmode alg) key (repeat 0 8) bs HK Hb Hbu HI) as [P1 P2].
      assert (J : jc_decrypt alg key (repeat 0 8) m = concat (e_dec (desmode alg) key (repeat 0 8) bs)).
      { unfold jc_decrypt. cbv zeta. rewrite E, chunk8_concat by exact Hb. unfold e_dec. now rewrite desmode_cbc. }
      rewrite J. destruct (cut_unpad alg key (repeat 0 8) _ Ha P1) as (r & -> & Er & Ur & Lr).
      apply FIN; [|exact Ur|rewrite P2 in Lr; clear -Lr Hbl Zm; clearbody m; unfold zlen, block in *; lia].
      rewrite E, (engine_dec key (cbase alg key (repeat 0 8)) en bs W Hb Hbu HI). exact Er.
    + rewrite (engine_short false key alg (repeat 0 8) en m W Liv Uiv Um) by (try exact E8; discriminate). split; reflexivity.
  - change (2 =? 2) with true. change (2 =? MODE_ENCRYPT) with true in *. cbv iota.
    destruct (negb (alg_pkcs5 alg) && negb (zlen m mod 8 =? 0)) eqn:Q.
    + apply andb_prop in Q as [Q1 Q2].
      rewrite (engine_short true key alg (repeat 0 8) en m W Liv Uiv Um); [split; reflexivity|lia|].
      intros _. rewrite (padmode_pkcs5 alg Ha). now destruct (alg_pkcs5 alg).
    + assert (Hal : alg_pkcs5 alg = false -> zlen m mod 8 = 0) by (intros F; rewrite F in Q; cbn in Q; lia).
      destruct (padded_blocks alg m Ha Um Hal) as (bs & E & Hb & Hbu & Hbl & Hpad).
      rewrite (jc_encrypt_e alg key (repeat 0 8) m bs Ha E Hb).
      destruct (e_enc_blocks (desmode alg) key (repeat 0 8) bs HK) as (B1 & B2 & B3).
      apply FIN.
      * rewrite (engine_enc key (cbase alg key (repeat 0 8)) en m bs W (Hpad key _) Hb HI). reflexivity.
      * clear -B2. induction B2; [constructor|]. cbn [concat]. apply Forall_app. now split.
      * unfold zlen at 1. rewrite concat_blocks_length by exact B1. rewrite B3. clear -Hbl Zm. clearbody m. unfold block in *. destruct (alg_pkcs5 alg); lia.
Qed.

(** ** the card *)
Definition dinv (alg size : Z) (key : option (list Z)) (card : dcard) : Prop :=
  c_alg (dc_cipher card) = alg
  /\ dc_key card = mkDesKey 3 size (match key with Some _ => true | None => false end) key
  /\ match key with Some k => zlen k = size / 8 /\ Forall ubyte k | None => True end.

Lemma install_inv alg size card : des_alg alg -> dcard_install alg size = Ok card -> dinv alg size None card.
Proof.
  intros Ha. unfold dcard_install. cbn [rbind buildKey].
  assert (G : getInstance2 alg = Ok (cipher_new alg)) by (destruct Ha as [-> | [-> | [-> | ->]]]; reflexivity).
  rewrite G. cbn. intros E. apply Ok_inj in E. subst card. repeat split.
Qed.

Lemma reply_twos r : Forall ubyte r -> map unsigned (map (twos 1) r ++ [144; 0]) = r ++ [144; 0].
Proof. intros H. rewrite map_app, unsigned_twos, unsigned_id by exact H. reflexivity. Qed.

Lemma crypt_step alg size k card s n data mode : des_alg alg -> In size [64; 128; 192] -> dinv alg size k card ->
  n = zlen data -> 1 <= n <= 128 -> Forall ubyte data -> length (buf s) = 257%nat -> st s < 3 -> sub (buf s) 5 (length data) = data ->
  exists card', dinv alg size k card' /\
  match match k with Some k => crypted cut5 alg k mode data | None => None end with
  | None => exists e s', dcard_crypt mode n (card, s) = (Err e, (card', s')) /\ (e = ValueError \/ exists c, e = CryptoExc c)
  | Some r => exists s', Forall ubyte r
     /\ dcard_crypt mode n (card, s) = (if match Ne s with Some n => n <? zlen r | None => false end then Err (APDUExc BAD_LENGTH) else Ok tt, (card', s'))
     /\ (match Ne s with Some n => n <? zlen r | None => false end = false -> py_slice (raw s') 0 (outlen s') = map (twos 1) r)
  end.
Proof.
  intros Ha Hs (C1 & C2 & C3) Hn H128 Ud Lb Hst Hsub. unfold dcard_crypt. rewrite bind_get. cbn [fst snd]. rewrite C2.
  destruct k as [k|].
  - destruct C3 as [C3 C4].
    destruct (Z.eq_dec mode 1) as [M1|M1]; [|destruct (Z.eq_dec mode 2) as [M2|M2]].
    3:{ exists card. split; [repeat split; auto|]. unfold crypted. replace (mode =? 2) with false by lia. replace (mode =? 1) with false by lia.
        assert (I : des_init_default (Some (KDes (mkDesKey 3 size true (Some k)))) mode (dc_cipher card) = (Err (CryptoExc ILLEGAL_VALUE), dc_cipher card)).
        { unfold des_init_default, des_init, base_cipher_init. cbn [isInitialized dk_init negb]. unfold MODE_ENCRYPT, MODE_DECRYPT.
          replace ((mode =? 2) || (mode =? 1)) with false by lia. reflexivity. }
        rewrite I. do 2 eexists. split; [|right; eauto]. unfold bind, put, lift. rewrite <- C2. destruct card; reflexivity. }
    all: assert (Hm : mode = 1 \/ mode = 2) by lia; clear M1; try clear M2.
    all: destruct (init_des alg size (mkDesKey 3 size true (Some k)) k mode (dc_cipher card) Ha Hs C1 eq_refl eq_refl eq_refl C3 Hm) as (c1 & I & W).
    all: rewrite I.
    all: rewrite (bind_ok _ _ _ tt (mkDC (mkDesKey 3 size true (Some k)) c1, s)) by reflexivity.
    all: rewrite (bind_ok _ _ _ tt (mkDC (mkDesKey 3 size true (Some k)) c1, s)) by reflexivity.
    all: assert (Zb : zlen (buf s) = 257) by (unfold zlen; lia).
    all: destruct (doFinal_crypt alg mode k c1 (buf s) OFFSET_CDATA n (buf s) OFFSET_CDATA Ha W Hm) as (c2 & A2 & D); try (unfold OFFSET_CDATA; lia).
    all: change (Z.to_nat OFFSET_CDATA) with 5%nat in D.
    all: replace (Z.to_nat n) with (length data) in D by (subst n; unfold zlen; lia).
    all: rewrite Hsub, (unsigned_id data Ud) in D.
    all: exists (mkDC (mkDesKey 3 size true (Some k)) c2); split; [repeat split; auto|].
    all: destruct (crypted cut5 alg k mode data) as [r|].
    2,4: rewrite D; do 2 eexists; (split; [|left; reflexivity]); reflexivity.
    all: destruct D as (Ur & Lr & D); rewrite D.
    all: set (b := splice (buf s) 5 (map (twos 1) r)).
    all: rewrite (bind_ok _ _ _ tt (mkDC (mkDesKey 3 size true (Some k)) c2, with_buf b s)) by reflexivity.
    all: rewrite (bind_ok _ _ _ (zlen r) (mkDC (mkDesKey 3 size true (Some k)) c2, with_buf b s)) by reflexivity.
    all: assert (Lbb : length b = 257%nat) by (unfold b; rewrite splice_length; [exact Lb|rewrite map_length, Lb; unfold zlen in Lr; lia]).
    all: assert (Zr : zlen (map (twos 1) r) = zlen r) by (unfold zlen; now rewrite map_length).
    all: destruct (send_crypted (with_buf b s) (map (twos 1) r)) as (s' & E & F); cbn [buf with_buf st];
         [unfold zlen; lia|exact Hst|rewrite Zr; lia|unfold b; apply sub_splice; [reflexivity|rewrite map_length, Lb; unfold zlen in Lr; lia]|].
    all: rewrite Zr in E, F; cbn [buf with_buf Ne] in E, F.
    all: exists s'; split; [exact Ur|]; split; [|exact F].
    all: unfold to_apdu; cbn [snd fst]; change OFFSET_CDATA with 5; rewrite E; reflexivity.
  - exists card. split; [repeat split; auto|].
    assert (I : des_init_default (Some (KDes (mkDesKey 3 size false None))) mode (dc_cipher card) = (Err (CryptoExc UNINITIALIZED_KEY), dc_cipher card)) by reflexivity.
    rewrite I. do 2 eexists. split; [|right; eauto]. unfold bind, put, lift. rewrite <- C2. destruct card; reflexivity.
Qed.

Lemma dcard_step_exact alg size key card q : des_alg alg -> In size [64; 128; 192] -> dinv alg size key card -> request_ok q ->
  exists r card' key', dcard_answer (bytes_of q) card = (r, card')
    /\ crypto_step cut5 alg size q key = (reply r, key') /\ dinv alg size key' card'.
Proof.
  intros Ha Hsz HI (U1 & U2 & U3 & U4 & Hw & Hs). unfold bytes_of, dcard_answer, crypto_step. cbv zeta.
  destruct (receive_des (q_cla q) (q_ins q) (q_p1 q) (q_p2 q) (q_body q) U1 U2 U3 U4 Hw Hs) as (s & -> & Gi & Gp & HN & Hr).
  unfold dcard_process. rewrite bind_get. cbn [snd].
  rewrite (bind_ok _ _ _ (q_ins q) (card, s)) by (unfold lift; now rewrite Gi).
  rewrite (bind_ok _ _ _ (q_p1 q) (card, s)) by (unfold lift; now rewrite Gp).
  change (0x24) with 36. change 0x2A with 42.
  destruct ((q_ins q =? 36) || (q_ins q =? 42)) eqn:Ei; cbn [negb].
  2:{ do 3 eexists. split; [reflexivity|]. split; [reflexivity|exact HI]. }
  unfold getIncomingLength. rewrite HN.
  destruct ((zlen (command_data (q_body q)) <? 1) || (128 <? zlen (command_data (q_body q)))) eqn:El.
  { do 3 eexists. split; [reflexivity|]. split; [reflexivity|exact HI]. }
  destruct Hr as (s' & Er & O & Lb & Hst & HNe & Hsub); [lia|].
  destruct Hw as [Hd _]. set (data := command_data (q_body q)) in *.
  rewrite (bind_ok _ _ _ (zlen data) (card, s')) by (unfold to_apdu; cbn [snd fst]; now rewrite Er).
  destruct (q_ins q =? 36).
  - unfold dcard_put_key. rewrite bind_get. cbn [fst snd]. pose proof HI as (C1 & C2 & C3). rewrite C2. cbn [dk_size].
    destruct (zlen data =? size / 8) eqn:Ez; cbn [negb].
    + unfold setKey. cbn [dk_type dk_size].
      assert (K : arrayTobinary (py_slice (buf s') OFFSET_CDATA (OFFSET_CDATA + size / 8)) = data).
      { unfold OFFSET_CDATA. rewrite arrayTobinary_unsigned, py_slice_in by (unfold zlen in *; lia).
        replace (Z.to_nat (5 + size / 8 - 5)) with (length data) by (unfold zlen in *; lia). change (Z.to_nat 5) with 5%nat. rewrite Hsub. now apply unsigned_id. }
      rewrite K. do 3 eexists. unfold bind, put, lift. cbv beta iota. rewrite O.
      split; [rewrite py_slice_00; reflexivity|]. split; [reflexivity|].
      split; [exact C1|]. split; [reflexivity|]. split; [lia|exact Hd].
    + do 3 eexists. split; [reflexivity|]. split; [reflexivity|exact HI].
  - destruct (crypt_step alg size key card s' (zlen data) data (q_p1 q) Ha Hsz HI eq_refl ltac:(lia) Hd Lb Hst Hsub) as (card' & HI' & D).
    destruct key as [k|].
    + destruct (crypted cut5 alg k (q_p1 q) data) as [r|].
      * destruct D as (s2 & Ur & E & F). rewrite E. rewrite HNe in *.
        destruct (match command_le (q_body q) with Some n => n <? zlen r | None => false end).
        -- do 3 eexists. split; [reflexivity|]. split; [reflexivity|exact HI'].
        -- rewrite (F eq_refl). do 3 eexists. split; [reflexivity|]. split; [|exact HI']. cbn [reply]. now rewrite reply_twos.
      * destruct D as (e & s2 & E & [->|[x ->]]); rewrite E; do 3 eexists; (split; [reflexivity|]; split; [reflexivity|exact HI']).
    + destruct D as (e & s2 & E & [->|[x ->]]); rewrite E; do 3 eexists; (split; [reflexivity|]; split; [reflexivity|exact HI']).
Qed.

Lemma dcard_exact alg size qs : des_alg alg -> In size [64; 128; 192] -> Forall request_ok qs -> forall key card, dinv alg size key card ->
  map reply (fst (dcard_run (map bytes_of qs) card)) = crypto_run cut5 alg size qs key.
Proof.
  intros Ha Hs. induction 1 as [|q qs Hq Hqs IH]; intros key card HI; [reflexivity|]. cbn [map dcard_run crypto_run].
  destruct (dcard_step_exact alg size key card q Ha Hs HI Hq) as (r & card' & key' & -> & -> & HI'). specialize (IH key' card' HI').
  destruct (dcard_run (map bytes_of qs) card') as [rs c]. cbn [fst map] in *. now rewrite IH.
Qed.

(** ** the reference card *)
Fixpoint key_after (unpad : list Z -> option (list Z)) (alg size : Z) (qs : list request) (key : option (list Z)) : option (list Z) :=
  match qs with
  | [] => key
  | q :: qs' => key_after unpad alg size qs' (snd (crypto_step unpad alg size q key))
  end.
Lemma key_after_app u alg size qs qs' : forall key, key_after u alg size (qs ++ qs') key = key_after u alg size qs' (key_after u alg size qs key).
Proof. induction qs as [|q qs IH]; intro key; [reflexivity|]. cbn [app key_after]. apply IH. Qed.
Lemma crypto_run_last u alg size qs q : forall key d,
  last (crypto_run u alg size (qs ++ [q]) key) d = fst (crypto_step u alg size q (key_after u alg size qs key)).
Proof.
  induction qs as [|x qs IH]; intros key d; cbn [app crypto_run key_after].
  - destruct (crypto_step u alg size q key) as [r k]. reflexivity.
  - specialize (IH (snd (crypto_step u alg size x key)) d). destruct (crypto_step u alg size x key) as [r k]. cbn [snd] in *.
    destruct (crypto_run u alg size (qs ++ [q]) k) eqn:E; [|exact IH].
    destruct qs; cbn [app crypto_run] in E; destruct (crypto_step _ _ _ _ k); discriminate.
Qed.
Lemma keeps_step u alg size q key : keeps_key q -> snd (crypto_step u alg size q key) = key.
Proof.
  intros H. unfold keeps_key in H. unfold crypto_step. cbv zeta. destruct (_ || _); cbn [negb]; [|reflexivity]. destruct (_ || _); [reflexivity|].
  replace (q_ins q =? 36) with false by lia. reflexivity.
Qed.
Lemma keeps_after u alg size qs : Forall keeps_key qs -> forall key, key_after u alg size qs key = key.
Proof. induction 1 as [|q qs Hq Hqs IH]; intro key; [reflexivity|]. cbn [key_after]. rewrite keeps_step by exact Hq. apply IH. Qed.
Lemma puts_step u alg size q key k : puts_key k q -> zlen k = size / 8 -> In size [64; 128; 192] -> snd (crypto_step u alg size q key) = Some k.
Proof.
  intros (_ & Hi & Hd) Hk Hs. unfold crypto_step. cbv zeta. rewrite Hi, Hd. change ((0x24 =? 0x24) || (0x24 =? 0x2A)) with true. cbn [negb].
  replace ((zlen k <? 1) || (128 <? zlen k)) with false by (cbn [In] in Hs; lia). change (0x24 =? 0x24) with true. cbv iota.
  replace (zlen k =? size / 8) with true by lia. reflexivity.
Qed.
Lemma crypts_step u alg size q k mode data r : crypts mode data q -> 1 <= zlen data <= 128 -> crypted u alg k mode data = Some r -> zlen r <= 136 ->
  fst (crypto_step u alg size q (Some k)) = Some (r ++ [0x90; 0]).
Proof.
  intros (_ & Hi & Hp & Hd & Hl) H128 Hc Hr. unfold crypto_step. cbv zeta. rewrite Hi, Hp, Hd, Hc. change ((0x2A =? 0x24) || (0x2A =? 0x2A)) with true. cbn [negb].
  replace ((zlen data <? 1) || (128 <? zlen data)) with false by lia. change (0x2A =? 0x24) with false. cbv iota. cbn [fst].
  destruct (command_le (q_body q)); [|reflexivity]. now replace (z <? zlen r) with false by lia.
Qed.

Lemma after_put alg size u qs1 qk qs2 key k : puts_key k qk -> zlen k = size / 8 -> In size [64; 128; 192] -> Forall keeps_key qs2 ->
  key_after u alg size (qs1 ++ qk :: qs2) key = Some k.
Proof.
  intros Hp Hk Hs H2. rewrite key_after_app. cbn [key_after]. rewrite (puts_step u alg size qk _ k Hp Hk Hs). now apply keeps_after.
Qed.

Lemma last_reply_exact alg size card qs q : des_alg alg -> In size [64; 128; 192] -> dcard_install alg size = Ok card ->
  Forall request_ok (qs ++ [q]) ->
  last_reply (qs ++ [q]) card = fst (crypto_step cut5 alg size q (key_after cut5 alg size qs None)).
Proof.
  intros Ha Hs Hi Hok. unfold last_reply. rewrite (dcard_exact alg size (qs ++ [q]) Ha Hs Hok None card (install_inv alg size card Ha Hi)).
  apply crypto_run_last.
Qed.

Lemma cut_pkcs5 m : cut5 (pkcs5 m) = Some m.
Proof.
  unfold cut5, pkcs5. cbv zeta. set (n := (8 - length m mod 8)%nat). assert (Hn : (1 <= n <= 8)%nat) by (unfold n; lia).
  assert (L : last (m ++ repeat (Z.of_nat n) n) 0 = Z.of_nat n).
  { destruct n as [|k]; [lia|]. replace (repeat (Z.of_nat (S k)) (S k)) with (repeat (Z.of_nat (S k)) k ++ [Z.of_nat (S k)]) by (symmetry; apply repeat_cons).
    rewrite app_assoc. apply last_last. }
  rewrite L. replace (Z.of_nat n =? 0) with false by lia. rewrite app_length, repeat_length, Nat2Z.id.
  replace (length m + n - n)%nat with (length m) by lia. rewrite firstn_app, firstn_all, Nat.sub_diag, app_nil_r. reflexivity.
Qed.
Lemma unpad_cut p m : unpad5 p = Some m -> Forall ubyte p -> cut5 p = Some m.
Proof.
  unfold unpad5, cut5. cbv zeta. intros H Hu. destruct ((_ && _ && _)%bool && _) eqn:E; [|discriminate].
  apply andb_prop in E as [E _]. apply andb_prop in E as [E _]. apply andb_prop in E as [E _]. apply Nat.leb_le in E.
  replace (last p 0 =? 0) with false by lia. exact H.
Qed.

(** decrypting what was encrypted: the padded text *)
Lemma jc_roundtrip alg key p : des_alg alg -> keylen key -> Forall ubyte p -> zlen p mod 8 = 0 ->
  let c := concat (if alg_cbc alg then cbc_enc (block_enc key) (repeat 0 8) (chunk8 p) else ecb (block_enc key) (chunk8 p)) in
  zlen c = zlen p /\ jc_decrypt alg key (repeat 0 8) c = p.
Proof.
  intros Ha HK Hu H8 c.
  destruct (split_blocks (length p / 8) p) as (bs & E & Hb & Hbu & Hbl); [unfold zlen in H8; lia|exact Hu|].
  assert (HI : iv_ok (desmode alg) (repeat 0 8)) by (intros _; split; [reflexivity|repeat constructor; lia]).
  destruct (e_enc_blocks (desmode alg) key (repeat 0 8) bs HK) as (B1 & B2 & B3).
  assert (Q : c = concat (e_enc (desmode alg) key (repeat 0 8) bs)).
  { unfold c. rewrite E, chunk8_concat by exact Hb. unfold e_enc. now rewrite desmode_cbc. }
  rewrite Q. split.
  - unfold zlen. rewrite concat_blocks_length by exact B1. rewrite B3. clear -Hbl H8. unfold zlen, block in *. lia.
  - unfold jc_decrypt. cbv zeta. rewrite chunk8_concat by exact B1. pose proof (e_inv (desmode alg) key (repeat 0 8) bs HK Hb Hbu HI) as V.
    unfold e_dec in V. rewrite desmode_cbc in V by exact Ha. rewrite E. f_equal. exact V.
Qed.
Lemma size_keylen key size : In size [64; 128; 192] -> zlen key = size / 8 -> keylen key.
Proof. unfold keylen, zlen. cbn [In]. lia. Qed.

Lemma crypted_back alg key m : des_alg alg -> keylen key -> Forall ubyte m -> (alg_pkcs5 alg = false -> zlen m mod 8 = 0) ->
  zlen (jc_encrypt alg key (repeat 0 8) m) = (if alg_pkcs5 alg then 8 * (zlen m / 8 + 1) else zlen m)
  /\ crypted cut5 alg key 2 m = Some (jc_encrypt alg key (repeat 0 8) m)
  /\ crypted cut5 alg key 1 (jc_encrypt alg key (repeat 0 8) m) = Some m.
Proof.
  intros Ha HK Hu H8. unfold crypted, jc_encrypt. cbv zeta. change (2 =? 2) with true. change (1 =? 2) with false. change (1 =? 1) with true. cbv iota.
  assert (Up : Forall ubyte (if alg_pkcs5 alg then pkcs5 m else m)) by (destruct (alg_pkcs5 alg); [now apply pkcs5_ubyte|exact Hu]).
  assert (Zp : zlen (if alg_pkcs5 alg then pkcs5 m else m) = if alg_pkcs5 alg then 8 * (zlen m / 8 + 1) else zlen m).
  { destruct (alg_pkcs5 alg); [|reflexivity]. unfold zlen. rewrite pkcs5_length. lia. }
  destruct (jc_roundtrip alg key _ Ha HK Up) as [L J].
  { rewrite Zp. destruct (alg_pkcs5 alg); [lia|auto]. }
  rewrite L, J, Zp. split; [reflexivity|]. split.
  - destruct (alg_pkcs5 alg); [reflexivity|]. cbn [negb andb]. now rewrite H8.
  - destruct (alg_pkcs5 alg).
    + replace (8 * (zlen m / 8 + 1)) with ((zlen m / 8 + 1) * 8) by lia. rewrite Z.mod_mul by lia. apply cut_pkcs5.
    + now rewrite H8.
Qed.

Lemma C142_exact_partial_pf : forall alg size card qs,
  des_alg alg -> In size [64; 128; 192] -> dcard_install alg size = Ok card -> Forall request_ok qs ->
  map reply (fst (dcard_run (map bytes_of qs) card)) = crypto_run cut5 alg size qs None.
Proof.
  intros alg size card qs Ha Hs Hi Hok. apply dcard_exact; auto. now apply install_inv.
Qed.

Lemma request_data q : request_ok q -> Forall ubyte (command_data (q_body q)).
Proof. intros (_ & _ & _ & _ & [H _] & _). exact H. Qed.

Lemma jc_decrypt_ubyte alg k data : des_alg alg -> keylen k -> Forall ubyte data -> zlen data mod 8 = 0 -> Forall ubyte (jc_decrypt alg k (repeat 0 8) data).
Proof.
  intros Ha HK Hu H8. destruct (split_blocks (length data / 8) data) as (bs & E & Hb & Hbu & Hbl); [unfold zlen in H8; lia|exact Hu|].
  assert (HI : iv_ok (desmode alg) (repeat 0 8)) by (intros _; split; [reflexivity|repeat constructor; lia]).
  destruct (e_dec_ok (desmode alg) k (repeat 0 8) bs HK Hb Hbu HI) as [P1 P2].
  unfold jc_decrypt. cbv zeta. rewrite E, chunk8_concat by exact Hb. unfold e_dec in P1. rewrite desmode_cbc in P1 by exact Ha. exact P1.
Qed.

Lemma step_agrees alg size q key : des_alg alg -> In size [64; 128; 192] -> request_ok q ->
  match key with Some k => zlen k = size / 8 | None => True end ->
  (fst (crypto_step unpad5 alg size q key) <> None -> fst (crypto_step cut5 alg size q key) = fst (crypto_step unpad5 alg size q key))
  /\ snd (crypto_step cut5 alg size q key) = snd (crypto_step unpad5 alg size q key)
  /\ match snd (crypto_step unpad5 alg size q key) with Some k => zlen k = size / 8 | None => True end.
Proof.
  intros Ha Hs Hq Hk. pose proof (request_data q Hq) as Hu. unfold crypto_step. cbv zeta. destruct (_ || _); cbn [negb]; [|auto].
  destruct (_ || _); [auto|]. destruct (q_ins q =? _).
  { destruct (zlen (command_data (q_body q)) =? size / 8) eqn:E; cbn [fst snd]; repeat split; auto. lia. }
  cbn [fst snd]. split; [|split; [reflexivity|exact Hk]]. destruct key as [k|]; [|congruence].
  assert (C : crypted unpad5 alg k (q_p1 q) (command_data (q_body q)) <> None ->
    crypted cut5 alg k (q_p1 q) (command_data (q_body q)) = crypted unpad5 alg k (q_p1 q) (command_data (q_body q))).
  { unfold crypted. destruct (q_p1 q =? 2); [reflexivity|]. destruct (q_p1 q =? 1); [|reflexivity].
    destruct (Z.eqb_spec (zlen (command_data (q_body q)) mod 8) 0) as [E8|E8]; cbn [negb]; [|reflexivity].
    destruct (alg_pkcs5 alg); [|reflexivity].
    pose proof (jc_decrypt_ubyte alg k _ Ha (size_keylen k size Hs Hk) Hu E8) as Up.
    destruct (unpad5 (jc_decrypt alg k (repeat 0 8) (command_data (q_body q)))) as [m|] eqn:E; [|congruence]. intros _. now apply unpad_cut. }
  destruct (crypted unpad5 alg k (q_p1 q) (command_data (q_body q))); [|congruence]. rewrite C by discriminate. reflexivity.
Qed.

Lemma C142_agrees_partial_pf : forall alg size card qs,
  des_alg alg -> In size [64; 128; 192] -> dcard_install alg size = Ok card -> Forall request_ok qs ->
  Forall2 (fun given wanted => wanted <> None -> given = wanted)
    (map reply (fst (dcard_run (map bytes_of qs) card))) (crypto_run unpad5 alg size qs None).
Proof.
  intros alg size card qs Ha Hs Hi Hok. rewrite (C142_exact_partial_pf alg size card qs Ha Hs Hi Hok). clear card Hi.
  enough (T : forall key, match key with Some k => zlen k = size / 8 | None => True end ->
    Forall2 (fun given wanted => wanted <> None -> given = wanted) (crypto_run cut5 alg size qs key) (crypto_run unpad5 alg size qs key)) by now apply T.
  induction Hok as [|q qs Hq Hqs IH]; intros key Hk; cbn [crypto_run]; [constructor|].
  destruct (step_agrees alg size q key Ha Hs Hq Hk) as (A & B & C).
  destruct (crypto_step cut5 alg size q key) as [r1 k1], (crypto_step unpad5 alg size q key) as [r2 k2]. cbn [fst snd] in *. subst k1.
  constructor; auto.
Qed.

Lemma C142_roundtrip_pf : forall alg size card qs1 qk qs2 e qs3 d key m,
  des_alg alg -> In size [64; 128; 192] -> dcard_install alg size = Ok card ->
  Forall request_ok qs1 -> puts_key key qk -> zlen key = size / 8 ->
  Forall request_ok qs2 -> Forall keeps_key qs2 -> Forall request_ok qs3 -> Forall keeps_key qs3 ->
  1 <= zlen m -> (if alg_pkcs5 alg then zlen m <= 127 else zlen m <= 128 /\ zlen m mod 8 = 0) ->
  let c := jc_encrypt alg key (repeat 0 8) m in
  crypts 2 m e -> crypts 1 c d ->
  last_reply (qs1 ++ qk :: qs2 ++ [e]) card = Some (c ++ [0x90; 0])
  /\ last_reply (qs1 ++ qk :: qs2 ++ e :: qs3 ++ [d]) card = Some (m ++ [0x90; 0]).
Proof.
  intros alg size card qs1 qk qs2 e qs3 d key m Ha Hs Hi H1 Hk Kl H2 K2 H3 K3 M1 M2 c He Hd.
  assert (Hm : Forall ubyte m). { destruct He as (Hq & _ & _ & <- & _). now apply request_data. }
  destruct (crypted_back alg key m Ha (size_keylen key size Hs Kl) Hm) as (L & E & D); [destruct (alg_pkcs5 alg); [discriminate|tauto]|].
  fold c in L, E, D.
  assert (Lc : 1 <= zlen c <= 128) by (destruct (alg_pkcs5 alg); lia).
  assert (Lm : zlen m <= 128) by (destruct (alg_pkcs5 alg); lia).
  assert (Ke : keeps_key e) by (destruct He as (_ & Ki & _); unfold keeps_key; rewrite Ki; discriminate).
  assert (Re : request_ok e) by apply He. assert (Rd : request_ok d) by apply Hd. assert (Rk : request_ok qk) by apply Hk.
  split.
  - replace (qs1 ++ qk :: qs2 ++ [e]) with ((qs1 ++ qk :: qs2) ++ [e]) by (rewrite <- app_assoc; reflexivity).
    rewrite (last_reply_exact alg size card); auto.
    2:{ rewrite !Forall_app. repeat split; auto. }
    rewrite (after_put alg size cut5 qs1 qk qs2 None key) by assumption.
    apply (crypts_step cut5 alg size e key 2 m c He); [lia|exact E|lia].
  - replace (qs1 ++ qk :: qs2 ++ e :: qs3 ++ [d]) with ((qs1 ++ qk :: (qs2 ++ e :: qs3)) ++ [d]) by (rewrite <- !app_assoc; cbn [app]; rewrite <- app_assoc; reflexivity).
    assert (K4 : Forall keeps_key (qs2 ++ e :: qs3)) by (rewrite Forall_app; split; auto).
    rewrite (last_reply_exact alg size card); auto.
    2:{ rewrite !Forall_app. repeat split; auto. constructor; auto. rewrite Forall_app. split; auto. }
    rewrite (after_put alg size cut5 qs1 qk (qs2 ++ e :: qs3) None key) by assumption.
    apply (crypts_step cut5 alg size d key 1 c m Hd); [lia|exact D|lia].
Qed.

Lemma C142_padding_refuted_pf : forall alg size card qs1 qk qs2 d key p,
  alg = 4 \/ alg = 8 -> In size [64; 128; 192] -> dcard_install alg size = Ok card ->
  Forall request_ok qs1 -> puts_key key qk -> zlen key = size / 8 ->
  Forall request_ok qs2 -> Forall keeps_key qs2 ->
  Forall ubyte p -> 8 <= zlen p <= 128 -> zlen p mod 8 = 0 -> unpad5 p = None ->
  crypts 1 (jc_encrypt (alg - 3) key (repeat 0 8) p) d ->
  last_reply (qs1 ++ qk :: qs2 ++ [d]) card
    = Some ((if last p 0 =? 0 then [] else firstn (length p - Z.to_nat (last p 0)) p) ++ [0x90; 0])
  /\ last (crypto_run unpad5 alg size (qs1 ++ qk :: qs2 ++ [d]) None) None = None.
Proof.
  intros alg size card qs1 qk qs2 d key p Ha Hs Hi H1 Hk Kl H2 K2 Hu Hp H8 Hbad Hd.
  assert (Ha' : des_alg alg) by (unfold des_alg; tauto).
  assert (P5 : alg_pkcs5 alg = true) by (destruct Ha as [-> | ->]; reflexivity).
  pose proof (size_keylen key size Hs Kl) as HK.
  destruct (jc_roundtrip alg key p Ha' HK Hu H8) as [L J].
  assert (Q : jc_encrypt (alg - 3) key (repeat 0 8) p = concat (if alg_cbc alg then cbc_enc (block_enc key) (repeat 0 8) (chunk8 p) else ecb (block_enc key) (chunk8 p))) by (destruct Ha as [-> | ->]; reflexivity).
  rewrite <- Q in L, J. set (c := jc_encrypt (alg - 3) key (repeat 0 8) p) in *. clearbody c.
  assert (C : forall u, crypted u alg key 1 c = u p).
  { intros u. unfold crypted. change (1 =? 2) with false. change (1 =? 1) with true. cbv iota. rewrite L, H8. cbn [Z.eqb negb]. now rewrite J, P5. }
  assert (Rd : request_ok d) by apply Hd. assert (Rk : request_ok qk) by apply Hk.
  replace (qs1 ++ qk :: qs2 ++ [d]) with ((qs1 ++ qk :: qs2) ++ [d]) by (rewrite <- app_assoc; reflexivity).
  split.
  - rewrite (last_reply_exact alg size card); auto.
    2:{ rewrite !Forall_app. repeat split; auto. }
    rewrite (after_put alg size cut5 qs1 qk qs2 None key) by assumption.
    apply (crypts_step cut5 alg size d key 1 c _ Hd); [lia|rewrite C; reflexivity|].
    destruct (last p 0 =? 0); [cbn; lia|]. unfold zlen in *. rewrite firstn_length. lia.
  - rewrite crypto_run_last, (after_put alg size unpad5 qs1 qk qs2 None key) by assumption.
    destruct Hd as (_ & Di & Dp & Dd & _). unfold crypto_step. cbv zeta. rewrite Di, Dp, Dd, C, Hbad.
    change ((0x2A =? 0x24) || (0x2A =? 0x2A)) with true. cbn [negb].
    replace ((zlen c <? 1) || (128 <? zlen c)) with false by lia. reflexivity.
Qed.

Lemma C142_full_refuted_pf : ~ C142_full.
Proof.
  intros H.
  destruct (dcard_install 8 64) as [card|] eqn:Hi; [|discriminate].
  set (key := [1; 2; 3; 4; 5; 6; 7; 8]). set (p := [1; 1; 1; 1; 1; 1; 1; 9]).
  set (c := jc_encrypt 5 key (repeat 0 8) p). assert (Ec : c = jc_encrypt 5 key (repeat 0 8) p) by reflexivity.
  vm_compute in c.
  set (qk := mkReq 0 0x24 0 0 (Case3S key)). set (d := mkReq 0 0x2A 1 0 (Case3S c)).
  assert (Rk : request_ok qk) by (unfold request_ok, wf_command, bytes; cbn; repeat split; repeat constructor; unfold ubyte; cbn; lia).
  assert (Rd : request_ok d) by (unfold request_ok, wf_command, bytes; cbn; repeat split; repeat constructor; unfold ubyte; cbn; lia).
  destruct (C142_padding_refuted_pf 8 64 card [] qk [] d key p) as [A B]; try reflexivity; auto.
  - left. reflexivity.
  - split; [exact Rk|split; reflexivity].
  - unfold p. repeat constructor; unfold ubyte; lia.
  - cbn; lia.
  - change (8 - 3) with 5. rewrite <- Ec. split; [exact Rd|]. repeat split.
  - cbn [app] in A, B. unfold last_reply in A.
    assert (H' := H 8 64 card [qk; d] (or_intror (or_intror (or_intror eq_refl))) (or_introl eq_refl) Hi (Forall_cons _ Rk (Forall_cons _ Rd (Forall_nil _)))).
    clear H. clearbody qk d. rewrite H' in A. clear H'. rewrite B in A. discriminate.
Qed.
