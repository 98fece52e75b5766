(** * C58-C62: the DES ciphers of pythoncardx/crypto/cipher.py: proofs *)
From Verif Require Import Py S_Base L_Py S_DES S_Cipher M_utils L_utils M_util L_util M_des L_des LP_des LP_tdes M_key M_cipher.
From Coq Require Import ZifyBool ZifyNat.
Ltac Zify.zify_post_hook ::= Z.div_mod_to_equations.


(** *** bytes *)
Lemma arrayTobinary_unsigned l : arrayTobinary l = map unsigned l.
Proof. apply map_ext. intro; apply land_255. Qed.
Lemma unsigned_ubyte l : Forall ubyte (map unsigned l).
Proof. induction l; constructor; [unfold ubyte, unsigned; lia|assumption]. Qed.
Lemma binaryToarray_twos l : Forall ubyte l -> binaryToarray l = map (twos 1) l.
Proof.
  induction 1 as [|x l H Hl IH]; [reflexivity|]. cbn [binaryToarray map]. unfold binaryToarray in IH. rewrite IH.
  f_equal. unfold ubyte in H. replace x with (x mod 256) at 1 by lia. apply s1_of_mod.
Qed.
Lemma unsigned_twos l : map unsigned (map (twos 1) l) = map unsigned l.
Proof. rewrite map_map. apply map_ext. intro a. unfold unsigned. rewrite twos1. destruct (Z.ltb_spec (a mod 256) 128); lia. Qed.
Lemma unsigned_id l : Forall ubyte l -> map unsigned l = l.
Proof. induction 1 as [|x l H Hl IH]; [reflexivity|]. cbn [map]. rewrite IH. f_equal. unfold ubyte, unsigned in *. lia. Qed.
Lemma twos_unsigned l : map (twos 1) (map unsigned l) = map (twos 1) l.
Proof. rewrite map_map. apply map_ext. intro a. unfold unsigned. rewrite !twos1. replace ((a mod 256) mod 256) with (a mod 256) by lia. reflexivity. Qed.

Lemma chunk8_concat bs : blocks bs -> chunk8 (concat bs) = bs.
Proof.
  induction 1 as [|b bs Hb Hbs IH]; [reflexivity|]. cbn [concat].
  do 8 (destruct b as [|? b]; [discriminate|]). destruct b; [|discriminate]. cbn [app chunk8]. now rewrite IH.
Qed.

(** copying into a fresh list of zeros of the right length *)
Lemma copy_in src so len : 0 <= so -> 0 <= len -> so + len <= zlen src ->
  arrayCopy_into src so 0 len (py_repeat 0 len) = (Ok tt, sub src (Z.to_nat so) (Z.to_nat len)).
Proof.
  intros H1 H2 H3. assert (L : length (py_repeat 0 len) = Z.to_nat len) by apply repeat_length.
  rewrite arrayCopy_into_ok by (try lia; unfold zlen; lia). f_equal. rewrite splice_all; [reflexivity|].
  rewrite sub_length by (unfold zlen in *; lia). now rewrite L.
Qed.
Lemma copy_out r oo out : 0 <= oo -> oo + zlen r <= zlen out ->
  arrayCopy_into r 0 oo (zlen r) out = (Ok tt, splice out (Z.to_nat oo) r).
Proof.
  intros H1 H2. pose proof (zlen_nonneg r). rewrite arrayCopy_into_ok by lia. f_equal. f_equal.
  apply sub_full. unfold zlen; lia.
Qed.

(** *** the engine *)
Definition ewf (key : list Z) (b : base) (e : engine) : Prop :=
  match e with
  | EDes d => length key = 8%nat /\ wf key b d
  | ETdes d => (length key = 16 \/ length key = 24)%nat /\ twf key b d
  end.
Definition e_enc (mode : Z) (key iv : list Z) (bs : list block) : list block :=
  if mode =? CBC then cbc_enc (block_enc key) iv bs else ecb (block_enc key) bs.
Definition e_dec (mode : Z) (key iv : list Z) (bs : list block) : list block :=
  if mode =? CBC then cbc_dec (block_dec key) iv bs else ecb (block_dec key) bs.

Lemma ecb_ext F G bs : (forall b, F b = G b) -> ecb F bs = ecb G bs.
Proof. intros H. unfold ecb. now apply map_ext. Qed.
Lemma cbc_enc_ext F G bs : (forall b, F b = G b) -> forall iv, cbc_enc F iv bs = cbc_enc G iv bs.
Proof. intros H. induction bs as [|b bs IH]; intro iv; [reflexivity|]. cbn [cbc_enc]. cbv zeta. now rewrite H, IH. Qed.
Lemma cbc_dec_ext F G bs : (forall b, F b = G b) -> forall iv, cbc_dec F iv bs = cbc_dec G iv bs.
Proof. intros H. induction bs as [|b bs IH]; intro iv; [reflexivity|]. cbn [cbc_dec]. now rewrite H, IH. Qed.
Lemma e_enc_des mode key iv bs : length key = 8%nat -> e_enc mode key iv bs = mode_enc mode key iv bs.
Proof.
  intros H. unfold e_enc, mode_enc, block_enc. rewrite H. change (8 =? 8)%nat with true. cbv iota.
  destruct (mode =? CBC); [apply cbc_enc_ext|apply ecb_ext]; reflexivity.
Qed.
Lemma e_enc_tdes mode key iv bs : (length key = 16 \/ length key = 24)%nat -> e_enc mode key iv bs = t_mode_enc mode key iv bs.
Proof.
  intros H. unfold e_enc, t_mode_enc, block_enc. replace (length key =? 8)%nat with false by lia.
  destruct (mode =? CBC); [apply cbc_enc_ext|apply ecb_ext]; reflexivity.
Qed.
Lemma e_dec_des mode key iv bs : length key = 8%nat -> e_dec mode key iv bs = mode_dec mode key iv bs.
Proof.
  intros H. unfold e_dec, mode_dec, block_dec. rewrite H. change (8 =? 8)%nat with true. cbv iota.
  destruct (mode =? CBC); [apply cbc_dec_ext|apply ecb_ext]; reflexivity.
Qed.
Lemma e_dec_tdes mode key iv bs : (length key = 16 \/ length key = 24)%nat -> e_dec mode key iv bs = t_mode_dec mode key iv bs.
Proof.
  intros H. unfold e_dec, t_mode_dec, block_dec. replace (length key =? 8)%nat with false by lia.
  destruct (mode =? CBC); [apply cbc_dec_ext|apply ecb_ext]; reflexivity.
Qed.
Definition keylen (key : list Z) : Prop := (length key = 8 \/ length key = 16 \/ length key = 24)%nat.
Lemma ewf_keylen key b e : ewf key b e -> keylen key.
Proof. unfold keylen. destruct e; intros [H _]; lia. Qed.
Lemma e_inv mode key iv bs : keylen key -> blocks bs -> Forall (Forall ubyte) bs -> iv_ok mode iv ->
  e_dec mode key iv (e_enc mode key iv bs) = bs.
Proof.
  intros [H|H] Hb Hu Hi.
  - rewrite e_enc_des, e_dec_des by exact H. now apply mode_inv.
  - rewrite e_enc_tdes, e_dec_tdes by exact H. now apply t_mode_inv.
Qed.
Lemma e_enc_blocks mode key iv bs : keylen key ->
  blocks (e_enc mode key iv bs) /\ Forall (Forall ubyte) (e_enc mode key iv bs) /\ length (e_enc mode key iv bs) = length bs.
Proof.
  intros [H|H].
  - rewrite e_enc_des by exact H. apply mode_enc_blocks.
  - rewrite e_enc_tdes by exact H. apply t_mode_enc_blocks.
Qed.

Lemma engine_keeps enc data key b e : ewf key b e -> ewf key b (snd (engine_run enc data e)).
Proof.
  destruct e as [d|d]; intros [H W]; cbn [engine_run].
  - assert (K : wf key b (snd ((if enc then des_encrypt data [] None else des_decrypt data [] None) d))).
    { destruct W as [W1 W2]. destruct enc; [destruct (keeps_encrypt data [] None d) as [A B]|destruct (keeps_decrypt data [] None d) as [A B]];
        split; congruence. }
    destruct enc; (match goal with K : context [snd (?m d)] |- _ => destruct (m d) as [r d'] end); cbn [snd] in *; now split.
  - assert (K : twf key b (snd ((if enc then tdes_encrypt data [] None else tdes_decrypt data [] None) d))).
    { destruct enc; [now apply tkeeps_encrypt|now apply tkeeps_decrypt]. }
    destruct enc; (match goal with K : context [snd (?m d)] |- _ => destruct (m d) as [r d'] end); cbn [snd] in *; now split.
Qed.

Lemma engine_indep enc data key b e e' : ewf key b e -> ewf key b e' ->
  fst (engine_run enc data e) = fst (engine_run enc data e').
Proof.
  destruct e as [d|d], e' as [d'|d']; intros [H W] [H' W']; try lia; cbn [engine_run].
  - assert (S : sim d d').
    { destruct W as [B1 W1], W' as [B0 W0]. unfold sim. rewrite W1, W0, B1, B0. repeat split. }
    assert (E : fst ((if enc then des_encrypt data [] None else des_decrypt data [] None) d)
              = fst ((if enc then des_encrypt data [] None else des_decrypt data [] None) d')).
    { destruct enc; [now apply des_encrypt_indep|now apply des_decrypt_indep]. }
    destruct enc; (match type of E with fst (?m d) = _ => destruct (m d) as [r s], (m d') as [r' s'] end); exact E.
  - assert (E : fst ((if enc then tdes_encrypt data [] None else tdes_decrypt data [] None) d)
              = fst ((if enc then tdes_encrypt data [] None else tdes_decrypt data [] None) d')).
    { destruct enc; [apply tdes_encrypt_indep; eapply twf_twsim; eauto|eapply tdes_decrypt_indep; eauto]. }
    destruct enc; (match type of E with fst (?m d) = _ => destruct (m d) as [r s], (m d') as [r' s'] end); exact E.
Qed.

Lemma engine_enc key b e data bs : ewf key b e -> padData b data [] None = Ok (concat bs) -> blocks bs ->
  iv_ok (b_mode b) (b_iv b) ->
  fst (engine_run true data e) = Ok (concat (e_enc (b_mode b) key (b_iv b) bs)).
Proof.
  intros W Hp Hb Hi. destruct e as [d|d]; destruct W as [H W]; cbn [engine_run].
  - rewrite e_enc_des by exact H. destruct (crypt_enc key b d bs W Hb) as (s1 & E1 & _); [intro E; apply (Hi E)|].
    unfold des_encrypt. rewrite bind_get, (proj1 W), Hp. rewrite (bind_ok _ _ _ (concat bs) d) by reflexivity. now rewrite E1.
  - rewrite e_enc_tdes by exact H. destruct (t_encrypt key b d data [] None bs W Hp Hb Hi) as (s1 & E1 & _). now rewrite E1.
Qed.
Lemma engine_dec key b e bs : ewf key b e -> blocks bs -> Forall (Forall ubyte) bs -> iv_ok (b_mode b) (b_iv b) ->
  fst (engine_run false (concat bs) e) = unpadData b (concat (e_dec (b_mode b) key (b_iv b) bs)) [] None.
Proof.
  intros W Hb Hu Hi. destruct e as [d|d]; destruct W as [H W]; cbn [engine_run].
  - rewrite e_dec_des by exact H. destruct (crypt_dec key b d bs W Hb Hu Hi) as (s1 & E1 & W1).
    unfold des_decrypt. rewrite (bind_ok _ _ _ _ _ E1), bind_get, (proj1 W1). reflexivity.
  - rewrite e_dec_tdes by exact H. destruct (t_decrypt key b d [] None bs W Hb Hu Hi) as (s1 & E1 & _). now rewrite E1.
Qed.

(** *** the cipher object *)
Definition cbase (alg : Z) (key iv : list Z) : base := mkBase (desmode alg) iv [] (padmode alg) key.
Definition cst (alg mode : Z) (key iv : list Z) (c : cipher) : Prop :=
  c_alg c = alg /\ c_init c = true /\ c_mode c = Some mode
  /\ exists e, c_engine c = Some e /\ ewf key (cbase alg key iv) e.

Lemma rmap_ok {A B} (f : A -> B) r b : rmap f r = Ok b -> exists a, r = Ok a /\ b = f a.
Proof. destruct r; cbn; [intros [= <-]; eauto|discriminate]. Qed.

Lemma init_cst alg k mode bArray bOff c0 c : c_alg c0 = alg ->
  des_init (Some (KDes k)) mode bArray bOff 8 c0 = (Ok tt, c) ->
  exists key v, dk_init k = true /\ dk_key k = Some key /\ (mode = MODE_ENCRYPT \/ mode = MODE_DECRYPT)
    /\ arrayCopy_into bArray bOff 0 8 (py_repeat 0 8) = (Ok tt, v)
    /\ cst alg mode key (map unsigned v) c.
Proof.
  intros Ha. unfold des_init, base_cipher_init. cbn [isInitialized].
  destruct (dk_init k) eqn:Ek; cbn [negb]; [|discriminate].
  destruct ((mode =? MODE_ENCRYPT) || (mode =? MODE_DECRYPT)) eqn:Em; cbn [negb]; [|discriminate].
  unfold bind at 1 2 3. cbn [get put ret fst snd]. change (8 =? 8) with true. cbn [negb].
  pose proof (arrayCopy_into_length bArray bOff 0 8 (py_repeat 0 8)) as Hl.
  destruct (arrayCopy_into _ _ _ _ _) as [[[]|x] v] eqn:E; [|discriminate]. cbn [snd] in Hl. cbv zeta.
  rewrite bind_get. destruct (dk_key k) as [key|] eqn:Ekey; [|discriminate]. cbn [c_alg c_mode].
  intros H. exists key, v. split; [reflexivity|]. split; [reflexivity|]. split; [lia|]. split; [reflexivity|].
  rewrite arrayTobinary_unsigned in H.
  assert (Lv : length (map unsigned v) = 8%nat) by (rewrite map_length; exact Hl).
  assert (T : forall mo, tdes_iv mo key (map unsigned v) = map unsigned v) by (intro; destruct (map unsigned v); [discriminate|reflexivity]).
  destruct (64 =? dk_size k).
  - destruct (rmap EDes _) as [e|] eqn:Ee; [|discriminate]. apply rmap_ok in Ee as (d & Ed & ->).
    rewrite (bind_ok _ _ _ (EDes d) (mkCipher (c_alg c0) (c_init c0) (Some mode) (c_engine c0))) in H by reflexivity.
    unfold put in H. assert (Hc : mkCipher (c_alg c0) true (Some mode) (Some (EDes d)) = c) by congruence. subst c.
    apply des_new_wf in Ed as (W & Hk & _). unfold cst. cbn [c_alg c_init c_mode c_engine]. rewrite Ha in *.
    split; [reflexivity|]. split; [reflexivity|]. split; [reflexivity|]. exists (EDes d). split; [reflexivity|]. split; [exact Hk|exact W].
  - destruct (rmap ETdes _) as [e|] eqn:Ee; [|discriminate]. apply rmap_ok in Ee as (d & Ed & ->).
    rewrite (bind_ok _ _ _ (ETdes d) (mkCipher (c_alg c0) (c_init c0) (Some mode) (c_engine c0))) in H by reflexivity.
    unfold put in H. assert (Hc : mkCipher (c_alg c0) true (Some mode) (Some (ETdes d)) = c) by congruence. subst c.
    apply tdes_new_wf in Ed as (W & Hk & _). unfold cst. cbn [c_alg c_init c_mode c_engine]. rewrite Ha, T in *.
    split; [reflexivity|]. split; [reflexivity|]. split; [reflexivity|]. exists (ETdes d). split; [reflexivity|]. split; [exact Hk|exact W].
Qed.

(** what doFinal does, given the engine's result *)
Lemma doFinal_eq alg mode key iv c e inBuff io il oo out v :
  c_alg c = alg -> c_init c = true -> c_mode c = Some mode -> c_engine c = Some e ->
  ewf key (cbase alg key iv) e ->
  arrayCopy_into inBuff io 0 il (py_repeat 0 il) = (Ok tt, v) ->
  des_doFinal inBuff io il oo (c, out)
  = (let c' := mkCipher alg true (Some mode) (Some (snd (engine_run (mode =? MODE_ENCRYPT) (map unsigned v) e))) in
     match fst (engine_run (mode =? MODE_ENCRYPT) (map unsigned v) e) with
     | Err x => (Err x, (c', out))
     | Ok r => let '(w, out') := arrayCopy_into (binaryToarray r) 0 oo (zlen (binaryToarray r)) out in
               (rmap (fun _ => zlen (binaryToarray r)) w, (c', out'))
     end).
Proof.
  intros H1 H2 H3 H4 W Hv. unfold des_doFinal. rewrite bind_get. rewrite H2. cbn [negb]. rewrite Hv. cbv zeta.
  rewrite H3, H4, arrayTobinary_unsigned, H1.
  destruct (engine_run _ _ e) as [[r|x] e']; cbn [fst snd].
  - rewrite (bind_ok _ _ _ tt (mkCipher alg true (Some mode) (Some e'), out)) by reflexivity.
    rewrite (bind_ok _ _ _ r (mkCipher alg true (Some mode) (Some e'), out)) by reflexivity.
    rewrite bind_get. cbn [fst snd]. clear Hv. destruct (arrayCopy_into _ _ _ _ _) as [w o].
    rewrite (bind_ok _ _ _ tt (mkCipher alg true (Some mode) (Some e'), o)) by reflexivity.
    destruct w as [[]|x]; reflexivity.
  - reflexivity.
Qed.
Lemma cst_call alg mode key iv c k : cst alg mode key iv c -> cst alg mode key iv (cipher_call c k).
Proof.
  intros (H1 & H2 & H3 & e & H4 & W). destruct k as [i io il o oo|i io il o oo]; cbn [cipher_call].
  - unfold cipher_update. rewrite bind_get. cbn [fst]. rewrite H2. cbn [negb ret fst snd]. repeat split; auto. eauto.
  - destruct (arrayCopy_into i io 0 il (py_repeat 0 il)) as [[[]|x] v] eqn:Ev.
    + erewrite doFinal_eq by eassumption. cbv zeta. clear Ev.
      destruct (fst (engine_run _ _ e)) as [r|x]; [destruct (arrayCopy_into _ _ _ _ _) as [w o']|]; cbn [fst snd];
        unfold cst; cbn [c_alg c_init c_mode c_engine];
        (split; [reflexivity|]; split; [reflexivity|]; split; [reflexivity|]; eexists; split; [reflexivity|]; now apply engine_keeps).
    + unfold des_doFinal. rewrite bind_get, H2. cbn [negb]. rewrite Ev. cbn [raise fst snd]. repeat split; auto. eauto.
Qed.
Lemma reach_cst alg k mode bArray bOff c : cipher_reach alg k mode bArray bOff c ->
  exists key v, dk_init k = true /\ dk_key k = Some key /\ (mode = MODE_ENCRYPT \/ mode = MODE_DECRYPT)
    /\ arrayCopy_into bArray bOff 0 8 (py_repeat 0 8) = (Ok tt, v)
    /\ cst alg mode key (map unsigned v) c.
Proof.
  intros (c0 & c1 & h & Ha & Hi & ->). destruct (init_cst _ _ _ _ _ _ _ Ha Hi) as (key & v & A & B & C & D & E).
  exists key, v. repeat (split; [assumption|]). clear Hi. revert c1 E. induction h as [|x h IH]; intros c1 E; [exact E|].
  cbn [fold_left]. apply IH. now apply cst_call.
Qed.

Lemma doFinal_indep alg mode key iv c c' inBuff io il oo out : cst alg mode key iv c -> cst alg mode key iv c' ->
  fst (des_doFinal inBuff io il oo (c, out)) = fst (des_doFinal inBuff io il oo (c', out))
  /\ snd (snd (des_doFinal inBuff io il oo (c, out))) = snd (snd (des_doFinal inBuff io il oo (c', out))).
Proof.
  intros (H1 & H2 & H3 & e & H4 & W) (H1' & H2' & H3' & e' & H4' & W').
  destruct (arrayCopy_into inBuff io 0 il (py_repeat 0 il)) as [[[]|x] v] eqn:Ev.
  - rewrite (doFinal_eq alg mode key iv c e inBuff io il oo out v) by assumption.
    rewrite (doFinal_eq alg mode key iv c' e' inBuff io il oo out v) by assumption. cbv zeta.
    rewrite (engine_indep _ _ key _ e e' W W'). clear Ev.
    destruct (fst (engine_run _ _ e')) as [r|x]; [destruct (arrayCopy_into _ _ _ _ _) as [w o']|]; now split.
  - unfold des_doFinal. rewrite !bind_get, H2, H2'. cbn [negb]. rewrite Ev. now split.
Qed.

Lemma C59_history_pf : forall alg k mode bArray bOff c c' inBuff io il out oo,
  cipher_reach alg k mode bArray bOff c -> cipher_reach alg k mode bArray bOff c' ->
  fst (des_doFinal inBuff io il oo (c, out)) = fst (des_doFinal inBuff io il oo (c', out))
  /\ snd (snd (des_doFinal inBuff io il oo (c, out))) = snd (snd (des_doFinal inBuff io il oo (c', out))).
Proof.
  intros alg k mode bArray bOff c c' inBuff io il out oo H H'.
  apply reach_cst in H as (key & v & _ & Ek & _ & Ev & W). apply reach_cst in H' as (key' & v' & _ & Ek' & _ & Ev' & W').
  assert (key' = key) by congruence. assert (v' = v) by congruence. subst. eapply doFinal_indep; eassumption.
Qed.

(** *** encryption and decryption *)
Lemma desmode_cbc alg : des_alg alg -> (desmode alg =? CBC) = alg_cbc alg.
Proof. unfold des_alg. intros [-> | [-> | [-> | ->]]]; reflexivity. Qed.
Lemma padmode_pkcs5 alg : des_alg alg -> padmode alg = if alg_pkcs5 alg then PAD_PKCS5 else PAD_NORMAL.
Proof. unfold des_alg. intros [-> | [-> | [-> | ->]]]; reflexivity. Qed.
Lemma pkcs5_repeat m : m ++ py_repeat (8 - zlen m mod 8) (8 - zlen m mod 8) = pkcs5 m.
Proof.
  unfold pkcs5, py_repeat. cbv zeta. f_equal. unfold zlen.
  replace (Z.to_nat (8 - Z.of_nat (length m) mod 8)) with (8 - length m mod 8)%nat by lia. f_equal. lia.
Qed.
Lemma pkcs5_length m : length (pkcs5 m) = (8 * (length m / 8 + 1))%nat.
Proof. unfold pkcs5. cbv zeta. rewrite app_length, repeat_length. lia. Qed.
Lemma pkcs5_ubyte m : Forall ubyte m -> Forall ubyte (pkcs5 m).
Proof.
  intros H. unfold pkcs5. cbv zeta. apply Forall_app. split; [exact H|].
  apply Forall_forall. intros x Hx. apply repeat_spec in Hx. unfold ubyte. lia.
Qed.

(** the padded message as blocks *)
Lemma padded_blocks alg m : des_alg alg -> Forall ubyte m -> (alg_pkcs5 alg = false -> zlen m mod 8 = 0) ->
  exists bs, (if alg_pkcs5 alg then pkcs5 m else m) = concat bs /\ blocks bs /\ Forall (Forall ubyte) bs
    /\ 8 * Z.of_nat (length bs) = (if alg_pkcs5 alg then 8 * (zlen m / 8 + 1) else zlen m)
    /\ forall key iv, padData (cbase alg key iv) m [] None = Ok (concat bs).
Proof.
  intros Ha Hu Hl. pose proof (padmode_pkcs5 alg Ha) as Hp. destruct (alg_pkcs5 alg).
  - destruct (split_blocks (length m / 8 + 1) (pkcs5 m)) as (bs & E & Hb & Hbu & Hbl); [apply pkcs5_length|now apply pkcs5_ubyte|].
    exists bs. split; [exact E|]. split; [exact Hb|]. split; [exact Hbu|]. split; [unfold zlen; lia|].
    intros key iv. unfold padData, cbase. cbn [b_padmode nonempty andb]. rewrite Hp. change (PAD_PKCS5 =? PAD_NORMAL) with false.
    change (PAD_PKCS5 =? PAD_PKCS5) with true. cbv iota zeta. now rewrite pkcs5_repeat, E.
  - specialize (Hl eq_refl). destruct (split_blocks (length m / 8) m) as (bs & E & Hb & Hbu & Hbl); [unfold zlen in Hl; lia|exact Hu|].
    exists bs. split; [exact E|]. split; [exact Hb|]. split; [exact Hbu|]. split; [unfold zlen in *; lia|].
    intros key iv. unfold padData, cbase. cbn [b_padmode nonempty andb]. rewrite Hp. change (PAD_NORMAL =? PAD_NORMAL) with true.
    cbv iota zeta. replace (zlen m mod 8 =? 0) with true by lia. now rewrite E.
Qed.
Lemma unpadded alg key iv m : des_alg alg -> (alg_pkcs5 alg = false -> zlen m mod 8 = 0) ->
  unpadData (cbase alg key iv) (if alg_pkcs5 alg then pkcs5 m else m) [] None = Ok m.
Proof.
  intros Ha Hl. pose proof (padmode_pkcs5 alg Ha) as Hp. destruct (alg_pkcs5 alg).
  - rewrite <- pkcs5_repeat. apply pkcs5_unpad; [exact Hp|reflexivity].
  - unfold unpadData. destruct m as [|x m]; [reflexivity|]. cbn [nonempty negb andb]. unfold cbase. cbn [b_padmode b_pad]. rewrite Hp.
    reflexivity.
Qed.
Lemma jc_encrypt_e alg key iv m bs : des_alg alg -> (if alg_pkcs5 alg then pkcs5 m else m) = concat bs -> blocks bs ->
  jc_encrypt alg key iv m = concat (e_enc (desmode alg) key iv bs).
Proof.
  intros Ha E Hb. unfold jc_encrypt. cbv zeta. rewrite E, chunk8_concat by exact Hb. unfold e_enc. now rewrite desmode_cbc.
Qed.

(** *** keys *)
Lemma setKey_key keyData keyOff typ size : In size [64; 128; 192] -> 0 <= keyOff -> keyOff + size / 8 <= zlen keyData ->
  dk_init (snd (setKey keyData keyOff (deskey_new typ size))) = true
  /\ dk_size (snd (setKey keyData keyOff (deskey_new typ size))) = size
  /\ dk_key (snd (setKey keyData keyOff (deskey_new typ size)))
    = Some (map unsigned (sub keyData (Z.to_nat keyOff) (Z.to_nat (size / 8)))).
Proof.
  intros Hs H0 H1. cbn [setKey deskey_new snd dk_init dk_size dk_key]. split; [reflexivity|]. split; [reflexivity|].
  rewrite arrayTobinary_unsigned, py_slice_in by (cbn [In] in Hs; lia).
  do 3 f_equal. lia.
Qed.
Lemma key_length (keyData : list Z) keyOff size : In size [64; 128; 192] -> 0 <= keyOff -> keyOff + size / 8 <= zlen keyData ->
  length (map unsigned (sub keyData (Z.to_nat keyOff) (Z.to_nat (size / 8)))) = Z.to_nat (size / 8).
Proof. intros Hs H0 H1. rewrite map_length. apply sub_length. unfold zlen in *. cbn [In] in Hs. lia. Qed.

(** the state of a cipher initialised with in-range arguments *)
Lemma reach_state alg typ size keyData keyOff bArray bOff mode c :
  In size [64; 128; 192] -> 0 <= keyOff -> keyOff + size / 8 <= zlen keyData -> 0 <= bOff -> bOff + 8 <= zlen bArray ->
  cipher_reach alg (snd (setKey keyData keyOff (deskey_new typ size))) mode bArray bOff c ->
  cst alg mode (map unsigned (sub keyData (Z.to_nat keyOff) (Z.to_nat (size / 8)))) (map unsigned (sub bArray (Z.to_nat bOff) 8)) c
  /\ length (map unsigned (sub bArray (Z.to_nat bOff) 8)) = 8%nat.
Proof.
  intros Hs H0 H1 H2 H3 Hr. apply reach_cst in Hr as (key & v & _ & Ek & _ & Ev & W).
  rewrite (proj2 (proj2 (setKey_key keyData keyOff typ size Hs H0 H1))) in Ek.
  rewrite copy_in in Ev by lia. change (Z.to_nat 8) with 8%nat in Ev.
  assert (v = sub bArray (Z.to_nat bOff) 8) as -> by congruence.
  assert (key = map unsigned (sub keyData (Z.to_nat keyOff) (Z.to_nat (size / 8)))) as -> by congruence.
  split; [exact W|]. rewrite map_length. apply sub_length. unfold zlen in *. lia.
Qed.

Lemma doFinal_enc alg key iv c inBuff io il out oo : des_alg alg -> cst alg MODE_ENCRYPT key iv c ->
  length iv = 8%nat -> Forall ubyte iv -> 0 <= io -> 0 <= il -> io + il <= zlen inBuff -> (alg_pkcs5 alg = false -> il mod 8 = 0) ->
  let m := map unsigned (sub inBuff (Z.to_nat io) (Z.to_nat il)) in
  let e := jc_encrypt alg key iv m in
  (zlen e = if alg_pkcs5 alg then 8 * (il / 8 + 1) else il) /\ Forall ubyte e
  /\ (0 <= oo -> oo + zlen e <= zlen out ->
      exists c', des_doFinal inBuff io il oo (c, out) = (Ok (zlen e), (c', splice out (Z.to_nat oo) (map (twos 1) e)))).
Proof.
  intros Ha (H1 & H2 & H3 & en & H4 & W) Hiv Hivu Hio Hil Hin Hal m e.
  assert (Hm : zlen m = il) by (unfold zlen, m; rewrite map_length, sub_length; unfold zlen in *; lia).
  destruct (padded_blocks alg m Ha (unsigned_ubyte _)) as (bs & E & Hb & Hbu & Hbl & Hpad); [rewrite Hm; exact Hal|].
  assert (HI : iv_ok (desmode alg) iv) by (intro; auto).
  unfold e. rewrite (jc_encrypt_e alg key iv m bs Ha E Hb).
  destruct (e_enc_blocks (desmode alg) key iv bs (ewf_keylen _ _ _ W)) as (B1 & B2 & B3).
  assert (HU : Forall ubyte (concat (e_enc (desmode alg) key iv bs))).
  { clear -B2. induction B2; [constructor|]. cbn [concat]. apply Forall_app. now split. }
  split; [|split; [exact HU|]].
  - rewrite <- Hm, <- Hbl. unfold zlen. rewrite concat_blocks_length by exact B1. rewrite B3. apply (Nat2Z.inj_mul 8).
  - intros Hoo Hout.
    rewrite (doFinal_eq alg MODE_ENCRYPT key iv c en inBuff io il oo out (sub inBuff (Z.to_nat io) (Z.to_nat il)) H1 H2 H3 H4 W (copy_in _ _ _ Hio Hil Hin)).
    cbv zeta. change (MODE_ENCRYPT =? MODE_ENCRYPT) with true. fold m.
    rewrite (engine_enc key (cbase alg key iv) en m bs W (Hpad key iv) Hb HI). cbn [cbase b_mode b_iv].
    rewrite binaryToarray_twos by exact HU.
    rewrite copy_out by (try lia; unfold zlen in *; rewrite map_length; lia).
    eexists. cbn [rmap]. do 2 f_equal. unfold zlen. now rewrite map_length.
Qed.

Lemma doFinal_dec alg key iv c inBuff io il out oo m : des_alg alg -> cst alg MODE_DECRYPT key iv c ->
  length iv = 8%nat -> Forall ubyte iv -> Forall ubyte m -> (alg_pkcs5 alg = false -> zlen m mod 8 = 0) ->
  0 <= io -> 0 <= il -> io + il <= zlen inBuff -> map unsigned (sub inBuff (Z.to_nat io) (Z.to_nat il)) = jc_encrypt alg key iv m ->
  0 <= oo -> oo + zlen m <= zlen out ->
  exists c', des_doFinal inBuff io il oo (c, out) = (Ok (zlen m), (c', splice out (Z.to_nat oo) (map (twos 1) m))).
Proof.
  intros Ha (H1 & H2 & H3 & en & H4 & W) Hiv Hivu Hmu Hal Hio Hil Hin HE Hoo Hout.
  destruct (padded_blocks alg m Ha Hmu Hal) as (bs & E & Hb & Hbu & Hbl & Hpad).
  assert (HI : iv_ok (desmode alg) iv) by (intro; auto).
  rewrite (jc_encrypt_e alg key iv m bs Ha E Hb) in HE.
  pose proof (ewf_keylen _ _ _ W) as HK.
  destruct (e_enc_blocks (desmode alg) key iv bs HK) as (B1 & B2 & B3).
  rewrite (doFinal_eq alg MODE_DECRYPT key iv c en inBuff io il oo out (sub inBuff (Z.to_nat io) (Z.to_nat il)) H1 H2 H3 H4 W (copy_in _ _ _ Hio Hil Hin)).
  cbv zeta. change (MODE_DECRYPT =? MODE_ENCRYPT) with false. rewrite HE.
  rewrite (engine_dec key (cbase alg key iv) en _ W B1 B2 HI). cbn [cbase b_mode b_iv].
  rewrite (e_inv (desmode alg) key iv bs HK Hb Hbu HI), <- E.
  change (mkBase (desmode alg) iv [] (padmode alg) key) with (cbase alg key iv). rewrite (unpadded alg key iv m Ha Hal).
  rewrite binaryToarray_twos by exact Hmu.
  rewrite copy_out by (try lia; unfold zlen in *; rewrite map_length; lia).
  eexists. cbn [rmap]. do 2 f_equal. unfold zlen. now rewrite map_length.
Qed.

Lemma C58_encrypt_pf : forall alg typ size keyData keyOff bArray bOff c inBuff io il out oo,
  des_alg alg -> In size [64; 128; 192] -> 0 <= keyOff -> keyOff + size / 8 <= zlen keyData ->
  0 <= bOff -> bOff + 8 <= zlen bArray ->
  cipher_reach alg (snd (setKey keyData keyOff (deskey_new typ size))) MODE_ENCRYPT bArray bOff c ->
  0 <= io -> 0 <= il -> io + il <= zlen inBuff -> (alg_pkcs5 alg = false -> il mod 8 = 0) ->
  let key := map unsigned (sub keyData (Z.to_nat keyOff) (Z.to_nat (size / 8))) in
  let iv := map unsigned (sub bArray (Z.to_nat bOff) 8) in
  let e := jc_encrypt alg key iv (map unsigned (sub inBuff (Z.to_nat io) (Z.to_nat il))) in
  (zlen e = if alg_pkcs5 alg then 8 * (il / 8 + 1) else il)
  /\ (0 <= oo -> oo + zlen e <= zlen out ->
      exists c', des_doFinal inBuff io il oo (c, out) = (Ok (zlen e), (c', splice out (Z.to_nat oo) (map (twos 1) e)))).
Proof.
  intros alg typ size keyData keyOff bArray bOff c inBuff io il out oo Ha Hs Hk0 Hk1 Hb0 Hb1 Hr Hi0 Hi1 Hi2 Hal key iv e.
  destruct (reach_state _ _ _ _ _ _ _ _ _ Hs Hk0 Hk1 Hb0 Hb1 Hr) as [W Liv]. fold key iv in W, Liv.
  destruct (doFinal_enc alg key iv c inBuff io il out oo Ha W Liv (unsigned_ubyte _) Hi0 Hi1 Hi2 Hal) as (A & _ & B).
  split; [exact A|exact B].
Qed.

Lemma C58_roundtrip_pf : forall alg typ size keyData keyOff bArray bOff c1 c2 inBuff io il out oo out2 oo2,
  des_alg alg -> In size [64; 128; 192] -> 0 <= keyOff -> keyOff + size / 8 <= zlen keyData ->
  0 <= bOff -> bOff + 8 <= zlen bArray ->
  cipher_reach alg (snd (setKey keyData keyOff (deskey_new typ size))) MODE_ENCRYPT bArray bOff c1 ->
  cipher_reach alg (snd (setKey keyData keyOff (deskey_new typ size))) MODE_DECRYPT bArray bOff c2 ->
  0 <= io -> 0 <= il -> io + il <= zlen inBuff -> (alg_pkcs5 alg = false -> il mod 8 = 0) ->
  0 <= oo -> oo + (if alg_pkcs5 alg then 8 * (il / 8 + 1) else il) <= zlen out ->
  0 <= oo2 -> oo2 + il <= zlen out2 ->
  exists n c1' out' c2',
    des_doFinal inBuff io il oo (c1, out) = (Ok n, (c1', out'))
    /\ des_doFinal out' oo n oo2 (c2, out2)
      = (Ok il, (c2', splice out2 (Z.to_nat oo2) (map (twos 1) (sub inBuff (Z.to_nat io) (Z.to_nat il))))).
Proof.
  intros alg typ size keyData keyOff bArray bOff c1 c2 inBuff io il out oo out2 oo2 Ha Hs Hk0 Hk1 Hb0 Hb1 Hr1 Hr2 Hi0 Hi1 Hi2 Hal Ho0 Ho1 Hp0 Hp1.
  destruct (reach_state _ _ _ _ _ _ _ _ _ Hs Hk0 Hk1 Hb0 Hb1 Hr1) as [W1 Liv].
  destruct (reach_state _ _ _ _ _ _ _ _ _ Hs Hk0 Hk1 Hb0 Hb1 Hr2) as [W2 _].
  set (key := map unsigned (sub keyData _ _)) in *. set (iv := map unsigned (sub bArray _ _)) in *.
  set (m := map unsigned (sub inBuff (Z.to_nat io) (Z.to_nat il))).
  assert (Hm : zlen m = il) by (unfold zlen, m; rewrite map_length, sub_length; unfold zlen in *; lia).
  destruct (doFinal_enc alg key iv c1 inBuff io il out oo Ha W1 Liv (unsigned_ubyte _) Hi0 Hi1 Hi2 Hal) as (A & U & B).
  fold m in A, U, B. set (e := jc_encrypt alg key iv m) in *.
  destruct B as (c1' & E1); [exact Ho0|rewrite A; exact Ho1|].
  exists (zlen e), c1', (splice out (Z.to_nat oo) (map (twos 1) e)).
  assert (Le : length (map (twos 1) e) = Z.to_nat (zlen e)) by (rewrite map_length; unfold zlen; lia).
  assert (Lo : (Z.to_nat oo + length (map (twos 1) e) <= length out)%nat) by (rewrite Le; unfold zlen in *; lia).
  destruct (doFinal_dec alg key iv c2 (splice out (Z.to_nat oo) (map (twos 1) e)) oo (zlen e) out2 oo2 m Ha W2 Liv (unsigned_ubyte _)
    (unsigned_ubyte _)) as (c2' & E2); try assumption.
  - rewrite Hm. exact Hal.
  - apply zlen_nonneg.
  - unfold zlen at 2. rewrite splice_length by exact Lo. rewrite A. exact Ho1.
  - rewrite sub_splice by (try exact Lo; symmetry; exact Le). rewrite unsigned_twos. now apply unsigned_id.
  - rewrite Hm. exact Hp1.
  - exists c2'. split; [exact E1|]. rewrite E2, Hm. do 3 f_equal. unfold m. now rewrite twos_unsigned.
Qed.

Lemma C58_constructible_pf : forall alg typ size keyData keyOff bArray bOff mode,
  des_alg alg -> In size [64; 128; 192] -> 0 <= keyOff -> keyOff + size / 8 <= zlen keyData ->
  0 <= bOff -> bOff + 8 <= zlen bArray -> (mode = MODE_ENCRYPT \/ mode = MODE_DECRYPT) ->
  exists c0 c, getInstance2 alg = Ok c0
    /\ des_init (Some (KDes (snd (setKey keyData keyOff (deskey_new typ size))))) mode bArray bOff 8 c0 = (Ok tt, c)
    /\ cipher_reach alg (snd (setKey keyData keyOff (deskey_new typ size))) mode bArray bOff c.
Proof.
  intros alg typ size keyData keyOff bArray bOff mode Ha Hs H0 H1 H2 H3 Hm.
  exists (cipher_new alg).
  assert (G : getInstance2 alg = Ok (cipher_new alg)) by (destruct Ha as [-> | [-> | [-> | ->]]]; reflexivity).
  destruct (setKey_key keyData keyOff typ size Hs H0 H1) as (K1 & K2 & K3).
  pose proof (key_length keyData keyOff size Hs H0 H1) as KL.
  set (k := snd (setKey keyData keyOff (deskey_new typ size))) in *. clearbody k.
  set (key := map unsigned (sub keyData _ _)) in *. clearbody key.
  set (iv := map unsigned (sub bArray (Z.to_nat bOff) 8)).
  assert (Liv : iv = [] \/ length iv = 8%nat) by (right; unfold iv; rewrite map_length; apply sub_length; unfold zlen in *; lia).
  assert (E : exists e, (if 64 =? dk_size k
                      then rmap EDes (des_new key (desmode alg) iv [] (padmode alg))
                      else rmap ETdes (tdes_new key (desmode alg) iv [] (padmode alg))) = Ok e).
  { rewrite K2. destruct (Z.eqb_spec 64 size) as [<-|Hn].
    - destruct (des_new_exists key (desmode alg) iv [] (padmode alg) KL Liv (or_introl eq_refl)) as [d Ed]. rewrite Ed. cbn [rmap]. eauto.
    - destruct (tdes_new_exists key (desmode alg) iv [] (padmode alg)) as [d Ed]; [|exact Liv|now left|rewrite Ed; cbn [rmap]; eauto].
      cbn [In] in Hs. destruct Hs as [<-|[<-|[<-|[]]]]; [congruence|now left|now right]. }
  destruct E as [e Ee]. exists (mkCipher alg true (Some mode) (Some e)). split; [exact G|].
  assert (I : des_init (Some (KDes k)) mode bArray bOff 8 (cipher_new alg) = (Ok tt, mkCipher alg true (Some mode) (Some e))).
  { unfold des_init, base_cipher_init. cbn [isInitialized]. rewrite K1. cbn [negb].
    replace ((mode =? MODE_ENCRYPT) || (mode =? MODE_DECRYPT)) with true by (unfold MODE_ENCRYPT, MODE_DECRYPT in *; lia). cbn [negb].
    unfold bind at 1 2 3. cbn [get put ret fst snd]. change (8 =? 8) with true. cbn [negb].
    rewrite copy_in by lia. cbv zeta. rewrite bind_get, K3. cbn [c_alg c_mode cipher_new]. rewrite arrayTobinary_unsigned.
    change (Z.to_nat 8) with 8%nat. fold iv.
    rewrite (bind_ok _ _ _ e (mkCipher alg false (Some mode) None)); [reflexivity|].
    destruct (64 =? dk_size k); unfold lift; rewrite Ee; reflexivity. }
  split; [exact I|]. exists (cipher_new alg), (mkCipher alg true (Some mode) (Some e)), []. repeat split. exact I.
Qed.

Lemma C60_refuted_pf : forall alg typ size keyData keyOff bArray bOff c in1 io1 il1 inBuff io il out oo oo1,
  des_alg alg -> In size [64; 128; 192] -> 0 <= keyOff -> keyOff + size / 8 <= zlen keyData ->
  0 <= bOff -> bOff + 8 <= zlen bArray ->
  cipher_reach alg (snd (setKey keyData keyOff (deskey_new typ size))) MODE_ENCRYPT bArray bOff c ->
  0 <= io1 -> 8 <= il1 -> io1 + il1 <= zlen in1 -> il1 mod 8 = 0 ->
  0 <= io -> 0 <= il -> io + il <= zlen inBuff -> il mod 8 = 0 ->
  let whole := sub in1 (Z.to_nat io1) (Z.to_nat il1) ++ sub inBuff (Z.to_nat io) (Z.to_nat il) in
  0 <= oo -> oo + il1 + il + 8 <= zlen out ->
  exists n n', cipher_update in1 io1 il1 oo1 (c, out) = (Ok tt, (c, out))
    /\ fst (des_doFinal inBuff io il oo (c, out)) = Ok n
    /\ fst (des_doFinal whole 0 (il1 + il) oo (c, out)) = Ok n'
    /\ n + il1 = n'.
Proof.
  intros alg typ size keyData keyOff bArray bOff c in1 io1 il1 inBuff io il out oo oo1
    Ha Hs Hk0 Hk1 Hb0 Hb1 Hr Hj0 Hj1 Hj2 Hj3 Hi0 Hi1 Hi2 Hi3 whole Ho0 Ho1.
  pose proof (C58_encrypt_pf alg typ size keyData keyOff bArray bOff c inBuff io il out oo Ha Hs Hk0 Hk1 Hb0 Hb1 Hr Hi0 Hi1 Hi2 (fun _ => Hi3)) as (A & B).
  assert (Hw : zlen whole = il1 + il).
  { unfold whole, zlen. rewrite app_length, !sub_length by (unfold zlen in *; lia). lia. }
  pose proof (C58_encrypt_pf alg typ size keyData keyOff bArray bOff c whole 0 (il1 + il) out oo Ha Hs Hk0 Hk1 Hb0 Hb1 Hr) as C.
  destruct C as (A' & B'); [lia|lia|lia|lia|].
  destruct B as (c' & E); [exact Ho0|rewrite A; destruct (alg_pkcs5 alg); lia|].
  destruct B' as (c'' & E'); [exact Ho0|rewrite A'; destruct (alg_pkcs5 alg); lia|].
  rewrite E, E'. eexists. eexists. split; [|split; [reflexivity|split; [reflexivity|]]].
  - apply reach_cst in Hr as (key & v & _ & _ & _ & _ & (_ & Hc & _)). unfold cipher_update. rewrite bind_get. cbn [fst]. now rewrite Hc.
  - rewrite A, A'. destruct (alg_pkcs5 alg); lia.
Qed.

Lemma C60_update_partial_pf : forall c inBuff io il oo out,
  cipher_update inBuff io il oo (c, out) = ((if c_init c then Ok tt else Err (CryptoExc 4)), (c, out)).
Proof. intros c inBuff io il oo out. unfold cipher_update. rewrite bind_get. cbn [fst]. destruct (c_init c); reflexivity. Qed.

(** *** C61 *)

Lemma C61_refuted_pf : forall alg k bArray bOff c c2 k2 arr2 off2 len2,
  cipher_reach alg k MODE_ENCRYPT bArray bOff c -> cipher_reach alg k MODE_DECRYPT bArray bOff c2 ->
  isInitialized k2 = true -> (len2 <> 8 \/ match k2 with KDes _ => False | _ => True end) ->
  exists c', des_init (Some k2) MODE_DECRYPT arr2 off2 len2 c = (Err (CryptoExc 1), c')
    /\ forall inBuff io il out oo,
        fst (des_doFinal inBuff io il oo (c', out)) = fst (des_doFinal inBuff io il oo (c2, out))
        /\ snd (snd (des_doFinal inBuff io il oo (c', out))) = snd (snd (des_doFinal inBuff io il oo (c2, out))).
Proof.
  intros alg k bArray bOff c c2 k2 arr2 off2 len2 H H2 Hk Hbad.
  exists (mkCipher (c_alg c) (c_init c) (Some MODE_DECRYPT) (c_engine c)). split.
  - unfold des_init, base_cipher_init. rewrite Hk. cbn [negb]. change ((MODE_DECRYPT =? MODE_ENCRYPT) || (MODE_DECRYPT =? MODE_DECRYPT)) with true.
    cbn [negb]. unfold bind at 1 2 3. cbn [get put ret fst snd]. destruct k2 as [dk|p|p]; [|reflexivity|reflexivity].
    destruct Hbad as [Hb|[]]. replace (len2 =? 8) with false by lia. reflexivity.
  - intros. apply reach_cst in H as (key & v & _ & Ek & _ & Ev & W). apply reach_cst in H2 as (key' & v' & _ & Ek' & _ & Ev' & W').
    assert (key' = key) by congruence. assert (v' = v) by congruence. subst. eapply doFinal_indep; [|eassumption].
    destruct W as (W1 & W2 & W3 & W4). repeat split; assumption.
Qed.

Lemma C61_partial_pf : forall k mode bArray bOff bLen c e c',
  des_init k mode bArray bOff bLen c = (Err e, c') ->
  (c' = c \/ c' = mkCipher (c_alg c) (c_init c) (Some mode) (c_engine c))
  /\ ((k = None \/ (exists k0, k = Some k0 /\ isInitialized k0 = false) \/ (mode <> 1 /\ mode <> 2)) -> c' = c).
Proof.
  intros k mode bArray bOff bLen c e c'. unfold des_init, base_cipher_init.
  destruct k as [k|]; [|intros [= <- <-]; auto].
  destruct (isInitialized k) eqn:Ek; cbn [negb]; [|intros [= <- <-]; auto].
  destruct ((mode =? MODE_ENCRYPT) || (mode =? MODE_DECRYPT)) eqn:Em; cbn [negb]; [|intros [= <- <-]; auto].
  unfold bind at 1 2 3. cbn [get put ret fst snd].
  set (c1 := mkCipher _ _ _ _).
  intros H. assert (G : c' = c1).
  { destruct k as [dk|p|p]; [|unfold raise in H; congruence|unfold raise in H; congruence].
    destruct (negb (bLen =? 8)); [unfold raise in H; congruence|].
    destruct (arrayCopy_into _ _ _ _ _) as [[[]|x] v]; [|unfold raise in H; congruence]. cbv zeta in H. rewrite bind_get in H.
    destruct (dk_key dk) as [kb|]; [|unfold raise in H; congruence].
    destruct (64 =? dk_size dk).
    - unfold bind, lift in H. destruct (rmap EDes _) as [e'|x]; [unfold put in H; discriminate|congruence].
    - unfold bind, lift in H. destruct (rmap ETdes _) as [e'|x]; [unfold put in H; discriminate|congruence]. }
  split; [now right|]. intros [Hn|[(k0 & Hk0 & Hk1)|Hm]]; [discriminate| |].
  - assert (k0 = k) by congruence. congruence.
  - unfold MODE_ENCRYPT, MODE_DECRYPT in Em. lia.
Qed.

(** *** C62 *)
Lemma crypt_short data s : data <> [] -> zlen data mod 8 <> 0 -> crypt data DECRYPT s = (Err ValueError, s).
Proof.
  intros Hn Hl. unfold crypt. destruct data as [|x data]; [congruence|]. cbn [nonempty negb].
  rewrite bind_get. replace (zlen (x :: data) mod 8 =? 0) with false by lia. reflexivity.
Qed.
Lemma on_k3_short data s : data <> [] -> zlen data mod 8 <> 0 -> exists s', on_k3 (crypt data DECRYPT) s = (Err ValueError, s').
Proof.
  intros Hn Hl. unfold on_k3, on_k1. destruct (t_k3 s); rewrite crypt_short by assumption; eauto.
Qed.
Lemma t_cbc_dec_short key b tail : b_mode b = CBC -> tail <> [] -> (length tail < 8)%nat ->
  forall bs pre fuel v res s, tst key b v v v s -> blocks bs -> Forall (Forall ubyte) bs ->
  (length bs < fuel)%nat -> length v = 8%nat -> Forall ubyte v ->
  exists s', tdes_dec_loop fuel (pre ++ concat bs ++ tail) (zlen pre) res s = (Err ValueError, s').
Proof.
  intros Hm Ht Htl. induction bs as [|c bs IH]; intros pre fuel v res s T Hb Hbu Hf Hv Hvu; (destruct fuel as [|fuel]; [cbn in Hf; lia|]).
  - cbn [concat app tdes_dec_loop].
    assert (Hlt : zlen pre <? zlen (pre ++ tail) = true).
    { rewrite !zlen_app. destruct tail; [congruence|]. rewrite zlen_cons. pose proof (zlen_nonneg tail). lia. }
    rewrite Hlt. cbv zeta.
    replace (py_slice (pre ++ tail) (zlen pre) (zlen pre + 8)) with tail.
    2:{ unfold py_slice, py_clamp. pose proof (zlen_nonneg pre). rewrite zlen_app.
        unfold zlen in *. destruct (Z.ltb_spec (Z.of_nat (length pre)) 0); [lia|]. destruct (Z.ltb_spec (Z.of_nat (length pre) + 8) 0); [lia|].
        cbv zeta. replace (Z.to_nat (Z.min (Z.of_nat (length pre)) (Z.of_nat (length pre) + Z.of_nat (length tail)))) with (length pre) by lia.
        rewrite skipn_app, skipn_all2, Nat.sub_diag by lia. cbn [app skipn]. symmetry. apply firstn_all2. lia. }
    destruct (on_k3_short tail s Ht) as (s' & E); [unfold zlen; destruct tail; [congruence|cbn [length] in *; lia]|].
    exists s'. unfold bind at 1. now rewrite E.
  - inversion Hb as [|? ? Hc H2]; subst. inversion Hbu as [|? ? Hcu Hu2]; subst. cbn [concat tdes_dec_loop].
    rewrite <- (app_assoc c).
    assert (Hlt : zlen pre <? zlen (pre ++ c ++ concat bs ++ tail) = true).
    { rewrite !zlen_app. pose proof (zlen_nonneg (concat bs)). pose proof (zlen_nonneg tail). unfold zlen at 3. lia. }
    rewrite Hlt. cbv zeta. rewrite slice_block by exact Hc.
    destruct (t_k3_does _ _ _ _ _ _ _ _ (does_dec_cbc b (key3 key) v c Hm Hc Hcu Hv Hvu) T) as (s1 & E1 & T1).
    rewrite (bind_ok _ _ _ _ _ E1). destruct (DES_inv_blockP (key3 key) c) as [L1 U1].
    assert (L1' : length (xor_bytes (DES_inv_bytes (key3 key) c) v) = 8%nat) by (rewrite xor_bytes_length; congruence).
    destruct (t_k2_does _ _ _ _ _ _ _ _ (does_enc_cbc b (key2 key) v _ Hm L1' Hv) T1) as (s2 & E2 & T2).
    rewrite (bind_ok _ _ _ _ _ E2). rewrite xor_bytes_twice in * by congruence.
    set (x := DES_bytes (key2 key) (DES_inv_bytes (key3 key) c)) in *.
    destruct (DES_blockP (key2 key) (DES_inv_bytes (key3 key) c)) as [L2 U2]. fold x in L2, U2.
    destruct (t_k1_does _ _ _ _ _ _ _ _ (does_dec_cbc b (key1 key) v x Hm L2 U2 Hv Hvu) T2) as (s3 & E3 & T3).
    rewrite (bind_ok _ _ _ _ _ E3).
    destruct (t_setIV _ _ _ _ _ c _ T3 Hc) as (s4 & E4 & T4).
    rewrite (bind_ok _ _ _ _ _ E4). replace (zlen pre + 8) with (zlen (pre ++ c)) by (rewrite zlen_app; unfold zlen at 2; lia).
    rewrite (app_assoc pre c). apply (IH (pre ++ c) fuel c _ s4 T4 H2); auto. cbn in Hf. lia.
Qed.
Lemma engine_short enc key alg iv e data : ewf key (cbase alg key iv) e -> length iv = 8%nat -> Forall ubyte iv -> Forall ubyte data ->
  zlen data mod 8 <> 0 -> (enc = true -> padmode alg = PAD_NORMAL) ->
  fst (engine_run enc data e) = Err ValueError.
Proof.
  intros W Hiv Hivu Hu Hl Hp. assert (Hn : data <> []) by (intros ->; apply Hl; reflexivity).
  destruct enc.
  - specialize (Hp eq_refl).
    assert (P : padData (cbase alg key iv) data [] None = Err ValueError).
    { unfold padData, cbase. cbn [b_padmode b_pad nonempty andb]. rewrite Hp. change (PAD_NORMAL =? PAD_NORMAL) with true. cbv iota.
      replace (zlen data mod 8 =? 0) with false by lia. reflexivity. }
    destruct e as [d|d]; destruct W as [H W]; cbn [engine_run].
    + unfold des_encrypt. rewrite bind_get, (proj1 W), P. reflexivity.
    + unfold tdes_encrypt. rewrite bind_get, (proj1 W), P. reflexivity.
  - destruct e as [d|d]; destruct W as [H W]; cbn [engine_run].
    + unfold des_decrypt. unfold bind at 1. now rewrite crypt_short.
    + unfold tdes_decrypt. rewrite bind_get, (proj1 W). cbn [cbase b_mode b_iv].
      assert (G : exists s', (if desmode alg =? CBC then keys_setIV iv ;;; tdes_dec_loop (S (length data)) data 0 []
         else data <- on_k3 (crypt data DECRYPT) ;; data <- on_k2 (crypt data ENCRYPT) ;; on_k1 (crypt data DECRYPT)) d = (Err ValueError, s')).
      { destruct (Z.eqb_spec (desmode alg) CBC) as [Em|Em].
        - destruct (twf_tst _ _ _ W) as (v1 & v2 & v3 & T).
          destruct (t_setIV _ _ _ _ _ iv _ T Hiv) as (s1 & E1 & T1). rewrite (bind_ok _ _ _ _ _ E1).
          rewrite <- (firstn_skipn (8 * (length data / 8)) data) in Hu. apply Forall_app in Hu as [Hu1 Hu2].
          destruct (split_blocks (length data / 8) (firstn (8 * (length data / 8)) data)) as (bs & Eb & Hb & Hbu & Hbl); [rewrite firstn_length; lia|exact Hu1|].
          unfold zlen in Hl.
          destruct (t_cbc_dec_short key (cbase alg key iv) (skipn (8 * (length data / 8)) data) Em) with (bs := bs) (pre := @nil Z)
            (fuel := S (length data)) (v := iv) (res := @nil Z) (s := s1) as (s2 & E2); auto.
          + intros E0. apply (f_equal (@length Z)) in E0. rewrite skipn_length in E0. cbn [length] in E0. lia.
          + rewrite skipn_length. lia.
          + change (@length block bs) with (@length (list Z) bs) in *. lia.
          + cbn [app] in E2. rewrite <- Eb, firstn_skipn in E2. change (zlen (@nil Z)) with 0 in E2. eauto.
        - destruct (on_k3_short data d Hn Hl) as (s' & E). exists s'. unfold bind at 1. now rewrite E. }
      destruct G as (s' & E). unfold bind at 1. now rewrite E.
Qed.

Lemma C62_refuted_pf : forall alg typ size keyData keyOff bArray bOff mode c inBuff io il out oo,
  des_alg alg -> In size [64; 128; 192] -> 0 <= keyOff -> keyOff + size / 8 <= zlen keyData ->
  0 <= bOff -> bOff + 8 <= zlen bArray ->
  cipher_reach alg (snd (setKey keyData keyOff (deskey_new typ size))) mode bArray bOff c ->
  0 <= io -> 0 <= il -> io + il <= zlen inBuff -> il mod 8 <> 0 -> (mode = MODE_ENCRYPT -> alg_pkcs5 alg = false) ->
  exists c', des_doFinal inBuff io il oo (c, out) = (Err ValueError, (c', out)).
Proof.
  intros alg typ size keyData keyOff bArray bOff mode c inBuff io il out oo Ha Hs Hk0 Hk1 Hb0 Hb1 Hr Hi0 Hi1 Hi2 Hal Hp.
  destruct (reach_state _ _ _ _ _ _ _ _ _ Hs Hk0 Hk1 Hb0 Hb1 Hr) as [(H1 & H2 & H3 & e & H4 & W) Liv].
  set (key := map unsigned (sub keyData _ _)) in *. set (iv := map unsigned (sub bArray _ _)) in *.
  rewrite (doFinal_eq alg mode key iv c e inBuff io il oo out (sub inBuff (Z.to_nat io) (Z.to_nat il)) H1 H2 H3 H4 W (copy_in _ _ _ Hi0 Hi1 Hi2)).
  cbv zeta. rewrite (engine_short _ key alg iv e _ W Liv (unsigned_ubyte _) (unsigned_ubyte _)); [eauto| |].
  - unfold zlen. rewrite map_length, sub_length by (unfold zlen in *; lia). lia.
  - intros Em. rewrite (padmode_pkcs5 alg Ha), Hp; [reflexivity|lia].
Qed.
