(** * C144: challenge and response: proofs *)
From Verif Require Import Py S_Base S_APDU L_Py M_utils M_util L_utils L_util LP_util M_apdu S_ApduObs L_apdu LP_apdu M_world LP_world S_DES S_Cipher M_des L_des LP_des LP_tdes LP_desx M_key M_cipher LP_cipher M_digest LP_system M_rsaapplet M_pincard LP_pincard M_descard S_DesCard LP_descard LP_purse M_chalcard S_Chal.
From Coq Require Import ZifyBool ZifyNat.
Ltac Zify.zify_post_hook ::= Z.div_mod_to_equations.


(** ** one block *)
Definition nopad (alg : Z) : Prop := alg = 1 \/ alg = 5.
Lemma nopad_alg alg : nopad alg -> des_alg alg /\ alg_pkcs5 alg = false.
Proof. unfold nopad, des_alg. intros [-> | ->]; split; auto. Qed.
Lemma e_back mode key iv bs : keylen key -> blocks bs -> Forall (Forall ubyte) bs -> iv_ok mode iv ->
  e_enc mode key iv (e_dec mode key iv bs) = bs.
Proof.
  intros [H|H] Hb Hu Hi.
  - rewrite e_enc_des, e_dec_des by exact H. now apply mode_enc_dec.
  - rewrite e_enc_tdes, e_dec_tdes by exact H. now apply t_mode_enc_dec.
Qed.
Lemma e_dec_blocks mode key iv bs : keylen key -> blocks bs -> Forall (Forall ubyte) bs -> iv_ok mode iv ->
  blocks (e_dec mode key iv bs).
Proof.
  intros [H|H] B U I; [rewrite e_dec_des by exact H; now apply mode_dec_blocks|rewrite e_dec_tdes by exact H; now apply t_mode_dec_blocks].
Qed.
Lemma jc_back alg key d : nopad alg -> keylen key -> Forall ubyte d -> length d = 8%nat ->
  let p := jc_decrypt alg key (repeat 0 8) d in
  Forall ubyte p /\ length p = 8%nat /\ jc_encrypt alg key (repeat 0 8) p = d.
Proof.
  intros Hn HK Hu Hl p. destruct (nopad_alg alg Hn) as [Ha Hp].
  destruct (split_blocks 1 d) as (bs & E & Hb & Hbu & Hbl); [lia|exact Hu|].
  assert (HI : iv_ok (desmode alg) (repeat 0 8)) by (intros _; split; [reflexivity|repeat constructor; lia]).
  destruct (e_dec_ok (desmode alg) key (repeat 0 8) bs HK Hb Hbu HI) as [P1 P2].
  assert (J : p = concat (e_dec (desmode alg) key (repeat 0 8) bs)).
  { unfold p, jc_decrypt. cbv zeta. rewrite E, chunk8_concat by exact Hb. unfold e_dec. now rewrite desmode_cbc. }
  rewrite J. split; [exact P1|]. split.
  - clear -P2 Hbl. unfold zlen, block in *. lia.
  - rewrite (jc_encrypt_e alg key (repeat 0 8) _ (e_dec (desmode alg) key (repeat 0 8) bs) Ha); [|now rewrite Hp|now apply e_dec_blocks].
    rewrite e_back by auto. now symmetry.
Qed.
Lemma jc_fore alg key r : nopad alg -> keylen key -> Forall ubyte r -> length r = 8%nat ->
  jc_decrypt alg key (repeat 0 8) (jc_encrypt alg key (repeat 0 8) r) = r /\ length (jc_encrypt alg key (repeat 0 8) r) = 8%nat.
Proof.
  intros Hn HK Hu Hl. destruct (nopad_alg alg Hn) as [Ha Hp].
  destruct (jc_roundtrip alg key r Ha HK Hu) as [A B]; [unfold zlen; rewrite Hl; reflexivity|].
  unfold jc_encrypt. cbv zeta. rewrite Hp. split; [exact B|]. unfold zlen in A. lia.
Qed.
Lemma right_iff alg key r d : nopad alg -> keylen key -> Forall ubyte r -> length r = 8%nat -> Forall ubyte d -> length d = 8%nat ->
  right alg key r d = list_eqb (jc_decrypt alg key (repeat 0 8) d) r.
Proof.
  intros Hn HK Ur Lr Ud Ld. unfold right. destruct (jc_back alg key d Hn HK Ud Ld) as (Up & Lp & Ep). destruct (jc_fore alg key r Hn HK Ur Lr) as [Er _].
  destruct (list_eqb (jc_decrypt alg key (repeat 0 8) d) r) eqn:E.
  - apply list_eqb_eq in E. rewrite <- E, Ep. apply list_eqb_refl.
  - apply list_eqb_neq in E. apply list_eqb_neq. intros F. apply E. now rewrite F.
Qed.

(** ** signed and unsigned bytes *)
Lemma s1_twos l : Forall ubyte l -> map s1 l = map (twos 1) l.
Proof.
  induction 1 as [|x l Hx Hl IH]; [reflexivity|]. cbn [map]. rewrite IH. f_equal. destruct (s1_of_mod x) as [_ E]. rewrite <- E. f_equal. unfold ubyte in Hx. lia.
Qed.
Lemma twos_inj l l' : Forall ubyte l -> Forall ubyte l' -> map (twos 1) l = map (twos 1) l' -> l = l'.
Proof. intros H H' E. apply (f_equal (map unsigned)) in E. now rewrite !unsigned_twos, !unsigned_id in E by assumption. Qed.
Lemma twos_small p : forall r, Forall ubyte p -> Forall ubyte r -> (map (twos 1) p = r <-> forallb (fun b => b <? 128) r = true /\ p = r).
Proof.
  induction p as [|x p IH]; intros [|y r] Hp Hr; cbn [map forallb]; try (split; [discriminate|intros [_ E]; discriminate]); [tauto|].
  inversion Hp; subst. inversion Hr; subst. specialize (IH r ltac:(assumption) ltac:(assumption)).
  assert (X : twos 1 x = y <-> y < 128 /\ x = y) by (rewrite twos1; unfold ubyte in *; destruct (x mod 256 <? 128) eqn:E; lia).
  split.
  - intros E. injection E as E1 E2. apply IH in E2 as [E2 ->]. apply X in E1 as [E1 ->]. rewrite E2. split; [|reflexivity]. lia.
  - intros [E1 E2]. injection E2 as -> ->. apply andb_prop in E1 as [E1 E3]. f_equal; [apply X; lia|apply IH; auto].
Qed.

(** ** the card *)
Definition shape (fix_ : bool) (r : list Z) : list Z := if fix_ then map s1 r else r.
Definition opens (fix_ : bool) (alg : Z) (key r d : list Z) : bool :=
  (fix_ || forallb (fun b => b <? 128) r) && right alg key r d.
Definition cinv (fix_ : bool) (alg size : Z) (key : list Z) (s : door) (card : ccard) : Prop :=
  c_alg (cc_cipher card) = alg /\ cc_key card = mkDesKey 3 size true (Some key) /\ length (cc_chal card) = 8%nat
  /\ cc_open card = d_open s
  /\ match d_chal s with
     | Some r => cc_fresh card = true /\ cc_chal card = shape fix_ r /\ Forall ubyte r /\ length r = 8%nat
     | None => cc_fresh card = false
     end.

Lemma shape_length f r : length (shape f r) = length r.
Proof. destruct f; [apply map_length|reflexivity]. Qed.
Lemma shape_eq f p r : Forall ubyte p -> Forall ubyte r -> (map (twos 1) p = shape f r <-> (f || forallb (fun b => b <? 128) r) = true /\ p = r).
Proof.
  intros Hp Hr. destruct f; cbn [shape orb].
  - rewrite s1_twos by exact Hr. split; [intros E; split; [reflexivity|now apply twos_inj]|intros [_ ->]; reflexivity].
  - now apply twos_small.
Qed.
Lemma unsigned_shape f r : Forall ubyte r -> map unsigned (shape f r) = r.
Proof. intros H. destruct f; cbn [shape]; [rewrite s1_twos by exact H; rewrite unsigned_twos|]; now apply unsigned_id. Qed.

Lemma send_exact {C} (c : C) s data : length (buf s) = 257%nat -> st s < 3 -> zlen data <= 200 ->
  exists s', send_data data (c, s) = (if match Ne s with Some n => n <? zlen data | None => false end then Err (APDUExc BAD_LENGTH) else Ok tt, (c, s'))
  /\ (match Ne s with Some n => n <? zlen data | None => false end = false -> py_slice (raw s') 0 (outlen s') = data).
Proof.
  intros Lb Hst Ld. unfold send_data. rewrite bind_get. cbn [fst snd].
  rewrite copy_out by (unfold OFFSET_CDATA, zlen in *; lia). change (Z.to_nat OFFSET_CDATA) with 5%nat. set (b := splice (buf s) 5 data).
  rewrite (bind_ok _ _ _ tt (c, with_buf b s)) by reflexivity.
  rewrite (bind_ok _ _ _ tt (c, with_buf b s)) by reflexivity.
  assert (Lbb : length b = 257%nat) by (unfold b; rewrite splice_length; [exact Lb|unfold zlen in Ld; lia]).
  destruct (send_crypted (with_buf b s) data) as (s' & E & F); cbn [buf with_buf st];
    [unfold zlen; lia|exact Hst|exact Ld|unfold b; apply sub_splice; [reflexivity|unfold zlen in Ld; lia]|].
  cbn [buf with_buf Ne] in E, F. exists s'. split; [|exact F]. unfold with_apdu. cbn [fst snd]. change OFFSET_CDATA with 5. rewrite E. reflexivity.
Qed.

Lemma draw rnd ch : length rnd = 8%nat -> length ch = 8%nat -> generateData (fun i => nth i rnd 0) 0 8 ch = (Ok tt, rnd).
Proof.
  intros Lr Lc. rewrite (proj1 (C75_partial_pf (fun i => nth i rnd 0) ch 0 8)) by (unfold zlen; lia). f_equal. change (Z.to_nat 0) with 0%nat. change (Z.to_nat 8) with 8%nat.
  assert (E : map (fun i => nth i rnd 0) (seq 0 8) = rnd).
  { do 8 (destruct rnd as [|? rnd]; [discriminate|]). destruct rnd; [reflexivity|discriminate]. }
  rewrite E. apply splice_all. lia.
Qed.

Lemma challenge_exact f alg size key d card s rnd : cinv f alg size key d card -> Forall ubyte rnd -> length rnd = 8%nat ->
  length (buf s) = 257%nat -> st s < 3 ->
  exists card' s', ccard_challenge f (fun i => nth i rnd 0) (card, s)
    = (if match Ne s with Some n => n <? 8 | None => false end then Err (APDUExc BAD_LENGTH) else Ok tt, (card', s'))
  /\ (match Ne s with Some n => n <? 8 | None => false end = false -> py_slice (raw s') 0 (outlen s') = shape f rnd)
  /\ cinv f alg size key (mkDoor (Some rnd) (d_open d)) card'.
Proof.
  intros (C1 & C2 & C3 & C4 & C5) Ur Lr Lb Hst. unfold ccard_challenge. rewrite bind_get. cbn [fst snd]. cbv zeta.
  rewrite draw by assumption.
  set (k := mkCC (cc_key card) (cc_cipher card) rnd (cc_fresh card) (cc_open card)).
  rewrite (bind_ok _ _ _ tt (k, s)) by reflexivity. rewrite (bind_ok _ _ _ tt (k, s)) by reflexivity.
  fold (shape f rnd). set (k' := mkCC (cc_key card) (cc_cipher card) (shape f rnd) true (cc_open card)).
  rewrite (bind_ok _ _ _ tt (k', s)) by reflexivity.
  assert (Z8 : zlen (shape f rnd) = 8) by (unfold zlen; rewrite shape_length; lia).
  destruct (send_exact k' s (shape f rnd) Lb Hst ltac:(lia)) as (s' & E & F). rewrite Z8 in E, F. exists k', s'. split; [exact E|]. split; [exact F|].
  split; [exact C1|]. split; [exact C2|]. split; [cbn; rewrite shape_length; exact Lr|]. split; [exact C4|]. cbn. auto.
Qed.

Lemma authenticate_exact f alg size key d card s data : nopad alg -> In size [64; 128; 192] -> zlen key = size / 8 -> cinv f alg size key d card ->
  Forall ubyte data -> length data = 8%nat -> length (buf s) = 257%nat -> sub (buf s) 5 8 = data ->
  exists card' s', outlen s' = outlen s /\ ccard_authenticate (card, s)
    = (match d_chal d with
       | None => Err (ISOExc SW_CONDITIONS_NOT_SATISFIED)
       | Some r => if opens f alg key r data then Ok tt else Err (ISOExc SW_AUTHENTICATION_FAILED)
       end, (card', s'))
  /\ cinv f alg size key (mkDoor None (match d_chal d with Some r => opens f alg key r data | None => false end)) card'.
Proof.
  intros Hn Hsz Hk (C1 & C2 & C3 & C4 & C5) Ud Ld Lb Hs. destruct (nopad_alg alg Hn) as [Ha Hp].
  pose proof (size_keylen key size Hsz Hk) as HK.
  unfold ccard_authenticate. rewrite bind_get. cbn [fst snd]. cbv zeta.
  rewrite (bind_ok _ _ _ tt (mkCC (cc_key card) (cc_cipher card) (cc_chal card) false false, s)) by reflexivity.
  destruct (d_chal d) as [r|].
  2:{ rewrite C5. cbn [negb]. do 2 eexists. split; [|split; [reflexivity|]]; [reflexivity|].
      split; [exact C1|]. split; [exact C2|]. split; [exact C3|]. split; reflexivity. }
  destruct C5 as (C5 & C6 & Ur & Lr). rewrite C5. cbn [negb]. rewrite C2.
  destruct (init_des alg size (mkDesKey 3 size true (Some key)) key MODE_DECRYPT (cc_cipher card) Ha Hsz C1 eq_refl eq_refl eq_refl Hk ltac:(left; reflexivity)) as (c1 & E1 & W).
  rewrite E1.
  rewrite (bind_ok _ _ _ tt (mkCC (mkDesKey 3 size true (Some key)) c1 (cc_chal card) false false, s)) by reflexivity.
  rewrite (bind_ok _ _ _ tt (mkCC (mkDesKey 3 size true (Some key)) c1 (cc_chal card) false false, s)) by reflexivity.
  destruct (doFinal_crypt alg MODE_DECRYPT key c1 (buf s) OFFSET_CDATA 8 (buf s) OFFSET_CDATA Ha W ltac:(left; reflexivity)) as (c2 & A2 & D);
    try (unfold OFFSET_CDATA, zlen; lia).
  change (Z.to_nat OFFSET_CDATA) with 5%nat in D. change (Z.to_nat 8) with 8%nat in D. rewrite Hs, unsigned_id in D by exact Ud.
  assert (CR : crypted cut5 alg key MODE_DECRYPT data = Some (jc_decrypt alg key (repeat 0 8) data)).
  { unfold crypted. change (MODE_DECRYPT =? 2) with false. change (MODE_DECRYPT =? 1) with true. cbv iota zeta. rewrite Hp.
    replace (zlen data) with 8 by (unfold zlen; lia). reflexivity. }
  rewrite CR in D. destruct D as (Up & _ & D). destruct (jc_back alg key data Hn HK Ud Ld) as (_ & Lp & _).
  pose proof (right_iff alg key r data Hn HK Ur Lr Ud Ld) as RI. clear CR. set (p := jc_decrypt alg key (repeat 0 8) data) in *. clearbody p.
  change OFFSET_CDATA with 5 in *. rewrite D. set (b := splice (buf s) 5 (map (twos 1) p)).
  rewrite (bind_ok _ _ _ tt (mkCC (mkDesKey 3 size true (Some key)) c2 (cc_chal card) false false, with_buf b s)) by reflexivity.
  rewrite (bind_ok _ _ _ (zlen p) (mkCC (mkDesKey 3 size true (Some key)) c2 (cc_chal card) false false, with_buf b s)) by reflexivity.
  assert (Lbb : length b = 257%nat) by (unfold b; rewrite splice_length; [exact Lb|rewrite map_length; lia]).
  destruct (C07_arrayCompare_pf b 5 (cc_chal card) 0 8) as (x & Ex & _ & X0 & _); try (unfold zlen; lia).
  change (Z.to_nat 5) with 5%nat in X0. change (Z.to_nat 8) with 8%nat in X0. change (Z.to_nat 0) with 0%nat in X0.
  assert (SB : sub b 5 8 = map (twos 1) p) by (unfold b; apply sub_splice; rewrite map_length; lia).
  rewrite SB, (sub_full (cc_chal card)) in X0 by lia. rewrite C6, (shape_eq f p r Up Ur) in X0. rewrite C6 in *.
  rewrite (bind_ok _ _ _ x (mkCC (mkDesKey 3 size true (Some key)) c2 (shape f r) false false, with_buf b s)) by (unfold lift; now rewrite Ex).
  unfold opens. rewrite RI.
  assert (Q : (x =? 0) = ((f || forallb (fun b => b <? 128) r) && list_eqb p r)).
  { destruct (x =? 0) eqn:E0.
    - apply Z.eqb_eq in E0. apply X0 in E0 as [E0 ->]. rewrite E0. symmetry. apply list_eqb_refl.
    - symmetry. apply not_true_is_false. intros F. apply andb_prop in F as [F1 F2]. apply list_eqb_eq in F2.
      assert (x = 0) by (apply X0; auto). lia. }
  rewrite <- Q. destruct (x =? 0).
  - do 2 eexists. split; [|split; [reflexivity|]]; [reflexivity|]. split; [exact A2|]. split; [reflexivity|]. split; [cbn; exact C3|]. split; reflexivity.
  - do 2 eexists. split; [|split; [reflexivity|]]; [reflexivity|]. split; [exact A2|]. split; [reflexivity|]. split; [cbn; exact C3|]. split; reflexivity.
Qed.

Lemma step_exact f alg size key secret d card q rnd : nopad alg -> In size [64; 128; 192] -> zlen key = size / 8 ->
  Forall ubyte secret -> zlen secret <= 128 -> cinv f alg size key d card -> drawn (q, rnd) ->
  exists r card' d', ccard_answer f secret (bytes_of q) rnd card = (r, card')
    /\ chal_step (opens f alg key) secret q rnd d = (reply r, d') /\ cinv f alg size key d' card'.
Proof.
  intros Hn Hsz Hk Us Ls HI ((U1 & U2 & U3 & U4 & Hw & Hs) & Ur & Lr). cbn [fst snd] in *. unfold bytes_of, ccard_answer, chal_step. cbv zeta.
  destruct (receive_des (q_cla q) (q_ins q) (q_p1 q) (q_p2 q) (q_body q) U1 U2 U3 U4 Hw Hs) as (s & Q & Gi & Gp & HN & Hr).
  destruct (receive_hdr _ _ _ _ _ s U1 U2 U3 U4 Hw Hs Q) as (G3 & S0 & N0 & L0 & O0). rewrite Q.
  unfold ccard_process. rewrite bind_get. cbn [snd fst].
  rewrite (bind_ok _ _ _ (q_ins q) (card, s)) by (unfold lift; now rewrite Gi).
  change 0x84 with 132. change 0x82 with 130. change 0xB0 with 176. unfold getIncomingLength. rewrite HN.
  destruct (q_ins q =? 132).
  { destruct (challenge_exact f alg size key d card s rnd HI Ur Lr L0 ltac:(lia)) as (card' & s' & E & F & HI'). rewrite E. rewrite N0 in *.
    unfold with_data. replace (zlen rnd) with 8 by (unfold zlen; lia).
    destruct (match command_le (q_body q) with Some n => n <? 8 | None => false end).
    - do 3 eexists. split; [reflexivity|]. split; [reflexivity|exact HI'].
    - rewrite (F eq_refl). do 3 eexists. split; [reflexivity|]. split; [|exact HI']. cbn [reply]. now rewrite map_app, unsigned_shape by exact Ur. }
  destruct (q_ins q =? 130).
  { destruct (zlen (command_data (q_body q)) =? 8) eqn:E8; cbn [negb].
    2:{ do 3 eexists. split; [reflexivity|]. split; [reflexivity|exact HI]. }
    destruct Hr as (s' & Er & O & Lb & Hst & HNe & Hsub); [lia|]. destruct Hw as [Hd _]. set (data := command_data (q_body q)) in *.
    rewrite (bind_ok _ _ _ (zlen data) (card, s')) by (unfold with_apdu; cbn [snd fst]; now rewrite Er).
    assert (Ld : length data = 8%nat) by (unfold zlen in E8; lia). rewrite Ld in Hsub.
    destruct (authenticate_exact f alg size key d card s' data Hn Hsz Hk HI Hd Ld Lb Hsub) as (card' & s2 & O2 & E & HI'). rewrite E.
    destruct (d_chal d) as [r|].
    - destruct (opens f alg key r data).
      + rewrite O2, O, py_slice_00. do 3 eexists. split; [reflexivity|]. split; [reflexivity|exact HI'].
      + do 3 eexists. split; [reflexivity|]. split; [reflexivity|exact HI'].
    - do 3 eexists. split; [reflexivity|]. split; [reflexivity|exact HI']. }
  destruct (q_ins q =? 176).
  2:{ do 3 eexists. split; [reflexivity|]. split; [reflexivity|exact HI]. }
  pose proof HI as (_ & _ & _ & C4 & _). rewrite C4. destruct (d_open d).
  2:{ do 3 eexists. split; [reflexivity|]. split; [reflexivity|exact HI]. }
  destruct (send_exact card s secret L0 ltac:(lia) ltac:(lia)) as (s' & E & F). rewrite E. rewrite N0 in *. unfold with_data.
  destruct (match command_le (q_body q) with Some n => n <? zlen secret | None => false end).
  - do 3 eexists. split; [reflexivity|]. split; [reflexivity|exact HI].
  - rewrite (F eq_refl). do 3 eexists. split; [reflexivity|]. split; [|exact HI]. cbn [reply]. now rewrite map_app, unsigned_id by exact Us.
Qed.
Lemma install_cinv f alg size key card : nopad alg -> In size [64; 128; 192] -> zlen key = size / 8 -> Forall ubyte key ->
  ccard_install alg size key = Ok card -> cinv f alg size key (mkDoor None false) card.
Proof.
  intros Hn Hs Hk Hu. unfold ccard_install. cbn [rbind buildKey].
  assert (G : getInstance2 alg = Ok (cipher_new alg)) by (destruct Hn as [-> | ->]; reflexivity).
  rewrite G. cbn [rbind]. change (buildKey TYPE_DES size) with (Ok (Some (KDes (deskey_new 3 size)))). cbn [rbind]. unfold setKey. cbn [dk_type dk_size deskey_new].
  rewrite arrayTobinary_unsigned, py_slice_in by (unfold zlen in *; cbn [In] in Hs; lia).
  replace (Z.to_nat (0 + size / 8 - 0)) with (length key) by (unfold zlen in Hk; lia). change (Z.to_nat 0) with 0%nat. rewrite sub_full by lia. rewrite unsigned_id by exact Hu.
  intros E. apply Ok_inj in E. subst card. repeat split.
Qed.
Lemma chal_exact f alg size key secret h : nopad alg -> In size [64; 128; 192] -> zlen key = size / 8 -> Forall ubyte secret -> zlen secret <= 128 ->
  Forall drawn h -> forall d card, cinv f alg size key d card -> ccard_replies f secret h card = chal_run (opens f alg key) secret h d.
Proof.
  intros Hn Hs Hk Us Ls. unfold ccard_replies. induction 1 as [|[q rnd] h Hq Hh IH]; intros d card HI; [reflexivity|]. cbn [map ccard_run chal_run fst snd].
  destruct (step_exact f alg size key secret d card q rnd Hn Hs Hk Us Ls HI Hq) as (r & card' & d' & -> & -> & HI'). specialize (IH d' card' HI').
  destruct (ccard_run f secret _ card') as [rs c]. cbn [fst map] in *. now rewrite IH.
Qed.

Lemma C144_exact_partial_pf : forall alg size key secret card h,
  chal_card alg size key secret card -> Forall drawn h ->
  ccard_replies false secret h card
  = chal_run (fun r d => forallb (fun b => b <? 128) r && right alg key r d) secret h (mkDoor None false).
Proof.
  intros alg size key secret card h (Hn & Hs & Hk & Uk & Us & Ls & Hi) Hh.
  exact (chal_exact false alg size key secret h Hn Hs Hk Us ltac:(lia) Hh _ _ (install_cinv false alg size key card Hn Hs Hk Uk Hi)).
Qed.

Lemma C144_fixed_pf : forall alg size key secret card h,
  chal_card alg size key secret card -> Forall drawn h ->
  ccard_replies true secret h card = chal_run (right alg key) secret h (mkDoor None false).
Proof.
  intros alg size key secret card h (Hn & Hs & Hk & Uk & Us & Ls & Hi) Hh.
  exact (chal_exact true alg size key secret h Hn Hs Hk Us ltac:(lia) Hh _ _ (install_cinv true alg size key card Hn Hs Hk Uk Hi)).
Qed.

Lemma replies_opens f alg size key secret card h : chal_card alg size key secret card -> Forall drawn h ->
  ccard_replies f secret h card = chal_run (opens f alg key) secret h (mkDoor None false).
Proof. intros Hc Hh. destruct f; [exact (C144_fixed_pf _ _ _ _ _ _ Hc Hh)|exact (C144_exact_partial_pf _ _ _ _ _ _ Hc Hh)]. Qed.

Fixpoint chal_end (accepts : list Z -> list Z -> bool) (secret : list Z) (h : list (request * list Z)) (s : door) : door :=
  match h with [] => s | (q, rnd) :: h' => chal_end accepts secret h' (snd (chal_step accepts secret q rnd s)) end.
Lemma chal_end_app a secret h h' : forall s, chal_end a secret (h ++ h') s = chal_end a secret h' (chal_end a secret h s).
Proof. induction h as [|[q rnd] h IH]; intro s; [reflexivity|]. cbn [app chal_end]. apply IH. Qed.
Lemma chal_run_last a secret q rnd h : forall s,
  chal_run a secret (h ++ [(q, rnd)]) s = chal_run a secret h s ++ [fst (chal_step a secret q rnd (chal_end a secret h s))].
Proof.
  induction h as [|[x rx] h IH]; intros s; cbn [app chal_run chal_end].
  - destruct (chal_step a secret q rnd s); reflexivity.
  - destruct (chal_step a secret x rx s) as [r s']. cbn [snd app]. now rewrite IH.
Qed.

Definition quiet (e : request * list Z) : Prop := ~ asks_challenge (fst e) /\ ~ authenticates (fst e).
Lemma trace_exact a secret h :
  (forall r, d_chal (chal_end a secret h (mkDoor None false)) = Some r ->
     exists h1 qc h2, h = h1 ++ (qc, r) :: h2 /\ asks_challenge qc /\ Forall quiet h2)
  /\ (d_open (chal_end a secret h (mkDoor None false)) = true ->
     exists h1 qc r h2 qa ra h3, h = h1 ++ (qc, r) :: h2 ++ (qa, ra) :: h3 /\ asks_challenge qc /\ authenticates qa
       /\ a r (command_data (q_body qa)) = true /\ Forall quiet h2 /\ Forall (fun e => ~ authenticates (fst e)) h3).
Proof.
  induction h as [|[q rnd] h [IH1 IH2]] using rev_ind; [split; [intros r E|intros E]; discriminate|].
  rewrite chal_end_app. cbn [chal_end]. set (s := chal_end a secret h (mkDoor None false)) in *. clearbody s. unfold chal_step. cbv zeta.
  destruct (Z.eqb_spec (q_ins q) 132) as [Ei|Ei]; change 0x84 with 132.
  { destruct (Z.eqb_spec (q_ins q) 132) as [_|N]; [|contradiction]. cbn [snd d_chal d_open]. split.
    - intros r E. injection E as <-. exists h, q, []. repeat split; auto.
    - intros E. destruct (IH2 E) as (h1 & qc & r & h2 & qa & ra & h3 & -> & A1 & A2 & A3 & A4 & A5).
      exists h1, qc, r, h2, qa, ra, (h3 ++ [(q, rnd)]). rewrite <- app_assoc. cbn [app]. rewrite <- app_assoc. cbn [app].
      repeat split; auto; try apply A2. apply Forall_app. split; [exact A5|]. constructor; [|constructor]. cbn. intros [B _]. lia. }
  replace (q_ins q =? 132) with false by lia.
  assert (NC : ~ asks_challenge q) by (unfold asks_challenge; lia).
  assert (KEEP : ~ authenticates q ->
    (forall r, d_chal s = Some r -> exists h1 qc h2, h ++ [(q, rnd)] = h1 ++ (qc, r) :: h2 /\ asks_challenge qc /\ Forall quiet h2)
    /\ (d_open s = true -> exists h1 qc r h2 qa ra h3, h ++ [(q, rnd)] = h1 ++ (qc, r) :: h2 ++ (qa, ra) :: h3 /\ asks_challenge qc /\ authenticates qa
       /\ a r (command_data (q_body qa)) = true /\ Forall quiet h2 /\ Forall (fun e => ~ authenticates (fst e)) h3)).
  { intros NA. split.
    - intros r E. destruct (IH1 r E) as (h1 & qc & h2 & -> & A1 & A2). exists h1, qc, (h2 ++ [(q, rnd)]). rewrite <- app_assoc. cbn [app].
      repeat split; auto. apply Forall_app. split; [exact A2|]. constructor; [split; assumption|constructor].
    - intros E. destruct (IH2 E) as (h1 & qc & r & h2 & qa & ra & h3 & -> & A1 & A2 & A3 & A4 & A5).
      exists h1, qc, r, h2, qa, ra, (h3 ++ [(q, rnd)]). rewrite <- app_assoc. cbn [app]. rewrite <- app_assoc. cbn [app].
      repeat split; auto; try apply A2. apply Forall_app. split; [exact A5|]. constructor; [exact NA|constructor]. }
  change 0x82 with 130. destruct (Z.eqb_spec (q_ins q) 130) as [Ea|Ea].
  - destruct (Z.eqb_spec (zlen (command_data (q_body q))) 8) as [E8|E8]; cbn [negb].
    2:{ cbn [snd]. apply KEEP. intros [_ B]. contradiction. }
    destruct (d_chal s) as [r|].
    2:{ cbn [snd d_chal d_open]. split; [intros ? E|intros E]; discriminate. }
    destruct (a r (command_data (q_body q))) eqn:Er; cbn [snd d_chal d_open]; (split; [intros ? E; discriminate|]); [|discriminate].
    intros _. destruct (IH1 r eq_refl) as (h1 & qc & h2 & -> & A1 & A2).
    exists h1, qc, r, h2, q, rnd, []. rewrite <- app_assoc. cbn [app]. repeat split; auto.
  - assert (NA : ~ authenticates q) by (unfold authenticates; change 0x82 with 130; intros [B _]; contradiction).
    destruct (q_ins q =? 0xB0); cbn [snd]; apply KEEP; exact NA.
Qed.

Lemma C144_sound_pf : forall fix_ alg size key secret card h q rnd,
  chal_card alg size key secret card -> Forall drawn (h ++ [(q, rnd)]) -> reads q ->
  ccard_replies fix_ secret (h ++ [(q, rnd)]) card = ccard_replies fix_ secret h card ++ [Some (secret ++ [0x90; 0])] ->
  exists h1 qc r h2 qa ra h3, h = h1 ++ (qc, r) :: h2 ++ (qa, ra) :: h3
  /\ asks_challenge qc /\ authenticates qa /\ command_data (q_body qa) = jc_encrypt alg key (repeat 0 8) r
  /\ Forall (fun e => ~ asks_challenge (fst e) /\ ~ authenticates (fst e)) h2 /\ Forall (fun e => ~ authenticates (fst e)) h3.
Proof.
  intros f alg size key secret card h q rnd Hc Hh Hq E. pose proof Hh as Hh'. apply Forall_app in Hh' as [Hh' _].
  rewrite !(replies_opens f alg size key secret card) in E by assumption. rewrite chal_run_last in E.
  apply app_inv_head in E. injection E as E.
  destruct (trace_exact (opens f alg key) secret h) as [_ T]. set (s := chal_end (opens f alg key) secret h (mkDoor None false)) in *.
  assert (O : d_open s = true).
  { unfold chal_step in E. cbv zeta in E. unfold reads in Hq. rewrite Hq in E. change (0xB0 =? 0x84) with false in E. change (0xB0 =? 0x82) with false in E.
    change (0xB0 =? 0xB0) with true in E. cbn [fst] in E. destruct (d_open s); [reflexivity|]. destruct Hc as (_ & _ & _ & _ & _ & Ls & _).
    apply (f_equal (fun o => match o with Some l => length l | None => 0%nat end)) in E. rewrite app_length in E. cbn [length] in E. unfold zlen in Ls. lia. }
  destruct (T O) as (h1 & qc & r & h2 & qa & ra & h3 & -> & A1 & A2 & A3 & A4 & A5).
  exists h1, qc, r, h2, qa, ra, h3. repeat split; auto; try apply A2. unfold opens in A3. apply andb_prop in A3 as [_ A3]. now apply list_eqb_eq.
Qed.

Lemma C144_once_pf : forall fix_ alg size key secret card h1 q1 r1 h2 q2 r2,
  chal_card alg size key secret card -> Forall drawn (h1 ++ (q1, r1) :: h2 ++ [(q2, r2)]) ->
  authenticates q1 -> authenticates q2 -> Forall (fun e => ~ asks_challenge (fst e)) h2 ->
  ccard_replies fix_ secret (h1 ++ (q1, r1) :: h2 ++ [(q2, r2)]) card
  = ccard_replies fix_ secret (h1 ++ (q1, r1) :: h2) card ++ [Some [0x69; 0x85]].
Proof.
  intros f alg size key secret card h1 q1 r1 h2 q2 r2 Hc Hh A1 A2 H2.
  change (h1 ++ (q1, r1) :: h2 ++ [(q2, r2)]) with (h1 ++ ((q1, r1) :: h2) ++ [(q2, r2)]) in *. rewrite app_assoc in *.
  pose proof Hh as Hh'. apply Forall_app in Hh' as [Hh' _].
  rewrite !(replies_opens f alg size key secret card) by assumption. rewrite chal_run_last. f_equal. f_equal.
  set (a := opens f alg key).
  assert (AU : forall q rnd s, authenticates q -> d_chal (snd (chal_step a secret q rnd s)) = None).
  { intros q rnd s [B1 B2]. unfold chal_step. cbv zeta. rewrite B1, B2. change (0x82 =? 0x84) with false. change (0x82 =? 0x82) with true. change (8 =? 8) with true.
    cbn [negb]. destruct (d_chal s); [|reflexivity]. destruct (a _ _); reflexivity. }
  assert (ST : forall h s, Forall (fun e => ~ asks_challenge (fst e)) h -> d_chal s = None -> d_chal (chal_end a secret h s) = None).
  { induction h as [|[q rnd] h IH]; intros s F N; [exact N|]. inversion F as [|? ? F1 F2]; subst. cbn [chal_end]. apply IH; [exact F2|].
    cbn [fst] in F1. unfold asks_challenge in F1. unfold chal_step. cbv zeta. replace (q_ins q =? 0x84) with false by lia.
    destruct (q_ins q =? 0x82); [|destruct (q_ins q =? 0xB0); exact N]. destruct (negb _); [exact N|]. rewrite N. reflexivity. }
  assert (N : d_chal (chal_end a secret (h1 ++ (q1, r1) :: h2) (mkDoor None false)) = None).
  { rewrite chal_end_app. cbn [chal_end]. apply ST; [exact H2|]. apply AU, A1. }
  destruct A2 as [B1 B2]. unfold chal_step. cbv zeta. rewrite B1, B2, N. reflexivity.
Qed.

Lemma C144_refused_refuted_pf : forall alg size key secret card qc r qa ra,
  chal_card alg size key secret card -> Forall drawn [(qc, r); (qa, ra)] ->
  asks_challenge qc -> authenticates qa -> command_data (q_body qa) = jc_encrypt alg key (repeat 0 8) r ->
  Exists (fun b => 128 <= b) r ->
  ccard_replies false secret [(qc, r); (qa, ra)] card = [with_data qc r; Some [0x63; 0]].
Proof.
  intros alg size key secret card qc r qa ra Hc Hh A1 [A2 A3] A4 Hx. rewrite (C144_exact_partial_pf alg size key secret card _ Hc Hh). cbn [chal_run].
  unfold chal_step. cbv zeta. unfold asks_challenge in A1. rewrite A1, A2, A3. change (0x84 =? 0x84) with true. change (0x82 =? 0x84) with false.
  change (0x82 =? 0x82) with true. change (8 =? 8) with true. cbn [negb d_chal].
  assert (F : forallb (fun b => b <? 128) r = false).
  { clear -Hx. induction Hx as [x l H|x l H IH]; cbn [forallb]; [replace (x <? 128) with false by lia; reflexivity|rewrite IH; apply andb_false_r]. }
  rewrite F. reflexivity.
Qed.

Lemma C144_full_refuted_pf : ~ C144_full.
Proof.
  intros H. set (key := [1; 2; 3; 4; 5; 6; 7; 8]). set (r := [200; 0; 0; 0; 0; 0; 0; 0]).
  let v := eval vm_compute in (jc_encrypt 5 key (repeat 0 8) r) in
  let h := constr:([(mkReq 0 0x84 0 0 (Case2S 8), r); (mkReq 0 0x82 0 0 (Case3S v), r)]) in
  assert (D : Forall drawn h); [|destruct (ccard_install 5 64 key) as [card|] eqn:E; [|discriminate];
    specialize (H 5 64 key [1] card h)].
  { repeat constructor; cbn; unfold ubyte; lia. }
  assert (C : chal_card 5 64 key [1] card).
  { split; [now right|]. split; [now left|]. split; [reflexivity|]. split; [repeat constructor; lia|]. split; [repeat constructor; lia|]. split; [cbn; lia|exact E]. }
  specialize (H C D). vm_compute in E. apply Ok_inj in E. subst card. vm_compute in H. discriminate.
Qed.
