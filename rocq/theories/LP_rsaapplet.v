(** * C108: the RSA example applet: proofs *)
From Verif Require Import Py S_Base S_Number S_Key L_Py M_utils L_utils M_util L_util M_apdu L_apdu S_APDU LP_apdu M_world M_key LP_keys M_des M_cipher LP_cipher S_RSA LP_rsa M_rsaapplet S_RsaApplet.
From Coq Require Import ZifyBool ZifyNat.
Ltac Zify.zify_post_hook ::= Z.div_mod_to_equations.

(** ** the card *)
Definition card_of (r : rsa) (c : cipher) : rsacard :=
  mkCard (mkPub 1024 true (Some (longToArray (r_e r))) (Some (longToArray (r_n r))) (Some r))
         (mkPriv 1024 true (Some (longToArray (r_e r))) (Some (longToArray (r_d r))) (Some r)) c.

Lemma C108_install_pf : forall X,
  rsa_install X = if pc_avail X
                  then match pc_generate X 1024 with
                       | Ok r => Ok (mkCard (mkPub 1024 true (Some (longToArray (r_e r))) (Some (longToArray (r_n r))) (Some r))
                                            (mkPriv 1024 true (Some (longToArray (r_e r))) (Some (longToArray (r_d r))) (Some r))
                                            (mkCipher 10 false None None))
                       | Err e => Err e
                       end
                  else Err (CryptoExc 3).
Proof.
  intros X. unfold rsa_install, keypair_new, genKeyPair. cbn. unfold pyCryptogenKeyPair, bind, get, lift. cbn.
  destruct (pc_avail X); [|reflexivity]. cbn. destruct (pc_generate X 1024) as [r|e]; reflexivity.
Qed.

Lemma rsa_init_pub r c : c_alg c = 10 -> forall mode, mode = 1 \/ mode = 2 ->
  rsa_init (Some (KPub (cd_pub (card_of r c)))) mode c = (Ok tt, mkCipher 10 true (Some mode) (c_engine c))
  /\ rsa_init (Some (KPriv (cd_priv (card_of r c)))) mode c = (Ok tt, mkCipher 10 true (Some mode) (c_engine c)).
Proof. intros <- mode [->| ->]; split; reflexivity. Qed.

Lemma rsa_init_alg k mode c : c_alg (snd (rsa_init k mode c)) = c_alg c.
Proof. apply C91_init_pf. Qed.

Lemma bind_alg {A B} (m : M (cipher * apdu) A) (f : A -> M (cipher * apdu) B) al :
  (forall s, c_alg (fst s) = al -> c_alg (fst (snd (m s))) = al) ->
  (forall a s, c_alg (fst s) = al -> c_alg (fst (snd (f a s))) = al) ->
  forall s, c_alg (fst s) = al -> c_alg (fst (snd (bind m f s))) = al.
Proof. intros Hm Hf s H. unfold bind. specialize (Hm s H). destruct (m s) as [[a|e] s']; cbn in *; auto. Qed.
Lemma on_apdu_alg {A} (m : M apdu A) al s : c_alg (fst s) = al -> c_alg (fst (snd (on_apdu m s))) = al.
Proof. unfold on_apdu. destruct (m (snd s)). auto. Qed.
Lemma on_cipher_init_alg k mode al s : c_alg (fst s) = al -> c_alg (fst (snd (on_cipher (rsa_init k mode) s))) = al.
Proof. unfold on_cipher. pose proof (rsa_init_alg k mode (fst s)) as H. destruct (rsa_init k mode (fst s)). cbn in *. congruence. Qed.

Lemma command_alg X rnd k mode al s : c_alg (fst s) = al -> c_alg (fst (snd (rsa_command X rnd k mode s))) = al.
Proof.
  revert s. unfold rsa_command. apply bind_alg; [intros; now apply on_apdu_alg|]. intros n.
  apply bind_alg; [intros; now apply on_cipher_init_alg|]. intros _.
  intros s H. unfold bind at 1, get.
  destruct (rsa_doFinal X rnd (fst s) k (buf (snd s)) OFFSET_CDATA n OFFSET_CDATA (buf (snd s))) as [r b].
  unfold bind at 1, put.
  assert (H' : c_alg (fst (fst s, with_buf b (snd s))) = al) by exact H. revert H'. generalize (fst s, with_buf b (snd s)). clear s H.
  apply bind_alg; [auto|]. intros t. apply bind_alg; [intros; now apply on_apdu_alg|]. intros _.
  apply bind_alg; [intros; now apply on_apdu_alg|]. intros _.
  intros s H. unfold bind, get. now apply on_apdu_alg.
Qed.

Lemma respond_card X rnd sel command r c : c_alg c = 10 ->
  exists c', c_alg c' = 10 /\ snd (rsa_respond X rnd sel command (card_of r c)) = card_of r c'.
Proof.
  intros H. unfold rsa_respond. destruct (newAPDU command) as [a|e]; [|exists c; auto].
  assert (P : c_alg (fst (snd (rsa_process X rnd (card_of r c) sel (cd_cipher (card_of r c), a)))) = 10).
  { cbn [card_of cd_cipher]. assert (H0 : c_alg (fst (c, a)) = 10) by exact H. revert H0. generalize (c, a).
    unfold rsa_process. destruct sel as [[|]|]; auto. intros s0 H0. unfold bind at 1, get. revert s0 H0.
    intros s0 H0. unfold bind at 1, lift. destruct (py_get (buf (snd s0)) OFFSET_CLA); [|exact H0].
    destruct (negb (_ =? 0)); [exact H0|]. unfold bind at 1. destruct (py_get (buf (snd s0)) OFFSET_INS); [|exact H0].
    destruct (negb (_ =? 170)); [exact H0|].
    match goal with |- context [match ?m with _ => _ end] => assert (Q : c_alg (fst (snd m)) = 10) end.
    { unfold bind, lift. destruct (py_get (buf (snd s0)) OFFSET_P1) as [p1|]; [|exact H0].
      destruct (p1 =? 1); [unfold encryptRSA; cbn; now apply command_alg|].
      destruct (p1 =? 2); [unfold decryptRSA; now apply command_alg|exact H0]. }
    match goal with |- context [match ?m with _ => _ end] => destruct m as [[u|[]] s1] end; exact Q. }
  destruct (rsa_process X rnd (card_of r c) sel (cd_cipher (card_of r c), a)) as [x [c' a']]. cbn [fst snd] in *.
  exists c'. auto.
Qed.

Lemma serving_card X r card : serving X r card -> pc_avail X = true /\ exists c, c_alg c = 10 /\ card = card_of r c.
Proof.
  intros (G & card0 & h & I & ->). rewrite C108_install_pf, G in I. destruct (pc_avail X); [|discriminate].
  split; [reflexivity|]. apply Ok_inj in I. assert (Q : exists c, c_alg c = 10 /\ card0 = card_of r c) by (exists (mkCipher 10 false None None); split; [reflexivity|rewrite <- I; reflexivity]).
  clear I G. revert card0 Q. induction h as [|[[rnd sel] command] h IH]; intros card0 Q; [exact Q|]. cbn [fold_left]. apply IH.
  destruct Q as (c & H & ->). destruct (respond_card X rnd sel command r c H) as (c' & H' & E). eauto.
Qed.

(** ** commands *)
Lemma map_mod l : Forall ubyte l -> map (fun b => b mod 256) l = l.
Proof. induction 1 as [|x l H _ IH]; [reflexivity|]. cbn [map]. rewrite IH. f_equal. unfold ubyte in H. lia. Qed.
Lemma anybytes l : Forall ubyte l -> Forall anybyte l.
Proof. intro H. eapply Forall_impl; [|exact H]. unfold ubyte, anybyte. intros; lia. Qed.

Lemma cmd_recv cla ins p1 p2 d le : wf_cmd cla ins p1 p2 d le ->
  exists a, newAPDU (cmd cla ins p1 p2 d le) = Ok a
    /\ py_get (buf a) 0 = Ok cla /\ py_get (buf a) 1 = Ok ins /\ py_get (buf a) 2 = Ok p1
    /\ outlen a = 0
    /\ exists b o x, setIncomingAndReceive a = (Ok (Z.min 128 (zlen d)), with_in b o x a)
      /\ zlen b = 257 /\ x < 3 /\ Ne a = Some le /\ raw a = cmd cla ins p1 p2 d le
      /\ sub b 5 (Z.to_nat (Z.min 128 (zlen d))) = firstn (Z.to_nat (Z.min 128 (zlen d))) d.
Proof.
  intros (U1 & U2 & U3 & U4 & Ud & Ld & Hle). set (raw := cmd cla ins p1 p2 d le).
  assert (Hw : wf_command (Case4S d le)) by (split; [exact Ud|unfold zlen in Ld; cbn; lia]).
  assert (He : encodes raw (Case4S d le)).
  { assert (F : Forall ubyte raw).
    { unfold raw, cmd. cbn [app]. repeat (constructor; [assumption|]). constructor; [unfold ubyte; lia|].
      apply Forall_app. split; [exact Ud|]. constructor; [|constructor]. unfold ubyte. lia. }
    split; [now apply anybytes|]. exists cla, ins, p1, p2. rewrite map_mod by exact F. reflexivity. }
  destruct (short_exact raw _ Hw eq_refl He) as (ty & ll & Q & Hcd & Hll). cbn [command_data command_le] in *.
  exists (mk_apdu raw false 5 ty (zlen d) (Some le) ll). split; [exact Q|].
  assert (Dn : d <> []) by (intros ->; cbn in Ld; lia). destruct (Hcd Dn) as [P1 P2].
  assert (LR : zlen raw = 6 + zlen d). { unfold raw, cmd. rewrite !zlen_app. change (zlen [cla; ins; p1; p2; zlen d]) with 5. change (zlen [le mod 256]) with 1. lia. }
  assert (IL : length (initbuf raw) = 257%nat) by (apply initbuf_length; lia).
  assert (IB : initbuf raw = [cla; ins; p1; p2; zlen d] ++ repeat 0 252).
  { unfold initbuf. rewrite P1. reflexivity. }
  assert (G : forall i, 0 <= i < 5 -> py_get (initbuf raw) i = Ok (nth (Z.to_nat i) [cla; ins; p1; p2; zlen d] 0)).
  { intros i Hi. rewrite (py_get_in _ _ 0) by (unfold zlen; lia). f_equal. rewrite IB, app_nth1 by (cbn [length]; lia). reflexivity. }
  split; [apply G; lia|]. split; [apply G; lia|]. split; [apply G; lia|]. split; [reflexivity|].
  unfold setIncomingAndReceive, bind, get. cbn [st mk_apdu broken STATE_INITIAL Z.eqb negb].
  rewrite (receive_block_ok _ _ (Z.min 128 (zlen d))); cbn [M_apdu.raw offin lelength buf mk_apdu]; try lia; try (unfold IN_BLOCKSIZE; lia).
  2:{ unfold zlen at 2. rewrite IL. lia. }
  do 3 eexists. split; [reflexivity|]. rewrite P1. change (Z.to_nat 5) with 5%nat.
  set (n := Z.to_nat (Z.min 128 (zlen d))).
  assert (SR : sub raw 5 n = firstn n d).
  { unfold raw, cmd, sub. cbn [app skipn]. rewrite firstn_app. replace (n - length d)%nat with 0%nat by (unfold n, zlen; lia).
    cbn [firstn]. apply app_nil_r. }
  assert (LF : length (firstn n d) = n) by (rewrite firstn_length; unfold n, zlen; lia).
  rewrite SR. split; [|split; [unfold STATE_FULL_INCOMING, STATE_PARTIAL_INCOMING; destruct (_ =? _); lia|]].
  - unfold zlen. rewrite splice_length; [lia|]. rewrite LF, IL. unfold n; lia.
  - repeat split. clearbody n. pose proof (sub_splice_same (initbuf raw) 5 (firstn n d) ltac:(lia)) as SS. now rewrite LF in SS.
Qed.

(** ** sending what doFinal wrote *)
Lemma slice_set_front (l ct : list Z) : py_slice (py_slice_set l 0 (zlen ct) ct) 0 (zlen ct) = ct.
Proof.
  pose proof (zlen_nonneg ct). pose proof (zlen_nonneg l).
  assert (E : exists t, py_slice_set l 0 (zlen ct) ct = ct ++ t).
  { unfold py_slice_set, py_clamp. cbn [Z.ltb Z.compare]. rewrite (Z.min_l 0) by lia. change (Z.to_nat 0) with 0%nat. cbn [firstn app]. eauto. }
  destruct E as [t ->]. pose proof (zlen_nonneg t). rewrite py_slice_in by (rewrite ?zlen_app; lia). unfold sub. rewrite Z.sub_0_r. cbn [skipn Z.to_nat].
  replace (Z.to_nat (zlen ct)) with (length ct) by (unfold zlen; lia). rewrite firstn_app, Nat.sub_diag, firstn_all. cbn [firstn]. apply app_nil_r.
Qed.

Lemma send_back s ct le : zlen (buf s) = 257 -> st s < 3 -> Ne s = Some le -> zlen ct <= 128 -> sub (buf s) 5 (length ct) = ct ->
  exists s', (setOutgoing ;;; setOutgoingLength (zlen ct) ;;; sendBytesLong (buf s) 5 (zlen ct)) s
  = (if zlen ct <=? le then Ok tt else Err (APDUExc 0), s')
  /\ (zlen ct <= le -> outlen s' = zlen ct /\ py_slice (raw s') 0 (zlen ct) = ct).
Proof.
  intros Lb Hx N Lc Hs. pose proof (zlen_nonneg ct).
  unfold setOutgoing, setOutgoingLength, bind, get, raise, put, ret. unfold STATE_OUTGOING.
  replace (3 <=? st s) with false by lia. cbn [st with_out Ne Z.ltb Z.compare Pos.compare Pos.compare_cont].
  unfold getOutgoingLength. rewrite N.
  destruct (Z.leb_spec (zlen ct) le) as [L|L]; [replace (le <? zlen ct) with false by lia|replace (le <? zlen ct) with true by lia].
  2:{ eexists. split; [reflexivity|lia]. }
  unfold sendBytesLong, send_block, bind, get, raise, put. cbn [st with_out curout buf M_apdu.raw outlen].
  unfold STATE_PARTIAL_OUTGOING, STATE_OUTGOING_LENGTH_KNOWN, OUT_BLOCKSIZE. cbn [Z.ltb Z.compare Pos.compare Pos.compare_cont andb].
  cbn [st with_out curout buf M_apdu.raw outlen]. replace (256 <? 0 + zlen ct) with false by lia. rewrite !Z.add_0_l.
  eexists. split; [reflexivity|]. intros _. cbn [outlen with_out M_apdu.raw]. split; [reflexivity|].
  rewrite (py_slice_in (buf s) 5 (5 + zlen ct)) by lia. replace (Z.to_nat (5 + zlen ct - 5)) with (length ct) by (unfold zlen; lia). change (Z.to_nat 5) with 5%nat. rewrite Hs.
  apply slice_set_front.
Qed.

(** what the card answers to an encrypting or decrypting command, given what doFinal does *)
Lemma command_answer X rnd k mode c c' cla ins p1 p2 d le a out :
  wf_cmd cla ins p1 p2 d le -> newAPDU (cmd cla ins p1 p2 d le) = Ok a ->
  rsa_init (Some k) mode c = (Ok tt, c') ->
  (forall b, zlen b = 257 -> sub b 5 (Z.to_nat (Z.min 128 (zlen d))) = firstn (Z.to_nat (Z.min 128 (zlen d))) d ->
     match out with
     | Ok ct => zlen ct <= 128 /\ rsa_doFinal X rnd c' k b 5 (Z.min 128 (zlen d)) 5 b = (Ok (zlen ct), splice b 5 ct)
     | Err e => rsa_doFinal X rnd c' k b 5 (Z.min 128 (zlen d)) 5 b = (Err e, b)
     end) ->
  exists s', rsa_command X rnd k mode (c, a)
    = (match out with Ok ct => if zlen ct <=? le then Ok tt else Err (APDUExc 0) | Err e => Err e end, (c', s'))
    /\ forall ct, out = Ok ct -> zlen ct <= le -> py_slice (raw s') 0 (outlen s') = ct.
Proof.
  intros W Ea Ei HF. destruct (cmd_recv _ _ _ _ _ _ W) as (a' & Ea' & _ & _ & _ & _ & b & o & x & ER & Lb & Hx & N & _ & Sb).
  rewrite Ea in Ea'. apply Ok_inj in Ea'. subst a'. specialize (HF b Lb Sb).
  unfold rsa_command. unfold bind at 1, on_apdu at 1. cbn [snd fst]. rewrite ER. unfold bind at 1, on_cipher at 1. cbn [fst snd]. rewrite Ei.
  unfold bind at 1, get at 1. cbn [fst snd buf with_in]. change OFFSET_CDATA with 5. destruct out as [ct|e].
  - destruct HF as [Lc HF]. rewrite HF. unfold bind at 1, put. unfold bind at 1, lift. cbn [fst snd].
    assert (L5 : (5 <= length b)%nat) by (unfold zlen in Lb; lia).
    destruct (send_back (with_buf (splice b 5 ct) (with_in b o x a)) ct le) as (s' & E & Q); auto.
    + cbn [buf with_buf]. unfold zlen in *. rewrite splice_length by lia. lia.
    + cbn [buf with_buf]. apply (sub_splice_same b 5). exact L5.
    + revert E. unfold bind, on_apdu, get. cbn [fst snd].
      destruct (setOutgoing (with_buf (splice b 5 ct) (with_in b o x a))) as [[u|e1] s1] eqn:E1;
        [|intros E; exists s'; split; [congruence|]; destruct (zlen ct <=? le) eqn:B; [discriminate|intros ct' Q' L'; injection Q' as <-; lia]].
      cbn [fst snd]. destruct (setOutgoingLength (zlen ct) s1) as [[v|e1] s2] eqn:E2;
        [|intros E; exists s'; split; [congruence|]; destruct (zlen ct <=? le) eqn:B; [discriminate|intros ct' Q' L'; injection Q' as <-; lia]].
      cbn [fst snd]. assert (B2 : buf s2 = splice b 5 ct).
      { revert E1 E2. unfold setOutgoing, setOutgoingLength, bind, get, raise, put, ret.
        destruct (STATE_OUTGOING <=? _); [discriminate|]. intros E1. injection E1 as _ <-.
        repeat match goal with |- context [if ?c then _ else _] => destruct c; try discriminate end. intros E2. injection E2 as _ <-. reflexivity. }
      rewrite B2. cbn [buf with_buf]. intros E. rewrite E. exists s'. split; [reflexivity|].
      intros ct' Q' L'. injection Q' as <-. destruct (Q L') as [-> Q2]. exact Q2.
  - rewrite HF. unfold bind at 1, put. unfold bind at 1, lift. eexists. split; [reflexivity|]. discriminate.
Qed.

Lemma process_command X rnd r c p2 p1 d le a : wf_cmd 0 170 p1 p2 d le -> newAPDU (cmd 0 170 p1 p2 d le) = Ok a -> p1 = 1 \/ p1 = 2 ->
  rsa_process X rnd (card_of r c) (Some false) (c, a)
  = match (if p1 =? 1 then rsa_command X rnd (KPub (cd_pub (card_of r c))) 2 else rsa_command X [] (KPriv (cd_priv (card_of r c))) 1) (c, a) with
    | (Err KeyError, s) => (Err (ISOExc SW_WRONG_P1P2), s)
    | q => q
    end.
Proof.
  intros W Ea P. destruct (cmd_recv _ _ _ _ _ _ W) as (a' & Ea' & G0 & G1 & G2 & _). rewrite Ea in Ea'. apply Ok_inj in Ea'. subst a'.
  unfold rsa_process. unfold bind at 1, get. cbn [snd]. unfold OFFSET_CLA, OFFSET_INS, OFFSET_P1.
  unfold bind at 1, lift. rewrite G0. cbn [Z.eqb negb]. unfold bind at 1. rewrite G1. cbn [Z.eqb Pos.eqb negb]. unfold bind at 1. rewrite G2.
  destruct P as [->| ->]; reflexivity.
Qed.

(** ** what the cipher does on the buffer *)
Lemma enc_final X rnd k r c b m : rsa_ready 10 k 2 c -> the_rsa k = Ok r -> getSize k = 1024 ->
  zlen b = 257 -> sub b 5 (length m) = m ->
  rsa_doFinal X rnd c k b 5 (zlen m) 5 b
  = match EME_enc rnd 1024 m with
    | Err e => (Err e, b)
    | Ok block =>
        if zlen block =? 128 then
          match pc_encrypt X r (le_value block) with
          | Ok y => (arrayCopy_into (longToArray y) 0 5 (zlen (longToArray y)) ;;; ret (zlen (longToArray y))) b
          | Err e => (Err e, b)
          end
        else (Err (CryptoExc 1), b)
    end.
Proof.
  intros Hc Hr Hs Lb Hm. destruct (ready_inv _ _ _ _ Hc) as (Ha & Hi & Hmo & _). pose proof (zlen_nonneg m).
  assert (Lm : 5 + zlen m <= zlen b).
  { assert (Q : length (sub b 5 (length m)) = length m) by now rewrite Hm. unfold sub in Q. rewrite firstn_length, skipn_length in Q.
    unfold zlen in *. lia. }
  unfold rsa_doFinal. rewrite Hi, Hmo, Ha, Hs. cbn [negb]. rewrite copy_in by lia.
  replace (Z.to_nat (zlen m)) with (length m) by (unfold zlen; lia). change (Z.to_nat 5) with 5%nat. rewrite Hm.
  change ((10 =? ALG_RSA_PKCS1) && (2 =? MODE_ENCRYPT)) with true. cbv iota. unfold bind at 1, lift at 1.
  destruct (EME_enc rnd 1024 m) as [block|e]; [|reflexivity]. change (1024 / 8) with 128.
  destruct (zlen block =? 128); [|reflexivity]. cbn [negb]. rewrite Hr. unfold bind at 1, lift at 1.
  change (2 =? MODE_ENCRYPT) with true. cbv iota. rewrite arrayTolong_le. unfold bind at 1, lift at 1.
  destruct (pc_encrypt X r (le_value block)) as [y|e]; [|reflexivity]. cbv zeta.
  change ((10 =? ALG_RSA_PKCS1) && (2 =? MODE_DECRYPT)) with false. cbv iota. reflexivity.
Qed.

Lemma shortest_len B n : Forall ubyte B -> (B <> [] -> last B 0 <> 0) -> 0 <= n -> le_value B < 256 ^ n -> zlen B <= n.
Proof.
  intros F L Hn V. destruct (Z_le_gt_dec (zlen B) n) as [|G]; [assumption|exfalso].
  destruct B as [|x0 B0] eqn:E; [cbn in G; lia|]. rewrite <- E in *. assert (Q : B <> []) by congruence.
  destruct (exists_last Q) as (B1 & y & EB). specialize (L Q). rewrite EB in *. rewrite last_last in L.
  apply Forall_app in F. destruct F as [F1 F2]. inversion F2 as [|? ? Hy _]; subst. unfold ubyte in Hy.
  assert (P : 256 ^ (zlen B1) <= le_value (B1 ++ [y])).
  { clear - F1 Hy L. induction F1 as [|a l Ha _ IH]; cbn [app].
    - rewrite le_value_cons. change (le_value []) with 0. change (zlen []) with 0. cbn. lia.
    - rewrite le_value_cons, zlen_cons. unfold ubyte in Ha. pose proof (zlen_nonneg l). rewrite Z.pow_add_r by lia. change (256 ^ 1) with 256. lia. }
  rewrite zlen_app in G. change (zlen [y]) with 1 in G.
  pose proof (Z.pow_le_mono_r 256 n (zlen B1) ltac:(lia) ltac:(lia)). lia.
Qed.

(** ** C108 *)

Lemma C108_encrypt_partial_pf : forall X r card rnd m p2 le,
  serving X r card -> supplies rnd 125 -> wf_cmd 0 170 1 p2 m le -> zlen m <= 117 ->
  exists block, pkcs1_block m block /\ zlen block = 128
    /\ (forall y, pc_encrypt X r (le_value block) = Ok y -> 0 <= y < 256 ^ 128 ->
        exists ct, le_value ct = y / 16 /\ Forall ubyte ct /\ zlen ct <= 128
          /\ fst (rsa_respond X rnd (Some false) (cmd 0 170 1 p2 m le) card)
             = if zlen ct <=? le then Ok (ct ++ [144; 0]) else Err (APDUExc 0))
    /\ (forall e, pc_encrypt X r (le_value block) = Err e -> e <> KeyError -> (forall sw, e <> ISOExc sw) ->
        fst (rsa_respond X rnd (Some false) (cmd 0 170 1 p2 m le) card) = Err e).
Proof.
  intros X r card rnd m p2 le HS (HR1 & HR2) W Lm. destruct (serving_card _ _ _ HS) as (_ & c & Hc & ->).
  pose proof W as (_ & _ & _ & _ & Um & L1 & Hle).
  destruct (C69_total_pf rnd 1024 m) as [T _]. change (1024 / 8) with 128 in T.
  destruct T as [block EB]; [lia|lia|]. destruct (C69_roundtrip_pf rnd 1024 m block HR1 EB) as (LB & PB & _).
  change (1024 / 8) with 128 in LB. exists block. split; [exact PB|]. split; [exact LB|].
  destruct (cmd_recv _ _ _ _ _ _ W) as (a & Ea & _).
  destruct (rsa_init_pub r c Hc 2 ltac:(auto)) as [I1 _]. set (c' := mkCipher 10 true (Some 2) (c_engine c)) in *.
  assert (RD : rsa_ready 10 (KPub (cd_pub (card_of r c))) 2 c') by (exists c; auto).
  assert (FN : firstn (Z.to_nat (zlen m)) m = m) by (unfold zlen; rewrite Nat2Z.id; apply firstn_all).
  assert (Lz : Z.to_nat (zlen m) = length m) by (unfold zlen; lia).
  assert (EF : forall b, zlen b = 257 -> sub b 5 (Z.to_nat (zlen m)) = firstn (Z.to_nat (zlen m)) m ->
    rsa_doFinal X rnd c' (KPub (cd_pub (card_of r c))) b 5 (zlen m) 5 b
    = match pc_encrypt X r (le_value block) with
      | Ok y => (arrayCopy_into (longToArray y) 0 5 (zlen (longToArray y)) ;;; ret (zlen (longToArray y))) b
      | Err e => (Err e, b) end).
  { intros b Lb Sb. rewrite FN, Lz in Sb. rewrite (enc_final X rnd _ r c' b m RD eq_refl eq_refl Lb Sb), EB.
    replace (zlen block =? 128) with true by lia. reflexivity. }
  split.
  - intros y Ey Hy. exists (longToArray y). destruct (longToArray_spec y ltac:(lia)) as (P1 & P2 & P3).
    remember (longToArray y) as ct eqn:Ect in *.
    assert (Lct : zlen ct <= 128). { apply shortest_len; auto; [lia|]. rewrite P1. lia. }
    split; [exact P1|]. split; [exact P2|]. split; [exact Lct|].
    destruct (command_answer X rnd (KPub (cd_pub (card_of r c))) 2 c c' 0 170 1 p2 m le a (Ok ct) W Ea I1) as (s' & E & Q).
    { rewrite Z.min_r by lia. intros b Lb Sb. split; [exact Lct|]. rewrite (EF b Lb Sb), Ey, <- Ect.
      pose proof (zlen_nonneg ct). erewrite bind_ok by (apply copy_out; lia). reflexivity. }
    unfold rsa_respond. rewrite Ea. cbn [card_of cd_cipher]. change (mkCard _ _ c) with (card_of r c).
    rewrite (process_command X rnd r c p2 1 m le a W Ea ltac:(auto)). cbn [Z.eqb Pos.eqb]. rewrite E.
    destruct (Z.leb_spec (zlen ct) le) as [B|B]; [|reflexivity]. cbn [fst]. now rewrite (Q ct eq_refl B).
  - intros e Ey Ne1 Ne2.
    destruct (command_answer X rnd (KPub (cd_pub (card_of r c))) 2 c c' 0 170 1 p2 m le a (Err e) W Ea I1) as (s' & E & _).
    { rewrite Z.min_r by lia. intros b Lb Sb. now rewrite (EF b Lb Sb), Ey. }
    unfold rsa_respond. rewrite Ea. cbn [card_of cd_cipher]. change (mkCard _ _ c) with (card_of r c).
    rewrite (process_command X rnd r c p2 1 m le a W Ea ltac:(auto)). cbn [Z.eqb Pos.eqb]. rewrite E.
    destruct e; try reflexivity; [congruence|elim (Ne2 reason); reflexivity].
Qed.

Lemma C108_decrypt_refuted_pf : forall X r card rnd ct p2 le m block,
  serving X r card -> wf_cmd 0 170 2 p2 ct le -> 128 <= zlen ct -> Forall ubyte m -> pkcs1_block m block ->
  pc_decrypt X r (le_value (firstn 128 ct)) = Ok (le_value block) ->
  fst (rsa_respond X rnd (Some false) (cmd 0 170 2 p2 ct le) card) = Err (CryptoExc 1).
Proof.
  intros X r card rnd ct p2 le m block HS W Lm Um PB Ed. destruct (serving_card _ _ _ HS) as (_ & c & Hc & ->).
  destruct (cmd_recv _ _ _ _ _ _ W) as (a & Ea & _).
  destruct (rsa_init_pub r c Hc 1 ltac:(auto)) as [_ I1]. set (c' := mkCipher 10 true (Some 1) (c_engine c)) in *.
  assert (RD : rsa_ready 10 (KPriv (cd_priv (card_of r c))) 1 c') by (exists c; auto).
  destruct (command_answer X [] (KPriv (cd_priv (card_of r c))) 1 c c' 0 170 2 p2 ct le a (Err (CryptoExc 1)) W Ea I1) as (s' & E & _).
  { rewrite Z.min_l by lia. intros b Lb Sb.
    apply (C89_refuted_pf X [] (KPriv (cd_priv (card_of r c))) r c' b 5 5 b m block RD eq_refl); auto.
    - unfold in_range. cbn. lia.
    - change (getSize (KPriv (cd_priv (card_of r c))) / 8) with 128. unfold input. change (Z.to_nat 5) with 5%nat. rewrite Sb. exact Ed. }
  unfold rsa_respond. rewrite Ea. cbn [card_of cd_cipher]. change (mkCard _ _ c) with (card_of r c).
  rewrite (process_command X rnd r c p2 2 ct le a W Ea ltac:(auto)). cbn [Z.eqb Pos.eqb]. rewrite E. reflexivity.
Qed.

Lemma C108_errors_pf : forall X r card rnd cla ins p1 p2 d le,
  serving X r card -> wf_cmd cla ins p1 p2 d le ->
  let answer := fst (rsa_respond X rnd (Some false) (cmd cla ins p1 p2 d le) card) in
  (cla <> 0 -> answer = Err NameError)
  /\ (cla = 0 -> ins <> 170 -> answer = Ok [0x6d; 0])
  /\ (cla = 0 -> ins = 170 -> p1 <> 1 -> p1 <> 2 -> answer = Ok [0x6b; 0])
  /\ (cla = 0 -> ins = 170 -> p1 = 1 -> 117 < zlen d -> answer = Err (CryptoExc 1))
  /\ (cla = 0 -> ins = 170 -> p1 = 2 -> zlen d < 128 -> answer = Err (CryptoExc 1))
  /\ fst (rsa_respond X rnd (Some true) (cmd cla ins p1 p2 d le) card) = Ok [0x90; 0]
  /\ fst (rsa_respond X rnd None (cmd cla ins p1 p2 d le) card) = Err AttributeError.
Proof.
  intros X r card rnd cla ins p1 p2 d le HS W. destruct (serving_card _ _ _ HS) as (_ & c & Hc & ->).
  destruct (cmd_recv _ _ _ _ _ _ W) as (a & Ea & G0 & G1 & G2 & O & _).
  pose proof W as (_ & _ & _ & _ & Ud & Ld & Hle).
  unfold rsa_respond. rewrite Ea. cbn [card_of cd_cipher]. change (mkCard _ _ c) with (card_of r c).
  split; [|split; [|split; [|split; [|split; [|split]]]]].
  - intros H. unfold rsa_process. unfold bind at 1, get. cbn [snd]. unfold OFFSET_CLA, bind at 1, lift. rewrite G0.
    replace (cla =? 0) with false by lia. reflexivity.
  - intros -> H. unfold rsa_process. unfold bind at 1, get. cbn [snd]. unfold OFFSET_CLA, bind at 1, lift. rewrite G0. cbn [Z.eqb negb].
    unfold bind at 1, OFFSET_INS. rewrite G1. replace (ins =? 170) with false by lia. reflexivity.
  - intros -> -> H1 H2. unfold rsa_process. unfold bind at 1, get. cbn [snd]. unfold OFFSET_CLA, bind at 1, lift. rewrite G0. cbn [Z.eqb negb].
    unfold bind at 1, OFFSET_INS. rewrite G1. cbn [Z.eqb Pos.eqb negb]. unfold bind at 1, OFFSET_P1. rewrite G2.
    replace (p1 =? 1) with false by lia. replace (p1 =? 2) with false by lia. reflexivity.
  - intros -> -> -> H. destruct (rsa_init_pub r c Hc 2 ltac:(auto)) as [I1 _]. set (c' := mkCipher 10 true (Some 2) (c_engine c)) in *.
    assert (RD : rsa_ready 10 (KPub (cd_pub (card_of r c))) 2 c') by (exists c; auto).
    destruct (command_answer X rnd (KPub (cd_pub (card_of r c))) 2 c c' 0 170 1 p2 d le a (Err (CryptoExc 1)) W Ea I1) as (s' & E & _).
    { intros b Lb Sb. apply (C91_errors_pf X rnd c' (KPub (cd_pub (card_of r c))) 2 b 5 (Z.min 128 (zlen d)) 5 b).
      - exact RD.
      - unfold in_range. lia.
      - cbn. lia. }
    rewrite (process_command X rnd r c p2 1 d le a W Ea ltac:(auto)). cbn [Z.eqb Pos.eqb]. rewrite E. reflexivity.
  - intros -> -> -> H. destruct (rsa_init_pub r c Hc 1 ltac:(auto)) as [_ I1]. set (c' := mkCipher 10 true (Some 1) (c_engine c)) in *.
    assert (RD : rsa_ready 10 (KPriv (cd_priv (card_of r c))) 1 c') by (exists c; auto).
    destruct (command_answer X [] (KPriv (cd_priv (card_of r c))) 1 c c' 0 170 2 p2 d le a (Err (CryptoExc 1)) W Ea I1) as (s' & E & _).
    { intros b Lb Sb. destruct (C91_errors_pf X [] c' (KPriv (cd_priv (card_of r c))) 1 b 5 (Z.min 128 (zlen d)) 5 b) as (_ & _ & E3 & _). apply E3.
      - right. split; [exact RD|reflexivity].
      - unfold in_range. lia.
      - cbn. lia. }
    rewrite (process_command X rnd r c p2 2 d le a W Ea ltac:(auto)). cbn [Z.eqb Pos.eqb]. rewrite E. reflexivity.
  - cbn [rsa_process ret fst]. rewrite O. unfold py_slice. rewrite Z.sub_diag. reflexivity.
  - reflexivity.
Qed.

Definition Xid : pycrypto :=
  let r := mkRsa 0 0 0 0 0 0 in mkPyCrypto true (fun _ _ => Ok r) (fun _ => Ok r) (fun _ x => Ok x) (fun _ x => Ok x).

Lemma C108_full_refuted_pf : ~ C108_full.
Proof.
  intros H. destruct (H Xid (mkRsa 0 0 0 0 0 0) (card_of (mkRsa 0 0 0 0 0 0) (cipher_new 10)) (repeat 1 125) [97; 1] 0 0) as (ct & card' & card'' & E1 & L & _).
  - split; [reflexivity|]. exists (card_of (mkRsa 0 0 0 0 0 0) (cipher_new 10)), []. split; reflexivity.
  - intros x Hx. exists x. auto.
  - split; [apply Forall_forall; intros x I; apply repeat_spec in I; subst; unfold ubyte; lia|]. vm_compute. discriminate.
  - repeat split; try (unfold ubyte; lia); try (vm_compute; discriminate). repeat constructor; unfold ubyte; lia.
  - vm_compute. discriminate.
  - unfold ubyte; lia.
  - apply (f_equal (fun p => match fst p with Ok l => zlen l | Err _ => 0 end)) in E1. cbn [fst] in E1.
    rewrite zlen_app, L in E1. vm_compute in E1. discriminate.
Qed.
