(** * C139: calls return the number the API defines: proofs *)
From Verif Require Import Py S_Base S_Cipher L_Py M_utils M_util M_aid M_jcint M_bertag M_bertlv M_digest M_key M_des M_cipher.
From Verif Require Import S_DES L_utils L_util L_des LP_bertag LP_keys LP_des LP_tdes LP_desx LP_cipher LP_rsa S_RSA S_Samples S_Return.
From Coq Require Import Lia Bool ZifyBool ZifyNat.
Ltac Zify.zify_post_hook ::= Z.div_mod_to_equations.

Lemma chunk_len fuel : forall n acc l, 0 < n -> chunk_loop fuel n acc = Ok l -> zlen l = zlen acc + Z.log2 n / 7 + 1.
Proof.
  induction fuel as [|fuel IH]; intros n acc l N H; [discriminate|]. cbn [chunk_loop] in H. replace (0 <? n) with true in H by lia.
  destruct (Z.ltb_spec 0 (Z.shiftr n 7)) as [P|P].
  - apply IH in H; [|exact P]. rewrite zlen_app, zlen_cons in H. change (zlen (@nil Z)) with 0 in H. rewrite Z.log2_shiftr in H by exact N.
    assert (7 <= Z.log2 n).
    { destruct (Z.lt_ge_cases (Z.log2 n) 7) as [L|L]; [|exact L]. rewrite Z.shiftr_eq_0 in P by lia. lia. }
    rewrite Z.max_r in H by lia. lia.
  - assert (E : Z.shiftr n 7 = 0) by (pose proof (proj2 (Z.shiftr_nonneg n 7)); lia). rewrite E in H.
    assert (l = acc ++ [Z.land n 127]) by (destruct fuel; cbn [chunk_loop] in H; [discriminate|change (0 <? 0) with false in H; cbv iota in H; congruence]). subst l.
    rewrite zlen_app, zlen_cons. change (zlen (@nil Z)) with 0. apply Z.shiftr_eq_0_iff in E. destruct E as [->|[_ E]]; [lia|].
    pose proof (Z.log2_nonneg n). rewrite Z.div_small by lia. lia.
Qed.
Lemma put_len l : forall o b a r a', put_chunks l o b a = (Ok r, a') -> r = b + zlen l.
Proof.
  induction l as [|x l IH]; intros o b a r a' H; cbn [put_chunks] in H.
  - unfold ret in H. change (zlen (@nil Z)) with 0. assert (b = r) by congruence. lia.
  - unfold bind at 1 in H. destruct (aset _ _ a) as [[u|e] a1]; [|discriminate]. unfold bind at 1 in H. destruct (aadd _ _ a1) as [[v|e] a2]; [|discriminate].
    apply IH in H. rewrite zlen_cons. lia.
Qed.
Lemma bind_inv {S A B} (m : M S A) (f : A -> M S B) s r s' : bind m f s = (Ok r, s') -> exists a s1, m s = (Ok a, s1) /\ f a s1 = (Ok r, s').
Proof. unfold bind. destruct (m s) as [[a|e] s1]; [eauto|discriminate]. Qed.
Ltac inv H := let a := fresh "u" in let s := fresh "s" in let E := fresh "E" in apply bind_inv in H as (a & s & E & H).
Lemma tag_ret g o a r a' : 0 <= tnumber g -> tag_toBytes g o a = (Ok r, a') -> r = id_size (tnumber g).
Proof.
  intros N H. unfold tag_toBytes in H. inv H. inv H. unfold id_size. destruct (Z.leb_spec (tnumber g) 30) as [L|L].
  - inv H. inv H. unfold ret in H. congruence.
  - inv H. inv H. inv H. inv H. inv H. inv H. unfold ret in H. unfold lift in E2.
    destruct (chunk_loop _ _ _) as [l|e] eqn:C; [|discriminate]. apply chunk_len in C; [|lia]. assert (u2 = l) by congruence. subst u2.
    apply put_len in E3. assert (zlen (rev l) = zlen l) as R by (unfold zlen; rewrite rev_length; reflexivity). rewrite R, C in E3.
    change (zlen (@nil Z)) with 0 in E3. assert (u3 = r) by congruence. lia.
Qed.
Lemma slice_len b o n : within b o n -> zlen (py_slice b o (o + n)) = n.
Proof. intros (O & N & L). rewrite py_slice_in by lia. unfold zlen in *. rewrite sub_length; lia. Qed.
Lemma getter_ret i p o a r a' : rsa_getter i (Some p) o a = (Ok r, a') -> r = zlen p.
Proof. unfold rsa_getter. destruct i; cbn [negb]; [|discriminate]. intros H. inv H. unfold ret in H. congruence. Qed.
Lemma e_dec_blocks mode key iv bs : keylen key -> blocks bs -> Forall (Forall ubyte) bs -> iv_ok mode iv ->
  blocks (e_dec mode key iv bs) /\ length (e_dec mode key iv bs) = length bs.
Proof.
  intros [H|H] B U I.
  - rewrite e_dec_des by exact H. destruct (mode_dec_blocks mode key iv bs B U I) as (A & _ & C). now split.
  - rewrite e_dec_tdes by exact H. destruct (t_mode_dec_blocks mode key iv bs B U I) as (A & _ & C). now split.
Qed.
Lemma concat_zlen (bs : list block) : blocks bs -> zlen (concat bs) = 8 * Z.of_nat (length bs).
Proof. intros B. unfold zlen. rewrite concat_blocks_length by exact B. apply (Nat2Z.inj_mul 8). Qed.
Lemma des_ret alg k m iv off c b o n p a r s' : des_alg alg -> cipher_reach alg k m iv off c -> within b o n ->
  des_doFinal b o n p (c, a) = (Ok r, s') -> (alg_pkcs5 alg = true -> m = MODE_ENCRYPT) ->
  r = if alg_pkcs5 alg then 8 * (n / 8 + 1) else n.
Proof.
  intros A R (O & N & L) H P. destruct (reach_cst _ _ _ _ _ _ R) as (key & v & _ & _ & MM & V & H1 & H2 & H3 & e & H4 & W).
  assert (Lv : length (map unsigned v) = 8%nat).
  { rewrite map_length. pose proof (arrayCopy_into_length iv off 0 8 (py_repeat 0 8)) as Q. rewrite V in Q. exact Q. }
  rewrite (doFinal_eq alg m key _ c e b o n p a _ H1 H2 H3 H4 W (copy_in _ _ _ O N L)) in H. cbv zeta in H.
  set (d := map unsigned (sub b (Z.to_nat o) (Z.to_nat n))) in *.
  assert (D : zlen d = n) by (unfold d, zlen in *; rewrite map_length, sub_length; lia).
  assert (DU : Forall ubyte d) by apply unsigned_ubyte.
  assert (G : forall x, fst (engine_run (m =? MODE_ENCRYPT) d e) = Ok x -> zlen x = if alg_pkcs5 alg then 8 * (n / 8 + 1) else n).
  { intros x X. assert (HI : iv_ok (desmode alg) (map unsigned v)) by (intro; split; [exact Lv|apply unsigned_ubyte]).
    pose proof (ewf_keylen _ _ _ W) as HK.
    assert (AL : alg_pkcs5 alg = false -> zlen d mod 8 = 0).
    { intros F. destruct (Z.eq_dec (zlen d mod 8) 0) as [Q|Q]; [exact Q|]. rewrite (engine_short _ key alg _ e d W Lv (unsigned_ubyte _) DU Q) in X; [discriminate|].
      intros _. rewrite (padmode_pkcs5 alg A), F. reflexivity. }
    destruct (padded_blocks alg d A DU AL) as (bs & E & Hb & Hbu & Hbl & Hpad). rewrite D in Hbl.
    destruct (Z.eqb_spec m MODE_ENCRYPT) as [M1|M1].
    - rewrite (engine_enc key _ e d bs W (Hpad _ _) Hb HI) in X. cbn [cbase b_mode b_iv] in X.
      destruct (e_enc_blocks (desmode alg) key (map unsigned v) bs HK) as (B1 & B2 & B3).
      assert (x = concat (e_enc (desmode alg) key (map unsigned v) bs)) by congruence. subst x. rewrite concat_zlen by exact B1. rewrite B3. exact Hbl.
    - destruct (alg_pkcs5 alg) eqn:F; [now specialize (P eq_refl)|]. rewrite E in X.
      rewrite (engine_dec key _ e bs W Hb Hbu HI) in X. cbn [cbase b_mode b_iv] in X.
      destruct (e_dec_blocks (desmode alg) key (map unsigned v) bs HK Hb Hbu HI) as (B1 & B3).
      set (y := concat (e_dec (desmode alg) key (map unsigned v) bs)) in *.
      assert (x = y).
      { unfold unpadData in X. cbn [cbase b_padmode b_pad nonempty andb] in X. rewrite (padmode_pkcs5 alg A), F in X. change (PAD_NORMAL =? PAD_NORMAL) with true in X.
        destruct (negb (nonempty y)); cbv iota zeta in X; congruence. }
      subst x. unfold y. rewrite concat_zlen by exact B1. rewrite B3. exact Hbl. }
  destruct (fst (engine_run _ _ e)) as [x|x]; [|discriminate]. specialize (G x eq_refl).
  assert (BZ : zlen (binaryToarray x) = zlen x) by (unfold binaryToarray, zlen; rewrite map_length; reflexivity).
  destruct (arrayCopy_into _ _ _ _ _) as [[w|w] z]; cbn [rmap] in H; [|discriminate]. rewrite BZ in H. congruence.
Qed.
Lemma construct_keeps X k u k' : pub_construct X k = (Ok u, k') -> pk_exp k' = pk_exp k /\ pk_mod k' = pk_mod k.
Proof.
  unfold pub_construct. rewrite bind_get. destruct (negb (pc_avail X)); [discriminate|]. destruct (pk_mod k) as [m|] eqn:M, (pk_exp k) as [e|] eqn:E; try discriminate.
  intros H. inv H. unfold put in H. apply (f_equal snd) in H. cbn [snd] in H. subst k'. now split.
Qed.
Lemma setter_keeps X k u k' : pub_setter X (ret tt) k = (Ok u, k') -> pk_exp k' = pk_exp k /\ pk_mod k' = pk_mod k.
Proof.
  unfold pub_setter. intros H. inv H. unfold ret in E. assert (s = k) by congruence. subst s. rewrite bind_get in H.
  destruct (pk_mod k) as [m|] eqn:M, (pk_exp k) as [e|] eqn:Ex;
    [|(unfold ret in H; assert (k' = k) by congruence; subst k'; now split)..].
  inv H. rewrite bind_get in H. unfold put in H. apply (f_equal snd) in H. cbn [snd] in H. subst k'. cbn [pk_exp pk_mod]. rewrite <- M, <- Ex.
  destruct (pk_the k); [|now apply construct_keeps in E0]. unfold ret in E0. assert (s = k) by congruence. subst s. now split.
Qed.
Lemma setter_split X f k u k' : pub_setter X f k = (Ok u, k') -> exists v k1, f k = (Ok v, k1) /\ pub_setter X (ret tt) k1 = (Ok u, k').
Proof. unfold pub_setter at 1. intros H. inv H. exists u0, s. split; [exact E|]. unfold pub_setter. unfold bind at 1. cbn [ret]. exact H. Qed.
Lemma pub_exp_ret X k0 b o n k : pub_setExponent X b o n k0 = (Ok tt, k) -> pk_exp k = Some (py_slice b o (o + n)).
Proof.
  unfold pub_setExponent. intros H. apply setter_split in H as (v & k1 & F & H). apply setter_keeps in H as [-> _].
  rewrite bind_get in F. unfold put in F. apply (f_equal snd) in F. cbn [snd] in F. now subst k1.
Qed.
Lemma pub_mod_ret X k0 b o n k : pub_setModulus X b o n k0 = (Ok tt, k) -> pk_mod k = Some (py_slice b o (o + n)).
Proof.
  unfold pub_setModulus. intros H. apply setter_split in H as (v & k1 & F & H). apply setter_keeps in H as [_ ->].
  rewrite bind_get in F. destruct (negb _); [discriminate|]. unfold put in F. apply (f_equal snd) in F. cbn [snd] in F. now subst k1.
Qed.
Lemma psetter_keeps f k u k' : priv_setter f k = (Ok u, k') -> exists v k1, f k = (Ok v, k1) /\ vk_exp k' = vk_exp k1 /\ vk_mod k' = vk_mod k1.
Proof.
  unfold priv_setter. intros H. inv H. exists u0, s. split; [exact E|]. rewrite bind_get in H.
  destruct (vk_mod s) as [m|] eqn:M, (vk_exp s) as [e|] eqn:Ex;
    [|(unfold ret in H; assert (k' = s) by congruence; subst k'; now split)..].
  unfold put in H. apply (f_equal snd) in H. cbn [snd] in H. subst k'. cbn [vk_exp vk_mod]. now split.
Qed.
Lemma priv_exp_ret k0 b o n k : priv_setExponent b o n k0 = (Ok tt, k) -> vk_exp k = Some (py_slice b o (o + n)).
Proof.
  unfold priv_setExponent. intros H. apply psetter_keeps in H as (v & k1 & F & -> & _).
  rewrite bind_get in F. unfold put in F. apply (f_equal snd) in F. cbn [snd] in F. now subst k1.
Qed.
Lemma priv_mod_ret k0 b o n k : priv_setModulus b o n k0 = (Ok tt, k) -> vk_mod k = Some (py_slice b o (o + n)).
Proof.
  unfold priv_setModulus. intros H. apply psetter_keeps in H as (v & k1 & F & _ & ->).
  rewrite bind_get in F. destruct (negb _); [discriminate|]. unfold put in F. apply (f_equal snd) in F. cbn [snd] in F. now subst k1.
Qed.
Lemma digest_alg b o n s u s' : digest_update b o n s = (Ok u, s') -> md_alg s' = md_alg s.
Proof.
  unfold digest_update. rewrite bind_get. destruct (catch_index _ _ []) as [[w|w] z]; [|discriminate]. unfold put. intros H. apply (f_equal snd) in H. cbn [snd] in H. now subst s'.
Qed.
Lemma reset_alg H s u s' : digest_reset H s = (Ok u, s') -> md_alg s' = md_alg s.
Proof. unfold digest_reset. rewrite bind_get. destruct (negb _); [discriminate|]. destruct (negb _); [discriminate|]. unfold put. intros E. apply (f_equal snd) in E. cbn [snd] in E. now subst s'. Qed.

Lemma C139_exact_partial_pf : forall f, as_defined f <-> defined f = true.
Proof.
  intros f. destruct f; cbn [defined as_defined]; (split; [intros Q; try reflexivity; exfalso|intros Q; try discriminate Q; clear Q]).
  - (* arrayCopy *) specialize (Q 0%nat 0 1%nat 0 0 (fun _ => []) tt (fun _ => []) eq_refl). discriminate Q.
  - specialize (Q 0%nat 0 1%nat 0 0 (fun _ => []) tt (fun _ => []) eq_refl). discriminate Q.
  - specialize (Q 0 0 0 [] tt [] eq_refl). discriminate Q.
  - specialize (Q 0 0 [1; 2] tt [0; 0] eq_refl). discriminate Q.
  - (* setInt *) intros o v w a r a' H. unfold setInt in H. inv H. inv H. inv H. inv H. unfold ret in H. unfold vz. congruence.
  - (* getBytes *) intros b o n x p a r a' I N H. unfold newAID in N. destruct ((n <? 5) || (16 <? n)); [discriminate|]. destruct (zlen b <? o + n); [discriminate|].
    unfold getBytes in H. destruct (zlen a <? _); [discriminate|]. assert (x = py_slice b o (o + n)) by congruence. subst x. rewrite slice_len in H by exact I. unfold vz. congruence.
  - (* BERTag.toBytes *) intros g o a r a' N H. unfold vz. f_equal. eapply tag_ret; eassumption.
  - (* BERTLV.toBytes *) intros t g o a r a' T N H. unfold tlv_toBytes in H. rewrite T in H. inv H. destruct (Z.ltb_spec 127 (tlen t)) as [L|L]; [discriminate|].
    inv H. inv H. unfold ret in H. apply tag_ret in E; [|exact N]. subst u. unfold vz, octets_of, len_size. destruct (Z.leb_spec (tlen t) 127); [|lia]. congruence.
  - (* init *) specialize (Q (newTLV false) (mkTag 0 false 1 1) (py_repeat 0 254) 0 254 258). assert (E : vz 258 = VInt (octets_of (mkTag 0 false 1 1) 254)) by (apply Q; vm_compute; intuition congruence).
    vm_compute in E. discriminate E.
  - (* append *)
    specialize (Q (mkTLV false (Some (mkTag 0 false 1 1)) 2 (Some [7; 7])) (mkTLV true (Some (mkTag 0 true 1 1)) 250 (Some (py_repeat 0 250))) (mkTag 0 true 1 1) 258
      (mkTLV true (Some (mkTag 0 true 1 1)) 254 (Some (py_repeat 0 250 ++ [1; 2; 7; 7])))).
    assert (E : vz 258 = VInt (octets_of (mkTag 0 true 1 1) 254)) by (apply Q; [reflexivity|vm_compute; intuition congruence|vm_compute; reflexivity]). vm_compute in E. discriminate E.
  - (* getValue *) intros t v o a r a' V L H. unfold getValue in H. inv H. unfold ret in H. unfold vz. congruence.
  - (* replaceValue *)
    specialize (Q (mkTLV false (Some (mkTag 0 false 1 1)) 0 (Some [])) (mkTag 0 false 1 1) [5] 0 1 tt (mkTLV false (Some (mkTag 0 false 1 1)) 1 (Some [5]))).
    assert (E : vu tt = VInt (octets_of (mkTag 0 false 1 1) 1)) by (apply Q; [reflexivity|vm_compute; intuition congruence|vm_compute; intuition congruence|reflexivity]). discriminate E.
  - (* getKey *) specialize (Q 3 0 [] 0 0 [] tt [] eq_refl). discriminate Q.
  - intros X k0 b o n k p a r a' I H G. apply pub_exp_ret in H. unfold pub_getExponent in G. rewrite H in G. apply getter_ret in G. rewrite slice_len in G by exact I. unfold vz. congruence.
  - intros X k0 b o n k p a r a' I H G. apply pub_mod_ret in H. unfold pub_getModulus in G. rewrite H in G. apply getter_ret in G. rewrite slice_len in G by exact I. unfold vz. congruence.
  - intros k0 b o n k p a r a' I H G. apply priv_exp_ret in H. unfold priv_getExponent in G. rewrite H in G. apply getter_ret in G. rewrite slice_len in G by exact I. unfold vz. congruence.
  - intros k0 b o n k p a r a' I H G. apply priv_mod_ret in H. unfold priv_getModulus in G. rewrite H in G. apply getter_ret in G. rewrite slice_len in G by exact I. unfold vz. congruence.
  - (* digest *) intros H s b o n p a r s' L D d. rewrite L. unfold digest_doFinal in D. destruct (digest_update _ _ _ s) as [[u|e] s1] eqn:U; [|discriminate].
    destruct (catch_index _ _ a) as [w out]. destruct (digest_reset H s1) as [[v|e] s2] eqn:R; [|discriminate]. destruct w; [|discriminate].
    apply digest_alg in U. apply reset_alg in R. unfold digest_getLength in D. rewrite R, U in D. unfold vz. congruence.
  - (* update *)
    specialize (Q [] 0 0 0 (mkCipher 1 true None None, []) tt (mkCipher 1 true None None, [])). assert (E : vu tt = VInt 0) by (apply Q; [reflexivity|vm_compute; intuition congruence|reflexivity]). discriminate E.
  - (* DES *) intros alg k m iv off c b o n p a r s' A R I H P. unfold vz. f_equal. eapply des_ret; eassumption.
  - (* RSA *)
    specialize (Q X0 [] (mkCipher 12 true (Some 2) None) (KPub (mkPub 16 true (Some []) (Some []) (Some (mkRsa 3233 17 413 61 53 38)))) [10; 0] 0 2 0 [9; 9] 1 [10 ^ 17 mod 3233 / 16; 9] eq_refl).
    assert (E : vz 1 = VInt 2) by (apply Q; vm_compute; reflexivity). discriminate E.
Qed.

Lemma C139_full_refuted_pf : ~ C139_full.
Proof. intros Q. specialize (Q V_setShort). apply C139_exact_partial_pf in Q. discriminate Q. Qed.
