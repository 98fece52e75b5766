(** * C56: pyDes.triple_des: proofs *)
From Verif Require Import Py S_Base L_Py S_DES M_des L_des LP_des.
From Coq Require Import ZifyBool ZifyNat.
Ltac Zify.zify_post_hook ::= Z.div_mod_to_equations.


(** *** invariant *)
Definition kwf (k : list Z) (b : base) (s : des) : Prop :=
  d_Kn s = map bz (schedule (to_bits k)) /\ b_mode (d_base s) = b_mode b /\ b_pad (d_base s) = b_pad b
  /\ b_padmode (d_base s) = b_padmode b.
Definition twf (key : list Z) (b : base) (s : tdes) : Prop :=
  t_base s = b /\ kwf (key1 key) b (t_k1 s) /\ kwf (key2 key) b (t_k2 s)
  /\ match t_k3 s with None => length key = 16%nat | Some k => length key = 24%nat /\ kwf (key3 key) b k end.

Definition kkeeps {A} (m : M des A) : Prop := forall k b s, kwf k b s -> kwf k b (snd (m s)).
Lemma kkeeps_crypt data t : kkeeps (crypt data t).
Proof.
  intros k b s (A & B & C & D). destruct (keeps_crypt data t s) as [E1 E2]. unfold kwf. rewrite <- E1, <- E2. auto.
Qed.
Lemma kkeeps_setIV v : kkeeps (des_setIV v).
Proof.
  intros k b s (A & B & C & D). unfold des_setIV, base_setIV. rewrite bind_get. destruct (zlen v =? 8).
  - erewrite bind_ok by reflexivity. repeat split; assumption.
  - repeat split; assumption.
Qed.

Definition tkeeps {A} (m : M tdes A) : Prop := forall key b s, twf key b s -> twf key b (snd (m s)).
Lemma tkeeps_bind {A B} (m : M tdes A) (k : A -> M tdes B) : tkeeps m -> (forall a, tkeeps (k a)) -> tkeeps (bind m k).
Proof.
  intros Hm Hk key b s H. specialize (Hm key b s H). unfold bind. destruct (m s) as [[a|e] s1]; cbn [snd] in *; [|exact Hm].
  now apply Hk.
Qed.
Lemma tkeeps_lift {A} (r : res A) : tkeeps (lift r). Proof. intros key b s H; exact H. Qed.
Lemma tkeeps_get : tkeeps (@get tdes). Proof. intros key b s H; exact H. Qed.
Lemma tkeeps_ret {A} (a : A) : tkeeps (ret a). Proof. intros key b s H; exact H. Qed.
Lemma tkeeps_raise {A} e : tkeeps (@raise tdes A e). Proof. intros key b s H; exact H. Qed.
Lemma tkeeps_k1 {A} (m : M des A) : kkeeps m -> tkeeps (on_k1 m).
Proof.
  intros Hm key b s (E & H1 & H2 & H3). unfold on_k1. specialize (Hm _ _ _ H1).
  destruct (m (t_k1 s)) as [r d]. cbn [snd] in *. unfold twf. cbn [t_base t_k1 t_k2 t_k3]. auto.
Qed.
Lemma tkeeps_k2 {A} (m : M des A) : kkeeps m -> tkeeps (on_k2 m).
Proof.
  intros Hm key b s (E & H1 & H2 & H3). unfold on_k2. specialize (Hm _ _ _ H2).
  destruct (m (t_k2 s)) as [r d]. cbn [snd] in *. unfold twf. cbn [t_base t_k1 t_k2 t_k3]. auto.
Qed.
Lemma tkeeps_k3 {A} (m : M des A) : kkeeps m -> tkeeps (on_k3 m).
Proof.
  intros Hm key b s H. unfold on_k3. destruct (t_k3 s) as [k|] eqn:Ek.
  - destruct H as (E & H1 & H2 & H3). rewrite Ek in H3. destruct H3 as [H3 H4]. specialize (Hm _ _ _ H4).
    destruct (m k) as [r d]. cbn [snd] in *. unfold twf. cbn [t_base t_k1 t_k2 t_k3]. auto.
  - now apply (tkeeps_k1 m Hm).
Qed.
#[local] Hint Resolve tkeeps_lift tkeeps_get tkeeps_ret tkeeps_raise tkeeps_k1 tkeeps_k2 tkeeps_k3 kkeeps_crypt kkeeps_setIV : core.
Lemma tkeeps_keys_setIV v : tkeeps (keys_setIV v).
Proof. unfold keys_setIV. repeat (apply tkeeps_bind; [solve [auto]|intro]). auto. Qed.
#[local] Hint Resolve tkeeps_keys_setIV : core.
Lemma tkeeps_enc_loop fuel : forall data i res, tkeeps (tdes_enc_loop fuel data i res).
Proof.
  induction fuel; intros; cbn [tdes_enc_loop]; [auto|]. destruct (i <? zlen data); [|auto].
  repeat (apply tkeeps_bind; [solve [auto]|intro]). auto.
Qed.
Lemma tkeeps_dec_loop fuel : forall data i res, tkeeps (tdes_dec_loop fuel data i res).
Proof.
  induction fuel; intros; cbn [tdes_dec_loop]; [auto|]. destruct (i <? zlen data); [|auto]. cbv zeta.
  repeat (apply tkeeps_bind; [solve [auto]|intro]). auto.
Qed.
#[local] Hint Resolve tkeeps_enc_loop tkeeps_dec_loop : core.
Lemma tkeeps_encrypt data p pm : tkeeps (tdes_encrypt data p pm).
Proof.
  unfold tdes_encrypt. apply tkeeps_bind; [auto|intro s]. apply tkeeps_bind; [auto|intro d].
  destruct (_ =? CBC); repeat (apply tkeeps_bind; [solve [auto]|intro]); auto.
Qed.
Lemma tkeeps_decrypt data p pm : tkeeps (tdes_decrypt data p pm).
Proof.
  unfold tdes_decrypt. apply tkeeps_bind; [auto|intro s]. apply tkeeps_bind.
  - destruct (_ =? CBC); repeat (apply tkeeps_bind; [solve [auto]|intro]); auto.
  - intro. apply tkeeps_bind; auto.
Qed.

(** *** constructor *)
Definition tdes_iv (mode : Z) (key iv : list Z) : list Z :=
  match iv with [] => if mode =? CBC then key1 key else [] | _ => iv end.

Lemma slice8 (l : list Z) a : (a + 8 <= length l)%nat -> py_slice l (Z.of_nat a) (Z.of_nat a + 8) = firstn 8 (skipn a l).
Proof.
  intros H. rewrite py_slice_in by (unfold zlen; lia). unfold sub. replace (Z.to_nat (Z.of_nat a + 8 - Z.of_nat a)) with 8%nat by lia.
  now rewrite Nat2Z.id.
Qed.
Lemma des_new_kwf k mode iv pad padmode d kk b : des_new k mode iv pad padmode = Ok d -> k = kk ->
  b_mode b = mode -> b_pad b = pad -> b_padmode b = padmode -> kwf kk b d.
Proof.
  intros E <- Hm Hp Hpm. apply des_new_wf in E as ((E1 & E2) & _). unfold kwf. rewrite E1, E2.
  cbn [b_mode b_pad b_padmode]. auto.
Qed.

Lemma tdes_new_wf key mode iv pad padmode d : tdes_new key mode iv pad padmode = Ok d ->
  twf key (mkBase mode (tdes_iv mode key iv) pad padmode key) d
  /\ (length key = 16 \/ length key = 24)%nat /\ (iv = [] \/ length iv = 8%nat) /\ (pad = [] \/ padmode <> PAD_PKCS5).
Proof.
  unfold tdes_new, base_init. destruct (nonempty pad && (padmode =? PAD_PKCS5)) eqn:Ep; cbn [rbind]; [discriminate|].
  destruct (nonempty iv && negb (zlen iv =? 8)) eqn:Ei; cbn [rbind]; [discriminate|].
  unfold tdes_setKey. destruct ((zlen key =? 24) || (zlen key =? 16)) eqn:Ek; cbn [negb]; [|discriminate].
  cbn [b_mode b_iv b_pad b_padmode].
  assert (HK : (length key = 16 \/ length key = 24)%nat) by (unfold zlen in Ek; lia).
  assert (H1 : py_slice key 0 8 = key1 key) by (apply (slice8 key 0); lia).
  assert (HI : (if (mode =? CBC) && negb (nonempty iv) then py_slice key 0 8 else iv) = tdes_iv mode key iv).
  { rewrite H1. destruct iv; cbn [nonempty tdes_iv negb]; [|now rewrite andb_false_r].
    now destruct (mode =? CBC). }
  rewrite HI. destruct ((mode =? CBC) && negb (zlen (tdes_iv mode key iv) =? 8)); [discriminate|].
  assert (H2 : py_slice key 8 16 = key2 key) by (apply (slice8 key 8); lia).
  destruct (des_new (py_slice key 0 8) _ _ _ _) as [d1|] eqn:E1; cbn [rbind]; [|discriminate].
  destruct (des_new (py_slice key 8 16) _ _ _ _) as [d2|] eqn:E2; cbn [rbind]; [|discriminate].
  intros H. split.
  - unfold zlen in H. destruct HK as [HK|HK]; rewrite HK in H.
    + change (Z.of_nat 16 =? 16) with true in H. cbn [rbind] in H. apply Ok_inj in H. subst d.
      unfold twf. cbn [t_base t_k1 t_k2 t_k3]. split; [reflexivity|]. split; [eapply des_new_kwf; eauto|].
      split; [eapply des_new_kwf; eauto|exact HK].
    + change (Z.of_nat 24 =? 16) with false in H. cbv iota in H.
      destruct (des_new (py_slice_from key 16) _ _ _ _) as [d3|] eqn:E3; cbn [rbind rmap] in H; [|discriminate].
      apply Ok_inj in H. subst d.
      unfold twf. cbn [t_base t_k1 t_k2 t_k3]. split; [reflexivity|]. split; [eapply des_new_kwf; eauto|].
      split; [eapply des_new_kwf; eauto|]. split; [exact HK|]. eapply des_new_kwf; eauto.
      unfold key3. rewrite HK. change (24 =? 16)%nat with false. cbv iota. unfold py_slice_from, py_clamp.
      replace (16 <? 0) with false by lia. f_equal. unfold zlen. lia.
  - split; [exact HK|]. split.
    + destruct iv; [auto|]. cbn [nonempty andb] in Ei. right. unfold zlen in Ei. lia.
    + destruct pad; [auto|]. cbn [nonempty andb] in Ep. right. lia.
Qed.

Lemma tdes_new_exists key mode iv pad padmode : (length key = 16 \/ length key = 24)%nat ->
  (iv = [] \/ length iv = 8%nat) -> (pad = [] \/ padmode <> PAD_PKCS5) -> exists d, tdes_new key mode iv pad padmode = Ok d.
Proof.
  intros HK Hi Hp. unfold tdes_new, base_init.
  replace (nonempty pad && (padmode =? PAD_PKCS5)) with false
    by (destruct Hp as [->|Hp]; [reflexivity|destruct (nonempty pad); cbn; lia]).
  replace (nonempty iv && negb (zlen iv =? 8)) with false
    by (destruct Hi as [->|Hi]; [reflexivity|unfold zlen; destruct (nonempty iv); cbn; lia]).
  cbn [rbind]. unfold tdes_setKey. replace ((zlen key =? 24) || (zlen key =? 16)) with true by (unfold zlen; lia).
  cbn [negb b_mode b_iv b_pad b_padmode].
  assert (H1 : py_slice key 0 8 = key1 key) by (apply (slice8 key 0); lia).
  assert (H2 : py_slice key 8 16 = key2 key) by (apply (slice8 key 8); lia).
  assert (L1 : length (key1 key) = 8%nat) by (unfold key1; rewrite firstn_length; lia).
  assert (L2 : length (key2 key) = 8%nat) by (unfold key2; rewrite firstn_length, skipn_length; lia).
  set (v := if (mode =? CBC) && negb (nonempty iv) then py_slice key 0 8 else iv).
  assert (Hv : v = [] \/ length v = 8%nat) by (unfold v; rewrite H1; destruct (_ && _); [right; exact L1|exact Hi]).
  replace ((mode =? CBC) && negb (zlen v =? 8)) with false.
  2: { unfold v. destruct (mode =? CBC); [|reflexivity]. cbn [andb]. rewrite H1.
       destruct Hi as [->|Hi]; cbn [nonempty negb]; unfold zlen; [rewrite L1; reflexivity|].
       destruct iv; [discriminate|]. cbn [nonempty negb]. rewrite Hi. reflexivity. }
  rewrite H1, H2.
  destruct (des_new_exists (key1 key) mode v pad padmode L1 Hv Hp) as [d1 E1].
  destruct (des_new_exists (key2 key) mode v pad padmode L2 Hv Hp) as [d2 E2].
  rewrite E1, E2. cbn [rbind]. destruct (zlen key =? 16) eqn:E; cbn [rbind]; [eauto|].
  assert (L3 : length (py_slice_from key 16) = 8%nat).
  { unfold py_slice_from, py_clamp. replace (16 <? 0) with false by lia. rewrite skipn_length. unfold zlen in *. lia. }
  destruct (des_new_exists (py_slice_from key 16) mode v pad padmode L3 Hv Hp) as [d3 E3].
  rewrite E3. cbn [rmap rbind]. eauto.
Qed.

Lemma treach_wf key mode iv pad padmode d : tdes_reach key mode iv pad padmode d ->
  twf key (mkBase mode (tdes_iv mode key iv) pad padmode key) d
  /\ (length key = 16 \/ length key = 24)%nat /\ (iv = [] \/ length iv = 8%nat) /\ (pad = [] \/ padmode <> PAD_PKCS5).
Proof.
  intros (d0 & h & E & ->). apply tdes_new_wf in E as (W & H). split; [|exact H]. clear H.
  revert d0 W. induction h as [|c h IH]; intros d0 W; [exact W|]. cbn [fold_left]. apply IH.
  destruct c; cbn [tdes_call]; [now apply tkeeps_encrypt|now apply tkeeps_decrypt].
Qed.

(** *** one DES object with a known IV *)
Definition kst (k : list Z) (b : base) (v : list Z) (s : des) : Prop := kwf k b s /\ b_iv (d_base s) = v.
Definition keybase (b : base) (v : list Z) (s : des) : base := mkBase (b_mode b) v (b_pad b) (b_padmode b) (b_key (d_base s)).
Lemma kst_wf k b v s : kst k b v s -> wf k (keybase b v s) s.
Proof.
  intros ((A & B & C & D) & E). split; [|exact A]. destruct (d_base s) as [m i p pm kk] eqn:Es. unfold keybase. rewrite Es. cbn [b_mode b_iv b_pad b_padmode b_key d_base d_Kn] in *. congruence.
Qed.
Lemma wf_kst k b v s s' : wf k (keybase b v s) s' -> kst k b v s'.
Proof. intros (E & A). unfold kst, kwf. rewrite E. cbn [b_mode b_iv b_pad b_padmode b_key d_base d_Kn]. auto. Qed.

Definition kenc (b : base) (k v : list Z) (bs : list block) := mode_enc (b_mode b) k v bs.
Definition kdec (b : base) (k v : list Z) (bs : list block) := mode_dec (b_mode b) k v bs.
Lemma k_enc k b v s bs : kst k b v s -> blocks bs -> (b_mode b = CBC -> length v = 8%nat) ->
  exists s', crypt (concat bs) ENCRYPT s = (Ok (concat (kenc b k v bs)), s') /\ kst k b v s'.
Proof.
  intros W Hb Hv. destruct (crypt_enc k (keybase b v s) s bs (kst_wf _ _ _ _ W) Hb Hv) as (s' & E & W').
  exists s'. split; [exact E|]. eapply wf_kst; exact W'.
Qed.
Lemma k_dec k b v s bs : kst k b v s -> blocks bs -> Forall (Forall ubyte) bs -> iv_ok (b_mode b) v ->
  exists s', crypt (concat bs) DECRYPT s = (Ok (concat (kdec b k v bs)), s') /\ kst k b v s'.
Proof.
  intros W Hb Hu Hv. destruct (crypt_dec k (keybase b v s) s bs (kst_wf _ _ _ _ W) Hb Hu Hv) as (s' & E & W').
  exists s'. split; [exact E|]. eapply wf_kst; exact W'.
Qed.
Lemma k_setIV k b v w s : kst k b v s -> length w = 8%nat -> exists s', des_setIV w s = (Ok tt, s') /\ kst k b w s'.
Proof.
  intros ((A & B & C & D) & E) Hw. unfold des_setIV. rewrite bind_get. unfold base_setIV.
  replace (zlen w =? 8) with true by (unfold zlen; rewrite Hw; reflexivity). erewrite bind_ok by reflexivity.
  eexists. split; [reflexivity|]. unfold kst, kwf. cbn [b_mode b_iv b_pad b_padmode b_key d_base d_Kn]. auto.
Qed.

(** the three objects with one IV; in ECB mode the IVs are irrelevant *)
Definition tst (key : list Z) (b : base) (v1 v2 v3 : list Z) (s : tdes) : Prop :=
  t_base s = b /\ kst (key1 key) b v1 (t_k1 s) /\ kst (key2 key) b v2 (t_k2 s)
  /\ match t_k3 s with None => length key = 16%nat /\ v3 = v1 | Some k => length key = 24%nat /\ kst (key3 key) b v3 k end.
Lemma twf_tst key b s : twf key b s -> exists v1 v2 v3, tst key b v1 v2 v3 s.
Proof.
  intros (E & H1 & H2 & H3). destruct (t_k3 s) as [k|] eqn:Ek.
  - exists (b_iv (d_base (t_k1 s))), (b_iv (d_base (t_k2 s))), (b_iv (d_base k)). unfold tst. rewrite Ek. unfold kst. tauto.
  - exists (b_iv (d_base (t_k1 s))), (b_iv (d_base (t_k2 s))), (b_iv (d_base (t_k1 s))). unfold tst. rewrite Ek. unfold kst. tauto.
Qed.

Definition does {A} (m : M des A) (k : list Z) (b : base) (v w : list Z) (a : A) : Prop :=
  forall s, kst k b v s -> exists s', m s = (Ok a, s') /\ kst k b w s'.
Lemma t_k1_does {A} (m : M des A) key b v1 v2 v3 a s : does m (key1 key) b v1 v1 a -> tst key b v1 v2 v3 s ->
  exists s', on_k1 m s = (Ok a, s') /\ tst key b v1 v2 v3 s'.
Proof.
  intros Hm (E & H1 & H2 & H3). destruct (Hm _ H1) as (d & Ed & Hd). unfold on_k1. rewrite Ed.
  eexists. split; [reflexivity|]. unfold tst. cbn [t_base t_k1 t_k2 t_k3]. auto.
Qed.
Lemma t_k2_does {A} (m : M des A) key b v1 v2 v3 a s : does m (key2 key) b v2 v2 a -> tst key b v1 v2 v3 s ->
  exists s', on_k2 m s = (Ok a, s') /\ tst key b v1 v2 v3 s'.
Proof.
  intros Hm (E & H1 & H2 & H3). destruct (Hm _ H2) as (d & Ed & Hd). unfold on_k2. rewrite Ed.
  eexists. split; [reflexivity|]. unfold tst. cbn [t_base t_k1 t_k2 t_k3]. auto.
Qed.
Lemma key3_16 key : length key = 16%nat -> key3 key = key1 key.
Proof. intros H. unfold key3, key1. rewrite H. reflexivity. Qed.
Lemma t_k3_does {A} (m : M des A) key b v1 v2 v3 a s : does m (key3 key) b v3 v3 a -> tst key b v1 v2 v3 s ->
  exists s', on_k3 m s = (Ok a, s') /\ tst key b v1 v2 v3 s'.
Proof.
  intros Hm H. unfold on_k3. destruct (t_k3 s) as [k|] eqn:Ek.
  - destruct H as (E & H1 & H2 & H3). rewrite Ek in H3. destruct H3 as [H3 H4]. destruct (Hm _ H4) as (d & Ed & Hd). rewrite Ed.
    eexists. split; [reflexivity|]. unfold tst. cbn [t_base t_k1 t_k2 t_k3]. auto.
  - pose proof H as (_ & _ & _ & H3). rewrite Ek in H3. destruct H3 as [H3 ->].
    rewrite (key3_16 key H3) in Hm. eapply t_k1_does; eauto.
Qed.
Lemma t_setIV key b v1 v2 v3 w s : tst key b v1 v2 v3 s -> length w = 8%nat ->
  exists s', keys_setIV w s = (Ok tt, s') /\ tst key b w w w s'.
Proof.
  intros (E & H1 & H2 & H3) Hw. unfold keys_setIV.
  destruct (k_setIV _ _ _ w _ H1 Hw) as (d1 & E1 & K1). destruct (k_setIV _ _ _ w _ H2 Hw) as (d2 & E2 & K2).
  rewrite (bind_ok _ _ s tt (mkTdes (t_base s) d1 (t_k2 s) (t_k3 s))) by (unfold on_k1; now rewrite E1).
  rewrite (bind_ok _ _ _ tt (mkTdes (t_base s) d1 d2 (t_k3 s))) by (unfold on_k2; cbn [t_k2]; now rewrite E2).
  unfold on_k3. cbn [t_k3]. destruct (t_k3 s) as [k|] eqn:Ek.
  - destruct H3 as [H3 H4]. destruct (k_setIV _ _ _ w _ H4 Hw) as (d3 & E3 & K3). rewrite E3.
    eexists. split; [reflexivity|]. unfold tst. cbn [t_base t_k1 t_k2 t_k3]. auto.
  - destruct H3 as [H3 ->]. destruct (k_setIV _ _ _ w _ K1 Hw) as (d3 & E3 & K3). unfold on_k1. cbn [t_k1]. rewrite E3.
    eexists. split; [reflexivity|]. unfold tst. cbn [t_base t_k1 t_k2 t_k3]. auto.
Qed.

Lemma single_ecb (F : block -> block) b : concat (ecb F [b]) = F b.
Proof. unfold ecb. cbn [map concat]. apply app_nil_r. Qed.

(** *** ECB *)
Lemma ecb_ecb (F G : block -> block) bs : ecb F (ecb G bs) = ecb (fun b => F (G b)) bs.
Proof. unfold ecb. apply map_map. Qed.

Lemma kenc_ecb b k v bs : b_mode b <> CBC -> kenc b k v bs = ecb (DES_bytes k) bs.
Proof. intros H. unfold kenc, mode_enc. now replace (b_mode b =? CBC) with false by lia. Qed.
Lemma kdec_ecb b k v bs : b_mode b <> CBC -> kdec b k v bs = ecb (DES_inv_bytes k) bs.
Proof. intros H. unfold kdec, mode_dec. now replace (b_mode b =? CBC) with false by lia. Qed.
Lemma does_enc_ecb b k v bs : b_mode b <> CBC -> blocks bs -> does (crypt (concat bs) ENCRYPT) k b v v (concat (ecb (DES_bytes k) bs)).
Proof. intros Hm Hb s W. rewrite <- (kenc_ecb b k v bs Hm). apply k_enc; [exact W|exact Hb|congruence]. Qed.
Lemma does_dec_ecb b k v bs : b_mode b <> CBC -> blocks bs -> Forall (Forall ubyte) bs ->
  does (crypt (concat bs) DECRYPT) k b v v (concat (ecb (DES_inv_bytes k) bs)).
Proof. intros Hm Hb Hu s W. rewrite <- (kdec_ecb b k v bs Hm). apply k_dec; [exact W|exact Hb|exact Hu|]. intro; congruence. Qed.

Lemma t_ecb_enc key b s bs : b_mode b <> CBC -> twf key b s -> blocks bs ->
  exists s', (data <- on_k1 (crypt (concat bs) ENCRYPT) ;; data <- on_k2 (crypt data DECRYPT) ;; on_k3 (crypt data ENCRYPT)) s
    = (Ok (concat (ecb (EDE key) bs)), s') /\ twf key b s'.
Proof.
  intros Hm W Hb. destruct (twf_tst _ _ _ W) as (v1 & v2 & v3 & T).
  set (m := bind _ _). assert (K : tkeeps m) by (unfold m; repeat (apply tkeeps_bind; [solve [auto]|intro]); auto).
  specialize (K _ _ _ W). unfold m in *. clear m.
  destruct (t_k1_does _ _ _ _ _ _ _ _ (does_enc_ecb b (key1 key) v1 bs Hm Hb) T) as (s1 & E1 & T1).
  destruct (ecb_blocks _ (DES_blockP (key1 key)) bs) as (B1 & U1 & _).
  destruct (t_k2_does _ _ _ _ _ _ _ _ (does_dec_ecb b (key2 key) v2 _ Hm B1 U1) T1) as (s2 & E2 & T2).
  destruct (ecb_blocks _ (DES_inv_blockP (key2 key)) (ecb (DES_bytes (key1 key)) bs)) as (B2 & U2 & _).
  destruct (t_k3_does _ _ _ _ _ _ _ _ (does_enc_ecb b (key3 key) v3 _ Hm B2) T2) as (s3 & E3 & T3).
  rewrite (bind_ok _ _ _ _ _ E1) in *. rewrite (bind_ok _ _ _ _ _ E2) in *. rewrite E3 in *.
  exists s3. split; [|exact K]. rewrite !ecb_ecb. reflexivity.
Qed.
Lemma t_ecb_dec key b s bs : b_mode b <> CBC -> twf key b s -> blocks bs -> Forall (Forall ubyte) bs ->
  exists s', (data <- on_k3 (crypt (concat bs) DECRYPT) ;; data <- on_k2 (crypt data ENCRYPT) ;; on_k1 (crypt data DECRYPT)) s
    = (Ok (concat (ecb (DED key) bs)), s') /\ twf key b s'.
Proof.
  intros Hm W Hb Hu. destruct (twf_tst _ _ _ W) as (v1 & v2 & v3 & T).
  set (m := bind _ _). assert (K : tkeeps m) by (unfold m; repeat (apply tkeeps_bind; [solve [auto]|intro]); auto).
  specialize (K _ _ _ W). unfold m in *. clear m.
  destruct (t_k3_does _ _ _ _ _ _ _ _ (does_dec_ecb b (key3 key) v3 bs Hm Hb Hu) T) as (s1 & E1 & T1).
  destruct (ecb_blocks _ (DES_inv_blockP (key3 key)) bs) as (B1 & U1 & _).
  destruct (t_k2_does _ _ _ _ _ _ _ _ (does_enc_ecb b (key2 key) v2 _ Hm B1) T1) as (s2 & E2 & T2).
  destruct (ecb_blocks _ (DES_blockP (key2 key)) (ecb (DES_inv_bytes (key3 key)) bs)) as (B2 & U2 & _).
  destruct (t_k1_does _ _ _ _ _ _ _ _ (does_dec_ecb b (key1 key) v1 _ Hm B2 U2) T2) as (s3 & E3 & T3).
  rewrite (bind_ok _ _ _ _ _ E1) in *. rewrite (bind_ok _ _ _ _ _ E2) in *. rewrite E3 in *.
  exists s3. split; [|exact K]. rewrite !ecb_ecb. reflexivity.
Qed.

(** *** CBC: one block *)
Lemma does_enc_cbc b k v p : b_mode b = CBC -> length p = 8%nat -> length v = 8%nat ->
  does (crypt p ENCRYPT) k b v v (DES_bytes k (xor_bytes p v)).
Proof.
  intros Hm Hp Hv s W. destruct (k_enc k b v s [p] W) as (s' & E & W'); [repeat constructor; auto|auto|].
  exists s'. split; [|exact W']. rewrite (app_nil_r p : concat [p] = p) in E. rewrite E. f_equal. f_equal.
  unfold kenc, mode_enc. rewrite Hm. change (CBC =? CBC) with true. cbv iota. cbn [cbc_enc concat]. apply app_nil_r.
Qed.
Lemma does_dec_cbc b k v c : b_mode b = CBC -> length c = 8%nat -> Forall ubyte c -> length v = 8%nat -> Forall ubyte v ->
  does (crypt c DECRYPT) k b v v (xor_bytes (DES_inv_bytes k c) v).
Proof.
  intros Hm Hc Hu Hv Hvu s W. destruct (k_dec k b v s [c] W) as (s' & E & W'); [repeat constructor; auto|auto|intro; auto|].
  exists s'. split; [|exact W']. rewrite (app_nil_r c : concat [c] = c) in E. rewrite E. f_equal. f_equal.
  unfold kdec, mode_dec. rewrite Hm. change (CBC =? CBC) with true. cbv iota. cbn [cbc_dec concat]. apply app_nil_r.
Qed.
Lemma EDE_blockP key b : length (EDE key b) = 8%nat /\ Forall ubyte (EDE key b).
Proof. apply DES_blockP. Qed.
Lemma DED_blockP key b : length (DED key b) = 8%nat /\ Forall ubyte (DED key b).
Proof. apply DES_inv_blockP. Qed.

Lemma t_cbc_enc key b : b_mode b = CBC -> forall bs pre fuel v res s, tst key b v v v s -> blocks bs -> (length bs < fuel)%nat ->
  length v = 8%nat -> Forall ubyte v ->
  exists s', tdes_enc_loop fuel (pre ++ concat bs) (zlen pre) res s = (Ok (res ++ concat (cbc_enc (EDE key) v bs)), s').
Proof.
  intros Hm. induction bs as [|p bs IH]; intros pre fuel v res s T Hb Hf Hv Hvu; (destruct fuel as [|fuel]; [cbn in Hf; lia|]).
  - exists s. cbn [concat cbc_enc tdes_enc_loop]. rewrite !app_nil_r, Z.ltb_irrefl. reflexivity.
  - inversion Hb as [|? ? Hp H2]; subst. cbn [concat cbc_enc tdes_enc_loop].
    assert (Hlt : zlen pre <? zlen (pre ++ p ++ concat bs) = true).
    { rewrite !zlen_app. pose proof (zlen_nonneg (concat bs)). unfold zlen at 3. lia. }
    rewrite Hlt, slice_block by exact Hp.
    destruct (t_k1_does _ _ _ _ _ _ _ _ (does_enc_cbc b (key1 key) v p Hm Hp Hv) T) as (s1 & E1 & T1).
    rewrite (bind_ok _ _ _ _ _ E1). destruct (DES_blockP (key1 key) (xor_bytes p v)) as [L1 U1].
    destruct (t_k2_does _ _ _ _ _ _ _ _ (does_dec_cbc b (key2 key) v _ Hm L1 U1 Hv Hvu) T1) as (s2 & E2 & T2).
    rewrite (bind_ok _ _ _ _ _ E2). set (x := DES_bytes (key1 key) (xor_bytes p v)) in *.
    destruct (DES_inv_blockP (key2 key) x) as [L2 U2].
    assert (L2' : length (xor_bytes (DES_inv_bytes (key2 key) x) v) = 8%nat) by (rewrite xor_bytes_length; congruence).
    destruct (t_k3_does _ _ _ _ _ _ _ _ (does_enc_cbc b (key3 key) v _ Hm L2' Hv) T2) as (s3 & E3 & T3).
    rewrite (bind_ok _ _ _ _ _ E3). rewrite xor_bytes_twice in * by congruence.
    change (DES_bytes (key3 key) (DES_inv_bytes (key2 key) x)) with (EDE key (xor_bytes p v)) in *.
    destruct (EDE_blockP key (xor_bytes p v)) as [L3 U3].
    destruct (t_setIV _ _ _ _ _ (EDE key (xor_bytes p v)) _ T3 L3) as (s4 & E4 & T4).
    rewrite (bind_ok _ _ _ _ _ E4). replace (zlen pre + 8) with (zlen (pre ++ p)) by (rewrite zlen_app; unfold zlen at 2; lia).
    rewrite (app_assoc pre p).
    destruct (IH (pre ++ p) fuel (EDE key (xor_bytes p v)) (res ++ EDE key (xor_bytes p v)) s4 T4 H2) as (s5 & E5); auto.
    { cbn in Hf. lia. }
    exists s5. rewrite E5, <- app_assoc. reflexivity.
Qed.
Lemma t_cbc_dec key b : b_mode b = CBC -> forall bs pre fuel v res s, tst key b v v v s -> blocks bs -> Forall (Forall ubyte) bs ->
  (length bs < fuel)%nat -> length v = 8%nat -> Forall ubyte v ->
  exists s', tdes_dec_loop fuel (pre ++ concat bs) (zlen pre) res s = (Ok (res ++ concat (cbc_dec (DED key) v bs)), s').
Proof.
  intros Hm. induction bs as [|c bs IH]; intros pre fuel v res s T Hb Hbu Hf Hv Hvu; (destruct fuel as [|fuel]; [cbn in Hf; lia|]).
  - exists s. cbn [concat cbc_dec tdes_dec_loop]. rewrite !app_nil_r, Z.ltb_irrefl. reflexivity.
  - inversion Hb as [|? ? Hc H2]; subst. inversion Hbu as [|? ? Hcu Hu2]; subst. cbn [concat cbc_dec tdes_dec_loop].
    assert (Hlt : zlen pre <? zlen (pre ++ c ++ concat bs) = true).
    { rewrite !zlen_app. pose proof (zlen_nonneg (concat bs)). unfold zlen at 3. lia. }
    rewrite Hlt. cbv zeta. rewrite slice_block by exact Hc.
    destruct (t_k3_does _ _ _ _ _ _ _ _ (does_dec_cbc b (key3 key) v c Hm Hc Hcu Hv Hvu) T) as (s1 & E1 & T1).
    rewrite (bind_ok _ _ _ _ _ E1). destruct (DES_inv_blockP (key3 key) c) as [L1 U1].
    assert (L1' : length (xor_bytes (DES_inv_bytes (key3 key) c) v) = 8%nat) by (rewrite xor_bytes_length; congruence).
    destruct (t_k2_does _ _ _ _ _ _ _ _ (does_enc_cbc b (key2 key) v _ Hm L1' Hv) T1) as (s2 & E2 & T2).
    rewrite (bind_ok _ _ _ _ _ E2). rewrite xor_bytes_twice in * by congruence.
    set (x := DES_bytes (key2 key) (DES_inv_bytes (key3 key) c)) in *.
    destruct (DES_blockP (key2 key) (DES_inv_bytes (key3 key) c)) as [L2 U2]. fold x in L2, U2.
    destruct (t_k1_does _ _ _ _ _ _ _ _ (does_dec_cbc b (key1 key) v x Hm L2 U2 Hv Hvu) T2) as (s3 & E3 & T3).
    rewrite (bind_ok _ _ _ _ _ E3).
    change (DES_inv_bytes (key1 key) x) with (DED key c) in *.
    destruct (t_setIV _ _ _ _ _ c _ T3 Hc) as (s4 & E4 & T4).
    rewrite (bind_ok _ _ _ _ _ E4). replace (zlen pre + 8) with (zlen (pre ++ c)) by (rewrite zlen_app; unfold zlen at 2; lia).
    rewrite (app_assoc pre c).
    destruct (IH (pre ++ c) fuel c (res ++ xor_bytes (DED key c) v) s4 T4 H2) as (s5 & E5); auto.
    { cbn in Hf. lia. }
    exists s5. rewrite E5, <- app_assoc. reflexivity.
Qed.

(** *** both modes *)
Definition t_mode_enc (mode : Z) (key iv : list Z) (bs : list block) : list block :=
  if mode =? CBC then cbc_enc (EDE key) iv bs else ecb (EDE key) bs.
Definition t_mode_dec (mode : Z) (key iv : list Z) (bs : list block) : list block :=
  if mode =? CBC then cbc_dec (DED key) iv bs else ecb (DED key) bs.

Lemma t_encrypt key b s data p pm bs : twf key b s -> padData b data p pm = Ok (concat bs) -> blocks bs -> iv_ok (b_mode b) (b_iv b) ->
  exists s', tdes_encrypt data p pm s = (Ok (concat (t_mode_enc (b_mode b) key (b_iv b) bs)), s') /\ twf key b s'.
Proof.
  intros W Hp Hb Hi. pose proof (tkeeps_encrypt data p pm key b s W) as K. unfold tdes_encrypt in *. rewrite bind_get in *.
  rewrite (proj1 W), Hp in *. rewrite (bind_ok _ _ _ (concat bs) s) in * by reflexivity. unfold t_mode_enc.
  destruct (Z.eqb_spec (b_mode b) CBC) as [E|E].
  - destruct (Hi E) as [Hv Hvu]. destruct (twf_tst _ _ _ W) as (v1 & v2 & v3 & T).
    destruct (t_setIV _ _ _ _ _ (b_iv b) _ T Hv) as (s1 & E1 & T1). rewrite (bind_ok _ _ _ _ _ E1) in *.
    destruct (t_cbc_enc key b E bs [] (S (length (concat bs))) (b_iv b) [] s1 T1 Hb) as (s2 & E2); auto.
    { rewrite concat_blocks_length by exact Hb. lia. }
    change ([] ++ concat bs) with (concat bs) in E2. change (zlen (@nil Z)) with 0 in E2. rewrite E2 in *.
    exists s2. split; [reflexivity|exact K].
  - apply t_ecb_enc; assumption.
Qed.
Lemma t_decrypt key b s p pm bs : twf key b s -> blocks bs -> Forall (Forall ubyte) bs -> iv_ok (b_mode b) (b_iv b) ->
  exists s', tdes_decrypt (concat bs) p pm s = (unpadData b (concat (t_mode_dec (b_mode b) key (b_iv b) bs)) p pm, s') /\ twf key b s'.
Proof.
  intros W Hb Hu Hi. pose proof (tkeeps_decrypt (concat bs) p pm key b s W) as K. unfold tdes_decrypt in *. rewrite bind_get in *.
  rewrite (proj1 W) in *. unfold t_mode_dec.
  assert (G : exists s', (if b_mode b =? CBC then keys_setIV (b_iv b) ;;; tdes_dec_loop (S (length (concat bs))) (concat bs) 0 []
     else data <- on_k3 (crypt (concat bs) DECRYPT) ;; data <- on_k2 (crypt data ENCRYPT) ;; on_k1 (crypt data DECRYPT)) s
     = (Ok (concat (if b_mode b =? CBC then cbc_dec (DED key) (b_iv b) bs else ecb (DED key) bs)), s') /\ twf key b s').
  { destruct (Z.eqb_spec (b_mode b) CBC) as [E|E].
    - destruct (Hi E) as [Hv Hvu]. destruct (twf_tst _ _ _ W) as (v1 & v2 & v3 & T).
      destruct (t_setIV _ _ _ _ _ (b_iv b) _ T Hv) as (s1 & E1 & T1). rewrite (bind_ok _ _ _ _ _ E1).
      destruct (t_cbc_dec key b E bs [] (S (length (concat bs))) (b_iv b) [] s1 T1 Hb Hu) as (s2 & E2); auto.
      { rewrite concat_blocks_length by exact Hb. lia. }
      change ([] ++ concat bs) with (concat bs) in E2. change (zlen (@nil Z)) with 0 in E2. rewrite E2.
      exists s2. split; [reflexivity|].
      pose proof (tkeeps_keys_setIV (b_iv b) _ _ _ W) as K1. rewrite E1 in K1. cbn [snd] in K1.
      pose proof (tkeeps_dec_loop (S (length (concat bs))) (concat bs) 0 [] _ _ _ K1) as K2. rewrite E2 in K2. exact K2.
    - apply t_ecb_dec; assumption. }
  destruct G as (s' & E & W'). rewrite (bind_ok _ _ _ _ _ E) in *. rewrite bind_get in *. rewrite (proj1 W') in *.
  exists s'. split; [reflexivity|exact W'].
Qed.

Lemma EDE_inv key b : length b = 8%nat -> Forall ubyte b -> DED key (EDE key b) = b.
Proof.
  intros H Hu. unfold DED, EDE.
  destruct (DES_blockP (key1 key) b) as [L1 U1]. destruct (DES_inv_blockP (key2 key) (DES_bytes (key1 key) b)) as [L2 U2].
  rewrite (proj1 (DES_bytes_inv _ _ L2 U2)), (proj2 (DES_bytes_inv _ _ L1 U1)), (proj1 (DES_bytes_inv _ _ H Hu)). reflexivity.
Qed.
Lemma t_mode_inv mode key iv bs : blocks bs -> Forall (Forall ubyte) bs -> iv_ok mode iv ->
  t_mode_dec mode key iv (t_mode_enc mode key iv bs) = bs.
Proof.
  intros Hb Hu Hi. unfold t_mode_dec, t_mode_enc. destruct (Z.eqb_spec mode CBC) as [E|E].
  - destruct (Hi E). apply cbc_inv; auto using EDE_blockP, EDE_inv.
  - apply ecb_inv; auto using EDE_inv.
Qed.
Lemma t_mode_enc_blocks mode key iv bs :
  blocks (t_mode_enc mode key iv bs) /\ Forall (Forall ubyte) (t_mode_enc mode key iv bs) /\ length (t_mode_enc mode key iv bs) = length bs.
Proof. unfold t_mode_enc. destruct (mode =? CBC); [apply cbc_enc_blocks|apply ecb_blocks]; apply EDE_blockP. Qed.

Lemma tdes_iv_ok mode key iv : (length key = 16 \/ length key = 24)%nat -> (iv = [] \/ length iv = 8%nat) ->
  (mode = CBC -> Forall ubyte (tdes_iv mode key iv)) -> iv_ok mode (tdes_iv mode key iv).
Proof.
  intros HK Hi Hu E. split; [|auto]. unfold tdes_iv. rewrite E. change (CBC =? CBC) with true. destruct iv.
  - unfold key1. rewrite firstn_length. lia.
  - destruct Hi; [discriminate|assumption].
Qed.
Lemma pad_normal b bs pad : blocks bs -> pad = [] -> padData b (concat bs) pad (Some PAD_NORMAL) = Ok (concat bs).
Proof.
  intros Hb ->. unfold padData. cbn [nonempty andb]. change (PAD_NORMAL =? PAD_NORMAL) with true. cbv iota.
  replace (zlen (concat bs) mod 8 =? 0) with true; [reflexivity|]. unfold zlen; rewrite concat_blocks_length by exact Hb; lia.
Qed.

Lemma C56_ede_pf : forall key mode iv pad padmode d bs, tdes_reach key mode iv pad padmode d ->
  Forall (fun b => length b = 8%nat) bs -> Forall (Forall ubyte) bs ->
  (mode = ECB -> fst (tdes_encrypt (concat bs) [] (Some PAD_NORMAL) d) = Ok (concat (ecb (EDE key) bs)))
  /\ (mode = CBC -> Forall ubyte (iv ++ key) ->
       fst (tdes_encrypt (concat bs) [] (Some PAD_NORMAL) d)
       = Ok (concat (cbc_enc (EDE key) (match iv with [] => firstn 8 key | _ => iv end) bs)))
  /\ (pad = [] -> mode = ECB -> fst (tdes_decrypt (concat bs) [] (Some PAD_NORMAL) d) = Ok (concat (ecb (DED key) bs)))
  /\ (pad = [] -> mode = CBC -> Forall ubyte (iv ++ key) ->
       fst (tdes_decrypt (concat bs) [] (Some PAD_NORMAL) d)
       = Ok (concat (cbc_dec (DED key) (match iv with [] => firstn 8 key | _ => iv end) bs))).
Proof.
  intros key mode iv pad padmode d bs Hr Hb Hu. apply treach_wf in Hr as (W & HK & Hi & _).
  set (b := mkBase _ _ _ _ _) in W.
  assert (HIV : mode = CBC -> Forall ubyte (iv ++ key) ->
    iv_ok mode (tdes_iv mode key iv) /\ tdes_iv mode key iv = match iv with [] => firstn 8 key | _ => iv end).
  { intros E Hiu. apply Forall_app in Hiu as [Hiu Hku]. split.
    - apply tdes_iv_ok; auto. intros _. unfold tdes_iv. rewrite E. change (CBC =? CBC) with true. destruct iv; [|exact Hiu].
      unfold key1. rewrite <- (firstn_skipn 8 key) in Hku. now apply Forall_app in Hku.
    - unfold tdes_iv. rewrite E. reflexivity. }
  assert (NP : forall l, pad = [] -> unpadData b l [] (Some PAD_NORMAL) = Ok l).
  { intros l ->. unfold unpadData. destruct l; reflexivity. }
  split; [|split; [|split]].
  - intros ->. destruct (t_encrypt key b d (concat bs) [] (Some PAD_NORMAL) bs W (pad_normal b bs [] Hb eq_refl) Hb) as (s' & E & _);
      [intro; discriminate|]. now rewrite E.
  - intros Hm Hiu. destruct (HIV Hm Hiu) as [A B].
    destruct (t_encrypt key b d (concat bs) [] (Some PAD_NORMAL) bs W (pad_normal b bs [] Hb eq_refl) Hb) as (s' & E & _);
      [exact A|]. rewrite E. unfold b. cbn [b_mode b_iv fst]. rewrite B, Hm. reflexivity.
  - intros Hp ->. destruct (t_decrypt key b d [] (Some PAD_NORMAL) bs W Hb Hu) as (s' & E & _);
      [intro; discriminate|]. rewrite E. cbn [fst]. now rewrite NP.
  - intros Hp Hm Hiu. destruct (HIV Hm Hiu) as [A B].
    destruct (t_decrypt key b d [] (Some PAD_NORMAL) bs W Hb Hu) as (s' & E & _); [exact A|]. rewrite E. cbn [fst].
    rewrite NP by exact Hp. unfold b. cbn [b_mode b_iv fst]. rewrite B, Hm. reflexivity.
Qed.

Lemma C56_constructible_pf : forall key mode iv pad padmode,
  (exists d, tdes_reach key mode iv pad padmode d)
  <-> (length key = 16 \/ length key = 24)%nat /\ (iv = [] \/ length iv = 8%nat) /\ (pad = [] \/ padmode <> PAD_PKCS5).
Proof.
  intros key mode iv pad padmode. split.
  - intros [d Hr]. now apply treach_wf in Hr as (_ & H).
  - intros (H1 & H2 & H3). destruct (tdes_new_exists key mode iv pad padmode H1 H2 H3) as [d E].
    exists d, d, []. auto.
Qed.

Lemma C56_degenerate_pf : forall k key mode iv pad padmode d d1 bs, (key = k ++ k \/ key = k ++ k ++ k) -> length k = 8%nat ->
  tdes_reach key mode iv pad padmode d -> des_reach k mode iv pad padmode d1 ->
  Forall (fun b => length b = 8%nat) bs -> Forall (Forall ubyte) bs -> (mode = ECB \/ mode = CBC /\ iv <> [] /\ Forall ubyte iv) ->
  fst (tdes_encrypt (concat bs) [] (Some PAD_NORMAL) d) = fst (des_encrypt (concat bs) [] (Some PAD_NORMAL) d1).
Proof.
  intros k key mode iv pad padmode d d1 bs Hkey Hk Ht Hd Hb Hu Hm.
  assert (HE : forall b, length b = 8%nat -> Forall ubyte b -> EDE key b = DES_bytes k b).
  { assert (K1 : key1 key = k).
    { unfold key1. destruct Hkey as [-> | ->]; rewrite firstn_app, <- Hk, firstn_all, Nat.sub_diag; apply app_nil_r. }
    assert (K2 : key2 key = k).
    { unfold key2. destruct Hkey as [-> | ->]; rewrite skipn_app, <- Hk, skipn_all, Nat.sub_diag; cbn [app skipn].
      - apply firstn_all. - rewrite firstn_app, firstn_all, Nat.sub_diag; apply app_nil_r. }
    assert (K3 : key3 key = k).
    { unfold key3. destruct Hkey as [-> | ->]; rewrite !app_length, Hk; cbn [Nat.add Nat.eqb].
      - exact K1.
      - rewrite app_assoc, skipn_app, skipn_all2 by (rewrite app_length; lia). rewrite app_length, Hk. reflexivity. }
    intros b H1 H2. unfold EDE. rewrite K1, K2, K3.
    now rewrite (proj1 (DES_bytes_inv k b H1 H2)). }
  apply treach_wf in Ht as (W & HK & Hi & _). apply reach_wf in Hd as (W1 & _).
  assert (HT : tdes_iv mode key iv = iv \/ mode <> CBC).
  { destruct Hm as [-> | (_ & H & _)]; [right; discriminate|]. left. destruct iv; [congruence|reflexivity]. }
  assert (HO : iv_ok mode (tdes_iv mode key iv)).
  { intros E. destruct Hm as [->|(_ & Hn & Hiu)]; [discriminate|]. destruct HT as [->|]; [|congruence].
    split; [destruct Hi; [congruence|assumption]|assumption]. }
  set (b := mkBase _ _ _ _ _) in W. set (b1 := mkBase _ _ _ _ _) in W1.
  destruct (t_encrypt key b d (concat bs) [] (Some PAD_NORMAL) bs W (pad_normal b bs [] Hb eq_refl) Hb HO) as (s' & E & _).
  rewrite E. cbn [fst b b_mode b_iv].
  unfold des_encrypt. rewrite bind_get, (proj1 W1), pad_normal by auto. rewrite (bind_ok _ _ _ (concat bs) d1) by reflexivity.
  destruct (crypt_enc k b1 d1 bs W1 Hb) as (s1 & E1 & _).
  { intros EC. cbn [b_mode b1] in EC. destruct Hm as [->|(_ & Hn & Hiu)]; [discriminate|]. destruct Hi; [congruence|assumption]. }
  rewrite E1. cbn [fst b1 b_mode b_iv]. do 2 f_equal. unfold t_mode_enc, mode_enc.
  destruct (Z.eqb_spec mode CBC) as [EC|EC].
  - destruct HT as [->|]; [|congruence]. destruct Hm as [->|(_ & Hn & Hiu)]; [discriminate|].
    assert (Hil : length iv = 8%nat) by (destruct Hi; [congruence|assumption]).
    clear -HE Hb Hu Hil Hiu. revert iv Hil Hiu. induction bs as [|x bs IH]; intros iv Hil Hiu; [reflexivity|].
    inversion Hb; subst. inversion Hu; subst. cbn [cbc_enc]. rewrite HE.
    + f_equal. apply IH; auto; apply DES_blockP.
    + rewrite xor_bytes_length; congruence.
    + now apply xor_bytes_ubyte.
  - clear -HE Hb Hu. induction bs as [|x bs IH]; [reflexivity|].
    inversion Hb; subst. inversion Hu; subst. unfold ecb in *. cbn [map]. rewrite HE, IH; auto.
Qed.

Lemma C56_roundtrip_pf : forall key mode iv padmode d m,
  tdes_reach key mode iv [] padmode d -> (mode = CBC -> Forall ubyte (iv ++ key)) -> Forall ubyte m ->
  (padmode = PAD_NORMAL /\ zlen m mod 8 = 0 \/ padmode = PAD_PKCS5) ->
  exists c d1, tdes_encrypt m [] None d = (Ok c, d1)
    /\ zlen c = (if padmode =? PAD_PKCS5 then 8 * (zlen m / 8 + 1) else zlen m)
    /\ Forall ubyte c
    /\ fst (tdes_decrypt c [] None d1) = Ok m.
Proof.
  intros key mode iv padmode d m Hr Hi Hu Hp. apply treach_wf in Hr as (W & HK & Hil & _).
  assert (Hiv : iv_ok mode (tdes_iv mode key iv)).
  { apply tdes_iv_ok; auto. intros E. specialize (Hi E). apply Forall_app in Hi as [Hiu Hku].
    unfold tdes_iv. rewrite E. change (CBC =? CBC) with true. destruct iv; [|exact Hiu].
    unfold key1. rewrite <- (firstn_skipn 8 key) in Hku. now apply Forall_app in Hku. }
  set (b := mkBase mode _ [] padmode key) in *.
  set (data := if padmode =? PAD_PKCS5 then m ++ py_repeat (8 - zlen m mod 8) (8 - zlen m mod 8) else m).
  assert (HL : zlen data = if padmode =? PAD_PKCS5 then 8 * (zlen m / 8 + 1) else zlen m).
  { unfold data. destruct (padmode =? PAD_PKCS5); [|reflexivity]. rewrite zlen_app. unfold py_repeat.
    unfold zlen at 2. rewrite repeat_length. lia. }
  assert (HD : Forall ubyte data).
  { unfold data. destruct (padmode =? PAD_PKCS5); [|exact Hu]. apply Forall_app. split; [exact Hu|]. apply Forall_forall.
    intros x Hx. unfold py_repeat in Hx. apply repeat_spec in Hx. subst. unfold ubyte. lia. }
  assert (HM : zlen data mod 8 = 0).
  { rewrite HL. destruct (Z.eqb_spec padmode PAD_PKCS5) as [E|E]; [lia|]. destruct Hp as [[_ H]|H]; [exact H|congruence]. }
  assert (HP : padData b m [] None = Ok data).
  { unfold padData, data. cbn [b b_padmode nonempty andb]. destruct Hp as [[-> H]| ->].
    - change (PAD_NORMAL =? PAD_NORMAL) with true. change (PAD_NORMAL =? PAD_PKCS5) with false. cbv iota.
      now replace (zlen m mod 8 =? 0) with true by lia.
    - reflexivity. }
  assert (HU : unpadData b data [] None = Ok m).
  { destruct Hp as [[-> H]| ->].
    - unfold data. change (PAD_NORMAL =? PAD_PKCS5) with false. cbv iota. unfold unpadData. cbn [b b_padmode b_pad nonempty]. now destruct m.
    - apply pkcs5_unpad; reflexivity. }
  clearbody data. destruct (split_blocks (length data / 8) data) as (bs & -> & Hb & Hbu & _); [unfold zlen in HM; lia|exact HD|].
  destruct (t_encrypt key b d m [] None bs W HP Hb Hiv) as (s1 & E1 & W1).
  destruct (t_mode_enc_blocks (b_mode b) key (b_iv b) bs) as (C1 & C2 & C3).
  destruct (t_decrypt key b s1 [] None _ W1 C1 C2 Hiv) as (s2 & E2 & W2).
  rewrite t_mode_inv in E2 by assumption.
  eexists _, s1. split; [exact E1|]. split.
  { rewrite <- HL. unfold zlen. rewrite !concat_blocks_length by assumption. lia. }
  split.
  { clear -C2. induction C2; [constructor|]. cbn [concat]. apply Forall_app. auto. }
  rewrite E2. exact HU.
Qed.

(** *** results do not depend on the history, failing calls included *)
Definition simw (s s' : des) : Prop :=
  d_Kn s = d_Kn s' /\ b_mode (d_base s) = b_mode (d_base s') /\ b_pad (d_base s) = b_pad (d_base s')
  /\ b_padmode (d_base s) = b_padmode (d_base s').
Definition dbisim {A} (m : M des A) : Prop := forall s s', sim s s' -> fst (m s) = fst (m s') /\ sim (snd (m s)) (snd (m s')).
Lemma dbisim_crypt data t : dbisim (crypt data t).
Proof. intros s s' H. split; [now apply crypt_indep|]. eapply sim_cfg; [exact H| |]; apply keeps_crypt. Qed.
Lemma dbisim_setIV v : dbisim (des_setIV v).
Proof.
  intros s s' H. unfold des_setIV, base_setIV. rewrite !bind_get. destruct (zlen v =? 8); [|split; [reflexivity|exact H]].
  rewrite !(bind_ok (lift (Ok _)) _ _ _ _ eq_refl). split; [reflexivity|]. destruct H as (A & B & C & D & E).
  unfold set_base. cbn [snd]. unfold sim. cbn [b_mode b_iv b_pad b_padmode b_key d_base d_Kn]. auto.
Qed.
Definition opt_rel {A} (R : A -> A -> Prop) (x y : option A) : Prop :=
  match x, y with None, None => True | Some a, Some b => R a b | _, _ => False end.
Definition tsim (s s' : tdes) : Prop :=
  t_base s = t_base s' /\ sim (t_k1 s) (t_k1 s') /\ sim (t_k2 s) (t_k2 s') /\ opt_rel sim (t_k3 s) (t_k3 s').
Definition tbisim {A} (m : M tdes A) : Prop := forall s s', tsim s s' -> fst (m s) = fst (m s') /\ tsim (snd (m s)) (snd (m s')).
Lemma tbisim_bind {A B} (m : M tdes A) (k : A -> M tdes B) : tbisim m -> (forall a, tbisim (k a)) -> tbisim (bind m k).
Proof.
  intros Hm Hk s s' H. unfold bind. destruct (Hm s s' H) as [E1 E2].
  destruct (m s) as [[a|e] s1], (m s') as [[a'|e'] s1']; cbn [fst snd] in *; try discriminate.
  - injection E1 as ->. now apply Hk.
  - split; [congruence|exact E2].
Qed.
Lemma tbisim_fst {A} (m : M tdes A) s s' : tbisim m -> tsim s s' -> fst (m s) = fst (m s').
Proof. intros H T. apply (H s s' T). Qed.
Lemma tbisim_ret {A} (a : A) : tbisim (ret a). Proof. intros s s' H; split; auto. Qed.
Lemma tbisim_raise {A} e : tbisim (@raise tdes A e). Proof. intros s s' H; split; auto. Qed.
Lemma tbisim_k1 {A} (m : M des A) : dbisim m -> tbisim (on_k1 m).
Proof.
  intros Hm s s' (E & H1 & H2 & H3). unfold on_k1. destruct (Hm _ _ H1) as [P Q].
  destruct (m (t_k1 s)) as [r d], (m (t_k1 s')) as [r' d']. cbn [fst snd] in *. split; [exact P|]. unfold tsim. cbn [t_base t_k1 t_k2 t_k3]. auto.
Qed.
Lemma tbisim_k2 {A} (m : M des A) : dbisim m -> tbisim (on_k2 m).
Proof.
  intros Hm s s' (E & H1 & H2 & H3). unfold on_k2. destruct (Hm _ _ H2) as [P Q].
  destruct (m (t_k2 s)) as [r d], (m (t_k2 s')) as [r' d']. cbn [fst snd] in *. split; [exact P|]. unfold tsim. cbn [t_base t_k1 t_k2 t_k3]. auto.
Qed.
Lemma tbisim_k3 {A} (m : M des A) : dbisim m -> tbisim (on_k3 m).
Proof.
  intros Hm s s' H. unfold on_k3. pose proof H as (E & H1 & H2 & H3).
  destruct (t_k3 s) as [k|], (t_k3 s') as [k'|]; cbn [opt_rel] in H3; try contradiction; [|now apply (tbisim_k1 m Hm)].
  destruct (Hm _ _ H3) as [P Q].
  destruct (m k) as [r d], (m k') as [r' d']. cbn [fst snd] in *. split; [exact P|]. unfold tsim. cbn [t_base t_k1 t_k2 t_k3]. auto.
Qed.
#[local] Hint Resolve dbisim_crypt dbisim_setIV tbisim_ret tbisim_raise tbisim_k1 tbisim_k2 tbisim_k3 : core.
Lemma tbisim_keys_setIV v : tbisim (keys_setIV v).
Proof. unfold keys_setIV. repeat (apply tbisim_bind; [solve [auto]|intro]). auto. Qed.
#[local] Hint Resolve tbisim_keys_setIV : core.
Lemma tbisim_enc_loop fuel : forall data i res, tbisim (tdes_enc_loop fuel data i res).
Proof.
  induction fuel; intros; cbn [tdes_enc_loop]; [auto|]. destruct (i <? zlen data); [|auto].
  repeat (apply tbisim_bind; [solve [auto]|intro]). auto.
Qed.
Lemma tbisim_dec_loop fuel : forall data i res, tbisim (tdes_dec_loop fuel data i res).
Proof.
  induction fuel; intros; cbn [tdes_dec_loop]; [auto|]. destruct (i <? zlen data); [|auto]. cbv zeta.
  repeat (apply tbisim_bind; [solve [auto]|intro]). auto.
Qed.

(** weakly similar: the IVs of the three objects may differ *)
Definition twsim (s s' : tdes) : Prop :=
  t_base s = t_base s' /\ simw (t_k1 s) (t_k1 s') /\ simw (t_k2 s) (t_k2 s') /\ opt_rel simw (t_k3 s) (t_k3 s')
  /\ b_mode (d_base (t_k1 s)) = b_mode (t_base s) /\ b_mode (d_base (t_k2 s)) = b_mode (t_base s)
  /\ match t_k3 s with Some k => b_mode (d_base k) = b_mode (t_base s) | None => True end.
Lemma twf_twsim key b s s' : twf key b s -> twf key b s' -> twsim s s'.
Proof.
  intros (E & (A1 & A2 & A3 & A4) & (B1 & B2 & B3 & B4) & C) (E' & (A1' & A2' & A3' & A4') & (B1' & B2' & B3' & B4') & C').
  unfold twsim, simw. split; [congruence|]. split; [repeat split; congruence|]. split; [repeat split; congruence|].
  destruct (t_k3 s) as [k|], (t_k3 s') as [k'|]; cbn [opt_rel]; try lia.
  - destruct C as (? & C1 & C2 & C3 & C4), C' as (? & C1' & C2' & C3' & C4'). repeat split; congruence.
  - repeat split; congruence.
Qed.
Lemma twsim_ecb s s' : twsim s s' -> b_mode (t_base s) <> CBC -> tsim s s'.
Proof.
  intros (E & (A1 & A2 & A3 & A4) & (B1 & B2 & B3 & B4) & C & M1 & M2 & M3) Hm. unfold tsim, sim. split; [exact E|].
  split; [repeat split; auto; intro; congruence|]. split; [repeat split; auto; intro; congruence|].
  destruct (t_k3 s) as [k|], (t_k3 s') as [k'|]; cbn [opt_rel] in *; try contradiction; [|exact I].
  destruct C as (C1 & C2 & C3 & C4). repeat split; auto; intro; congruence.
Qed.
Lemma twsim_setIV v s s' {A} (k : M tdes A) : twsim s s' -> tbisim k ->
  fst ((keys_setIV v ;;; k) s) = fst ((keys_setIV v ;;; k) s').
Proof.
  intros H Hk. unfold keys_setIV, des_setIV, base_setIV.
  destruct H as (E & (A1 & A2 & A3 & A4) & (B1 & B2 & B3 & B4) & C & M1 & M2 & M3).
  destruct s as [b k1 k2 k3], s' as [b' k1' k2' k3']. cbn [t_base t_k1 t_k2 t_k3] in *.
  destruct (zlen v =? 8); [|reflexivity].
  unfold bind, get, lift, on_k1, on_k2, on_k3, set_base. cbn [t_base t_k1 t_k2 t_k3 d_base d_L d_R d_Kn d_final].
  destruct k3 as [q|], k3' as [q'|]; cbn [opt_rel] in C; try contradiction.
  - destruct C as (C1 & C2 & C3 & C4). apply Hk. unfold tsim, sim, opt_rel. cbn [t_base t_k1 t_k2 t_k3 b_mode b_iv b_pad b_padmode b_key d_base d_Kn]. repeat split; congruence.
  - unfold on_k1. cbn [t_base t_k1 t_k2 t_k3 d_base d_L d_R d_Kn d_final b_mode b_iv b_pad b_padmode b_key].
    apply Hk. unfold tsim, sim, opt_rel. cbn [t_base t_k1 t_k2 t_k3 b_mode b_iv b_pad b_padmode b_key d_base d_Kn]. repeat split; congruence.
Qed.

Lemma tdes_encrypt_indep data p pm s s' : twsim s s' -> fst (tdes_encrypt data p pm s) = fst (tdes_encrypt data p pm s').
Proof.
  intros H. unfold tdes_encrypt. rewrite !bind_get. rewrite <- (proj1 H). apply bind_lift_fst. intros a.
  destruct (Z.eqb_spec (b_mode (t_base s)) CBC) as [E|E].
  - apply twsim_setIV; [exact H|apply tbisim_enc_loop].
  - pose proof (twsim_ecb _ _ H E) as T. apply tbisim_fst; [|exact T].
    repeat (apply tbisim_bind; [solve [auto]|intro]). auto.
Qed.
Lemma tdes_decrypt_indep data p pm s s' key b : twf key b s -> twf key b s' ->
  fst (tdes_decrypt data p pm s) = fst (tdes_decrypt data p pm s').
Proof.
  intros W W'. pose proof (twf_twsim _ _ _ _ W W') as H. unfold tdes_decrypt. rewrite !bind_get. rewrite <- (proj1 H).
  set (m := if b_mode (t_base s) =? CBC then _ else _).
  assert (K : tkeeps m).
  { unfold m. destruct (_ =? CBC); repeat (apply tkeeps_bind; [solve [auto]|intro]); auto. }
  assert (F : fst (m s) = fst (m s')).
  { unfold m. destruct (Z.eqb_spec (b_mode (t_base s)) CBC) as [E|E].
    - apply twsim_setIV; [exact H|apply tbisim_dec_loop].
    - pose proof (twsim_ecb _ _ H E) as T. apply tbisim_fst; [|exact T].
      repeat (apply tbisim_bind; [solve [auto]|intro]). auto. }
  pose proof (K _ _ _ W) as K1. pose proof (K _ _ _ W') as K2. clearbody m. unfold bind at 1 3.
  destruct (m s) as [[a|e] s1], (m s') as [[a'|e'] s1']; cbn [fst snd] in *; try discriminate; [|congruence].
  injection F as ->. rewrite !bind_get. now rewrite (proj1 K1), (proj1 K2).
Qed.

Lemma C56_history_pf : forall key mode iv pad padmode d0 d data p pm,
  tdes_new key mode iv pad padmode = Ok d0 -> tdes_reach key mode iv pad padmode d ->
  fst (tdes_encrypt data p pm d) = fst (tdes_encrypt data p pm d0)
  /\ fst (tdes_decrypt data p pm d) = fst (tdes_decrypt data p pm d0).
Proof.
  intros key mode iv pad padmode d0 d data p pm E Hr. apply treach_wf in Hr as (W & _).
  apply tdes_new_wf in E as (W0 & _). split.
  - apply tdes_encrypt_indep. eapply twf_twsim; eauto.
  - eapply tdes_decrypt_indep; eauto.
Qed.
