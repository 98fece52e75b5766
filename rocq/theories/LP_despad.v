(** * C112: the padding arguments of pyDes: proofs *)
From Verif Require Import Py S_Base L_Py S_DES M_des M_desx S_DesSettings M_desstr S_DesPad L_des LP_des LP_tdes LP_desset LP_desstr.
From Coq Require Import ZifyBool ZifyNat.
Ltac Zify.zify_post_hook ::= Z.div_mod_to_equations.


(** *** what is independent of the padding settings *)
Definition rb (b : base) (s : des) : des := mkDes b (d_L s) (d_R s) (d_Kn s) (d_final s).
Definition nb {A} (m : M des A) : Prop := forall b s, m (rb b s) = (fst (m s), rb b (snd (m s))).
Lemma nb_bind {A B} (m : M des A) (k : A -> M des B) : nb m -> (forall a, nb (k a)) -> nb (bind m k).
Proof. intros Hm Hk b s. unfold bind. rewrite Hm. destruct (m s) as [[a|e] s1]; cbn [fst snd]; [|reflexivity]. apply Hk. Qed.
Lemma nb_lift {A} (r : res A) : nb (lift r). Proof. intros b s; reflexivity. Qed.
Lemma nb_ret {A} (a : A) : nb (ret a). Proof. intros b s; reflexivity. Qed.
Lemma nb_set_final f : nb (set_final f). Proof. intros b s; reflexivity. Qed.
Lemma nb_set_LR L R : nb (set_LR L R). Proof. intros b s; reflexivity. Qed.
Lemma nb_for n : forall i body, (forall i, nb (body i)) -> nb (for_loop n i body).
Proof. induction n; intros i body H; cbn [for_loop]; [apply nb_ret|]. apply nb_bind; auto. Qed.
#[local] Hint Resolve nb_lift nb_ret nb_set_final nb_set_LR : core.
Lemma nb_get {A} (k : des -> M des A) : (forall b s, k (rb b s) = k s) -> (forall x, nb (k x)) -> nb (bind get k).
Proof. intros E H b s. rewrite !bind_get, E. apply H. Qed.
Lemma nb_round it : nb (des_round it).
Proof.
  unfold des_round. apply nb_get; [intros; reflexivity|]. intros x. cbv zeta.
  repeat (apply nb_bind; [apply nb_lift|intro]). auto.
Qed.
Lemma nb_des_crypt blk t : nb (des_crypt blk t).
Proof.
  unfold des_crypt. apply nb_bind; [auto|intro]. apply nb_bind; [auto|intro]. apply nb_bind; [apply nb_for; intro; apply nb_round|intro].
  apply nb_get; [reflexivity|intro]. repeat (apply nb_bind; [auto|intro]). auto.
Qed.
Definition rp (p : list Z) (m : Z) (s : des) : des :=
  rb (mkBase (b_mode (d_base s)) (b_iv (d_base s)) p m (b_key (d_base s))) s.
Lemma rp_with p m s : with_padding p m s = rp p m s. Proof. reflexivity. Qed.
(** [m] commutes with setting the padding *)
Definition cm {A} (Q : A -> Prop) (m : M des A) (s : des) : Prop :=
  (forall p pm, m (rp p pm s) = (fst (m s), rp p pm (snd (m s)))) /\ d_base (snd (m s)) = d_base s
  /\ (forall a, fst (m s) = Ok a -> Q a).
Lemma cm_bind {A B} (P : A -> Prop) (Q : B -> Prop) (m : M des A) (k : A -> M des B) s : cm P m s ->
  (forall a s', P a -> d_base s' = d_base s -> cm Q (k a) s') -> cm Q (bind m k) s.
Proof.
  intros (H1 & H2 & H3) Hk. unfold cm, bind. destruct (m s) as [[a|e] s1] eqn:E; cbn [fst snd] in *.
  - destruct (Hk a s1 (H3 a eq_refl) H2) as (K1 & K2 & K3). split; [|split; [congruence|exact K3]].
    intros p pm. rewrite H1. apply K1.
  - split; [|split; [exact H2|discriminate]]. intros p pm. now rewrite H1.
Qed.
Lemma cm_ret {A} (Q : A -> Prop) a s : Q a -> cm Q (ret a) s.
Proof. intros H. repeat split. cbn. intros x E. congruence. Qed.
Lemma cm_raise {A} (Q : A -> Prop) e s : cm Q (raise e) s. Proof. repeat split. discriminate. Qed.
Lemma cm_des_crypt blk t s : cm (fun r => length r = 64%nat) (des_crypt blk t) s.
Proof.
  split; [|split].
  - intros p pm. unfold rp at 1. rewrite nb_des_crypt. destruct (keeps_des_crypt blk t s) as [K _]. unfold rp. now rewrite <- K.
  - destruct (keeps_des_crypt blk t s) as [K _]. congruence.
  - intros a E. destruct (des_crypt blk t s) as [r s1] eqn:ED. cbn [fst] in E. subst r. now apply des_crypt_len in ED.
Qed.
Lemma BitList_len data : forall pos c res, (pos mod 8 + Z.of_nat (length data)) mod 8 = 0 -> 0 <= pos ->
  8 * Z.of_nat (length (BitList_loop data pos c res)) = 8 * Z.of_nat (length res) + pos mod 8 + Z.of_nat (length data).
Proof.
  induction data as [|x data IH]; intros pos c res H Hp; cbn [BitList_loop]; [cbn [length] in *; lia|].
  cbn [length] in *. destruct (Z.eqb_spec (pos mod 8) 7) as [E|E]; rewrite IH by lia; try rewrite app_length; cbn [length]; lia.
Qed.
Lemma BitList_8 l : length l = 64%nat -> length (BitList_to_String l) = 8%nat.
Proof. intros H. unfold BitList_to_String. pose proof (BitList_len l 0 0 []) as Q. rewrite H in Q. cbn [length] in Q. lia. Qed.
Lemma cm_get {A} (Q : A -> Prop) (k : des -> M des A) s : (forall p pm, k (rp p pm s) = k s) -> cm Q (k s) s -> cm Q (bind get k) s.
Proof. intros E (H1 & H2 & H3). split; [|split; [exact H2|exact H3]]. intros p pm. rewrite !bind_get, E. apply H1. Qed.
Lemma cm_eq {A} (Q : A -> Prop) (m m' : M des A) s : (forall p pm, m (rp p pm s) = m' (rp p pm s)) -> m s = m' s -> cm Q m' s -> cm Q m s.
Proof. intros E1 E2 (H1 & H2 & H3). unfold cm. rewrite E2. split; [|auto]. intros p pm. rewrite E1. apply H1. Qed.
Definition m8 (l : list Z) : Prop := zlen l mod 8 = 0.
Lemma xor_len a : forall b, length (xor_lists a b) = Nat.min (length a) (length b).
Proof. induction a as [|x a IH]; intros [|y b]; cbn; auto. Qed.
Lemma bits_len l : length (String_to_BitList l) = (8 * length l)%nat.
Proof. now rewrite String_to_BitList_ok, bz_length, to_bits_length. Qed.
Lemma block_len data i : 0 <= i < zlen data -> i mod 8 = 0 -> m8 data -> length (String_to_BitList (py_slice data i (i + 8))) = 64%nat.
Proof.
  intros H1 H2 H3. unfold m8 in H3. rewrite bits_len. rewrite py_slice_in by lia. unfold zlen in *. rewrite sub_length; lia.
Qed.
Lemma m8_app a l : m8 a -> length l = 64%nat -> m8 (a ++ BitList_to_String l).
Proof. intros H1 H2. apply BitList_8 in H2. unfold m8, zlen in *. rewrite app_length. lia. Qed.
Lemma cm_loop fuel : forall data t i iv res s, 0 <= i -> i mod 8 = 0 -> m8 data -> m8 res ->
  (b_mode (d_base s) = CBC -> length iv = 64%nat) -> cm m8 (crypt_loop fuel data t i iv res) s.
Proof.
  induction fuel as [|fuel IH]; intros data t i iv res s H1 H2 H3 H4 H5; [apply cm_raise|]. cbn [crypt_loop].
  destruct (Z.ltb_spec i (zlen data)) as [Hl|Hl]; [|now apply cm_ret]. cbv zeta. apply cm_get; [reflexivity|].
  pose proof (block_len data i ltac:(lia) H2 H3) as BL.
  destruct (Z.eqb_spec (b_mode (d_base s)) CBC) as [E|E].
  - eapply cm_bind; [apply cm_des_crypt|]. intros a s' Ha Hs. cbn beta in Ha. specialize (H5 E).
    assert (L : length (if t =? DECRYPT then xor_lists a iv else a) = 64%nat) by (destruct (t =? DECRYPT); [rewrite xor_len|]; lia).
    apply IH; auto; try lia; [now apply m8_app|]. intros _.
    destruct (t =? DECRYPT) eqn:ED; [|exact L]. destruct (t =? ENCRYPT); [rewrite xor_len|]; lia.
  - eapply cm_bind; [apply cm_des_crypt|]. intros a s' Ha Hs. cbn beta in Ha. apply IH; auto; try lia; [now apply m8_app|]. congruence.
Qed.
Definition ivg (s : des) : Prop := b_iv (d_base s) = [] \/ length (b_iv (d_base s)) = 8%nat.
Lemma cm_crypt data t s : ivg s -> m8 data \/ t = DECRYPT -> cm m8 (crypt data t) s.
Proof.
  intros Hi H. unfold crypt. destruct data as [|x data0]; cbn [nonempty negb]; [apply cm_ret; reflexivity|]. set (data := x :: data0) in *.
  clearbody data. apply (cm_eq _ _ (if zlen data mod 8 =? 0 then if (b_mode (d_base s) =? CBC) && negb (nonempty (b_iv (d_base s))) then raise ValueError
    else crypt_loop (S (length data)) data t 0 (String_to_BitList (b_iv (d_base s))) [] else raise ValueError)).
  - intros p pm. rewrite bind_get. cbn [rp rb d_base b_mode b_iv]. destruct (Z.eqb_spec (zlen data mod 8) 0) as [E|E].
    + exact (bind_ok (ret data) _ _ data _ eq_refl).
    + destruct H as [H| ->]; [now elim E|]. reflexivity.
  - rewrite bind_get. destruct (Z.eqb_spec (zlen data mod 8) 0) as [E|E].
    + exact (bind_ok (ret data) _ _ data _ eq_refl).
    + destruct H as [H| ->]; [now elim E|]. reflexivity.
  - destruct (Z.eqb_spec (zlen data mod 8) 0) as [E|E]; [|apply cm_raise].
    destruct (Z.eqb_spec (b_mode (d_base s)) CBC) as [EC|EC]; cbn [andb].
    + destruct (b_iv (d_base s)) as [|v vs] eqn:EV; cbn [nonempty negb]; [apply cm_raise|]. rewrite <- EV. apply cm_loop; auto; try lia; try reflexivity.
      intros _. rewrite bits_len. destruct Hi as [Q|Q]; [congruence|lia].
    + apply cm_loop; auto; try lia; try reflexivity; congruence.
Qed.
(** for des objects the IV need not be 8 bytes long *)
Lemma crypt_rp data t s p pm : m8 data \/ t = DECRYPT ->
  crypt data t (rp p pm s) = (fst (crypt data t s), rp p pm (snd (crypt data t s))).
Proof.
  intros H. unfold crypt. destruct data as [|x data0]; cbn [nonempty negb]; [reflexivity|]. set (data := x :: data0) in *. clearbody data.
  assert (L : forall fuel data i iv res s, crypt_loop fuel data t i iv res (rp p pm s) = (fst (crypt_loop fuel data t i iv res s), rp p pm (snd (crypt_loop fuel data t i iv res s)))).
  { clear. induction fuel as [|fuel IH]; intros data i iv res s; [reflexivity|]. cbn [crypt_loop]. destruct (i <? zlen data); [|reflexivity].
    cbv zeta. rewrite !bind_get. cbn [rp rb d_base b_mode]. fold (rb (mkBase (b_mode (d_base s)) (b_iv (d_base s)) p pm (b_key (d_base s))) s). fold (rp p pm s).
    assert (G : forall blk (k : list Z -> M des (list Z)), (forall a s, k a (rp p pm s) = (fst (k a s), rp p pm (snd (k a s)))) ->
      bind (des_crypt blk t) k (rp p pm s) = (fst (bind (des_crypt blk t) k s), rp p pm (snd (bind (des_crypt blk t) k s)))).
    { intros blk k Hk. unfold bind. destruct (cm_des_crypt blk t s) as (C & _). rewrite C.
      destruct (des_crypt blk t s) as [[a|e] s1]; cbn [fst snd]; [apply Hk|reflexivity]. }
    destruct (b_mode (d_base s) =? CBC); apply G; intros; apply IH. }
  rewrite !bind_get. cbn [rp rb d_base b_mode b_iv]. fold (rb (mkBase (b_mode (d_base s)) (b_iv (d_base s)) p pm (b_key (d_base s))) s). fold (rp p pm s).
  destruct (Z.eqb_spec (zlen data mod 8) 0) as [E|E].
  - rewrite !(bind_ok (ret data) _ _ data _ eq_refl). destruct (_ && _); [reflexivity|apply L].
  - destruct H as [H| ->]; [now elim E|]. reflexivity.
Qed.

(** *** C112: des *)
Lemma nonempty_nil (p : list Z) : nonempty p = true <-> p <> [].
Proof. destruct p; cbn; split; congruence. Qed.
Definition pb (p : list Z) (m : Z) (b : base) : base := mkBase (b_mode b) (b_iv b) p m (b_key b).
Lemma padData_eff b data p pm : ~ clash (eff_mode (b_padmode b) pm) p ->
  padData b data p pm = padData (pb (eff_pad (b_pad b) p) (eff_mode (b_padmode b) pm) b) data [] None.
Proof.
  unfold clash. intros H. unfold padData. cbn [pb b_pad b_padmode nonempty andb]. fold (eff_mode (b_padmode b) pm). set (m := eff_mode _ _) in *.
  replace (nonempty p && (m =? PAD_PKCS5)) with false.
  2: { destruct p; [reflexivity|]. cbn [nonempty andb]. destruct (Z.eqb_spec m PAD_PKCS5); [|reflexivity]. elim H. split; [discriminate|assumption]. }
  destruct p; reflexivity.
Qed.
Lemma padData_m8 b data p pm r : eff_mode (b_padmode b) pm = PAD_PKCS5 \/ eff_mode (b_padmode b) pm = PAD_NORMAL /\ (length (eff_pad (b_pad b) p) <= 1)%nat ->
  padData b data p pm = Ok r -> m8 r.
Proof.
  unfold padData. fold (eff_mode (b_padmode b) pm). set (m := eff_mode _ _). clearbody m. intros H E.
  destruct (nonempty p && _); [discriminate|]. destruct H as [H|[H HL]]; rewrite H in E.
  - change (PAD_PKCS5 =? PAD_NORMAL) with false in E. change (PAD_PKCS5 =? PAD_PKCS5) with true in E. cbv iota zeta in E.
    remember (8 - zlen data mod 8) as k eqn:EK. injection E as <-.
    unfold m8, zlen in *. rewrite app_length. unfold py_repeat. rewrite repeat_length. lia.
  - change (PAD_NORMAL =? PAD_NORMAL) with true in E. cbv iota zeta in E. destruct (Z.eqb_spec (zlen data mod 8) 0) as [E0|E0]; [injection E as <-; exact E0|].
    replace (if nonempty p then p else b_pad b) with (eff_pad (b_pad b) p) in E by (destruct p; reflexivity).
    destruct (eff_pad (b_pad b) p) as [|x [|y l]]; cbn [nonempty] in E; [discriminate| |cbn in HL; lia].
    remember (8 - zlen data mod 8) as k eqn:EK. injection E as <-. unfold bytes_times.
    unfold m8, zlen in *. rewrite app_length. assert (C : forall n, length (concat (repeat [x] n)) = n) by (induction n; cbn; auto). rewrite C. lia.
Qed.
Lemma unpadData_eff b data p pm : ~ clash (eff_mode (b_padmode b) pm) p ->
  unpadData b data p pm = unpadData (pb (eff_pad (b_pad b) p) (eff_mode (b_padmode b) pm) b) data [] None.
Proof.
  unfold clash. intros H. unfold unpadData. cbn [pb b_pad b_padmode nonempty andb]. fold (eff_mode (b_padmode b) pm).
  replace (nonempty p && match pm with Some m => m =? PAD_PKCS5 | None => false end) with false.
  2: { destruct p; [reflexivity|]. destruct pm as [m|]; [|reflexivity]. cbn [nonempty andb eff_mode] in *. destruct (Z.eqb_spec m PAD_PKCS5); [|reflexivity].
    elim H. split; [discriminate|assumption]. }
  destruct p; reflexivity.
Qed.
Lemma encrypt_rp data p pm s : let m := eff_mode (getPadMode s) pm in let q := eff_pad (getPadding s) p in
  ~ clash m p -> m = PAD_PKCS5 \/ m = PAD_NORMAL /\ (length q <= 1)%nat ->
  fst (des_encrypt data p pm s) = fst (des_encrypt data [] None (rp q m s)).
Proof.
  intros m q Hc Hm. unfold des_encrypt. rewrite !bind_get. unfold getPadMode, getPadding in *.
  change (d_base (rp q m s)) with (pb q m (d_base s)). unfold q, m. rewrite <- padData_eff by exact Hc. unfold bind, lift.
  destruct (padData _ _ _ _) as [r|e] eqn:E; [|reflexivity]. apply padData_m8 in E; [|exact Hm]. rewrite crypt_rp by auto. reflexivity.
Qed.
Lemma decrypt_rp data p pm s : let m := eff_mode (getPadMode s) pm in let q := eff_pad (getPadding s) p in
  ~ clash m p -> fst (des_decrypt data p pm s) = fst (des_decrypt data [] None (rp q m s)).
Proof.
  intros m q Hc. unfold des_decrypt. unfold bind at 1 3. rewrite crypt_rp by auto.
  destruct (keeps_crypt data DECRYPT s) as [K _]. destruct (crypt data DECRYPT s) as [[r|e] s1]; cbn [fst snd] in *; [|reflexivity].
  rewrite !bind_get. unfold lift. cbn [fst]. change (d_base (rp q m s1)) with (pb q m (d_base s1)). unfold q, m, getPadMode, getPadding in *.
  rewrite K in *. now apply unpadData_eff.
Qed.

Lemma C112_des_partial_pf : forall d data p pm,
  let m := eff_mode (getPadMode d) pm in let q := eff_pad (getPadding d) p in
  ~ clash m p ->
  (m = PAD_PKCS5 \/ m = PAD_NORMAL /\ (length q <= 1)%nat ->
    fst (des_encrypt data p pm d) = fst (des_encrypt data [] None (with_padding q m d)))
  /\ fst (des_decrypt data p pm d) = fst (des_decrypt data [] None (with_padding q m d)).
Proof.
  intros d data p pm m q Hc. split; [intros Hm; now apply encrypt_rp|now apply decrypt_rp].
Qed.

Lemma C112_clash_refuted_pf : forall d data p, p <> [] ->
  (forall pm, eff_mode (getPadMode d) pm = PAD_PKCS5 -> des_encrypt data p pm d = (Err ValueError, d))
  /\ des_decrypt [] p (Some PAD_PKCS5) d = (Ok [], d)
  /\ (forall v, fst (des_decrypt data [] (Some PAD_PKCS5) d) = Ok v -> data <> [] -> fst (des_decrypt data p (Some PAD_PKCS5) d) = Err ValueError)
  /\ (getPadMode d = PAD_PKCS5 -> des_decrypt data p None d = des_decrypt data [] None d).
Proof.
  intros d data p Hp. assert (Hn : nonempty p = true) by now apply nonempty_nil. split; [|split; [|split]].
  - intros pm Hm. unfold des_encrypt. rewrite bind_get. unfold padData. fold (eff_mode (b_padmode (d_base d)) pm). unfold getPadMode in Hm. rewrite Hm, Hn.
    reflexivity.
  - reflexivity.
  - intros v. unfold des_decrypt. unfold bind at 1 3. destruct (crypt data DECRYPT d) as [[r|e] s1] eqn:EC; [|discriminate].
    rewrite !bind_get. unfold lift. cbn [fst]. intros _ Hd. unfold unpadData. rewrite Hn. destruct r as [|x r]; [|reflexivity].
    exfalso. eapply crypt_nonempty; eauto.
  - intros Hm. unfold des_decrypt, bind. destruct (keeps_crypt data DECRYPT d) as [K _]. destruct (crypt data DECRYPT d) as [[r|e] s1]; [|reflexivity].
    cbn [snd] in K. unfold get, lift. f_equal. unfold getPadMode in Hm. unfold unpadData. rewrite <- K, Hm, andb_false_r. reflexivity.
Qed.

Lemma C112_other_refuted_pf : forall d data p pm, let m := eff_mode (getPadMode d) pm in
  m <> PAD_NORMAL -> m <> PAD_PKCS5 -> des_encrypt data p pm d = des_encrypt data [] pm d.
Proof.
  intros d data p pm m H1 H2. unfold des_encrypt. rewrite !bind_get. unfold m, getPadMode in *. unfold padData.
  fold (eff_mode (b_padmode (d_base d)) pm). set (x := eff_mode _ _) in *. clearbody x.
  replace (x =? PAD_NORMAL) with false by lia. replace (x =? PAD_PKCS5) with false by lia. now rewrite !andb_false_r.
Qed.

Lemma C112_full_refuted_pf : ~ C112_full.
Proof.
  intros H. destruct (des_new_exists (repeat 1 8) ECB [] [] PAD_PKCS5) as [d E]; auto.
  destruct (H (repeat 1 8) ECB [] [] PAD_PKCS5 d (repeat 1 8) [32] None) as [Q _]; [exists d, []; auto|discriminate|].
  assert (PM : getPadMode d = PAD_PKCS5) by (apply des_new_wf in E as (W & _); unfold getPadMode; now rewrite (proj1 W)).
  destruct Q as [_ Q]; [split; [discriminate|]; cbn [eff_mode]; exact PM|].
  assert (X : exists d, des_new (repeat 1 8) ECB [] [] PAD_PKCS5 = Ok d /\ fst (des_decrypt (repeat 1 8) [32] None d) <> Err ValueError).
  { eexists. split; [vm_compute; reflexivity|]. vm_compute. discriminate. }
  destruct X as (d2 & E2 & X). rewrite E in E2. injection E2 as ->. exact (X Q).
Qed.

(** *** triple_des *)
Definition trp (p : list Z) (m : Z) (s : tdes) : tdes :=
  mkTdes (pb p m (t_base s)) (rp p m (t_k1 s)) (rp p m (t_k2 s)) (option_map (rp p m) (t_k3 s)).
Lemma trp_with p m s : t_with_padding p m s = trp p m s.
Proof. destruct s as [b k1 k2 [k3|]]; reflexivity. Qed.
Definition tivg (s : tdes) : Prop := ivg (t_k1 s) /\ ivg (t_k2 s) /\ match t_k3 s with Some k => ivg k | None => True end.
Definition cmi {A} (Q : A -> Prop) (m : M des A) : Prop := forall s, ivg s ->
  (forall p pm, m (rp p pm s) = (fst (m s), rp p pm (snd (m s)))) /\ ivg (snd (m s)) /\ (forall a, fst (m s) = Ok a -> Q a).
Definition tcm {A} (Q : A -> Prop) (m : M tdes A) : Prop := forall s, tivg s ->
  (forall p pm, m (trp p pm s) = (fst (m s), trp p pm (snd (m s)))) /\ tivg (snd (m s)) /\ (forall a, fst (m s) = Ok a -> Q a).
Lemma tcm_bind {A B} (P : A -> Prop) (Q : B -> Prop) (m : M tdes A) (k : A -> M tdes B) : tcm P m ->
  (forall a, P a -> tcm Q (k a)) -> tcm Q (bind m k).
Proof.
  intros Hm Hk s Hs. destruct (Hm s Hs) as (H1 & H2 & H3). unfold bind. destruct (m s) as [[a|e] s1] eqn:E; cbn [fst snd] in *.
  - destruct (Hk a (H3 a eq_refl) s1 H2) as (K1 & K2 & K3). split; [|split; [exact K2|exact K3]].
    intros p pm. rewrite H1. apply K1.
  - split; [|split; [exact H2|discriminate]]. intros p pm. now rewrite H1.
Qed.
Lemma tcm_ret {A} (Q : A -> Prop) a : Q a -> tcm Q (ret a).
Proof. intros H s Hs. split; [reflexivity|]. split; [exact Hs|]. intros x E. cbn in E. congruence. Qed.
Lemma tcm_raise {A} (Q : A -> Prop) e : tcm Q (raise e).
Proof. intros s Hs. split; [reflexivity|]. split; [exact Hs|]. discriminate. Qed.
Lemma tcm_weak {A} (Q : A -> Prop) (m : M tdes A) : tcm Q m -> tcm (fun _ => True) m.
Proof. intros H s Hs. destruct (H s Hs) as (H1 & H2 & _). auto. Qed.
Lemma tcm_k1 {A} (Q : A -> Prop) (m : M des A) : cmi Q m -> tcm Q (on_k1 m).
Proof.
  intros Hm s (I1 & I2 & I3). destruct (Hm _ I1) as (H1 & H2 & H3). unfold on_k1. cbn [trp t_k1 t_base t_k2 t_k3].
  destruct (m (t_k1 s)) as [r d] eqn:E. cbn [fst snd] in *. split; [|split; [repeat split; assumption|exact H3]].
  intros p pm. rewrite H1. reflexivity.
Qed.
Lemma tcm_k2 {A} (Q : A -> Prop) (m : M des A) : cmi Q m -> tcm Q (on_k2 m).
Proof.
  intros Hm s (I1 & I2 & I3). destruct (Hm _ I2) as (H1 & H2 & H3). unfold on_k2. cbn [trp t_k1 t_base t_k2 t_k3].
  destruct (m (t_k2 s)) as [r d] eqn:E. cbn [fst snd] in *. split; [|split; [repeat split; assumption|exact H3]].
  intros p pm. rewrite H1. reflexivity.
Qed.
Lemma tcm_k3 {A} (Q : A -> Prop) (m : M des A) : cmi Q m -> tcm Q (on_k3 m).
Proof.
  intros Hm s Hs. pose proof (tcm_k1 Q m Hm s Hs) as K1. destruct s as [b k1 k2 [k3|]]; [clear K1|exact K1]. destruct Hs as (I1 & I2 & I3).
  cbn [t_k1 t_k2 t_k3] in *. destruct (Hm _ I3) as (H1 & H2 & H3). unfold on_k3. cbn [trp t_k1 t_base t_k2 t_k3 option_map].
  destruct (m k3) as [r d] eqn:E. cbn [fst snd] in *. split; [|split; [repeat split; assumption|exact H3]].
  intros p pm. rewrite H1. reflexivity.
Qed.
Lemma cmi_crypt data t : m8 data \/ t = DECRYPT -> cmi m8 (crypt data t).
Proof.
  intros H s Hs. destruct (cm_crypt data t s Hs H) as (H1 & H2 & H3). split; [exact H1|]. split; [|exact H3].
  unfold ivg in *. now rewrite H2.
Qed.
Lemma cmi_setIV v : cmi (fun _ => True) (des_setIV v).
Proof.
  intros s Hs. unfold des_setIV, base_setIV. rewrite !bind_get. destruct (Z.eqb_spec (zlen v) 8) as [E|E].
  - split; [reflexivity|]. split; [|auto]. right. unfold zlen in E. cbn. lia.
  - split; [intros; rewrite bind_get; reflexivity|]. split; [exact Hs|auto].
Qed.
#[local] Hint Resolve cmi_crypt cmi_setIV tcm_k1 tcm_k2 tcm_k3 : core.
Lemma tcm_keys_setIV v : tcm (fun _ => True) (keys_setIV v).
Proof. unfold keys_setIV. repeat (eapply tcm_bind; [solve [eauto]|intros]). auto. Qed.
#[local] Hint Resolve tcm_keys_setIV : core.
Lemma slice_m8 data i : 0 <= i < zlen data -> i mod 8 = 0 -> m8 data -> m8 (py_slice data i (i + 8)).
Proof.
  intros H1 H2 H3. unfold m8 in *. rewrite py_slice_in by (unfold zlen in *; lia). unfold zlen in *. rewrite sub_length; lia.
Qed.
Lemma m8_cat a b : m8 a -> m8 b -> m8 (a ++ b).
Proof. unfold m8, zlen. rewrite app_length. lia. Qed.
Lemma tcm_enc_loop fuel : forall data i res, 0 <= i -> i mod 8 = 0 -> m8 data -> m8 res -> tcm m8 (tdes_enc_loop fuel data i res).
Proof.
  induction fuel; intros data i res H1 H2 H3 H4; cbn [tdes_enc_loop]; [apply tcm_raise|]. destruct (Z.ltb_spec i (zlen data)); [|now apply tcm_ret].
  pose proof (slice_m8 data i ltac:(lia) H2 H3) as SL.
  eapply tcm_bind; [apply tcm_k1, cmi_crypt; auto|intros a Ha]. eapply tcm_bind; [apply tcm_k2, cmi_crypt; auto|intros b Hb].
  eapply tcm_bind; [apply tcm_k3, cmi_crypt; auto|intros c Hc]. eapply tcm_bind; [apply tcm_keys_setIV|intros _ _].
  apply IHfuel; try lia; auto using m8_cat.
Qed.
Lemma tcm_dec_loop fuel : forall data i res, tcm (fun _ => True) (tdes_dec_loop fuel data i res).
Proof.
  induction fuel; intros data i res; cbn [tdes_dec_loop]; [apply tcm_raise|]. destruct (i <? zlen data); [|now apply tcm_ret]. cbv zeta.
  eapply tcm_bind; [apply tcm_k3, cmi_crypt; auto|intros a Ha]. eapply tcm_bind; [apply tcm_k2, cmi_crypt; auto|intros b Hb].
  eapply tcm_bind; [apply tcm_k1, cmi_crypt; auto|intros c Hc]. eapply tcm_bind; [apply tcm_keys_setIV|intros _ _]. apply IHfuel.
Qed.
Lemma t_encrypt_rp data p pm s : tivg s -> let m := eff_mode (t_getPadMode s) pm in let q := eff_pad (t_getPadding s) p in
  ~ clash m p -> m = PAD_PKCS5 \/ m = PAD_NORMAL /\ (length q <= 1)%nat ->
  fst (tdes_encrypt data p pm s) = fst (tdes_encrypt data [] None (trp q m s)).
Proof.
  intros Hs m q Hc Hm. unfold tdes_encrypt. rewrite !bind_get. unfold t_getPadMode, t_getPadding in *.
  change (t_base (trp q m s)) with (pb q m (t_base s)). unfold q, m. rewrite <- padData_eff by exact Hc. unfold bind at 1 4, lift.
  destruct (padData _ _ _ _) as [r|e] eqn:E; [|reflexivity]. apply padData_m8 in E; [|exact Hm]. cbn [pb b_mode b_iv].
  match goal with |- fst (?f s) = _ => assert (K : tcm m8 f) end.
  { destruct (_ =? CBC).
    - eapply tcm_bind; [apply tcm_keys_setIV|intros _ _]. apply tcm_enc_loop; [lia|reflexivity|exact E|reflexivity].
    - eapply tcm_bind; [apply tcm_k1, cmi_crypt; auto|intros a Ha]. eapply tcm_bind; [apply tcm_k2, cmi_crypt; auto|intros b Hb].
      apply tcm_k3, cmi_crypt; auto. }
  destruct (K s Hs) as [K1 _]. now rewrite K1.
Qed.
Lemma t_decrypt_rp data p pm s : tivg s -> let m := eff_mode (t_getPadMode s) pm in let q := eff_pad (t_getPadding s) p in
  ~ clash m p -> fst (tdes_decrypt data p pm s) = fst (tdes_decrypt data [] None (trp q m s)).
Proof.
  intros Hs m q Hc. unfold tdes_decrypt. rewrite !bind_get. change (t_base (trp q m s)) with (pb q m (t_base s)). cbn [pb b_mode b_iv].
  match goal with |- fst (bind ?f _ s) = _ => set (g := f); assert (K : tcm (fun _ => True) g); [|assert (N : nobase g)] end.
  { unfold g. destruct (_ =? CBC).
    - eapply tcm_bind; [apply tcm_keys_setIV|intros _ _]. apply tcm_dec_loop.
    - eapply tcm_bind; [apply tcm_k3, cmi_crypt; auto|intros a Ha]. eapply tcm_bind; [apply tcm_k2, cmi_crypt; auto|intros b Hb].
      apply (tcm_weak m8). apply tcm_k1, cmi_crypt; auto. }
  { unfold g. destruct (_ =? CBC); repeat (apply nobase_bind; [auto using nobase_k1, nobase_k2, nobase_k3, nobase_keys_setIV|intro]);
      auto using nobase_k1, nobase_k2, nobase_k3, nobase_dec_loop. }
  destruct (K s Hs) as [K1 _]. pose proof (nobase_base g s N) as NB. clearbody g. unfold bind at 1 3. rewrite K1.
  destruct (g s) as [[r|e] s1]; cbn [fst snd] in *; [|reflexivity]. rewrite !bind_get. unfold lift. cbn [fst].
  change (t_base (trp q m s1)) with (pb q m (t_base s1)). unfold q, m, t_getPadMode, t_getPadding in *. rewrite <- NB in *. now apply unpadData_eff.
Qed.
Definition ki {A} (m : M des A) : Prop := forall s, ivg s -> ivg (snd (m s)).
Definition tki {A} (m : M tdes A) : Prop := forall s, tivg s -> tivg (snd (m s)).
Lemma tki_bind {A B} (m : M tdes A) (k : A -> M tdes B) : tki m -> (forall a, tki (k a)) -> tki (bind m k).
Proof. intros Hm Hk s H. specialize (Hm s H). unfold bind. destruct (m s) as [[a|e] s1]; cbn [snd] in *; [now apply Hk|exact Hm]. Qed.
Lemma tki_get : tki (@get tdes). Proof. intros s H; exact H. Qed.
Lemma tki_lift {A} (r : res A) : tki (lift r). Proof. intros s H; exact H. Qed.
Lemma tki_ret {A} (a : A) : tki (ret a). Proof. intros s H; exact H. Qed.
Lemma tki_raise {A} e : tki (@raise tdes A e). Proof. intros s H; exact H. Qed.
Lemma tki_base b : tki (t_set_base b). Proof. intros s H; exact H. Qed.
Lemma tki_k1 {A} (m : M des A) : ki m -> tki (on_k1 m).
Proof. intros Hm s (H1 & H2 & H3). specialize (Hm _ H1). unfold on_k1. destruct (m (t_k1 s)). repeat split; assumption. Qed.
Lemma tki_k2 {A} (m : M des A) : ki m -> tki (on_k2 m).
Proof. intros Hm s (H1 & H2 & H3). specialize (Hm _ H2). unfold on_k2. destruct (m (t_k2 s)). repeat split; assumption. Qed.
Lemma tki_k3 {A} (m : M des A) : ki m -> tki (on_k3 m).
Proof.
  intros Hm s H. unfold on_k3. destruct (t_k3 s) as [k|] eqn:E; [|now apply tki_k1]. destruct H as (H1 & H2 & H3). rewrite E in H3.
  specialize (Hm _ H3). destruct (m k). repeat split; assumption.
Qed.
Lemma ki_crypt data t : ki (crypt data t).
Proof. intros s H. destruct (keeps_crypt data t s) as [K _]. unfold ivg. now rewrite <- K. Qed.
Lemma ki_setIV v : ki (des_setIV v). Proof. intros s H. apply (cmi_setIV v s H). Qed.
Lemma ki_setMode v : ki (des_setMode v). Proof. intros s H. exact H. Qed.
Lemma ki_setPadding v : ki (des_setPadding v). Proof. intros s H. exact H. Qed.
Lemma ki_setPadMode v : ki (des_setPadMode v). Proof. intros s H. exact H. Qed.
#[local] Hint Resolve tki_get tki_lift tki_ret tki_raise tki_base tki_k1 tki_k2 tki_k3 ki_crypt ki_setIV ki_setMode ki_setPadding ki_setPadMode : core.
Lemma tki_keys_setIV v : tki (keys_setIV v).
Proof. unfold keys_setIV. repeat (apply tki_bind; [solve [auto]|intro]). auto. Qed.
#[local] Hint Resolve tki_keys_setIV : core.
Lemma tki_enc_loop fuel : forall data i res, tki (tdes_enc_loop fuel data i res).
Proof. induction fuel; intros; cbn [tdes_enc_loop]; [auto|]. destruct (i <? zlen data); [|auto]. repeat (apply tki_bind; [solve [auto]|intro]). auto. Qed.
Lemma tki_dec_loop fuel : forall data i res, tki (tdes_dec_loop fuel data i res).
Proof. induction fuel; intros; cbn [tdes_dec_loop]; [auto|]. destruct (i <? zlen data); [|auto]. cbv zeta. repeat (apply tki_bind; [solve [auto]|intro]). auto. Qed.
#[local] Hint Resolve tki_enc_loop tki_dec_loop : core.
Lemma des_new_ivg key mode iv pad padmode d : des_new key mode iv pad padmode = Ok d -> ivg d.
Proof. intros E. apply des_new_wf in E as (W & _ & Hi & _). unfold ivg. rewrite (proj1 W). exact Hi. Qed.
Lemma setKey_ivg key b s : tdes_setKey key b = Ok s -> tivg s.
Proof.
  unfold tdes_setKey. destruct (negb _); [discriminate|]. cbv zeta. destruct (_ && negb (zlen _ =? 8)); [discriminate|].
  destruct (des_new _ _ _ _ _) as [k1|] eqn:E1; cbn [rbind]; [|discriminate]. destruct (des_new (py_slice key 8 16) _ _ _ _) as [k2|] eqn:E2; cbn [rbind]; [|discriminate].
  apply des_new_ivg in E1, E2. destruct (zlen key =? 16); cbn [rbind].
  - intros H. injection H as <-. repeat split; assumption.
  - destruct (des_new (py_slice_from key 16) _ _ _ _) as [k3|] eqn:E3; cbn [rmap rbind]; [|discriminate]. apply des_new_ivg in E3.
    intros H. injection H as <-. repeat split; assumption.
Qed.
Lemma ops_ivg h : forall s, tivg s -> tivg (tdes_ops h s).
Proof.
  induction h as [|o h IH]; intros s H; [exact H|]. cbn [tdes_ops fold_left]. apply IH. clear IH.
  destruct o as [k|m|v|p|m|c]; cbn [tdes_op].
  - unfold tdes_rekey. destruct (negb _); [exact H|]. cbv zeta. destruct (tdes_setKey k (t_base s)) as [s'|e] eqn:E; [|exact H]. cbn [snd]. now apply setKey_ivg in E.
  - revert s H. change (tki (tdes_setMode m)). unfold tdes_setMode. repeat (apply tki_bind; [solve [auto]|intro]). auto.
  - revert s H. change (tki (tdes_setIV v)). unfold tdes_setIV. repeat (apply tki_bind; [solve [auto]|intro]). auto.
  - revert s H. change (tki (tdes_setPadding p)). unfold tdes_setPadding. repeat (apply tki_bind; [solve [auto]|intro]). auto.
  - revert s H. change (tki (tdes_setPadMode m)). unfold tdes_setPadMode. repeat (apply tki_bind; [solve [auto]|intro]). auto.
  - destruct c as [data p pm|data p pm]; cbn [tdes_call]; revert s H.
    + change (tki (tdes_encrypt data p pm)). unfold tdes_encrypt. apply tki_bind; [auto|intro]. apply tki_bind; [auto|intro].
      destruct (_ =? CBC); repeat (apply tki_bind; [solve [auto]|intro]); auto.
    + change (tki (tdes_decrypt data p pm)). unfold tdes_decrypt. apply tki_bind; [auto|intro].
      apply tki_bind; [|intro; apply tki_bind; auto]. destruct (_ =? CBC); repeat (apply tki_bind; [solve [auto]|intro]); auto.
Qed.

Lemma C112_tdes_partial_pf : forall key mode iv pad padmode d0 h data p pm, tdes_new key mode iv pad padmode = Ok d0 ->
  let d := tdes_ops h d0 in
  let m := eff_mode (t_getPadMode d) pm in let q := eff_pad (t_getPadding d) p in
  ~ clash m p ->
  (m = PAD_PKCS5 \/ m = PAD_NORMAL /\ (length q <= 1)%nat ->
    fst (tdes_encrypt data p pm d) = fst (tdes_encrypt data [] None (t_with_padding q m d)))
  /\ fst (tdes_decrypt data p pm d) = fst (tdes_decrypt data [] None (t_with_padding q m d)).
Proof.
  intros key mode iv pad padmode d0 h data p pm E d m q Hc.
  assert (I0 : tivg d0).
  { unfold tdes_new in E. destruct (base_init _ _ _ _); cbn [rbind] in E; [|discriminate]. now apply setKey_ivg in E. }
  pose proof (ops_ivg h d0 I0) as Id. fold d in Id. rewrite trp_with. split; [intros Hm; now apply t_encrypt_rp|now apply t_decrypt_rp].
Qed.

Lemma C112_tdes_clash_refuted_pf : forall d data p, p <> [] ->
  (forall pm, eff_mode (t_getPadMode d) pm = PAD_PKCS5 -> tdes_encrypt data p pm d = (Err ValueError, d))
  /\ (t_getPadMode d = PAD_PKCS5 -> tdes_decrypt data p None d = tdes_decrypt data [] None d).
Proof.
  intros d data p Hp. assert (Hn : nonempty p = true) by now apply nonempty_nil. split.
  - intros pm Hm. unfold tdes_encrypt. rewrite bind_get. unfold padData. fold (eff_mode (b_padmode (t_base d)) pm). unfold t_getPadMode in Hm. rewrite Hm, Hn.
    reflexivity.
  - intros Hm. unfold tdes_decrypt. rewrite !bind_get. match goal with |- bind ?f _ d = _ => set (g := f); assert (N : nobase g) end.
    { unfold g. destruct (_ =? CBC); repeat (apply nobase_bind; [auto using nobase_k1, nobase_k2, nobase_k3, nobase_keys_setIV|intro]);
        auto using nobase_k1, nobase_k2, nobase_k3, nobase_dec_loop. }
    pose proof (nobase_base g d N) as NB. clearbody g. unfold bind. destruct (g d) as [[r|e] s1]; [|reflexivity]. cbn [snd] in NB.
    unfold get, lift. f_equal. unfold t_getPadMode in Hm. unfold unpadData. rewrite NB, Hm, andb_false_r. reflexivity.
Qed.
