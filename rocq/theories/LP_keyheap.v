(** * C116-C117: key objects, the pairs that refer to them, and CRT keys: proofs *)
From Verif Require Import Py S_Base S_Key L_Py M_utils M_util L_utils L_util M_key M_keyheap S_KeyHeap.
From Coq Require Import ZifyBool ZifyNat.
Ltac Zify.zify_post_hook ::= Z.div_mod_to_equations.

Lemma krun_cons X c cs p : krun X (c :: cs) p =
  (fst (kstep X c p) :: fst (krun X cs (snd (kstep X c p))), snd (krun X cs (snd (kstep X c p)))).
Proof. cbn [krun]. destruct (kstep X c p) as [r p1]. cbn [fst snd]. destruct (krun X cs p1); reflexivity. Qed.

(** pairs refer to existing keys *)
Definition kwf (p : kprog) : Prop := forall q h, nth_error (pairs_ p) q = Some h ->
  (exists a, nth_error (keys p) (hp_pub h) = Some (KPub a)) /\ (exists b, nth_error (keys p) (hp_priv h) = Some (KPriv b)).
Lemma nth_error_app_some {A} (l l' : list A) i x : nth_error l i = Some x -> nth_error (l ++ l') i = Some x.
Proof. intros H. rewrite nth_error_app1; [assumption|]. apply nth_error_Some. congruence. Qed.
Lemma key_set_pub X s a : exists a', snd (key_set X s (KPub a)) = KPub a'.
Proof. cbn [key_set]. destruct s; [destruct (pub_setExponent _ _ _ _ _)|destruct (pub_setModulus _ _ _ _ _)]; cbn [snd]; eauto. Qed.
Lemma key_set_priv X s a : exists a', snd (key_set X s (KPriv a)) = KPriv a'.
Proof. cbn [key_set]. destruct s; [destruct (priv_setExponent _ _ _ _)|destruct (priv_setModulus _ _ _ _)]; cbn [snd]; eauto. Qed.
Lemma upd_inv_k {A} (l : list A) j v k x : nth_error (list_upd l j v) k = Some x ->
  (k <> j /\ nth_error l k = Some x) \/ (k = j /\ x = v).
Proof.
  rewrite nth_error_list_upd. destruct (Nat.eqb_spec k j) as [->|N]; [|auto].
  destruct (Nat.ltb j (length l)); [|discriminate]. intros [= <-]. auto.
Qed.
Lemma kwf_app p l q : kwf p -> (forall i h, nth_error q i = Some h -> nth_error (pairs_ p) i = Some h \/
     ((exists a, nth_error (keys p ++ l) (hp_pub h) = Some (KPub a)) /\ (exists b, nth_error (keys p ++ l) (hp_priv h) = Some (KPriv b)))) ->
  kwf (mkK (keys p ++ l) q).
Proof.
  intros W H i h Hi. cbn [keys pairs_] in *. destruct (H _ _ Hi) as [Hp|Hp]; [|exact Hp].
  destruct (W _ _ Hp) as [[a A] [b B]]. split; eexists; apply nth_error_app_some; eassumption.
Qed.
Lemma snoc_inv_k {A} (l : list A) v k x : nth_error (l ++ [v]) k = Some x ->
  nth_error l k = Some x \/ (k = length l /\ x = v).
Proof.
  intros H. destruct (Nat.lt_ge_cases k (length l)).
  - left. now rewrite nth_error_app1 in H.
  - rewrite nth_error_app2 in H by assumption. destruct (k - length l)%nat as [|m] eqn:E.
    + right. injection H as <-. split; [lia|reflexivity].
    + destruct m; discriminate.
Qed.
Lemma two_new {A} (l : list A) a b : nth_error (l ++ [a; b]) (length l) = Some a /\ nth_error (l ++ [a; b]) (length l + 1) = Some b.
Proof.
  split; rewrite nth_error_app2 by lia; [now rewrite Nat.sub_diag|]. now replace (length l + 1 - length l)%nat with 1%nat by lia.
Qed.
Lemma kwf_step X c p : kwf p -> kwf (snd (kstep X c p)).
Proof.
  intros W. destruct c as [t l|i s|i kd ko|a l|i j|q|q|q]; cbn [kstep].
  - destruct (buildKey t l) as [[k|]|e]; try assumption. cbn [snd]. apply kwf_app; auto.
  - destruct (nth_error (keys p) i) as [k|] eqn:E; [|assumption]. destruct (key_set X s k) as [r k'] eqn:ES. cbn [snd].
    intros q h Hq. cbn [pairs_] in Hq. destruct (W _ _ Hq) as [[a A] [b B]]. cbn [keys].
    rewrite !nth_error_list_upd. assert (Li : (i < length (keys p))%nat) by (apply nth_error_Some; congruence).
    apply Nat.ltb_lt in Li. rewrite Li. split.
    + destruct (Nat.eqb_spec (hp_pub h) i) as [Ei|]; [|eauto]. rewrite Ei in A. rewrite E in A. injection A as ->.
      destruct (key_set_pub X s a) as [a' Ea]. rewrite ES in Ea. cbn in Ea. subst k'. eauto.
    + destruct (Nat.eqb_spec (hp_priv h) i) as [Ei|]; [|eauto]. rewrite Ei in B. rewrite E in B. injection B as ->.
      destruct (key_set_priv X s b) as [a' Ea]. rewrite ES in Ea. cbn in Ea. subst k'. eauto.
  - destruct (nth_error (keys p) i) as [[k|k|k]|] eqn:E; try assumption.
    unfold setKey. cbn [snd]. intros q h Hq. cbn [pairs_] in Hq. destruct (W _ _ Hq) as [[a A] [b B]]. cbn [keys].
    rewrite !nth_error_list_upd. split.
    + destruct (Nat.eqb_spec (hp_pub h) i) as [Ei|]; [|eauto]. rewrite Ei in A. congruence.
    + destruct (Nat.eqb_spec (hp_priv h) i) as [Ei|]; [|eauto]. rewrite Ei in B. congruence.
  - destruct (_ || _); [|assumption]. cbn [snd]. apply kwf_app; [assumption|]. intros i h Hi.
    apply snoc_inv_k in Hi as [Hi|[-> ->]]; [now left|right]. cbn [hp_pub hp_priv].
    destruct (two_new (keys p) (KPub (pubkey_new l)) (KPriv (privkey_new l))) as [-> ->]. eauto.
  - destruct (nth_error (keys p) i) as [a|] eqn:Ei; [|assumption]. destruct (nth_error (keys p) j) as [b|] eqn:Ej; [|assumption].
    destruct a as [a|a|a]; try assumption. destruct b as [b|b|b]; try assumption. cbn [snd].
    intros q h Hq. cbn [pairs_ keys] in *. apply snoc_inv_k in Hq as [Hq|[-> ->]]; [now apply (W q)|]. cbn. eauto.
  - destruct (nth_error (pairs_ p) q) as [h|] eqn:Eq; [|assumption].
    destruct (nth_error (keys p) (hp_pub h)) as [a|]; [|assumption]. destruct (nth_error (keys p) (hp_priv h)) as [b|]; [|assumption].
    destruct (_ || _); [assumption|]. destruct (negb _); [assumption|].
    destruct (hp_alg h) as [alg|]; [|assumption]. destruct (negb _); [assumption|].
    destruct (hp_len h) as [len|]; [|assumption]. destruct (pc_generate X len) as [r|e]; [|assumption]. cbn [snd].
    apply kwf_app; [assumption|]. intros i h' Hi. apply upd_inv_k in Hi as [[_ Hi]|[-> ->]]; [now left|right]. cbn [hp_pub hp_priv].
    match goal with |- context [keys p ++ [?x; ?y]] => destruct (two_new (keys p) x y) as [-> ->] end. eauto.
  - destruct (nth_error (pairs_ p) q); assumption.
  - destruct (nth_error (pairs_ p) q); assumption.
Qed.
Lemma kwf_run X cs : forall p, kwf p -> kwf (snd (krun X cs p)).
Proof. induction cs as [|c cs IH]; intros p W; [assumption|]. rewrite krun_cons. cbn [snd]. apply IH. now apply kwf_step. Qed.
Lemma kwf_reach X cs rs p : krun X cs kstart = (rs, p) -> kwf p.
Proof.
  intros H. assert (W : kwf kstart) by (intros q h Hq; destruct q; discriminate).
  pose proof (kwf_run X cs _ W) as G. now rewrite H in G.
Qed.

(** what a successful genKeyPair does *)
Lemma gen_inv X q p p' : kstep X (KGen q) p = (Ok RVoid, p') ->
  exists h a b alg len r, nth_error (pairs_ p) q = Some h
    /\ nth_error (keys p) (hp_pub h) = Some a /\ nth_error (keys p) (hp_priv h) = Some b
    /\ isInitialized a = false /\ isInitialized b = false /\ pc_avail X = true
    /\ hp_alg h = Some alg /\ hp_len h = Some len /\ (alg = 1 \/ alg = 2) /\ pc_generate X len = Ok r
    /\ p' = mkK (keys p ++ [KPub (snd (pub_setTheKey X r (pubkey_new len))); KPriv (snd (priv_setTheKey r (privkey_new len)))])
              (list_upd (pairs_ p) q (mkHP (hp_alg h) (hp_len h) (length (keys p)) (length (keys p) + 1))).
Proof.
  cbn [kstep]. destruct (nth_error (pairs_ p) q) as [h|]; [|discriminate].
  destruct (nth_error (keys p) (hp_pub h)) as [a|] eqn:Ea; [|discriminate]. destruct (nth_error (keys p) (hp_priv h)) as [b|] eqn:Eb; [|discriminate].
  destruct (isInitialized a) eqn:Ia; [discriminate|]. destruct (isInitialized b) eqn:Ib; [discriminate|]. cbn [orb].
  destruct (pc_avail X); [|discriminate]. cbn [negb].
  destruct (hp_alg h) as [alg|] eqn:Eal; [|discriminate].
  destruct ((alg =? ALG_RSA) || (alg =? ALG_RSA_CRT)) eqn:Eo; [|discriminate]. cbn [negb].
  destruct (hp_len h) as [len|] eqn:El; [|discriminate].
  destruct (pc_generate X len) as [r|e] eqn:Er; [|discriminate]. intros [= <-].
  exists h, a, b, alg, len, r. repeat split; try assumption; try (rewrite ?Eal, ?El; reflexivity).
  unfold ALG_RSA, ALG_RSA_CRT in Eo. lia.
Qed.

Lemma C116_refuted_pf : forall X cs rs p q i j p', krun X cs kstart = (rs, p) ->
  fst (kstep X (KGetPublic q) p) = Ok (RKey i) -> fst (kstep X (KGetPrivate q) p) = Ok (RKey j) ->
  kstep X (KGen q) p = (Ok RVoid, p') ->
  (exists k, nth_error (keys p) i = Some k /\ nth_error (keys p') i = Some k /\ isInitialized k = false)
  /\ (exists k, nth_error (keys p) j = Some k /\ nth_error (keys p') j = Some k /\ isInitialized k = false)
  /\ exists i' j' k k', fst (kstep X (KGetPublic q) p') = Ok (RKey i') /\ fst (kstep X (KGetPrivate q) p') = Ok (RKey j')
    /\ i' <> i /\ j' <> j /\ nth_error (keys p') i' = Some k /\ nth_error (keys p') j' = Some k'
    /\ isInitialized k = true /\ isInitialized k' = true.
Proof.
  intros X cs rs p q i j p' _ H1 H2 HG.
  destruct (gen_inv X q p p' HG) as (h & a & b & alg & len & r & Hq & Ea & Eb & Ia & Ib & _ & _ & _ & _ & _ & ->).
  cbn [kstep] in H1, H2. rewrite Hq in H1, H2. cbn [fst] in H1, H2. injection H1 as <-. injection H2 as <-.
  assert (La : (hp_pub h < length (keys p))%nat) by (apply nth_error_Some; congruence).
  assert (Lb : (hp_priv h < length (keys p))%nat) by (apply nth_error_Some; congruence).
  split; [|split].
  - exists a. repeat split; try assumption. cbn [keys]. now apply nth_error_app_some.
  - exists b. repeat split; try assumption. cbn [keys]. now apply nth_error_app_some.
  - assert (Lq : (q < length (pairs_ p))%nat) by (apply nth_error_Some; congruence). apply Nat.ltb_lt in Lq.
    exists (length (keys p)), (length (keys p) + 1)%nat.
    match goal with |- context [keys p ++ [?x; ?y]] => exists x, y; destruct (two_new (keys p) x y) as [E1 E2] end.
    cbn [kstep pairs_ keys]. rewrite nth_error_list_upd, Nat.eqb_refl, Lq. cbn [fst hp_pub hp_priv].
    split; [reflexivity|]. split; [reflexivity|]. split; [lia|]. split; [lia|]. split; [exact E1|]. split; [exact E2|].
    split; reflexivity.
Qed.

Lemma C116_full_refuted_pf : ~ C116_full.
Proof.
  intros F. pose (X := mkPyCrypto true (fun _ _ => Err ValueError) (fun _ => Ok (mkRsa 55 3 27 5 11 1)) (fun _ _ => Err ValueError) (fun _ _ => Err ValueError)).
  destruct (F X [KPair 1 512] _ _ 0%nat 0%nat 1%nat _ eq_refl eq_refl eq_refl eq_refl) as ((k & Hk & Hi) & _).
  vm_compute in Hk. injection Hk as <-. vm_compute in Hi. discriminate Hi.
Qed.

Lemma C116_frame_partial_pf : forall X c p i k, sets_key i c = false -> nth_error (keys p) i = Some k ->
  nth_error (keys (snd (kstep X c p))) i = Some k.
Proof.
  intros X c p i k HS Hk. destruct c as [t l|i' s|i' kd ko|a l|i' j|q|q|q]; cbn [kstep sets_key] in *.
  - destruct (buildKey t l) as [[k'|]|e]; try assumption. cbn [snd keys]. now apply nth_error_app_some.
  - destruct (nth_error (keys p) i') as [k1|]; [|assumption]. destruct (key_set X s k1). cbn [snd keys].
    rewrite nth_error_list_upd, Nat.eqb_sym, HS. assumption.
  - destruct (nth_error (keys p) i') as [[k1|k1|k1]|]; try assumption. unfold setKey. cbn [snd keys].
    rewrite nth_error_list_upd, Nat.eqb_sym, HS. assumption.
  - destruct (_ || _); [|assumption]. cbn [snd keys]. now apply nth_error_app_some.
  - destruct (nth_error (keys p) i') as [[|a1|]|]; try assumption; destruct (nth_error (keys p) j) as [[| |b1]|]; assumption.
  - destruct (nth_error (pairs_ p) q) as [h|]; [|assumption].
    destruct (nth_error (keys p) (hp_pub h)) as [a|]; [|assumption]. destruct (nth_error (keys p) (hp_priv h)) as [b|]; [|assumption].
    destruct (_ || _); [assumption|]. destruct (negb _); [assumption|].
    destruct (hp_alg h) as [alg|]; [|assumption]. destruct (negb _); [assumption|].
    destruct (hp_len h) as [len|]; [|assumption]. destruct (pc_generate X len) as [r|e]; [|assumption]. cbn [snd keys]. now apply nth_error_app_some.
  - destruct (nth_error (pairs_ p) q); assumption.
  - destruct (nth_error (pairs_ p) q); assumption.
Qed.

Lemma pair_step X c p q h : nth_error (pairs_ p) q = Some h -> hp_alg h = None ->
  nth_error (pairs_ (snd (kstep X c p))) q = Some h.
Proof.
  intros Hq Ha. destruct c as [t l|i' s|i' kd ko|a l|i' j|q'|q'|q']; cbn [kstep].
  - destruct (buildKey t l) as [[k'|]|e]; assumption.
  - destruct (nth_error (keys p) i') as [k1|]; [|assumption]. destruct (key_set X s k1). assumption.
  - destruct (nth_error (keys p) i') as [[k1|k1|k1]|]; assumption.
  - destruct (_ || _); [|assumption]. cbn [snd pairs_]. now apply nth_error_app_some.
  - destruct (nth_error (keys p) i') as [[|a1|]|]; try assumption; destruct (nth_error (keys p) j) as [[| |b1]|]; try assumption.
    cbn [snd pairs_]. now apply nth_error_app_some.
  - destruct (nth_error (pairs_ p) q') as [h'|] eqn:E; [|assumption].
    destruct (nth_error (keys p) (hp_pub h')) as [a|]; [|assumption]. destruct (nth_error (keys p) (hp_priv h')) as [b|]; [|assumption].
    destruct (_ || _); [assumption|]. destruct (negb _); [assumption|].
    destruct (hp_alg h') as [alg|] eqn:Ea; [|assumption]. destruct (negb _); [assumption|].
    destruct (hp_len h') as [len|]; [|assumption]. destruct (pc_generate X len) as [r|e]; [|assumption]. cbn [snd pairs_].
    rewrite nth_error_list_upd. destruct (Nat.eqb_spec q q') as [->|]; [congruence|assumption].
  - destruct (nth_error (pairs_ p) q'); assumption.
  - destruct (nth_error (pairs_ p) q'); assumption.
Qed.

Lemma C116_same_objects_partial_pf : forall X i j p q p1 cs rs p', kstep X (KPairOf i j) p = (Ok (RPair q), p1) ->
  krun X cs p1 = (rs, p') ->
  fst (kstep X (KGetPublic q) p') = Ok (RKey i) /\ fst (kstep X (KGetPrivate q) p') = Ok (RKey j).
Proof.
  intros X i j p q p1 cs rs p' H HR.
  assert (G : nth_error (pairs_ p1) q = Some (mkHP None None i j)).
  { cbn [kstep] in H. destruct (nth_error (keys p) i) as [[|a1|]|]; try discriminate; destruct (nth_error (keys p) j) as [[| |b1]|]; try discriminate.
    injection H as <- <-. cbn [pairs_]. rewrite nth_error_app2 by lia. now rewrite Nat.sub_diag. }
  assert (G' : nth_error (pairs_ p') q = Some (mkHP None None i j)).
  { replace p' with (snd (krun X cs p1)) by now rewrite HR. clear HR H. revert p1 G.
    induction cs as [|c cs IH]; intros p1 G; [assumption|]. rewrite krun_cons. cbn [snd]. apply IH. now apply pair_step. }
  cbn [kstep]. now rewrite G'.
Qed.

Lemma sets_pub X i cs : forall p a, nth_error (keys p) i = Some (KPub a) ->
  nth_error (keys (snd (krun X cs p))) i = Some (KPub (run_pub X (sets_of i cs) a)).
Proof.
  induction cs as [|c cs IH]; intros p a H; [assumption|]. rewrite krun_cons. cbn [snd].
  assert (G : nth_error (keys (snd (kstep X c p))) i = Some (KPub (run_pub X (sets_of i [c]) a)) ->
    nth_error (keys (snd (krun X cs (snd (kstep X c p))))) i = Some (KPub (run_pub X (sets_of i (c :: cs)) a))).
  { intros Ha'. rewrite (IH _ _ Ha'). unfold sets_of. cbn [flat_map]. rewrite app_nil_r.
    unfold run_pub. now rewrite fold_left_app. }
  apply G. clear G IH. destruct (sets_key i c) eqn:SK.
  - destruct c; try discriminate SK; cbn [sets_key] in SK; apply Nat.eqb_eq in SK as ->.
    + cbn [sets_of flat_map]. rewrite Nat.eqb_refl. cbn [app run_pub fold_left].
      assert (L : (i <? length (keys p))%nat = true) by (apply Nat.ltb_lt, nth_error_Some; congruence).
      cbn [kstep]. rewrite H. cbn [key_set]. destruct s; [destruct (pub_setExponent X _ _ _ _) eqn:E|destruct (pub_setModulus X _ _ _ _) eqn:E];
        cbn [snd keys]; rewrite nth_error_list_upd, Nat.eqb_refl, L; reflexivity.
    + cbn [kstep]. now rewrite H.
  - rewrite (C116_frame_partial_pf _ _ _ _ _ SK H). destruct c; try reflexivity. cbn [sets_key] in SK. unfold sets_of. cbn [flat_map]. now rewrite SK.
Qed.
Lemma sets_priv X i cs : forall p a, nth_error (keys p) i = Some (KPriv a) ->
  nth_error (keys (snd (krun X cs p))) i = Some (KPriv (run_priv (sets_of i cs) a)).
Proof.
  induction cs as [|c cs IH]; intros p a H; [assumption|]. rewrite krun_cons. cbn [snd].
  assert (G : nth_error (keys (snd (kstep X c p))) i = Some (KPriv (run_priv (sets_of i [c]) a)) ->
    nth_error (keys (snd (krun X cs (snd (kstep X c p))))) i = Some (KPriv (run_priv (sets_of i (c :: cs)) a))).
  { intros Ha'. rewrite (IH _ _ Ha'). unfold sets_of. cbn [flat_map]. rewrite app_nil_r.
    unfold run_priv. now rewrite fold_left_app. }
  apply G. clear G IH. destruct (sets_key i c) eqn:SK.
  - destruct c; try discriminate SK; cbn [sets_key] in SK; apply Nat.eqb_eq in SK as ->.
    + cbn [sets_of flat_map]. rewrite Nat.eqb_refl. cbn [app run_priv fold_left].
      assert (L : (i <? length (keys p))%nat = true) by (apply Nat.ltb_lt, nth_error_Some; congruence).
      cbn [kstep]. rewrite H. cbn [key_set]. destruct s; [destruct (priv_setExponent _ _ _ _) eqn:E|destruct (priv_setModulus _ _ _ _) eqn:E];
        cbn [snd keys]; rewrite nth_error_list_upd, Nat.eqb_refl, L; reflexivity.
    + cbn [kstep]. now rewrite H.
  - rewrite (C116_frame_partial_pf _ _ _ _ _ SK H). destruct c; try reflexivity. cbn [sets_key] in SK. unfold sets_of. cbn [flat_map]. now rewrite SK.
Qed.

Lemma C116_through_partial_pf : forall X i j p q p1 cs rs p', kstep X (KPairOf i j) p = (Ok (RPair q), p1) ->
  krun X cs p1 = (rs, p') -> exists h a b, nth_error (pairs_ p') q = Some h
  /\ nth_error (keys p) i = Some (KPub a) /\ nth_error (keys p) j = Some (KPriv b)
  /\ pair_view p' h = Some (mkPair None None (run_pub X (sets_of i cs) a) (run_priv (sets_of j cs) b)).
Proof.
  intros X i j p q p1 cs rs p' H HR. cbn [kstep] in H.
  destruct (nth_error (keys p) i) as [[|a|]|] eqn:Ei; try discriminate; destruct (nth_error (keys p) j) as [[| |b]|] eqn:Ej; try discriminate.
  injection H as <- <-. exists (mkHP None None i j), a, b.
  replace p' with (snd (krun X cs (mkK (keys p) (pairs_ p ++ [mkHP None None i j])))) by now rewrite HR. clear HR.
  assert (G : nth_error (pairs_ p ++ [mkHP None None i j]) (length (pairs_ p)) = Some (mkHP None None i j))
    by (rewrite nth_error_app2 by lia; now rewrite Nat.sub_diag).
  repeat split.
  - clear Ei Ej. remember (mkK (keys p) (pairs_ p ++ [mkHP None None i j])) as p1 eqn:Ep.
    assert (G' : nth_error (pairs_ p1) (length (pairs_ p)) = Some (mkHP None None i j)) by now subst p1.
    clear Ep G. revert p1 G'. induction cs as [|c cs IH]; intros p1 G; [assumption|]. rewrite krun_cons. cbn [snd]. apply IH. now apply pair_step.
  - unfold pair_view. cbn [hp_pub hp_priv hp_alg hp_len]. set (p1 := mkK (keys p) (pairs_ p ++ [mkHP None None i j])).
    now rewrite (sets_pub X i cs p1 a Ei), (sets_priv X j cs p1 b Ej).
Qed.

Lemma C116_view_partial_pf : forall X cs rs p q h, krun X cs kstart = (rs, p) -> nth_error (pairs_ p) q = Some h ->
  exists s h', pair_view p h = Some s /\ nth_error (pairs_ (snd (kstep X (KGen q) p))) q = Some h'
    /\ fst (kstep X (KGen q) p) = rmap (fun _ => RVoid) (fst (genKeyPair X s))
    /\ pair_view (snd (kstep X (KGen q) p)) h' = Some (snd (genKeyPair X s)).
Proof.
  intros X cs rs p q h HR Hq. destruct (kwf_reach _ _ _ _ HR _ _ Hq) as [[a Ea] [b Eb]].
  exists (mkPair (hp_alg h) (hp_len h) a b).
  assert (V : pair_view p h = Some (mkPair (hp_alg h) (hp_len h) a b)) by (unfold pair_view; now rewrite Ea, Eb).
  cbn [kstep]. rewrite Hq, Ea, Eb. unfold genKeyPair, pyCryptogenKeyPair, bind, get, raise, lift, put. cbn [kp_pub kp_priv kp_alg kp_len isInitialized].
  destruct (pk_init a || vk_init b); [exists h; repeat split; assumption|].
  destruct (pc_avail X); cbn [negb]; [|exists h; repeat split; assumption].
  destruct (hp_alg h) as [alg|] eqn:Eal; [|exists h; repeat split; assumption].
  cbn [kp_alg kp_len negb]. destruct ((alg =? ALG_RSA) || (alg =? ALG_RSA_CRT)); cbn [negb]; [|exists h; repeat split; assumption].
  destruct (hp_len h) as [len|] eqn:El; [|exists h; repeat split; assumption].
  destruct (pc_generate X len) as [r|e]; [|exists h; repeat split; assumption].
  cbn [fst snd rmap pairs_]. assert (Lq : (q < length (pairs_ p))%nat) by (apply nth_error_Some; congruence). apply Nat.ltb_lt in Lq.
  rewrite nth_error_list_upd, Nat.eqb_refl, Lq. eexists. split; [assumption|]. split; [reflexivity|]. split; [reflexivity|].
  unfold pair_view. cbn [keys hp_pub hp_priv hp_alg hp_len].
  match goal with |- context [keys p ++ [?x; ?y]] => destruct (two_new (keys p) x y) as [-> ->] end. reflexivity.
Qed.

Lemma C117_refuted_pf : forall size cs rs s, crt_run cs (crt_new size) = (rs, s) ->
  ck_init s = false /\ ck_type s = 5 /\ ck_size s = size
  /\ Forall2 (fun c r => match c with
       | CrtClear => r = Ok tt
       | CrtTheKey _ => r = Err NameError
       | CrtGet _ n => r = Err (if Nat.eqb n 1 then NotImplementedError else TypeError)
       | CrtSet _ n => r = Err (if Nat.eqb n 2 then NotImplementedError else TypeError)
       end) cs rs
  /\ ck_the s = fold_left (fun a c => match c with CrtTheKey k => Some k | _ => a end) cs None.
Proof.
  intros size cs rs s H.
  assert (G : forall cs s0 rs s, ck_init s0 = false -> ck_type s0 = 5 -> ck_size s0 = size -> crt_run cs s0 = (rs, s) ->
    ck_init s = false /\ ck_type s = 5 /\ ck_size s = size
    /\ Forall2 (fun c r => match c with
         | CrtClear => r = Ok tt
         | CrtTheKey _ => r = Err NameError
         | CrtGet _ n => r = Err (if Nat.eqb n 1 then NotImplementedError else TypeError)
         | CrtSet _ n => r = Err (if Nat.eqb n 2 then NotImplementedError else TypeError)
         end) cs rs
    /\ ck_the s = fold_left (fun a c => match c with CrtTheKey k => Some k | _ => a end) cs (ck_the s0)).
  { clear. induction cs as [|c cs IH]; intros s0 rs s I T Z H; [injection H as <- <-; auto|].
    cbn [crt_run] in H. destruct (crt_step c s0) as [r s1] eqn:E1. destruct (crt_run cs s1) as [rs2 s2] eqn:E2. injection H as <- <-.
    assert (S1 : ck_init s1 = false /\ ck_type s1 = 5 /\ ck_size s1 = size
      /\ (match c with
         | CrtClear => r = Ok tt
         | CrtTheKey _ => r = Err NameError
         | CrtGet _ n => r = Err (if Nat.eqb n 1 then NotImplementedError else TypeError)
         | CrtSet _ n => r = Err (if Nat.eqb n 2 then NotImplementedError else TypeError)
         end) /\ ck_the s1 = match c with CrtTheKey k => Some k | _ => ck_the s0 end).
    { destruct c as [c n|c n|k|]; cbn [crt_step] in E1.
      - replace (Nat.eqb (n + 1) 2) with (Nat.eqb n 1) in E1 by (destruct (Nat.eqb_spec n 1); destruct (Nat.eqb_spec (n + 1) 2); lia).
        destruct (Nat.eqb n 1); injection E1 as <- <-; auto.
      - replace (Nat.eqb (n + 1) 3) with (Nat.eqb n 2) in E1 by (destruct (Nat.eqb_spec n 2); destruct (Nat.eqb_spec (n + 1) 3); lia).
        destruct (Nat.eqb n 2); injection E1 as <- <-; auto.
      - injection E1 as <- <-. cbn. auto.
      - injection E1 as <- <-. auto. }
    destruct S1 as (A & B & C & D & E). destruct (IH s1 rs2 s2 A B C E2) as (A' & B' & C' & D' & E').
    repeat split; try assumption; [now constructor|]. cbn [fold_left]. rewrite E', E. reflexivity. }
  exact (G cs (crt_new size) rs s eq_refl eq_refl eq_refl H).
Qed.

Lemma C117_full_refuted_pf : ~ C117_full.
Proof. intros F. destruct (F 512 (mkRsa 55 3 27 5 11 1)) as (E & _). discriminate E. Qed.
