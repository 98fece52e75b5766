(** * C85-C88: settings of pyDes objects: proofs *)
From Verif Require Import Py S_Base L_Py S_DES M_des M_desx S_DesSettings L_des LP_des LP_tdes.
From Coq Require Import ZifyBool ZifyNat.
Ltac Zify.zify_post_hook ::= Z.div_mod_to_equations.


(** *** des objects *)
Lemma to_bits_firstn n l : to_bits (firstn n l) = firstn (8 * n) (to_bits l).
Proof.
  revert n. induction l as [|x l IH]; intros [|n]; [reflexivity|symmetry; apply firstn_nil|reflexivity|].
  cbn [firstn]. change (to_bits (x :: l)) with (low_bits 8 x ++ to_bits l).
  change (to_bits (x :: firstn n l)) with (low_bits 8 x ++ to_bits (firstn n l)). rewrite IH.
  rewrite firstn_app. rewrite low_bits_length. rewrite (firstn_all2 (low_bits 8 x)) by (rewrite low_bits_length; lia).
  do 2 f_equal. lia.
Qed.
Lemma select_prefix t b n : forallb (fun i => (1 <=? i) && (i <=? n))%nat t = true -> select t (firstn n b) = select t b.
Proof.
  intros H. unfold select. apply map_ext_in. intros i Hi. rewrite forallb_forall in H. specialize (H i Hi).
  assert (Hj : (i - 1 < n)%nat) by lia. revert Hj. generalize (i - 1)%nat as j. clear. intros j. revert n b.
  induction j; intros [|n] [|x b] H; cbn; auto; try lia. apply IHj. lia.
Qed.
Lemma schedule_prefix key : (8 <= length key)%nat -> schedule (to_bits (firstn 8 key)) = schedule (to_bits key).
Proof. intros H. unfold schedule. rewrite to_bits_firstn. change (8 * 8)%nat with 64%nat. now rewrite !select_prefix by reflexivity. Qed.

Definition sbase (s : settings) : base := mkBase (st_mode s) (st_iv s) (st_pad s) (st_padmode s) (st_key s).
Lemma setKey_ge k key b s : wf key b s -> (8 <= length k)%nat ->
  exists s', des_setKey k s = (Ok tt, s') /\ wf k (base_setKey k b) s'.
Proof.
  intros [W1 W2] H. unfold des_setKey. rewrite bind_get. unfold set_base at 1. unfold bind at 1. cbn [fst].
  rewrite W1. set (s1 := mkDes _ _ _ _ _).
  destruct (create_sub_keys_ge s1 k eq_refl H) as (L & R & E).
  { cbn [s1 d_Kn]. rewrite W2, map_length. apply schedule_length. }
  rewrite E. eexists. split; [reflexivity|]. split; reflexivity.
Qed.
Lemma permutate_err t b x l : t = x :: l -> py_get b x = Err IndexError -> permutate t b = Err IndexError.
Proof. intros -> E. cbn [permutate]. now rewrite E. Qed.
Lemma setKey_short k s : (length k < 8)%nat ->
  des_setKey k s = (Err IndexError, mkDes (base_setKey k (d_base s)) (d_L s) (d_R s) (d_Kn s) (d_final s)).
Proof.
  intros H. unfold des_setKey. rewrite bind_get. unfold set_base at 1. unfold bind at 1.
  unfold create_sub_keys. rewrite bind_get. cbn [d_base base_setKey b_key]. rewrite String_to_BitList_ok.
  rewrite (permutate_err pc1 _ 56 (tl pc1)); [reflexivity|reflexivity|].
  unfold py_get, py_index, zlen. rewrite bz_length, to_bits_length.
  replace ((0 <=? 56) && (56 <? Z.of_nat (8 * length k))) with false by lia.
  replace ((- Z.of_nat (8 * length k) <=? 56) && (56 <? 0)) with false by lia. reflexivity.
Qed.
Lemma op_wf o st s : wf (st_key st) (sbase st) s -> sized (fun n => n = 8%nat) o ->
  wf (st_key (track o st)) (sbase (track o st)) (des_op o s).
Proof.
  intros W Ho. destruct o as [k|m|v|p|m|c]; cbn [des_op track sized] in *.
  - rewrite Ho. cbn [Nat.eqb]. destruct (setKey_ge k _ _ _ W ltac:(lia)) as (s' & E & W'). rewrite E. exact W'.
  - destruct W as [W1 W2]. split; [|exact W2]. unfold des_setMode. rewrite bind_get, W1. reflexivity.
  - unfold des_setIV. rewrite bind_get. unfold base_setIV. destruct W as [W1 W2]. rewrite W1.
    destruct (Nat.eqb_spec (length v) 8) as [E|E].
    + replace (zlen v =? 8) with true by (unfold zlen; lia). split; [reflexivity|exact W2].
    + replace (zlen v =? 8) with false by (unfold zlen; lia). split; [exact W1|exact W2].
  - destruct W as [W1 W2]. split; [|exact W2]. unfold des_setPadding. rewrite bind_get, W1. reflexivity.
  - destruct W as [W1 W2]. split; [|exact W2]. unfold des_setPadMode. rewrite bind_get, W1. reflexivity.
  - eapply wf_cfg; [exact W|apply keeps_call].
Qed.
Lemma ops_wf h : forall st s, wf (st_key st) (sbase st) s -> Forall (sized (fun n => n = 8%nat)) h ->
  wf (st_key (tracks h st)) (sbase (tracks h st)) (des_ops h s).
Proof.
  induction h as [|o h IH]; intros st s W H; [exact W|]. inversion H; subst. cbn [tracks des_ops fold_left].
  apply (IH (track o st) (des_op o s)); [now apply op_wf|assumption].
Qed.
Lemma wf_sim key b s s' : wf key b s -> wf key b s' -> sim s s'.
Proof. intros [A B] [A' B']. unfold sim. rewrite A, A', B, B'. auto. Qed.

Lemma C85_settings_pf : forall key mode iv pad padmode d0 h, des_new key mode iv pad padmode = Ok d0 ->
  Forall (sized (fun n => n = 8%nat)) h ->
  let st := tracks h (mkSet key mode iv pad padmode) in
  let d := des_ops h d0 in
  same_settings (getKey d) (getMode d) (getIV d) (getPadding d) (getPadMode d) st
  /\ (forall d' data p pm, des_reach (st_key st) (st_mode st) (st_iv st) (st_pad st) (st_padmode st) d' ->
       fst (des_encrypt data p pm d) = fst (des_encrypt data p pm d')
       /\ fst (des_decrypt data p pm d) = fst (des_decrypt data p pm d')).
Proof.
  intros key mode iv pad padmode d0 h E Hh st d. apply des_new_wf in E as (W & _).
  pose proof (ops_wf h (mkSet key mode iv pad padmode) d0 W Hh) as W'. fold st d in W'. split.
  - unfold same_settings, getKey, getMode, getIV, getPadding, getPadMode. rewrite (proj1 W'). repeat split.
  - intros d' data p pm Hr. apply reach_wf in Hr as (W2 & _). pose proof (wf_sim _ _ _ _ W' W2) as Q.
    split; [now apply des_encrypt_indep|now apply des_decrypt_indep].
Qed.

Lemma C85_setters_pf : forall key mode iv pad padmode d0 h, des_new key mode iv pad padmode = Ok d0 ->
  Forall (sized (fun n => n = 8%nat)) h -> let d := des_ops h d0 in
  (forall v, fst (des_setIV v d) = if (length v =? 8)%nat then Ok tt else Err ValueError)
  /\ (forall v, length v <> 8%nat -> snd (des_setIV v d) = d)
  /\ (forall m, fst (des_setMode m d) = Ok tt) /\ (forall p, fst (des_setPadding p d) = Ok tt)
  /\ (forall m, fst (des_setPadMode m d) = Ok tt)
  /\ (forall k, length k = 8%nat -> fst (des_setKey k d) = Ok tt).
Proof.
  intros key mode iv pad padmode d0 h E Hh d. apply des_new_wf in E as (W & _).
  pose proof (ops_wf h (mkSet key mode iv pad padmode) d0 W Hh) as W'. fold d in W'.
  assert (G : forall v, des_setIV v d = if (length v =? 8)%nat then (Ok tt, mkDes (mkBase (b_mode (d_base d)) v (b_pad (d_base d)) (b_padmode (d_base d)) (b_key (d_base d))) (d_L d) (d_R d) (d_Kn d) (d_final d)) else (Err ValueError, d)).
  { intros v. unfold des_setIV. rewrite bind_get. unfold base_setIV.
    replace (zlen v =? 8) with (length v =? 8)%nat by (unfold zlen; lia). destruct (length v =? 8)%nat; reflexivity. }
  split; [intros v; rewrite G; now destruct (length v =? 8)%nat|]. split.
  - intros v Hv. rewrite G. apply Nat.eqb_neq in Hv. now rewrite Hv.
  - split; [reflexivity|]. split; [reflexivity|]. split; [reflexivity|]. intros k Hk.
    destruct (setKey_ge k _ _ _ W' ltac:(lia)) as (s' & E & _). now rewrite E.
Qed.

(** *** C86: setKey with a key of the wrong size *)

Lemma C86_exact_partial_pf : forall key mode iv pad padmode d k data p pm, des_reach key mode iv pad padmode d ->
  ((length k < 8)%nat ->
     fst (des_setKey k d) = Err IndexError /\ getKey (snd (des_setKey k d)) = k
     /\ fst (des_encrypt data p pm (snd (des_setKey k d))) = fst (des_encrypt data p pm d)
     /\ fst (des_decrypt data p pm (snd (des_setKey k d))) = fst (des_decrypt data p pm d))
  /\ ((8 <= length k)%nat ->
     fst (des_setKey k d) = Ok tt /\ getKey (snd (des_setKey k d)) = k
     /\ forall d', des_reach (firstn 8 k) mode iv pad padmode d' ->
        fst (des_encrypt data p pm (snd (des_setKey k d))) = fst (des_encrypt data p pm d')
        /\ fst (des_decrypt data p pm (snd (des_setKey k d))) = fst (des_decrypt data p pm d')).
Proof.
  intros key mode iv pad padmode d k data p pm Hr. apply reach_wf in Hr as (W & _). split; intros H.
  - rewrite setKey_short by exact H. cbn [fst snd]. split; [reflexivity|]. split; [reflexivity|].
    assert (Q : sim (mkDes (base_setKey k (d_base d)) (d_L d) (d_R d) (d_Kn d) (d_final d)) d) by (repeat split).
    split; [now apply des_encrypt_indep|now apply des_decrypt_indep].
  - destruct (setKey_ge k _ _ _ W H) as (s' & E & W'). rewrite E. cbn [fst snd]. split; [reflexivity|].
    split; [unfold getKey; rewrite (proj1 W'); reflexivity|]. intros d' Hr'. apply reach_wf in Hr' as (W2 & _).
    assert (Q : sim s' d').
    { destruct W' as [A B], W2 as [A2 B2]. unfold sim. rewrite A, A2, B, B2, schedule_prefix by exact H. repeat split. }
    split; [now apply des_encrypt_indep|now apply des_decrypt_indep].
Qed.

Lemma C86_full_refuted_pf : ~ C86_full.
Proof.
  intros H. destruct (des_new_exists [1;1;1;1;1;1;1;1] ECB [] [] PAD_NORMAL) as [d E]; auto.
  destruct (H [1;1;1;1;1;1;1;1] ECB [] [] PAD_NORMAL d [1]) as [Q _]; [exists d, []; auto|discriminate|].
  rewrite setKey_short in Q by (cbn; lia). discriminate.
Qed.

(** *** triple_des objects *)
Definition iv_len (st : settings) : Prop := st_iv st = [] \/ length (st_iv st) = 8%nat.
Lemma setKey_new key b : b_pad b = [] \/ b_padmode b <> PAD_PKCS5 -> b_iv b = [] \/ length (b_iv b) = 8%nat ->
  tdes_setKey key b = tdes_new key (b_mode b) (b_iv b) (b_pad b) (b_padmode b).
Proof.
  intros Hp Hi. unfold tdes_new, base_init.
  replace (nonempty (b_pad b) && (b_padmode b =? PAD_PKCS5)) with false
    by (destruct Hp as [->|Hp]; [reflexivity|destruct (nonempty (b_pad b)); cbn; lia]).
  replace (nonempty (b_iv b) && negb (zlen (b_iv b) =? 8)) with false
    by (destruct Hi as [->|Hi]; [reflexivity|unfold zlen; destruct (nonempty (b_iv b)); cbn; lia]).
  cbn [rbind]. reflexivity.
Qed.
Lemma setKey_refused key b : b_pad b <> [] -> b_padmode b = PAD_PKCS5 -> tdes_setKey key b = Err ValueError.
Proof.
  intros Hp Hm. unfold tdes_setKey. destruct (negb _) eqn:E; [reflexivity|].
  set (iv := if (b_mode b =? CBC) && negb (nonempty (b_iv b)) then py_slice key 0 8 else b_iv b). cbn zeta. destruct ((b_mode b =? CBC) && negb (zlen iv =? 8)); [reflexivity|].
  unfold des_new at 1. destruct (negb (zlen (py_slice key 0 8) =? 8)); [reflexivity|].
  unfold base_init. rewrite Hm. change (PAD_PKCS5 =? PAD_PKCS5) with true.
  destruct (b_pad b); [congruence|]. reflexivity.
Qed.
Lemma rekey_wf k st s : twf (st_key st) (sbase st) s -> iv_len st ->
  twf (st_key (track3 (OKey k) st)) (sbase (track3 (OKey k) st)) (snd (tdes_rekey k s)) /\ iv_len (track3 (OKey k) st)
  /\ (fst (tdes_rekey k s) = Ok tt <-> (length k = 16 \/ length k = 24)%nat /\ (st_pad st = [] \/ st_padmode st <> PAD_PKCS5))
  /\ (fst (tdes_rekey k s) = Ok tt \/ fst (tdes_rekey k s) = Err ValueError).
Proof.
  intros W Hi. unfold tdes_rekey. rewrite (proj1 W). cbn [track3 sbase b_mode b_iv b_pad b_padmode b_key].
  destruct ((length k =? 16) || (length k =? 24))%nat eqn:EL.
  2: { replace ((zlen k =? 24) || (zlen k =? 16)) with false by (unfold zlen; lia). cbn [negb fst snd].
       split; [exact W|]. split; [exact Hi|]. split; [|auto]. split; [discriminate|]. intros [Q _]. lia. }
  replace ((zlen k =? 24) || (zlen k =? 16)) with true by (unfold zlen; lia). cbn [negb].
  set (iv' := match st_iv st with [] => if st_mode st =? 1 then firstn 8 k else [] | z :: l => z :: l end).
  assert (EI : (if (st_mode st =? CBC) && negb (nonempty (st_iv st)) then py_slice k 0 8 else st_iv st) = iv').
  { unfold iv'. destruct (st_iv st); cbn [nonempty negb]; [|now rewrite andb_false_r]. change 1 with CBC.
    destruct (st_mode st =? CBC); [|reflexivity]. cbn [andb]. apply (slice8 k 0). lia. }
  assert (EI2 : iv' = tdes_iv (st_mode st) k (st_iv st)).
  { unfold iv', tdes_iv, key1. destruct (st_iv st); reflexivity. }
  assert (HI' : iv' = [] \/ length iv' = 8%nat).
  { unfold iv'. destruct Hi as [Q|Q]; [rewrite Q|destruct (st_iv st); [discriminate|auto]].
    destruct (st_mode st =? 1); [right; rewrite firstn_length; lia|auto]. }
  change 2 with PAD_PKCS5.
  destruct (match st_pad st with [] => true | _ => negb (st_padmode st =? PAD_PKCS5) end) eqn:EP.
  - assert (HP : st_pad st = [] \/ st_padmode st <> PAD_PKCS5) by (destruct (st_pad st); [auto|right; lia]).
    rewrite setKey_new by assumption. unfold sbase. cbn [b_mode b_iv b_pad b_padmode st_key st_mode st_iv st_pad st_padmode].
    destruct (tdes_new_exists k (st_mode st) (st_iv st) (st_pad st) (st_padmode st)) as [s' E]; [lia|exact Hi|exact HP|].
    rewrite E. cbn [fst snd]. apply tdes_new_wf in E as (W' & _). rewrite <- EI2 in W'. split; [exact W'|]. split; [exact HI'|].
    split; [|auto]. split; auto. intros _. split; [lia|exact HP].
  - assert (HP : st_pad st <> [] /\ st_padmode st = PAD_PKCS5) by (destruct (st_pad st); [discriminate|split; [discriminate|lia]]).
    rewrite setKey_refused by (apply HP). unfold sbase. cbn [fst snd b_mode b_iv b_pad b_padmode b_key st_key st_mode st_iv st_pad st_padmode]. rewrite EI. split.
    + destruct W as (W1 & W2). split; [reflexivity|]. exact W2.
    + split; [exact HI'|]. split; [|auto]. split; [discriminate|]. intros [_ [Q|Q]]; destruct HP; congruence.
Qed.
Lemma top_wf o st s : twf (st_key st) (sbase st) s -> iv_len st ->
  twf (st_key (track3 o st)) (sbase (track3 o st)) (tdes_op o s) /\ iv_len (track3 o st).
Proof.
  intros W Hi. destruct o as [k|m|v|p|m|c].
  - destruct (rekey_wf k st s W Hi) as (A & B & _). auto.
  - split; [|exact Hi]. destruct W as (W1 & (A1 & A2 & A3 & A4) & (B1 & B2 & B3 & B4) & C). cbn [tdes_op track3 track st_key].
    unfold tdes_setMode. rewrite bind_get, W1. destruct s as [b k1 k2 k3]. cbn [t_base t_k1 t_k2 t_k3] in *.
    destruct k3 as [k3|]; [destruct C as (C0 & C1 & C2 & C3 & C4)|];
    unfold twf, kwf, bind, t_set_base, on_k3, on_k2, on_k1, des_setMode, set_base, get, bind;
    cbn [fst snd t_base t_k1 t_k2 t_k3 d_base d_Kn b_mode b_pad b_padmode sbase base_setMode st_mode st_iv st_pad st_padmode st_key];
    repeat split; auto.
  - cbn [tdes_op track3 track]. destruct (Nat.eqb_spec (length v) 8) as [E|E].
    + split; [|right; exact E].
      destruct W as (W1 & (A1 & A2 & A3 & A4) & (B1 & B2 & B3 & B4) & C). cbn [st_key].
      unfold tdes_setIV, keys_setIV, base_setIV, des_setIV, base_setIV. rewrite bind_get, W1. destruct s as [b k1 k2 k3]. cbn [t_base t_k1 t_k2 t_k3] in *.
      replace (zlen v =? 8) with true by (unfold zlen; lia).
      destruct k3 as [k3|]; [destruct C as (C0 & C1 & C2 & C3 & C4)|];
      unfold twf, kwf, bind, t_set_base, on_k3, on_k2, on_k1, set_base, get, lift;
      cbn [fst snd t_base t_k1 t_k2 t_k3 d_base d_Kn b_mode b_pad b_padmode sbase st_mode st_iv st_pad st_padmode st_key b_key];
      repeat split; auto.
    + split; [|exact Hi]. unfold tdes_setIV. rewrite bind_get. unfold base_setIV.
      replace (zlen v =? 8) with false by (unfold zlen; lia). exact W.
  - split; [|exact Hi]. destruct W as (W1 & (A1 & A2 & A3 & A4) & (B1 & B2 & B3 & B4) & C). cbn [tdes_op track3 track st_key].
    unfold tdes_setPadding. rewrite bind_get, W1. destruct s as [b k1 k2 k3]. cbn [t_base t_k1 t_k2 t_k3] in *.
    destruct k3 as [k3|]; [destruct C as (C0 & C1 & C2 & C3 & C4)|];
    unfold twf, kwf, bind, t_set_base, on_k3, on_k2, on_k1, des_setPadding, set_base, get, bind;
    cbn [fst snd t_base t_k1 t_k2 t_k3 d_base d_Kn b_mode b_pad b_padmode sbase base_setPadding st_mode st_iv st_pad st_padmode st_key];
    repeat split; auto.
  - split; [|exact Hi]. destruct W as (W1 & (A1 & A2 & A3 & A4) & (B1 & B2 & B3 & B4) & C). cbn [tdes_op track3 track st_key].
    unfold tdes_setPadMode. rewrite bind_get, W1. destruct s as [b k1 k2 k3]. cbn [t_base t_k1 t_k2 t_k3] in *.
    destruct k3 as [k3|]; [destruct C as (C0 & C1 & C2 & C3 & C4)|];
    unfold twf, kwf, bind, t_set_base, on_k3, on_k2, on_k1, des_setPadMode, set_base, get, bind;
    cbn [fst snd t_base t_k1 t_k2 t_k3 d_base d_Kn b_mode b_pad b_padmode sbase base_setPadMode st_mode st_iv st_pad st_padmode st_key];
    repeat split; auto.
  - split; [|exact Hi]. destruct c; cbn [tdes_op tdes_call track3 track]; [apply tkeeps_encrypt|apply tkeeps_decrypt]; exact W.
Qed.
Lemma tops_wf h : forall st s, twf (st_key st) (sbase st) s -> iv_len st ->
  twf (st_key (tracks3 h st)) (sbase (tracks3 h st)) (tdes_ops h s) /\ iv_len (tracks3 h st).
Proof.
  induction h as [|o h IH]; intros st s W H; [auto|]. cbn [tracks3 tdes_ops fold_left].
  destruct (top_wf o st s W H) as [W' H']. exact (IH _ _ W' H').
Qed.
Lemma created_wf key mode iv pad padmode d0 : tdes_new key mode iv pad padmode = Ok d0 ->
  let st := created3 key mode iv pad padmode in twf (st_key st) (sbase st) d0 /\ iv_len st.
Proof.
  intros E. apply tdes_new_wf in E as (W & HK & Hi & Hp). unfold created3. cbn [track3 st_pad st_padmode st_mode st_iv st_key].
  replace ((length key =? 16)%nat || (length key =? 24)%nat) with true by lia.
  replace (match pad with [] => true | _ :: _ => negb (padmode =? 2) end) with true
    by (destruct pad; [reflexivity|destruct Hp; [discriminate|change PAD_PKCS5 with 2 in *; lia]]).
  unfold sbase, iv_len. cbn [st_pad st_padmode st_mode st_iv st_key]. unfold tdes_iv, key1 in W. change CBC with 1 in W. split.
  - destruct iv; exact W.
  - destruct Hi as [->|Hi]; [destruct (mode =? 1); [right; rewrite firstn_length; lia|auto]|destruct iv; [discriminate|auto]].
Qed.

Lemma C87_settings_pf : forall key mode iv pad padmode d0 h, tdes_new key mode iv pad padmode = Ok d0 ->
  let st := tracks3 h (created3 key mode iv pad padmode) in
  let d := tdes_ops h d0 in
  same_settings (t_getKey d) (t_getMode d) (t_getIV d) (t_getPadding d) (t_getPadMode d) st
  /\ ((st_mode st = CBC -> st_iv st <> []) ->
      forall d' data p pm, tdes_reach (st_key st) (st_mode st) (st_iv st) (st_pad st) (st_padmode st) d' ->
       fst (tdes_encrypt data p pm d) = fst (tdes_encrypt data p pm d')
       /\ fst (tdes_decrypt data p pm d) = fst (tdes_decrypt data p pm d')).
Proof.
  intros key mode iv pad padmode d0 h E st d. destruct (created_wf _ _ _ _ _ _ E) as [W I0].
  destruct (tops_wf h _ _ W I0) as [W' I']. fold st d in W', I'. split.
  - unfold same_settings, t_getKey, t_getMode, t_getIV, t_getPadding, t_getPadMode. rewrite (proj1 W'). repeat split.
  - intros Hn d' data p pm Hr. apply treach_wf in Hr as (W2 & _).
    replace (tdes_iv (st_mode st) (st_key st) (st_iv st)) with (st_iv st) in W2.
    2: { unfold tdes_iv. destruct (st_iv st); [|reflexivity]. destruct (Z.eqb_spec (st_mode st) CBC); [now elim Hn|reflexivity]. }
    change (mkBase (st_mode st) (st_iv st) (st_pad st) (st_padmode st) (st_key st)) with (sbase st) in W2.
    split; [apply tdes_encrypt_indep; eapply twf_twsim; eauto|eapply tdes_decrypt_indep; eauto].
Qed.

Lemma C87_no_iv_pf : forall key mode iv pad padmode d0 h data p pm, tdes_new key mode iv pad padmode = Ok d0 ->
  let st := tracks3 h (created3 key mode iv pad padmode) in
  st_mode st = CBC -> st_iv st = [] ->
  fst (tdes_encrypt data p pm (tdes_ops h d0)) = Err ValueError
  /\ fst (tdes_decrypt data p pm (tdes_ops h d0)) = Err ValueError.
Proof.
  intros key mode iv pad padmode d0 h data p pm E st Hm Hv. destruct (created_wf _ _ _ _ _ _ E) as [W I0].
  destruct (tops_wf h _ _ W I0) as [W' _]. fold st in W'. set (d := tdes_ops h d0) in *.
  assert (G : forall B (k : M tdes B), (keys_setIV [] ;;; k) d = (Err ValueError, snd (keys_setIV [] d))).
  { intros. reflexivity. }
  split.
  - unfold tdes_encrypt. rewrite bind_get, (proj1 W'). unfold sbase at 2 3. cbn [b_mode b_iv]. rewrite Hm, Hv. change (CBC =? CBC) with true. cbv iota.
    unfold padData. destruct (_ && _); [reflexivity|].
    repeat (match goal with |- context [lift (if ?c then _ else _)] => destruct c end; try reflexivity).
  - unfold tdes_decrypt. rewrite bind_get, (proj1 W'). unfold sbase. cbn [b_mode b_iv]. rewrite Hm, Hv. reflexivity.
Qed.

Lemma C87_setters_pf : forall key mode iv pad padmode d0 h, tdes_new key mode iv pad padmode = Ok d0 -> let d := tdes_ops h d0 in
  (forall v, fst (tdes_setIV v d) = if (length v =? 8)%nat then Ok tt else Err ValueError)
  /\ (forall v, length v <> 8%nat -> snd (tdes_setIV v d) = d)
  /\ (forall m, fst (tdes_setMode m d) = Ok tt) /\ (forall q, fst (tdes_setPadding q d) = Ok tt)
  /\ (forall m, fst (tdes_setPadMode m d) = Ok tt)
  /\ (forall k, fst (tdes_rekey k d) = Ok tt \/ fst (tdes_rekey k d) = Err ValueError)
  /\ (forall k, fst (tdes_rekey k d) = Ok tt <->
        (length k = 16 \/ length k = 24)%nat /\ (t_getPadding d = [] \/ t_getPadMode d <> PAD_PKCS5))
  /\ (forall k, length k <> 16%nat -> length k <> 24%nat -> snd (tdes_rekey k d) = d).
Proof.
  intros key mode iv pad padmode d0 h E d. destruct (created_wf _ _ _ _ _ _ E) as [W I0].
  destruct (tops_wf h _ _ W I0) as [W' I']. fold d in W'.
  assert (B3 : forall A (m1 m2 m3 : M des A) s, (forall x, exists a, fst (m1 x) = Ok a) -> (forall x, exists a, fst (m2 x) = Ok a) ->
    fst ((on_k1 m1 ;;; on_k2 m2 ;;; on_k3 m3) s) = match t_k3 s with Some k => fst (m3 k) | None => fst (m3 (snd (m1 (t_k1 s)))) end).
  { intros A m1 m2 m3 s H1 H2. unfold bind, on_k1, on_k2, on_k3. specialize (H1 (t_k1 s)). specialize (H2 (t_k2 s)).
    destruct H1 as [a1 H1], H2 as [a2 H2].
    destruct (m1 (t_k1 s)) as [r1 d1]. cbn [fst snd t_k1 t_k2 t_k3] in *. subst r1. cbn [fst snd t_k1 t_k2 t_k3].
    destruct (m2 (t_k2 s)) as [r2 d2]. cbn [fst snd t_k1 t_k2 t_k3] in *. subst r2. cbn [fst snd t_k1 t_k2 t_k3].
    destruct (t_k3 s) as [k|]; unfold on_k1; cbn [t_k1]; destruct (m3 _); reflexivity. }
  assert (G : forall v, (length v =? 8)%nat = true -> forall x, fst (des_setIV v x) = Ok tt).
  { intros v Hv x. unfold des_setIV. rewrite bind_get. unfold base_setIV. replace (zlen v =? 8) with true by (unfold zlen; lia). reflexivity. }
  split; [|split; [|split; [|split; [|split; [|split; [|split]]]]]].
  - intros v. unfold tdes_setIV. rewrite bind_get. unfold base_setIV.
    destruct (length v =? 8)%nat eqn:Ev; [|replace (zlen v =? 8) with false by (unfold zlen; lia); reflexivity].
    replace (zlen v =? 8) with true by (unfold zlen; lia). do 2 (erewrite bind_ok by reflexivity).
    unfold keys_setIV. rewrite B3; [cbn [t_k3]; destruct (t_k3 d); now apply G|intro; exists tt; now apply G|intro; exists tt; now apply G].
  - intros v Hv. unfold tdes_setIV. rewrite bind_get. unfold base_setIV. replace (zlen v =? 8) with false by (unfold zlen; lia). reflexivity.
  - intros m. unfold tdes_setMode. rewrite bind_get. erewrite bind_ok by reflexivity.
    rewrite B3; [destruct (t_k3 _); reflexivity|intro; exists tt; reflexivity|intro; exists tt; reflexivity].
  - intros q. unfold tdes_setPadding. rewrite bind_get. erewrite bind_ok by reflexivity.
    rewrite B3; [destruct (t_k3 _); reflexivity|intro; exists tt; reflexivity|intro; exists tt; reflexivity].
  - intros m. unfold tdes_setPadMode. rewrite bind_get. erewrite bind_ok by reflexivity.
    rewrite B3; [destruct (t_k3 _); reflexivity|intro; exists tt; reflexivity|intro; exists tt; reflexivity].
  - intros k. now apply (rekey_wf k _ _ W').
  - intros k. unfold t_getPadding, t_getPadMode. rewrite (proj1 W'). now apply (rekey_wf k _ _ W').
  - intros k H1 H2. unfold tdes_rekey. replace ((zlen k =? 24) || (zlen k =? 16)) with false by (unfold zlen; lia). reflexivity.
Qed.

Lemma C87_rekey_partial_pf : forall key mode iv pad padmode d k d' data p pm, tdes_reach key mode iv pad padmode d ->
  tdes_reach k mode iv pad padmode d' -> mode <> CBC \/ iv <> [] ->
  fst (tdes_rekey k d) = Ok tt
  /\ fst (tdes_encrypt data p pm (snd (tdes_rekey k d))) = fst (tdes_encrypt data p pm d')
  /\ fst (tdes_decrypt data p pm (snd (tdes_rekey k d))) = fst (tdes_decrypt data p pm d').
Proof.
  intros key mode iv pad padmode d k d' data p pm (d0 & h & E & ->) Hr' Hm.
  apply treach_wf in Hr' as (W2 & HK & Hi & Hp).
  set (d := fold_left _ h d0). assert (W : twf key (mkBase mode (tdes_iv mode key iv) pad padmode key) d).
  { apply treach_wf. exists d0, h. auto. }
  assert (TI : forall x, tdes_iv mode x iv = iv).
  { intro x. unfold tdes_iv. destruct iv; [|reflexivity]. destruct (Z.eqb_spec mode CBC); [|reflexivity]. now destruct Hm. }
  rewrite TI in W, W2. change (mkBase mode iv pad padmode key) with (sbase (mkSet key mode iv pad padmode)) in W.
  destruct (rekey_wf k (mkSet key mode iv pad padmode) d W Hi) as (W3 & _ & R & _).
  split; [apply R; auto|].
  replace (track3 (OKey k) (mkSet key mode iv pad padmode)) with (mkSet k mode iv pad padmode) in W3.
  2: { cbn [track3 st_pad st_padmode st_mode st_iv st_key]. replace ((length k =? 16)%nat || (length k =? 24)%nat) with true by lia.
       replace (match pad with [] => true | _ :: _ => negb (padmode =? 2) end) with true
         by (destruct pad; [reflexivity|destruct Hp; [discriminate|change PAD_PKCS5 with 2 in *; lia]]).
       f_equal. destruct iv; [|reflexivity]. destruct (Z.eqb_spec mode 1); [|reflexivity]. destruct Hm as [Hm|Hm]; [elim Hm; assumption|now elim Hm]. }
  split; [apply tdes_encrypt_indep; eapply twf_twsim; eauto|eapply tdes_decrypt_indep; eauto].
Qed.

Lemma C87_full_refuted_pf : ~ C87_full.
Proof.
  intros H.
  assert (X : exists d d', tdes_new (repeat 1 16) CBC [] [] PAD_NORMAL = Ok d /\ tdes_new (repeat 2 16) CBC [] [] PAD_NORMAL = Ok d'
    /\ fst (tdes_encrypt (repeat 0 8) [] None (snd (tdes_rekey (repeat 2 16) d))) <> fst (tdes_encrypt (repeat 0 8) [] None d')).
  { do 2 eexists. split; [vm_compute; reflexivity|]. split; [vm_compute; reflexivity|]. vm_compute. discriminate. }
  destruct X as (d & d' & E & E' & X).
  destruct (H (repeat 1 16) CBC [] [] PAD_NORMAL d (repeat 2 16) d' (repeat 0 8)) as [_ Q].
  - exists d, []. auto.
  - exists d', []. auto.
  - exact (X Q).
Qed.
