(** * C109-C111: pyDes with str and bytes: proofs *)
From Verif Require Import Py S_Base L_Py S_DES M_des M_desx S_DesSettings M_desstr S_DesStr L_des LP_des LP_tdes LP_desset.
From Coq Require Import ZifyBool ZifyNat.
Ltac Zify.zify_post_hook ::= Z.div_mod_to_equations.


(** *** encoding *)
Lemma guard_ok v l : encodes v l <-> guard v = Ok l.
Proof.
  destruct v as [x|x]; cbn [guard]; split; intros H.
  - now inversion H.
  - injection H as <-. constructor.
  - inversion H; subst. replace (forallb _ l) with true; [reflexivity|]. symmetry. apply forallb_forall. intros c Hc.
    rewrite Forall_forall in *. specialize (H1 c Hc). cbn in H1. lia.
  - destruct (forallb _ x) eqn:E; [|discriminate]. injection H as <-. constructor. apply Forall_forall. intros c Hc.
    rewrite forallb_forall in E. specialize (E c Hc). lia.
Qed.
Lemma guard_res v : guard v = Ok (chars v) \/ guard v = Err ValueError.
Proof. destruct v; cbn [guard chars]; [auto|]. destruct (forallb _ l); auto. Qed.
Lemma guard_err v : (forall l, ~ encodes v l) <-> guard v = Err ValueError.
Proof.
  split.
  - intros H. destruct (guard_res v) as [E|E]; [|exact E]. apply guard_ok in E. now elim (H (chars v)).
  - intros E l H. apply guard_ok in H. congruence.
Qed.
Lemma encodes_chars v l : encodes v l -> l = chars v. Proof. now destruct 1. Qed.
Lemma guard_iv b : guard (PBytes b) = Ok b. Proof. reflexivity. Qed.

(** *** erasing the types *)
Lemma bind_lift_ok {S A B} (r : res A) a (k : A -> M S B) s : r = Ok a -> bind (lift r) k s = k a s.
Proof. intros ->. reflexivity. Qed.
Lemma bind_lift_err {S A B} (r : res A) e (k : A -> M S B) s : r = Err e -> bind (lift r) k s = (Err e, s).
Proof. intros ->. reflexivity. Qed.
Lemma s_crypt_eq v t d : s_crypt v t d
  = (rmap (fun l => if nonempty (chars v) then PBytes l else PStr []) (fst (crypt (chars v) t d)), snd (crypt (chars v) t d)).
Proof.
  unfold s_crypt. destruct (chars v) as [|x l]; [reflexivity|]. cbn [nonempty negb]. unfold bind.
  destruct (crypt (x :: l) t d) as [[r|e] d']; reflexivity.
Qed.
Lemma crypt_nil t d : crypt [] t d = (Ok [], d). Proof. reflexivity. Qed.
Lemma s_crypt_erase v t d : (rmap chars (fst (s_crypt v t d)), snd (s_crypt v t d)) = crypt (chars v) t d.
Proof.
  rewrite s_crypt_eq. cbn [fst snd]. destruct (chars v) as [|x l] eqn:E; cbn [nonempty].
  - rewrite crypt_nil. reflexivity.
  - destruct (crypt (x :: l) t d) as [[r|e] d']; reflexivity.
Qed.
Lemma s_unpad_erase b v p pm : rmap chars (s_unpad b v p pm) = unpadData b (chars v) p pm.
Proof.
  unfold s_unpad. destruct (chars v) as [|x l] eqn:E; cbn [nonempty negb].
  - cbn [rmap]. rewrite E. reflexivity.
  - destruct (unpadData b (x :: l) p pm); reflexivity.
Qed.
Lemma s_encrypt_erase data l p q pm d : encodes data l -> encodes p q ->
  (rmap chars (fst (s_encrypt data p pm d)), snd (s_encrypt data p pm d)) = des_encrypt l q pm d.
Proof.
  intros H1 H2. apply guard_ok in H1, H2. unfold s_encrypt, des_encrypt.
  rewrite (bind_lift_ok _ _ _ _ H1), (bind_lift_ok _ _ _ _ H2), !bind_get.
  destruct (padData (d_base d) l q pm) as [x|e] eqn:E.
  - rewrite !(bind_lift_ok _ _ _ _ eq_refl). apply s_crypt_erase.
  - rewrite !(bind_lift_err _ _ _ _ eq_refl). reflexivity.
Qed.
Lemma s_decrypt_erase data l p q pm d : encodes data l -> encodes p q ->
  (rmap chars (fst (s_decrypt data p pm d)), snd (s_decrypt data p pm d)) = des_decrypt l q pm d.
Proof.
  intros H1 H2. apply guard_ok in H1, H2. unfold s_decrypt, des_decrypt.
  rewrite (bind_lift_ok _ _ _ _ H1), (bind_lift_ok _ _ _ _ H2).
  pose proof (s_crypt_erase (PBytes l) DECRYPT d) as E. cbn [chars] in E. unfold bind.
  rewrite <- E. destruct (s_crypt (PBytes l) DECRYPT d) as [[r|e] d']; cbn [fst snd rmap]; [|reflexivity].
  unfold get, lift. cbn [fst snd]. now rewrite s_unpad_erase.
Qed.

(** *** des *)
Lemma des_new_err k mode iv pad padmode e : des_new k mode iv pad padmode = Err e -> e = ValueError.
Proof.
  intros H. destruct (Nat.eq_dec (length k) 8) as [Hk|Hk].
  2: { unfold des_new in H. replace (zlen k =? 8) with false in H by (unfold zlen; lia). cbn [negb] in H. congruence. }
  destruct (nonempty pad && (padmode =? PAD_PKCS5)) eqn:Ep.
  { unfold des_new, base_init in H. rewrite Ep in H. cbn [rbind] in H. destruct (negb _); congruence. }
  destruct (nonempty iv && negb (zlen iv =? 8)) eqn:Ei.
  { unfold des_new, base_init in H. rewrite Ep, Ei in H. cbn [rbind] in H. destruct (negb _); congruence. }
  destruct (des_new_exists k mode iv pad padmode Hk) as [d E]; [| |congruence].
  - destruct iv; [auto|]. cbn [nonempty andb] in Ei. right. unfold zlen in Ei. lia.
  - destruct pad; [auto|]. cbn [nonempty andb] in Ep. right. lia.
Qed.
Lemma s_new_eq key k mode IV iv pad p padmode : encodes key k -> encodes IV iv -> encodes pad p ->
  s_new key mode IV pad padmode = des_new k mode iv p padmode.
Proof.
  intros H1 H2 H3. pose proof (encodes_chars _ _ H1) as E. apply guard_ok in H1, H2, H3. unfold s_new. rewrite H1, H2, H3, <- E.
  cbn [rbind]. unfold des_new at 2. destruct (negb (zlen k =? 8)) eqn:EL; [reflexivity|].
  destruct (base_init mode iv p padmode) eqn:EB; cbn [rbind]; [|reflexivity]. unfold des_new. now rewrite EL, EB.
Qed.
Lemma s_new_err key mode IV pad padmode e : s_new key mode IV pad padmode = Err e -> e = ValueError.
Proof.
  unfold s_new. intros H. destruct (negb _); [congruence|]. destruct (guard_res IV) as [E|E]; rewrite E in H; cbn [rbind] in H; [|congruence].
  destruct (guard_res pad) as [E2|E2]; rewrite E2 in H; cbn [rbind] in H; [|congruence].
  destruct (base_init _ _ _ _) as [b|x] eqn:EB; cbn [rbind] in H.
  2: { unfold base_init in EB. destruct (_ && _); [congruence|]. destruct (_ && _); congruence. }
  destruct (guard_res key) as [E3|E3]; rewrite E3 in H; cbn [rbind] in H; [|congruence].
  eapply des_new_err; eauto.
Qed.
Lemma s_new_refused key mode IV pad padmode : guard key = Err ValueError \/ guard IV = Err ValueError \/ guard pad = Err ValueError ->
  s_new key mode IV pad padmode = Err ValueError.
Proof.
  intros H. destruct (s_new key mode IV pad padmode) as [d|e] eqn:E; [|now apply s_new_err in E as ->].
  unfold s_new in E. destruct (negb _); [discriminate|].
  destruct (guard IV) as [x|] eqn:E1; cbn [rbind] in E; [|discriminate].
  destruct (guard pad) as [y|] eqn:E2; cbn [rbind] in E; [|discriminate].
  destruct (base_init _ _ _ _); cbn [rbind] in E; [|discriminate].
  destruct (guard key) as [z|] eqn:E3; cbn [rbind] in E; [|discriminate]. destruct H as [H|[H|H]]; discriminate.
Qed.

Lemma C109_des_call_pf : forall o d,
  (forall p, call_encodes o p -> snd (s_op o d) = des_op p d
     /\ match p, fst (s_op o d) with
        | OCall (CEnc l q pm), r => rmap (option_map chars) r = rmap Some (fst (des_encrypt l q pm d))
        | OCall (CDec l q pm), r => rmap (option_map chars) r = rmap Some (fst (des_decrypt l q pm d))
        | OKey l, r => r = rmap (fun _ => None) (fst (des_setKey l d))
        | OIV l, r => r = rmap (fun _ => None) (fst (des_setIV l d))
        | _, r => r = Ok None
        end)
  /\ (refused o -> s_op o d = (Err ValueError, d)).
Proof.
  intros o d. split.
  - intros p H. destruct H as [k l E|m|v l E|p l E|m|data l p q pm E1 E2|data l p q pm E1 E2]; cbn [s_op des_op des_call]; unfold none_str, some_str.
    + apply guard_ok in E. unfold s_setKey, bind at 1 3. rewrite (bind_lift_ok _ _ _ _ E). destruct (des_setKey l d) as [[?|?] ?]; auto.
    + split; reflexivity.
    + pose proof (encodes_chars _ _ E) as EC. apply guard_ok in E. unfold s_setIV. rewrite <- EC.
      destruct (zlen l =? 8) eqn:EL.
      * unfold bind at 1 3. rewrite (bind_lift_ok _ _ _ _ E). destruct (des_setIV l d) as [[?|?] ?]; auto.
      * unfold des_setIV. rewrite bind_get. unfold base_setIV. rewrite EL. split; reflexivity.
    + apply guard_ok in E. unfold s_setPadding, bind at 1 3. rewrite (bind_lift_ok _ _ _ _ E). split; reflexivity.
    + split; reflexivity.
    + pose proof (s_encrypt_erase _ _ _ _ pm d E1 E2) as E. rewrite <- E. unfold bind. destruct (s_encrypt data p pm d) as [[?|?] ?]; auto.
    + pose proof (s_decrypt_erase _ _ _ _ pm d E1 E2) as E. rewrite <- E. unfold bind. destruct (s_decrypt data p pm d) as [[?|?] ?]; auto.
  - intros H. destruct o as [k|m|v|p|m|data p pm|data p pm]; cbn [s_op]; unfold none_str, some_str, refused in *.
    + destruct (guard_res k) as [E|E]; [elim (H (OKey (chars k))); constructor; now apply guard_ok|].
      unfold s_setKey, bind at 1. now rewrite (bind_lift_err _ _ _ _ E).
    + now elim (H (OMode m)); constructor.
    + destruct (guard_res v) as [E|E]; [elim (H (OIV (chars v))); constructor; now apply guard_ok|].
      unfold s_setIV. destruct (_ =? 8); [|reflexivity]. unfold bind at 1. now rewrite (bind_lift_err _ _ _ _ E).
    + destruct (guard_res p) as [E|E]; [elim (H (OPadding (chars p))); constructor; now apply guard_ok|].
      unfold s_setPadding, bind at 1. now rewrite (bind_lift_err _ _ _ _ E).
    + now elim (H (OPadMode m)); constructor.
    + unfold s_encrypt, bind at 1. destruct (guard_res data) as [E|E]; [|now rewrite (bind_lift_err _ _ _ _ E)].
      rewrite (bind_lift_ok _ _ _ _ E). destruct (guard_res p) as [E2|E2]; [|now rewrite (bind_lift_err _ _ _ _ E2)].
      elim (H (OCall (CEnc (chars data) (chars p) pm))); constructor; now apply guard_ok.
    + unfold s_decrypt, bind at 1. destruct (guard_res data) as [E|E]; [|now rewrite (bind_lift_err _ _ _ _ E)].
      rewrite (bind_lift_ok _ _ _ _ E). destruct (guard_res p) as [E2|E2]; [|now rewrite (bind_lift_err _ _ _ _ E2)].
      elim (H (OCall (CDec (chars data) (chars p) pm))); constructor; now apply guard_ok.
Qed.

Lemma call_dec o : (exists p, call_encodes o p) \/ refused o.
Proof.
  destruct o as [k|m|v|p|m|data p pm|data p pm].
  - destruct (guard_res k) as [E|E]; [left; exists (OKey (chars k)); constructor; now apply guard_ok|].
    right. intros q H. inversion H; subst. repeat match goal with Q : encodes _ _ |- _ => apply guard_ok in Q end. congruence.
  - left. eexists. constructor.
  - destruct (guard_res v) as [E|E]; [left; exists (OIV (chars v)); constructor; now apply guard_ok|].
    right. intros q H. inversion H; subst. repeat match goal with Q : encodes _ _ |- _ => apply guard_ok in Q end. congruence.
  - destruct (guard_res p) as [E|E]; [left; exists (OPadding (chars p)); constructor; now apply guard_ok|].
    right. intros q H. inversion H; subst. repeat match goal with Q : encodes _ _ |- _ => apply guard_ok in Q end. congruence.
  - left. eexists. constructor.
  - destruct (guard_res data) as [E|E]; [destruct (guard_res p) as [E2|E2]|].
    + left. exists (OCall (CEnc (chars data) (chars p) pm)). constructor; now apply guard_ok.
    + right. intros q H. inversion H; subst. repeat match goal with Q : encodes _ _ |- _ => apply guard_ok in Q end. congruence.
    + right. intros q H. inversion H; subst. repeat match goal with Q : encodes _ _ |- _ => apply guard_ok in Q end. congruence.
  - destruct (guard_res data) as [E|E]; [destruct (guard_res p) as [E2|E2]|].
    + left. exists (OCall (CDec (chars data) (chars p) pm)). constructor; now apply guard_ok.
    + right. intros q H. inversion H; subst. repeat match goal with Q : encodes _ _ |- _ => apply guard_ok in Q end. congruence.
    + right. intros q H. inversion H; subst. repeat match goal with Q : encodes _ _ |- _ => apply guard_ok in Q end. congruence.
Qed.
Lemma hist_exists h : exists h', hist h h'.
Proof.
  induction h as [|o h [h' IH]]; [exists []; constructor|]. destruct (call_dec o) as [[p H]|H]; [exists (p :: h')|exists h']; now constructor.
Qed.

Lemma C109_des_history_pf : forall h, (exists h', hist h h')
  /\ forall h' key k mode IV iv pad p padmode d, hist h h' -> encodes key k -> encodes IV iv -> encodes pad p ->
     s_new key mode IV pad padmode = Ok d -> des_new k mode iv p padmode = Ok d /\ s_ops h d = des_ops h' d.
Proof.
  intros h. split; [apply hist_exists|]. intros h' key k mode IV iv pad p padmode d H E1 E2 E3 E.
  rewrite (s_new_eq _ _ mode _ _ _ _ padmode E1 E2 E3) in E. split; [exact E|]. clear - H. revert d.
  induction H as [|o q h h' Hc H IH|o h h' Hc H IH]; intros d; [reflexivity| |]; cbn [s_ops des_ops fold_left].
  - rewrite (proj1 (proj1 (C109_des_call_pf o d) q Hc)). apply IH.
  - rewrite (proj2 (C109_des_call_pf o d) Hc). apply IH.
Qed.

(** *** triple_des *)
Definition iv_good (s : stdes) : Prop := s_ivstr s = true -> Forall (fun c => 0 <= c < 128) (b_iv (t_base (s_t s))).
Lemma getIV_enc s : iv_good s -> encodes (s_getIV s) (b_iv (t_base (s_t s))).
Proof. intros H. unfold s_getIV. destruct (s_ivstr s) eqn:E; constructor. now apply H. Qed.
Definition er (m : M stdes pystr) (m' : M tdes (list Z)) (s : stdes) : Prop :=
  exists r, m s = (r, mkSt (snd (m' (s_t s))) (s_ivstr s)) /\ rmap chars r = fst (m' (s_t s)).
Definition erd (m : M des pystr) (m' : M des (list Z)) : Prop := forall d, (rmap chars (fst (m d)), snd (m d)) = m' d.
Lemma erd_crypt v t : erd (s_crypt v t) (crypt (chars v) t). Proof. intro d. apply s_crypt_erase. Qed.
Lemma er_k1 m m' s : erd m m' -> er (on_t (on_k1 m)) (on_k1 m') s.
Proof.
  intros H. unfold er, on_t, on_k1. rewrite <- (H (t_k1 (s_t s))). destruct (m (t_k1 (s_t s))) as [r d]. cbn [fst snd]. eauto.
Qed.
Lemma er_k2 m m' s : erd m m' -> er (on_t (on_k2 m)) (on_k2 m') s.
Proof.
  intros H. unfold er, on_t, on_k2. rewrite <- (H (t_k2 (s_t s))). destruct (m (t_k2 (s_t s))) as [r d]. cbn [fst snd]. eauto.
Qed.
Lemma er_k3 m m' s : erd m m' -> er (on_t (on_k3 m)) (on_k3 m') s.
Proof.
  intros H. destruct (t_k3 (s_t s)) as [k|] eqn:E.
  - unfold er, on_t, on_k3. rewrite E. rewrite <- (H k). destruct (m k) as [r d]. cbn [fst snd]. eauto.
  - pose proof (er_k1 m m' s H) as Q. unfold er, on_t, on_k3 in *. rewrite E. exact Q.
Qed.
Lemma er_bind m m' k k' s : er m m' s -> (forall v s1, er (k v) (k' (chars v)) s1) -> er (bind m k) (bind m' k') s.
Proof.
  intros (r & E & R) H. unfold er, bind. rewrite E. destruct (m' (s_t s)) as [r' t]. cbn [fst snd] in *. subst r'.
  destruct r as [v|e]; cbn [rmap fst snd].
  - destruct (H v (mkSt t (s_ivstr s))) as (r2 & E2 & R2). cbn [s_t s_ivstr] in *. eauto.
  - exists (Err e). auto.
Qed.
Lemma er_bytes m s : er (r <- on_t m ;; ret (PBytes r)) m s.
Proof. unfold er, bind, on_t. destruct (m (s_t s)) as [[r|e] t]; cbn [fst snd]; eexists; split; reflexivity. Qed.
Lemma keys_setIV_eq s : iv_good s -> s_keys_setIV s = on_t (keys_setIV (b_iv (t_base (s_t s)))) s.
Proof.
  intros H. pose proof (getIV_enc s H) as E. pose proof (encodes_chars _ _ E) as EC. apply guard_ok in E.
  unfold s_keys_setIV. rewrite bind_get, <- EC. destruct (zlen _ =? 8) eqn:EL; [now rewrite (bind_lift_ok _ _ _ _ E)|].
  unfold on_t, keys_setIV, on_k1, des_setIV, base_setIV, bind, get, lift. rewrite EL. destruct s as [[b k1 k2 k3] i]. reflexivity.
Qed.
Lemma er_setIV m s : iv_good s -> er (s_keys_setIV ;;; (r <- on_t m ;; ret (PBytes r))) (keys_setIV (b_iv (t_base (s_t s))) ;;; m) s.
Proof.
  intros H. unfold er, bind at 1 3 4. rewrite keys_setIV_eq by exact H. unfold on_t at 1.
  destruct (keys_setIV _ (s_t s)) as [[u|e] t]; cbn [fst snd].
  - pose proof (er_bytes m (mkSt t (s_ivstr s))) as Q. unfold er in Q. cbn [s_t s_ivstr] in Q. exact Q.
  - exists (Err e). auto.
Qed.
Lemma s_tencrypt_erase data l p q pm s : iv_good s -> encodes data l -> encodes p q -> er (s_tencrypt data p pm) (tdes_encrypt l q pm) s.
Proof.
  intros Hi H1 H2. apply guard_ok in H1, H2. unfold er, s_tencrypt, tdes_encrypt.
  rewrite (bind_lift_ok _ _ _ _ H1), (bind_lift_ok _ _ _ _ H2), !bind_get.
  destruct (padData (t_base (s_t s)) l q pm) as [x|e] eqn:E.
  2: { rewrite !(bind_lift_err _ _ _ _ eq_refl). exists (Err e). destruct s. auto. }
  rewrite !(bind_lift_ok _ _ _ _ eq_refl). destruct (b_mode (t_base (s_t s)) =? CBC).
  - now apply er_setIV.
  - apply (er_bind _ _ _ (fun d => d <- on_k2 (crypt d DECRYPT) ;; on_k3 (crypt d ENCRYPT))); [apply (er_k1 _ _ _ (erd_crypt (PBytes x) _))|].
    intros v s1. apply (er_bind _ _ _ (fun d => on_k3 (crypt d ENCRYPT))); [apply er_k2, erd_crypt|]. intros. apply er_k3, erd_crypt.
Qed.
Lemma s_tdecrypt_erase data l p q pm s : iv_good s -> encodes data l -> encodes p q -> er (s_tdecrypt data p pm) (tdes_decrypt l q pm) s.
Proof.
  intros Hi H1 H2. apply guard_ok in H1, H2. unfold er, s_tdecrypt, tdes_decrypt.
  rewrite (bind_lift_ok _ _ _ _ H1), (bind_lift_ok _ _ _ _ H2), !bind_get.
  apply (er_bind _ _ (fun v => s <- get ;; lift (s_unpad (t_base (s_t s)) v q pm)) (fun x => s <- get ;; lift (unpadData (t_base s) x q pm)) s).
  - destruct (b_mode (t_base (s_t s)) =? CBC).
    + now apply er_setIV.
    + apply (er_bind _ _ _ (fun d => d <- on_k2 (crypt d ENCRYPT) ;; on_k1 (crypt d DECRYPT))); [apply (er_k3 _ _ _ (erd_crypt (PBytes l) _))|].
      intros v s1. apply (er_bind _ _ _ (fun d => on_k1 (crypt d DECRYPT))); [apply er_k2, erd_crypt|]. intros. apply er_k1, erd_crypt.
  - intros v s1. unfold er. rewrite !bind_get. unfold lift. cbn [fst snd]. rewrite <- s_unpad_erase. destruct s1. eauto.
Qed.
Lemma chars_map f v : chars (on_chars f v) = f (chars v). Proof. now destruct v. Qed.
Lemma Forall_part (P : Z -> Prop) n m l : Forall P l -> Forall P (firstn n (skipn m l)).
Proof.
  intros H. rewrite Forall_forall in *. intros x Hx. apply H. rewrite <- (firstn_skipn m l), <- (firstn_skipn n (skipn m l)).
  rewrite !in_app_iff. auto.
Qed.
Lemma encodes_slice key l a b : encodes key l -> encodes (on_chars (fun l => py_slice l a b) key) (py_slice l a b).
Proof. destruct 1; constructor. now apply Forall_part. Qed.
Lemma encodes_slice_from key l a : encodes key l -> encodes (on_chars (fun l => py_slice_from l a) key) (py_slice_from l a).
Proof.
  destruct 1; constructor. unfold py_slice_from. rewrite <- (firstn_all2 (n := length l) (skipn _ l)) by (rewrite skipn_length; lia).
  now apply Forall_part.
Qed.
Definition is_str (v : pystr) : bool := match v with PStr _ => true | PBytes _ => false end.
Lemma new_again k k' mode iv pad padmode d : des_new k mode iv pad padmode = Ok d -> length k' = 8%nat ->
  exists d', des_new k' mode iv pad padmode = Ok d'.
Proof. intros E H. apply des_new_wf in E as (_ & _ & Hi & Hp). now apply des_new_exists. Qed.
Lemma slice_len (l : list Z) a : (a + 8 <= length l)%nat -> length (py_slice l (Z.of_nat a) (Z.of_nat a + 8)) = 8%nat.
Proof. intros H. rewrite slice8 by exact H. rewrite firstn_length, skipn_length. lia. Qed.
Lemma slice_from_len (l : list Z) : length l = 24%nat -> length (py_slice_from l 16) = 8%nat.
Proof. intros H. unfold py_slice_from, py_clamp. replace (16 <? 0) with false by lia. rewrite skipn_length. unfold zlen. lia. Qed.
(** setKey with a key that is bytes or ASCII *)
Lemma s_rekey_eq key l s : iv_good s -> encodes key l ->
  (fst (s_rekey key s), s_t (snd (s_rekey key s))) = tdes_rekey l (s_t s) /\ iv_good (snd (s_rekey key s))
  /\ s_ivstr (snd (s_rekey key s))
     = (if ((length l =? 16) || (length l =? 24))%nat && (b_mode (t_base (s_t s)) =? CBC) && negb (nonempty (b_iv (t_base (s_t s)))) then is_str key else s_ivstr s)
  /\ ((length l = 16 \/ length l = 24)%nat -> b_iv (t_base (s_t (snd (s_rekey key s))))
      = if (b_mode (t_base (s_t s)) =? CBC) && negb (nonempty (b_iv (t_base (s_t s)))) then firstn 8 l else b_iv (t_base (s_t s))).
Proof.
  intros Hi H. pose proof (encodes_chars _ _ H) as EC. pose proof (getIV_enc s Hi) as HV. destruct s as [[b k1 k2 k3] ivs]. unfold s_rekey, tdes_rekey, tdes_setKey.
  cbn [s_t t_base t_k1 t_k2 t_k3] in *. rewrite <- EC.
  destruct ((zlen l =? 24) || (zlen l =? 16)) eqn:EL; cbn [negb].
  2: { cbn [fst snd s_t s_ivstr t_base]. split; [reflexivity|]. split; [exact Hi|]. unfold zlen in EL.
       replace ((length l =? 16) || (length l =? 24))%nat with false by lia. split; [reflexivity|]. intros. lia. }
  replace ((length l =? 16) || (length l =? 24))%nat with true by (unfold zlen in EL; lia). cbn [andb].
  set (c := (b_mode b =? CBC) && negb (nonempty (b_iv b))).
  set (iv := if c then on_chars (fun l => py_slice l 0 8) key else s_getIV (mkSt (mkTdes b k1 k2 k3) ivs)).
  assert (HE : encodes iv (if c then py_slice l 0 8 else b_iv b)).
  { unfold iv. destruct c; [now apply encodes_slice|exact HV]. }
  pose proof (encodes_chars _ _ HE) as EI. rewrite <- EI. set (v := if c then py_slice l 0 8 else b_iv b) in *.
  assert (EV : (length l = 16 \/ length l = 24)%nat -> v = if c then firstn 8 l else b_iv b).
  { intros HL. unfold v. destruct c; [|reflexivity]. apply (slice8 l 0). lia. }
  assert (ES : match iv with PStr _ => true | PBytes _ => false end = if c then is_str key else ivs).
  { unfold iv. destruct c; [now destruct key|]. unfold s_getIV. cbn [s_ivstr]. now destruct ivs. }
  rewrite ES. set (is := if c then is_str key else ivs).
  assert (IG : forall t, t_base t = mkBase (b_mode b) v (b_pad b) (b_padmode b) (b_key b) \/ t_base t = mkBase (b_mode b) v (b_pad b) (b_padmode b) l -> iv_good (mkSt t is)).
  { intros t Ht. unfold iv_good. cbn [s_ivstr s_t]. replace (b_iv (t_base t)) with v by (destruct Ht as [-> | ->]; reflexivity).
    unfold is. rewrite <- ES. intros Q. destruct HE; [discriminate|assumption]. }
  cbn [b_mode b_pad b_padmode].
  destruct ((b_mode b =? CBC) && negb (zlen v =? 8)) eqn:EB.
  { cbn [fst snd s_t s_ivstr t_base b_iv]. split; [reflexivity|]. split; [apply IG; auto|]. split; [reflexivity|exact EV]. }
  rewrite (s_new_eq _ _ (b_mode b) _ _ (PBytes (b_pad b)) _ (b_padmode b) (encodes_slice _ _ 0 8 H) HE (enc_bytes _)).
  rewrite (s_new_eq _ _ (b_mode b) _ _ (PBytes (b_pad b)) _ (b_padmode b) (encodes_slice _ _ 8 16 H) HE (enc_bytes _)).
  rewrite (s_new_eq _ _ (b_mode b) _ _ (PBytes (b_pad b)) _ (b_padmode b) (encodes_slice_from _ _ 16 H) HE (enc_bytes _)).
  destruct (des_new (py_slice l 0 8) _ _ _ _) as [d1|e] eqn:E1; cbn [rbind].
  2: { cbn [fst snd s_t s_ivstr t_base b_iv]. split; [reflexivity|]. split; [apply IG; auto|]. split; [reflexivity|exact EV]. }
  destruct (new_again _ (py_slice l 8 16) _ _ _ _ _ E1) as [d2 E2]; [apply (slice_len l 8); unfold zlen in EL; lia|].
  rewrite E2. cbn [rbind]. pose proof H as HG. apply guard_ok in HG. rewrite HG.
  destruct (zlen l =? 16) eqn:E16.
  - cbn [rbind fst snd s_t s_ivstr t_base b_iv base_setKey]. split; [reflexivity|]. split; [apply IG; auto|]. split; [reflexivity|exact EV].
  - destruct (new_again _ (py_slice_from l 16) _ _ _ _ _ E1) as [d3 E3]; [apply slice_from_len; unfold zlen in *; lia|].
    rewrite E3. cbn [rbind rmap fst snd s_t s_ivstr t_base b_iv base_setKey]. split; [reflexivity|]. split; [apply IG; auto|]. split; [reflexivity|exact EV].
Qed.
Lemma s_rekey_err key s e : fst (s_rekey key s) = Err e -> e = ValueError.
Proof.
  unfold s_rekey. destruct (negb (_ || _)); [cbn [fst]; congruence|]. match goal with |- context [if ?c then on_chars ?f key else s_getIV s] => set (iv := if c then on_chars f key else s_getIV s); clearbody iv end. cbv zeta. cbn [b_mode b_pad b_padmode].
  destruct (_ && _); [cbn [fst]; congruence|].
  match goal with |- fst (match ?X with _ => _ end) = _ -> _ => destruct X as [k1|x] eqn:E1 end; [|cbn [fst]; intros Q; injection Q as <-; eapply s_new_err; eauto].
  match goal with |- fst (match ?X with _ => _ end) = _ -> _ => destruct X as [k2|x] eqn:E2 end; [|cbn [fst]; intros Q; injection Q as <-; eapply s_new_err; eauto].
  destruct (zlen (chars key) =? 16).
  - destruct (guard_res key) as [G|G]; rewrite G; cbn [fst]; congruence.
  - match goal with |- fst (match ?X with _ => _ end) = _ -> _ => destruct X as [k3|x] eqn:E3 end; [|cbn [fst]; intros Q; injection Q as <-; eapply s_new_err; eauto].
    destruct (guard_res key) as [G|G]; rewrite G; cbn [fst]; congruence.
Qed.
Lemma s_rekey_refused key s : guard key = Err ValueError -> fst (s_rekey key s) = Err ValueError.
Proof.
  intros G. destruct (fst (s_rekey key s)) as [u|e] eqn:E; [|now apply s_rekey_err in E as ->]. exfalso. revert E.
  unfold s_rekey. destruct (negb (_ || _)); [discriminate|]. match goal with |- context [if ?c then on_chars ?f key else s_getIV s] => set (iv := if c then on_chars f key else s_getIV s); clearbody iv end. cbv zeta. cbn [b_mode b_pad b_padmode].
  destruct (_ && _); [discriminate|]. rewrite G.
  do 2 (match goal with |- fst (match ?X with _ => _ end) = _ -> _ => destruct X end; [|discriminate]).
  destruct (zlen (chars key) =? 16); [discriminate|]. match goal with |- fst (match ?X with _ => _ end) = _ -> _ => destruct X end; discriminate.
Qed.
Lemma s_tnew_eq key k mode IV iv pad p padmode : encodes key k -> encodes IV iv -> encodes pad p ->
  rmap s_t (s_tnew key mode IV pad padmode) = tdes_new k mode iv p padmode
  /\ forall s, s_tnew key mode IV pad padmode = Ok s -> iv_good s
     /\ s_getIV s = (if (mode =? CBC) && negb (nonempty iv) then on_chars (firstn 8) key else PBytes iv).
Proof.
  intros H1 H2 H3. pose proof H2 as G2. pose proof H3 as G3. apply guard_ok in G2, G3. unfold s_tnew, tdes_new. rewrite G2, G3. cbn [rbind].
  destruct (base_init mode iv p padmode) as [b|e] eqn:EB; cbn [rbind rmap]; [|split; [reflexivity|discriminate]].
  assert (B : b_mode b = mode /\ b_iv b = iv).
  { unfold base_init in EB. destruct (_ && _); [discriminate|]. destruct (_ && _); [discriminate|]. injection EB as <-. auto. }
  destruct B as [B1 B2].
  set (s0 := mkSt (mkTdes b no_des no_des None) false).
  assert (I0 : iv_good s0) by (intro Q; discriminate).
  destruct (s_rekey_eq key k s0 I0 H1) as (E & IG & ES & EV). cbn [s0 s_t t_base s_ivstr] in *. rewrite B1, B2 in *.
  unfold tdes_rekey in E. cbn [t_base t_k1 t_k2 t_k3] in E.
  destruct ((zlen k =? 24) || (zlen k =? 16)) eqn:EL.
  2: { unfold tdes_setKey. rewrite EL. cbn [negb] in *. destruct (s_rekey key s0) as [[u|x] s1]; cbn [fst snd] in E; [discriminate|].
       injection E as -> _. split; [reflexivity|discriminate]. }
  cbn [negb] in E. destruct (tdes_setKey k b) as [t|x]; destruct (s_rekey key s0) as [[u|y] s1] eqn:ER; cbn [fst snd] in *; try discriminate.
  - assert (s_t s1 = t) by congruence. split; [cbn [rmap]; congruence|]. intros s Q. injection Q as <-. split; [exact IG|].
    unfold s_getIV. rewrite ES, EV by (unfold zlen in EL; lia).
    replace ((length k =? 16) || (length k =? 24))%nat with true by (unfold zlen in EL; lia). cbn [andb].
    destruct ((mode =? CBC) && negb (nonempty iv)); [|reflexivity]. rewrite (encodes_chars _ _ H1). now destruct key.
  - split; [cbn [rmap]; congruence|discriminate].
Qed.
Definition wb (b : base) (s : tdes) : tdes := mkTdes b (t_k1 s) (t_k2 s) (t_k3 s).
Definition nobase {A} (m : M tdes A) : Prop := forall s b, m (wb b s) = (fst (m s), wb b (snd (m s))).
Lemma nobase_bind {A B} (m : M tdes A) (k : A -> M tdes B) : nobase m -> (forall a, nobase (k a)) -> nobase (bind m k).
Proof.
  intros Hm Hk s b. unfold bind. rewrite Hm. destruct (m s) as [[a|e] s1]; cbn [fst snd]; [|reflexivity]. apply Hk.
Qed.
Lemma nobase_ret {A} (a : A) : nobase (ret a). Proof. intros s b. reflexivity. Qed.
Lemma nobase_raise {A} e : nobase (@raise tdes A e). Proof. intros s b. reflexivity. Qed.
Lemma nobase_k1 {A} (m : M des A) : nobase (on_k1 m).
Proof. intros s b. unfold on_k1. cbn [t_k1 wb]. destruct (m (t_k1 s)). reflexivity. Qed.
Lemma nobase_k2 {A} (m : M des A) : nobase (on_k2 m).
Proof. intros s b. unfold on_k2. cbn [t_k2 wb]. destruct (m (t_k2 s)). reflexivity. Qed.
Lemma nobase_k3 {A} (m : M des A) : nobase (on_k3 m).
Proof.
  intros s b. unfold on_k3. change (t_k3 (wb b s)) with (t_k3 s). destruct (t_k3 s) as [k|] eqn:E; [|apply nobase_k1].
  destruct (m k). reflexivity.
Qed.
#[local] Hint Resolve nobase_ret nobase_raise nobase_k1 nobase_k2 nobase_k3 : core.
Lemma nobase_keys_setIV v : nobase (keys_setIV v).
Proof. unfold keys_setIV. repeat (apply nobase_bind; [solve [auto]|intro]). auto. Qed.
#[local] Hint Resolve nobase_keys_setIV : core.
Lemma nobase_enc_loop fuel : forall data i res, nobase (tdes_enc_loop fuel data i res).
Proof.
  induction fuel; intros; cbn [tdes_enc_loop]; [auto|]. destruct (i <? zlen data); [|auto].
  repeat (apply nobase_bind; [solve [auto]|intro]). auto.
Qed.
Lemma nobase_dec_loop fuel : forall data i res, nobase (tdes_dec_loop fuel data i res).
Proof.
  induction fuel; intros; cbn [tdes_dec_loop]; [auto|]. destruct (i <? zlen data); [|auto].
  cbv zeta. repeat (apply nobase_bind; [solve [auto]|intro]). auto.
Qed.
#[local] Hint Resolve nobase_enc_loop nobase_dec_loop : core.
Lemma nobase_base {A} (m : M tdes A) s : nobase m -> t_base (snd (m s)) = t_base s.
Proof.
  intros H. specialize (H s (t_base s)). replace (wb (t_base s) s) with s in H by (destruct s; reflexivity).
  rewrite H. reflexivity.
Qed.
Lemma encrypt_base data p pm s : t_base (snd (tdes_encrypt data p pm s)) = t_base s.
Proof.
  unfold tdes_encrypt. rewrite bind_get. unfold bind at 1, lift. destruct (padData _ _ _ _); [|reflexivity].
  apply nobase_base. destruct (_ =? CBC); repeat (apply nobase_bind; [solve [auto]|intro]); auto.
Qed.
Lemma decrypt_base data p pm s : t_base (snd (tdes_decrypt data p pm s)) = t_base s.
Proof.
  unfold tdes_decrypt. rewrite bind_get. set (m := if _ =? CBC then _ else _).
  assert (H : nobase m) by (unfold m; destruct (_ =? CBC); repeat (apply nobase_bind; [solve [auto]|intro]); auto).
  unfold bind at 1. rewrite <- (nobase_base m s H). destruct (m s) as [[r|e] s1]; reflexivity.
Qed.
Definition same_but_key (b b' : base) : Prop :=
  b_mode b = b_mode b' /\ b_iv b = b_iv b' /\ b_pad b = b_pad b' /\ b_padmode b = b_padmode b'.
Lemma encrypt_wb data p pm s b : same_but_key b (t_base s) -> fst (tdes_encrypt data p pm (wb b s)) = fst (tdes_encrypt data p pm s).
Proof.
  intros (H1 & H2 & H3 & H4). unfold tdes_encrypt. rewrite !bind_get. cbn [wb t_base].
  rewrite (padData_sim b (t_base s)), H1, H2 by assumption. unfold bind at 1 4, lift.
  destruct (padData _ _ _ _); [|reflexivity].
  match goal with |- fst (?m _) = _ => assert (N : nobase m) end.
  { destruct (_ =? CBC); repeat (apply nobase_bind; [solve [auto]|intro]); auto. }
  now rewrite N.
Qed.
Lemma decrypt_wb data p pm s b : same_but_key b (t_base s) -> fst (tdes_decrypt data p pm (wb b s)) = fst (tdes_decrypt data p pm s).
Proof.
  intros (H1 & H2 & H3 & H4). unfold tdes_decrypt. rewrite !bind_get. cbn [wb t_base]. rewrite H1, H2.
  set (m := if _ =? CBC then _ else _).
  assert (N : nobase m) by (unfold m; destruct (_ =? CBC); repeat (apply nobase_bind; [solve [auto]|intro]); auto).
  unfold bind at 1 3. rewrite N. pose proof (nobase_base m s N) as B. destruct (m s) as [[r|e] s1]; cbn [fst snd] in *; [|reflexivity].
  rewrite !bind_get. unfold lift. cbn [fst wb t_base]. now rewrite (unpadData_sim b (t_base s1)) by congruence.
Qed.

Lemma C109_new_pf : forall key mode IV pad padmode,
  (forall k iv p, encodes key k -> encodes IV iv -> encodes pad p ->
     s_new key mode IV pad padmode = des_new k mode iv p padmode
     /\ rmap s_t (s_tnew key mode IV pad padmode) = tdes_new k mode iv p padmode)
  /\ ((forall l, ~ encodes key l) \/ (forall l, ~ encodes IV l) \/ (forall l, ~ encodes pad l) ->
     s_new key mode IV pad padmode = Err ValueError /\ s_tnew key mode IV pad padmode = Err ValueError).
Proof.
  intros key mode IV pad padmode. split.
  - intros k iv p H1 H2 H3. split; [now apply s_new_eq|]. now apply (s_tnew_eq key k mode IV iv pad p padmode).
  - intros H. rewrite !guard_err in H. split; [now apply s_new_refused|]. unfold s_tnew.
    destruct (guard_res IV) as [E|E]; rewrite E; cbn [rbind]; [|reflexivity].
    destruct (guard_res pad) as [E2|E2]; rewrite E2; cbn [rbind]; [|reflexivity].
    destruct (base_init _ _ _ _) as [b|x] eqn:EB; cbn [rbind].
    2: { unfold base_init in EB. destruct (_ && _); [congruence|]. destruct (_ && _); congruence. }
    destruct H as [H|[H|H]]; try congruence.
    pose proof (s_rekey_refused key (mkSt (mkTdes b no_des no_des None) false) H) as Q.
    destruct (s_rekey _ _) as [[u|e] s]; cbn [fst] in Q; congruence.
Qed.

Lemma setter_iv b (s : tdes) (m1 m2 m3 : M des unit) : b_iv b = b_iv (t_base s) ->
  b_iv (t_base (snd ((t_set_base b ;;; on_k1 m1 ;;; on_k2 m2 ;;; on_k3 m3) s))) = b_iv (t_base s).
Proof.
  intros H. unfold bind at 1, t_set_base. rewrite <- H.
  change b with (t_base (mkTdes b (t_k1 s) (t_k2 s) (t_k3 s))) at 2. f_equal. apply nobase_base.
  repeat (apply nobase_bind; [solve [auto]|intro]); auto.
Qed.
Lemma on_t_good (m : M tdes unit) s : iv_good s -> b_iv (t_base (snd (m (s_t s)))) = b_iv (t_base (s_t s)) ->
  s_t (snd (none_str (on_t m) s)) = snd (m (s_t s)) /\ iv_good (snd (none_str (on_t m) s)).
Proof.
  intros H E. unfold none_str, bind, on_t. destruct (m (s_t s)) as [[u|e] t]; cbn [fst snd s_t] in *; (split; [reflexivity|]);
  unfold iv_good, ret in *; cbn [snd s_t s_ivstr]; now rewrite E.
Qed.
Lemma top_good o p s : iv_good s -> call_encodes o p -> s_t (snd (s_top o s)) = tdes_op p (s_t s) /\ iv_good (snd (s_top o s)).
Proof.
  intros Hi H. destruct H as [k l E|m|v l E|p l E|m|data l p q pm E1 E2|data l p q pm E1 E2]; cbn [s_top tdes_op tdes_call]; unfold none_str, some_str.
  - destruct (s_rekey_eq k l s Hi E) as (A & B & _). rewrite <- A. unfold bind. destruct (s_rekey k s) as [[?|?] ?]; cbn [fst snd] in *; auto.
  - apply (on_t_good (tdes_setMode m) s Hi). unfold tdes_setMode. rewrite bind_get. now apply setter_iv.
  - pose proof (encodes_chars _ _ E) as EC. apply guard_ok in E. unfold s_tsetIV. rewrite <- EC. destruct (zlen l =? 8) eqn:EL.
    + unfold bind at 1 3. rewrite (bind_lift_ok _ _ _ _ E). destruct (tdes_setIV l (s_t s)) as [[?|?] ?]; cbn [fst snd s_t]; split; auto; discriminate.
    + unfold bind, raise. cbn [fst snd]. split; [|exact Hi]. unfold tdes_setIV. rewrite bind_get. unfold base_setIV. now rewrite EL.
  - apply guard_ok in E. replace (bind (s_tsetPadding p) (fun _ => ret None) s) with (none_str (on_t (tdes_setPadding l)) s)
      by (unfold none_str, s_tsetPadding, bind at 1 2; now rewrite (bind_lift_ok _ _ _ _ E)).
    apply on_t_good; [exact Hi|]. unfold tdes_setPadding. rewrite bind_get. now apply setter_iv.
  - apply (on_t_good (tdes_setPadMode m) s Hi). unfold tdes_setPadMode. rewrite bind_get. now apply setter_iv.
  - destruct (s_tencrypt_erase data l p q pm s Hi E1 E2) as (r & E & _). unfold bind. rewrite E.
    assert (IG : iv_good (mkSt (snd (tdes_encrypt l q pm (s_t s))) (s_ivstr s))) by (unfold iv_good in *; cbn [s_t s_ivstr]; rewrite encrypt_base; exact Hi).
    destruct r; cbn [fst snd s_t]; auto.
  - destruct (s_tdecrypt_erase data l p q pm s Hi E1 E2) as (r & E & _). unfold bind. rewrite E.
    assert (IG : iv_good (mkSt (snd (tdes_decrypt l q pm (s_t s))) (s_ivstr s))) by (unfold iv_good in *; cbn [s_t s_ivstr]; rewrite decrypt_base; exact Hi).
    destruct r; cbn [fst snd s_t]; auto.
Qed.
Lemma top_refused o s : refused o -> good_key o -> s_top o s = (Err ValueError, s).
Proof.
  intros H HG. destruct o as [k|m|v|p|m|data p pm|data p pm]; cbn [s_top]; unfold none_str, some_str, refused in *.
  - destruct HG as [l E]. elim (H (OKey l)). now constructor.
  - now elim (H (OMode m)); constructor.
  - destruct (guard_res v) as [E|E]; [elim (H (OIV (chars v))); constructor; now apply guard_ok|].
    unfold s_tsetIV. destruct (_ =? 8); [|reflexivity]. unfold bind at 1. now rewrite (bind_lift_err _ _ _ _ E).
  - destruct (guard_res p) as [E|E]; [elim (H (OPadding (chars p))); constructor; now apply guard_ok|].
    unfold s_tsetPadding, bind at 1. now rewrite (bind_lift_err _ _ _ _ E).
  - now elim (H (OPadMode m)); constructor.
  - unfold s_tencrypt, bind at 1. destruct (guard_res data) as [E|E]; [|now rewrite (bind_lift_err _ _ _ _ E)].
    rewrite (bind_lift_ok _ _ _ _ E). destruct (guard_res p) as [E2|E2]; [|now rewrite (bind_lift_err _ _ _ _ E2)].
    elim (H (OCall (CEnc (chars data) (chars p) pm))); constructor; now apply guard_ok.
  - unfold s_tdecrypt, bind at 1. destruct (guard_res data) as [E|E]; [|now rewrite (bind_lift_err _ _ _ _ E)].
    rewrite (bind_lift_ok _ _ _ _ E). destruct (guard_res p) as [E2|E2]; [|now rewrite (bind_lift_err _ _ _ _ E2)].
    elim (H (OCall (CDec (chars data) (chars p) pm))); constructor; now apply guard_ok.
Qed.
Lemma tops_good h h' : hist h h' -> Forall good_key h -> forall s, iv_good s -> s_t (s_tops h s) = tdes_ops h' (s_t s) /\ iv_good (s_tops h s).
Proof.
  induction 1 as [|o p h h' Hc H IH|o h h' Hc H IH]; intros HF s Hi; [auto| |]; inversion HF; subst; cbn [s_tops tdes_ops fold_left].
  - destruct (top_good o p s Hi Hc) as [A B]. destruct (IH ltac:(assumption) _ B) as [C D]. rewrite A in C. split; [exact C|exact D].
  - rewrite top_refused by assumption. cbn [snd]. now apply IH.
Qed.

Lemma C109_tdes_history_pf : forall key k mode IV iv pad p padmode d h h', encodes key k -> encodes IV iv -> encodes pad p ->
  s_tnew key mode IV pad padmode = Ok d -> hist h h' -> Forall good_key h ->
  exists d0, tdes_new k mode iv p padmode = Ok d0 /\ s_t (s_tops h d) = tdes_ops h' d0
  /\ (forall data l q r pm, encodes data l -> encodes q r ->
        rmap chars (fst (s_tencrypt data q pm (s_tops h d))) = fst (tdes_encrypt l r pm (tdes_ops h' d0))
        /\ rmap chars (fst (s_tdecrypt data q pm (s_tops h d))) = fst (tdes_decrypt l r pm (tdes_ops h' d0)))
  /\ (forall key l, encodes key l -> fst (s_rekey key (s_tops h d)) = fst (tdes_rekey l (tdes_ops h' d0)))
  /\ (forall o, refused o -> good_key o -> s_top o (s_tops h d) = (Err ValueError, s_tops h d)).
Proof.
  intros key k mode IV iv pad p padmode d h h' H1 H2 H3 E Hh HG.
  destruct (s_tnew_eq key k mode IV iv pad p padmode H1 H2 H3) as [A B]. rewrite E in A. cbn [rmap] in A.
  exists (s_t d). split; [auto|]. destruct (B d E) as [Hi _]. destruct (tops_good h h' Hh HG d Hi) as [C D].
  split; [exact C|]. rewrite <- C. split; [|split].
  - intros data l q r pm Q1 Q2. destruct (s_tencrypt_erase data l q r pm _ D Q1 Q2) as (x & X1 & X2).
    destruct (s_tdecrypt_erase data l q r pm _ D Q1 Q2) as (y & Y1 & Y2). rewrite X1, Y1. cbn [fst]. auto.
  - intros key' l Q. destruct (s_rekey_eq key' l _ D Q) as (X & _). rewrite <- X. reflexivity.
  - intros o Q1 Q2. now apply top_refused.
Qed.

(** *** a key that is only partly ASCII *)
Lemma not_ascii l : ~ ascii l -> guard (PStr l) = Err ValueError.
Proof. intros H. apply guard_err. intros x Q. inversion Q; subst. contradiction. Qed.
Lemma is_ascii l : ascii l -> encodes (PStr l) l. Proof. now constructor. Qed.
Lemma wf_len key b s : twf key b s -> (length key = 16 \/ length key = 24)%nat.
Proof. intros (_ & _ & _ & H). destruct (t_k3 s); [right; apply H|auto]. Qed.
Lemma same_getIV s : iv_good s -> match s_getIV s with PStr _ => true | PBytes _ => false end = s_ivstr s.
Proof. intros _. unfold s_getIV. now destruct (s_ivstr s). Qed.
Definition part_new (st : settings) (d : stdes) (part : list Z) : res des :=
s_new (PStr part) (st_mode st) (s_getIV d) (PBytes (st_pad st)) (st_padmode st).
Lemma new_bad st d part : ~ ascii part -> part_new st d part = Err ValueError.
Proof. intros H. apply s_new_refused. left. now apply not_ascii. Qed.
Lemma new_good st d part : iv_good d -> twf (st_key st) (sbase st) (s_t d) -> iv_len st ->
  st_pad st = [] \/ st_padmode st <> PAD_PKCS5 -> length part = 8%nat -> ascii part -> exists x, part_new st d part = Ok x /\ kwf part (sbase st) x.
Proof.
  intros Hi W IL Hp HL HA. unfold part_new. pose proof (getIV_enc d Hi) as HV. rewrite (proj1 W) in HV. cbn [sbase b_iv] in HV.
  rewrite (s_new_eq _ _ _ _ _ _ _ _ (is_ascii _ HA) HV (enc_bytes _)).
  destruct (des_new_exists part (st_mode st) (st_iv st) (st_pad st) (st_padmode st) HL IL Hp) as [x E].
  exists x. split; [exact E|]. eapply des_new_kwf; eauto.
Qed.
Lemma rekey_steps st d k : iv_good d -> twf (st_key st) (sbase st) (s_t d) -> iv_len st -> (st_mode st = CBC -> st_iv st <> []) ->
  (length k = 16 \/ length k = 24)%nat -> s_rekey (PStr k) d =
  match part_new st d (firstn 8 k) with
  | Err e => (Err e, d)
  | Ok k1 =>
      match part_new st d (firstn 8 (skipn 8 k)) with
      | Err e => (Err e, mkSt (mkTdes (sbase st) k1 (t_k2 (s_t d)) (old_k3 (s_t d))) (s_ivstr d))
      | Ok k2 =>
          let finish k3 := match guard (PStr k) with
                           | Err e => (Err e, mkSt (mkTdes (sbase st) k1 k2 k3) (s_ivstr d))
                           | Ok l => (Ok tt, mkSt (mkTdes (base_setKey l (sbase st)) k1 k2 k3) (s_ivstr d))
                           end in
          if (length k =? 16)%nat then finish None
          else match part_new st d (skipn 16 k) with
               | Err e => (Err e, mkSt (mkTdes (sbase st) k1 k2 (old_k3 (s_t d))) (s_ivstr d))
               | Ok k3 => finish (Some k3)
               end
      end
  end.
Proof.
  intros Hi W IL Hm Hk. unfold s_rekey. cbn [chars on_chars]. rewrite (proj1 W). cbn [sbase b_mode b_iv b_pad b_padmode b_key].
  replace ((zlen k =? 24) || (zlen k =? 16)) with true by (unfold zlen; lia). cbn [negb].
  replace ((st_mode st =? CBC) && negb (nonempty (st_iv st))) with false.
  2: { destruct (Z.eqb_spec (st_mode st) CBC) as [E|E]; [|reflexivity]. specialize (Hm E). destruct (st_iv st); [congruence|reflexivity]. }
  cbv zeta. rewrite same_getIV by exact Hi. pose proof (encodes_chars _ _ (getIV_enc d Hi)) as EC. rewrite <- EC.
  rewrite (proj1 W). cbn [sbase b_mode b_iv b_pad b_padmode b_key].
  replace ((st_mode st =? CBC) && negb (zlen (st_iv st) =? 8)) with false.
  2: { destruct (Z.eqb_spec (st_mode st) CBC) as [E|E]; [|reflexivity]. specialize (Hm E). destruct IL as [Q|Q]; [congruence|]. unfold zlen. rewrite Q. reflexivity. }
  change (py_slice k 0 8) with (py_slice k (Z.of_nat 0) (Z.of_nat 0 + 8)). change (py_slice k 8 16) with (py_slice k (Z.of_nat 8) (Z.of_nat 8 + 8)).
  rewrite !slice8 by lia. change (skipn 0 k) with k. fold (part_new st d (firstn 8 k)) (part_new st d (firstn 8 (skipn 8 k))).
  replace (zlen k =? 16) with (length k =? 16)%nat by (unfold zlen; lia).
  change (mkBase (st_mode st) (st_iv st) (st_pad st) (st_padmode st) (st_key st)) with (sbase st).
  destruct (part_new st d (firstn 8 k)); [|destruct d as [[b0 x1 x2 x3] i0]; cbn [s_t t_base t_k1 t_k2 t_k3 s_ivstr] in *; f_equal; f_equal; f_equal; symmetry; exact (proj1 W)].
  destruct (part_new st d (firstn 8 (skipn 8 k))); [|reflexivity]. destruct (length k =? 16)%nat eqn:E16; [reflexivity|].
  replace (py_slice_from k 16) with (skipn 16 k) by (unfold py_slice_from, py_clamp; replace (16 <? 0) with false by lia; f_equal; unfold zlen; lia).
  fold (part_new st d (skipn 16 k)). destruct (part_new st d (skipn 16 k)); reflexivity.
Qed.
Lemma old3_wf st d x key' : twf (st_key st) (sbase st) (s_t d) -> kwf (key1 key') (sbase st) x -> length key' = 24%nat -> skipn 16 key' = skipn 16 (three_parts (st_key st)) ->
  forall y, kwf (key2 key') (sbase st) y -> twf key' (sbase st) (mkTdes (sbase st) x y (old_k3 (s_t d))).
Proof.
  intros W H1 HL H3 y H2. unfold twf. cbn [t_base t_k1 t_k2 t_k3]. split; [reflexivity|]. split; [exact H1|]. split; [exact H2|].
  pose proof (wf_len _ _ _ W) as HL'. destruct W as (_ & A & _ & C). unfold old_k3. unfold key3. rewrite HL. change (24 =? 16)%nat with false. cbv iota.
  rewrite H3. unfold three_parts. destruct (t_k3 (s_t d)) as [z|].
  - split; [reflexivity|]. destruct C as [C1 C2]. rewrite C1. change (24 =? 16)%nat with false. cbv iota.
    unfold key3 in C2. rewrite C1 in C2. exact C2.
  - split; [reflexivity|]. rewrite C. change (16 =? 16)%nat with true. cbv iota. rewrite skipn_app, skipn_all2 by lia.
    rewrite C. exact A.
Qed.
Lemma like_created st key' s d' data p pm : (st_mode st = CBC -> st_iv st <> []) -> twf key' (sbase st) s -> tdes_reach key' (st_mode st) (st_iv st) (st_pad st) (st_padmode st) d' ->
  fst (tdes_encrypt data p pm s) = fst (tdes_encrypt data p pm d') /\ fst (tdes_decrypt data p pm s) = fst (tdes_decrypt data p pm d').
Proof.
  intros Hm H Hr. apply treach_wf in Hr as (W2 & _).
  replace (tdes_iv (st_mode st) key' (st_iv st)) with (st_iv st) in W2.
  2: { unfold tdes_iv. destruct (st_iv st); [|reflexivity]. destruct (Z.eqb_spec (st_mode st) CBC); [now elim Hm|reflexivity]. }
  assert (SK : same_but_key (sbase st) (t_base d')) by (rewrite (proj1 W2); repeat split).
  assert (W3 : twf key' (sbase st) (wb (sbase st) d')).
  { destruct W2 as (_ & A & B & C). split; [reflexivity|]. split; [exact A|]. split; [exact B|]. exact C. }
  rewrite <- (encrypt_wb data p pm d' _ SK), <- (decrypt_wb data p pm d' _ SK).
  split; [apply tdes_encrypt_indep; eapply twf_twsim; eauto|eapply tdes_decrypt_indep; eauto].
Qed.

Lemma C109_mixed_refuted_pf : forall key mode iv pad padmode d0 h h' k, s_tnew (PBytes key) mode (PBytes iv) (PBytes pad) padmode = Ok d0 ->
  hist h h' -> Forall good_key h -> (length k = 16 \/ length k = 24)%nat -> ~ ascii k ->
  let st := tracks3 h' (created3 key mode iv pad padmode) in
  (st_mode st = CBC -> st_iv st <> []) -> st_pad st = [] \/ st_padmode st <> PAD_PKCS5 ->
  let d := s_tops h d0 in let after := snd (s_rekey (PStr k) d) in
  fst (s_rekey (PStr k) d) = Err ValueError /\ t_getKey (s_t after) = st_key st
  /\ (~ ascii (firstn 8 k) -> after = d)
  /\ forall key', ascii (firstn 8 k) /\ ~ ascii (firstn 8 (skipn 8 k)) /\ key' = firstn 8 k ++ skipn 8 (three_parts (st_key st))
       \/ ascii (firstn 16 k) /\ ~ ascii (skipn 16 k) /\ key' = firstn 16 k ++ skipn 16 (three_parts (st_key st)) ->
     forall d' data p pm, tdes_reach key' (st_mode st) (st_iv st) (st_pad st) (st_padmode st) d' ->
     rmap chars (fst (s_tencrypt (PBytes data) (PBytes p) pm after)) = fst (tdes_encrypt data p pm d')
     /\ rmap chars (fst (s_tdecrypt (PBytes data) (PBytes p) pm after)) = fst (tdes_decrypt data p pm d').
Proof.
  intros key mode iv pad padmode d0 h h' k E Hh HG Hk HA st Hm Hp d after.
  destruct (s_tnew_eq (PBytes key) key mode (PBytes iv) iv (PBytes pad) pad padmode (enc_bytes _) (enc_bytes _) (enc_bytes _)) as [A B].
  destruct (B d0 E) as [I0 _]. rewrite E in A. cbn [rmap] in A. symmetry in A.
  destruct (created_wf _ _ _ _ _ _ A) as [W0 IL0]. destruct (tops_wf h' _ _ W0 IL0) as [W IL]. fold st in W, IL.
  destruct (tops_good h h' Hh HG d0 I0) as [C Hi]. fold d in C, Hi. rewrite <- C in W.
  assert (SP : k = firstn 8 k ++ firstn 8 (skipn 8 k) ++ skipn 16 k).
  { rewrite <- (firstn_skipn 8 k) at 1. f_equal. rewrite <- (firstn_skipn 8 (skipn 8 k)) at 1. f_equal. now rewrite skipn_skipn. }
  assert (L1 : length (firstn 8 k) = 8%nat) by (rewrite firstn_length; lia).
  assert (L2 : length (firstn 8 (skipn 8 k)) = 8%nat) by (rewrite firstn_length, skipn_length; lia).
  assert (S16 : firstn 16 k = firstn 8 k ++ firstn 8 (skipn 8 k)).
  { rewrite SP at 1. rewrite app_assoc, firstn_app, firstn_all2 by (rewrite app_length; lia).
    rewrite app_length, L1, L2. cbn [Nat.sub Nat.add firstn]. apply app_nil_r. }
  assert (LT : length (three_parts (st_key st)) = 24%nat).
  { unfold three_parts. destruct (wf_len _ _ _ W) as [Q|Q]; rewrite Q; cbn [Nat.eqb]; [rewrite app_length, firstn_length; lia|exact Q]. }
  assert (GT : forall s key', iv_good s -> twf key' (sbase st) (s_t s) -> forall d' data p pm, tdes_reach key' (st_mode st) (st_iv st) (st_pad st) (st_padmode st) d' ->
     rmap chars (fst (s_tencrypt (PBytes data) (PBytes p) pm s)) = fst (tdes_encrypt data p pm d')
     /\ rmap chars (fst (s_tdecrypt (PBytes data) (PBytes p) pm s)) = fst (tdes_decrypt data p pm d')).
  { intros s key' Gs Ws d' data p pm Hr. destruct (s_tencrypt_erase (PBytes data) data (PBytes p) p pm s Gs (enc_bytes _) (enc_bytes _)) as (x & X1 & X2).
    destruct (s_tdecrypt_erase (PBytes data) data (PBytes p) p pm s Gs (enc_bytes _) (enc_bytes _)) as (y & Y1 & Y2).
    rewrite X1, Y1. cbn [fst]. rewrite X2, Y2. now apply (like_created st key'). }
  pose proof (not_ascii k HA) as GK. pose proof (s_rekey_refused (PStr k) d GK) as RF. split; [exact RF|].
  assert (IG : forall t, t_base t = sbase st -> iv_good (mkSt t (s_ivstr d))).
  { intros t Ht. unfold iv_good in *. cbn [s_t s_ivstr]. rewrite Ht, <- (proj1 W). exact Hi. }
  unfold after. rewrite (rekey_steps st d k Hi W IL Hm Hk). cbv zeta.
  assert (GA : forall a b, ascii (a ++ b) -> ascii a /\ ascii b) by (intros a b; apply Forall_app).
  assert (D1 : ascii (firstn 8 k) \/ ~ ascii (firstn 8 k)).
  { destruct (guard_res (PStr (firstn 8 k))) as [Q|Q]; [apply guard_ok in Q; inversion Q; auto|]. right. intros F. apply guard_err with (l := firstn 8 k) in Q. apply Q. now constructor. }
  assert (D2 : ascii (firstn 8 (skipn 8 k)) \/ ~ ascii (firstn 8 (skipn 8 k))).
  { destruct (guard_res (PStr (firstn 8 (skipn 8 k)))) as [Q|Q]; [apply guard_ok in Q; inversion Q; auto|]. right. intros F. apply guard_err with (l := firstn 8 (skipn 8 k)) in Q. apply Q. now constructor. }
  destruct D1 as [D1|D1].
  2: { rewrite (new_bad st d _ D1). cbn [snd]. split; [unfold t_getKey; rewrite (proj1 W); reflexivity|]. split; [reflexivity|].
       intros key' [(Q & _)|(Q & _)]; [contradiction|]. rewrite S16 in Q. apply GA in Q as [Q _]. contradiction. }
  destruct (new_good st d _ Hi W IL Hp L1 D1) as (k1 & E1 & K1). rewrite E1.
  destruct D2 as [D2|D2].
  2: { rewrite (new_bad st d _ D2). cbn [snd]. split; [reflexivity|]. split; [contradiction|].
       intros key' [(_ & _ & ->)|(Q & _)]; [|rewrite S16 in Q; apply GA in Q as [_ Q]; contradiction].
       apply GT; [now apply IG|]. cbn [s_t]. apply old3_wf; [exact W| | | |].
       - unfold key1. rewrite firstn_app, L1, firstn_all2 by lia. cbn [Nat.sub firstn]. rewrite app_nil_r. exact K1.
       - rewrite app_length, skipn_length. lia.
       - rewrite skipn_app, L1, skipn_all2 by lia. cbn [app Nat.sub]. now rewrite skipn_skipn.
       - unfold key2. rewrite skipn_app, L1, skipn_all2 by lia. cbn [app Nat.sub]. change (skipn 0 ?x) with x.
         destruct W as (_ & _ & W2 & _). replace (firstn 8 (skipn 8 (three_parts (st_key st)))) with (key2 (st_key st)); [exact W2|].
         unfold key2, three_parts. destruct (Nat.eqb_spec (length (st_key st)) 16) as [Q|Q]; [|reflexivity].
         rewrite skipn_app, firstn_app, skipn_length, Q. cbn [Nat.sub firstn]. now rewrite app_nil_r. }
  destruct (new_good st d _ Hi W IL Hp L2 D2) as (k2 & E2 & K2). rewrite E2.
  assert (D3 : ~ ascii (skipn 16 k)).
  { intros Q. apply HA. rewrite SP. apply Forall_app. split; [exact D1|]. apply Forall_app. auto. }
  destruct (Nat.eqb_spec (length k) 16) as [Q|Q]; [elim D3; rewrite skipn_all2 by lia; constructor|].
  rewrite (new_bad st d _ D3). cbn [snd]. split; [reflexivity|]. split; [contradiction|].
  intros key' [(_ & Q2 & _)|(_ & _ & ->)]; [contradiction|]. apply GT; [now apply IG|]. cbn [s_t]. rewrite S16. apply old3_wf; [exact W| | | |].
  - unfold key1. rewrite <- app_assoc, firstn_app, L1, firstn_all2 by lia. cbn [Nat.sub firstn]. rewrite app_nil_r. exact K1.
  - rewrite !app_length, skipn_length. lia.
  - rewrite skipn_app, skipn_all2 by (rewrite app_length; lia). rewrite app_length, L1, L2. reflexivity.
  - unfold key2. rewrite <- app_assoc, skipn_app, L1, skipn_all2 by lia. cbn [app Nat.sub]. change (skipn 0 ?x) with x.
    rewrite firstn_app, L2, firstn_all2 by lia. cbn [Nat.sub firstn]. rewrite app_nil_r. exact K2.
Qed.

Lemma C109_full_refuted_pf : ~ C109_full.
Proof.
  intros H.
  assert (X : exists d, s_tnew (PBytes (repeat 1 24)) ECB (PBytes []) (PBytes []) PAD_NORMAL = Ok d
    /\ fst (s_tencrypt (PBytes (repeat 0 8)) (PBytes []) None (snd (s_rekey (PStr (repeat 65 8 ++ repeat 233 16)) d)))
       <> fst (s_tencrypt (PBytes (repeat 0 8)) (PBytes []) None d)).
  { eexists. split; [vm_compute; reflexivity|]. vm_compute. discriminate. }
  destruct X as (d & E & X). apply X.
  apply (H (repeat 1 24) ECB [] [] PAD_NORMAL d (PStr (repeat 65 8 ++ repeat 233 16)) (PBytes (repeat 0 8)) E).
  apply guard_err. reflexivity.
Qed.

Lemma padData_err b data p pm e : padData b data p pm = Err e -> e = ValueError.
Proof.
  unfold padData. destruct (_ && _); [congruence|]. destruct (_ =? PAD_NORMAL).
  - destruct (_ =? 0); [discriminate|]. destruct (nonempty _); [discriminate|congruence].
  - destruct (_ =? PAD_PKCS5); discriminate.
Qed.

Lemma C109_stuck_refuted_pf : forall s k, t_getMode (s_t s) = CBC -> s_getIV s = PBytes [] -> (length k = 16 \/ length k = 24)%nat ->
  ~ ascii (firstn 8 k) -> let after := snd (s_rekey (PStr k) s) in
  fst (s_rekey (PStr k) s) = Err ValueError /\ s_getIV after = PStr (firstn 8 k)
  /\ (forall data p pm, fst (s_tencrypt data p pm after) = Err ValueError /\ fst (s_tdecrypt data p pm after) = Err ValueError)
  /\ forall key, fst (s_rekey key after) = Err ValueError.
Proof.
  intros s k Hm Hv Hk HA after.
  assert (B : b_iv (t_base (s_t s)) = []) by (unfold s_getIV in Hv; destruct (s_ivstr s); congruence).
  unfold t_getMode in Hm.
  assert (S8 : py_slice k 0 8 = firstn 8 k) by (apply (slice8 k 0); lia).
  assert (E : s_rekey (PStr k) s = (Err ValueError, mkSt (mkTdes (mkBase CBC (firstn 8 k) (b_pad (t_base (s_t s))) (b_padmode (t_base (s_t s))) (b_key (t_base (s_t s))))
     (t_k1 (s_t s)) (t_k2 (s_t s)) (t_k3 (s_t s))) true)).
  { unfold s_rekey. cbn [chars on_chars]. rewrite Hm, B. replace ((zlen k =? 24) || (zlen k =? 16)) with true by (unfold zlen; lia).
    cbn [negb nonempty andb]. change (CBC =? CBC) with true. cbv iota zeta. cbn [chars b_mode andb]. rewrite S8. change (CBC =? CBC) with true. cbn [andb].
    replace (zlen (firstn 8 k) =? 8) with true by (unfold zlen; rewrite firstn_length; lia). cbn [negb].
    rewrite s_new_refused by (left; now apply not_ascii). reflexivity. }
  unfold after. rewrite E. cbn [fst snd]. split; [reflexivity|]. split; [reflexivity|].
  set (t := mkTdes _ _ _ _). set (s' := mkSt t true).
  assert (G : guard (s_getIV s') = Err ValueError) by (now apply not_ascii).
  assert (K : s_keys_setIV s' = (Err ValueError, s')).
  { unfold s_keys_setIV. rewrite bind_get. destruct (_ =? 8); [|reflexivity]. now rewrite (bind_lift_err _ _ _ _ G). }
  split.
  - intros data p pm. unfold s_tencrypt, s_tdecrypt.
    destruct (guard_res data) as [Q|Q]; [|now rewrite !(bind_lift_err _ _ _ _ Q)]. rewrite !(bind_lift_ok _ _ _ _ Q).
    destruct (guard_res p) as [Q2|Q2]; [|now rewrite !(bind_lift_err _ _ _ _ Q2)]. rewrite !(bind_lift_ok _ _ _ _ Q2).
    rewrite !bind_get. change (b_mode (t_base (s_t s')) =? CBC) with true. cbv iota. split.
    + destruct (padData _ _ _ _) as [x|e] eqn:EP; [|rewrite (bind_lift_err _ _ _ _ eq_refl); apply padData_err in EP; now subst].
      rewrite (bind_lift_ok _ _ _ _ eq_refl). unfold bind at 1. now rewrite K.
    + unfold bind at 1. unfold bind at 1. now rewrite K.
  - intros key. destruct (fst (s_rekey key s')) as [u|e] eqn:EF; [|now apply s_rekey_err in EF as ->]. exfalso. revert EF.
    unfold s_rekey. destruct (negb (_ || _)); [discriminate|].
    change (b_iv (t_base (s_t s'))) with (firstn 8 k). change (b_mode (t_base (s_t s'))) with CBC.
    replace (nonempty (firstn 8 k)) with true by (destruct k; [cbn in Hk; lia|reflexivity]). rewrite andb_false_r. cbv iota zeta.
    destruct (_ && _); [discriminate|]. rewrite s_new_refused by (right; left; exact G). discriminate.
Qed.

(** *** C110: the type of the IV *)

Lemma C110_created_refuted_pf : forall key k mode IV iv pad p padmode d, encodes key k -> encodes IV iv -> encodes pad p ->
  s_tnew key mode IV pad padmode = Ok d ->
  s_getIV d = if (mode =? CBC) && negb (nonempty iv) then on_chars (firstn 8) key else PBytes iv.
Proof.
  intros key k mode IV iv pad p padmode d H1 H2 H3 E. now apply (proj2 (s_tnew_eq key k mode IV iv pad p padmode H1 H2 H3) d E).
Qed.

Lemma top_bytes o s : s_ivstr s = false -> bytes_key o -> s_ivstr (snd (s_top o s)) = false.
Proof.
  intros H HB.
  assert (OT : forall A (m : M tdes A) x, s_ivstr (snd (on_t m x)) = s_ivstr x) by (intros A m x; unfold on_t; destruct (m (s_t x)); reflexivity).
  assert (KI : forall x, s_ivstr (snd (s_keys_setIV x)) = s_ivstr x).
  { intros x. unfold s_keys_setIV. rewrite bind_get. destruct (_ =? 8); [|reflexivity]. unfold bind, lift. destruct (guard _); [apply OT|reflexivity]. }
  assert (BK : forall A B (m : M stdes A) (k : A -> M stdes B) x, (forall y, s_ivstr (snd (m y)) = s_ivstr y) ->
    (forall a y, s_ivstr (snd (k a y)) = s_ivstr y) -> s_ivstr (snd (bind m k x)) = s_ivstr x).
  { intros A B m k x Q1 Q2. unfold bind. specialize (Q1 x). destruct (m x) as [[a|e] y]; cbn [snd] in *; [rewrite Q2|]; exact Q1. }
  destruct o as [k|m|v|p|m|data p pm|data p pm]; cbn [s_top]; unfold none_str, some_str.
  - unfold bind. destruct k as [k|k]; [|contradiction]. assert (Q : s_ivstr (snd (s_rekey (PBytes k) s)) = false); [|destruct (s_rekey (PBytes k) s) as [[?|?] ?]; exact Q].
    unfold s_rekey. destruct (negb (_ || _)); [exact H|]. cbv zeta. cbn [on_chars chars].
    replace (match (if (b_mode (t_base (s_t s)) =? CBC) && negb (nonempty (b_iv (t_base (s_t s)))) then PBytes (py_slice k 0 8) else s_getIV s) with PStr _ => true | PBytes _ => false end) with false
      by (destruct (_ && _); [reflexivity|unfold s_getIV; now rewrite H]).
    generalize (if (b_mode (t_base (s_t s)) =? CBC) && negb (nonempty (b_iv (t_base (s_t s)))) then PBytes (py_slice k 0 8) else s_getIV s) as iv. intros iv.
    cbn [b_mode b_pad b_padmode]. destruct (_ && _); [reflexivity|].
    do 2 (match goal with |- s_ivstr (snd (match ?X with _ => _ end)) = _ => destruct X end; [|reflexivity]). cbn [guard].
    destruct (zlen k =? 16); [reflexivity|]. match goal with |- s_ivstr (snd (match ?X with _ => _ end)) = _ => destruct X end; reflexivity.
  - rewrite BK; auto.
  - unfold s_tsetIV. destruct (_ =? 8); [|exact H]. unfold bind, lift. destruct (guard v) as [l|e]; [|exact H].
    destruct (tdes_setIV l (s_t s)) as [[?|?] ?]; reflexivity.
  - rewrite BK; auto. intros y. unfold s_tsetPadding. rewrite BK; auto.
  - rewrite BK; auto.
  - rewrite BK; auto. intros y. unfold s_tencrypt. repeat (rewrite BK; [reflexivity|reflexivity|intros]).
    destruct (_ =? CBC); repeat (rewrite BK; [reflexivity|auto|intros]); auto.
  - rewrite BK; auto. intros y. unfold s_tdecrypt. repeat (rewrite BK; [reflexivity|reflexivity|intros]).
    rewrite BK; [reflexivity| |intros; rewrite BK; reflexivity].
    intros. destruct (_ =? CBC); repeat (rewrite BK; [reflexivity|auto|intros]); auto.
Qed.

Lemma C110_bytes_partial_pf : forall key mode IV pad padmode d h, s_tnew (PBytes key) mode IV pad padmode = Ok d -> Forall bytes_key h ->
  exists l, s_getIV (s_tops h d) = PBytes l.
Proof.
  intros key mode IV pad padmode d h E HB.
  assert (H0 : s_ivstr d = false).
  { destruct (guard_res IV) as [Q|Q]; [destruct (guard_res pad) as [Q2|Q2]|].
    - apply guard_ok in Q, Q2. pose proof (proj2 (proj2 (s_tnew_eq (PBytes key) key mode IV _ pad _ padmode (enc_bytes _) Q Q2) d E)) as G.
      unfold s_getIV in G. destruct (s_ivstr d); [|reflexivity]. destruct (_ && _); discriminate.
    - unfold s_tnew in E. rewrite Q, Q2 in E. discriminate.
    - unfold s_tnew in E. rewrite Q in E. discriminate. }
  assert (H1 : s_ivstr (s_tops h d) = false).
  { clear E. revert d H0. induction HB as [|o h Ho HB IH]; intros d H0; [exact H0|]. cbn [s_tops fold_left]. apply IH. now apply top_bytes. }
  unfold s_getIV. rewrite H1. eauto.
Qed.

Lemma C110_full_refuted_pf : ~ C110_full.
Proof.
  intros H. assert (X : exists d, s_tnew (PStr (repeat 65 16)) CBC (PBytes []) (PBytes []) PAD_NORMAL = Ok d /\ s_getIV d = PStr (repeat 65 8)).
  { eexists. split; [vm_compute; reflexivity|reflexivity]. }
  destruct X as (d & E & X). destruct (H _ _ _ _ _ _ [] E) as [l Q]. cbn [s_tops fold_left] in Q. congruence.
Qed.

(** *** C111: the type of what encrypt and decrypt return *)
Lemma bind_split {S A B} (m : M S A) (k : A -> M S B) s b s' : bind m k s = (Ok b, s') ->
  exists a s1, m s = (Ok a, s1) /\ k a s1 = (Ok b, s').
Proof. unfold bind. destruct (m s) as [[a|e] s1]; [eauto|discriminate]. Qed.
Lemma lift_split {S A} (r : res A) (s : S) a s1 : lift r s = (Ok a, s1) -> r = Ok a.
Proof. unfold lift. congruence. Qed.
Lemma BitList_more data : forall pos c res, (length res <= length (BitList_loop data pos c res))%nat.
Proof.
  induction data as [|x data IH]; intros; cbn [BitList_loop]; [lia|]. destruct (_ =? 7); [|apply IH].
  etransitivity; [|apply IH]. rewrite app_length. lia.
Qed.
Lemma BitList_nonempty data : (8 <= length data)%nat -> BitList_to_String data <> [].
Proof.
  intros H. do 8 (destruct data as [|? data]; [cbn in H; lia|]). unfold BitList_to_String.
  cbn [BitList_loop Z.add Z.modulo]. change (0 mod 8 =? 7) with false. cbv iota.
  match goal with |- ?l <> [] => assert (Q : (1 <= length l)%nat); [|destruct l; [cbn in Q; lia|discriminate]] end.
  repeat (match goal with |- context [?a mod 8 =? 7] => let v := eval vm_compute in (a mod 8 =? 7) in change (a mod 8 =? 7) with v end; cbv iota).
  etransitivity; [|apply BitList_more]. cbn. lia.
Qed.
Lemma permutate_len t : forall b r, permutate t b = Ok r -> length r = length t.
Proof.
  induction t as [|x t IH]; intros b r H; cbn [permutate] in H; [injection H as <-; reflexivity|].
  destruct (py_get b x); cbn [rbind] in H; [|discriminate]. destruct (permutate t b) as [y|] eqn:E; cbn [rbind] in H; [|discriminate].
  injection H as <-. cbn [length]. now rewrite (IH b y E).
Qed.
Lemma des_crypt_len b t s r s' : des_crypt b t s = (Ok r, s') -> length r = 64%nat.
Proof.
  unfold des_crypt. intros H. apply bind_split in H as (x & s1 & E1 & H). apply bind_split in H as (y & s2 & E2 & H).
  apply bind_split in H as (z & s3 & E3 & H). rewrite bind_get in H. apply bind_split in H as (f & s4 & E4 & H).
  apply bind_split in H as (g & s5 & E5 & H). injection H as <- <-. apply lift_split, permutate_len in E4. exact E4.
Qed.
Lemma loop_more fuel : forall data t i iv res s r s', crypt_loop fuel data t i iv res s = (Ok r, s') -> (length res <= length r)%nat.
Proof.
  induction fuel; intros data t i iv res s r s' H; [discriminate|]. cbn [crypt_loop] in H. destruct (i <? zlen data); [|injection H as <- <-; lia].
  rewrite bind_get in H. cbv zeta in H. destruct (_ =? CBC); apply bind_split in H as (x & s1 & E1 & H); apply IHfuel in H; rewrite app_length in H; lia.
Qed.
Lemma crypt_nonempty data t s r s' : crypt data t s = (Ok r, s') -> data <> [] -> r <> [].
Proof.
  intros H Hd. unfold crypt in H. destruct data as [|x0 data0]; [congruence|]. cbn [nonempty negb] in H. rewrite bind_get in H.
  apply bind_split in H as (data & s1 & E1 & H).
  assert (HD : data <> []).
  { destruct (_ =? 0); [injection E1 as <- _; discriminate|]. destruct (_ =? DECRYPT); [discriminate|].
    destruct (negb _); [discriminate|]. injection E1 as <- _. discriminate. }
  destruct ((b_mode (d_base s) =? CBC) && negb (nonempty (b_iv (d_base s)))) eqn:EI; [discriminate|].
  assert (ES : s1 = s).
  { destruct (_ =? 0); [injection E1; auto|]. destruct (_ =? DECRYPT); [discriminate|]. destruct (negb _); [discriminate|]. injection E1; auto. }
  subst s1. cbn [crypt_loop] in H. replace (0 <? zlen data) with true in H by (destruct data; [congruence|unfold zlen; cbn; lia]).
  rewrite bind_get in H. cbv zeta in H. destruct (b_mode (d_base s) =? CBC).
  - apply bind_split in H as (p & s2 & E2 & H). apply des_crypt_len in E2. apply loop_more in H. cbn [app] in H.
    assert (L : (8 <= length (if (t =? DECRYPT)%Z then xor_lists p (String_to_BitList (b_iv (d_base s))) else p))%nat).
    { destruct (t =? DECRYPT)%Z; [|lia].
      assert (XL : forall a b, length (xor_lists a b) = Nat.min (length a) (length b)).
      { induction a as [|a l IH]; intros [|b l']; cbn; auto. }
      rewrite XL, E2. destruct (b_iv (d_base s)) as [|v vs]; [discriminate|]. cbn [String_to_BitList flat_map]. rewrite app_length. cbn. lia. }
    apply BitList_nonempty in L. intros ->. destruct (BitList_to_String _); [congruence|]. cbn in H. lia.
  - apply bind_split in H as (p & s2 & E2 & H). apply des_crypt_len in E2. apply loop_more in H. cbn [app] in H.
    assert (L : (8 <= length p)%nat) by lia. apply BitList_nonempty in L. intros ->. destruct (BitList_to_String p); [congruence|]. cbn in H. lia.
Qed.
Lemma s_crypt_type v t s r s' : s_crypt v t s = (Ok r, s') ->
  (chars v = [] -> r = PStr []) /\ (chars v <> [] -> exists l, r = PBytes l /\ l <> []).
Proof.
  rewrite s_crypt_eq. intros H. destruct (chars v) as [|x l] eqn:E; cbn [nonempty] in H.
  - rewrite crypt_nil in H. cbn [fst snd rmap] in H. split; [congruence|congruence].
  - destruct (crypt (x :: l) t s) as [[y|e] s1] eqn:EC; cbn [fst snd rmap] in H; [|discriminate]. injection H as <- <-. split; [discriminate|].
    intros _. exists y. split; [reflexivity|]. eapply crypt_nonempty; [exact EC|discriminate].
Qed.
Lemma padData_nil b data p pm r : padData b data p pm = Ok r -> (r = [] <-> data = [] /\ ~ pkcs5 (b_padmode b) pm).
Proof.
  unfold padData, pkcs5. cbv zeta. set (m := match pm with None => _ | Some m => m end). clearbody m. intros H.
  destruct (nonempty p && (m =? PAD_PKCS5)); [discriminate|]. destruct (Z.eqb_spec m PAD_NORMAL) as [En|Hn]; [rewrite En|].
  - destruct (zlen data mod 8 =? 0) eqn:EM.
    + injection H as <-. split; [intros ->; split; [reflexivity|discriminate]|tauto].
    + destruct (nonempty _); [|discriminate]. injection H as <-. destruct data; [discriminate|].
      split; [discriminate|]. intros [Q _]; discriminate.
  - destruct (Z.eqb_spec m PAD_PKCS5) as [Em|Hm]; injection H as <-.
    + split; [|tauto]. intros Q. apply app_eq_nil in Q as [-> Q]. discriminate.
    + tauto.
Qed.
Lemma s_unpad_type b v p pm r : s_unpad b v p pm = Ok r ->
  (chars v = [] -> r = v) /\ (chars v <> [] -> exists l, r = PBytes l).
Proof.
  unfold s_unpad. destruct (chars v) as [|x l]; cbn [nonempty negb].
  - intros H. injection H as <-. split; [auto|congruence].
  - intros H. destruct (unpadData _ _ _ _); cbn [rmap] in H; [|discriminate]. injection H as <-. split; [discriminate|eauto].
Qed.

Lemma C111_des_types_pf : forall d data p pm v,
  (fst (s_encrypt data p pm d) = Ok v ->
     (chars data = [] /\ ~ pkcs5 (getPadMode d) pm -> v = PStr []) /\ (chars data <> [] \/ pkcs5 (getPadMode d) pm -> exists l, v = PBytes l))
  /\ (fst (s_decrypt data p pm d) = Ok v ->
     (chars data = [] -> v = PStr []) /\ (chars data <> [] -> exists l, v = PBytes l)).
Proof.
  intros d data p pm v. split; intros H.
  - unfold s_encrypt in H. destruct (guard_res data) as [Q|Q]; [|rewrite (bind_lift_err _ _ _ _ Q) in H; discriminate].
    rewrite (bind_lift_ok _ _ _ _ Q) in H. destruct (guard p) as [p'|e] eqn:Q2; [|rewrite (bind_lift_err _ _ _ _ eq_refl) in H; discriminate].
    rewrite (bind_lift_ok _ _ _ _ eq_refl), bind_get in H. destruct (padData _ _ _ _) as [x|e] eqn:EP; [|discriminate].
    rewrite (bind_lift_ok _ _ _ _ eq_refl) in H. apply padData_nil in EP. destruct (s_crypt (PBytes x) ENCRYPT d) as [r s1] eqn:EC. cbn [fst] in H. subst r.
    apply s_crypt_type in EC as [C1 C2]. cbn [chars] in *. fold (getPadMode d) in EP. split.
    + intros K. apply C1. tauto.
    + intros K. destruct C2 as (l & -> & _); [|eauto]. intros ->. destruct EP as [EP _]. specialize (EP eq_refl). tauto.
  - unfold s_decrypt in H. destruct (guard_res data) as [Q|Q]; [|rewrite (bind_lift_err _ _ _ _ Q) in H; discriminate].
    rewrite (bind_lift_ok _ _ _ _ Q) in H. destruct (guard p) as [p'|e] eqn:Q2; [|rewrite (bind_lift_err _ _ _ _ eq_refl) in H; discriminate].
    rewrite (bind_lift_ok _ _ _ _ eq_refl) in H. unfold bind at 1 in H. destruct (s_crypt _ _ _) as [[r|e] s1] eqn:EC; [|discriminate].
    rewrite bind_get in H. unfold lift in H. cbn [fst] in H. apply s_crypt_type in EC as [C1 C2]. cbn [chars] in *. apply s_unpad_type in H as [U1 U2].
    split; intros K.
    + rewrite (C1 K) in *. now apply U1.
    + destruct (C2 K) as (l & -> & Hl). now apply U2.
Qed.

Lemma on_k1_inv {A} (m : M des A) s r s' : on_t (on_k1 m) s = (Ok r, s') -> exists d d', m d = (Ok r, d').
Proof. unfold on_t, on_k1. destruct (m (t_k1 (s_t s))) as [x d] eqn:E. intros H. injection H as -> _. eauto. Qed.
Lemma on_k2_inv {A} (m : M des A) s r s' : on_t (on_k2 m) s = (Ok r, s') -> exists d d', m d = (Ok r, d').
Proof. unfold on_t, on_k2. destruct (m (t_k2 (s_t s))) as [x d] eqn:E. intros H. injection H as -> _. eauto. Qed.
Lemma on_k3_inv {A} (m : M des A) s r s' : on_t (on_k3 m) s = (Ok r, s') -> exists d d', m d = (Ok r, d').
Proof.
  unfold on_t, on_k3. destruct (t_k3 (s_t s)) as [k|]; [|intros H; apply (on_k1_inv m s r s'); exact H].
  destruct (m k) as [x d] eqn:E. intros H. injection H as -> _. eauto.
Qed.
Lemma chain_type (on1 on2 on3 : forall A, M des A -> M tdes A) data a b c s v s' :
  (forall A m s (r : A) s', on_t (on1 A m) s = (Ok r, s') -> exists d d', m d = (Ok r, d')) ->
  (forall A m s (r : A) s', on_t (on2 A m) s = (Ok r, s') -> exists d d', m d = (Ok r, d')) ->
  (forall A m s (r : A) s', on_t (on3 A m) s = (Ok r, s') -> exists d d', m d = (Ok r, d')) ->
  (x <- on_t (on1 _ (s_crypt (PBytes data) a)) ;; y <- on_t (on2 _ (s_crypt x b)) ;; on_t (on3 _ (s_crypt y c))) s = (Ok v, s') ->
  (data = [] -> v = PStr []) /\ (data <> [] -> exists l, v = PBytes l /\ l <> []).
Proof.
  intros O1 O2 O3 H. apply bind_split in H as (x & s1 & E1 & H). apply bind_split in H as (y & s2 & E2 & H).
  apply O1 in E1 as (d1 & d1' & E1). apply O2 in E2 as (d2 & d2' & E2). apply O3 in H as (d3 & d3' & E3).
  apply s_crypt_type in E1 as [A1 B1], E2 as [A2 B2], E3 as [A3 B3]. cbn [chars] in *. split.
  - intros K. rewrite (A1 K) in *. rewrite (A2 eq_refl) in *. now apply A3.
  - intros K. destruct (B1 K) as (l & -> & Hl). destruct (B2 Hl) as (l2 & -> & Hl2). now apply B3.
Qed.

Lemma C111_tdes_types_pf : forall d data p pm v,
  let cbc := t_getMode (s_t d) = CBC in
  (fst (s_tencrypt data p pm d) = Ok v ->
     (~ cbc /\ chars data = [] /\ ~ pkcs5 (t_getPadMode (s_t d)) pm -> v = PStr [])
     /\ (cbc \/ chars data <> [] \/ pkcs5 (t_getPadMode (s_t d)) pm -> exists l, v = PBytes l))
  /\ (fst (s_tdecrypt data p pm d) = Ok v ->
     (~ cbc /\ chars data = [] -> v = PStr []) /\ (cbc \/ chars data <> [] -> exists l, v = PBytes l)).
Proof.
  intros d data p pm v cbc. unfold cbc, t_getMode, t_getPadMode. split; intros H.
  - unfold s_tencrypt in H. destruct (guard_res data) as [Q|Q]; [|rewrite (bind_lift_err _ _ _ _ Q) in H; discriminate].
    rewrite (bind_lift_ok _ _ _ _ Q) in H. destruct (guard p) as [p'|e] eqn:Q2; [|rewrite (bind_lift_err _ _ _ _ eq_refl) in H; discriminate].
    rewrite (bind_lift_ok _ _ _ _ eq_refl), bind_get in H. destruct (padData _ _ _ _) as [x|e] eqn:EP; [|discriminate].
    rewrite (bind_lift_ok _ _ _ _ eq_refl) in H. apply padData_nil in EP.
    destruct (Z.eqb_spec (b_mode (t_base (s_t d))) CBC) as [EM|EM].
    + split; [tauto|]. intros _. destruct ((s_keys_setIV ;;; _) d) as [r s1] eqn:EC. cbn [fst] in H. subst r.
      apply bind_split in EC as (u & s2 & _ & EC). apply bind_split in EC as (l & s3 & _ & EC). injection EC as <- _. eauto.
    + match type of H with fst ?X = _ => destruct X as [r s1] eqn:EC end. cbn [fst] in H. subst r.
      apply (chain_type (@on_k1) (@on_k2) (@on_k3)) in EC as [C1 C2]; [|intros *; apply on_k1_inv|intros *; apply on_k2_inv|intros *; apply on_k3_inv]. split.
      * intros K. apply C1. tauto.
      * intros K. destruct C2 as (l & -> & _); [|eauto]. intros ->. destruct EP as [EP _]. specialize (EP eq_refl). tauto.
  - unfold s_tdecrypt in H. destruct (guard_res data) as [Q|Q]; [|rewrite (bind_lift_err _ _ _ _ Q) in H; discriminate].
    rewrite (bind_lift_ok _ _ _ _ Q) in H. destruct (guard p) as [p'|e] eqn:Q2; [|rewrite (bind_lift_err _ _ _ _ eq_refl) in H; discriminate].
    rewrite (bind_lift_ok _ _ _ _ eq_refl), bind_get in H.
    match type of H with fst ?X = _ => destruct X as [r s1] eqn:EC end. cbn [fst] in H. subst r.
    apply bind_split in EC as (x & s2 & EC & EU). rewrite bind_get in EU. injection EU as EU _. apply s_unpad_type in EU as [U1 U2].
    destruct (Z.eqb_spec (b_mode (t_base (s_t d))) CBC) as [EM|EM].
    + split; [tauto|]. intros _. apply bind_split in EC as (u & s3 & _ & EC). apply bind_split in EC as (l & s4 & _ & EC). injection EC as <- _.
      destruct l as [|z l]; [exists []; now apply U1|]. apply U2. discriminate.
    + apply (chain_type (@on_k3) (@on_k2) (@on_k1)) in EC as [C1 C2]; [|intros *; apply on_k3_inv|intros *; apply on_k2_inv|intros *; apply on_k1_inv]. split.
      * intros [_ K]. rewrite (C1 K) in *. now apply U1.
      * intros K. destruct C2 as (l & -> & Hl); [tauto|]. now apply U2.
Qed.

Lemma C111_full_refuted_pf : ~ C111_full.
Proof.
  intros H. assert (X : exists d, des_new (repeat 1 8) ECB [] [] PAD_NORMAL = Ok d /\ fst (s_encrypt (PBytes []) (PBytes []) None d) = Ok (PStr [])).
  { eexists. split; [vm_compute; reflexivity|reflexivity]. }
  destruct X as (d & E & X). destruct (H (repeat 1 8) ECB [] [] PAD_NORMAL d (PBytes []) (PBytes []) None (PStr [])) as [l Q]; [exists d, []; auto|auto|discriminate].
Qed.

Lemma C111_roundtrip_partial_pf : forall key mode iv padmode d m,
  des_reach key mode iv [] padmode d -> (mode = CBC -> iv <> [] /\ Forall ubyte iv) -> Forall ubyte m ->
  (padmode = PAD_NORMAL /\ zlen m mod 8 = 0 /\ m <> [] \/ padmode = PAD_PKCS5) ->
  exists c, fst (s_encrypt (PBytes m) (PBytes []) None d) = Ok (PBytes c)
  /\ fst (s_decrypt (PBytes c) (PBytes []) None (snd (s_encrypt (PBytes m) (PBytes []) None d))) = Ok (PBytes m).
Proof.
  intros key mode iv padmode d m Hr Hi Hu Hp.
  assert (PM : getPadMode d = padmode) by (apply reach_wf in Hr as (W & _); unfold getPadMode; now rewrite (proj1 W)).
  destruct (C55_roundtrip_pf key mode iv padmode d m Hr Hi Hu ltac:(tauto)) as (c & d1 & E1 & EL & E2).
  pose proof (s_encrypt_erase (PBytes m) m (PBytes []) [] None d (enc_bytes _) (enc_bytes _)) as X. rewrite E1 in X.
  destruct (s_encrypt (PBytes m) (PBytes []) None d) as [[v|e] d'] eqn:EE; cbn [fst snd rmap] in *; [|discriminate].
  injection X as X1 ->. destruct (proj1 (C111_des_types_pf d (PBytes m) (PBytes []) None v)) as [_ T]; [now rewrite EE|].
  destruct T as [l ->]. { rewrite PM. cbn [chars pkcs5]. tauto. }
  cbn [chars] in X1. subst l. exists c. split; [reflexivity|].
  pose proof (s_decrypt_erase (PBytes c) c (PBytes []) [] None d1 (enc_bytes _) (enc_bytes _)) as Y.
  destruct (s_decrypt (PBytes c) (PBytes []) None d1) as [[w|e] d2] eqn:ED; cbn [fst snd rmap] in *.
  2: { rewrite <- Y in E2. discriminate. }
  destruct (proj2 (C111_des_types_pf d1 (PBytes c) (PBytes []) None w)) as [_ T]; [now rewrite ED|].
  destruct T as [l ->]. { cbn [chars]. intros ->. change (zlen (@nil Z)) with 0 in EL. destruct Hp as [(-> & _ & Hm)| ->].
    - change (PAD_NORMAL =? PAD_PKCS5) with false in EL. cbv iota in EL. destruct m; [congruence|]. unfold zlen in EL. cbn in EL. lia.
    - change (PAD_PKCS5 =? PAD_PKCS5) with true in EL. cbv iota in EL. unfold zlen in EL. lia. }
  rewrite <- Y in E2. cbn [fst rmap chars] in E2. congruence.
Qed.

Lemma C111_roundtrip_refuted_pf : ~ C111_roundtrip_full.
Proof.
  intros H. assert (X : exists d, des_new (repeat 1 8) ECB [] [] PAD_NORMAL = Ok d /\ fst (s_encrypt (PBytes []) (PBytes []) None d) = Ok (PStr [])).
  { eexists. split; [vm_compute; reflexivity|reflexivity]. }
  destruct X as (d & E & X). specialize (H (repeat 1 8) d [] (PStr [])). rewrite X in H.
  assert (Q : fst (s_decrypt (PStr []) (PBytes []) None (snd (s_encrypt (PBytes []) (PBytes []) None d))) = Ok (PBytes [])) by (apply H; auto; exists d, []; auto).
  discriminate.
Qed.
