(** * C120: ciphers and key objects in one program: proofs *)
From Verif Require Import Py S_Base S_Key L_Py M_utils M_util L_utils L_util M_key M_des M_cipher M_keyheap LP_keyheap M_session S_Session.
From Coq Require Import ZifyBool ZifyNat.
Ltac Zify.zify_post_hook ::= Z.div_mod_to_equations.

(** an initialised public key has its implementation object *)
Definition key_ok (k : akey) : Prop :=
  match k with KPub p => pk_init p = true -> pk_the p <> None | _ => True end.
(** [k']: what became of the initialised key [k] *)
Definition frozen (k k' : akey) : Prop :=
  match k, k' with
  | KDes a, KDes b => dk_size a = dk_size b
  | KPub a, KPub b => pk_size a = pk_size b /\ pk_the a = pk_the b /\ pk_the a <> None
  | KPriv a, KPriv b => vk_size a = vk_size b /\ vk_the a = vk_the b
  | _, _ => False
  end.
Lemma frozen_refl k : key_ok k -> isInitialized k = true -> frozen k k.
Proof. destruct k; cbn; auto. Qed.

Lemma pub_setter_ok X f p : (forall q, snd (f q) = q \/ exists e m, snd (f q) = mkPub (pk_size q) (pk_init q) e m (pk_the q)) ->
  key_ok (KPub p) -> key_ok (KPub (snd (pub_setter X f p))) /\ forall k, frozen k (KPub p) -> frozen k (KPub (snd (pub_setter X f p))).
Proof.
  intros Hf Hp. unfold pub_setter, bind. specialize (Hf p). destruct (f p) as [r q]. cbn [snd] in Hf.
  assert (F : pk_size q = pk_size p /\ pk_init q = pk_init p /\ pk_the q = pk_the p).
  { destruct Hf as [->|(e & m & ->)]; cbn; auto. }
  destruct F as (F1 & F2 & F3). cbn [key_ok] in Hp.
  assert (G0 : forall x, pk_size x = pk_size p -> (pk_the x = pk_the p \/ pk_the p = None) -> forall k, frozen k (KPub p) -> frozen k (KPub x)).
  { intros x X1 X2 k. destruct k; cbn [frozen]; auto. intros (A & B & C). destruct X2 as [X2|X2]; [|congruence].
    repeat split; congruence. }
  destruct r as [u|e]; cbn [snd]; [|split; [cbn; rewrite F2, F3; exact Hp|apply G0; auto]].
  unfold get, put, ret, lift, raise.
  destruct (pk_mod q) as [m|] eqn:EM; [|cbn [snd]; split; [cbn; rewrite F2, F3; exact Hp|apply G0; auto]].
  destruct (pk_exp q) as [e|] eqn:EE; [|cbn [snd]; split; [cbn; rewrite F2, F3; exact Hp|apply G0; auto]].
  destruct (pk_the q) as [t|] eqn:ET; cbn [snd].
  - split; [cbn; congruence|]. apply G0; cbn; auto. left. congruence.
  - unfold pub_construct, bind, get, put, lift, raise. destruct (negb (pc_avail X)); cbn [snd].
    { split; [cbn; rewrite F2, ET; intros H; apply Hp in H; congruence|apply G0; auto]. }
    rewrite EM, EE. destruct (pc_construct X _ _) as [t|ex]; cbn [snd].
    + split; [cbn; congruence|]. apply G0; cbn; auto.
    + split; [cbn; rewrite F2, ET; intros H; apply Hp in H; congruence|apply G0; auto].
Qed.
Lemma priv_setter_ok f p : (forall q, snd (f q) = q \/ exists e m, snd (f q) = mkPriv (vk_size q) (vk_init q) e m (vk_the q)) ->
  forall k, frozen k (KPriv p) -> frozen k (KPriv (snd (priv_setter f p))).
Proof.
  intros Hf. unfold priv_setter, bind. specialize (Hf p). destruct (f p) as [r q]. cbn [snd] in Hf.
  assert (F : vk_size q = vk_size p /\ vk_the q = vk_the p).
  { destruct Hf as [->|(e & m & ->)]; cbn; auto. }
  destruct F as (F1 & F3).
  assert (G0 : forall x, vk_size x = vk_size p -> vk_the x = vk_the p -> forall k, frozen k (KPriv p) -> frozen k (KPriv x)).
  { intros x X1 X2 k. destruct k; cbn [frozen]; auto. intros (A & B). split; congruence. }
  destruct r as [u|e]; cbn [snd]; [|apply G0; auto].
  unfold get, put, ret. destruct (vk_mod q); [|cbn [snd]; apply G0; auto]. destruct (vk_exp q); cbn [snd]; apply G0; auto.
Qed.
Lemma key_set_ok X s k : key_ok k -> key_ok (snd (key_set X s k)) /\ forall k0, frozen k0 k -> frozen k0 (snd (key_set X s k)).
Proof.
  intros H. destruct k as [d|p|v]; cbn [key_set].
  - cbn [snd]. auto.
  - destruct s as [b f l|b f l].
    + pose proof (pub_setter_ok X (k <- get ;; put (mkPub (pk_size k) (pk_init k) (Some (py_slice b f (f + l))) (pk_mod k) (pk_the k))) p) as G.
      unfold pub_setExponent. destruct (pub_setter X _ p) as [r p']. cbn [snd] in *. apply G; [|exact H].
      intros q. right. cbn. eauto.
    + pose proof (pub_setter_ok X (k <- get ;; if negb (l =? pk_size k / 8) then raise (CryptoExc INVALID_INIT)
        else put (mkPub (pk_size k) (pk_init k) (pk_exp k) (Some (py_slice b f (f + l))) (pk_the k))) p) as G.
      unfold pub_setModulus. destruct (pub_setter X _ p) as [r p']. cbn [snd] in *. apply G; [|exact H].
      intros q. unfold bind, get, raise, put. destruct (negb _); cbn [snd]; eauto.
  - destruct s as [b f l|b f l].
    + pose proof (priv_setter_ok (k <- get ;; put (mkPriv (vk_size k) (vk_init k) (Some (py_slice b f (f + l))) (vk_mod k) (vk_the k))) v) as G.
      unfold priv_setExponent. destruct (priv_setter _ v) as [r p']. cbn [snd key_ok] in *. split; [exact I|]. apply G.
      intros q. right. cbn. eauto.
    + pose proof (priv_setter_ok (k <- get ;; if negb (l =? vk_size k / 8) then raise (CryptoExc ILLEGAL_VALUE)
        else put (mkPriv (vk_size k) (vk_init k) (vk_exp k) (Some (py_slice b f (f + l))) (vk_the k))) v) as G.
      unfold priv_setModulus. destruct (priv_setter _ v) as [r p']. cbn [snd key_ok] in *. split; [exact I|]. apply G.
      intros q. unfold bind, get, raise, put. destruct (negb _); cbn [snd]; eauto.
Qed.

Definition keys_ok (p : kprog) : Prop := Forall key_ok (keys p).
Lemma Forall_upd {A} (P : A -> Prop) l i v : Forall P l -> P v -> Forall P (list_upd l i v).
Proof.
  intros H Hv. apply Forall_forall. intros x Hx. apply In_nth_error in Hx as [n Hn]. apply upd_inv_k in Hn as [(_ & Hn)|(_ & ->)]; [|assumption].
  rewrite Forall_forall in H. apply H. eapply nth_error_In; eauto.
Qed.
Lemma the_key_ok X r len : key_ok (KPub (snd (pub_setTheKey X r (pubkey_new len)))).
Proof. cbn. congruence. Qed.
Lemma build_ok t l k : buildKey t l = Ok (Some k) -> key_ok k.
Proof.
  unfold buildKey. repeat (match goal with |- context [if ?b then _ else _] => destruct b end); intros [= <-]; cbn; (exact I || congruence).
Qed.
(** one call on keys and pairs *)
Lemma kstep_ok X c p : keys_ok p -> keys_ok (snd (kstep X c p))
  /\ forall i k, nth_error (keys p) i = Some k ->
     exists k', nth_error (keys (snd (kstep X c p))) i = Some k' /\ forall k0, frozen k0 k -> frozen k0 k'.
Proof.
  intros W. unfold keys_ok in *.
  assert (SAME : forall q, keys q = keys p -> Forall key_ok (keys q) /\ forall i k, nth_error (keys p) i = Some k ->
     exists k', nth_error (keys q) i = Some k' /\ forall k0, frozen k0 k -> frozen k0 k').
  { intros q ->. split; [assumption|]. eauto. }
  assert (APP : forall q l, keys q = keys p ++ l -> Forall key_ok l -> Forall key_ok (keys q) /\ forall i k, nth_error (keys p) i = Some k ->
     exists k', nth_error (keys q) i = Some k' /\ forall k0, frozen k0 k -> frozen k0 k').
  { intros q l -> Hl. split; [apply Forall_app; auto|]. intros i k Hk. exists k. split; [now apply nth_error_app_some|auto]. }
  assert (UPD : forall q i k v, nth_error (keys p) i = Some k -> keys q = list_upd (keys p) i v -> key_ok v -> (forall k0, frozen k0 k -> frozen k0 v) ->
     Forall key_ok (keys q) /\ forall i k, nth_error (keys p) i = Some k ->
     exists k', nth_error (keys q) i = Some k' /\ forall k0, frozen k0 k -> frozen k0 k').
  { intros q i k v Hk -> Hv Hf. split; [now apply Forall_upd|]. intros j x Hx.
    rewrite nth_error_list_upd. destruct (Nat.eqb_spec j i) as [->|N]; [|eauto].
    assert (L : (i < length (keys p))%nat) by (apply nth_error_Some; congruence). apply Nat.ltb_lt in L. rewrite L.
    exists v. split; [reflexivity|]. intros k0 F. apply Hf. congruence. }
  destruct c as [t l|i s|i kd ko|a l|i j|q|q|q]; cbn [kstep].
  - destruct (buildKey t l) as [[k|]|e] eqn:E; try (apply SAME; reflexivity). cbn [snd].
    apply (APP _ [k]); [reflexivity|]. constructor; [|constructor]. exact (build_ok _ _ _ E).
  - destruct (nth_error (keys p) i) as [k|] eqn:E; [|apply SAME; reflexivity].
    assert (K : key_ok k) by (rewrite Forall_forall in W; apply W; eapply nth_error_In; eauto).
    destruct (key_set_ok X s k K) as [K1 K2]. destruct (key_set X s k) as [r k']. cbn [snd] in *.
    apply (UPD _ i k k' E); auto.
  - destruct (nth_error (keys p) i) as [[k|k|k]|] eqn:E; try (apply SAME; reflexivity).
    cbn [setKey snd]. eapply (UPD _ i _ _ E); cbn; [reflexivity|exact I|]. intros [ | | ]; auto.
  - destruct (_ || _); [|apply SAME; reflexivity]. cbn [snd]. eapply APP; [reflexivity|].
    repeat constructor. cbn. congruence.
  - destruct (nth_error (keys p) i) as [[ | | ]|]; destruct (nth_error (keys p) j) as [[ | | ]|]; apply SAME; reflexivity.
  - destruct (nth_error (pairs_ p) q) as [h|]; [|apply SAME; reflexivity].
    destruct (nth_error (keys p) (hp_pub h)) as [a|]; [|apply SAME; reflexivity].
    destruct (nth_error (keys p) (hp_priv h)) as [b|]; [|apply SAME; reflexivity].
    destruct (_ || _); [apply SAME; reflexivity|]. destruct (negb (pc_avail X)); [apply SAME; reflexivity|].
    destruct (hp_alg h) as [alg|]; [|apply SAME; reflexivity]. destruct (negb _); [apply SAME; reflexivity|].
    destruct (hp_len h) as [len|]; [|apply SAME; reflexivity]. destruct (pc_generate X len) as [r|e]; [|apply SAME; reflexivity].
    cbn [snd]. eapply APP; [reflexivity|]. constructor; [apply the_key_ok|]. repeat constructor.
  - destruct (nth_error (pairs_ p) q); apply SAME; reflexivity.
  - destruct (nth_error (pairs_ p) q); apply SAME; reflexivity.
Qed.

(** doFinal sees of the key only what is frozen *)
Lemma final_frozen X rnd c k k' i io il out oo : frozen k k' ->
  any_final X rnd c (Some k) i io il out oo = any_final X rnd c (Some k') i io il out oo.
Proof.
  intros F. unfold any_final. destruct (is_rsa (c_alg c)); [|reflexivity].
  assert (S1 : getSize k = getSize k') by (destruct k, k'; cbn in *; try contradiction; tauto).
  assert (T1 : the_rsa k = the_rsa k').
  { destruct k, k'; cbn in *; try contradiction; try reflexivity; destruct F as (_ & F); [destruct F as [-> _]|rewrite F]; reflexivity. }
  unfold rsa_doFinal. rewrite S1, T1. destruct k, k'; cbn in F; try contradiction; reflexivity.
Qed.
Lemma base_init_alg k m c : c_alg (snd (base_cipher_init k m c)) = c_alg c.
Proof.
  unfold base_cipher_init, bind, get, put, ret, raise. destruct k as [k|]; [|reflexivity]. destruct (negb _); [reflexivity|].
  destruct (negb _); reflexivity.
Qed.
Lemma rsa_init_alg k m c : c_alg (snd (rsa_init k m c)) = c_alg c.
Proof.
  unfold rsa_init, bind. pose proof (base_init_alg k m c) as H. destruct (base_cipher_init k m c) as [[x|e] c1]; cbn [snd] in *; [|assumption].
  destruct x; cbn; assumption.
Qed.
Lemma rsa_init_ok k m c c' : rsa_init (Some k) m c = (Ok tt, c') -> isInitialized k = true.
Proof.
  unfold rsa_init, bind, base_cipher_init. destruct (isInitialized k); [reflexivity|]. discriminate.
Qed.
Lemma des_init_alg k m b o l c : c_alg (snd (des_init k m b o l c)) = c_alg c.
Proof.
  unfold des_init, bind. pose proof (base_init_alg k m c) as H. destruct (base_cipher_init k m c) as [[x|e] c1]; cbn [snd] in *; [|assumption].
  destruct x as [dk| | ]; try assumption. destruct (negb _); [assumption|]. destruct (arrayCopy_into _ _ _ _ _) as [[u|e] iv]; [|assumption].
  cbn [get]. destruct (dk_key dk) as [kb|]; [|assumption].
  destruct (64 =? dk_size dk); unfold lift; [destruct (des_new _ _ _ _ _)|destruct (tdes_new _ _ _ _ _)]; cbn; assumption.
Qed.
Lemma any_init_alg k m iv c : c_alg (snd (any_init k m iv c)) = c_alg c.
Proof.
  unfold any_init. destruct (is_rsa (c_alg c)); [apply rsa_init_alg|]. destruct iv as [[[b o] l]|]; apply des_init_alg.
Qed.
Lemma des_final_alg i io il oo c out : c_alg (fst (snd (des_doFinal i io il oo (c, out)))) = c_alg c.
Proof.
  unfold des_doFinal, bind, get. destruct (negb (c_init c)); [reflexivity|].
  destruct (arrayCopy_into _ _ _ _ _) as [[u|e] data]; [|reflexivity].
  destruct (c_mode c) as [m|]; [|reflexivity]. destruct (c_engine c) as [e|]; [|reflexivity].
  destruct (engine_run _ _ e) as [r e']. unfold put, lift, ret. destruct r as [res|]; cbn [fst snd]; [|reflexivity].
  destruct (arrayCopy_into _ 0 oo _ out) as [[u'|e''] out']; reflexivity.
Qed.
Lemma any_final_alg X rnd c k i io il out oo : c_alg (snd (any_final X rnd c k i io il out oo)) = c_alg c.
Proof.
  unfold any_final. destruct (is_rsa (c_alg c)); [destruct k; reflexivity|].
  pose proof (des_final_alg i io il oo c out) as H. destruct (des_doFinal i io il oo (c, out)) as [r [c' out']]. exact H.
Qed.
Lemma update_same i io il oo s : snd (cipher_update i io il oo s) = s.
Proof. unfold cipher_update, bind, get. destruct (negb _); reflexivity. Qed.

(** the cipher object and the cipher with a copy of the key *)
Definition tied (p : kprog) (o : cobj) (s : solo) : Prop :=
  so_c s = co_c o
  /\ (is_rsa (c_alg (co_c o)) = true ->
      match co_key o, so_key s with
      | None, None => True
      | Some k, Some key => exists key', nth_error (keys p) k = Some key' /\ frozen key key'
      | _, _ => False
      end).
Lemma tied_kstep X c p o s : keys_ok p -> tied p o s -> tied (snd (kstep X c p)) o s.
Proof.
  intros W [H1 H2]. split; [assumption|]. intros R. specialize (H2 R).
  destruct (co_key o) as [k|], (so_key s) as [key|]; auto. destruct H2 as (key' & K1 & K2).
  destruct (kstep_ok X c p W) as [_ K]. destruct (K _ _ K1) as (k' & L1 & L2). eauto.
Qed.
Lemma sstep_k X c p : sp_k (snd (sstep X c p)) = match c with SKey k => snd (kstep X k (sp_k p)) | _ => sp_k p end.
Proof.
  destruct c as [k|a|c k m iv|c i io il out oo|c rnd i io il out oo]; cbn [sstep].
  - destruct (kstep X k (sp_k p)); reflexivity.
  - destruct (getInstance2 a); reflexivity.
  - destruct (nth_error (sp_c p) c) as [o|]; [|reflexivity]. destruct (nth_error (keys (sp_k p)) k); [|reflexivity].
    destruct (any_init _ _ _ _); reflexivity.
  - destruct (nth_error (sp_c p) c) as [o|]; [|reflexivity]. destruct (cipher_update _ _ _ _ _) as [r [c' out']]; reflexivity.
  - destruct (nth_error (sp_c p) c) as [o|]; [|reflexivity]. destruct (any_final _ _ _ _ _ _ _ _ _) as [[r out'] c']; reflexivity.
Qed.
Lemma srun_cons X c cs p : srun X (c :: cs) p =
  (fst (sstep X c p) :: fst (srun X cs (snd (sstep X c p))), snd (srun X cs (snd (sstep X c p)))).
Proof. cbn [srun]. destruct (sstep X c p) as [r p1]. cbn [fst snd]. destruct (srun X cs p1); reflexivity. Qed.
Lemma srun_k X cs : forall p, sp_k (snd (srun X cs p)) = snd (krun X (key_calls cs) (sp_k p)).
Proof.
  induction cs as [|c cs IH]; intros p; [reflexivity|]. rewrite srun_cons. cbn [snd]. rewrite IH, sstep_k.
  change (key_calls (c :: cs)) with ((match c with SKey k => [k] | _ => [] end) ++ key_calls cs).
  destruct c; try reflexivity. cbn [app]. now rewrite krun_cons.
Qed.
Lemma sstep_keys_ok X c p : keys_ok (sp_k p) -> keys_ok (sp_k (snd (sstep X c p))).
Proof. intros W. rewrite sstep_k. destruct c; auto. now apply kstep_ok. Qed.
Lemma srun_keys_ok X cs : forall p, keys_ok (sp_k p) -> keys_ok (sp_k (snd (srun X cs p))).
Proof. induction cs as [|c cs IH]; intros p W; [assumption|]. rewrite srun_cons. cbn [snd]. apply IH. now apply sstep_keys_ok. Qed.

(** calls on other objects leave the cipher tied *)
Lemma sp_c_other X c p i o : nth_error (sp_c p) i = Some o ->
  match c with SInit j _ _ _ | SUpdate j _ _ _ _ _ | SFinal j _ _ _ _ _ _ => j <> i | _ => True end ->
  nth_error (sp_c (snd (sstep X c p))) i = Some o.
Proof.
  intros H N. destruct c as [k|a|c k m iv|c x io il out oo|c rnd x io il out oo]; cbn [sstep].
  - destruct (kstep X k (sp_k p)); assumption.
  - destruct (getInstance2 a); [|assumption]. cbn [snd sp_c]. now apply nth_error_app_some.
  - destruct (nth_error (sp_c p) c) as [o'|]; [|assumption]. destruct (nth_error (keys (sp_k p)) k); [|assumption].
    destruct (any_init _ _ _ _). cbn [snd sp_c]. rewrite nth_error_list_upd. destruct (Nat.eqb_spec i c); [congruence|assumption].
  - destruct (nth_error (sp_c p) c) as [o'|]; [|assumption]. destruct (cipher_update _ _ _ _ _) as [r [c' out']].
    cbn [snd sp_c]. rewrite nth_error_list_upd. destruct (Nat.eqb_spec i c); [congruence|assumption].
  - destruct (nth_error (sp_c p) c) as [o'|]; [|assumption]. destruct (any_final _ _ _ _ _ _ _ _ _) as [[r out'] c'].
    cbn [snd sp_c]. rewrite nth_error_list_upd. destruct (Nat.eqb_spec i c); [congruence|assumption].
Qed.
Lemma upd_self {A} (l : list A) i x v : nth_error l i = Some x -> nth_error (list_upd l i v) i = Some v.
Proof.
  intros H. rewrite nth_error_list_upd, Nat.eqb_refl.
  assert (L : (i < length l)%nat) by (apply nth_error_Some; congruence). apply Nat.ltb_lt in L. now rewrite L.
Qed.

Lemma solo_run_cons X o os s : solo_run X (o :: os) s = fst (solo_step X o s) :: solo_run X os (snd (solo_step X o s)).
Proof. cbn [solo_run]. destruct (solo_step X o s); reflexivity. Qed.
Lemma own_refines X i cs : forall p o s, keys_ok (sp_k p) -> nth_error (sp_c p) i = Some o -> tied (sp_k p) o s ->
  map snd (own_calls X i cs p) = solo_run X (map fst (own_calls X i cs p)) s.
Proof.
  induction cs as [|c cs IH]; intros p o s W Ho T; [reflexivity|].
  cbn [own_calls]. pose proof (sstep_keys_ok X c p W) as W'. pose proof (sp_c_other X c p i o Ho) as OTHER.
  pose proof (sstep_k X c p) as SK.
  destruct c as [k|a|c k m iv|c x io il out oo|c rnd x io il out oo].
  - specialize (OTHER I). destruct (sstep X (SKey k) p) as [r p']. cbn [snd] in *. apply (IH p' o s W' OTHER).
    rewrite SK. now apply tied_kstep.
  - specialize (OTHER I). destruct (sstep X (SNew a) p) as [r p']. cbn [snd] in *. apply (IH p' o s W' OTHER). now rewrite SK.
  - destruct (Nat.eqb_spec c i) as [->|N].
    + clear OTHER. destruct (nth_error (keys (sp_k p)) k) as [key|] eqn:EK.
      2: { cbn [sstep] in *. rewrite Ho, EK in *. exact (IH p o s W Ho T). }
      cbn [sstep] in *. rewrite Ho, EK in *. destruct T as [T1 T2].
      pose proof (any_init_alg key m iv (co_c o)) as HA.
      assert (HK : is_rsa (c_alg (co_c o)) = true -> fst (any_init key m iv (co_c o)) = Ok tt -> isInitialized key = true).
      { intros R E. unfold any_init in E. rewrite R in E. destruct (rsa_init (Some key) m (co_c o)) as [r1 c1] eqn:ER. cbn [fst] in E.
        subst r1. exact (rsa_init_ok _ _ _ _ ER). }
      destruct (any_init key m iv (co_c o)) as [r c'] eqn:EI. cbn [fst snd sp_k] in *.
      cbn [map fst snd]. rewrite solo_run_cons. cbn [solo_step]. rewrite T1, EI. cbn [fst snd]. f_equal.
      eapply IH; [exact W'|cbn [sp_c]; eapply upd_self; exact Ho|]. split; [reflexivity|]. cbn [co_c co_key so_key sp_k]. rewrite HA.
      intros R. specialize (T2 R). rewrite R. cbn [andb]. destruct r as [[]|e]; cbn [is_ok]; [|exact T2].
      exists key. split; [exact EK|]. apply frozen_refl; [|now apply HK].
      unfold keys_ok in W. rewrite Forall_forall in W. apply W. eapply nth_error_In; eauto.
    + specialize (OTHER N). destruct (sstep X (SInit c k m iv) p) as [r p']. cbn [snd] in *. apply (IH p' o s W' OTHER). now rewrite SK.
  - destruct (Nat.eqb_spec c i) as [->|N].
    + clear OTHER. cbn [sstep] in *. rewrite Ho in *. destruct T as [T1 T2].
      pose proof (update_same x io il oo (co_c o, out)) as U.
      destruct (cipher_update x io il oo (co_c o, out)) as [r [c' out']] eqn:EU. cbn [fst snd sp_k] in *.
      cbn [map fst snd]. rewrite solo_run_cons. cbn [solo_step]. rewrite T1, EU. cbn [fst snd]. f_equal.
      eapply IH; [exact W'|cbn [sp_c]; eapply upd_self; exact Ho|]. split; [reflexivity|]. cbn [co_c co_key so_key sp_k].
      injection U as -> ->. exact T2.
    + specialize (OTHER N). destruct (sstep X (SUpdate c x io il out oo) p) as [r p']. cbn [snd] in *. apply (IH p' o s W' OTHER). now rewrite SK.
  - destruct (Nat.eqb_spec c i) as [->|N].
    + clear OTHER. cbn [sstep] in *. rewrite Ho in *. destruct T as [T1 T2].
      set (key := match co_key o with Some k => nth_error (keys (sp_k p)) k | None => None end) in *.
      assert (EQ : any_final X rnd (co_c o) key x io il out oo = any_final X rnd (so_c s) (so_key s) x io il out oo).
      { rewrite T1. destruct (is_rsa (c_alg (co_c o))) eqn:R.
        - specialize (T2 eq_refl). subst key. destruct (co_key o) as [k|], (so_key s) as [ks|]; try contradiction; [|reflexivity].
          destruct T2 as (key' & K1 & K2). rewrite K1. symmetry. now apply final_frozen.
        - unfold any_final. now rewrite R. }
      pose proof (any_final_alg X rnd (co_c o) key x io il out oo) as HA.
      destruct (any_final X rnd (co_c o) key x io il out oo) as [[r out'] c'] eqn:EF. cbn [fst snd sp_k] in *.
      cbn [map fst snd]. rewrite solo_run_cons. cbn [solo_step]. rewrite <- EQ. cbn [fst snd]. f_equal.
      eapply IH; [exact W'|cbn [sp_c]; eapply upd_self; exact Ho|]. split; [reflexivity|]. cbn [co_c co_key so_key sp_k].
      rewrite HA. exact T2.
    + specialize (OTHER N). destruct (sstep X (SFinal c rnd x io il out oo) p) as [r p']. cbn [snd] in *. apply (IH p' o s W' OTHER). now rewrite SK.
Qed.

Lemma C120_init_fixes_key_pf : C120_full.
Proof.
  intros X before rs p alg i p' cs HB HN.
  assert (W : keys_ok (sp_k p)).
  { pose proof (srun_keys_ok X before sstart) as H. rewrite HB in H. apply H. constructor. }
  split; [|apply srun_k].
  cbn [sstep] in HN. unfold getInstance2, getInstance_alg in HN. destruct (_ || _) eqn:EA; [|discriminate].
  injection HN as <- <-. eapply own_refines; [exact W|cbn [sp_c]; rewrite nth_error_app2 by lia; rewrite Nat.sub_diag; reflexivity|].
  split; [reflexivity|]. intros _. exact I.
Qed.

Lemma frozen_self k k' : frozen k k' -> frozen k' k'.
Proof. destruct k, k'; cbn; try contradiction; auto. intros (A & B & C). repeat split; congruence. Qed.
Definition all_tied (p : sprog) : Prop := forall i o, nth_error (sp_c p) i = Some o -> exists s, tied (sp_k p) o s.
Lemma all_tied_step X c p : keys_ok (sp_k p) -> all_tied p -> all_tied (snd (sstep X c p)).
Proof.
  intros W T i o' Ho'. pose proof (sstep_k X c p) as SK.
  destruct c as [k|a|c k m iv|c x io il out oo|c rnd x io il out oo]; cbn [sstep] in *.
  - destruct (kstep X k (sp_k p)) as [r q] eqn:EK. cbn [snd sp_c sp_k] in *. destruct (T i o' Ho') as [s Hs].
    exists s. pose proof (tied_kstep X k _ _ _ W Hs) as G. now rewrite EK in G.
  - destruct (getInstance2 a) as [c0|]; [|exact (T _ _ Ho')]. cbn [snd sp_c sp_k] in *.
    apply snoc_inv_k in Ho' as [Ho'|(_ & ->)]; [exact (T _ _ Ho')|]. exists (mkSolo c0 None). split; [reflexivity|]. intros _. exact I.
  - destruct (nth_error (sp_c p) c) as [o|] eqn:Eo; [|exact (T _ _ Ho')]. destruct (nth_error (keys (sp_k p)) k) as [key|] eqn:EK; [|exact (T _ _ Ho')].
    pose proof (any_init_alg key m iv (co_c o)) as HA.
    assert (HK : is_rsa (c_alg (co_c o)) = true -> fst (any_init key m iv (co_c o)) = Ok tt -> isInitialized key = true).
    { intros R E. unfold any_init in E. rewrite R in E. destruct (rsa_init (Some key) m (co_c o)) as [r1 c1] eqn:ER. cbn [fst] in E.
      subst r1. exact (rsa_init_ok _ _ _ _ ER). }
    destruct (any_init key m iv (co_c o)) as [r c'] eqn:EI. cbn [fst snd sp_k sp_c] in *.
    apply upd_inv_k in Ho' as [(_ & Ho')|(_ & ->)]; [exact (T _ _ Ho')|].
    destruct (T _ _ Eo) as [s [T1 T2]]. exists (mkSolo c' (if is_ok r then Some key else so_key s)). split; [reflexivity|].
    cbn [co_c co_key so_key]. rewrite HA. intros R. specialize (T2 R). rewrite R. cbn [andb]. destruct r as [[]|e]; cbn [is_ok]; [|exact T2].
    exists key. split; [exact EK|]. apply frozen_refl; [|now apply HK].
    unfold keys_ok in W. rewrite Forall_forall in W. apply W. eapply nth_error_In; eauto.
  - destruct (nth_error (sp_c p) c) as [o|] eqn:Eo; [|exact (T _ _ Ho')].
    pose proof (update_same x io il oo (co_c o, out)) as U. destruct (cipher_update x io il oo (co_c o, out)) as [r [c' out']].
    cbn [fst snd sp_k sp_c] in *. apply upd_inv_k in Ho' as [(_ & Ho')|(_ & ->)]; [exact (T _ _ Ho')|].
    injection U as -> ->. destruct (T _ _ Eo) as [s [T1 T2]]. exists s. split; assumption.
  - destruct (nth_error (sp_c p) c) as [o|] eqn:Eo; [|exact (T _ _ Ho')].
    pose proof (any_final_alg X rnd (co_c o) (match co_key o with Some k => nth_error (keys (sp_k p)) k | None => None end) x io il out oo) as HA.
    destruct (any_final X rnd (co_c o) _ x io il out oo) as [[r out'] c'].
    cbn [fst snd sp_k sp_c] in *. apply upd_inv_k in Ho' as [(_ & Ho')|(_ & ->)]; [exact (T _ _ Ho')|].
    destruct (T _ _ Eo) as [s [T1 T2]]. exists (mkSolo c' (so_key s)). split; [reflexivity|]. cbn [co_c co_key so_key]. now rewrite HA.
Qed.
Lemma all_tied_run X cs : forall p, keys_ok (sp_k p) -> all_tied p -> all_tied (snd (srun X cs p)).
Proof.
  induction cs as [|c cs IH]; intros p W T; [assumption|]. rewrite srun_cons. cbn [snd].
  apply IH; [now apply sstep_keys_ok|now apply all_tied_step].
Qed.
Lemma tied_krun X ks : forall p o s, keys_ok (sp_k p) -> tied (sp_k p) o s -> tied (sp_k (snd (srun X (map SKey ks) p))) o s.
Proof.
  induction ks as [|k ks IH]; intros p o s W T; [assumption|]. cbn [map]. rewrite srun_cons. cbn [snd].
  apply IH; [now apply sstep_keys_ok|]. rewrite sstep_k. now apply tied_kstep.
Qed.
Lemma sp_c_krun X ks : forall p, sp_c (snd (srun X (map SKey ks) p)) = sp_c p.
Proof.
  induction ks as [|k ks IH]; intros p; [reflexivity|]. cbn [map]. rewrite srun_cons. cbn [snd]. rewrite IH.
  cbn [sstep]. destruct (kstep X k (sp_k p)); reflexivity.
Qed.

Lemma C120_later_key_calls_pf : forall X before rs p ks i rnd inBuff inOffset inLength outBuff outOffset,
  srun X before sstart = (rs, p) ->
  fst (sstep X (SFinal i rnd inBuff inOffset inLength outBuff outOffset) (snd (srun X (map SKey ks) p)))
  = fst (sstep X (SFinal i rnd inBuff inOffset inLength outBuff outOffset) p).
Proof.
  intros X before rs p ks i rnd x io il out oo HB.
  assert (W : keys_ok (sp_k p)).
  { pose proof (srun_keys_ok X before sstart) as H. rewrite HB in H. apply H. constructor. }
  assert (T : all_tied p).
  { pose proof (all_tied_run X before sstart) as H. rewrite HB in H. apply H; [constructor|]. intros j o Hj. destruct j; discriminate Hj. }
  cbn [sstep]. rewrite sp_c_krun. destruct (nth_error (sp_c p) i) as [o|] eqn:Eo; [|reflexivity].
  destruct (T _ _ Eo) as [s Hs]. pose proof (tied_krun X ks p o s W Hs) as Hs'. destruct Hs as [_ T2], Hs' as [_ T2'].
  set (key1 := match co_key o with Some k => nth_error (keys (sp_k (snd (srun X (map SKey ks) p)))) k | None => None end).
  set (key2 := match co_key o with Some k => nth_error (keys (sp_k p)) k | None => None end).
  assert (EQ : any_final X rnd (co_c o) key1 x io il out oo = any_final X rnd (co_c o) key2 x io il out oo).
  { subst key1 key2. destruct (is_rsa (c_alg (co_c o))) eqn:R.
    - specialize (T2 eq_refl). specialize (T2' eq_refl). destruct (co_key o) as [k|], (so_key s) as [ks'|]; try contradiction; [|reflexivity].
      destruct T2 as (k1 & K1 & F1), T2' as (k2 & K2 & F2). rewrite K1, K2.
      transitivity (any_final X rnd (co_c o) (Some ks') x io il out oo); [symmetry|]; now apply final_frozen.
    - unfold any_final. now rewrite R. }
  cbv zeta. rewrite EQ. destruct (any_final X rnd (co_c o) key2 x io il out oo) as [[r out'] c']. reflexivity.
Qed.
