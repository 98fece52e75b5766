(** * C52-C55, C57, C63, C64: pyDes.des: proofs *)
From Verif Require Import Py S_Base L_Py S_DES M_des L_des.
From Coq Require Import ZifyBool ZifyNat.
Ltac Zify.zify_post_hook ::= Z.div_mod_to_equations.


Lemma Ok_inj {A} (x y : A) : Ok x = Ok y -> x = y.
Proof. intros H. change (match @Ok A x with Ok z => z = y | Err _ => True end). now rewrite H. Qed.

Lemma py_slice_neg {A} (l : list A) n : 1 <= n <= zlen l -> py_slice l 0 (- n) = firstn (Z.to_nat (zlen l - n)) l.
Proof.
  intros H. unfold py_slice, py_clamp. destruct (Z.ltb_spec 0 0); [lia|]. destruct (Z.ltb_spec (- n) 0); [|lia].
  replace (Z.min 0 (zlen l)) with 0 by lia. cbn [Z.to_nat skipn]. f_equal. lia.
Qed.
Lemma py_slice_neg_big {A} (l : list A) n : zlen l <= n -> py_slice l 0 (- n) = [].
Proof.
  intros H. unfold py_slice, py_clamp. pose proof (zlen_nonneg l). destruct (Z.ltb_spec 0 0); [lia|].
  replace (Z.min 0 (zlen l)) with 0 by lia. destruct (Z.ltb_spec (- n) 0).
  - replace (Z.to_nat _) with O by lia. reflexivity.
  - replace (Z.to_nat _) with O by lia. reflexivity.
Qed.
Lemma py_slice_00 {A} (l : list A) : py_slice l 0 0 = [].
Proof. unfold py_slice, py_clamp. rewrite Z.sub_diag. reflexivity. Qed.
Lemma py_slice_from_neg {A} (l : list A) n : 1 <= n <= zlen l -> py_slice_from l (- n) = skipn (Z.to_nat (zlen l - n)) l.
Proof. intros H. unfold py_slice_from, py_clamp. destruct (Z.ltb_spec (- n) 0); [|lia]. f_equal. lia. Qed.
Lemma py_get_last (l : list Z) : l <> [] -> py_get l (-1) = Ok (last l 0).
Proof.
  intros H. destruct (exists_last H) as (l' & x & ->). rewrite last_last.
  unfold py_get, py_index. pose proof (zlen_nonneg l'). rewrite zlen_app. change (zlen [x]) with 1.
  replace ((0 <=? -1) && _) with false by lia. replace ((_ <=? -1) && _) with true by lia.
  rewrite nth_error_app2 by (unfold zlen; lia). replace (Z.to_nat (-1 + (zlen l' + 1)) - length l')%nat with O by (unfold zlen; lia).
  reflexivity.
Qed.

(** *** configuration is kept by every call *)
Definition cfg (s s' : des) : Prop := d_base s = d_base s' /\ d_Kn s = d_Kn s'.
Lemma cfg_refl s : cfg s s. Proof. split; reflexivity. Qed.
Lemma cfg_sym s s' : cfg s s' -> cfg s' s. Proof. intros []; split; congruence. Qed.
Lemma cfg_trans s s' s'' : cfg s s' -> cfg s' s'' -> cfg s s''. Proof. intros [] []; split; congruence. Qed.

Definition keeps {A} (m : M des A) : Prop := forall s, cfg s (snd (m s)).
Lemma keeps_bind {A B} (m : M des A) (k : A -> M des B) : keeps m -> (forall a, keeps (k a)) -> keeps (bind m k).
Proof.
  intros Hm Hk s. unfold bind. specialize (Hm s). destruct (m s) as [[a|e] s1]; cbn [snd] in *; [|exact Hm].
  eapply cfg_trans; [exact Hm|apply Hk].
Qed.
Lemma keeps_lift {A} (r : res A) : keeps (lift r). Proof. intros s; apply cfg_refl. Qed.
Lemma keeps_get : keeps (@get des). Proof. intros s; apply cfg_refl. Qed.
Lemma keeps_ret {A} (a : A) : keeps (ret a). Proof. intros s; apply cfg_refl. Qed.
Lemma keeps_raise {A} e : keeps (@raise des A e). Proof. intros s; apply cfg_refl. Qed.
Lemma keeps_set_LR L R : keeps (set_LR L R). Proof. intros s; split; reflexivity. Qed.
Lemma keeps_set_final f : keeps (set_final f). Proof. intros s; split; reflexivity. Qed.
Lemma keeps_for n : forall i body, (forall i, keeps (body i)) -> keeps (for_loop n i body).
Proof. induction n; intros i body H; cbn [for_loop]; [apply keeps_ret|]. apply keeps_bind; auto. Qed.
#[local] Hint Resolve keeps_lift keeps_get keeps_ret keeps_raise keeps_set_LR keeps_set_final : core.

Lemma keeps_round it : keeps (des_round it).
Proof. unfold des_round. repeat (apply keeps_bind; [solve [auto]|intro]). auto. Qed.
Lemma keeps_des_crypt b t : keeps (des_crypt b t).
Proof.
  unfold des_crypt. repeat (apply keeps_bind; [solve [auto]|intro]).
  apply keeps_bind; [apply keeps_for; intro; apply keeps_round|intro].
  repeat (apply keeps_bind; [solve [auto]|intro]); auto.
Qed.
Lemma keeps_crypt_loop fuel : forall data t i iv res, keeps (crypt_loop fuel data t i iv res).
Proof.
  induction fuel as [|fuel IH]; intros; cbn [crypt_loop]; [auto|].
  destruct (i <? zlen data); [|auto]. apply keeps_bind; [auto|intro s]. cbv zeta.
  destruct (_ =? CBC); (apply keeps_bind; [apply keeps_des_crypt|intro]); apply IH.
Qed.
Lemma keeps_crypt data t : keeps (crypt data t).
Proof.
  unfold crypt. destruct (negb _); [auto|]. apply keeps_bind; [auto|intro s]. apply keeps_bind.
  - destruct (_ =? 0); [auto|]. destruct (t =? DECRYPT); [auto|]. destruct (negb _); auto.
  - intro. destruct (_ && _); [auto|apply keeps_crypt_loop].
Qed.
Lemma keeps_encrypt data pad pm : keeps (des_encrypt data pad pm).
Proof. unfold des_encrypt. apply keeps_bind; [auto|intro]. apply keeps_bind; [auto|intro]. apply keeps_crypt. Qed.
Lemma keeps_decrypt data pad pm : keeps (des_decrypt data pad pm).
Proof. unfold des_decrypt. apply keeps_bind; [apply keeps_crypt|intro]. apply keeps_bind; auto. Qed.
Lemma keeps_call c d : cfg d (des_call c d).
Proof. destruct c; cbn [des_call]; [apply keeps_encrypt|apply keeps_decrypt]. Qed.

(** an object with the key schedule of [key] *)
Definition wf (key : list Z) (b : base) (s : des) : Prop :=
  d_base s = b /\ d_Kn s = map bz (schedule (to_bits key)).
Lemma wf_cfg key b s s' : wf key b s -> cfg s s' -> wf key b s'.
Proof. intros [] []. split; congruence. Qed.

Lemma des_new_wf key mode iv pad padmode d : des_new key mode iv pad padmode = Ok d ->
  wf key (mkBase mode iv pad padmode key) d /\ length key = 8%nat
  /\ (iv = [] \/ length iv = 8%nat) /\ (pad = [] \/ padmode <> PAD_PKCS5).
Proof.
  unfold des_new. destruct (Z.eqb_spec (zlen key) 8) as [Hk|]; cbn [negb]; [|discriminate].
  assert (Hk8 : length key = 8%nat) by (unfold zlen in Hk; lia).
  unfold base_init. destruct (nonempty pad && (padmode =? PAD_PKCS5)) eqn:Ep; cbn [rbind]; [discriminate|].
  destruct (nonempty iv && negb (zlen iv =? 8)) eqn:Ei; cbn [rbind]; [discriminate|].
  set (s0 := mkDes _ _ _ _ _). unfold des_setKey.
  erewrite bind_ok by reflexivity. erewrite bind_ok by reflexivity. cbn [s0 d_base base_setKey b_mode b_iv b_pad b_padmode].
  set (s1 := mkDes _ _ _ _ _). destruct (create_sub_keys_ok s1 key eq_refl Hk8 eq_refl) as (L & R & E).
  rewrite E. intros H. apply Ok_inj in H. rewrite <- H. split; [split; reflexivity|]. split; [exact Hk8|]. split.
  - destruct iv; [auto|]. cbn [nonempty andb] in Ei. right. unfold zlen in Ei. lia.
  - destruct pad; [auto|]. cbn [nonempty andb] in Ep. right. lia.
Qed.

Lemma des_new_exists key mode iv pad padmode : length key = 8%nat -> (iv = [] \/ length iv = 8%nat) ->
  (pad = [] \/ padmode <> PAD_PKCS5) -> exists d, des_new key mode iv pad padmode = Ok d.
Proof.
  intros Hk Hi Hp. unfold des_new. replace (zlen key =? 8) with true by (unfold zlen; lia). cbn [negb].
  unfold base_init. replace (nonempty pad && (padmode =? PAD_PKCS5)) with false
    by (destruct Hp as [->|Hp]; [reflexivity|destruct (nonempty pad); cbn; lia]).
  replace (nonempty iv && negb (zlen iv =? 8)) with false
    by (destruct Hi as [->|Hi]; [reflexivity|unfold zlen; destruct (nonempty iv); cbn; lia]).
  cbn [rbind]. set (s0 := mkDes _ _ _ _ _). unfold des_setKey.
  erewrite bind_ok by reflexivity. erewrite bind_ok by reflexivity. cbn [s0 d_base base_setKey b_mode b_iv b_pad b_padmode].
  set (s1 := mkDes _ _ _ _ _). destruct (create_sub_keys_ok s1 key eq_refl Hk eq_refl) as (L & R & E).
  rewrite E. eauto.
Qed.

Lemma reach_wf key mode iv pad padmode d : des_reach key mode iv pad padmode d ->
  wf key (mkBase mode iv pad padmode key) d /\ length key = 8%nat
  /\ (iv = [] \/ length iv = 8%nat) /\ (pad = [] \/ padmode <> PAD_PKCS5).
Proof.
  intros (d0 & h & E & ->). apply des_new_wf in E as (W & H). split; [|exact H]. clear H.
  revert d0 W. induction h as [|c h IH]; intros d0 W; [exact W|]. cbn [fold_left]. apply IH.
  eapply wf_cfg; [exact W|apply keeps_call].
Qed.

Lemma wf_crypt key b s data t : wf key b s -> wf key b (snd (crypt data t s)).
Proof. intros W. eapply wf_cfg; [exact W|apply keeps_crypt]. Qed.

Lemma block_crypt key b s (enc : bool) blk : wf key b s -> length blk = 8%nat ->
  exists s', des_crypt (bz (to_bits blk)) (if enc then ENCRYPT else DECRYPT) s
    = (Ok (bz (if enc then DES (to_bits key) (to_bits blk) else DES_inv (to_bits key) (to_bits blk))), s') /\ wf key b s'.
Proof.
  intros [W1 W2] Hb.
  destruct (des_crypt_ok s (schedule (to_bits key)) (to_bits blk) enc W2 (schedule_length _) (schedule_48 _))
    as (s' & E & E1 & E2); [now rewrite to_bits_length, Hb|].
  exists s'. split; [|split; congruence]. rewrite E. unfold DES, DES_inv. destruct enc; reflexivity.
Qed.

Lemma cipher_length ks b : length (cipher ks b) = 64%nat.
Proof. unfold cipher. destruct (rounds _ _ _). now rewrite select_length. Qed.

Definition F (key : list Z) (enc : bool) (blk : list Z) : list Z :=
  if enc then DES_bytes key blk else DES_inv_bytes key blk.
Lemma F_length key enc blk : length (F key enc blk) = 8%nat.
Proof. destruct enc; apply of_bits_length. Qed.
Lemma F_ubyte key enc blk : Forall ubyte (F key enc blk).
Proof. destruct enc; apply of_bits_ubyte. Qed.
Lemma F_bits key (enc : bool) blk :
  bz (if enc then DES (to_bits key) (to_bits blk) else DES_inv (to_bits key) (to_bits blk)) = bz (to_bits (F key enc blk)).
Proof.
  f_equal. unfold F, DES_bytes, DES_inv_bytes.
  destruct enc; rewrite to_bits_of_bits; auto; unfold DES, DES_inv; now rewrite cipher_length.
Qed.
Lemma to_string blk : length blk = 8%nat -> Forall ubyte blk -> BitList_to_String (bz (to_bits blk)) = blk.
Proof.
  intros H Hu. rewrite (BitList_to_String_ok 8) by (now rewrite to_bits_length, H).
  rewrite <- H at 1. now apply of_bits_to_bits.
Qed.

Lemma low_bits_lxor n a b : low_bits n (Z.lxor a b) = xor (low_bits n a) (low_bits n b).
Proof.
  unfold low_bits. generalize (seq 0 n) as l. induction l as [|i l IH]; [reflexivity|].
  cbn [map xor]. now rewrite IH, Z.lxor_spec.
Qed.
Lemma xor_app a : forall b a' b', length a = length b -> xor (a ++ a') (b ++ b') = xor a b ++ xor a' b'.
Proof. induction a; intros [|y b] a' b' H; try discriminate; [reflexivity|]. cbn. now rewrite IHa by (cbn in H; lia). Qed.
Lemma to_bits_xor a : forall b, to_bits (xor_bytes a b) = xor (to_bits a) (to_bits b).
Proof.
  induction a as [|x a IH]; intros [|y b].
  - reflexivity.
  - reflexivity.
  - cbn [xor_bytes]. change (to_bits []) with (@nil bool). now destruct (to_bits (x :: a)).
  - cbn [xor_bytes].
    unfold to_bits. cbn [flat_map]. rewrite xor_app by (now rewrite !low_bits_length).
    rewrite low_bits_lxor. f_equal. apply IH.
Qed.
Lemma xor_bytes_length a : forall b, length a = length b -> length (xor_bytes a b) = length a.
Proof. induction a; intros [|y b] H; try discriminate; [reflexivity|]. cbn. now rewrite IHa by (cbn in H; lia). Qed.
Lemma lxor_ubyte a b : ubyte a -> ubyte b -> ubyte (Z.lxor a b).
Proof.
  intros [A1 A2] [B1 B2]. unfold ubyte. assert (0 <= Z.lxor a b) by (apply Z.lxor_nonneg; lia).
  split; [lia|]. destruct (Z.eq_dec (Z.lxor a b) 0) as [E|N]; [lia|].
  assert (Z.log2 (Z.lxor a b) < 8).
  { pose proof (Z.log2_lxor a b A1 B1) as Q.
    assert (Z.log2 a <= 7) by (apply Z.lt_succ_r; destruct (Z.eq_dec a 0) as [->|]; [cbn; lia|]; apply Z.log2_lt_pow2; [lia|change (2 ^ Z.succ 7) with 256; lia]).
    assert (Z.log2 b <= 7) by (apply Z.lt_succ_r; destruct (Z.eq_dec b 0) as [->|]; [cbn; lia|]; apply Z.log2_lt_pow2; [lia|change (2 ^ Z.succ 7) with 256; lia]).
    lia. }
  assert (Z.lxor a b < 2 ^ 8) by (apply Z.log2_lt_pow2; lia). change (2 ^ 8) with 256 in *. lia.
Qed.
Lemma xor_bytes_ubyte a : forall b, Forall ubyte a -> Forall ubyte b -> Forall ubyte (xor_bytes a b).
Proof.
  induction a as [|x a IH]; intros [|y b] Ha Hb; cbn; try constructor.
  - apply lxor_ubyte; [now inversion Ha|now inversion Hb].
  - apply IH; [now inversion Ha|now inversion Hb].
Qed.
Lemma xor_bytes_twice a : forall b, length a = length b -> xor_bytes (xor_bytes a b) b = a.
Proof.
  induction a as [|x a IH]; intros [|y b] H; try discriminate; [reflexivity|]. cbn in *.
  rewrite IH by lia. now rewrite Z.lxor_assoc, Z.lxor_nilpotent, Z.lxor_0_r.
Qed.

Definition blocks (bs : list block) : Prop := Forall (fun b => length b = 8%nat) bs.
Lemma concat_blocks_length bs : blocks bs -> length (concat bs) = (8 * length bs)%nat.
Proof. induction 1; [reflexivity|]. cbn [concat length]. rewrite app_length. lia. Qed.

Lemma slice_block pre (b : list Z) rest : length b = 8%nat ->
  py_slice (pre ++ b ++ rest) (zlen pre) (zlen pre + 8) = b.
Proof.
  intros H. pose proof (zlen_nonneg pre). pose proof (zlen_nonneg rest).
  rewrite py_slice_in by (rewrite ?zlen_app; unfold zlen in *; lia).
  replace (zlen pre + 8 - zlen pre) with 8 by lia. rewrite to_nat_zlen. unfold sub.
  rewrite skipn_app, skipn_all2, Nat.sub_diag by lia. cbn [app skipn]. change (Z.to_nat 8) with 8%nat.
  rewrite firstn_app, <- H, firstn_all, Nat.sub_diag. cbn. apply app_nil_r.
Qed.

Lemma loop_ecb key b (enc : bool) : b_mode b <> CBC -> forall bs pre fuel iv res s,
  wf key b s -> blocks bs -> (length bs < fuel)%nat ->
  exists s', crypt_loop fuel (pre ++ concat bs) (if enc then ENCRYPT else DECRYPT) (zlen pre) iv res s
    = (Ok (res ++ concat (map (F key enc) bs)), s') /\ wf key b s'.
Proof.
  intros Hm. induction bs as [|blk bs IH]; intros pre fuel iv res s W Hb Hf; (destruct fuel as [|fuel]; [cbn in Hf; lia|]).
  - exists s. cbn [concat map crypt_loop]. rewrite !app_nil_r, Z.ltb_irrefl. auto.
  - inversion Hb as [|? ? H1 H2]; subst. cbn [concat map crypt_loop].
    assert (Hlt : zlen pre <? zlen (pre ++ blk ++ concat bs) = true).
    { rewrite !zlen_app. pose proof (zlen_nonneg (concat bs)). unfold zlen at 3. lia. }
    rewrite Hlt, slice_block by exact H1. rewrite (bind_ok _ _ _ s s) by reflexivity.
    rewrite (proj1 W). replace (b_mode b =? CBC) with false by lia.
    rewrite String_to_BitList_ok. destruct (block_crypt key b s enc blk W H1) as (s1 & E & W1).
    rewrite (bind_ok _ _ _ _ _ E). rewrite F_bits, to_string by (apply F_length || apply F_ubyte).
    replace (zlen pre + 8) with (zlen (pre ++ blk)) by (rewrite zlen_app; unfold zlen at 2; lia).
    rewrite (app_assoc pre blk). destruct (IH (pre ++ blk) fuel iv (res ++ F key enc blk) s1 W1 H2) as (s2 & E2 & W2).
    { cbn in Hf. lia. }
    exists s2. split; [|exact W2]. rewrite E2, <- app_assoc. reflexivity.
Qed.

Lemma loop_cbc_enc key b : b_mode b = CBC -> forall bs pre fuel iv res s,
  wf key b s -> blocks bs -> (length bs < fuel)%nat -> length iv = 8%nat ->
  exists s', crypt_loop fuel (pre ++ concat bs) ENCRYPT (zlen pre) (bz (to_bits iv)) res s
    = (Ok (res ++ concat (cbc_enc (DES_bytes key) iv bs)), s') /\ wf key b s'.
Proof.
  intros Hm. induction bs as [|blk bs IH]; intros pre fuel iv res s W Hb Hf Hi; (destruct fuel as [|fuel]; [cbn in Hf; lia|]).
  - exists s. cbn [concat cbc_enc crypt_loop]. rewrite !app_nil_r, Z.ltb_irrefl. auto.
  - inversion Hb as [|? ? H1 H2]; subst. cbn [concat cbc_enc crypt_loop].
    assert (Hlt : zlen pre <? zlen (pre ++ blk ++ concat bs) = true).
    { rewrite !zlen_app. pose proof (zlen_nonneg (concat bs)). unfold zlen at 3. lia. }
    rewrite Hlt, slice_block by exact H1. rewrite (bind_ok _ _ _ s s) by reflexivity.
    rewrite (proj1 W), Hm. change (CBC =? CBC) with true. change (ENCRYPT =? ENCRYPT) with true.
    change (ENCRYPT =? DECRYPT) with false. cbv iota zeta.
    rewrite String_to_BitList_ok, xor_lists_ok, <- to_bits_xor.
    assert (Hx : length (xor_bytes blk iv) = 8%nat) by (rewrite xor_bytes_length; congruence).
    destruct (block_crypt key b s true (xor_bytes blk iv) W Hx) as (s1 & E & W1).
    rewrite (bind_ok _ _ _ _ _ E). cbv iota. pose proof (F_bits key true (xor_bytes blk iv)) as Q. cbv iota in Q. rewrite Q.
    rewrite to_string by (apply F_length || apply F_ubyte).
    replace (zlen pre + 8) with (zlen (pre ++ blk)) by (rewrite zlen_app; unfold zlen at 2; lia).
    rewrite (app_assoc pre blk).
    destruct (IH (pre ++ blk) fuel (F key true (xor_bytes blk iv)) (res ++ F key true (xor_bytes blk iv)) s1 W1 H2) as (s2 & E2 & W2).
    { cbn in Hf. lia. } { apply F_length. }
    exists s2. split; [|exact W2]. rewrite E2, <- app_assoc. reflexivity.
Qed.

Lemma loop_cbc_dec key b : b_mode b = CBC -> forall bs pre fuel iv res s,
  wf key b s -> blocks bs -> (length bs < fuel)%nat -> length iv = 8%nat -> Forall ubyte iv -> Forall (Forall ubyte) bs ->
  exists s', crypt_loop fuel (pre ++ concat bs) DECRYPT (zlen pre) (bz (to_bits iv)) res s
    = (Ok (res ++ concat (cbc_dec (DES_inv_bytes key) iv bs)), s') /\ wf key b s'.
Proof.
  intros Hm. induction bs as [|blk bs IH]; intros pre fuel iv res s W Hb Hf Hi Hiu Hu; (destruct fuel as [|fuel]; [cbn in Hf; lia|]).
  - exists s. cbn [concat cbc_dec crypt_loop]. rewrite !app_nil_r, Z.ltb_irrefl. auto.
  - inversion Hb as [|? ? H1 H2]; subst. inversion Hu as [|? ? U1 U2]; subst. cbn [concat cbc_dec crypt_loop].
    assert (Hlt : zlen pre <? zlen (pre ++ blk ++ concat bs) = true).
    { rewrite !zlen_app. pose proof (zlen_nonneg (concat bs)). unfold zlen at 3. lia. }
    rewrite Hlt, slice_block by exact H1. rewrite (bind_ok _ _ _ s s) by reflexivity.
    rewrite (proj1 W), Hm. change (CBC =? CBC) with true. change (DECRYPT =? ENCRYPT) with false.
    change (DECRYPT =? DECRYPT) with true. cbv iota zeta.
    rewrite String_to_BitList_ok.
    destruct (block_crypt key b s false blk W H1) as (s1 & E & W1). cbv iota in E.
    rewrite (bind_ok _ _ _ _ _ E). pose proof (F_bits key false blk) as Q. cbv iota in Q. rewrite Q.
    rewrite xor_lists_ok, <- to_bits_xor.
    rewrite to_string.
    2: { rewrite xor_bytes_length; [apply F_length|]. rewrite Hi. apply F_length. }
    2: { apply xor_bytes_ubyte; [apply F_ubyte|exact Hiu]. }
    replace (zlen pre + 8) with (zlen (pre ++ blk)) by (rewrite zlen_app; unfold zlen at 2; lia).
    rewrite (app_assoc pre blk).
    destruct (IH (pre ++ blk) fuel blk (res ++ xor_bytes (F key false blk) iv) s1 W1 H2) as (s2 & E2 & W2); auto.
    { cbn in Hf. lia. }
    exists s2. split; [|exact W2]. rewrite E2, <- app_assoc. reflexivity.
Qed.

(** the block function of a mode *)
Definition mode_enc (mode : Z) (key iv : list Z) (bs : list block) : list block :=
  if mode =? CBC then cbc_enc (DES_bytes key) iv bs else ecb (DES_bytes key) bs.
Definition mode_dec (mode : Z) (key iv : list Z) (bs : list block) : list block :=
  if mode =? CBC then cbc_dec (DES_inv_bytes key) iv bs else ecb (DES_inv_bytes key) bs.
Definition iv_ok (mode : Z) (iv : list Z) : Prop := mode = CBC -> length iv = 8%nat /\ Forall ubyte iv.

Lemma crypt_start key b s bs t : wf key b s -> blocks bs -> bs <> [] -> (b_mode b = CBC -> length (b_iv b) = 8%nat) ->
  crypt (concat bs) t s = crypt_loop (S (length (concat bs))) ([] ++ concat bs) t (zlen (@nil Z)) (bz (to_bits (b_iv b))) [] s.
Proof.
  intros W Hb Hn Hi. unfold crypt. pose proof (concat_blocks_length bs Hb) as Hl.
  assert (Hne : nonempty (concat bs) = true).
  { destruct bs; [congruence|]. destruct (concat (b0 :: bs)); [cbn in Hl; lia|reflexivity]. }
  rewrite Hne. cbn [negb]. rewrite (bind_ok _ _ _ s s) by reflexivity.
  replace (zlen (concat bs) mod 8 =? 0) with true by (unfold zlen; lia).
  rewrite (bind_ok _ _ _ (concat bs) s) by reflexivity. rewrite (proj1 W).
  replace ((b_mode b =? CBC) && negb (nonempty (b_iv b))) with false.
  2: { destruct (Z.eqb_spec (b_mode b) CBC) as [E|]; [|reflexivity]. specialize (Hi E). destruct (b_iv b); [discriminate|reflexivity]. }
  rewrite String_to_BitList_ok. reflexivity.
Qed.

Lemma crypt_enc key b s bs : wf key b s -> blocks bs -> (b_mode b = CBC -> length (b_iv b) = 8%nat) ->
  exists s', crypt (concat bs) ENCRYPT s = (Ok (concat (mode_enc (b_mode b) key (b_iv b) bs)), s') /\ wf key b s'.
Proof.
  intros W Hb Hi. destruct bs as [|b0 bs].
  - exists s. split; [|exact W]. unfold crypt, mode_enc. cbn. now destruct (b_mode b =? CBC).
  - remember (b0 :: bs) as l eqn:El. rewrite (crypt_start key b s l ENCRYPT W Hb ltac:(congruence) Hi).
    pose proof (concat_blocks_length l Hb) as Hl. unfold mode_enc.
    destruct (Z.eqb_spec (b_mode b) CBC) as [Em|Em].
    + destruct (loop_cbc_enc key b Em l [] (S (length (concat l))) (b_iv b) [] s W Hb) as (s' & E & W'); [lia|auto|].
      exists s'. split; [exact E|exact W'].
    + destruct (loop_ecb key b true Em l [] (S (length (concat l))) (bz (to_bits (b_iv b))) [] s W Hb) as (s' & E & W'); [lia|].
      exists s'. split; [exact E|exact W'].
Qed.

Lemma crypt_dec key b s bs : wf key b s -> blocks bs -> Forall (Forall ubyte) bs -> iv_ok (b_mode b) (b_iv b) ->
  exists s', crypt (concat bs) DECRYPT s = (Ok (concat (mode_dec (b_mode b) key (b_iv b) bs)), s') /\ wf key b s'.
Proof.
  intros W Hb Hu Hi. destruct bs as [|b0 bs].
  - exists s. split; [|exact W]. unfold crypt, mode_dec. cbn. now destruct (b_mode b =? CBC).
  - remember (b0 :: bs) as l eqn:El.
    rewrite (crypt_start key b s l DECRYPT W Hb ltac:(congruence)) by (intro E; apply (Hi E)).
    pose proof (concat_blocks_length l Hb) as Hl. unfold mode_dec.
    destruct (Z.eqb_spec (b_mode b) CBC) as [Em|Em].
    + destruct (Hi Em) as [Hi1 Hi2].
      destruct (loop_cbc_dec key b Em l [] (S (length (concat l))) (b_iv b) [] s W Hb) as (s' & E & W'); auto; [lia|].
      exists s'. split; [exact E|exact W'].
    + destruct (loop_ecb key b false Em l [] (S (length (concat l))) (bz (to_bits (b_iv b))) [] s W Hb) as (s' & E & W'); [lia|].
      exists s'. split; [exact E|exact W'].
Qed.

(** *** the Feistel network inverts itself *)
Lemma rounds_app ks : forall ks' L R, rounds (ks ++ ks') L R = (let '(L1, R1) := rounds ks L R in rounds ks' L1 R1).
Proof. induction ks; intros; cbn [rounds app]; auto. Qed.

Lemma rounds_rev ks : forall L R, length L = 32%nat -> length R = 32%nat ->
  let '(L', R') := rounds ks L R in rounds (rev ks) R' L' = (R, L).
Proof.
  induction ks as [|K ks IH]; intros L R HL HR; [reflexivity|]. cbn [rounds rev].
  specialize (IH R (xor L (f R K)) HR ltac:(rewrite xor_length, f_length; lia)).
  destruct (rounds ks R (xor L (f R K))) as [L' R']. rewrite rounds_app, IH. cbn [rounds].
  f_equal. apply xor_xor. now rewrite f_length.
Qed.

Lemma select_select t u b : forallb (fun i => (1 <=? i) && (i <=? length u))%nat t = true ->
  select t (select u b) = select (map (fun i => nth (i - 1) u O) t) b.
Proof.
  intros H. unfold select at 1 3. rewrite map_map. apply map_ext_in. intros i Hi.
  rewrite forallb_forall in H. specialize (H i Hi).
  assert (Hr : (i - 1 < length u)%nat) by lia.
  unfold select. set (g := fun i => nth (i - 1) b false).
  rewrite (nth_indep _ false (g O)) by (rewrite map_length; lia). rewrite map_nth. reflexivity.
Qed.

Lemma select_id b : select (seq 1 (length b)) b = b.
Proof.
  unfold select. rewrite <- seq_shift, map_map.
  rewrite (map_ext _ (fun i => nth i b false)) by (intro; cbn; now rewrite Nat.sub_0_r).
  induction b as [|x b IH]; [reflexivity|]. cbn [length seq map nth]. f_equal.
  rewrite <- seq_shift, map_map. exact IH.
Qed.

Lemma IP_IPinv b : length b = 64%nat -> select IP (select IP_inv b) = b.
Proof. intros H. rewrite select_select by reflexivity. rewrite <- (select_id b) at 2. rewrite H. reflexivity. Qed.
Lemma IPinv_IP b : length b = 64%nat -> select IP_inv (select IP b) = b.
Proof. intros H. rewrite select_select by reflexivity. rewrite <- (select_id b) at 2. rewrite H. reflexivity. Qed.

Lemma cipher_rev ks b : length b = 64%nat -> cipher (rev ks) (cipher ks b) = b.
Proof.
  intros H. unfold cipher at 2. set (b' := select IP b).
  assert (Hb' : length b' = 64%nat) by (unfold b'; now rewrite select_length).
  pose proof (rounds_rev ks (firstn 32 b') (skipn 32 b')) as Q.
  destruct (rounds ks (firstn 32 b') (skipn 32 b')) as [L R] eqn:ER.
  assert (HLR : length L = 32%nat /\ length R = 32%nat).
  { eapply rounds_length; [exact ER| |]; [rewrite firstn_length|rewrite skipn_length]; lia. }
  destruct HLR as [HL HR].
  specialize (Q ltac:(rewrite firstn_length; lia) ltac:(rewrite skipn_length; lia)).
  unfold cipher. rewrite IP_IPinv by (rewrite app_length; lia).
  rewrite firstn_app, skipn_app, HR, Nat.sub_diag, firstn_O, skipn_O, app_nil_r.
  rewrite firstn_all2, skipn_all2 by lia. cbn [app]. rewrite Q. rewrite firstn_skipn. unfold b'. now apply IPinv_IP.
Qed.

Lemma DES_bytes_inv key blk : length blk = 8%nat -> Forall ubyte blk ->
  DES_inv_bytes key (DES_bytes key blk) = blk /\ DES_bytes key (DES_inv_bytes key blk) = blk.
Proof.
  intros H Hu. unfold DES_inv_bytes, DES_bytes, DES, DES_inv.
  assert (H64 : length (to_bits blk) = 64%nat) by (now rewrite to_bits_length, H).
  rewrite !to_bits_of_bits by (now rewrite cipher_length).
  rewrite cipher_rev by exact H64.
  pose proof (cipher_rev (rev (schedule (to_bits key))) (to_bits blk) H64) as Q. rewrite rev_involutive in Q. rewrite Q.
  assert (G : of_bits 8 (to_bits blk) = blk) by (rewrite <- H at 1; now apply of_bits_to_bits).
  split; exact G.
Qed.

Lemma single_enc key iv blk : concat (mode_enc ECB key iv [blk]) = F key true blk.
Proof. unfold mode_enc. change (ECB =? CBC) with false. cbv iota. unfold ecb. cbn [map concat]. apply app_nil_r. Qed.
Lemma single_dec key iv blk : concat (mode_dec ECB key iv [blk]) = F key false blk.
Proof. unfold mode_dec. change (ECB =? CBC) with false. cbv iota. unfold ecb. cbn [map concat]. apply app_nil_r. Qed.

Lemma C53_fips_pf : forall key iv pad padmode d blk, des_reach key ECB iv pad padmode d -> length blk = 8%nat ->
  Forall ubyte blk ->
  fst (des_encrypt blk [] (Some PAD_NORMAL) d) = Ok (DES_bytes key blk)
  /\ fst (crypt blk DECRYPT d) = Ok (DES_inv_bytes key blk).
Proof.
  intros key iv pad padmode d blk Hr Hb Hu. apply reach_wf in Hr as (W & _).
  assert (Hbs : blocks [blk]) by (repeat constructor; auto).
  split.
  - unfold des_encrypt. rewrite (bind_ok _ _ _ d d) by reflexivity.
    unfold padData. rewrite andb_false_r by reflexivity. change (PAD_NORMAL =? PAD_NORMAL) with true. cbv iota.
    replace (zlen blk mod 8 =? 0) with true by (unfold zlen; rewrite Hb; reflexivity).
    rewrite (bind_ok _ _ _ blk d) by reflexivity.
    destruct (crypt_enc key _ d [blk] W Hbs) as (s' & E & _); [discriminate|].
    cbn [concat] in E. rewrite app_nil_r in E. rewrite E. cbn [fst b_mode b_iv]. now rewrite single_enc.
  - destruct (crypt_dec key _ d [blk] W Hbs) as (s' & E & _); [auto|discriminate|].
    cbn [concat] in E. rewrite app_nil_r in E. rewrite E. cbn [fst b_mode b_iv]. now rewrite single_dec.
Qed.

Lemma C53_constructible_pf : forall key mode iv pad padmode,
  (exists d, des_reach key mode iv pad padmode d)
  <-> length key = 8%nat /\ (iv = [] \/ length iv = 8%nat) /\ (pad = [] \/ padmode <> PAD_PKCS5).
Proof.
  intros key mode iv pad padmode. split.
  - intros [d Hr]. now apply reach_wf in Hr as (_ & H).
  - intros (H1 & H2 & H3). destruct (des_new_exists key mode iv pad padmode H1 H2 H3) as [d E].
    exists d, d, []. auto.
Qed.

Lemma C52_inverse_pf : forall key iv pad padmode d blk, des_reach key ECB iv pad padmode d -> length blk = 8%nat ->
  Forall ubyte blk ->
  (exists c d1, crypt blk ENCRYPT d = (Ok c, d1) /\ length c = 8%nat /\ Forall ubyte c /\ fst (crypt c DECRYPT d1) = Ok blk)
  /\ (exists p d1, crypt blk DECRYPT d = (Ok p, d1) /\ length p = 8%nat /\ Forall ubyte p /\ fst (crypt p ENCRYPT d1) = Ok blk).
Proof.
  intros key iv pad padmode d blk Hr Hb Hu. apply reach_wf in Hr as (W & _).
  assert (G : forall (e : bool) s x, wf key (mkBase ECB iv pad padmode key) s -> length x = 8%nat -> Forall ubyte x ->
    exists s', crypt x (if e then ENCRYPT else DECRYPT) s = (Ok (F key e x), s') /\ wf key (mkBase ECB iv pad padmode key) s').
  { intros e s x Ws Hx Hxu. assert (Hbs : blocks [x]) by (repeat constructor; auto). destruct e.
    - destruct (crypt_enc key _ s [x] Ws Hbs) as (s' & E & W'); [discriminate|].
      exists s'. split; [|exact W']. cbn [concat] in E. rewrite app_nil_r in E. rewrite E. cbn [fst b_mode b_iv]. now rewrite single_enc.
    - destruct (crypt_dec key _ s [x] Ws Hbs) as (s' & E & W'); [auto|discriminate|].
      exists s'. split; [|exact W']. cbn [concat] in E. rewrite app_nil_r in E. rewrite E. cbn [fst b_mode b_iv]. now rewrite single_dec. }
  destruct (DES_bytes_inv key blk Hb Hu) as [I1 I2]. split.
  - destruct (G true d blk W Hb Hu) as (s1 & E1 & W1). exists (F key true blk), s1. split; [exact E1|].
    split; [apply F_length|]. split; [apply F_ubyte|].
    destruct (G false s1 (F key true blk) W1 (F_length _ _ _) (F_ubyte _ _ _)) as (s2 & E2 & _).
    cbv iota in E2. rewrite E2. cbn [fst F]. now rewrite I1.
  - destruct (G false d blk W Hb Hu) as (s1 & E1 & W1). exists (F key false blk), s1. split; [exact E1|].
    split; [apply F_length|]. split; [apply F_ubyte|].
    destruct (G true s1 (F key false blk) W1 (F_length _ _ _) (F_ubyte _ _ _)) as (s2 & E2 & _).
    cbv iota in E2. rewrite E2. cbn [fst F]. now rewrite I2.
Qed.

(** *** parity *)
Lemma low_bits_parity a b : a / 2 = b / 2 -> removelast (low_bits 8 a) = removelast (low_bits 8 b).
Proof.
  intros H. unfold low_bits. cbn [seq map removelast Nat.sub].
  assert (G : forall j, (1 <= j)%nat -> Z.testbit a (Z.of_nat j) = Z.testbit b (Z.of_nat j)).
  { intros j Hj. replace (Z.of_nat j) with (Z.succ (Z.of_nat (j - 1))) by lia.
    rewrite <- !Z.div2_bits by lia. now rewrite H. }
  rewrite !G by lia. reflexivity.
Qed.

Lemma nth_to_bits l : forall k j, (j < 8)%nat -> (k < length l)%nat ->
  nth (8 * k + j) (to_bits l) false = nth j (low_bits 8 (nth k l 0)) false.
Proof.
  induction l as [|x l IH]; intros k j Hj Hk; [cbn in Hk; lia|].
  change (to_bits (x :: l)) with (low_bits 8 x ++ to_bits l). destruct k as [|k].
  - rewrite app_nth1 by (rewrite low_bits_length; lia). reflexivity.
  - rewrite app_nth2 by (rewrite low_bits_length; lia). rewrite low_bits_length.
    replace (8 * S k + j - 8)%nat with (8 * k + j)%nat by lia. cbn [nth]. apply IH; [lia|cbn in Hk; lia].
Qed.

Lemma select_parity t key key' : length key = 8%nat -> Forall2 (fun a b => a / 2 = b / 2) key key' ->
  forallb (fun i => (1 <=? i) && (i <=? 64) && negb (i mod 8 =? 0))%nat t = true ->
  select t (to_bits key) = select t (to_bits key').
Proof.
  intros Hl Hf Ht. unfold select. apply map_ext_in. intros i Hi.
  rewrite forallb_forall in Ht. specialize (Ht i Hi).
  assert (Hl' : length key' = 8%nat) by (rewrite <- Hl; clear -Hf; induction Hf; cbn; congruence).
  assert (Hi' : (1 <= i <= 64 /\ i mod 8 <> 0)%nat) by lia.
  replace (i - 1)%nat with (8 * ((i - 1) / 8) + (i - 1) mod 8)%nat by lia.
  rewrite !nth_to_bits by lia.
  assert (Hn : nth ((i - 1) / 8) key 0 / 2 = nth ((i - 1) / 8) key' 0 / 2).
  { revert Hf. generalize ((i - 1) / 8)%nat as k. clear. intros k Hf. revert k.
    induction Hf; intros [|k]; cbn; auto. }
  apply low_bits_parity in Hn. set (j := ((i - 1) mod 8)%nat). assert (Hj : (j < 7)%nat) by (unfold j; lia).
  assert (G : forall v, nth j (low_bits 8 v) false = nth j (removelast (low_bits 8 v)) false).
  { intros v. unfold low_bits. cbn [seq map removelast Nat.sub].
    destruct j as [|[|[|[|[|[|[|j]]]]]]]; try reflexivity. lia. }
  now rewrite !G, Hn.
Qed.

Lemma bind_get {S A} (k : S -> M S A) s : bind get k s = k s s. Proof. reflexivity. Qed.
Lemma bind_set_LR {A} L R (k : unit -> M des A) s :
  bind (set_LR L R) k s = k tt (mkDes (d_base s) L R (d_Kn s) (d_final s)). Proof. reflexivity. Qed.

Lemma bind_lift_fst {S A B} (r : res A) (k : A -> M S B) s s' :
  (forall a, fst (k a s) = fst (k a s')) -> fst (bind (lift r) k s) = fst (bind (lift r) k s').
Proof. intros H. unfold bind, lift. destruct r; [apply H|reflexivity]. Qed.

(** *** results depend on the configuration only *)
Definition sim (s s' : des) : Prop :=
  d_Kn s = d_Kn s' /\ b_mode (d_base s) = b_mode (d_base s') /\ b_pad (d_base s) = b_pad (d_base s')
  /\ b_padmode (d_base s) = b_padmode (d_base s')
  /\ (b_mode (d_base s) = CBC -> b_iv (d_base s) = b_iv (d_base s')).
Lemma sim_cfg s s' t t' : sim s s' -> cfg s t -> cfg s' t' -> sim t t'.
Proof. intros (A & B & C & D & E) [P1 P2] [Q1 Q2]. unfold sim. rewrite <- P1, <- P2, <- Q1, <- Q2. auto. Qed.

Definition sameLR (s s' : des) : Prop := d_Kn s = d_Kn s' /\ d_L s = d_L s' /\ d_R s = d_R s'.
Definition indepLR {A} (m : M des A) : Prop :=
  forall s s', sameLR s s' -> fst (m s) = fst (m s') /\ sameLR (snd (m s)) (snd (m s')).
Lemma indepLR_bind {A B} (m : M des A) (k : A -> M des B) : indepLR m -> (forall a, indepLR (k a)) -> indepLR (bind m k).
Proof.
  intros Hm Hk s s' H. unfold bind. destruct (Hm s s' H) as [E1 E2].
  destruct (m s) as [[a|e] s1], (m s') as [[a'|e'] s1']; cbn [fst snd] in *; try discriminate.
  - injection E1 as ->. now apply Hk.
  - split; [congruence|exact E2].
Qed.
Lemma indepLR_lift {A} (r : res A) : indepLR (lift r). Proof. intros s s' H; split; auto. Qed.
Lemma indepLR_ret {A} (a : A) : indepLR (ret a). Proof. intros s s' H; split; auto. Qed.
Lemma indepLR_set_final f : indepLR (set_final f). Proof. intros s s' H; split; auto. Qed.
Lemma indepLR_set_LR L R : indepLR (set_LR L R). Proof. intros s s' (A & B & C); split; [reflexivity|]. repeat split; exact A. Qed.
Lemma indepLR_for n : forall i body, (forall i, indepLR (body i)) -> indepLR (for_loop n i body).
Proof. induction n; intros i body H; cbn [for_loop]; [apply indepLR_ret|]. apply indepLR_bind; auto. Qed.
Lemma indepLR_round it : indepLR (des_round it).
Proof.
  intros s s' H. unfold des_round. rewrite !bind_get. destruct H as (A & B & C).
  rewrite <- A, <- B, <- C. cbv zeta.
  assert (H : sameLR s s') by (repeat split; assumption). revert s s' A B C H.
  intros s s' A B C H. set (R := d_R s) in *. set (L := d_L s) in *. set (Kn := d_Kn s) in *. clearbody R L Kn.
  revert H. apply (fun (Q : indepLR _) => Q s s').
  repeat (apply indepLR_bind; [apply indepLR_lift|intro]). apply indepLR_set_LR.
Qed.
Lemma des_crypt_indep b t s s' : d_Kn s = d_Kn s' -> fst (des_crypt b t s) = fst (des_crypt b t s').
Proof.
  intros HK. unfold des_crypt. apply bind_lift_fst. intros blk. rewrite !bind_set_LR.
  set (s1 := mkDes (d_base s) _ _ _ _). set (s1' := mkDes (d_base s') _ _ _ _).
  assert (H : sameLR s1 s1') by (repeat split; assumption). clearbody s1 s1'.
  destruct (indepLR_for (Z.to_nat (16 - 0)) 0 (fun i => des_round (if t =? ENCRYPT then i else 15 - i))
             (fun i => indepLR_round _) s1 s1' H) as [E1 E2].
  unfold for_range. set (m := for_loop _ _ _) in *. clearbody m.
  set (k := fun _ : unit => _). assert (Hk : forall u s s', sameLR s s' -> fst (k u s) = fst (k u s')).
  { intros u q q' (P & Q & R). unfold k. rewrite !bind_get. rewrite Q, R. apply bind_lift_fst. reflexivity. }
  clearbody k. unfold bind. destruct (m s1) as [[u|e] s2], (m s1') as [[u'|e'] s2']; cbn [fst snd] in *; try discriminate; [|congruence].
  replace u' with u by congruence. now apply Hk.
Qed.
Lemma crypt_loop_indep fuel : forall data t i iv res s s', sim s s' ->
  fst (crypt_loop fuel data t i iv res s) = fst (crypt_loop fuel data t i iv res s').
Proof.
  induction fuel as [|fuel IH]; intros data t i iv res s s' H; [reflexivity|]. cbn [crypt_loop].
  destruct (i <? zlen data); [|reflexivity]. cbv zeta. rewrite !bind_get.
  destruct H as (HK & Hm & H). rewrite <- Hm.
  assert (Hs : sim s s') by (split; [exact HK|]; split; [exact Hm|exact H]).
  assert (G : forall blk (k : list Z -> M des (list Z)), (forall a s s', sim s s' -> fst (k a s) = fst (k a s')) ->
    fst (bind (des_crypt blk t) k s) = fst (bind (des_crypt blk t) k s')).
  { intros blk k Hk. unfold bind. pose proof (des_crypt_indep blk t s s' HK) as E.
    pose proof (keeps_des_crypt blk t s) as K1. pose proof (keeps_des_crypt blk t s') as K2.
    destruct (des_crypt blk t s) as [[a|e] s1], (des_crypt blk t s') as [[a'|e'] s1']; cbn [fst snd] in *; try discriminate; [|congruence].
    injection E as ->. apply Hk. eapply sim_cfg; eauto. }
  destruct (b_mode (d_base s) =? CBC); apply G; intros; apply IH; assumption.
Qed.
Lemma crypt_loop_iv fuel : forall data t i iv iv' res s, b_mode (d_base s) <> CBC ->
  crypt_loop fuel data t i iv res s = crypt_loop fuel data t i iv' res s.
Proof.
  induction fuel as [|fuel IH]; intros data t i iv iv' res s H; [reflexivity|]. cbn [crypt_loop].
  destruct (i <? zlen data); [|reflexivity]. cbv zeta. rewrite !bind_get.
  replace (b_mode (d_base s) =? CBC) with false by lia. unfold bind.
  pose proof (keeps_des_crypt (String_to_BitList (py_slice data i (i + 8))) t s) as [K1 _].
  destruct (des_crypt _ t s) as [[a|e] s1]; cbn [snd] in *; [|reflexivity]. apply IH. now rewrite <- K1.
Qed.
Lemma crypt_indep data t s s' : sim s s' -> fst (crypt data t s) = fst (crypt data t s').
Proof.
  intros H. unfold crypt. destruct (negb (nonempty data)); [reflexivity|].
  rewrite !bind_get. pose proof H as (HK & Hm & Hp & Hpm & Hi). rewrite <- Hm, <- Hp.
  assert (G : forall (r : res (list Z)) (k k' : list Z -> M des (list Z)), (forall a, fst (k a s) = fst (k' a s')) ->
    fst (bind (lift r) k s) = fst (bind (lift r) k' s')).
  { intros [a|e] k k' Hk; [exact (Hk a)|reflexivity]. }
  assert (G2 : forall data0,
     fst ((if (b_mode (d_base s) =? CBC) && negb (nonempty (b_iv (d_base s))) then raise ValueError
       else crypt_loop (S (length data0)) data0 t 0 (String_to_BitList (b_iv (d_base s))) []) s)
   = fst ((if (b_mode (d_base s) =? CBC) && negb (nonempty (b_iv (d_base s'))) then raise ValueError
       else crypt_loop (S (length data0)) data0 t 0 (String_to_BitList (b_iv (d_base s'))) []) s')).
  { intros d0. destruct (Z.eqb_spec (b_mode (d_base s)) CBC) as [E|E]; cbn [andb].
    - rewrite <- (Hi E). destruct (negb _); [reflexivity|]. now apply crypt_loop_indep.
    - rewrite (crypt_loop_iv _ _ _ _ (String_to_BitList (b_iv (d_base s'))) (String_to_BitList (b_iv (d_base s)))) by congruence.
      now apply crypt_loop_indep. }
  destruct (_ =? 0); [exact (G (Ok _) _ _ G2)|]. destruct (t =? DECRYPT); [exact (G (Err _) _ _ G2)|].
  destruct (negb (nonempty (b_pad (d_base s)))); [exact (G (Err _) _ _ G2)|exact (G (Ok _) _ _ G2)].
Qed.
Lemma padData_sim b b' data pad pm : b_pad b = b_pad b' -> b_padmode b = b_padmode b' -> padData b data pad pm = padData b' data pad pm.
Proof. intros H1 H2. unfold padData. now rewrite H1, H2. Qed.
Lemma unpadData_sim b b' data pad pm : b_pad b = b_pad b' -> b_padmode b = b_padmode b' -> unpadData b data pad pm = unpadData b' data pad pm.
Proof. intros H1 H2. unfold unpadData. now rewrite H1, H2. Qed.
Lemma des_encrypt_indep data pad pm s s' : sim s s' -> fst (des_encrypt data pad pm s) = fst (des_encrypt data pad pm s').
Proof.
  intros H. unfold des_encrypt. rewrite !bind_get. pose proof H as (HK & Hm & Hp & Hpm & Hi).
  rewrite (padData_sim (d_base s) (d_base s')) by assumption. unfold bind, lift.
  destruct (padData _ _ _ _); [|reflexivity]. now apply crypt_indep.
Qed.
Lemma des_decrypt_indep data pad pm s s' : sim s s' -> fst (des_decrypt data pad pm s) = fst (des_decrypt data pad pm s').
Proof.
  intros H. unfold des_decrypt. unfold bind at 1 3. pose proof (crypt_indep data DECRYPT s s' H) as E.
  pose proof (keeps_crypt data DECRYPT s) as K1. pose proof (keeps_crypt data DECRYPT s') as K2.
  destruct (crypt data DECRYPT s) as [[a|e] s1], (crypt data DECRYPT s') as [[a'|e'] s1']; cbn [fst snd] in *; try discriminate; [|congruence].
  injection E as ->. rewrite !bind_get. cbn [fst lift].
  destruct (sim_cfg _ _ _ _ H K1 K2) as (_ & _ & Hp & Hpm & _). now apply unpadData_sim.
Qed.

Lemma C54_parity_pf : forall key key' mode iv pad padmode d d' data p pm,
  des_reach key mode iv pad padmode d -> des_reach key' mode iv pad padmode d' ->
  Forall2 (fun a b => a / 2 = b / 2) key key' ->
  fst (des_encrypt data p pm d) = fst (des_encrypt data p pm d')
  /\ fst (des_decrypt data p pm d) = fst (des_decrypt data p pm d').
Proof.
  intros key key' mode iv pad padmode d d' data p pm H1 H2 Hf.
  apply reach_wf in H1 as ((B1 & W1) & K1 & _). apply reach_wf in H2 as ((B2 & W2) & K2 & _).
  assert (HS : schedule (to_bits key) = schedule (to_bits key')).
  { unfold schedule. rewrite (select_parity PC1_C key key'), (select_parity PC1_D key key'); auto. }
  assert (H : sim d d').
  { unfold sim. rewrite W1, W2, B1, B2, HS. cbn [b_mode b_pad b_padmode b_iv]. repeat split. }
  split; [now apply des_encrypt_indep|now apply des_decrypt_indep].
Qed.

Lemma C57_ecb_cbc_pf : forall key iv pad padmode d bs, Forall (fun b => length b = 8%nat) bs -> Forall (Forall ubyte) bs ->
  (des_reach key ECB iv pad padmode d ->
     fst (des_encrypt (concat bs) [] (Some PAD_NORMAL) d) = Ok (concat (ecb (DES_bytes key) bs))
     /\ fst (crypt (concat bs) DECRYPT d) = Ok (concat (ecb (DES_inv_bytes key) bs)))
  /\ (des_reach key CBC iv pad padmode d -> iv <> [] -> Forall ubyte iv ->
     fst (des_encrypt (concat bs) [] (Some PAD_NORMAL) d) = Ok (concat (cbc_enc (DES_bytes key) iv bs))
     /\ fst (crypt (concat bs) DECRYPT d) = Ok (concat (cbc_dec (DES_inv_bytes key) iv bs))).
Proof.
  intros key iv pad padmode d bs Hb Hu.
  assert (HE : forall b s c, d_base s = b -> fst (crypt (concat bs) ENCRYPT s) = c ->
    fst (des_encrypt (concat bs) [] (Some PAD_NORMAL) s) = c).
  { intros b s c _ E. unfold des_encrypt. rewrite (bind_ok _ _ _ s s) by reflexivity. unfold padData. cbn [nonempty andb].
    change (PAD_NORMAL =? PAD_NORMAL) with true. cbv iota.
    replace (zlen (concat bs) mod 8 =? 0) with true by (unfold zlen; rewrite concat_blocks_length by exact Hb; lia).
    rewrite (bind_ok _ _ _ (concat bs) s) by reflexivity. exact E. }
  split; intros Hr.
  - apply reach_wf in Hr as (W & _). split.
    + apply (HE _ _ _ eq_refl). destruct (crypt_enc key _ d bs W Hb) as (s' & E & _); [discriminate|]. now rewrite E.
    + destruct (crypt_dec key _ d bs W Hb Hu) as (s' & E & _); [discriminate|]. now rewrite E.
  - apply reach_wf in Hr as (W & _ & Hi & _). intros Hn Hiu. destruct Hi as [Hi|Hi]; [congruence|]. split.
    + apply (HE _ _ _ eq_refl). destruct (crypt_enc key _ d bs W Hb) as (s' & E & _); [auto|]. now rewrite E.
    + destruct (crypt_dec key _ d bs W Hb Hu) as (s' & E & _); [intro; auto|]. now rewrite E.
Qed.

Lemma C57_history_pf : forall key mode iv pad padmode d0 d data p pm,
  des_new key mode iv pad padmode = Ok d0 -> des_reach key mode iv pad padmode d ->
  fst (des_encrypt data p pm d) = fst (des_encrypt data p pm d0)
  /\ fst (des_decrypt data p pm d) = fst (des_decrypt data p pm d0).
Proof.
  intros key mode iv pad padmode d0 d data p pm E Hr. apply reach_wf in Hr as ((B1 & W1) & _).
  apply des_new_wf in E as ((B0 & W0) & _).
  assert (H : sim d d0).
  { unfold sim. rewrite W1, W0, B1, B0. cbn [b_mode b_pad b_padmode b_iv]. repeat split. }
  split; [now apply des_encrypt_indep|now apply des_decrypt_indep].
Qed.

(** *** round trips *)
Lemma split_blocks n : forall data, length data = (8 * n)%nat -> Forall ubyte data ->
  exists bs, data = concat bs /\ blocks bs /\ Forall (Forall ubyte) bs /\ length bs = n.
Proof.
  induction n as [|n IH]; intros data H Hu.
  - exists []. destruct data; [|discriminate]. repeat split; constructor.
  - destruct (IH (skipn 8 data)) as (bs & E & Hb & Hbu & Hl).
    { rewrite skipn_length. lia. } { rewrite <- (firstn_skipn 8 data) in Hu. now apply Forall_app in Hu. }
    exists (firstn 8 data :: bs). cbn [concat]. rewrite <- E, firstn_skipn. split; [reflexivity|].
    split; [constructor; [rewrite firstn_length; lia|exact Hb]|]. split; [|cbn; lia].
    constructor; [|exact Hbu]. rewrite <- (firstn_skipn 8 data) in Hu. now apply Forall_app in Hu.
Qed.

Lemma cbc_inv (E D : block -> block) : (forall b, length b = 8%nat -> Forall ubyte b -> D (E b) = b) ->
  (forall b, length (E b) = 8%nat /\ Forall ubyte (E b)) -> forall bs iv, blocks bs -> Forall (Forall ubyte) bs ->
  length iv = 8%nat -> Forall ubyte iv -> cbc_dec D iv (cbc_enc E iv bs) = bs.
Proof.
  intros HED HE. induction bs as [|b bs IH]; intros iv Hb Hu Hi Hiu; [reflexivity|].
  inversion Hb; subst. inversion Hu; subst. cbn [cbc_enc cbc_dec]. rewrite HED.
  - rewrite xor_bytes_twice by congruence. f_equal. apply IH; auto; apply HE.
  - rewrite xor_bytes_length; congruence.
  - apply xor_bytes_ubyte; auto.
Qed.
Lemma cbc_enc_blocks (E : block -> block) : (forall b, length (E b) = 8%nat /\ Forall ubyte (E b)) -> forall bs iv,
  blocks (cbc_enc E iv bs) /\ Forall (Forall ubyte) (cbc_enc E iv bs) /\ length (cbc_enc E iv bs) = length bs.
Proof.
  intros HE. induction bs as [|b bs IH]; intros iv; [repeat split; constructor|]. cbn [cbc_enc].
  destruct (IH (E (xor_bytes b iv))) as (A & B & C). repeat split; try constructor; auto; try apply HE. cbn; lia.
Qed.
Lemma ecb_blocks (E : block -> block) : (forall b, length (E b) = 8%nat /\ Forall ubyte (E b)) -> forall bs,
  blocks (ecb E bs) /\ Forall (Forall ubyte) (ecb E bs) /\ length (ecb E bs) = length bs.
Proof.
  intros HE. induction bs as [|b bs IH]; [repeat split; constructor|]. destruct IH as (A & B & C).
  unfold ecb in *. cbn [map]. repeat split; try constructor; auto; try apply HE. cbn; lia.
Qed.
Lemma ecb_inv (E D : block -> block) : (forall b, length b = 8%nat -> Forall ubyte b -> D (E b) = b) ->
  forall bs, blocks bs -> Forall (Forall ubyte) bs -> ecb D (ecb E bs) = bs.
Proof.
  intros H. induction bs as [|b bs IH]; intros Hb Hu; [reflexivity|]. inversion Hb; inversion Hu; subst.
  unfold ecb in *. cbn [map]. rewrite H, IH; auto.
Qed.
Lemma DES_blockP key b : length (DES_bytes key b) = 8%nat /\ Forall ubyte (DES_bytes key b).
Proof. split; [apply (F_length key true)|apply (F_ubyte key true)]. Qed.
Lemma DES_inv_blockP key b : length (DES_inv_bytes key b) = 8%nat /\ Forall ubyte (DES_inv_bytes key b).
Proof. split; [apply (F_length key false)|apply (F_ubyte key false)]. Qed.
Lemma mode_inv mode key iv bs : blocks bs -> Forall (Forall ubyte) bs -> iv_ok mode iv ->
  mode_dec mode key iv (mode_enc mode key iv bs) = bs.
Proof.
  intros Hb Hu Hi. unfold mode_dec, mode_enc. destruct (Z.eqb_spec mode CBC) as [E|E].
  - destruct (Hi E). apply cbc_inv; auto using DES_blockP. intros x Hx1 Hx2. exact (proj1 (DES_bytes_inv key x Hx1 Hx2)).
  - apply ecb_inv; auto. intros x Hx1 Hx2. exact (proj1 (DES_bytes_inv key x Hx1 Hx2)).
Qed.
Lemma mode_enc_blocks mode key iv bs :
  blocks (mode_enc mode key iv bs) /\ Forall (Forall ubyte) (mode_enc mode key iv bs) /\ length (mode_enc mode key iv bs) = length bs.
Proof.
  unfold mode_enc. destruct (mode =? CBC); [apply cbc_enc_blocks|apply ecb_blocks]; apply DES_blockP.
Qed.

(** encrypting then decrypting aligned data *)
Lemma crypt_crypt key b s m : wf key b s -> (length m mod 8 = 0)%nat -> Forall ubyte m -> iv_ok (b_mode b) (b_iv b) ->
  exists c s1 s2, crypt m ENCRYPT s = (Ok c, s1) /\ crypt c DECRYPT s1 = (Ok m, s2) /\ length c = length m
    /\ Forall ubyte c /\ wf key b s1 /\ wf key b s2.
Proof.
  intros W Hm Hu Hi. destruct (split_blocks (length m / 8) m) as (bs & -> & Hb & Hbu & _); [lia|exact Hu|].
  destruct (crypt_enc key b s bs W Hb) as (s1 & E1 & W1); [intro E; apply (Hi E)|].
  destruct (mode_enc_blocks (b_mode b) key (b_iv b) bs) as (C1 & C2 & C3).
  destruct (crypt_dec key b s1 _ W1 C1 C2 Hi) as (s2 & E2 & W2).
  rewrite mode_inv in E2 by assumption. eexists _, s1, s2. split; [exact E1|]. split; [exact E2|].
  split; [rewrite !concat_blocks_length by assumption; lia|]. split; [|auto].
  clear -C2. induction C2; [constructor|]. cbn [concat]. apply Forall_app. auto.
Qed.

Lemma pkcs5_unpad m b pad : b_padmode b = PAD_PKCS5 -> pad = [] ->
  unpadData b (m ++ py_repeat (8 - zlen m mod 8) (8 - zlen m mod 8)) pad None = Ok m.
Proof.
  intros Hb ->. unfold unpadData. set (n := 8 - zlen m mod 8). assert (Hn : 1 <= n <= 8) by (unfold n; lia).
  assert (HR : py_repeat n n = repeat n (Z.to_nat n)) by reflexivity.
  assert (Hl : zlen (m ++ py_repeat n n) = zlen m + n).
  { rewrite zlen_app, HR. unfold zlen at 2. rewrite repeat_length. lia. }
  assert (Hne : nonempty (m ++ py_repeat n n) = true).
  { destruct (m ++ py_repeat n n); [|reflexivity]. pose proof (zlen_nonneg m). change (zlen []) with 0 in Hl. lia. }
  rewrite Hne. cbn [negb nonempty andb]. rewrite Hb. change (PAD_PKCS5 =? PAD_NORMAL) with false.
  change (PAD_PKCS5 =? PAD_PKCS5) with true. cbv iota.
  assert (HG : py_get (m ++ py_repeat n n) (-1) = Ok n).
  { unfold py_get, py_index. pose proof (zlen_nonneg m). rewrite Hl.
    replace ((0 <=? -1) && (-1 <? zlen m + n)) with false by lia.
    replace ((- (zlen m + n) <=? -1) && (-1 <? 0)) with true by lia.
    rewrite nth_error_app2 by (unfold zlen in *; lia). rewrite HR.
    rewrite (nth_error_nth' _ n) by (rewrite repeat_length; unfold zlen in *; lia). now rewrite nth_repeat. }
  rewrite HG. cbn [rbind]. f_equal. rewrite py_slice_neg by (rewrite Hl; pose proof (zlen_nonneg m); lia).
  rewrite Hl. replace (zlen m + n - n) with (zlen m) by lia. rewrite to_nat_zlen.
  rewrite firstn_app, Nat.sub_diag, firstn_all. cbn. apply app_nil_r.
Qed.

Lemma C55_roundtrip_pf : forall key mode iv padmode d m,
  des_reach key mode iv [] padmode d -> (mode = CBC -> iv <> [] /\ Forall ubyte iv) -> Forall ubyte m ->
  (padmode = PAD_NORMAL /\ zlen m mod 8 = 0 \/ padmode = PAD_PKCS5) ->
  exists c d1, des_encrypt m [] None d = (Ok c, d1)
    /\ zlen c = (if padmode =? PAD_PKCS5 then 8 * (zlen m / 8 + 1) else zlen m)
    /\ fst (des_decrypt c [] None d1) = Ok m.
Proof.
  intros key mode iv padmode d m Hr Hi Hu Hp. apply reach_wf in Hr as (W & _ & Hil & _).
  set (b := mkBase mode iv [] padmode key) in *.
  assert (Hiv : iv_ok (b_mode b) (b_iv b)) by (intro E; destruct (Hi E); destruct Hil; [congruence|auto]).
  unfold des_encrypt. rewrite (bind_ok _ _ _ d d) by reflexivity. rewrite (proj1 W). destruct Hp as [[-> Hm]| ->].
  - unfold padData. cbn [b b_padmode nonempty andb]. change (PAD_NORMAL =? PAD_NORMAL) with true. cbv iota.
    replace (zlen m mod 8 =? 0) with true by lia. rewrite (bind_ok _ _ _ m d) by reflexivity.
    destruct (crypt_crypt key b d m W) as (c & s1 & s2 & E1 & E2 & Hl & _ & W1 & W2); [unfold zlen in Hm; lia|auto|auto|].
    exists c, s1. split; [exact E1|]. split; [unfold zlen; change (PAD_NORMAL =? PAD_PKCS5) with false; lia|].
    unfold des_decrypt. rewrite (bind_ok _ _ _ _ _ E2). rewrite (bind_ok _ _ _ s2 s2) by reflexivity.
    rewrite (proj1 W2). cbn [lift fst]. unfold unpadData. cbn [b b_padmode b_pad nonempty].
    now destruct m.
  - unfold padData. cbn [b b_padmode nonempty andb]. change (PAD_PKCS5 =? PAD_NORMAL) with false.
    change (PAD_PKCS5 =? PAD_PKCS5) with true. cbv iota zeta.
    erewrite bind_ok by reflexivity. set (n := 8 - zlen m mod 8).
    assert (Hn : 1 <= n <= 8) by (unfold n; lia).
    assert (HL : length (m ++ py_repeat n n) = (length m + Z.to_nat n)%nat) by (unfold py_repeat; now rewrite app_length, repeat_length).
    destruct (crypt_crypt key b d (m ++ py_repeat n n) W) as (c & s1 & s2 & E1 & E2 & Hl & _ & W1 & W2);
      [rewrite HL; unfold n, zlen; lia| |auto|].
    { apply Forall_app. split; [exact Hu|]. apply Forall_forall. intros x Hx. unfold py_repeat in Hx. apply repeat_spec in Hx. subst. unfold ubyte. lia. }
    exists c, s1. split; [exact E1|]. split.
    { unfold zlen. rewrite Hl, HL. unfold n, zlen. lia. }
    unfold des_decrypt. rewrite (bind_ok _ _ _ _ _ E2). rewrite (bind_ok _ _ _ s2 s2) by reflexivity.
    rewrite (proj1 W2). cbn [lift fst]. now apply pkcs5_unpad.
Qed.

Lemma C63_refuted_pf : forall key mode iv d p, des_reach key mode iv [] PAD_PKCS5 d ->
  (mode = CBC -> iv <> [] /\ Forall ubyte iv) -> Forall ubyte p -> zlen p mod 8 = 0 -> p <> [] ->
  exists c d1, des_encrypt p [] (Some PAD_NORMAL) d = (Ok c, d1) /\ zlen c = zlen p
    /\ fst (des_decrypt c [] None d1)
       = Ok (if last p 0 =? 0 then [] else firstn (length p - Z.to_nat (last p 0)) p).
Proof.
  intros key mode iv d p Hr Hi Hu Hp Hn. apply reach_wf in Hr as (W & _ & Hil & _).
  set (b := mkBase mode iv [] PAD_PKCS5 key) in *.
  assert (Hiv : iv_ok (b_mode b) (b_iv b)) by (intro E; destruct (Hi E); destruct Hil; [congruence|auto]).
  unfold des_encrypt. rewrite (bind_ok _ _ _ d d) by reflexivity. rewrite (proj1 W).
  unfold padData. cbn [nonempty andb]. change (PAD_NORMAL =? PAD_NORMAL) with true. cbv iota zeta.
  replace (zlen p mod 8 =? 0) with true by lia. rewrite (bind_ok _ _ _ p d) by reflexivity.
  destruct (crypt_crypt key b d p W) as (c & s1 & s2 & E1 & E2 & Hl & _ & W1 & W2); [unfold zlen in Hp; lia|auto|auto|].
  exists c, s1. split; [exact E1|]. split; [unfold zlen; lia|].
  unfold des_decrypt. rewrite (bind_ok _ _ _ _ _ E2). rewrite (bind_ok _ _ _ s2 s2) by reflexivity.
  rewrite (proj1 W2). cbn [lift fst]. unfold unpadData. destruct p as [|x0 p0]; [congruence|].
  set (p := x0 :: p0) in *. change (nonempty p) with true. cbn [negb nonempty andb b b_padmode].
  change (PAD_PKCS5 =? PAD_NORMAL) with false. change (PAD_PKCS5 =? PAD_PKCS5) with true. cbv iota.
  assert (HG : py_get p (-1) = Ok (last p 0)) by (apply py_get_last; discriminate).
  rewrite HG. cbn [rbind]. f_equal.
  assert (HL : ubyte (last p 0)).
  { rewrite Forall_forall in Hu. apply Hu. apply py_get_In in HG. exact HG. }
  unfold ubyte in HL. destruct (Z.eqb_spec (last p 0) 0) as [E0|E0].
  - rewrite E0. change (- 0) with 0. apply py_slice_00.
  - destruct (Z.leb_spec (last p 0) (zlen p)).
    + rewrite py_slice_neg by lia. f_equal. unfold zlen. lia.
    + rewrite py_slice_neg_big by lia. replace (length p - Z.to_nat (last p 0%Z))%nat with O by (unfold zlen in *; lia).
      reflexivity.
Qed.

Lemma C63_valid_partial_pf : forall key mode iv d m n, des_reach key mode iv [] PAD_PKCS5 d ->
  (mode = CBC -> iv <> [] /\ Forall ubyte iv) -> Forall ubyte m -> 1 <= n <= 8 -> (zlen m + n) mod 8 = 0 ->
  exists c d1, des_encrypt (m ++ repeat n (Z.to_nat n)) [] (Some PAD_NORMAL) d = (Ok c, d1)
    /\ fst (des_decrypt c [] None d1) = Ok m.
Proof.
  intros key mode iv d m n Hr Hi Hu Hn Hm.
  destruct (C63_refuted_pf key mode iv d (m ++ repeat n (Z.to_nat n)) Hr Hi) as (c & d1 & E1 & _ & E2).
  - apply Forall_app. split; [exact Hu|]. apply Forall_forall. intros x Hx. apply repeat_spec in Hx. subst. unfold ubyte. lia.
  - rewrite zlen_app. unfold zlen at 2. rewrite repeat_length. lia.
  - intros E. apply app_eq_nil in E as [_ E]. apply (f_equal (@length Z)) in E. rewrite repeat_length in E. cbn in E. lia.
  - exists c, d1. split; [exact E1|]. rewrite E2. f_equal.
    assert (HL : last (m ++ repeat n (Z.to_nat n)) 0 = n).
    { replace (Z.to_nat n) with (Z.to_nat (n - 1) + 1)%nat by lia. rewrite repeat_app, app_assoc. cbn [repeat]. apply last_last. }
    rewrite HL. replace (n =? 0) with false by lia. rewrite app_length, repeat_length.
    replace (length m + Z.to_nat n - Z.to_nat n)%nat with (length m) by lia.
    rewrite firstn_app, Nat.sub_diag, firstn_all. cbn. apply app_nil_r.
Qed.

(** *** padding with one character *)
Lemma rstrip_app_no c l x : c <> x -> rstrip [c] (l ++ [x]) = l ++ [x].
Proof.
  intros H. induction l as [|y l IH]; cbn [app rstrip existsb].
  - replace (x =? c) with false by lia. reflexivity.
  - rewrite IH. now destruct (l ++ [x]) eqn:E; [destruct l|].
Qed.
Lemma rstrip_repeat c l n : rstrip [c] (l ++ repeat c n) = rstrip [c] l.
Proof.
  induction l as [|y l IH]; cbn [app rstrip].
  - induction n; cbn [repeat rstrip existsb]; [reflexivity|]. rewrite IHn. cbn. now rewrite Z.eqb_refl.
  - now rewrite IH.
Qed.
Lemma rstrip_le c l : (length (rstrip [c] l) <= length l)%nat.
Proof.
  induction l as [|y l IH]; cbn [rstrip]; [lia|]. destruct (rstrip [c] l) eqn:E; cbn [length] in *; [|lia].
  destruct (existsb _ _); cbn; lia.
Qed.

Lemma C64_refuted_pf : forall key mode iv d m c, des_reach key mode iv [c] PAD_NORMAL d ->
  (mode = CBC -> iv <> [] /\ Forall ubyte iv) -> Forall ubyte m -> ubyte c ->
  exists e d1 m', des_encrypt m [] None d = (Ok e, d1) /\ fst (des_decrypt e [] None d1) = Ok m'
    /\ (m' = m <-> m = [] \/ last m 0 <> c).
Proof.
  intros key mode iv d m c Hr Hi Hu Hc. apply reach_wf in Hr as (W & _ & Hil & _).
  set (b := mkBase mode iv [c] PAD_NORMAL key) in *.
  assert (Hiv : iv_ok (b_mode b) (b_iv b)) by (intro E; destruct (Hi E); destruct Hil; [congruence|auto]).
  unfold des_encrypt. rewrite (bind_ok _ _ _ d d) by reflexivity. rewrite (proj1 W).
  set (k := Z.to_nat ((- zlen m) mod 8)).
  assert (HP : padData b m [] None = Ok (m ++ repeat c k)).
  { unfold padData. cbn [b b_padmode b_pad nonempty andb]. change (PAD_NORMAL =? PAD_NORMAL) with true. cbv iota zeta.
    destruct (Z.eqb_spec (zlen m mod 8) 0) as [E|E].
    - replace k with O by (unfold k; lia). cbn. now rewrite app_nil_r.
    - f_equal. f_equal. unfold bytes_times. replace (Z.to_nat (8 - zlen m mod 8)) with k by (unfold k; lia).
      generalize k as j. clear. induction j; cbn; [reflexivity|]. now rewrite IHj. }
  rewrite HP. erewrite bind_ok by reflexivity.
  assert (HL : length (m ++ repeat c k) = (length m + k)%nat) by (now rewrite app_length, repeat_length).
  destruct (crypt_crypt key b d (m ++ repeat c k) W) as (e & s1 & s2 & E1 & E2 & Hl & _ & W1 & W2);
    [rewrite HL; unfold k, zlen; lia| |auto|].
  { apply Forall_app. split; [exact Hu|]. apply Forall_forall. intros x Hx. apply repeat_spec in Hx. now subst. }
  destruct m as [|x0 m0].
  { cbn in k. exists e, s1, []. split; [exact E1|]. split; [|tauto].
    unfold des_decrypt. rewrite (bind_ok _ _ _ _ _ E2). rewrite (bind_ok _ _ _ s2 s2) by reflexivity.
    rewrite (proj1 W2). reflexivity. }
  set (m := x0 :: m0) in *. assert (Hm : m <> []) by discriminate. clearbody m. clear x0 m0.
  destruct (exists_last Hm) as (m1 & x & ->).
  set (l := (m1 ++ [x]) ++ repeat c k) in *.
  assert (Hl8 : (8 <= length l)%nat).
  { unfold l. rewrite !app_length, repeat_length. cbn [length]. unfold k, zlen. rewrite app_length. cbn [length]. lia. }
  assert (HU : unpadData b l [] None = Ok (firstn (length l - 8) l ++ rstrip [c] (skipn (length l - 8) l))).
  { unfold unpadData. replace (nonempty l) with true by (destruct l; [cbn in Hl8; lia|reflexivity]).
    cbn [b b_padmode b_pad nonempty andb negb]. change (PAD_NORMAL =? PAD_NORMAL) with true. cbv iota zeta.
    f_equal. f_equal.
    - change (-8) with (- (8)). rewrite py_slice_neg by (unfold zlen; lia). f_equal. unfold zlen. lia.
    - f_equal. change (-8) with (- (8)). rewrite py_slice_from_neg by (unfold zlen; lia). f_equal. unfold zlen. lia. }
  exists e, s1. eexists. split; [exact E1|]. split.
  { unfold des_decrypt. rewrite (bind_ok _ _ _ _ _ E2). rewrite (bind_ok _ _ _ s2 s2) by reflexivity.
    rewrite (proj1 W2). cbn [lift fst]. exact HU. }
  assert (Hk : (k <= 7)%nat) by (unfold k; lia).
  assert (HS : skipn (length l - 8) l = (skipn (length l - 8) m1 ++ [x]) ++ repeat c k).
  { unfold l. rewrite skipn_app, skipn_app. rewrite !app_length, repeat_length. cbn [length].
    replace (length m1 + 1 + k - 8 - length m1)%nat with O by lia.
    replace (length m1 + 1 + k - 8 - (length m1 + 1))%nat with O by lia. now rewrite !skipn_O. }
  assert (HF : firstn (length l - 8) l = firstn (length l - 8) m1).
  { unfold l. rewrite firstn_app, firstn_app. rewrite !app_length, repeat_length. cbn [length].
    replace (length m1 + 1 + k - 8 - length m1)%nat with O by lia.
    replace (length m1 + 1 + k - 8 - (length m1 + 1))%nat with O by lia. rewrite !firstn_O. now rewrite !app_nil_r. }
  rewrite HS, HF, rstrip_repeat, last_last. set (q := (length l - 8)%nat). split.
  - intros E. right. intros ->. apply (f_equal (@length Z)) in E. change [c] with (repeat c 1) in E at 2.
    rewrite rstrip_repeat in E. pose proof (rstrip_le c (skipn q m1)) as Q.
    rewrite !app_length, firstn_length in E. rewrite skipn_length in Q. cbn [length] in E. lia.
  - intros [E|E]; [now apply app_eq_nil in E as [_ E]|]. rewrite rstrip_app_no by congruence.
    now rewrite app_assoc, firstn_skipn.
Qed.
