(** * C79-C84: algebraic properties of pyDes: proofs *)
From Verif Require Import Py S_Base L_Py S_DES S_DESX M_des L_des LP_des LP_tdes.
From Coq Require Import ZifyBool ZifyNat.
Ltac Zify.zify_post_hook ::= Z.div_mod_to_equations.


(** *** running the objects on whole blocks *)
Lemma des_enc_run key mode iv pad padmode d bs : des_reach key mode iv pad padmode d -> (mode = CBC -> iv <> []) ->
  blocks bs -> exists d', des_encrypt (concat bs) [] (Some PAD_NORMAL) d = (Ok (concat (mode_enc mode key iv bs)), d')
    /\ des_reach key mode iv pad padmode d'.
Proof.
  intros Hr Hi Hb. pose proof Hr as Hr0. apply reach_wf in Hr as (W & _ & Hil & _).
  unfold des_encrypt. rewrite (bind_ok _ _ _ d d) by reflexivity.
  rewrite pad_normal by auto. rewrite (bind_ok _ _ _ (concat bs) d) by reflexivity.
  destruct (crypt_enc key _ d bs W Hb) as (s' & E & _).
  { cbn [b_mode b_iv]. intros Em. destruct Hil; [now specialize (Hi Em)|assumption]. }
  exists s'. split; [exact E|]. destruct Hr0 as (d0 & h & E0 & ->).
  exists d0, (h ++ [CEnc (concat bs) [] (Some PAD_NORMAL)]). split; [exact E0|]. rewrite fold_left_app.
  cbn [fold_left des_call]. unfold des_encrypt. rewrite (bind_ok _ _ _ _ (fold_left (fun d c => des_call c d) h d0)) by reflexivity.
  rewrite pad_normal by auto. rewrite (bind_ok _ _ _ (concat bs) (fold_left (fun d c => des_call c d) h d0)) by reflexivity.
  now rewrite E.
Qed.
Lemma des_dec_run key mode iv padmode d bs : des_reach key mode iv [] padmode d -> (mode = CBC -> iv <> [] /\ Forall ubyte iv) ->
  blocks bs -> Forall (Forall ubyte) bs ->
  fst (des_decrypt (concat bs) [] (Some PAD_NORMAL) d) = Ok (concat (mode_dec mode key iv bs)).
Proof.
  intros Hr Hi Hb Hu. apply reach_wf in Hr as (W & _ & Hil & _). unfold des_decrypt.
  destruct (crypt_dec key _ d bs W Hb Hu) as (s' & E & W').
  { cbn [b_mode b_iv]. intros Em. destruct (Hi Em). destruct Hil; [congruence|auto]. }
  rewrite (bind_ok _ _ _ _ _ E). rewrite (bind_ok _ _ _ s' s') by reflexivity. cbn [lift fst].
  rewrite (proj1 W'). unfold unpadData. cbn [b_pad nonempty]. cbn [b_mode b_iv].
  destruct (nonempty (concat (mode_dec mode key iv bs))); reflexivity.
Qed.
Lemma t_iv mode key iv : (length key = 16 \/ length key = 24)%nat -> (iv = [] \/ length iv = 8%nat) ->
  (mode = CBC -> Forall ubyte (iv ++ key)) -> iv_ok mode (tdes_iv mode key iv).
Proof.
  intros HK Hi Hu. apply tdes_iv_ok; auto. intros E. specialize (Hu E). apply Forall_app in Hu as [U1 U2].
  unfold tdes_iv. rewrite E. change (CBC =? CBC) with true. destruct iv; [|exact U1].
  unfold key1. rewrite <- (firstn_skipn 8 key) in U2. now apply Forall_app in U2.
Qed.
Lemma tdes_enc_run key mode iv pad padmode d bs : tdes_reach key mode iv pad padmode d -> (mode = CBC -> Forall ubyte (iv ++ key)) ->
  blocks bs -> exists d', tdes_encrypt (concat bs) [] (Some PAD_NORMAL) d = (Ok (concat (t_mode_enc mode key (tdes_iv mode key iv) bs)), d').
Proof.
  intros Hr Hi Hb. apply treach_wf in Hr as (W & Hk & Hil & _).
  destruct (t_encrypt key _ d (concat bs) [] (Some PAD_NORMAL) bs W) as (s' & E & _); auto.
  - now apply pad_normal.
  - cbn [b_mode b_iv]. now apply t_iv.
  - exists s'. exact E.
Qed.
Lemma tdes_dec_run key mode iv padmode d bs : tdes_reach key mode iv [] padmode d -> (mode = CBC -> Forall ubyte (iv ++ key)) ->
  blocks bs -> Forall (Forall ubyte) bs ->
  fst (tdes_decrypt (concat bs) [] (Some PAD_NORMAL) d) = Ok (concat (t_mode_dec mode key (tdes_iv mode key iv) bs)).
Proof.
  intros Hr Hi Hb Hu. apply treach_wf in Hr as (W & Hk & Hil & _).
  destruct (t_decrypt key _ d [] (Some PAD_NORMAL) bs W Hb Hu) as (s' & E & _); [now apply t_iv|]. rewrite E. cbn [fst].
  unfold unpadData. cbn [b_pad nonempty b_mode b_iv]. destruct (nonempty (concat _)); reflexivity.
Qed.

(** *** C79: complementation *)
Definition nots (b : bits) : bits := map negb b.
Lemma nots_length b : length (nots b) = length b. Proof. apply map_length. Qed.
Lemma nots_nots b : nots (nots b) = b.
Proof. unfold nots. rewrite map_map. rewrite (map_ext _ (fun x => x)) by apply negb_involutive. apply map_id. Qed.
Lemma select_nots t b : forallb (fun i => (1 <=? i) && (i <=? length b))%nat t = true -> select t (nots b) = nots (select t b).
Proof.
  intros H. unfold select, nots at 2. rewrite map_map. apply map_ext_in. intros i Hi.
  rewrite forallb_forall in H. specialize (H i Hi). unfold nots.
  rewrite (nth_indep _ false (negb false)) by (rewrite map_length; lia). now rewrite map_nth.
Qed.
Lemma xor_nots2 a : forall b, xor (nots a) (nots b) = xor a b.
Proof. induction a as [|x a IH]; intros [|y b]; cbn; auto. f_equal; [now destruct x, y|apply IH]. Qed.
Lemma xor_nots1 a : forall b, xor (nots a) b = nots (xor a b).
Proof. induction a as [|x a IH]; intros [|y b]; cbn; auto. f_equal; [now destruct x, y|apply IH]. Qed.
Lemma f_nots R K : length R = 32%nat -> f (nots R) (nots K) = f R K.
Proof. intros H. unfold f. rewrite select_nots by (rewrite H; reflexivity). now rewrite xor_nots2. Qed.
Lemma rounds_nots ks : forall L R, length L = 32%nat -> length R = 32%nat ->
  rounds (map nots ks) (nots L) (nots R) = (let '(L', R') := rounds ks L R in (nots L', nots R')).
Proof.
  induction ks as [|K ks IH]; intros L R HL HR; [reflexivity|]. cbn [rounds map]. rewrite f_nots by exact HR.
  rewrite xor_nots1. apply IH; [exact HR|]. rewrite xor_length, f_length, HL. reflexivity.
Qed.
Lemma cipher_nots ks b : length b = 64%nat -> cipher (map nots ks) (nots b) = nots (cipher ks b).
Proof.
  intros H. unfold cipher. rewrite select_nots by (rewrite H; reflexivity). set (b' := select IP b).
  assert (Hb' : length b' = 64%nat) by (unfold b'; now rewrite select_length).
  unfold nots at 2 3. rewrite firstn_map, skipn_map. change (map negb) with nots.
  rewrite rounds_nots by (rewrite ?firstn_length, ?skipn_length; lia).
  destruct (rounds ks (firstn 32 b') (skipn 32 b')) as [L R] eqn:ER.
  assert (HLR : length L = 32%nat /\ length R = 32%nat).
  { eapply rounds_length; [exact ER| |]; [rewrite firstn_length|rewrite skipn_length]; lia. }
  unfold nots at 1 2. rewrite <- map_app. change (map negb (R ++ L)) with (nots (R ++ L)).
  apply select_nots. rewrite app_length. destruct HLR as [-> ->]. reflexivity.
Qed.
Lemma rotl_nots n b : rotl n (nots b) = nots (rotl n b).
Proof. unfold rotl, nots. now rewrite skipn_map, firstn_map, map_app. Qed.
Lemma subkeys_nots sh : forall C D, length C = 28%nat -> length D = 28%nat ->
  subkeys sh (nots C) (nots D) = map nots (subkeys sh C D).
Proof.
  induction sh as [|n sh IH]; intros C D HC HD; [reflexivity|]. cbn [subkeys map]. rewrite !rotl_nots.
  rewrite IH by (now rewrite rotl_length). f_equal.
  unfold nots at 1 2. rewrite <- map_app. change (map negb ?x) with (nots x). apply select_nots.
  rewrite app_length, !rotl_length, HC, HD. reflexivity.
Qed.
Lemma schedule_nots k : length k = 64%nat -> schedule (nots k) = map nots (schedule k).
Proof.
  intros H. unfold schedule. rewrite !select_nots by (rewrite H; reflexivity). apply subkeys_nots; apply select_length.
Qed.
Lemma low_bits_inv v : ubyte v -> low_bits 8 (255 - v) = nots (low_bits 8 v).
Proof.
  intros H. assert (G : forallb (fun n => if list_eq_dec Bool.bool_dec (low_bits 8 (255 - Z.of_nat n)) (nots (low_bits 8 (Z.of_nat n))) then true else false) (seq 0 256) = true)
    by (vm_compute; reflexivity).
  rewrite forallb_forall in G. specialize (G (Z.to_nat v)). rewrite Z2Nat.id in G by (unfold ubyte in H; lia).
  destruct list_eq_dec in G; [assumption|]. discriminate G. apply in_seq. unfold ubyte in H. lia.
Qed.
Lemma to_bits_inv l : Forall ubyte l -> to_bits (inverted l) = nots (to_bits l).
Proof.
  unfold to_bits, inverted, nots. induction 1; [reflexivity|]. cbn [map flat_map]. rewrite map_app, IHForall.
  f_equal. now apply low_bits_inv.
Qed.
Lemma inverted_ubyte l : Forall ubyte l -> Forall ubyte (inverted l).
Proof. unfold inverted. induction 1; constructor; auto. unfold ubyte in *. lia. Qed.
Lemma inverted_length l : length (inverted l) = length l. Proof. apply map_length. Qed.
Lemma of_bits_nots n : forall b, length b = (8 * n)%nat -> of_bits n (nots b) = inverted (of_bits n b).
Proof.
  intros b H. rewrite <- (to_bits_of_bits n b) at 1 by exact H.
  rewrite <- to_bits_inv by apply of_bits_ubyte.
  assert (L : length (inverted (of_bits n b)) = n) by (now rewrite inverted_length, of_bits_length).
  rewrite <- L at 1. apply of_bits_to_bits. apply inverted_ubyte, of_bits_ubyte.
Qed.
Lemma F_inverted key e blk : Forall ubyte key -> length key = 8%nat -> Forall ubyte blk -> length blk = 8%nat ->
  F (inverted key) e (inverted blk) = inverted (F key e blk).
Proof.
  intros Hk Hkl Hb Hbl. unfold F, DES_bytes, DES_inv_bytes, DES, DES_inv. rewrite !to_bits_inv by assumption.
  rewrite schedule_nots by (rewrite to_bits_length; lia). rewrite <- map_rev.
  assert (L : length (to_bits blk) = 64%nat) by (rewrite to_bits_length; lia).
  destruct e; rewrite cipher_nots by exact L; apply of_bits_nots; now rewrite cipher_length.
Qed.
Lemma blk1 (blk : list Z) : length blk = 8%nat -> blocks [blk]. Proof. intros; repeat constructor; auto. Qed.
Lemma concat1 (blk : list Z) : concat [blk] = blk. Proof. cbn. apply app_nil_r. Qed.
Lemma des_enc_1 key iv pad padmode d blk : des_reach key ECB iv pad padmode d -> length blk = 8%nat ->
  fst (des_encrypt blk [] (Some PAD_NORMAL) d) = Ok (DES_bytes key blk).
Proof.
  intros Hr Hl. destruct (des_enc_run key ECB iv pad padmode d [blk] Hr ltac:(discriminate) (blk1 _ Hl)) as (d' & E & _).
  rewrite concat1 in E. rewrite E. cbn [fst]. now rewrite single_enc.
Qed.
Lemma des_dec_1 key iv padmode d blk : des_reach key ECB iv [] padmode d -> length blk = 8%nat -> Forall ubyte blk ->
  fst (des_decrypt blk [] (Some PAD_NORMAL) d) = Ok (DES_inv_bytes key blk).
Proof.
  intros Hr Hl Hu. pose proof (des_dec_run key ECB iv padmode d [blk] Hr ltac:(discriminate) (blk1 _ Hl) ltac:(repeat constructor; auto)) as E.
  rewrite concat1 in E. rewrite E. now rewrite single_dec.
Qed.

Lemma C79_complement_pf : forall key iv iv' padmode padmode' d d' blk,
  des_reach key ECB iv [] padmode d -> des_reach (inverted key) ECB iv' [] padmode' d' ->
  Forall ubyte key -> length blk = 8%nat -> Forall ubyte blk ->
  (exists c, fst (des_encrypt blk [] (Some PAD_NORMAL) d) = Ok c
     /\ fst (des_encrypt (inverted blk) [] (Some PAD_NORMAL) d') = Ok (inverted c))
  /\ (exists p, fst (des_decrypt blk [] (Some PAD_NORMAL) d) = Ok p
     /\ fst (des_decrypt (inverted blk) [] (Some PAD_NORMAL) d') = Ok (inverted p)).
Proof.
  intros key iv iv' padmode padmode' d d' blk Hr Hr' Hk Hl Hu.
  assert (Hk8 : length key = 8%nat) by (apply reach_wf in Hr; apply Hr). split.
  - exists (DES_bytes key blk). split; [eapply des_enc_1; eauto|].
    rewrite (des_enc_1 _ _ _ _ _ _ Hr') by (now rewrite inverted_length). f_equal. now apply (F_inverted key true).
  - exists (DES_inv_bytes key blk). split; [eapply des_dec_1; eauto|].
    rewrite (des_dec_1 _ _ _ _ _ Hr') by (rewrite ?inverted_length; auto using inverted_ubyte). f_equal. now apply (F_inverted key false).
Qed.

Lemma tdes_enc_1 key iv pad padmode d blk : tdes_reach key ECB iv pad padmode d -> length blk = 8%nat ->
  fst (tdes_encrypt blk [] (Some PAD_NORMAL) d) = Ok (EDE key blk).
Proof.
  intros Hr Hl. destruct (tdes_enc_run key ECB iv pad padmode d [blk] Hr ltac:(discriminate) (blk1 _ Hl)) as (d' & E).
  rewrite concat1 in E. rewrite E. cbn [fst]. unfold t_mode_enc. change (ECB =? CBC) with false. cbv iota. now rewrite single_ecb.
Qed.
Lemma inverted_firstn n l : firstn n (inverted l) = inverted (firstn n l). Proof. apply firstn_map. Qed.
Lemma inverted_skipn n l : skipn n (inverted l) = inverted (skipn n l). Proof. apply skipn_map. Qed.
Lemma Forall_firstn {A} (P : A -> Prop) n l : Forall P l -> Forall P (firstn n l).
Proof. intros H. rewrite <- (firstn_skipn n l) in H. now apply Forall_app in H. Qed.
Lemma Forall_skipn {A} (P : A -> Prop) n l : Forall P l -> Forall P (skipn n l).
Proof. intros H. rewrite <- (firstn_skipn n l) in H. now apply Forall_app in H. Qed.

Lemma C79_triple_pf : forall key iv iv' pad pad' padmode padmode' d d' blk,
  tdes_reach key ECB iv pad padmode d -> tdes_reach (inverted key) ECB iv' pad' padmode' d' ->
  Forall ubyte key -> length blk = 8%nat -> Forall ubyte blk ->
  exists c, fst (tdes_encrypt blk [] (Some PAD_NORMAL) d) = Ok c
     /\ fst (tdes_encrypt (inverted blk) [] (Some PAD_NORMAL) d') = Ok (inverted c).
Proof.
  intros key iv iv' pad pad' padmode padmode' d d' blk Hr Hr' Hk Hl Hu.
  assert (HK : (length key = 16 \/ length key = 24)%nat) by (apply treach_wf in Hr; apply Hr).
  exists (EDE key blk). split; [eapply tdes_enc_1; eauto|].
  rewrite (tdes_enc_1 _ _ _ _ _ _ Hr') by (now rewrite inverted_length). f_equal. unfold EDE, key1, key2, key3.
  rewrite inverted_length, !inverted_skipn, !inverted_firstn.
  assert (L1 : length (firstn 8 key) = 8%nat) by (rewrite firstn_length; lia).
  assert (L2 : length (firstn 8 (skipn 8 key)) = 8%nat) by (rewrite firstn_length, skipn_length; lia).
  pose proof (F_inverted (firstn 8 key) true blk) as Q1. cbn [F] in Q1. rewrite Q1 by auto using Forall_firstn.
  set (x := DES_bytes (firstn 8 key) blk). destruct (DES_blockP (firstn 8 key) blk) as [X1 X2]. fold x in X1, X2.
  pose proof (F_inverted (firstn 8 (skipn 8 key)) false x) as Q2. cbn [F] in Q2. rewrite Q2 by auto using Forall_firstn, Forall_skipn.
  set (y := DES_inv_bytes (firstn 8 (skipn 8 key)) x). destruct (DES_inv_blockP (firstn 8 (skipn 8 key)) x) as [Y1 Y2]. fold y in Y1, Y2.
  destruct HK as [E|E]; rewrite E; [change (16 =? 16)%nat with true|change (24 =? 16)%nat with false]; cbv iota.
  - pose proof (F_inverted (firstn 8 key) true y) as Q3. cbn [F] in Q3. apply Q3; auto using Forall_firstn.
  - pose proof (F_inverted (skipn 16 key) true y) as Q3. cbn [F] in Q3. apply Q3; auto using Forall_skipn. rewrite skipn_length. lia.
Qed.

(** *** C80: weak keys *)
Lemma undoing_schedule k k' : undoing k k' -> schedule (to_bits k') = rev (schedule (to_bits k)).
Proof.
  intros [[<- H]|[H|H]]; cbn in H; repeat (destruct H as [H|H]; [|]); try contradiction.
  all: try (rewrite <- H; vm_compute; reflexivity).
  all: injection H as <- <-; vm_compute; reflexivity.
Qed.
Lemma undoing_fun k k' blk : undoing k k' -> DES_bytes k' blk = DES_inv_bytes k blk.
Proof. intros H. unfold DES_bytes, DES_inv_bytes, DES, DES_inv. now rewrite (undoing_schedule k k' H). Qed.

Lemma C80_weak_pf : forall k k' iv iv' pad pad' padmode padmode' d d' bs, undoing k k' ->
  des_reach k ECB iv pad padmode d -> des_reach k' ECB iv' pad' padmode' d' ->
  Forall (fun b => length b = 8%nat) bs -> Forall (Forall ubyte) bs ->
  exists c, fst (des_encrypt (concat bs) [] (Some PAD_NORMAL) d) = Ok c
    /\ fst (des_encrypt c [] (Some PAD_NORMAL) d') = Ok (concat bs).
Proof.
  intros k k' iv iv' pad pad' padmode padmode' d d' bs Hw Hr Hr' Hb Hu.
  destruct (des_enc_run k ECB iv pad padmode d bs Hr ltac:(discriminate) Hb) as (d1 & E1 & _).
  destruct (mode_enc_blocks ECB k iv bs) as (B1 & B2 & _).
  destruct (des_enc_run k' ECB iv' pad' padmode' d' _ Hr' ltac:(discriminate) B1) as (d2 & E2 & _).
  rewrite E1. cbn [fst]. eexists. split; [reflexivity|]. rewrite E2. cbn [fst]. do 2 f_equal.
  rewrite <- (mode_inv ECB k iv bs Hb Hu) at 2 by discriminate. unfold mode_dec, mode_enc. change (ECB =? CBC) with false. cbv iota.
  unfold ecb. apply map_ext. intros. now apply undoing_fun.
Qed.

Lemma C80_constructible_pf : forall k k', undoing k k' ->
  exists d d', des_new k ECB [] [] PAD_NORMAL = Ok d /\ des_new k' ECB [] [] PAD_NORMAL = Ok d'.
Proof.
  intros k k' H. assert (L : length k = 8%nat /\ length k' = 8%nat).
  { destruct H as [[<- H]|[H|H]]; cbn in H; repeat (destruct H as [H|H]; [|]); try contradiction.
    all: try (rewrite <- H; split; reflexivity). all: injection H as <- <-; split; reflexivity. }
  destruct (des_new_exists k ECB [] [] PAD_NORMAL) as [d E]; auto; [apply L|].
  destruct (des_new_exists k' ECB [] [] PAD_NORMAL) as [d' E']; auto; [apply L|]. eauto.
Qed.

(** *** C81: encryption is a bijection *)
Lemma cbc_enc_dec (E D : block -> block) : (forall b, length b = 8%nat -> Forall ubyte b -> E (D b) = b) ->
  (forall b, length (D b) = 8%nat) -> forall cs iv, blocks cs -> Forall (Forall ubyte) cs ->
  length iv = 8%nat -> cbc_enc E iv (cbc_dec D iv cs) = cs.
Proof.
  intros HED HD. induction cs as [|c cs IH]; intros iv Hb Hu Hi; [reflexivity|].
  inversion Hb; subst. inversion Hu; subst. cbn [cbc_enc cbc_dec].
  rewrite xor_bytes_twice by (now rewrite HD). rewrite HED by assumption. f_equal. now apply IH.
Qed.
Lemma cbc_dec_blocks (D : block -> block) : (forall b, length (D b) = 8%nat /\ Forall ubyte (D b)) -> forall cs iv,
  blocks cs -> Forall (Forall ubyte) cs -> length iv = 8%nat -> Forall ubyte iv ->
  blocks (cbc_dec D iv cs) /\ Forall (Forall ubyte) (cbc_dec D iv cs) /\ length (cbc_dec D iv cs) = length cs.
Proof.
  intros HD. induction cs as [|c cs IH]; intros iv Hb Hu Hi Hiu; [repeat split; constructor|]. cbn [cbc_dec].
  inversion Hb; subst. inversion Hu; subst. destruct (IH c) as (A & B & C); auto. destruct (HD c) as [D1 D2].
  repeat split; try constructor; auto; try (cbn; lia).
  - rewrite xor_bytes_length by congruence. exact D1.
  - now apply xor_bytes_ubyte.
Qed.
Lemma mode_dec_blocks mode key iv bs : blocks bs -> Forall (Forall ubyte) bs -> iv_ok mode iv ->
  blocks (mode_dec mode key iv bs) /\ Forall (Forall ubyte) (mode_dec mode key iv bs) /\ length (mode_dec mode key iv bs) = length bs.
Proof.
  intros Hb Hu Hi. unfold mode_dec. destruct (Z.eqb_spec mode CBC) as [E|E].
  - destruct (Hi E). apply cbc_dec_blocks; auto using DES_inv_blockP.
  - apply ecb_blocks, DES_inv_blockP.
Qed.
Lemma t_mode_dec_blocks mode key iv bs : blocks bs -> Forall (Forall ubyte) bs -> iv_ok mode iv ->
  blocks (t_mode_dec mode key iv bs) /\ Forall (Forall ubyte) (t_mode_dec mode key iv bs) /\ length (t_mode_dec mode key iv bs) = length bs.
Proof.
  intros Hb Hu Hi. unfold t_mode_dec. destruct (Z.eqb_spec mode CBC) as [E|E].
  - destruct (Hi E). apply cbc_dec_blocks; auto using DED_blockP.
  - apply ecb_blocks, DED_blockP.
Qed.
Lemma mode_enc_dec mode key iv bs : blocks bs -> Forall (Forall ubyte) bs -> iv_ok mode iv ->
  mode_enc mode key iv (mode_dec mode key iv bs) = bs.
Proof.
  intros Hb Hu Hi. unfold mode_dec, mode_enc. destruct (Z.eqb_spec mode CBC) as [E|E].
  - destruct (Hi E). apply cbc_enc_dec; auto; try (intros; apply DES_inv_blockP). intros x H1 H2. exact (proj2 (DES_bytes_inv key x H1 H2)).
  - apply (ecb_inv (DES_inv_bytes key) (DES_bytes key)); auto. intros x H1 H2. exact (proj2 (DES_bytes_inv key x H1 H2)).
Qed.
Lemma EDE_DED key b : length b = 8%nat -> Forall ubyte b -> EDE key (DED key b) = b.
Proof.
  intros H Hu. unfold DED, EDE.
  destruct (DES_inv_blockP (key3 key) b) as [L1 U1]. destruct (DES_blockP (key2 key) (DES_inv_bytes (key3 key) b)) as [L2 U2].
  rewrite (proj2 (DES_bytes_inv _ _ L2 U2)), (proj1 (DES_bytes_inv _ _ L1 U1)), (proj2 (DES_bytes_inv _ _ H Hu)). reflexivity.
Qed.
Lemma t_mode_enc_dec mode key iv bs : blocks bs -> Forall (Forall ubyte) bs -> iv_ok mode iv ->
  t_mode_enc mode key iv (t_mode_dec mode key iv bs) = bs.
Proof.
  intros Hb Hu Hi. unfold t_mode_dec, t_mode_enc. destruct (Z.eqb_spec mode CBC) as [E|E].
  - destruct (Hi E). apply cbc_enc_dec; auto using EDE_DED.
  - apply (ecb_inv (DED key) (EDE key)); auto using EDE_DED.
Qed.
Lemma concat_ubyte bs : Forall (Forall ubyte) bs -> Forall ubyte (concat bs).
Proof. induction 1; [constructor|]. cbn [concat]. apply Forall_app. auto. Qed.
Lemma concat_blocks_inj bs : forall bs', blocks bs -> blocks bs' -> concat bs = concat bs' -> bs = bs'.
Proof.
  induction bs as [|b bs IH]; intros [|b' bs'] H H' E; auto.
  - exfalso. inversion H'; subst. cbn in E. destruct b'; [discriminate|discriminate].
  - exfalso. inversion H; subst. cbn in E. destruct b; discriminate.
  - inversion H; inversion H'; subst. cbn [concat] in E.
    assert (b = b' /\ concat bs = concat bs') as [-> E2].
    { assert (A : firstn 8 (b ++ concat bs) = firstn 8 (b' ++ concat bs')) by (now rewrite E).
      assert (B : skipn 8 (b ++ concat bs) = skipn 8 (b' ++ concat bs')) by (now rewrite E).
      rewrite !firstn_app in A. rewrite !skipn_app in B.
      replace (8 - length b)%nat with 0%nat in * by lia. replace (8 - length b')%nat with 0%nat in * by lia.
      rewrite !firstn_O, !app_nil_r, !firstn_all2 in A by lia. rewrite !skipn_O, !skipn_all2 in B by lia. auto. }
    f_equal. now apply IH.
Qed.
Lemma aligned_blocks m : zlen m mod 8 = 0 -> Forall ubyte m -> exists bs, m = concat bs /\ blocks bs /\ Forall (Forall ubyte) bs.
Proof.
  intros H Hu. destruct (split_blocks (length m / 8) m) as (bs & E & B & U & _); [unfold zlen in H; lia|exact Hu|eauto].
Qed.

Lemma C81_bijection_pf : forall key mode iv pad padmode d c, des_reach key mode iv pad padmode d ->
  (mode = CBC -> iv <> [] /\ Forall ubyte iv) -> zlen c mod 8 = 0 -> Forall ubyte c ->
  exists m, zlen m = zlen c /\ Forall ubyte m /\ fst (des_encrypt m [] (Some PAD_NORMAL) d) = Ok c
    /\ forall m', zlen m' mod 8 = 0 -> Forall ubyte m' -> fst (des_encrypt m' [] (Some PAD_NORMAL) d) = Ok c -> m' = m.
Proof.
  intros key mode iv pad padmode d c Hr Hi Hc Hu. destruct (aligned_blocks c Hc Hu) as (bs & -> & B & U).
  assert (Hiv : iv_ok mode iv).
  { intros E. destruct (Hi E). apply reach_wf in Hr as (_ & _ & [->|L] & _); [congruence|auto]. }
  assert (Hn : mode = CBC -> iv <> []) by (intros E; apply (Hi E)).
  destruct (mode_dec_blocks mode key iv bs B U Hiv) as (B1 & B2 & B3).
  exists (concat (mode_dec mode key iv bs)). split; [unfold zlen; rewrite !concat_blocks_length, B3 by assumption; reflexivity|].
  split; [now apply concat_ubyte|]. split.
  - destruct (des_enc_run _ _ _ _ _ _ _ Hr Hn B1) as (d' & E & _). rewrite E. cbn [fst]. now rewrite mode_enc_dec.
  - intros m' Hm Hum E. destruct (aligned_blocks m' Hm Hum) as (bs' & -> & B' & U').
    destruct (des_enc_run _ _ _ _ _ _ _ Hr Hn B') as (d' & E' & _). rewrite E' in E. cbn [fst] in E. apply Ok_inj in E.
    apply concat_blocks_inj in E; [|apply mode_enc_blocks|exact B]. rewrite <- E, mode_inv by assumption. reflexivity.
Qed.

Lemma C81_triple_pf : forall key mode iv pad padmode d c, tdes_reach key mode iv pad padmode d ->
  (mode = CBC -> Forall ubyte (iv ++ key)) -> zlen c mod 8 = 0 -> Forall ubyte c ->
  exists m, zlen m = zlen c /\ Forall ubyte m /\ fst (tdes_encrypt m [] (Some PAD_NORMAL) d) = Ok c
    /\ forall m', zlen m' mod 8 = 0 -> Forall ubyte m' -> fst (tdes_encrypt m' [] (Some PAD_NORMAL) d) = Ok c -> m' = m.
Proof.
  intros key mode iv pad padmode d c Hr Hi Hc Hu. destruct (aligned_blocks c Hc Hu) as (bs & -> & B & U).
  assert (Hiv : iv_ok mode (tdes_iv mode key iv)) by (apply treach_wf in Hr as (_ & Hk & Hil & _); now apply t_iv).
  destruct (t_mode_dec_blocks mode key _ bs B U Hiv) as (B1 & B2 & B3).
  exists (concat (t_mode_dec mode key (tdes_iv mode key iv) bs)). split; [unfold zlen; rewrite !concat_blocks_length, B3 by assumption; reflexivity|].
  split; [now apply concat_ubyte|]. split.
  - destruct (tdes_enc_run _ _ _ _ _ _ _ Hr Hi B1) as (d' & E). rewrite E. cbn [fst]. now rewrite t_mode_enc_dec.
  - intros m' Hm Hum E. destruct (aligned_blocks m' Hm Hum) as (bs' & -> & B' & U').
    destruct (tdes_enc_run _ _ _ _ _ _ _ Hr Hi B') as (d' & E'). rewrite E' in E. cbn [fst] in E. apply Ok_inj in E.
    apply concat_blocks_inj in E; [|apply t_mode_enc_blocks|exact B]. rewrite <- E, t_mode_inv by assumption. reflexivity.
Qed.

(** *** C82: a changed ciphertext block only affects its own plaintext block and
    (in CBC mode) the next one *)
Lemma xor_bytes_comm a : forall b, xor_bytes a b = xor_bytes b a.
Proof. induction a as [|x a IH]; intros [|y b]; cbn; auto. f_equal; [apply Z.lxor_comm|apply IH]. Qed.
Lemma xor_bytes_shift a : forall b c, length a = length b -> length b = length c ->
  xor_bytes a c = xor_bytes (xor_bytes a b) (xor_bytes b c).
Proof.
  induction a as [|x a IH]; intros [|y b] [|z c] H H'; cbn in *; try discriminate; auto.
  f_equal; [|apply IH; congruence]. rewrite Z.lxor_assoc. f_equal. rewrite <- Z.lxor_assoc, Z.lxor_nilpotent. apply eq_sym, Z.lxor_0_l.
Qed.
Lemma cbc_dec_app D : forall cs iv cs', cbc_dec D iv (cs ++ cs') = cbc_dec D iv cs ++ cbc_dec D (last cs iv) cs'.
Proof.
  induction cs as [|c cs IH]; intros iv cs'; [reflexivity|]. cbn [app cbc_dec]. rewrite IH.
  cbn [app]. do 3 f_equal. destruct cs; [reflexivity|]. cbn [last]. clear. revert b. induction cs; intros; [reflexivity|]. cbn [last]. destruct cs; auto.
Qed.
Lemma blocks_swap (P : list Z -> Prop) cs1 c c' n cs2 : Forall P (cs1 ++ c :: c' :: n :: cs2) ->
  Forall P cs1 /\ P c /\ P c' /\ P n /\ Forall P cs2 /\ Forall P (cs1 ++ c :: n :: cs2) /\ Forall P (cs1 ++ c' :: n :: cs2).
Proof.
  intros H. apply Forall_app in H as [H1 H]. inversion H as [|? ? Hc H2]; subst. inversion H2 as [|? ? Hc' H3]; subst.
  inversion H3; subst. repeat split; auto; apply Forall_app; split; auto.
Qed.
Lemma local_gen (dec : list Z -> res (list Z)) (cbc : bool) (E D : block -> block) iv :
  (forall cs, blocks cs -> Forall (Forall ubyte) cs -> dec (concat cs) = Ok (concat (if cbc then cbc_dec D iv cs else ecb D cs))) ->
  (forall b, length (D b) = 8%nat /\ Forall ubyte (D b)) ->
  (forall b, length b = 8%nat -> Forall ubyte b -> E (D b) = b) ->
  (cbc = true -> length iv = 8%nat /\ Forall ubyte iv) -> local_change dec cbc.
Proof.
  intros Hdec HD HED Hi cs1 c c' n cs2 Hb Hu.
  destruct (blocks_swap _ _ _ _ _ _ Hb) as (B1 & Bc & Bc' & Bn & B2 & BA & BB).
  destruct (blocks_swap _ _ _ _ _ _ Hu) as (U1 & Uc & Uc' & Un & U2 & UA & UB).
  assert (HD' : forall b, length (D b) = 8%nat) by (intros; apply HD).
  destruct cbc.
  - destruct (Hi eq_refl) as [I1 I2]. set (iv' := last cs1 iv).
    assert (L' : length iv' = 8%nat /\ Forall ubyte iv').
    { unfold iv'. clear -B1 U1 I1 I2. revert B1 U1. induction cs1 as [|x cs1 IH]; intros B1 U1; [auto|].
      inversion B1; inversion U1; subst. cbn [last]. destruct cs1; auto. }
    exists (cbc_dec D iv cs1), (xor_bytes (D c) iv'), (xor_bytes (D c') iv'), (xor_bytes (D n) c), (cbc_dec D n cs2).
    destruct (cbc_dec_blocks D HD cs1 iv B1 U1 I1 I2) as (G1 & _ & G3).
    destruct (cbc_dec_blocks D HD cs2 n B2 U2 Bn Un) as (G4 & _ & _).
    split. { apply Forall_app. split; [exact G1|]. repeat constructor; auto; rewrite xor_bytes_length; rewrite ?HD'; auto; now destruct L'. }
    split; [exact G3|]. split; [now rewrite Hdec, cbc_dec_app by assumption|]. split.
    + rewrite Hdec, cbc_dec_app by assumption. cbn [cbc_dec]. fold iv'. rewrite <- xor_bytes_shift by (rewrite ?HD'; congruence). reflexivity.
    + intros Hn Ex. apply Hn. rewrite <- (HED c Bc Uc), <- (HED c' Bc' Uc'). f_equal.
      rewrite <- (xor_bytes_twice (D c) iv'), <- (xor_bytes_twice (D c') iv'), Ex by (rewrite HD'; now destruct L'). reflexivity.
  - exists (ecb D cs1), (D c), (D c'), (D n), (ecb D cs2). unfold ecb in *.
    split. { apply Forall_app. split; [apply (ecb_blocks D HD cs1)|]. repeat constructor; auto. apply (ecb_blocks D HD cs2). }
    split; [apply map_length|]. split; [now rewrite Hdec, map_app by assumption|]. split; [now rewrite Hdec, map_app by assumption|].
    intros Hn Ex. apply Hn. now rewrite <- (HED c Bc Uc), <- (HED c' Bc' Uc'), Ex.
Qed.

Lemma C82_des_pf : forall key mode iv padmode d, des_reach key mode iv [] padmode d ->
  (mode = ECB -> local_change (fun c => fst (des_decrypt c [] (Some PAD_NORMAL) d)) false)
  /\ (mode = CBC -> iv <> [] -> Forall ubyte iv -> local_change (fun c => fst (des_decrypt c [] (Some PAD_NORMAL) d)) true).
Proof.
  intros key mode iv padmode d Hr. split.
  - intros ->. apply (local_gen _ false (DES_bytes key) (DES_inv_bytes key) iv); [|apply DES_inv_blockP| |discriminate].
    + intros cs B U. now rewrite (des_dec_run _ _ _ _ _ _ Hr) by (auto; discriminate).
    + intros x H1 H2. exact (proj2 (DES_bytes_inv key x H1 H2)).
  - intros -> Hn Hu. apply (local_gen _ true (DES_bytes key) (DES_inv_bytes key) iv); [|apply DES_inv_blockP| |].
    + intros cs B U. now rewrite (des_dec_run _ _ _ _ _ _ Hr) by auto.
    + intros x H1 H2. exact (proj2 (DES_bytes_inv key x H1 H2)).
    + intros _. apply reach_wf in Hr as (_ & _ & [->|L] & _); [congruence|auto].
Qed.

Lemma C82_triple_pf : forall key mode iv padmode d, tdes_reach key mode iv [] padmode d ->
  (mode = ECB -> local_change (fun c => fst (tdes_decrypt c [] (Some PAD_NORMAL) d)) false)
  /\ (mode = CBC -> Forall ubyte (iv ++ key) -> local_change (fun c => fst (tdes_decrypt c [] (Some PAD_NORMAL) d)) true).
Proof.
  intros key mode iv padmode d Hr. split.
  - intros ->. apply (local_gen _ false (EDE key) (DED key) iv); [|apply DED_blockP|apply EDE_DED|discriminate].
    intros cs B U. now rewrite (tdes_dec_run _ _ _ _ _ _ Hr) by (auto; discriminate).
  - intros -> Hu. apply (local_gen _ true (EDE key) (DED key) (tdes_iv CBC key iv)); [|apply DED_blockP|apply EDE_DED|].
    + intros cs B U. now rewrite (tdes_dec_run _ _ _ _ _ _ Hr) by auto.
    + intros _. apply treach_wf in Hr as (_ & Hk & Hil & _). now apply t_iv.
Qed.

(** *** C83: messages can be encrypted piecewise *)
Lemma cbc_enc_app E : forall bs iv bs', cbc_enc E iv (bs ++ bs') = cbc_enc E iv bs ++ cbc_enc E (last (cbc_enc E iv bs) iv) bs'.
Proof.
  induction bs as [|b bs IH]; intros iv bs'; [reflexivity|]. cbn [app cbc_enc]. rewrite IH. cbn [app]. do 3 f_equal.
  generalize (E (xor_bytes b iv)) as x. intros x. generalize (cbc_enc E x bs) as l. clear. intros l.
  destruct l as [|y l]; [reflexivity|]. cbn [last]. revert y. induction l; intros; [reflexivity|]. cbn [last]. destruct l; auto.
Qed.
Lemma last_block bs (iv : block) : blocks bs -> bs <> [] -> skipn (length (concat bs) - 8) (concat bs) = last bs iv.
Proof.
  intros Hb Hn. destruct (exists_last Hn) as (l & x & ->). apply Forall_app in Hb as [Hl Hx]. inversion Hx; subst.
  rewrite last_last, concat_app. cbn [concat]. rewrite app_nil_r, app_length, skipn_app.
  rewrite skipn_all2 by lia. replace (length (concat l) + length x - 8 - length (concat l))%nat with 0%nat by lia. reflexivity.
Qed.

Lemma C83_des_pf : forall key mode iv pad padmode d bs bs', des_reach key mode iv pad padmode d ->
  (mode = ECB \/ mode = CBC /\ iv <> []) -> bs <> [] ->
  Forall (fun b => length b = 8%nat) bs -> Forall (fun b => length b = 8%nat) bs' ->
  exists e e', fst (des_encrypt (concat bs) [] (Some PAD_NORMAL) d) = Ok e
    /\ fst (des_encrypt (concat bs ++ concat bs') [] (Some PAD_NORMAL) d) = Ok (e ++ e')
    /\ length e = length (concat bs)
    /\ forall iv2 d2, iv2 = (if mode =? CBC then skipn (length e - 8) e else iv) -> des_reach key mode iv2 pad padmode d2 ->
         fst (des_encrypt (concat bs') [] (Some PAD_NORMAL) d2) = Ok e'.
Proof.
  intros key mode iv pad padmode d bs bs' Hr Hm Hn Hb Hb'.
  assert (Hi : mode = CBC -> iv <> []) by (intros E; destruct Hm as [->|[]]; [discriminate|assumption]).
  destruct (des_enc_run _ _ _ _ _ _ bs Hr Hi Hb) as (d1 & E1 & _).
  destruct (des_enc_run _ _ _ _ _ _ (bs ++ bs') Hr Hi) as (d2 & E2 & _); [now apply Forall_app|].
  destruct (mode_enc_blocks mode key iv bs) as (M1 & _ & M3).
  exists (concat (mode_enc mode key iv bs)), (concat (mode_enc mode key (if mode =? CBC then last (mode_enc mode key iv bs) iv else iv) bs')).
  rewrite E1. split; [reflexivity|]. rewrite concat_app in E2. rewrite E2. split.
  - cbn [fst]. f_equal. rewrite <- concat_app. f_equal. unfold mode_enc. destruct (mode =? CBC); [apply cbc_enc_app|].
    unfold ecb. apply map_app.
  - split; [rewrite !concat_blocks_length by assumption; now rewrite M3|]. intros iv2 d3 Ei Hr3.
    assert (Hne : mode_enc mode key iv bs <> []) by (destruct (mode_enc mode key iv bs); [destruct bs; [congruence|discriminate]|discriminate]).
    rewrite (last_block _ iv M1 Hne) in Ei.
    assert (Hi3 : mode = CBC -> iv2 <> []).
    { intros ->. change (CBC =? CBC) with true in Ei. cbv iota in Ei. rewrite Ei. destruct (exists_last Hne) as (l & x & Ex).
      rewrite Ex, last_last. rewrite Ex in M1. apply Forall_app in M1 as [_ M1]. inversion M1; subst. destruct x; discriminate. }
    destruct (des_enc_run _ _ _ _ _ _ bs' Hr3 Hi3 Hb') as (d4 & E4 & _). rewrite E4. cbn [fst]. do 3 f_equal. rewrite Ei.
    destruct (mode =? CBC); reflexivity.
Qed.

Lemma last_in {A} (l : list A) d : l <> [] -> In (last l d) l.
Proof. intros H. destruct (exists_last H) as (l' & x & ->). rewrite last_last. apply in_or_app. right. left. reflexivity. Qed.

Lemma C83_triple_pf : forall key mode iv pad padmode d bs bs', tdes_reach key mode iv pad padmode d ->
  mode = ECB \/ mode = CBC /\ Forall ubyte (iv ++ key) -> bs <> [] ->
  Forall (fun b => length b = 8%nat) bs -> Forall (fun b => length b = 8%nat) bs' ->
  exists e e', fst (tdes_encrypt (concat bs) [] (Some PAD_NORMAL) d) = Ok e
    /\ fst (tdes_encrypt (concat bs ++ concat bs') [] (Some PAD_NORMAL) d) = Ok (e ++ e')
    /\ length e = length (concat bs)
    /\ forall iv2 d2, iv2 = (if mode =? CBC then skipn (length e - 8) e else iv) -> tdes_reach key mode iv2 pad padmode d2 ->
         fst (tdes_encrypt (concat bs') [] (Some PAD_NORMAL) d2) = Ok e'.
Proof.
  intros key mode iv pad padmode d bs bs' Hr Hm Hn Hb Hb'.
  assert (Hi : mode = CBC -> Forall ubyte (iv ++ key)) by (intros E; destruct Hm as [->|[]]; [discriminate|assumption]).
  destruct (tdes_enc_run _ _ _ _ _ _ bs Hr Hi Hb) as (d1 & E1).
  destruct (tdes_enc_run _ _ _ _ _ _ (bs ++ bs') Hr Hi) as (d2 & E2); [now apply Forall_app|].
  remember (tdes_iv mode key iv) as iv1 eqn:Eiv.
  destruct (t_mode_enc_blocks mode key iv1 bs) as (M1 & M2 & M3).
  exists (concat (t_mode_enc mode key iv1 bs)), (concat (t_mode_enc mode key (if mode =? CBC then last (t_mode_enc mode key iv1 bs) iv1 else iv1) bs')).
  rewrite E1. split; [reflexivity|]. rewrite concat_app in E2. rewrite E2. split.
  - cbn [fst]. f_equal. rewrite <- concat_app. f_equal. unfold t_mode_enc. destruct (mode =? CBC); [apply cbc_enc_app|].
    unfold ecb. apply map_app.
  - split; [rewrite !concat_blocks_length by assumption; now rewrite M3|]. intros iv2 d3 Ei Hr3.
    assert (Hne : t_mode_enc mode key iv1 bs <> []) by (destruct (t_mode_enc mode key iv1 bs); [destruct bs; [congruence|discriminate]|discriminate]).
    rewrite (last_block _ iv1 M1 Hne) in Ei.
    pose proof (last_in _ iv1 Hne) as Hl. unfold blocks in M1. rewrite Forall_forall in M1, M2. pose proof (M1 _ Hl) as L1. pose proof (M2 _ Hl) as L2. cbv beta in L1.
    assert (Hi3 : mode = CBC -> Forall ubyte (iv2 ++ key)).
    { intros E. rewrite E in *. change (CBC =? CBC) with true in Ei. cbv iota in Ei. rewrite Ei. apply Forall_app. split; [exact L2|].
      specialize (Hi eq_refl). now apply Forall_app in Hi. }
    destruct (tdes_enc_run _ _ _ _ _ _ bs' Hr3 Hi3 Hb') as (d4 & E4). rewrite E4. cbn [fst]. do 3 f_equal. rewrite Ei.
    destruct (mode =? CBC) eqn:Em.
    + unfold tdes_iv. destruct (last (t_mode_enc mode key iv1 bs) iv1) eqn:El; [|reflexivity].
      discriminate (eq_trans (eq_sym L1) (f_equal (@length Z) El)).
    + symmetry. exact Eiv.
Qed.

Lemma C83_decrypt_pf : forall key mode iv padmode d bs bs', des_reach key mode iv [] padmode d ->
  mode = ECB \/ mode = CBC /\ iv <> [] /\ Forall ubyte iv -> bs <> [] ->
  Forall (fun b => length b = 8%nat) (bs ++ bs') -> Forall (Forall ubyte) (bs ++ bs') ->
  exists e e', fst (des_decrypt (concat bs) [] (Some PAD_NORMAL) d) = Ok e
    /\ fst (des_decrypt (concat bs ++ concat bs') [] (Some PAD_NORMAL) d) = Ok (e ++ e')
    /\ length e = length (concat bs)
    /\ forall iv2 d2, iv2 = (if mode =? CBC then last bs [] else iv) -> des_reach key mode iv2 [] padmode d2 ->
         fst (des_decrypt (concat bs') [] (Some PAD_NORMAL) d2) = Ok e'.
Proof.
  intros key mode iv padmode d bs bs' Hr Hm Hn Hb Hu.
  assert (Hi : mode = CBC -> iv <> [] /\ Forall ubyte iv) by (intros E; destruct Hm as [->|[]]; [discriminate|assumption]).
  pose proof (des_dec_run _ _ _ _ _ (bs ++ bs') Hr Hi Hb Hu) as E2. rewrite concat_app in E2.
  apply Forall_app in Hb as [Hb Hb']. apply Forall_app in Hu as [Hu Hu'].
  pose proof (des_dec_run _ _ _ _ _ bs Hr Hi Hb Hu) as E1.
  assert (Hiv : iv_ok mode iv).
  { intros E. destruct (Hi E) as [I1 I2]. split; [|exact I2]. apply reach_wf in Hr as (_ & _ & Hil & _). destruct Hil; [congruence|assumption]. }
  destruct (mode_dec_blocks mode key iv bs Hb Hu Hiv) as (M1 & M2 & M3).
  exists (concat (mode_dec mode key iv bs)), (concat (mode_dec mode key (if mode =? CBC then last bs iv else iv) bs')).
  split; [exact E1|]. rewrite E2. split.
  - f_equal. rewrite <- concat_app. f_equal. unfold mode_dec. destruct (mode =? CBC); [apply cbc_dec_app|].
    unfold ecb. apply map_app.
  - split; [rewrite !concat_blocks_length by assumption; now rewrite M3|]. intros iv2 d3 Ei Hr3.
    pose proof (last_in _ [] Hn) as Hl. pose proof Hb as Hb0. pose proof Hu as Hu0. rewrite Forall_forall in Hb0, Hu0.
    pose proof (Hb0 _ Hl) as L1. pose proof (Hu0 _ Hl) as L2. cbv beta in L1.
    assert (Hi3 : mode = CBC -> iv2 <> [] /\ Forall ubyte iv2).
    { intros ->. change (CBC =? CBC) with true in Ei. cbv iota in Ei. rewrite Ei. split; [|exact L2]. intros E. rewrite E in L1. discriminate. }
    rewrite (des_dec_run _ _ _ _ _ bs' Hr3 Hi3 Hb' Hu'). do 3 f_equal. rewrite Ei.
    destruct (mode =? CBC); [|reflexivity]. destruct (exists_last Hn) as (l & x & ->). rewrite !last_last. reflexivity.
Qed.

Lemma C83_decrypt_triple_pf : forall key mode iv padmode d bs bs', tdes_reach key mode iv [] padmode d ->
  mode = ECB \/ mode = CBC /\ Forall ubyte (iv ++ key) -> bs <> [] ->
  Forall (fun b => length b = 8%nat) (bs ++ bs') -> Forall (Forall ubyte) (bs ++ bs') ->
  exists e e', fst (tdes_decrypt (concat bs) [] (Some PAD_NORMAL) d) = Ok e
    /\ fst (tdes_decrypt (concat bs ++ concat bs') [] (Some PAD_NORMAL) d) = Ok (e ++ e')
    /\ length e = length (concat bs)
    /\ forall iv2 d2, iv2 = (if mode =? CBC then last bs [] else iv) -> tdes_reach key mode iv2 [] padmode d2 ->
         fst (tdes_decrypt (concat bs') [] (Some PAD_NORMAL) d2) = Ok e'.
Proof.
  intros key mode iv padmode d bs bs' Hr Hm Hn Hb Hu.
  assert (Hi : mode = CBC -> Forall ubyte (iv ++ key)) by (intros E; destruct Hm as [->|[]]; [discriminate|assumption]).
  pose proof (tdes_dec_run _ _ _ _ _ (bs ++ bs') Hr Hi Hb Hu) as E2. rewrite concat_app in E2.
  apply Forall_app in Hb as [Hb Hb']. apply Forall_app in Hu as [Hu Hu'].
  pose proof (tdes_dec_run _ _ _ _ _ bs Hr Hi Hb Hu) as E1.
  assert (Hiv : iv_ok mode (tdes_iv mode key iv)).
  { apply treach_wf in Hr as (_ & Hk & Hil & _). now apply t_iv. }
  remember (tdes_iv mode key iv) as iv1 eqn:Eiv.
  destruct (t_mode_dec_blocks mode key iv1 bs Hb Hu Hiv) as (M1 & M2 & M3).
  exists (concat (t_mode_dec mode key iv1 bs)), (concat (t_mode_dec mode key (if mode =? CBC then last bs iv1 else iv1) bs')).
  split; [exact E1|]. rewrite E2. split.
  - f_equal. rewrite <- concat_app. f_equal. unfold t_mode_dec. destruct (mode =? CBC); [apply cbc_dec_app|].
    unfold ecb. apply map_app.
  - split; [rewrite !concat_blocks_length by assumption; now rewrite M3|]. intros iv2 d3 Ei Hr3.
    pose proof (last_in _ [] Hn) as Hl. pose proof Hb as Hb0. pose proof Hu as Hu0. rewrite Forall_forall in Hb0, Hu0.
    pose proof (Hb0 _ Hl) as L1. pose proof (Hu0 _ Hl) as L2. cbv beta in L1.
    assert (Hi3 : mode = CBC -> Forall ubyte (iv2 ++ key)).
    { intros E. rewrite E in *. change (CBC =? CBC) with true in Ei. cbv iota in Ei. rewrite Ei. apply Forall_app. split; [exact L2|].
      specialize (Hi eq_refl). now apply Forall_app in Hi. }
    rewrite (tdes_dec_run _ _ _ _ _ bs' Hr3 Hi3 Hb' Hu'). do 3 f_equal. rewrite Ei.
    destruct (mode =? CBC) eqn:Em; [|symmetry; exact Eiv].
    unfold tdes_iv. destruct (exists_last Hn) as (l & x & ->). rewrite !last_last in *. destruct x; [discriminate|reflexivity].
Qed.

(** *** C84: keying options of triple DES *)
Lemma t_enc_fun key key' mode iv pad padmode pad' padmode' d d' bs :
  tdes_reach key mode iv pad padmode d -> tdes_reach key' mode iv pad' padmode' d' ->
  (mode = ECB \/ mode = CBC /\ iv <> [] /\ Forall ubyte iv) -> blocks bs ->
  (forall b, EDE key b = EDE key' b) ->
  fst (tdes_encrypt (concat bs) [] (Some PAD_NORMAL) d) = fst (tdes_encrypt (concat bs) [] (Some PAD_NORMAL) d').
Proof.
  intros Hr Hr' Hm Hb HE. apply treach_wf in Hr as (W & HK & HI & _). apply treach_wf in Hr' as (W' & HK' & HI' & _).
  assert (Ti : forall k, (mode = ECB \/ mode = CBC /\ iv <> [] /\ Forall ubyte iv) -> iv_ok mode (tdes_iv mode k iv)
     /\ (mode = CBC -> tdes_iv mode k iv = iv)).
  { intros k [->|(-> & A & B)]; [split; discriminate|]. unfold tdes_iv. destruct iv; [congruence|]. split; auto. intros _.
    destruct HI; [congruence|auto]. }
  destruct (t_encrypt key _ d (concat bs) [] (Some PAD_NORMAL) bs W) as (s & E & _); [now apply pad_normal|auto|now apply Ti|].
  destruct (t_encrypt key' _ d' (concat bs) [] (Some PAD_NORMAL) bs W') as (s' & E' & _); [now apply pad_normal|auto|now apply Ti|].
  rewrite E, E'. cbn [fst b_mode b_iv]. do 2 f_equal. unfold t_mode_enc. destruct (Z.eqb_spec mode CBC) as [Em|Em].
  - rewrite !(proj2 (Ti _ Hm) Em). clear -HE. revert iv. induction bs; intros; [reflexivity|]. cbn [cbc_enc]. rewrite HE, IHbs. reflexivity.
  - unfold ecb. apply map_ext. exact HE.
Qed.
Lemma split16 (k1 k2 : list Z) : length k1 = 8%nat -> length k2 = 8%nat ->
  key1 (k1 ++ k2) = k1 /\ key2 (k1 ++ k2) = k2 /\ key3 (k1 ++ k2) = k1.
Proof.
  intros H1 H2. unfold key1, key2, key3. rewrite app_length, H1, H2. change (8 + 8 =? 16)%nat with true. cbv iota.
  rewrite firstn_app, skipn_app, H1, Nat.sub_diag, firstn_O, skipn_O, app_nil_r, (firstn_all2 k1), (skipn_all2 k1) by lia.
  cbn [app]. rewrite (firstn_all2 k2) by lia. auto.
Qed.
Lemma split24 (k1 k2 k3 : list Z) : length k1 = 8%nat -> length k2 = 8%nat -> length k3 = 8%nat ->
  key1 (k1 ++ k2 ++ k3) = k1 /\ key2 (k1 ++ k2 ++ k3) = k2 /\ key3 (k1 ++ k2 ++ k3) = k3.
Proof.
  intros H1 H2 H3. do 8 (destruct k1 as [|? k1]; [discriminate|]). destruct k1; [|discriminate].
  do 8 (destruct k2 as [|? k2]; [discriminate|]). destruct k2; [|discriminate].
  do 8 (destruct k3 as [|? k3]; [discriminate|]). destruct k3; [|discriminate]. repeat split.
Qed.

Lemma C84_two_keys_pf : forall k1 k2 mode iv pad padmode pad' padmode' d d' bs, length k1 = 8%nat -> length k2 = 8%nat ->
  tdes_reach (k1 ++ k2) mode iv pad padmode d -> tdes_reach (k1 ++ k2 ++ k1) mode iv pad' padmode' d' ->
  (mode = ECB \/ mode = CBC /\ iv <> [] /\ Forall ubyte iv) -> Forall (fun b => length b = 8%nat) bs ->
  fst (tdes_encrypt (concat bs) [] (Some PAD_NORMAL) d) = fst (tdes_encrypt (concat bs) [] (Some PAD_NORMAL) d').
Proof.
  intros k1 k2 mode iv pad padmode pad' padmode' d d' bs H1 H2 Hr Hr' Hm Hb. eapply t_enc_fun; eauto.
  intros b. unfold EDE. destruct (split16 k1 k2 H1 H2) as (-> & -> & ->). now destruct (split24 k1 k2 k1 H1 H2 H1) as (-> & -> & ->).
Qed.

Lemma C84_collapse_pf : forall k k' key mode iv pad padmode pad' padmode' d d' bs, length k = 8%nat -> length k' = 8%nat ->
  (key = k ++ k ++ k' \/ key = k' ++ k ++ k) ->
  tdes_reach key mode iv pad padmode d -> des_reach k' mode iv pad' padmode' d' ->
  (mode = ECB \/ mode = CBC /\ iv <> [] /\ Forall ubyte iv) -> Forall (fun b => length b = 8%nat) bs -> Forall (Forall ubyte) bs ->
  fst (tdes_encrypt (concat bs) [] (Some PAD_NORMAL) d) = fst (des_encrypt (concat bs) [] (Some PAD_NORMAL) d').
Proof.
  intros k k' key mode iv pad padmode pad' padmode' d d' bs H H' Hkey Hr Hr' Hm Hb Hu.
  assert (HE : forall b, length b = 8%nat -> Forall ubyte b -> EDE key b = DES_bytes k' b).
  { intros b Lb Ub. unfold EDE. destruct Hkey as [->| ->].
    - destruct (split24 k k k' H H H') as (-> & -> & ->). now rewrite (proj1 (DES_bytes_inv k b Lb Ub)).
    - destruct (split24 k' k k H' H H) as (-> & -> & ->). destruct (DES_blockP k' b) as [L U].
      now rewrite (proj2 (DES_bytes_inv k _ L U)). }
  pose proof Hr as Hr1. apply treach_wf in Hr as (W & HK & HI & _).
  assert (Hi : mode = CBC -> iv <> []) by (intros ->; destruct Hm as [Q|(_ & Q & _)]; [discriminate|exact Q]).
  assert (Hiv : iv_ok mode (tdes_iv mode key iv) /\ (mode = CBC -> tdes_iv mode key iv = iv)).
  { destruct Hm as [->|(-> & A & B)]; [split; discriminate|]. unfold tdes_iv. destruct iv; [congruence|]. split; auto. intros _.
    destruct HI; [congruence|auto]. }
  destruct (t_encrypt key _ d (concat bs) [] (Some PAD_NORMAL) bs W) as (s & E & _); [now apply pad_normal|auto|apply Hiv|].
  destruct (des_enc_run _ _ _ _ _ _ bs Hr' Hi Hb) as (s' & E' & _).
  rewrite E, E'. cbn [fst b_mode b_iv]. do 2 f_equal. unfold t_mode_enc, mode_enc. destruct (Z.eqb_spec mode CBC) as [Em|Em].
  - rewrite (proj2 Hiv Em). destruct Hm as [->|(_ & A & B)]; [discriminate|]. assert (L : length iv = 8%nat) by (destruct HI; [congruence|assumption]).
    clear -HE Hb Hu A B L. revert iv A B L. induction bs as [|b bs IH]; intros; [reflexivity|]. inversion Hb; inversion Hu; subst.
    assert (Lx : length (xor_bytes b iv) = 8%nat) by (rewrite xor_bytes_length; congruence).
    assert (Ux : Forall ubyte (xor_bytes b iv)) by (now apply xor_bytes_ubyte).
    cbn [cbc_enc]. rewrite HE by assumption. f_equal. destruct (DES_blockP k' (xor_bytes b iv)) as [L1 U1].
    apply IH; auto. intro Z. rewrite Z in L1. discriminate.
  - clear -HE Hb Hu. induction bs as [|b bs IH]; [reflexivity|]. inversion Hb; inversion Hu; subst. unfold ecb in *. cbn [map]. rewrite HE, IH; auto.
Qed.
