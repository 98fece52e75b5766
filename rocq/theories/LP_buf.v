(** * Proofs of C133: input and output arrays that are the same: proofs *)
From Verif Require Import Py M_utils M_util M_key M_cipher M_digest M_bertag M_bertlv M_bufheap S_Base S_DES S_Cipher S_Buf L_Py L_util.
From Verif Require LP_cipher.
From Coq Require Import Lia Bool.

Lemma copy_loop_at n : forall src so dest do i h g, src <> dest -> h src = g 0%nat -> h dest = g 1%nat ->
  let x := for_loop n i (copy_body src so dest do) h in let y := for_loop n i (copy_body 0%nat so 1%nat do) g in
  fst x = fst y /\ snd x dest = snd y 1%nat.
Proof.
  induction n as [|n IH]; intros src so dest do i h g N Es Ed; cbn [for_loop]; [now split|].
  unfold bind. unfold copy_body at 1 3 5 7. unfold bind, hget_at, hset_at. rewrite Es.
  destruct (py_get (g 0%nat) (so + i)) as [v|e]; [|now split]. rewrite Ed. destruct (py_set (g 1%nat) (do + i) v) as [a|e]; [|now split].
  apply IH; [exact N| |now rewrite !hset_same].
  rewrite !hset_other by congruence. exact Es.
Qed.
(** a copy between two arrays depends on these two only *)
Lemma arrayCopy_at src so dest do len h : src <> dest -> let x := arrayCopy src so dest do len h in let y := arrayCopy_into (h src) so do len (h dest) in
  fst x = fst y /\ snd x dest = snd y /\ forall l, l <> dest -> snd x l = h l.
Proof.
  intros N. cbv zeta. unfold arrayCopy_into. rewrite !arrayCopy_unfold.
  set (g := fun k : loc => match k with O => h src | _ => h dest end).
  destruct (copy_loop_at (Z.to_nat len) src so dest do 0 h g N eq_refl eq_refl) as [A B].
  destruct (copy_loop_frame (Z.to_nat len) src so dest do 0 h) as [F _].
  destruct (for_loop (Z.to_nat len) 0 (copy_body src so dest do) h) as [[[]|e] h1], (for_loop (Z.to_nat len) 0 (copy_body 0%nat so 1%nat do) g) as [[[]|e'] h2]; cbn [fst snd] in *; try discriminate.
  - split; [reflexivity|]. split; [exact B|exact F].
  - assert (e = e') by congruence. subst e'. destruct e; cbn [fst snd]; (split; [reflexivity|]); (split; [exact B|exact F]).
Qed.

Lemma C133_des_pf : forall d r inB io il outB oo c h, ~ In inB [d; r] -> ~ In outB [d; r] ->
  let x := des_doFinal_at d r inB io il outB oo (c, h) in let y := des_doFinal (h inB) io il oo (c, h outB) in
  fst x = fst y /\ fst (snd x) = fst (snd y) /\ wrote outB [d; r] h (snd (snd x)) (snd (snd y)).
Proof.
  intros d r inB io il outB oo c h Hi Ho. cbn [In] in Hi, Ho. assert (I1 : inB <> d) by (intros ->; apply Hi; auto). assert (O1 : outB <> d) by (intros ->; apply Ho; auto). assert (O2 : outB <> r) by (intros ->; apply Ho; auto).
  cbv zeta. unfold des_doFinal_at, des_doFinal, bind, get, put, lift, ret, raise. cbv beta iota.
  destruct (negb (c_init c)); [repeat split|].
  destruct (arrayCopy_at inB io d 0 il (hset h d (py_repeat 0 il)) I1) as (A & B & C).
  rewrite hset_same, (hset_other h d (py_repeat 0 il) inB I1) in A, B.
  assert (W0 : forall l, l <> outB -> ~ In l [d; r] -> snd (arrayCopy inB io d 0 il (hset h d (py_repeat 0 il))) l = h l).
  { intros l _ Hl. assert (l <> d) by (intros ->; apply Hl; left; reflexivity). rewrite C by assumption. now apply hset_other. }
  assert (Wo : snd (arrayCopy inB io d 0 il (hset h d (py_repeat 0 il))) outB = h outB) by (rewrite C by assumption; now apply hset_other).
  destruct (arrayCopy inB io d 0 il (hset h d (py_repeat 0 il))) as [[[]|e] h1], (arrayCopy_into (h inB) io 0 il (py_repeat 0 il)) as [[[]|e'] data]; cbn [fst snd] in *; try discriminate.
  2: { assert (e = e') by congruence. subst e'. repeat split; assumption. }
  rewrite B. destruct (c_mode c) as [m|]; [|repeat split; assumption]. destruct (c_engine c) as [g|]; [|repeat split; assumption].
  destruct (engine_run (m =? MODE_ENCRYPT) (arrayTobinary data) g) as [[res|e] g']; cbn [fst snd]; [|repeat split; assumption].
  cbv zeta. rewrite hset_same. set (out := binaryToarray res).
  destruct (arrayCopy_at r 0 outB oo (zlen out) (hset h1 r out)) as (A2 & B2 & C2); [congruence|].
  rewrite hset_same, (hset_other h1 r out outB O2), Wo in A2, B2. destruct (arrayCopy r 0 outB oo (zlen out) (hset h1 r out)) as [[[]|e] h2], (arrayCopy_into out 0 oo (zlen out) (h outB)) as [[[]|e'] o2]; cbn [fst snd] in *; try discriminate.
  - rewrite (C2 r) by congruence. rewrite hset_same. repeat split; [exact B2|]. intros l L1 L2. rewrite C2 by assumption. rewrite hset_other by (intros ->; apply L2; right; left; reflexivity). now apply W0.
  - assert (e = e') by congruence. subst e'. repeat split; [exact B2|]. intros l L1 L2. rewrite C2 by assumption. rewrite hset_other by (intros ->; apply L2; right; left; reflexivity). now apply W0.
Qed.

Lemma C133_rsa_pf : forall X rnd c k d r inB io il outB oo h, ~ In inB [d; r] -> ~ In outB [d; r] ->
  let x := rsa_doFinal_at X rnd c k d r inB io il outB oo h in let y := rsa_doFinal X rnd c k (h inB) io il oo (h outB) in
  fst x = fst y /\ wrote outB [d; r] h (snd x) (snd y).
Proof.
  intros X rnd c k d r inB io il outB oo h Hi Ho. cbn [In] in Hi, Ho. assert (I1 : inB <> d) by (intros ->; apply Hi; auto). assert (O1 : outB <> d) by (intros ->; apply Ho; auto). assert (O2 : outB <> r) by (intros ->; apply Ho; auto).
  cbv zeta. unfold rsa_doFinal_at, rsa_doFinal. destruct (negb (c_init c)); [repeat split|].
  destruct (arrayCopy_at inB io d 0 il (hset h d (py_repeat 0 il)) I1) as (A & B & C).
  rewrite hset_same, (hset_other h d (py_repeat 0 il) inB I1) in A, B.
  assert (W0 : forall l, l <> outB -> ~ In l [d; r] -> snd (arrayCopy inB io d 0 il (hset h d (py_repeat 0 il))) l = h l).
  { intros l _ Hl. assert (l <> d) by (intros ->; apply Hl; left; reflexivity). rewrite C by assumption. now apply hset_other. }
  assert (Wo : snd (arrayCopy inB io d 0 il (hset h d (py_repeat 0 il))) outB = h outB) by (rewrite C by assumption; now apply hset_other).
  destruct (arrayCopy inB io d 0 il (hset h d (py_repeat 0 il))) as [[[]|e] h1], (arrayCopy_into (h inB) io 0 il (py_repeat 0 il)) as [[[]|e'] data]; cbn [fst snd] in *; try discriminate.
  2: { assert (e = e') by congruence. subst e'. repeat split; assumption. }
  rewrite B. destruct (c_mode c) as [m|]; [|repeat split; assumption]. unfold bind, lift, raise, ret.
  destruct (if (c_alg c =? ALG_RSA_PKCS1) && (m =? MODE_ENCRYPT) then EME_enc rnd (getSize k) data else Ok data) as [dat|e]; cbn [rbind]; [|repeat split; assumption].
  destruct (negb (zlen dat =? getSize k / 8)); [repeat split; assumption|].
  destruct (the_rsa k) as [q|e]; cbn [rbind]; [|repeat split; assumption].
  destruct (if m =? MODE_ENCRYPT then pc_encrypt X q (arrayTolong dat) else match k with KPub _ => pc_encrypt X q (arrayTolong dat) | _ => pc_decrypt X q (arrayTolong dat) end) as [n|e]; cbn [rbind]; [|repeat split; assumption].
  cbv zeta. destruct (if (c_alg c =? ALG_RSA_PKCS1) && (m =? MODE_DECRYPT) then EME_dec (longToArray n) else Ok (longToArray n)) as [out|e]; [|repeat split; assumption].
  rewrite hset_same. destruct (arrayCopy_at r 0 outB oo (zlen out) (hset h1 r out)) as (A2 & B2 & C2); [congruence|].
  rewrite hset_same, (hset_other h1 r out outB O2), Wo in A2, B2. destruct (arrayCopy r 0 outB oo (zlen out) (hset h1 r out)) as [[[]|e] h2], (arrayCopy_into out 0 oo (zlen out) (h outB)) as [[[]|e'] o2]; cbn [fst snd] in *; try discriminate.
  - rewrite (C2 r) by congruence. rewrite hset_same. repeat split; [exact B2|]. intros l L1 L2. rewrite C2 by assumption. rewrite hset_other by (intros ->; apply L2; right; left; reflexivity). now apply W0.
  - assert (e = e') by congruence. subst e'. repeat split; [exact B2|]. intros l L1 L2. rewrite C2 by assumption. rewrite hset_other by (intros ->; apply L2; right; left; reflexivity). now apply W0.
Qed.

Lemma write_at_eq vs : forall i l o h, let x := write_at i vs l o h in let y := write_loop i vs o (h l) in
  fst x = fst y /\ snd x l = snd y /\ forall k, k <> l -> snd x k = h k.
Proof.
  induction vs as [|v vs IH]; intros i l o h; cbn [write_at write_loop]; cbv zeta; [now repeat split|].
  unfold bind, hset_at, get, lift, put. destruct (py_set (h l) (o + i) (s1 v)) as [a|e]; [|now repeat split].
  destruct (IH (i + 1) l o (hset h l a)) as (A & B & C). rewrite hset_same in A, B. split; [exact A|]. split; [exact B|].
  intros k K. rewrite C by exact K. now apply hset_other.
Qed.
Lemma catch_at l (m : M heap unit) (n : M (list Z) unit) e h : fst (m h) = fst (n (h l)) /\ snd (m h) l = snd (n (h l)) /\ (forall k, k <> l -> snd (m h) k = h k) ->
  fst (catch_index m e h) = fst (catch_index n e (h l)) /\ snd (catch_index m e h) l = snd (catch_index n e (h l)) /\ (forall k, k <> l -> snd (catch_index m e h) k = h k).
Proof.
  unfold catch_index. destruct (m h) as [[a|x] h1], (n (h l)) as [[b|y] g]; cbn [fst snd]; intros (A & B & C); try discriminate.
  - repeat split; [congruence|exact B|exact C].
  - assert (x = y) by congruence. subst y. destruct x; repeat split; assumption.
Qed.

Lemma C133_digest_pf : forall H inB io il outB oo s h,
  let x := digest_doFinal_at H inB io il outB oo (s, h) in let y := digest_doFinal H (h inB) io il oo (s, h outB) in
  fst x = fst y /\ fst (snd x) = fst (snd y) /\ wrote outB [] h (snd (snd x)) (snd (snd y)).
Proof.
  intros H inB io il outB oo s h. cbv zeta. unfold digest_doFinal_at, digest_doFinal, digest_update, collect_at, bind, get, put, raise.
  destruct (catch_index (collect (h inB) io il) NameError []) as [[[]|e] b]; [|repeat split].
  cbn [md_alg md_fed].
  destruct (catch_at outB _ _ NameError h (write_at_eq (hl_digest H (md_alg s) (md_fed s ++ arrayTobinary b)) 0 outB oo h)) as (A & B & C).
  destruct (catch_index (write_at 0 _ outB oo) NameError h) as [x h1], (catch_index (write_loop 0 _ oo) NameError (h outB)) as [y g]; cbn [fst snd] in A, B, C. subst y.
  destruct (digest_reset H (mkDigest (md_alg s) (md_fed s ++ arrayTobinary b))) as [[[]|e] s']; [destruct x|]; cbn [fst snd]; repeat split; auto.
Qed.

Lemma C133_append_pf : forall inA io outA oo h,
  let x := appendStatic_at inA io outA oo h in let y := appendStatic (h inA) io oo (h outA) in
  fst x = fst y /\ wrote outA [] h (snd x) (snd y).
Proof.
  intros inA io outA oo h. cbv zeta. unfold appendStatic_at, appendStatic, bind, lift, get, raise, on_loc.
  destruct (getInstance (h inA) io None) as [t|e]; [|repeat split]. destruct (getInstance (h outA) oo None) as [u|e]; [|repeat split].
  destruct (tkind u); [|repeat split]. destruct (append t u) as [[n|e] w]; [|repeat split].
  destruct (tlv_toBytes w oo (h outA)) as [x a]; cbn [fst snd]. split; [reflexivity|]. split; [apply hset_same|]. intros l L _. now apply hset_other.
Qed.

Lemma C133_inplace_pf : forall alg typ size keyData keyOff bArray bOff c1 c2 d r d' r' l io il oo h,
  des_alg alg -> In size [64; 128; 192] -> 0 <= keyOff -> keyOff + size / 8 <= zlen keyData -> 0 <= bOff -> bOff + 8 <= zlen bArray ->
  cipher_reach alg (snd (setKey keyData keyOff (deskey_new typ size))) MODE_ENCRYPT bArray bOff c1 ->
  cipher_reach alg (snd (setKey keyData keyOff (deskey_new typ size))) MODE_DECRYPT bArray bOff c2 ->
  0 <= io -> 0 <= il -> io + il <= zlen (h l) -> (alg_pkcs5 alg = false -> il mod 8 = 0) ->
  0 <= oo -> oo + (if alg_pkcs5 alg then 8 * (il / 8 + 1) else il) <= zlen (h l) ->
  ~ In l [d; r] -> ~ In l [d'; r'] ->
  exists n c1' h1 c2' h2,
    des_doFinal_at d r l io il l oo (c1, h) = (Ok n, (c1', h1))
    /\ des_doFinal_at d' r' l oo n l io (c2, h1) = (Ok il, (c2', h2))
    /\ h2 l = splice (h1 l) (Z.to_nat io) (map (twos 1) (sub (h l) (Z.to_nat io) (Z.to_nat il)))
    /\ (forall k, k <> l -> ~ In k [d; r; d'; r'] -> h2 k = h k).
Proof.
  intros alg typ size keyData keyOff bArray bOff c1 c2 d r d' r' l io il oo h Ha Hs K1 K2 B1 B2 R1 R2 I1 I2 I3 I4 O1 O2 D1 D2.
  destruct (C133_des_pf d r l io il l oo c1 h D1 D1) as (A & B & C1 & C2).
  set (out' := snd (snd (des_doFinal (h l) io il oo (c1, h l)))) in *.
  assert (L : zlen out' = zlen (h l)).
  { unfold out', des_doFinal, bind, get, put, lift, ret, raise. destruct (negb (c_init c1)); [reflexivity|].
    destruct (arrayCopy_into (h l) io 0 il (py_repeat 0 il)) as [[[]|e] dd]; [|reflexivity]. destruct (c_mode c1) as [m|]; [|reflexivity]. destruct (c_engine c1) as [g|]; [|reflexivity].
    cbv zeta. destruct (engine_run (m =? MODE_ENCRYPT) (arrayTobinary dd) g) as [[res|e] g']; cbn [fst snd]; [|reflexivity].
    pose proof (arrayCopy_into_length (binaryToarray res) 0 oo (zlen (binaryToarray res)) (h l)) as Q.
    destruct (arrayCopy_into (binaryToarray res) 0 oo (zlen (binaryToarray res)) (h l)) as [[[]|e] o2]; cbn [fst snd] in *; unfold zlen; now rewrite Q. }
  destruct (LP_cipher.C58_roundtrip_pf alg typ size keyData keyOff bArray bOff c1 c2 (h l) io il (h l) oo out' io Ha Hs K1 K2 B1 B2 R1 R2 I1 I2 I3 I4 O1 O2 I1) as (n & c1' & o & c2' & E1 & E2); [lia|].
  assert (Eo : out' = o) by (unfold out'; now rewrite E1).
  clearbody out'. rewrite E1 in A, B. cbn [fst snd] in A, B.
  assert (P : exists h1, des_doFinal_at d r l io il l oo (c1, h) = (Ok n, (c1', h1)) /\ h1 l = out' /\ (forall k, k <> l -> ~ In k [d; r] -> h1 k = h k)).
  { eexists. split; [exact (eq_trans (surjective_pairing _) (f_equal2 pair A (eq_trans (surjective_pairing _) (f_equal2 pair B eq_refl))))|]. split; assumption. }
  clear A B C1 C2. destruct P as (h1 & P & C1 & C2).
  exists n, c1', h1. destruct (C133_des_pf d' r' l oo n l io c2 h1 D2 D2) as (A' & B' & C1' & C2').
  rewrite C1, Eo in A', B', C1'. rewrite Eo in E2. rewrite E2 in A', B', C1'. cbn [fst snd] in A', B', C1'.
  assert (P' : exists h2, des_doFinal_at d' r' l oo n l io (c2, h1) = (Ok il, (c2', h2)) /\ h2 l = splice o (Z.to_nat io) (map (twos 1) (sub (h l) (Z.to_nat io) (Z.to_nat il))) /\ (forall k, k <> l -> ~ In k [d'; r'] -> h2 k = h1 k)).
  { eexists. split; [exact (eq_trans (surjective_pairing _) (f_equal2 pair A' (eq_trans (surjective_pairing _) (f_equal2 pair B' eq_refl))))|]. split; assumption. }
  clear A' B' C1' C2'. destruct P' as (h2 & P' & C1' & C2').
  exists c2', h2. split; [exact P|]. split; [exact P'|]. split.
  - rewrite C1', C1, Eo. reflexivity.
  - intros k Hk Hn. rewrite C2'; [apply C2; [exact Hk|]|exact Hk|]; intros [Q|[Q|[]]]; apply Hn; cbn [In]; auto.
Qed.
