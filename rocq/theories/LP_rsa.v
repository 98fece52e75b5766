(** * C88-C93: the RSA cipher and the factories: proofs *)
From Verif Require Import Py S_Base S_Number S_Key L_Py M_utils L_utils M_util L_util M_key LP_keys M_des M_cipher LP_cipher M_signature S_RSA M_digest S_Samples.
From Coq Require Import ZifyBool ZifyNat.
Ltac Zify.zify_post_hook ::= Z.div_mod_to_equations.


Lemma sub_splice_same {A} (l : list A) off vs : (off <= length l)%nat -> sub (splice l off vs) off (length vs) = vs.
Proof.
  intros H. unfold sub, splice. rewrite skipn_app, skipn_all2 by (rewrite firstn_length; lia).
  rewrite firstn_length. replace (off - Nat.min off (length l))%nat with 0%nat by lia. cbn [skipn app].
  rewrite firstn_app, Nat.sub_diag, firstn_all. cbn [firstn]. apply app_nil_r.
Qed.
Lemma ready_inv alg k mode c : rsa_ready alg k mode c ->
  c_alg c = alg /\ c_init c = true /\ c_mode c = Some mode /\ (mode = 1 \/ mode = 2) /\ isInitialized k = true
  /\ match k with KDes _ => False | _ => True end.
Proof.
  intros (c0 & A & E). revert E. unfold rsa_init, base_cipher_init. destruct (isInitialized k) eqn:Ei; [|discriminate].
  cbn [negb]. destruct ((mode =? MODE_ENCRYPT) || (mode =? MODE_DECRYPT)) eqn:Em; [|discriminate]. cbn [negb].
  unfold bind, get, put, ret. unfold MODE_ENCRYPT, MODE_DECRYPT in Em.
  destruct k; intros E; try discriminate; injection E as <-; cbn [c_alg c_init c_mode]; repeat split; auto; lia.
Qed.

(** the computation after the input has been copied and its length found right *)
Lemma doFinal_nopad X rnd k r mode c inBuff io oo out : rsa_ready 12 k mode c -> the_rsa k = Ok r ->
  in_range inBuff io (getSize k / 8) ->
  rsa_doFinal X rnd c k inBuff io (getSize k / 8) oo out
  = match rsa_op X k r mode (le_value (input inBuff io (getSize k / 8))) with
    | Ok y => (arrayCopy_into (longToArray y) 0 oo (zlen (longToArray y)) ;;; ret (zlen (longToArray y))) out
    | Err e => (Err e, out)
    end.
Proof.
  intros Hc Hr (H1 & H2 & H3). destruct (ready_inv _ _ _ _ Hc) as (Ha & Hi & Hm & Hmode & _ & _).
  unfold rsa_doFinal. rewrite Hi, Hm, Ha. cbn [negb]. rewrite copy_in by assumption.
  change (12 =? ALG_RSA_PKCS1) with false. cbn [andb]. unfold lift at 1. unfold bind at 1.
  fold (input inBuff io (getSize k / 8)).
  replace (zlen (input inBuff io (getSize k / 8)) =? getSize k / 8) with true
    by (unfold input, zlen in *; rewrite sub_length by lia; lia).
  cbn [negb]. rewrite Hr. unfold lift at 1. unfold bind at 1. rewrite arrayTolong_le. unfold rsa_op. change MODE_ENCRYPT with 2.
  set (z := le_value _). unfold bind at 1, lift at 1.
  replace (if mode =? 2 then pc_encrypt X r z else match k with KPub _ => pc_encrypt X r z | _ => pc_decrypt X r z end)
    with (rsa_op X k r mode z) by reflexivity.
  destruct (rsa_op X k r mode z) as [y|e]; [|reflexivity]. reflexivity.
Qed.

Lemma C88_exact_partial_pf : forall X rnd k r mode c inBuff io oo out y,
  rsa_ready 12 k mode c -> the_rsa k = Ok r -> in_range inBuff io (getSize k / 8) ->
  rsa_op X k r mode (le_value (input inBuff io (getSize k / 8))) = Ok y -> 0 <= y ->
  exists B, le_value B = y / 16 /\ Forall ubyte B /\ (B <> [] -> last B 0 <> 0)
    /\ (in_range out oo (zlen B) ->
        rsa_doFinal X rnd c k inBuff io (getSize k / 8) oo out = (Ok (zlen B), splice out (Z.to_nat oo) B)).
Proof.
  intros X rnd k r mode c inBuff io oo out y Hc Hr Hin E Hy. exists (longToArray y).
  destruct (longToArray_spec y Hy) as (P1 & P2 & P3). split; [exact P1|]. split; [exact P2|]. split; [exact P3|].
  intros (Q1 & Q2 & Q3). rewrite (doFinal_nopad X rnd k r mode c inBuff io oo out Hc Hr Hin), E.
  erewrite bind_ok by (apply copy_out; assumption). reflexivity.
Qed.

Lemma C88_refuted_pf : forall X rnd k r mode c inBuff io oo out y n out',
  rsa_ready 12 k mode c -> the_rsa k = Ok r -> in_range inBuff io (getSize k / 8) ->
  rsa_op X k r mode (le_value (input inBuff io (getSize k / 8))) = Ok y -> 0 < y -> 0 <= oo ->
  rsa_doFinal X rnd c k inBuff io (getSize k / 8) oo out = (Ok n, out') ->
  le_value (input out' oo n) = y / 16 /\ le_value (input out' oo n) <> y.
Proof.
  intros X rnd k r mode c inBuff io oo out y n out' Hc Hr Hin E Hy Ho Q.
  destruct (longToArray_spec y ltac:(lia)) as (P1 & P2 & P3).
  rewrite (doFinal_nopad X rnd k r mode c inBuff io oo out Hc Hr Hin), E in Q.
  set (B := longToArray y) in *. pose proof (zlen_nonneg B) as HB.
  assert (R : oo + zlen B <= zlen out \/ B = []).
  { destruct (Z_le_gt_dec (oo + zlen B) (zlen out)); [auto|]. destruct B as [|b B'] eqn:EB; [auto|]. exfalso. rewrite <- EB in *.
    revert Q. unfold bind at 1. rewrite arrayCopy_into_err; try lia; [discriminate|]. rewrite EB. unfold zlen. cbn [length]. lia. }
  destruct R as [R|R].
  - revert Q. erewrite bind_ok by (apply copy_out; assumption). unfold ret. intros Q. injection Q as <- <-.
    replace (input (splice out (Z.to_nat oo) B) oo (zlen B)) with B; [lia|].
    unfold input. replace (Z.to_nat (zlen B)) with (length B) by (unfold zlen; lia). symmetry. apply sub_splice_same. unfold zlen in *; lia.
  - rewrite R in *. revert Q. unfold bind, ret. destruct (arrayCopy_into [] 0 oo (zlen (@nil Z)) out) as [[|] o] eqn:EC; [|discriminate].
    intros Q. injection Q as <- <-. unfold input. cbn. cbn in P1. lia.
Qed.

Lemma C88_full_refuted_pf : ~ C88_full.
Proof.
  intros H. specialize (H X0 [] (KPub (mkPub 16 true (Some []) (Some []) (Some (mkRsa 3233 17 413 61 53 38)))) (mkRsa 3233 17 413 61 53 38) 2
    (mkCipher 12 true (Some 2) None) [10; 0] 0 0 [9; 9] (10 ^ 17 mod 3233)).
  destruct H as (B & E & _ & V); try (vm_compute; congruence); try (unfold in_range; vm_compute; lia).
  - exists (cipher_new 12). split; reflexivity.
  - unfold in_range; repeat split; vm_compute; congruence.
  - unfold in_range; repeat split; vm_compute; congruence.
  - split; vm_compute; congruence.
  - vm_compute in E. discriminate E.
Qed.

(** *** C89 *)
Lemma le_value_cons a l : le_value (a :: l) = a + 256 * le_value l.
Proof.
  unfold le_value. cbn [rev]. rewrite dv_app. cbn [length digits_value]. change (Z.of_nat 1) with 1. change (Z.of_nat 0) with 0. lia.
Qed.
Lemma le_value_nonneg l : Forall ubyte l -> 0 <= le_value l.
Proof.
  induction 1 as [|a l Ha Hl IH]; [cbn; lia|]. rewrite le_value_cons. unfold ubyte in Ha. lia.
Qed.
(** the first byte of the array made from a padded block is 32, not 0 *)
Lemma block_first msg block : pkcs1_block msg block -> Forall ubyte msg -> exists t, longToArray (le_value block) = 32 :: t.
Proof.
  intros (PS & -> & HP & HF) Hm.
  assert (HT : Forall ubyte (PS ++ [0] ++ msg)).
  { apply Forall_app. split; [eapply Forall_impl; [|exact HF]; cbn; unfold ubyte; lia|].
    constructor; [unfold ubyte; lia|exact Hm]. }
  cbn [app] in *. set (t := PS ++ 0 :: msg) in *. clearbody t. rewrite !le_value_cons.
  pose proof (le_value_nonneg t HT) as H0. remember (0 + 256 * (2 + 256 * le_value t)) as v eqn:Ev.
  destruct (longToArray_spec v ltac:(lia)) as (P1 & P2 & _).
  destruct (longToArray v) as [|a l]; [change (le_value []) with 0 in P1; lia|]. rewrite le_value_cons in P1. inversion P2; subst. unfold ubyte in *.
  exists l. f_equal. lia.
Qed.

Lemma C89_refuted_pf : forall X rnd k r c inBuff io oo out msg block,
  rsa_ready 10 k 1 c -> the_rsa k = Ok r -> in_range inBuff io (getSize k / 8) ->
  pkcs1_block msg block -> Forall ubyte msg ->
  rsa_op X k r 1 (le_value (input inBuff io (getSize k / 8))) = Ok (le_value block) ->
  rsa_doFinal X rnd c k inBuff io (getSize k / 8) oo out = (Err (CryptoExc 1), out).
Proof.
  intros X rnd k r c inBuff io oo out msg block Hc Hr (H1 & H2 & H3) HB Hm E.
  destruct (ready_inv _ _ _ _ Hc) as (Ha & Hi & Hmo & _).
  unfold rsa_doFinal. rewrite Hi, Hmo, Ha. cbn [negb]. rewrite copy_in by assumption.
  change ((10 =? ALG_RSA_PKCS1) && (1 =? MODE_ENCRYPT)) with false. cbv iota. unfold lift at 1. unfold bind at 1.
  fold (input inBuff io (getSize k / 8)).
  replace (zlen (input inBuff io (getSize k / 8)) =? getSize k / 8) with true
    by (unfold input, zlen in *; rewrite sub_length by lia; lia).
  cbn [negb]. rewrite Hr. unfold lift at 1. unfold bind at 1. rewrite arrayTolong_le. unfold rsa_op in E. cbn [Z.eqb Pos.eqb] in E.
  change (1 =? MODE_ENCRYPT) with false. cbv iota. rewrite E. unfold lift at 1. unfold bind at 1. cbv zeta.
  change ((10 =? ALG_RSA_PKCS1) && (1 =? MODE_DECRYPT)) with true. cbv iota.
  destruct (block_first msg block HB Hm) as [t ->]. unfold EME_dec.
  replace (list_eqb (py_slice (32 :: t) 0 2) [0; 2]) with false; [reflexivity|].
  unfold py_slice, py_clamp. change (0 <? 0) with false. change (2 <? 0) with false. cbv iota.
  unfold zlen. cbn [length]. replace (Z.to_nat (Z.min 0 (Z.of_nat (S (length t))))) with 0%nat by lia. cbn [skipn].
  destruct (Z.to_nat _) as [|n] eqn:En; [lia|]. reflexivity.
Qed.

Lemma C89_sample : let r := mkRsa 0 0 0 0 0 0 in
  let X := mkPyCrypto true (fun _ _ => Ok r) (fun _ => Ok r) (fun _ x => Ok x) (fun _ x => Ok x) in
  let block := [0; 2; 1; 1; 1; 1; 1; 1; 1; 1; 0; 7] in
  let k := KPriv (mkPriv 96 true (Some []) (Some []) (Some r)) in
  rsa_ready 10 k 1 (mkCipher 10 true (Some 1) None) /\ the_rsa k = Ok r /\ in_range block 0 (getSize k / 8)
  /\ pkcs1_block [7] block /\ zlen block = getSize k / 8 /\ rsa_op X k r 1 (le_value (input block 0 (getSize k / 8))) = Ok (le_value block).
Proof.
  split; [exists (cipher_new 10); split; reflexivity|]. split; [reflexivity|].
  split; [unfold in_range; vm_compute; repeat split; congruence|].
  split; [|split; vm_compute; reflexivity].
  exists (repeat 1 8). split; [reflexivity|]. split; [vm_compute; congruence|]. repeat constructor; lia.
Qed.

Lemma C89_full_refuted_pf : ~ C89_full.
Proof.
  intros H. destruct C89_sample as (A1 & A2 & A3 & A4 & A5 & A6).
  assert (U : Forall ubyte [7]) by (repeat constructor; unfold ubyte; lia).
  assert (R : in_range [9] 0 (zlen [7])) by (unfold in_range; vm_compute; repeat split; congruence).
  pose proof (H _ [] _ _ _ _ _ 0 [9] _ _ A1 A2 A3 A4 A5 U A6 R) as Q.
  rewrite (C89_refuted_pf _ [] _ _ _ _ _ 0 [9] _ _ A1 A2 A3 A4 U A6) in Q. discriminate.
Qed.

(** *** C90 *)
Lemma run_priv_the h : forall k, vk_the (run_priv h k) = vk_the k /\ vk_size (run_priv h k) = vk_size k.
Proof.
  unfold run_priv. induction h as [|o h IH]; intros k; [auto|]. cbn [fold_left]. specialize (IH (match o with
    | SExp b f l => snd (priv_setExponent b f l k) | SMod b f l => snd (priv_setModulus b f l k) end)).
  destruct IH as [-> ->]. destruct o as [b f l|b f l].
  - unfold priv_setExponent, priv_setter. unfold bind, get, put, ret. cbn [vk_mod vk_exp]. destruct (vk_mod k); cbn; auto.
  - unfold priv_setModulus, priv_setter. unfold bind, get, put, ret, raise. destruct (negb _); [cbn; auto|].
    cbn [vk_mod vk_exp]. destruct (vk_exp k); cbn; auto.
Qed.

Lemma C90_refuted_pf : forall X rnd size h c inBuff io oo out mode,
  let k := KPriv (run_priv h (privkey_new size)) in
  rsa_ready 12 k mode c -> in_range inBuff io (size / 8) ->
  rsa_doFinal X rnd c k inBuff io (size / 8) oo out = (Err AttributeError, out).
Proof.
  intros X rnd size h c inBuff io oo out mode k Hc (H1 & H2 & H3).
  destruct (ready_inv _ _ _ _ Hc) as (Ha & Hi & Hmo & _).
  assert (HS : getSize k = size) by (unfold k; cbn [getSize]; now rewrite (proj2 (run_priv_the h _))).
  unfold rsa_doFinal. rewrite Hi, Hmo, Ha. cbn [negb]. rewrite copy_in by assumption.
  change (12 =? ALG_RSA_PKCS1) with false. cbn [andb]. unfold lift at 1. unfold bind at 1. rewrite HS.
  replace (zlen (sub inBuff (Z.to_nat io) (Z.to_nat (size / 8))) =? size / 8) with true
    by (unfold zlen in *; rewrite sub_length by lia; lia).
  cbn [negb]. unfold k, the_rsa. rewrite (proj1 (run_priv_the h _)). reflexivity.
Qed.

Lemma C90_accepted_pf : forall size h mode, Forall in_bounds h -> last_exp h <> None -> last_mod size h <> None -> mode = 1 \/ mode = 2 ->
  let k := KPriv (run_priv h (privkey_new size)) in
  isInitialized k = true /\ exists c, rsa_ready 12 k mode c.
Proof.
  intros size h mode Hh He Hm Hmo k. pose proof (C66_private_pf size h [] 0 Hh) as Q. cbv zeta in Q.
  destruct (last_exp h) as [e|]; [|congruence]. destruct (last_mod size h) as [m|]; [|congruence].
  destruct Q as [Q _]. split; [exact Q|]. exists (snd (rsa_init (Some k) mode (cipher_new 12))).
  exists (cipher_new 12). split; [reflexivity|]. unfold rsa_init, base_cipher_init. fold k in Q. rewrite Q. cbn [negb].
  replace ((mode =? MODE_ENCRYPT) || (mode =? MODE_DECRYPT)) with true by (unfold MODE_ENCRYPT, MODE_DECRYPT; lia). reflexivity.
Qed.

Lemma C90_full_refuted_pf : ~ C90_full.
Proof.
  intros H. set (h := [SExp [3] 0 1; SMod [251; 0] 0 2]).
  destruct (C90_accepted_pf 16 h 1) as (A & c & B); try discriminate; auto.
  { repeat constructor; vm_compute; congruence. }
  assert (R : in_range [0; 0] 0 (16 / 8)) by (unfold in_range; vm_compute; repeat split; congruence).
  destruct (H (mkPyCrypto true (fun n e => Ok (mkRsa n e 0 0 0 0)) (fun _ => Ok (mkRsa 0 0 0 0 0 0)) (fun _ _ => Ok 0) (fun _ _ => Ok 0)) [] 16 h c [0; 0] 0 0 [0; 0] 1 A B R R) as [n E].
  - intros. exists 0. split; [reflexivity|]. vm_compute. split; congruence.
  - intros. exists 0. split; [reflexivity|]. vm_compute. split; congruence.
  - rewrite (C90_refuted_pf _ _ _ _ _ _ _ _ _ _ B R) in E. discriminate.
Qed.

(** *** C91: init and the errors of doFinal *)

Lemma C91_init_pf : forall key mode c,
  (fst (rsa_init key mode c) = Ok tt <->
     exists k, key = Some k /\ isInitialized k = true /\ (mode = 1 \/ mode = 2) /\ forall d, k <> KDes d)
  /\ c_alg (snd (rsa_init key mode c)) = c_alg c
  /\ (fst (rsa_init key mode c) = Ok tt -> c_init (snd (rsa_init key mode c)) = true)
  /\ (forall e, fst (rsa_init key mode c) = Err e -> c_init (snd (rsa_init key mode c)) = c_init c)
  /\ (key = None -> fst (rsa_init key mode c) = Err (CryptoExc 1))
  /\ (forall k, key = Some k -> isInitialized k = false -> rsa_init key mode c = (Err (CryptoExc 2), c))
  /\ (forall k, key = Some k -> isInitialized k = true -> mode <> 1 -> mode <> 2 -> rsa_init key mode c = (Err (CryptoExc 1), c))
  /\ (forall d, key = Some (KDes d) -> isInitialized (KDes d) = true -> fst (rsa_init key mode c) = Err (CryptoExc 1)).
Proof.
  intros key mode c. unfold rsa_init, base_cipher_init. unfold bind, get, put, ret, raise, MODE_ENCRYPT, MODE_DECRYPT.
  destruct key as [k|]; [destruct (isInitialized k) eqn:Ei; cbn [negb]; [destruct ((mode =? 2) || (mode =? 1)) eqn:Em; cbn [negb]; [destruct k as [d|p|v]|]|]|];
    cbn [fst snd c_alg c_init]; (split; [split; [intros Q; try discriminate Q|intros (k' & Q & Q2 & Q3 & Q4)]|]);
    try (injection Q as <-); try discriminate; try congruence; try lia;
    try (now elim (Q4 d)); try (eexists; repeat split; eauto; [lia|discriminate]);
    (repeat split); try discriminate; try congruence; try lia; intros; try congruence; try lia;
    match goal with H : Some _ = Some _ |- _ => injection H as <- end; congruence.
Qed.

Lemma C91_errors_pf : forall X rnd c k mode inBuff io il oo out,
  (c_init c = false -> rsa_doFinal X rnd c k inBuff io il oo out = (Err (CryptoExc 4), out))
  /\ (rsa_ready 12 k mode c \/ rsa_ready 10 k mode c -> 0 <= io -> 0 < il -> zlen inBuff < io + il ->
      rsa_doFinal X rnd c k inBuff io il oo out = (Err ArrayIndexOutOfBounds, out))
  /\ (rsa_ready 12 k mode c \/ (rsa_ready 10 k mode c /\ mode = 1) -> in_range inBuff io il -> il <> getSize k / 8 ->
      rsa_doFinal X rnd c k inBuff io il oo out = (Err (CryptoExc 1), out))
  /\ (rsa_ready 10 k 2 c -> in_range inBuff io il -> getSize k / 8 - 11 < il ->
      rsa_doFinal X rnd c k inBuff io il oo out = (Err (CryptoExc 1), out)).
Proof.
  intros X rnd c k mode inBuff io il oo out. split; [|split; [|split]].
  - intros H. unfold rsa_doFinal. rewrite H. reflexivity.
  - intros Hc H1 H2 H3. assert (Hi : c_init c = true) by (destruct Hc as [Hc|Hc]; apply ready_inv in Hc; tauto).
    unfold rsa_doFinal. rewrite Hi. cbn [negb]. rewrite arrayCopy_into_err by lia. reflexivity.
  - intros Hc (H1 & H2 & H3) Hn.
    assert (HH : c_init c = true /\ c_mode c = Some mode /\ (c_alg c =? ALG_RSA_PKCS1) && (mode =? MODE_ENCRYPT) = false).
    { destruct Hc as [Hc|[Hc ->]]; apply ready_inv in Hc as (A & B & C & _); rewrite A; auto. }
    destruct HH as (Hi & Hm & Hp). unfold rsa_doFinal. rewrite Hi, Hm, Hp. cbn [negb]. rewrite copy_in by assumption.
    unfold lift at 1. unfold bind at 1.
    replace (zlen (sub inBuff (Z.to_nat io) (Z.to_nat il)) =? getSize k / 8) with false; [reflexivity|].
    unfold zlen in *. rewrite sub_length by lia. lia.
  - intros Hc (H1 & H2 & H3) Hn. apply ready_inv in Hc as (A & B & C & _).
    unfold rsa_doFinal. rewrite A, B, C. cbn [negb]. rewrite copy_in by assumption.
    change ((10 =? ALG_RSA_PKCS1) && (2 =? MODE_ENCRYPT)) with true. cbv iota. unfold EME_enc.
    replace (getSize k / 8 - 11 <? zlen (sub inBuff (Z.to_nat io) (Z.to_nat il))) with true; [reflexivity|].
    unfold zlen in *. rewrite sub_length by lia. lia.
Qed.

(** *** C92 *)

Lemma C92_supported_partial_pf : forall c p ext a, jc_algorithm c p = Some a ->
  cipher_getInstance [c; p; ext] = cipher_getInstance [a; ext]
  /\ cipher_getInstance [a; ext] = Ok (mkCipher a false None None).
Proof.
  intros c p ext a H. unfold jc_algorithm in H.
  repeat (match type of H with context [match ?x with _ => _ end] => destruct x; try discriminate H end);
    injection H as <-; split; reflexivity.
Qed.

Lemma C92_two_arguments_pf : forall a ext,
  cipher_getInstance [a; ext]
  = if existsb (Z.eqb a) [1; 4; 5; 8; 10; 12] then Ok (mkCipher a false None None) else Err (CryptoExc 3).
Proof.
  intros a ext. unfold cipher_getInstance, getInstance2, getInstance_alg, is_rsa, is_des, existsb, cipher_new.
  unfold ALG_RSA_NOPAD, ALG_RSA_PKCS1, ALG_DES_ECB_NOPAD, ALG_DES_ECB_PKCS5, ALG_DES_CBC_NOPAD, ALG_DES_CBC_PKCS5, NO_SUCH_ALGORITHM.
  destruct (a =? 1), (a =? 4), (a =? 5), (a =? 8), (a =? 10), (a =? 12); reflexivity.
Qed.

Lemma C92_refuted_pf : forall c p ext, jc_algorithm c p = None ->
  cipher_getInstance [c; p; ext] = Err (if existsb (Z.eqb c) [3; 4; 7] then TypeError else UnboundLocalError).
Proof.
  intros c p ext H. cbn [cipher_getInstance]. unfold getInstance3, existsb.
  unfold CIPHER_RSA, CIPHER_DES_CBC, CIPHER_DES_ECB, CPAD_NOPAD, CPAD_PKCS1, CPAD_PKCS5.
  destruct (Z.eqb_spec c 7) as [->|N7]; [|destruct (Z.eqb_spec c 3) as [->|N3]; [|destruct (Z.eqb_spec c 4) as [->|N4]; [|reflexivity]]];
    (destruct (Z.eqb_spec p 1) as [->|P1]; [discriminate H|]);
    first [destruct (Z.eqb_spec p 7) as [->|P7]; [discriminate H|reflexivity] | destruct (Z.eqb_spec p 6) as [->|P6]; [discriminate H|reflexivity]].
Qed.

Lemma C92_full_refuted_pf : ~ C92_full.
Proof. intros H. specialize (H 9 1 0). discriminate H. Qed.

Lemma C93_refuted_pf : forall args, signature_getInstance args = Err TypeError.
Proof. reflexivity. Qed.

Lemma C93_full_refuted_pf : ~ C93_full.
Proof. intros H. specialize (H 10 0). discriminate H. Qed.
