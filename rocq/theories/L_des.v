(** * Lemmas: the model of pyDes against FIPS 46-3 *)
From Verif Require Import Py S_Base L_Py S_DES M_des.
From Coq Require Import ZifyBool ZifyNat.
Ltac Zify.zify_post_hook ::= Z.div_mod_to_equations.

Definition bz (b : bits) : list Z := map Z.b2z b.

Lemma bz_length b : length (bz b) = length b.
Proof. apply map_length. Qed.
Lemma bz_app a b : bz (a ++ b) = bz a ++ bz b.
Proof. apply map_app. Qed.
Lemma bz_firstn n b : firstn n (bz b) = bz (firstn n b).
Proof. apply firstn_map. Qed.
Lemma bz_skipn n b : skipn n (bz b) = bz (skipn n b).
Proof. apply skipn_map. Qed.

Lemma select_length t b : length (select t b) = length t.
Proof. apply map_length. Qed.

Lemma xor_length a b : length (xor a b) = Nat.min (length a) (length b).
Proof. revert b; induction a; intros [|y b]; cbn; auto. Qed.

Definition in_range (n : Z) (t : list Z) : bool := forallb (fun x => (0 <=? x) && (x <? n)) t.
Definition up (t : list Z) : list nat := map (fun x => S (Z.to_nat x)) t.

Lemma permutate_ok t : forall b, in_range (Z.of_nat (length b)) t = true ->
  permutate t (bz b) = Ok (bz (select (up t) b)).
Proof.
  induction t as [|x t IH]; intros b H; [reflexivity|].
  cbn [in_range forallb] in H. apply andb_prop in H as [H1 H2]. apply andb_prop in H1 as [H1 H3].
  apply Z.leb_le in H1. apply Z.ltb_lt in H3.
  cbn [permutate up map select].
  rewrite (py_get_in _ _ (Z.b2z false)) by (unfold zlen; rewrite bz_length; lia).
  cbn [rbind]. rewrite IH by exact H2. cbn [rbind]. unfold bz at 1. rewrite map_nth.
  replace (S (Z.to_nat x) - 1)%nat with (Z.to_nat x) by lia. reflexivity.
Qed.

Lemma xor_lists_ok a : forall b, xor_lists (bz a) (bz b) = bz (xor a b).
Proof.
  induction a as [|x a IH]; intros [|y b]; try reflexivity.
  change (Z.lxor (Z.b2z x) (Z.b2z y) :: xor_lists (bz a) (bz b) = Z.b2z (xorb x y) :: bz (xor a b)).
  rewrite IH. f_equal. destruct x, y; reflexivity.
Qed.

Lemma xor_comm a : forall b, xor a b = xor b a.
Proof. induction a; intros [|y b]; cbn; auto. now rewrite IHa, xorb_comm. Qed.

Lemma xor_xor a : forall b, length a = length b -> xor (xor a b) b = a.
Proof.
  induction a as [|x a IH]; intros [|y b] H; try discriminate; [reflexivity|]. cbn. injection H as H.
  rewrite IH by exact H. now rewrite xorb_assoc, xorb_nilpotent, xorb_false_r.
Qed.

Lemma byte_bits_ok ch : byte_bits ch = bz (low_bits 8 ch).
Proof.
  assert (H : forall i, 0 <= i -> (if Z.land ch (Z.shiftl 1 i) =? 0 then 0 else 1) = Z.b2z (Z.testbit ch i)).
  { intros i Hi. rewrite Z.shiftl_1_l.
    destruct (Z.testbit ch i) eqn:T.
    - destruct (Z.eqb_spec (Z.land ch (2 ^ i)) 0) as [E|]; [|reflexivity].
      apply (f_equal (fun v => Z.testbit v i)) in E. rewrite Z.land_spec, T, Z.pow2_bits_true, Z.bits_0 in E by lia. discriminate.
    - replace (Z.land ch (2 ^ i)) with 0; [reflexivity|]. symmetry. apply Z.bits_inj'. intros j Hj.
      rewrite Z.land_spec, Z.bits_0. destruct (Z.eq_dec j i) as [->|N]; [now rewrite T|].
      rewrite Z.pow2_bits_false by lia. apply andb_false_r. }
  unfold byte_bits, low_bits, bz. cbn [map seq Nat.sub].
  change (Z.of_nat 7) with 7; change (Z.of_nat 6) with 6; change (Z.of_nat 5) with 5; change (Z.of_nat 4) with 4;
  change (Z.of_nat 3) with 3; change (Z.of_nat 2) with 2; change (Z.of_nat 1) with 1; change (Z.of_nat 0) with 0.
  rewrite !H by lia. reflexivity.
Qed.

Lemma String_to_BitList_ok data : String_to_BitList data = bz (to_bits data).
Proof.
  unfold String_to_BitList, to_bits. induction data as [|x l IH]; [reflexivity|].
  cbn [flat_map]. now rewrite bz_app, IH, byte_bits_ok.
Qed.

Lemma low_bits_length n v : length (low_bits n v) = n.
Proof. unfold low_bits. now rewrite map_length, seq_length. Qed.

Lemma to_bits_length l : length (to_bits l) = (8 * length l)%nat.
Proof.
  unfold to_bits. induction l; [reflexivity|]. cbn [flat_map]. rewrite app_length, low_bits_length, IHl. cbn. lia.
Qed.

Lemma to_bits_app a b : to_bits (a ++ b) = to_bits a ++ to_bits b.
Proof. unfold to_bits. now rewrite flat_map_app. Qed.

Lemma BitList_8 b0 b1 b2 b3 b4 b5 b6 b7 t pos res : pos mod 8 = 0 ->
  BitList_loop (b0 :: b1 :: b2 :: b3 :: b4 :: b5 :: b6 :: b7 :: t) pos 0 res
  = BitList_loop t (pos + 8) 0
      (res ++ [128 * b0 + 64 * b1 + 32 * b2 + 16 * b3 + 8 * b4 + 4 * b5 + 2 * b6 + b7]).
Proof.
  intros H. cbn [BitList_loop].
  replace ((pos + 1) mod 8) with 1 by lia. replace ((pos + 1 + 1) mod 8) with 2 by lia.
  replace ((pos + 1 + 1 + 1) mod 8) with 3 by lia. replace ((pos + 1 + 1 + 1 + 1) mod 8) with 4 by lia.
  replace ((pos + 1 + 1 + 1 + 1 + 1) mod 8) with 5 by lia. replace ((pos + 1 + 1 + 1 + 1 + 1 + 1) mod 8) with 6 by lia.
  replace ((pos + 1 + 1 + 1 + 1 + 1 + 1 + 1) mod 8) with 7 by lia. rewrite H.
  change (0 =? 7) with false. change (1 =? 7) with false. change (2 =? 7) with false. change (3 =? 7) with false.
  change (4 =? 7) with false. change (5 =? 7) with false. change (6 =? 7) with false. change (7 =? 7) with true.
  cbv iota. rewrite !Z.shiftl_mul_pow2 by lia.
  change (2 ^ (7 - 0)) with 128. change (2 ^ (7 - 1)) with 64. change (2 ^ (7 - 2)) with 32.
  change (2 ^ (7 - 3)) with 16. change (2 ^ (7 - 4)) with 8. change (2 ^ (7 - 5)) with 4.
  change (2 ^ (7 - 6)) with 2. change (2 ^ (7 - 7)) with 1.
  f_equal; [lia|]. f_equal. f_equal. lia.
Qed.

Lemma value_8 b0 b1 b2 b3 b4 b5 b6 b7 : value [b0; b1; b2; b3; b4; b5; b6; b7]
  = 128 * Z.b2z b0 + 64 * Z.b2z b1 + 32 * Z.b2z b2 + 16 * Z.b2z b3 + 8 * Z.b2z b4 + 4 * Z.b2z b5 + 2 * Z.b2z b6 + Z.b2z b7.
Proof. cbn [value length]. cbn [Z.of_nat Pos.of_succ_nat Pos.succ]. change (2 ^ 0) with 1. lia. Qed.

Lemma BitList_loop_ok n : forall b pos res, length b = (8 * n)%nat -> pos mod 8 = 0 ->
  BitList_loop (bz b) pos 0 res = res ++ of_bits n b.
Proof.
  induction n as [|n IH]; intros b pos res Hl Hp.
  - destruct b; [|discriminate]. cbn. now rewrite app_nil_r.
  - destruct b as [|b0 [|b1 [|b2 [|b3 [|b4 [|b5 [|b6 [|b7 b]]]]]]]]; cbn [length] in Hl; try lia.
    cbn [bz map]. fold (bz b). rewrite BitList_8 by exact Hp. rewrite IH by lia.
    cbn [of_bits firstn skipn]. rewrite value_8, <- app_assoc. reflexivity.
Qed.

Lemma BitList_to_String_ok n b : length b = (8 * n)%nat -> BitList_to_String (bz b) = of_bits n b.
Proof. intros H. unfold BitList_to_String. now rewrite (BitList_loop_ok n). Qed.

Lemma low_bits_value8 b : length b = 8%nat -> low_bits 8 (value b) = b.
Proof.
  intros H. destruct b as [|b0 [|b1 [|b2 [|b3 [|b4 [|b5 [|b6 [|b7 [|]]]]]]]]]; try discriminate.
  destruct b0, b1, b2, b3, b4, b5, b6, b7; reflexivity.
Qed.

Lemma to_bits_of_bits n : forall b, length b = (8 * n)%nat -> to_bits (of_bits n b) = b.
Proof.
  induction n as [|n IH]; intros b H; [destruct b; [reflexivity|discriminate]|].
  cbn [of_bits]. unfold to_bits. cbn [flat_map]. fold (to_bits (of_bits n (skipn 8 b))).
  rewrite IH by (rewrite skipn_length; lia).
  rewrite low_bits_value8 by (rewrite firstn_length; lia). apply firstn_skipn.
Qed.

Lemma value_low_bits8 v : ubyte v -> value (low_bits 8 v) = v.
Proof.
  intros H.
  assert (T : forallb (fun n => value (low_bits 8 (Z.of_nat n)) =? Z.of_nat n) (seq 0 256) = true) by (vm_compute; reflexivity).
  rewrite forallb_forall in T. specialize (T (Z.to_nat v)). rewrite Z2Nat.id in T by (destruct H; lia).
  apply Z.eqb_eq, T, in_seq. unfold ubyte in H. lia.
Qed.

Lemma of_bits_to_bits l : Forall ubyte l -> of_bits (length l) (to_bits l) = l.
Proof.
  induction 1 as [|x l Hx Hl IH]; [reflexivity|]. cbn [length of_bits].
  change (to_bits (x :: l)) with (low_bits 8 x ++ to_bits l).
  rewrite firstn_app, firstn_all2 by (rewrite low_bits_length; lia). rewrite low_bits_length, Nat.sub_diag. cbn [firstn].
  rewrite app_nil_r, value_low_bits8 by exact Hx.
  rewrite skipn_app, skipn_all2 by (rewrite low_bits_length; lia). rewrite low_bits_length, Nat.sub_diag. cbn [skipn app].
  now rewrite IH.
Qed.

Lemma value_bound b : 0 <= value b < 2 ^ Z.of_nat (length b).
Proof.
  induction b as [|x b IH]; [cbn; lia|]. cbn [value length].
  rewrite Nat2Z.inj_succ, Z.pow_succ_r by lia.
  destruct x; cbn [Z.b2z]; lia.
Qed.

Lemma of_bits_ubyte n : forall b, Forall ubyte (of_bits n b).
Proof.
  induction n as [|n IH]; intros b; cbn [of_bits]; constructor; [|apply IH].
  pose proof (value_bound (firstn 8 b)) as Q. unfold ubyte.
  assert (2 ^ Z.of_nat (length (firstn 8 b)) <= 2 ^ 8) by (apply Z.pow_le_mono_r; [lia|]; rewrite firstn_length; lia).
  change (2 ^ 8) with 256 in *. lia.
Qed.

Lemma of_bits_length n : forall b, length (of_bits n b) = n.
Proof. induction n; intros; cbn; auto. Qed.

(** *** S-boxes *)
Definition Ss := [S1; S2; S3; S4; S5; S6; S7; S8].

Lemma sbox_ok j B : (j < 8)%nat -> length B = 6%nat ->
  sbox_lookup (Z.of_nat j) (bz B) = Ok (bz (sbox (nth j Ss []) B)).
Proof.
  intros Hj H. destruct B as [|b0 [|b1 [|b2 [|b3 [|b4 [|b5 [|]]]]]]]; try discriminate.
  do 8 (destruct j as [|j]; [destruct b0, b1, b2, b3, b4, b5; vm_compute; reflexivity|]). lia.
Qed.

Lemma sbox_loop_ok Bs : forall j, (j + length Bs <= 8)%nat -> Forall (fun B => length B = 6%nat) Bs ->
  exists out, sbox_loop (Z.of_nat j) (map bz Bs) = Ok (bz out)
    /\ out = concat (map (fun '(Sn, B) => sbox Sn B) (combine (skipn j Ss) Bs)).
Proof.
  induction Bs as [|B Bs IH]; intros j Hj Hf.
  - exists []. split; [reflexivity|]. now destruct (skipn j Ss).
  - inversion Hf as [|? ? H1 H2]; subst. cbn [length] in Hj.
    cbn [map sbox_loop]. rewrite sbox_ok by (try lia; auto). cbn [rbind].
    destruct (IH (S j) ltac:(lia) H2) as (out & E & ->).
    replace (Z.of_nat j + 1) with (Z.of_nat (S j)) by lia. rewrite E. cbn [rbind].
    eexists. split; [rewrite <- bz_app; reflexivity|].
    rewrite (skipn_nth Ss j []) by (cbn; lia). reflexivity.
Qed.

Definition groups_b (B : bits) : list bits :=
  [firstn 6 B; firstn 6 (skipn 6 B); firstn 6 (skipn 12 B); firstn 6 (skipn 18 B);
   firstn 6 (skipn 24 B); firstn 6 (skipn 30 B); firstn 6 (skipn 36 B); skipn 42 B].

Lemma groups_ok B : length B = 48%nat -> groups (bz B) = map bz (groups_b B).
Proof.
  intros H. unfold groups, groups_b. cbn [map].
  rewrite !py_slice_in by (unfold zlen; rewrite ?bz_length, ?H; lia).
  unfold py_slice_from, py_clamp. unfold zlen. rewrite bz_length, H.
  unfold sub. rewrite !bz_skipn, !bz_firstn. reflexivity.
Qed.

Lemma sboxes_groups B : length B = 48%nat ->
  sboxes Ss B = concat (map (fun '(Sn, B) => sbox Sn B) (combine Ss (groups_b B))).
Proof.
  intros H. unfold Ss, groups_b. cbn [sboxes combine map concat]. rewrite !skipn_skipn. cbn [Nat.add].
  rewrite app_nil_r. do 7 f_equal. f_equal. rewrite firstn_all2; [reflexivity|]. rewrite skipn_length. lia.
Qed.

Lemma sbox_layer_ok B : length B = 48%nat -> sbox_loop 0 (groups (bz B)) = Ok (bz (sboxes Ss B)).
Proof.
  intros H. rewrite groups_ok by exact H.
  destruct (sbox_loop_ok (groups_b B) 0) as (out & E & Eo).
  - cbn. lia.
  - unfold groups_b. repeat constructor; rewrite ?firstn_length, ?skipn_length; lia.
  - change (Z.of_nat 0) with 0 in E. rewrite E, Eo. cbn [skipn]. now rewrite sboxes_groups.
Qed.

Lemma sbox_length Sn B : length (sbox Sn B) = 4%nat.
Proof. apply low_bits_length. Qed.
Lemma sboxes_length Sl : forall B, length (sboxes Sl B) = (4 * length Sl)%nat.
Proof. induction Sl; intros B; [reflexivity|]. cbn [sboxes length]. rewrite app_length, sbox_length, IHSl. lia. Qed.

Lemma f_length R K : length (f R K) = 32%nat.
Proof. unfold f. now rewrite select_length. Qed.

(** *** one round, all rounds *)
Lemma des_round_ok s it L R K : d_L s = bz L -> d_R s = bz R -> length L = 32%nat -> length R = 32%nat ->
  length K = 48%nat -> py_get (d_Kn s) it = Ok (bz K) ->
  des_round it s = (Ok tt, mkDes (d_base s) (bz R) (bz (xor L (f R K))) (d_Kn s) (d_final s)).
Proof.
  intros HL HR H1 H2 H3 HK. unfold des_round, bind, get, lift. rewrite HR, HL.
  rewrite (permutate_ok expansion_table R) by (rewrite H2; reflexivity).
  rewrite HK. rewrite xor_lists_ok.
  change (up expansion_table) with E_table.
  rewrite sbox_layer_ok by (rewrite xor_length, select_length, H3; reflexivity).
  rewrite (permutate_ok p_table) by (rewrite sboxes_length; reflexivity).
  change (up p_table) with P_table.
  rewrite xor_lists_ok, xor_comm. reflexivity.
Qed.

Lemma rounds_length ks : forall L R L' R', rounds ks L R = (L', R') -> length L = 32%nat -> length R = 32%nat ->
  length L' = 32%nat /\ length R' = 32%nat.
Proof.
  induction ks as [|K ks IH]; intros L R L' R' H HL HR; cbn in H; [injection H as <- <-; auto|].
  apply (IH R (xor L (f R K)) L' R' H HR). rewrite xor_length, f_length. lia.
Qed.

Lemma rounds_loop (get_it : Z -> Z) ks : forall i s L R,
  (forall j K, nth_error ks j = Some K -> py_get (d_Kn s) (get_it (i + Z.of_nat j)) = Ok (bz K) /\ length K = 48%nat) ->
  d_L s = bz L -> d_R s = bz R -> length L = 32%nat -> length R = 32%nat ->
  for_loop (length ks) i (fun i => des_round (get_it i)) s
  = (Ok tt, mkDes (d_base s) (bz (fst (rounds ks L R))) (bz (snd (rounds ks L R))) (d_Kn s) (d_final s)).
Proof.
  induction ks as [|K ks IH]; intros i s L R Hk HL HR H1 H2.
  - cbn [length for_loop rounds fst snd]. rewrite <- HL, <- HR. destruct s; reflexivity.
  - cbn [length for_loop]. destruct (Hk O K eq_refl) as [E EK]. rewrite Z.add_0_r in E.
    rewrite (bind_ok _ _ _ tt _ (des_round_ok s _ L R K HL HR H1 H2 EK E)).
    rewrite IH with (L := R) (R := xor L (f R K)); cbn [d_L d_R d_Kn d_base d_final]; auto.
    + intros j K' HK'. specialize (Hk (S j) K' HK').
      replace (i + Z.of_nat (S j)) with (i + 1 + Z.of_nat j) in Hk by lia. exact Hk.
    + rewrite xor_length, f_length. lia.
Qed.

Lemma des_crypt_ok s ks b (enc : bool) : d_Kn s = map bz ks -> length ks = 16%nat ->
  Forall (fun K => length K = 48%nat) ks -> length b = 64%nat ->
  exists s', des_crypt (bz b) (if enc then ENCRYPT else DECRYPT) s
   = (Ok (bz (cipher (if enc then ks else rev ks) b)), s') /\ d_base s' = d_base s /\ d_Kn s' = d_Kn s.
Proof.
  intros HK Hn Hf Hb. unfold des_crypt.
  rewrite (permutate_ok ip b) by (rewrite Hb; reflexivity). change (up ip) with IP.
  set (b' := select IP b). assert (Hb' : length b' = 64%nat) by (unfold b'; now rewrite select_length).
  rewrite (bind_ok _ _ _ (bz b') s) by reflexivity.
  rewrite (bind_ok _ _ _ tt (mkDes (d_base s) (bz (firstn 32 b')) (bz (skipn 32 b')) (d_Kn s) (d_final s))).
  2: { unfold set_LR. rewrite py_slice_in by (unfold zlen; rewrite ?bz_length; lia).
       unfold py_slice_from, py_clamp, zlen, sub. rewrite bz_length, Hb'. cbn [skipn Z.to_nat].
       change (Z.to_nat (32 - 0)) with 32%nat. change (Z.to_nat (if 32 <? 0 then Z.max 0 (32 + Z.of_nat 64) else Z.min 32 (Z.of_nat 64))) with 32%nat.
       now rewrite bz_firstn, bz_skipn. }
  set (s1 := mkDes _ _ _ _ _).
  set (ks' := if enc then ks else rev ks).
  assert (Hl : length ks' = 16%nat) by (unfold ks'; destruct enc; rewrite ?rev_length; auto).
  assert (E : for_range 0 16 (fun i => des_round (if (if enc then ENCRYPT else DECRYPT) =? ENCRYPT then i else 15 - i)) s1
    = (Ok tt, mkDes (d_base s1) (bz (fst (rounds ks' (firstn 32 b') (skipn 32 b')))) (bz (snd (rounds ks' (firstn 32 b') (skipn 32 b')))) (d_Kn s1) (d_final s1))).
  { unfold for_range. change (Z.to_nat (16 - 0)) with 16%nat. 
    pose proof (rounds_loop (fun i => if (if enc then ENCRYPT else DECRYPT) =? ENCRYPT then i else 15 - i) ks' 0 s1
      (firstn 32 b') (skipn 32 b')) as Q. rewrite Hl in Q. apply Q; try reflexivity; clear Q.
    - intros j K HKj. assert (Hj : (j < 16)%nat) by (rewrite <- Hl; apply nth_error_Some; congruence).
      split.
      + cbn [s1 d_Kn]. rewrite HK. unfold ks' in HKj. destruct enc.
        * change (ENCRYPT =? ENCRYPT) with true. cbv iota. apply py_get_nth_error.
          now apply map_nth_error.
        * change (DECRYPT =? ENCRYPT) with false. cbv iota.
          replace (15 - (0 + Z.of_nat j)) with (Z.of_nat (15 - j)) by lia. apply py_get_nth_error, map_nth_error.
          rewrite (nth_error_nth' (rev ks) []) in HKj by (rewrite rev_length; lia). injection HKj as <-.
          rewrite rev_nth by lia. rewrite Hn. rewrite (nth_error_nth' ks []) by lia. do 2 f_equal; lia.
      + assert (Forall (fun K => length K = 48%nat) ks') by (unfold ks'; destruct enc; [auto|now apply Forall_rev]).
        rewrite Forall_forall in H. apply H. eapply nth_error_In; eauto. }
  rewrite (bind_ok _ _ _ _ _ E). clear E.
  unfold cipher. fold b'. destruct (rounds ks' (firstn 32 b') (skipn 32 b')) as [L R] eqn:ER. cbn [fst snd].
  apply rounds_length in ER as [HL HR]; [|rewrite firstn_length; lia|rewrite skipn_length; lia].
  cbn [bind get]. unfold bind, get, lift, set_final, ret. cbn [d_R d_L]. rewrite <- bz_app.
  rewrite (permutate_ok fp) by (rewrite app_length, HL, HR; reflexivity).
  change (up fp) with IP_inv. eexists. split; [reflexivity|]. split; reflexivity.
Qed.

(** *** the key schedule *)
Lemma rotate_ok n : forall L R, (n < length L)%nat -> (n < length R)%nat ->
  rotate n L R = Ok (skipn n L ++ firstn n L, skipn n R ++ firstn n R).
Proof.
  assert (G : forall n (L : list Z) x, (n < length L)%nat ->
    skipn n (L ++ [x]) ++ firstn n (L ++ [x]) = skipn (S n) (x :: L) ++ x :: firstn n L).
  { intros m L x Hm. rewrite skipn_app, firstn_app. replace (m - length L)%nat with O by lia. cbn [skipn firstn].
    rewrite app_nil_r, <- app_assoc. reflexivity. }
  induction n as [|n IH]; intros L R HL HR.
  - cbn. now rewrite !app_nil_r.
  - destruct L as [|x L]; [cbn in HL; lia|]. destruct R as [|y R]; [cbn in HR; lia|]. cbn [length] in *.
    cbn [rotate]. change (py_get (x :: L) 0) with (Ok x). change (py_get (y :: R) 0) with (Ok y). cbn [rbind app tl].
    rewrite IH by (rewrite app_length; cbn; lia). rewrite !G by lia. reflexivity.
Qed.

Lemma subkeys_length sh : forall C D, length (subkeys sh C D) = length sh.
Proof. induction sh; intros; cbn [subkeys length]; auto. Qed.
Lemma subkeys_48 sh : forall C D, Forall (fun K => length K = 48%nat) (subkeys sh C D).
Proof. induction sh; intros; cbn [subkeys]; constructor; auto. Qed.
Lemma schedule_length key : length (schedule key) = 16%nat.
Proof. apply subkeys_length. Qed.
Lemma schedule_48 key : Forall (fun K => length K = 48%nat) (schedule key).
Proof. apply subkeys_48. Qed.

Lemma rotl_length n b : length (rotl n b) = length b.
Proof. unfold rotl. rewrite app_length, skipn_length, firstn_length. lia. Qed.

Definition subkey_body : Z -> M des unit := fun i =>
    n <- lift (py_get left_rotations i) ;;
    s <- get ;;
    LR <- lift (rotate (Z.to_nat n) (d_L s) (d_R s)) ;;
    set_LR (fst LR) (snd LR) ;;;
    k <- lift (permutate pc2 (fst LR ++ snd LR)) ;;
    s <- get ;;
    Kn <- lift (py_set (d_Kn s) i k) ;;
    set_Kn Kn.

Lemma subkey_loop sh : forall i C D s, (forall j n, nth_error sh j = Some n ->
     py_get left_rotations (Z.of_nat (i + j)) = Ok (Z.of_nat n) /\ (n < 28)%nat) ->
  length C = 28%nat -> length D = 28%nat -> d_L s = bz C -> d_R s = bz D -> (i + length sh <= length (d_Kn s))%nat ->
  exists L R, for_loop (length sh) (Z.of_nat i) subkey_body s
   = (Ok tt, mkDes (d_base s) L R (splice (d_Kn s) i (map bz (subkeys sh C D))) (d_final s)).
Proof.
  induction sh as [|n sh IH]; intros i C D s Hs HC HD HL HR Hn.
  - exists (d_L s), (d_R s). cbn [length for_loop subkeys map]. rewrite splice_nil. destruct s; reflexivity.
  - destruct (Hs O n eq_refl) as [E En]. rewrite Nat.add_0_r in E. cbn [length for_loop] in *.
    assert (EC : skipn n (bz C) ++ firstn n (bz C) = bz (rotl n C)) by (unfold rotl; now rewrite bz_app, bz_skipn, bz_firstn).
    assert (ED : skipn n (bz D) ++ firstn n (bz D) = bz (rotl n D)) by (unfold rotl; now rewrite bz_app, bz_skipn, bz_firstn).
    erewrite bind_ok.
    2: { unfold subkey_body. rewrite E. rewrite (bind_ok _ _ _ (Z.of_nat n) s) by reflexivity.
         rewrite (bind_ok _ _ _ s s) by reflexivity.
         rewrite HL, HR, Nat2Z.id, rotate_ok by (rewrite bz_length; lia). rewrite EC, ED.
         erewrite bind_ok by reflexivity. cbn [fst snd].
         erewrite bind_ok by reflexivity. rewrite <- bz_app.
         rewrite (permutate_ok pc2) by (rewrite app_length, !rotl_length, HC, HD; reflexivity).
         erewrite bind_ok by reflexivity. erewrite bind_ok by reflexivity. cbn [d_Kn].
         rewrite py_set_in by (unfold zlen; lia). erewrite bind_ok by reflexivity. reflexivity. }
    change (up pc2) with PC2. cbn [d_base d_L d_R d_Kn d_final]. rewrite Nat2Z.id.
    replace (Z.of_nat i + 1) with (Z.of_nat (S i)) by lia.
    set (s' := mkDes _ _ _ _ _).
    destruct (IH (S i) (rotl n C) (rotl n D) s') as (L & R & EI); auto.
    + intros j m Hj. specialize (Hs (S j) m Hj). rewrite Nat.add_succ_r in Hs. exact Hs.
    + now rewrite rotl_length.
    + now rewrite rotl_length.
    + cbn [s' d_Kn]. rewrite list_upd_length. lia.
    + exists L, R. rewrite EI. cbn [s' d_base d_final d_Kn subkeys map]. do 2 f_equal.
      apply splice_cons. rewrite map_length, subkeys_length. lia.
Qed.

Lemma in_range_le n m t : n <= m -> in_range n t = true -> in_range m t = true.
Proof. intros H. unfold in_range. rewrite !forallb_forall. intros Q x Hx. specialize (Q x Hx). lia. Qed.
Lemma create_sub_keys_ge s key : b_key (d_base s) = key -> (8 <= length key)%nat -> length (d_Kn s) = 16%nat ->
  exists L R, create_sub_keys s = (Ok tt, mkDes (d_base s) L R (map bz (schedule (to_bits key))) (d_final s)).
Proof.
  intros Hk Hl Hn. unfold create_sub_keys.
  rewrite (bind_ok _ _ _ s s) by reflexivity. rewrite Hk, String_to_BitList_ok.
  rewrite (permutate_ok pc1) by (apply (in_range_le 64); [rewrite to_bits_length; lia|reflexivity]). change (up pc1) with (PC1_C ++ PC1_D).
  erewrite bind_ok by reflexivity.
  set (C := select PC1_C (to_bits key)). set (D := select PC1_D (to_bits key)).
  assert (ECD : bz (select (PC1_C ++ PC1_D) (to_bits key)) = bz C ++ bz D).
  { unfold select. rewrite map_app, bz_app. reflexivity. }
  rewrite ECD. assert (LC : length C = 28%nat) by (unfold C; now rewrite select_length).
  assert (LD : length D = 28%nat) by (unfold D; now rewrite select_length).
  erewrite (bind_ok _ _ _ tt).
  2: { unfold set_LR. rewrite py_slice_in by (unfold zlen; rewrite ?app_length, ?bz_length; lia).
       unfold py_slice_from, py_clamp, zlen, sub. rewrite app_length, !bz_length, LC, LD.
       change (Z.to_nat (28 - 0)) with 28%nat. change (Z.to_nat 0) with O.
       change (Z.to_nat (if 28 <? 0 then Z.max 0 (28 + Z.of_nat (28 + 28)) else Z.min 28 (Z.of_nat (28 + 28)))) with 28%nat.
       rewrite skipn_O, firstn_app, skipn_app, bz_length, LC, Nat.sub_diag.
       rewrite firstn_all2, skipn_all2 by (rewrite bz_length; lia). rewrite firstn_O, skipn_O, app_nil_r. reflexivity. }
  set (s1 := mkDes _ _ _ _ _).
  destruct (subkey_loop shifts 0 C D s1) as (L & R & E); auto.
  - intros j n Hj. assert (Hj' : (j < 16)%nat) by (change 16%nat with (length shifts); apply nth_error_Some; congruence).
    do 16 (destruct j as [|j]; [injection Hj as <-; split; [reflexivity|lia]|]). lia.
  - cbn [s1 d_Kn]. rewrite Hn. cbn. lia.
  - exists L, R. unfold for_range. change (Z.to_nat (16 - 0)) with (length shifts). change 0 with (Z.of_nat 0).
    change (fun i : Z => _) with subkey_body. rewrite E. cbn [s1 d_base d_final d_Kn].
    rewrite splice_all; [reflexivity|]. rewrite map_length, subkeys_length. now rewrite Hn.
Qed.
Lemma create_sub_keys_ok s key : b_key (d_base s) = key -> length key = 8%nat -> length (d_Kn s) = 16%nat ->
  exists L R, create_sub_keys s = (Ok tt, mkDes (d_base s) L R (map bz (schedule (to_bits key))) (d_final s)).
Proof. intros H1 H2 H3. apply create_sub_keys_ge; auto. lia. Qed.
