(** * C32-C37: BigNumber: proofs *)
From Verif Require Import Py S_Base S_Number S_BigNumber L_Py M_utils L_utils M_util L_util M_bignumber.
From Coq Require Import ZifyBool ZifyNat.
Ltac Zify.zify_post_hook ::= Z.div_mod_to_equations.


Lemma from_bcd_digit b : from_bcd b = bcd_digit b.
Proof.
  unfold from_bcd, bcd_digit. rewrite land_255, shiftr_div by lia.
  change 15 with (Z.ones 4). rewrite Z.land_ones by lia. reflexivity.
Qed.
Lemma from_hex_mod b : from_hex b = b mod 256.
Proof. apply land_255. Qed.
Lemma to_hex_twos d : to_hex d = twos 1 d.
Proof. unfold to_hex. rewrite land_255. apply s1_of_mod. Qed.
Lemma to_bcd_twos d : 0 <= d < 100 -> to_bcd d = twos 1 (bcd_byte d).
Proof.
  intros H. unfold to_bcd, bcd_byte. rewrite land_255, shiftl_mul by lia.
  rewrite (Z.mod_small d 256) by lia. change (2 ^ 4) with 16.
  replace (d / 10 * 16 + d mod 10) with (16 * (d / 10) + d mod 10) by lia.
  set (x := 16 * (d / 10) + d mod 10).
  assert (0 <= x < 256) by (unfold x; lia).
  rewrite <- (Z.mod_small x 256) at 1 by lia. apply s1_of_mod.
Qed.

Lemma init_loop_ok B (conv mul : Z -> Z) a off mb : (forall v, mul v = v * B) -> forall n i v,
  0 <= off + i -> off + i + Z.of_nat n <= zlen a ->
  for_loop n i (fun i =>
      v <- get_value ;; set_value (mul v) ;;;
      v <- get_value ;; x <- lift (py_get a (off + i)) ;; set_value (v + conv x)) (mkBig mb (Some v))
  = (Ok tt, mkBig mb (Some (v * B ^ Z.of_nat n
       + digits_value B (map conv (sub a (Z.to_nat (off + i)) n))))).
Proof.
  intros Hm. induction n as [|n IH]; intros i v H1 H2.
  - cbn [for_loop]. unfold ret. rewrite sub_0. cbn [map digits_value].
    repeat f_equal. rewrite Z.pow_0_r. lia.
  - rewrite for_loop_S.
    rewrite (bind_ok _ _ _ tt (mkBig mb (Some (v * B + conv (nth (Z.to_nat (off + i)) a 0))))).
    + rewrite IH by lia.
      rewrite (sub_S a (Z.to_nat (off + i)) n 0) by (unfold zlen in *; lia).
      cbn [map digits_value]. rewrite map_length, sub_length by (unfold zlen in *; lia).
      replace (Z.to_nat (off + (i + 1))) with (S (Z.to_nat (off + i))) by lia.
      do 3 f_equal. rewrite Nat2Z.inj_succ, Z.pow_succ_r by lia. ring.
    + unfold bind, get_value, set_value, lift. cbn [value maxBytes].
      rewrite (py_get_in a (off + i) 0) by lia. now rewrite Hm.
Qed.

Lemma init_loop_err B (conv mul : Z -> Z) a off mb : (forall v, mul v = v * B) -> forall n i v,
  0 <= off + i <= zlen a -> zlen a < off + i + Z.of_nat n ->
  for_loop n i (fun i =>
      v <- get_value ;; set_value (mul v) ;;;
      v <- get_value ;; x <- lift (py_get a (off + i)) ;; set_value (v + conv x)) (mkBig mb (Some v))
  = (Err IndexError, mkBig mb (Some (B * (v * B ^ (zlen a - off - i)
       + digits_value B (map conv (skipn (Z.to_nat (off + i)) a)))))).
Proof.
  intros Hm. induction n as [|n IH]; intros i v H1 H2; [lia|].
  rewrite for_loop_S. destruct (Z.eq_dec (off + i) (zlen a)) as [E|E].
  - rewrite (bind_err _ _ _ IndexError (mkBig mb (Some (v * B)))).
    + rewrite skipn_all2 by (unfold zlen in *; lia). cbn [map digits_value].
      replace (zlen a - off - i) with 0 by lia. do 3 f_equal. lia.
    + unfold bind, get_value, set_value, lift. cbn [value maxBytes].
      rewrite (py_get_out a (off + i)) by lia. now rewrite Hm.
  - rewrite (bind_ok _ _ _ tt (mkBig mb (Some (v * B + conv (nth (Z.to_nat (off + i)) a 0))))).
    + rewrite IH by lia.
      rewrite (skipn_nth a (Z.to_nat (off + i)) 0) by (unfold zlen in *; lia).
      cbn [map digits_value]. rewrite map_length, skipn_length.
      replace (Z.to_nat (off + (i + 1))) with (S (Z.to_nat (off + i))) by lia.
      replace (Z.of_nat (length a - S (Z.to_nat (off + i)))) with (zlen a - off - (i + 1))
        by (unfold zlen in *; lia).
      replace (zlen a - off - i) with (Z.succ (zlen a - off - (i + 1))) by lia.
      rewrite Z.pow_succ_r by lia. do 3 f_equal. ring.
    + unfold bind, get_value, set_value, lift. cbn [value maxBytes].
      rewrite (py_get_in a (off + i) 0) by lia. now rewrite Hm.
Qed.

Lemma init_ok a off len fmt s : 0 <= off -> 0 < len -> off + len <= zlen a -> fmt = 1 \/ fmt = 2 ->
  init (Some a) off len fmt s
  = (Ok tt, mkBig (maxBytes s) (Some (denote fmt (sub a (Z.to_nat off) (Z.to_nat len))))).
Proof.
  intros H1 H2 H3 H4. unfold init. replace (len =? 0) with false by lia.
  assert (Hs : forall v, Z.shiftl v 8 = v * 256) by (intros; now rewrite shiftl_mul by lia).
  destruct H4 as [-> | ->].
  - change (1 =? FORMAT_BCD) with true. cbv iota.
    rewrite (bind_ok _ _ _ tt (mkBig (maxBytes s) (Some 0))) by reflexivity.
    unfold for_range. rewrite (init_loop_ok 100 from_bcd (fun v => v * 100)) by lia.
    rewrite Z.add_0_r. unfold denote. cbn [Z.eqb Pos.eqb]. rewrite Z.sub_0_r.
    do 3 f_equal. rewrite Z.mul_0_l, Z.add_0_l. f_equal.
    apply map_ext. apply from_bcd_digit.
  - change (2 =? FORMAT_BCD) with false. change (2 =? FORMAT_HEX) with true. cbv iota.
    rewrite (bind_ok _ _ _ tt (mkBig (maxBytes s) (Some 0))) by reflexivity.
    unfold for_range. rewrite (init_loop_ok 256 from_hex (fun v => Z.shiftl v 8)) by (auto; lia).
    rewrite Z.add_0_r. unfold denote. cbn [Z.eqb Pos.eqb]. rewrite Z.sub_0_r.
    do 3 f_equal. rewrite Z.mul_0_l, Z.add_0_l. f_equal.
    apply map_ext. apply from_hex_mod.
Qed.

Lemma init_index_err a off len fmt s :
  0 <= off <= zlen a -> 0 < len -> zlen a < off + len -> fmt = 1 \/ fmt = 2 ->
  init (Some a) off len fmt s
  = (Err IndexError, mkBig (maxBytes s) (Some (base_of fmt * denote fmt (skipn (Z.to_nat off) a)))).
Proof.
  intros H1 H2 H3 H4. unfold init. replace (len =? 0) with false by lia.
  assert (Hs : forall v, Z.shiftl v 8 = v * 256) by (intros; now rewrite shiftl_mul by lia).
  destruct H4 as [-> | ->].
  - change (1 =? FORMAT_BCD) with true. cbv iota.
    rewrite (bind_ok _ _ _ tt (mkBig (maxBytes s) (Some 0))) by reflexivity.
    unfold for_range. rewrite (init_loop_err 100 from_bcd (fun v => v * 100)) by lia.
    rewrite Z.add_0_r. unfold denote, base_of. cbn [Z.eqb Pos.eqb].
    do 4 f_equal. rewrite Z.mul_0_l, Z.add_0_l. f_equal.
    apply map_ext. apply from_bcd_digit.
  - change (2 =? FORMAT_BCD) with false. change (2 =? FORMAT_HEX) with true. cbv iota.
    rewrite (bind_ok _ _ _ tt (mkBig (maxBytes s) (Some 0))) by reflexivity.
    unfold for_range. rewrite (init_loop_err 256 from_hex (fun v => Z.shiftl v 8)) by (auto; lia).
    rewrite Z.add_0_r. unfold denote, base_of. cbn [Z.eqb Pos.eqb].
    do 4 f_equal. rewrite Z.mul_0_l, Z.add_0_l. f_equal.
    apply map_ext. apply from_hex_mod.
Qed.

(** *** digits *)
Lemma to_base_length B n v : length (to_base B n v) = n.
Proof. induction n; cbn; auto. Qed.

(** least significant digit first *)
Fixpoint le_digits (B : Z) (n : nat) (v : Z) : list Z :=
  match n with O => [] | S n' => v mod B :: le_digits B n' (v / B) end.

Lemma to_base_snoc B n : 1 < B -> forall v, to_base B (S n) v = to_base B n (v / B) ++ [v mod B].
Proof.
  intros HB. induction n as [|n IH]; intros v.
  - cbn. now rewrite Z.div_1_r.
  - change (to_base B (S (S n)) v)
      with ((v / B ^ Z.of_nat (S n)) mod B :: to_base B (S n) v).
    rewrite IH. cbn [to_base app]. f_equal.
    rewrite Nat2Z.inj_succ, Z.pow_succ_r, Z.div_div by lia. reflexivity.
Qed.

Lemma le_digits_rev B n : 1 < B -> forall v, rev (le_digits B n v) = to_base B n v.
Proof.
  intros HB. induction n as [|n IH]; intros v; [reflexivity|].
  rewrite to_base_snoc by lia. cbn [le_digits rev]. now rewrite IH.
Qed.

Lemma le_digits_0 B n : 1 < B -> le_digits B n 0 = repeat 0 n.
Proof. intros HB. induction n; [reflexivity|]. cbn [le_digits repeat]. rewrite Z.div_0_l, IHn, Z.mod_0_l by lia. auto. Qed.

(** the digits of [v] without leading zeros, given enough fuel *)
Lemma digit_loop_ok B enc : 1 < B -> enc 0 = 0 -> forall fuel v acc, 0 <= v -> v < 2 ^ (Z.of_nat fuel - 1) -> (0 < fuel)%nat ->
  exists ds, digit_loop fuel B enc v acc = Ok (acc ++ ds)
    /\ (forall n, zlen ds <= n <-> v < B ^ n)
    /\ (forall n, (length ds <= n)%nat -> ds ++ repeat 0 (n - length ds) = map enc (le_digits B n v)).
Proof.
  intros HB He. induction fuel as [|f IH]; intros v acc Hv Hf Hp; [lia|].
  cbn [digit_loop]. destruct (Z.ltb_spec 0 v) as [E|E].
  - assert (f <> O) by (intros ->; cbn in Hf; lia).
    destruct (IH (v / B) (acc ++ [enc (v mod B)])) as (ds & E1 & E2 & E3).
    { apply Z.div_pos; lia. }
    { replace (Z.of_nat (S f) - 1) with (Z.succ (Z.of_nat f - 1)) in Hf by lia.
      rewrite Z.pow_succ_r in Hf by lia. apply Z.div_lt_upper_bound; nia. }
    { lia. }
    exists (enc (v mod B) :: ds). split; [|split].
    + rewrite E1, <- app_assoc. reflexivity.
    + intros n. rewrite zlen_cons. pose proof (zlen_nonneg ds).
      destruct (Z.le_gt_cases n 0) as [Hn|Hn].
      * split; [lia|]. intros Hb. destruct (Z.eq_dec n 0) as [->|]; [cbn in Hb; lia|].
        rewrite Z.pow_neg_r in Hb by lia. lia.
      * specialize (E2 (n - 1)).
        replace n with (Z.succ (n - 1)) at 2 by lia. rewrite Z.pow_succ_r by lia.
        split; intros Hb.
        -- assert (v / B < B ^ (n - 1)) by (apply E2; lia).
           pose proof (Z.mod_pos_bound v B ltac:(lia)). pose proof (Z.div_mod v B ltac:(lia)). nia.
        -- assert (zlen ds <= n - 1); [|lia]. apply E2. apply Z.div_lt_upper_bound; lia.
    + intros [|n] Hn; [cbn in Hn; lia|].
      cbn [length app Nat.sub le_digits map]. f_equal. apply E3. cbn in Hn. lia.
  - assert (v = 0) by lia. subst v. exists []. split; [|split].
    + now rewrite app_nil_r.
    + intros n. rewrite zlen_nil. split; intros.
      * apply Z.pow_pos_nonneg; lia.
      * destruct (Z.le_gt_cases 0 n); auto. rewrite Z.pow_neg_r in H by lia. lia.
    + intros n Hn. cbn [length app]. rewrite Nat.sub_0_r, le_digits_0 by lia.
      clear -He. induction n; cbn; [auto|]. now rewrite He, <- IHn.
Qed.

Lemma digit_fuel_enough v : 0 <= v -> v < 2 ^ (Z.of_nat (digit_fuel v) - 1) /\ (0 < digit_fuel v)%nat.
Proof.
  intros Hv. unfold digit_fuel. pose proof (Z.log2_nonneg v).
  split; [|lia]. rewrite Z2Nat.id by lia. replace (Z.log2 v + 2 - 1) with (Z.succ (Z.log2 v)) by lia.
  destruct (Z.eq_dec v 0) as [->|]; [cbn; lia|]. apply Z.log2_spec. lia.
Qed.

Lemma to_base_range B n v : 1 < B -> Forall (fun d => 0 <= d < B) (to_base B n v).
Proof.
  intros HB. induction n; cbn; constructor; auto. apply Z.mod_pos_bound. lia.
Qed.

Lemma to_bcd_0 : to_bcd 0 = 0. Proof. reflexivity. Qed.
Lemma to_hex_0 : to_hex 0 = 0. Proof. reflexivity. Qed.

(** toBytes on a non-negative value: raises Arithmetic exactly when the value
    does not fit, else hands the digits to arrayCopy. *)
Lemma toBytes_digits mb v off nb fmt out : 0 <= v -> fmt = 1 \/ fmt = 2 ->
  toBytes (mkBig mb (Some v)) off nb fmt out
  = if v <? base_of fmt ^ nb
    then arrayCopy_into (map (digit_byte fmt) (to_base (base_of fmt) (Z.to_nat nb) v)) 0 off nb out
    else (Err Arithmetic, out).
Proof.
  intros Hv Hf. unfold toBytes. cbn [value].
  destruct (digit_fuel_enough v Hv) as [F1 F2].
  assert (HB : exists enc, enc 0 = 0
     /\ (if fmt =? FORMAT_BCD then digit_loop (digit_fuel v) 100 to_bcd v []
         else if fmt =? FORMAT_HEX then digit_loop (digit_fuel v) 256 to_hex v [] else Err Arithmetic)
        = digit_loop (digit_fuel v) (base_of fmt) enc v []
     /\ 1 < base_of fmt
     /\ forall d, 0 <= d < base_of fmt -> enc d = digit_byte fmt d).
  { destruct Hf as [-> | ->].
    - exists to_bcd. split; [apply to_bcd_0|]. split; [reflexivity|]. split; [reflexivity|].
      apply to_bcd_twos.
    - exists to_hex. split; [apply to_hex_0|]. split; [reflexivity|]. split; [reflexivity|].
      intros; apply to_hex_twos. }
  destruct HB as (enc & He & -> & HB & Henc).
  destruct (digit_loop_ok (base_of fmt) enc HB He (digit_fuel v) v [] Hv F1 F2) as (ds & -> & Hfit & Hds).
  cbn [app].
  destruct (Z.ltb_spec nb (zlen ds)) as [E|E]; destruct (Z.ltb_spec v (base_of fmt ^ nb)) as [E'|E'].
  - apply Hfit in E'. lia.
  - reflexivity.
  - f_equal. unfold py_repeat.
    replace (Z.to_nat (nb - zlen ds)) with (Z.to_nat nb - length ds)%nat by (unfold zlen in *; lia).
    rewrite Hds by (unfold zlen in *; lia).
    rewrite <- map_rev, le_digits_rev by lia. apply map_ext_in.
    intros d Hd. apply Henc.
    pose proof (to_base_range (base_of fmt) (Z.to_nat nb) v HB) as Hr.
    rewrite Forall_forall in Hr. auto.
  - apply Hfit in E. lia.
Qed.

Lemma digits_value_bound B ds : 1 < B -> Forall (fun d => 0 <= d < B) ds ->
  0 <= digits_value B ds < B ^ Z.of_nat (length ds).
Proof.
  intros HB. induction 1 as [|d ds Hd _ IH]; [cbn; lia|].
  cbn [digits_value length]. rewrite Nat2Z.inj_succ, Z.pow_succ_r by lia. nia.
Qed.

Lemma to_base_value B ds : 1 < B -> Forall (fun d => 0 <= d < B) ds ->
  forall hi, to_base B (length ds) (hi * B ^ Z.of_nat (length ds) + digits_value B ds) = ds.
Proof.
  intros HB. induction 1 as [|d ds Hd Hds IH]; intros hi; [reflexivity|].
  pose proof (digits_value_bound B ds HB Hds) as Hb.
  assert (Hp : 0 < B ^ Z.of_nat (length ds)) by (apply Z.pow_pos_nonneg; lia).
  cbn [length to_base digits_value]. rewrite Nat2Z.inj_succ, Z.pow_succ_r by lia.
  set (P := B ^ Z.of_nat (length ds)) in *.
  replace (hi * (B * P) + (d * P + digits_value B ds)) with ((hi * B + d) * P + digits_value B ds) by ring.
  f_equal; [|apply IH].
  rewrite Z.div_add_l, Z.div_small by lia. rewrite Z.add_0_r, Z.add_comm, Z.mod_add by lia.
  apply Z.mod_small; lia.
Qed.

Lemma to_base_small B n m v : 1 < B -> 0 <= v < B ^ Z.of_nat n ->
  to_base B (m + n) v = repeat 0 m ++ to_base B n v.
Proof.
  intros HB Hv. induction m as [|m IH]; [reflexivity|].
  cbn [Nat.add to_base repeat app]. f_equal; auto.
  rewrite Z.div_small; [apply Z.mod_0_l; lia|].
  split; [lia|]. eapply Z.lt_le_trans; [apply Hv|]. apply Z.pow_le_mono_r; lia.
Qed.

Definition digits_of (fmt : Z) (l : list Z) : list Z :=
  if fmt =? 1 then map bcd_digit l else map (fun b => b mod 256) l.
Lemma denote_digits fmt l : denote fmt l = digits_value (base_of fmt) (digits_of fmt l).
Proof. unfold denote, base_of, digits_of. now destruct (fmt =? 1). Qed.
Lemma digits_of_length fmt l : length (digits_of fmt l) = length l.
Proof. unfold digits_of. destruct (fmt =? 1); apply map_length. Qed.

Lemma denote_nonneg fmt l : 0 <= denote fmt l.
Proof.
  unfold denote.
  assert (H : forall B ds, 0 < B -> Forall (fun d => 0 <= d) ds -> 0 <= digits_value B ds).
  { intros B ds HB. induction 1; cbn [digits_value]; [lia|].
    assert (0 < B ^ Z.of_nat (length l0)) by (apply Z.pow_pos_nonneg; lia). nia. }
  destruct (fmt =? 1); apply H; try lia; rewrite Forall_map; apply Forall_forall; intros b _.
  - unfold bcd_digit. lia.
  - apply Z.mod_pos_bound. lia.
Qed.

Lemma C32_roundtrip_pf : forall a off len fmt s out boff nb,
  0 <= off -> 0 < len -> off + len <= zlen a ->
  fmt = 2 \/ (fmt = 1 /\ Forall valid_bcd (sub a (Z.to_nat off) (Z.to_nat len))) ->
  len <= nb -> 0 <= boff -> boff + nb <= zlen out ->
  let '(r, s') := init (Some a) off len fmt s in
  r = Ok tt
  /\ toBytes s' boff nb fmt out
     = (Ok tt, splice out (Z.to_nat boff)
                 (repeat 0 (Z.to_nat (nb - len))
                  ++ map (twos 1) (sub a (Z.to_nat off) (Z.to_nat len)))).
Proof.
  intros a off len fmt s out boff nb H1 H2 H3 H4 H5 H6 H7.
  assert (Hf : fmt = 1 \/ fmt = 2) by tauto.
  rewrite init_ok by auto. split; [reflexivity|].
  set (l := sub a (Z.to_nat off) (Z.to_nat len)) in *.
  assert (Hl : zlen l = len).
  { unfold l, zlen. rewrite sub_length by (unfold zlen in *; lia). lia. }
  rewrite toBytes_digits by (auto using denote_nonneg).
  assert (HB : 1 < base_of fmt) by (unfold base_of; destruct (fmt =? 1); lia).
  assert (Hd : Forall (fun d => 0 <= d < base_of fmt) (digits_of fmt l)).
  { unfold digits_of, base_of. destruct H4 as [-> | [-> Hv]].
    - change (2 =? 1) with false. cbv iota. rewrite Forall_map. apply Forall_forall. intros b _. apply Z.mod_pos_bound. lia.
    - change (1 =? 1) with true. cbv iota. rewrite Forall_map. eapply Forall_impl; [|exact Hv].
      intros b [Hb1 Hb2]. unfold bcd_digit. lia. }
  pose proof (digits_value_bound _ _ HB Hd) as Hb.
  rewrite <- denote_digits in Hb. rewrite digits_of_length in Hb. fold (zlen l) in Hb. rewrite Hl in Hb.
  assert (Hle : base_of fmt ^ len <= base_of fmt ^ nb) by (apply Z.pow_le_mono_r; lia).
  replace (denote fmt l <? base_of fmt ^ nb) with true by lia.
  rewrite arrayCopy_into_ok; try lia.
  2: { unfold zlen. rewrite map_length, to_base_length. lia. }
  do 2 f_equal. rewrite sub_full by (rewrite map_length, to_base_length; lia).
  replace (Z.to_nat nb) with (Z.to_nat (nb - len) + Z.to_nat len)%nat by lia.
  rewrite to_base_small by (try rewrite Z2Nat.id; lia).
  rewrite map_app. f_equal.
  - assert (E0 : digit_byte fmt 0 = 0) by (unfold digit_byte; destruct (fmt =? 1); reflexivity).
    clear -E0. generalize (Z.to_nat (nb - len)). intros n. induction n; cbn; [auto|now rewrite E0, IHn].
  - replace (Z.to_nat len) with (length (digits_of fmt l))
      by (rewrite digits_of_length; unfold zlen in Hl; lia).
    rewrite denote_digits.
    pose proof (to_base_value _ _ HB Hd 0) as Hv. rewrite Z.mul_0_l, Z.add_0_l in Hv. rewrite Hv.
    unfold digits_of. destruct H4 as [-> | [-> Hvb]].
    + change (2 =? 1) with false. cbv iota. rewrite map_map. apply map_ext. intros b.
      unfold digit_byte. change (2 =? 1) with false. cbv iota. apply (twos_mod 1 b). lia.
    + change (1 =? 1) with true. cbv iota. rewrite map_map. apply map_ext_in. intros b Hb'.
      rewrite Forall_forall in Hvb. destruct (Hvb b Hb') as [V1 V2].
      unfold digit_byte. change (1 =? 1) with true. cbv iota.
      assert (E : bcd_byte (bcd_digit b) = b mod 256) by (unfold bcd_byte, bcd_digit; lia).
      rewrite E. apply (twos_mod 1 b). lia.
Qed.

Lemma operand_ok a off len fmt : range_ok a off len fmt ->
  operand a off len fmt = Ok (mkBig None (Some (range_value a off len fmt))).
Proof. intros (l & -> & H1 & H2 & H3 & H4). unfold operand. now rewrite init_ok by auto. Qed.

Lemma C33_init_pf : forall a off len fmt s, range_ok a off len fmt ->
  init a off len fmt s = (Ok tt, mkBig (maxBytes s) (Some (range_value a off len fmt)))
  /\ 0 <= range_value a off len fmt.
Proof.
  intros a off len fmt s (l & -> & H1 & H2 & H3 & H4). split; [now rewrite init_ok by auto|].
  apply denote_nonneg.
Qed.

Lemma C33_arithmetic_pf : forall ops mb v, Forall op_ok ops ->
  big_seq ops (mkBig mb (Some v)) = (Ok tt, mkBig mb (Some (fold_left op_value ops v))).
Proof.
  induction ops as [|o ops IH]; intros mb v H; [reflexivity|].
  inversion H as [|? ? Ho Hs]; subst. cbn [big_seq fold_left].
  rewrite (bind_ok _ _ _ tt (mkBig mb (Some (op_value v o)))); [auto|].
  destruct o; cbn [big_step op_value op_ok] in *;
    [destruct (C33_init_pf a off len fmt (mkBig mb (Some v)) Ho) as [-> _]; reflexivity|..];
    unfold add, subtract, multiply;
    rewrite operand_ok by auto; reflexivity.
Qed.

Lemma C33_compareTo_pf : forall mb v a off len fmt mb' w, 
  compareTo_big (mkBig mb (Some v)) (mkBig mb' (Some w)) = Ok (cmp_sign v w)
  /\ (range_ok a off len fmt ->
      compareTo (mkBig mb (Some v)) a off len fmt = Ok (cmp_sign v (range_value a off len fmt))).
Proof.
  intros mb v a off len fmt mb' w.
  assert (H : forall mb' w, compareTo_big (mkBig mb (Some v)) (mkBig mb' (Some w)) = Ok (cmp_sign v w)).
  { intros mb0 w0. unfold compareTo_big, cmp_sign. cbn [value].
    destruct (Z.compare_spec v w0).
    - now replace (v =? w0) with true by lia.
    - replace (v =? w0) with false by lia. now replace (w0 <? v) with false by lia.
    - replace (v =? w0) with false by lia. now replace (w0 <? v) with true by lia. }
  split; [apply H|]. intros Hr. unfold compareTo. rewrite operand_ok by auto. apply H.
Qed.

Lemma C33_toBytes_pf : forall mb v boff nb fmt out, 0 <= v -> fmt = 1 \/ fmt = 2 ->
  0 <= boff -> boff + nb <= zlen out ->
  toBytes (mkBig mb (Some v)) boff nb fmt out
  = if v <? base_of fmt ^ nb
    then (Ok tt, splice out (Z.to_nat boff) (map (digit_byte fmt) (to_base (base_of fmt) (Z.to_nat nb) v)))
    else (Err Arithmetic, out).
Proof.
  intros mb v boff nb fmt out H1 H2 H3 H4. rewrite toBytes_digits by auto.
  destruct (Z.ltb_spec v (base_of fmt ^ nb)) as [E|E]; [|reflexivity].
  assert (0 <= nb).
  { destruct (Z.le_gt_cases 0 nb); auto. rewrite Z.pow_neg_r in E by lia. lia. }
  rewrite arrayCopy_into_ok; try lia.
  - now rewrite sub_full by (rewrite map_length, to_base_length; lia).
  - unfold zlen. rewrite map_length, to_base_length. lia.
Qed.

Lemma C34_refuted_pf : forall mb v a off len fmt, range_ok a off len fmt -> v < range_value a off len fmt ->
  subtract a off len fmt (mkBig mb (Some v)) = (Ok tt, mkBig mb (Some (v - range_value a off len fmt)))
  /\ v - range_value a off len fmt < 0
  /\ forall out boff nb, 0 <= nb -> 0 <= boff -> boff + nb <= zlen out ->
     toBytes (mkBig mb (Some (v - range_value a off len fmt))) boff nb fmt out
     = (Ok tt, splice out (Z.to_nat boff) (repeat 0 (Z.to_nat nb))).
Proof.
  intros mb v a off len fmt Hr Hlt.
  split; [unfold subtract; rewrite operand_ok by auto; reflexivity|]. split; [lia|].
  intros out boff nb H1 H2 H3. set (w := v - range_value a off len fmt) in *.
  assert (Hf : fmt = 1 \/ fmt = 2) by (destruct Hr as (l & _ & _ & _ & _ & Hf); exact Hf).
  unfold toBytes. cbn [value].
  assert (Hd : forall B enc, digit_loop (digit_fuel w) B enc w [] = Ok []).
  { intros B enc. unfold digit_fuel. rewrite Z.log2_nonpos by lia.
    change (Z.to_nat (0 + 2)) with 2%nat. cbn [digit_loop].
    now replace (0 <? w) with false by lia. }
  assert (E : (if fmt =? FORMAT_BCD then digit_loop (digit_fuel w) 100 to_bcd w []
      else if fmt =? FORMAT_HEX then digit_loop (digit_fuel w) 256 to_hex w []
           else Err Arithmetic) = Ok []).
  { rewrite !Hd. destruct Hf as [-> | ->]; reflexivity. }
  rewrite E. rewrite zlen_nil. replace (nb <? 0) with false by lia.
  cbn [app]. unfold py_repeat. rewrite Z.sub_0_r.
  assert (Er : rev (repeat 0 (Z.to_nat nb)) = repeat 0 (Z.to_nat nb)).
  { generalize (Z.to_nat nb). intros n. induction n; cbn; [auto|]. rewrite IHn. clear.
    induction n; cbn; congruence. }
  rewrite Er, arrayCopy_into_ok; try lia.
  - now rewrite sub_full by (rewrite repeat_length; lia).
  - rewrite zlen_repeat. lia.
Qed.

Lemma C34_partial_pf : forall mb v a off len fmt, range_ok a off len fmt -> range_value a off len fmt <= v ->
  exists w, subtract a off len fmt (mkBig mb (Some v)) = (Ok tt, mkBig mb (Some w))
    /\ 0 <= w /\ w + range_value a off len fmt = v.
Proof.
  intros mb v a off len fmt Hr Hle. exists (v - range_value a off len fmt).
  split; [unfold subtract; rewrite operand_ok by auto; reflexivity|]. lia.
Qed.

Lemma C35_refuted_pf : forall a off len s, 0 <= off -> 0 < len -> off + len <= zlen a ->
  init (Some a) off len 1 s
  = (Ok tt, mkBig (maxBytes s) (Some (digits_value 100 (map bcd_digit (sub a (Z.to_nat off) (Z.to_nat len)))))).
Proof. intros a off len s H1 H2 H3. now rewrite init_ok by auto. Qed.

Lemma C36_refuted_pf : forall m v w, 0 < m -> 0 <= v -> 0 <= w -> exists s a len,
  newBigNumber (Some m) = Ok s /\ range_ok (Some a) 0 len 2 /\ range_value (Some a) 0 len 2 > w
  /\ init (Some a) 0 len 2 s = (Ok tt, mkBig (Some m) (Some (range_value (Some a) 0 len 2)))
  /\ add (Some a) 0 len 2 (mkBig (Some m) (Some v)) = (Ok tt, mkBig (Some m) (Some (v + range_value (Some a) 0 len 2)))
  /\ multiply (Some a) 0 len 2 (mkBig (Some m) (Some v)) = (Ok tt, mkBig (Some m) (Some (v * range_value (Some a) 0 len 2))).
Proof.
  intros m v w Hm Hv Hw.
  set (n := Z.to_nat (Z.log2 w + 1)). set (a := 1 :: repeat 0 n).
  exists (mkBig (Some m) None), a, (zlen a).
  assert (Hr : range_ok (Some a) 0 (zlen a) 2).
  { exists a. unfold a. rewrite zlen_cons. pose proof (zlen_nonneg (repeat 0 n)). repeat split; auto; lia. }
  assert (Hval : range_value (Some a) 0 (zlen a) 2 > w).
  { unfold range_value. cbn [Z.to_nat]. rewrite to_nat_zlen, sub_full by lia.
    unfold denote. cbn [Z.eqb Pos.eqb]. unfold a. cbn [map digits_value]. rewrite map_length, repeat_length.
    assert (0 <= digits_value 256 (map (fun b => b mod 256) (repeat 0 n))) by apply (denote_nonneg 2).
    change (1 mod 256) with 1. 
    assert (w < 256 ^ Z.of_nat n); [|lia].
    unfold n. rewrite Z2Nat.id by (pose proof (Z.log2_nonneg w); lia).
    destruct (Z.eq_dec w 0) as [->|]; [cbn; lia|].
    eapply Z.lt_le_trans; [apply Z.log2_spec; lia|].
    pose proof (Z.log2_nonneg w). apply Z.pow_le_mono_l. lia. }
  split; [unfold newBigNumber; now replace (m <=? 0) with false by lia|].
  split; [exact Hr|]. split; [exact Hval|].
  split; [now destruct (C33_init_pf (Some a) 0 (zlen a) 2 (mkBig (Some m) None) Hr) as [-> _]|].
  unfold add, multiply. rewrite operand_ok by auto. split; reflexivity.
Qed.

Lemma C36_partial_pf : forall m, newBigNumber m
  = match m with
    | Some k => if k <=? 0 then Err Arithmetic else Ok (mkBig m None)
    | None => Ok (mkBig m None)
    end.
Proof. intros [k|]; reflexivity. Qed.

Lemma C37_refuted_pf : forall a off len fmt s,
  0 <= off <= zlen a -> 0 < len -> zlen a < off + len -> fmt = 1 \/ fmt = 2 ->
  init (Some a) off len fmt s
  = (Err IndexError, mkBig (maxBytes s) (Some (base_of fmt * denote fmt (skipn (Z.to_nat off) a)))).
Proof. exact init_index_err. Qed.

Lemma C37_partial_pf : forall o s e s', big_step o s = (Err e, s') ->
  match o with OpInit _ _ _ _ => e <> IndexError -> s' = s | _ => s' = s end.
Proof.
  intros o s e s'. destruct o; cbn [big_step].
  - intros H He. unfold init in H. destruct (len =? 0); [now injection H|].
    destruct a as [a|]; [|now injection H].
    assert (Hl : forall (conv mul : Z -> Z) n i s0 e0 s0', value s0 <> None ->
      for_loop n i (fun i =>
      v <- get_value ;; set_value (mul v) ;;;
      v <- get_value ;; x <- lift (py_get a (off + i)) ;; set_value (v + conv x)) s0 = (Err e0, s0') -> e0 = IndexError).
    { intros conv mul. induction n as [|n IH]; intros i s0 e0 s0' Hn H0; [discriminate|].
      rewrite for_loop_S in H0. destruct s0 as [mb [v|]]; [|easy].
      destruct (py_get_cases a (off + i)) as [[x Hx]|Hx].
      - rewrite (bind_ok _ _ _ tt (mkBig mb (Some (mul v + conv x)))) in H0.
        + eapply IH; [|exact H0]. discriminate.
        + unfold bind, get_value, set_value, lift. cbn [value maxBytes]. now rewrite Hx.
      - rewrite (bind_err _ _ _ IndexError (mkBig mb (Some (mul v)))) in H0; [congruence|].
        unfold bind, get_value, set_value, lift. cbn [value maxBytes]. now rewrite Hx. }
    destruct (fmt =? FORMAT_BCD); [|destruct (fmt =? FORMAT_HEX); [|now injection H]].
    all: rewrite (bind_ok _ _ _ tt (mkBig (maxBytes s) (Some 0))) in H by reflexivity.
    + exfalso. apply He. exact (Hl from_bcd (fun v => v * 100) _ 0 (mkBig (maxBytes s) (Some 0)) e s' ltac:(discriminate) H).
    + exfalso. apply He. exact (Hl from_hex (fun v => Z.shiftl v 8) _ 0 (mkBig (maxBytes s) (Some 0)) e s' ltac:(discriminate) H).
  - unfold add, bind, lift. destruct (operand a off len fmt); [|congruence].
    unfold combine. destruct (value s), (value a0); congruence.
  - unfold subtract, bind, lift. destruct (operand a off len fmt); [|congruence].
    unfold combine. destruct (value s), (value a0); congruence.
  - unfold multiply, bind, lift. destruct (operand a off len fmt); [|congruence].
    unfold combine. destruct (value s), (value a0); congruence.
Qed.
