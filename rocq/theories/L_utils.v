(** * Lemmas about M_utils.v (bit operations, two's complement) *)
From Verif Require Import Py S_Base L_Py M_utils.
From Coq Require Import ZifyBool ZifyNat.
Ltac Zify.zify_post_hook ::= Z.div_mod_to_equations.

Lemma land_255 v : Z.land v 255 = v mod 256.
Proof. change 255 with (Z.ones 8). now rewrite Z.land_ones by lia. Qed.

Lemma land_127 v : Z.land v 127 = v mod 128.
Proof. change 127 with (Z.ones 7). now rewrite Z.land_ones by lia. Qed.

Lemma shiftl_mul v n : 0 <= n -> Z.shiftl v n = v * 2 ^ n.
Proof. apply Z.shiftl_mul_pow2. Qed.

Lemma shiftr_div v n : 0 <= n -> Z.shiftr v n = v / 2 ^ n.
Proof. apply Z.shiftr_div_pow2. Qed.

Lemma lor_add a b : Z.land a b = 0 -> Z.lor a b = a + b.
Proof. intros H. rewrite Z.add_nocarry_lxor by assumption. now rewrite Z.lxor_lor. Qed.

Lemma land_low_high x b n : 0 <= n -> 0 <= b < 2 ^ n -> Z.land (Z.shiftl x n) b = 0.
Proof.
  intros Hn Hb. apply Z.bits_inj'; intros i Hi. rewrite Z.land_spec, Z.bits_0.
  destruct (Z.lt_ge_cases i n) as [H|H].
  - rewrite Z.shiftl_spec_low by assumption. reflexivity.
  - replace b with (b mod 2 ^ n) by (apply Z.mod_small; lia).
    rewrite Z.mod_pow2_bits_high by lia. apply andb_false_r.
Qed.

Lemma signed_spec v d : 1 <= d ->
  signed v d = if 2 ^ (8 * d - 1) <=? v then - ((- v) mod 2 ^ (8 * d)) else v.
Proof.
  intros Hd; unfold signed. rewrite !Z.shiftl_mul_pow2 by lia. rewrite !Z.mul_1_l.
  replace (d * 8) with (8 * d) by lia.
  replace (2 ^ (8 * d) - 1) with (Z.ones (8 * d)) by (rewrite Z.ones_equiv; lia).
  rewrite Z.land_ones by lia.
  replace (Z.lnot (v - 1)) with (- v) by (unfold Z.lnot; lia).
  destruct (Z.ltb_spec (2 ^ (8 * d - 1) - 1) v) as [H|H];
  destruct (Z.leb_spec (2 ^ (8 * d - 1)) v) as [H'|H']; auto; lia.
Qed.

Lemma pow_half d : 1 <= d -> 2 ^ (8 * d) = 2 * 2 ^ (8 * d - 1) /\ 0 < 2 ^ (8 * d - 1).
Proof.
  intros Hd. split.
  - replace (8 * d) with (Z.succ (8 * d - 1)) at 1 by lia. rewrite Z.pow_succ_r by lia. reflexivity.
  - apply Z.pow_pos_nonneg; lia.
Qed.

Lemma signed_cong v d : 1 <= d -> (signed v d) mod 2 ^ (8 * d) = v mod 2 ^ (8 * d).
Proof.
  intros Hd. rewrite signed_spec by assumption.
  destruct (pow_half d Hd) as [H2 Hp].
  destruct (2 ^ (8 * d - 1) <=? v); auto.
  set (m := 2 ^ (8 * d)) in *.
  assert (Hm : m <> 0) by lia.
  rewrite <- (Z.opp_involutive v) at 2.
  rewrite (Z.mod_eq (- v) m) by assumption.
  replace (- (- v - m * (- v / m))) with (- - v + (- v / m) * m) by ring.
  apply Z.mod_add; assumption.
Qed.

Lemma signed_id v d : 1 <= d -> v < 2 ^ (8 * d - 1) -> signed v d = v.
Proof.
  intros Hd H. rewrite signed_spec by assumption.
  destruct (Z.leb_spec (2 ^ (8 * d - 1)) v); lia.
Qed.

Lemma signed_unsigned v d : 1 <= d -> 0 <= v < 2 ^ (8 * d) -> signed v d = twos d v.
Proof.
  intros Hd H. rewrite signed_spec by assumption. unfold twos.
  destruct (pow_half d Hd) as [H2 Hp].
  rewrite (Z.mod_small v) by lia.
  destruct (Z.leb_spec (2 ^ (8 * d - 1)) v) as [H'|H'].
  - replace (2 * v <? 2 ^ (8 * d)) with false by lia.
    destruct (Z.eq_dec v 0) as [->|Hv]; [lia|].
    replace (- v) with ((2 ^ (8 * d) - v) + (-1) * 2 ^ (8 * d)) by ring.
    rewrite Z.mod_add by lia. rewrite Z.mod_small by lia. ring.
  - replace (2 * v <? 2 ^ (8 * d)) with true by lia. reflexivity.
Qed.

Lemma signed_range v d : 1 <= d ->
  (- 2 ^ (8 * d - 1) <= signed v d < 2 ^ (8 * d - 1)) <->
  (- 2 ^ (8 * d - 1) <= v < 2 ^ (8 * d - 1) \/
   (2 ^ (8 * d - 1) <= v /\
    (v mod 2 ^ (8 * d) = 0 \/ 2 ^ (8 * d - 1) <= v mod 2 ^ (8 * d)))).
Proof.
  intros Hd. rewrite signed_spec by assumption.
  destruct (pow_half d Hd) as [H2 Hp].
  destruct (Z.leb_spec (2 ^ (8 * d - 1)) v) as [H'|H']; [|lia].
  set (m := 2 ^ (8 * d)) in *. set (h := 2 ^ (8 * d - 1)) in *.
  destruct (Z.eq_dec (v mod m) 0) as [Hz|Hz].
  - rewrite Z.mod_opp_l_z by lia. lia.
  - rewrite Z.mod_opp_l_nz by lia. pose proof (Z.mod_pos_bound v m). lia.
Qed.

Lemma signed_idem v d : 1 <= d -> signed (signed v d) d = signed v d.
Proof.
  intros Hd. apply signed_id; [assumption|]. destruct (pow_half d Hd) as [H2 Hp].
  rewrite signed_spec by assumption.
  destruct (Z.leb_spec (2 ^ (8 * d - 1)) v) as [H|H]; [|assumption].
  pose proof (Z.mod_pos_bound (- v) (2 ^ (8 * d))). lia.
Qed.

Lemma twos_range d v : 1 <= d -> - 2 ^ (8 * d - 1) <= twos d v < 2 ^ (8 * d - 1).
Proof.
  intros Hd. unfold twos. destruct (pow_half d Hd) as [H2 Hp].
  pose proof (Z.mod_pos_bound v (2 ^ (8 * d))).
  destruct (Z.ltb_spec (2 * (v mod 2 ^ (8 * d))) (2 ^ (8 * d))); lia.
Qed.

Lemma twos_cong d v : 1 <= d -> twos d v mod 2 ^ (8 * d) = v mod 2 ^ (8 * d).
Proof.
  intros Hd. unfold twos. destruct (pow_half d Hd) as [H2 Hp].
  destruct (2 * (v mod 2 ^ (8 * d)) <? 2 ^ (8 * d)).
  - apply Z.mod_mod; lia.
  - replace (v mod 2 ^ (8 * d) - 2 ^ (8 * d)) with (v mod 2 ^ (8 * d) + (-1) * 2 ^ (8 * d)) by ring.
    rewrite Z.mod_add by lia. apply Z.mod_mod; lia.
Qed.

Lemma twos_mod d v : 1 <= d -> twos d (v mod 2 ^ (8 * d)) = twos d v.
Proof.
  intros Hd. unfold twos. rewrite Z.mod_mod; auto.
  destruct (pow_half d Hd) as [H2 Hp]; lia.
Qed.

Lemma twos_congr d v w : 1 <= d -> v mod 2 ^ (8 * d) = w mod 2 ^ (8 * d) -> twos d v = twos d w.
Proof. intros Hd H. rewrite <- (twos_mod d v), <- (twos_mod d w), H; auto. Qed.

Lemma twos_id d v : 1 <= d -> - 2 ^ (8 * d - 1) <= v < 2 ^ (8 * d - 1) -> twos d v = v.
Proof.
  intros Hd H. unfold twos. destruct (pow_half d Hd) as [H2 Hp].
  destruct (Z.lt_ge_cases v 0) as [Hv|Hv].
  - replace (v mod 2 ^ (8 * d)) with (v + 2 ^ (8 * d)).
    + replace (2 * (v + 2 ^ (8 * d)) <? 2 ^ (8 * d)) with false by lia. ring.
    + rewrite <- (Z.mod_small (v + 2 ^ (8 * d)) (2 ^ (8 * d))) by lia.
      replace (v + 2 ^ (8 * d)) with (v + 1 * 2 ^ (8 * d)) by ring.
      apply Z.mod_add; lia.
  - rewrite Z.mod_small by lia.
    replace (2 * v <? 2 ^ (8 * d)) with true by lia. reflexivity.
Qed.

(** ** the byte case *)
Lemma s1_spec v : s1 v = if 128 <=? v then - ((- v) mod 256) else v.
Proof. unfold s1. rewrite signed_spec by lia. reflexivity. Qed.

Lemma s1_ubyte v : ubyte v -> s1 v = if v <? 128 then v else v - 256.
Proof.
  unfold ubyte; intros H. rewrite s1_spec.
  destruct (Z.leb_spec 128 v); destruct (Z.ltb_spec v 128); lia.
Qed.

Lemma s1_sbyte v : sbyte v -> s1 v = v.
Proof. unfold sbyte; intros H. rewrite s1_spec. destruct (Z.leb_spec 128 v); lia. Qed.

Lemma s1_any v : anybyte v -> sbyte (s1 v) /\ (s1 v) mod 256 = v mod 256.
Proof.
  unfold anybyte, sbyte; intros H. rewrite s1_spec. destruct (Z.leb_spec 128 v); lia.
Qed.

Lemma s1_cong v : (s1 v) mod 256 = v mod 256.
Proof. rewrite s1_spec. destruct (Z.leb_spec 128 v); lia. Qed.

Lemma s1_of_mod v : sbyte (s1 (v mod 256)) /\ s1 (v mod 256) = twos 1 v.
Proof.
  split.
  - apply s1_any. unfold anybyte. lia.
  - unfold s1. rewrite signed_unsigned by (change (2 ^ (8 * 1)) with 256; lia).
    apply twos_mod. lia.
Qed.

Lemma twos1 v : twos 1 v = if v mod 256 <? 128 then v mod 256 else v mod 256 - 256.
Proof. unfold twos. change (2 ^ (8 * 1)) with 256. cbv zeta.
  destruct (Z.ltb_spec (2 * (v mod 256)) 256); destruct (Z.ltb_spec (v mod 256) 128); lia.
Qed.

Lemma twos1_sbyte v : sbyte v -> twos 1 v = v.
Proof. unfold sbyte; rewrite twos1; destruct (Z.ltb_spec (v mod 256) 128); lia. Qed.

Lemma twos1_range v : sbyte (twos 1 v).
Proof. unfold sbyte; rewrite twos1; destruct (Z.ltb_spec (v mod 256) 128); lia. Qed.

Lemma u1_spec v : u1 v = v mod 256.
Proof. unfold u1. apply land_255. Qed.

Lemma u1_ubyte v : ubyte v -> u1 v = v.
Proof. unfold ubyte; intros; rewrite u1_spec; lia. Qed.
