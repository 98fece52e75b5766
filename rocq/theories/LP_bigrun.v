(** * C104-C105: BigNumber histories and conversions: proofs *)
From Verif Require Import Py S_Base S_Number S_BigNumber L_Py M_utils L_utils M_util L_util M_bignumber LP_bignumber M_bigrun S_BigRun.
From Coq Require Import ZifyBool ZifyNat.
Ltac Zify.zify_post_hook ::= Z.div_mod_to_equations.

Lemma denote_nil fmt : denote fmt [] = 0.
Proof. unfold denote. destruct (fmt =? 1); reflexivity. Qed.
Lemma init_neg a off len fmt s : len < 0 -> fmt = 1 \/ fmt = 2 ->
  init (Some a) off len fmt s = (Ok tt, mkBig (maxBytes s) (Some 0)).
Proof.
  intros L F. unfold init. destruct (Z.eqb_spec len 0); [lia|].
  replace (for_range 0 len) with (fun b : Z -> M bignum unit => for_loop (S:=bignum) 0 0 b).
  2:{ unfold for_range. replace (Z.to_nat (len - 0)) with 0%nat by lia. reflexivity. }
  destruct F as [-> | ->]; reflexivity.
Qed.
Lemma init_far a off len fmt s : zlen a < off -> 0 < len -> fmt = 1 \/ fmt = 2 ->
  init (Some a) off len fmt s = (Err IndexError, mkBig (maxBytes s) (Some 0)).
Proof.
  intros O L F. unfold init. destruct (Z.eqb_spec len 0); [lia|]. unfold for_range.
  destruct (Z.to_nat (len - 0)) as [|k] eqn:N; [lia|]. rewrite !for_loop_S.
  assert (G : py_get a (off + 0) = Err IndexError) by (apply py_get_out; lia).
  destruct F as [-> | ->]; unfold bind, set_value, get_value, lift; cbn [Z.eqb Pos.eqb FORMAT_BCD FORMAT_HEX maxBytes value];
    rewrite G; reflexivity.
Qed.
Lemma init_reg a off len fmt s : 0 <= off ->
  init a off len fmt s
  = let '(r, v) := reg_step (OpInit a off len fmt) (value s) in (r, mkBig (maxBytes s) v).
Proof.
  intros O. destruct s as [mb v]. cbn [value maxBytes reg_step]. unfold operand_value.
  destruct (Z.eqb_spec len 0) as [->|L0]; [reflexivity|].
  destruct a as [l|]; [|unfold init; destruct (Z.eqb_spec len 0); [lia|reflexivity]].
  destruct ((fmt =? 1) || (fmt =? 2)) eqn:F.
  - assert (FF : fmt = 1 \/ fmt = 2) by lia. clear F.
    destruct (Z.ltb_spec (zlen l) (off + len)) as [R|R].
    + destruct (Z.ltb_spec 0 len) as [P|P]; [|rewrite init_neg by (lia || assumption); reflexivity].
      destruct (Z.le_gt_cases off (zlen l)) as [Q|Q].
      * rewrite init_index_err by (lia || assumption). reflexivity.
      * rewrite init_far by (lia || assumption). cbn [maxBytes]. rewrite skipn_all2 by (unfold zlen in Q; lia).
        rewrite denote_nil, Z.mul_0_r. reflexivity.
    + destruct (Z.lt_ge_cases len 0) as [P|P].
      * rewrite init_neg by (lia || assumption). replace (Z.to_nat len) with 0%nat by lia. rewrite sub_0, denote_nil. reflexivity.
      * rewrite init_ok by (lia || assumption). reflexivity.
  - unfold init. destruct (Z.eqb_spec len 0); [lia|]. unfold FORMAT_BCD, FORMAT_HEX.
    destruct (fmt =? 1); [discriminate|]. destruct (fmt =? 2); [discriminate|reflexivity].
Qed.
Lemma operand_reg a off len fmt : 0 <= off ->
  match operand_value a off len fmt with
  | Ok w => exists mb, operand a off len fmt = Ok (mkBig mb (Some w))
  | Err e => operand a off len fmt = Err e
  end.
Proof.
  intros O. unfold operand. rewrite init_reg by exact O. cbn [reg_step value maxBytes].
  destruct (operand_value a off len fmt) as [w|e]; [eexists; reflexivity|destruct e; reflexivity].
Qed.
Lemma combine_reg f a off len fmt s : 0 <= off ->
  (o <- lift (operand a off len fmt) ;; combine f o) s
  = let '(r, v) := arith f (operand_value a off len fmt) (value s) in (r, mkBig (maxBytes s) v).
Proof.
  intros O. pose proof (operand_reg a off len fmt O) as H. destruct s as [mb v]. cbn [value maxBytes].
  destruct (operand_value a off len fmt) as [w|e].
  - destruct H as (mb' & H). rewrite H. unfold bind, lift, combine. cbn [value maxBytes]. destruct v; reflexivity.
  - rewrite H. reflexivity.
Qed.

Lemma C104_history_pf : forall ops mb v, Forall (fun o => 0 <= op_offset o) ops ->
  big_run ops (mkBig mb v) = let '(rs, w) := reg_run ops v in (rs, mkBig mb w).
Proof.
  induction ops as [|o ops IH]; intros mb v H; [reflexivity|]. inversion_clear H as [|? ? H0 H1]. cbn [big_run reg_run].
  replace (big_step o (mkBig mb v)) with (let '(r, w) := reg_step o v in (r, mkBig mb w)).
  - destruct (reg_step o v) as [r w]. rewrite IH by exact H1. destruct (reg_run ops w). reflexivity.
  - destruct o as [a off len fmt|a off len fmt|a off len fmt|a off len fmt]; cbn [big_step op_offset] in *.
    + rewrite init_reg by exact H0. reflexivity.
    + unfold add. rewrite combine_reg by exact H0. reflexivity.
    + unfold subtract. rewrite combine_reg by exact H0. reflexivity.
    + unfold multiply. rewrite combine_reg by exact H0. reflexivity.
Qed.

Lemma C104_observe_pf : forall ops mb rs v boff nb fmt out, Forall (fun o => 0 <= op_offset o) ops ->
  reg_run ops None = (rs, v) -> fmt = 1 \/ fmt = 2 -> 0 <= boff -> boff + nb <= zlen out ->
  let s := snd (big_run ops (mkBig mb None)) in
  (v = None -> toBytes s boff nb fmt out = (Err TypeError, out))
  /\ (forall x, v = Some x -> 0 <= x ->
      toBytes s boff nb fmt out
      = if x <? base_of fmt ^ nb
        then (Ok tt, splice out (Z.to_nat boff) (map (digit_byte fmt) (to_base (base_of fmt) (Z.to_nat nb) x)))
        else (Err Arithmetic, out))
  /\ (forall x mb' y, v = Some x -> compareTo_big s (mkBig mb' (Some y)) = Ok (cmp_sign x y)).
Proof.
  intros ops mb rs v boff nb fmt out H R F B L s. unfold s. rewrite (C104_history_pf ops mb None H), R. cbn [snd].
  split; [|split].
  - intros ->. unfold toBytes. cbn [value]. destruct F as [-> | ->]; reflexivity.
  - intros x -> X. apply C33_toBytes_pf; assumption.
  - intros x mb' y ->. destruct (C33_compareTo_pf mb x None 0 0 0 mb' y) as [E _]. exact E.
Qed.

Lemma dv_snoc B ds d : digits_value B (ds ++ [d]) = digits_value B ds * B + d.
Proof.
  induction ds as [|x ds IH]; cbn [app digits_value]; [cbn; lia|]. rewrite IH, app_length. cbn [length].
  replace (Z.of_nat (length ds + 1)) with (Z.succ (Z.of_nat (length ds))) by lia. rewrite Z.pow_succ_r by lia. ring.
Qed.
Lemma to_base_denotes B n : 1 < B -> forall v, 0 <= v < B ^ Z.of_nat n -> digits_value B (to_base B n v) = v.
Proof.
  intros HB. induction n as [|n IH]; intros v H.
  - cbn in *. lia.
  - rewrite to_base_snoc, dv_snoc by exact HB. rewrite Nat2Z.inj_succ, Z.pow_succ_r in H by lia. rewrite IH.
    + rewrite Z.mul_comm. symmetry. apply Z.div_mod. lia.
    + split; [apply Z.div_pos; lia|]. apply Z.div_lt_upper_bound; lia.
Qed.
Lemma base_of_gt fmt : 1 < base_of fmt.
Proof. unfold base_of. destruct (fmt =? 1); lia. Qed.
Lemma denote_digit_bytes fmt ds : Forall (fun d => 0 <= d < base_of fmt) ds ->
  denote fmt (map (digit_byte fmt) ds) = digits_value (base_of fmt) ds.
Proof.
  intros H. unfold denote, digit_byte, base_of in *. destruct (fmt =? 1); rewrite map_map; f_equal;
    rewrite <- (map_id ds) at 2; apply map_ext_in; intros d D; rewrite Forall_forall in H; specialize (H d D).
  - unfold bcd_digit, bcd_byte. pose proof (twos_cong 1 (16 * (d / 10) + d mod 10) ltac:(lia)) as E. change (2 ^ (8 * 1)) with 256 in E.
    rewrite E. lia.
  - pose proof (twos_cong 1 d ltac:(lia)) as E. change (2 ^ (8 * 1)) with 256 in E. rewrite E. lia.
Qed.
Lemma denote_written fmt nb v : 0 <= v < base_of fmt ^ nb -> 0 <= nb ->
  denote fmt (map (digit_byte fmt) (to_base (base_of fmt) (Z.to_nat nb) v)) = v.
Proof.
  intros V N. rewrite denote_digit_bytes by (apply to_base_range, base_of_gt).
  apply to_base_denotes; [apply base_of_gt|]. rewrite Z2Nat.id by exact N. exact V.
Qed.

Lemma C105_write_read_pf : forall mb v boff nb fmt out s', 0 <= v < base_of fmt ^ nb -> 0 < nb -> fmt = 1 \/ fmt = 2 ->
  0 <= boff -> boff + nb <= zlen out ->
  exists out', toBytes (mkBig mb (Some v)) boff nb fmt out = (Ok tt, out')
    /\ init (Some out') boff nb fmt s' = (Ok tt, mkBig (maxBytes s') (Some v)).
Proof.
  intros mb v boff nb fmt out s' V N F B L. eexists. split.
  - rewrite C33_toBytes_pf by (lia || assumption). destruct (Z.ltb_spec v (base_of fmt ^ nb)); [reflexivity|lia].
  - assert (LW : length (map (digit_byte fmt) (to_base (base_of fmt) (Z.to_nat nb) v)) = Z.to_nat nb)
      by (rewrite map_length; apply to_base_length).
    rewrite init_ok; [|exact B|exact N| |exact F].
    + rewrite sub_splice; [|lia|unfold zlen in *; lia]. rewrite denote_written by lia. reflexivity.
    + unfold zlen in *. rewrite splice_length; unfold zlen in *; lia.
Qed.

Lemma C105_convert_pf : forall a off len f1 nb f2, 0 <= off -> 0 < len -> off + len <= zlen a -> 0 <= nb ->
  f1 = 1 \/ f1 = 2 -> f2 = 1 \/ f2 = 2 ->
  let v := denote f1 (sub a (Z.to_nat off) (Z.to_nat len)) in
  convert a off len f1 nb f2
  = if v <? base_of f2 ^ nb then Ok (map (digit_byte f2) (to_base (base_of f2) (Z.to_nat nb) v)) else Err Arithmetic.
Proof.
  intros a off len f1 nb f2 O L R N F1 F2 v. unfold convert. rewrite init_ok by assumption. cbn [maxBytes]. fold v.
  assert (Z0 : zlen (py_repeat 0 nb) = nb) by (unfold py_repeat; rewrite zlen_repeat; lia).
  rewrite C33_toBytes_pf; [|apply denote_nonneg|exact F2|lia|lia].
  destruct (v <? base_of f2 ^ nb); [|reflexivity]. f_equal. apply splice_all.
  rewrite map_length, to_base_length. unfold zlen in Z0. lia.
Qed.

Lemma C105_there_and_back_pf : forall a off len f1 nb f2, 0 <= off -> 0 < len -> off + len <= zlen a -> 0 < nb ->
  f1 = 2 \/ (f1 = 1 /\ Forall valid_bcd (sub a (Z.to_nat off) (Z.to_nat len))) -> f2 = 1 \/ f2 = 2 ->
  base_of f1 ^ len <= base_of f2 ^ nb ->
  exists out, convert a off len f1 nb f2 = Ok out
    /\ convert out 0 nb f2 len f1 = Ok (map (twos 1) (sub a (Z.to_nat off) (Z.to_nat len))).
Proof.
  intros a off len f1 nb f2 O L R N F1 F2 P. set (l := sub a (Z.to_nat off) (Z.to_nat len)).
  assert (F1' : f1 = 1 \/ f1 = 2) by (destruct F1 as [->|[-> _]]; auto).
  assert (LL : length l = Z.to_nat len) by (apply sub_length; unfold zlen in R; lia).
  set (ds := map (if f1 =? 1 then bcd_digit else fun b => b mod 256) l).
  assert (DS : Forall (fun d => 0 <= d < base_of f1) ds /\ map (digit_byte f1) ds = map (twos 1) l /\ denote f1 l = digits_value (base_of f1) ds).
  { unfold ds, denote, digit_byte, base_of. destruct F1 as [->|[-> VB]]; cbn [Z.eqb Pos.eqb].
    - rewrite Forall_map, map_map. split; [apply Forall_forall; intros; lia|]. split; [|reflexivity].
      apply map_ext. intros x. change 256 with (2 ^ (8 * 1)). apply twos_mod. lia.
    - fold l in VB. rewrite Forall_map, map_map. split; [|split; [|reflexivity]].
      + eapply Forall_impl; [|exact VB]. intros x (V1 & V2). unfold bcd_digit. lia.
      + apply map_ext_in. intros x X. rewrite Forall_forall in VB. destruct (VB x X) as (V1 & V2).
        apply twos_congr; [lia|]. change (2 ^ (8 * 1)) with 256. unfold bcd_byte, bcd_digit. lia. }
  destruct DS as (D1 & D2 & D3).
  assert (LD : length ds = Z.to_nat len) by (unfold ds; rewrite map_length; exact LL).
  pose proof (digits_value_bound (base_of f1) ds (base_of_gt f1) D1) as B. rewrite LD, Z2Nat.id in B by lia.
  rewrite C105_convert_pf by (lia || assumption). fold l. rewrite D3.
  destruct (Z.ltb_spec (digits_value (base_of f1) ds) (base_of f2 ^ nb)) as [_|C]; [|lia].
  eexists. split; [reflexivity|].
  set (v := digits_value (base_of f1) ds) in *.
  assert (LO : length (map (digit_byte f2) (to_base (base_of f2) (Z.to_nat nb) v)) = Z.to_nat nb) by (rewrite map_length; apply to_base_length).
  rewrite C105_convert_pf; [|lia|lia|unfold zlen; lia|lia|exact F2|exact F1'].
  rewrite sub_full by (cbn [Z.to_nat]; lia). rewrite denote_written by lia.
  destruct (Z.ltb_spec v (base_of f1 ^ len)) as [_|C]; [|lia]. f_equal. rewrite <- D2. f_equal.
  pose proof (to_base_value (base_of f1) ds (base_of_gt f1) D1 0) as T. rewrite Z.mul_0_l, Z.add_0_l, LD in T. exact T.
Qed.
