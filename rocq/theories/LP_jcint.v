(** * C38: JCint: proofs *)
From Verif Require Import Py S_Base S_Number L_Py M_utils L_utils M_util L_util M_jcint.
From Coq Require Import ZifyBool ZifyNat.
Ltac Zify.zify_post_hook ::= Z.div_mod_to_equations.


Lemma s4_small v : v < 2147483648 -> s4 v = v.
Proof. intros H. apply (signed_id v 4); cbn; lia. Qed.

Lemma s4_twos v : 0 <= v < 4294967296 -> s4 v = twos 4 v.
Proof. intros H. apply (signed_unsigned v 4); cbn; lia. Qed.

Lemma getInt_sum a off w x y z : 0 <= off ->
  sub a (Z.to_nat off) 4 = [w; x; y; z] ->
  getInt a off = Ok (s4 (w * 16777216 + x * 65536 + y * 256 + z)).
Proof.
  intros Ho Hs.
  assert (Hl : (Z.to_nat off + 4 <= length a)%nat).
  { assert (H : length (sub a (Z.to_nat off) 4) = 4%nat) by now rewrite Hs.
    rewrite sub_length_gen in H. lia. }
  assert (E : forall j, (j < 4)%nat -> nth (Z.to_nat off + j) a 0 = nth j [w; x; y; z] 0).
  { intros j Hj. rewrite <- Hs. now rewrite nth_sub. }
  unfold getInt.
  assert (G : forall j, 0 <= j < 4 -> py_get a (off + j) = Ok (nth (Z.to_nat j) [w; x; y; z] 0)).
  { intros j Hj. rewrite (py_get_in a (off + j) 0) by (unfold zlen; lia).
    rewrite <- E by lia. do 2 f_equal. lia. }
  replace off with (off + 0) at 1 by lia. rewrite !G by lia. cbn [rbind nth Z.to_nat].
  change (Pos.to_nat 1) with 1%nat. change (Pos.to_nat 2) with 2%nat. change (Pos.to_nat 3) with 3%nat.
  cbn [nth]. rewrite !shiftl_mul by lia. reflexivity.
Qed.

(** The four signed bytes of an integer, big endian. *)
Definition int_bytes (v : Z) : list Z := map (twos 1) (to_base 256 4 v).

Lemma setInt_ok a off hi lo : 0 <= off -> off + 4 <= zlen a ->
  setInt off hi lo a = (Ok (off + 4), splice a (Z.to_nat off) (int_bytes (makeInt2 hi lo))).
Proof.
  intros H1 H2. unfold setInt. set (v := makeInt2 hi lo).
  assert (E : forall x, s1 (Z.land x 255) = twos 1 x) by (intros; rewrite land_255; apply s1_of_mod).
  rewrite !E, !shiftr_div by lia. unfold int_bytes. cbn [to_base map]. 
  change (Z.of_nat 3) with 3. change (Z.of_nat 2) with 2. change (Z.of_nat 1) with 1. change (Z.of_nat 0) with 0.
  rewrite !(twos_mod 1) by lia. change (256 ^ 3) with (2 ^ 24). change (256 ^ 2) with (2 ^ 16).
  change (256 ^ 1) with (2 ^ 8). change (256 ^ 0) with 1. rewrite Z.div_1_r.
  set (b0 := twos 1 (v / 2 ^ 24)). set (b1 := twos 1 (v / 2 ^ 16)). set (b2 := twos 1 (v / 2 ^ 8)). set (b3 := twos 1 v). clearbody b0 b1 b2 b3.
  assert (L : forall x k (l : list Z), zlen (list_upd l k x) = zlen l) by (intros; apply zlen_list_upd).
  erewrite bind_ok by (apply aset_in; rewrite ?L; lia).
  erewrite bind_ok by (apply aset_in; rewrite ?L; lia).
  erewrite bind_ok by (apply aset_in; rewrite ?L; lia).
  erewrite bind_ok by (apply aset_in; rewrite ?L; lia).
  unfold ret. f_equal. unfold zlen in H2.
  replace (Z.to_nat (off + 1)) with (S (Z.to_nat off)) by lia.
  replace (Z.to_nat (off + 2)) with (S (S (Z.to_nat off))) by lia.
  replace (Z.to_nat (off + 3)) with (S (S (S (Z.to_nat off)))) by lia.
  rewrite list_upd_splice by (rewrite !list_upd_length; lia).
  rewrite splice_cons by (cbn [length]; rewrite !list_upd_length; lia).
  rewrite splice_cons by (cbn [length]; rewrite !list_upd_length; lia).
  now rewrite splice_cons by (cbn [length]; lia).
Qed.

Lemma C38_makeInt_partial_pf : forall hi lo, -32768 <= hi <= 32767 -> -32768 <= lo <= 32767 ->
  makeInt2 hi lo = hi * 65536 + lo
  /\ (makeInt2 hi lo = hi * 65536 + lo mod 65536 <-> 0 <= lo).
Proof.
  intros hi lo H1 H2. unfold makeInt2. rewrite shiftl_mul by lia. rewrite s4_small by lia. split; lia.
Qed.

Lemma C38_makeInt_refuted_pf : forall hi lo, -32768 <= hi <= 32767 -> -32768 <= lo < 0 ->
  makeInt2 hi lo <> hi * 65536 + lo mod 65536.
Proof.
  intros hi lo H1 H2. unfold makeInt2. rewrite shiftl_mul by lia. rewrite s4_small by lia. lia.
Qed.

Lemma C38_makeInt4_partial_pf : forall b1 b2 b3 b4, anybyte b1 -> ubyte b2 -> ubyte b3 -> ubyte b4 ->
  makeInt4 b1 b2 b3 b4 = twos 4 (digits_value 256 [b1; b2; b3; b4]).
Proof.
  unfold anybyte, ubyte. intros b1 b2 b3 b4 H1 H2 H3 H4. unfold makeInt4. rewrite !shiftl_mul by lia.
  cbn [digits_value length]. change (256 ^ Z.of_nat 3) with (2 ^ 24). change (256 ^ Z.of_nat 2) with (2 ^ 16).
  change (256 ^ Z.of_nat 1) with (2 ^ 8). change (256 ^ Z.of_nat 0) with 1.
  replace (b1 * 2 ^ 24 + (b2 * 2 ^ 16 + (b3 * 2 ^ 8 + (b4 * 1 + 0))))
    with (b1 * 2 ^ 24 + b2 * 2 ^ 16 + b3 * 2 ^ 8 + b4) by ring.
  set (v := b1 * 2 ^ 24 + b2 * 2 ^ 16 + b3 * 2 ^ 8 + b4).
  change (2 ^ 24) with 16777216 in *. change (2 ^ 16) with 65536 in *. change (2 ^ 8) with 256 in *.
  destruct (Z.le_gt_cases 0 v).
  - apply s4_twos. unfold v in *. lia.
  - rewrite s4_small by lia. symmetry. apply twos_id; [lia|].
    change (2 ^ (8 * 4 - 1)) with 2147483648. unfold v in *. lia.
Qed.

Lemma C38_setInt_pf : forall a off hi lo, 0 <= off -> off + 4 <= zlen a ->
  -32768 <= hi <= 32767 -> -32768 <= lo <= 32767 ->
  setInt off hi lo a
  = (Ok (off + 4), splice a (Z.to_nat off) (map (twos 1) (to_base 256 4 (hi * 65536 + lo)))).
Proof.
  intros a off hi lo H1 H2 H3 H4. rewrite setInt_ok by auto. unfold int_bytes.
  unfold makeInt2. rewrite shiftl_mul by lia. now rewrite s4_small by lia.
Qed.

Lemma C38_getInt_partial_pf : forall a off b1 b2 b3 b4, 0 <= off ->
  sub a (Z.to_nat off) 4 = [b1; b2; b3; b4] ->
  anybyte b1 -> ubyte b2 -> ubyte b3 -> ubyte b4 ->
  getInt a off = Ok (twos 4 (digits_value 256 [b1; b2; b3; b4])).
Proof.
  intros a off b1 b2 b3 b4 Ho Hs H1 H2 H3 H4. rewrite (getInt_sum a off b1 b2 b3 b4) by auto.
  rewrite <- C38_makeInt4_partial_pf by auto. unfold makeInt4. rewrite !shiftl_mul by lia. reflexivity.
Qed.

Lemma bit_half v k : 0 <= k -> Z.b2z (Z.testbit v k) = (v / 2 ^ k) mod 2.
Proof. intros H. now rewrite Z.testbit_spec'. Qed.

Lemma low_byte w : twos 1 w = w - 256 * (w / 256) - 256 * ((w / 128) mod 2).
Proof. rewrite twos1. destruct (Z.ltb_spec (w mod 256) 128); lia. Qed.

(** summing the signed bytes of [v] instead of its digits *)
Lemma signed_sum v : -2147483648 <= v <= 2147483647 ->
  twos 1 (v / 16777216) * 16777216 + twos 1 (v / 65536) * 65536 + twos 1 (v / 256) * 256 + twos 1 v
  = v - 16777216 * Z.b2z (Z.testbit v 23) - 65536 * Z.b2z (Z.testbit v 15) - 256 * Z.b2z (Z.testbit v 7).
Proof.
  intros Hv. rewrite !bit_half by lia.
  rewrite (twos_id 1 (v / 16777216)) by (try apply conj; try (change (2 ^ (8 * 1 - 1)) with 128); lia).
  rewrite !low_byte, !Z.div_div by lia.
  change (65536 * 128) with (2 ^ 23). change (256 * 128) with (2 ^ 15). change (2 ^ 7) with 128.
  change (65536 * 256) with 16777216. change (256 * 256) with 65536. ring.
Qed.

Lemma C38_roundtrip_partial_pf : forall a off hi lo r a', 0 <= off -> off + 4 <= zlen a ->
  -32768 <= hi <= 32767 -> -32768 <= lo <= 32767 ->
  -2147483648 <= hi * 65536 + lo -> setInt off hi lo a = (Ok r, a') ->
  let v := hi * 65536 + lo in
  getInt a' off = Ok (v - 16777216 * Z.b2z (Z.testbit v 23) - 65536 * Z.b2z (Z.testbit v 15)
                        - 256 * Z.b2z (Z.testbit v 7))
  /\ (getInt a' off = Ok v <-> Z.testbit v 23 = false /\ Z.testbit v 15 = false /\ Z.testbit v 7 = false).
Proof.
  intros a off hi lo r a' H1 H2 H3 H4 Hv H v. fold v in Hv.
  rewrite (C38_setInt_pf a off hi lo) in H by auto. fold v in H.
  assert (H' : a' = splice a (Z.to_nat off) (map (twos 1) (to_base 256 4 v))) by congruence.
  subst a'. clear H.
  assert (E : getInt (splice a (Z.to_nat off) (map (twos 1) (to_base 256 4 v))) off
    = Ok (v - 16777216 * Z.b2z (Z.testbit v 23) - 65536 * Z.b2z (Z.testbit v 15)
                        - 256 * Z.b2z (Z.testbit v 7))).
  { erewrite getInt_sum; [|exact H1|].
    2: { rewrite (sub_splice a (Z.to_nat off) (map (twos 1) (to_base 256 4 v)) 4);
         [cbn [to_base map]; reflexivity|reflexivity|cbn [to_base map length]; unfold zlen in *; lia]. }
    change (Z.of_nat 3) with 3. change (Z.of_nat 2) with 2. change (Z.of_nat 1) with 1. change (Z.of_nat 0) with 0.
    change (256 ^ 3) with 16777216. change (256 ^ 2) with 65536. change (256 ^ 1) with 256. change (256 ^ 0) with 1.
    rewrite !(twos_mod 1) by lia. rewrite Z.div_1_r. clear -Hv H3 H4.
    assert (Hv2 : v <= 2147483647) by (unfold v; lia). clearbody v.
    rewrite (signed_sum v) by lia. f_equal. apply s4_small.
    rewrite !bit_half by lia.
    pose proof (Z.mod_pos_bound (v / 2 ^ 23) 2 ltac:(lia)). pose proof (Z.mod_pos_bound (v / 2 ^ 15) 2 ltac:(lia)).
    pose proof (Z.mod_pos_bound (v / 2 ^ 7) 2 ltac:(lia)). clear -Hv2 H H0 H1. lia. }
  split; [exact E|]. rewrite E. split.
  - intros H. assert (H' : v - 16777216 * Z.b2z (Z.testbit v 23) - 65536 * Z.b2z (Z.testbit v 15)
                        - 256 * Z.b2z (Z.testbit v 7) = v) by congruence.
    destruct (Z.testbit v 23), (Z.testbit v 15), (Z.testbit v 7); cbn [Z.b2z] in H'; repeat split; lia.
  - intros (-> & -> & ->). f_equal. cbn [Z.b2z]. lia.
Qed.

Lemma C38_roundtrip_refuted_pf : exists a off hi lo, 0 <= off /\ off + 4 <= zlen a
  /\ -32768 <= hi <= 32767 /\ 0 <= lo <= 32767
  /\ exists a', setInt off hi lo a = (Ok (off + 4), a') /\ getInt a' off <> Ok (hi * 65536 + lo).
Proof.
  exists [0; 0; 0; 0], 0, 0, 200. repeat split; try (cbn; lia).
  exists [0; 0; 0; -56]. split; [reflexivity|]. vm_compute. discriminate.
Qed.

Lemma C78_makeTransientIntArray_pf : forall n event, 0 <= n ->
  zlen (makeTransientIntArray n event) = n /\ Forall (fun x => x = 0) (makeTransientIntArray n event).
Proof.
  intros n event H. unfold makeTransientIntArray, py_repeat, zlen. rewrite repeat_length. split; [lia|].
  apply Forall_forall. intros x Hx. now apply repeat_spec in Hx.
Qed.

(** C10 for intx.sanatize: every cell becomes its signed value *)
Lemma san_loop l : forall pre, for_loop (length l) (zlen pre) (fun i => v <- aget i ;; aset i (s1 v)) (pre ++ l) = (Ok tt, pre ++ map s1 l).
Proof.
  induction l as [|x l IH]; intros pre; [reflexivity|]. cbn [length]. rewrite for_loop_S.
  assert (E : (v <- aget (zlen pre) ;; aset (zlen pre) (s1 v)) (pre ++ x :: l) = (Ok tt, (pre ++ [s1 x]) ++ l)).
  { assert (Hr : 0 <= zlen pre < zlen (pre ++ x :: l)) by (rewrite zlen_app, zlen_cons; pose proof (zlen_nonneg pre); pose proof (zlen_nonneg l); lia).
    unfold bind, aget. rewrite (py_get_in _ _ 0) by exact Hr. rewrite to_nat_zlen, nth_middle.
    rewrite aset_in by exact Hr. rewrite to_nat_zlen, list_upd_splice by (rewrite app_length; cbn; lia).
    unfold splice. rewrite firstn_app, firstn_all, Nat.sub_diag, skipn_app. cbn [length firstn].
    rewrite skipn_all2 by lia. replace (length pre + 1 - length pre)%nat with 1%nat by lia.
    cbn [skipn]. rewrite app_nil_r, <- app_assoc. reflexivity. }
  rewrite (bind_ok _ _ _ tt _ E). specialize (IH (pre ++ [s1 x])). rewrite zlen_app, <- !app_assoc in IH. rewrite <- app_assoc. exact IH.
Qed.

Lemma C10_sanatize_pf : forall a, exists a', sanatize a = (Ok tt, a') /\ length a' = length a
  /\ forall i x, nth_error a i = Some x -> exists y, nth_error a' i = Some y /\ y mod 256 = x mod 256 /\ (sbyte x -> y = x) /\ (0 <= x <= 255 -> sbyte y).
Proof.
  intros a. exists (map s1 a). split; [unfold sanatize, for_range; rewrite Z.sub_0_r, to_nat_zlen; apply (san_loop a [])|]. split; [apply map_length|].
  intros i x H. exists (s1 x). split; [now apply map_nth_error|]. unfold sbyte.
  destruct (Z.lt_ge_cases x 128) as [L|L].
  - assert (E : s1 x = x) by (apply (signed_id x 1); cbn; lia). rewrite E. split; [reflexivity|]. split; [auto|lia].
  - split; [|split; [lia|]].
    + unfold s1. pose proof (signed_cong x 1 ltac:(lia)) as M. exact M.
    + intros U. unfold s1. rewrite (signed_unsigned x 1) by (cbn; lia). exact (twos1_range x).
Qed.
