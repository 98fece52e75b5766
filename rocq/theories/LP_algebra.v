(** * C99-C100: copies, fills and comparisons as an algebra: proofs *)
From Verif Require Import Py S_Base L_Py M_utils M_util L_utils L_util LP_util.
From Coq Require Import ZifyBool ZifyNat.
Ltac Zify.zify_post_hook ::= Z.div_mod_to_equations.

Lemma for_loop_shift {S} (b b' : Z -> M S unit) d : (forall i s, b (i + d) s = b' i s) ->
  forall n i s, for_loop n (i + d) b s = for_loop n i b' s.
Proof.
  intros E. induction n as [|n IH]; intros i s; [reflexivity|].
  rewrite !for_loop_S. unfold bind. rewrite E. destruct (b' i s) as [[u|e] s']; [|reflexivity].
  replace (i + d + 1) with (i + 1 + d) by lia. apply IH.
Qed.
Lemma for_range_split {S} (b b' : Z -> M S unit) l1 l2 s : 0 <= l1 -> 0 <= l2 ->
  (forall i s, b (i + l1) s = b' i s) ->
  for_range 0 (l1 + l2) b s = (for_range 0 l1 b ;;; for_range 0 l2 b') s.
Proof.
  intros H1 H2 E. unfold for_range. replace (Z.to_nat (l1 + l2 - 0)) with (Z.to_nat (l1 - 0) + Z.to_nat (l2 - 0))%nat by lia.
  rewrite for_loop_app. unfold bind. destruct (for_loop _ 0 b s) as [[u|e] s']; [|reflexivity].
  replace (0 + Z.of_nat (Z.to_nat (l1 - 0))) with (0 + l1) by lia. apply for_loop_shift. exact E.
Qed.
Lemma copy_split src so dest do l1 l2 h : 0 <= l1 -> 0 <= l2 ->
  copy_loop src so dest do (l1 + l2) h
  = (copy_loop src so dest do l1 ;;; copy_loop src (so + l1) dest (do + l1) l2) h.
Proof.
  intros H1 H2. apply for_range_split; try assumption. intros i s.
  replace (so + (i + l1)) with (so + l1 + i) by lia. replace (do + (i + l1)) with (do + l1 + i) by lia. reflexivity.
Qed.

Lemma C99_copy_split_pf : forall src so dest do l1 l2 (h : heap), 0 <= l1 -> 0 <= l2 ->
  arrayCopy src so dest do (l1 + l2) h
  = (arrayCopy src so dest do l1 ;;; arrayCopy src (so + l1) dest (do + l1) l2) h
  /\ arrayCopyNonAtomic src so dest do (l1 + l2) h
  = (arrayCopyNonAtomic src so dest do l1 ;;; arrayCopyNonAtomic src (so + l1) dest (do + l1) l2) h.
Proof.
  intros src so dest do l1 l2 h H1 H2. unfold bind at 1 2. split.
  - unfold arrayCopy, bind, beginTransaction, commitTransaction, abortTransaction, ret, raise.
    rewrite copy_split by assumption. unfold bind.
    destruct (copy_loop src so dest do l1 h) as [[u|e] h1] eqn:E1.
    + destruct (copy_loop src (so + l1) dest (do + l1) l2 h1) as [[u'|e] h2]; [reflexivity|]. destruct e; reflexivity.
    + destruct e; reflexivity.
  - unfold arrayCopyNonAtomic, catch_index. rewrite copy_split by assumption. unfold bind.
    destruct (copy_loop src so dest do l1 h) as [[u|e] h1] eqn:E1.
    + destruct (copy_loop src (so + l1) dest (do + l1) l2 h1) as [[u'|e] h2]; [reflexivity|]. destruct e; reflexivity.
    + destruct e; reflexivity.
Qed.

Lemma C99_fill_split_pf : forall off l1 l2 v (a : list Z), 0 <= l1 -> 0 <= l2 ->
  arrayFillNonAtomic off (l1 + l2) v a
  = (arrayFillNonAtomic off l1 v ;;; arrayFillNonAtomic (off + l1) l2 v) a.
Proof.
  intros off l1 l2 v a H1 H2. unfold arrayFillNonAtomic, catch_index. unfold bind at 1.
  rewrite (for_range_split _ (fun i => aset (off + l1 + i) v)); [|assumption..|].
  - unfold bind. destruct (for_range 0 l1 _ a) as [[u|e] a1]; [|destruct e; reflexivity].
    destruct (for_range 0 l2 _ a1) as [[u'|e] a2]; [reflexivity|]. destruct e; reflexivity.
  - intros i s. replace (off + (i + l1)) with (off + l1 + i) by lia. reflexivity.
Qed.

Lemma cmp_shift n : forall i src so dest do d,
  arrayCompare_loop n (i + d) src so dest do = arrayCompare_loop n i src (so + d) dest (do + d).
Proof.
  induction n as [|n IH]; intros; [reflexivity|]. cbn [arrayCompare_loop].
  replace (so + (i + d)) with (so + d + i) by lia. replace (do + (i + d)) with (do + d + i) by lia.
  replace (i + d + 1) with (i + 1 + d) by lia. rewrite IH. reflexivity.
Qed.
Lemma cmp_split n m : forall i src so dest do,
  arrayCompare_loop (n + m) i src so dest do
  = match arrayCompare_loop n i src so dest do with
    | Ok r => if r =? 0 then arrayCompare_loop m (i + Z.of_nat n) src so dest do else Ok r
    | Err e => Err e
    end.
Proof.
  induction n as [|n IH]; intros.
  - cbn. replace (i + 0) with i by lia. reflexivity.
  - cbn [Nat.add arrayCompare_loop]. destruct (py_get src (so + i)) as [x|e]; [|reflexivity].
    destruct (py_get dest (do + i)) as [y|e]; [|reflexivity]. cbn [rbind].
    destruct (y <? x); [reflexivity|]. destruct (x <? y); [reflexivity|]. rewrite IH.
    replace (i + 1 + Z.of_nat n) with (i + Z.of_nat (S n)) by lia. reflexivity.
Qed.

Lemma C99_compare_split_pf : forall src so dest do l1 l2, 0 <= l1 -> 0 <= l2 ->
  arrayCompare src so dest do (l1 + l2)
  = match arrayCompare src so dest do l1 with
    | Ok 0 => arrayCompare src (so + l1) dest (do + l1) l2
    | r => r
    end.
Proof.
  intros src so dest do l1 l2 H1 H2. unfold arrayCompare. replace (Z.to_nat (l1 + l2)) with (Z.to_nat l1 + Z.to_nat l2)%nat by lia.
  rewrite cmp_split. destruct (arrayCompare_loop (Z.to_nat l1) 0 src so dest do) as [r|e]; [|destruct e; reflexivity].
  rewrite Z2Nat.id by assumption. rewrite cmp_shift. destruct r; reflexivity.
Qed.

Lemma C100_copy_compare_pf : forall src so dest do len (h : heap), src <> dest ->
  0 <= so -> 0 <= do -> 0 <= len -> so + len <= zlen (h src) -> do + len <= zlen (h dest) ->
  exists h', arrayCopy src so dest do len h = (Ok tt, h')
    /\ arrayCompare (h' src) so (h' dest) do len = Ok 0.
Proof.
  intros src so dest do len h N H1 H2 H3 H4 H5.
  destruct (C03_arrayCopy_distinct_pf src so dest do len h N H1 H2 H3 H4 H5) as (h' & E & Es & _ & L & F).
  exists h'. split; [exact E|]. rewrite (F src N).
  assert (L' : zlen (h' dest) = zlen (h dest)) by (unfold zlen; lia).
  destruct (C07_arrayCompare_pf (h src) so (h' dest) do len H1 H2 H3 H4 ltac:(lia)) as (r & Er & _ & R0 & _).
  rewrite Er. f_equal. apply R0. symmetry. exact Es.
Qed.

Lemma C100_save_restore_pf : forall a off len tmp to src so (h : heap),
  a <> tmp -> a <> src -> tmp <> src -> 0 <= off -> 0 <= to -> 0 <= so -> 0 <= len ->
  off + len <= zlen (h a) -> to + len <= zlen (h tmp) -> so + len <= zlen (h src) ->
  exists h', (arrayCopy a off tmp to len ;;; arrayCopy src so a off len ;;; arrayCopy tmp to a off len) h = (Ok tt, h')
    /\ h' a = h a /\ h' src = h src.
Proof.
  intros a off len tmp to src so h N1 N2 N3 H1 H2 H3 H4 L1 L2 L3.
  destruct (arrayCopy_distinct_ok a off tmp to len h N1 H1 H2 H4 L1 L2) as (h1 & E1 & T1 & F1).
  rewrite (bind_ok _ _ _ _ _ E1).
  pose proof (F1 a N1) as A1. pose proof (F1 src ltac:(congruence)) as S1.
  assert (LT : zlen (h1 tmp) = zlen (h tmp)).
  { rewrite T1. unfold zlen in *. rewrite splice_length; [reflexivity|]. rewrite sub_length by lia. lia. }
  destruct (arrayCopy_distinct_ok src so a off len h1) as (h2 & E2 & A2 & F2); [congruence|rewrite ?A1, ?S1; lia..|].
  rewrite (bind_ok _ _ _ _ _ E2). rewrite A1, S1 in A2.
  pose proof (F2 src ltac:(congruence)) as S2. pose proof (F2 tmp ltac:(congruence)) as T2.
  assert (LA : zlen (h2 a) = zlen (h a)).
  { rewrite A2. unfold zlen in *. rewrite splice_length; [reflexivity|]. rewrite sub_length by lia. lia. }
  destruct (arrayCopy_distinct_ok tmp to a off len h2) as (h3 & E3 & A3 & F3); [congruence|rewrite ?T2; lia..|].
  exists h3. split; [exact E3|]. split.
  - rewrite A3, A2, T2, T1.
    rewrite sub_splice; [|rewrite sub_length; unfold zlen in *; lia|rewrite sub_length; unfold zlen in *; lia].
    unfold zlen in *. apply (nth_ext_all _ _ 0).
    + rewrite !splice_length; rewrite ?splice_length; rewrite ?sub_length; lia.
    + intros j _. destruct (Nat.lt_ge_cases j (Z.to_nat off)) as [J|J].
      * rewrite nth_splice_out; [|rewrite ?splice_length; rewrite ?sub_length; lia|left; exact J].
        rewrite nth_splice_out; [|rewrite sub_length; lia|left; exact J]. reflexivity.
      * destruct (Nat.lt_ge_cases j (Z.to_nat off + Z.to_nat len)) as [K|K].
        -- rewrite nth_splice_in; [|rewrite ?splice_length; rewrite ?sub_length; lia|rewrite sub_length; lia].
           rewrite nth_sub by lia. f_equal. lia.
        -- rewrite nth_splice_out; [|rewrite ?splice_length; rewrite ?sub_length; lia|rewrite ?sub_length; lia].
           rewrite nth_splice_out; [|rewrite sub_length; lia|rewrite ?sub_length; lia]. reflexivity.
  - rewrite F3 by congruence. rewrite S2. exact S1.
Qed.

Lemma C100_order_pf : forall a ao b bo c co len, 0 <= ao -> 0 <= bo -> 0 <= co -> 0 <= len ->
  ao + len <= zlen a -> bo + len <= zlen b -> co + len <= zlen c ->
  exists ab bc ac, arrayCompare a ao b bo len = Ok ab /\ arrayCompare b bo c co len = Ok bc
    /\ arrayCompare a ao c co len = Ok ac /\ arrayCompare b bo a ao len = Ok (- ab)
    /\ (ab = 0 <-> sub a (Z.to_nat ao) (Z.to_nat len) = sub b (Z.to_nat bo) (Z.to_nat len))
    /\ (ab <= 0 -> bc <= 0 -> ac <= 0) /\ (ab < 0 -> bc <= 0 -> ac < 0) /\ (ab <= 0 -> bc < 0 -> ac < 0).
Proof.
  intros a ao b bo c co len H1 H2 H3 H4 La Lb Lc.
  destruct (C07_arrayCompare_pf a ao b bo len H1 H2 H4 La Lb) as (ab & E1 & V1 & Z1 & P1 & M1 & S1).
  destruct (C07_arrayCompare_pf b bo c co len H2 H3 H4 Lb Lc) as (bc & E2 & V2 & Z2 & P2 & M2 & S2).
  destruct (C07_arrayCompare_pf a ao c co len H1 H3 H4 La Lc) as (ac & E3 & V3 & Z3 & P3 & M3 & S3).
  exists ab, bc, ac. do 4 (split; [assumption|]). split; [exact Z1|].
  set (x := sub a (Z.to_nat ao) (Z.to_nat len)) in *. set (y := sub b (Z.to_nat bo) (Z.to_nat len)) in *.
  set (z := sub c (Z.to_nat co) (Z.to_nat len)) in *.
  assert (K : ab = -1 -> bc = -1 -> ac = -1).
  { intros Ha Hb. apply M1 in Ha. apply M2 in Hb. apply M3.
    destruct Ha as (i & Li & Fi & Ni). destruct Hb as (j & Lj & Fj & Nj).
    assert (pre : forall (u v : list Z) m n, (m <= n)%nat -> firstn n u = firstn n v -> firstn m u = firstn m v).
    { intros u v m n L E. rewrite <- (Nat.min_l m n L), <- !firstn_firstn, E. reflexivity. }
    assert (nt : forall (u v : list Z) m n, (m < n)%nat -> length u = length v -> firstn n u = firstn n v -> nth m u 0 = nth m v 0).
    { intros u v m n L EL E. rewrite <- (firstn_skipn n u), <- (firstn_skipn n v), E.
      destruct (Nat.lt_ge_cases m (length (firstn n v))) as [K|K]; [rewrite !app_nth1 by exact K; reflexivity|].
      rewrite firstn_length in K. rewrite !nth_overflow; [reflexivity|..]; rewrite app_length, firstn_length, skipn_length; lia. }
    assert (LX : length x = Z.to_nat len) by (apply sub_length; unfold zlen in *; lia).
    assert (LY : length y = Z.to_nat len) by (apply sub_length; unfold zlen in *; lia).
    assert (LZ : length z = Z.to_nat len) by (apply sub_length; unfold zlen in *; lia).
    destruct (Nat.lt_trichotomy i j) as [C|[C|C]].
    - exists i. split; [exact Li|]. split; [rewrite Fi; apply (pre _ _ i j); [lia|exact Fj]|].
      rewrite <- (nt y z i j C ltac:(lia) Fj). exact Ni.
    - subst j. exists i. split; [exact Li|]. split; [congruence|lia].
    - exists j. split; [exact Lj|]. split; [rewrite <- Fj; apply (pre _ _ j i); [lia|exact Fi]|].
      rewrite (nt x y j i C ltac:(lia) Fi). exact Nj. }
  assert (K1 : ab = 0 -> ac = bc).
  { intros Ha. apply Z1 in Ha. clearbody x y z. subst y.
    destruct V2 as [W|[W|W]]; rewrite W; [apply Z3, Z2, W|apply P3, P2, W|apply M3, M2, W]. }
  assert (K2 : bc = 0 -> ac = ab).
  { intros Ha. apply Z2 in Ha. clearbody x y z. subst z.
    destruct V1 as [W|[W|W]]; rewrite W; [apply Z3, Z1, W|apply P3, P1, W|apply M3, M1, W]. }
  clear - V1 V2 V3 K K1 K2. lia.
Qed.

Lemma C100_fill_compare_pf : forall a ao b bo len v w, 0 <= ao -> 0 <= bo -> 0 < len ->
  ao + len <= zlen a -> bo + len <= zlen b ->
  exists a' b', arrayFillNonAtomic ao len v a = (Ok tt, a') /\ arrayFillNonAtomic bo len w b = (Ok tt, b')
    /\ arrayCompare a' ao b' bo len = Ok (Z.sgn (v - w)).
Proof.
  intros a ao b bo len v w H1 H2 H3 La Lb. eexists. eexists.
  split; [apply arrayFill_ok; lia|]. split; [apply arrayFill_ok; lia|].
  assert (LA : length (splice a (Z.to_nat ao) (repeat v (Z.to_nat len))) = length a)
    by (apply splice_length; rewrite repeat_length; unfold zlen in *; lia).
  assert (LB : length (splice b (Z.to_nat bo) (repeat w (Z.to_nat len))) = length b)
    by (apply splice_length; rewrite repeat_length; unfold zlen in *; lia).
  destruct (C07_arrayCompare_pf (splice a (Z.to_nat ao) (repeat v (Z.to_nat len))) ao
     (splice b (Z.to_nat bo) (repeat w (Z.to_nat len))) bo len H1 H2 ltac:(lia)) as (r & E & V & R0 & R1 & R2 & _);
    [unfold zlen in *; lia..|].
  rewrite E. f_equal. rewrite !sub_splice in R0, R1, R2 by (rewrite repeat_length; unfold zlen in *; lia).
  assert (N : forall u, nth 0 (repeat u (Z.to_nat len)) 0 = u) by (intros u; apply nth_repeat_lt; lia).
  destruct (Z.compare_spec v w) as [C|C|C].
  - subst w. rewrite Z.sub_diag. apply R0. reflexivity.
  - rewrite Z.sgn_neg by lia. apply R2. exists 0%nat. rewrite !N. split; [lia|]. split; [reflexivity|exact C].
  - rewrite Z.sgn_pos by lia. apply R1. exists 0%nat. rewrite !N. split; [lia|]. split; [reflexivity|exact C].
Qed.
