(** * C01-C10: Util and utils: proofs *)
From Verif Require Import Py S_Base L_Py M_utils M_util L_utils L_util.
From Coq Require Import ZifyBool ZifyNat.
Ltac Zify.zify_post_hook ::= Z.div_mod_to_equations.


Lemma C01_makeShort_pf : forall b1 b2,
  -32768 <= makeShort b1 b2 <= 32767
  /\ (makeShort b1 b2) mod 65536 = (256 * b1 + b2 mod 256) mod 65536
  /\ makeShort b1 b2 = makeShort (b1 mod 256) (b2 mod 256).
Proof.
  intros b1 b2. rewrite !makeShort_twos.
  pose proof (twos_range 2 (256 * b1 + b2 mod 256)) as Hr.
  pose proof (twos_cong 2 (256 * b1 + b2 mod 256)) as Hc.
  change (2 ^ (8 * 2)) with 65536 in *. change (2 ^ (8 * 2 - 1)) with 32768 in *.
  split; [lia|]. split; [apply Hc; lia|].
  apply twos_congr; [lia|]. change (2 ^ (8 * 2)) with 65536. rewrite Z.mod_mod by lia.
  rewrite (Z.mod_eq b1 256) by lia.
  replace (256 * (b1 - 256 * (b1 / 256)) + b2 mod 256)
    with (256 * b1 + b2 mod 256 + (- (b1 / 256)) * 65536) by ring.
  symmetry. apply Z.mod_add. lia.
Qed.

Lemma shiftr_ff00 v : Z.shiftr (Z.land v 65280) 8 = (v / 256) mod 256.
Proof.
  rewrite Z.shiftr_land. change (Z.shiftr 65280 8) with 255.
  rewrite land_255, Z.shiftr_div_pow2 by lia. reflexivity.
Qed.

Lemma setShort_ok off v a : 0 <= off -> off + 1 < zlen a ->
  setShort off v a = (Ok tt, splice a (Z.to_nat off) [twos 1 (v / 256); twos 1 v]).
Proof.
  intros H0 H1. unfold setShort, catch_index, bind.
  rewrite shiftr_ff00, land_255.
  destruct (s1_of_mod (v / 256)) as [_ ->]. destruct (s1_of_mod v) as [_ ->].
  rewrite aset_in by lia. rewrite aset_in by (rewrite zlen_list_upd; lia).
  f_equal. rewrite <- splice_cons by (cbn [length]; unfold zlen in *; lia).
  replace (Z.to_nat (off + 1)) with (S (Z.to_nat off)) by lia.
  apply list_upd_splice. rewrite list_upd_length. unfold zlen in *; lia.
Qed.

Lemma getShort_ok a off : 0 <= off -> off + 1 < zlen a ->
  getShort a off = Ok (makeShort (nth (Z.to_nat off) a 0) (nth (S (Z.to_nat off)) a 0)).
Proof.
  intros H0 H1. unfold getShort. rewrite (py_get_in _ _ 0) by lia.
  rewrite (py_get_in _ _ 0) by lia. cbn [rbind].
  replace (Z.to_nat (off + 1)) with (S (Z.to_nat off)) by lia. reflexivity.
Qed.

Lemma twos1_split v : 256 * twos 1 (v / 256) + (twos 1 v) mod 256 - v = 65536 * ((256 * twos 1 (v / 256) + (twos 1 v) mod 256 - v) / 65536).
Proof.
  rewrite !twos1. destruct (Z.ltb_spec (v mod 256) 128); destruct (Z.ltb_spec ((v / 256) mod 256) 128); lia.
Qed.

Lemma C02_setShort_getShort_pf : forall (a : list Z) (off v : Z), 0 <= off ->
  (off + 1 < zlen a ->
     exists x y a', setShort off v a = (Ok tt, a')
       /\ a' = splice a (Z.to_nat off) [x; y] /\ sbyte x /\ sbyte y
       /\ length a' = length a
       /\ getShort a' off = Ok (twos 2 v))
  /\ (zlen a <= off + 1 ->
     getShort a off = Err ArrayIndexOutOfBounds
     /\ exists a', setShort off v a = (Err ArrayIndexOutOfBounds, a')
        /\ a' = (if off <? zlen a then splice a (Z.to_nat off) [twos 1 (v / 256)] else a)).
Proof.
  intros a off v H0. split; intros H1.
  - exists (twos 1 (v / 256)), (twos 1 v). eexists. split; [apply setShort_ok; assumption|].
    split; [reflexivity|]. split; [apply twos1_range|]. split; [apply twos1_range|].
    assert (Hl : length (splice a (Z.to_nat off) [twos 1 (v / 256); twos 1 v]) = length a).
    { apply splice_length. cbn [length]. unfold zlen in *; lia. }
    split; [assumption|].
    rewrite getShort_ok by (unfold zlen in *; lia).
    rewrite !nth_splice_in by (cbn [length]; unfold zlen in *; lia).
    replace (Z.to_nat off - Z.to_nat off)%nat with 0%nat by lia.
    replace (S (Z.to_nat off) - Z.to_nat off)%nat with 1%nat by lia. cbn [nth].
    rewrite makeShort_twos. f_equal. apply twos_congr; [lia|]. change (2 ^ (8 * 2)) with 65536.
    pose proof (twos1_split v) as E.
    set (k := (_ - v) / 65536) in E.
    replace (256 * twos 1 (v / 256) + twos 1 v mod 256) with (v + k * 65536) by lia.
    apply Z.mod_add. lia.
  - split.
    + unfold getShort. destruct (Z.lt_ge_cases off (zlen a)) as [H|H].
      * rewrite (py_get_in _ _ 0) by lia. cbn [rbind]. rewrite py_get_out by lia. reflexivity.
      * rewrite py_get_out by lia. reflexivity.
    + unfold setShort, catch_index, bind. rewrite shiftr_ff00, land_255.
      destruct (s1_of_mod (v / 256)) as [_ ->].
      destruct (Z.ltb_spec off (zlen a)) as [H|H].
      * rewrite aset_in by lia. rewrite aset_out by (rewrite zlen_list_upd; lia).
        eexists; split; [reflexivity|]. apply list_upd_splice. unfold zlen in *; lia.
      * rewrite aset_out by lia. eexists; split; reflexivity.
Qed.

Lemma arrayCopy_distinct_ok src so dest do len h :
  src <> dest -> 0 <= so -> 0 <= do -> 0 <= len ->
  so + len <= zlen (h src) -> do + len <= zlen (h dest) ->
  exists h', arrayCopy src so dest do len h = (Ok tt, h')
    /\ h' dest = splice (h dest) (Z.to_nat do) (sub (h src) (Z.to_nat so) (Z.to_nat len))
    /\ (forall k, k <> dest -> h' k = h k).
Proof.
  intros Hne H0 H1 H2 H3 H4. rewrite arrayCopy_unfold.
  destruct (copy_loop_distinct (Z.to_nat len) h src so dest do 0 Hne) as (h' & Hr & Hd & Ha); try lia.
  exists h'. unfold avail in *. rewrite !Z.add_0_r in *.
  replace (Z.to_nat (Z.min _ _)) with (Z.to_nat len) in * by lia.
  rewrite Nat.eqb_refl in Hr. rewrite Hr. auto.
Qed.

Lemma C03_arrayCopy_distinct_pf : forall src so dest do len (h : heap),
  src <> dest -> 0 <= so -> 0 <= do -> 0 <= len ->
  so + len <= zlen (h src) -> do + len <= zlen (h dest) ->
  exists h', arrayCopy src so dest do len h = (Ok tt, h')
    /\ sub (h' dest) (Z.to_nat do) (Z.to_nat len) = sub (h src) (Z.to_nat so) (Z.to_nat len)
    /\ (forall j, (j < Z.to_nat do \/ Z.to_nat do + Z.to_nat len <= j)%nat ->
         nth j (h' dest) 0 = nth j (h dest) 0)
    /\ length (h' dest) = length (h dest)
    /\ (forall k, k <> dest -> h' k = h k).
Proof.
  intros src so dest do len h Hne H0 H1 H2 H3 H4.
  destruct (arrayCopy_distinct_ok src so dest do len h) as (h' & Hr & Hd & Ha); auto.
  assert (Hs : length (sub (h src) (Z.to_nat so) (Z.to_nat len)) = Z.to_nat len)
    by (apply sub_length; unfold zlen in *; lia).
  assert (Hb : (Z.to_nat do + Z.to_nat len <= length (h dest))%nat) by (unfold zlen in *; lia).
  exists h'. rewrite Hd. split; [assumption|]. split; [|split; [|split; [|assumption]]].
  - apply sub_splice; rewrite ?Hs; auto.
  - intros j Hj. apply nth_splice_out; rewrite Hs; auto.
  - apply splice_length. now rewrite Hs.
Qed.

Lemma copy_outcome n : forall h src so dest do i,
  0 <= so + i -> 0 <= do + i ->
  fst (for_loop n i (copy_body src so dest do) h) =
  if (Nat.eqb n 0) || ((so + i + Z.of_nat n <=? zlen (h src)) && (do + i + Z.of_nat n <=? zlen (h dest)))
  then Ok tt else Err IndexError.
Proof.
  induction n as [|n IH]; intros h src so dest do i Hs Hd; [reflexivity|].
  cbn [for_loop]. unfold bind at 1. cbn [Nat.eqb orb].
  destruct (Z.lt_ge_cases (so + i) (zlen (h src))) as [H1|H1];
  [destruct (Z.lt_ge_cases (do + i) (zlen (h dest))) as [H2|H2]|].
  - rewrite copy_body_in by lia. rewrite IH by lia.
    set (h1 := hset _ _ _).
    assert (E : forall k, zlen (h1 k) = zlen (h k)).
    { intros k. unfold h1, hset. destruct (Nat.eqb_spec k dest) as [->|]; auto. apply zlen_list_upd. }
    rewrite !E. clearbody h1. clear IH. destruct (Nat.eqb_spec n 0) as [E0|Hn]; cbn [orb].
    + match goal with |- _ = (if ?b then _ else _) => replace b with true by lia end. reflexivity.
    + match goal with |- (if ?b then _ else _) = (if ?c then _ else _) => replace b with c by lia end. reflexivity.
  - rewrite copy_body_out by lia.
    match goal with |- _ = (if ?b then _ else _) => replace b with false by lia end. reflexivity.
  - rewrite copy_body_out by lia.
    match goal with |- _ = (if ?b then _ else _) => replace b with false by lia end. reflexivity.
Qed.

Lemma arrayCompare_no_index src so dest do len :
  arrayCompare src so dest do len <> Err IndexError.
Proof.
  unfold arrayCompare. destruct (arrayCompare_loop _ _ _ _ _ _) as [z|[]]; discriminate.
Qed.

Lemma C04_bounds_exact_pf : forall src so dest do len v (h : heap) (a : list Z),
  0 <= so -> 0 <= do -> 0 <= len ->
  fst (arrayCopy src so dest do len h) =
    (if (0 <? len) && ((zlen (h src) <? so + len) || (zlen (h dest) <? do + len))
     then Err ArrayIndexOutOfBounds else Ok tt)
  /\ fst (arrayFillNonAtomic do len v a) =
    (if (0 <? len) && (zlen a <? do + len) then Err ArrayIndexOutOfBounds else Ok tt).
Proof.
  intros src so dest do len v h a H0 H1 H2. split.
  - rewrite arrayCopy_unfold. pose proof (copy_outcome (Z.to_nat len) h src so dest do 0) as E.
    destruct (for_loop _ _ _ _) as [r h']. cbn [fst] in E. rewrite E by lia. clear E.
    destruct (Nat.eqb_spec (Z.to_nat len) 0) as [Hl|Hl]; cbn [orb].
    + replace (0 <? len) with false by lia. reflexivity.
    + replace (0 <? len) with true by lia. cbn [andb].
      match goal with |- context [if ?b && ?c then _ else _] => destruct (b && c) eqn:E end;
      match goal with |- context [if ?b || ?c then _ else _] => destruct (b || c) eqn:E' end; cbn [fst]; auto; lia.
  - destruct (Z.ltb_spec 0 len) as [Hl|Hl]; cbn [andb].
    + destruct (Z.ltb_spec (zlen a) (do + len)).
      * now rewrite arrayFill_err by lia.
      * now rewrite arrayFill_ok by lia.
    + replace len with 0 by lia. reflexivity.
Qed.

Lemma C04_no_IndexError_pf : forall src so dest do len v (h : heap) (a b : list Z),
  fst (arrayCopy src so dest do len h) <> Err IndexError
  /\ arrayCompare a so b do len <> Err IndexError
  /\ fst (arrayFillNonAtomic do len v a) <> Err IndexError
  /\ getShort a do <> Err IndexError
  /\ fst (setShort do v a) <> Err IndexError.
Proof.
  intros src so dest do len v h a b. split; [|split; [|split; [|split]]].
  - destruct (arrayCopy _ _ _ _ _ _) as [[u|e] h'] eqn:E; [discriminate|].
    apply arrayCopy_err in E. subst e. discriminate.
  - apply arrayCompare_no_index.
  - apply arrayFill_no_index.
  - unfold getShort. destruct (rbind _ _) as [z|[]]; discriminate.
  - unfold setShort, catch_index. destruct (bind _ _ _) as [[z|[]] s]; cbn [fst]; discriminate.
Qed.

Lemma nth_repeat_lt {A} (v d : A) n j : (j < n)%nat -> nth j (repeat v n) d = v.
Proof. revert j; induction n as [|n IH]; intros [|j] H; simpl; auto; try lia. apply IH; lia. Qed.

Lemma C04_fill_effect_pf : forall (a : list Z) off len v,
  0 <= off -> 0 <= len -> off + len <= zlen a ->
  exists a', arrayFillNonAtomic off len v a = (Ok tt, a')
    /\ length a' = length a
    /\ forall j, (j < length a)%nat ->
       nth j a' 0 = if (off <=? Z.of_nat j) && (Z.of_nat j <? off + len) then v else nth j a 0.
Proof.
  intros a off len v H0 H1 H2. rewrite arrayFill_ok by assumption. eexists; split; [reflexivity|].
  split; [apply splice_length; rewrite repeat_length; unfold zlen in *; lia|].
  intros j Hj. destruct ((off <=? Z.of_nat j) && (Z.of_nat j <? off + len)) eqn:E.
  - rewrite nth_splice_in by (rewrite ?repeat_length; unfold zlen in *; lia).
    apply nth_repeat_lt. lia.
  - apply nth_splice_out; rewrite repeat_length; unfold zlen in *; lia.
Qed.

Lemma C05_overlap_refuted_pf : ~ (forall a so do len (h : heap),
  0 <= so -> 0 <= do -> 0 <= len -> so + len <= zlen (h a) -> do + len <= zlen (h a) ->
  sub (snd (arrayCopy a so a do len h) a) (Z.to_nat do) (Z.to_nat len)
  = sub (h a) (Z.to_nat so) (Z.to_nat len)).
Proof.
  intros H. specialize (H 0%nat 0 1 2 (fun _ => [10; 20; 30])).
  assert (K : [10; 10] = [10; 20]) by (apply H; vm_compute; discriminate). discriminate K.
Qed.

Lemma C05_overlap_partial_pf : forall a so do len (h : heap),
  0 <= so -> 0 <= do -> 0 <= len -> so + len <= zlen (h a) -> do + len <= zlen (h a) ->
  (do <= so \/ so + len <= do) ->
  exists h', arrayCopy a so a do len h = (Ok tt, h')
    /\ h' a = splice (h a) (Z.to_nat do) (sub (h a) (Z.to_nat so) (Z.to_nat len))
    /\ (forall k, k <> a -> h' k = h k).
Proof.
  intros a so do len h H0 H1 H2 H3 H4 [H5|H5].
  - destruct (arrayCopy_same_left a so do len h) as (h' & ? & ? & ?); eauto; try lia.
  - destruct (arrayCopy_same_disjoint a so do len h) as (h' & ? & ? & ?); eauto; try lia.
Qed.

Lemma C05_overlap_right_exact_pf : forall a so do len (h : heap),
  0 <= so < do -> 0 <= len -> do + len <= zlen (h a) ->
  exists h', arrayCopy a so a do len h = (Ok tt, h')
    /\ (forall k, k <> a -> h' k = h k) /\ length (h' a) = length (h a)
    /\ (forall j, 0 <= j < len ->
        nth (Z.to_nat (do + j)) (h' a) 0 = nth (Z.to_nat (so + j mod (do - so))) (h a) 0)
    /\ (forall j, 0 <= j < zlen (h a) -> (j < do \/ do + len <= j) ->
        nth (Z.to_nat j) (h' a) 0 = nth (Z.to_nat j) (h a) 0).
Proof. exact arrayCopy_same_right. Qed.

Lemma C06_atomic_refuted_pf : ~ (forall src so dest do len (h h' : heap) e,
  arrayCopy src so dest do len h = (Err e, h') -> h' dest = h dest).
Proof.
  intros H.
  set (h := fun k : loc => match k with O => [1; 2; 3] | _ => [0; 0] end).
  specialize (H 0%nat 0 1%nat 0 3 h).
  destruct (arrayCopy 0%nat 0 1%nat 0 3 h) as [[u|e] h'] eqn:E; [vm_compute in E; congruence|].
  specialize (H h' e eq_refl).
  assert (E' : snd (arrayCopy 0%nat 0 1%nat 0 3 h) 1%nat = [1; 2]) by (vm_compute; reflexivity).
  rewrite E in E'. cbn [snd] in E'. rewrite H in E'. vm_compute in E'. discriminate.
Qed.

Lemma C06_atomic_partial_pf : forall src so dest do len (h : heap),
  src <> dest -> 0 <= so -> 0 <= do -> 0 < len ->
  (zlen (h src) < so + len \/ zlen (h dest) < do + len) ->
  exists h', arrayCopy src so dest do len h = (Err ArrayIndexOutOfBounds, h')
    /\ h' dest = splice (h dest) (Z.to_nat do)
                  (sub (h src) (Z.to_nat so)
                     (Z.to_nat (Z.min (zlen (h src) - so) (zlen (h dest) - do))))
    /\ (zlen (h src) <= so \/ zlen (h dest) <= do -> h' dest = h dest)
    /\ (forall k, k <> dest -> h' k = h k).
Proof.
  intros src so dest do len h Hne H0 H1 H2 H3. rewrite arrayCopy_unfold.
  destruct (copy_loop_distinct (Z.to_nat len) h src so dest do 0 Hne) as (h' & Hr & Hd & Ha); try lia.
  exists h'. unfold avail in *. rewrite !Z.add_0_r in *. rewrite Z2Nat.id in * by lia.
  replace (Z.min len (Z.min (zlen (h src) - so) (zlen (h dest) - do)))
    with (Z.min (zlen (h src) - so) (zlen (h dest) - do)) in * by lia.
  replace (Nat.eqb _ _) with false in Hr by lia. rewrite Hr.
  split; [reflexivity|]. split; [assumption|]. split; [|assumption].
  intros H. rewrite Hd. replace (Z.to_nat (Z.min _ _)) with 0%nat by lia. apply splice_nil.
Qed.

(** First difference of two ranges. *)
Lemma compare_loop_spec n : forall src so dest do i,
  0 <= so + i -> 0 <= do + i -> so + i + Z.of_nat n <= zlen src -> do + i + Z.of_nat n <= zlen dest ->
  (arrayCompare_loop n i src so dest do = Ok 0 /\
     sub src (Z.to_nat (so + i)) n = sub dest (Z.to_nat (do + i)) n)
  \/ exists k, (k < n)%nat
      /\ sub src (Z.to_nat (so + i)) k = sub dest (Z.to_nat (do + i)) k
      /\ ((arrayCompare_loop n i src so dest do = Ok 1
           /\ nth (Z.to_nat (do + i) + k) dest 0 < nth (Z.to_nat (so + i) + k) src 0)
          \/ (arrayCompare_loop n i src so dest do = Ok (-1)
           /\ nth (Z.to_nat (so + i) + k) src 0 < nth (Z.to_nat (do + i) + k) dest 0)).
Proof.
  induction n as [|n IH]; intros src so dest do i H0 H1 H2 H3; [left; auto|].
  cbn [arrayCompare_loop]. rewrite !(py_get_in _ _ 0) by lia. cbn [rbind].
  rewrite (sub_S src _ _ 0), (sub_S dest _ _ 0) by (unfold zlen in *; lia).
  set (x := nth (Z.to_nat (so + i)) src 0). set (y := nth (Z.to_nat (do + i)) dest 0).
  destruct (Z.ltb_spec y x) as [Hxy|Hxy].
  { right. exists 0%nat. split; [lia|]. split; [reflexivity|]. left. split; [reflexivity|].
    rewrite !Nat.add_0_r. exact Hxy. }
  destruct (Z.ltb_spec x y) as [Hyx|Hyx].
  { right. exists 0%nat. split; [lia|]. split; [reflexivity|]. right. split; [reflexivity|].
    rewrite !Nat.add_0_r. exact Hyx. }
  assert (Exy : x = y) by lia.
  replace (S (Z.to_nat (so + i))) with (Z.to_nat (so + (i + 1))) by lia.
  replace (S (Z.to_nat (do + i))) with (Z.to_nat (do + (i + 1))) by lia.
  destruct (IH src so dest do (i + 1)) as [[Hr He]|(k & Hk & He & Hr)]; try lia.
  - left. split; [assumption|]. congruence.
  - right. exists (S k). split; [lia|].
    rewrite (sub_S src _ _ 0), (sub_S dest _ _ 0) by (unfold zlen in *; lia).
    fold x y.
    replace (S (Z.to_nat (so + i))) with (Z.to_nat (so + (i + 1))) by lia.
    replace (S (Z.to_nat (do + i))) with (Z.to_nat (do + (i + 1))) by lia.
    split; [congruence|].
    replace (Z.to_nat (so + i) + S k)%nat with (Z.to_nat (so + (i + 1)) + k)%nat by lia.
    replace (Z.to_nat (do + i) + S k)%nat with (Z.to_nat (do + (i + 1)) + k)%nat by lia.
    exact Hr.
Qed.

Lemma C07_arrayCompare_pf : forall src so dest do len,
  0 <= so -> 0 <= do -> 0 <= len -> so + len <= zlen src -> do + len <= zlen dest ->
  let s := sub src (Z.to_nat so) (Z.to_nat len) in
  let d := sub dest (Z.to_nat do) (Z.to_nat len) in
  exists r, arrayCompare src so dest do len = Ok r
  /\ (r = 0 \/ r = 1 \/ r = -1)
  /\ (r = 0 <-> s = d)
  /\ (r = 1 <-> exists k, (k < Z.to_nat len)%nat /\ firstn k s = firstn k d /\ nth k d 0 < nth k s 0)
  /\ (r = -1 <-> exists k, (k < Z.to_nat len)%nat /\ firstn k s = firstn k d /\ nth k s 0 < nth k d 0)
  /\ arrayCompare dest do src so len = Ok (- r).
Proof.
  intros src so dest do len H0 H1 H2 H3 H4 s d.
  assert (Hfn : forall (l : list Z) o k, (k < Z.to_nat len)%nat -> firstn k (sub l o (Z.to_nat len)) = sub l o k).
  { intros l o k Hk. unfold sub. rewrite firstn_firstn. f_equal. lia. }
  assert (Huniq : forall k k', (k < Z.to_nat len)%nat -> (k' < Z.to_nat len)%nat ->
     firstn k s = firstn k d -> firstn k' s = firstn k' d ->
     nth k s 0 <> nth k d 0 -> nth k' s 0 <> nth k' d 0 -> k = k').
  { assert (W : forall k k', (k < k')%nat -> firstn k' s = firstn k' d -> nth k s 0 = nth k d 0).
    { intros k k' Hk E. assert (F : forall l : list Z, nth k l 0 = nth k (firstn k' l) 0).
      { intros l. change (firstn k' l) with (sub l 0 k'). rewrite nth_sub by lia. reflexivity. }
      rewrite (F s), (F d), E. reflexivity. }
    intros k k' Hk Hk' E E' N N'. destruct (Nat.lt_trichotomy k k') as [L|[L|L]]; auto; exfalso.
    - apply N. eapply W; eauto.
    - apply N'. eapply W; eauto. }
  destruct (compare_loop_spec (Z.to_nat len) src so dest do 0) as [[Hr He]|(k & Hk & He & Hr)];
  destruct (compare_loop_spec (Z.to_nat len) dest do src so 0) as [[Hr' He']|(k' & Hk' & He' & Hr')]; try lia;
  rewrite !Z.add_0_r in *; unfold arrayCompare.
  - exists 0. rewrite Hr, Hr'. fold s d in He.
    split; [reflexivity|]. split; [auto|]. split; [tauto|].
    split; [|split; [|reflexivity]]; (split; [discriminate|]); intros (j & Hj & _ & Hn); rewrite He in Hn; lia.
  - exfalso. assert (nth k' d 0 = nth k' s 0) by (unfold s, d; rewrite He; reflexivity).
    unfold s, d in H. rewrite !nth_sub in H by lia. lia.
  - exfalso. assert (nth k d 0 = nth k s 0) by (unfold s, d; rewrite He'; reflexivity).
    unfold s, d in H. rewrite !nth_sub in H by lia. lia.
  - assert (Ek : firstn k s = firstn k d) by (unfold s, d; rewrite !Hfn by lia; assumption).
    assert (Ek' : firstn k' s = firstn k' d) by (unfold s, d; rewrite !Hfn by lia; auto).
    assert (Ns : forall j, (j < Z.to_nat len)%nat -> nth j s 0 = nth (Z.to_nat so + j) src 0) by (intros; apply nth_sub; lia).
    assert (Nd : forall j, (j < Z.to_nat len)%nat -> nth j d 0 = nth (Z.to_nat do + j) dest 0) by (intros; apply nth_sub; lia).
    rewrite <- Ns, <- Nd in Hr by lia. rewrite <- Ns, <- Nd in Hr' by lia.
    assert (k = k') by (apply Huniq; auto; lia). subst k'.
    assert (Hsd : s <> d) by (intros E; rewrite E in Hr; lia).
    destruct Hr as [[Hr Hn]|[Hr Hn]].
    + destruct Hr' as [[Hr' Hn']|[Hr' Hn']]; [lia|].
      exists 1. rewrite Hr, Hr'. split; [reflexivity|]. split; [auto|].
      split; [split; [discriminate|contradiction]|].
      split; [split; eauto|]. split; [|reflexivity].
      split; [discriminate|]. intros (j & Hj & Ej & Hj').
      assert (k = j) by (apply Huniq; auto; lia). subst j. lia.
    + destruct Hr' as [[Hr' Hn']|[Hr' Hn']]; [|lia].
      exists (-1). rewrite Hr, Hr'. split; [reflexivity|]. split; [auto|].
      split; [split; [discriminate|contradiction]|].
      split; [|split; [split; eauto|reflexivity]].
      split; [discriminate|]. intros (j & Hj & Ej & Hj').
      assert (k = j) by (apply Huniq; auto; lia). subst j. lia.
Qed.

Lemma C08_negative_refuted_pf : forall (a : list Z) off v, - zlen a <= off <= -2 ->
  setShort off v a = (Ok tt, splice a (Z.to_nat (zlen a + off)) [twos 1 (v / 256); twos 1 v])
  /\ getShort a off = getShort a (zlen a + off)
  /\ (exists x, getShort a off = Ok x)
  /\ (forall b, 0 < zlen b -> exists r, arrayCompare a off b 0 1 = Ok r)
  /\ (forall h dest src, h src = a -> 0 < zlen (h dest) ->
       fst (arrayCopy src off dest 0 1 h) = Ok tt).
Proof.
  intros a off v H.
  assert (P : forall i, - zlen a <= i < 0 -> py_index (zlen a) i = py_index (zlen a) (zlen a + i)).
  { intros i Hi. rewrite py_index_neg, py_index_pos by lia. f_equal. lia. }
  assert (G : forall i, - zlen a <= i < 0 -> py_get a i = py_get a (zlen a + i)).
  { intros i Hi. unfold py_get. now rewrite P. }
  split; [|split; [|split; [|split]]].
  - rewrite <- (setShort_ok (zlen a + off) v a) by lia.
    unfold setShort, bind, catch_index, aset, py_set. rewrite P by lia.
    rewrite !py_index_pos by lia. rewrite zlen_list_upd. rewrite P by lia.
    replace (zlen a + (off + 1)) with (zlen a + off + 1) by lia. reflexivity.
  - unfold getShort. rewrite (G off), (G (off + 1)) by lia. replace (zlen a + (off + 1)) with (zlen a + off + 1) by lia. reflexivity.
  - unfold getShort. rewrite (G off), (G (off + 1)) by lia. rewrite !(py_get_in _ _ 0) by lia. cbn [rbind]. eauto.
  - intros b Hb. unfold arrayCompare. change (Z.to_nat 1) with 1%nat. cbn [arrayCompare_loop].
    rewrite (Z.add_0_r off). rewrite G by lia. rewrite !(py_get_in _ _ 0) by lia. cbn [rbind].
    destruct (_ <? _); [eauto|]. destruct (_ <? _); eauto.
  - intros h dest src Ea Hb. rewrite arrayCopy_unfold.
    change (Z.to_nat 1) with 1%nat. cbn [for_loop]. unfold bind at 1, copy_body, bind, hget_at, hset_at.
    rewrite !Z.add_0_r. rewrite Ea, G by lia. rewrite !(py_get_in _ _ 0) by lia.
    rewrite py_set_in by lia. reflexivity.
Qed.

Lemma C08_negative_partial_pf : forall src so dest do len v (h : heap) (a : list Z),
  0 < len ->
  (so < - zlen (h src) -> arrayCopy src so dest do len h = (Err ArrayIndexOutOfBounds, h))
  /\ (0 <= so < zlen (h src) -> do < - zlen (h dest) ->
      arrayCopy src so dest do len h = (Err ArrayIndexOutOfBounds, h))
  /\ (do < - zlen a -> arrayFillNonAtomic do len v a = (Err ArrayIndexOutOfBounds, a)
       /\ setShort do v a = (Err ArrayIndexOutOfBounds, a)
       /\ getShort a do = Err ArrayIndexOutOfBounds
       /\ arrayCompare a do (h src) so len = Err ArrayIndexOutOfBounds).
Proof.
  intros src so dest do len v h a Hl.
  assert (Hn : Z.to_nat len = S (Z.to_nat (len - 1))) by lia.
  split; [|split].
  - intros H. rewrite arrayCopy_unfold, Hn. cbn [for_loop]. unfold bind at 1, copy_body at 1, bind at 1, hget_at at 1.
    rewrite py_get_out by lia. reflexivity.
  - intros H H'. rewrite arrayCopy_unfold, Hn. cbn [for_loop].
    unfold bind at 1, copy_body at 1, bind at 1, hget_at at 1, hset_at at 1.
    rewrite (py_get_in _ _ 0) by lia. rewrite py_set_out by lia. reflexivity.
  - intros H. split; [|split; [|split]].
    + unfold arrayFillNonAtomic, catch_index. rewrite for_range_0, Hn. cbn [for_loop].
      unfold bind at 1. rewrite aset_out by lia. reflexivity.
    + unfold setShort, catch_index, bind. rewrite aset_out by lia. reflexivity.
    + unfold getShort. rewrite py_get_out by lia. reflexivity.
    + unfold arrayCompare. rewrite Hn. cbn [arrayCompare_loop]. rewrite py_get_out by lia. reflexivity.
Qed.

Lemma C09_nonAtomic_refuted_pf : forall src so dest do len (h : heap),
  0 <= so -> 0 <= do -> 0 < len -> (zlen (h src) < so + len \/ zlen (h dest) < do + len) ->
  fst (arrayCopyNonAtomic src so dest do len h) = Err NameError.
Proof.
  intros src so dest do len h H0 H1 H2 H3. rewrite arrayCopyNonAtomic_unfold.
  pose proof (copy_outcome (Z.to_nat len) h src so dest do 0) as E.
  destruct (for_loop _ _ _ _) as [r h']. cbn [fst] in E. rewrite E by lia. clear E.
  destruct (Nat.eqb_spec (Z.to_nat len) 0) as [Hl|Hl]; [lia|]. cbn [orb].
  match goal with |- context [if ?b && ?c then _ else _] => replace (b && c) with false by lia end. reflexivity.
Qed.

Lemma C09_nonAtomic_partial_pf : forall src so dest do len (h : heap),
  snd (arrayCopyNonAtomic src so dest do len h) = snd (arrayCopy src so dest do len h)
  /\ fst (arrayCopyNonAtomic src so dest do len h) =
     match fst (arrayCopy src so dest do len h) with
     | Err ArrayIndexOutOfBounds => Err NameError
     | r => r
     end.
Proof.
  intros src so dest do len h. rewrite arrayCopyNonAtomic_unfold, arrayCopy_unfold.
  destruct (for_loop _ _ _ _) as [[[]|e] h'] eqn:E; [auto|].
  apply copy_loop_err in E. subst e. auto.
Qed.

Lemma C10_signed_pf : forall v d, 1 <= d ->
  (signed v d) mod 2 ^ (8 * d) = v mod 2 ^ (8 * d)
  /\ (- 2 ^ (8 * d - 1) <= v < 2 ^ (8 * d - 1) -> signed v d = v)
  /\ (0 <= v < 2 ^ (8 * d) -> - 2 ^ (8 * d - 1) <= signed v d < 2 ^ (8 * d - 1))
  /\ ((- 2 ^ (8 * d - 1) <= signed v d < 2 ^ (8 * d - 1)) <->
      (- 2 ^ (8 * d - 1) <= v < 2 ^ (8 * d - 1) \/
       (2 ^ (8 * d - 1) <= v /\
        (v mod 2 ^ (8 * d) = 0 \/ 2 ^ (8 * d - 1) <= v mod 2 ^ (8 * d)))))
  /\ signed (signed v d) d = signed v d
  /\ u1 (signed v 1) = v mod 256.
Proof.
  intros v d Hd. split; [now apply signed_cong|]. split; [intros H; apply signed_id; lia|].
  split; [intros H; rewrite signed_unsigned by lia; now apply twos_range|].
  split; [now apply signed_range|]. split; [now apply signed_idem|].
  rewrite u1_spec. now apply (signed_cong v 1).
Qed.
