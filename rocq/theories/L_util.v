(** * Lemmas about M_util.v *)
From Verif Require Import Py S_Base L_Py M_utils M_util L_utils.
From Coq Require Import ZifyBool ZifyNat.
Ltac Zify.zify_post_hook ::= Z.div_mod_to_equations.

Lemma makeShort_twos b1 b2 : makeShort b1 b2 = twos 2 (256 * b1 + b2 mod 256).
Proof.
  unfold makeShort. change 65280 with (Z.shiftl 255 8).
  rewrite <- Z.shiftl_land. rewrite !land_255.
  rewrite lor_add.
  2:{ apply land_low_high; [lia|]. change (2 ^ 8) with 256. lia. }
  rewrite Z.shiftl_mul_pow2 by lia. change (2 ^ 8) with 256.
  pose proof (Z.mod_pos_bound b1 256). pose proof (Z.mod_pos_bound b2 256).
  unfold s2. rewrite signed_unsigned; [|lia|change (2 ^ (8 * 2)) with 65536; lia].
  apply twos_congr; [lia|]. change (2 ^ (8 * 2)) with 65536.
  rewrite (Z.mod_eq b1 256) by lia.
  replace ((b1 - 256 * (b1 / 256)) * 256 + b2 mod 256)
    with (256 * b1 + b2 mod 256 + (- (b1 / 256)) * 65536) by ring.
  apply Z.mod_add. lia.
Qed.

(** ** one-array writes *)
Lemma aset_in i v (a : list Z) : 0 <= i < zlen a ->
  aset i v a = (Ok tt, list_upd a (Z.to_nat i) v).
Proof. intros H; unfold aset. now rewrite py_set_in. Qed.

Lemma aset_out i v (a : list Z) : (i < - zlen a \/ zlen a <= i) ->
  aset i v a = (Err IndexError, a).
Proof. intros H; unfold aset. now rewrite py_set_out. Qed.

Lemma aset_length i v (a : list Z) : length (snd (aset i v a)) = length a.
Proof.
  unfold aset. destruct (py_set_cases a i v) as [(l' & -> & Hl)| ->]; simpl; auto.
Qed.

Lemma aset_err i v (a : list Z) e : fst (aset i v a) = Err e -> e = IndexError.
Proof.
  unfold aset. destruct (py_set_cases a i v) as [(l' & -> & Hl)| ->]; simpl; congruence.
Qed.

Lemma fill_loop_ok n : forall (a : list Z) off i v,
  0 <= off + i -> off + i + Z.of_nat n <= zlen a ->
  for_loop n i (fun i => aset (off + i) v) a
  = (Ok tt, splice a (Z.to_nat (off + i)) (repeat v n)).
Proof.
  induction n as [|n IH]; intros a off i v H0 H1.
  - cbn. now rewrite splice_nil.
  - cbn [for_loop]. unfold bind. rewrite aset_in by lia.
    rewrite IH by (rewrite ?zlen_list_upd; lia). f_equal.
    cbn [repeat]. rewrite <- splice_cons.
    + f_equal. lia.
    + rewrite repeat_length. unfold zlen in *; lia.
Qed.

(** writes as many cells as fit, then fails *)
Lemma fill_loop_err n : forall (a : list Z) off i v,
  0 <= off + i -> zlen a < off + i + Z.of_nat n -> (0 < n)%nat ->
  for_loop n i (fun i => aset (off + i) v) a
  = (Err IndexError, splice a (Z.to_nat (off + i)) (repeat v (Z.to_nat (zlen a - (off + i))))).
Proof.
  induction n as [|n IH]; intros a off i v H0 H1 Hn; [lia|].
  - cbn [for_loop]. unfold bind.
    destruct (Z.lt_ge_cases (off + i) (zlen a)) as [Hi|Hi].
    + rewrite aset_in by lia. rewrite IH by (rewrite ?zlen_list_upd; lia).
      rewrite zlen_list_upd. f_equal.
      replace (Z.to_nat (zlen a - (off + i))) with (S (Z.to_nat (zlen a - (off + (i + 1))))) by lia.
      cbn [repeat]. rewrite <- splice_cons.
      * f_equal. lia.
      * rewrite repeat_length. unfold zlen in *; lia.
    + rewrite aset_out by lia.
      replace (Z.to_nat (zlen a - (off + i))) with 0%nat by lia. cbn. now rewrite splice_nil.
Qed.

Lemma arrayFill_ok (a : list Z) off len v : 0 <= off -> 0 <= len -> off + len <= zlen a ->
  arrayFillNonAtomic off len v a = (Ok tt, splice a (Z.to_nat off) (repeat v (Z.to_nat len))).
Proof.
  intros H0 H1 H2. unfold arrayFillNonAtomic, catch_index. rewrite for_range_0.
  rewrite fill_loop_ok by lia. rewrite Z.add_0_r. reflexivity.
Qed.

Lemma arrayFill_err (a : list Z) off len v : 0 <= off -> zlen a < off + len -> 0 < len ->
  arrayFillNonAtomic off len v a
  = (Err ArrayIndexOutOfBounds, splice a (Z.to_nat off) (repeat v (Z.to_nat (zlen a - off)))).
Proof.
  intros H0 H1 Hl. unfold arrayFillNonAtomic, catch_index. rewrite for_range_0.
  rewrite fill_loop_err by lia. rewrite Z.add_0_r. reflexivity.
Qed.

Lemma arrayFill_no_index (a : list Z) off len v :
  fst (arrayFillNonAtomic off len v a) <> Err IndexError.
Proof.
  unfold arrayFillNonAtomic, catch_index.
  destruct (for_range _ _ _ _) as [[u|e] s]; simpl; [discriminate|].
  destruct e; simpl; discriminate.
Qed.

(** ** the copy loop, distinct arrays *)
Definition agree_except (l : loc) (h h' : heap) : Prop := forall k, k <> l -> h' k = h k.

Lemma hset_same h l v : hset h l v l = v.
Proof. unfold hset. now rewrite Nat.eqb_refl. Qed.

Lemma hset_other h l v k : k <> l -> hset h l v k = h k.
Proof. intros H; unfold hset. apply Nat.eqb_neq in H. now rewrite H. Qed.

Definition copy_body (src : loc) (srcOff : Z) (dest : loc) (destOff : Z) : Z -> M heap unit :=
  fun i => v <- hget_at src (srcOff + i) ;; hset_at dest (destOff + i) v.

Lemma copy_body_in src so dest do i h :
  0 <= so + i < zlen (h src) -> 0 <= do + i < zlen (h dest) ->
  copy_body src so dest do i h =
  (Ok tt, hset h dest (list_upd (h dest) (Z.to_nat (do + i)) (nth (Z.to_nat (so + i)) (h src) 0))).
Proof.
  intros Hs Hd. unfold copy_body, bind, hget_at, hset_at.
  rewrite (py_get_in _ _ 0) by assumption. now rewrite py_set_in by assumption.
Qed.

Lemma copy_body_out src so dest do i h :
  0 <= so + i -> 0 <= do + i ->
  (zlen (h src) <= so + i \/ zlen (h dest) <= do + i) ->
  copy_body src so dest do i h = (Err IndexError, h).
Proof.
  intros Hs Hd H. unfold copy_body, bind, hget_at, hset_at.
  destruct (Z.lt_ge_cases (so + i) (zlen (h src))) as [H1|H1].
  - rewrite (py_get_in _ _ 0) by lia. rewrite py_set_out by lia. reflexivity.
  - rewrite py_get_out by lia. reflexivity.
Qed.

(** Number of cells available from position [p] on in an array. *)
Definition avail (a : list Z) (p : Z) : Z := zlen a - p.

Lemma copy_loop_distinct n : forall h src so dest do i,
  src <> dest -> 0 <= so + i -> 0 <= do + i ->
  let k := Z.to_nat (Z.min (Z.of_nat n) (Z.min (avail (h src) (so + i)) (avail (h dest) (do + i)))) in
  exists h', for_loop n i (copy_body src so dest do) h
             = ((if Nat.eqb k n then Ok tt else Err IndexError), h')
    /\ h' dest = splice (h dest) (Z.to_nat (do + i)) (sub (h src) (Z.to_nat (so + i)) k)
    /\ agree_except dest h h'.
Proof.
  induction n as [|n IH]; intros h src so dest do i Hne Hs Hd k; subst k.
  - exists h. replace (Z.to_nat (Z.min (Z.of_nat 0) _)) with 0%nat by lia. cbn.
    split; [reflexivity|]. split; [now rewrite splice_nil|intros l Hl; reflexivity].
  - cbn [for_loop]. unfold bind at 1.
    destruct (Z_lt_ge_dec (so + i) (zlen (h src))) as [H1|H1];
    [destruct (Z_lt_ge_dec (do + i) (zlen (h dest))) as [H2|H2]|].
    + rewrite copy_body_in by lia.
      set (v := nth (Z.to_nat (so + i)) (h src) 0).
      set (h1 := hset h dest (list_upd (h dest) (Z.to_nat (do + i)) v)).
      assert (E1 : h1 src = h src) by (apply hset_other; assumption).
      assert (E2 : h1 dest = list_upd (h dest) (Z.to_nat (do + i)) v) by apply hset_same.
      destruct (IH h1 src so dest do (i + 1) Hne) as (h' & Hr & Hd' & Ha); try lia.
      unfold avail in *. rewrite E1, E2, zlen_list_upd in Hr, Hd'.
      exists h'. set (k0 := Z.to_nat (Z.min (Z.of_nat n) _)) in *.
      match goal with |- context [Nat.eqb ?x (S n)] => replace x with (S k0) by lia end.
      rewrite Hr. cbn [Nat.eqb]. split; [reflexivity|]. split.
      * rewrite Hd'. rewrite (sub_S _ _ _ 0) by (unfold zlen in *; lia).
        rewrite <- splice_cons.
        -- f_equal; [lia|]. fold v. do 2 f_equal. lia.
        -- rewrite sub_length_gen. unfold zlen in *. lia.
      * intros l Hl. rewrite Ha by assumption. now apply hset_other.
    + rewrite copy_body_out by lia. exists h. unfold avail.
      match goal with |- context [Nat.eqb ?x (S n)] => replace x with 0%nat by lia end.
      cbn. rewrite splice_nil. split; [reflexivity|]. split; [reflexivity|]. intros l Hl; reflexivity.
    + rewrite copy_body_out by lia. exists h. unfold avail.
      match goal with |- context [Nat.eqb ?x (S n)] => replace x with 0%nat by lia end.
      cbn. rewrite splice_nil. split; [reflexivity|]. split; [reflexivity|]. intros l Hl; reflexivity.
Qed.

Lemma copy_loop_body src so dest do len :
  copy_loop src so dest do len = for_loop (Z.to_nat len) 0 (copy_body src so dest do).
Proof. unfold copy_loop. now rewrite for_range_0. Qed.

(** arrayCopy = copy_loop with the IndexError translated *)
Lemma arrayCopy_unfold src so dest do len h :
  arrayCopy src so dest do len h =
  match for_loop (Z.to_nat len) 0 (copy_body src so dest do) h with
  | (Ok _, h') => (Ok tt, h')
  | (Err IndexError, h') => (Err ArrayIndexOutOfBounds, h')
  | (Err e, h') => (Err e, h')
  end.
Proof.
  unfold arrayCopy, beginTransaction, commitTransaction, abortTransaction, bind, ret, raise.
  rewrite copy_loop_body. destruct (for_loop _ _ _ _) as [[[]|e] h']; auto.
  destruct e; reflexivity.
Qed.

Lemma arrayCopyNonAtomic_unfold src so dest do len h :
  arrayCopyNonAtomic src so dest do len h =
  match for_loop (Z.to_nat len) 0 (copy_body src so dest do) h with
  | (Ok _, h') => (Ok tt, h')
  | (Err IndexError, h') => (Err NameError, h')
  | (Err e, h') => (Err e, h')
  end.
Proof.
  unfold arrayCopyNonAtomic, catch_index. rewrite copy_loop_body.
  destruct (for_loop _ _ _ _) as [[[]|e] h']; auto. destruct e; reflexivity.
Qed.

Lemma copy_body_err src so dest do i h e h' :
  copy_body src so dest do i h = (Err e, h') -> e = IndexError /\ h' = h.
Proof.
  unfold copy_body, bind, hget_at, hset_at.
  destruct (py_get_cases (h src) (so + i)) as [(v & ->)| ->]; [|intros [= <- <-]; auto].
  destruct (py_set_cases (h dest) (do + i) v) as [(l' & -> & _)| ->]; [discriminate|].
  intros [= <- <-]; auto.
Qed.

Lemma copy_loop_err n : forall src so dest do i h e h',
  for_loop n i (copy_body src so dest do) h = (Err e, h') -> e = IndexError.
Proof.
  induction n as [|n IH]; intros src so dest do i h e h'; [discriminate|].
  cbn [for_loop]. unfold bind at 1.
  destruct (copy_body src so dest do i h) as [[[]|e0] h0] eqn:E.
  - apply IH.
  - intros [= <- <-]. now apply copy_body_err in E.
Qed.

Lemma arrayCopy_err src so dest do len h e h' :
  arrayCopy src so dest do len h = (Err e, h') -> e = ArrayIndexOutOfBounds.
Proof.
  rewrite arrayCopy_unfold. destruct (for_loop _ _ _ _) as [[[]|e0] h0] eqn:E; [discriminate|].
  apply copy_loop_err in E. subst e0. congruence.
Qed.

(** lengths never change, other arrays never change *)
Lemma copy_loop_frame n : forall src so dest do i h,
  let h' := snd (for_loop n i (copy_body src so dest do) h) in
  agree_except dest h h' /\ length (h' dest) = length (h dest).
Proof.
  induction n as [|n IH]; intros src so dest do i h; cbn zeta.
  - cbn. split; [intros l Hl|]; reflexivity.
  - cbn [for_loop]. unfold bind at 1 2.
    destruct (copy_body src so dest do i h) as [[[]|e0] h0] eqn:E.
    + assert (Hh : agree_except dest h h0 /\ length (h0 dest) = length (h dest)).
      { revert E. unfold copy_body, bind, hget_at, hset_at.
        destruct (py_get_cases (h src) (so + i)) as [(v & ->)| ->]; [|discriminate].
        destruct (py_set_cases (h dest) (do + i) v) as [(l' & -> & Hl)| ->]; [|discriminate].
        intros [= <-]. rewrite hset_same. split; auto. intros k Hk. now apply hset_other. }
      destruct (IH src so dest do (i + 1) h0) as [Ha Hl]. destruct Hh as [Ha0 Hl0].
      split; [|congruence]. intros k Hk. rewrite Ha, Ha0; auto.
    + apply copy_body_err in E as [_ ->]. simpl. split; [intros l Hl|]; reflexivity.
Qed.

(** ** arrayCopy_into *)
Lemma arrayCopy_into_ok src so do len dest :
  0 <= so -> 0 <= do -> 0 <= len -> so + len <= zlen src -> do + len <= zlen dest ->
  arrayCopy_into src so do len dest
  = (Ok tt, splice dest (Z.to_nat do) (sub src (Z.to_nat so) (Z.to_nat len))).
Proof.
  intros H0 H1 H2 H3 H4. unfold arrayCopy_into. rewrite arrayCopy_unfold.
  set (h := fun k : loc => match k with O => src | _ => dest end).
  destruct (copy_loop_distinct (Z.to_nat len) h 0%nat so 1%nat do 0) as (h' & Hr & Hd & _);
    [discriminate|lia|lia|].
  unfold avail in Hr, Hd. rewrite !Z.add_0_r in Hr, Hd.
  change (h 0%nat) with src in Hr, Hd. change (h 1%nat) with dest in Hr, Hd.
  rewrite Hr. replace (Z.to_nat (Z.min _ _)) with (Z.to_nat len) in * by lia.
  rewrite Nat.eqb_refl, Hd. reflexivity.
Qed.

Lemma arrayCopy_into_err src so do len dest :
  0 <= so -> 0 <= do -> 0 < len -> (zlen src < so + len \/ zlen dest < do + len) ->
  arrayCopy_into src so do len dest
  = (Err ArrayIndexOutOfBounds,
     splice dest (Z.to_nat do) (sub src (Z.to_nat so)
       (Z.to_nat (Z.min len (Z.min (zlen src - so) (zlen dest - do)))))).
Proof.
  intros H0 H1 H2 H3. unfold arrayCopy_into. rewrite arrayCopy_unfold.
  set (h := fun k : loc => match k with O => src | _ => dest end).
  destruct (copy_loop_distinct (Z.to_nat len) h 0%nat so 1%nat do 0) as (h' & Hr & Hd & _);
    [discriminate|lia|lia|].
  unfold avail in Hr, Hd. rewrite !Z.add_0_r in Hr, Hd.
  change (h 0%nat) with src in Hr, Hd. change (h 1%nat) with dest in Hr, Hd.
  rewrite Hr. rewrite Z2Nat.id in * by lia.
  match goal with |- context [Nat.eqb ?x ?y] => replace (Nat.eqb x y) with false by lia end.
  now rewrite Hd.
Qed.

Lemma arrayCopy_into_length src so do len dest :
  length (snd (arrayCopy_into src so do len dest)) = length dest.
Proof.
  unfold arrayCopy_into. rewrite arrayCopy_unfold.
  set (h := fun k : loc => match k with O => src | _ => dest end).
  destruct (copy_loop_frame (Z.to_nat len) 0%nat so 1%nat do 0 h) as [_ Hl].
  change (h 1%nat) with dest in Hl.
  destruct (for_loop _ _ _ _) as [[[]|e0] h0]; simpl in *; auto. destruct e0; simpl; auto.
Qed.

Lemma arrayCopy_into_errs src so do len dest e :
  fst (arrayCopy_into src so do len dest) = Err e -> e = ArrayIndexOutOfBounds.
Proof.
  unfold arrayCopy_into.
  destruct (arrayCopy _ _ _ _ _ _) as [r h] eqn:E. simpl. intros ->.
  eapply arrayCopy_err; eauto.
Qed.

(** ** the copy loop, same array: exact result *)

(** Value that a left-to-right copy leaves at distance [j] from the start of the
    destination range. *)
Lemma copy_loop_same n : forall h a so do i,
  0 <= so -> 0 <= do -> 0 <= i ->
  so + i + Z.of_nat n <= zlen (h a) -> do + i + Z.of_nat n <= zlen (h a) ->
  exists h', for_loop n i (copy_body a so a do) h = (Ok tt, h')
    /\ agree_except a h h' /\ length (h' a) = length (h a)
    /\ forall j, (j < length (h a))%nat ->
       nth j (h' a) 0 =
       if (do + i <=? Z.of_nat j) && (Z.of_nat j <? do + i + Z.of_nat n)
       then (if so <? do
             then (if do + i <=? so + (Z.of_nat j - do)
                   then nth (Z.to_nat (so + (Z.of_nat j - do))) (h' a) 0
                   else nth (Z.to_nat (so + (Z.of_nat j - do))) (h a) 0)
             else nth (Z.to_nat (so + (Z.of_nat j - do))) (h a) 0)
       else nth j (h a) 0.
Proof.
  induction n as [|n IH]; intros h a so do i Hso Hdo Hi Hs Hd.
  - exists h. split; [reflexivity|]. split; [intros l Hl; reflexivity|]. split; [reflexivity|].
    intros j Hj.
    replace ((do + i <=? Z.of_nat j) && (Z.of_nat j <? do + i + Z.of_nat 0)) with false by lia.
    reflexivity.
  - cbn [for_loop]. unfold bind at 1. rewrite copy_body_in by lia.
    set (v := nth (Z.to_nat (so + i)) (h a) 0).
    set (h1 := hset h a (list_upd (h a) (Z.to_nat (do + i)) v)).
    assert (E2 : h1 a = list_upd (h a) (Z.to_nat (do + i)) v) by apply hset_same.
    destruct (IH h1 a so do (i + 1)) as (h' & Hr & Ha & Hl & Hn);
      try (rewrite ?E2, ?zlen_list_upd); try lia.
    rewrite E2, list_upd_length in Hl. rewrite E2, list_upd_length in Hn.
    assert (Hup : forall p, nth p (list_upd (h a) (Z.to_nat (do + i)) v) 0
                 = if Nat.eqb p (Z.to_nat (do + i)) then v else nth p (h a) 0).
    { intros p. rewrite nth_list_upd.
      replace (Nat.ltb (Z.to_nat (do + i)) (length (h a))) with true by (unfold zlen in *; lia).
      now rewrite andb_true_r. }
    exists h'. rewrite Hr. split; [reflexivity|]. split.
    { intros l Hl0. rewrite Ha by assumption. now apply hset_other. }
    split; [assumption|]. intros j Hj. rewrite (Hn j Hj).
    rewrite !Hup.
    destruct (Z.eq_dec (Z.of_nat j) (do + i)) as [Ej|Ej].
    + replace ((do + (i + 1) <=? Z.of_nat j) && (Z.of_nat j <? do + (i + 1) + Z.of_nat n)) with false by lia.
      replace ((do + i <=? Z.of_nat j) && (Z.of_nat j <? do + i + Z.of_nat (S n))) with true by lia.
      replace (Nat.eqb j (Z.to_nat (do + i))) with true by lia.
      replace (so + (Z.of_nat j - do)) with (so + i) by lia. fold v.
      destruct (Z.ltb_spec so do).
      * replace (do + i <=? so + i) with false by lia. reflexivity.
      * reflexivity.
    + destruct ((do + i <=? Z.of_nat j) && (Z.of_nat j <? do + i + Z.of_nat (S n))) eqn:Ein.
      * replace ((do + (i + 1) <=? Z.of_nat j) && (Z.of_nat j <? do + (i + 1) + Z.of_nat n)) with true by lia.
        destruct (Z.ltb_spec so do) as [Hlt|Hge].
        -- destruct (Z.leb_spec (do + (i + 1)) (so + (Z.of_nat j - do))) as [H1|H1].
           ++ replace (do + i <=? so + (Z.of_nat j - do)) with true by lia. reflexivity.
           ++ destruct (Z.eq_dec (so + (Z.of_nat j - do)) (do + i)) as [E|E].
              ** replace (do + i <=? so + (Z.of_nat j - do)) with true by lia.
                 rewrite E. rewrite Nat.eqb_refl.
                 (* the cell do+i of h' holds v *)
                 rewrite (Hn (Z.to_nat (do + i))) by (unfold zlen in *; lia).
                 replace ((do + (i + 1) <=? Z.of_nat (Z.to_nat (do + i))) && (Z.of_nat (Z.to_nat (do + i)) <? do + (i + 1) + Z.of_nat n)) with false by lia.
                 rewrite Hup. rewrite Nat.eqb_refl. reflexivity.
              ** replace (do + i <=? so + (Z.of_nat j - do)) with false by lia.
                 replace (Nat.eqb (Z.to_nat (so + (Z.of_nat j - do))) (Z.to_nat (do + i))) with false by lia.
                 reflexivity.
        -- replace (Nat.eqb (Z.to_nat (so + (Z.of_nat j - do))) (Z.to_nat (do + i))) with false by lia.
           reflexivity.
      * replace ((do + (i + 1) <=? Z.of_nat j) && (Z.of_nat j <? do + (i + 1) + Z.of_nat n)) with false by lia.
        replace (Nat.eqb j (Z.to_nat (do + i))) with false by lia. reflexivity.
Qed.

(** Same array, destination to the right of the source: the source block of
    length [do - so] is repeated periodically. *)
Lemma arrayCopy_same_right a so do len h :
  0 <= so < do -> 0 <= len -> do + len <= zlen (h a) ->
  exists h', arrayCopy a so a do len h = (Ok tt, h')
    /\ agree_except a h h' /\ length (h' a) = length (h a)
    /\ (forall j, 0 <= j < len ->
        nth (Z.to_nat (do + j)) (h' a) 0 = nth (Z.to_nat (so + j mod (do - so))) (h a) 0)
    /\ (forall j, 0 <= j < zlen (h a) -> (j < do \/ do + len <= j) ->
        nth (Z.to_nat j) (h' a) 0 = nth (Z.to_nat j) (h a) 0).
Proof.
  intros Hs Hl Hb. rewrite arrayCopy_unfold.
  destruct (copy_loop_same (Z.to_nat len) h a so do 0) as (h' & Hr & Ha & Hlen & Hn); try lia.
  exists h'. rewrite Hr. split; [reflexivity|]. split; [assumption|]. split; [assumption|].
  replace (so <? do) with true in Hn by lia. rewrite Z.add_0_r, Z2Nat.id in Hn by lia.
  split.
  - intros j. destruct (Z.lt_ge_cases j 0) as [H0|H0]; [lia|]. revert H0. revert j.
    apply (Zlt_0_ind (fun j => 0 <= j < len ->
       nth (Z.to_nat (do + j)) (h' a) 0 = nth (Z.to_nat (so + j mod (do - so))) (h a) 0)).
    intros j IH H0 Hj. rewrite Hn by (unfold zlen in *; lia).
    rewrite Z2Nat.id by lia.
    replace ((do <=? do + j) && (do + j <? do + len)) with true by lia.
    replace (so + (do + j - do)) with (so + j) by lia.
    destruct (Z.leb_spec do (so + j)) as [H|H].
    + replace (so + j) with (do + (j - (do - so))) by lia. rewrite IH by lia.
      replace (j - (do - so)) with (j + (-1) * (do - so)) by ring.
      rewrite Z.mod_add by lia. reflexivity.
    + rewrite Z.mod_small by lia. reflexivity.
  - intros j Hj Ho. rewrite Hn by (unfold zlen in *; lia). rewrite Z2Nat.id by lia.
    replace ((do <=? j) && (j <? do + len)) with false by lia. reflexivity.
Qed.

(** Same array, destination not to the right of the source: as through a
    temporary. *)
Lemma arrayCopy_same_left a so do len h :
  0 <= do <= so -> 0 <= len -> so + len <= zlen (h a) ->
  exists h', arrayCopy a so a do len h = (Ok tt, h')
    /\ agree_except a h h'
    /\ h' a = splice (h a) (Z.to_nat do) (sub (h a) (Z.to_nat so) (Z.to_nat len)).
Proof.
  intros Hs Hl Hb. rewrite arrayCopy_unfold.
  destruct (copy_loop_same (Z.to_nat len) h a so do 0) as (h' & Hr & Ha & Hlen & Hn); try lia.
  exists h'. rewrite Hr. split; [reflexivity|]. split; [assumption|].
  replace (so <? do) with false in Hn by lia. rewrite Z.add_0_r, Z2Nat.id in Hn by lia.
  assert (Hsub : length (sub (h a) (Z.to_nat so) (Z.to_nat len)) = Z.to_nat len).
  { apply sub_length. unfold zlen in *; lia. }
  apply (nth_ext_all _ _ 0).
  - rewrite splice_length; [assumption|]. rewrite Hsub. unfold zlen in *; lia.
  - intros j Hj. rewrite Hn by congruence.
    destruct ((do <=? Z.of_nat j) && (Z.of_nat j <? do + len)) eqn:E.
    + rewrite nth_splice_in by (rewrite ?Hsub; unfold zlen in *; lia).
      rewrite nth_sub by lia. f_equal. lia.
    + rewrite nth_splice_out by (rewrite ?Hsub; unfold zlen in *; lia). reflexivity.
Qed.

(** Right shift without overlap: as through a temporary. *)
Lemma arrayCopy_same_disjoint a so do len h :
  0 <= so -> so + len <= do -> 0 <= len -> do + len <= zlen (h a) ->
  exists h', arrayCopy a so a do len h = (Ok tt, h')
    /\ agree_except a h h'
    /\ h' a = splice (h a) (Z.to_nat do) (sub (h a) (Z.to_nat so) (Z.to_nat len)).
Proof.
  intros Hs Hd Hl Hb. destruct (Z.eq_dec so do) as [->|Hne].
  { apply arrayCopy_same_left; lia. }
  destruct (arrayCopy_same_right a so do len h) as (h' & Hr & Ha & Hlen & Hin & Hout); try lia.
  exists h'. split; [assumption|]. split; [assumption|].
  assert (Hsub : length (sub (h a) (Z.to_nat so) (Z.to_nat len)) = Z.to_nat len).
  { apply sub_length. unfold zlen in *; lia. }
  apply (nth_ext_all _ _ 0).
  - rewrite splice_length; [assumption|]. rewrite Hsub. unfold zlen in *; lia.
  - intros j Hj.
    destruct ((do <=? Z.of_nat j) && (Z.of_nat j <? do + len)) eqn:E.
    + rewrite nth_splice_in by (rewrite ?Hsub; unfold zlen in *; lia).
      rewrite nth_sub by lia.
      replace j with (Z.to_nat (do + (Z.of_nat j - do))) at 1 by lia.
      rewrite Hin by lia. rewrite Z.mod_small by lia. f_equal. lia.
    + rewrite nth_splice_out by (rewrite ?Hsub; unfold zlen in *; lia).
      replace j with (Z.to_nat (Z.of_nat j)) by lia. apply Hout; unfold zlen in *; lia.
Qed.
