(** * C08: the array functions of util.py for every integer argument: proofs *)
From Verif Require Import Py S_Base S_Number S_ArrayAll L_Py M_utils M_util M_jcint M_key S_System S_DigestAll M_digest M_system L_utils L_util LP_util LP_system LP_jcint.
From Coq Require Import ZifyBool ZifyNat.
Ltac Zify.zify_post_hook ::= Z.div_mod_to_equations.


Lemma py_get_cell (a : list Z) i : - zlen a <= i < zlen a -> py_get a i = Ok (elem a i).
Proof.
  intros H. unfold elem, cell. destruct (Z.ltb_spec i 0).
  - rewrite (py_get_neg _ _ 0) by lia. do 3 f_equal. lia.
  - now rewrite (py_get_in _ _ 0) by lia.
Qed.

Lemma aset_cell i v (a : list Z) : - zlen a <= i < zlen a ->
  aset i v a = (Ok tt, list_upd a (Z.to_nat (cell (zlen a) i)) v).
Proof.
  intros H. unfold aset, py_set, cell. destruct (Z.ltb_spec i 0).
  - rewrite py_index_neg by lia. now rewrite (Z.add_comm i).
  - now rewrite py_index_pos by lia.
Qed.

Lemma fit_le n off len : 0 <= fit n off len <= Z.max 0 len.
Proof. unfold fit. destruct (off <? - n); lia. Qed.
Lemma fit_in n off len i : 0 <= i < fit n off len -> - n <= off + i < n.
Proof. unfold fit. destruct (Z.ltb_spec off (- n)); lia. Qed.
Lemma fit_out n off len : fit n off len < len -> 0 <= n ->
  off + fit n off len < - n \/ n <= off + fit n off len.
Proof. unfold fit. destruct (Z.ltb_spec off (- n)); lia. Qed.

Lemma after_0 f off a : after_writes f off 0 a a.
Proof.
  split; [reflexivity|]. intros j Hj. unfold written.
  repeat (match goal with |- context [if ?c then _ else _] => replace c with false by lia end). reflexivity.
Qed.

Lemma after_step f off k a b : 0 <= k -> - zlen a <= off -> off + k < zlen a ->
  after_writes f off k a b ->
  after_writes f off (k + 1) a (list_upd b (Z.to_nat (cell (zlen a) (off + k))) (f k)).
Proof.
  intros Hk H0 H1 [HL HW]. split; [now rewrite list_upd_length|].
  intros j Hj. rewrite nth_list_upd.
  assert (Hc : 0 <= cell (zlen a) (off + k) < zlen a) by (unfold cell; destruct (Z.ltb_spec (off + k) 0); lia).
  replace (Nat.ltb (Z.to_nat (cell (zlen a) (off + k))) (length b)) with true by (unfold zlen in *; lia).
  rewrite Bool.andb_true_r. rewrite HW by assumption.
  destruct (Nat.eqb_spec (Z.to_nat j) (Z.to_nat (cell (zlen a) (off + k)))) as [E|E].
  - assert (Ej : j = cell (zlen a) (off + k)) by lia.
    unfold written. unfold cell in Ej. destruct (Z.ltb_spec (off + k) 0).
    + replace ((0 <=? j - off) && (j - off <? k + 1)) with false by lia.
      replace ((0 <=? j - zlen a - off) && (j - zlen a - off <? k + 1)) with true by lia. f_equal. lia.
    + replace ((0 <=? j - off) && (j - off <? k + 1)) with true by lia. f_equal. lia.
  - assert (Ej : j <> cell (zlen a) (off + k)) by lia. clear E.
    unfold written, cell in *.
    assert (E1 : (0 <=? j - off) && (j - off <? k + 1) = (0 <=? j - off) && (j - off <? k)).
    { destruct (Z.ltb_spec (off + k) 0); lia. }
    rewrite E1. destruct ((0 <=? j - off) && (j - off <? k)) eqn:E2; [reflexivity|].
    assert (E3 : (0 <=? j - zlen a - off) && (j - zlen a - off <? k + 1)
                 = (0 <=? j - zlen a - off) && (j - zlen a - off <? k)).
    { destruct (Z.ltb_spec (off + k) 0); lia. }
    now rewrite E3.
Qed.

(** a loop that writes one cell per turn *)
Lemma wr_loop f off len (a : list Z) m : Z.of_nat m <= fit (zlen a) off len ->
  exists b, for_loop m 0 (fun i => aset (off + i) (f i)) a = (Ok tt, b)
    /\ after_writes f off (Z.of_nat m) a b.
Proof.
  induction m as [|m IH]; intros Hm.
  - exists a. split; [reflexivity | apply after_0].
  - destruct IH as (b & E & W); [lia|].
    pose proof (fit_in (zlen a) off len (Z.of_nat m) ltac:(lia)) as Hi.
    pose proof (fit_in (zlen a) off len 0 ltac:(lia)) as Hz.
    replace (S m) with (m + 1)%nat by lia. rewrite for_loop_app, E. cbn [for_loop].
    assert (EL : zlen b = zlen a) by (unfold zlen; now rewrite (proj1 W)).
    unfold bind. rewrite aset_cell by (rewrite EL; lia). unfold ret. eexists. split; [reflexivity|].
    rewrite EL. rewrite Z.add_0_l. replace (Z.of_nat (m + 1)) with (Z.of_nat m + 1) by lia. apply after_step; auto; lia.
Qed.

Lemma wr_loop_all f off len (a : list Z) :
  exists b, for_loop (Z.to_nat len) 0 (fun i => aset (off + i) (f i)) a
    = (if fit (zlen a) off len <? len then Err IndexError else Ok tt, b)
    /\ after_writes f off (fit (zlen a) off len) a b.
Proof.
  pose proof (fit_le (zlen a) off len) as HF. set (k := fit (zlen a) off len) in *.
  destruct (wr_loop f off len a (Z.to_nat k)) as (b & E & W); [lia|].
  rewrite Z2Nat.id in W by lia. exists b. split; [|assumption].
  replace (Z.to_nat len) with (Z.to_nat k + Z.to_nat (len - k))%nat by lia. rewrite for_loop_app, E.
  destruct (Z.ltb_spec k len) as [Hl|Hl].
  - replace (Z.to_nat (len - k)) with (S (Z.to_nat (len - k - 1))) by lia. cbn [for_loop]. unfold bind.
    pose proof (fit_out (zlen a) off len Hl (zlen_nonneg a)) as Ho. fold k in Ho.
    rewrite aset_out by (unfold zlen in *; rewrite (proj1 W); lia). reflexivity.
  - replace (Z.to_nat (len - k)) with O by lia. reflexivity.
Qed.

Lemma C08_fill_partial_pf : forall off len v (a : list Z),
  exists b, arrayFillNonAtomic off len v a
    = (if fit (zlen a) off len <? len then Err ArrayIndexOutOfBounds else Ok tt, b)
    /\ after_writes (fun _ => v) off (fit (zlen a) off len) a b.
Proof.
  intros off len v a. destruct (wr_loop_all (fun _ => v) off len a) as (b & E & W).
  exists b. split; [|assumption]. unfold arrayFillNonAtomic, catch_index. rewrite for_range_0, E.
  destruct (_ <? _); reflexivity.
Qed.

Lemma copy_body_cell src so dest do i h :
  - zlen (h src) <= so + i < zlen (h src) -> - zlen (h dest) <= do + i < zlen (h dest) ->
  copy_body src so dest do i h
  = (Ok tt, hset h dest (list_upd (h dest) (Z.to_nat (cell (zlen (h dest)) (do + i))) (elem (h src) (so + i)))).
Proof.
  intros H1 H2. unfold copy_body, bind, hget_at, hset_at. rewrite py_get_cell by assumption.
  pose proof (aset_cell (do + i) (elem (h src) (so + i)) (h dest) H2) as E. unfold aset in E.
  destruct (py_set _ _ _); inversion E. reflexivity.
Qed.

Lemma copy_loop_any src so dest do len (h : heap) m :
  Z.of_nat m <= fit (zlen (h src)) so len -> Z.of_nat m <= fit (zlen (h dest)) do len ->
  exists h', for_loop m 0 (copy_body src so dest do) h = (Ok tt, h')
    /\ (forall l, length (h' l) = length (h l)) /\ (forall l, l <> dest -> h' l = h l)
    /\ (src <> dest -> after_writes (fun i => elem (h src) (so + i)) do (Z.of_nat m) (h dest) (h' dest)).
Proof.
  induction m as [|m IH]; intros Hs Hd.
  - exists h. split; [reflexivity|]. split; [auto|]. split; [auto|]. intros _. apply after_0.
  - destruct IH as (h1 & E & L & F & W); [lia|lia|].
    pose proof (fit_in _ so len (Z.of_nat m) ltac:(split; [lia | eapply Z.lt_le_trans; [|exact Hs]; lia])) as H1.
    pose proof (fit_in _ do len (Z.of_nat m) ltac:(split; [lia | eapply Z.lt_le_trans; [|exact Hd]; lia])) as H2.
    pose proof (fit_in _ do len 0 ltac:(split; [lia | eapply Z.lt_le_trans; [|exact Hd]; lia])) as H3.
    assert (ZL : forall l, zlen (h1 l) = zlen (h l)) by (intros l; unfold zlen; now rewrite L).
    replace (S m) with (m + 1)%nat by lia. rewrite for_loop_app, E. cbn [for_loop]. rewrite Z.add_0_l.
    unfold bind. rewrite copy_body_cell by (rewrite ZL; lia). unfold ret. eexists. split; [reflexivity|].
    split; [|split].
    + intros l. destruct (Nat.eq_dec l dest) as [->|N].
      * rewrite hset_same, list_upd_length. apply L.
      * rewrite hset_other by assumption. apply L.
    + intros l N. rewrite hset_other by assumption. auto.
    + intros N. rewrite hset_same, ZL, (F src N). replace (Z.of_nat (m + 1)) with (Z.of_nat m + 1) by lia.
      apply (after_step (fun i => elem (h src) (so + i))); auto; lia.
Qed.

Lemma copy_ends src so dest do len (h h' : heap) (k := Z.min (fit (zlen (h src)) so len) (fit (zlen (h dest)) do len)) :
  for_loop (Z.to_nat k) 0 (copy_body src so dest do) h = (Ok tt, h') -> (forall l, length (h' l) = length (h l)) ->
  arrayCopy src so dest do len h = (if k <? len then Err ArrayIndexOutOfBounds else Ok tt, h').
Proof.
  intros E L. pose proof (fit_le (zlen (h src)) so len) as H1. pose proof (fit_le (zlen (h dest)) do len) as H2.
  rewrite arrayCopy_unfold.
  replace (Z.to_nat len) with (Z.to_nat k + Z.to_nat (len - k))%nat by lia. rewrite for_loop_app, E.
  destruct (Z.ltb_spec k len) as [Hl|Hl].
  - replace (Z.to_nat (len - k)) with (S (Z.to_nat (len - k - 1))) by lia. cbn [for_loop]. unfold bind at 1.
    rewrite Z.add_0_l, Z2Nat.id by lia.
    unfold copy_body at 1, bind at 1, hget_at, hset_at.
    assert (ZL : forall l, zlen (h' l) = zlen (h l)) by (intros l; unfold zlen; now rewrite L).
    destruct (Z.lt_ge_cases (so + k) (- zlen (h src))) as [B|B];
      [rewrite py_get_out by (rewrite ZL; lia); reflexivity|].
    destruct (Z.lt_ge_cases (so + k) (zlen (h src))) as [B'|B'];
      [|rewrite py_get_out by (rewrite ZL; lia); reflexivity].
    rewrite py_get_cell by (rewrite ZL; lia).
    assert (Ho : do + k < - zlen (h dest) \/ zlen (h dest) <= do + k).
    { destruct (Z.min_spec (fit (zlen (h src)) so len) (fit (zlen (h dest)) do len)) as [[Q1 Q2]|[Q1 Q2]].
      - pose proof (fit_out (zlen (h src)) so len ltac:(lia) (zlen_nonneg _)). lia.
      - pose proof (fit_out (zlen (h dest)) do len ltac:(lia) (zlen_nonneg _)). lia. }
    rewrite py_set_out by (rewrite ZL; lia). reflexivity.
  - replace (Z.to_nat (len - k)) with O by lia. reflexivity.
Qed.

Lemma C08_copy_partial_pf : forall src so dest do len (h : heap),
  let k := Z.min (fit (zlen (h src)) so len) (fit (zlen (h dest)) do len) in
  exists h', arrayCopy src so dest do len h
    = (if k <? len then Err ArrayIndexOutOfBounds else Ok tt, h')
    /\ (forall l, length (h' l) = length (h l)) /\ (forall l, l <> dest -> h' l = h l)
    /\ (src <> dest -> after_writes (fun i => elem (h src) (so + i)) do k (h dest) (h' dest)).
Proof.
  intros src so dest do len h k.
  pose proof (fit_le (zlen (h src)) so len) as H1. pose proof (fit_le (zlen (h dest)) do len) as H2.
  destruct (copy_loop_any src so dest do len h (Z.to_nat k)) as (h' & E & L & F & W); [lia|lia|].
  rewrite Z2Nat.id in W by lia. exists h'. split; [|auto]. exact (copy_ends src so dest do len h h' E L).
Qed.

Lemma written_ext f g off k a j : (forall i, 0 <= i < k -> f i = g i) -> written f off k a j = written g off k a j.
Proof.
  intros H. unfold written. destruct ((0 <=? j - off) && (j - off <? k)) eqn:E; [apply H; lia|].
  destruct ((0 <=? j - zlen a - off) && (j - zlen a - off <? k)) eqn:E'; [apply H; lia|reflexivity].
Qed.
Lemma after_ext f g off k a b : (forall i, 0 <= i < k -> f i = g i) -> after_writes f off k a b -> after_writes g off k a b.
Proof. intros H [L W]. split; [exact L|]. intros j Hj. rewrite (W j Hj). now apply written_ext. Qed.
Lemma self_loop a so do len (h : heap) m :
  Z.of_nat m <= fit (zlen (h a)) so len -> Z.of_nat m <= fit (zlen (h a)) do len ->
  exists h' f, for_loop m 0 (copy_body a so a do) h = (Ok tt, h')
    /\ (forall l, length (h' l) = length (h l))
    /\ moved_in f so do (Z.of_nat m) (h a) /\ after_writes f do (Z.of_nat m) (h a) (h' a).
Proof.
  induction m as [|m IH]; intros Hs Hd.
  - exists h, (fun _ => 0). split; [reflexivity|]. split; [auto|]. split; [intros i Hi; lia|]. apply after_0.
  - destruct IH as (h1 & f & E & L & MI & W); [lia|lia|].
    pose proof (fit_in _ so len (Z.of_nat m) ltac:(split; [lia | eapply Z.lt_le_trans; [|exact Hs]; lia])) as H1.
    pose proof (fit_in _ do len (Z.of_nat m) ltac:(split; [lia | eapply Z.lt_le_trans; [|exact Hd]; lia])) as H2.
    pose proof (fit_in _ do len 0 ltac:(split; [lia | eapply Z.lt_le_trans; [|exact Hd]; lia])) as H3.
    assert (ZL : forall l, zlen (h1 l) = zlen (h l)) by (intros l; unfold zlen; now rewrite L).
    set (v := elem (h1 a) (so + Z.of_nat m)). set (g := fun i => if i =? Z.of_nat m then v else f i).
    assert (G : forall i, 0 <= i < Z.of_nat m -> f i = g i) by (intros i Hi; unfold g; now replace (i =? Z.of_nat m) with false by lia).
    assert (GM : g (Z.of_nat m) = v) by (unfold g; now rewrite Z.eqb_refl).
    exists (hset h1 a (list_upd (h1 a) (Z.to_nat (cell (zlen (h1 a)) (do + Z.of_nat m))) v)), g.
    split; [|split; [|split]].
    + replace (S m) with (m + 1)%nat by lia. rewrite for_loop_app, E. cbn [for_loop]. rewrite Z.add_0_l.
      unfold bind. rewrite copy_body_cell by (rewrite ZL; lia). reflexivity.
    + intros l. destruct (Nat.eq_dec l a) as [->|N].
      * rewrite hset_same, list_upd_length. apply L.
      * rewrite hset_other by assumption. apply L.
    + intros i Hi. destruct (Z.eq_dec i (Z.of_nat m)) as [->|N].
      * rewrite GM. unfold v, elem. rewrite ZL. destruct W as [_ W]. rewrite W.
        -- now apply written_ext.
        -- unfold cell. destruct (Z.ltb_spec (so + Z.of_nat m) 0); lia.
      * rewrite <- G by lia. rewrite MI by lia. apply written_ext. intros j Hj. apply G. lia.
    + rewrite hset_same, ZL, <- GM. replace (Z.of_nat (S m)) with (Z.of_nat m + 1) by lia.
      apply after_step; try lia. now apply (after_ext f).
Qed.

Lemma C08_self_partial_pf : forall a so do len (h : heap),
  let k := Z.min (fit (zlen (h a)) so len) (fit (zlen (h a)) do len) in
  exists h' f, arrayCopy a so a do len h = (if k <? len then Err ArrayIndexOutOfBounds else Ok tt, h')
    /\ moved_in f so do k (h a) /\ after_writes f do k (h a) (h' a).
Proof.
  intros a so do len h k.
  pose proof (fit_le (zlen (h a)) so len) as H1. pose proof (fit_le (zlen (h a)) do len) as H2.
  destruct (self_loop a so do len h (Z.to_nat k)) as (h' & f & E & L & MI & W); [lia|lia|].
  rewrite Z2Nat.id in MI, W by lia. exists h', f. split; [|auto]. exact (copy_ends a so a do len h h' E L).
Qed.

Lemma C08_self_unique_pf : forall f g so do k a, moved_in f so do k a -> moved_in g so do k a -> forall i, 0 <= i < k -> f i = g i.
Proof.
  intros f g so do k a F G.
  assert (H : forall n i, 0 <= i < k -> i < Z.of_nat n -> f i = g i).
  { induction n as [|n IH]; intros i Hi Hn; [lia|]. rewrite F, G by assumption. apply written_ext. intros j Hj. apply IH; lia. }
  intros i Hi. apply (H (Z.to_nat k)); lia.
Qed.

Lemma C08_compare_partial_pf : forall src so dest do len,
  let k := Z.min (fit (zlen src) so len) (fit (zlen dest) do len) in
  (exists i, 0 <= i < k
     /\ (forall j, 0 <= j < i -> elem src (so + j) = elem dest (do + j))
     /\ elem src (so + i) <> elem dest (do + i)
     /\ arrayCompare src so dest do len
        = Ok (if elem dest (do + i) <? elem src (so + i) then 1 else -1))
  \/ ((forall j, 0 <= j < k -> elem src (so + j) = elem dest (do + j))
      /\ arrayCompare src so dest do len = if k <? len then Err ArrayIndexOutOfBounds else Ok 0).
Proof.
  intros src so dest do len k.
  pose proof (fit_le (zlen src) so len) as H1. pose proof (fit_le (zlen dest) do len) as H2.
  assert (G : forall n p, 0 <= p -> (forall j, 0 <= j < p -> elem src (so + j) = elem dest (do + j)) ->
     p <= k -> p + Z.of_nat n = Z.max 0 len ->
     (exists i, 0 <= i < k
       /\ (forall j, 0 <= j < i -> elem src (so + j) = elem dest (do + j))
       /\ elem src (so + i) <> elem dest (do + i)
       /\ arrayCompare_loop n p src so dest do = Ok (if elem dest (do + i) <? elem src (so + i) then 1 else -1)) \/
     ((forall j, 0 <= j < k -> elem src (so + j) = elem dest (do + j))
      /\ arrayCompare_loop n p src so dest do = if k <? len then Err IndexError else Ok 0)).
  { induction n as [|n IH]; intros p Hp Heq Hpk Hn.
    - right. split; [intros; apply Heq; lia|]. cbn [arrayCompare_loop]. replace (k <? len) with false by lia. reflexivity.
    - destruct (Z.eq_dec p k) as [->|Npk].
      + right. split; [assumption|]. cbn [arrayCompare_loop]. replace (k <? len) with true by lia.
        destruct (Z.lt_ge_cases (so + k) (- zlen src)) as [B|B];
          [rewrite py_get_out by lia; reflexivity|].
        destruct (Z.lt_ge_cases (so + k) (zlen src)) as [B'|B'];
          [|rewrite py_get_out by lia; reflexivity].
        rewrite py_get_cell by lia. cbn [rbind].
        assert (Ho : do + k < - zlen dest \/ zlen dest <= do + k).
        { destruct (Z.min_spec (fit (zlen src) so len) (fit (zlen dest) do len)) as [[Q1 Q2]|[Q1 Q2]].
          - pose proof (fit_out (zlen src) so len ltac:(lia) (zlen_nonneg _)). lia.
          - pose proof (fit_out (zlen dest) do len ltac:(lia) (zlen_nonneg _)). lia. }
        rewrite py_get_out by lia. reflexivity.
      + pose proof (fit_in (zlen src) so len p ltac:(lia)) as I1. pose proof (fit_in (zlen dest) do len p ltac:(lia)) as I2.
        cbn [arrayCompare_loop]. rewrite !py_get_cell by lia. cbn [rbind].
        destruct (Z.eq_dec (elem src (so + p)) (elem dest (do + p))) as [E|E].
        * rewrite E, Z.ltb_irrefl. apply IH; [lia| |lia|lia].
          intros j Hj. destruct (Z.eq_dec j p) as [->|]; [assumption | apply Heq; lia].
        * left. exists p. split; [lia|]. split; [assumption|]. split; [assumption|].
          destruct (Z.ltb_spec (elem dest (do + p)) (elem src (so + p))); [reflexivity|].
          destruct (Z.ltb_spec (elem src (so + p)) (elem dest (do + p))); [reflexivity|]. lia. }
  specialize (G (Z.to_nat len) 0 ltac:(lia) ltac:(lia) ltac:(lia) ltac:(lia)).
  unfold arrayCompare. destruct G as [(i & Hi & A & B & E)|(A & E)]; rewrite E.
  - left. exists i. auto.
  - right. split; [assumption|]. destruct (k <? len); reflexivity.
Qed.

Lemma C08_short_partial_pf : forall off v (a : list Z),
  getShort a off = (if fit (zlen a) off 2 =? 2
                    then Ok (twos 2 (256 * elem a off + elem a (off + 1) mod 256))
                    else Err ArrayIndexOutOfBounds)
  /\ exists b, setShort off v a = (if fit (zlen a) off 2 =? 2 then Ok tt else Err ArrayIndexOutOfBounds, b)
     /\ after_writes (fun i => if i =? 0 then twos 1 (v / 256) else twos 1 v) off (fit (zlen a) off 2) a b.
Proof.
  intros off v a. pose proof (fit_le (zlen a) off 2) as HF. split.
  - unfold getShort. destruct (Z.eqb_spec (fit (zlen a) off 2) 2) as [E|E].
    + pose proof (fit_in (zlen a) off 2 0 ltac:(lia)). pose proof (fit_in (zlen a) off 2 1 ltac:(lia)).
      rewrite !py_get_cell by lia. cbn [rbind]. now rewrite makeShort_twos.
    + destruct (Z.eq_dec (fit (zlen a) off 2) 0) as [E0|E0].
      * pose proof (fit_out (zlen a) off 2 ltac:(lia) (zlen_nonneg _)) as O. rewrite E0, Z.add_0_r in O.
        rewrite py_get_out by lia. reflexivity.
      * pose proof (fit_out (zlen a) off 2 ltac:(lia) (zlen_nonneg _)) as O.
        pose proof (fit_in (zlen a) off 2 0 ltac:(lia)).
        rewrite py_get_cell by lia. cbn [rbind]. rewrite py_get_out by lia. reflexivity.
  - destruct (wr_loop_all (fun i => if i =? 0 then twos 1 (v / 256) else twos 1 v) off 2 a) as (b & E & W).
    exists b. split; [|assumption].
    change (Z.to_nat 2) with 2%nat in E. cbn [for_loop] in E. rewrite Z.add_0_r in E.
    change (0 =? 0) with true in E. change (0 + 1) with 1 in E. change (1 =? 0) with false in E.
    unfold setShort, catch_index. rewrite shiftr_ff00, land_255.
    destruct (s1_of_mod (v / 256)) as [_ ->]. destruct (s1_of_mod v) as [_ ->].
    unfold bind in *. destruct (aset off (twos 1 (v / 256)) a) as [[[]|e] a1].
    + destruct (aset (off + 1) (twos 1 v) a1) as [[[]|e] a2]; unfold ret in E.
      * destruct (Z.ltb_spec (fit (zlen a) off 2) 2); [discriminate|]. replace (_ =? 2) with true by lia. congruence.
      * destruct (Z.ltb_spec (fit (zlen a) off 2) 2); [|discriminate]. replace (_ =? 2) with false by lia.
        inversion E; reflexivity.
    + destruct (Z.ltb_spec (fit (zlen a) off 2) 2); [|discriminate]. replace (_ =? 2) with false by lia.
      inversion E; reflexivity.
Qed.

Lemma C75_any_partial_pf : forall rnd off n buf, n <> 0 ->
  exists b, generateData rnd off n buf = (if fit (zlen buf) off n <? n then Err NameError else Ok tt, b)
    /\ after_writes (fun i => rnd (Z.to_nat i)) off (fit (zlen buf) off n) buf b.
Proof.
  intros rnd off n buf Hn. destruct (wr_loop_all (fun i => rnd (Z.to_nat i)) off n buf) as (b & E & W).
  exists b. split; [|assumption]. unfold generateData. replace (n =? 0) with false by lia.
  unfold catch_index. rewrite for_range_0.
  assert (X : forall m i l, for_loop m i (generate_body rnd off) l
                = for_loop m i (fun i => aset (off + i) (rnd (Z.to_nat i))) l).
  { induction m as [|m IH]; intros i l; [reflexivity|]. cbn [for_loop]. unfold bind at 1, generate_body at 1, bind, get, lift, aset at 1, put.
    destruct (py_set l (off + i) (rnd (Z.to_nat i))); [apply IH | reflexivity]. }
  rewrite X, E. destruct (_ <? _); reflexivity.
Qed.

Lemma C97_any_partial_pf : forall offset memoryType buffer,
  exists b, getAvailableMemory3 offset memoryType (Some buffer)
            = (if fit (zlen buffer) offset 2 <? 2 then Err NameError else Ok tt, Some b)
    /\ after_writes (fun i => if i =? 0 then 127 else 255) offset (fit (zlen buffer) offset 2) buffer b.
Proof.
  intros off mt a. destruct (wr_loop_all (fun i => if i =? 0 then 127 else 255) off 2 a) as (b & E & W).
  exists b. split; [|assumption].
  change (Z.to_nat 2) with 2%nat in E. cbn [for_loop] in E. rewrite Z.add_0_r in E.
  change (0 =? 0) with true in E. change (0 + 1) with 1 in E. change (1 =? 0) with false in E.
  unfold getAvailableMemory3. unfold bind, aset in E.
  destruct (py_set a off 127) as [a1|e].
  - destruct (py_set a1 (off + 1) 255) as [a2|e]; unfold ret in E; destruct (_ <? _); inversion E; reflexivity.
  - destruct (_ <? _); inversion E; reflexivity.
Qed.

Lemma C74_update_partial_pf : forall inBuff io il s,
  digest_update inBuff io il s
  = if all_cells inBuff io il then (Ok tt, mkDigest (md_alg s) (md_fed s ++ named inBuff io il))
    else (Err NameError, s).
Proof.
  intros a off len s. unfold digest_update, bind, get, catch_index, collect, for_range.
  replace (off + len - off) with len by lia.
  assert (G : forall m i acc, 0 <= i -> i + Z.of_nat m <= fit (zlen a) off len ->
     for_loop m (off + i) (collect_body a) acc
     = (Ok tt, acc ++ map (fun j => elem a (off + j)) (map Z.of_nat (seq (Z.to_nat i) m)))).
  { induction m as [|m IH]; intros i acc Hi Hm; [cbn; now rewrite app_nil_r|].
    pose proof (fit_in (zlen a) off len i ltac:(lia)) as I.
    rewrite for_loop_S. erewrite bind_ok; [|unfold collect_body, bind, lift, get, put; rewrite py_get_cell by lia; reflexivity].
    replace (off + i + 1) with (off + (i + 1)) by lia. rewrite IH by lia. f_equal.
    cbn [seq map]. rewrite <- app_assoc. cbn [app]. replace (Z.to_nat (i + 1)) with (S (Z.to_nat i)) by lia.
    rewrite Z2Nat.id by lia. reflexivity. }
  pose proof (fit_le (zlen a) off len) as HF. unfold all_cells.
  destruct (Z.leb_spec len (fit (zlen a) off len)) as [Hl|Hl].
  - pose proof (G (Z.to_nat len) 0 [] ltac:(lia) ltac:(lia)) as E0. rewrite Z.add_0_r in E0. rewrite E0, s_tob. unfold put, named, steps.
    rewrite app_nil_l. change (Z.to_nat 0) with O. now rewrite !map_map.
  - set (k := fit (zlen a) off len) in *.
    replace (Z.to_nat len) with (Z.to_nat k + S (Z.to_nat (len - k - 1)))%nat by lia. rewrite for_loop_app.
    pose proof (G (Z.to_nat k) 0 [] ltac:(lia) ltac:(lia)) as E0. rewrite Z.add_0_r in E0. rewrite E0. cbn [for_loop]. unfold bind at 1.
    unfold collect_body at 1. unfold bind at 1, lift.
    pose proof (fit_out (zlen a) off len Hl (zlen_nonneg a)) as Ho. fold k in Ho.
    rewrite py_get_out by lia. reflexivity.
Qed.

Lemma out_loop g oo vs : forall i out,
  (forall t, (t < length vs)%nat -> g (i + Z.of_nat t) = s1 (nth t vs 0)) ->
  write_loop i vs oo out = for_loop (length vs) i (fun i => aset (oo + i) (g i)) out.
Proof.
  induction vs as [|v vs IH]; intros i out Hg; [reflexivity|].
  cbn [write_loop for_loop length]. unfold bind at 1, get, bind at 1, lift, bind at 1, put, bind, aset at 1.
  pose proof (Hg O ltac:(cbn; lia)) as G0. rewrite Z.add_0_r in G0. cbn [nth] in G0. rewrite G0.
  destruct (py_set out (oo + i) (s1 v)); [|reflexivity]. apply IH.
  intros t Ht. specialize (Hg (S t) ltac:(cbn; lia)). cbn [nth] in Hg. rewrite <- Hg. f_equal. lia.
Qed.

Lemma C73_any_offsets_pf : forall H alg s0 h inBuff io il out oo,
  (forall m, zlen (hl_digest H alg m) = hl_size H alg /\ Forall ubyte (hl_digest H alg m)) ->
  digest_getInstance H alg = Ok s0 ->
  let s := digest_run H h s0 in
  let d := hl_digest H alg (fed_any h ++ named inBuff io il) in
  let k := fit (zlen out) oo (hl_size H alg) in
  s = mkDigest alg (fed_any h)
  /\ (all_cells inBuff io il = false -> digest_doFinal H inBuff io il oo (s, out) = (Err NameError, (s, out)))
  /\ (all_cells inBuff io il = true ->
      exists b, digest_doFinal H inBuff io il oo (s, out)
        = (if k <? hl_size H alg then Err NameError else Ok (hl_size H alg), (s0, b))
        /\ after_writes (fun i => twos 1 (nth (Z.to_nat i) d 0)) oo k out b).
Proof.
  intros H alg s0 h inBuff io il out oo HH HI s d k.
  assert (I0 : s0 = mkDigest alg [] /\ known_digest alg = true /\ hl_avail H alg = true).
  { unfold digest_getInstance, digest_reset, bind, get in HI. cbn [md_alg] in HI.
    destruct (known_digest alg); [|discriminate]. destruct (hl_avail H alg); [|discriminate]. cbn in HI.
    split; [congruence|auto]. }
  destruct I0 as (-> & K1 & K2).
  assert (RS : forall f, digest_reset H (mkDigest alg f) = (Ok tt, mkDigest alg [])).
  { intros f. unfold digest_reset, bind, get. cbn [md_alg]. rewrite K1, K2. reflexivity. }
  assert (DF : forall f bi o l w ob, all_cells bi o l = true ->
     exists r b, digest_doFinal H bi o l w (mkDigest alg f, ob) = (r, (mkDigest alg [], b))).
  { intros f bi o l w ob Ha. unfold digest_doFinal. rewrite C74_update_partial_pf, Ha. cbn [md_alg md_fed].
    destruct (catch_index _ _ ob) as [[x|e] b]; rewrite RS; eauto. }
  assert (ST : forall f c, digest_call H (mkDigest alg f) c = mkDigest alg (fed_step f c)).
  { intros f [|b o l|b o l ob w]; cbn [digest_call fed_step].
    - now rewrite RS.
    - rewrite C74_update_partial_pf. destruct (all_cells b o l); reflexivity.
    - destruct (all_cells b o l) eqn:Ea.
      + destruct (DF f b o l w ob Ea) as (r & b' & ->). reflexivity.
      + unfold digest_doFinal. rewrite C74_update_partial_pf, Ea. reflexivity. }
  assert (SR : forall h f, digest_run H h (mkDigest alg f) = mkDigest alg (fold_left fed_step h f)).
  { intros h0. induction h0 as [|c h' IH]; intros f; [reflexivity|]. unfold digest_run in *. cbn [fold_left].
    rewrite ST. apply IH. }
  assert (Es : s = mkDigest alg (fed_any h)) by apply SR.
  split; [assumption|]. split.
  - intros Ea. unfold digest_doFinal. rewrite C74_update_partial_pf, Ea. reflexivity.
  - intros Ea. unfold digest_doFinal. rewrite Es, C74_update_partial_pf, Ea. cbn [md_alg md_fed]. fold d.
    destruct (HH (fed_any h ++ named inBuff io il)) as [HL HU]. fold d in HL, HU.
    unfold catch_index. rewrite (out_loop (fun i => twos 1 (nth (Z.to_nat i) d 0)) oo d).
    2:{ intros t Ht. rewrite Z.add_0_l, Nat2Z.id.
        rewrite Forall_forall in HU. specialize (HU (nth t d 0) (nth_In _ _ Ht)). unfold ubyte in HU.
        destruct (s1_of_mod (nth t d 0)) as [_ <-]. rewrite Z.mod_small by lia. reflexivity. }
    destruct (wr_loop_all (fun i => twos 1 (nth (Z.to_nat i) d 0)) oo (hl_size H alg) out) as (b & E & W).
    exists b. split; [|exact W]. fold k in E.
    replace (length d) with (Z.to_nat (hl_size H alg)) by (unfold zlen in HL; lia).
    rewrite E. 
    destruct (k <? hl_size H alg); rewrite RS; reflexivity.
Qed.

Lemma byte_of_s4 v k : In k [0; 8; 16; 24] -> s1 (Z.land (Z.shiftr (s4 v) k) 255) = twos 1 (v / 2 ^ k).
Proof.
  intros Hk. rewrite land_255. destruct (s1_of_mod (Z.shiftr (s4 v) k)) as [_ ->].
  rewrite Z.shiftr_div_pow2 by (cbn in Hk; lia).
  assert (E : exists q, s4 v = v + q * 4294967296).
  { unfold s4. rewrite signed_spec by lia. change (2 ^ (8 * 4)) with 4294967296.
    destruct (_ <=? v); [|exists 0; lia]. exists ((- v) / 4294967296). pose proof (Z.div_mod (- v) 4294967296). lia. }
  destruct E as [q ->]. apply twos_congr; [lia|]. change (2 ^ (8 * 1)) with 256.
  cbn in Hk. destruct Hk as [<-|[<-|[<-|[<-|[]]]]];
    [change (2 ^ 0) with 1 | change (2 ^ 8) with 256 | change (2 ^ 16) with 65536 | change (2 ^ 24) with 16777216]; lia.
Qed.

Lemma C38_setInt_any_partial_pf : forall off hi lo (a : list Z),
  exists b, setInt off hi lo a = (if fit (zlen a) off 4 =? 4 then Ok (off + 4) else Err IndexError, b)
    /\ after_writes (fun i => twos 1 ((65536 * hi + lo) / 256 ^ (3 - i))) off (fit (zlen a) off 4) a b.
Proof.
  intros off hi lo a. set (f := fun i => twos 1 ((65536 * hi + lo) / 256 ^ (3 - i))).
  pose proof (fit_le (zlen a) off 4) as HF.
  destruct (wr_loop_all f off 4 a) as (b & E & W).
  exists b. split; [|assumption].
  change (Z.to_nat 4) with 4%nat in E. cbn [for_loop] in E. rewrite Z.add_0_r in E.
  change (0 + 1) with 1 in E. change (1 + 1) with 2 in E. change (2 + 1) with 3 in E.
  unfold setInt. cbv zeta. unfold makeInt2. rewrite shiftl_mul by lia.
  replace (hi * 2 ^ 16 + lo) with (65536 * hi + lo) by (change (2 ^ 16) with 65536; lia).
  pose proof (byte_of_s4 (65536 * hi + lo) 0 ltac:(cbn; tauto)) as B0. rewrite Z.shiftr_0_r in B0.
  rewrite B0, !byte_of_s4 by (cbn; tauto).
  change (twos 1 ((65536 * hi + lo) / 2 ^ 24)) with (f 0). change (twos 1 ((65536 * hi + lo) / 2 ^ 16)) with (f 1).
  change (twos 1 ((65536 * hi + lo) / 2 ^ 8)) with (f 2). change (twos 1 ((65536 * hi + lo) / 2 ^ 0)) with (f 3).
  assert (X : forall (r : res unit), (if fit (zlen a) off 4 <? 4 then Err IndexError else Ok tt) = r ->
     (if fit (zlen a) off 4 =? 4 then Ok (off + 4) else Err IndexError) = match r with Ok _ => Ok (off + 4) | Err e => Err e end).
  { intros r <-. destruct (Z.ltb_spec (fit (zlen a) off 4) 4), (Z.eqb_spec (fit (zlen a) off 4) 4); try lia; reflexivity. }
  unfold bind in *. unfold ret in *.
  destruct (aset off (f 0) a) as [[[]|e] a1]; [|inversion E; subst; now rewrite (X (Err e)) by congruence].
  destruct (aset (off + 1) (f 1) a1) as [[[]|e] a2]; [|inversion E; subst; now rewrite (X (Err e)) by congruence].
  destruct (aset (off + 2) (f 2) a2) as [[[]|e] a3]; [|inversion E; subst; now rewrite (X (Err e)) by congruence].
  destruct (aset (off + 3) (f 3) a3) as [[[]|e] a4]; [|inversion E; subst; now rewrite (X (Err e)) by congruence].
  inversion E; subst; now rewrite (X (Ok tt)) by congruence.
Qed.

Lemma C38_getInt_any_partial_pf : forall (a : list Z) off,
  (fit (zlen a) off 4 < 4 -> getInt a off = Err IndexError)
  /\ (fit (zlen a) off 4 = 4 ->
      let e i := elem a (off + i) in
      (forall i, 0 <= i < 4 -> sbyte (e i)) ->
      getInt a off = Ok (16777216 * e 0 + 65536 * e 1 + 256 * e 2 + e 3)
      /\ (getInt a off = Ok (twos 4 (digits_value 256 [e 0 mod 256; e 1 mod 256; e 2 mod 256; e 3 mod 256]))
          <-> 0 <= e 1 /\ 0 <= e 2 /\ 0 <= e 3)).
Proof.
  intros a off. pose proof (fit_le (zlen a) off 4) as HF. split.
  - intros Hl. pose proof (fit_out (zlen a) off 4 Hl (zlen_nonneg _)) as O.
    unfold getInt. set (k := fit (zlen a) off 4) in *.
    assert (I : forall i, 0 <= i < k -> py_get a (off + i) = Ok (elem a (off + i))).
    { intros i Hi. apply py_get_cell. apply (fit_in (zlen a) off 4). exact Hi. }
    assert (Ck : k = 0 \/ k = 1 \/ k = 2 \/ k = 3) by lia. clear HF Hl.
    rewrite <- (Z.add_0_r off) at 1.
    destruct Ck as [E|[E|[E|E]]]; rewrite E in *; rewrite ?I by lia; cbn [rbind];
      rewrite (py_get_out a) by lia; reflexivity.
  - intros Hk e Hs.
    assert (I : forall i, 0 <= i < 4 -> py_get a (off + i) = Ok (e i)).
    { intros i Hi. apply py_get_cell. apply (fit_in (zlen a) off 4). lia. }
    assert (Q : getInt a off = Ok (16777216 * e 0 + 65536 * e 1 + 256 * e 2 + e 3)).
    { unfold getInt. rewrite <- (Z.add_0_r off) at 1. rewrite !I by lia. cbn [rbind]. rewrite !shiftl_mul by lia.
      pose proof (Hs 0 ltac:(lia)). pose proof (Hs 1 ltac:(lia)). pose proof (Hs 2 ltac:(lia)). pose proof (Hs 3 ltac:(lia)).
      unfold sbyte in *. change (2 ^ 24) with 16777216. change (2 ^ 16) with 65536. change (2 ^ 8) with 256.
      rewrite s4_small by lia. f_equal. lia. }
    split; [exact Q|]. rewrite Q.
    pose proof (Hs 0 ltac:(lia)) as B0. pose proof (Hs 1 ltac:(lia)) as B1. pose proof (Hs 2 ltac:(lia)) as B2. pose proof (Hs 3 ltac:(lia)) as B3.
    unfold sbyte in *. clear I Q Hs. generalize dependent (e 0). generalize dependent (e 1). generalize dependent (e 2). generalize dependent (e 3).
    clear. intros d Hd c Hc b Hb a Ha.
    set (X := digits_value 256 [a mod 256; b mod 256; c mod 256; d mod 256]).
    assert (EX : X = 16777216 * (a mod 256) + 65536 * (b mod 256) + 256 * (c mod 256) + d mod 256)
      by (unfold X; cbn [digits_value length]; change (256 ^ Z.of_nat 3) with 16777216; change (256 ^ Z.of_nat 2) with 65536; change (256 ^ Z.of_nat 1) with 256; change (256 ^ Z.of_nat 0) with 1; ring).
    unfold twos. change (2 ^ (8 * 4)) with 4294967296.
    clearbody X. rewrite (Z.mod_small X) by lia. destruct (Z.ltb_spec (2 * X) 4294967296); split.
    + intros E. assert (E' : 16777216 * a + 65536 * b + 256 * c + d = X) by congruence. lia.
    + intros (P1 & P2 & P3). f_equal. lia.
    + intros E. assert (E' : 16777216 * a + 65536 * b + 256 * c + d = X - 4294967296) by congruence. lia.
    + intros (P1 & P2 & P3). f_equal. lia.
Qed.
