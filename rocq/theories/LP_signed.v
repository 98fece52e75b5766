(** * Proofs of C132: signed and unsigned bytes: proofs *)
From Verif Require Import Py S_Base M_utils M_util S_System S_Key S_Signed L_Py L_util.
From Verif Require M_aid M_ownerpin M_bignumber M_jcint M_bertag M_bertlv M_apdu M_world M_des M_key M_cipher M_digest.
From Verif Require S_OwnerPIN LP_ownerpin.
From Coq Require Import Lia Bool.

(** ** Bytes *)
Lemma land_mod x m : 0 <= m < 256 -> Z.land (x mod 256) m = Z.land x m.
Proof.
  intros Hm. apply Z.bits_inj'. intros i Hi. rewrite !Z.land_spec. change 256 with (2 ^ 8).
  destruct (Z.lt_ge_cases i 8) as [L|G].
  - now rewrite Z.mod_pow2_bits_low by lia.
  - rewrite Z.mod_pow2_bits_high by lia. cbn [andb]. destruct (Z.eq_dec m 0) as [->|N]; [now rewrite Z.bits_0, andb_false_r|].
    rewrite (Z.bits_above_log2 m i), andb_false_r; [reflexivity|lia|]. assert (Z.log2 m < 8) by (apply Z.log2_lt_pow2; lia). lia.
Qed.
Lemma sb_land x y m : same_byte x y -> 0 <= m < 256 -> Z.land x m = Z.land y m.
Proof. intros [->|(_ & _ & E)] H; [reflexivity|]. rewrite <- (land_mod x m H), <- (land_mod y m H). now rewrite E. Qed.
Lemma sb_refl x : same_byte x x.
Proof. now left. Qed.
Lemma sb_zero x y : same_byte x y -> (x =? 0) = (y =? 0).
Proof. unfold same_byte, anybyte. intros [->|(A & B & E)]; [reflexivity|]. destruct (Z.eqb_spec x 0), (Z.eqb_spec y 0); try reflexivity; exfalso; Z.div_mod_to_equations; lia. Qed.
Lemma sbs_refl l : same_bytes l l.
Proof. induction l; constructor; [apply sb_refl|assumption]. Qed.
Lemma sbs_len a b : same_bytes a b -> zlen a = zlen b.
Proof. intros H. unfold zlen. f_equal. induction H; cbn; congruence. Qed.
Lemma sbs_app a a' b b' : same_bytes a a' -> same_bytes b b' -> same_bytes (a ++ b) (a' ++ b').
Proof. intros. now apply Forall2_app. Qed.
Lemma sbs_firstn n : forall a b, same_bytes a b -> same_bytes (firstn n a) (firstn n b).
Proof. induction n; intros a b H; [constructor|]. destruct H; cbn; constructor; [assumption|now apply IHn]. Qed.
Lemma sbs_skipn n : forall a b, same_bytes a b -> same_bytes (skipn n a) (skipn n b).
Proof. induction n; intros a b H; [exact H|]. destruct H; cbn; [constructor|now apply IHn]. Qed.
Lemma sbs_slice a b x y : same_bytes a b -> same_bytes (py_slice a x y) (py_slice b x y).
Proof. intros H. unfold py_slice. rewrite (sbs_len a b H). now apply sbs_firstn, sbs_skipn. Qed.
Lemma sbs_slice_from a b x : same_bytes a b -> same_bytes (py_slice_from a x) (py_slice_from b x).
Proof. intros H. unfold py_slice_from. rewrite (sbs_len a b H). now apply sbs_skipn. Qed.
Lemma sbs_slice_set a b x y v w : same_bytes a b -> same_bytes v w -> same_bytes (py_slice_set a x y v) (py_slice_set b x y w).
Proof. intros H K. unfold py_slice_set. rewrite (sbs_len a b H). apply sbs_app; [now apply sbs_firstn|]. apply sbs_app; [exact K|now apply sbs_skipn]. Qed.
Lemma sbs_rev a b : same_bytes a b -> same_bytes (rev a) (rev b).
Proof. induction 1; cbn; [constructor|]. apply sbs_app; [assumption|]. constructor; [assumption|constructor]. Qed.
Lemma sbs_upd a b x y : same_bytes a b -> same_byte x y -> forall k, same_bytes (list_upd a k x) (list_upd b k y).
Proof. intros H E. induction H as [|u v a b U H IH]; intros k; [constructor|]. destruct k as [|k]; cbn [list_upd]; constructor; [exact E|exact H|exact U|apply IH]. Qed.
Lemma sbs_nth a b k : same_bytes a b -> match nth_error a k, nth_error b k with Some x, Some y => same_byte x y | None, None => True | _, _ => False end.
Proof. intros H. revert k. induction H as [|u v a b U H IH]; intros [|k]; cbn; auto. apply IH. Qed.
Lemma sbs_get a b i : same_bytes a b -> same_res same_byte (py_get a i) (py_get b i).
Proof.
  intros H. unfold py_get. rewrite (sbs_len a b H). destruct (py_index (zlen b) i) as [k|]; [|reflexivity].
  pose proof (sbs_nth a b k H) as N. destruct (nth_error a k), (nth_error b k); cbn; easy.
Qed.
Lemma sbs_set a b i x y : same_bytes a b -> same_byte x y -> same_res same_bytes (py_set a i x) (py_set b i y).
Proof. intros H E. unfold py_set. rewrite (sbs_len a b H). destruct (py_index (zlen b) i) as [k|]; cbn; [now apply sbs_upd|reflexivity]. Qed.
Lemma sbs_binary a b : same_bytes a b -> M_key.arrayTobinary a = M_key.arrayTobinary b.
Proof. unfold M_key.arrayTobinary. induction 1 as [|x y a b E H IH]; cbn [map]; [reflexivity|]. rewrite IH. f_equal. apply sb_land; [exact E|lia]. Qed.

(** ** Calls *)
Definition relM {S A} (RS : S -> S -> Prop) (RA : A -> A -> Prop) (m m' : M S A) : Prop := forall s s', RS s s' -> same_call RS RA (m s) (m' s').
Lemma rel_ret {S A} (RS : S -> S -> Prop) (RA : A -> A -> Prop) a a' : RA a a' -> relM RS RA (ret a) (ret a').
Proof. intros H s s' K. now split. Qed.
Lemma rel_raise {S A} (RS : S -> S -> Prop) (RA : A -> A -> Prop) e : relM RS RA (raise e) (raise e).
Proof. intros s s' K. now split. Qed.
Lemma rel_lift {S A} (RS : S -> S -> Prop) (RA : A -> A -> Prop) r r' : same_res RA r r' -> relM RS RA (lift r) (lift r').
Proof. intros H s s' K. now split. Qed.
Lemma rel_get {S} (RS : S -> S -> Prop) : relM RS RS get get.
Proof. intros s s' K. now split. Qed.
Lemma rel_put {S} (RS : S -> S -> Prop) x y : RS x y -> relM RS eq (put x) (put y).
Proof. intros H s s' K. now split. Qed.
Lemma rel_bind {S A B} (RS : S -> S -> Prop) (RA : A -> A -> Prop) (RB : B -> B -> Prop) (m m' : M S A) (f f' : A -> M S B) :
  relM RS RA m m' -> (forall a a', RA a a' -> relM RS RB (f a) (f' a')) -> relM RS RB (bind m f) (bind m' f').
Proof.
  intros Hm Hf s s' K. destruct (Hm s s' K) as [H1 H2]. unfold bind. destruct (m s) as [[a|e] t], (m' s') as [[a'|e'] t']; cbn [fst snd same_res] in *; try easy.
  now apply Hf.
Qed.
Lemma rel_seq {S A B} (RS : S -> S -> Prop) (RA : A -> A -> Prop) (RB : B -> B -> Prop) (m m' : M S A) (k k' : M S B) :
  relM RS RA m m' -> relM RS RB k k' -> relM RS RB (bind m (fun _ => k)) (bind m' (fun _ => k')).
Proof. intros Hm Hk. eapply rel_bind; [exact Hm|]. intros _ _ _. exact Hk. Qed.
Lemma rel_catch {S A} (RS : S -> S -> Prop) (RA : A -> A -> Prop) (m m' : M S A) e : relM RS RA m m' -> relM RS RA (catch_index m e) (catch_index m' e).
Proof.
  intros Hm s s' K. destruct (Hm s s' K) as [H1 H2]. unfold catch_index. destruct (m s) as [[a|x] t], (m' s') as [[a'|x'] t']; cbn [fst snd same_res] in *; try easy.
  subst x'. destruct x; now split.
Qed.
Lemma rel_for_loop {S} (RS : S -> S -> Prop) (f g : Z -> M S unit) : (forall i, relM RS eq (f i) (g i)) -> forall n i, relM RS eq (for_loop n i f) (for_loop n i g).
Proof. intros H. induction n as [|n IH]; intros i; cbn [for_loop]; [now apply rel_ret|]. eapply rel_seq; [apply H|apply IH]. Qed.
Lemma rel_for {S} (RS : S -> S -> Prop) (f g : Z -> M S unit) a b : (forall i, relM RS eq (f i) (g i)) -> relM RS eq (for_range a b f) (for_range a b g).
Proof. intros H. now apply rel_for_loop. Qed.
Lemma rel_aset i x y : same_byte x y -> relM same_bytes eq (aset i x) (aset i y).
Proof.
  intros E s s' K. unfold aset. pose proof (sbs_set s s' i x y K E) as H. destruct (py_set s i x), (py_set s' i y); cbn [same_res] in H; try easy; split; cbn; auto.
Qed.
Lemma same_rbind {A B} (R : A -> A -> Prop) (R' : B -> B -> Prop) r r' f f' : same_res R r r' -> (forall a a', R a a' -> same_res R' (f a) (f' a')) -> same_res R' (rbind r f) (rbind r' f').
Proof. intros H K. destruct r, r'; cbn in *; try easy. now apply K. Qed.
Lemma same_eq {A} (r r' : res A) : same_res eq r r' -> r = r'.
Proof. destruct r, r'; cbn; intros H; try contradiction; now subst. Qed.
Lemma same_refl {A} (R : A -> A -> Prop) (r : res A) : (forall a, R a a) -> same_res R r r.
Proof. intros H. destruct r; cbn; auto. Qed.
Lemma call_eq {S A} (x y : res A * S) : same_call eq eq x y -> x = y.
Proof. intros [H1 H2]. apply same_eq in H1. destruct x, y. cbn in *. now subst. Qed.
Lemma rel_eq {S A} (m m' : M S A) : relM eq eq m m' -> forall s, m s = m' s.
Proof. intros H s. apply call_eq. now apply H. Qed.
Lemma rel_refl {S A} (m : M S A) : relM eq eq m m.
Proof. intros s s' ->. split; [now apply same_refl|reflexivity]. Qed.

(** ** Util *)
Lemma makeShort_same x y u v : same_byte x y -> same_byte u v -> makeShort x u = makeShort y v.
Proof.
  intros H K. unfold makeShort. assert (E : forall z, Z.land (Z.shiftl z 8) 65280 = Z.shiftl (Z.land z 255) 8) by (intros z; now rewrite Z.shiftl_land).
  rewrite !E, (sb_land x y 255 H), (sb_land u v 255 K) by lia. reflexivity.
Qed.
Lemma rel_hset l i x y : same_byte x y -> relM same_heap eq (hset_at l i x) (hset_at l i y).
Proof.
  intros E h h' K. unfold hset_at. pose proof (sbs_set (h l) (h' l) i x y (K l) E) as H.
  destruct (py_set (h l) i x), (py_set (h' l) i y); cbn [same_res] in H; try easy; split; cbn; auto.
  intros k. unfold hset. destruct (Nat.eqb k l); [exact H|apply K].
Qed.
Lemma rel_hget l i : relM same_heap same_byte (hget_at l i) (hget_at l i).
Proof. intros h h' K. split; [now apply sbs_get|exact K]. Qed.
Lemma rel_copy_loop src so dest do len : relM same_heap eq (copy_loop src so dest do len) (copy_loop src so dest do len).
Proof. apply rel_for. intros i. eapply rel_bind; [apply rel_hget|]. intros a a' E. now apply rel_hset. Qed.
Lemma arrayCopy_catch src so dest do len h : arrayCopy src so dest do len h = catch_index (copy_loop src so dest do len) ArrayIndexOutOfBounds h.
Proof.
  unfold arrayCopy, catch_index, bind, beginTransaction, commitTransaction, abortTransaction, ret, raise.
  destruct (copy_loop src so dest do len h) as [[[]|e] h']; [reflexivity|]. now destruct e.
Qed.
Lemma rel_arrayCopy src so dest do len : relM same_heap eq (arrayCopy src so dest do len) (arrayCopy src so dest do len).
Proof. intros h h' K. rewrite !arrayCopy_catch. revert h h' K. apply rel_catch, rel_copy_loop. Qed.
Lemma rel_into src src' so do len : same_bytes src src' -> relM same_bytes eq (arrayCopy_into src so do len) (arrayCopy_into src' so do len).
Proof.
  intros H d d' K. unfold arrayCopy_into.
  assert (G : same_heap (fun k : loc => match k with O => src | _ => d end) (fun k : loc => match k with O => src' | _ => d' end)) by (intros [|k]; assumption).
  pose proof (rel_arrayCopy 0%nat so 1%nat do len _ _ G) as [H1 H2].
  destruct (arrayCopy 0%nat so 1%nat do len _) as [r h], (arrayCopy 0%nat so 1%nat do len _) as [r' h']. cbn [fst snd] in *. split; [exact H1|apply H2].
Qed.
Lemma rel_fill off len v v' : same_byte v v' -> relM same_bytes eq (arrayFillNonAtomic off len v) (arrayFillNonAtomic off len v').
Proof. intros E. apply rel_catch, rel_for. intros i. now apply rel_aset. Qed.
Lemma getShort_same a a' off : same_bytes a a' -> getShort a off = getShort a' off.
Proof.
  intros H. unfold getShort.
  assert (E : (let? x := py_get a off in let? y := py_get a (off + 1) in Ok (makeShort x y)) = (let? x := py_get a' off in let? y := py_get a' (off + 1) in Ok (makeShort x y))).
  { apply same_eq. eapply same_rbind; [apply sbs_get; exact H|]. intros x x' X. eapply same_rbind; [apply sbs_get; exact H|]. intros y y' Y. cbn. now apply makeShort_same. }
  now rewrite E.
Qed.
Lemma rel_setShort off v : relM same_bytes eq (setShort off v) (setShort off v).
Proof.
  unfold setShort. apply rel_catch. eapply rel_seq; apply rel_aset, sb_refl.
Qed.

Lemma C132_util_partial_pf : forall a a' h h' off v v' len src so dest do_ b, same_bytes a a' -> same_heap h h' -> same_byte v v' ->
  getShort a off = getShort a' off
  /\ makeShort v b = makeShort v' b
  /\ same_call same_bytes eq (setShort off b a) (setShort off b a')
  /\ same_call same_bytes eq (arrayFillNonAtomic off len v a) (arrayFillNonAtomic off len v' a')
  /\ same_call same_heap eq (arrayCopy src so dest do_ len h) (arrayCopy src so dest do_ len h')
  /\ same_call same_heap eq (arrayCopyNonAtomic src so dest do_ len h) (arrayCopyNonAtomic src so dest do_ len h').
Proof.
  intros a a' h h' off v v' len src so dest do_ b Ha Hh Hv. split; [now apply getShort_same|]. split.
  { unfold makeShort. assert (E : forall z, Z.land (Z.shiftl z 8) 65280 = Z.shiftl (Z.land z 255) 8) by (intros z; now rewrite Z.shiftl_land).
    now rewrite !E, (sb_land v v' 255 Hv) by lia. }
  split; [now apply rel_setShort|]. split; [now apply rel_fill|]. split; [now apply rel_arrayCopy|]. now apply rel_catch; [apply rel_copy_loop|].
Qed.

(** ** AID *)

Lemma C132_aid_partial_pf : forall a a' d d' off len, same_bytes a a' -> same_bytes d d' ->
  same_res same_bytes (M_aid.newAID a off len) (M_aid.newAID a' off len)
  /\ same_call same_bytes eq (M_aid.getBytes a off d) (M_aid.getBytes a' off d').
Proof.
  intros a a' d d' off len Ha Hd. split.
  - unfold M_aid.newAID. rewrite (sbs_len a a' Ha). destruct ((len <? 5) || (16 <? len)); [reflexivity|].
    destruct (zlen a' <? off + len); [reflexivity|]. now apply sbs_slice.
  - unfold M_aid.getBytes. rewrite (sbs_len a a' Ha), (sbs_len d d' Hd). destruct (zlen d' <? off + zlen a'); split; cbn; auto.
    now apply sbs_slice_set.
Qed.

Lemma sub_of {A} (l : list A) n : (n <= length l)%nat -> sub l 0 n = firstn n l.
Proof. reflexivity. Qed.

Lemma C132_aid_refuted_pf : forall a a', same_bytes a a' ->
  (M_aid.aid_eq a a' = true <-> a = a') /\ (M_aid.equals a a' 0 (zlen a') = Ok true <-> a = a')
  /\ (M_aid.RIDEquals a a' = true <-> py_slice a 0 5 = py_slice a' 0 5).
Proof.
  intros a a' H. split; [apply list_eqb_eq|]. split; [|apply list_eqb_eq]. unfold M_aid.equals. rewrite Z.add_0_l, Z.ltb_irrefl.
  assert (E : py_slice a' 0 (zlen a') = a').
  { rewrite py_slice_in by (pose proof (zlen_nonneg a'); lia). apply sub_full. rewrite Z.sub_0_r, to_nat_zlen. lia. }
  rewrite E. destruct (list_eqb a a') eqn:L.
  - apply list_eqb_eq in L. now split.
  - apply list_eqb_neq in L. split; [discriminate|]. intros ->. now destruct L.
Qed.

(** ** arrayCompare *)
Lemma compare_loop_same : forall n i a a', same_bytes a a' -> 0 <= i -> (Z.to_nat i + n = length a)%nat -> skipn (Z.to_nat i) a <> skipn (Z.to_nat i) a' ->
  arrayCompare_loop n i a 0 a' 0 = Ok 1 \/ arrayCompare_loop n i a 0 a' 0 = Ok (-1).
Proof.
  induction n as [|n IH]; intros i a a' H Hi L N.
  - exfalso. apply N. pose proof (sbs_len a a' H) as E. unfold zlen in E. rewrite !skipn_all2 by lia. reflexivity.
  - cbn [arrayCompare_loop]. pose proof (sbs_len a a' H) as E. rewrite !Z.add_0_l.
    rewrite (py_get_in a i 0), (py_get_in a' i 0) by (unfold zlen in *; lia). cbn [rbind].
    destruct (nth (Z.to_nat i) a' 0 <? nth (Z.to_nat i) a 0) eqn:B1; [now left|]. destruct (nth (Z.to_nat i) a 0 <? nth (Z.to_nat i) a' 0) eqn:B2; [now right|].
    apply Z.ltb_ge in B1, B2. apply IH; [exact H|lia| |].
    + replace (Z.to_nat (i + 1)) with (S (Z.to_nat i)) by lia. lia.
    + replace (Z.to_nat (i + 1)) with (S (Z.to_nat i)) by lia. intros K. apply N.
      assert (La : (Z.to_nat i < length a)%nat) by lia. assert (La' : (Z.to_nat i < length a')%nat) by (unfold zlen in E; lia).
      rewrite (skipn_nth a _ 0 La), (skipn_nth a' _ 0 La'). rewrite K. f_equal. lia.
Qed.

Lemma C132_compare_refuted_pf : forall a a', same_bytes a a' -> a <> a' ->
  arrayCompare a 0 a' 0 (zlen a) = Ok 1 \/ arrayCompare a 0 a' 0 (zlen a) = Ok (-1).
Proof.
  intros a a' H N. unfold arrayCompare. rewrite to_nat_zlen.
  destruct (compare_loop_same (length a) 0 a a' H) as [E|E]; [lia|reflexivity|exact N|rewrite E; now left|rewrite E; now right].
Qed.

(** ** OwnerPIN *)

Lemma C132_pin_refuted_pf : forall s p p' ops, let max := M_ownerpin.maxpinsize s in
  zlen (M_ownerpin.thepin s) = max -> zlen p = max -> same_bytes p p' -> p <> p' ->
  forallb (fun o => negb (S_OwnerPIN.is_update o)) ops = true ->
  let s2 := snd (M_ownerpin.pin_run ops (snd (M_ownerpin.update (M_ownerpin.PArr p) 0 max s))) in
  0 < M_ownerpin.triesremaining s2 -> fst (M_ownerpin.check (M_ownerpin.PArr p') 0 max s2) = Ok false.
Proof.
  intros s p p' ops max Hs Hp H N Ho s2 Ht. pose proof (sbs_len p p' H) as E.
  assert (P1 : S_OwnerPIN.proper max (M_ownerpin.PArr p) 0 max) by (unfold S_OwnerPIN.proper; cbn [M_ownerpin.pin_cells]; pose proof (zlen_nonneg p); lia).
  assert (P2 : S_OwnerPIN.proper max (M_ownerpin.PArr p') 0 max) by (unfold S_OwnerPIN.proper; cbn [M_ownerpin.pin_cells]; pose proof (zlen_nonneg p); lia).
  pose proof (LP_ownerpin.C14_check_full_length_partial_pf s p 0 ops p' 0 Hs P1 P2 Ho Ht) as C.
  destruct (LP_ownerpin.C14_check_exact_partial_pf s (M_ownerpin.PArr p) 0 max ops (M_ownerpin.PArr p') 0 max Hs P1 P2 Ho Ht) as (_ & _ & [D|D]); [|exact D].
  exfalso. apply N. apply C in D. rewrite !sub_full in D; [exact D| |]; fold max; rewrite <- ?Hp; rewrite ?to_nat_zlen; unfold zlen in *; lia.
Qed.

(** ** JCint *)

Lemma C132_int_refuted_pf : forall b0 b1 b2 b3, 0 <= b0 <= 127 -> ubyte b1 -> ubyte b2 -> 128 <= b3 <= 255 ->
  exists v, M_jcint.getInt [b0; b1; b2; b3] 0 = Ok v /\ M_jcint.getInt [b0; b1; b2; b3 - 256] 0 = Ok (v - 256).
Proof.
  intros b0 b1 b2 b3 H0 H1 H2 H3. unfold ubyte in *. exists (2 ^ 24 * b0 + 2 ^ 16 * b1 + 2 ^ 8 * b2 + b3).
  assert (S : forall v, v <= 2147483647 -> s4 v = v).
  { intros v Hv. unfold s4, signed. change (Z.shiftl 1 (4 * 8 - 1) - 1) with 2147483647. destruct (2147483647 <? v) eqn:E; [apply Z.ltb_lt in E; lia|reflexivity]. }
  assert (G : forall a b c d, M_jcint.getInt [a; b; c; d] 0 = Ok (s4 (Z.shiftl a 24 + Z.shiftl b 16 + Z.shiftl c 8 + d))) by reflexivity.
  rewrite !G, !Z.shiftl_mul_pow2 by lia.
  change (2 ^ 24) with 16777216. change (2 ^ 16) with 65536. change (2 ^ 8) with 256. rewrite !S by lia. split; f_equal; ring.
Qed.

(** ** BigNumber *)
Lemma operand_bytes f x y : same_byte x y -> f = M_bignumber.from_bcd \/ f = M_bignumber.from_hex -> f x = f y.
Proof. intros H [->| ->]; unfold M_bignumber.from_bcd, M_bignumber.from_hex; now rewrite (sb_land x y 255 H) by lia. Qed.
Lemma rel_big_init a a' off len fmt : same_opt same_bytes a a' -> relM eq eq (M_bignumber.init a off len fmt) (M_bignumber.init a' off len fmt).
Proof.
  intros H. unfold M_bignumber.init. destruct (len =? 0); [apply rel_raise|]. destruct a as [a|], a' as [a'|]; cbn [same_opt] in H; try contradiction; [|apply rel_raise].
  destruct (fmt =? M_bignumber.FORMAT_BCD); [|destruct (fmt =? M_bignumber.FORMAT_HEX); [|apply rel_raise]];
    (eapply rel_seq; [apply rel_refl|]; apply rel_for; intros i; eapply rel_bind; [apply rel_refl|]; intros v v' ->; eapply rel_seq; [apply rel_refl|];
     eapply rel_bind; [apply rel_refl|]; intros w w' ->; eapply rel_bind; [apply rel_lift, sbs_get; exact H|]; intros x x' X).
  - rewrite (operand_bytes M_bignumber.from_bcd x x' X) by now left. apply rel_refl.
  - rewrite (operand_bytes M_bignumber.from_hex x x' X) by now right. apply rel_refl.
Qed.
Lemma operand_same a a' off len fmt : same_opt same_bytes a a' -> M_bignumber.operand a off len fmt = M_bignumber.operand a' off len fmt.
Proof. intros H. unfold M_bignumber.operand. now rewrite (rel_eq _ _ (rel_big_init a a' off len fmt H)). Qed.
Lemma big_step_same o o' s : same_big_op o o' -> M_bignumber.big_step o s = M_bignumber.big_step o' s.
Proof.
  destruct o, o'; cbn [same_big_op]; try contradiction; intros [H E]; assert (E1 := f_equal (fun q => fst (fst q)) E); assert (E2 := f_equal (fun q => snd (fst q)) E); assert (E3 := f_equal snd E);
    cbn [fst snd] in E1, E2, E3; subst; cbn [M_bignumber.big_step].
  - exact (rel_eq _ _ (rel_big_init _ _ _ _ _ H) s).
  - unfold M_bignumber.add. now rewrite (operand_same _ _ _ _ _ H).
  - unfold M_bignumber.subtract. now rewrite (operand_same _ _ _ _ _ H).
  - unfold M_bignumber.multiply. now rewrite (operand_same _ _ _ _ _ H).
Qed.

Lemma C132_big_partial_pf : forall ops ops' s a a' off len fmt out out', Forall2 same_big_op ops ops' -> same_opt same_bytes a a' -> same_bytes out out' ->
  M_bignumber.big_seq ops s = M_bignumber.big_seq ops' s
  /\ M_bignumber.compareTo s a off len fmt = M_bignumber.compareTo s a' off len fmt
  /\ same_call same_bytes eq (M_bignumber.toBytes s off len fmt out) (M_bignumber.toBytes s off len fmt out').
Proof.
  intros ops ops' s a a' off len fmt out out' H Ha Ho. split; [|split].
  - revert s. induction H as [|o o' l l' E H IH]; intros s; cbn [M_bignumber.big_seq]; [reflexivity|].
    unfold bind. rewrite (big_step_same o o' s E). destruct (M_bignumber.big_step o' s) as [[[]|e] t]; [apply IH|reflexivity].
  - unfold M_bignumber.compareTo. now rewrite (operand_same a a' off len fmt Ha).
  - unfold M_bignumber.toBytes. cbv zeta. match goal with |- context [match ?d with Ok _ => _ | Err _ => _ end] => destruct d as [ds|e] end; [|now split].
    destruct (len <? zlen ds); [now split|]. apply rel_into; [apply sbs_refl|exact Ho].
Qed.

(** ** APDU *)
Lemma same_apdu_mk r r' b b' o x k c t n e l u v : same_bytes r r' -> same_bytes b b' ->
  same_apdu (M_apdu.mkAPDU r b o x k c t n e l u v) (M_apdu.mkAPDU r' b' o x k c t n e l u v).
Proof. intros H K. now repeat split. Qed.
Lemma same_apdu_inv s s' : same_apdu s s' -> exists r r' b b' o x k c t n e l u v, s = M_apdu.mkAPDU r b o x k c t n e l u v
  /\ s' = M_apdu.mkAPDU r' b' o x k c t n e l u v /\ same_bytes r r' /\ same_bytes b b'.
Proof.
  intros (H & K & E). destruct s as [r b o x k c t n e l u v], s' as [r' b' o' x' k' c' t' n' e' l' u' v']. cbn in *.
  repeat (apply pair_equal_spec in E; destruct E as [E ?]). subst. repeat eexists; assumption.
Qed.
Lemma rel_cells b b' a n : same_bytes b b' -> relM same_bytes eq (M_apdu.copy_cells b a n) (M_apdu.copy_cells b' a n).
Proof. intros H. apply rel_for. intros i. eapply rel_bind; [apply rel_lift, sbs_get; exact H|]. intros x x' X. now apply rel_aset. Qed.
Lemma getInLengths_same b b' : same_bytes b b' -> M_apdu.getInLengths b = M_apdu.getInLengths b'.
Proof.
  intros H. apply same_eq. unfold M_apdu.getInLengths. eapply same_rbind; [apply sbs_get; exact H|]. intros x x' X. rewrite (sb_zero x x' X).
  destruct (x' =? 0).
  - eapply same_rbind; [apply sbs_get; exact H|]. intros y y' Y. eapply same_rbind; [apply sbs_get; exact H|]. intros z z' Z0. cbn. unfold u1.
    now rewrite (sb_land y y' 255 Y), (sb_land z z' 255 Z0) by lia.
  - cbn. unfold u1. now rewrite (sb_land x x' 255 X) by lia.
Qed.
Lemma getOutLengths_same b b' n : same_bytes b b' -> M_apdu.getOutLengths b n = M_apdu.getOutLengths b' n.
Proof.
  intros H. apply same_eq. unfold M_apdu.getOutLengths. eapply same_rbind; [apply sbs_get; exact H|]. intros x x' X. rewrite (sb_zero x x' X). unfold u1.
  destruct (x' =? 0); destruct (negb (n - 1 =? M_apdu.OFFSET_LC)); try (cbn; now rewrite ?(sb_land x x' 255 X) by lia).
  - eapply same_rbind; [apply sbs_get; exact H|]. intros y y' Y. rewrite (sb_zero y y' Y). destruct (y' =? 0); [|reflexivity].
    eapply same_rbind; [apply sbs_get; exact H|]. intros z z' Z0. rewrite (sb_zero z z' Z0). now destruct (z' =? 0).
  - eapply same_rbind; [apply sbs_get; exact H|]. intros y y' Y. rewrite (sb_zero y y' Y). destruct (y' =? 0).
    + eapply same_rbind; [apply sbs_get; exact H|]. intros z z' Z0. cbn. now rewrite (sb_land x x' 255 X), (sb_land z z' 255 Z0) by lia.
    + cbn. now rewrite (sb_land x x' 255 X) by lia.
Qed.
(** whether the command is of case 3, apdu.py:97-98 *)
Lemma is_type3_same b b' : same_bytes b b' -> 5 <= zlen b -> M_apdu.is_type3 b = M_apdu.is_type3 b'.
Proof.
  intros H L. apply same_eq. unfold M_apdu.is_type3. rewrite (getInLengths_same b b' H), <- (sbs_len b b' H).
  pose proof (sbs_get b b' 4 H) as G. pose proof (getInLengths_same b b' H) as I0. 
  destruct (py_get b 4) as [x|e] eqn:Gx, (py_get b' 4) as [x'|e'] eqn:Gx'; cbn [same_res] in G; try contradiction; [|now subst].
  cbn [rbind]. destruct G as [->|(A & B & E)]; [apply same_refl; auto|]. unfold anybyte in *.
  assert (Q : forall y, -128 <= y <= 255 -> y mod 256 = x' mod 256 -> y <> 0 -> (zlen b =? y + 5) = true -> y = x' mod 256).
  { intros y Hy Hm Hn T. apply Z.eqb_eq in T. assert (0 <= y) by lia. rewrite <- Hm. symmetry. apply Z.mod_small. lia. }
  assert (U : u1 x' = x' mod 256) by (unfold u1; change 255 with (Z.ones 8); now rewrite Z.land_ones by lia).
  assert (Z0 := sb_zero x x' (or_intror (conj A (conj B E)))).
  destruct (x' =? 0) eqn:X0.
  { apply Z.eqb_eq in X0. apply Z.eqb_eq in Z0. subst. apply same_refl; auto. }
  assert (In : M_apdu.getInLengths b' = Ok (u1 x', 1)) by (unfold M_apdu.getInLengths, M_apdu.OFFSET_LC; rewrite Gx'; cbn [rbind]; now rewrite X0).
  rewrite In. cbn [rbind fst]. apply Z.eqb_neq in X0, Z0.
  destruct (zlen b =? x + 5) eqn:T1; [assert (Q1 := Q x A E Z0 T1)|]; destruct (zlen b =? x' + 5) eqn:T2; [reflexivity| |assert (Q2 := Q x' B eq_refl X0 T2)|reflexivity]; cbn.
  - apply Z.eqb_eq in T1. symmetry. apply Z.eqb_eq. rewrite U. lia.
  - apply Z.eqb_eq in T2. apply Z.eqb_eq. rewrite U. lia.
Qed.
Lemma newAPDU_same b b' : same_bytes b b' -> same_res same_apdu (M_apdu.newAPDU b) (M_apdu.newAPDU b').
Proof.
  intros H. unfold M_apdu.newAPDU. rewrite <- (sbs_len b b' H). destruct (zlen b <? 4) eqn:L4; [reflexivity|]. apply Z.ltb_ge in L4.
  pose proof (rel_cells b b' 0 4 H _ _ (sbs_refl (py_repeat 0 (255 + 2)))) as [C1 C2].
  destruct (M_apdu.copy_cells b 0 4 _) as [[[]|e] b4], (M_apdu.copy_cells b' 0 4 _) as [[[]|e'] b4']; cbn [fst snd same_res] in C1, C2; try contradiction; [|now subst].
  eapply (same_rbind eq).
  { destruct (4 <? zlen b); [|reflexivity]. eapply same_rbind; [apply sbs_get; exact H|]. intros x x' X. cbn. now rewrite (sb_zero x x' X). }
  intros P3 ? <-. pose proof (rel_cells b b' M_apdu.OFFSET_LC P3 H _ _ C2) as [D1 D2].
  destruct (M_apdu.copy_cells b M_apdu.OFFSET_LC P3 b4) as [[[]|e] bP], (M_apdu.copy_cells b' M_apdu.OFFSET_LC P3 b4') as [[[]|e'] bP']; cbn [fst snd same_res] in D1, D2; try contradiction; [|now subst].
  cbv zeta. destruct (zlen b =? 4) eqn:E4; [now apply same_apdu_mk|]. apply Z.eqb_neq in E4.
  eapply same_rbind; [apply sbs_get; exact H|]. intros x x' X. rewrite (sb_zero x x' X).
  destruct ((zlen b =? 5) || ((x' =? 0) && (zlen b =? 7))).
  - rewrite (getOutLengths_same b b' _ H). eapply (same_rbind eq); [now apply same_refl|]. intros ol ? <-. now apply same_apdu_mk.
  - rewrite (is_type3_same b b' H) by lia. eapply (same_rbind eq); [now apply same_refl|]. intros t3 ? <-.
    rewrite (getInLengths_same b b' H), (getOutLengths_same b b' _ H).
    destruct t3; (eapply (same_rbind eq); [now apply same_refl|]; intros il ? <-); [now apply same_apdu_mk|].
    eapply (same_rbind eq); [now apply same_refl|]. intros ol ? <-. now apply same_apdu_mk.
Qed.
Lemma rel_receive o : relM same_apdu eq (M_apdu.receive_block o) (M_apdu.receive_block o).
Proof.
  intros s s' H. apply same_apdu_inv in H as (r & r' & b & b' & oi & x & k & c & t & n & e & l & u & v & -> & -> & Hr & Hb).
  unfold M_apdu.receive_block. cbn [M_apdu.raw M_apdu.buf M_apdu.offin M_apdu.lelength]. cbv zeta. rewrite <- (sbs_len r r' Hr).
  pose proof (rel_for same_bytes (fun i => w <- lift (py_get r (oi + i)) ;; aset (o + i) w) (fun i => w <- lift (py_get r' (oi + i)) ;; aset (o + i) w)
    0 (Z.min M_apdu.IN_BLOCKSIZE (zlen r - oi - l))) as F.
  destruct (F ltac:(intros i; eapply rel_bind; [apply rel_lift, sbs_get; exact Hr|]; intros y y' Y; now apply rel_aset) b b' Hb) as [F1 F2].
  destruct (for_range 0 _ _ b) as [[[]|e1] t1], (for_range 0 _ _ b') as [[[]|e2] t2]; cbn [fst snd same_res] in F1, F2; try contradiction; [|subst];
    (split; [reflexivity|now apply same_apdu_mk]).
Qed.
Lemma apdu_fields s s' : same_apdu s s' -> M_apdu.offin s = M_apdu.offin s' /\ M_apdu.st s = M_apdu.st s' /\ M_apdu.broken s = M_apdu.broken s' /\ M_apdu.Ne s = M_apdu.Ne s'
  /\ M_apdu.outlen s = M_apdu.outlen s' /\ M_apdu.curout s = M_apdu.curout s' /\ same_bytes (M_apdu.raw s) (M_apdu.raw s') /\ same_bytes (M_apdu.buf s) (M_apdu.buf s').
Proof. intros H. apply same_apdu_inv in H as (r & r' & b & b' & oi & x & k & c & t & n & e & l & u & v & -> & -> & Hr & Hb). now repeat split. Qed.
Lemma with_out_same s s' r r' x n c : same_apdu s s' -> same_bytes r r' -> same_apdu (M_apdu.with_out r x n c s) (M_apdu.with_out r' x n c s').
Proof. intros H K. apply same_apdu_inv in H as (r1 & r1' & b & b' & oi & x1 & k & c1 & t & n1 & e & l & u & v & -> & -> & Hr & Hb). now apply same_apdu_mk. Qed.
Lemma rel_setOutgoing : relM same_apdu eq M_apdu.setOutgoing M_apdu.setOutgoing.
Proof.
  eapply rel_bind; [apply rel_get|]. intros s s' H. destruct (apdu_fields s s' H) as (_ & E2 & _ & E4 & _ & _ & Hr & Hb). unfold M_apdu.getOutgoingLength. cbv zeta. rewrite E2, E4.
  destruct (M_apdu.STATE_OUTGOING <=? M_apdu.st s'); [apply rel_raise|]. eapply rel_seq; [apply rel_put; now apply with_out_same|now apply rel_ret].
Qed.
Lemma rel_setOutgoingLength n : relM same_apdu eq (M_apdu.setOutgoingLength n) (M_apdu.setOutgoingLength n).
Proof.
  eapply rel_bind; [apply rel_get|]. intros s s' H. destruct (apdu_fields s s' H) as (_ & E2 & _ & E4 & _ & _ & Hr & Hb). rewrite E2, E4.
  destruct (M_apdu.st s' <? M_apdu.STATE_OUTGOING); [apply rel_raise|]. destruct (match M_apdu.Ne s' with Some m => m <? n | None => false end); [apply rel_raise|].
  apply rel_put. now apply with_out_same.
Qed.
Lemma rel_send src src' o n : same_bytes src src' -> relM same_apdu eq (M_apdu.send_block src o n) (M_apdu.send_block src' o n).
Proof.
  intros K. eapply rel_bind; [apply rel_get|]. intros s s' H. destruct (apdu_fields s s' H) as (_ & _ & _ & _ & E5 & E6 & Hr & Hb). rewrite E5, E6.
  destruct (M_apdu.curout s') as [c|]; [|apply rel_raise]. destruct (M_apdu.OUT_BLOCKSIZE <? c + n); [apply rel_raise|].
  apply rel_put. apply with_out_same; [exact H|]. apply sbs_slice_set; [exact Hr|now apply sbs_slice].
Qed.
Lemma rel_sendBytes o n : relM same_apdu eq (M_apdu.sendBytes o n) (M_apdu.sendBytes o n).
Proof.
  eapply rel_bind; [apply rel_get|]. intros s s' H. destruct (apdu_fields s s' H) as (_ & E2 & _ & _ & _ & _ & Hr & Hb). rewrite E2.
  destruct (M_apdu.st s' <? M_apdu.STATE_OUTGOING); [apply rel_raise|]. now apply rel_send.
Qed.
Lemma rel_void {S A} (RS : S -> S -> Prop) (m m' : M S A) : relM RS eq m m' -> relM RS eq (M_apdu.mvoid m) (M_apdu.mvoid m').
Proof. intros H. eapply rel_seq; [exact H|now apply rel_ret]. Qed.
Lemma rel_some {S} (RS : S -> S -> Prop) (m m' : M S Z) : relM RS eq m m' -> relM RS eq (M_apdu.msome m) (M_apdu.msome m').
Proof. intros H. eapply rel_bind; [exact H|]. intros a ? <-. now apply rel_ret. Qed.
Lemma rel_apdu_step o o' : same_apdu_op o o' -> relM same_apdu eq (M_apdu.apdu_step o) (M_apdu.apdu_step o').
Proof.
  intros H.
  assert (S0 : relM same_apdu eq (M_apdu.apdu_step M_apdu.OpSetIncomingAndReceive) (M_apdu.apdu_step M_apdu.OpSetIncomingAndReceive)).
  { apply rel_some. eapply rel_bind; [apply rel_get|]. intros s s' K. destruct (apdu_fields s s' K) as (E1 & E2 & E3 & _). rewrite E1, E2, E3.
    destruct (negb (M_apdu.st s' =? M_apdu.STATE_INITIAL)); [apply rel_raise|]. destruct (M_apdu.broken s'); [apply rel_raise|apply rel_receive]. }
  assert (S1 : forall b, relM same_apdu eq (M_apdu.apdu_step (M_apdu.OpReceiveBytes b)) (M_apdu.apdu_step (M_apdu.OpReceiveBytes b))).
  { intros b. apply rel_some. eapply rel_bind; [apply rel_get|]. intros s s' K. destruct (apdu_fields s s' K) as (_ & E2 & _). rewrite E2.
    destruct ((M_apdu.st s' <? M_apdu.STATE_PARTIAL_INCOMING) || (M_apdu.STATE_OUTGOING <=? M_apdu.st s')); [apply rel_raise|apply rel_receive]. }
  destruct o, o'; cbn [same_apdu_op] in H; try discriminate; try contradiction; try (match type of H with _ = _ => inversion H; subst end).
  - exact S0.
  - apply S1.
  - apply rel_some, rel_setOutgoing.
  - apply rel_void, rel_setOutgoingLength.
  - apply rel_void, rel_sendBytes.
  - destruct H as [H E]. assert (E1 := f_equal fst E). assert (E2 := f_equal snd E). cbn [fst snd] in E1, E2. subst. apply rel_void.
    eapply rel_bind; [apply rel_get|]. intros s s' K. destruct (apdu_fields s s' K) as (_ & E2 & _). rewrite E2.
    destruct ((M_apdu.STATE_PARTIAL_OUTGOING <? M_apdu.st s') && (M_apdu.st s' <? M_apdu.STATE_OUTGOING_LENGTH_KNOWN)); [apply rel_raise|now apply rel_send].
  - apply rel_void. eapply rel_seq; [apply rel_setOutgoing|]. eapply rel_seq; [apply rel_setOutgoingLength|apply rel_sendBytes].
  - destruct H as [<- H]. intros s s' K. cbn [M_apdu.apdu_step].
    apply same_apdu_inv in K as (r1 & r1' & b & b' & oi & x1 & k & c1 & t & n1 & e & l & u & w & -> & -> & Hr & Hb). cbn [M_apdu.buf].
    destruct (rel_aset i _ _ H b b' Hb) as [A1 A2].
    destruct (aset i v b) as [[[]|e1] t1], (aset i v0 b') as [[[]|e2] t2]; cbn [fst snd same_res] in A1, A2; try contradiction; [|subst]; (split; [reflexivity|now apply same_apdu_mk]).
Qed.

Lemma C132_apdu_partial_pf : forall b b' s s' ops ops', same_bytes b b' -> same_apdu s s' -> Forall2 same_apdu_op ops ops' ->
  same_res same_apdu (M_apdu.newAPDU b) (M_apdu.newAPDU b')
  /\ map snd (fst (M_apdu.apdu_run ops s)) = map snd (fst (M_apdu.apdu_run ops' s'))
  /\ same_apdu (snd (M_apdu.apdu_run ops s)) (snd (M_apdu.apdu_run ops' s'))
  /\ M_apdu.isCommandChainingCLA s = M_apdu.isCommandChainingCLA s' /\ M_apdu.isISOInterindustryCLA s = M_apdu.isISOInterindustryCLA s'.
Proof.
  intros b b' s s' ops ops' Hb Hs Ho. split; [now apply newAPDU_same|].
  assert (R : map snd (fst (M_apdu.apdu_run ops s)) = map snd (fst (M_apdu.apdu_run ops' s')) /\ same_apdu (snd (M_apdu.apdu_run ops s)) (snd (M_apdu.apdu_run ops' s'))).
  { revert s s' Hs. induction Ho as [|o o' l l' H Ho IH]; intros s s' Hs; cbn [M_apdu.apdu_run]; [now split|].
    destruct (rel_apdu_step o o' H s s' Hs) as [H1 H2]. destruct (M_apdu.apdu_step o s) as [r t], (M_apdu.apdu_step o' s') as [r' t']. cbn [fst snd] in H1, H2. apply same_eq in H1. subst r'.
    destruct (IH t t' H2) as [I1 I2]. destruct (M_apdu.apdu_run l t) as [tr u], (M_apdu.apdu_run l' t') as [tr' u']. cbn [fst snd map] in *. split; [now rewrite I1|exact I2]. }
  destruct R as [R1 R2]. split; [exact R1|]. split; [exact R2|]. destruct (apdu_fields s s' Hs) as (_ & _ & _ & _ & _ & _ & Hr & _).
  split; apply same_eq; (eapply same_rbind; [apply sbs_get; exact Hr|]); intros x x' X; cbn; rewrite (sb_land x x' _ X) by lia; reflexivity.
Qed.

(** ** BERTag *)
Lemma tag_loop_same a a' off : same_bytes a a' -> forall f n k, M_bertag.tag_loop f a off n k = M_bertag.tag_loop f a' off n k.
Proof.
  intros H. induction f as [|f IH]; intros n k; cbn [M_bertag.tag_loop]; [reflexivity|]. apply same_eq. eapply same_rbind; [apply sbs_get; exact H|]. intros x x' X.
  rewrite (sb_land x x' 128 X), (sb_land x x' 127 X) by lia. destruct (Z.land x' 128 =? 128); [rewrite IH|]; now apply same_refl.
Qed.
Lemma tag_init_same a a' off : same_bytes a a' -> M_bertag.BERTag_init a off = M_bertag.BERTag_init a' off.
Proof.
  intros H. apply same_eq. unfold M_bertag.BERTag_init. eapply same_rbind; [apply sbs_get; exact H|]. intros x x' X.
  rewrite (sb_land x x' 255 X), (sb_land x x' 32 X), (sb_land x x' 31 X) by lia. cbv zeta. destruct (Z.land x' 31 =? 31); [|now apply same_refl].
  unfold M_bertag.tag_fuel. rewrite (sbs_len a a' H), (tag_loop_same a a' off H).
  destruct (M_bertag.tag_loop _ a' off 0 1) as [[n k]|e]; cbn [rbind]; [|reflexivity]. eapply same_rbind; [apply sbs_get; exact H|]. intros y y' Y.
  cbn. now rewrite (sb_land y y' 127 Y) by lia.
Qed.
Lemma tag_instance_same a a' off : same_bytes a a' -> M_bertag.BERTag_getInstance a off = M_bertag.BERTag_getInstance a' off.
Proof.
  intros H. unfold M_bertag.BERTag_getInstance, M_bertag.Constructed_init_bytes, M_bertag.Primitive_init_bytes. rewrite (tag_init_same a a' off H).
  pose proof (sbs_get a a' off H) as G. destruct (py_get a off) as [x|e], (py_get a' off) as [x'|e']; cbn [same_res] in G; try contradiction; [|now subst].
  cbn [rbind]. assert (E : forall z, Z.land (Z.shiftr z 5) 1 = Z.shiftr (Z.land z 32) 5) by (intros z; now rewrite Z.shiftr_land).
  now rewrite !E, (sb_land x x' 32 G) by lia.
Qed.

Lemma C132_tag_partial_pf : forall a a' off, same_bytes a a' ->
  M_bertag.BERTag_getInstance a off = M_bertag.BERTag_getInstance a' off
  /\ M_bertag.Primitive_init_bytes a off = M_bertag.Primitive_init_bytes a' off
  /\ M_bertag.Constructed_init_bytes a off = M_bertag.Constructed_init_bytes a' off
  /\ M_bertag.tag_sizeStatic a off = M_bertag.tag_sizeStatic a' off
  /\ M_bertag.tag_isConstructedStatic a off = M_bertag.tag_isConstructedStatic a' off
  /\ M_bertag.tag_tagClassStatic a off = M_bertag.tag_tagClassStatic a' off
  /\ M_bertag.tag_tagNumberStatic a off = M_bertag.tag_tagNumberStatic a' off.
Proof.
  intros a a' off H. assert (I0 := tag_instance_same a a' off H). assert (J := tag_init_same a a' off H).
  unfold M_bertag.tag_sizeStatic, M_bertag.tag_isConstructedStatic, M_bertag.tag_tagClassStatic, M_bertag.tag_tagNumberStatic.
  rewrite I0, J. split; [reflexivity|]. unfold M_bertag.Constructed_init_bytes, M_bertag.Primitive_init_bytes. rewrite J.
  repeat split; apply same_eq; (eapply same_rbind; [apply sbs_get; exact H|]); intros x x' X; rewrite (sb_land x x' 32 X) by lia; now apply same_refl.
Qed.

(** ** BERTLV *)
Lemma length_pair_same a a' : same_bytes a a' -> same_res (fun p q => fst p = fst q) (M_bertlv.getLengthPair a) (M_bertlv.getLengthPair a').
Proof.
  intros H. unfold M_bertlv.getLengthPair. eapply same_rbind; [apply sbs_get; exact H|]. intros x x' X. rewrite (sb_land x x' 128 X), (sb_land x x' 127 X) by lia.
  now destruct (Z.land x' 128 =? 128).
Qed.
Lemma low_byte x y : same_byte x y -> Z.land y 128 = 0 -> x = y.
Proof.
  intros [H|(A & B & E)] L; [exact H|]. unfold anybyte in *. assert (T : Z.testbit y 7 = false).
  { assert (Q := Z.land_spec y 128 7). rewrite L, Z.bits_0 in Q. change (Z.testbit 128 7) with true in Q. now rewrite andb_true_r in Q. }
  assert (y mod 256 < 128).
  { rewrite Z.testbit_false in T by lia. change (2 ^ 7) with 128 in T. Z.div_mod_to_equations. lia. }
  Z.div_mod_to_equations. lia.
Qed.
Lemma length_pair_short a a' : same_bytes a a' -> (forall x, py_get a 0 = Ok x -> Z.land x 128 = 0) -> M_bertlv.getLengthPair a = M_bertlv.getLengthPair a'.
Proof.
  intros H S. apply same_eq. unfold M_bertlv.getLengthPair. pose proof (sbs_get a a' 0 H) as G.
  destruct (py_get a 0) as [x|e], (py_get a' 0) as [x'|e']; cbn [same_res] in G; try contradiction; [|now subst].
  cbn [rbind]. specialize (S x eq_refl). rewrite <- (sb_land x x' 128 G), S by lia. cbn. f_equal. apply low_byte; [exact G|]. now rewrite <- (sb_land x x' 128 G) by lia.
Qed.

Lemma C132_tlv_partial_pf : forall a a' off len, same_bytes a a' ->
  (len = None -> forall g x, M_bertag.BERTag_getInstance a off = Ok g -> py_get (py_slice_from a (off + M_bertag.tag_size g)) 0 = Ok x -> Z.land x 128 = 0) ->
  same_res same_tlv (M_bertlv.getInstance a off len) (M_bertlv.getInstance a' off len)
  /\ (len = None -> M_bertlv.getLengthStatic a off = M_bertlv.getLengthStatic a' off).
Proof.
  intros a a' off len H S.
  assert (L : len = None -> M_bertlv.getLengthStatic a off = M_bertlv.getLengthStatic a' off).
  { intros N. unfold M_bertlv.getLengthStatic. rewrite <- (tag_instance_same a a' off H). destruct (M_bertag.BERTag_getInstance a off) as [g|e] eqn:G; [|reflexivity].
    cbn [rbind]. rewrite (length_pair_short _ (py_slice_from a' (off + M_bertag.tag_size g)) (sbs_slice_from a a' _ H)); [reflexivity|]. intros x X. now apply (S N g x). }
  split; [|exact L]. unfold M_bertlv.getInstance. eapply (same_rbind eq).
  { destruct len; [reflexivity|]. rewrite L by reflexivity. now apply same_refl. }
  intros n ? <-. rewrite <- (tag_instance_same a a' off H). eapply (same_rbind eq); [now apply same_refl|]. intros g ? <-. cbv zeta.
  eapply same_rbind; [apply length_pair_same, sbs_slice_from; exact H|]. intros [l x] [l' x'] E. cbn [fst] in E. subst l'. cbn. split; [reflexivity|]. cbn. now apply sbs_slice.
Qed.

Lemma C132_tlv_refuted_pf : forall L rest, 128 <= L <= 255 ->
  exists t t', M_bertlv.getInstance (4 :: 129 :: L :: rest) 0 None = Ok t /\ M_bertlv.getInstance (4 :: 129 :: (L - 256) :: rest) 0 None = Ok t'
    /\ M_bertlv.tlen t = L /\ M_bertlv.tlen t' = L - 256.
Proof.
  intros L rest HL.
  assert (G : forall c, M_bertlv.getInstance (4 :: 129 :: c :: rest) 0 None
    = Ok (M_bertlv.init_tag (M_bertlv.newTLV false) (M_bertag.mkTag 0 false 4 1) (4 :: 129 :: c :: rest) 2 (1 + 1 + (Z.shiftl 0 8 + c) - 1 - 1))).
  { intros c. unfold M_bertlv.getInstance, M_bertlv.getLengthStatic.
    assert (Z3 : zlen (4 :: 129 :: c :: rest) = zlen rest + 3) by (unfold zlen; cbn [length]; lia).
    pose proof (zlen_nonneg rest) as NN.
    assert (P : py_get (4 :: 129 :: c :: rest) 0 = Ok 4) by (rewrite (py_get_in _ 0 0) by lia; reflexivity).
    assert (T : M_bertag.BERTag_getInstance (4 :: 129 :: c :: rest) 0 = Ok (M_bertag.mkTag 0 false 4 1)).
    { unfold M_bertag.BERTag_getInstance, M_bertag.Primitive_init_bytes, M_bertag.Constructed_init_bytes, M_bertag.BERTag_init. rewrite P. reflexivity. }
    rewrite T. cbn [rbind M_bertag.tag_size M_bertag.tsize].
    assert (Q : py_slice_from (4 :: 129 :: c :: rest) (0 + 1) = 129 :: c :: rest).
    { unfold py_slice_from. rewrite Z3. assert (C : py_clamp (zlen rest + 3) (0 + 1) = 1) by (unfold py_clamp; change (0 + 1 <? 0) with false; cbv iota; lia). rewrite C. reflexivity. }
    rewrite Q. assert (LP : M_bertlv.getLengthPair (129 :: c :: rest) = Ok (1, Z.shiftl 0 8 + c)).
    { unfold M_bertlv.getLengthPair. rewrite (py_get_in _ 0 0) by (unfold zlen; cbn [length]; lia). cbn [rbind nth Z.to_nat].
      change (Z.land 129 128 =? 128) with true. change (Z.land 129 127) with 1. cbv iota zeta.
      rewrite py_slice_in by (unfold zlen; cbn [length]; lia). reflexivity. }
    rewrite LP. cbn [rbind]. reflexivity. }
  do 2 eexists. split; [apply G|]. split; [apply G|]. unfold M_bertlv.init_tag. cbn [M_bertlv.tlen]. rewrite Z.shiftl_0_l. lia.
Qed.

(** ** DES keys and ciphers, message digests *)
Lemma data_same i i' x n : same_bytes i i' -> same_call same_bytes eq (arrayCopy_into i x 0 n (py_repeat 0 n)) (arrayCopy_into i' x 0 n (py_repeat 0 n)).
Proof. intros H. apply rel_into; [exact H|apply sbs_refl]. Qed.
Definition same_out {S} (s s' : S * list Z) : Prop := fst s = fst s' /\ same_bytes (snd s) (snd s').
Lemma rel_doFinal i i' x n y : same_bytes i i' -> relM same_out eq (M_cipher.des_doFinal i x n y) (M_cipher.des_doFinal i' x n y).
Proof.
  intros H [c o] [c' o'] [E K]. cbn [fst snd] in E, K. subst c'. unfold M_cipher.des_doFinal, bind, get, put, lift, ret, raise. cbv beta iota.
  destruct (negb (M_cipher.c_init c)); [now repeat split|].
  destruct (data_same i i' x n H) as [D1 D2].
  destruct (arrayCopy_into i x 0 n (py_repeat 0 n)) as [[[]|e] t], (arrayCopy_into i' x 0 n (py_repeat 0 n)) as [[[]|e'] t']; cbn [fst snd same_res] in D1, D2; try contradiction; [|subst; now repeat split].
  cbv zeta. rewrite (sbs_binary t t' D2). destruct (M_cipher.c_mode c) as [m|]; [|now repeat split]. destruct (M_cipher.c_engine c) as [g|]; [|now repeat split].
  destruct (M_cipher.engine_run (m =? M_cipher.MODE_ENCRYPT) (M_key.arrayTobinary t') g) as [[r|e] g']; cbn [fst snd]; [|now repeat split].
  destruct (rel_into (M_key.binaryToarray r) (M_key.binaryToarray r) 0 y (zlen (M_key.binaryToarray r)) (sbs_refl _) o o' K) as [F1 F2].
  destruct (arrayCopy_into (M_key.binaryToarray r) 0 y _ o) as [[[]|e] u], (arrayCopy_into (M_key.binaryToarray r) 0 y _ o') as [[[]|e'] u']; cbn [fst snd same_res] in F1, F2; try contradiction; [|subst];
    now repeat split.
Qed.
Lemma des_init_same k m b b' off n c : same_bytes b b' -> M_cipher.des_init k m b off n c = M_cipher.des_init k m b' off n c.
Proof.
  intros H. unfold M_cipher.des_init, bind. destruct (M_cipher.base_cipher_init k m c) as [[a|e] t]; [|reflexivity]. destruct a; try reflexivity.
  destruct (Z.eqb_spec n 8) as [->|N]; [|reflexivity]. destruct (data_same b b' off 8 H) as [D1 D2].
  cbn [negb]. destruct (arrayCopy_into b off 0 8 (py_repeat 0 8)) as [[[]|e] u], (arrayCopy_into b' off 0 8 (py_repeat 0 8)) as [[[]|e'] u']; cbn [fst snd same_res] in D1, D2; try contradiction; [|now subst].
  cbv zeta. now rewrite (sbs_binary u u' D2).
Qed.
Lemma cipher_call_same c k k' : same_ccall k k' -> M_cipher.cipher_call c k = M_cipher.cipher_call c k'.
Proof.
  destruct k, k'; cbn [same_ccall]; try contradiction; intros (H & K & E); assert (E1 := f_equal (fun q => fst (fst q)) E); assert (E2 := f_equal (fun q => snd (fst q)) E); assert (E3 := f_equal snd E);
    cbn [fst snd] in E1, E2, E3; subst; cbn [M_cipher.cipher_call].
  - unfold M_cipher.cipher_update, bind, get, ret, raise. cbn [fst]. now destruct (M_cipher.c_init c).
  - now destruct (rel_doFinal _ _ inOffset0 inLength0 outOffset0 H (c, outBuff) (c, outBuff0) (conj eq_refl K)) as [_ [Q _]].
Qed.

Lemma C132_des_partial_pf : forall kd kd' off k key mode iv iv' ioff n c h h' i i' o o' x m y, same_bytes kd kd' -> same_bytes iv iv' ->
  Forall2 same_ccall h h' -> same_bytes i i' -> same_bytes o o' ->
  M_key.setKey kd off k = M_key.setKey kd' off k
  /\ M_cipher.des_init key mode iv ioff n c = M_cipher.des_init key mode iv' ioff n c
  /\ fold_left M_cipher.cipher_call h c = fold_left M_cipher.cipher_call h' c
  /\ same_call (fun s s' => fst s = fst s' /\ same_bytes (snd s) (snd s')) eq (M_cipher.des_doFinal i x m y (c, o)) (M_cipher.des_doFinal i' x m y (c, o')).
Proof.
  intros kd kd' off k key mode iv iv' ioff n c h h' i i' o o' x m y Hk Hiv Hh Hi Ho. split.
  { unfold M_key.setKey. now rewrite (sbs_binary _ _ (sbs_slice kd kd' off (off + M_key.dk_size k / 8) Hk)). }
  split; [now apply des_init_same|]. split.
  - clear o o' Ho. revert c. induction Hh as [|q q' l l' E Hh IH]; intros c; cbn [fold_left]; [reflexivity|]. rewrite (cipher_call_same c q q' E). apply IH.
  - now apply rel_doFinal.
Qed.

Lemma rel_collect b b' x n : same_bytes b b' -> relM same_bytes eq (M_digest.collect b x n) (M_digest.collect b' x n).
Proof.
  intros H. apply rel_for. intros i. eapply rel_bind; [apply rel_lift, sbs_get; exact H|]. intros v v' V. eapply rel_bind; [apply rel_get|]. intros u u' U.
  apply rel_put. apply sbs_app; [exact U|]. constructor; [exact V|constructor].
Qed.
Lemma digest_update_same b b' x n s : same_bytes b b' -> M_digest.digest_update b x n s = M_digest.digest_update b' x n s.
Proof.
  intros H. unfold M_digest.digest_update, bind, get. destruct (rel_catch _ _ _ _ NameError (rel_collect b b' x n H) [] [] (sbs_refl [])) as [D1 D2].
  destruct (catch_index (M_digest.collect b x n) NameError []) as [[[]|e] t], (catch_index (M_digest.collect b' x n) NameError []) as [[[]|e'] t']; cbn [fst snd same_res] in D1, D2; try contradiction; [|now subst].
  now rewrite (sbs_binary t t' D2).
Qed.
Lemma rel_write vs o : forall i, relM same_bytes eq (M_digest.write_loop i vs o) (M_digest.write_loop i vs o).
Proof.
  induction vs as [|v vs IH]; intros i; cbn [M_digest.write_loop]; [now apply rel_ret|]. eapply rel_bind; [apply rel_get|]. intros u u' U.
  eapply rel_bind; [apply rel_lift, sbs_set; [exact U|apply sb_refl]|]. intros w w' W. eapply rel_seq; [now apply rel_put|apply IH].
Qed.
Lemma rel_digest_final H i i' x n y : same_bytes i i' -> relM same_out eq (M_digest.digest_doFinal H i x n y) (M_digest.digest_doFinal H i' x n y).
Proof.
  intros Hi [s o] [s' o'] [E K]. cbn [fst snd] in E, K. subst s'. unfold M_digest.digest_doFinal. rewrite (digest_update_same i i' x n s Hi).
  destruct (M_digest.digest_update i' x n s) as [[[]|e] t]; [|now repeat split].
  destruct (rel_catch _ _ _ _ NameError (rel_write (M_digest.hl_digest H (M_digest.md_alg t) (M_digest.md_fed t)) y 0) o o' K) as [D1 D2].
  destruct (catch_index (M_digest.write_loop 0 _ y) NameError o) as [r u], (catch_index (M_digest.write_loop 0 _ y) NameError o') as [r' u']. cbn [fst snd] in D1, D2. apply same_eq in D1. subst r'.
  destruct (M_digest.digest_reset H t) as [[[]|e] w]; [destruct r|]; now repeat split.
Qed.
Lemma digest_call_same H s c c' : same_dcall c c' -> M_digest.digest_call H s c = M_digest.digest_call H s c'.
Proof.
  destruct c, c'; cbn [same_dcall]; try contradiction; intros Q; cbn [M_digest.digest_call]; [reflexivity| |].
  - destruct Q as [Q E]. assert (E1 := f_equal fst E). assert (E2 := f_equal snd E). cbn [fst snd] in E1, E2. subst. now rewrite (digest_update_same _ _ _ _ s Q).
  - destruct Q as (Q & K & E). assert (E1 := f_equal (fun q => fst (fst q)) E). assert (E2 := f_equal (fun q => snd (fst q)) E). assert (E3 := f_equal snd E). cbn [fst snd] in E1, E2, E3. subst.
    match goal with |- fst (snd (M_digest.digest_doFinal H ?i ?x ?n ?y (s, ?o))) = fst (snd (M_digest.digest_doFinal H ?i' _ _ _ (s, ?o'))) => now destruct (rel_digest_final H i i' x n y Q (s, o) (s, o') (conj eq_refl K)) as [_ [W _]] end.
Qed.

Lemma C132_digest_partial_pf : forall H s h h' i i' o o' x n y, Forall2 same_dcall h h' -> same_bytes i i' -> same_bytes o o' ->
  M_digest.digest_run H h s = M_digest.digest_run H h' s
  /\ same_call (fun s s' => fst s = fst s' /\ same_bytes (snd s) (snd s')) eq (M_digest.digest_doFinal H i x n y (s, o)) (M_digest.digest_doFinal H i' x n y (s, o')).
Proof.
  intros H s h h' i i' o o' x n y Hh Hi Ho. split.
  - clear o o' Ho. unfold M_digest.digest_run. revert s. induction Hh as [|q q' l l' E Hh IH]; intros s; cbn [fold_left]; [reflexivity|]. rewrite (digest_call_same H s q q' E). apply IH.
  - now apply rel_digest_final.
Qed.

(** ** RSA *)
Lemma tolong_app a b : M_key.arrayTolong (a ++ b) = M_key.arrayTolong a + 2 ^ (8 * zlen a) * M_key.arrayTolong b.
Proof.
  induction a as [|x a IH]; [cbn [app]; change (M_key.arrayTolong []) with 0; change (zlen (@nil Z)) with 0; rewrite Z.mul_0_r, Z.pow_0_r; lia|].
  cbn [app]. change (M_key.arrayTolong (x :: a ++ b)) with (Z.shiftl (M_key.arrayTolong (a ++ b)) 8 + x). change (M_key.arrayTolong (x :: a)) with (Z.shiftl (M_key.arrayTolong a) 8 + x).
  rewrite IH, !Z.shiftl_mul_pow2 by lia. assert (E : zlen (x :: a) = zlen a + 1) by (unfold zlen; cbn [length]; lia). rewrite E. pose proof (zlen_nonneg a).
  replace (8 * (zlen a + 1)) with (8 * zlen a + 8) by lia. rewrite Z.pow_add_r by lia. ring.
Qed.

Lemma C132_rsa_refuted_pf : forall X k b x c e, 128 <= x <= 255 -> let m := b ++ x :: c in let m' := b ++ (x - 256) :: c in
  M_key.pc_avail X = true -> M_key.pk_exp k = Some e -> M_key.pk_the k = None -> zlen m = M_key.pk_size k / 8 ->
  same_bytes m m' /\ M_key.arrayTolong m' = M_key.arrayTolong m - 2 ^ (8 * zlen b + 8)
  /\ forall w, w = m \/ w = m' -> M_key.pk_the (snd (M_key.pub_setModulus X w 0 (zlen m) k))
       = match M_key.pc_construct X (M_key.arrayTolong w) (M_key.arrayTolong e) with Ok r => Some r | Err _ => None end.
Proof.
  intros X k b x c e Hx m m' HX He Ht Hm. split.
  { apply sbs_app; [apply sbs_refl|]. constructor; [|apply sbs_refl]. right. unfold anybyte. repeat split; lia. }
  split.
  { unfold m, m'. rewrite !tolong_app. change (M_key.arrayTolong (x :: c)) with (Z.shiftl (M_key.arrayTolong c) 8 + x). change (M_key.arrayTolong (x - 256 :: c)) with (Z.shiftl (M_key.arrayTolong c) 8 + (x - 256)).
    pose proof (zlen_nonneg b). rewrite (Z.pow_add_r 2 (8 * zlen b) 8) by lia. change (2 ^ 8) with 256. ring. }
  intros w Hw. assert (L : zlen w = zlen m) by (destruct Hw as [->| ->]; [reflexivity|unfold m, m', zlen; now rewrite !app_length]).
  assert (S : py_slice w 0 (0 + zlen m) = w).
  { rewrite py_slice_in by (pose proof (zlen_nonneg m); lia). apply sub_full. rewrite Z.add_0_l, Z.sub_0_r, <- L, to_nat_zlen. lia. }
  unfold M_key.pub_setModulus, M_key.pub_setter, M_key.pub_construct, bind, get, put, ret, raise, lift. rewrite Hm, Z.eqb_refl. cbn [negb M_key.pk_mod M_key.pk_exp M_key.pk_the].
  rewrite He, Ht, HX. cbn [negb M_key.pk_mod M_key.pk_exp M_key.pk_the]. rewrite <- Hm, S.
  destruct (M_key.pc_construct X (M_key.arrayTolong w) (M_key.arrayTolong e)); cbn [fst snd M_key.pk_the M_key.pk_mod M_key.pk_exp]; reflexivity.
Qed.

Lemma C132_full_refuted_pf : ~ C132_full.
Proof.
  intros (H & _). assert (S : same_bytes [128] [-128]) by (constructor; [right; unfold anybyte; repeat split; lia|constructor]).
  assert (E := H [128] [-128] [128] [128] 0 0 1 S (sbs_refl _)). vm_compute in E. discriminate.
Qed.
