(** * C138: a call reads the bytes it is given, and no others: proofs *)
From Verif Require Import Py S_Base L_Py M_utils M_util M_aid M_ownerpin M_apdu M_bignumber M_jcint M_bertag M_bertlv M_digest M_key M_cipher.
From Verif Require Import L_utils L_util LP_bertag LP_keys S_Local.
From Coq Require Import Lia Bool ZifyBool ZifyNat.
Ltac Zify.zify_post_hook ::= Z.div_mod_to_equations.

Lemma same_get a o b p n i : same a o b p n -> 0 <= i < n -> py_get a (o + i) = py_get b (p + i).
Proof.
  intros (N & O & A & P & B & E) I. rewrite !(py_get_in _ _ 0) by lia. f_equal.
  pose proof (nth_sub a (Z.to_nat o) (Z.to_nat n) (Z.to_nat i) 0) as Qa. pose proof (nth_sub b (Z.to_nat p) (Z.to_nat n) (Z.to_nat i) 0) as Qb.
  rewrite E in Qa. rewrite Qa in Qb by lia. replace (Z.to_nat (o + i)) with (Z.to_nat o + Z.to_nat i)%nat by lia. replace (Z.to_nat (p + i)) with (Z.to_nat p + Z.to_nat i)%nat by lia.
  apply Qb. lia.
Qed.
Lemma same_slice a o b p n : same a o b p n -> py_slice a o (o + n) = py_slice b p (p + n).
Proof. intros (N & O & A & P & B & E). now rewrite !slice_sub by lia. Qed.
Lemma same_len a o b p n : same a o b p n -> (zlen a <? o + n) = (zlen b <? p + n).
Proof. intros (N & O & A & P & B & E). lia. Qed.
Lemma loop2 {S} (f g : Z -> M S unit) n : forall i j s, (forall k s, 0 <= k < Z.of_nat n -> f (i + k) s = g (j + k) s) -> for_loop n i f s = for_loop n j g s.
Proof.
  induction n as [|n IH]; intros i j s H; [reflexivity|]. cbn [for_loop]. unfold bind. pose proof (H 0 s ltac:(lia)) as E. rewrite !Z.add_0_r in E. rewrite E.
  destruct (g j s) as [[u|e] s']; [|reflexivity]. apply IH. intros k s0 K. replace (i + 1 + k) with (i + (1 + k)) by lia. replace (j + 1 + k) with (j + (1 + k)) by lia. apply H. lia.
Qed.
Lemma range2 {S} (f g : Z -> M S unit) n i j s : (forall k s, 0 <= k < n -> f (i + k) s = g (j + k) s) -> for_range i (i + n) f s = for_range j (j + n) g s.
Proof. intros H. unfold for_range. replace (i + n - i) with n by lia. replace (j + n - j) with n by lia. apply loop2. intros k s0 K. apply H. lia. Qed.
Lemma range2_0 {S} (f g : Z -> M S unit) n s : (forall k s, 0 <= k < n -> f k s = g k s) -> for_range 0 n f s = for_range 0 n g s.
Proof. intros H. unfold for_range. apply loop2. intros k s0 K. rewrite Z.add_0_l. apply H. lia. Qed.
(** copies *)
Lemma step2 s so d do i (r : M heap unit) h : ((v <- hget_at s (so + i) ;; hset_at d (do + i) v) ;;; r) h =
  match py_get (h s) (so + i) with
  | Ok v => match py_set (h d) (do + i) v with Ok a => r (hset h d a) | Err e => (Err e, h) end
  | Err e => (Err e, h) end.
Proof. unfold bind, hget_at, hset_at. destruct (py_get _ _); [|reflexivity]. now destruct (py_set _ _ _). Qed.
Lemma copy2 s so d do s' so' d' n : s <> d -> s' <> d' -> forall i h h',
  (forall k, i <= k < i + Z.of_nat n -> py_get (h s) (so + k) = py_get (h' s') (so' + k)) -> h d = h' d' ->
  let f := fun i => v <- hget_at s (so + i) ;; hset_at d (do + i) v in
  let g := fun i => v <- hget_at s' (so' + i) ;; hset_at d' (do + i) v in
  fst (for_loop n i f h) = fst (for_loop n i g h') /\ snd (for_loop n i f h) d = snd (for_loop n i g h') d'.
Proof.
  intros D D' . induction n as [|n IH]; intros i h h' H E; [split; [reflexivity|exact E]|]. cbv zeta. cbn [for_loop]. rewrite !step2.
  rewrite (H i ltac:(lia)), E. destruct (py_get (h' s') (so' + i)) as [v|e]; [|split; [reflexivity|exact E]].
  destruct (py_set (h' d') (do + i) v) as [a|e]; [|split; [reflexivity|exact E]].
  apply IH.
  - intros k K. rewrite !hset_other by congruence. apply H. lia.
  - now rewrite !hset_same.
Qed.
Lemma copy_local s so d do s' so' d' n h h' : s <> d -> s' <> d' -> same (h s) so (h' s') so' n -> h d = h' d' ->
  fst (copy_loop s so d do n h) = fst (copy_loop s' so' d' do n h') /\ snd (copy_loop s so d do n h) d = snd (copy_loop s' so' d' do n h') d'.
Proof.
  intros D D' S E. unfold copy_loop. rewrite !for_range_0. apply copy2; auto. intros k K. apply (same_get _ _ _ _ n); [exact S|]. destruct S. lia.
Qed.
Lemma arrayCopy_local : local R_arrayCopy.
Proof.
  intros h s so h' s' so' d d' do n D D' S E. destruct (copy_local s so d do s' so' d' n h h' D D' S E) as (F & G).
  unfold arrayCopy, bind, beginTransaction, commitTransaction, abortTransaction, raise, ret.
  destruct (copy_loop s so d do n h) as [r h1], (copy_loop s' so' d' do n h') as [r' h1']. cbn [fst snd] in F, G. subst r'. destruct r as [[]|[]]; split; auto.
Qed.
Lemma into_local a o b p n q : same a o b p n -> forall x, arrayCopy_into a o q n x = arrayCopy_into b p q n x.
Proof.
  intros S x. unfold arrayCopy_into.
  destruct (arrayCopy_local (fun k => match k with O => a | _ => x end) 0%nat o (fun k => match k with O => b | _ => x end) 0%nat p 1%nat 1%nat q n ltac:(discriminate) ltac:(discriminate) S eq_refl) as (F & G).
  destruct (arrayCopy _ _ _ _ _ _) as [r h1]. destruct (arrayCopy _ _ _ _ _ _) as [r' h2]. cbn [fst snd] in F, G. congruence.
Qed.
(** tags *)
Lemma prefix_get a b p i x : same a 0 b p (zlen a) -> 0 <= i -> py_get a i = Ok x -> py_get b (p + i) = Ok x.
Proof.
  intros S I G. pose proof (py_get_ok_inv _ _ _ G) as V. rewrite <- (same_get a 0 b p (zlen a) i S); [exact G|]. destruct (Z.lt_ge_cases i (zlen a)); [lia|].
  rewrite py_get_out in G by lia. discriminate.
Qed.
Lemma loop_prefix a b p : same a 0 b p (zlen a) -> forall f f' num k r, 0 <= k -> (f <= f')%nat -> tag_loop f a 0 num k = Ok r -> tag_loop f' b p num k = Ok r /\ k <= snd r.
Proof.
  intros S. induction f as [|f IH]; intros f' num k r K L E; [discriminate|]. destruct f' as [|f']; [lia|]. cbn [tag_loop] in *. rewrite Z.add_0_l in E.
  destruct (py_get a k) as [x|e] eqn:G; cbn [rbind] in E; [|discriminate]. rewrite (prefix_get a b p k x S K G). cbn [rbind].
  destruct (_ =? _); [|split; [exact E|]; assert (r = (num, k)) as -> by congruence; cbn; lia].
  assert (K1 : 0 <= k + 1) by lia. assert (L1 : (f <= f')%nat) by lia. destruct (IH f' _ _ _ K1 L1 E). split; [assumption|lia].
Qed.
Lemma init_prefix a b p g : same a 0 b p (zlen a) -> BERTag_init a 0 = Ok g -> BERTag_init b p = Ok g /\ 0 <= tsize g.
Proof.
  intros S E. unfold BERTag_init in *. destruct (py_get a 0) as [x|e] eqn:G; cbn [rbind] in E; [|discriminate]. pose proof (prefix_get a b p 0 x S ltac:(lia) G) as G'. rewrite Z.add_0_r in G'. rewrite G'. cbn [rbind].
  destruct (Z.land x 31 =? 31); [|split; [exact E|]; match type of E with Ok ?t = _ => assert (g = t) as -> by congruence end; cbn; lia].
  destruct (tag_loop (tag_fuel a 0) a 0 0 1) as [[num k]|e] eqn:L; cbn [rbind] in E; [|discriminate].
  destruct (loop_prefix a b p S (tag_fuel a 0) (tag_fuel b p) 0 1 _ ltac:(lia) ltac:(unfold tag_fuel; destruct S; lia) L) as (-> & K). cbn [rbind snd] in *. rewrite Z.add_0_l in E.
  destruct (py_get a k) as [y|e] eqn:Gy; cbn [rbind] in E; [|discriminate]. rewrite (prefix_get a b p k y S ltac:(lia) Gy). cbn [rbind].
  split; [exact E|]. match type of E with Ok ?t = _ => assert (g = t) as -> by congruence end. cbn. lia.
Qed.
Lemma primitive_prefix a b p g : same a 0 b p (zlen a) -> Primitive_init_bytes a 0 = Ok g -> Primitive_init_bytes b p = Ok g /\ 0 <= tsize g.
Proof.
  intros S E. unfold Primitive_init_bytes in *. destruct (py_get a 0) as [x|e] eqn:G; cbn [rbind] in E; [|discriminate].
  pose proof (prefix_get a b p 0 x S ltac:(lia) G) as G'. rewrite Z.add_0_r in G'. rewrite G'. cbn [rbind]. destruct (_ =? _); [discriminate|]. now apply (init_prefix a).
Qed.
Lemma constructed_prefix a b p g : same a 0 b p (zlen a) -> Constructed_init_bytes a 0 = Ok g -> Constructed_init_bytes b p = Ok g /\ 0 <= tsize g.
Proof.
  intros S E. unfold Constructed_init_bytes in *. destruct (py_get a 0) as [x|e] eqn:G; cbn [rbind] in E; [|discriminate].
  pose proof (prefix_get a b p 0 x S ltac:(lia) G) as G'. rewrite Z.add_0_r in G'. rewrite G'. cbn [rbind]. destruct (_ =? _); [discriminate|]. now apply (init_prefix a).
Qed.
Lemma tag_prefix a b p g : same a 0 b p (zlen a) -> BERTag_getInstance a 0 = Ok g -> BERTag_getInstance b p = Ok g /\ 0 <= tsize g.
Proof.
  intros S E. unfold BERTag_getInstance in *. destruct (py_get a 0) as [x|e] eqn:G; cbn [rbind] in E; [|destruct e; discriminate].
  pose proof (prefix_get a b p 0 x S ltac:(lia) G) as G'. rewrite Z.add_0_r in G'. rewrite G'. cbn [rbind]. destruct (negb _).
  - destruct (Constructed_init_bytes a 0) as [t|e] eqn:C; [|destruct e; discriminate]. destruct (constructed_prefix a b p t S C) as (-> & T). split; [exact E|]. congruence.
  - destruct (Primitive_init_bytes a 0) as [t|e] eqn:C; [|destruct e; discriminate]. destruct (primitive_prefix a b p t S C) as (-> & T). split; [exact E|]. congruence.
Qed.
(** numbers, PINs *)
Lemma bn_local s f a o b p n : same a o b p n -> M_bignumber.init (Some a) o n f s = M_bignumber.init (Some b) p n f s.
Proof.
  intros S. unfold M_bignumber.init. destruct (n =? 0); [reflexivity|]. destruct (f =? FORMAT_BCD); [|destruct (f =? FORMAT_HEX); [|reflexivity]];
  unfold bind at 1; unfold bind at 2; cbn [set_value]; apply range2_0; intros k t K; rewrite (same_get a o b p n k S K); reflexivity.
Qed.
Lemma operand_local f a o b p n : same a o b p n -> operand (Some a) o n f = operand (Some b) p n f.
Proof. intros S. unfold operand. now rewrite (bn_local _ f a o b p n S). Qed.
Lemma store_local a o b p n : same a o b p n -> forall l,
  for_range o (o + n) (fun i => v <- lift (py_get a i) ;; aset (o - i) v) l = for_range p (p + n) (fun i => v <- lift (py_get b i) ;; aset (p - i) v) l.
Proof.
  intros S l. apply range2. intros k t K. rewrite (same_get a o b p n k S K). now replace (o - (o + k)) with (p - (p + k)) by lia.
Qed.
Lemma check_fill_local str a o b p n m : same a o b p n -> forall l, check_fill (pin_of str a) o n m l = check_fill (pin_of str b) p n m l.
Proof.
  intros S l. destruct str; unfold check_fill, pin_of; [now rewrite (same_slice a o b p n S)|]. unfold bind at 1. unfold bind at 2. rewrite (store_local a o b p n S). reflexivity.
Qed.
Lemma update_fill_local str a o b p n m : same a o b p n -> forall l, update_fill (pin_of str a) o n m l = update_fill (pin_of str b) p n m l.
Proof.
  intros S l. destruct str; unfold update_fill, pin_of; [now rewrite (same_slice a o b p n S)|]. unfold bind at 1. unfold bind at 2. rewrite (store_local a o b p n S). reflexivity.
Qed.
Lemma cells_of str a : pin_cells (pin_of str a) = a.
Proof. now destruct str. Qed.
Lemma compare_local a o b p c q d r m : same a o b p m -> same c q d r m -> forall n i, 0 <= i -> i + Z.of_nat n <= m -> arrayCompare_loop n i a o c q = arrayCompare_loop n i b p d r.
Proof.
  intros S T. induction n as [|n IH]; intros i I L; [reflexivity|]. cbn [arrayCompare_loop]. rewrite (same_get a o b p m i S), (same_get c q d r m i T) by lia.
  destruct (py_get b (p + i)) as [x|e]; cbn [rbind]; [|reflexivity]. destruct (py_get d (r + i)) as [y|e]; cbn [rbind]; [|reflexivity].
  destruct (y <? x); [reflexivity|]. destruct (x <? y); [reflexivity|]. apply IH; lia.
Qed.
Lemma digest_local s a o b p n : same a o b p n -> digest_update a o n s = digest_update b p n s.
Proof.
  intros S. unfold digest_update, bind, get, catch_index, collect. rewrite (range2 (collect_body a) (collect_body b) n o p); [reflexivity|].
  intros k t K. unfold collect_body. now rewrite (same_get a o b p n k S K).
Qed.
Lemma get2 a o b p n : same a o b p n -> 0 < n -> py_get a o = py_get b p.
Proof. intros S N. pose proof (same_get a o b p n 0 S ltac:(lia)) as E. now rewrite !Z.add_0_r in E. Qed.
Lemma locals f : is_local f = true -> local f.
Proof.
  intros L. destruct f; try discriminate L; clear L; cbn [local].
  - intros a o b p c q d r n S T. unfold arrayCompare. rewrite (compare_local a o b p c q d r n S T); [reflexivity|lia|]. destruct S. lia.
  - apply arrayCopy_local.
  - intros h s so h' s' so' d d' do n D D' S E. destruct (copy_local s so d do s' so' d' n h h' D D' S E) as (F & G). unfold arrayCopyNonAtomic, catch_index.
    destruct (copy_loop s so d do n h) as [r h1], (copy_loop s' so' d' do n h') as [r' h1']. cbn [fst snd] in F, G. subst r'. destruct r as [[]|[]]; split; auto.
  - intros a o b p S. unfold getShort. rewrite (get2 a o b p 2 S), (same_get a o b p 2 1 S) by lia. reflexivity.
  - intros a o b p S. unfold getInt. rewrite (get2 a o b p 4 S), (same_get a o b p 4 1 S), (same_get a o b p 4 2 S), (same_get a o b p 4 3 S) by lia. reflexivity.
  - intros a o b p n S. unfold newAID. now rewrite (same_len a o b p n S), (same_slice a o b p n S).
  - intros x a o b p n S. unfold equals. now rewrite (same_len a o b p n S), (same_slice a o b p n S).
  - intros x a o b p n S. unfold partialEquals. now rewrite (same_len a o b p n S), (same_slice a o b p n S).
  - intros s a o b p n S. unfold check, bind, set_validated, get. cbn [triesremaining]. destruct (_ <=? 0); [reflexivity|]. rewrite !cells_of.
    assert (((zlen a <? o) || (zlen a <? o + n)) = ((zlen b <? p) || (zlen b <? p + n))) as -> by (destruct S as (? & ? & ? & ? & ? & ?); lia).
    destruct (_ || _); [reflexivity|]. rewrite (check_fill_local str a o b p n _ S). reflexivity.
  - intros s a o b p n S. unfold update, bind, get. destruct (maxpinsize s <? n); [reflexivity|]. rewrite !cells_of.
    assert ((zlen a <? n + o) = (zlen b <? n + p)) as -> by (destruct S as (? & ? & ? & ? & ? & ?); lia). destruct (zlen b <? n + p); [reflexivity|].
    unfold on_pin. rewrite (update_fill_local str a o b p n _ S). reflexivity.
  - intros s a o b p n S. unfold sendBytesLong, send_block. now rewrite (same_slice a o b p n S).
  - intros s f. intros. now apply bn_local.
  - intros s f a o b p n S. unfold add. now rewrite (operand_local f a o b p n S).
  - intros s f a o b p n S. unfold subtract. now rewrite (operand_local f a o b p n S).
  - intros s f a o b p n S. unfold multiply. now rewrite (operand_local f a o b p n S).
  - intros s f a o b p n S. unfold compareTo. now rewrite (operand_local f a o b p n S).
  - intros a b p g S E. now apply (tag_prefix a).
  - intros a b p g S E. now apply (primitive_prefix a).
  - intros a b p g S E. now apply (constructed_prefix a).
  - intros t g a o b p n S. unfold init_tag. now rewrite (same_slice a o b p n S).
  - intros t a o b p n S. unfold replaceValue. now rewrite (into_local a o b p n 0 S).
  - intros. now apply digest_local.
  - intros H q [s x] a o b p n S. unfold digest_doFinal. now rewrite (digest_local s a o b p n S).
  - intros k a o b p S. unfold setKey. now rewrite (same_slice a o b p _ S).
  - intros X k a o b p n S. unfold pub_setExponent. now rewrite (same_slice a o b p n S).
  - intros X k a o b p n S. unfold pub_setModulus. now rewrite (same_slice a o b p n S).
  - intros k a o b p n S. unfold priv_setExponent. now rewrite (same_slice a o b p n S).
  - intros k a o b p n S. unfold priv_setModulus. now rewrite (same_slice a o b p n S).
  - intros k m c a o b p n S. unfold des_init, bind. destruct (base_cipher_init k m c) as [[[dk|pk|vk]|e] c']; try reflexivity.
    destruct (negb (n =? 8)); [reflexivity|]. now rewrite (into_local a o b p n 0 S).
  - intros. reflexivity.
  - intros q [c x] a o b p n S. unfold des_doFinal, bind at 1, get at 1. unfold bind at 6, get at 2. destruct (negb (c_init c)); [reflexivity|]. now rewrite (into_local a o b p n 0 S).
  - intros X rnd c k q s a o b p n S. unfold rsa_doFinal. destruct (negb (c_init c)); [reflexivity|]. now rewrite (into_local a o b p n 0 S).
Qed.
Ltac sm := unfold same, zlen; cbn; repeat split; try lia; reflexivity.
Lemma globals f : is_local f = false -> ~ local f.
Proof.
  intros L. destruct f; try discriminate L; clear L; cbn [local]; intros H.
  - pose proof (H [4; -126] [4; -126; 1; 0] 0 3 ltac:(sm) eq_refl) as Q. vm_compute in Q. discriminate Q.
  - pose proof (H [4] 0 [4; 0] 0 1 ltac:(sm)) as Q. vm_compute in Q. discriminate Q.
  - pose proof (H [4; 3; 1] [4; 3; 1; 2; 3] 0 _ ltac:(sm) eq_refl) as Q. vm_compute in Q. discriminate Q.
  - pose proof (H (newTLV false) [4] 0 [4; 0] 0 1 ltac:(sm)) as Q. vm_compute in Q. discriminate Q.
Qed.
Lemma nth_skip (l : list Z) : forall k i, nth i (skipn k l) 0 = nth (k + i) l 0.
Proof. induction l as [|x l IH]; intros [|k] i; cbn; try reflexivity; [now destruct i|apply IH]. Qed.
Lemma clamp_pos n k : 0 <= k -> py_clamp n k = Z.min k n.
Proof. intros K. unfold py_clamp. now replace (k <? 0) with false by lia. Qed.
Lemma from_get (l : list Z) k : 0 <= k < zlen l -> py_get (py_slice_from l k) 0 = py_get l k.
Proof.
  intros K. assert (Q : zlen (py_slice_from l k) = zlen l - k) by (unfold py_slice_from; rewrite clamp_pos by lia; unfold zlen in *; rewrite skipn_length; lia).
  rewrite !(py_get_in _ _ 0) by lia. f_equal. unfold py_slice_from. rewrite nth_skip. f_equal. rewrite clamp_pos by lia. lia.
Qed.
Lemma slice_none {A} (l : list A) a b : 0 <= b <= a -> py_slice l a b = [].
Proof.
  intros H. unfold py_slice. rewrite !clamp_pos by lia. replace (Z.to_nat (Z.min b (zlen l) - Z.min a (zlen l))) with 0%nat by lia. apply firstn_O.
Qed.

Lemma C138_exact_partial_pf : forall f, local f <-> is_local f = true.
Proof.
  intros f. split; [|apply locals]. intros L. destruct (is_local f) eqn:E; [reflexivity|]. exfalso. exact (globals f E L).
Qed.

Lemma C138_full_refuted_pf : ~ C138_full.
Proof. intros H. exact (globals R_tlv eq_refl (H R_tlv)). Qed.

Lemma C138_tlv_partial_pf : forall a b p n t, same a 0 b p (zlen a) -> 0 <= n <= zlen a ->
  getInstance a 0 (Some n) = Ok t -> getInstance b p (Some n) = Ok t.
Proof.
  intros a b p n t S N E. unfold getInstance in *. cbn [rbind] in *. destruct (BERTag_getInstance a 0) as [g|e] eqn:G; cbn [rbind] in E; [|discriminate].
  destruct (tag_prefix a b p g S G) as (-> & T). cbn [rbind]. rewrite Z.add_0_l in E. pose proof S as (_ & _ & _ & P & B & Q). unfold tag_size in *. set (k := tsize g) in *.
  unfold getLengthPair in *. destruct (py_get (py_slice_from a k) 0) as [x|e] eqn:X; cbn [rbind] in E; [|discriminate].
  assert (K : k < zlen a /\ py_get a k = Ok x).
  { destruct (Z.lt_ge_cases k (zlen a)) as [K|K].
    - split; [exact K|]. now rewrite from_get in X by lia.
    - exfalso. rewrite py_get_out in X; [discriminate|]. right. unfold py_slice_from. rewrite skipn_all2 by (rewrite clamp_pos by lia; unfold zlen in *; lia). cbn. lia. }
  destruct K as (K & X'). pose proof (prefix_get a b p k x S T X') as Xb.
  assert (py_get (py_slice_from b (p + k)) 0 = Ok x) as -> by (rewrite from_get by lia; exact Xb).
  cbn [rbind]. assert (V : forall l, 0 <= l -> init_tag (newTLV (tconstr g)) g a (k + l) (n - k - l) = init_tag (newTLV (tconstr g)) g b (p + k + l) (n - k - l)).
  { intros l L. unfold init_tag. do 2 f_equal. replace (k + l + (n - k - l)) with n by lia. replace (p + k + l + (n - k - l)) with (p + n) by lia.
    destruct (Z.le_gt_cases n (k + l)); [now rewrite !slice_none by lia|].
    pose proof (same_slice a (k + l) b (p + (k + l)) (n - (k + l))) as Z. replace (k + l + (n - (k + l))) with n in Z by lia. replace (p + (k + l) + (n - (k + l))) with (p + n) in Z by lia.
    replace (p + k + l) with (p + (k + l)) by lia. apply Z. repeat split; try lia.
    pose proof (sub_sub a 0 (Z.to_nat (zlen a)) (Z.to_nat (k + l)) (Z.to_nat (n - (k + l)))) as Y1. pose proof (sub_sub b (Z.to_nat p) (Z.to_nat (zlen a)) (Z.to_nat (k + l)) (Z.to_nat (n - (k + l)))) as Y2.
    replace (Z.to_nat (p + (k + l))) with (Z.to_nat p + Z.to_nat (k + l))%nat by lia. cbn [Nat.add] in Y1. change (Z.to_nat 0) with 0%nat in Q. rewrite Q in Y1. rewrite <- Y1, <- Y2 by lia. reflexivity. }
  destruct (_ =? 128); cbn [rbind] in *.
  - rewrite <- V; [exact E|]. apply Z.land_nonneg. lia.
  - rewrite <- V; [exact E|lia].
Qed.
