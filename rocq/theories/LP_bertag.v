(** * C39-C41, C50: BERTag: proofs *)
From Verif Require Import Py S_Base S_Number S_BER L_Py M_utils L_utils M_util L_util M_bertag.
From Coq Require Import ZifyBool ZifyNat.
Ltac Zify.zify_post_hook ::= Z.div_mod_to_equations.


(** *** stores *)
Lemma list_upd_upd {A} (l : list A) k x y : list_upd (list_upd l k x) k y = list_upd l k y.
Proof. revert k. induction l; intros [|k]; cbn; auto. now rewrite IHl. Qed.

Lemma nth_list_upd_same {A} (l : list A) k x d : (k < length l)%nat -> nth k (list_upd l k x) d = x.
Proof. revert k. induction l; intros [|k] H; cbn in *; try lia; auto. apply IHl. lia. Qed.

Lemma aadd_upd (l : list Z) i x v : 0 <= i < zlen l ->
  aadd i v (list_upd l (Z.to_nat i) x) = (Ok tt, list_upd l (Z.to_nat i) (x + v)).
Proof.
  intros H. unfold aadd, bind, aget. rewrite (py_get_in _ _ 0) by (rewrite zlen_list_upd; lia).
  rewrite nth_list_upd_same by (unfold zlen in H; lia).
  rewrite aset_in by (rewrite zlen_list_upd; lia). now rewrite list_upd_upd.
Qed.

Lemma map_list_upd {A B} (f : A -> B) l k x : map f (list_upd l k x) = list_upd (map f l) k (f x).
Proof. revert k. induction l; intros [|k]; cbn; auto. now rewrite IHl. Qed.

Lemma map_splice {A B} (f : A -> B) l k vs : map f (splice l k vs) = splice (map f l) k (map f vs).
Proof. unfold splice. now rewrite !map_app, firstn_map, skipn_map, map_length. Qed.

Lemma sanity_body i (array : list Z) x pre l : array = pre ++ x :: l -> i = zlen pre ->
  (v <- aget i ;;
   if (Z.shiftl 1 (8 - 1) - 1) <? v
   then aset i (- (Z.land (Z.lnot (v - 1)) (Z.shiftl 1 8 - 1)))
   else ret tt) array = (Ok tt, pre ++ s1 x :: l).
Proof.
  intros -> ->. unfold bind, aget.
  assert (Hr : 0 <= zlen pre < zlen (pre ++ x :: l)).
  { rewrite zlen_app, zlen_cons. pose proof (zlen_nonneg pre). pose proof (zlen_nonneg l). lia. }
  rewrite (py_get_in _ _ 0) by exact Hr. rewrite to_nat_zlen, nth_middle.
  unfold s1, signed. change (1 * 8) with 8.
  destruct (Z.ltb_spec (Z.shiftl 1 (8 - 1) - 1) x); [|reflexivity].
  rewrite aset_in by exact Hr. rewrite to_nat_zlen, list_upd_splice by (rewrite app_length; cbn; lia).
  unfold splice. rewrite firstn_app, firstn_all, Nat.sub_diag, skipn_app. cbn [length firstn].
  rewrite skipn_all2 by lia. replace (length pre + 1 - length pre)%nat with 1%nat by lia.
  cbn [skipn]. now rewrite app_nil_r.
Qed.

Lemma sanity_loop l : forall pre,
  for_loop (length l) (zlen pre) (fun i =>
   v <- aget i ;;
   if (Z.shiftl 1 (8 - 1) - 1) <? v
   then aset i (- (Z.land (Z.lnot (v - 1)) (Z.shiftl 1 8 - 1)))
   else ret tt) (pre ++ l) = (Ok tt, pre ++ map s1 l).
Proof.
  induction l as [|x l IH]; intros pre; [reflexivity|].
  cbn [length]. rewrite for_loop_S.
  rewrite (bind_ok _ _ _ tt _ (sanity_body (zlen pre) (pre ++ x :: l) x pre l eq_refl eq_refl)).
  specialize (IH (pre ++ [s1 x])). rewrite zlen_app, <- !app_assoc in IH. exact IH.
Qed.

Lemma sanitycheck_map l : sanitycheck l = (Ok tt, map s1 l).
Proof.
  unfold sanitycheck, for_range. rewrite Z.sub_0_r, to_nat_zlen. apply (sanity_loop l []).
Qed.

(** *** base 128 *)
Lemma digits_value_snoc B ds d : digits_value B (ds ++ [d]) = digits_value B ds * B + d.
Proof.
  induction ds as [|x ds IH]; [cbn; lia|].
  cbn [app digits_value]. rewrite IH, app_length. cbn [length].
  replace (Z.of_nat (length ds + 1)) with (Z.succ (Z.of_nat (length ds))) by lia.
  rewrite Z.pow_succ_r by lia. ring.
Qed.

Lemma digits_value_nonneg B ds : 0 <= B -> Forall (fun d => 0 <= d < B) ds -> 0 <= digits_value B ds.
Proof.
  intros HB. induction 1; cbn [digits_value]; [lia|].
  assert (0 <= B ^ Z.of_nat (length l)) by (apply Z.pow_nonneg; lia). nia.
Qed.

Lemma digits_value_pos B ds : 0 < B -> Forall (fun d => 0 <= d < B) ds -> hd 0 ds <> 0 -> 0 < digits_value B ds.
Proof.
  intros HB. destruct 1 as [|d ds Hd Hds]; cbn [hd digits_value]; [lia|]. intros Hn.
  pose proof (digits_value_nonneg B ds ltac:(lia) Hds).
  assert (0 < B ^ Z.of_nat (length ds)) by (apply Z.pow_pos_nonneg; lia). nia.
Qed.

Lemma chunk_loop_ok ds : forall fuel acc, Forall (fun d => 0 <= d < 128) ds -> hd 1 ds <> 0 ->
  (length ds < fuel)%nat ->
  chunk_loop fuel (digits_value 128 ds) acc = Ok (acc ++ rev ds).
Proof.
  induction ds as [|d ds IH] using rev_ind; intros fuel acc Hd Hh Hf.
  - destruct fuel; [cbn in Hf; lia|]. cbn. now rewrite app_nil_r.
  - destruct fuel as [|fuel]; [lia|]. cbn [chunk_loop].
    assert (0 < digits_value 128 (ds ++ [d])).
    { apply digits_value_pos; auto; [lia|]. destruct ds; cbn in *; auto; lia. }
    replace (0 <? _) with true by lia.
    apply Forall_app in Hd as [Hd1 Hd2]. inversion Hd2 as [|? ? Hd3 _]; subst.
    rewrite digits_value_snoc. rewrite land_127, shiftr_div by lia. change (2 ^ 7) with 128.
    replace ((digits_value 128 ds * 128 + d) / 128) with (digits_value 128 ds) by lia.
    replace ((digits_value 128 ds * 128 + d) mod 128) with d by lia.
    rewrite IH.
    + rewrite rev_app_distr, <- app_assoc. reflexivity.
    + exact Hd1.
    + destruct ds; cbn in *; auto; lia.
    + rewrite app_length in Hf. cbn in Hf. lia.
Qed.

Lemma base128_length n ds : base128 n ds -> 2 ^ (Z.of_nat (length ds) - 1) <= n.
Proof.
  intros (Hd & <- & Hh). destruct Hd as [|d ds Hd Hds]; [cbn in Hh; lia|].
  cbn [hd] in Hh. cbn [length digits_value]. replace (Z.of_nat (S (length ds)) - 1) with (Z.of_nat (length ds)) by lia.
  pose proof (digits_value_nonneg 128 ds ltac:(lia) Hds).
  assert (2 ^ Z.of_nat (length ds) <= 128 ^ Z.of_nat (length ds)) by (apply Z.pow_le_mono_l; lia).
  assert (0 < 128 ^ Z.of_nat (length ds)) by (apply Z.pow_pos_nonneg; lia). nia.
Qed.

Lemma base128_fuel n ds : base128 n ds -> (length ds < chunk_fuel n)%nat.
Proof.
  intros H. pose proof (base128_length n ds H) as Hl. unfold chunk_fuel.
  destruct ds as [|d ds]; [destruct H as (_ & _ & H); cbn in H; lia|].
  cbn [length] in *. pose proof (Z.pow_pos_nonneg 2 (Z.of_nat (S (length ds)) - 1) ltac:(lia) ltac:(lia)).
  apply Z.log2_le_pow2 in Hl; lia.
Qed.

Lemma base128_exists n : 0 < n -> exists ds d, base128 n (ds ++ [d]).
Proof.
  intros Hn. remember (Z.to_nat n) as k eqn:Ek. revert n Hn Ek.
  induction k as [k IH] using lt_wf_ind. intros n Hn ->.
  destruct (Z.lt_ge_cases n 128) as [Hs|Hs].
  - exists [], n. split; [constructor; auto; lia|]. split; cbn; lia.
  - destruct (IH (Z.to_nat (n / 128)) ltac:(lia) (n / 128) ltac:(lia) eq_refl) as (ds & d & H1 & H2 & H3).
    exists (ds ++ [d]), (n mod 128). split; [apply Forall_app; split; auto; constructor; auto; lia|].
    split; [rewrite digits_value_snoc, H2; lia|]. destruct ds; cbn in *; auto; lia.
Qed.

(** *** encoding *)
Lemma put_chunks_ok l : forall off bLen out, 0 <= off + bLen -> off + bLen + zlen l <= zlen out ->
  put_chunks l off bLen out
  = (Ok (bLen + zlen l), splice out (Z.to_nat (off + bLen)) (map (fun x => 128 + x) l)).
Proof.
  induction l as [|x l IH]; intros off bLen out H1 H2.
  - cbn [put_chunks map]. rewrite splice_nil, zlen_nil, Z.add_0_r. reflexivity.
  - cbn [put_chunks map]. rewrite zlen_cons in *. pose proof (zlen_nonneg l).
    erewrite bind_ok by (apply aset_in; lia). erewrite bind_ok by (apply aadd_upd; lia).
    rewrite IH by (rewrite ?zlen_list_upd; lia).
    f_equal; [f_equal; lia|].
    replace (Z.to_nat (off + (bLen + 1))) with (S (Z.to_nat (off + bLen))) by lia.
    apply splice_cons. rewrite map_length. unfold zlen in *. lia.
Qed.

Definition ident_first (c : Z) (k : bool) (low : Z) : Z := 64 * c + (if k then 32 else 0) + low.

Lemma toBytes_exact : forall c k n sz os off out, identifier c k n os -> 0 <= c <= 3 ->
  0 <= off -> off + zlen os <= zlen out ->
  tag_toBytes (mkTag c k n sz) off out
  = (Ok (zlen os), splice (map s1 out) (Z.to_nat off) (map (twos 1) os)).
Proof.
  intros c k n sz os off out Hi Hc Ho Hr. unfold tag_toBytes. cbn [tclass tconstr tnumber].
  assert (0 < zlen os) by (destruct Hi; unfold zlen; cbn [length]; lia).
  erewrite bind_ok by (apply aset_in; lia). erewrite bind_ok by (apply aadd_upd; lia).
  rewrite !shiftl_mul by lia. change (2 ^ 6) with 64. change (2 ^ 5) with 32.
  assert (Hs : forall v, 0 <= v <= 255 -> s1 v = twos 1 v).
  { intros v Hv. rewrite <- (Z.mod_small v 256) at 1 by lia. apply s1_of_mod. }
  replace (c * 64 + (if k then 1 else 0) * 32) with (64 * c + (if k then 32 else 0)) by (destruct k; lia).
  destruct Hi as [Hn|ds d Hn Hb].
  - replace (n <=? 30) with true by lia.
    erewrite bind_ok by (apply aadd_upd; lia).
    rewrite (bind_ok _ _ _ tt _ (sanitycheck_map _)). unfold ret.
    rewrite map_list_upd, list_upd_splice by (rewrite map_length; unfold zlen in *; lia).
    f_equal. cbn [map]. f_equal. f_equal. apply Hs. destruct k; lia.
  - replace (n <=? 30) with false by lia.
    erewrite bind_ok by (apply aadd_upd; lia).
    rewrite (bind_ok _ _ _ (rev (ds ++ [d])) (list_upd out (Z.to_nat off) (64 * c + (if k then 32 else 0) + 31))).
    2: { unfold lift. f_equal. destruct Hb as (Hb1 & Hb2 & Hb3) eqn:EB. 
         assert (Hf : (length (ds ++ [d]) < chunk_fuel n)%nat) by (apply base128_fuel; exact Hb).
         rewrite <- Hb2 at 2. apply (chunk_loop_ok (ds ++ [d]) (chunk_fuel n) []); auto.
         destruct ds; cbn in *; auto; lia. }
    rewrite rev_involutive. rewrite zlen_cons, zlen_app, zlen_cons, zlen_nil in *.
    assert (Hlen : zlen (map (fun x => 128 + x) ds) = zlen ds) by (unfold zlen; now rewrite map_length).
    rewrite Hlen in *. pose proof (zlen_nonneg ds).
    set (out1 := list_upd out (Z.to_nat off) (64 * c + (if k then 32 else 0) + 31)).
    assert (L1 : length out1 = length out) by apply list_upd_length.
    erewrite bind_ok by (apply put_chunks_ok; rewrite ?zlen_app, ?zlen_cons, ?zlen_nil; unfold zlen in *; lia).
    rewrite zlen_app, zlen_cons, zlen_nil, map_app. cbn [map].
    rewrite <- splice_app by (cbn [length]; rewrite map_length; unfold zlen in *; lia).
    rewrite map_length.
    replace (off + (1 + (zlen ds + (0 + 1))) - 1) with (off + 1 + zlen ds) by lia.
    replace (Z.to_nat (off + 1) + length ds)%nat with (Z.to_nat (off + 1 + zlen ds)) by (unfold zlen in *; lia).
    set (p := off + 1 + zlen ds) in *.
    set (out2 := splice out1 (Z.to_nat (off + 1)) (map (fun x => 128 + x) ds)).
    assert (L2 : length out2 = length out).
    { unfold out2. rewrite splice_length; auto. rewrite map_length. unfold zlen in *; lia. }
    assert (Hp : 0 <= p < zlen out2) by (unfold p, zlen in *; lia).
    rewrite <- list_upd_splice by (unfold zlen in *; lia).
    rewrite (bind_ok _ _ _ (128 + d) (list_upd out2 (Z.to_nat p) (128 + d))).
    2: { unfold aget. rewrite (py_get_in _ _ 0) by (rewrite zlen_list_upd; lia).
         now rewrite nth_list_upd_same by (unfold zlen in *; lia). }
    erewrite bind_ok by (apply aset_in; rewrite zlen_list_upd; lia).
    rewrite list_upd_upd. rewrite (bind_ok _ _ _ tt _ (sanitycheck_map _)). unfold ret.
    destruct Hb as (Hb1 & Hb2 & Hb3). apply Forall_app in Hb1 as [Hd1 Hd2].
    inversion Hd2 as [|? ? Hd3 _]; subst.
    assert (E : Z.land (128 + d) 127 = d) by (rewrite land_127; lia). rewrite E.
    f_equal; [f_equal; lia|].
    rewrite list_upd_splice by (unfold zlen in *; lia). unfold out2, out1.
    replace (Z.to_nat p) with (Z.to_nat (off + 1) + length (map (fun x => (128 + x)%Z) ds))%nat
      by (rewrite map_length; unfold p, zlen in *; lia).
    rewrite splice_app by (rewrite list_upd_length, map_length; cbn [length]; unfold zlen in *; lia).
    replace (Z.to_nat (off + 1)) with (S (Z.to_nat off)) by lia.
    rewrite splice_cons by (rewrite app_length, map_length; cbn [length]; unfold zlen in *; lia).
    rewrite map_splice. f_equal.
    match goal with |- map s1 ?l = _ => change (map s1 l = map (twos 1) l) end.
    apply map_ext_in. intros v Hv. apply Hs.
    destruct Hv as [<-|Hv]; [destruct k; lia|].
    apply in_app_or in Hv as [Hv|[<-|[]]]; [|lia].
    apply in_map_iff in Hv as (x & <- & Hx). rewrite Forall_forall in Hd1. specialize (Hd1 x Hx). cbn in Hd1. lia.
Qed.

(** *** decoding *)
Lemma land_mod256 x m : 0 <= m < 256 -> Z.land x m = Z.land (x mod 256) m.
Proof.
  intros Hm. rewrite <- (land_255 x), <- Z.land_assoc. f_equal.
  rewrite Z.land_comm, land_255. now rewrite Z.mod_small.
Qed.

Lemma octet_bits u : 0 <= u <= 255 ->
  Z.land u 128 = u / 128 * 128 /\ Z.land u 32 = (u / 32) mod 2 * 32 /\ Z.land u 31 = u mod 32
  /\ Z.land u 127 = u mod 128.
Proof.
  intros Hu.
  assert (H : forallb (fun u => (Z.land u 128 =? u / 128 * 128) && (Z.land u 32 =? (u / 32) mod 2 * 32)
              && (Z.land u 31 =? u mod 32) && (Z.land u 127 =? u mod 128)) (map Z.of_nat (seq 0 256)) = true)
    by reflexivity.
  rewrite forallb_forall in H. specialize (H u).
  assert (Hin : In u (map Z.of_nat (seq 0 256))).
  { apply in_map_iff. exists (Z.to_nat u). split; [lia|]. apply in_seq. lia. }
  specialize (H Hin). apply andb_true_iff in H as [H H4]. apply andb_true_iff in H as [H H3].
  apply andb_true_iff in H as [H1 H2]. repeat split; lia.
Qed.

Lemma octets_get arr off os j : 0 <= off -> octets (sub arr (Z.to_nat off) (length os)) = os ->
  (j < length os)%nat -> exists x, py_get arr (off + Z.of_nat j) = Ok x /\ x mod 256 = nth j os 0.
Proof.
  intros Ho Hs Hj.
  assert (L : length (sub arr (Z.to_nat off) (length os)) = length os).
  { rewrite <- Hs at 2. unfold octets. now rewrite map_length. }
  rewrite sub_length_gen in L.
  exists (nth (Z.to_nat off + j) arr 0). split.
  - rewrite (py_get_in arr _ 0) by (unfold zlen; lia). do 2 f_equal. lia.
  - pose proof (map_nth (fun b => b mod 256) (sub arr (Z.to_nat off) (length os)) 0 j) as Q.
    change (0 mod 256) with 0 in Q. unfold octets in Hs. rewrite Hs in Q.
    rewrite nth_sub in Q by lia. symmetry. exact Q.
Qed.

Lemma tag_loop_ok arr off : forall ds num bLen fuel d, 0 <= off + bLen -> (length ds < fuel)%nat ->
  octets (sub arr (Z.to_nat (off + bLen)) (length ds + 1)) = map (fun x => 128 + x) ds ++ [d] ->
  Forall (fun d => 0 <= d < 128) (ds ++ [d]) ->
  tag_loop fuel arr off num bLen
  = Ok (num * 128 ^ Z.of_nat (length ds) + digits_value 128 ds, bLen + Z.of_nat (length ds))
  /\ exists x, py_get arr (off + (bLen + Z.of_nat (length ds))) = Ok x /\ x mod 256 = d.
Proof.
  induction ds as [|e ds IH]; intros num bLen fuel d H1 Hf Hs Hd; (destruct fuel as [|fuel]; [lia|]).
  - destruct (octets_get arr (off + bLen) [d] 0) as (x & Hx & Hm); [lia|exact Hs|cbn; lia|].
    cbn [length] in *. change (Z.of_nat 0) with 0 in *. rewrite !Z.add_0_r in *. cbn [nth] in Hm.
    inversion Hd as [|? ? Hd1 _]; subst.
    split; [|eauto]. cbn [tag_loop]. rewrite Hx. cbn [rbind]. rewrite land_mod256 by lia.
    destruct (octet_bits (x mod 256)) as (B & _); [lia|]. rewrite B.
    replace (_ =? 128) with false by lia. cbn [digits_value]. rewrite Z.pow_0_r. do 2 f_equal. lia.
  - destruct (octets_get arr (off + bLen) (map (fun x => 128 + x) (e :: ds) ++ [d]) 0) as (x & Hx & Hm).
    { lia. } { rewrite app_length, map_length. exact Hs. } { rewrite app_length. cbn. lia. }
    change (Z.of_nat 0) with 0 in Hx. rewrite Z.add_0_r in Hx. cbn [map app nth] in Hm.
    cbn [app] in Hd. inversion Hd as [|? ? Hd1 Hd2]; subst.
    destruct (IH (Z.shiftl num 7 + Z.land x 127) (bLen + 1) fuel d) as [E1 E2].
    { lia. } { cbn [length] in Hf. lia. }
    { cbn [length map app] in Hs.
      assert (Hl : (Z.to_nat (off + bLen) < length arr)%nat).
      { destruct (py_get_cases arr (off + bLen)) as [[y Hy]|Hy]; [|congruence].
        unfold py_get, py_index in Hx. destruct ((0 <=? off + bLen) && (off + bLen <? zlen arr)) eqn:E; [unfold zlen in E; lia|].
        replace ((- zlen arr <=? off + bLen) && (off + bLen <? 0)) with false in Hx by lia. discriminate. }
      change (S (length ds) + 1)%nat with (S (length ds + 1)) in Hs.
      rewrite (sub_S _ _ _ 0 Hl) in Hs. unfold octets in Hs. cbn [map] in Hs.
      injection Hs as _ Hs. replace (Z.to_nat (off + (bLen + 1))) with (S (Z.to_nat (off + bLen))) by lia. exact Hs. }
    { exact Hd2. }
    assert (B : Z.land x 128 = 128 /\ Z.land x 127 = e).
    { rewrite !(land_mod256 x) by lia. destruct (octet_bits (x mod 256)) as (B1 & _ & _ & B2); [lia|].
      rewrite B1, B2. lia. }
    destruct B as [B1 B2]. split.
    + cbn [tag_loop]. rewrite Hx. cbn [rbind]. rewrite B1. cbn [Z.eqb Pos.eqb]. rewrite E1, B2.
      rewrite shiftl_mul by lia. change (2 ^ 7) with 128. cbn [length digits_value].
      rewrite Nat2Z.inj_succ, Z.pow_succ_r by lia. f_equal. f_equal; [ring|lia].
    + destruct E2 as (y & Hy & Hm'). exists y. split; auto. rewrite <- Hy. f_equal. cbn [length]. lia.
Qed.

Lemma BERTag_init_exact c k n os arr off : identifier c k n os -> 0 <= c <= 3 -> 0 <= off ->
  octets (sub arr (Z.to_nat off) (length os)) = os ->
  BERTag_init arr off = Ok (mkTag c k n (if n <=? 30 then 1 else zlen os - 1))
  /\ exists b, py_get arr off = Ok b /\ Z.land b 32 = (if k then 32 else 0).
Proof.
  intros Hi Hc Ho Hs.
  destruct (octets_get arr off os 0) as (b & Hb & Hm); auto.
  { destruct Hi; cbn; lia. }
  change (Z.of_nat 0) with 0 in Hb. rewrite Z.add_0_r in Hb.
  assert (Hos : exists low, nth 0 os 0 = 64 * c + (if k then 32 else 0) + low /\ 0 <= low <= 31
                /\ (low = 31 <-> 31 <= n) /\ (n <= 30 -> low = n)).
  { destruct Hi as [Hn|ds d Hn Hb']; [exists n|exists 31]; cbn [nth]; repeat split; lia. }
  destruct Hos as (low & El & Hlow & H31 & Hln). rewrite El in Hm.
  assert (B : Z.land b 32 = (if k then 32 else 0) /\ Z.land b 31 = low /\ Z.shiftr (Z.land b 255) 6 = c).
  { rewrite land_255, shiftr_div by lia. change (2 ^ 6) with 64. rewrite !(land_mod256 b) by lia.
    destruct (octet_bits (b mod 256)) as (_ & B1 & B2 & _); [lia|].
    rewrite B1, B2, Hm. destruct k; lia. }
  destruct B as (B1 & B2 & B3). split; [|eauto].
  unfold BERTag_init. rewrite Hb. cbn [rbind]. rewrite B1, B2, B3.
  replace (negb ((if k then 32 else 0) =? 0)) with k by now destruct k.
  destruct Hi as [Hn|ds d Hn Hb'].
  - replace (low =? 31) with false by lia. replace (n <=? 30) with true by lia. do 2 f_equal; lia.
  - replace (low =? 31) with true by lia. replace (n <=? 30) with false by lia.
    assert (Hlen : (Z.to_nat off + (2 + length ds) <= length arr)%nat).
    { pose proof (f_equal (@length Z) Hs) as E. unfold octets in E.
      rewrite map_length, sub_length_gen in E. cbn [length] in E. rewrite app_length, map_length in E. cbn [length] in E. lia. }
    destruct Hb' as (Hd & Hv & Hh).
    destruct (tag_loop_ok arr off ds 0 1 (tag_fuel arr off) d) as (E1 & x & Hx & Hxm); auto.
    { lia. }
    { unfold tag_fuel, zlen. lia. }
    { cbn [length] in Hs. rewrite app_length, map_length in Hs. cbn [length] in Hs.
      rewrite (sub_S _ _ _ 0) in Hs by lia. unfold octets in Hs. cbn [map] in Hs. injection Hs as _ Hs.
      replace (Z.to_nat (off + 1)) with (S (Z.to_nat off)) by lia. exact Hs. }
    rewrite E1. cbn [rbind]. rewrite Hx. cbn [rbind].
    assert (E : Z.land x 127 = d).
    { rewrite land_mod256 by lia. apply Forall_app in Hd as [_ Hd]. inversion Hd; subst.
      destruct (octet_bits (x mod 256)) as (_ & _ & _ & B4); [lia|]. rewrite B4. lia. }
    rewrite E, shiftl_mul by lia. rewrite Z.mul_0_l, Z.add_0_l. change (2 ^ 7) with 128.
    rewrite <- digits_value_snoc, Hv. do 2 f_equal.
    rewrite zlen_cons, zlen_app, zlen_cons, zlen_nil. unfold zlen. rewrite map_length. lia.
Qed.

Lemma constr_bit b :
  (Z.land (Z.shiftr b 5) 1 = 0 /\ Z.land b 32 = 0) \/ (Z.land (Z.shiftr b 5) 1 = 1 /\ Z.land b 32 = 32).
Proof.
  assert (E : Z.land (Z.shiftr b 5) 1 = (b / 32) mod 2).
  { change 1 with (Z.ones 1). rewrite Z.land_ones, shiftr_div by lia. reflexivity. }
  rewrite E, (land_mod256 b) by lia. destruct (octet_bits (b mod 256)) as (_ & B & _); [lia|]. rewrite B. lia.
Qed.

Lemma getInstance_init arr off t b : py_get arr off = Ok b -> BERTag_init arr off = Ok t ->
  BERTag_getInstance arr off = Ok t.
Proof.
  intros Hb Ht. unfold BERTag_getInstance, Constructed_init_bytes, Primitive_init_bytes. rewrite Hb. cbn [rbind].
  assert (B : (Z.land (Z.shiftr b 5) 1 = 0 /\ Z.land b 32 = 0) \/ (Z.land (Z.shiftr b 5) 1 = 1 /\ Z.land b 32 = 32)).
  { apply constr_bit. }
  destruct B as [[-> ->] | [-> ->]]; cbn; now rewrite Ht.
Qed.

Lemma C39_encode_pf : forall c k n sz os off out, identifier c k n os -> 0 <= c <= 3 ->
  0 <= off -> off + zlen os <= zlen out ->
  let '(r, out') := tag_toBytes (mkTag c k n sz) off out in
  r = Ok (zlen os) /\ sub out' (Z.to_nat off) (length os) = map (twos 1) os /\ length out' = length out.
Proof.
  intros c k n sz os off out Hi Hc Ho Hr. rewrite (toBytes_exact c k n sz os) by auto.
  split; [reflexivity|].
  assert (H : (Z.to_nat off + length (map (twos 1) os) <= length (map s1 out))%nat).
  { rewrite !map_length. unfold zlen in *. lia. }
  split; [apply sub_splice; [now rewrite map_length|exact H]|].
  rewrite splice_length by exact H. apply map_length.
Qed.

Lemma C39_identifier_pf : forall c k n, 0 <= n ->
  exists os, identifier c k n os /\ forall os', identifier c k n os' -> os' = os.
Proof.
  intros c k n Hn. destruct (Z.le_gt_cases n 30) as [H|H].
  - eexists. split; [apply ident_low; lia|]. intros os' Hi. destruct Hi; [reflexivity|lia].
  - destruct (base128_exists n) as (ds & d & Hb); [lia|].
    eexists. split; [eapply ident_high; [lia|exact Hb]|].
    intros os' Hi. destruct Hi as [|ds' d' H' Hb']; [lia|]. f_equal.
    assert (E : ds' ++ [d'] = ds ++ [d]).
    { assert (R : rev (ds' ++ [d']) = rev (ds ++ [d])).
      { pose proof (base128_fuel _ _ Hb) as F. pose proof (base128_fuel _ _ Hb') as F'.
        destruct Hb as (A1 & A2 & A3), Hb' as (B1 & B2 & B3).
        assert (Q : chunk_loop (chunk_fuel n) n [] = Ok ([] ++ rev (ds ++ [d]))).
        { rewrite <- A2 at 2. apply chunk_loop_ok; auto. destruct ds; cbn in *; auto; lia. }
        assert (Q' : chunk_loop (chunk_fuel n) n [] = Ok ([] ++ rev (ds' ++ [d']))).
        { rewrite <- B2 at 2. apply chunk_loop_ok; auto. destruct ds'; cbn in *; auto; lia. }
        cbn [app] in Q, Q'. congruence. }
      rewrite <- (rev_involutive (ds' ++ [d'])), R. apply rev_involutive. }
    apply app_inj_tail in E as [-> ->]. reflexivity.
Qed.

Lemma C39_decode_pf : forall c k n os arr off, identifier c k n os -> 0 <= c <= 3 -> 0 <= off ->
  octets (sub arr (Z.to_nat off) (length os)) = os ->
  exists t, BERTag_getInstance arr off = Ok t /\ tclass t = c /\ tconstr t = k /\ tnumber t = n.
Proof.
  intros c k n os arr off Hi Hc Ho Hs.
  destruct (BERTag_init_exact c k n os arr off Hi Hc Ho Hs) as (E & b & Hb & _).
  eexists. split; [eapply getInstance_init; eauto|]. auto.
Qed.

Lemma C39_roundtrip_pf : forall c k n sz off out, 0 <= c <= 3 -> 0 <= n -> 0 <= off ->
  forall os, identifier c k n os -> off + zlen os <= zlen out ->
  exists t, BERTag_getInstance (snd (tag_toBytes (mkTag c k n sz) off out)) off = Ok t
            /\ tag_eqb t (mkTag c k n sz) = true.
Proof.
  intros c k n sz off out Hc Hn Ho os Hi Hr.
  pose proof (C39_encode_pf c k n sz os off out Hi Hc Ho Hr) as E.
  destruct (tag_toBytes _ _ _) as [r out']. destruct E as (_ & E & _). cbn [snd].
  destruct (C39_decode_pf c k n os out' off Hi Hc Ho) as (t & Ht & T1 & T2 & T3).
  { rewrite E. unfold octets. rewrite map_map.
    rewrite <- (map_id os) at 2. apply map_ext_in. intros v Hv.
    pose proof (twos_cong 1 v ltac:(lia)) as Q. change (2 ^ (8 * 1)) with 256 in Q. rewrite Q.
    apply Z.mod_small. destruct Hi as [?|ds d ? Hb].
    - destruct Hv as [<-|[]]. destruct k; lia.
    - destruct Hb as (Hd & _ & _). apply Forall_app in Hd as [Hd1 Hd2]. inversion Hd2; subst.
      destruct Hv as [<-|Hv]; [destruct k; lia|].
      apply in_app_or in Hv as [Hv|[<-|[]]]; [|lia].
      apply in_map_iff in Hv as (x & <- & Hx). rewrite Forall_forall in Hd1. specialize (Hd1 x Hx). cbn in Hd1. lia. }
  exists t. split; [exact Ht|]. unfold tag_eqb. cbn [tclass tconstr tnumber].
  rewrite T1, T2, T3, !Z.eqb_refl, Bool.eqb_reflx. reflexivity.
Qed.

Lemma C40_refuted_pf : forall c k n os arr off, identifier c k n os -> 0 <= c <= 3 -> 0 <= off -> 31 <= n ->
  octets (sub arr (Z.to_nat off) (length os)) = os ->
  tag_sizeStatic arr off = Ok (zlen os - 1)
  /\ (exists t, BERTag_getInstance arr off = Ok t /\ tag_size t = zlen os - 1)
  /\ tag_size (init_class_number newPrimitiveBERTag c n) = 0
  /\ tag_size (init_class_number newConstructedBERTag c n) = 0.
Proof.
  intros c k n os arr off Hi Hc Ho Hn Hs.
  destruct (BERTag_init_exact c k n os arr off Hi Hc Ho Hs) as (E & b & Hb & _).
  replace (n <=? 30) with false in E by lia.
  split; [unfold tag_sizeStatic; now rewrite E|].
  split; [|split; reflexivity].
  eexists. split; [eapply getInstance_init; eauto|]. reflexivity.
Qed.

Lemma C40_partial_pf : forall c k n os arr off, identifier c k n os -> 0 <= c <= 3 -> 0 <= off -> n <= 30 ->
  octets (sub arr (Z.to_nat off) (length os)) = os ->
  tag_sizeStatic arr off = Ok (zlen os)
  /\ exists t, BERTag_getInstance arr off = Ok t /\ tag_size t = zlen os.
Proof.
  intros c k n os arr off Hi Hc Ho Hn Hs.
  destruct (BERTag_init_exact c k n os arr off Hi Hc Ho Hs) as (E & b & Hb & _).
  replace (n <=? 30) with true in E by lia.
  assert (L : zlen os = 1) by (destruct Hi; [reflexivity|lia]).
  split; [unfold tag_sizeStatic; rewrite E; cbn; now rewrite L|].
  eexists. split; [eapply getInstance_init; eauto|]. now rewrite L.
Qed.

Lemma C41_refuted_pf : forall c k n sz os off out j, identifier c k n os -> 0 <= c <= 3 ->
  0 <= off -> off + zlen os <= zlen out ->
  (j < length out)%nat -> (Z.of_nat j < off \/ off + zlen os <= Z.of_nat j) ->
  nth j (snd (tag_toBytes (mkTag c k n sz) off out)) 0 = s1 (nth j out 0)
  /\ (127 < nth j out 0 -> nth j (snd (tag_toBytes (mkTag c k n sz) off out)) 0 <> nth j out 0).
Proof.
  intros c k n sz os off out j Hi Hc Ho Hr Hj Hout.
  rewrite (toBytes_exact c k n sz os) by auto. cbn [snd].
  assert (E : nth j (splice (map s1 out) (Z.to_nat off) (map (twos 1) os)) 0 = s1 (nth j out 0)).
  { rewrite nth_splice_out.
    - change 0 with (s1 0) at 1. apply map_nth.
    - rewrite !map_length. unfold zlen in *. lia.
    - rewrite map_length. unfold zlen in *. lia. }
  split; [exact E|]. rewrite E. intros H. rewrite s1_spec. destruct (Z.leb_spec 128 (nth j out 0)); lia.
Qed.

Lemma C41_partial_pf : forall c k n sz os off out, identifier c k n os -> 0 <= c <= 3 ->
  0 <= off -> off + zlen os <= zlen out -> Forall (fun b => b <= 127) out ->
  tag_toBytes (mkTag c k n sz) off out
  = (Ok (zlen os), splice out (Z.to_nat off) (map (twos 1) os)).
Proof.
  intros c k n sz os off out Hi Hc Ho Hr Hb. rewrite (toBytes_exact c k n sz os) by auto.
  do 2 f_equal. rewrite <- (map_id out) at 2. apply map_ext_in. intros v Hv.
  rewrite Forall_forall in Hb. specialize (Hb v Hv). rewrite s1_spec.
  destruct (Z.leb_spec 128 v); lia.
Qed.

Lemma tag_loop_err a off : forall fuel num bLen e, tag_loop fuel a off num bLen = Err e ->
  (Z.to_nat (zlen a - off - bLen) < fuel)%nat -> e = IndexError.
Proof.
  induction fuel as [|f IH]; intros num bLen e H Hf; [lia|].
  cbn [tag_loop] in H. destruct (py_get_cases a (off + bLen)) as [[x Hx]|Hx]; rewrite Hx in H; cbn [rbind] in H; [|congruence].
  destruct (Z.land x 128 =? 128); [|discriminate]. eapply IH; [exact H|].
  assert (off + bLen < zlen a); [|lia].
  destruct (Z.lt_ge_cases (off + bLen) (zlen a)); auto. rewrite py_get_out in Hx by lia. discriminate.
Qed.

Lemma BERTag_init_err a off e : BERTag_init a off = Err e -> e = IndexError.
Proof.
  unfold BERTag_init. destruct (py_get_cases a off) as [[b Hb]|Hb]; rewrite Hb; cbn [rbind]; [|congruence].
  destruct (Z.land b 31 =? 31); [|discriminate].
  destruct (tag_loop _ _ _ _ _) as [[num bl]|e'] eqn:E; cbn [rbind].
  - destruct (py_get_cases a (off + bl)) as [[x Hx]|Hx]; rewrite Hx; cbn [rbind]; congruence.
  - intros [= <-]. eapply tag_loop_err; [exact E|]. unfold tag_fuel. lia.
Qed.

Lemma BERTag_init_constr a off t b : BERTag_init a off = Ok t -> py_get a off = Ok b ->
  tconstr t = negb (Z.land b 32 =? 0).
Proof.
  unfold BERTag_init. intros H Hb. rewrite Hb in H. cbn [rbind] in H.
  destruct (Z.land b 31 =? 31).
  - destruct (tag_loop _ _ _ _ _) as [[num bl]|e']; cbn [rbind] in H; [|discriminate].
    destruct (py_get a (off + bl)); cbn [rbind] in H; [|discriminate]. now injection H as <-.
  - now injection H as <-.
Qed.

Lemma C50_kind_mismatch_pf : forall a off b, py_get a off = Ok b ->
  (Primitive_init_bytes a off = Err (TLVExc 5) <-> Z.testbit b 5 = true)
  /\ (Constructed_init_bytes a off = Err (TLVExc 5) <-> Z.testbit b 5 = false)
  /\ (forall t, BERTag_getInstance a off = Ok t -> tconstr t = Z.testbit b 5).
Proof.
  intros a off b Hb. unfold Primitive_init_bytes, Constructed_init_bytes. rewrite Hb. cbn [rbind].
  assert (B : (Z.testbit b 5 = false /\ Z.land b 32 = 0) \/ (Z.testbit b 5 = true /\ Z.land b 32 = 32)).
  { pose proof (Z.testbit_spec' b 5 ltac:(lia)) as T.
    rewrite (land_mod256 b) by lia. destruct (octet_bits (b mod 256)) as (_ & B & _); [lia|]. rewrite B.
    change (2 ^ 5) with 32 in T. destruct (Z.testbit b 5); cbn [Z.b2z] in T; [right|left]; split; auto; lia. }
  assert (NM : BERTag_init a off <> Err (TLVExc 5)).
  { intros E. apply BERTag_init_err in E. discriminate. }
  assert (K : forall t, BERTag_getInstance a off = Ok t -> BERTag_init a off = Ok t).
  { intros t. unfold BERTag_getInstance, Constructed_init_bytes, Primitive_init_bytes. rewrite Hb. cbn [rbind].
    destruct (negb _), (Z.land b 32 =? 32), (Z.land b 32 =? 0); try discriminate;
    destruct (BERTag_init a off) as [t'|[]]; congruence. }
  split; [|split].
  - destruct B as [[-> ->] | [-> ->]]; cbn; split; intros; try reflexivity; try discriminate; now destruct NM.
  - destruct B as [[-> ->] | [-> ->]]; cbn; split; intros; try reflexivity; try discriminate; now destruct NM.
  - intros t Ht. apply K in Ht. rewrite (BERTag_init_constr a off t b Ht Hb).
    destruct B as [[-> ->] | [-> ->]]; reflexivity.
Qed.

Lemma C50_getInstance_errors_pf : forall a off e,
  BERTag_getInstance a off = Err e -> e = ArrayIndexOutOfBounds.
Proof.
  intros a off e. unfold BERTag_getInstance, Constructed_init_bytes, Primitive_init_bytes.
  destruct (py_get_cases a off) as [[b Hb]|Hb]; rewrite Hb; cbn [rbind]; [|congruence].
  assert (B : (Z.land (Z.shiftr b 5) 1 = 0 /\ Z.land b 32 = 0) \/ (Z.land (Z.shiftr b 5) 1 = 1 /\ Z.land b 32 = 32)).
  { apply constr_bit. }
  destruct (BERTag_init a off) as [t|e0] eqn:E; [|apply BERTag_init_err in E; subst];
  destruct B as [[-> ->] | [-> ->]]; cbn; congruence.
Qed.
