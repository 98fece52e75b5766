(** * C42-C49, C51: BERTLV: proofs *)
From Verif Require Import Py S_Base S_Number S_BER L_Py M_utils L_utils M_util L_util M_bertag LP_bertag M_bertlv S_TLV.
From Coq Require Import ZifyBool ZifyNat.
Ltac Zify.zify_post_hook ::= Z.div_mod_to_equations.


(** *** parsing one child *)
Lemma bit5 b : Z.testbit b 5 = negb (Z.land b 32 =? 0).
Proof.
  pose proof (Z.testbit_spec' b 5 ltac:(lia)) as T. change (2 ^ 5) with 32 in T.
  rewrite (land_mod256 b) by lia. destruct (octet_bits (b mod 256)) as (_ & B & _); [lia|]. rewrite B.
  destruct (Z.testbit b 5); cbn [Z.b2z] in T; lia.
Qed.

Lemma init_low a off b : py_get a off = Ok b -> b mod 32 <> 31 ->
  BERTag_getInstance a off = Ok (tag_of b).
Proof.
  intros Hb Hn. eapply getInstance_init; [exact Hb|]. unfold BERTag_init. rewrite Hb. cbn [rbind].
  assert (E : Z.land b 31 = b mod 32) by (change 31 with (Z.ones 5); now rewrite Z.land_ones by lia).
  rewrite E. replace (b mod 32 =? 31) with false by lia.
  rewrite land_255, shiftr_div by lia. unfold tag_of. now rewrite bit5.
Qed.

Lemma py_get_app {A} (pre : list A) x post : py_get (pre ++ x :: post) (zlen pre) = Ok x.
Proof.
  rewrite (py_get_in _ _ x).
  - now rewrite to_nat_zlen, nth_middle.
  - rewrite zlen_app, zlen_cons. pose proof (zlen_nonneg pre). pose proof (zlen_nonneg post). lia.
Qed.

Lemma py_slice_from_app {A} (pre post : list A) : py_slice_from (pre ++ post) (zlen pre) = post.
Proof.
  unfold py_slice_from, py_clamp. pose proof (zlen_nonneg pre). pose proof (zlen_nonneg post).
  replace (zlen pre <? 0) with false by lia. rewrite zlen_app, Z.min_l by lia.
  rewrite to_nat_zlen, skipn_app, skipn_all2, Nat.sub_diag by lia. reflexivity.
Qed.

Lemma py_slice_app {A} (pre v post : list A) :
  py_slice (pre ++ v ++ post) (zlen pre) (zlen pre + zlen v) = v.
Proof.
  pose proof (zlen_nonneg pre). pose proof (zlen_nonneg v). pose proof (zlen_nonneg post).
  rewrite py_slice_in by (rewrite ?zlen_app; lia).
  replace (zlen pre + zlen v - zlen pre) with (zlen v) by lia. rewrite !to_nat_zlen.
  unfold sub. rewrite skipn_app, skipn_all2, Nat.sub_diag by lia. cbn [app skipn].
  rewrite firstn_app, firstn_all, Nat.sub_diag. cbn. apply app_nil_r.
Qed.

Lemma short_pair n l : 0 <= n <= 127 -> getLengthPair (n :: l) = Ok (1, n).
Proof.
  intros H. unfold getLengthPair. cbn. 
  destruct (octet_bits n) as (B & _); [lia|]. rewrite B. now replace (n / 128 * 128 =? 128) with false by lia.
Qed.

Lemma parse_child pre ch post : simple ch ->
  getInstance (pre ++ enc ch ++ post) (zlen pre) None = Ok (tlv_of ch)
  /\ getLengthStatic (pre ++ enc ch ++ post) (zlen pre) = Ok (zlen (enc ch)).
Proof.
  intros (H1 & H2 & H3). destruct ch as [tb v]. cbn [fst snd] in *. unfold enc. cbn [fst snd app].
  set (a := pre ++ tb :: zlen v :: v ++ post).
  assert (Hg : BERTag_getInstance a (zlen pre) = Ok (tag_of tb)) by (apply init_low; auto; apply py_get_app).
  assert (Ha : a = (pre ++ [tb]) ++ zlen v :: v ++ post) by (unfold a; now rewrite <- app_assoc).
  assert (Hp : zlen pre + tag_size (tag_of tb) = zlen (pre ++ [tb])) by (rewrite zlen_app; reflexivity).
  assert (Hl : getLengthPair (py_slice_from a (zlen pre + tag_size (tag_of tb))) = Ok (1, zlen v)).
  { rewrite Hp, Ha, py_slice_from_app. apply short_pair. pose proof (zlen_nonneg v). lia. }
  assert (HL : getLengthStatic a (zlen pre) = Ok (1 + 1 + zlen v)).
  { unfold getLengthStatic. rewrite Hg. cbn [rbind]. rewrite Hl. reflexivity. }
  split.
  - unfold getInstance. rewrite HL. cbn [rbind]. rewrite Hg. cbn [rbind]. rewrite Hl. cbn [rbind].
    unfold init_tag, newTLV, tlv_of. cbn [tkind fst snd]. unfold tag_of at 1 3. cbn [tconstr].
    f_equal. unfold tag_size in *. cbn [tsize tag_of] in *.
    replace (1 + 1 + zlen v - 1 - 1) with (zlen v) by lia. f_equal. f_equal.
    replace (zlen pre + 1 + 1) with (zlen (pre ++ [tb; zlen v]))
      by (rewrite zlen_app, !zlen_cons; unfold zlen; cbn; lia).
    unfold a. replace (pre ++ tb :: zlen v :: v ++ post) with ((pre ++ [tb; zlen v]) ++ v ++ post)
      by (now rewrite <- app_assoc).
    apply py_slice_app.
  - rewrite HL. f_equal. rewrite !zlen_cons. lia.
Qed.

Lemma enc_length ch : zlen (enc ch) = 2 + zlen (snd ch).
Proof. unfold enc. rewrite !zlen_cons. lia. Qed.

Lemma encs_cons ch cs : encs (ch :: cs) = enc ch ++ encs cs.
Proof. reflexivity. Qed.
Lemma encs_app l l' : encs (l ++ l') = encs l ++ encs l'.
Proof. unfold encs. now rewrite map_app, concat_app. Qed.

Lemma tlv_of_size ch : simple ch -> tlv_size (tlv_of ch) = Ok (zlen (enc ch)).
Proof.
  intros (_ & _ & H). rewrite enc_length. unfold tlv_size, tlv_of, getLengthLen. cbn [ttag tlen tag_of tag_size tsize].
  unfold tag_size. cbn [tsize tag_of]. replace (127 <? zlen (snd ch)) with false by lia. reflexivity.
Qed.

Lemma C42_partial_pf : forall c k n v io arr off, identifier c k n io -> 0 <= c <= 3 -> n <= 30 ->
  zlen v <= 127 -> 0 <= off -> Forall anybyte arr ->
  octets (sub arr (Z.to_nat off) (length (io ++ [zlen v] ++ v))) = io ++ [zlen v] ++ v ->
  exists t g w, getInstance arr off None = Ok t /\ tkind t = k
    /\ ttag t = Some g /\ tclass g = c /\ tconstr g = k /\ tnumber g = n
    /\ tlen t = zlen v /\ tval t = Some w /\ octets w = v
    /\ tlv_size t = Ok (zlen (io ++ [zlen v] ++ v))
    /\ getLengthStatic arr off = Ok (zlen (io ++ [zlen v] ++ v)).
Proof.
  intros c k n v io arr off Hi Hc Hn Hv Ho Hb Hs.
  destruct Hi as [Hn'|]; [|lia].
  set (o := 64 * c + (if k then 32 else 0) + n) in *. cbn [app] in *.
  remember (sub arr (Z.to_nat off) (length (o :: zlen v :: v))) as seg eqn:Eseg.
  assert (Hlen : length seg = length (o :: zlen v :: v)).
  { rewrite <- Hs. unfold octets. now rewrite map_length. }
  destruct seg as [|tb [|L w]]; try discriminate Hlen.
  unfold octets in Hs. cbn [map] in Hs. injection Hs as E1 E2 E3.
  assert (Hr : (Z.to_nat off + length (o :: zlen v :: v) <= length arr)%nat).
  { rewrite Eseg, sub_length_gen in Hlen. cbn [length] in *. lia. }
  assert (Harr : arr = firstn (Z.to_nat off) arr ++ (tb :: L :: w) ++ skipn (Z.to_nat off + length (o :: zlen v :: v)) arr).
  { rewrite Eseg. unfold sub. rewrite <- (firstn_skipn (Z.to_nat off) arr) at 1. f_equal.
    rewrite <- (firstn_skipn (length (o :: zlen v :: v)) (skipn (Z.to_nat off) arr)) at 1. f_equal.
    rewrite skipn_skipn. f_equal. lia. }
  assert (Hin : forall x, In x (tb :: L :: w) -> anybyte x).
  { intros x Hx. rewrite Forall_forall in Hb. apply Hb. rewrite Harr. apply in_or_app. right. apply in_or_app. now left. }
  assert (HL : L = zlen v).
  { pose proof (Hin L ltac:(cbn; auto)) as Q. unfold anybyte in Q. pose proof (zlen_nonneg v). lia. }
  assert (Hw : zlen w = zlen v). { unfold zlen. cbn [length] in Hlen. lia. }
  assert (Hsi : simple (tb, w)).
  { split; [apply Hin; cbn; auto|]. cbn [fst snd]. unfold o in E1. split; [destruct k; lia|lia]. }
  pose proof (parse_child (firstn (Z.to_nat off) arr) (tb, w) (skipn (Z.to_nat off + length (o :: zlen v :: v)) arr) Hsi) as P.
  replace (firstn (Z.to_nat off) arr ++ enc (tb, w) ++ skipn (Z.to_nat off + length (o :: zlen v :: v)) arr) with arr in P.
  2: { unfold enc. cbn [fst snd]. rewrite Hw, <- HL. exact Harr. }
  replace (zlen (firstn (Z.to_nat off) arr)) with off in P.
  2: { unfold zlen. rewrite firstn_length. cbn [length] in Hr. lia. }
  destruct P as [P1 P2].
  assert (Hz : zlen (enc (tb, w)) = zlen (o :: zlen v :: v)) by (rewrite enc_length, !zlen_cons; cbn [snd]; lia).
  exists (tlv_of (tb, w)), (tag_of tb), w. rewrite <- Hz, <- Hw.
  split; [exact P1|]. unfold tlv_of. cbn [fst snd tkind ttag tlen tval tag_of tclass tconstr tnumber].
  assert (B5 : Z.testbit tb 5 = k).
  { rewrite bit5, (land_mod256 tb) by lia. destruct (octet_bits (tb mod 256)) as (_ & B & _); [lia|].
    rewrite B, E1. unfold o. destruct k; lia. }
  rewrite B5. split; [reflexivity|]. split; [reflexivity|].
  split; [rewrite E1; unfold o; destruct k; lia|]. split; [reflexivity|].
  split; [unfold o in E1; destruct k; lia|].
  split; [reflexivity|]. split; [reflexivity|]. split; [exact E3|]. split; [|exact P2].
  pose proof (tlv_of_size (tb, w) Hsi) as Q. unfold tlv_of in Q. cbn [fst snd] in Q. rewrite B5 in Q. exact Q.
Qed.

Lemma C42_high_tag_refuted_pf : forall c k n io arr off, identifier c k n io -> 0 <= c <= 3 -> 31 <= n ->
  0 <= off -> Forall anybyte arr ->
  octets (sub arr (Z.to_nat off) (length io)) = io ->
  getLengthStatic arr off = Ok (zlen io + n mod 128)
  /\ getInstance arr off None
     = Ok (mkTLV k (Some (mkTag c k n (zlen io - 1))) (n mod 128)
             (Some (py_slice arr (off + zlen io) (off + zlen io + n mod 128)))).
Proof.
  intros c k n io arr off Hi Hc Hn Ho Hb Hs.
  destruct (BERTag_init_exact c k n io arr off Hi Hc Ho Hs) as (E & b & Hbb & _).
  replace (n <=? 30) with false in E by lia.
  assert (Hg : BERTag_getInstance arr off = Ok (mkTag c k n (zlen io - 1))) by (eapply getInstance_init; eauto).
  assert (Hlen : (Z.to_nat off + length io <= length arr)%nat /\ (2 <= length io)%nat).
  { pose proof (f_equal (@length Z) Hs) as Q. unfold octets in Q. rewrite map_length, sub_length_gen in Q.
    destruct Hi; [lia|]. cbn [length] in *. rewrite app_length in *. cbn [length] in *. lia. }
  destruct (octets_get arr off io (length io - 1) Ho Hs ltac:(lia)) as (x & Hx & Hxm).
  assert (Hl : nth (length io - 1) io 0 = n mod 128).
  { destruct Hi as [?|ds d ? Hd]; [lia|]. cbn [length]. rewrite app_length. cbn [length].
    replace (S (length (map (fun x0 => (128 + x0)%Z) ds) + 1) - 1)%nat with (S (length (map (fun x0 => (128 + x0)%Z) ds)))%nat by lia.
    cbn [nth]. rewrite app_nth2, Nat.sub_diag by lia. cbn [nth].
    destruct Hd as (Hd1 & <- & _). rewrite digits_value_snoc. apply Forall_app in Hd1 as [_ Hd1]. inversion Hd1; subst. lia. }
  assert (Hxv : x = n mod 128).
  { rewrite Hl in Hxm. assert (anybyte x) by (rewrite Forall_forall in Hb; apply Hb; eapply py_get_In; eauto).
    unfold anybyte in *. lia. }
  assert (Hp : forall g, tag_size g = zlen io - 1 -> getLengthPair (py_slice_from arr (off + tag_size g)) = Ok (1, n mod 128)).
  { intros g ->. destruct (py_slice_from arr (off + (zlen io - 1))) as [|y l] eqn:El.
    - apply (f_equal (@length Z)) in El. unfold py_slice_from, py_clamp in El.
      rewrite skipn_length in El. cbn in El. unfold zlen in El.
      destruct (Z.ltb_spec (off + (Z.of_nat (length io) - 1)) 0); lia.
    - assert (y = x); [|subst; apply short_pair; lia].
      unfold py_slice_from, py_clamp in El. unfold zlen in El.
      destruct (Z.ltb_spec (off + (Z.of_nat (length io) - 1)) 0); [lia|].
      rewrite Z.min_l in El by lia.
      pose proof (skipn_nth arr (Z.to_nat (off + (Z.of_nat (length io) - 1))) 0 ltac:(lia)) as Q. rewrite El in Q.
      injection Q as -> _. rewrite (py_get_in arr _ 0) in Hx by (unfold zlen; lia).
      assert (Q : Z.to_nat (off + Z.of_nat (length io - 1)) = Z.to_nat (off + (Z.of_nat (length io) - 1))) by lia.
      rewrite Q in Hx. congruence. }
  assert (HL : getLengthStatic arr off = Ok (zlen io + n mod 128)).
  { unfold getLengthStatic. rewrite Hg. cbn [rbind]. rewrite Hp by reflexivity. cbn [rbind tag_size tsize].
    f_equal. unfold tag_size. cbn [tsize]. lia. }
  split; [exact HL|]. unfold getInstance. rewrite HL. cbn [rbind]. rewrite Hg. cbn [rbind].
  rewrite Hp by reflexivity. cbn [rbind]. unfold init_tag, newTLV. cbn [tkind tconstr]. unfold tag_size. cbn [tsize].
  replace (off + (zlen io - 1) + 1) with (off + zlen io) by lia.
  replace (zlen io + n mod 128 - (zlen io - 1) - 1) with (n mod 128) by lia. reflexivity.
Qed.

Lemma fold_le l : forall acc, fold_left (fun value i => Z.shiftl value 8 + i) l acc
  = acc * 256 ^ Z.of_nat (length l) + digits_value 256 l.
Proof.
  induction l as [|x l IH]; intros acc; [cbn; lia|].
  cbn [fold_left length digits_value]. rewrite IH, shiftl_mul, Nat2Z.inj_succ, Z.pow_succ_r by lia.
  change (2 ^ 8) with 256. ring.
Qed.

Lemma C42_long_form_refuted_pf : forall pre tb ds rest, anybyte tb -> tb mod 32 <> 31 ->
  (1 <= length ds <= 126)%nat ->
  let arr := pre ++ tb :: (128 + zlen ds) :: ds ++ rest in
  getLengthStatic arr (zlen pre) = Ok (1 + zlen ds + digits_value 256 (rev ds))
  /\ getInstance arr (zlen pre) None
     = Ok (mkTLV (Z.testbit tb 5) (Some (tag_of tb)) (digits_value 256 (rev ds))
             (Some (py_slice arr (zlen pre + 1 + zlen ds)
                      (zlen pre + 1 + zlen ds + digits_value 256 (rev ds))))).
Proof.
  intros pre tb ds rest H1 H2 H3 arr.
  assert (Hg : BERTag_getInstance arr (zlen pre) = Ok (tag_of tb)) by (apply init_low; auto; apply py_get_app).
  assert (Hl : getLengthPair (py_slice_from arr (zlen pre + tag_size (tag_of tb)))
               = Ok (zlen ds, digits_value 256 (rev ds))).
  { replace (zlen pre + tag_size (tag_of tb)) with (zlen (pre ++ [tb])) by (rewrite zlen_app; reflexivity).
    replace arr with ((pre ++ [tb]) ++ (128 + zlen ds) :: ds ++ rest) by (unfold arr; now rewrite <- app_assoc).
    rewrite py_slice_from_app. unfold getLengthPair.
    change (py_get (128 + zlen ds :: ds ++ rest) 0) with (@Ok Z (128 + zlen ds)). cbn [rbind].
    destruct (octet_bits (128 + zlen ds)) as (B1 & _ & _ & B2); [unfold zlen; lia|].
    rewrite B1, B2. replace ((128 + zlen ds) / 128 * 128 =? 128) with true by (unfold zlen; lia).
    replace ((128 + zlen ds) mod 128) with (zlen ds) by (unfold zlen; lia).
    pose proof (py_slice_app [128 + zlen ds] ds rest) as Q.
    change (zlen [128 + zlen ds]) with 1 in Q. cbn [app] in Q.
    rewrite (Z.add_comm (zlen ds) 1), Q, fold_le. f_equal. }
  assert (HL : getLengthStatic arr (zlen pre) = Ok (1 + zlen ds + digits_value 256 (rev ds))).
  { unfold getLengthStatic. rewrite Hg. cbn [rbind]. rewrite Hl. reflexivity. }
  split; [exact HL|]. unfold getInstance. rewrite HL. cbn [rbind]. rewrite Hg. cbn [rbind]. rewrite Hl. cbn [rbind].
  unfold init_tag, newTLV. cbn [tkind]. unfold tag_size. cbn [tsize tag_of tconstr].
  replace (1 + zlen ds + digits_value 256 (rev ds) - 1 - zlen ds) with (digits_value 256 (rev ds)) by lia.
  reflexivity.
Qed.

Lemma C42_getLengthLen_partial_pf : forall L, 0 <= L ->
  (min_len_octets L (getLengthLen L) <-> (L <= 253 \/ 256 <= L <= 380)).
Proof.
  intros L HL. unfold min_len_octets, getLengthLen.
  destruct (Z.ltb_spec 127 L) as [H|H]; [|lia].
  split.
  - intros [?|(_ & H2 & H3 & H4)]; [lia|].
    destruct (Z.le_gt_cases L 380) as [|Hb].
    { destruct (Z.eq_dec L 254) as [->|]; [exfalso; vm_compute in H3; apply H3; reflexivity|].
      destruct (Z.eq_dec L 255) as [->|]; [exfalso; vm_compute in H3; apply H3; reflexivity|]. lia. }
    exfalso. replace (L / 127 + 1 - 2) with (L / 127 - 1) in H3 by lia.
    assert (Hk : 3 <= L / 127) by lia. remember (L / 127) as q eqn:Eq.
    assert (HLq : L < 127 * (q + 1)) by lia.
    assert (Hpow : forall j, 0 <= j -> 127 * (j + 3 + 1) <= 256 ^ (j + 2)).
    { intros j Hj. pattern j. apply natlike_ind; [vm_compute; discriminate| |exact Hj].
      intros y Hy IH. replace (Z.succ y + 2) with (Z.succ (y + 2)) by lia. rewrite Z.pow_succ_r by lia. lia. }
    specialize (Hpow (q - 3) ltac:(lia)). replace (q - 3 + 2) with (q - 1) in Hpow by lia.
    replace (q - 3 + 3 + 1) with (q + 1) in Hpow by lia. lia.
  - intros HH. right. split; [exact H|].
    assert (HC : (L / 127 = 1 /\ L <= 253) \/ (L / 127 = 2 /\ 256 <= L <= 380)) by lia.
    destruct HC as [[-> ?]|[-> ?]].
    + change (256 ^ (1 + 1 - 2)) with 1. change (256 ^ (1 + 1 - 1)) with 256. lia.
    + change (256 ^ (2 + 1 - 2)) with 256. change (256 ^ (2 + 1 - 1)) with 65536. lia.
Qed.

(** *** serialising *)
Lemma toBytes_simple g v kd off out : 0 <= tclass g <= 3 -> 0 <= tnumber g <= 30 -> zlen v <= 127 ->
  0 <= off -> off + 2 + zlen v <= zlen out ->
  tlv_toBytes (mkTLV kd (Some g) (zlen v) (Some v)) off out
  = (Ok (2 + zlen v),
     splice (map s1 out) (Z.to_nat off)
       (twos 1 (64 * tclass g + (if tconstr g then 32 else 0) + tnumber g) :: zlen v :: v)).
Proof.
  intros Hc Hn Hv Ho Hr. unfold tlv_toBytes. cbn [ttag tlen tval].
  destruct g as [c k n sz]. cbn [tclass tnumber tconstr] in *.
  set (o := 64 * c + (if k then 32 else 0) + n).
  pose proof (zlen_nonneg v).
  erewrite bind_ok.
  2: { apply (toBytes_exact c k n sz [o] off out); [apply ident_low; exact Hn|exact Hc|exact Ho|].
       rewrite zlen_cons. change (zlen (@nil Z)) with 0. lia. }
  cbn [map]. replace (127 <? zlen v) with false by lia.
  change (zlen [o]) with 1. set (out1 := map s1 out).
  assert (L1 : zlen out1 = zlen out) by (unfold zlen, out1; now rewrite map_length).
  rewrite <- list_upd_splice by (unfold zlen in *; lia).
  erewrite bind_ok by (apply aset_in; rewrite zlen_list_upd; lia).
  erewrite bind_ok.
  2: { apply arrayCopy_into_ok; rewrite ?zlen_list_upd; lia. }
  unfold ret. f_equal.
  rewrite to_nat_zlen, sub_full by lia.
  replace (Z.to_nat (off + (1 + 1))) with (S (S (Z.to_nat off))) by lia.
  replace (Z.to_nat (off + 1)) with (S (Z.to_nat off)) by lia.
  rewrite splice_cons by (rewrite list_upd_length; unfold zlen in *; lia).
  rewrite splice_cons by (cbn [length]; unfold zlen in *; lia). reflexivity.
Qed.

Lemma C43_partial_pf : forall c k n v io arr off t out off', identifier c k n io -> 0 <= c <= 3 -> n <= 30 ->
  zlen v <= 127 -> 0 <= off -> Forall anybyte arr ->
  octets (sub arr (Z.to_nat off) (length (io ++ [zlen v] ++ v))) = io ++ [zlen v] ++ v ->
  getInstance arr off None = Ok t ->
  0 <= off' -> off' + zlen (io ++ [zlen v] ++ v) <= zlen out ->
  exists bs, octets bs = io ++ [zlen v] ++ v
    /\ tlv_toBytes t off' out = (Ok (zlen (io ++ [zlen v] ++ v)), splice (map s1 out) (Z.to_nat off') bs)
    /\ (Forall (fun b => b <= 127) out -> map s1 out = out).
Proof.
  intros c k n v io arr off t out off' Hi Hc Hn Hv Ho Hb Hs Ht Ho' Hr.
  destruct (C42_partial_pf c k n v io arr off Hi Hc Hn Hv Ho Hb Hs)
    as (t' & g & w & E & Ek & Eg & G1 & G2 & G3 & El & Ew & Hw & _).
  rewrite Ht in E. injection E as <-.
  destruct t as [kd og L ov]. cbn [tkind ttag tlen tval] in *. subst.
  destruct Hi as [Hn'|]; [|lia].
  assert (Hz : zlen (octets w) = zlen w) by (unfold zlen, octets; now rewrite map_length).
  rewrite Hz in *. cbn [app] in *. rewrite !zlen_cons in Hr.
  rewrite toBytes_simple; try lia.
  set (o := 64 * tclass g + (if tconstr g then 32 else 0) + tnumber g).
  exists (twos 1 o :: zlen w :: w). split; [|split].
  - unfold octets at 1. cbn [map]. f_equal; [|f_equal].
    + pose proof (twos_cong 1 o ltac:(lia)) as Q. change (2 ^ (8 * 1)) with 256 in Q. rewrite Q.
      apply Z.mod_small. unfold o. destruct (tconstr g); lia.
    + pose proof (zlen_nonneg w). apply Z.mod_small. lia.
  - f_equal. f_equal. rewrite !zlen_cons, Hz. lia.
  - intros Hf. rewrite <- (map_id out) at 2. apply map_ext_in. intros x Hx.
    rewrite Forall_forall in Hf. specialize (Hf x Hx). rewrite s1_spec. destruct (Z.leb_spec 128 x); lia.
Qed.

Lemma C43_refuted_pf : forall t off out, 127 < tlen t -> exists e, fst (tlv_toBytes t off out) = Err e
  /\ (forall g io, ttag t = Some g -> identifier (tclass g) (tconstr g) (tnumber g) io -> 0 <= tclass g <= 3 ->
        0 <= off -> off + zlen io <= zlen out -> e = NameError).
Proof.
  intros t off out H. unfold tlv_toBytes. destruct (ttag t) as [g|].
  2: { exists AttributeError. split; [reflexivity|discriminate]. }
  replace (127 <? tlen t) with true by lia.
  unfold bind. destruct (tag_toBytes g off out) as [[n|e] o] eqn:E.
  - exists NameError. split; [reflexivity|auto].
  - exists e. split; [reflexivity|]. intros g' io [= <-] Hi Hc Ho Hr. destruct g as [c k m sz].
    cbn [tclass tconstr tnumber] in *. rewrite (toBytes_exact c k m sz io) in E by auto. discriminate.
Qed.

(** *** find *)
Lemma has_tag_eqb g ch : has_tag g ch = tag_eqb (tag_of (fst ch)) g.
Proof. reflexivity. Qed.

(** a constructed TLV holding the children *)
Definition holds (self : tlv) (P : list Z) : Prop := tval self = Some P /\ tlen self = zlen P.

Lemma find_ok self g : forall cs pre fuel,
  Forall simple cs -> holds self (pre ++ encs cs) -> (length cs < fuel)%nat ->
  (exists l1 ch l2, cs = l1 ++ ch :: l2 /\ has_tag g ch = true /\ Forall (fun c => has_tag g c = false) l1
     /\ find_ fuel self (Some g) (zlen pre) = Ok (zlen (pre ++ encs l1)))
  \/ (Forall (fun c => has_tag g c = false) cs /\ find_ fuel self (Some g) (zlen pre) = Ok (-1)).
Proof.
  induction cs as [|ch cs IH]; intros pre fuel Hs Hh Hf; (destruct fuel as [|fuel]; [cbn in Hf; lia|]).
  - right. split; [constructor|]. cbn [find_]. destruct Hh as [_ ->].
    cbn. rewrite app_nil_r, Z.ltb_irrefl. reflexivity.
  - inversion Hs as [|? ? Hs1 Hs2]; subst. pose proof Hh as [Hv Hl]. rewrite encs_cons in Hv, Hl.
    destruct (parse_child pre ch (encs cs) Hs1) as [P _].
    assert (Hlt : zlen pre <? tlen self = true).
    { rewrite Hl, !zlen_app, enc_length. pose proof (zlen_nonneg (snd ch)). pose proof (zlen_nonneg (encs cs)). lia. }
    destruct (has_tag g ch) eqn:Eh.
    + left. exists [], ch, cs. split; [reflexivity|]. split; [exact Eh|]. split; [constructor|].
      cbn [find_]. rewrite Hlt, Hv, P. cbn [rbind]. unfold tlv_of. cbn [ttag tag_eq_opt rbind].
      rewrite <- has_tag_eqb, Eh. cbn. now rewrite app_nil_r.
    + destruct (IH (pre ++ enc ch) fuel Hs2) as [(l1 & c & l2 & E1 & E2 & E3 & E4)|(E1 & E2)].
      { unfold holds. rewrite encs_cons, app_assoc in Hh. exact Hh. }
      { cbn in Hf. lia. }
      * left. exists (ch :: l1), c, l2. subst cs. split; [reflexivity|]. split; [exact E2|].
        split; [constructor; auto|]. cbn [find_]. rewrite Hlt, Hv, P. cbn [rbind].
        unfold tlv_of at 1. cbn [ttag tag_eq_opt rbind]. rewrite <- has_tag_eqb, Eh.
        rewrite tlv_of_size by exact Hs1. cbn [rbind]. rewrite <- zlen_app, E4.
        rewrite encs_cons, app_assoc. reflexivity.
      * right. split; [constructor; auto|]. cbn [find_]. rewrite Hlt, Hv, P. cbn [rbind].
        unfold tlv_of at 1. cbn [ttag tag_eq_opt rbind]. rewrite <- has_tag_eqb, Eh.
        rewrite tlv_of_size by exact Hs1. cbn [rbind]. rewrite <- zlen_app. exact E2.
Qed.

Lemma find_first {A} (p : A -> bool) l1 x l2 : Forall (fun c => p c = false) l1 -> p x = true ->
  find p (l1 ++ x :: l2) = Some x.
Proof. induction 1; cbn; intros Hx; [now rewrite Hx|]. rewrite H. auto. Qed.
Lemma find_none_all {A} (p : A -> bool) l : Forall (fun c => p c = false) l -> find p l = None.
Proof. induction 1; cbn; auto. now rewrite H. Qed.

Lemma getInstance_at self pre l1 ch l2 : holds self (pre ++ encs (l1 ++ ch :: l2)) -> simple ch ->
  getInstance_of self (zlen (pre ++ encs l1)) = Ok (tlv_of ch).
Proof.
  intros [Hv _] Hs. unfold getInstance_of. rewrite Hv, encs_app, encs_cons, app_assoc. now apply parse_child.
Qed.

Lemma C44_partial_pf : forall cs self g fuel, Forall simple cs ->
  tval self = Some (encs cs) -> tlen self = zlen (encs cs) -> (length cs < fuel)%nat ->
  findBound fuel self (Some g) = Ok (option_map tlv_of (find (has_tag g) cs))
  /\ findBound fuel self None = Ok (option_map tlv_of (hd_error cs)).
Proof.
  intros cs self g fuel Hs Hv Hl Hf. split.
  - unfold findBound. change 0 with (zlen (@nil Z)).
    destruct (find_ok self g cs [] fuel Hs) as [(l1 & ch & l2 & E1 & E2 & E3 & E4)|(E1 & E2)];
      [split; auto|exact Hf| |].
    + rewrite E4. cbn [rbind]. replace (zlen ([] ++ encs l1) =? -1) with false
        by (pose proof (zlen_nonneg ([] ++ encs l1)); lia).
      subst cs. rewrite (getInstance_at self [] l1 ch l2).
      * now rewrite (find_first _ l1 ch l2).
      * split; auto.
      * rewrite Forall_forall in Hs. apply Hs. apply in_or_app. right. cbn. auto.
    + rewrite E2. cbn [rbind]. now rewrite find_none_all.
  - unfold findBound. destruct cs as [|ch cs]; cbn [hd_error option_map].
    + rewrite Hl. reflexivity.
    + inversion Hs; subst. rewrite Hl, encs_cons, zlen_app, enc_length.
      pose proof (zlen_nonneg (snd ch)). pose proof (zlen_nonneg (encs cs)).
      replace (0 <? _) with true by lia. change 0 with (zlen ([] ++ encs [])).
      rewrite (getInstance_at self [] [] ch cs); auto. split; auto.
Qed.

Lemma C44_static_partial_pf : forall pre tb cs post ta toff g fuel, simple (tb, encs cs) -> Z.testbit tb 5 = true ->
  Forall simple cs -> (length cs < fuel)%nat -> BERTag_getInstance ta toff = Ok g ->
  let arr := pre ++ enc (tb, encs cs) ++ post in
  getValueOffset arr (zlen pre) = Ok (zlen pre + 2)
  /\ ((exists l1 ch l2, cs = l1 ++ ch :: l2 /\ has_tag g ch = true /\ Forall (fun c => has_tag g c = false) l1
        /\ findStatic fuel arr (zlen pre) (Some ta) toff = Ok (zlen pre + 2 + zlen (encs l1)))
      \/ (Forall (fun c => has_tag g c = false) cs
        /\ findStatic fuel arr (zlen pre) (Some ta) toff = Ok (-1)))
  /\ findStatic fuel arr (zlen pre) None toff = Ok (if 0 <? zlen (encs cs) then zlen pre + 2 else -1).
Proof.
  intros pre tb cs post ta toff g fuel Hs Hk Hc Hf Hg arr.
  destruct (parse_child pre (tb, encs cs) post Hs) as [P _]. destruct Hs as (_ & _ & Hl). cbn [snd] in Hl.
  unfold getValueOffset, findStatic. unfold arr. rewrite P. cbn [rbind].
  unfold tlv_of. cbn [tlen ttag fst snd tkind]. rewrite Hk.
  unfold getLengthLen. replace (127 <? zlen (encs cs)) with false by lia.
  unfold tag_size. cbn [tsize tag_of]. replace (zlen pre + 1 + 1) with (zlen pre + 2) by lia.
  split; [reflexivity|]. split; [|destruct (0 <? zlen (encs cs)); reflexivity].
  rewrite Hg. cbn [rbind].
  set (self := mkTLV _ _ _ _).
  destruct (find_ok self g cs [] fuel Hc) as [(l1 & ch & l2 & E1 & E2 & E3 & E4)|(E1 & E2)];
    [split; auto|exact Hf| |].
  - left. exists l1, ch, l2. repeat (split; [assumption|]). change (zlen (@nil Z)) with 0 in E4. rewrite E4.
    cbn [rbind app]. now replace (zlen (encs l1) =? -1) with false by (pose proof (zlen_nonneg (encs l1)); lia).
  - right. split; [exact E1|]. change (zlen (@nil Z)) with 0 in E2. rewrite E2. reflexivity.
Qed.

Lemma C44_refuted_pf : exists self g io1 io2, identifier 0 false 31 io1 /\ identifier 0 false 5 io2
  /\ tval self = Some ((io1 ++ [1; 7]) ++ (io2 ++ [1; 9])) /\ tlen self = zlen ((io1 ++ [1; 7]) ++ (io2 ++ [1; 9]))
  /\ BERTag_getInstance io2 0 = Ok g
  /\ forall fuel, (1 < fuel)%nat -> findBound fuel self (Some g) = Ok None.
Proof.
  exists (mkTLV true None 7 (Some [31; 31; 1; 7; 5; 1; 9])), (mkTag 0 false 5 1), [31; 31], [5].
  split; [apply (ident_high 0 false 31 [] 31); [lia|]; split; [repeat constructor; lia|]; split; [reflexivity|cbn; lia]|].
  split; [apply (ident_low 0 false 5); lia|]. split; [reflexivity|]. split; [reflexivity|]. split; [reflexivity|].
  intros [|[|fuel]] Hf; try lia. reflexivity.
Qed.

Lemma after_skip p l1 rest n : Forall (fun c => p c = false) l1 ->
  after p (l1 ++ rest) (S n) = after p rest (S n).
Proof. induction 1; [reflexivity|]. cbn [app after]. now rewrite H. Qed.
Lemma after_none p l n : Forall (fun c => p c = false) l -> after p l (S n) = None.
Proof. induction 1; [reflexivity|]. cbn [after]. now rewrite H. Qed.

Definition same_as (ga : tag) (va : list Z) (ch : child) : bool :=
  has_tag ga ch && list_eqb (snd ch) va.

Lemma occurrence_ok self ga va aTLV n : ttag aTLV = Some ga -> tval aTLV = Some va ->
  forall cs pre fuel i,
  Forall simple cs -> holds self (pre ++ encs cs) -> (length cs < fuel)%nat ->
  occurrence_loop fuel self aTLV i n (zlen pre)
  = Ok (option_map (fun rest => zlen (pre ++ encs cs) - zlen (encs rest))
          (after (same_as ga va) cs (Z.to_nat (n - i)))).
Proof.
  intros Ha Hva cs. remember (length cs) as m eqn:Em. revert cs Em.
  induction m as [m IH] using lt_wf_ind. intros cs -> pre fuel i Hs Hh Hf.
  destruct fuel as [|fuel]; [lia|]. cbn [occurrence_loop].
  destruct (Z.ltb_spec i n) as [Hi|Hi].
  2: { replace (Z.to_nat (n - i)) with O by lia. destruct cs; cbn [after option_map]; rewrite zlen_app; do 2 f_equal; lia. }
  destruct (Z.to_nat (n - i)) as [|k] eqn:Ek; [lia|]. rewrite Ha.
  destruct (find_ok self ga cs pre (S fuel) Hs Hh Hf) as [(l1 & ch & l2 & E1 & E2 & E3 & E4)|(E1 & E2)].
  - rewrite E4. cbn [rbind]. replace (zlen (pre ++ encs l1) =? -1) with false
      by (pose proof (zlen_nonneg (pre ++ encs l1)); lia).
    subst cs. pose proof Hs as Hs'. apply Forall_app in Hs' as [_ Hs']. inversion Hs' as [|? ? Hc Hl2]; subst.
    rewrite (getInstance_at self pre l1 ch l2) by auto. cbn [rbind].
    rewrite tlv_of_size by auto. cbn [rbind]. rewrite Hva. cbn [tlv_of tval opt_list_eqb].
    assert (Hp : Forall (fun c => same_as ga va c = false) l1).
    { eapply Forall_impl; [|exact E3]. cbn. intros c Hc'. unfold same_as. now rewrite Hc'. }
    rewrite after_skip by exact Hp. cbn [after]. unfold same_as at 1. rewrite E2. cbn [andb].
    assert (Hh' : holds self ((pre ++ encs l1 ++ enc ch) ++ encs l2)).
    { rewrite encs_app, encs_cons in Hh. rewrite <- !app_assoc. exact Hh. }
    assert (Hz : zlen (pre ++ encs l1) + zlen (enc ch) = zlen (pre ++ encs l1 ++ enc ch)) by (rewrite !zlen_app; lia).
    assert (HP : zlen (pre ++ encs (l1 ++ ch :: l2)) = zlen ((pre ++ encs l1 ++ enc ch) ++ encs l2)).
    { rewrite encs_app, encs_cons, <- !app_assoc. reflexivity. }
    assert (Hlen : (length l2 < length (l1 ++ ch :: l2))%nat) by (rewrite app_length; cbn; lia).
    rewrite Hz, HP.
    destruct (list_eqb (snd ch) va).
    + rewrite (IH (length l2) Hlen l2 eq_refl (pre ++ encs l1 ++ enc ch) fuel (i + 1) Hl2 Hh' ltac:(lia)).
      replace (Z.to_nat (n - (i + 1))) with k by lia. reflexivity.
    + rewrite (IH (length l2) Hlen l2 eq_refl (pre ++ encs l1 ++ enc ch) fuel i Hl2 Hh' ltac:(lia)).
      rewrite Ek. reflexivity.
  - rewrite E2. cbn [rbind]. change (-1 =? -1) with true. cbv iota.
    rewrite after_none; [reflexivity|]. eapply Forall_impl; [|exact E1]. cbn. intros c Hc'. unfold same_as. now rewrite Hc'.
Qed.

Lemma after_suffix p cs : forall n rest, after p cs n = Some rest -> exists l, cs = l ++ rest.
Proof.
  induction cs as [|ch cs IH]; intros [|n] rest H; cbn in H; try discriminate.
  - injection H as <-. now exists [].
  - injection H as <-. now exists [].
  - destruct (p ch); apply IH in H as [l ->]; now exists (ch :: l).
Qed.

Lemma C45_partial_pf : forall cs self g ga va aTLV n fuel, Forall simple cs ->
  tval self = Some (encs cs) -> tlen self = zlen (encs cs) -> (length cs < fuel)%nat ->
  ttag aTLV = Some ga -> tval aTLV = Some va -> 1 <= n ->
  findNextBound fuel self (Some g) aTLV n
  = Ok (match after (fun ch => has_tag ga ch && list_eqb (snd ch) va) cs (Z.to_nat n) with
        | None => None
        | Some rest => option_map tlv_of (find (has_tag g) rest)
        end).
Proof.
  intros cs self g ga va aTLV n fuel Hs Hv Hl Hf Ha Hva Hn. unfold findNextBound.
  pose proof (occurrence_ok self ga va aTLV n Ha Hva cs [] fuel 0 Hs) as Q.
  change (zlen (@nil Z)) with 0 in Q. rewrite Q by (auto; split; auto). clear Q.
  rewrite Z.sub_0_r. cbn [rbind]. change (fun ch => has_tag ga ch && list_eqb (snd ch) va) with (same_as ga va).
  destruct (after (same_as ga va) cs (Z.to_nat n)) as [rest|] eqn:E; cbn [option_map]; [|reflexivity].
  apply after_suffix in E as [l ->]. cbn [app]. rewrite encs_app in *.
  replace (zlen (encs l ++ encs rest) - zlen (encs rest)) with (zlen (encs l)) by (rewrite zlen_app; lia).
  apply Forall_app in Hs as [_ Hs].
  destruct (find_ok self g rest (encs l) fuel Hs) as [(l1 & ch & l2 & E1 & E2 & E3 & E4)|(E1 & E2)].
  { split; auto. } { rewrite app_length in Hf. lia. }
  - rewrite E4. cbn [rbind]. replace (zlen (encs l ++ encs l1) =? -1) with false
      by (pose proof (zlen_nonneg (encs l ++ encs l1)); lia).
    subst rest. rewrite (getInstance_at self (encs l) l1 ch l2).
    + now rewrite (find_first _ l1 ch l2).
    + split; auto.
    + rewrite Forall_forall in Hs. apply Hs. apply in_or_app. right. cbn. auto.
  - rewrite E2. cbn [rbind]. now rewrite find_none_all.
Qed.

Lemma C45_refuted_pf : forall cs self ga va aTLV n fuel, Forall simple cs ->
  tval self = Some (encs cs) -> tlen self = zlen (encs cs) -> (length cs < fuel)%nat ->
  ttag aTLV = Some ga -> tval aTLV = Some va -> 1 <= n ->
  (after (fun ch => has_tag ga ch && list_eqb (snd ch) va) cs (Z.to_nat n) = Some [] ->
   findNextBound fuel self None aTLV n = Err ArrayIndexOutOfBounds)
  /\ (forall ch rest, after (fun ch => has_tag ga ch && list_eqb (snd ch) va) cs (Z.to_nat n) = Some (ch :: rest) ->
      findNextBound fuel self None aTLV n = Ok (Some (tlv_of ch))).
Proof.
  intros cs self ga va aTLV n fuel Hs Hv Hl Hf Ha Hva Hn. unfold findNextBound.
  pose proof (occurrence_ok self ga va aTLV n Ha Hva cs [] fuel 0 Hs) as Q.
  change (zlen (@nil Z)) with 0 in Q. rewrite Q by (auto; split; auto). clear Q.
  rewrite Z.sub_0_r. cbn [rbind]. change (fun ch => has_tag ga ch && list_eqb (snd ch) va) with (same_as ga va).
  split.
  - intros E. rewrite E. cbn [option_map]. cbn [app encs map concat].
    change (zlen (@nil Z)) with 0. rewrite Z.sub_0_r. unfold getInstance_of. rewrite Hv.
    assert (Q : py_get (encs cs) (zlen (encs cs)) = Err IndexError) by (apply py_get_out; lia).
    unfold getInstance, getLengthStatic, BERTag_getInstance. rewrite Q. reflexivity.
  - intros ch rest E. rewrite E. cbn [option_map]. cbn [app].
    apply after_suffix in E as [l ->].
    replace (zlen (encs (l ++ ch :: rest)) - zlen (encs (ch :: rest))) with (zlen ([] ++ encs l))
      by (cbn [app]; rewrite encs_app, zlen_app; lia).
    apply Forall_app in Hs as [_ Hs]. inversion Hs; subst.
    rewrite (getInstance_at self [] l ch rest); auto. split; auto.
Qed.

(** *** termination *)
Lemma tag_loop_len a off : forall fuel num bLen r bl, tag_loop fuel a off num bLen = Ok (r, bl) -> bLen <= bl.
Proof.
  induction fuel as [|f IH]; intros num bLen r bl H; [discriminate|]. cbn [tag_loop] in H.
  destruct (py_get a (off + bLen)) as [x|]; cbn [rbind] in H; [|discriminate].
  destruct (Z.land x 128 =? 128); [apply IH in H; lia|]. injection H as <- <-. lia.
Qed.

Lemma getInstance_tag_size a off g : BERTag_getInstance a off = Ok g -> 1 <= tag_size g.
Proof.
  intros H. assert (E : BERTag_init a off = Ok g).
  { unfold BERTag_getInstance, Constructed_init_bytes, Primitive_init_bytes in H.
    destruct (py_get a off) as [b|[]]; cbn [rbind] in H; try discriminate.
    destruct (negb _), (Z.land b 32 =? 32), (Z.land b 32 =? 0); try discriminate;
    destruct (BERTag_init a off) as [t'|[]]; congruence. }
  unfold BERTag_init in E. destruct (py_get a off) as [b|]; cbn [rbind] in E; [|discriminate].
  destruct (Z.land b 31 =? 31).
  - destruct (tag_loop _ _ _ _ _) as [[num bl]|] eqn:Et; cbn [rbind] in E; [|discriminate].
    destruct (py_get a (off + bl)); cbn [rbind] in E; [|discriminate]. injection E as <-. cbn.
    apply tag_loop_len in Et. unfold tag_size. cbn. lia.
  - injection E as <-. unfold tag_size. cbn. lia.
Qed.

Lemma digits_value_nn B l : 0 <= B -> Forall (fun b => 0 <= b) l -> 0 <= digits_value B l.
Proof.
  intros HB. induction 1; cbn [digits_value]; [lia|].
  assert (0 <= B ^ Z.of_nat (length l)) by (apply Z.pow_nonneg; lia). nia.
Qed.

Lemma Forall_firstn {A} (P : A -> Prop) n l : Forall P l -> Forall P (firstn n l).
Proof. intros H. rewrite <- (firstn_skipn n l) in H. now apply Forall_app in H as [H _]. Qed.
Lemma Forall_skipn {A} (P : A -> Prop) n l : Forall P l -> Forall P (skipn n l).
Proof. intros H. rewrite <- (firstn_skipn n l) in H. now apply Forall_app in H as [_ H]. Qed.

Lemma getLengthPair_nonneg l x y : Forall (fun b => 0 <= b) l -> getLengthPair l = Ok (x, y) -> 0 <= y.
Proof.
  intros Hl. unfold getLengthPair. destruct (py_get l 0) as [b|] eqn:Eb; cbn [rbind]; [|discriminate].
  assert (Hb : 0 <= b) by (rewrite Forall_forall in Hl; apply Hl; eapply py_get_In; eauto).
  destruct (Z.land b 128 =? 128).
  - intros H. injection H as _ <-. rewrite fold_le. rewrite Z.mul_0_l, Z.add_0_l.
    apply digits_value_nn; [lia|]. apply Forall_rev. unfold py_slice. now apply Forall_firstn, Forall_skipn.
  - intros H. injection H as _ <-. exact Hb.
Qed.

Lemma getInstance_progress v off t : Forall (fun b => 0 <= b) v -> getInstance v off None = Ok t ->
  exists n, tlv_size t = Ok n /\ 2 <= n.
Proof.
  intros Hv. unfold getInstance, getLengthStatic.
  destruct (BERTag_getInstance v off) as [g|] eqn:Eg; cbn [rbind]; [|discriminate].
  destruct (getLengthPair _) as [[l L]|] eqn:El; cbn [rbind]; [|discriminate].
  intros H. injection H as <-. unfold tlv_size, init_tag. cbn [ttag tlen].
  eexists. split; [reflexivity|].
  apply getInstance_tag_size in Eg. apply getLengthPair_nonneg in El.
  2: { unfold py_slice_from. now apply Forall_skipn. }
  replace (tag_size g + l + L - tag_size g - l) with L by lia. unfold getLengthLen.
  destruct (Z.ltb_spec 127 L); lia.
Qed.

Lemma getInstance_not_fuel v off b : getInstance v off b <> Err OutOfFuel.
Proof.
  assert (H1 : forall a o, BERTag_getInstance a o <> Err OutOfFuel).
  { intros a o E. apply C50_getInstance_errors_pf in E. discriminate. }
  assert (H2 : forall l, getLengthPair l <> Err OutOfFuel).
  { intros l. unfold getLengthPair. destruct (py_get_cases l 0) as [[x Hx]|Hx]; rewrite Hx; cbn [rbind]; [|discriminate].
    destruct (_ =? 128); discriminate. }
  unfold getInstance, getLengthStatic.
  destruct (BERTag_getInstance v off) as [g|e] eqn:Eg; cbn [rbind].
  2: { pose proof (H1 v off). destruct b; cbn [rbind]; congruence. }
  destruct (getLengthPair (py_slice_from v (off + tag_size g))) as [[l L]|e] eqn:El; cbn [rbind].
  - destruct b; cbn [rbind]; discriminate.
  - pose proof (H2 (py_slice_from v (off + tag_size g))). destruct b; cbn [rbind]; congruence.
Qed.

Lemma C46_refuted_pf : exists self, forall g, tag_eqb (mkTag 0 false 1 1) g = false ->
  forall fuel, find_ fuel self (Some g) 0 = Err OutOfFuel /\ findBound fuel self (Some g) = Err OutOfFuel.
Proof.
  exists (mkTLV true None 3 (Some [1; 0x81 - 256; -2])). intros g Hg fuel.
  assert (H : find_ fuel (mkTLV true None 3 (Some [1; 0x81 - 256; -2])) (Some g) 0 = Err OutOfFuel).
  { induction fuel as [|f IH]; [reflexivity|]. cbn [find_].
    change (0 <? tlen (mkTLV true None 3 (Some [1; 129 - 256; -2]))) with true. cbv iota. cbn [tval].
    replace (getInstance [1; 129 - 256; -2] 0 None)
      with (Ok (mkTLV false (Some (mkTag 0 false 1 1)) (-2) (Some (@nil Z)))) by reflexivity.
    cbn [rbind ttag tag_eq_opt]. rewrite Hg. exact IH. }
  split; [exact H|]. unfold findBound. now rewrite H.
Qed.

Lemma C46_partial_pf : forall self v g fuel, tval self = Some v -> Forall (fun b => 0 <= b) v ->
  (Z.to_nat (tlen self) < fuel)%nat ->
  find_ fuel self g 0 <> Err OutOfFuel /\ findBound fuel self g <> Err OutOfFuel.
Proof.
  intros self v g fuel Hv Hb Hf.
  assert (H : forall fuel off, 0 <= off -> (Z.to_nat (tlen self - off) < fuel)%nat -> find_ fuel self g off <> Err OutOfFuel).
  { clear fuel Hf. induction fuel as [|f IH]; intros off Ho Hf; [lia|]. cbn [find_].
    destruct (Z.ltb_spec off (tlen self)); [|discriminate]. rewrite Hv.
    destruct (getInstance v off None) as [t|e] eqn:E; cbn [rbind].
    2: { pose proof (getInstance_not_fuel v off None). congruence. }
    destruct (getInstance_progress v off t Hb E) as (n & En & Hn).
    unfold tag_eq_opt. destruct (ttag t) as [gt|]; [|discriminate]. destruct g as [g|]; [|discriminate].
    cbn [rbind]. destruct (tag_eqb gt g); [discriminate|]. rewrite En. cbn [rbind]. apply IH; lia. }
  assert (H0 : find_ fuel self g 0 <> Err OutOfFuel) by (apply H; [lia|]; rewrite Z.sub_0_r; exact Hf).
  split; [exact H0|]. unfold findBound.
  assert (G : forall off, rmap Some (getInstance_of self off) <> Err OutOfFuel).
  { intros off. unfold getInstance_of. rewrite Hv. pose proof (getInstance_not_fuel v off None).
    destruct (getInstance v off None); cbn [rmap]; congruence. }
  destruct g as [g|].
  - destruct (find_ fuel self (Some g) 0) as [o|e]; cbn [rbind]; [|congruence].
    destruct (o =? -1); [discriminate|apply G].
  - destruct (0 <? tlen self); [apply G|discriminate].
Qed.

(** *** append *)
Lemma repeat_s1 n : map s1 (repeat 0 n) = repeat 0 n.
Proof. induction n; cbn; [auto|]. now rewrite IHn. Qed.

Lemma append_simple g v kc self P : 0 <= tclass g <= 3 -> 0 <= tnumber g <= 30 -> tag_size g = 1 ->
  zlen v <= 127 -> tval self = Some P ->
  let self' := mkTLV (tkind self) (ttag self) (tlen self + (2 + zlen v))
     (Some (P ++ twos 1 (64 * tclass g + (if tconstr g then 32 else 0) + tnumber g) :: zlen v :: v)) in
  append (mkTLV kc (Some g) (zlen v) (Some v)) self = (tlv_size self', self').
Proof.
  intros H1 H2 H3 H4 H5 self'. unfold append. pose proof (zlen_nonneg v).
  assert (Hsz : tlv_size (mkTLV kc (Some g) (zlen v) (Some v)) = Ok (2 + zlen v)).
  { unfold tlv_size. cbn [ttag tlen]. unfold getLengthLen. rewrite H3. replace (127 <? zlen v) with false by lia.
    reflexivity. }
  rewrite Hsz. rewrite (bind_ok _ _ _ (2 + zlen v) self) by reflexivity.
  set (bytes := twos 1 (64 * tclass g + (if tconstr g then 32 else 0) + tnumber g) :: zlen v :: v) in *.
  erewrite (bind_ok _ _ _ bytes self).
  2: { rewrite toBytes_simple; try lia.
       2: { unfold py_repeat. rewrite zlen_repeat. lia. }
       f_equal. f_equal. unfold py_repeat. rewrite repeat_s1. apply splice_all.
       rewrite repeat_length. unfold bytes. cbn [length]. unfold zlen. lia. }
  rewrite (bind_ok _ _ _ self self) by reflexivity. rewrite H5.
  reflexivity.
Qed.

Lemma tag_byte tb :
  twos 1 (64 * tclass (tag_of tb) + (if tconstr (tag_of tb) then 32 else 0) + tnumber (tag_of tb)) = twos 1 tb.
Proof.
  apply twos_congr; [lia|]. change (2 ^ (8 * 1)) with 256. unfold tag_of. cbn [tclass tconstr tnumber].
  rewrite bit5, (land_mod256 tb) by lia. destruct (octet_bits (tb mod 256)) as (_ & B & _); [lia|]. rewrite B.
  destruct (Z.eqb_spec ((tb mod 256 / 32) mod 2 * 32) 0); cbn [negb]; lia.
Qed.

Lemma C47_partial_pf : forall tb v self P cs, simple (tb, v) -> tval self = Some P ->
  exists r self', append (tlv_of (tb, v)) self = (r, self')
  /\ r = tlv_size self' /\ tkind self' = tkind self /\ ttag self' = ttag self
  /\ tval self' = Some (P ++ enc (twos 1 tb, v))
  /\ tlen self' = tlen self + zlen (enc (tb, v))
  /\ (P = encs cs -> tval self' = Some (encs (cs ++ [(twos 1 tb, v)])) /\ tag_of (twos 1 tb) = tag_of tb).
Proof.
  intros tb v self P cs (H1 & H2 & H3) HP. cbn [fst snd] in *.
  pose proof (tag_byte tb) as Ht.
  unfold tlv_of. cbn [fst snd].
  assert (G1 : 0 <= tclass (tag_of tb) <= 3) by (unfold tag_of; cbn [tclass]; lia).
  assert (G2 : 0 <= tnumber (tag_of tb) <= 30) by (unfold tag_of; cbn [tnumber]; lia).
  assert (G3 : tag_size (tag_of tb) = 1) by reflexivity.
  pose proof (append_simple (tag_of tb) v (Z.testbit tb 5) self P G1 G2 G3 H3 HP) as Q.
  cbv zeta in Q. rewrite Ht in Q.
  eexists _, _. split; [exact Q|]. split; [reflexivity|]. cbn [tkind ttag tlen tval].
  split; [reflexivity|]. split; [reflexivity|]. split; [reflexivity|].
  split; [rewrite enc_length; cbn [snd]; reflexivity|].
  intros ->. split.
  - rewrite encs_app. cbn [encs map concat]. now rewrite app_nil_r.
  - pose proof (twos_cong 1 tb ltac:(lia)) as C. change (2 ^ (8 * 1)) with 256 in C.
    unfold tag_of. f_equal; [lia| |lia].
    rewrite !bit5, (land_mod256 (twos 1 tb)), (land_mod256 tb), C by lia. reflexivity.
Qed.

Lemma C47_static_partial_pf : forall pre tb P post pre' ch post', simple (tb, P) -> Z.testbit tb 5 = true ->
  simple ch -> zlen P + zlen (enc ch) <= 127 ->
  let out := pre ++ enc (tb, P) ++ post in
  zlen (enc ch) <= zlen post ->
  appendStatic (pre' ++ enc ch ++ post') (zlen pre') (zlen pre) out
  = (Ok (2 + (zlen P + zlen (enc ch))),
     splice (map s1 out) (length pre) (enc (twos 1 tb, P ++ enc (twos 1 (fst ch), snd ch)))).
Proof.
  intros pre tb P post pre' [cb v] post' Hp Hk Hc Hl out Hr.
  destruct (parse_child pre (tb, P) post Hp) as [E1 _]. destruct (parse_child pre' (cb, v) post' Hc) as [E2 _].
  unfold appendStatic. rewrite E2. rewrite (bind_ok _ _ _ (tlv_of (cb, v)) out) by reflexivity.
  rewrite (bind_ok _ _ _ out out) by reflexivity. unfold out at 1. rewrite E1.
  rewrite (bind_ok _ _ _ (tlv_of (tb, P)) out) by reflexivity.
  destruct (C47_partial_pf cb v (tlv_of (tb, P)) P [] Hc eq_refl) as (r & s' & Ea & Er & K & G & V & L & _).
  cbn [tlv_of fst snd tkind ttag] in K, G, L. change (tkind (tlv_of (tb, P))) with (Z.testbit tb 5). rewrite Hk, Ea.
  destruct s' as [k' g' l' v']. cbn [tkind ttag tval tlen] in *. subst k' g' v' l'.
  unfold tlv_size in Er. cbn [ttag] in Er. subst r. cbn [fst snd].
  assert (Ht : twos 1 (64 * tclass (tag_of tb) + (if tconstr (tag_of tb) then 32 else 0) + tnumber (tag_of tb)) = twos 1 tb).
  { apply tag_byte. }
  assert (Hz : zlen P + zlen (enc (cb, v)) = zlen (P ++ enc (twos 1 cb, v))) by (rewrite zlen_app, !enc_length; reflexivity).
  change (tlen (tlv_of (tb, P))) with (zlen P). rewrite Hz. cbn [snd]. rewrite Hz in Hl.
  destruct Hp as (_ & Hp & _). cbn [fst] in Hp.
  rewrite toBytes_simple; try lia.
  - rewrite Ht. rewrite to_nat_zlen. reflexivity.
  - unfold tag_of; cbn [tclass]; lia.
  - unfold tag_of; cbn [tnumber]; lia.
  - apply zlen_nonneg.
  - rewrite <- Hz. unfold out. rewrite !zlen_app, (enc_length (tb, P)). cbn [snd]. lia.
Qed.

Lemma C47_refuted_pf : forall g c n v kc self,
  (g = newPrimitiveBERTag \/ g = newConstructedBERTag) -> 0 <= c <= 3 -> 0 <= n <= 30 -> zlen v <= 127 ->
  exists e, append (mkTLV kc (Some (init_class_number g c n)) (zlen v) (Some v)) self = (Err e, self).
Proof.
  intros g c n v kc self Hg Hc Hn Hv. unfold append.
  set (g' := init_class_number g c n). pose proof (zlen_nonneg v).
  assert (Hsz : tlv_size (mkTLV kc (Some g') (zlen v) (Some v)) = Ok (1 + zlen v)).
  { unfold tlv_size. cbn [ttag tlen]. unfold getLengthLen, tag_size. replace (127 <? zlen v) with false by lia.
    destruct Hg as [-> | ->]; reflexivity. }
  rewrite Hsz. rewrite (bind_ok _ _ _ (1 + zlen v) self) by reflexivity.
  assert (Hf : exists e o, tlv_toBytes (mkTLV kc (Some g') (zlen v) (Some v)) 0 (py_repeat 0 (1 + zlen v)) = (Err e, o)).
  { unfold tlv_toBytes. cbn [ttag tlen tval]. destruct g' as [c' k' n' sz] eqn:Eg.
    assert (c' = c /\ n' = n) as [-> ->] by (unfold g', init_class_number in Eg; split; congruence).
    erewrite bind_ok.
    2: { apply (toBytes_exact c k' n sz [64 * c + (if k' then 32 else 0) + n]); [apply ident_low; exact Hn|exact Hc|lia|].
         unfold py_repeat. rewrite zlen_repeat. change (zlen [64 * c + (if k' then 32 else 0) + n]) with 1. lia. }
    replace (127 <? zlen v) with false by lia. change (zlen [64 * c + (if k' then 32 else 0) + n]) with 1. cbn [map].
    set (out1 := splice _ _ _).
    assert (L1 : zlen out1 = 1 + zlen v).
    { unfold out1, zlen. rewrite splice_length; unfold py_repeat; rewrite map_length, repeat_length; cbn [length]; unfold zlen; lia. }
    destruct (Z.eq_dec (zlen v) 0) as [E0|E0].
    - rewrite (bind_err _ _ _ IndexError out1); [eauto|]. apply aset_out. lia.
    - erewrite bind_ok by (apply aset_in; lia).
      erewrite bind_err; [eauto|].
      apply arrayCopy_into_err; try lia. right. rewrite zlen_list_upd. lia. }
  destruct Hf as (e & o & ->). exists e. reflexivity.
Qed.

Lemma C47_long_refuted_pf : forall aTLV self, 127 < tlen aTLV ->
  exists e, append aTLV self = (Err e, self).
Proof.
  intros aTLV self H. unfold append. unfold bind at 1, lift at 1.
  destruct (tlv_size aTLV) as [n|e]; [|eauto].
  destruct (C43_refuted_pf aTLV 0 (py_repeat 0 n) H) as (e & E & _).
  destruct (tlv_toBytes aTLV 0 (py_repeat 0 n)) as [r o] eqn:Et. cbn [fst] in E. subst r.
  exists e. reflexivity.
Qed.

Lemma C48_refuted_pf : forall a off len self, snd (init_bytes a off len self) = self.
Proof.
  intros a off len self. unfold init_bytes, bind, lift.
  destruct (getInstance a off (Some len)); reflexivity.
Qed.

Lemma C48_partial_pf : forall pre ch post self, simple ch ->
  init_bytes (pre ++ enc ch ++ post) (zlen pre) (zlen (enc ch)) self = (Ok (zlen (enc ch)), self).
Proof.
  intros pre ch post self Hs. destruct (parse_child pre ch post Hs) as [P Q].
  unfold init_bytes, bind, lift. unfold getInstance in *. rewrite Q in P. cbn [rbind] in *. rewrite P.
  now rewrite tlv_of_size.
Qed.

Lemma C49_refuted_pf : forall fuel a off start ta toff r,
  findNextStatic fuel a off start ta toff = Ok r -> r = -1.
Proof.
  intros fuel a off start ta toff r. unfold findNextStatic.
  destruct (getInstance a off None) as [t|]; cbn [rbind]; [|discriminate].
  destruct (ttag t); [|discriminate].
  destruct (start_loop _ _ _ _ _) as [[]|]; cbn [rbind]; try discriminate; [destruct (tkind t); discriminate|congruence].
Qed.

Lemma C49_partial_pf : forall fuel pre tb post start ta toff, simple (tb, []) -> Z.testbit tb 5 = true ->
  zlen pre + 2 < start -> (0 < fuel)%nat ->
  findNextStatic fuel (pre ++ enc (tb, []) ++ post) (zlen pre) start ta toff = Ok (-1).
Proof.
  intros fuel pre tb post start ta toff Hs Hk Hst Hf. unfold findNextStatic.
  destruct (parse_child pre (tb, []) post Hs) as [P _]. rewrite P. cbn [rbind]. unfold tlv_of. cbn [ttag fst snd tlen].
  destruct fuel as [|f]; [lia|]. cbn [start_loop tkind]. change (zlen (@nil Z)) with 0.
  unfold tag_size, tag_of. cbn [tsize]. change (getLengthLen 0) with 1.
  replace (zlen pre + 1 + 1 + 0 <? start) with true by lia. rewrite Hk.
  cbn [find_ tlen]. reflexivity.
Qed.

Lemma C51_partial_pf : forall t v off n out toff, 0 <= off -> 0 <= n -> off + n <= zlen v ->
  0 <= toff -> toff + n <= zlen out ->
  let '(r, t') := replaceValue v off n t in
  r = Ok tt /\ tlen t' = n /\ ttag t' = ttag t /\ tkind t' = tkind t
  /\ getValue t' toff out = (Ok n, splice out (Z.to_nat toff) (sub v (Z.to_nat off) (Z.to_nat n)))
  /\ (forall g, ttag t = Some g -> n <= 127 -> tlv_size t' = Ok (tag_size g + 1 + n)).
Proof.
  intros t v off n out toff H1 H2 H3 H4 H5. unfold replaceValue.
  assert (Hsub : length (sub v (Z.to_nat off) (Z.to_nat n)) = Z.to_nat n) by (apply sub_length; unfold zlen in *; lia).
  rewrite arrayCopy_into_ok; try lia.
  2: { unfold py_repeat. rewrite zlen_repeat. lia. }
  rewrite splice_all by (unfold py_repeat; rewrite repeat_length; exact Hsub).
  cbn [tlen ttag tkind]. repeat (split; [reflexivity|]). split.
  - unfold getValue. cbn [tval tlen]. erewrite bind_ok.
    2: { apply arrayCopy_into_ok; try lia. unfold zlen. lia. }
    unfold ret. do 2 f_equal. rewrite sub_full by (rewrite Hsub; lia). reflexivity.
  - intros g Hg Hn. unfold tlv_size. cbn [ttag tlen]. rewrite Hg. unfold getLengthLen.
    now replace (127 <? n) with false by lia.
Qed.

Lemma C51_refuted_pf : forall t v off n, 0 <= off -> 0 < n -> zlen v < off + n ->
  exists w, replaceValue v off n t = (Err ArrayIndexOutOfBounds, mkTLV (tkind t) (ttag t) (tlen t) (Some w))
  /\ zlen w = n.
Proof.
  intros t v off n H1 H2 H3. unfold replaceValue.
  pose proof (arrayCopy_into_length v off 0 n (py_repeat 0 n)) as L.
  destruct (arrayCopy_into v off 0 n (py_repeat 0 n)) as [r w] eqn:E.
  rewrite arrayCopy_into_err in E by lia. injection E as <- _. exists w. split; [reflexivity|].
  cbn [snd] in L. unfold zlen. rewrite L. unfold py_repeat. rewrite repeat_length. lia.
Qed.
