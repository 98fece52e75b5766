(** * C43, C47: serialising and appending a TLV object with any tag: proofs *)
From Verif Require Import Py S_Base S_Number S_BER S_TLV L_Py M_utils L_utils M_util L_util M_bertag LP_bertag M_bertlv LP_bertlv.
From Coq Require Import ZifyBool ZifyNat.


Lemma skipn_zeros n m : skipn n (repeat 0 m) = repeat 0 (m - n).
Proof. revert m. induction n as [|n IH]; intros [|m]; cbn [skipn repeat Nat.sub]; auto. Qed.

Lemma put_chunks_out l : forall off bLen out, 0 <= off + bLen -> zlen out < off + bLen + zlen l ->
  off + bLen <= zlen out -> fst (put_chunks l off bLen out) = Err IndexError.
Proof.
  induction l as [|x l IH]; intros off bLen out H1 H2 H3.
  - rewrite zlen_nil in H2. lia.
  - cbn [put_chunks]. rewrite zlen_cons in H2. destruct (Z.eq_dec (off + bLen) (zlen out)) as [E|E].
    + apply bind_err_fst. rewrite aset_out by lia. reflexivity.
    + erewrite bind_ok by (apply aset_in; lia). erewrite bind_ok by (apply aadd_upd; lia).
      apply IH; rewrite ?zlen_list_upd; lia.
Qed.

Lemma tag_toBytes_out c k n sz os off out : identifier c k n os -> 0 <= off -> zlen out < off + zlen os ->
  fst (tag_toBytes (mkTag c k n sz) off out) = Err IndexError.
Proof.
  intros Hi Ho Hr. unfold tag_toBytes. cbn [tclass tconstr tnumber].
  destruct (Z.lt_ge_cases off (zlen out)) as [Hlt|Hge].
  2: { apply bind_err_fst. rewrite aset_out by lia. reflexivity. }
  erewrite bind_ok by (apply aset_in; lia). erewrite bind_ok by (apply aadd_upd; lia).
  destruct Hi as [Hn|ds d Hn Hb]; [unfold zlen in Hr at 2; cbn [length] in Hr; lia|].
  replace (n <=? 30) with false by lia.
  erewrite bind_ok by (apply aadd_upd; lia).
  set (out1 := list_upd out _ _).
  rewrite (bind_ok _ _ _ (rev (ds ++ [d])) out1).
  2: { unfold lift. f_equal. pose proof Hb as (Hb1 & Hb2 & Hb3).
       assert (Hf : (length (ds ++ [d]) < chunk_fuel n)%nat) by (apply base128_fuel; exact Hb).
       rewrite <- Hb2 at 2. apply (chunk_loop_ok (ds ++ [d]) (chunk_fuel n) []); auto.
       destruct ds; cbn in *; auto; lia. }
  rewrite rev_involutive. apply bind_err_fst. apply put_chunks_out; try lia.
  - unfold out1. rewrite zlen_list_upd. rewrite zlen_cons, !zlen_app, zlen_cons, zlen_nil in *.
    assert (Hlen : zlen (map (fun x => 128 + x) ds) = zlen ds) by (unfold zlen; now rewrite map_length). lia.
  - unfold out1. rewrite zlen_list_upd. lia.
Qed.

Lemma C43_exact_partial_pf : forall c k n sz os v kd off out, identifier c k n os -> 0 <= c <= 3 -> 0 <= off ->
  let t := mkTLV kd (Some (mkTag c k n sz)) (zlen v) (Some v) in
  let room := zlen out - off in
  fst (tlv_toBytes t off out)
  = (if room <? zlen os then Err IndexError
     else if 127 <? zlen v then Err NameError
     else if room <? zlen os + 1 then Err IndexError
     else if room <? zlen os + 1 + zlen v then Err ArrayIndexOutOfBounds
     else Ok (zlen os + 1 + zlen v))
  /\ (zlen v <= 127 -> zlen os + 1 + zlen v <= room ->
      snd (tlv_toBytes t off out) = splice (map s1 out) (Z.to_nat off) (map (twos 1) os ++ zlen v :: v)).
Proof.
  intros c k n sz os v kd off out Hi Hc Ho t room.
  assert (Er : room = zlen out - off) by reflexivity. clearbody room. unfold t, tlv_toBytes. cbn [ttag tlen tval].
  assert (Hos : 0 < zlen os) by (destruct Hi; unfold zlen; cbn [length]; lia). pose proof (zlen_nonneg v) as Hv0.
  destruct (Z.ltb_spec room (zlen os)) as [Hr|Hr].
  { split; [|intros; lia]. apply bind_err_fst. apply (tag_toBytes_out c k n sz os); auto. lia. }
  erewrite bind_ok by (apply (toBytes_exact c k n sz os off out); auto; lia).
  set (out1 := splice _ _ _).
  assert (L0 : length (map (twos 1) os) = length os) by apply map_length.
  assert (L1 : zlen out1 = zlen out).
  { unfold out1, zlen. rewrite splice_length; rewrite !map_length; unfold zlen in *; lia. }
  destruct (Z.ltb_spec 127 (zlen v)) as [Hv|Hv]; [split; [reflexivity|intros; lia]|].
  destruct (Z.ltb_spec room (zlen os + 1)) as [H2|H2].
  { split; [|intros; lia]. apply bind_err_fst. rewrite aset_out by lia. reflexivity. }
  erewrite bind_ok by (apply aset_in; lia).
  destruct (Z.ltb_spec room (zlen os + 1 + zlen v)) as [H3|H3].
  { split; [|intros; lia]. apply bind_err_fst.
    rewrite arrayCopy_into_err; [reflexivity|lia|lia|lia|]. right. rewrite zlen_list_upd. lia. }
  erewrite bind_ok by (apply arrayCopy_into_ok; rewrite ?zlen_list_upd; lia).
  unfold ret. cbn [fst snd]. split; [reflexivity|]. intros _ _.
  rewrite to_nat_zlen, sub_full by lia.
  replace (Z.to_nat (off + (zlen os + 1))) with (S (Z.to_nat off + length os)) by (unfold zlen; lia).
  replace (Z.to_nat (off + zlen os)) with (Z.to_nat off + length os)%nat by (unfold zlen; lia).
  rewrite splice_cons by (unfold zlen in *; lia).
  unfold out1. rewrite <- L0. rewrite splice_app; [reflexivity|].
  rewrite !map_length. cbn [length]. unfold zlen in *. lia.
Qed.

Lemma C47_exact_partial_pf : forall c k n sz os v kc self P, identifier c k n os -> 0 <= c <= 3 ->
  tval self = Some P ->
  let child := mkTLV kc (Some (mkTag c k n sz)) (zlen v) (Some v) in
  (zlen v <= 127 -> zlen os <= sz ->
   let self' := mkTLV (tkind self) (ttag self) (tlen self + (sz + 1 + zlen v))
                  (Some (P ++ map (twos 1) os ++ zlen v :: v ++ repeat 0 (Z.to_nat (sz - zlen os)))) in
   append child self = (tlv_size self', self'))
  /\ (127 < zlen v \/ sz < zlen os -> exists e, append child self = (Err e, self)).
Proof.
  intros c k n sz os v kc self P Hi Hc HP child.
  pose proof (zlen_nonneg v) as Hv0. split.
  - intros Hv Hsz self'. unfold append.
    assert (Hos : 0 < zlen os) by (destruct Hi; unfold zlen; cbn [length]; lia).
    assert (Es : tlv_size child = Ok (sz + 1 + zlen v)).
    { unfold tlv_size, child. cbn [ttag tlen]. unfold getLengthLen, tag_size. cbn [tsize].
      replace (127 <? zlen v) with false by lia. reflexivity. }
    rewrite Es. rewrite (bind_ok _ _ _ (sz + 1 + zlen v) self) by reflexivity.
    set (bytes := map (twos 1) os ++ zlen v :: v ++ repeat 0 (Z.to_nat (sz - zlen os))).
    assert (Lz : zlen (py_repeat 0 (sz + 1 + zlen v)) = sz + 1 + zlen v).
    { unfold py_repeat. rewrite zlen_repeat. lia. }
    erewrite (bind_ok _ _ _ bytes self).
    2: { destruct (C43_exact_partial_pf c k n sz os v kc 0 (py_repeat 0 (sz + 1 + zlen v)) Hi Hc ltac:(lia)) as [E1 E2].
         cbv zeta in E1, E2. fold child in E1, E2. rewrite Lz in E1, E2.
         replace (sz + 1 + zlen v - 0 <? zlen os) with false in E1 by lia.
         replace (127 <? zlen v) with false in E1 by lia.
         replace (sz + 1 + zlen v - 0 <? zlen os + 1) with false in E1 by lia.
         replace (sz + 1 + zlen v - 0 <? zlen os + 1 + zlen v) with false in E1 by lia.
         specialize (E2 Hv ltac:(lia)).
         destruct (tlv_toBytes child 0 _) as [r o]. cbn [fst snd] in E1, E2. subst r o.
         f_equal. f_equal. unfold py_repeat. rewrite repeat_s1.
         unfold bytes, splice. cbn [Z.to_nat firstn app]. rewrite app_comm_cons, app_assoc. f_equal.
         rewrite skipn_zeros. f_equal. rewrite app_length, map_length. cbn [length]. unfold zlen in *. lia. }
    rewrite (bind_ok _ _ _ self self) by reflexivity. rewrite HP. reflexivity.
  - intros Hbad. destruct (Z.lt_ge_cases 127 (zlen v)) as [Hv|Hv].
    { apply (C47_long_refuted_pf child self). exact Hv. }
    assert (Hsz : sz < zlen os) by lia. unfold append.
    assert (Es : tlv_size child = Ok (sz + 1 + zlen v)).
    { unfold tlv_size, child. cbn [ttag tlen]. unfold getLengthLen, tag_size. cbn [tsize].
      replace (127 <? zlen v) with false by lia. reflexivity. }
    rewrite Es. rewrite (bind_ok _ _ _ (sz + 1 + zlen v) self) by reflexivity.
    assert (F : exists e, fst (tlv_toBytes child 0 (py_repeat 0 (sz + 1 + zlen v))) = Err e).
    { destruct (C43_exact_partial_pf c k n sz os v kc 0 (py_repeat 0 (sz + 1 + zlen v)) Hi Hc ltac:(lia)) as [E1 _].
      cbv zeta in E1. fold child in E1. rewrite E1.
      assert (0 < zlen os) by (destruct Hi; unfold zlen; cbn [length]; lia).
      assert (Lz : zlen (py_repeat 0 (sz + 1 + zlen v)) = Z.max 0 (sz + 1 + zlen v)).
      { unfold py_repeat. rewrite zlen_repeat. lia. }
      rewrite Lz. destruct (Z.ltb_spec (Z.max 0 (sz + 1 + zlen v) - 0) (zlen os)); [eauto|].
      replace (127 <? zlen v) with false by lia.
      destruct (Z.ltb_spec (Z.max 0 (sz + 1 + zlen v) - 0) (zlen os + 1)); [eauto|].
      destruct (Z.ltb_spec (Z.max 0 (sz + 1 + zlen v) - 0) (zlen os + 1 + zlen v)); [eauto|]. lia. }
    destruct F as [e F]. exists e. unfold bind at 1. destruct (tlv_toBytes child 0 _) as [r o]. cbn [fst] in F.
    now subst r.
Qed.

Lemma C47_high_tag_refuted_pf : forall c k n os arr off g v kc self P, identifier c k n os -> 0 <= c <= 3 ->
  31 <= n -> tval self = Some P ->
  (0 <= off /\ octets (sub arr (Z.to_nat off) (length os)) = os /\ BERTag_getInstance arr off = Ok g)
  \/ (exists t, (t = newPrimitiveBERTag \/ t = newConstructedBERTag) /\ tconstr t = k /\ g = init_class_number t c n) ->
  exists e, append (mkTLV kc (Some g) (zlen v) (Some v)) self = (Err e, self).
Proof.
  intros c k n os arr off g v kc self P Hi Hc Hn HP Hg.
  assert (Hos : 0 < zlen os) by (destruct Hi; unfold zlen; cbn [length]; lia).
  assert (G : exists sz, g = mkTag c k n sz /\ sz < zlen os).
  { destruct Hg as [(Ho & Hs & Hg)|(t & Ht & Hk & ->)].
    - destruct (C39_decode_pf c k n os arr off Hi Hc Ho Hs) as (t & Et & F1 & F2 & F3).
      destruct (C40_refuted_pf c k n os arr off Hi Hc Ho Hn Hs) as (_ & (t' & Et' & F4) & _).
      exists (zlen os - 1). split; [|lia].
      assert (t = g) by congruence. assert (t' = g) by congruence. subst. destruct g; cbn in *. unfold tag_size in F4; cbn in F4. congruence.
    - exists 0. split; [|lia]. destruct Ht as [-> | ->]; cbn in Hk; subst k; reflexivity. }
  destruct G as (sz & -> & Hsz).
  destruct (C47_exact_partial_pf c k n sz os v kc self P Hi Hc HP) as [_ H]. apply H. now right.
Qed.
