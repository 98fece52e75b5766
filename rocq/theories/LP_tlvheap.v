(** * C115: tag objects inside TLV objects: proofs *)
From Verif Require Import Py S_Base S_Number S_BER L_Py M_utils M_util L_utils L_util M_bertag M_tagobj S_TagObj M_bertlv M_tlvheap S_TlvHeap.
From Coq Require Import ZifyBool ZifyNat.
Ltac Zify.zify_post_hook ::= Z.div_mod_to_equations.

Lemma trun_cons c cs p : trun (c :: cs) p =
  (fst (tstep c p) :: fst (trun cs (snd (tstep c p))), snd (trun cs (snd (tstep c p)))).
Proof. cbn [trun]. destruct (tstep c p) as [r p1]. cbn [fst snd]. destruct (trun cs p1); reflexivity. Qed.

(** the tag objects of TLVs are not the caller's and not shared *)
Definition twf (own : list nat) (p : tprog) : Prop :=
  (forall i, In i own -> (i < length (tags p))%nat)
  /\ (forall j t i, nth_error (tlvs p) j = Some t -> ltag t = Some i -> (i < length (tags p))%nat /\ ~ In i own)
  /\ (forall j t j' t' i, nth_error (tlvs p) j = Some t -> nth_error (tlvs p) j' = Some t' ->
        ltag t = Some i -> ltag t' = Some i -> j = j').
Definition own_of (c : tcall) (r : res tres) : list nat :=
  match c, r with NewTag _, Ok (RTag i) => [i] | _, _ => [] end.
Lemma own_tags_cons c cs r rs : own_tags (c :: cs) (r :: rs) = own_of c r ++ own_tags cs rs.
Proof. destruct c; cbn; try reflexivity. destruct r as [[]|]; reflexivity. Qed.

Lemma nth_error_snoc_ {A} (l : list A) v k x : nth_error (l ++ [v]) k = Some x ->
  nth_error l k = Some x \/ (k = length l /\ x = v).
Proof.
  intros H. destruct (Nat.lt_ge_cases k (length l)).
  - left. now rewrite nth_error_app1 in H.
  - rewrite nth_error_app2 in H by assumption. destruct (k - length l)%nat as [|m] eqn:E.
    + right. injection H as <-. split; [lia|reflexivity].
    + destruct m; discriminate.
Qed.
Lemma upd_inv {A} (l : list A) j v k x : nth_error (list_upd l j v) k = Some x ->
  (k <> j /\ nth_error l k = Some x) \/ (k = j /\ x = v).
Proof.
  rewrite nth_error_list_upd. destruct (Nat.eqb_spec k j) as [->|N]; [|auto].
  destruct (Nat.ltb j (length l)); [|discriminate]. intros [= <-]. auto.
Qed.

(** replacing the value of TLV j but not its tag *)
Lemma twf_same own p j t t' : twf own p -> nth_error (tlvs p) j = Some t -> ltag t' = ltag t ->
  twf own (mkT (tags p) (list_upd (tlvs p) j t')).
Proof.
  intros (W1 & W2 & W3) Hj E. split; [assumption|]. split; cbn [tags tlvs].
  - intros k u i Hk Hi. apply upd_inv in Hk as [[_ Hk]|[-> ->]]; [eauto|]. rewrite E in Hi. eauto.
  - intros k u k' u' i Hk Hk' Hi Hi'. apply upd_inv in Hk as [[N Hk]|[-> ->]]; apply upd_inv in Hk' as [[N' Hk']|[-> ->]].
    + eauto.
    + rewrite E in Hi'. eauto.
    + rewrite E in Hi. eauto.
    + reflexivity.
Qed.

Lemma twf_step own c p : twf own p -> twf (own ++ own_of c (fst (tstep c p))) (snd (tstep c p)).
Proof.
  intros W. pose proof W as (W1 & W2 & W3).
  destruct c as [k|i c|k|j i va vo vl|j|j a|j va vo vl]; cbn [tstep own_of]; rewrite ?app_nil_r.
  - cbn [fst snd]. split; [|split]; cbn [tags tlvs].
    + intros i H. rewrite app_length. cbn. apply in_app_or in H as [H|[<-|[]]]; [specialize (W1 _ H)|]; lia.
    + intros j t i Hj Hi. destruct (W2 _ _ _ Hj Hi) as [A B]. rewrite app_length. cbn. split; [lia|].
      intros H. apply in_app_or in H as [H|[H|[]]]; [easy|]. lia.
    + exact W3.
  - destruct (nth_error (tags p) i) as [[k g]|]; [|assumption].
    destruct (M_tagobj.step k c g) as [r g']. cbn [snd]. split; [|split]; cbn [tags tlvs]; rewrite ?list_upd_length; assumption.
  - cbn [snd]. split; [assumption|]. split; cbn [tags tlvs].
    + intros j t i Hj Hi. apply nth_error_snoc_ in Hj as [Hj|[-> ->]]; [eauto|discriminate].
    + intros j t j' t' i Hj Hj' Hi Hi'. apply nth_error_snoc_ in Hj as [Hj|[-> ->]]; [|discriminate].
      apply nth_error_snoc_ in Hj' as [Hj'|[-> ->]]; [eauto|discriminate].
  - destruct (nth_error (tlvs p) j) as [t|] eqn:Ej; [|assumption].
    destruct (nth_error (tags p) i) as [[k g]|] eqn:Ei; [|assumption]. cbn [snd].
    split; [|split]; cbn [tags tlvs]; rewrite ?app_length; cbn [length].
    + intros m H. specialize (W1 _ H). lia.
    + intros m u n Hm Hn. apply upd_inv in Hm as [[N Hm]|[-> ->]].
      * destruct (W2 _ _ _ Hm Hn). split; [lia|assumption].
      * cbn in Hn. injection Hn as <-. split; [lia|]. intros H. specialize (W1 _ H). lia.
    + intros m u m' u' n Hm Hm' Hn Hn'. apply upd_inv in Hm as [[N Hm]|[-> ->]]; apply upd_inv in Hm' as [[N' Hm']|[-> ->]].
      * eauto.
      * cbn in Hn'. injection Hn' as <-. destruct (W2 _ _ _ Hm Hn). lia.
      * cbn in Hn. injection Hn as <-. destruct (W2 _ _ _ Hm' Hn'). lia.
      * reflexivity.
  - destruct (nth_error (tlvs p) j); assumption.
  - destruct (nth_error (tlvs p) j) as [t|] eqn:Ej; [|assumption].
    destruct (nth_error (tlvs p) a) as [u|] eqn:Ea; [|assumption].
    destruct (lkind t); [|assumption]. destruct (h_size p u); [|assumption].
    destruct (h_toBytes p u 0 _) as [[x|e] ar]; [|assumption]. destruct (lval t); [|assumption]. cbn [snd].
    eapply twf_same; eauto.
  - destruct (nth_error (tlvs p) j) as [t|] eqn:Ej; [|assumption].
    destruct (lkind t); [assumption|]. destruct (arrayCopy_into va vo 0 vl _) as [r v]. cbn [snd].
    eapply twf_same; eauto.
Qed.
Lemma twf_run cs : forall own p, twf own p -> twf (own ++ own_tags cs (fst (trun cs p))) (snd (trun cs p)).
Proof.
  induction cs as [|c cs IH]; intros own p W; [cbn; now rewrite app_nil_r|].
  rewrite trun_cons. cbn [fst snd]. rewrite own_tags_cons, app_assoc. apply IH. now apply twf_step.
Qed.
Lemma twf_start : twf [] tstart.
Proof.
  split; [|split]; cbn.
  - intros i [].
  - intros j t i H. destruct j; discriminate.
  - intros j t j' t' i H. destruct j; discriminate.
Qed.
Lemma twf_reach cs rs p : trun cs tstart = (rs, p) -> twf (own_tags cs rs) p.
Proof. intros H. pose proof (twf_run cs [] _ twf_start) as W. now rewrite H in W. Qed.

(** a step not on TLV j that initialises no tag of it *)
Definition same_tag (p p' : tprog) (t : htlv) : Prop :=
  forall i, ltag t = Some i -> nth_error (tags p') i = nth_error (tags p) i.
Lemma other_tstep own c p j t : twf own p -> nth_error (tlvs p) j = Some t -> not_on j c ->
  (forall i c', c = TagInit i c' -> In i own \/ (length (tags p) <= i)%nat) ->
  nth_error (tlvs (snd (tstep c p))) j = Some t /\ same_tag p (snd (tstep c p)) t.
Proof.
  intros (W1 & W2 & W3) Hj NO IO.
  assert (Lj : (j < length (tlvs p))%nat) by (apply nth_error_Some; congruence).
  assert (LT : forall i, ltag t = Some i -> (i < length (tags p))%nat) by (intros i Hi; apply (W2 _ _ _ Hj Hi)).
  assert (UPD : forall j' t', j' <> j -> nth_error (list_upd (tlvs p) j' t') j = Some t).
  { intros j' t' N. rewrite nth_error_list_upd. replace (Nat.eqb j j') with false by (symmetry; apply Nat.eqb_neq; congruence). assumption. }
  assert (EXT : forall v, forall i, ltag t = Some i -> nth_error (tags p ++ [v]) i = nth_error (tags p) i).
  { intros v i Hi. apply nth_error_app1. auto. }
  destruct c as [k|i c|k|j' i va vo vl|j'|j' a|j' va vo vl]; cbn [tstep not_on] in *.
  - split; [assumption|]. red. cbn [snd tags]. auto.
  - destruct (nth_error (tags p) i) as [[k g]|]; [|split; [assumption|red; auto]].
    destruct (M_tagobj.step k c g) as [r g']. cbn [snd tags tlvs]. split; [assumption|]. intros m Hm. cbn [tags].
    rewrite nth_error_list_upd. replace (Nat.eqb m i) with false; [reflexivity|]. symmetry. apply Nat.eqb_neq. intros ->.
    destruct (W2 _ _ _ Hj Hm) as [A B]. destruct (IO _ _ eq_refl); [contradiction|lia].
  - cbn [snd tags tlvs]. split; [now rewrite nth_error_app1|red; auto].
  - destruct (nth_error (tlvs p) j') as [t'|]; [|split; [assumption|red; auto]].
    destruct (nth_error (tags p) i) as [[k g]|]; [|split; [assumption|red; auto]]. cbn [snd]. split; [cbn [tlvs]; auto|].
    red. cbn [tags]. auto.
  - destruct (nth_error (tlvs p) j'); (split; [assumption|red; auto]).
  - destruct (nth_error (tlvs p) j') as [t'|]; [|split; [assumption|red; auto]].
    destruct (nth_error (tlvs p) a) as [u|]; [|split; [assumption|red; auto]].
    destruct (lkind t'); [|split; [assumption|red; auto]]. destruct (h_size p u); [|split; [assumption|red; auto]].
    destruct (h_toBytes p u 0 _) as [[x|e] ar]; [|split; [assumption|red; auto]].
    destruct (lval t'); [|split; [assumption|red; auto]]. cbn [snd]. split; [cbn [tlvs]; auto|red; auto].
  - destruct (nth_error (tlvs p) j') as [t'|]; [|split; [assumption|red; auto]].
    destruct (lkind t'); [split; [assumption|red; auto]|]. destruct (arrayCopy_into va vo 0 vl _) as [r v]. cbn [snd].
    split; [cbn [tlvs]; auto|red; auto].
Qed.

Lemma C115_copies_partial_pf : forall cs rs p j t i, trun cs tstart = (rs, p) ->
  nth_error (tlvs p) j = Some t -> ltag t = Some i ->
  ~ In i (own_tags cs rs)
  /\ forall j' t', nth_error (tlvs p) j' = Some t' -> ltag t' = Some i -> j' = j.
Proof.
  intros cs rs p j t i H Hj Hi. destruct (twf_reach _ _ _ H) as (W1 & W2 & W3). split; [eapply W2; eassumption|].
  intros j' t' Hj' Hi'. eapply W3; eassumption.
Qed.

Lemma tags_grow c p : (length (tags p) <= length (tags (snd (tstep c p))))%nat.
Proof.
  destruct c as [k|i c|k|j' i va vo vl|j'|j' a|j' va vo vl]; cbn [tstep].
  - cbn [snd tags]. rewrite app_length. lia.
  - destruct (nth_error (tags p) i) as [[k g]|]; [|apply le_n]. destruct (M_tagobj.step k c g). cbn [snd tags]. now rewrite list_upd_length.
  - apply le_n.
  - destruct (nth_error (tlvs p) j'); [|apply le_n]. destruct (nth_error (tags p) i) as [[k g]|]; [|apply le_n].
    cbn [snd tags]. rewrite app_length. lia.
  - destruct (nth_error (tlvs p) j'); apply le_n.
  - destruct (nth_error (tlvs p) j') as [t'|]; [|apply le_n]. destruct (nth_error (tlvs p) a) as [u|]; [|apply le_n].
    destruct (lkind t'); [|apply le_n]. destruct (h_size p u); [|apply le_n].
    destruct (h_toBytes p u 0 _) as [[x|e] ar]; [|apply le_n]. destruct (lval t'); apply le_n.
  - destruct (nth_error (tlvs p) j') as [t'|]; [|apply le_n]. destruct (lkind t'); [apply le_n|].
    destruct (arrayCopy_into va vo 0 vl _); apply le_n.
Qed.
Lemma own_future cs : forall p i, In i (own_tags cs (fst (trun cs p))) -> (length (tags p) <= i)%nat.
Proof.
  induction cs as [|c cs IH]; intros p i H; [destruct H|]. rewrite trun_cons in H. cbn [fst] in H.
  rewrite own_tags_cons in H. apply in_app_or in H as [H|H].
  - destruct c; cbn [own_of] in H; try (destruct (fst _) as [[]|] in H; destruct H; fail); try destruct H.
    + lia.
    + destruct H.
  - apply IH in H. pose proof (tags_grow c p). lia.
Qed.

Lemma C115_own_partial_pf : forall cs0 rs0 p cs rs p' j t, trun cs0 tstart = (rs0, p) -> trun cs p = (rs, p') ->
  nth_error (tlvs p) j = Some t -> Forall (not_on j) cs ->
  Forall (inits_only (own_tags cs0 rs0 ++ own_tags cs rs)) cs ->
  exists t', nth_error (tlvs p') j = Some t' /\ h_size p' t' = h_size p t
    /\ forall off out, h_toBytes p' t' off out = h_toBytes p t off out.
Proof.
  intros cs0 rs0 p cs rs p' j t H0 HP Hj NO IO. pose proof (twf_reach _ _ _ H0) as W.
  remember (own_tags cs0 rs0) as own eqn:EO. clear EO H0.
  replace p' with (snd (trun cs p)) by now rewrite HP. replace rs with (fst (trun cs p)) in IO by now rewrite HP. clear HP rs p'.
  assert (G : nth_error (tlvs (snd (trun cs p))) j = Some t /\ same_tag p (snd (trun cs p)) t).
  { revert own p W Hj IO; induction NO as [|c cs Hc NO IH]; intros own p W Hj IO.
    - split; [assumption|red; reflexivity].
    - inversion_clear IO as [|? ? I1 I2]. rewrite trun_cons in *. cbn [fst snd] in *.
      rewrite own_tags_cons in I1, I2.
      destruct (other_tstep own c p j t W Hj Hc) as [A B].
      { intros i c' ->. cbn [inits_only own_of app] in I1. apply in_app_or in I1 as [I1|I1]; [now left|right].
        apply own_future in I1. pose proof (tags_grow (TagInit i c') p). lia. }
      destruct (IH (own ++ own_of c (fst (tstep c p))) _ (twf_step own c p W) A) as [C D].
      { now rewrite <- app_assoc. }
      split; [assumption|]. intros i Hi. now rewrite D, B. }
  destruct G as [A B]. exists t. split; [assumption|]. unfold h_size, h_toBytes.
  destruct (ltag t) as [i|] eqn:E; [|auto]. rewrite (B i E). auto.
Qed.

Lemma C115_view_partial_pf : forall p t v, tlv_view p t = Some v ->
  h_size p t = tlv_size v /\ forall off out, h_toBytes p t off out = tlv_toBytes v off out.
Proof.
  intros p t v. unfold tlv_view, h_size, h_toBytes. destruct (ltag t) as [i|]; [|intros [= <-]; cbn; auto].
  destruct (nth_error (tags p) i) as [[k g]|]; [|discriminate]. destruct g as [[c|] kc [n|] s]; try discriminate.
  intros [= <-]. cbn [tlv_size ttag tlen osize tlv_toBytes tval obj_toBytes oclass onumber oconstr]. split; [reflexivity|].
  intros off out. reflexivity.
Qed.

Lemma C115_calls_partial_pf : forall cs0 rs0 p j t v, trun cs0 tstart = (rs0, p) -> nth_error (tlvs p) j = Some t -> tlv_view p t = Some v ->
  (forall i k c kc n sz vArray vOff vLen, nth_error (tags p) i = Some (k, mkObj (Some c) kc (Some n) sz) ->
     let '(r, p') := tstep (TLVInit j i vArray vOff vLen) p in
     r = rmap RNum (tlv_size (init_tag v (mkTag c kc n sz) vArray vOff vLen))
     /\ exists t', nth_error (tlvs p') j = Some t' /\ tlv_view p' t' = Some (init_tag v (mkTag c kc n sz) vArray vOff vLen))
  /\ (forall a u w, tkind v = true -> nth_error (tlvs p) a = Some u -> tlv_view p u = Some w ->
     let '(r, p') := tstep (Append j a) p in
     r = rmap RNum (fst (append w v))
     /\ exists t', nth_error (tlvs p') j = Some t' /\ tlv_view p' t' = Some (snd (append w v)))
  /\ (forall vArray vOff vLen, tkind v = false ->
     let '(r, p') := tstep (Replace j vArray vOff vLen) p in
     r = rmap (fun _ => RNone) (fst (replaceValue vArray vOff vLen v))
     /\ exists t', nth_error (tlvs p') j = Some t' /\ tlv_view p' t' = Some (snd (replaceValue vArray vOff vLen v))).
Proof.
  intros cs0 rs0 p j t v _ Hj HV.
  assert (Lj : (j <? length (tlvs p))%nat = true) by (apply Nat.ltb_lt, nth_error_Some; congruence).
  assert (K : lkind t = tkind v /\ llen t = tlen v /\ lval t = tval v).
  { revert HV. unfold tlv_view. destruct (ltag t) as [i|]; [|intros [= <-]; auto].
    destruct (nth_error (tags p) i) as [[k [[c|] kc [n|] s]]|]; try discriminate. intros [= <-]. auto. }
  destruct K as (K1 & K2 & K3). split; [|split].
  - intros i k c kc n sz vArray vOff vLen Hi. cbn [tstep]. rewrite Hj, Hi.
    set (t' := mkL (lkind t) (Some (length (tags p))) vLen (Some (py_slice vArray vOff (vOff + vLen)))).
    set (p' := mkT (tags p ++ [(k, mkObj (Some c) kc (Some n) sz)]) (list_upd (tlvs p) j t')).
    assert (V : tlv_view p' t' = Some (init_tag v (mkTag c kc n sz) vArray vOff vLen)).
    { unfold tlv_view, p', t'. cbn [ltag tags llen lval lkind]. rewrite nth_error_app2 by lia. rewrite Nat.sub_diag. cbn [nth_error].
      unfold init_tag. now rewrite K1. }
    destruct (C115_view_partial_pf _ _ _ V) as [S _]. split; [now rewrite S|]. exists t'. split; [|exact V].
    unfold p'. cbn [tlvs]. now rewrite nth_error_list_upd, Nat.eqb_refl, Lj.
  - intros a u w Hk Ha HW. cbn [tstep]. rewrite Hj, Ha, K1, Hk. destruct (C115_view_partial_pf _ _ _ HW) as [SU TU].
    unfold append, bind, lift, get, put, raise, ret. rewrite SU. destruct (tlv_size w) as [n|e]; [|split; [reflexivity|eauto]].
    rewrite TU. destruct (tlv_toBytes w 0 (py_repeat 0 n)) as [[m|e] array]; [|split; [reflexivity|eauto]].
    rewrite K3. destruct (tval v) as [vv|] eqn:Ev; [|split; [reflexivity|eauto]].
    set (t' := mkL true (ltag t) (llen t + n) (Some (vv ++ array))). set (p' := mkT (tags p) (list_upd (tlvs p) j t')).
    assert (V : tlv_view p' t' = Some (mkTLV (tkind v) (ttag v) (tlen v + n) (Some (vv ++ array)))).
    { revert HV. unfold tlv_view, p', t'. cbn [ltag tags llen lval lkind]. rewrite Hk, K2. destruct (ltag t) as [i|]; [|intros [= <-]; reflexivity].
      destruct (nth_error (tags p) i) as [[k [[c|] kc [nn|] s]]|]; try discriminate. intros [= <-]. reflexivity. }
    destruct (C115_view_partial_pf _ _ _ V) as [S _]. cbn [fst snd]. rewrite S. cbn [fst snd].
    split; [reflexivity|]. exists t'. split; [|exact V]. unfold p'. cbn [tlvs]. now rewrite nth_error_list_upd, Nat.eqb_refl, Lj.
  - intros vArray vOff vLen Hk. cbn [tstep]. rewrite Hj, K1, Hk. unfold replaceValue.
    destruct (arrayCopy_into vArray vOff 0 vLen (py_repeat 0 vLen)) as [r w].
    assert (V : forall l, tlv_view (mkT (tags p) (list_upd (tlvs p) j (mkL false (ltag t) l (Some w)))) (mkL false (ltag t) l (Some w))
       = Some (mkTLV (tkind v) (ttag v) l (Some w))).
    { intros l. revert HV. unfold tlv_view. cbn [ltag tags llen lval lkind]. rewrite Hk. destruct (ltag t) as [i|]; [|intros [= <-]; reflexivity].
      destruct (nth_error (tags p) i) as [[k [[c|] kc [nn|] s]]|]; try discriminate. intros [= <-]. reflexivity. }
    destruct r as [x|e]; (split; [reflexivity|]); eexists; (split; [cbn [tlvs]; rewrite nth_error_list_upd, Nat.eqb_refl, Lj; reflexivity|]);
      rewrite V; cbn [snd]; now rewrite ?K2.
Qed.

Lemma C115_refuted_pf : forall cs0 rs0 p j t i c n v, trun cs0 tstart = (rs0, p) -> nth_error (tlvs p) j = Some t ->
  fst (tstep (GetTag j) p) = Ok (RTag i) -> tlv_view p t = Some v ->
  let p' := snd (trun [GetTag j; TagInit i (InitClass c n)] p) in
  exists g, ttag v = Some g /\ nth_error (tlvs p') j = Some t
    /\ tlv_view p' t = Some (mkTLV (tkind v) (Some (mkTag c (tconstr g) n (tsize g))) (tlen v) (tval v)).
Proof.
  intros cs0 rs0 p j t i c n v H0 Hj HG HV. cbv zeta.
  cbn [tstep] in HG. rewrite Hj in HG. cbn [fst] in HG. destruct (ltag t) as [i'|] eqn:Et; [|discriminate].
  injection HG as ->. destruct (twf_reach _ _ _ H0) as (W1 & W2 & W3). destruct (W2 _ _ _ Hj Et) as [Li _].
  unfold tlv_view in HV. rewrite Et in HV.
  destruct (nth_error (tags p) i) as [[k g]|] eqn:Ei; [|discriminate].
  destruct g as [[c0|] kc [n0|] s0]; try discriminate. injection HV as <-. exists (mkTag c0 kc n0 s0). split; [reflexivity|].
  rewrite !trun_cons. cbn [trun fst snd]. cbn [tstep]. rewrite Hj, Et. cbn [snd]. rewrite Ei.
  assert (ST : M_tagobj.step k (InitClass c n) (mkObj (Some c0) kc (Some n0) s0) = (Ok tt, mkObj (Some c) kc (Some n) s0)) by reflexivity.
  rewrite ST. cbn [snd tags tlvs]. split; [assumption|]. unfold tlv_view. rewrite Et. cbn [tags]. rewrite nth_error_list_upd, Nat.eqb_refl.
  apply Nat.ltb_lt in Li. rewrite Li. reflexivity.
Qed.

Lemma C115_full_refuted_pf : ~ C115_full.
Proof.
  intros F.
  pose (cs0 := [NewTag false; TagInit 0 (InitBytes [69; 3] 0); NewTLV false; TLVInit 0 0 [1; 2; 3] 0 2]).
  pose (cs := [GetTag 0; TagInit 1 (InitClass 2 9)]).
  destruct (nth_error (tlvs (snd (trun cs0 tstart))) 0) as [t|] eqn:Ht; [|vm_compute in Ht; discriminate Ht].
  destruct (F cs0 _ _ cs _ _ 0%nat t (surjective_pairing _) (surjective_pairing _) Ht) as (t' & Ht' & _ & E).
  - repeat constructor.
  - vm_compute in Ht. injection Ht as <-. vm_compute in Ht'. injection Ht' as <-.
    specialize (E 0 [0; 0; 0; 0]). vm_compute in E. discriminate E.
Qed.
