(** * C123: an APDU constructed from a bytes object: proofs *)
From Verif Require Import Py S_Base S_ApduBytes L_Py M_utils M_util L_util M_apdu L_apdu M_apdubytes LP_apdu.
From Coq Require Import ZifyBool ZifyNat.


Lemma C123_step_partial_pf : forall o s,
  (sends o = false -> apdu_step_b o s = apdu_step o s)
  /\ (sends o = true ->
      (forall e, fst (apdu_step o s) = Err e -> apdu_step_b o s = apdu_step o s)
      /\ (forall x, fst (apdu_step o s) = Ok x ->
          fst (apdu_step_b o s) = Err TypeError
          /\ snd (apdu_step_b o s)
             = match o with
               | OpSetOutgoingAndSend _ n => snd (apdu_run [OpSetOutgoing; OpSetOutgoingLength n] s)
               | _ => s
               end)).
Proof.
  intros o s. split; [destruct o; intros [=]; reflexivity|].
  assert (SB : forall src b n s0,
    (exists e, send_block src b n s0 = (Err e, s0) /\ send_block_b n s0 = (Err e, s0))
    \/ (exists s1, send_block src b n s0 = (Ok tt, s1) /\ send_block_b n s0 = (Err TypeError, s0))).
  { intros src b n s0. unfold send_block, send_block_b, bind, get, raise, put.
    destruct (curout s0) as [c|]; [|left; eauto]. destruct (OUT_BLOCKSIZE <? c + n); [left; eauto | right; eauto]. }
  assert (SS : forall b n s0,
    (exists e, sendBytes b n s0 = (Err e, s0) /\ sendBytes_b b n s0 = (Err e, s0))
    \/ (exists s1, sendBytes b n s0 = (Ok tt, s1) /\ sendBytes_b b n s0 = (Err TypeError, s0))).
  { intros b n s0. unfold sendBytes, sendBytes_b, bind, get.
    destruct (st s0 <? STATE_OUTGOING); [left; unfold raise; eauto|]. exact (SB (buf s0) b n s0). }
  destruct o; intros [=]; cbn [apdu_step apdu_step_b].
  - unfold mvoid. unfold bind. destruct (SS bOffs len s) as [(e & -> & ->)|(s1 & -> & ->)]; cbn [fst snd ret].
    + split; [reflexivity | intros ? [=]].
    + split; [intros ? [=] | auto].
  - unfold mvoid, sendBytesLong, sendBytesLong_b. unfold bind, get.
    destruct (_ && _); [split; [reflexivity | intros ? [=]]|].
    destruct (SB outData bOffs len s) as [(e & -> & ->)|(s1 & -> & ->)]; cbn [fst snd ret].
    + split; [reflexivity | intros ? [=]].
    + split; [intros ? [=] | auto].
  - unfold mvoid, setOutgoingAndSend, setOutgoingAndSend_b. cbn [apdu_run apdu_step]. unfold mvoid, msome. unfold bind.
    destruct (setOutgoing s) as [[x|e] s1]; [|split; [reflexivity | intros ? [=]]].
    cbn [ret].
    destruct (setOutgoingLength len s1) as [[x'|e] s2]; [|split; [reflexivity | intros ? [=]]].
    destruct (SS bOffs len s2) as [(e & -> & ->)|(s3 & -> & ->)]; cbn [fst snd ret].
    + split; [reflexivity | intros ? [=]].
    + split; [intros ? [=] | auto].
Qed.

Lemma run_b_app h : forall o s, snd (apdu_run_b (h ++ [o]) s) = snd (apdu_step_b o (snd (apdu_run_b h s))).
Proof.
  induction h as [|o' h IH]; intros o s; cbn [app apdu_run_b].
  - cbn [snd]. destruct (apdu_step_b o s) as [r s']. reflexivity.
  - destruct (apdu_step_b o' s) as [r s']. specialize (IH o s').
    destruct (apdu_run_b (h ++ [o]) s') as [tr s1]. destruct (apdu_run_b h s') as [tr2 s2]. exact IH.
Qed.

Lemma C123_receive_partial_pf : forall ops s, Forall (fun o => sends o = false) ops ->
  apdu_run_b ops s = apdu_run ops s.
Proof.
  induction ops as [|o ops IH]; intros s F; [reflexivity|]. inversion F; subst. cbn [apdu_run_b apdu_run].
  rewrite (proj1 (C123_step_partial_pf o s)) by assumption. destruct (apdu_step o s) as [r s']. now rewrite IH.
Qed.

Lemma C123_refuted_pf : forall ops s tr s', apdu_run_b ops s = (tr, s') ->
  Forall (fun x => sends (fst x) = true -> is_ok (snd x) = false) tr.
Proof.
  induction ops as [|o ops IH]; intros s tr s' E; cbn [apdu_run_b] in E; [inversion E; constructor|].
  destruct (apdu_step_b o s) as [r s1] eqn:Eo. destruct (apdu_run_b ops s1) as [tr1 s2] eqn:Er.
  inversion E; subst. constructor; [|eauto]. cbn [fst snd]. intros Hs.
  destruct (C123_step_partial_pf o s) as [_ H]. destruct (H Hs) as [H1 H2].
  destruct (fst (apdu_step o s)) as [x|e] eqn:Ex.
  - destruct (H2 x eq_refl) as [H3 _]. rewrite Eo in H3. cbn [fst] in H3. now rewrite H3.
  - rewrite (H1 e eq_refl) in Eo. rewrite Eo in Ex. cbn [fst] in Ex. now rewrite Ex.
Qed.

Lemma step_b_frame o s : raw (snd (apdu_step_b o s)) = raw s
  /\ (st (snd (apdu_step_b o s)) = st s \/ 0 <= st (snd (apdu_step_b o s)) <= 4).
Proof.
  pose (Q := fun t t' : apdu => raw t' = raw t /\ (st t' = st t \/ 0 <= st t' <= 4)).
  assert (Q1 : forall t, Q t t) by (intros t; split; auto).
  assert (SO : forall t, Q t (snd (setOutgoing t))).
  { intros t. unfold setOutgoing, bind, get, raise, put, ret. destruct (_ <=? _); [apply Q1|].
    split; [reflexivity|]. right. cbn. unfold STATE_OUTGOING. lia. }
  assert (SL : forall n t, Q t (snd (setOutgoingLength n t))).
  { intros n t. unfold setOutgoingLength, bind, get, raise, put, ret. destruct (_ <? _); [apply Q1|].
    destruct (match Ne t with Some e => e <? n | None => false end); [apply Q1|].
    split; [reflexivity|]. right. cbn. unfold STATE_OUTGOING_LENGTH_KNOWN. lia. }
  assert (SN : forall n t, snd (send_block_b n t) = t).
  { intros n t. unfold send_block_b, bind, get, raise. destruct (curout t); [|reflexivity]. destruct (_ <? _); reflexivity. }
  assert (SB : forall b n t, snd (sendBytes_b b n t) = t).
  { intros b n t. unfold sendBytes_b, bind at 1, get, raise. destruct (_ <? _); [reflexivity|]. apply SN. }
  assert (RB : forall b t, Q t (snd (receive_block b t))).
  { intros b t. rewrite receive_block_unfold. cbv zeta. destruct (for_loop _ _ _ _) as [[[]|e] b0].
    - split; [reflexivity|]. right. cbn. destruct (_ =? _); unfold STATE_FULL_INCOMING, STATE_PARTIAL_INCOMING; lia.
    - split; [reflexivity|]. left. reflexivity. }
  assert (QT : forall t t1 t2, Q t t1 -> Q t1 t2 -> Q t t2).
  { intros t t1 t2 [A1 A2] [B1 B2]. split; [congruence|]. destruct B2 as [B2|B2]; [rewrite B2; assumption | right; assumption]. }
  change (Q s (snd (apdu_step_b o s))).
  destruct o as [|b| |n|b n|d b n|b n|i v]; cbn [apdu_step_b apdu_step]; unfold msome, mvoid.
  - unfold setIncomingAndReceive, bind, get, raise, ret. destruct (negb _); [apply Q1|]. destruct (broken s); [apply Q1|].
    specialize (RB (offin s) s). destruct (receive_block _ _) as [[n|e] t]; exact RB.
  - unfold receiveBytes, bind, get, raise, ret. destruct (_ || _); [apply Q1|].
    specialize (RB b s). destruct (receive_block _ _) as [[n|e] t]; exact RB.
  - specialize (SO s). unfold bind at 1, ret. destruct (setOutgoing s) as [[n|e] t]; exact SO.
  - specialize (SL n s). unfold bind at 1, ret. destruct (setOutgoingLength n s) as [[n'|e] t]; exact SL.
  - specialize (SB b n s). unfold bind at 1, ret. destruct (sendBytes_b b n s) as [[n'|e] t]; cbn [snd] in *; subst; apply Q1.
  - assert (X : snd (sendBytesLong_b d b n s) = s).
    { unfold sendBytesLong_b, bind at 1, get, raise. destruct (_ && _); [reflexivity|]. apply SN. }
    unfold bind at 1, ret. destruct (sendBytesLong_b d b n s) as [[n'|e] t]; cbn [snd] in *; subst; apply Q1.
  - assert (X : Q s (snd (setOutgoingAndSend_b b n s))).
    { unfold setOutgoingAndSend_b. unfold bind at 1. specialize (SO s). destruct (setOutgoing s) as [[x|e] t]; [|exact SO].
      cbn [snd] in SO. apply (QT _ _ _ SO). unfold bind at 1. specialize (SL n t).
      destruct (setOutgoingLength n t) as [[x'|e] t']; [|exact SL]. cbn [snd] in SL. apply (QT _ _ _ SL).
      rewrite SB. apply Q1. }
    unfold bind at 1, ret. destruct (setOutgoingAndSend_b b n s) as [[n'|e] t]; exact X.
  - destruct (aset i v (buf s)) as [[[]|e] b']; [|apply Q1]. split; [reflexivity|]. left. reflexivity.
Qed.

Lemma C123_frame_partial_pf : forall b s ops cla, newAPDU b = Ok s -> nth_error b 0 = Some cla ->
  let s' := snd (apdu_run_b ops s) in
  raw s' = b
  /\ isISOInterindustryCLA s' = Ok (negb (Z.testbit cla 7))
  /\ isCommandChainingCLA s' = Ok (Z.testbit cla 4)
  /\ 0 <= getCurrentState s' <= 4.
Proof.
  intros b s ops cla Hn Hc s'.
  destruct (C30_cla_partial_pf b s [] [] s cla Hn Hc eq_refl (Forall_nil _)) as [K1 K2].
  assert (R0 : raw s = b /\ st s = 0).
  { apply newAPDU_inv in Hn as (_ & br & cd & ty & nc & ne & ll & -> & _). split; reflexivity. }
  assert (R : raw s' = raw s /\ (st s' = st s \/ 0 <= st s' <= 4)).
  { unfold s'. clear - s. induction ops as [|o ops IH] using rev_ind; [cbn; auto|]. rewrite run_b_app.
    destruct (step_b_frame o (snd (apdu_run_b ops s))) as [A B]. destruct IH as [C D].
    split; [congruence|]. destruct B as [B|B]; [rewrite B; assumption | right; assumption]. }
  destruct R0 as [R0 R1]. destruct R as [R2 R3].
  split; [congruence|]. unfold isISOInterindustryCLA, isCommandChainingCLA, getCurrentState in *.
  rewrite R2. split; [assumption|]. split; [assumption|]. lia.
Qed.

Lemma C123_full_refuted_pf : ~ C123_full.
Proof.
  intros F. destruct (newAPDU [0; 1; 2; 3]) as [s|e] eqn:E; [|discriminate].
  destruct (F [0; 1; 2; 3] s [OpSetOutgoingAndSend 0 1] ltac:(repeat constructor; lia) E) as [H _].
  assert (Es : s = match newAPDU [0; 1; 2; 3] with Ok s => s | Err _ => s end) by now rewrite E.
  clear F E. rewrite Es in H. vm_compute in H. discriminate.
Qed.
