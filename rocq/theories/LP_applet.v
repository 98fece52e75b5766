(** * C96 for every command, C97 with one argument, C134: applet objects: proofs *)
From Verif Require Import Py S_Base S_APDU L_Py M_utils M_util L_utils L_util M_apdu S_ApduObs L_apdu M_system M_world S_World LP_apdu LP_util LP_world M_applet S_Applet.
From Coq Require Import Lia Bool ZifyBool ZifyNat.

(** *** C96 *)
Lemma outl_pos b : Forall anybyte b -> 4 < zlen b -> 1 <= fst (outl b).
Proof.
  intros F L. assert (B : forall k, anybyte (blast b k)).
  { intros k. unfold blast. destruct (Nat.lt_ge_cases (length b - k) (length b)) as [Q|Q]; [|rewrite nth_overflow by lia; unfold anybyte; lia].
    rewrite Forall_forall in F. apply F, nth_In, Q. }
  pose proof (B 1%nat) as B1. pose proof (B 2%nat) as B2. unfold anybyte in B1, B2. unfold outl.
  destruct ((zlen b =? 5) || negb (b4 b =? 0)); destruct (Z.eqb_spec (blast b 1) 0); try (destruct (Z.eqb_spec (blast b 2) 0)); cbn [fst]; 
    Z.div_mod_to_equations; lia.
Qed.
Lemma recv_any raw s : newAPDU raw = Ok s -> broken s = false ->
  exists n b o x, setIncomingAndReceive s = (Ok n, with_in b o x s) /\ length b = 257%nat /\ x < 3.
Proof.
  intros H B. apply newAPDU_inv in H as (H4 & br & cd & ty & nc & ne & ll & -> & Hll & Hnc & HX). cbn [broken mk_apdu] in B. subst br.
  pose proof (p3len_bounds raw H4) as Hp. pose proof (initbuf_length raw H4) as HI.
  unfold setIncomingAndReceive, bind, get. cbn [st mk_apdu broken STATE_INITIAL Z.eqb negb].
  destruct (Z.le_gt_cases 0 (zlen raw - (4 + p3len raw) - ll)) as [P|P].
  - rewrite (receive_block_ok _ _ (Z.min IN_BLOCKSIZE (zlen raw - (4 + p3len raw) - ll))); cbn [M_apdu.raw offin lelength buf mk_apdu]; try lia; try (unfold IN_BLOCKSIZE; lia).
    2:{ unfold zlen at 2. rewrite HI. unfold IN_BLOCKSIZE. lia. }
    do 4 eexists. split; [reflexivity|]. split.
    + rewrite splice_length; [exact HI|]. rewrite sub_length by (unfold zlen, IN_BLOCKSIZE in *; lia). rewrite HI. unfold IN_BLOCKSIZE. lia.
    + unfold STATE_FULL_INCOMING, STATE_PARTIAL_INCOMING. destruct (_ =? _); lia.
  - rewrite receive_block_unfold. cbn [offin mk_apdu M_apdu.raw lelength buf]. cbv zeta.
    replace (Z.to_nat (Z.min IN_BLOCKSIZE (zlen raw - (4 + p3len raw) - ll))) with 0%nat by lia. cbn [for_loop ret].
    do 4 eexists. split; [reflexivity|]. split; [exact HI|]. unfold STATE_FULL_INCOMING, STATE_PARTIAL_INCOMING. destruct (_ =? _); lia.
Qed.
Lemma new_facts raw s : newAPDU raw = Ok s -> 4 <= zlen raw /\ M_apdu.raw s = raw /\ st s = 0 /\ buf s = initbuf raw /\ outlen s = 0.
Proof. intros H. apply newAPDU_inv in H as (H4 & br & cd & ty & nc & ne & ll & -> & _). now repeat split. Qed.
Lemma new_le raw s : Forall anybyte raw -> newAPDU raw = Ok s -> match Ne s with Some n => 1 <= n | None => True end.
Proof.
  intros F H. destruct (new_facts raw s H) as [H4 _]. rewrite newAPDU_eq in H by lia.
  destruct (Z.eqb_spec (zlen raw) 4); [apply Ok_inj in H; subst s; exact I|]. pose proof (outl_pos raw F ltac:(lia)).
  destruct (_ || _); [apply Ok_inj in H; subst s; cbn; lia|]. destruct (_ && _); [discriminate|].
  destruct (_ || _); apply Ok_inj in H; subst s; cbn; [exact I|lia].
Qed.
Lemma choice1_any raw s : newAPDU raw = Ok s -> broken s = false ->
  match choice1 s with
  | (Ok _, s') => match Ne s with Some n => 3 <= n | None => True end /\ py_slice (M_apdu.raw s') 0 (outlen s') = [55; 77; 99]
  | (Err e, _) => match Ne s with Some n => n < 3 | None => False end /\ e = APDUExc BAD_LENGTH
  end.
Proof.
  intros H Br. destruct (recv_any raw s H Br) as (n & b & o & x & E & Lb & Hx). destruct (new_facts raw s H) as (H4 & R & S0 & _).
  unfold choice1. rewrite (bind_ok _ _ _ _ _ E).
  do 3 (destruct b as [|? b]; [discriminate Lb|]). cbn [length] in Lb. assert (Zb : zlen b = 254) by (unfold zlen; lia).
  do 3 (erewrite bind_ok; [|apply write_ok; cbn [buf with_in with_buf]; unfold zlen in *; rewrite ?list_upd_length; cbn [length]; lia]).
  cbn [buf with_in with_buf]. change (Z.to_nat 0) with 0%nat. change (Z.to_nat 1) with 1%nat. change (Z.to_nat 2) with 2%nat. cbn [list_upd].
  unfold setOutgoingAndSend, setOutgoing, bind, get, raise, put, ret.
  cbn [st with_in with_buf]. unfold STATE_OUTGOING. replace (3 <=? x) with false by lia.
  cbn [fst snd]. unfold setOutgoingLength, bind, get, raise, put. cbn [st with_out Ne with_in with_buf]. unfold STATE_OUTGOING. cbn [Z.ltb Z.compare Pos.compare Pos.compare_cont].
  destruct (match Ne s with Some n0 => n0 <? 3 | None => false end) eqn:E3.
  - split; [|reflexivity]. destruct (Ne s); [lia|discriminate].
  - unfold sendBytes, send_block, bind, get, raise, put. cbn [st with_out curout buf M_apdu.raw with_in with_buf outlen]. unfold STATE_OUTGOING, OUT_BLOCKSIZE, STATE_OUTGOING_LENGTH_KNOWN.
    cbn [Z.ltb Z.compare Pos.compare Pos.compare_cont Z.add]. split; [destruct (Ne s); [lia|exact I]|].
    cbn [M_apdu.raw outlen with_out]. rewrite R. do 4 (destruct raw as [|? raw]; [cbn in H4; lia|]).
    rewrite slice3. change (0 + 3) with 3. rewrite slice_set3. apply slice3.
Qed.

Lemma C96_every_pf : forall raw s le, Forall anybyte raw -> newAPDU raw = Ok s -> fst (setOutgoing s) = Ok le ->
  respond (base_process (Some false)) raw = every_answer (nth 0 raw 0) (nth 1 raw 0) (fst (setIncomingAndReceive s)) le
  /\ respond (base_process (Some true)) raw = Ok [0x90; 0].
Proof.
  intros raw s le F H Hle. destruct (new_facts raw s H) as (H4 & R & S0 & B & O). pose proof (new_le raw s F H) as NL.
  assert (L : le = match Ne s with Some n => n | None => 0 end).
  { unfold setOutgoing, bind, get in Hle. rewrite S0 in Hle. change (STATE_OUTGOING <=? 0) with false in Hle. cbn in Hle. unfold getOutgoingLength in Hle. congruence. }
  clear Hle. unfold respond. rewrite H. cbn [rbind base_process].
  assert (B1 : py_get (buf s) 1 = Ok (nth 1 raw 0)).
  { pose proof (initbuf_length raw H4). pose proof (p3len_bounds raw H4).
    rewrite B, !(py_get_in (initbuf raw) _ 0) by (unfold zlen; lia).
    unfold initbuf. replace (Z.to_nat (4 + p3len raw)) with (S (S (Z.to_nat (2 + p3len raw)))) by lia.
    do 2 (destruct raw as [|? raw]; [cbn in H4; lia|]). reflexivity. }
  split; [|unfold ret; rewrite O, slice0; reflexivity].
  unfold bind at 1, get. unfold isISOInterindustryCLA, OFFSET_CLA. rewrite R, (py_get_in raw 0 0) by lia. cbn [rbind]. unfold bind at 1, lift, raise. change (Z.to_nat 0) with 0%nat.
  unfold every_answer. rewrite bit7. destruct (Z.testbit (nth 0 raw 0) 7); cbn [negb]; [|reflexivity].
  unfold bind at 1, OFFSET_INS. rewrite B1.
  destruct (nth 1 raw 0 =? 8).
  - destruct (broken s) eqn:Br.
    + unfold choice1. unfold setIncomingAndReceive at 1 2. unfold bind, get. rewrite S0, Br. reflexivity.
    + pose proof (choice1_any raw s H Br) as CH. destruct (recv_any raw s H Br) as (n & b & o & x & E & _). rewrite E. cbn [fst].
      destruct (choice1 s) as [[u|e] s']; destruct CH as [CH1 CH2].
      * rewrite CH2. replace ((le =? 0) || (3 <=? le)) with true by (destruct (Ne s); lia). reflexivity.
      * subst e. destruct (Ne s) as [k|]; [|contradiction]. replace ((le =? 0) || (3 <=? le)) with false by lia. reflexivity.
  - destruct (nth 1 raw 0 =? 56); [cbn [orb]; unfold ret; rewrite O, slice0; reflexivity|].
    destruct (nth 1 raw 0 =? 42); [cbn [orb]; unfold ret; rewrite O, slice0; reflexivity|]. reflexivity.
Qed.

Lemma C97_one_partial_pf : forall memoryType offset mt buffer, 0 <= offset -> offset + 2 <= zlen buffer ->
  exists b, getAvailableMemory3 offset mt (Some buffer) = (Ok tt, Some b) /\ getShort b offset = getAvailableMemory1 memoryType.
Proof.
  intros memoryType offset mt buffer H0 H1. destruct (C97_partial_pf offset mt buffer H0 H1) as (b & E & G & _). exists b. now split.
Qed.

(** *** C134 *)
Lemma arun_app l l' w : snd (arun (l ++ l') w) = snd (arun l' (snd (arun l w))).
Proof.
  revert w. induction l as [|c l IH]; intros w; [reflexivity|]. cbn [app arun]. destruct (acall_step c w) as [r w'].
  specialize (IH w'). destruct (arun (l ++ l') w') as [tr v]. destruct (arun l w') as [tr' v']. exact IH.
Qed.
Lemma arun_cons c l w : snd (arun (c :: l) w) = snd (arun l (snd (acall_step c w))).
Proof. cbn [arun]. destruct (acall_step c w) as [r w']. cbn [snd]. now destruct (arun l w'). Qed.
Lemma with_applet_keeps i f w : snd (with_applet i f w) = w.
Proof. unfold with_applet. now destruct (nth_error w i). Qed.
Lemma step_world c w : snd (acall_step c w) = match c with ANew => w ++ [None] | ASet i b => list_upd w i (Some b) | _ => w end.
Proof.
  destruct c; cbn [acall_step]; try apply with_applet_keeps; try reflexivity.
  destruct (nth_error w i) eqn:E; [reflexivity|]. cbn [snd]. apply nth_error_None in E. revert i E. induction w as [|a w IH]; intros [|i] E; cbn in *; try reflexivity; [lia|]. f_equal. apply IH. lia.
Qed.
Lemma run_length l : forall w, length (snd (arun l w)) = (length w + created l)%nat.
Proof.
  induction l as [|c l IH]; intros w; [cbn; lia|]. rewrite arun_cons, IH, step_world. destruct c; cbn [created]; rewrite ?app_length, ?list_upd_length; cbn [length]; lia.
Qed.
Lemma run_at i : forall l w a, nth_error w i = Some a -> nth_error (snd (arun l w)) i = Some (match last_set i l with Some b => Some b | None => a end).
Proof.
  induction l as [|c l IH]; intros w a E; [exact E|]. rewrite arun_cons. cbn [last_set].
  assert (L : (i < length w)%nat) by (apply nth_error_Some; congruence).
  assert (N : nth_error (snd (acall_step c w)) i = Some (match c with ASet j b => if Nat.eqb i j then Some b else a | _ => a end)).
  { rewrite step_world. destruct c; try exact E.
    - now rewrite nth_error_app1.
    - rewrite nth_error_list_upd. destruct (Nat.eqb_spec i i0) as [<-|D].
      + now replace (i <? length w)%nat with true by lia.
      + exact E. }
  rewrite (IH _ _ N). destruct (last_set i l); [reflexivity|]. destruct c; try reflexivity. now destruct (Nat.eqb i i0).
Qed.
Lemma asked_exact pre post : asked pre post = match last_set (created pre) post with Some b => Ok (RBool b) | None => Err AttributeError end.
Proof.
  unfold asked. rewrite arun_app, arun_cons, step_world. cbn [acall_step]. unfold with_applet.
  rewrite (run_at (created pre) post _ None).
  - cbn [fst]. now destruct (last_set (created pre) post).
  - rewrite nth_error_app2; rewrite run_length; cbn [length Nat.add]; [now rewrite Nat.sub_diag|lia].
Qed.

Lemma C134_partial_pf : forall pre post b, last_set (created pre) post = Some b -> asked pre post = Ok (RBool b).
Proof. intros pre post b H. now rewrite asked_exact, H. Qed.

Lemma C134_refuted_pf : forall pre post, last_set (created pre) post = None -> asked pre post = Err AttributeError.
Proof. intros pre post H. now rewrite asked_exact, H. Qed.

Lemma C134_full_refuted_pf : ~ C134_full.
Proof. intros H. specialize (H [] []). discriminate H. Qed.

Lemma C134_defaults_pf : forall i w s, (i < length w)%nat ->
  acall_step (ASelect i) w = (Ok (RBool true), w) /\ acall_step (AReselecting i) w = (Ok (RBool false), w)
  /\ acall_step (ADeselect i) w = (Ok RNone, w) /\ acall_step (ARegister i) w = (Ok RNone, w) /\ acall_step (AIds i) w = (Ok RNone, w)
  /\ acall_step AInstall w = (Err NotImplementedError, w) /\ acall_step (AProcess i s) w = (Err NotImplementedError, w)
  /\ acall_step (AShareable i) w = (Err NotImplementedError, w) /\ snd (acall_step (ASelecting i) w) = w.
Proof.
  intros i w s H. destruct (nth_error w i) eqn:E; [|apply nth_error_None in E; lia].
  cbn [acall_step]. unfold with_applet. rewrite E. repeat split.
Qed.
