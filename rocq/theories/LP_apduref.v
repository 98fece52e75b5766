(** * C119: an APDU object is the reference exchange: proofs *)
From Verif Require Import Py S_Base S_APDU L_Py L_util M_apdu S_ApduObs L_apdu LP_apdu S_ApduRef.
From Coq Require Import ZifyBool ZifyNat.
Ltac Zify.zify_post_hook ::= Z.div_mod_to_equations.

Definition sim (raw0 : list Z) (c : command) (s : apdu) (x : session) : Prop :=
  buf s = se_buf x /\ length (buf s) = 257%nat /\ st s = phase_code (se_phase x) /\ Ne s = se_le x
  /\ outlen s = se_out x /\ broken s = false
  /\ if incoming (se_phase x) then
       raw s = raw0 /\ curout s = None /\ 0 <= lelength s
       /\ ((se_phase x = Initial /\ only_le c = -1 /\ se_left x = [] /\ offin s = 5 /\ zlen raw0 - offin s - lelength s = -1)
           \/ (0 <= offin s /\ offin s + zlen (se_left x) + lelength s = zlen raw0
               /\ se_left x = sub raw0 (Z.to_nat (offin s)) (length (se_left x))
               /\ (se_phase x = Initial -> only_le c = 0 /\ (se_left x <> [] -> offin s = data_at c))))
     else curout s = Some (zlen (se_sent x)) /\ firstn (length (se_sent x)) (raw s) = se_sent x.

(** ** receiving *)
Lemma receive_over bOffs s n : n = Z.min 128 (zlen (raw s) - offin s - lelength s) -> 0 < n ->
  0 <= offin s -> 0 <= lelength s -> 0 <= bOffs -> length (buf s) = 257%nat -> 257 < bOffs + n ->
  receive_block bOffs s = (Err IndexError, with_buf (if bOffs <? 257 then splice (buf s) (Z.to_nat bOffs)
     (sub (raw s) (Z.to_nat (offin s)) (Z.to_nat (257 - bOffs))) else buf s) s).
Proof.
  intros Hn H0 H1 H2 H3 HL H4. rewrite receive_block_unfold. cbv zeta. unfold IN_BLOCKSIZE. rewrite <- Hn.
  set (k := Z.to_nat (Z.max 0 (257 - bOffs))).
  replace (Z.to_nat n) with (k + S (Z.to_nat n - k - 1))%nat by lia. rewrite for_loop_app.
  assert (EK : for_loop k 0 (cp_body (raw s) (offin s) bOffs) (buf s)
     = (Ok tt, if bOffs <? 257 then splice (buf s) (Z.to_nat bOffs) (sub (raw s) (Z.to_nat (offin s)) (Z.to_nat (257 - bOffs))) else buf s)).
  { destruct (Z.ltb_spec bOffs 257).
    - rewrite cp_loop by (unfold zlen in *; lia). rewrite !Z.add_0_r. now replace k with (Z.to_nat (257 - bOffs)) by lia.
    - replace k with 0%nat by lia. reflexivity. }
  pose proof (cp_loop_length k (raw s) (offin s) bOffs 0 (buf s)) as LK.
  rewrite EK in *. cbn [snd] in LK. rewrite for_loop_S. unfold bind at 1, cp_body at 1, bind, lift.
  rewrite (py_get_in _ _ 0) by (unfold zlen in *; lia). rewrite aset_out by (unfold zlen; lia). reflexivity.
Qed.
Lemma sub_split {A} (l : list A) a k (L : list A) : L = sub l a (length L) ->
  firstn k L = sub l a (length (firstn k L)) /\ skipn k L = sub l (a + length (firstn k L)) (length (skipn k L)).
Proof.
  intros E. unfold sub in *. set (m := length L) in *. split.
  - rewrite E at 1. rewrite firstn_firstn. rewrite firstn_length. fold m. reflexivity.
  - rewrite E at 1. rewrite skipn_firstn_comm, skipn_skipn.
    rewrite skipn_length, firstn_length. fold m.
    destruct (Nat.le_ge_cases k m); [f_equal; f_equal; lia|]. now replace (m - k)%nat with 0%nat by lia.
Qed.

Lemma sim_receive raw0 c s x off none : sim raw0 c s x -> incoming (se_phase x) = true -> 0 <= off ->
  (se_phase x = Initial -> (se_left x <> [] -> off = offin s) /\ none = only_le c) ->
  (se_phase x <> Initial -> none = 0) ->
  let '(r, s') := receive_block off s in
  let '(r', x') := deliver off none x in
  (match r with Ok n => Ok (Some n) | Err e => Err e end) = r' /\ sim raw0 c s' x'.
Proof.
  intros (S1 & S2 & S3 & S4 & S5 & S6 & S7) HI Ho HN HN'. rewrite HI in S7. destruct S7 as (T1 & T2 & T3 & T4).
  destruct T4 as [(P & N1 & N2 & N3 & N4)|(U1 & U2 & U3 & U4)].
  - (* only Le *)
    rewrite receive_block_unfold. cbv zeta. unfold IN_BLOCKSIZE. rewrite T1, Z.min_r by lia. rewrite N4.
    cbn [Z.to_nat for_loop]. unfold ret, deliver. rewrite N2. cbn [firstn skipn].
    change (zlen (@nil Z) =? 0) with true. cbn [orb]. split; [now rewrite (proj2 (HN P)), N1|].
    unfold sim. cbn [buf st Ne outlen broken raw curout lelength offin with_in se_buf se_phase se_le se_out se_left se_sent incoming].
    repeat split; auto; try lia.
    + destruct (Z.eqb_spec (offin s + -1) (zlen raw0 - lelength s)) as [E|E]; [reflexivity|lia].
    + right. split; [lia|]. split; [rewrite zlen_nil; lia|]. split; [reflexivity|discriminate].
  - set (blk := firstn 128 (se_left x)). set (rest := skipn 128 (se_left x)).
    assert (LB : zlen blk = Z.min 128 (zlen (raw s) - offin s - lelength s)).
    { rewrite T1. unfold blk, zlen in *. rewrite firstn_length. lia. }
    assert (LB' : zlen blk = Z.min 128 (zlen raw0 - offin s - lelength s)) by (rewrite <- T1; exact LB).
    assert (LR : zlen rest = zlen (se_left x) - zlen blk).
    { unfold rest, blk, zlen. rewrite skipn_length, firstn_length. lia. }
    destruct (sub_split raw0 (Z.to_nat (offin s)) 128 (se_left x) U3) as [EB ER]. fold blk rest in EB, ER.
    unfold deliver. cbv zeta. fold blk rest.
    pose proof (zlen_nonneg blk) as B0.
    destruct (Z.eqb_spec (zlen blk) 0) as [Z0|Z0]; cbn [orb]; [|destruct (Z.leb_spec (off + zlen blk) 257) as [F|F]].
    + (* nothing left *)
      rewrite receive_block_unfold. cbv zeta. unfold IN_BLOCKSIZE. rewrite <- LB, Z0. cbn [Z.to_nat for_loop]. unfold ret.
      assert (NL : none = 0).
      { destruct (se_phase x) eqn:EP; try (apply HN'; discriminate). rewrite (proj2 (HN eq_refl)). apply U4, eq_refl. }
      rewrite NL. split; [reflexivity|].
      assert (R0 : rest = []) by (apply length_zero_iff_nil; unfold zlen in *; lia). rewrite R0.
      unfold sim. cbn [buf st Ne outlen broken raw curout lelength offin with_in se_buf se_phase se_le se_out se_left se_sent incoming].
      rewrite Z.add_0_r. repeat split; auto; try lia.
      * rewrite T1 in *. destruct (Z.eqb_spec (offin s) (zlen raw0 - lelength s)) as [E|E]; [reflexivity|lia].
      * right. split; [lia|]. split; [rewrite zlen_nil; lia|]. split; [reflexivity|discriminate].
    + rewrite (receive_block_ok off s (zlen blk)); try assumption; try lia; [|unfold zlen in *; lia].
      split; [reflexivity|].
      assert (EB' : sub (raw s) (Z.to_nat (offin s)) (Z.to_nat (zlen blk)) = blk).
      { rewrite T1. unfold zlen. rewrite Nat2Z.id. now rewrite <- EB. }
      rewrite EB'. unfold sim.
      assert (LS : length (splice (se_buf x) (Z.to_nat off) blk) = 257%nat).
      { rewrite <- S1. rewrite splice_length; [assumption|]. unfold zlen in *. lia. }
      cbn [buf st Ne outlen broken raw curout lelength offin with_in se_buf se_phase se_le se_out se_left se_sent].
      rewrite S1.
      destruct rest as [|v rest'] eqn:RE; cbn [incoming phase_code] in *; repeat split; auto; try lia.
      * rewrite zlen_nil in LR. destruct (Z.eqb_spec (offin s + zlen blk) (zlen (raw s) - lelength s)) as [E|E]; [reflexivity|rewrite T1 in E; lia].
      * right. split; [lia|]. split; [rewrite zlen_nil in *; lia|]. split; [reflexivity|discriminate].
      * rewrite zlen_cons in LR. pose proof (zlen_nonneg rest').
        destruct (Z.eqb_spec (offin s + zlen blk) (zlen (raw s) - lelength s)) as [E|E]; [rewrite T1 in E; lia|reflexivity].
      * right. split; [lia|]. split; [lia|]. split; [|discriminate].
        rewrite ER at 1. f_equal. unfold zlen. lia.
    + rewrite (receive_over off s (zlen blk)); try assumption; try lia.
      split; [reflexivity|].
      assert (EB' : off < 257 -> sub (raw s) (Z.to_nat (offin s)) (Z.to_nat (257 - off)) = firstn (Z.to_nat (257 - off)) blk).
      { intros Hoff. rewrite T1. rewrite EB. unfold sub. rewrite firstn_firstn. f_equal. unfold zlen in *. lia. }
      unfold sim.
      cbn [buf st Ne outlen broken raw curout lelength offin with_buf se_buf se_phase se_le se_out se_left se_sent]. rewrite HI, S1.
      repeat split; auto; try lia.
      * destruct (Z.ltb_spec off 257); [now rewrite EB'|reflexivity].
      * destruct (Z.ltb_spec off 257); [|congruence]. rewrite splice_length; [congruence|].
        rewrite EB' by lia. rewrite firstn_length. rewrite <- S1. lia.
Qed.

(** ** sending *)
Lemma sim_announce raw0 c s x n : sim raw0 c s x -> incoming (se_phase x) = false ->
  let '(r, s') := mvoid (setOutgoingLength n) s in
  let '(r', x') := announce n x in
  r = r' /\ sim raw0 c s' x' /\ incoming (se_phase x') = false.
Proof.
  intros S HI. pose proof S as (S1 & S2 & S3 & S4 & S5 & S6 & S7). rewrite HI in S7. destruct S7 as (T1 & T2).
  unfold mvoid, setOutgoingLength, bind, get, raise, put, ret, announce, STATE_OUTGOING.
  replace (st s <? 3) with false by (rewrite S3; destruct (se_phase x); try discriminate; reflexivity).
  rewrite S4. destruct (match se_le x with Some e => e <? n | None => false end).
  - auto.
  - split; [reflexivity|]. split; [|reflexivity]. unfold sim, open_output.
    cbn [buf st Ne outlen broken raw curout lelength offin with_out se_buf se_phase se_le se_out se_left se_sent incoming].
    repeat split; auto.
Qed.
Lemma sim_emit raw0 c s x src b n : sim raw0 c s x -> incoming (se_phase x) = false -> in_range b n (zlen src) ->
  let '(r, s') := mvoid (send_block src b n) s in
  let '(r', x') := emit (sub src (Z.to_nat b) (Z.to_nat n)) x in
  r = r' /\ sim raw0 c s' x' /\ incoming (se_phase x') = false.
Proof.
  intros S HI (R1 & R2 & R3). pose proof S as (S1 & S2 & S3 & S4 & S5 & S6 & S7). rewrite HI in S7. destruct S7 as (T1 & T2).
  assert (LS : zlen (sub src (Z.to_nat b) (Z.to_nat n)) = n) by (unfold zlen in *; rewrite sub_length; lia).
  assert (LC : zlen (se_sent x) <= zlen (raw s)).
  { unfold zlen. rewrite <- T2 at 1. rewrite firstn_length. lia. }
  pose proof (zlen_nonneg (se_sent x)).
  unfold mvoid, send_block, bind, get, raise, put, ret, emit, OUT_BLOCKSIZE. rewrite T1. cbv zeta.
  rewrite zlen_app, LS. destruct (Z.ltb_spec 256 (zlen (se_sent x) + n)) as [HB|HB].
  - auto.
  - split; [reflexivity|].
    rewrite py_slice_in by lia. replace (b + n - b) with n by lia.
    set (dat := sub src (Z.to_nat b) (Z.to_nat n)) in *.
    destruct (slice_set_prefix (raw s) dat (zlen (se_sent x)) n) as [P1 P2]; [lia|exact LS|].
    unfold sim.
    cbn [buf st Ne outlen broken raw curout lelength offin with_out se_buf se_phase se_le se_out se_left se_sent]. rewrite S5.
    assert (EF : firstn (length (se_sent x ++ dat)) (py_slice_set (raw s) (zlen (se_sent x)) (zlen (se_sent x) + n) dat) = se_sent x ++ dat).
    { replace (length (se_sent x ++ dat)) with (Z.to_nat (zlen (se_sent x) + n)) by (rewrite app_length; unfold zlen in *; lia).
      rewrite P1. f_equal. replace (Z.to_nat (zlen (se_sent x))) with (length (se_sent x)) by (unfold zlen; lia). exact T2. }
    destruct (Z.ltb_spec (zlen (se_sent x) + n) (se_out x)); cbn [incoming phase_code]; repeat split; auto;
      rewrite zlen_app, LS; reflexivity.
Qed.

Lemma in_code x : incoming (se_phase x) = true -> phase_code (se_phase x) < 3.
Proof. destruct (se_phase x); cbn; intros; try lia; discriminate. Qed.
Lemma out_code x : incoming (se_phase x) = false -> 3 <= phase_code (se_phase x) <= 6.
Proof. destruct (se_phase x); cbn; intros; try lia; discriminate. Qed.

Lemma sim_open raw0 c s x : sim raw0 c s x -> incoming (se_phase x) = true ->
  exists n s', setOutgoing s = (Ok n, s') /\ n = (match se_le x with Some e => e | None => 0 end)
   /\ sim raw0 c s' (open_output Outgoing n x).
Proof.
  intros (S1 & S2 & S3 & S4 & S5 & S6 & S7) HI. pose proof (in_code x HI).
  unfold setOutgoing, bind, get, raise, put, ret, STATE_OUTGOING. replace (3 <=? st s) with false by lia.
  unfold getOutgoingLength. rewrite S4. do 2 eexists. split; [reflexivity|]. split; [reflexivity|].
  unfold sim, open_output. cbn [buf st Ne outlen broken raw curout lelength offin with_out se_buf se_phase se_le se_out se_left se_sent incoming].
  repeat split; auto.
Qed.

Lemma sim_step raw0 c o s x : sim raw0 c s x -> op_in_range o ->
  let '(r, s') := apdu_step o s in
  let '(r', x') := ref_step (data_at c) (only_le c) o x in
  r = r' /\ sim raw0 c s' x'.
Proof.
  intros S HR. pose proof S as (S1 & S2 & S3 & S4 & S5 & S6 & S7).
  destruct o as [|b| |n|b n|d b n|b n|i v]; cbn [apdu_step ref_step op_in_range] in *; cbv zeta.
  - unfold msome, setIncomingAndReceive, bind at 1 2, get, raise, ret, STATE_INITIAL. rewrite S3.
    destruct (se_phase x) eqn:EP; cbn [phase_code]; cbn [Z.eqb negb]; try (split; [reflexivity|assumption]).
    rewrite S6.
    assert (OF : se_left x <> [] -> offin s = data_at c).
    { intros HL. rewrite ?EP in S7; cbn [incoming] in S7. destruct S7 as (_ & _ & _ & [(_ & _ & E & _)|(_ & _ & _ & E)]); [contradiction|].
      exact (proj2 (E eq_refl) HL). }
    assert (OP : 0 <= data_at c) by (destruct c; cbn; lia).
    destruct (list_eq_dec Z.eq_dec (se_left x) []) as [HL|HL].
    + (* the offset does not matter *)
      pose proof (sim_receive raw0 c s x (offin s) (only_le c) S) as G.
      rewrite EP in G. cbn [incoming] in G.
      assert (O0 : 0 <= offin s).
      { rewrite ?EP in S7; cbn [incoming] in S7. destruct S7 as (_ & _ & _ & [(_ & _ & _ & E & _)|(E & _)]); lia. }
      specialize (G eq_refl O0 ltac:(auto) ltac:(congruence)).
      destruct (receive_block (offin s) s) as [r s'].
      assert (ED : deliver (data_at c) (only_le c) x = deliver (offin s) (only_le c) x).
      { unfold deliver. rewrite HL. reflexivity. }
      rewrite ED. destruct (deliver (offin s) (only_le c) x) as [r' x']. destruct G as [G1 G2].
      destruct r; (split; [exact G1|exact G2]).
    + pose proof (sim_receive raw0 c s x (offin s) (only_le c) S) as G.
      rewrite EP in G. cbn [incoming] in G. rewrite <- (OF HL) in *.
      specialize (G eq_refl OP ltac:(auto) ltac:(congruence)).
      destruct (receive_block (offin s) s) as [r s']. destruct (deliver (offin s) (only_le c) x) as [r' x']. destruct G as [G1 G2].
      destruct r; (split; [exact G1|exact G2]).
  - unfold msome, receiveBytes, bind at 1 2, get, raise, ret, STATE_PARTIAL_INCOMING, STATE_OUTGOING. rewrite S3.
    pose proof (sim_receive raw0 c s x b 0 S) as G.
    destruct (se_phase x) eqn:EP; cbn [phase_code]; try (split; [reflexivity|assumption]);
      (change ((1 <? 1) || (3 <=? 1)) with false || change ((2 <? 1) || (3 <=? 2)) with false); cbn [orb];
      cbn [incoming] in G;
      specialize (G eq_refl HR ltac:(discriminate) ltac:(auto));
      destruct (receive_block b s) as [r s']; destruct (deliver b 0 x) as [r' x']; destruct G as [G1 G2];
      (destruct r; (split; [exact G1|exact G2])).
  - destruct (incoming (se_phase x)) eqn:HI.
    + destruct (sim_open raw0 c s x S HI) as (n & s' & E & En & S'). unfold msome, bind, ret. rewrite E.
      rewrite <- En. auto.
    + unfold msome, setOutgoing, bind at 1 2, get, raise, STATE_OUTGOING. pose proof (out_code x HI).
      replace (3 <=? st s) with true by lia. auto.
  - destruct (incoming (se_phase x)) eqn:HI.
    + unfold mvoid, setOutgoingLength, bind at 1 2, get, raise, STATE_OUTGOING. pose proof (in_code x HI).
      replace (st s <? 3) with true by lia. auto.
    + pose proof (sim_announce raw0 c s x n S HI) as G. destruct (mvoid _ s) as [r s']. destruct (announce n x) as [r' x'].
      destruct G as (G1 & G2 & _). auto.
  - destruct (incoming (se_phase x)) eqn:HI.
    + unfold mvoid, sendBytes, bind at 1 2, get, raise, STATE_OUTGOING. pose proof (in_code x HI).
      replace (st s <? 3) with true by lia. auto.
    + pose proof (sim_emit raw0 c s x (buf s) b n S HI) as G.
      assert (E : mvoid (sendBytes b n) s = mvoid (send_block (buf s) b n) s).
      { unfold mvoid, sendBytes, bind, get, raise, STATE_OUTGOING. pose proof (out_code x HI).
        replace (st s <? 3) with false by lia. reflexivity. }
      rewrite E. rewrite <- S1. unfold zlen in G. rewrite S2 in G. specialize (G HR).
      destruct (mvoid _ s) as [r s']. destruct (emit _ x) as [r' x']. destruct G as (G1 & G2 & _). auto.
  - assert (E : mvoid (sendBytesLong d b n) s = mvoid (send_block d b n) s).
    { unfold mvoid, sendBytesLong, bind, get, raise, STATE_PARTIAL_OUTGOING, STATE_OUTGOING_LENGTH_KNOWN.
      replace ((5 <? st s) && (st s <? 4)) with false by lia. reflexivity. }
    rewrite E. destruct (incoming (se_phase x)) eqn:HI.
    + destruct S7 as (_ & T2 & _). unfold mvoid, send_block, bind, get, raise. rewrite T2. auto.
    + pose proof (sim_emit raw0 c s x d b n S HI HR) as G. clear E.
      destruct (mvoid (send_block d b n) s) as [r s']. destruct (emit _ x) as [r' x']. destruct G as (G1 & G2 & _). auto.
  - destruct (incoming (se_phase x)) eqn:HI.
    + destruct (sim_open raw0 c s x S HI) as (k & s1 & E & En & S').
      assert (E1 : mvoid (setOutgoingAndSend b n) s = mvoid (setOutgoingLength n ;;; sendBytes b n) s1).
      { unfold mvoid, setOutgoingAndSend, bind. now rewrite E. }
      rewrite E1. rewrite <- En.
      pose proof (sim_announce raw0 c s1 (open_output Outgoing k x) n S' eq_refl) as G.
      assert (E2 : mvoid (setOutgoingLength n ;;; sendBytes b n) s1 =
        match mvoid (setOutgoingLength n) s1 with (Ok _, s2) => mvoid (sendBytes b n) s2 | (Err e, s2) => (Err e, s2) end).
      { unfold mvoid, bind, ret. destruct (setOutgoingLength n s1) as [[u|e] s2]; reflexivity. }
      rewrite E2. destruct (mvoid (setOutgoingLength n) s1) as [r s2].
      destruct (announce n (open_output Outgoing k x)) as [r' x2] eqn:EA. destruct G as (<- & G2 & G3).
      destruct r as [u|e]; [|auto].
      assert (SB : se_buf x2 = se_buf x).
      { assert (EX := f_equal (fun p => se_buf (snd p)) EA). cbn [snd] in EX. rewrite <- EX. unfold announce, open_output. cbn [se_le].
        destruct (se_le x) as [e|]; [destruct (e <? n)|]; reflexivity. }
      pose proof G2 as (B1 & B2 & B3 & _).
      assert (E3 : mvoid (sendBytes b n) s2 = mvoid (send_block (buf s2) b n) s2).
      { unfold mvoid, sendBytes, bind, get, raise, STATE_OUTGOING. pose proof (out_code x2 G3).
        replace (st s2 <? 3) with false by lia. reflexivity. }
      pose proof (sim_emit raw0 c s2 x2 (buf s2) b n G2 G3) as G. unfold zlen in G. rewrite B2 in G. specialize (G HR).
      rewrite E3, <- SB, <- B1.
      clear E3. destruct (mvoid (send_block _ b n) s2) as [r s3]. destruct (emit _ x2) as [r' x3]. destruct G as (G4 & G5 & _). auto.
    + unfold mvoid, setOutgoingAndSend, setOutgoing, bind at 1 2 3, get, raise, STATE_OUTGOING. pose proof (out_code x HI).
      replace (3 <=? st s) with true by lia. auto.
  - rewrite aset_in by (unfold zlen; lia). rewrite list_upd_splice by lia. rewrite S1. split; [reflexivity|].
    assert (LS : length (splice (se_buf x) (Z.to_nat i) [v]) = 257%nat) by (rewrite <- S1; rewrite splice_length; [assumption|cbn [length]; lia]).
    unfold sim. cbn [buf st Ne outlen broken raw curout lelength offin with_buf se_buf se_phase se_le se_out se_left se_sent].
    repeat split; auto.
Qed.

Lemma sim_run raw0 c ops : forall s x, sim raw0 c s x -> Forall op_in_range ops ->
  let '(tr, s') := apdu_run ops s in
  let '(tr', x') := ref_run (data_at c) (only_le c) ops x in
  tr = tr' /\ sim raw0 c s' x'.
Proof.
  induction ops as [|o ops IH]; intros s x S HF; cbn [apdu_run ref_run]; [auto|].
  inversion HF as [|? ? HO HF']; subst.
  pose proof (sim_step raw0 c o s x S HO) as G. destruct (apdu_step o s) as [r s1]. destruct (ref_step _ _ o x) as [r' x1].
  destruct G as [<- G]. specialize (IH s1 x1 G HF'). destruct (apdu_run ops s1) as [tr s2]. destruct (ref_run _ _ ops x1) as [tr' x2].
  destruct IH as [<- IH]. auto.
Qed.
Lemma c2E_exact raw le : le = 65536 \/ le mod 256 <> 0 -> wf_command (Case2E le) -> encodes raw (Case2E le) ->
  newAPDU raw = Ok (mk_apdu raw false 5 2 0 (Some le) 2).
Proof.
  intros Hm [Hd Hw] He. pose proof (encodes_len raw _ He) as HL.
  pose proof (encodes_nth raw _ 4 He ltac:(lia)) as [H4 A4]; change (4 - 4)%nat with 0%nat in H4.
  pose proof (encodes_nth raw _ 5 He ltac:(lia)) as [H5 A5].
  pose proof (encodes_nth raw _ 6 He ltac:(lia)) as [H6 A6].
  change (5 - 4)%nat with 1%nat in H5. change (6 - 4)%nat with 2%nat in H6.
  cbn [body] in *; unfold le2 in *; cbn [nth app] in *. fold (b4 raw) in *. apply any_zero in H4; [|assumption].
  change (zlen [0; le / 256 mod 256; le mod 256]) with 3 in HL.
  rewrite newAPDU_eq by lia. replace (zlen raw =? 4) with false by lia.
  replace (zlen raw =? 7) with true by lia. replace (b4 raw =? 0) with true by lia.
  cbn [andb]. rewrite orb_true_r.
  assert (O : outl raw = (le, 2)).
  { unfold outl, blast. replace (length raw - 1)%nat with 6%nat by (unfold zlen in HL; lia).
    replace (length raw - 2)%nat with 5%nat by (unfold zlen in HL; lia).
    replace (zlen raw =? 5) with false by lia. replace (b4 raw =? 0) with true by lia. cbn [orb negb].
    unfold anybyte in *. destruct Hm as [->|Hm].
    - replace (nth 6 raw 0 =? 0) with true by lia. replace (nth 5 raw 0 =? 0) with true by lia. reflexivity.
    - replace (nth 6 raw 0 =? 0) with false by lia. f_equal. lia. }
  now rewrite O.
Qed.

(** ** the start *)
Lemma sim_start raw0 c s : wf_command c -> understood c -> encodes raw0 c -> newAPDU raw0 = Ok s -> sim raw0 c s (ref_start raw0 c).
Proof.
  intros Hw Hu He Hn.
  pose proof (encodes_len raw0 c He) as HL. pose proof (zlen_nonneg (body c)).
  pose proof (p3len_bounds raw0 ltac:(lia)) as HP.
  assert (IB : initbuf raw0 = firstn (Z.to_nat (4 + p3len raw0)) raw0 ++ repeat 0 (257 - Z.to_nat (4 + p3len raw0))).
  { unfold initbuf, splice, sub. cbn [skipn firstn app]. f_equal. rewrite firstn_length. cbn [Nat.add].
    rewrite Nat.min_l by (unfold zlen in *; lia). apply skipn_repeat_. lia. }
  assert (G : forall ty nc cd ll, s = mk_apdu raw0 false cd ty nc (command_le c) ll -> Z.of_nat (head_len c) = 4 + p3len raw0 ->
     0 <= ll ->
     (only_le c = -1 /\ command_data c = [] /\ 4 + p3len raw0 = 5 /\ zlen raw0 - (4 + p3len raw0) - ll = -1)
     \/ (only_le c = 0 /\ 4 + p3len raw0 + zlen (command_data c) + ll = zlen raw0
         /\ (command_data c <> [] -> 4 + p3len raw0 = data_at c)) ->
     sim raw0 c s (ref_start raw0 c)).
  { intros ty nc cd ll -> Hh Hll HC. unfold sim, ref_start, mk_apdu.
    cbn [buf st Ne outlen broken raw curout lelength offin se_buf se_phase se_le se_out se_left se_sent incoming phase_code].
    assert (IB' : initbuf raw0 = firstn (head_len c) raw0 ++ repeat 0 (257 - head_len c)).
    { rewrite IB. now replace (Z.to_nat (4 + p3len raw0)) with (head_len c) by lia. }
    split; [exact IB'|]. split; [apply initbuf_length; lia|]. do 4 (split; [reflexivity|]).
    do 2 (split; [reflexivity|]). split; [lia|].
    destruct HC as [(C1 & C2 & C3 & C4)|(C1 & C2 & C3)].
    - left. rewrite C2. cbn [length]. rewrite sub_0. auto.
    - right.
      assert (LS : length (sub raw0 (Z.to_nat (data_at c)) (length (command_data c))) = length (command_data c)).
      { destruct (command_data c) as [|v d] eqn:ED; [cbn [length]; now rewrite sub_0|].
        rewrite <- (C3 ltac:(discriminate)). rewrite sub_length; unfold zlen in *; lia. }
      split; [lia|]. unfold zlen at 1. rewrite LS. split; [unfold zlen in *; lia|]. split.
      + destruct (command_data c) as [|v d] eqn:ED; [cbn [length]; now rewrite !sub_0|].
        now rewrite <- (C3 ltac:(discriminate)).
      + intros _. split; [assumption|]. intros HN. apply C3. intros E. rewrite E in HN. cbn [length] in HN. now rewrite sub_0 in HN. }
  pose proof (encodes_nth raw0 c 4 He ltac:(lia)) as [H4 A4]. change (4 - 4)%nat with 0%nat in H4. fold (b4 raw0) in H4, A4.
  destruct (is_short c) eqn:SH.
  - destruct (short_exact raw0 c Hw SH He) as (ty & ll & E & E1 & E2).
    rewrite E in Hn. apply Ok_inj in Hn. symmetry in Hn.
    destruct c as [|le|d|d le|le|d|d le]; try discriminate; cbn [command_data command_le body head_len only_le data_at] in *.
    + assert (L4 : zlen raw0 = 4) by (rewrite zlen_nil in HL; lia).
      rewrite newAPDU_eq in E by lia. rewrite L4 in E. cbn [Z.eqb Pos.eqb] in E. apply Ok_inj in E.
      assert (ll = 0) by (apply (f_equal lelength) in E; cbn in E; lia). subst ll.
      eapply G; [exact Hn| |lia|].
      * unfold p3len. rewrite L4. reflexivity.
      * right. split; [reflexivity|]. split; [unfold p3len; rewrite L4; reflexivity|congruence].
    + assert (L5 : zlen raw0 = 5) by (unfold le1 in HL; rewrite zlen_cons, zlen_nil in HL; lia).
      rewrite newAPDU_eq in E by lia. rewrite L5 in E. cbn [Z.eqb Pos.eqb orb] in E. apply Ok_inj in E.
      assert (ll = 1).
      { apply (f_equal lelength) in E; cbn in E. unfold outl in E. rewrite L5 in E. cbn in E. lia. }
      assert (P3 : p3len raw0 = 1) by (unfold p3len; rewrite L5; cbn [Z.ltb Z.compare Pos.compare Pos.compare_cont]; now rewrite andb_false_r).
      subst ll. eapply G; [exact Hn|rewrite P3; reflexivity|lia|]. left. rewrite P3, L5. auto.
    + destruct E1 as [E1 E3]; [destruct Hw as [_ Hw]; intros ->; cbn in Hw; lia|].
      eapply G; [exact Hn|lia|lia|]. right. split; [reflexivity|]. split; [lia|auto].
    + destruct E1 as [E1 E3]; [destruct Hw as [_ Hw]; intros ->; cbn in Hw; lia|].
      eapply G; [exact Hn|lia|lia|]. right. split; [reflexivity|]. split; [lia|auto].
  - destruct c as [|le|d|d le|le|d|d le]; try discriminate; cbn [understood] in Hu; [|contradiction|].
    + assert (L7 : zlen raw0 = 7) by (cbn [body] in HL; unfold le2 in HL; rewrite !zlen_cons, zlen_nil in HL; lia).
      assert (P3 : p3len raw0 = 1) by (unfold p3len; rewrite L7; cbn [Z.ltb Z.compare Pos.compare Pos.compare_cont]; now rewrite andb_false_r).
      pose proof (c2E_exact raw0 le Hu Hw He) as E. rewrite E in Hn. apply Ok_inj in Hn. symmetry in Hn.
      eapply G; [exact Hn|rewrite P3; reflexivity|lia|]. right. split; [reflexivity|]. cbn [command_data]. split; [|congruence]. rewrite P3, L7, zlen_nil. reflexivity.
    + destruct (c4E_exact raw0 d le Hu Hw He) as (E & E1 & E2). rewrite E in Hn. apply Ok_inj in Hn. symmetry in Hn.
      eapply G; [exact Hn|cbn [head_len]; lia|lia|]. right. split; [reflexivity|]. cbn [command_data data_at]. split; [lia|auto].
Qed.

Lemma C119_exchange_pf : C119_full.
Proof.
  intros raw0 c s ops Hw Hu He Hn HF.
  pose proof (sim_run raw0 c ops s (ref_start raw0 c) (sim_start raw0 c s Hw Hu He Hn) HF) as G.
  destruct (apdu_run ops s) as [tr s']. destruct (ref_run _ _ ops _) as [tr' x'].
  destruct G as (G1 & S1 & S2 & S3 & S4 & S5 & S6 & S7).
  split; [exact G1|]. split; [exact S1|]. split; [exact S3|].
  intros HI. rewrite HI in S7. apply S7.
Qed.
