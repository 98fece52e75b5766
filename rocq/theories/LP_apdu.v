(** * C22-C31: APDU: proofs *)
From Verif Require Import Py S_Base S_APDU L_Py M_utils M_util L_utils L_util M_apdu S_ApduObs L_apdu.
From Coq Require Import ZifyBool ZifyNat.
Ltac Zify.zify_post_hook ::= Z.div_mod_to_equations.

Lemma skipn_repeat_ {A} (v : A) n k : (k <= n)%nat -> skipn k (repeat v n) = repeat v (n - k).
Proof.
  revert k; induction n as [|n IH]; intros [|k] H; simpl; auto; try lia. apply IH; lia.
Qed.

(** well-formed encodings *)
Lemma encodes_nth raw c k : encodes raw c -> (4 <= k)%nat ->
  (nth k raw 0) mod 256 = nth (k - 4) (body c) 0 /\ anybyte (nth k raw 0).
Proof.
  intros [HF (cla & ins & p1 & p2 & HE)] Hk. split.
  - change 0 with (0 mod 256) at 2. rewrite <- (map_nth (fun b => b mod 256)). rewrite HE.
    rewrite app_nth2 by (cbn [length]; lia). reflexivity.
  - destruct (Nat.lt_ge_cases k (length raw)).
    + rewrite Forall_forall in HF. apply HF, nth_In. assumption.
    + rewrite nth_overflow by assumption. unfold anybyte; lia.
Qed.
Lemma encodes_len raw c : encodes raw c -> zlen raw = 4 + zlen (body c).
Proof.
  intros [HF (cla & ins & p1 & p2 & HE)]. unfold zlen. rewrite <- (map_length (fun b => b mod 256)), HE.
  rewrite app_length. cbn [length]. lia.
Qed.
Lemma encodes_skip raw c k : encodes raw c -> (4 <= k)%nat ->
  map (fun b => b mod 256) (skipn k raw) = skipn (k - 4) (body c).
Proof.
  intros [HF (cla & ins & p1 & p2 & HE)] Hk.
  assert (S : forall (l : list Z) j, map (fun b => b mod 256) (skipn j l) = skipn j (map (fun b => b mod 256) l)).
  { intros l; induction l as [|x l IH]; intros [|j]; simpl; auto. }
  rewrite S, HE. do 4 (destruct k as [|k]; [lia|]). cbn. f_equal. lia.
Qed.
Lemma any_zero v : anybyte v -> v mod 256 = 0 -> v = 0.
Proof. unfold anybyte; lia. Qed.

Lemma C22_constructor_pf : forall b,
  (zlen b < 4 -> newAPDU b = Err (APDUExc BAD_LENGTH))
  /\ (forall s, newAPDU b = Ok s ->
      4 <= zlen b
      /\ getCurrentState s = STATE_INITIAL
      /\ length (getBuffer s) = 257%nat
      /\ exists k, (k = 4 \/ 5 <= k <= 7)%nat /\ (zlen b = 4 <-> k = 4%nat)
         /\ (k <= length b)%nat
         /\ ((5 < k)%nat -> k = 7%nat /\ nth 4 b 1 = 0 /\ (7 < length b)%nat)
         /\ getBuffer s = firstn k b ++ repeat 0 (257 - k)).
Proof.
  intros b. split; [apply newAPDU_short|].
  intros s H. apply newAPDU_inv in H as (H4 & br & cd & ty & nc & ne & ll & -> & _).
  pose proof (p3len_bounds b H4) as Hp.
  split; [assumption|]. split; [reflexivity|]. split; [now apply initbuf_length|].
  exists (Z.to_nat (4 + p3len b)). unfold zlen in *.
  split; [lia|]. split.
  { unfold p3len, zlen. destruct (Z.ltb_spec 4 (Z.of_nat (length b))); [|lia].
    destruct ((b4 b =? 0) && _); lia. }
  split; [lia|]. split.
  - intros H5. unfold p3len, zlen in *. destruct (Z.ltb_spec 4 (Z.of_nat (length b))); [|lia].
    destruct (b4 b =? 0) eqn:E0; [|cbn [andb] in *; lia].
    destruct (7 <? Z.of_nat (length b)) eqn:E7; cbn [andb] in *; [|lia].
    split; [lia|]. split; [|lia]. unfold b4 in E0. rewrite (nth_indep _ 1 0) by lia. lia.
  - unfold getBuffer; cbn [buf mk_apdu]. unfold initbuf, splice, sub. cbn [firstn skipn app Nat.add].
    f_equal. rewrite firstn_length, Nat.min_l by lia.
    rewrite skipn_repeat_ by lia. reflexivity.
Qed.

Lemma receive_err bOffs s e : fst (receive_block bOffs s) = Err e -> e = IndexError.
Proof.
  rewrite receive_block_unfold. cbv zeta. destruct (for_loop _ _ _ _) as [[[]|e0] b0] eqn:E; [discriminate|].
  intros [= <-]. eapply cp_loop_err; eauto.
Qed.

Lemma decoded_mk b cd ty nc ne ll :
  decoded_as (mk_apdu b false cd ty nc ne ll) nc ne cd.
Proof.
  split; [reflexivity|]. split; [reflexivity|]. split; [|split; [reflexivity|]].
  - intros n. unfold bind, setOutgoing, get, put, ret, bind. cbn.
    destruct ne as [m|]; [|reflexivity].
    destruct (Z.leb_spec n m); [replace (m <? n) with false by lia|replace (m <? n) with true by lia]; reflexivity.
  - unfold setIncomingAndReceive, bind, get. cbn [st mk_apdu broken negb]. cbn [Z.eqb negb STATE_INITIAL].
    intros H. apply receive_err in H. discriminate.
Qed.

Lemma short_exact raw c : wf_command c -> is_short c = true -> encodes raw c ->
  exists ty ll, newAPDU raw = Ok (mk_apdu raw false 5 ty (zlen (command_data c)) (command_le c) ll)
    /\ (command_data c <> [] -> 4 + p3len raw = 5 /\ zlen raw = 5 + zlen (command_data c) + ll)
    /\ 0 <= ll.
Proof.
  intros [Hd Hw] Hs He. pose proof (encodes_len raw c He) as HL.
  pose proof (encodes_nth raw c 4 He ltac:(lia)) as [H4 A4]. change (4 - 4)%nat with 0%nat in H4.
  fold (b4 raw) in H4, A4. unfold anybyte in A4.
  pose proof (zlen_nonneg (body c)). rewrite newAPDU_eq by lia.
  destruct c as [|le|d|d le|le|d|d le]; try discriminate; cbn [body command_data command_le] in *; unfold le1, le2 in *;
    cbn [nth] in H4; rewrite ?zlen_cons, ?zlen_app, ?zlen_cons, ?zlen_nil in HL; try match goal with d : list Z |- _ => match d with raw => fail 1 | _ => fold (zlen d) in * end end;
    rewrite ?zlen_cons, ?zlen_nil.
  - replace (zlen raw =? 4) with true by lia. do 2 eexists; split; [reflexivity|]. split; [congruence|cbn; lia].
  - replace (zlen raw =? 4) with false by lia. replace (zlen raw =? 5) with true by lia.
    cbn [orb].
    assert (B : blast raw 1 = b4 raw).
    { unfold blast, b4. f_equal. unfold zlen in HL. lia. }
    assert (O : outl raw = (le, 1)).
    { unfold outl. replace (zlen raw =? 5) with true by lia. cbn [orb]. rewrite B.
      f_equal. destruct (Z.eqb_spec (b4 raw) 0) as [E|E]; lia. }
    rewrite O. do 2 eexists; split; [reflexivity|]. split; [congruence|cbn; lia].
  - replace (zlen raw =? 4) with false by lia. replace (zlen raw =? 5) with false by lia.
    assert (b4 raw <> 0) by lia. replace (b4 raw =? 0) with false by lia. cbn [orb andb].
    assert (I : inl_ raw = (zlen d, 1)).
    { unfold inl_. replace (b4 raw =? 0) with false by lia. f_equal; lia. }
    rewrite I. cbn [fst snd]. replace (zlen raw =? zlen d + 5) with true by lia. rewrite orb_true_r.
    do 2 eexists; split; [reflexivity|]. split; [|rewrite ?zlen_nil; lia]. intros _; split; [|lia]. unfold p3len; replace (4 <? zlen raw) with true by lia; replace (b4 raw =? 0) with false by lia; reflexivity.
  - replace (zlen raw =? 4) with false by lia. replace (zlen raw =? 5) with false by lia.
    assert (b4 raw <> 0) by lia. replace (b4 raw =? 0) with false by lia. cbn [orb andb].
    assert (I : inl_ raw = (zlen d, 1)).
    { unfold inl_. replace (b4 raw =? 0) with false by lia. f_equal; lia. }
    rewrite I. cbn [fst snd]. replace (zlen raw =? zlen d + 5) with false by lia.
    replace (zlen raw =? b4 raw + 5) with false by lia. cbn [orb].
    pose proof (encodes_nth raw (Case4S d le) (length raw - 1) He ltac:(unfold zlen in *; lia)) as [HB AB].
    cbn [body] in HB; unfold le1 in HB. replace (length raw - 1 - 4)%nat with (S (length d + 0))%nat in HB by (unfold zlen in *; lia).
    cbn [nth] in HB. rewrite app_nth2_plus in HB. cbn [nth] in HB. fold (blast raw 1) in HB, AB. unfold anybyte in AB.
    assert (O : outl raw = (le, 1)).
    { unfold outl. replace (zlen raw =? 5) with false by lia. replace (b4 raw =? 0) with false by lia.
      cbn [negb orb]. f_equal. destruct (Z.eqb_spec (blast raw 1) 0); lia. }
    rewrite O. cbn [fst snd]. replace (4 + 1 + 1 + zlen d =? zlen raw) with true by lia. cbn [negb].
    do 2 eexists; split; [reflexivity|]. split; [|rewrite ?zlen_nil; lia]. intros _; split; [|lia]. unfold p3len; replace (4 <? zlen raw) with true by lia; replace (b4 raw =? 0) with false by lia; reflexivity.
Qed.

Lemma C23_short_pf : forall raw c, wf_command c -> is_short c = true -> encodes raw c ->
  exists s, newAPDU raw = Ok s
    /\ decoded_as s (zlen (command_data c)) (command_le c) 5.
Proof.
  intros raw c Hw Hs He. destruct (short_exact raw c Hw Hs He) as (ty & ll & -> & _).
  eexists; split; [reflexivity|]. apply decoded_mk.
Qed.

Lemma C24_case3E_refuted_pf : forall raw d, wf_command (Case3E d) -> encodes raw (Case3E d) ->
  exists s, newAPDU raw = Ok s /\ setIncomingAndReceive s = (Err (ISOExc SW_WRONG_LENGTH), s).
Proof.
  intros raw d [Hd Hw] He. pose proof (encodes_len raw _ He) as HL.
  pose proof (encodes_nth raw _ 4 He ltac:(lia)) as [H4 A4].
  pose proof (encodes_nth raw _ 5 He ltac:(lia)) as [H5 _].
  pose proof (encodes_nth raw _ 6 He ltac:(lia)) as [H6 _].
  change (4 - 4)%nat with 0%nat in H4. change (5 - 4)%nat with 1%nat in H5. change (6 - 4)%nat with 2%nat in H6.
  cbn [body] in *; unfold le2 in *; cbn [nth app] in *. fold (zlen d) in *. fold (b4 raw) in *.
  apply any_zero in H4; [|assumption].
  rewrite !zlen_cons in HL.
  assert (I : inl_ raw = (zlen d, 3)).
  { unfold inl_. replace (b4 raw =? 0) with true by lia. rewrite H5, H6. f_equal. lia. }
  rewrite newAPDU_eq by lia.
  replace (zlen raw =? 4) with false by lia. replace (zlen raw =? 5) with false by lia.
  replace (zlen raw =? 7) with false by lia. replace (zlen raw =? 6) with false by lia.
  rewrite !andb_false_r. cbn [orb]. rewrite I. cbn [fst snd].
  replace (zlen raw =? b4 raw + 5) with false by lia. replace (zlen raw =? zlen d + 5) with false by lia.
  cbn [orb]. eexists; split; [reflexivity|].
  replace (negb _) with true; [reflexivity|].
  symmetry. apply negb_true_iff, Z.eqb_neq. pose proof (outl_bounds raw). lia.
Qed.

Lemma C24_le_refuted_pf : forall raw d le, le mod 256 = 0 -> le <> 65536 ->
  (wf_command (Case2E le) -> encodes raw (Case2E le) ->
     exists s, newAPDU raw = Ok s /\ fst (setOutgoing s) = Ok 256
       /\ fst (setIncomingAndReceive s) = Ok 1)
  /\ (wf_command (Case4E d le) -> encodes raw (Case4E d le) ->
     exists s, newAPDU raw = Ok s /\ setIncomingAndReceive s = (Err (ISOExc SW_WRONG_LENGTH), s)).
Proof.
  intros raw d le Hm Hne. split; intros [Hd Hw] He; pose proof (encodes_len raw _ He) as HL;
  pose proof (encodes_nth raw _ 4 He ltac:(lia)) as [H4 A4]; change (4 - 4)%nat with 0%nat in H4.
  - pose proof (encodes_nth raw _ 5 He ltac:(lia)) as [H5 A5].
    pose proof (encodes_nth raw _ 6 He ltac:(lia)) as [H6 A6].
    change (5 - 4)%nat with 1%nat in H5. change (6 - 4)%nat with 2%nat in H6.
    cbn [body] in *; unfold le2 in *; cbn [nth app] in *. fold (b4 raw) in *. apply any_zero in H4; [|assumption].
    change (zlen [0; le / 256 mod 256; le mod 256]) with 3 in HL.
    rewrite newAPDU_eq by lia. replace (zlen raw =? 4) with false by lia.
    replace (zlen raw =? 7) with true by lia. replace (b4 raw =? 0) with true by lia.
    cbn [andb]. rewrite orb_true_r.
    assert (O : outl raw = (256, 1)).
    { unfold outl, blast. replace (length raw - 1)%nat with 6%nat by (unfold zlen in HL; lia).
      replace (length raw - 2)%nat with 5%nat by (unfold zlen in HL; lia).
      replace (zlen raw =? 5) with false by lia. replace (b4 raw =? 0) with true by lia. cbn [orb negb].
      unfold anybyte in *. replace (nth 6 raw 0 =? 0) with true by lia. replace (nth 5 raw 0 =? 0) with false by lia.
      reflexivity. }
    rewrite O. cbn [fst snd]. eexists; split; [reflexivity|]. split; [reflexivity|].
    unfold setIncomingAndReceive, bind, get. cbn [st mk_apdu broken STATE_INITIAL Z.eqb negb].
    assert (P : p3len raw = 1).
    { unfold p3len. replace (4 <? zlen raw) with true by lia. replace (7 <? zlen raw) with false by lia.
      now rewrite andb_false_r. }
    rewrite (receive_block_ok _ _ 1); cbn [M_apdu.raw offin lelength buf mk_apdu]; try reflexivity; try lia.
    + unfold IN_BLOCKSIZE. lia.
    + unfold zlen. rewrite initbuf_length by lia. lia.
  - pose proof (encodes_nth raw _ 5 He ltac:(lia)) as [H5 _].
    pose proof (encodes_nth raw _ 6 He ltac:(lia)) as [H6 _].
    change (5 - 4)%nat with 1%nat in H5. change (6 - 4)%nat with 2%nat in H6.
    cbn [body] in *; unfold le2 in *; cbn [nth app] in *. fold (zlen d) in *. fold (b4 raw) in *.
    apply any_zero in H4; [|assumption].
    rewrite !zlen_cons, zlen_app in HL. change (zlen [le / 256 mod 256; le mod 256]) with 2 in HL.
    assert (I : inl_ raw = (zlen d, 3)).
    { unfold inl_. replace (b4 raw =? 0) with true by lia. rewrite H5, H6. f_equal. lia. }
    pose proof (encodes_nth raw _ (length raw - 1) He ltac:(unfold zlen in *; lia)) as [HB AB].
    pose proof (encodes_nth raw _ (length raw - 2) He ltac:(unfold zlen in *; lia)) as [HC AC].
    cbn [body] in HB, HC; unfold le2 in HB, HC; cbn [app] in HB, HC.
    replace (length raw - 1 - 4)%nat with (S (S (S (length d + 1))))%nat in HB by (unfold zlen in *; lia).
    replace (length raw - 2 - 4)%nat with (S (S (S (length d + 0))))%nat in HC by (unfold zlen in *; lia).
    cbn [nth] in HB, HC. rewrite app_nth2_plus in HB, HC. cbn [nth] in HB, HC.
    fold (blast raw 1) in HB, AB. fold (blast raw 2) in HC, AC. unfold anybyte in AB, AC.
    assert (O : outl raw = (256, 1)).
    { unfold outl. replace (zlen raw =? 5) with false by lia. replace (b4 raw =? 0) with true by lia. cbn [orb negb].
      replace (blast raw 1 =? 0) with true by lia. replace (blast raw 2 =? 0) with false by lia. reflexivity. }
    rewrite newAPDU_eq by lia.
    replace (zlen raw =? 4) with false by lia. replace (zlen raw =? 5) with false by lia.
    replace (zlen raw =? 7) with false by lia. replace (zlen raw =? 6) with false by lia.
    rewrite !andb_false_r. cbn [orb]. rewrite I, O. cbn [fst snd].
    replace (zlen raw =? b4 raw + 5) with false by lia. replace (zlen raw =? zlen d + 5) with false by lia.
    cbn [orb]. eexists; split; [reflexivity|].
    replace (4 + 3 + 1 + zlen d =? zlen raw) with false by lia. reflexivity.
Qed.

Lemma c4E_exact raw d le : le = 65536 \/ le mod 256 <> 0 ->
  wf_command (Case4E d le) -> encodes raw (Case4E d le) ->
  newAPDU raw = Ok (mk_apdu raw false 7 4 (zlen d) (Some le) 2)
  /\ 4 + p3len raw = 7 /\ zlen raw = 7 + zlen d + 2.
Proof.
  intros Hm [Hd Hw] He. pose proof (encodes_len raw _ He) as HL.
  pose proof (encodes_nth raw _ 4 He ltac:(lia)) as [H4 A4]; change (4 - 4)%nat with 0%nat in H4.
    pose proof (encodes_nth raw _ 5 He ltac:(lia)) as [H5 _].
    pose proof (encodes_nth raw _ 6 He ltac:(lia)) as [H6 _].
    change (5 - 4)%nat with 1%nat in H5. change (6 - 4)%nat with 2%nat in H6.
    cbn [body] in *; unfold le2 in *; cbn [nth app] in *. fold (zlen d) in *. fold (b4 raw) in *.
    apply any_zero in H4; [|assumption].
    rewrite !zlen_cons, zlen_app in HL. change (zlen [le / 256 mod 256; le mod 256]) with 2 in HL.
    assert (I : inl_ raw = (zlen d, 3)).
    { unfold inl_. replace (b4 raw =? 0) with true by lia. rewrite H5, H6. f_equal. lia. }
    pose proof (encodes_nth raw _ (length raw - 1) He ltac:(unfold zlen in *; lia)) as [HB AB].
    pose proof (encodes_nth raw _ (length raw - 2) He ltac:(unfold zlen in *; lia)) as [HC AC].
    cbn [body] in HB, HC; unfold le2 in HB, HC; cbn [app] in HB, HC.
    replace (length raw - 1 - 4)%nat with (S (S (S (length d + 1))))%nat in HB by (unfold zlen in *; lia).
    replace (length raw - 2 - 4)%nat with (S (S (S (length d + 0))))%nat in HC by (unfold zlen in *; lia).
    cbn [nth] in HB, HC. rewrite app_nth2_plus in HB, HC. cbn [nth] in HB, HC.
    fold (blast raw 1) in HB, AB. fold (blast raw 2) in HC, AC. unfold anybyte in AB, AC.
    assert (O : outl raw = (le, 2)).
    { unfold outl. replace (zlen raw =? 5) with false by lia. replace (b4 raw =? 0) with true by lia. cbn [orb negb].
      destruct Hm as [->|Hm].
      - replace (blast raw 1 =? 0) with true by lia. replace (blast raw 2 =? 0) with true by lia. reflexivity.
      - replace (blast raw 1 =? 0) with false by lia. f_equal. lia. }
    rewrite newAPDU_eq by lia.
    replace (zlen raw =? 4) with false by lia. replace (zlen raw =? 5) with false by lia.
    replace (zlen raw =? 7) with false by lia. replace (zlen raw =? 6) with false by lia.
    rewrite !andb_false_r. cbn [orb]. rewrite I, O. cbn [fst snd].
    replace (zlen raw =? b4 raw + 5) with false by lia. replace (zlen raw =? zlen d + 5) with false by lia.
    cbn [orb]. replace (4 + 3 + 2 + zlen d =? zlen raw) with true by lia. cbn [negb].
    split; [reflexivity|]. split; [|lia].
    unfold p3len. replace (4 <? zlen raw) with true by lia. replace (b4 raw =? 0) with true by lia.
    replace (7 <? zlen raw) with true by lia. reflexivity.
Qed.

Lemma C24_extended_partial_pf : forall raw d le, le = 65536 \/ le mod 256 <> 0 ->
  (wf_command (Case2E le) -> encodes raw (Case2E le) ->
     exists s, newAPDU raw = Ok s /\ decoded_as s 0 (Some le) 5)
  /\ (wf_command (Case4E d le) -> encodes raw (Case4E d le) ->
     exists s, newAPDU raw = Ok s /\ decoded_as s (zlen d) (Some le) 7).
Proof.
  intros raw d le Hm. split; [intros [Hd Hw] He; pose proof (encodes_len raw _ He) as HL;
  pose proof (encodes_nth raw _ 4 He ltac:(lia)) as [H4 A4]; change (4 - 4)%nat with 0%nat in H4|].
  - pose proof (encodes_nth raw _ 5 He ltac:(lia)) as [H5 A5].
    pose proof (encodes_nth raw _ 6 He ltac:(lia)) as [H6 A6].
    change (5 - 4)%nat with 1%nat in H5. change (6 - 4)%nat with 2%nat in H6.
    cbn [body] in *; unfold le2 in *; cbn [nth app] in *. fold (b4 raw) in *. apply any_zero in H4; [|assumption].
    change (zlen [0; le / 256 mod 256; le mod 256]) with 3 in HL.
    rewrite newAPDU_eq by lia. replace (zlen raw =? 4) with false by lia.
    replace (zlen raw =? 7) with true by lia. replace (b4 raw =? 0) with true by lia.
    cbn [andb]. rewrite orb_true_r.
    assert (O : outl raw = (le, 2)).
    { unfold outl, blast. replace (length raw - 1)%nat with 6%nat by (unfold zlen in HL; lia).
      replace (length raw - 2)%nat with 5%nat by (unfold zlen in HL; lia).
      replace (zlen raw =? 5) with false by lia. replace (b4 raw =? 0) with true by lia. cbn [orb negb].
      unfold anybyte in *. destruct Hm as [->|Hm].
      - replace (nth 6 raw 0 =? 0) with true by lia. replace (nth 5 raw 0 =? 0) with true by lia. reflexivity.
      - replace (nth 6 raw 0 =? 0) with false by lia. f_equal. lia. }
    rewrite O. cbn [fst snd]. eexists; split; [reflexivity|]. apply decoded_mk.
  - intros Hw He. destruct (c4E_exact raw d le Hm Hw He) as [-> _].
    eexists; split; [reflexivity|]. apply decoded_mk.
Qed.

Lemma receiveBytes_block off s : st s = 1 \/ st s = 2 -> receiveBytes off s = receive_block off s.
Proof.
  intros H. unfold receiveBytes, bind, get. unfold STATE_PARTIAL_INCOMING, STATE_OUTGOING.
  replace ((st s <? 1) || (3 <=? st s)) with false by lia. reflexivity.
Qed.

Lemma receive_loop_ok fuel : forall acc s off,
  st s = 1 \/ st s = 2 -> 0 <= offin s -> 0 <= lelength s ->
  0 <= zlen (raw s) - offin s - lelength s < Z.of_nat fuel ->
  0 <= off -> off + 128 <= zlen (buf s) ->
  exists chunks s', receive_loop fuel off acc s = (Ok (acc ++ chunks), s')
    /\ Forall (fun c => 1 <= zlen c <= 128) chunks
    /\ concat chunks = sub (raw s) (Z.to_nat (offin s)) (Z.to_nat (zlen (raw s) - offin s - lelength s))
    /\ st s' = STATE_FULL_INCOMING.
Proof.
  induction fuel as [|fuel IH]; intros acc s off Hst H0 H1 H2 H3 H4; [lia|].
  cbn [receive_loop]. set (rem := zlen (raw s) - offin s - lelength s) in *.
  assert (HB : receiveBytes off s = (Ok (Z.min 128 rem), with_in
      (splice (buf s) (Z.to_nat off) (sub (raw s) (Z.to_nat (offin s)) (Z.to_nat (Z.min 128 rem))))
      (offin s + Z.min 128 rem)
      (if offin s + Z.min 128 rem =? zlen (raw s) - lelength s then STATE_FULL_INCOMING else STATE_PARTIAL_INCOMING) s)).
  { rewrite receiveBytes_block by assumption. apply receive_block_ok; unfold IN_BLOCKSIZE; fold rem; lia. }
  rewrite (bind_ok _ _ _ _ _ HB).
  set (s' := with_in _ _ _ s).
  destruct (Z.eqb_spec (Z.min 128 rem) 0) as [E|E].
  - exists [], s'. unfold ret. rewrite app_nil_r. split; [reflexivity|]. split; [constructor|].
    split; [replace rem with 0 by lia; reflexivity|].
    unfold s'; cbn [st with_in]. replace (offin s + Z.min 128 rem =? zlen (raw s) - lelength s) with true by lia.
    reflexivity.
  - unfold bind, get.
    assert (Hraw : raw s' = raw s) by reflexivity.
    assert (Hoff : offin s' = offin s + Z.min 128 rem) by reflexivity.
    assert (Hle : lelength s' = lelength s) by reflexivity.
    assert (LS : length (sub (raw s) (Z.to_nat (offin s)) (Z.to_nat (Z.min 128 rem))) = Z.to_nat (Z.min 128 rem)).
    { apply sub_length. unfold zlen in *; lia. }
    assert (Hbuf : zlen (buf s') = zlen (buf s)).
    { unfold s'; cbn [buf with_in]. unfold zlen in *. rewrite splice_length; [reflexivity|]. lia. }
    destruct (IH (acc ++ [py_slice (buf s') off (off + Z.min 128 rem)]) s' off) as (ch & s'' & HR & HF & HC & HS).
    + unfold s'; cbn [st with_in]. destruct (_ =? _); unfold STATE_FULL_INCOMING, STATE_PARTIAL_INCOMING; auto.
    + lia.
    + lia.
    + rewrite Hraw, Hoff, Hle. lia.
    + lia.
    + lia.
    + rewrite HR. exists (py_slice (buf s') off (off + Z.min 128 rem) :: ch), s''.
      rewrite <- app_assoc. split; [reflexivity|].
      assert (HP : py_slice (buf s') off (off + Z.min 128 rem) = sub (raw s) (Z.to_nat (offin s)) (Z.to_nat (Z.min 128 rem))).
      { rewrite py_slice_in by lia. unfold s'; cbn [buf with_in]. apply sub_splice; [rewrite LS; lia|]. unfold zlen in *; lia. }
      rewrite HP. split; [constructor; [unfold zlen; lia|assumption]|]. split; [|assumption].
      cbn [concat]. rewrite HC, Hraw, Hoff, Hle.
      replace (Z.to_nat rem) with (Z.to_nat (Z.min 128 rem) + Z.to_nat (zlen (raw s) - (offin s + Z.min 128 rem) - lelength s))%nat by lia.
      rewrite sub_plus. f_equal. f_equal; lia.
Qed.

Lemma receive_all_mk raw cd ty nc ne ll n fuel off :
  4 <= zlen raw -> cd = 4 + p3len raw -> zlen raw = cd + n + ll -> 0 <= ll -> 0 <= n < Z.of_nat fuel ->
  0 <= off -> off + 128 <= 257 ->
  exists chunks s', receive_all fuel off (mk_apdu raw false cd ty nc ne ll) = (Ok chunks, s')
    /\ Forall (fun c => zlen c <= 128) chunks
    /\ concat chunks = sub raw (Z.to_nat cd) (Z.to_nat n)
    /\ st s' = STATE_FULL_INCOMING.
Proof.
  intros H4 Hcd HL Hll Hn Ho1 Ho2. pose proof (p3len_bounds raw H4) as Hp.
  set (s := mk_apdu raw false cd ty nc ne ll).
  set (k := Z.min 128 n).
  assert (HB : setIncomingAndReceive s = (Ok k, with_in
      (splice (initbuf raw) (Z.to_nat cd) (sub raw (Z.to_nat cd) (Z.to_nat k)))
      (cd + k) (if cd + k =? zlen raw - ll then STATE_FULL_INCOMING else STATE_PARTIAL_INCOMING) s)).
  { unfold setIncomingAndReceive, bind, get. cbn [st s mk_apdu broken STATE_INITIAL Z.eqb negb].
    rewrite (receive_block_ok _ _ k); unfold s; cbn [M_apdu.raw offin lelength buf mk_apdu]; rewrite <- ?Hcd; try lia.
    - reflexivity.
    - unfold IN_BLOCKSIZE. lia.
    - unfold zlen at 1. rewrite initbuf_length by lia. lia. }
  unfold receive_all. change (bind get ?f s) with (f s s). cbv beta.
  rewrite (bind_ok _ _ _ _ _ HB). set (s1 := with_in _ _ _ s). change (bind get ?f s1) with (f s1 s1). cbv beta.
  assert (LS : length (sub raw (Z.to_nat cd) (Z.to_nat k)) = Z.to_nat k).
  { apply sub_length. unfold zlen in *; lia. }
  assert (LB : zlen (buf s1) = 257).
  { unfold s1; cbn [buf with_in]. unfold zlen. rewrite splice_length; rewrite initbuf_length; lia. }
  assert (HP : py_slice (buf s1) (getOffsetCdata s) (getOffsetCdata s + k) = sub raw (Z.to_nat cd) (Z.to_nat k)).
  { unfold getOffsetCdata; cbn [cdataoffs s mk_apdu]. rewrite py_slice_in by lia.
    unfold s1; cbn [buf with_in]. apply sub_splice; [rewrite LS; lia|]. rewrite initbuf_length by lia. lia. }
  rewrite HP.
  destruct (receive_loop_ok fuel [sub raw (Z.to_nat cd) (Z.to_nat k)] s1 off) as (ch & s2 & HR & HF & HC & HS).
  - unfold s1; cbn [st with_in]. destruct (_ =? _); unfold STATE_FULL_INCOMING, STATE_PARTIAL_INCOMING; auto.
  - unfold s1; cbn [offin with_in]; lia.
  - unfold s1, s; cbn [lelength with_in mk_apdu]; lia.
  - unfold s1, s; cbn [M_apdu.raw offin lelength with_in mk_apdu]; lia.
  - lia.
  - lia.
  - eexists; exists s2. split; [exact HR|]. split.
    + apply Forall_app. split; [constructor; [unfold zlen; lia|constructor]|].
      eapply Forall_impl; [|exact HF]. cbn; intros; lia.
    + split; [|assumption]. cbn [app concat]. rewrite HC. unfold s1, s; cbn [M_apdu.raw offin lelength with_in mk_apdu].
      replace (Z.to_nat n) with (Z.to_nat k + Z.to_nat (zlen raw - (cd + k) - ll))%nat by lia.
      rewrite sub_plus. f_equal. f_equal; lia.
Qed.

Lemma C25_receive_loop_pf : forall raw c s fuel off,
  wf_command c -> encodes raw c -> command_data c <> [] ->
  newAPDU raw = Ok s -> fst (setIncomingAndReceive s) <> Err (ISOExc SW_WRONG_LENGTH) ->
  zlen (command_data c) < Z.of_nat fuel -> 0 <= off -> off + 128 <= 257 ->
  exists chunks s', receive_all fuel off s = (Ok chunks, s')
    /\ Forall (fun ch => zlen ch <= 128) chunks
    /\ concat chunks = sub raw (Z.to_nat (getOffsetCdata s)) (length (command_data c))
    /\ map (fun b => b mod 256) (concat chunks) = command_data c
    /\ getCurrentState s' = STATE_FULL_INCOMING.
Proof.
  intros raw c s fuel off Hw He Hd Hs Hok Hf Ho1 Ho2.
  assert (X : exists ty cd nc ne ll, s = mk_apdu raw false cd ty nc ne ll /\ cd = 4 + p3len raw
     /\ zlen raw = cd + zlen (command_data c) + ll /\ 0 <= ll
     /\ firstn (length (command_data c)) (skipn (Z.to_nat cd - 4) (body c)) = command_data c).
  { destruct (is_short c) eqn:Es.
    - destruct (short_exact raw c Hw Es He) as (ty & ll & HN & HD & Hll).
      rewrite HN in Hs. apply Ok_inj in Hs. subst s. destruct (HD Hd) as [Hp HL].
      do 5 eexists. split; [reflexivity|]. split; [lia|]. split; [assumption|]. split; [assumption|].
      destruct c; try discriminate; try (exfalso; now apply Hd); cbn [command_data body].
      + change (Z.to_nat 5 - 4)%nat with 1%nat. cbn [skipn]. now rewrite firstn_all.
      + change (Z.to_nat 5 - 4)%nat with 1%nat. cbn [skipn]. rewrite firstn_app, Nat.sub_diag, firstn_all. apply app_nil_r.
    - destruct c as [| | | |le|d|d le]; try discriminate; try (exfalso; now apply Hd).
      + destruct (C24_case3E_refuted_pf raw d Hw He) as (s' & HN & HR). rewrite HN in Hs. apply Ok_inj in Hs. subst s'.
        rewrite HR in Hok. now contradiction Hok.
      + destruct (Z.eq_dec le 65536) as [E1|E1]; [|destruct (Z.eq_dec (le mod 256) 0) as [E2|E2]].
        2:{ destruct (C24_le_refuted_pf raw d le E2 E1) as [_ HR]. destruct (HR Hw He) as (s' & HN & HR').
            rewrite HN in Hs. apply Ok_inj in Hs. subst s'. rewrite HR' in Hok. now contradiction Hok. }
        all: destruct (c4E_exact raw d le ltac:(auto) Hw He) as (HN & Hp & HL); rewrite HN in Hs;
          apply Ok_inj in Hs; subst s; do 5 eexists; split; [reflexivity|]; split; [lia|];
          split; [cbn [command_data]; lia|]; split; [lia|]; cbn [command_data body];
          change (Z.to_nat 7 - 4)%nat with 3%nat; unfold le2; cbn [app skipn];
          rewrite firstn_app, Nat.sub_diag, firstn_all; apply app_nil_r. }
  destruct X as (ty & cd & nc & ne & ll & -> & Hcd & HL & Hll & HB).
  pose proof (encodes_len raw c He). pose proof (zlen_nonneg (body c)). pose proof (zlen_nonneg (command_data c)).
  destruct (receive_all_mk raw cd ty nc ne ll (zlen (command_data c)) fuel off) as (ch & s' & HR & HF & HC & HS); try lia.
  exists ch, s'. split; [assumption|]. split; [assumption|].
  rewrite to_nat_zlen in HC. split; [exact HC|]. split; [|exact HS].
  rewrite HC. unfold sub. rewrite <- firstn_map. rewrite (encodes_skip raw c) by (auto; pose proof (p3len_bounds raw); lia).
  exact HB.
Qed.

(** ** Histories *)
Lemma run_cons o ops s tr s' : apdu_run (o :: ops) s = (tr, s') ->
  exists r s1 tr1, apdu_step o s = (r, s1) /\ apdu_run ops s1 = (tr1, s') /\ tr = (o, r) :: tr1.
Proof.
  cbn [apdu_run]. destruct (apdu_step o s) as [r s1]. destruct (apdu_run ops s1) as [tr1 s2] eqn:E.
  intros [= <- <-]. eauto 10.
Qed.

(** induction over histories: [P] is an invariant, [Q] holds of each call *)
Lemma run_ind (P : apdu -> Prop) (Q : apdu_op -> res (option Z) -> Prop) :
  (forall o s, P s -> P (snd (apdu_step o s)) /\ Q o (fst (apdu_step o s))) ->
  forall ops s tr s', P s -> apdu_run ops s = (tr, s') -> P s' /\ Forall (fun x => Q (fst x) (snd x)) tr.
Proof.
  intros HI. induction ops as [|o ops IH]; intros s tr s' HP HR.
  - injection HR as <- <-. split; [assumption|constructor].
  - apply run_cons in HR as (r & s1 & tr1 & E1 & E2 & ->).
    destruct (HI o s HP) as [H1 H2]. rewrite E1 in H1, H2. cbn [fst snd] in *.
    destruct (IH s1 tr1 s' H1 E2) as [H3 H4]. split; [assumption|]. constructor; assumption.
Qed.

Definition inv (raw0 : list Z) (ne0 : option Z) (s : apdu) : Prop :=
  length (buf s) = 257%nat /\ 0 <= st s <= 6 /\ 0 <= offin s /\ 0 <= lelength s /\ Ne s = ne0
  /\ (st s < 3 -> raw s = raw0 /\ curout s = None)
  /\ (3 <= st s -> curout s <> None)
  /\ (st s = 0 -> broken s = false -> (zlen raw0 = 5 /\ offin s = 5 /\ lelength s = 1)
                  \/ (zlen raw0 <> 5 /\ offin s + lelength s <= zlen raw0))
  /\ (1 <= st s < 3 -> offin s + lelength s <= zlen raw0).

Definition rx_ok (raw0 : list Z) (o : apdu_op) (r : res (option Z)) : Prop :=
  match o, r with
  | OpSetIncomingAndReceive, Ok (Some n) => (zlen raw0 = 5 /\ n = -1) \/ (zlen raw0 <> 5 /\ 0 <= n <= 128)
  | OpReceiveBytes _, Ok (Some n) => 0 <= n <= 128
  | _, _ => True
  end.

Lemma receive_block_inv bOffs s raw0 ne0 : inv raw0 ne0 s -> st s < 3 -> broken s = false \/ 1 <= st s ->
  inv raw0 ne0 (snd (receive_block bOffs s))
  /\ (forall n, fst (receive_block bOffs s) = Ok n ->
        (st s = 0 /\ zlen raw0 = 5 /\ n = -1) \/ ((st s = 0 -> zlen raw0 <> 5) /\ 0 <= n <= 128)).
Proof.
  intros (HL & Hst & Ho & Hl & Hne & H3 & Hcur & H0 & H1) Hlt Hbr. rewrite receive_block_unfold. cbv zeta.
  set (n := Z.min _ _).
  pose proof (cp_loop_length (Z.to_nat n) (raw s) (offin s) bOffs 0 (buf s)) as HB.
  destruct (H3 Hlt) as [Hr Hc].
  assert (HN : (st s = 0 /\ zlen raw0 = 5 /\ n = -1 /\ offin s = 5) \/ ((st s = 0 -> zlen raw0 <> 5) /\ 0 <= n <= 128)).
  { unfold n, IN_BLOCKSIZE. rewrite Hr. destruct (Z.eq_dec (st s) 0) as [E|E].
    - destruct (H0 E) as [(A1 & A2 & A3)|(A1 & A2)]; [destruct Hbr; [assumption|lia]|left; lia|right; lia].
    - right. pose proof (H1 ltac:(lia)). lia. }
  destruct (for_loop _ _ _ _) as [[[]|e0] b0]; cbn [snd fst] in *.
  - split.
    + unfold inv; cbn [buf st offin lelength Ne raw curout broken with_in]. rewrite HB.
      split; [assumption|]. unfold STATE_FULL_INCOMING, STATE_PARTIAL_INCOMING.
      split; [destruct (_ =? _); lia|]. split; [lia|]. split; [assumption|]. split; [assumption|].
      split; [auto|]. split; [destruct (_ =? _); lia|]. split; [destruct (_ =? _); lia|].
      intros _. rewrite <- Hr. unfold n, IN_BLOCKSIZE in *. lia.
    + intros m [= <-]. tauto.
  - split; [|discriminate].
    unfold inv; cbn [buf st offin lelength Ne raw curout broken with_buf]. rewrite HB. tauto.
Qed.

Ltac triv := cbn [fst snd] in *; split; [assumption|exact I].

Lemma pres_bind {A B} (P : apdu -> Prop) (m : M apdu A) (f : A -> M apdu B) :
  (forall s, P s -> P (snd (m s))) -> (forall a s, P s -> P (snd (f a s))) ->
  forall s, P s -> P (snd (bind m f s)).
Proof.
  intros H1 H2 s H. unfold bind. specialize (H1 s H). destruct (m s) as [[a|e] s']; cbn [snd] in *; auto.
Qed.

Lemma inv_out raw0 ne0 s r x n c : inv raw0 ne0 s -> 3 <= x <= 6 -> inv raw0 ne0 (with_out r x n (Some c) s).
Proof.
  intros (HL & Hst & Ho & Hl & Hne & H3 & Hcur & H0 & H1) Hx.
  unfold inv; cbn [buf st offin lelength Ne raw curout broken with_out].
  split; [assumption|]. split; [lia|]. split; [assumption|]. split; [assumption|]. split; [assumption|].
  split; [lia|]. split; [discriminate|]. split; lia.
Qed.
Lemma inv_setOutgoing raw0 ne0 s : inv raw0 ne0 s -> inv raw0 ne0 (snd (setOutgoing s)).
Proof.
  intros H. unfold setOutgoing, bind, get, raise, ret, put. destruct (_ <=? _); cbn [snd]; [assumption|].
  apply inv_out; [assumption|unfold STATE_OUTGOING; lia].
Qed.
Lemma inv_setOutgoingLength raw0 ne0 n s : inv raw0 ne0 s -> inv raw0 ne0 (snd (setOutgoingLength n s)).
Proof.
  intros H. unfold setOutgoingLength, bind, get, raise, ret, put. destruct (_ <? _); cbn [snd]; [assumption|].
  destruct (match Ne s with Some n0 => n0 <? n | None => false end); cbn [snd]; [assumption|].
  apply inv_out; [assumption|unfold STATE_OUTGOING_LENGTH_KNOWN; lia].
Qed.
Lemma inv_send raw0 ne0 src b n s : inv raw0 ne0 s -> inv raw0 ne0 (snd (send_block src b n s)).
Proof.
  intros H. unfold send_block, bind, get, raise, put. destruct (curout s) as [c|]; [|assumption].
  destruct (_ <? _); [assumption|]. cbn [snd]. apply inv_out; [assumption|].
  unfold STATE_PARTIAL_OUTGOING, STATE_FULL_OUTGOING. destruct (_ <? _); lia.
Qed.
Lemma inv_sendBytes raw0 ne0 b n s : inv raw0 ne0 s -> inv raw0 ne0 (snd (sendBytes b n s)).
Proof.
  intros H. unfold sendBytes, bind at 1, get, raise. destruct (_ <? _); [assumption|]. now apply inv_send.
Qed.
Lemma inv_sendBytesLong raw0 ne0 d b n s : inv raw0 ne0 s -> inv raw0 ne0 (snd (sendBytesLong d b n s)).
Proof.
  intros H. unfold sendBytesLong, bind at 1, get, raise. destruct (_ && _); [assumption|]. now apply inv_send.
Qed.

Lemma inv_step raw0 ne0 o s : inv raw0 ne0 s ->
  inv raw0 ne0 (snd (apdu_step o s)) /\ rx_ok raw0 o (fst (apdu_step o s)).
Proof.
  intros HI. pose proof HI as (HL & Hst & Ho & Hl & Hne & H3 & Hcur & H0 & H1).
  destruct o as [|b| |n|b n|d b n|b n|i v]; cbn [apdu_step rx_ok].
  - unfold msome, setIncomingAndReceive, bind, get, raise, ret. unfold STATE_INITIAL.
    destruct (Z.eqb_spec (st s) 0) as [E|E]; cbn [negb]; [|triv].
    destruct (broken s) eqn:Eb; [triv|].
    destruct (receive_block_inv (offin s) s raw0 ne0 HI ltac:(lia) ltac:(auto)) as [A1 A2].
    destruct (receive_block (offin s) s) as [[n|e] s']; cbn [fst snd] in *; [|triv].
    split; [assumption|]. destruct (A2 n eq_refl) as [X|X]; [left; tauto|right; tauto].
  - unfold msome, receiveBytes, bind, get, raise, ret. unfold STATE_PARTIAL_INCOMING, STATE_OUTGOING.
    destruct ((st s <? 1) || (3 <=? st s)) eqn:E; [triv|].
    destruct (receive_block_inv b s raw0 ne0 HI ltac:(lia) ltac:(lia)) as [A1 A2].
    destruct (receive_block b s) as [[n|e] s']; cbn [fst snd] in *; [|triv].
    split; [assumption|]. destruct (A2 n eq_refl) as [X|X]; [lia|lia].
  - split; [|exact I]. clear - HI. revert s HI. apply pres_bind; [intros; now apply inv_setOutgoing|auto].
  - split; [|exact I]. clear - HI. revert s HI. apply pres_bind; [intros; now apply inv_setOutgoingLength|auto].
  - split; [|exact I]. clear - HI. revert s HI. apply pres_bind; [intros; now apply inv_sendBytes|auto].
  - split; [|exact I]. clear - HI. revert s HI. apply pres_bind; [intros; now apply inv_sendBytesLong|auto].
  - split; [|exact I]. clear - HI. revert s HI. apply pres_bind; [|auto]. unfold setOutgoingAndSend.
    apply pres_bind; [intros; now apply inv_setOutgoing|]. intros _.
    apply pres_bind; [intros; now apply inv_setOutgoingLength|]. intros _ s H. now apply inv_sendBytes.
  - destruct (aset i v (buf s)) as [[[]|e] b] eqn:E; cbn [fst snd]; [|triv]. split; [|exact I].
    pose proof (aset_length i v (buf s)) as HA. rewrite E in HA. cbn [snd] in HA.
    unfold inv; cbn [buf st offin lelength Ne raw curout broken with_buf]. rewrite HA. tauto.
Qed.

Lemma inv_new raw0 s : newAPDU raw0 = Ok s -> inv raw0 (Ne s) s.
Proof.
  intros H. apply newAPDU_inv in H as (H4 & br & cd & ty & nc & ne & ll & -> & Hll & Hnc & HX).
  pose proof (p3len_bounds raw0 H4). unfold inv. cbn [buf st offin lelength Ne raw curout broken mk_apdu].
  unfold STATE_INITIAL.
  split; [now apply initbuf_length|]. split; [lia|]. split; [lia|]. split; [lia|]. split; [reflexivity|].
  split; [auto|]. split; [lia|]. split; [|lia]. intros _ Hb.
  destruct HX as [(X1 & X2 & X3)|[X1 X2]]; [left|right; split; [assumption|auto]].
  split; [assumption|]. split; [|assumption]. unfold p3len. rewrite X1. cbn. rewrite andb_false_r. reflexivity.
Qed.

Lemma C26_case2S_refuted_pf : forall raw s, length raw = 5%nat -> newAPDU raw = Ok s ->
  fst (setIncomingAndReceive s) = Ok (-1).
Proof.
  intros raw s HL H. assert (Z5 : zlen raw = 5) by (unfold zlen; lia).
  pose proof (inv_new raw s H) as HI. destruct (inv_step raw (Ne s) OpSetIncomingAndReceive s HI) as [_ HR].
  apply newAPDU_inv in H as (H4 & br & cd & ty & nc & ne & ll & -> & Hll & Hnc & HX).
  destruct HX as [(_ & -> & ->)|[_ X]]; [|lia].
  unfold setIncomingAndReceive, bind, get. cbn [st mk_apdu broken STATE_INITIAL Z.eqb negb].
  rewrite receive_block_unfold. cbn [M_apdu.raw offin lelength mk_apdu].
  replace (p3len raw) with 1. 2:{ unfold p3len. rewrite Z5. cbn. now rewrite andb_false_r. }
  rewrite Z5. reflexivity.
Qed.

Lemma C26_counts_partial_pf : forall raw s ops tr s', newAPDU raw = Ok s -> apdu_run ops s = (tr, s') ->
  Forall (fun x =>
    match x with
    | (OpSetIncomingAndReceive, Ok (Some n)) => length raw = 5%nat /\ n = -1 \/ length raw <> 5%nat /\ 0 <= n <= 128
    | (OpReceiveBytes _, Ok (Some n)) => 0 <= n <= 128
    | _ => True
    end) tr.
Proof.
  intros raw s ops tr s' H HR.
  destruct (run_ind (inv raw (Ne s)) (rx_ok raw) (fun o t => inv_step raw (Ne s) o t) ops s tr s' (inv_new raw s H) HR) as [_ HF].
  eapply Forall_impl; [|exact HF]. intros [o r]; cbn [fst snd]. unfold rx_ok, zlen.
  destruct o; auto. destruct r as [[n|]|]; auto. intros X. lia.
Qed.

Lemma C26_copied_partial_pf : forall bOffs s n s', 0 <= bOffs -> length (buf s) = 257%nat ->
  0 <= offin s -> 0 <= lelength s ->
  receiveBytes bOffs s = (Ok n, s') -> 0 <= n ->
  (bOffs + n <= 257 \/ n = 0)
  /\ buf s' = splice (buf s) (Z.to_nat bOffs) (sub (raw s) (Z.to_nat (offin s)) (Z.to_nat n))
  /\ offin s' = offin s + n /\ raw s' = raw s.
Proof.
  intros b s n s' Hb HL H1 H2 H Hn. unfold receiveBytes, bind, get, raise in H.
  destruct (_ || _); [discriminate|]. pose proof H as H'.
  rewrite receive_block_unfold in H. cbv zeta in H.
  set (m := Z.min _ _) in *.
  assert (m = n) by (destruct (for_loop _ _ _ _) as [[[]|e] b0]; congruence). subst n.
  destruct (Z.le_gt_cases (b + m) 257) as [Hle|Hgt].
  - rewrite (receive_block_ok b s m) in H' by first [lia | reflexivity | unfold zlen; lia].
    apply pair_equal_spec in H' as [_ <-]. cbn [buf offin raw with_in].
    split; [lia|]. split; [reflexivity|]. split; reflexivity.
  - destruct (Z.eq_dec m 0) as [E|E].
    + rewrite E in *. cbn [Z.to_nat for_loop ret] in H. apply pair_equal_spec in H as [_ <-].
      cbn [buf offin raw with_in]. split; [lia|]. rewrite sub_0, splice_nil. split; [reflexivity|]. split; reflexivity.
    + exfalso. destruct (for_loop (Z.to_nat m) 0 (cp_body (raw s) (offin s) b) (buf s)) as [[[]|e] b0] eqn:EL; [|discriminate].
      set (k := Z.to_nat (Z.max 0 (257 - b))).
      replace (Z.to_nat m) with (k + S (Z.to_nat m - k - 1))%nat in EL by lia.
      rewrite for_loop_app in EL.
      destruct (for_loop k 0 (cp_body (raw s) (offin s) b) (buf s)) as [[[]|e] b1] eqn:EK; [|discriminate].
      pose proof (cp_loop_length k (raw s) (offin s) b 0 (buf s)) as LK. rewrite EK in LK. cbn [snd] in LK.
      rewrite for_loop_S in EL. unfold bind at 1, cp_body at 1, bind, lift in EL.
      destruct (py_get _ _); [|discriminate]. rewrite aset_out in EL by (unfold zlen; lia). discriminate.
Qed.

(** ** Sending *)

Lemma slice_set_prefix {A} (l vs : list A) c n : 0 <= c <= zlen l -> zlen vs = n ->
  firstn (Z.to_nat (c + n)) (py_slice_set l c (c + n) vs) = firstn (Z.to_nat c) l ++ vs
  /\ c + n <= zlen (py_slice_set l c (c + n) vs).
Proof.
  intros Hc Hn. pose proof (zlen_nonneg vs). unfold py_slice_set, py_clamp.
  replace (c <? 0) with false by lia. replace (c + n <? 0) with false by lia.
  rewrite (Z.min_l c) by lia. unfold zlen in *. split.
  - rewrite app_assoc, firstn_app, app_length, firstn_length.
    replace (Z.to_nat (c + n) - _)%nat with 0%nat by lia. cbn [firstn]. rewrite app_nil_r.
    apply firstn_all2. rewrite app_length, firstn_length. lia.
  - rewrite !app_length, firstn_length. lia.
Qed.

Lemma send_block_ok src off n s c : curout s = Some c -> 0 <= c <= zlen (raw s) ->
  in_range off n (zlen src) -> c + n <= 256 ->
  exists s', send_block src off n s = (Ok tt, s')
    /\ firstn (Z.to_nat (c + n)) (raw s') = firstn (Z.to_nat c) (raw s) ++ sub src (Z.to_nat off) (Z.to_nat n)
    /\ c + n <= zlen (raw s') /\ curout s' = Some (c + n) /\ outlen s' = outlen s /\ buf s' = buf s
    /\ st s' = (if c + n <? outlen s then STATE_PARTIAL_OUTGOING else STATE_FULL_OUTGOING).
Proof.
  intros Hc Hr (R1 & R2 & R3) Hb. unfold send_block, bind, get, raise, put. rewrite Hc.
  unfold OUT_BLOCKSIZE. replace (256 <? c + n) with false by lia.
  eexists; split; [reflexivity|]. cbn [raw buf curout outlen st with_out].
  rewrite py_slice_in by lia. replace (off + n - off) with n by lia.
  destruct (slice_set_prefix (raw s) (sub src (Z.to_nat off) (Z.to_nat n)) c n) as [P1 P2]; [lia| |].
  { unfold zlen. rewrite sub_length; unfold zlen in *; lia. }
  split; [assumption|]. split; [assumption|]. auto.
Qed.

Lemma sends_run ops : forall s c, curout s = Some c -> 0 <= c <= zlen (raw s) -> 3 <= st s ->
  length (buf s) = 257%nat -> Forall send_in_range ops -> c + zlen (sent ops (buf s)) <= 256 ->
  let '(tr, s') := apdu_run ops s in
  let k := c + zlen (sent ops (buf s)) in
  Forall (fun x => snd x = Ok None) tr
  /\ firstn (Z.to_nat k) (raw s') = firstn (Z.to_nat c) (raw s) ++ sent ops (buf s)
  /\ k <= zlen (raw s') /\ curout s' = Some k /\ outlen s' = outlen s
  /\ st s' = (if existsb is_send ops then if k <? outlen s then STATE_PARTIAL_OUTGOING else STATE_FULL_OUTGOING
              else st s).
Proof.
  induction ops as [|o ops IH]; intros s c Hc Hr Hst HL HF HB.
  - cbn [apdu_run sent existsb]. rewrite zlen_nil, Z.add_0_r, app_nil_r. split; [constructor|].
    split; [reflexivity|]. split; [lia|]. auto.
  - inversion HF as [|? ? HO HF']; subst. cbn [apdu_run].
    assert (STEP : forall src off n, in_range off n (zlen src) ->
       c + zlen (sub src (Z.to_nat off) (Z.to_nat n) ++ sent ops (buf s)) <= 256 ->
       exists s1, send_block src off n s = (Ok tt, s1) /\
       let '(tr, s') := (let '(t, s2) := apdu_run ops s1 in ((o, Ok None) :: t, s2)) in
       let k := c + zlen (sub src (Z.to_nat off) (Z.to_nat n) ++ sent ops (buf s)) in
       Forall (fun x => snd x = Ok None) tr
       /\ firstn (Z.to_nat k) (raw s') = firstn (Z.to_nat c) (raw s) ++ sub src (Z.to_nat off) (Z.to_nat n) ++ sent ops (buf s)
       /\ k <= zlen (raw s') /\ curout s' = Some k /\ outlen s' = outlen s
       /\ st s' = (if k <? outlen s then STATE_PARTIAL_OUTGOING else STATE_FULL_OUTGOING)).
    { intros src off n HR HB'. rewrite zlen_app in *.
      assert (LS : zlen (sub src (Z.to_nat off) (Z.to_nat n)) = n).
      { destruct HR as (R1 & R2 & R3). unfold zlen in *. rewrite sub_length; lia. }
      rewrite LS in *. pose proof (zlen_nonneg (sent ops (buf s))).
      destruct (send_block_ok src off n s c Hc Hr HR ltac:(lia)) as (s1 & E & F1 & F2 & F3 & F4 & F5 & F6).
      exists s1. split; [assumption|].
      assert (Hst1 : 3 <= st s1) by (rewrite F6; destruct (_ <? _); unfold STATE_PARTIAL_OUTGOING, STATE_FULL_OUTGOING; lia).
      destruct HR as (R1 & R2 & R3).
      specialize (IH s1 (c + n) F3 ltac:(lia) Hst1 ltac:(now rewrite F5) HF' ltac:(rewrite F5; lia)).
      destruct (apdu_run ops s1) as [tr s2]. rewrite F5 in IH. destruct IH as (I1 & I2 & I3 & I4 & I5 & I6).
      rewrite !Z.add_assoc. split; [constructor; [reflexivity|assumption]|].
      split; [rewrite I2, F1; now rewrite app_assoc|]. split; [assumption|]. split; [assumption|].
      split; [congruence|]. rewrite I6, F6, F4.
      destruct (existsb is_send ops) eqn:EX; [reflexivity|].
      assert (N0 : zlen (sent ops (buf s)) = 0); [|rewrite N0, Z.add_0_r; reflexivity].
      clear - EX. generalize (buf s). induction ops as [|o ops IH]; intros b; [reflexivity|].
      cbn [existsb] in EX. apply orb_false_iff in EX as [E1 E2]. destruct o; try discriminate; cbn [sent]; try reflexivity.
      now apply IH. }
    destruct o as [|b| |n|b n|d b n|b n|i v]; try contradiction; cbn [sent send_in_range] in *.
    + destruct (STEP (buf s) b n) as (s1 & E & R); [unfold zlen; rewrite HL; exact HO|assumption|].
      assert (E1 : apdu_step (OpSendBytes b n) s = (Ok None, s1)).
      { cbn [apdu_step]. unfold mvoid, sendBytes, bind at 1 2, get, raise, ret, STATE_OUTGOING.
        replace (st s <? 3) with false by lia. now rewrite E. }
      rewrite E1. cbn [existsb is_send orb]. exact R.
    + destruct (STEP d b n) as (s1 & E & R); [exact HO|assumption|].
      assert (E1 : apdu_step (OpSendBytesLong d b n) s = (Ok None, s1)).
      { cbn [apdu_step]. unfold mvoid, sendBytesLong, bind at 1 2, get, raise, ret, STATE_PARTIAL_OUTGOING, STATE_OUTGOING_LENGTH_KNOWN.
        replace ((5 <? st s) && (st s <? 4)) with false by lia. now rewrite E. }
      rewrite E1. cbn [existsb is_send orb]. exact R.
    + cbn [apdu_step]. rewrite aset_in by (unfold zlen; lia).
      rewrite list_upd_splice by lia.
      assert (L1 : length (splice (buf s) (Z.to_nat i) [v]) = 257%nat) by (rewrite splice_length; [assumption|cbn [length]; lia]).
      specialize (IH (with_buf (splice (buf s) (Z.to_nat i) [v]) s) c Hc Hr Hst L1 HF').
      cbn [buf with_buf] in IH. specialize (IH HB).
      destruct (apdu_run ops _) as [tr s2]. cbn [raw outlen st with_buf] in IH. destruct IH as (I1 & IR).
      cbn [existsb is_send orb]. split; [constructor; [reflexivity|assumption]|]. exact IR.
Qed.

Lemma C27_response_pf : forall n s0 s ops, length (buf s0) = 257%nat ->
  setOutgoingLength n s0 = (Ok tt, s) ->
  Forall send_in_range ops -> zlen (sent ops (getBuffer s)) <= 256 ->
  let '(tr, s') := apdu_run ops s in
  Forall (fun x => snd x = Ok None) tr
  /\ firstn (length (sent ops (getBuffer s))) (raw s') = sent ops (getBuffer s)
  /\ (existsb is_send ops = true ->
        (getCurrentState s' = STATE_FULL_OUTGOING <-> n <= zlen (sent ops (getBuffer s)))
        /\ (getCurrentState s' = STATE_PARTIAL_OUTGOING <-> zlen (sent ops (getBuffer s)) < n)).
Proof.
  intros n s0 s ops HL H HF HB.
  assert (S : s = with_out (raw s0) STATE_OUTGOING_LENGTH_KNOWN n (Some 0) s0).
  { unfold setOutgoingLength, bind, get, raise, put in H. destruct (_ <? _); [discriminate|].
    destruct (match Ne s0 with Some m => m <? n | None => false end); [discriminate|]. congruence. }
  assert (HC : curout s = Some 0) by now subst s.
  assert (HS : st s = 4) by now subst s.
  assert (HBf : length (buf s) = 257%nat) by now subst s.
  assert (HO : outlen s = n) by now subst s.
  unfold getBuffer in *. clear S H.
  pose proof (sends_run ops s 0 HC (conj (Z.le_refl 0) (zlen_nonneg (raw s))) ltac:(lia) HBf HF ltac:(lia)) as R.
  destruct (apdu_run ops s) as [tr s']. cbv zeta in R. rewrite Z.add_0_l in R. rewrite HO in R. 
  destruct R as (R1 & R2 & R3 & R4 & R5 & R6).
  split; [assumption|]. split; [rewrite to_nat_zlen in R2; exact R2|].
  intros EX. rewrite EX in R6. unfold getCurrentState, STATE_FULL_OUTGOING, STATE_PARTIAL_OUTGOING in *.
  destruct (Z.ltb_spec (zlen (sent ops (buf s))) n); lia.
Qed.

Lemma C27_bounds_pf : forall s c off n d, 3 <= getCurrentState s -> curout s = Some c -> 256 < c + n ->
  sendBytes off n s = (Err (APDUExc BUFFER_BOUNDS), s)
  /\ sendBytesLong d off n s = (Err (APDUExc BUFFER_BOUNDS), s).
Proof.
  intros s c off n d Hs Hc Hn. unfold getCurrentState in Hs.
  unfold sendBytes, sendBytesLong, send_block, bind, get, raise, put.
  unfold STATE_OUTGOING, STATE_PARTIAL_OUTGOING, STATE_OUTGOING_LENGTH_KNOWN, OUT_BLOCKSIZE.
  replace (st s <? 3) with false by lia. replace ((5 <? st s) && (st s <? 4)) with false by lia.
  rewrite Hc. replace (256 <? c + n) with true by lia. auto.
Qed.

Lemma C27_setOutgoingAndSend_pf : forall s off n, getCurrentState s < 3 -> length (buf s) = 257%nat ->
  in_range off n 257 -> n <= 256 -> (forall m, Ne s = Some m -> n <= m) ->
  exists s', setOutgoingAndSend off n s = (Ok tt, s')
    /\ firstn (Z.to_nat n) (raw s') = sub (getBuffer s) (Z.to_nat off) (Z.to_nat n)
    /\ getCurrentState s' = STATE_FULL_OUTGOING.
Proof.
  intros s off n Hs HL HR Hn Hne. unfold getCurrentState in *.
  assert (E1 : setOutgoing s = (Ok (getOutgoingLength s), with_out (raw s) 3 (getOutgoingLength s) (Some 0) s)).
  { unfold setOutgoing, bind, get, raise, put, ret, STATE_OUTGOING. replace (3 <=? st s) with false by lia. reflexivity. }
  unfold setOutgoingAndSend. rewrite (bind_ok _ _ _ _ _ E1). set (s1 := with_out _ _ _ _ _).
  assert (E2 : setOutgoingLength n s1 = (Ok tt, with_out (raw s1) 4 n (Some 0) s1)).
  { unfold setOutgoingLength, bind, get, raise, put, ret, STATE_OUTGOING.
    change (st s1) with 3. cbn [Z.ltb Z.compare Pos.compare Pos.compare_cont].
    change (Ne s1) with (Ne s). destruct (Ne s) as [m|]; [|reflexivity].
    specialize (Hne m eq_refl). replace (m <? n) with false by lia. reflexivity. }
  rewrite (bind_ok _ _ _ _ _ E2). set (s2 := with_out _ _ _ _ _).
  destruct (send_block_ok (buf s2) off n s2 0) as (s3 & E3 & F1 & F2 & F3 & F4 & F5 & F6).
  - reflexivity.
  - pose proof (zlen_nonneg (raw s2)). lia.
  - unfold zlen. change (buf s2) with (buf s). rewrite HL. exact HR.
  - lia.
  - exists s3. split; [exact E3|]. rewrite Z.add_0_l in *. split; [exact F1|].
    rewrite F6. change (outlen s2) with n. replace (n <? n) with false by lia. reflexivity.
Qed.

(** ** Order of calls *)

Lemma C28_second_length_refuted_pf : forall s n m s', setOutgoingLength n s = (Ok tt, s') ->
  (forall e, Ne s = Some e -> m <= e) -> exists s'', setOutgoingLength m s' = (Ok tt, s'').
Proof.
  intros s n m s' H Hm. unfold setOutgoingLength, bind, get, raise, put in *.
  destruct (st s <? STATE_OUTGOING); [discriminate|].
  destruct (match Ne s with Some e => e <? n | None => false end); [discriminate|].
  injection H as <-. cbn [st with_out Ne]. change (STATE_OUTGOING_LENGTH_KNOWN <? STATE_OUTGOING) with false.
  destruct (Ne s) as [e|]; [|eauto]. specialize (Hm e eq_refl). replace (e <? m) with false by lia. eauto.
Qed.

Lemma C28_send_early_refuted_pf : forall s r s' off n, setOutgoing s = (Ok r, s') ->
  length (buf s) = 257%nat -> in_range off n 257 -> n <= 256 ->
  exists s'', sendBytes off n s' = (Ok tt, s'')
    /\ firstn (Z.to_nat n) (raw s'') = sub (buf s) (Z.to_nat off) (Z.to_nat n).
Proof.
  intros s r s' off n H HL HR Hn. unfold setOutgoing, bind, get, raise, put, ret in H.
  destruct (STATE_OUTGOING <=? st s); [discriminate|]. injection H as _ <-.
  set (s' := with_out _ _ _ _ _).
  destruct (send_block_ok (buf s') off n s' 0) as (s3 & E3 & F1 & _).
  - reflexivity.
  - pose proof (zlen_nonneg (raw s')). lia.
  - unfold zlen. change (buf s') with (buf s). rewrite HL. exact HR.
  - lia.
  - exists s3. split; [exact E3|]. rewrite Z.add_0_l in *. exact F1.
Qed.

(** and sendBytesLong before setOutgoing raises AttributeError instead. *)
Lemma step_no_output raw0 ne0 o s : inv raw0 ne0 s -> st s < 3 -> starts_output o = false ->
  st (snd (apdu_step o s)) < 3.
Proof.
  intros (HL & Hst & Ho & Hl & Hne & H3 & Hcur & H0 & H1) Hlt Hs. destruct (H3 Hlt) as [Hr Hc].
  assert (RB : forall b, st (snd (receive_block b s)) < 3).
  { intros b. rewrite receive_block_unfold. cbv zeta. destruct (for_loop _ _ _ _) as [[[]|e] b0]; cbn [snd st with_in with_buf]; [|assumption].
    unfold STATE_FULL_INCOMING, STATE_PARTIAL_INCOMING. destruct (_ =? _); lia. }
  destruct o as [|b| |n|b n|d b n|b n|i v]; try discriminate; cbn [apdu_step].
  - unfold msome, setIncomingAndReceive, bind, get, raise, ret. destruct (negb _); [assumption|].
    destruct (broken s); [assumption|]. specialize (RB (offin s)). destruct (receive_block (offin s) s) as [[n|e] s']; assumption.
  - unfold msome, receiveBytes, bind, get, raise, ret. destruct (_ || _); [assumption|].
    specialize (RB b). destruct (receive_block b s) as [[n|e] s']; assumption.
  - unfold mvoid, setOutgoingLength, bind, get, raise, ret, put, STATE_OUTGOING. replace (st s <? 3) with true by lia. assumption.
  - unfold mvoid, sendBytes, bind, get, raise, ret, STATE_OUTGOING. replace (st s <? 3) with true by lia. assumption.
  - unfold mvoid, sendBytesLong, send_block, bind, get, raise, ret, STATE_PARTIAL_OUTGOING, STATE_OUTGOING_LENGTH_KNOWN.
    replace ((5 <? st s) && (st s <? 4)) with false by lia. rewrite Hc. assumption.
  - destruct (aset i v (buf s)) as [[[]|e] b]; assumption.
Qed.

Lemma run_no_output raw0 ne0 ops : forall s tr s', inv raw0 ne0 s -> st s < 3 ->
  existsb starts_output ops = false -> apdu_run ops s = (tr, s') -> inv raw0 ne0 s' /\ st s' < 3.
Proof.
  induction ops as [|o ops IH]; intros s tr s' HI Hs Ho HR.
  - injection HR as _ <-. auto.
  - apply run_cons in HR as (r & s1 & tr1 & E1 & E2 & ->). cbn [existsb] in Ho. apply orb_false_iff in Ho as [O1 O2].
    pose proof (step_no_output raw0 ne0 o s HI Hs O1) as H1. destruct (inv_step raw0 ne0 o s HI) as [H2 _].
    rewrite E1 in *. cbn [snd] in *. eapply IH; eauto.
Qed.

Lemma C28_sendBytesLong_refuted_pf : forall raw s ops tr s' d off n,
  newAPDU raw = Ok s -> apdu_run ops s = (tr, s') -> existsb starts_output ops = false ->
  sendBytesLong d off n s' = (Err AttributeError, s').
Proof.
  intros raw s ops tr s' d off n H HR Ho. pose proof (inv_new raw s H) as HI.
  destruct (run_no_output raw (Ne s) ops s tr s' HI) as [HI' Hs]; auto.
  { apply newAPDU_inv in H as (_ & br & cd & ty & nc & ne & ll & -> & _). cbn. unfold STATE_INITIAL. lia. }
  destruct HI' as (_ & Hst & _ & _ & _ & H3 & _). destruct (H3 Hs) as [_ Hc].
  unfold sendBytesLong, send_block, bind, get, raise, STATE_PARTIAL_OUTGOING, STATE_OUTGOING_LENGTH_KNOWN.
  replace ((5 <? st s') && (st s' <? 4)) with false by lia. now rewrite Hc.
Qed.

(** C28, what holds, for every history [ops] on every APDU:
    - after a successful setOutgoing, every receive call and every further
      setOutgoing raise ILLEGAL_USE and change nothing;
    - so does setIncomingAndReceive after a successful setIncomingAndReceive;
    - so do setOutgoingLength and sendBytes as long as no setOutgoing was
      called, and receiveBytes as long as no setIncomingAndReceive was. *)
Lemma step_mono k o s : (k = 1 \/ k = 3) -> k <= st s -> k <= st (snd (apdu_step o s)).
Proof.
  intros Hk Hs.
  assert (RB : forall b, k = 1 -> k <= st (snd (receive_block b s))).
  { intros b ->. rewrite receive_block_unfold. cbv zeta. destruct (for_loop _ _ _ _) as [[[]|e] b0]; cbn [snd st with_in with_buf]; [|assumption].
    unfold STATE_FULL_INCOMING, STATE_PARTIAL_INCOMING. destruct (_ =? _); lia. }
  assert (SND : forall src b n s, k <= st s -> k <= st (snd (send_block src b n s))).
  { intros src b n t Ht. unfold send_block, bind, get, raise, put. destruct (curout t); [|assumption].
    destruct (_ <? _); [assumption|]. cbn [snd st with_out]. unfold STATE_PARTIAL_OUTGOING, STATE_FULL_OUTGOING. destruct (_ <? _); lia. }
  assert (SO : forall s, k <= st s -> k <= st (snd (setOutgoing s))).
  { intros t Ht. unfold setOutgoing, bind, get, raise, put, ret. destruct (_ <=? _); [assumption|].
    cbn [snd st with_out]. unfold STATE_OUTGOING. lia. }
  assert (SL : forall n s, k <= st s -> k <= st (snd (setOutgoingLength n s))).
  { intros n t Ht. unfold setOutgoingLength, bind, get, raise, put, ret. destruct (_ <? _); [assumption|].
    destruct (match Ne t with Some e => e <? n | None => false end); [assumption|].
    cbn [snd st with_out]. unfold STATE_OUTGOING_LENGTH_KNOWN. lia. }
  assert (SB : forall b n s, k <= st s -> k <= st (snd (sendBytes b n s))).
  { intros b n t Ht. unfold sendBytes, bind at 1, get, raise. destruct (_ <? _); [assumption|]. now apply SND. }
  destruct o as [|b| |n|b n|d b n|b n|i v]; cbn [apdu_step].
  - unfold msome, setIncomingAndReceive, bind, get, raise, ret, STATE_INITIAL. destruct (negb _) eqn:E; [assumption|]. lia.
  - unfold msome, receiveBytes, bind, get, raise, ret, STATE_PARTIAL_INCOMING, STATE_OUTGOING.
    destruct ((st s <? 1) || (3 <=? st s)) eqn:E; [assumption|].
    specialize (RB b ltac:(lia)). destruct (receive_block b s) as [[n|e] s']; assumption.
  - revert s Hs RB. intros s Hs _. revert s Hs. apply (pres_bind (fun s => k <= st s)); [assumption|auto].
  - clear RB. revert s Hs. apply (pres_bind (fun s => k <= st s)); [apply SL|auto].
  - clear RB. revert s Hs. apply (pres_bind (fun s => k <= st s)); [apply SB|auto].
  - clear RB. revert s Hs. apply (pres_bind (fun s => k <= st s)); [|auto].
    intros t Ht. unfold sendBytesLong, bind at 1, get, raise. destruct (_ && _); [assumption|]. now apply SND.
  - clear RB. revert s Hs. apply (pres_bind (fun s => k <= st s)); [|auto]. unfold setOutgoingAndSend.
    apply (pres_bind (fun s => k <= st s)); [assumption|]. intros _.
    apply (pres_bind (fun s => k <= st s)); [apply SL|]. intros _; apply SB.
  - destruct (aset i v (buf s)) as [[[]|e] b]; assumption.
Qed.

Lemma run_reach k (P : apdu_op -> res (option Z) -> Prop) : (k = 1 \/ k = 3) ->
  (forall o s, P o (fst (apdu_step o s)) -> k <= st (snd (apdu_step o s))) ->
  forall ops s tr s', apdu_run ops s = (tr, s') ->
  (k <= st s \/ Exists (fun x => P (fst x) (snd x)) tr) -> k <= st s'.
Proof.
  intros Hk HP. induction ops as [|o ops IH]; intros s tr s' HR HE.
  - injection HR as <- <-. destruct HE as [HE|HE]; [assumption|inversion HE].
  - apply run_cons in HR as (r & s1 & tr1 & E1 & E2 & ->). apply (IH s1 tr1 s' E2).
    destruct HE as [HE|HE].
    + left. pose proof (step_mono k o s Hk HE) as X. now rewrite E1 in X.
    + inversion HE as [? ? HX|? ? HX]; subst; [|now right].
      left. specialize (HP o s). rewrite E1 in HP. cbn [fst snd] in *. auto.
Qed.

Lemma C28_order_partial_pf : forall raw s ops tr s', newAPDU raw = Ok s -> apdu_run ops s = (tr, s') ->
  ((exists n, In (OpSetOutgoing, Ok n) tr) ->
     illegal setIncomingAndReceive s' /\ (forall b, illegal (receiveBytes b) s')
     /\ illegal setOutgoing s' /\ (forall b n, illegal (setOutgoingAndSend b n) s'))
  /\ ((exists n, In (OpSetIncomingAndReceive, Ok n) tr) -> illegal setIncomingAndReceive s')
  /\ (existsb starts_output ops = false ->
        (forall n, illegal (setOutgoingLength n) s') /\ (forall b n, illegal (sendBytes b n) s'))
  /\ (existsb starts_output ops = false -> ~ In OpSetIncomingAndReceive ops ->
        forall b, illegal (receiveBytes b) s').
Proof.
  intros raw s ops tr s' H HR. pose proof (inv_new raw s H) as HI.
  assert (S0 : st s = 0).
  { apply newAPDU_inv in H as (_ & br & cd & ty & nc & ne & ll & -> & _). reflexivity. }
  split; [|split; [|split]].
  - intros [n Hn].
    assert (3 <= st s').
    { eapply (run_reach 3 (fun o r => o = OpSetOutgoing /\ exists n, r = Ok n)); [auto| |exact HR|].
      - intros o t [-> [m Hm]]. cbn [apdu_step] in *. unfold msome, setOutgoing, bind, get, raise, put, ret in *.
        destruct (_ <=? _); [discriminate|]. cbn. unfold STATE_OUTGOING. lia.
      - right. apply Exists_exists. eexists; split; [exact Hn|]. cbn. eauto. }
    assert (SO : illegal setOutgoing s').
    { unfold illegal, setOutgoing, bind, get, raise, STATE_OUTGOING. now replace (3 <=? st s') with true by lia. }
    split; [|split; [|split; [exact SO|]]].
    + unfold illegal, setIncomingAndReceive, bind, get, raise, STATE_INITIAL. now replace (st s' =? 0) with false by lia.
    + intros b. unfold illegal, receiveBytes, bind, get, raise, STATE_OUTGOING, STATE_PARTIAL_INCOMING.
      now replace ((st s' <? 1) || (3 <=? st s')) with true by lia.
    + intros b m. unfold illegal, setOutgoingAndSend. now rewrite (bind_err _ _ _ _ _ SO).
  - intros [n Hn].
    assert (1 <= st s').
    { eapply (run_reach 1 (fun o r => o = OpSetIncomingAndReceive /\ exists n, r = Ok n)); [auto| |exact HR|].
      - intros o t [-> [m Hm]]. cbn [apdu_step] in *. unfold msome, setIncomingAndReceive, bind, get, raise, put, ret in *.
        destruct (negb _); [discriminate|]. destruct (broken t); [discriminate|].
        rewrite receive_block_unfold in *. cbv zeta in *. destruct (for_loop _ _ _ _) as [[[]|e] b0]; [|discriminate].
        cbn [snd st with_in]. unfold STATE_FULL_INCOMING, STATE_PARTIAL_INCOMING. destruct (_ =? _); lia.
      - right. apply Exists_exists. eexists; split; [exact Hn|]. cbn. eauto. }
    unfold illegal, setIncomingAndReceive, bind, get, raise, STATE_INITIAL. now replace (st s' =? 0) with false by lia.
  - intros Ho. destruct (run_no_output raw (Ne s) ops s tr s' HI ltac:(lia) Ho HR) as [_ Hs].
    split.
    + intros n. unfold illegal, setOutgoingLength, bind, get, raise, STATE_OUTGOING. now replace (st s' <? 3) with true by lia.
    + intros b n. unfold illegal, sendBytes, bind, get, raise, STATE_OUTGOING. now replace (st s' <? 3) with true by lia.
  - intros Ho Hi.
    assert (X : forall ops s tr, inv raw (Ne s) s -> st s = 0 -> existsb starts_output ops = false ->
       ~ In OpSetIncomingAndReceive ops -> apdu_run ops s = (tr, s') -> st s' = 0).
    { clear. induction ops as [|o ops IH]; intros s tr HI S0 Ho Hi HR.
      - now injection HR as _ <-.
      - apply run_cons in HR as (r & s1 & tr1 & E1 & E2 & ->). cbn [existsb] in Ho. apply orb_false_iff in Ho as [O1 O2].
        pose proof (inv_step raw (Ne s) o s HI) as [H2 _]. rewrite E1 in H2. cbn [snd] in H2.
        pose proof HI as (_ & _ & _ & _ & _ & H3 & _). destruct (H3 ltac:(lia)) as [_ Hc].
        assert (Hne : Ne s1 = Ne s) by (destruct H2 as (_ & _ & _ & _ & X & _); exact X).
        eapply (IH s1 tr1); [now rewrite Hne| |assumption|intros X; apply Hi; now right|exact E2].
        assert (Hi' : o <> OpSetIncomingAndReceive) by (intros ->; apply Hi; now left).
        destruct o as [|b| |n|b n|d b n|b n|i v]; try discriminate; try contradiction; cbn [apdu_step] in E1.
        + unfold msome, receiveBytes, bind, get, raise in E1. rewrite S0 in E1. cbn in E1. congruence.
        + unfold mvoid, setOutgoingLength, bind, get, raise in E1. rewrite S0 in E1. cbn in E1. congruence.
        + unfold mvoid, sendBytes, bind, get, raise in E1. rewrite S0 in E1. cbn in E1. congruence.
        + unfold mvoid, sendBytesLong, send_block, bind, get, raise in E1. rewrite S0 in E1. cbn in E1. rewrite Hc in E1. congruence.
        + destruct (aset i v (buf s)) as [[[]|e] b]; injection E1 as _ <-; assumption. }
    intros b. specialize (X ops s tr HI S0 Ho Hi HR).
    unfold illegal, receiveBytes, bind, get, raise, STATE_OUTGOING, STATE_PARTIAL_INCOMING.
    now replace ((st s' <? 1) || (3 <=? st s')) with true by lia.
Qed.

Lemma C29_oversend_refuted_pf : forall n s0 s, length (buf s0) = 257%nat -> 0 <= n < 256 ->
  setOutgoingLength n s0 = (Ok tt, s) ->
  exists s', sendBytes 0 (n + 1) s = (Ok tt, s')
    /\ firstn (Z.to_nat (n + 1)) (raw s') = sub (getBuffer s) 0 (Z.to_nat (n + 1))
    /\ getCurrentState s' = STATE_FULL_OUTGOING.
Proof.
  intros n s0 s HL Hn H.
  assert (S : s = with_out (raw s0) STATE_OUTGOING_LENGTH_KNOWN n (Some 0) s0).
  { unfold setOutgoingLength, bind, get, raise, put in H. destruct (_ <? _); [discriminate|].
    destruct (match Ne s0 with Some m => m <? n | None => false end); [discriminate|]. congruence. }
  subst s. set (s := with_out _ _ _ _ _).
  destruct (send_block_ok (buf s) 0 (n + 1) s 0) as (s3 & E3 & F1 & F2 & F3 & F4 & F5 & F6).
  - reflexivity.
  - pose proof (zlen_nonneg (raw s)). lia.
  - unfold zlen. change (buf s) with (buf s0). rewrite HL. unfold in_range; lia.
  - lia.
  - exists s3. split; [exact E3|]. rewrite Z.add_0_l in *. split; [exact F1|].
    unfold getCurrentState. rewrite F6. change (outlen s) with n. now replace (n + 1 <? n) with false by lia.
Qed.

Lemma C29_limits_partial_pf : forall raw s ops tr s', newAPDU raw = Ok s -> apdu_run ops s = (tr, s') ->
  (forall c, curout s' = Some c -> c <= 256)
  /\ (forall e, Ne s = Some e -> outlen s' <= e)
  /\ Forall (fun x => match x with
       | (OpSetOutgoingLength n, Ok _) => forall e, Ne s = Some e -> n <= e
       | _ => True end) tr.
Proof.
  intros raw s ops tr s' H HR.
  set (P := fun t => (forall c, curout t = Some c -> c <= 256) /\ Ne t = Ne s /\ (forall e, Ne s = Some e -> 0 <= e)
     /\ (forall e, Ne s = Some e -> outlen t <= e)).
  set (Q := fun (o : apdu_op) (r : res (option Z)) => match o, r with
       | OpSetOutgoingLength n, Ok _ => forall e, Ne s = Some e -> n <= e
       | _, _ => True end).
  assert (P0 : P s).
  { destruct (Z.lt_ge_cases (zlen raw) 4) as [H4|H4]; [rewrite newAPDU_short in H by lia; discriminate|].
    rewrite newAPDU_eq in H by lia. pose proof (outl_bounds raw) as OB.
    assert (PM : forall br cd ty nc ne ll, (forall e, ne = Some e -> 0 <= e) -> s = mk_apdu raw br cd ty nc ne ll -> P s).
    { intros br cd ty nc ne ll Hne ->. unfold P; cbn [curout Ne outlen mk_apdu]. split; [discriminate|]. split; [reflexivity|]. auto. }
    destruct (zlen raw =? 4); [apply Ok_inj in H; eapply PM; [|symmetry; exact H]; discriminate|].
    destruct (_ || _); [apply Ok_inj in H; eapply PM; [|symmetry; exact H]; intros e [= <-]; lia|].
    destruct (_ && _); [discriminate|].
    destruct (_ || _); apply Ok_inj in H; (eapply PM; [|symmetry; exact H]); [discriminate|].
    intros e X. assert (e = fst (outl raw)) by congruence. lia. }
  assert (SO : forall t, P t -> P (snd (setOutgoing t))).
  { intros t (T1 & T2 & T3 & T4). unfold setOutgoing, bind, get, raise, put, ret. destruct (_ <=? _); [split; auto|].
    unfold P; cbn [snd curout Ne outlen with_out]. split; [intros c [= <-]; lia|]. split; [assumption|]. split; [assumption|].
    intros e E. unfold getOutgoingLength. rewrite T2, E. lia. }
  assert (SL : forall n t, P t -> P (snd (setOutgoingLength n t)) /\ (forall r, fst (setOutgoingLength n t) = Ok r -> forall e, Ne s = Some e -> n <= e)).
  { intros n t (T1 & T2 & T3 & T4). unfold setOutgoingLength, bind, get, raise, put, ret. destruct (_ <? _); [split; [split; auto|discriminate]|].
    rewrite T2. destruct (match Ne s with Some m => m <? n | None => false end) eqn:E.
    - split; [split; auto|discriminate].
    - assert (G : forall e, Ne s = Some e -> n <= e) by (intros e Y; rewrite Y in E; lia).
      cbn [fst snd]. split; [|auto]. unfold P; cbn [curout Ne outlen with_out].
      split; [intros c [= <-]; lia|]. split; [assumption|]. split; assumption. }
  assert (SND : forall src b n t, P t -> P (snd (send_block src b n t))).
  { intros src b n t HP. pose proof HP as (T1 & T2 & T3 & T4). unfold send_block, bind, get, raise, put.
    destruct (curout t) as [z|]; [|exact HP].
    unfold OUT_BLOCKSIZE. destruct (Z.ltb_spec 256 (z + n)); [exact HP|].
    unfold P; cbn [snd curout Ne outlen with_out]. split; [intros c [= <-]; lia|]. auto. }
  assert (SB : forall b n t, P t -> P (snd (sendBytes b n t))).
  { intros b n t Ht. unfold sendBytes, bind at 1, get, raise. destruct (_ <? _); [assumption|]. now apply SND. }
  assert (RB : forall b t, P t -> P (snd (receive_block b t))).
  { intros b t Ht. rewrite receive_block_unfold. cbv zeta. destruct (for_loop _ _ _ _) as [[[]|e] b0]; exact Ht. }
  assert (STEP : forall o t, P t -> P (snd (apdu_step o t)) /\ Q o (fst (apdu_step o t))).
  { intros o t Ht. destruct o as [|b| |n|b n|d b n|b n|i v]; cbn [apdu_step Q]; (split; [|try exact I]).
    - revert t Ht. apply (pres_bind P); [|auto]. intros t Ht. unfold setIncomingAndReceive, bind, get, raise.
      destruct (negb _); [assumption|]. destruct (broken t); [assumption|]. now apply RB.
    - revert t Ht. apply (pres_bind P); [|auto]. intros t Ht. unfold receiveBytes, bind, get, raise.
      destruct (_ || _); [assumption|]. now apply RB.
    - revert t Ht. apply (pres_bind P); auto.
    - revert t Ht. apply (pres_bind P); [|auto]. intros t Ht; now apply SL.
    - destruct (SL n t Ht) as [_ X]. unfold mvoid, bind. destruct (setOutgoingLength n t) as [[[]|e] t']; cbn [fst ret]; [|exact I].
      now apply (X tt).
    - revert t Ht. apply (pres_bind P); [apply SB|auto].
    - revert t Ht. apply (pres_bind P); [|auto]. intros t Ht. unfold sendBytesLong, bind at 1, get, raise.
      destruct (_ && _); [assumption|]. now apply SND.
    - revert t Ht. apply (pres_bind P); [|auto]. unfold setOutgoingAndSend. apply (pres_bind P); [assumption|]. intros _.
      apply (pres_bind P); [intros t Ht; now apply SL|]. intros _; apply SB.
    - destruct (aset i v (buf t)) as [[[]|e] b]; assumption. }
  destruct (run_ind P Q STEP ops s tr s' P0 HR) as [(P1 & P2 & P3 & P4) HF].
  split; [assumption|]. split; [assumption|].
  eapply Forall_impl; [|exact HF]. intros [o r]. cbn [fst snd]. destruct o; auto.
Qed.

Lemma C30_cla_refuted_pf : exists raw s ops tr s', newAPDU raw = Ok s /\ apdu_run ops s = (tr, s')
  /\ Forall (fun x => is_ok (snd x) = true) tr
  /\ isISOInterindustryCLA s <> isISOInterindustryCLA s'
  /\ isCommandChainingCLA s <> isCommandChainingCLA s'.
Proof.
  exists [0; 176; 0; 0; 2]. eexists. exists [OpWriteBuffer 0 (-112); OpSetOutgoingAndSend 0 1]. do 2 eexists.
  split; [vm_compute; reflexivity|]. split; [vm_compute; reflexivity|].
  split; [repeat constructor|]. split; vm_compute; discriminate.
Qed.

Lemma C30_cla_partial_pf : forall raw s ops tr s' cla, newAPDU raw = Ok s -> nth_error raw 0 = Some cla ->
  apdu_run ops s = (tr, s') ->
  Forall (fun x => match x with
     | ((OpSendBytes _ _ | OpSendBytesLong _ _ _ | OpSetOutgoingAndSend _ _), Ok _) => False
     | _ => True end) tr ->
  isISOInterindustryCLA s' = Ok (negb (Z.testbit cla 7))
  /\ isCommandChainingCLA s' = Ok (Z.testbit cla 4).
Proof.
  intros rw s ops tr s' cla H Hc HR HF.
  assert (R : raw s' = rw).
  { assert (R0 : raw s = rw).
    { apply newAPDU_inv in H as (_ & br & cd & ty & nc & ne & ll & -> & _). reflexivity. }
    rewrite <- R0. clear H R0 Hc. revert s tr HR HF. induction ops as [|o ops IH]; intros s tr HR HF.
    - now injection HR as _ <-.
    - apply run_cons in HR as (r & s1 & tr1 & E1 & E2 & ->). inversion HF as [|? ? F1 F2]; subst.
      rewrite (IH s1 tr1 E2 F2). clear - E1 F1.
      assert (SO : forall t, raw (snd (setOutgoing t)) = raw t).
      { intros t. unfold setOutgoing, bind, get, raise, put, ret. now destruct (_ <=? _). }
      assert (SL : forall n t, raw (snd (setOutgoingLength n t)) = raw t).
      { intros n t. unfold setOutgoingLength, bind, get, raise, put, ret. destruct (_ <? _); [reflexivity|].
        now destruct (match Ne t with Some e => e <? n | None => false end). }
      assert (SND : forall src b n t, is_ok (fst (send_block src b n t)) = true \/ raw (snd (send_block src b n t)) = raw t).
      { intros src b n t. unfold send_block, bind, get, raise, put. destruct (curout t); [|auto]. destruct (_ <? _); auto. }
      assert (SB : forall b n t, is_ok (fst (sendBytes b n t)) = true \/ raw (snd (sendBytes b n t)) = raw t).
      { intros b n t. unfold sendBytes, bind at 1 2, get, raise. destruct (_ <? _); [auto|]. apply SND. }
      assert (RB : forall b t, raw (snd (receive_block b t)) = raw t).
      { intros b t. rewrite receive_block_unfold. cbv zeta. now destruct (for_loop _ _ _ _) as [[[]|e] b0]. }
      destruct o as [|b| |n|b n|d b n|b n|i v]; cbn [apdu_step] in E1; unfold msome, mvoid in E1.
      + unfold setIncomingAndReceive, bind, get, raise, ret in E1. destruct (negb _); [congruence|].
        destruct (broken s); [congruence|]. specialize (RB (offin s) s). destruct (receive_block _ _) as [[n|e] t]; cbn [snd] in RB; congruence.
      + unfold receiveBytes, bind, get, raise, ret in E1. destruct (_ || _); [congruence|].
        specialize (RB b s). destruct (receive_block _ _) as [[n|e] t]; cbn [snd] in RB; congruence.
      + specialize (SO s). unfold bind at 1, ret in E1. destruct (setOutgoing s) as [[n|e] t]; cbn [snd] in SO; congruence.
      + specialize (SL n s). unfold bind at 1, ret in E1. destruct (setOutgoingLength n s) as [[m|e] t]; cbn [snd] in SL; congruence.
      + specialize (SB b n s). unfold bind at 1, ret in E1. destruct (sendBytes b n s) as [[m|e] t]; cbn [fst snd is_ok] in SB.
        * injection E1 as <- <-. contradiction.
        * destruct SB; congruence.
      + assert (SBL : is_ok (fst (sendBytesLong d b n s)) = true \/ raw (snd (sendBytesLong d b n s)) = raw s).
        { unfold sendBytesLong, bind at 1 2, get, raise. destruct (_ && _); [auto|]. apply SND. }
        unfold bind at 1, ret in E1. destruct (sendBytesLong d b n s) as [[m|e] t]; cbn [fst snd is_ok] in SBL.
        * injection E1 as <- <-. contradiction.
        * destruct SBL; congruence.
      + unfold bind at 1, ret in E1. unfold setOutgoingAndSend, bind in E1. specialize (SO s).
        destruct (setOutgoing s) as [[m|e] t]; cbn [snd] in SO; [|congruence]. specialize (SL n t).
        destruct (setOutgoingLength n t) as [[m'|e] t']; cbn [snd] in SL; [|congruence]. specialize (SB b n t').
        destruct (sendBytes b n t') as [[m''|e] t'']; cbn [fst snd is_ok] in SB.
        * injection E1 as <- <-. contradiction.
        * destruct SB; congruence.
      + destruct (aset i v (buf s)) as [[[]|e] b]; injection E1 as _ <-; reflexivity. }
  unfold isISOInterindustryCLA, isCommandChainingCLA, OFFSET_CLA. rewrite R.
  change 0 with (Z.of_nat 0) at 1 3. rewrite (py_get_nth_error rw 0 cla Hc). cbn [rbind].
  assert (B : forall k, 0 <= k -> negb (Z.land cla (2 ^ k) =? 0) = Z.testbit cla k).
  { intros k Hk. destruct (Z.testbit cla k) eqn:T.
    - apply negb_true_iff, Z.eqb_neq. intros X. assert (Y : Z.testbit (Z.land cla (2 ^ k)) k = true).
      { rewrite Z.land_spec, Z.pow2_bits_true by lia. now rewrite T. }
      rewrite X, Z.bits_0 in Y. discriminate.
    - apply negb_false_iff, Z.eqb_eq. apply Z.bits_inj'. intros i Hi. rewrite Z.land_spec, Z.bits_0.
      destruct (Z.eq_dec i k) as [->|N]; [now rewrite T|]. rewrite Z.pow2_bits_false by lia. apply andb_false_r. }
  split; f_equal.
  - rewrite <- (B 7) by lia. change (2 ^ 7) with 128. now rewrite negb_involutive.
  - rewrite <- (B 4) by lia. reflexivity.
Qed.

(** ** Malformed commands *)

Lemma C31_six_bytes_refuted_pf : forall raw, length raw = 6%nat -> nth 4 raw 1 = 0 ->
  newAPDU raw = Err IndexError /\ ~ (exists c, wf_command c /\ encodes raw c).
Proof.
  intros raw HL H4. assert (HZ : zlen raw = 6) by (unfold zlen; lia).
  rewrite (nth_indep _ 1 0) in H4 by lia. fold (b4 raw) in H4. split.
  - rewrite newAPDU_eq by lia. rewrite HZ, H4. reflexivity.
  - intros (c & [Hd Hw] & He). pose proof (encodes_len raw c He) as L.
    pose proof (encodes_nth raw c 4 He ltac:(lia)) as [E4 _]. fold (b4 raw) in E4. rewrite H4 in E4. cbn in E4.
    assert (L2 : length (body c) = 2%nat) by (unfold zlen in *; lia).
    destruct c as [|le|d|d le|le|d|d le]; cbn [body] in *; unfold le1, le2 in *; cbn [length] in L2; try discriminate;
      cbn [nth] in E4; rewrite ?app_length in L2; cbn [length] in L2; lia.
Qed.

Lemma C31_too_short_refuted_pf : forall raw, 8 <= zlen raw -> nth 4 raw 1 = 0 ->
  zlen raw = (nth 5 raw 0) mod 256 * 256 + (nth 6 raw 0) mod 256 + 5 ->
  ~ (exists c, wf_command c /\ encodes raw c)
  /\ exists s n s', newAPDU raw = Ok s /\ setIncomingAndReceive s = (Ok n, s') /\ 0 < n.
Proof.
  intros raw HL H4 Hn. rewrite (nth_indep _ 1 0) in H4 by (unfold zlen in *; lia). fold (b4 raw) in H4. split.
  - intros (c & [Hd Hw] & He). pose proof (encodes_len raw c He) as L.
    pose proof (encodes_nth raw c 4 He ltac:(lia)) as [E4 _]. fold (b4 raw) in E4. rewrite H4 in E4.
    pose proof (encodes_nth raw c 5 He ltac:(lia)) as [E5 _].
    pose proof (encodes_nth raw c 6 He ltac:(lia)) as [E6 _].
    change (4 - 4)%nat with 0%nat in *. change (5 - 4)%nat with 1%nat in *. change (6 - 4)%nat with 2%nat in *.
    rewrite E5, E6 in Hn. clear E5 E6. change (0 mod 256) with 0 in E4.
    destruct c as [|le|d|d le|le|d|d le]; cbn [body] in *; unfold le1, le2 in *; cbn [app nth] in *;
      rewrite ?zlen_cons, ?zlen_app, ?zlen_cons, ?zlen_nil in L; unfold zlen in *; lia.
  - rewrite newAPDU_eq by lia.
    assert (I : inl_ raw = (zlen raw - 5, 3)) by (unfold inl_; rewrite H4; cbn [Z.eqb]; f_equal; lia).
    replace (zlen raw =? 4) with false by lia. replace (zlen raw =? 5) with false by lia.
    replace (zlen raw =? 7) with false by lia. replace (zlen raw =? 6) with false by lia. rewrite !andb_false_r.
    cbn [orb]. rewrite I. cbn [fst snd]. replace (zlen raw =? zlen raw - 5 + 5) with true by lia. rewrite orb_true_r.
    eexists. exists (Z.min 128 (zlen raw - 7)). eexists. split; [reflexivity|]. split; [|lia].
    unfold setIncomingAndReceive, bind, get. cbn [st mk_apdu broken STATE_INITIAL Z.eqb negb].
    assert (P : p3len raw = 3).
    { unfold p3len. rewrite H4. replace (4 <? zlen raw) with true by lia. replace (7 <? zlen raw) with true by lia. reflexivity. }
    rewrite (receive_block_ok _ _ (Z.min 128 (zlen raw - 7))); [reflexivity|..]; cbn [M_apdu.raw offin lelength buf mk_apdu]; rewrite ?P; try lia.
    + unfold IN_BLOCKSIZE. lia.
    + unfold zlen at 2. rewrite initbuf_length by lia. lia.
Qed.

Lemma C31_short_partial_pf : forall raw, Forall anybyte raw -> (6 <= length raw)%nat -> nth 4 raw 0 <> 0 ->
  exists s, newAPDU raw = Ok s
    /\ (setIncomingAndReceive s = (Err (ISOExc SW_WRONG_LENGTH), s)
        <-> ~ (exists c, wf_command c /\ encodes raw c))
    /\ (fst (setIncomingAndReceive s) = Err (ISOExc SW_WRONG_LENGTH)
        <-> ~ (exists c, wf_command c /\ encodes raw c)).
Proof.
  intros raw HA HL H4. fold (b4 raw) in H4. assert (HZ : 6 <= zlen raw) by (unfold zlen; lia).
  assert (A4 : anybyte (b4 raw)) by (rewrite Forall_forall in HA; apply HA, nth_In; lia). unfold anybyte in A4.
  assert (WF : (exists c, wf_command c /\ encodes raw c) -> exists s, newAPDU raw = Ok s /\ broken s = false).
  { intros (c & Hw & He). assert (Es : is_short c = true).
    { pose proof (encodes_nth raw c 4 He ltac:(lia)) as [E4 _]. fold (b4 raw) in E4.
      destruct c; try reflexivity; cbn [body nth Nat.sub] in E4; lia. }
    destruct (short_exact raw c Hw Es He) as (ty & ll & HN & _). rewrite HN. eexists; split; reflexivity. }
  assert (HX : exists s, newAPDU raw = Ok s /\ st s = 0 /\ (broken s = false -> exists c, wf_command c /\ encodes raw c)).
  { rewrite newAPDU_eq by lia. replace (zlen raw =? 4) with false by lia. replace (zlen raw =? 5) with false by lia.
    replace (b4 raw =? 0) with false by lia. cbn [andb orb].
    assert (I : inl_ raw = (b4 raw mod 256, 1)) by (unfold inl_; now replace (b4 raw =? 0) with false by lia).
    assert (O : snd (outl raw) = 1).
    { unfold outl. replace (zlen raw =? 5) with false by lia. now replace (b4 raw =? 0) with false by lia. }
    rewrite I, O. cbn [fst snd].
    assert (SH : exists h1 h2 h3 h4 t, raw = h1 :: h2 :: h3 :: h4 :: b4 raw :: t).
    { unfold zlen in HZ. do 5 (destruct raw as [|? raw]; [cbn in HZ; lia|]). do 5 eexists. reflexivity. }
    destruct SH as (h1 & h2 & h3 & h4 & t & Er).  pose proof (zlen_nonneg t) as Ht0.
    set (x := b4 raw) in *. clearbody x.
    assert (UB : forall l, bytes (map (fun b => b mod 256) l)).
    { intros l. apply Forall_forall. intros y Hy. apply in_map_iff in Hy as (z & <- & _). unfold ubyte. lia. }
    destruct ((zlen raw =? x + 5) || (zlen raw =? x mod 256 + 5)) eqn:E3.
    - eexists. split; [reflexivity|]. split; [reflexivity|]. intros _.
      exists (Case3S (map (fun b => b mod 256) t)).
      assert (Lt : zlen t = x mod 256) by (rewrite Er in E3; rewrite !zlen_cons in E3; lia). unfold zlen in Lt.
      split; [split; [apply UB|cbn [command_data]; rewrite map_length; lia]|].
      split; [assumption|]. exists (h1 mod 256), (h2 mod 256), (h3 mod 256), (h4 mod 256).
      rewrite Er. cbn [map body app]. rewrite map_length, Lt. reflexivity.
    - eexists. split; [reflexivity|]. split; [reflexivity|]. cbn [broken mk_apdu]. intros Hb.
      apply negb_false_iff, Z.eqb_eq in Hb.
      assert (Lt : zlen t = x mod 256 + 1) by (rewrite Er in Hb; rewrite !zlen_cons in Hb; lia). unfold zlen in Lt.
      destruct (exists_last (l := t)) as (d & z & Et); [intros ->; cbn in Lt; lia|].
      rewrite Et, app_length in Lt. cbn [length] in Lt.
      exists (Case4S (map (fun b => b mod 256) d) (if z mod 256 =? 0 then 256 else z mod 256)).
      split; [split; [apply UB|]; rewrite map_length; destruct (Z.eqb_spec (z mod 256) 0); lia|].
      split; [assumption|]. exists (h1 mod 256), (h2 mod 256), (h3 mod 256), (h4 mod 256).
      rewrite Er, Et. cbn [map body app]. rewrite map_app, map_length. cbn [map]. unfold le1.
      replace (Z.of_nat (length d)) with (x mod 256) by lia.
      replace ((if z mod 256 =? 0 then 256 else z mod 256) mod 256) with (z mod 256); [reflexivity|].
      destruct (Z.eqb_spec (z mod 256) 0) as [E|E]; [rewrite E; reflexivity|]. now rewrite Z.mod_mod. }
  destruct HX as (s & HN & HS & HB). exists s. split; [assumption|].
  assert (SI : setIncomingAndReceive s = if broken s then (Err (ISOExc SW_WRONG_LENGTH), s) else receive_block (offin s) s).
  { unfold setIncomingAndReceive, bind, get, raise. rewrite HS. cbn. now destruct (broken s). }
  assert (KEY : broken s = true <-> ~ (exists c, wf_command c /\ encodes raw c)).
  { split.
    - intros Hb Hc. destruct (WF Hc) as (s' & HN' & Hb'). rewrite HN in HN'. apply Ok_inj in HN'. subst s'. congruence.
    - intros Hc. destruct (broken s) eqn:Eb; [reflexivity|]. exfalso. apply Hc, HB. reflexivity. }
  rewrite SI. split; rewrite <- KEY; destruct (broken s) eqn:Eb; split; intros X; try reflexivity; try discriminate.
  - exfalso. assert (Y : fst (receive_block (offin s) s) = Err (ISOExc SW_WRONG_LENGTH)) by now rewrite X.
    apply receive_err in Y. discriminate.
  - apply receive_err in X. discriminate.
Qed.

Lemma C31_extended_partial_pf : forall raw nc, 8 <= zlen raw -> nth 4 raw 0 = 0 ->
  nc = (nth 5 raw 0) mod 256 * 256 + (nth 6 raw 0) mod 256 ->
  exists s, newAPDU raw = Ok s
    /\ let l1 := nth (length raw - 1) raw 0 in
       let l2 := nth (length raw - 2) raw 0 in
       if (zlen raw =? nc + 5) || ((zlen raw =? nc + 9) && negb ((l1 =? 0) && negb (l2 =? 0)))
          || ((zlen raw =? nc + 8) && ((l1 =? 0) && negb (l2 =? 0)))
       then exists n s', setIncomingAndReceive s = (Ok n, s') /\ getIncomingLength s = nc
       else setIncomingAndReceive s = (Err (ISOExc SW_WRONG_LENGTH), s).
Proof.
  intros raw nc HL H4 Hn. fold (b4 raw) in H4.
  assert (I : inl_ raw = (nc, 3)) by (unfold inl_; rewrite H4; cbn [Z.eqb]; f_equal; lia).
  assert (P : p3len raw = 3).
  { unfold p3len. rewrite H4. replace (4 <? zlen raw) with true by lia. replace (7 <? zlen raw) with true by lia. reflexivity. }
  rewrite newAPDU_eq by lia.
  replace (zlen raw =? 4) with false by lia. replace (zlen raw =? 5) with false by lia.
  replace (zlen raw =? 7) with false by lia. replace (zlen raw =? 6) with false by lia. rewrite !andb_false_r.
  cbn [orb]. rewrite I, H4. cbn [fst snd]. replace (zlen raw =? 0 + 5) with false by lia. cbn [orb].
  fold (blast raw 1) (blast raw 2). cbv zeta.
  assert (RX : forall ll ty ne, 0 <= ll -> 7 + ll <= zlen raw ->
    exists n s', setIncomingAndReceive (mk_apdu raw false (4 + 3) ty nc ne ll) = (Ok n, s')
      /\ getIncomingLength (mk_apdu raw false (4 + 3) ty nc ne ll) = nc).
  { intros ll ty ne H0 H1. unfold setIncomingAndReceive, bind, get. cbn [st mk_apdu broken STATE_INITIAL Z.eqb negb].
    do 2 eexists. split; [|reflexivity].
    apply (receive_block_ok _ _ (Z.min 128 (zlen raw - 7 - ll))); cbn [M_apdu.raw offin lelength buf mk_apdu]; rewrite ?P; try lia.
    - unfold IN_BLOCKSIZE. lia.
    - unfold zlen at 2. rewrite initbuf_length by lia. lia. }
  destruct (Z.eqb_spec (zlen raw) (nc + 5)) as [E5|E5]; cbn [orb].
  - eexists; split; [reflexivity|]. apply RX; lia.
  - unfold outl. replace (zlen raw =? 5) with false by lia. rewrite H4. cbn [Z.eqb negb orb].
    destruct (Z.eqb_spec (blast raw 1) 0) as [B1|B1]; [destruct (Z.eqb_spec (blast raw 2) 0) as [B2|B2]|];
      cbn [fst snd andb negb]; rewrite ?andb_false_r, ?andb_true_r, ?orb_false_r, ?orb_false_l.
    + eexists; split; [reflexivity|]. destruct (Z.eqb_spec (zlen raw) (nc + 9)) as [E9|E9].
      * replace (4 + 3 + 2 + nc =? zlen raw) with true by lia. apply RX; lia.
      * replace (4 + 3 + 2 + nc =? zlen raw) with false by lia. reflexivity.
    + eexists; split; [reflexivity|]. destruct (Z.eqb_spec (zlen raw) (nc + 8)) as [E9|E9].
      * replace (4 + 3 + 1 + nc =? zlen raw) with true by lia. apply RX; lia.
      * replace (4 + 3 + 1 + nc =? zlen raw) with false by lia. reflexivity.
    + eexists; split; [reflexivity|]. destruct (Z.eqb_spec (zlen raw) (nc + 9)) as [E9|E9].
      * replace (4 + 3 + 2 + nc =? zlen raw) with true by lia. apply RX; lia.
      * replace (4 + 3 + 2 + nc =? zlen raw) with false by lia. reflexivity.
Qed.
