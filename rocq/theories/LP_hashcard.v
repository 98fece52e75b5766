(** * C145: a card that hashes files: proofs *)
From Verif Require Import Py S_Base S_APDU S_System S_Samples L_Py M_utils M_util L_utils L_util LP_util M_apdu S_ApduObs L_apdu LP_apdu M_world LP_world S_Cipher LP_des LP_cipher M_digest LP_system M_rsaapplet M_pincard LP_pincard S_DesCard LP_descard M_chalcard S_Chal M_hashcard S_HashCard.
From Coq Require Import ZifyBool ZifyNat.
Ltac Zify.zify_post_hook ::= Z.div_mod_to_equations.


(** ** receiving *)
Lemma update_in b off n d : 0 <= off -> 0 <= n -> off + n <= zlen b ->
  digest_update b off n d = (Ok tt, mkDigest (md_alg d) (md_fed d ++ map unsigned (sub b (Z.to_nat off) (Z.to_nat n)))).
Proof.
  intros H0 H1 H2. rewrite update_eq by exact H0. unfold readable. replace ((n <=? 0) || (off + n <=? Z.of_nat (length b))) with true by (unfold zlen in *; lia). reflexivity.
Qed.

Lemma hash_loop_ok fuel : forall d s,
  st s = 1 \/ st s = 2 -> 0 <= offin s -> 0 <= lelength s ->
  0 <= zlen (raw s) - offin s - lelength s < Z.of_nat fuel -> length (buf s) = 257%nat ->
  exists s', hash_loop fuel (d, s)
    = (Ok tt, (mkDigest (md_alg d) (md_fed d ++ map unsigned (sub (raw s) (Z.to_nat (offin s)) (Z.to_nat (zlen (raw s) - offin s - lelength s)))), s'))
  /\ st s' < 3 /\ length (buf s') = 257%nat /\ Ne s' = Ne s /\ outlen s' = outlen s.
Proof.
  induction fuel as [|fuel IH]; intros d s Hst H0 H1 H2 H4; [lia|].
  cbn [hash_loop]. set (rem := zlen (raw s) - offin s - lelength s) in *.
  assert (HB : receiveBytes OFFSET_CDATA s = (Ok (Z.min 128 rem), with_in
      (splice (buf s) 5 (sub (raw s) (Z.to_nat (offin s)) (Z.to_nat (Z.min 128 rem))))
      (offin s + Z.min 128 rem)
      (if offin s + Z.min 128 rem =? zlen (raw s) - lelength s then STATE_FULL_INCOMING else STATE_PARTIAL_INCOMING) s)).
  { rewrite receiveBytes_block by assumption. apply (receive_block_ok OFFSET_CDATA); unfold IN_BLOCKSIZE, OFFSET_CDATA; fold rem; unfold zlen in *; lia. }
  set (s1 := with_in _ _ _ s) in HB.
  rewrite (bind_ok _ _ _ (Z.min 128 rem) (d, s1)) by (unfold with_apdu; cbn [fst snd]; now rewrite HB).
  assert (LS : length (sub (raw s) (Z.to_nat (offin s)) (Z.to_nat (Z.min 128 rem))) = Z.to_nat (Z.min 128 rem)).
  { apply sub_length. unfold zlen in *; lia. }
  assert (L1 : length (buf s1) = 257%nat) by (unfold s1; cbn [buf with_in]; rewrite splice_length; lia).
  assert (ST : st s1 = 1 \/ st s1 = 2) by (unfold s1; cbn [st with_in]; destruct (_ =? _); unfold STATE_FULL_INCOMING, STATE_PARTIAL_INCOMING; auto).
  destruct (Z.eqb_spec (Z.min 128 rem) 0) as [E|E].
  - exists s1. replace rem with 0 by lia. change (Z.to_nat 0) with 0%nat. unfold sub at 1. cbn [firstn map]. rewrite app_nil_r.
    split; [destruct d; reflexivity|]. split; [lia|]. repeat split; auto.
  - rewrite bind_get. cbn [snd]. unfold OFFSET_CDATA. rewrite (bind_ok _ _ _ tt (mkDigest (md_alg d) (md_fed d ++ map unsigned (sub (raw s) (Z.to_nat (offin s)) (Z.to_nat (Z.min 128 rem)))), s1)).
    2:{ unfold on_digest. cbn [fst snd]. rewrite update_in by (unfold zlen; lia). do 5 f_equal. change (Z.to_nat 5) with 5%nat.
        unfold s1; cbn [buf with_in]. apply sub_splice; lia. }
    destruct (IH (mkDigest (md_alg d) (md_fed d ++ map unsigned (sub (raw s) (Z.to_nat (offin s)) (Z.to_nat (Z.min 128 rem))))) s1 ST) as (s' & E' & S' & B' & N' & O').
    + unfold s1; cbn [offin with_in]; lia.
    + exact H1.
    + unfold s1; cbn [raw offin lelength with_in]. lia.
    + exact L1.
    + exists s'. rewrite E'. split; [|repeat split; auto]. do 3 f_equal. cbn [md_fed md_alg]. rewrite <- app_assoc. f_equal. rewrite <- map_app. f_equal.
      unfold s1. cbn [raw offin lelength with_in].
      replace (Z.to_nat rem) with (Z.to_nat (Z.min 128 rem) + Z.to_nat (zlen (raw s) - (offin s + Z.min 128 rem) - lelength s))%nat by lia.
      rewrite sub_plus. f_equal. f_equal; lia.
Qed.

(** an APDU of [n] bytes of data *)
Lemma receive_mk rw cd ty nc ne ll n d : 4 <= zlen rw -> cd = 4 + p3len rw -> zlen rw = cd + n + ll -> 0 <= ll -> 0 <= n ->
  exists s', hash_receive (d, mk_apdu rw false cd ty nc ne ll) = (Ok tt, (mkDigest (md_alg d) (md_fed d ++ map unsigned (sub rw (Z.to_nat cd) (Z.to_nat n))), s'))
  /\ st s' < 3 /\ length (buf s') = 257%nat /\ Ne s' = ne /\ outlen s' = 0.
Proof.
  intros H4 Hcd HL Hll Hn. pose proof (p3len_bounds rw H4) as Hp. set (s := mk_apdu rw false cd ty nc ne ll). set (k := Z.min 128 n).
  pose proof (initbuf_length rw H4) as HI.
  assert (HB : setIncomingAndReceive s = (Ok k, with_in
      (splice (initbuf rw) (Z.to_nat cd) (sub rw (Z.to_nat cd) (Z.to_nat k)))
      (cd + k) (if cd + k =? zlen rw - ll then STATE_FULL_INCOMING else STATE_PARTIAL_INCOMING) s)).
  { unfold setIncomingAndReceive, bind, get. cbn [st s mk_apdu broken STATE_INITIAL Z.eqb negb].
    rewrite (receive_block_ok _ _ k); unfold s; cbn [M_apdu.raw offin lelength buf mk_apdu]; rewrite <- ?Hcd; try lia.
    - reflexivity.
    - unfold IN_BLOCKSIZE. lia.
    - unfold zlen at 1. rewrite initbuf_length by lia. lia. }
  set (s1 := with_in _ _ _ s) in HB. unfold hash_receive.
  rewrite (bind_ok _ _ _ k (d, s1)) by (unfold with_apdu; cbn [fst snd]; now rewrite HB). rewrite bind_get. cbn [snd].
  assert (LS : length (sub rw (Z.to_nat cd) (Z.to_nat k)) = Z.to_nat k) by (apply sub_length; unfold zlen in *; lia).
  assert (L1 : length (buf s1) = 257%nat) by (unfold s1; cbn [buf with_in]; rewrite splice_length; lia).
  assert (ST : st s1 = 1 \/ st s1 = 2) by (unfold s1; cbn [st with_in]; destruct (_ =? _); unfold STATE_FULL_INCOMING, STATE_PARTIAL_INCOMING; auto).
  destruct (Z.ltb_spec 0 k) as [E|E].
  - rewrite (bind_ok _ _ _ tt (mkDigest (md_alg d) (md_fed d ++ map unsigned (sub rw (Z.to_nat cd) (Z.to_nat k))), s1)).
    2:{ unfold on_digest. cbn [fst snd]. unfold getOffsetCdata. change (cdataoffs s1) with cd. rewrite update_in by (unfold zlen; lia). do 5 f_equal.
        unfold s1; cbn [buf with_in]. apply sub_splice; lia. }
    destruct (hash_loop_ok (Z.to_nat (zlen (raw s1) + 1)) (mkDigest (md_alg d) (md_fed d ++ map unsigned (sub rw (Z.to_nat cd) (Z.to_nat k)))) s1 ST) as (s' & E' & S' & B' & N' & O');
      [unfold s1; cbn [offin with_in]; lia|exact Hll|unfold s1, s; cbn [M_apdu.raw offin lelength with_in mk_apdu]; lia|exact L1|].
    exists s'. rewrite E'. split; [|split; [exact S'|]; split; [exact B'|]; split; [exact N'|exact O']].
    do 3 f_equal. cbn [md_fed md_alg]. rewrite <- app_assoc. f_equal. rewrite <- map_app. f_equal.
    unfold s1, s. cbn [M_apdu.raw offin lelength with_in mk_apdu].
    replace (Z.to_nat n) with (Z.to_nat k + Z.to_nat (zlen rw - (cd + k) - ll))%nat by lia.
    rewrite sub_plus. f_equal. f_equal; lia.
  - exists s1. replace n with 0 by lia. change (Z.to_nat 0) with 0%nat. unfold sub at 1. cbn [firstn map]. rewrite app_nil_r.
    split; [destruct d; reflexivity|]. split; [lia|]. repeat split; auto.
Qed.

(** a short command without data *)
Lemma receive_none rw cd ty nc ne ll d : 4 <= zlen rw -> zlen rw - (4 + p3len rw) - ll <= 0 ->
  exists s', hash_receive (d, mk_apdu rw false cd ty nc ne ll) = (Ok tt, (d, s'))
  /\ st s' < 3 /\ length (buf s') = 257%nat /\ Ne s' = ne /\ outlen s' = 0.
Proof.
  intros H4 N. pose proof (initbuf_length rw H4) as HI. set (s := mk_apdu rw false cd ty nc ne ll).
  assert (HB : exists o x, setIncomingAndReceive s = (Ok (Z.min 128 (zlen rw - (4 + p3len rw) - ll)), with_in (initbuf rw) o x s) /\ x < 3).
  { unfold setIncomingAndReceive, bind, get. cbn [st s mk_apdu broken STATE_INITIAL Z.eqb negb]. rewrite receive_block_unfold. unfold s. cbn [offin mk_apdu M_apdu.raw lelength buf].
    cbv zeta. replace (Z.to_nat (Z.min IN_BLOCKSIZE (zlen rw - (4 + p3len rw) - ll))) with 0%nat by lia. cbn [for_loop ret].
    do 2 eexists. split; [reflexivity|]. unfold STATE_FULL_INCOMING, STATE_PARTIAL_INCOMING; destruct (_ =? _); lia. }
  destruct HB as (o & x & HB & Hx). unfold hash_receive.
  rewrite (bind_ok _ _ _ (Z.min 128 (zlen rw - (4 + p3len rw) - ll)) (d, with_in (initbuf rw) o x s)) by (unfold with_apdu; cbn [fst snd]; now rewrite HB).
  rewrite bind_get. replace (0 <? Z.min 128 (zlen rw - (4 + p3len rw) - ll)) with false by lia.
  eexists. split; [reflexivity|]. split; [exact Hx|]. repeat split; auto.
Qed.

Lemma c2E_exact rw le : le = 65536 \/ le mod 256 <> 0 -> wf_command (Case2E le) -> encodes rw (Case2E le) ->
  zlen rw = 7 /\ exists ty, newAPDU rw = Ok (mk_apdu rw false 5 ty 0 (Some le) 2).
Proof.
  intros Hm [Hd Hw] He; pose proof (encodes_len rw _ He) as HL;
  pose proof (encodes_nth rw _ 4 He ltac:(lia)) as [H4 A4]; change (4 - 4)%nat with 0%nat in H4.
  pose proof (encodes_nth rw _ 5 He ltac:(lia)) as [H5 A5].
  pose proof (encodes_nth rw _ 6 He ltac:(lia)) as [H6 A6].
  change (5 - 4)%nat with 1%nat in H5. change (6 - 4)%nat with 2%nat in H6.
  cbn [body] in *; unfold le2 in *; cbn [nth app] in *. fold (b4 rw) in *. apply any_zero in H4; [|assumption].
  change (zlen [0; le / 256 mod 256; le mod 256]) with 3 in HL. split; [lia|].
  rewrite newAPDU_eq by lia. replace (zlen rw =? 4) with false by lia.
  replace (zlen rw =? 7) with true by lia. replace (b4 rw =? 0) with true by lia.
  cbn [andb]. rewrite orb_true_r.
  assert (O : outl rw = (le, 2)).
  { unfold outl, blast. replace (length rw - 1)%nat with 6%nat by (unfold zlen in HL; lia).
    replace (length rw - 2)%nat with 5%nat by (unfold zlen in HL; lia).
    replace (zlen rw =? 5) with false by lia. replace (b4 rw =? 0) with true by lia. cbn [orb negb].
    unfold anybyte in *. destruct Hm as [->|Hm].
    - replace (nth 6 rw 0 =? 0) with true by lia. replace (nth 5 rw 0 =? 0) with true by lia. reflexivity.
    - replace (nth 6 rw 0 =? 0) with false by lia. f_equal. lia. }
  rewrite O. cbn [fst snd]. eexists; reflexivity.
Qed.

Lemma wire_any cla ins p1 p2 c : ubyte cla -> ubyte ins -> ubyte p1 -> ubyte p2 -> wf_command c -> encodes ([cla; ins; p1; p2] ++ body c) c.
Proof.
  intros H1 H2 H3 H4 [Hd Hw]. unfold ubyte, bytes in *.
  assert (B : Forall ubyte (body c)).
  { destruct c; cbn [body command_data] in *; unfold le1, le2; cbn [app]; repeat apply Forall_cons; repeat (apply Forall_app; split); repeat apply Forall_cons; try apply Forall_nil; try exact Hd; unfold ubyte; lia. }
  assert (U : Forall ubyte ([cla; ins; p1; p2] ++ body c)) by (apply Forall_app; split; [repeat constructor; unfold ubyte; lia|exact B]).
  split.
  - revert U. apply Forall_impl. unfold ubyte, anybyte. lia.
  - exists cla, ins, p1, p2. rewrite <- (map_id ([cla; ins; p1; p2] ++ body c)) at 2. apply map_ext_in.
    intros x Hx. rewrite Forall_forall in U. specialize (U x Hx). unfold ubyte in U. now rewrite Z.mod_small by lia.
Qed.

Lemma hash_taken q d : request_wf q -> taken q ->
  exists s s', newAPDU (bytes_of q) = Ok s /\ py_get (buf s) OFFSET_INS = Ok (q_ins q) /\ py_get (buf s) OFFSET_P1 = Ok (q_p1 q)
  /\ hash_receive (d, s) = (Ok tt, (mkDigest (md_alg d) (md_fed d ++ command_data (q_body q)), s'))
  /\ st s' < 3 /\ length (buf s') = 257%nat /\ Ne s' = command_le (q_body q) /\ outlen s' = 0.
Proof.
  intros (U1 & U2 & U3 & U4 & Hw) Ht. unfold taken in Ht. set (c := q_body q) in *. set (rw := bytes_of q).
  assert (He : encodes rw c) by now apply wire_any.
  pose proof (encodes_len rw c He) as HL. pose proof (zlen_nonneg (body c)) as HB. assert (H4 : 4 <= zlen rw) by lia.
  pose proof (p3len_bounds rw H4) as Hp.
  assert (HD : forall br cd ty nc ne ll, py_get (buf (mk_apdu rw br cd ty nc ne ll)) OFFSET_INS = Ok (q_ins q) /\ py_get (buf (mk_apdu rw br cd ty nc ne ll)) OFFSET_P1 = Ok (q_p1 q)).
  { intros. cbn [buf mk_apdu]. pose proof (initbuf_length rw H4) as HI. unfold OFFSET_INS, OFFSET_P1. rewrite !(py_get_in _ _ 0) by (unfold zlen; lia). unfold initbuf.
    replace (Z.to_nat (4 + p3len rw)) with (S (S (S (S (Z.to_nat (p3len rw)))))) by lia. split; reflexivity. }
  assert (SUB : forall cd, 4 <= cd -> firstn (length (command_data c)) (skipn (Z.to_nat cd - 4) (body c)) = command_data c ->
    map unsigned (sub rw (Z.to_nat cd) (Z.to_nat (zlen (command_data c)))) = command_data c).
  { intros cd Hcd E. destruct Hw as [Hu _]. rewrite to_nat_zlen. unfold sub, rw, bytes_of. rewrite skipn_app, (skipn_all2 [_; _; _; _]) by (cbn [length]; lia). cbn [app length]. fold c. rewrite E.
    now apply unsigned_id. }
  assert (FIN : forall cd ty nc ll, newAPDU rw = Ok (mk_apdu rw false cd ty nc (command_le c) ll) -> cd = 4 + p3len rw ->
     zlen rw = cd + zlen (command_data c) + ll -> 0 <= ll -> firstn (length (command_data c)) (skipn (Z.to_nat cd - 4) (body c)) = command_data c ->
     exists s s', newAPDU rw = Ok s /\ py_get (buf s) OFFSET_INS = Ok (q_ins q) /\ py_get (buf s) OFFSET_P1 = Ok (q_p1 q)
     /\ hash_receive (d, s) = (Ok tt, (mkDigest (md_alg d) (md_fed d ++ command_data c), s'))
     /\ st s' < 3 /\ length (buf s') = 257%nat /\ Ne s' = command_le c /\ outlen s' = 0).
  { intros cd ty nc ll HN Hcd HZ Hll E. destruct (receive_mk rw cd ty nc (command_le c) ll (zlen (command_data c)) d H4 Hcd HZ Hll (zlen_nonneg _)) as (s' & E' & R).
    exists (mk_apdu rw false cd ty nc (command_le c) ll), s'. split; [exact HN|]. split; [apply HD|]. split; [apply HD|]. split; [|exact R]. rewrite E', SUB by (auto; lia). reflexivity. }
  destruct (is_short c) eqn:Es.
  - destruct (short_exact rw c Hw Es He) as (ty & ll & HN & HC & Hll).
    destruct (command_data c) as [|x0 data] eqn:Ec.
    + assert (N : zlen rw - (4 + p3len rw) - ll <= 0).
      { clearbody c rw. destruct c; try discriminate; cbn [command_data body] in *; subst; unfold le1 in *; rewrite ?zlen_cons, ?zlen_nil in HL; try (destruct Hw as [_ Hw]; cbn in Hw; lia).
        unfold p3len. replace (4 <? zlen rw) with true by lia. replace (7 <? zlen rw) with false by lia. rewrite andb_false_r. lia. }
      destruct (receive_none rw 5 ty (zlen (@nil Z)) (command_le c) ll d H4 N) as (s' & E' & R).
      eexists; exists s'. split; [exact HN|]. split; [apply HD|]. split; [apply HD|]. split; [|exact R]. rewrite E', app_nil_r. destruct d; reflexivity.
    + rewrite <- Ec in *. destruct (HC ltac:(congruence)) as [P1 P2]. apply (FIN 5 ty (zlen (command_data c)) ll); auto.
      clearbody c. destruct c; try discriminate; cbn [command_data body].
      * change (Z.to_nat 5 - 4)%nat with 1%nat. cbn [skipn]. now rewrite firstn_all.
      * change (Z.to_nat 5 - 4)%nat with 1%nat. cbn [skipn]. rewrite firstn_app, Nat.sub_diag, firstn_all. apply app_nil_r.
  - clearbody c. destruct c as [| | | |le|dd|dd le]; try discriminate; try contradiction.
    + destruct (c2E_exact rw le Ht Hw He) as (HZ & ty & HN).
      apply (FIN 5 ty 0 2); cbn [command_data command_le]; [exact HN| |change (zlen (@nil Z)) with 0; lia|lia|reflexivity].
      unfold p3len. replace (4 <? zlen rw) with true by lia. replace (7 <? zlen rw) with false by lia. now rewrite andb_false_r.
    + destruct (c4E_exact rw dd le Ht Hw He) as (HN & P1 & HZ). apply (FIN 7 4 (zlen dd) 2); cbn [command_data command_le]; [exact HN|lia|lia|lia|].
      cbn [body]. change (Z.to_nat 7 - 4)%nat with 3%nat. unfold le2. cbn [app skipn]. rewrite firstn_app, Nat.sub_diag, firstn_all. apply app_nil_r.
Qed.

(** ** the digest as the answer *)
Lemma fed_one acc : Forall ubyte acc -> fed [DUpdate acc 0 (zlen acc)] = acc.
Proof.
  intros U. unfold fed. cbn [fold_left]. unfold readable. replace ((zlen acc <=? 0) || (0 + zlen acc <=? Z.of_nat (length acc))) with true by (unfold zlen; lia).
  cbn [app]. unfold S_System.bytes_of, sub. change (Z.to_nat 0) with 0%nat. cbn [skipn]. rewrite to_nat_zlen, firstn_all. now apply unsigned_id.
Qed.

Lemma finish_exact H alg s0 acc s : sane_hash H alg -> digest_getInstance H alg = Ok s0 -> Forall ubyte acc -> length (buf s) = 257%nat -> st s < 3 ->
  exists s', hash_finish H (mkDigest alg acc, s)
    = (if match Ne s with Some n => n <? zlen (hl_digest H alg acc) | None => false end then Err (APDUExc BAD_LENGTH) else Ok tt, (s0, s'))
  /\ (match Ne s with Some n => n <? zlen (hl_digest H alg acc) | None => false end = false -> py_slice (raw s') 0 (outlen s') = map (twos 1) (hl_digest H alg acc)).
Proof.
  intros [HZ HH] Hs U Lb Hst. destruct (HH acc) as [HL HU].
  assert (Zb : zlen (buf s) = 257) by (unfold zlen; lia).
  assert (OK : Forall offset_ok [DUpdate acc 0 (zlen acc)]) by (repeat constructor; cbn; lia).
  destruct (C73_pf H alg s0 [DUpdate acc 0 (zlen acc)] (buf s) 0 0 (buf s) OFFSET_CDATA HH Hs OK) as (_ & D & _); try (unfold OFFSET_CDATA; lia).
  rewrite (run_fed H alg s0 _ Hs OK), (fed_one acc U) in D. change (S_System.bytes_of (buf s) 0 0) with (@nil Z) in D. rewrite app_nil_r in D.
  specialize (D ltac:(unfold OFFSET_CDATA; lia)). set (dg := hl_digest H alg acc) in *. change (Z.to_nat OFFSET_CDATA) with 5%nat in D.
  set (b := splice (buf s) 5 (map (twos 1) dg)) in *.
  assert (Zm : zlen (map (twos 1) dg) = zlen dg) by (unfold zlen; now rewrite map_length).
  assert (Lbb : length b = 257%nat) by (unfold b; rewrite splice_length; [exact Lb|rewrite map_length, Lb; unfold zlen in *; lia]).
  unfold hash_finish. rewrite bind_get. cbn [fst snd]. rewrite D.
  rewrite (bind_ok _ _ _ tt (s0, with_buf b s)) by reflexivity.
  rewrite (bind_ok _ _ _ (hl_size H alg) (s0, with_buf b s)) by reflexivity.
  destruct (send_crypted (with_buf b s) (map (twos 1) dg)) as (s' & E & F); cbn [buf with_buf st];
    [unfold zlen; lia|exact Hst|rewrite Zm; lia|unfold b; apply sub_splice; [reflexivity|rewrite map_length, Lb; unfold zlen in *; lia]|].
  rewrite Zm in E, F. cbn [buf with_buf Ne] in E, F. exists s'. split; [|exact F].
  unfold with_apdu. cbn [snd fst]. change OFFSET_CDATA with 5. rewrite <- HL, E. reflexivity.
Qed.

Definition hinv (alg : Z) (acc : list Z) (d : digest) : Prop := d = mkDigest alg acc /\ Forall ubyte acc.

Lemma hash_step_exact H alg s0 acc d q : sane_hash H alg -> digest_getInstance H alg = Ok s0 -> hinv alg acc d -> request_wf q -> taken q ->
  exists r d' acc', hash_answer H (bytes_of q) d = (r, d') /\ hash_step (hl_digest H alg) q acc = (reply r, acc') /\ hinv alg acc' d'.
Proof.
  intros HH Hs [-> U] Hq Ht. pose proof (getInstance_eq _ _ _ Hs) as ->.
  destruct (hash_taken q (mkDigest alg acc) Hq Ht) as (s & s' & HN & G1 & G2 & R & Hst & Lb & Hne & Ho).
  unfold hash_answer, hash_step. rewrite HN. unfold hash_process. rewrite bind_get. cbn [snd].
  rewrite (bind_ok _ _ _ (q_ins q) (mkDigest alg acc, s)) by (unfold lift; now rewrite G1).
  rewrite (bind_ok _ _ _ (q_p1 q) (mkDigest alg acc, s)) by (unfold lift; now rewrite G2).
  destruct (Z.eqb_spec (q_ins q) 42) as [E|E]; cbn [negb].
  2:{ unfold raise. do 3 eexists. split; [reflexivity|]. split; [reflexivity|]. split; auto. }
  rewrite (bind_ok _ _ _ _ _ R). cbn [md_alg md_fed].
  assert (U' : Forall ubyte (acc ++ command_data (q_body q))) by (apply Forall_app; split; [exact U|apply Hq]).
  set (acc' := acc ++ command_data (q_body q)) in *. destruct (q_p1 q =? 0).
  { unfold ret. do 3 eexists. split; [reflexivity|]. split; [|split; [reflexivity|exact U']].
    rewrite Ho. unfold reply, py_slice. rewrite Z.sub_diag. reflexivity. }
  destruct (finish_exact H alg (mkDigest alg []) acc' s' HH Hs U' Lb Hst) as (s2 & E2 & F2). rewrite E2. rewrite Hne in *. unfold with_data.
  destruct (match command_le (q_body q) with Some n => n <? zlen (hl_digest H alg acc') | None => false end) eqn:B.
  - do 3 eexists. split; [reflexivity|]. split; [reflexivity|]. split; [reflexivity|constructor].
  - do 3 eexists. split; [reflexivity|]. rewrite (F2 eq_refl). cbn [reply]. rewrite reply_twos by apply HH. split; [reflexivity|]. split; [reflexivity|constructor].
Qed.

Lemma hash_run_exact H alg s0 qs : sane_hash H alg -> digest_getInstance H alg = Ok s0 -> Forall (fun q => request_wf q /\ taken q) qs ->
  forall acc d, hinv alg acc d -> hcard_replies H qs d = hash_run (hl_digest H alg) qs acc.
Proof.
  intros HH Hs Hq. induction Hq as [|q qs [W T] Hq IH]; intros acc d Hi; [reflexivity|].
  destruct (hash_step_exact H alg s0 acc d q HH Hs Hi W T) as (r & d' & acc' & E1 & E2 & Hi').
  specialize (IH acc' d' Hi'). unfold hcard_replies in *. cbn [map hcard_run hash_run]. rewrite E1, E2.
  destruct (hcard_run H (map bytes_of qs) d') as [rs d2]. cbn [fst map] in *. now rewrite IH.
Qed.

Lemma C145_exact_partial_pf : forall H alg d qs,
  sane_hash H alg -> digest_getInstance H alg = Ok d -> Forall request_wf qs -> Forall taken qs ->
  hcard_replies H qs d = hash_run (hl_digest H alg) qs [].
Proof.
  intros H alg d qs HH Hs W T. apply (hash_run_exact H alg d qs HH Hs).
  - apply Forall_forall. intros q Hq. rewrite Forall_forall in W, T. auto.
  - split; [apply (getInstance_eq _ _ _ Hs)|constructor].
Qed.

Lemma hash_parts f ps q : Forall part ps -> final q -> forall acc,
  hash_run f (ps ++ [q]) acc = repeat (Some [0x90; 0]) (length ps) ++ [with_data q (f (acc ++ concat (map (fun p => command_data (q_body p)) (ps ++ [q]))))].
Proof.
  intros Hp [F1 F2]. induction Hp as [|p ps [P1 P2] Hp IH]; intros acc; cbn [app hash_run length repeat map concat].
  - unfold hash_step. rewrite F1. replace (q_p1 q =? 0) with false by lia. cbn [Z.eqb negb Pos.eqb]. now rewrite app_nil_r.
  - unfold hash_step. rewrite P1, P2. cbn [Z.eqb negb Pos.eqb]. now rewrite IH, app_assoc.
Qed.
Lemma hash_run_final f h q rest : final q -> forall acc, exists rs, length rs = S (length h) /\ hash_run f (h ++ q :: rest) acc = rs ++ hash_run f rest [].
Proof.
  intros [F1 F2]. induction h as [|x h IH]; intros acc; cbn [app hash_run].
  - unfold hash_step. rewrite F1. replace (q_p1 q =? 0) with false by lia. cbn [Z.eqb negb Pos.eqb]. exists [with_data q (f (acc ++ command_data (q_body q)))]. split; reflexivity.
  - destruct (hash_step f x acc) as [r a]. destruct (IH a) as (rs & L & E). exists (r :: rs). rewrite E. split; [cbn [length]; lia|reflexivity].
Qed.

Lemma C145_message_partial_pf : forall H alg d h last ps q,
  sane_hash H alg -> digest_getInstance H alg = Ok d -> final last -> Forall part ps -> final q ->
  Forall request_wf (h ++ last :: ps ++ [q]) -> Forall taken (h ++ last :: ps ++ [q]) ->
  skipn (S (length h)) (hcard_replies H (h ++ last :: ps ++ [q]) d)
  = repeat (Some [0x90; 0]) (length ps) ++ [with_data q (hl_digest H alg (concat (map (fun p => command_data (q_body p)) (ps ++ [q]))))].
Proof.
  intros H alg d h last ps q HH Hs Fl Hp Fq W T. rewrite (C145_exact_partial_pf H alg d _ HH Hs W T).
  destruct (hash_run_final (hl_digest H alg) h last (ps ++ [q]) Fl []) as (rs & L & E). rewrite E, skipn_app, skipn_all2, L, Nat.sub_diag by lia.
  cbn [app skipn]. now rewrite (hash_parts _ ps q Hp Fq []).
Qed.

(** ** the other commands *)
Lemma header rw s : 4 <= zlen rw -> newAPDU rw = Ok s -> py_get (buf s) OFFSET_INS = Ok (nth 1 rw 0) /\ py_get (buf s) OFFSET_P1 = Ok (nth 2 rw 0).
Proof.
  intros H4 HN. assert (HB : buf s = initbuf rw).
  { rewrite newAPDU_eq in HN by exact H4. repeat match type of HN with context [if ?b then _ else _] => destruct b end; try discriminate; apply Ok_inj in HN; now subst s. }
  rewrite HB. pose proof (initbuf_length rw H4) as HI. pose proof (p3len_bounds rw H4) as Hp. unfold OFFSET_INS, OFFSET_P1.
  rewrite !(py_get_in _ _ 0) by (unfold zlen; lia). unfold initbuf.
  replace (Z.to_nat (4 + p3len rw)) with (S (S (S (S (Z.to_nat (p3len rw)))))) by lia.
  destruct rw as [|x0 [|x1 [|x2 rw]]]; cbn [zlen length] in H4; try (unfold zlen in H4; cbn [length] in H4; lia). split; reflexivity.
Qed.
Lemma hash_67 H q d s : request_wf q -> q_ins q = 0x2A -> newAPDU (bytes_of q) = Ok s -> setIncomingAndReceive s = (Err (ISOExc SW_WRONG_LENGTH), s) ->
  hash_answer H (bytes_of q) d = (Ok [0x67; 0], d).
Proof.
  intros Hq Hi HN HR. assert (H4 : 4 <= zlen (bytes_of q)) by (unfold bytes_of; rewrite zlen_app; pose proof (zlen_nonneg (body (q_body q))); change (zlen [q_cla q; q_ins q; q_p1 q; q_p2 q]) with 4; lia).
  destruct (header _ _ H4 HN) as [G1 G2]. unfold bytes_of in G1, G2. cbn [app nth] in G1, G2.
  unfold hash_answer. rewrite HN. unfold hash_process. rewrite bind_get. cbn [snd].
  rewrite (bind_ok _ _ _ (q_ins q) (d, s)) by (unfold lift; now rewrite G1).
  rewrite (bind_ok _ _ _ (q_p1 q) (d, s)) by (unfold lift; now rewrite G2). rewrite Hi. cbn [Z.eqb negb Pos.eqb].
  rewrite (bind_err _ _ _ (ISOExc SW_WRONG_LENGTH) (d, s)); [reflexivity|]. unfold hash_receive.
  apply bind_err. unfold with_apdu. cbn [snd fst]. now rewrite HR.
Qed.

Lemma C145_extended_refuted_pf : forall H q d data le,
  request_wf q -> q_ins q = 0x2A -> q_body q = Case3E data \/ (q_body q = Case4E data le /\ le mod 256 = 0 /\ le <> 65536) ->
  hash_answer H (bytes_of q) d = (Ok [0x67; 0], d).
Proof.
  intros H q d data le Hq Hi Hc. destruct Hq as (U1 & U2 & U3 & U4 & Hw).
  assert (He : encodes (bytes_of q) (q_body q)) by now apply wire_any.
  destruct Hc as [Hc|(Hc & Hm & Hn)]; rewrite Hc in Hw, He.
  - destruct (C24_case3E_refuted_pf _ _ Hw He) as (s & HN & HR). apply (hash_67 H q d s); auto. rewrite <- Hc in Hw. repeat split; auto; apply U1 || apply U2 || apply U3 || apply U4 || apply Hw.
  - destruct (C24_le_refuted_pf (bytes_of q) data le Hm Hn) as [_ HR]. destruct (HR Hw He) as (s & HN & HR'). apply (hash_67 H q d s); auto. rewrite <- Hc in Hw. repeat split; auto; apply U1 || apply U2 || apply U3 || apply U4 || apply Hw.
Qed.

Lemma C145_phantom_refuted_pf : forall H q alg acc le,
  request_wf q -> part q -> q_body q = Case2E le -> le mod 256 = 0 -> le <> 65536 ->
  hash_answer H (bytes_of q) (mkDigest alg acc) = (Ok [0x90; 0], mkDigest alg (acc ++ [le / 256])).
Proof.
  intros H q alg acc le (U1 & U2 & U3 & U4 & Hw) [Hi Hp1] Hc Hm Hn.
  assert (He : encodes (bytes_of q) (q_body q)) by now apply wire_any. rewrite Hc in Hw, He.
  assert (EQ : bytes_of q = [q_cla q; q_ins q; q_p1 q; q_p2 q; 0; le / 256; 0]).
  { unfold bytes_of. rewrite Hc. cbn [body app]. unfold le2. destruct Hw as [_ Hw]. cbn in Hw. rewrite Hm, (Z.mod_small (le / 256)) by lia. reflexivity. }
  destruct Hw as [_ Hw]. cbn in Hw.
  assert (HN : newAPDU (bytes_of q) = Ok (mk_apdu (bytes_of q) false 5 2 0 (Some 256) 1)).
  { rewrite EQ. rewrite newAPDU_eq by (cbn; lia). unfold outl, blast, b4. cbn [length Nat.sub nth].
    change (zlen [q_cla q; q_ins q; q_p1 q; q_p2 q; 0; le / 256; 0]) with 7. cbn [Z.eqb Pos.eqb orb andb negb].
    replace (le / 256 =? 0) with false by lia. reflexivity. }
  assert (H4 : 4 <= zlen (bytes_of q)) by (rewrite EQ; cbn; lia).
  destruct (header _ _ H4 HN) as [G1 G2]. rewrite EQ in G1 at 2. rewrite EQ in G2 at 2. cbn [nth] in G1, G2.
  destruct (receive_mk (bytes_of q) 5 2 0 (Some 256) 1 1 (mkDigest alg acc) H4) as (s' & R & _ & _ & _ & Ho);
    [rewrite EQ; reflexivity|rewrite EQ; reflexivity|lia|lia|].
  unfold hash_answer. rewrite HN. set (s := mk_apdu (bytes_of q) false 5 2 0 (Some 256) 1) in *. unfold hash_process. rewrite bind_get. cbn [snd].
  rewrite (bind_ok _ _ _ (q_ins q) (mkDigest alg acc, s)) by (unfold lift; now rewrite G1).
  rewrite (bind_ok _ _ _ (q_p1 q) (mkDigest alg acc, s)) by (unfold lift; now rewrite G2). rewrite Hi, Hp1. cbn [Z.eqb negb Pos.eqb].
  assert (SB : map unsigned (sub (bytes_of q) (Z.to_nat 5) (Z.to_nat 1)) = [le / 256]).
  { rewrite EQ. change (map unsigned (sub [q_cla q; q_ins q; q_p1 q; q_p2 q; 0; le / 256; 0] (Z.to_nat 5) (Z.to_nat 1))) with [(le / 256) mod 256].
    rewrite (Z.mod_small (le / 256)) by lia. reflexivity. }
  rewrite SB in R. rewrite (bind_ok _ _ _ _ _ R). unfold ret. rewrite Ho. unfold py_slice. rewrite Z.sub_diag. reflexivity.
Qed.

Lemma C145_full_refuted_pf : ~ C145_full.
Proof.
  intro F. set (q := mkReq 0 42 0 0 (Case3E [1])).
  assert (W : request_wf q) by (repeat constructor; cbn; unfold ubyte; lia).
  assert (S : sane_hash H0 1) by (split; [cbn; lia|]; intro m; split; [reflexivity|]; unfold H0; cbn [hl_digest]; repeat constructor; unfold ubyte; lia).
  specialize (F H0 1 (mkDigest 1 []) [q] S eq_refl ltac:(constructor; [exact W|constructor])).
  vm_compute in F. discriminate F.
Qed.
