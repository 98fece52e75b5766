(** * C141: a card that guards a secret with a PIN: proofs *)
From Verif Require Import Py S_Base S_APDU L_Py M_utils M_util L_utils L_util M_ownerpin S_OwnerPIN LP_ownerpin M_apdu S_ApduObs L_apdu LP_apdu M_world LP_world M_pincard S_PinCard.
From Coq Require Import ZifyBool ZifyNat.
Ltac Zify.zify_post_hook ::= Z.div_mod_to_equations.


(** ** the APDU side *)
Lemma wire_encodes cla ins p1 p2 c : ubyte cla -> ubyte ins -> ubyte p1 -> ubyte p2 -> wf_command c -> is_short c = true ->
  encodes ([cla; ins; p1; p2] ++ body c) c.
Proof.
  intros H1 H2 H3 H4 [Hd Hw] Hs. unfold ubyte, bytes in *.
  assert (B : Forall ubyte (body c)).
  { destruct c; try discriminate; cbn [body command_data] in *; unfold le1; repeat constructor; unfold ubyte in *; try lia.
    - exact Hd.
    - apply Forall_app. split; [exact Hd|]. repeat constructor; lia. }
  assert (U : Forall ubyte ([cla; ins; p1; p2] ++ body c)) by (apply Forall_app; split; [repeat constructor; unfold ubyte; lia|exact B]).
  split.
  - revert U. apply Forall_impl. unfold ubyte, anybyte. lia.
  - exists cla, ins, p1, p2. rewrite <- (map_id ([cla; ins; p1; p2] ++ body c)) at 2. apply map_ext_in.
    intros x Hx. rewrite Forall_forall in U. specialize (U x Hx). unfold ubyte in U. now rewrite Z.mod_small by lia.
Qed.

(** receiving at most 128 bytes of data: the number and the bytes *)
Lemma receive_short cla ins p1 p2 c : ubyte cla -> ubyte ins -> ubyte p1 -> ubyte p2 -> wf_command c -> is_short c = true ->
  exists s, newAPDU ([cla; ins; p1; p2] ++ body c) = Ok s
  /\ py_get (buf s) OFFSET_INS = Ok ins /\ st s = 0 /\ Ne s = command_le c /\ outlen s = 0 /\ 4 <= zlen (raw s)
  /\ (zlen (command_data c) <= 128 -> exists n s', setIncomingAndReceive s = (Ok n, s')
        /\ outlen s' = 0 /\ length (buf s') = 257%nat
        /\ (command_data c = [] -> -1 <= n <= 0)
        /\ (command_data c <> [] -> n = zlen (command_data c) /\ sub (buf s') 5 (length (command_data c)) = command_data c)).
Proof.
  intros U1 U2 U3 U4 Hw Hs. set (rw := [cla; ins; p1; p2] ++ body c).
  assert (He : encodes rw c) by now apply wire_encodes.
  destruct (short_exact rw c Hw Hs He) as (ty & ll & Q & Hcd & Hll).
  pose proof (encodes_len rw c He) as HL. pose proof (zlen_nonneg (body c)) as HB. assert (H4 : 4 <= zlen rw) by lia.
  pose proof (p3len_bounds rw H4) as Hp. pose proof (initbuf_length rw H4) as HI.
  eexists. split; [exact Q|]. cbn [buf mk_apdu st Ne outlen raw].
  split.
  { unfold OFFSET_INS. rewrite (py_get_in _ _ 0) by (unfold zlen; lia). unfold initbuf.
    replace (Z.to_nat (4 + p3len rw)) with (S (S (Z.to_nat (2 + p3len rw)))) by lia. reflexivity. }
  split; [reflexivity|]. split; [reflexivity|]. split; [reflexivity|]. split; [exact H4|].
  intros H128. unfold setIncomingAndReceive, bind, get. cbn [st mk_apdu broken STATE_INITIAL Z.eqb negb].
  destruct (command_data c) as [|x0 d] eqn:Ec.
  - rewrite receive_block_unfold. cbn [offin mk_apdu M_apdu.raw lelength buf].
    assert (N : -1 <= zlen rw - (4 + p3len rw) - ll <= 0).
    { unfold rw in *. destruct c; try discriminate; cbn [command_data body] in *; subst; unfold le1 in *;
        rewrite ?zlen_cons, ?zlen_nil in HL; try (destruct Hw as [_ Hw]; cbn in Hw; lia).
      - apply Ok_inj in Q. apply (f_equal lelength) in Q. cbn in Q. subst ll. vm_compute. split; discriminate.
      - unfold p3len. replace (4 <? zlen ([cla; ins; p1; p2] ++ [le mod 256])) with true by lia.
        replace (7 <? zlen ([cla; ins; p1; p2] ++ [le mod 256])) with false by lia. rewrite andb_false_r.
        assert (ll = 1); [|lia].
        rewrite newAPDU_eq in Q by lia. replace (zlen _ =? 4) with false in Q by lia. replace (zlen _ =? 5) with true in Q by lia. cbn [orb] in Q.
        apply Ok_inj in Q. apply (f_equal lelength) in Q. cbn [lelength mk_apdu] in Q. rewrite <- Q. unfold outl.
        replace (zlen _ =? 5) with true by lia. reflexivity. }
    cbv zeta. replace (Z.to_nat (Z.min IN_BLOCKSIZE (zlen rw - (4 + p3len rw) - ll))) with 0%nat by lia. cbn [for_loop ret].
    do 2 eexists. split; [reflexivity|]. cbn [outlen with_in mk_apdu buf]. split; [reflexivity|]. split; [exact HI|].
    split; [unfold IN_BLOCKSIZE; lia|congruence].
  - rewrite <- Ec in *. destruct (Hcd ltac:(congruence)) as [P1 P2]. pose proof (zlen_nonneg (command_data c)).
    rewrite (receive_block_ok _ _ (zlen (command_data c))); cbn [M_apdu.raw offin lelength buf mk_apdu]; try lia; try (unfold IN_BLOCKSIZE; lia).
    2:{ unfold zlen at 2. rewrite HI. lia. }
    assert (D : sub rw 5 (length (command_data c)) = command_data c).
    { unfold rw. destruct c; try discriminate; cbn [command_data] in *; try congruence; cbn [app body sub skipn]; unfold sub; cbn [skipn].
      - apply firstn_all.
      - rewrite firstn_app, firstn_all, Nat.sub_diag, app_nil_r. reflexivity. }
    rewrite P1. do 2 eexists. split; [reflexivity|]. cbn [outlen with_in mk_apdu buf]. split; [reflexivity|].
    replace (Z.to_nat (zlen (command_data c))) with (length (command_data c)) by (unfold zlen; lia).
    change (Z.to_nat 5) with 5%nat. rewrite D. split; [rewrite splice_length; [exact HI|rewrite HI; unfold zlen in *; lia]|].
    split; [congruence|]. intros _. split; [reflexivity|]. apply sub_splice; [reflexivity|rewrite HI; unfold zlen in *; lia].
Qed.

(** ** the PIN side: a code of full length without zeros *)
Definition layout (code l : list Z) : Prop :=
  length l = length code /\ forall j, (j < length l)%nat -> nth j l 0 = nth (if (j =? 0)%nat then 0 else length code - j) code 0.

Lemma zeros_stay m : forall n i, - Z.of_nat m <= i -> i + Z.of_nat n <= Z.of_nat m -> (0 < m)%nat ->
  for_loop n i (fun i => aset i 0) (repeat 0 m) = (Ok tt, repeat 0 m).
Proof.
  assert (U : forall k, list_upd (repeat 0 m) k 0 = repeat 0 m).
  { intros k. apply (nth_ext_all _ _ 0); [apply list_upd_length|]. intros j _. rewrite nth_list_upd, nth_repeat0. now destruct (_ && _). }
  induction n as [|n IH]; intros i H1 H2 Hm; [reflexivity|]. cbn [for_loop]. unfold bind.
  assert (A : aset i 0 (repeat 0 m) = (Ok tt, repeat 0 m)).
  { unfold aset. destruct (Z.lt_ge_cases i 0).
    - rewrite py_set_neg by (rewrite zlen_repeat; lia). now rewrite U.
    - rewrite py_set_in by (rewrite zlen_repeat; lia). now rewrite U. }
  rewrite A. apply IH; lia.
Qed.

Lemma install_layout limit code : code <> [] ->
  exists l, card_install limit (zlen code) code = mkPIN limit limit (zlen code) l true /\ layout code l.
Proof.
  intros Hc. unfold card_install.
  assert (Hz : 0 < zlen code) by (destruct code; [congruence|rewrite zlen_cons; pose proof (zlen_nonneg code); lia]).
  destruct (update_proper (PArr code) 0 (zlen code) (newOwnerPIN limit (zlen code))) as (l & -> & Ll & Hl).
  - cbn. unfold py_repeat. rewrite zlen_repeat. lia.
  - unfold proper. cbn. lia.
  - cbn [snd trylimit maxpinsize newOwnerPIN thepin] in *. exists l. split; [reflexivity|].
    assert (L : length l = length code) by (rewrite Ll; unfold py_repeat; rewrite repeat_length; unfold zlen; lia).
    split; [exact L|]. intros j Hj. rewrite Hl by lia. cbn [cell].
    replace (Z.to_nat (zlen code)) with (length code) by (unfold zlen; lia). change (Z.to_nat 0) with 0%nat.
    replace (length code <=? j)%nat with false by lia. destruct (Nat.eqb_spec j 0); [reflexivity|].
    replace (length code <? j + length code)%nat with true by lia. reflexivity.
Qed.

Lemma check_code limit t code l v b n d : layout code l -> code <> [] -> ~ In 0 code -> zlen code <= 127 -> 0 < t ->
  length b = 257%nat -> (d = [] -> -1 <= n <= 0) -> (d <> [] -> n = zlen d /\ sub b 5 (length d) = d) -> zlen d <= zlen code ->
  check (PArr b) 5 n (mkPIN limit t (zlen code) l v)
  = if list_eqb d code then (Ok true, mkPIN limit limit (zlen code) l true) else (Ok false, mkPIN limit (t - 1) (zlen code) l false).
Proof.
  intros [Ll Hl] Hc Hnz H127 Ht Lb Hd0 Hd1 Hdm.
  assert (Hz : 0 < zlen code) by (destruct code; [congruence|rewrite zlen_cons; pose proof (zlen_nonneg code); lia]).
  assert (Zl : zlen l = zlen code) by (unfold zlen; lia).
  assert (NZ : forall k, (k < length code)%nat -> nth k code 0 <> 0).
  { intros k Hk E. apply Hnz. rewrite <- E. now apply nth_In. }
  assert (Zb : zlen b = 257) by (unfold zlen; lia).
  destruct (Z.eq_dec n (-1)) as [->|Hn].
  - assert (d = []) as ->. { destruct d; [reflexivity|]. destruct (Hd1 ltac:(discriminate)) as [E _]. pose proof (zlen_nonneg (z :: d)). lia. }
    replace (list_eqb [] code) with false by (destruct code; [congruence|reflexivity]).
    unfold check, set_validated, set_tries, bind at 1, get, ret, raise.
    unfold bind at 1. cbn [triesremaining trylimit maxpinsize thepin validated pin_cells].
    replace (t <=? 0) with false by lia. replace ((zlen b <? 5) || (zlen b <? 5 + -1)) with false by lia.
    unfold check_fill, for_range. change (Z.to_nat (5 + -1 - 5)) with 0%nat. cbn [for_loop].
    rewrite (bind_ok _ _ _ tt (py_repeat 0 (zlen code))) by reflexivity.
    unfold py_repeat. rewrite zeros_stay by lia.
    replace (list_eqb l (repeat 0 (Z.to_nat (zlen code)))) with false; [reflexivity|].
    symmetry. apply Bool.not_true_iff_false. rewrite list_eqb_eq. intros E. apply (NZ 0%nat); [unfold zlen in *; lia|].
    specialize (Hl 0%nat ltac:(unfold zlen in *; lia)). cbn [Nat.eqb] in Hl. rewrite <- Hl, E. apply nth_repeat0.
  - assert (Hnd : n = zlen d /\ sub b 5 (length d) = d).
    { destruct d; [split; [specialize (Hd0 eq_refl); rewrite zlen_nil; lia|apply sub_0]|]. apply Hd1. discriminate. }
    clear Hd0 Hd1. destruct Hnd as [-> Hs].
    rewrite check_proper; cbn [triesremaining trylimit maxpinsize thepin validated]; try lia.
    2:{ unfold proper. cbn [pin_cells]. pose proof (zlen_nonneg d). lia. }
    cbv zeta. replace (Z.to_nat 5) with 5%nat by lia.
    replace (Z.to_nat (zlen d)) with (length d) by (unfold zlen; lia). replace (Z.to_nat (zlen code)) with (length code) by (unfold zlen; lia).
    match goal with |- (if ?x then _ else _) = _ => enough (x = list_eqb d code) as ->; [reflexivity|] end.
    apply Bool.eq_iff_eq_true. rewrite list_eqb_eq, forallb_forall. split.
    + intros E. assert (Ld : length d = length code).
      { destruct (Nat.eq_dec (length d) (length code)) as [|Hne]; [assumption|exfalso].
        assert (Hj : (length code - 1 < length code)%nat) by (unfold zlen in *; lia).
        specialize (E (length code - 1)%nat). rewrite in_seq in E. specialize (E ltac:(lia)). apply Z.eqb_eq in E.
        rewrite Hl in E by lia. cbn [cell] in E. replace (length d <=? length code - 1)%nat with true in E by (unfold zlen in *; lia).
        revert E. apply NZ. destruct (Nat.eqb_spec (length code - 1) 0); lia. }
      apply (nth_ext_all _ _ 0); [exact Ld|]. intros k Hk.
      set (j := if (k =? 0)%nat then 0%nat else (length code - k)%nat).
      assert (Hj : (j < length code)%nat) by (unfold j; destruct (Nat.eqb_spec k 0); lia).
      assert (Kj : (if (j =? 0)%nat then 0%nat else (length code - j)%nat) = k).
      { unfold j. destruct (Nat.eqb_spec k 0) as [->|]; [reflexivity|]. destruct (Nat.eqb_spec (length code - k) 0); lia. }
      specialize (E j). rewrite in_seq in E. specialize (E ltac:(lia)). apply Z.eqb_eq in E. rewrite Hl, Kj in E by lia.
      cbn [cell] in E. rewrite Ld in E. replace (length code <=? j)%nat with false in E by lia.
      rewrite E. rewrite <- Hs at 1. rewrite nth_sub by lia.
      destruct (Nat.eqb_spec j 0) as [E0|E0]; [now rewrite <- Kj|].
      replace (length code <? j + length code)%nat with true by lia. now rewrite Kj.
    + intros -> j Hj. apply in_seq in Hj. apply Z.eqb_eq. rewrite Hl by lia. cbn [cell].
      replace (length code <=? j)%nat with false by lia. rewrite <- Hs at 2.
      destruct (Nat.eqb_spec j 0); [now rewrite nth_sub by lia|].
      replace (length code <? j + length code)%nat with true by lia. now rewrite nth_sub by lia.
Qed.

(** ** the card *)
Lemma slice_head {A} (l : list A) n : n = zlen l -> py_slice l 0 n = l.
Proof.
  intros ->. pose proof (zlen_nonneg l). rewrite py_slice_in by lia. rewrite Z.sub_0_r. apply sub_full. unfold zlen. lia.
Qed.
Lemma slice_set_head {A} (r v : list A) n : n = zlen v -> exists rest, py_slice_set r 0 (0 + n) v = v ++ rest.
Proof.
  intros ->. unfold py_slice_set. replace (py_clamp (zlen r) 0) with 0; [|unfold py_clamp; pose proof (zlen_nonneg r); cbn; lia].
  cbn [Z.to_nat firstn app]. eauto.
Qed.
Lemma slice_prefix {A} (v r : list A) n : n = zlen v -> py_slice (v ++ r) 0 n = v.
Proof.
  intros ->. pose proof (zlen_nonneg v). pose proof (zlen_nonneg r). rewrite py_slice_in by (rewrite ?zlen_app; lia).
  rewrite Z.sub_0_r. apply sub_all_app. unfold zlen. lia.
Qed.

Lemma read_open secret s pin : st s = 0 -> zlen secret <= 256 ->
  match card_read secret (pin, s) with
  | (Ok _, (pin', s')) => validated pin = true /\ pin' = pin
      /\ match Ne s with Some n => zlen secret <= n | None => True end /\ py_slice (raw s') 0 (outlen s') = secret
  | (Err e, (pin', _)) => pin' = pin /\
      (validated pin = false /\ e = ISOExc SW_SECURITY_STATUS_NOT_SATISFIED
       \/ validated pin = true /\ (exists n, Ne s = Some n /\ n < zlen secret) /\ e = APDUExc BAD_LENGTH)
  end.
Proof.
  intros S0 H. unfold card_read.
  assert (V0 : with_pin isValidated (pin, s) = (Ok (validated pin), (pin, s))) by reflexivity.
  rewrite (bind_ok _ _ _ _ _ V0). destruct (validated pin) eqn:V; cbn [negb]; [|cbn [raise]; split; [reflexivity|left; split; reflexivity]].
  set (s1 := with_out (raw s) STATE_OUTGOING (getOutgoingLength s) (Some 0) s).
  assert (E1 : with_apdu setOutgoing (pin, s) = (Ok (getOutgoingLength s), (pin, s1))).
  { unfold with_apdu, setOutgoing, bind, get, put, ret. cbn [fst snd]. rewrite S0. reflexivity. }
  rewrite (bind_ok _ _ _ _ _ E1).
  destruct (match Ne s with Some n => n <? zlen secret | None => false end) eqn:E.
  - assert (E2 : with_apdu (setOutgoingLength (zlen secret)) (pin, s1) = (Err (APDUExc BAD_LENGTH), (pin, s1))).
    { unfold with_apdu, setOutgoingLength, bind, get, put, raise. cbn [fst snd]. change (st s1 <? STATE_OUTGOING) with false. cbn beta iota.
      change (Ne s1) with (Ne s). now rewrite E. }
    rewrite (bind_err _ _ _ _ _ E2).
    split; [reflexivity|]. right. split; [reflexivity|]. split; [|reflexivity]. destruct (Ne s) as [n|]; [|discriminate]. exists n. split; [reflexivity|lia].
  - set (s2 := with_out (raw s) STATE_OUTGOING_LENGTH_KNOWN (zlen secret) (Some 0) s1).
    assert (E2 : with_apdu (setOutgoingLength (zlen secret)) (pin, s1) = (Ok tt, (pin, s2))).
    { unfold with_apdu, setOutgoingLength, bind, get, put, raise. cbn [fst snd]. change (st s1 <? STATE_OUTGOING) with false. cbn beta iota.
      change (Ne s1) with (Ne s). now rewrite E. }
    rewrite (bind_ok _ _ _ _ _ E2).
    unfold with_apdu, sendBytesLong, send_block, bind, get, raise, put. cbn [fst snd].
    change ((STATE_PARTIAL_OUTGOING <? st s2) && (st s2 <? STATE_OUTGOING_LENGTH_KNOWN)) with false. cbn beta iota.
    change (curout s2) with (Some 0). cbn beta iota. unfold OUT_BLOCKSIZE. replace (256 <? 0 + zlen secret) with false by lia.
    split; [reflexivity|]. split; [reflexivity|]. split; [destruct (Ne s); [lia|exact I]|].
    cbn [raw with_out outlen s2].
    rewrite (slice_head secret (0 + zlen secret)) by lia. destruct (slice_set_head (raw s) secret (zlen secret) eq_refl) as [rest ->].
    now apply slice_prefix.
Qed.

Lemma land_ins ins : ubyte ins -> Z.land ins 255 = ins.
Proof. intros H. unfold ubyte in H. change 255 with (Z.ones 8). rewrite Z.land_ones by lia. apply Z.mod_small. lia. Qed.

Lemma card_step_exact limit code secret l x t v : 0 < limit -> layout code l -> code <> [] -> ~ In 0 code -> zlen code <= 127 -> zlen secret <= 256 ->
  terminal_ok x -> verify_fits (zlen code) x -> 0 <= t ->
  exists r t' v', card_step secret (on_wire x) (mkPIN limit t (zlen code) l v) = (r, mkPIN limit t' (zlen code) l v')
     /\ vault_step limit code secret x (mkVault t v) = (answer r, mkVault t' v') /\ 0 <= t'.
Proof.
  intros Hlim Hl Hc Hnz H127 Hsec Hx Hfx Ht.
  destruct x as [|cla ins p1 p2 c]; cbn [on_wire card_step vault_step].
  - unfold reset, resetAndUnblock, set_validated, set_tries, bind, get, ret. cbn [validated trylimit triesremaining maxpinsize thepin v_open].
    destruct v; do 3 eexists; (split; [reflexivity|]); (split; [reflexivity|cbn; lia]).
  - cbn [terminal_ok] in Hx. destruct Hx as (U1 & U2 & U3 & U4 & Hw & Hs). cbn [verify_fits] in Hfx.
    destruct (receive_short cla ins p1 p2 c U1 U2 U3 U4 Hw Hs) as (s & Es & Ei & S0 & N & O & Z4 & Hr).
    unfold card_answer. rewrite Es. unfold card_process. unfold bind at 1, get at 1. unfold bind at 1, lift at 1, getBuffer. cbn [snd].
    rewrite Ei, (land_ins ins U2). destruct (Z.eqb_spec ins 32) as [->|N32].
    + specialize (Hfx eq_refl). destruct Hr as (n & s' & Er & O' & Lb & Hd0 & Hd1); [lia|].
      unfold card_verify, with_apdu, with_pin, bind, get, ret, raise. cbn [fst snd]. rewrite Er. cbn [fst snd v_tries v_open].
      destruct (Z.eqb_spec t 0) as [->|Ht0].
      * cbn [check]. unfold check, set_validated, set_tries, bind, get, ret, raise. cbn [triesremaining trylimit maxpinsize thepin validated Z.leb Z.compare].
        do 3 eexists. split; [reflexivity|]. split; [reflexivity|lia].
      * unfold OFFSET_CDATA, getBuffer. rewrite (check_code limit t code l v (buf s') n (command_data c)) by (try lia; auto).
        destruct (list_eqb (command_data c) code).
        -- rewrite O'. do 3 eexists. split; [reflexivity|]. rewrite slice0. split; [reflexivity|lia].
        -- do 3 eexists. split; [reflexivity|]. split; [reflexivity|lia].
    + destruct (Z.eqb_spec ins 176) as [->|N176].
      * pose proof (read_open secret s (mkPIN limit t (zlen code) l v) S0 Hsec) as R.
        destruct (card_read secret (mkPIN limit t (zlen code) l v, s)) as [[u|e] [pin' s']]; cbn [validated v_open] in *.
        -- destruct R as (-> & -> & Rn & ->). do 3 eexists. split; [reflexivity|]. split; [|exact Ht]. cbn [answer]. rewrite N in Rn.
           destruct (command_le c); [|reflexivity]. now replace (z <? zlen secret) with false by lia.
        -- destruct R as [-> [[-> ->]|(-> & (m & Em & Hm) & ->)]].
           ++ do 3 eexists. split; [reflexivity|]. split; [reflexivity|exact Ht].
           ++ do 3 eexists. split; [reflexivity|]. rewrite N in Em. rewrite Em. replace (m <? zlen secret) with true by lia. split; [reflexivity|exact Ht].
      * do 3 eexists. split; [reflexivity|]. split; [reflexivity|exact Ht].
Qed.

Lemma card_exact limit code secret l ts : 0 < limit -> layout code l -> code <> [] -> ~ In 0 code -> zlen code <= 127 -> zlen secret <= 256 ->
  Forall terminal_ok ts -> Forall (verify_fits (zlen code)) ts -> forall t v, 0 <= t ->
  map answer (fst (card_run secret (map on_wire ts) (mkPIN limit t (zlen code) l v)))
  = vault_run limit code secret ts (mkVault t v).
Proof.
  intros Hlim Hl Hc Hnz H127 Hsec Hok. induction Hok as [|x ts Hx Hts IH]; intros Hf t v Ht; [reflexivity|].
  inversion Hf as [|? ? Hfx Hfts]; subst. specialize (IH Hfts).
  cbn [map card_run vault_run].
  destruct (card_step_exact limit code secret l x t v) as (r & t' & v' & -> & -> & Ht'); auto. specialize (IH t' v' Ht').
  destruct (card_run secret (map on_wire ts) (mkPIN limit t' (zlen code) l v')) as [rs p]. cbn [fst map] in *. now rewrite IH.
Qed.

Lemma C141_exact_partial_pf : forall limit code secret ts,
  0 < limit -> 1 <= zlen code <= 127 -> ~ In 0 code -> zlen secret <= 256 ->
  Forall terminal_ok ts -> Forall (verify_fits (zlen code)) ts ->
  map answer (fst (card_run secret (map on_wire (TSelect :: ts)) (card_install limit (zlen code) code)))
  = vault_run limit code secret (TSelect :: ts) (mkVault limit true).
Proof.
  intros limit code secret ts Hlim Hc Hnz Hs Hok Hf.
  assert (Hne : code <> []) by (intros ->; rewrite zlen_nil in Hc; lia).
  destruct (install_layout limit code Hne) as (l & -> & Hl).
  apply card_exact; auto; try lia; constructor; auto; exact I.
Qed.

(** ** no restriction on the commands *)
Lemma receive_outlen a : outlen (snd (setIncomingAndReceive a)) = outlen a.
Proof.
  unfold setIncomingAndReceive, bind, get, raise. destruct (negb _); [reflexivity|]. destruct (broken a); [reflexivity|].
  rewrite receive_block_unfold. cbv zeta. destruct (for_loop _ _ _ _) as [[u|e] b]; reflexivity.
Qed.
Lemma new_parts b a : newAPDU b = Ok a -> py_get (buf a) OFFSET_INS = Ok (nth 1 b 0) /\ outlen a = 0 /\ st a = 0.
Proof.
  intros H. apply newAPDU_inv in H as (H4 & br & cd & ty & nc & ne & ll & -> & _). cbn [buf outlen st mk_apdu].
  pose proof (initbuf_length b H4) as HI. pose proof (p3len_bounds b H4). split; [|split; reflexivity].
  unfold OFFSET_INS. rewrite (py_get_in _ _ 0) by (unfold zlen; lia). unfold initbuf.
  replace (Z.to_nat (4 + p3len b)) with (S (S (Z.to_nat (2 + p3len b)))) by lia.
  do 2 (destruct b as [|? b]; [cbn in H4; lia|]). reflexivity.
Qed.
Lemma land_mod x : Z.land x 255 = x mod 256.
Proof. change 255 with (Z.ones 8). now rewrite Z.land_ones by lia. Qed.

(** a closed card: the answer does not depend on the secret, only an accepted VERIFY opens it,
    and no VERIFY is accepted by a blocked one *)
Lemma closed_step e pin : validated pin = false -> exists r pin',
  (forall secret, card_step secret e pin = (r, pin'))
  /\ (validated pin' = true -> is_verify e = true /\ r = Ok [144; 0])
  /\ (triesremaining pin = 0 -> pin' = pin /\ (is_verify e = true -> r <> Ok [144; 0])).
Proof.
  intros V. destruct e as [|b]; cbn [card_step is_verify].
  { unfold reset, bind, get, ret. rewrite V. do 2 eexists. split; [reflexivity|]. split; [congruence|]. intros _. split; [reflexivity|discriminate]. }
  unfold card_answer. destruct (newAPDU b) as [a|e] eqn:E.
  2:{ do 2 eexists. split; [reflexivity|]. split; [congruence|]. intros _. split; [reflexivity|congruence]. }
  destruct (new_parts b a E) as (Ei & O & S0).
  assert (P : forall secret, card_process secret (pin, a) =
    (if nth 1 b 0 mod 256 =? 32 then card_verify
     else if nth 1 b 0 mod 256 =? 176 then card_read secret else raise (ISOExc SW_INS_NOT_SUPPORTED)) (pin, a)).
  { intros secret. unfold card_process. unfold bind at 1, get at 1. unfold bind at 1, lift at 1, getBuffer. cbn [snd]. rewrite Ei, land_mod. reflexivity. }
  setoid_rewrite P. destruct (nth 1 b 0 mod 256 =? 32).
  - assert (C : exists r pin' a', card_verify (pin, a) = (r, (pin', a')) /\ (validated pin' = true -> r = Ok tt /\ outlen a' = 0)
       /\ (triesremaining pin = 0 -> pin' = pin /\ exists e, r = Err e /\ (forall sw, e = ISOExc sw -> [sw / 256; sw mod 256] <> [144; 0]))).
    { unfold card_verify. pose proof (receive_outlen a) as RO.
      destruct (setIncomingAndReceive a) as [[n|e] a1] eqn:R; cbn [snd] in RO.
      - assert (R1 : with_apdu setIncomingAndReceive (pin, a) = (Ok n, (pin, a1))) by (unfold with_apdu; cbn [fst snd]; now rewrite R).
        rewrite (bind_ok _ _ _ _ _ R1). unfold bind at 1, get at 1. cbn [snd].
        pose proof (check_cases (PArr (getBuffer a1)) OFFSET_CDATA n pin) as CC. cbv zeta in CC.
        set (m := with_pin (check (PArr (getBuffer a1)) OFFSET_CDATA n)).
        assert (W : m (pin, a1) = (fst (check (PArr (getBuffer a1)) OFFSET_CDATA n pin), (snd (check (PArr (getBuffer a1)) OFFSET_CDATA n pin), a1))).
        { unfold m, with_pin. cbn [fst snd]. now destruct (check _ _ _ pin). }
        destruct CC as [[T CC]|[T [CC|[(e & CC & _)|[CC|CC]]]]]; rewrite CC in W; cbn [fst snd] in W; unfold bind; rewrite W; unfold raise, ret.
        + do 3 eexists. split; [reflexivity|]. split; [discriminate|]. intros Z0. split; [destruct pin; cbn in *; congruence|].
          eexists. split; [reflexivity|]. intros sw [= <-]. vm_compute. discriminate.
        + do 3 eexists. split; [reflexivity|]. split; [discriminate|lia].
        + do 3 eexists. split; [reflexivity|]. split; [discriminate|lia].
        + do 3 eexists. split; [reflexivity|]. split; [discriminate|lia].
        + do 3 eexists. split; [reflexivity|]. split; [|lia]. intros _. split; [reflexivity|congruence].
      - assert (R1 : with_apdu setIncomingAndReceive (pin, a) = (Err e, (pin, a1))) by (unfold with_apdu; cbn [fst snd]; now rewrite R).
        rewrite (bind_err _ _ _ _ _ R1). do 3 eexists. split; [reflexivity|]. split; [congruence|]. intros _. split; [reflexivity|].
        exists e. split; [reflexivity|]. intros sw ->. revert R. unfold setIncomingAndReceive, bind, get, raise. destruct (negb _); [discriminate|].
        destruct (broken a); [intros R; assert (sw = SW_WRONG_LENGTH) as -> by congruence; vm_compute; discriminate|].
        rewrite receive_block_unfold. cbv zeta. destruct (for_loop _ _ _ _) as [[u|e] b'] eqn:L; [discriminate|].
        apply cp_loop_err in L. intros R. assert (e = ISOExc sw) by congruence. congruence. }
    destruct C as (r & pin' & a' & C & C1 & C2). setoid_rewrite C. destruct r as [u|e].
    + do 2 eexists. split; [reflexivity|]. split.
      * intros V'. destruct (C1 V') as [_ ->]. rewrite slice0. auto.
      * intros T. destruct (C2 T) as (-> & e & [=] & _).
    + assert (Ev : validated pin' = false) by (destruct (validated pin'); [destruct (C1 eq_refl); discriminate|reflexivity]).
      destruct e; do 2 eexists; (split; [reflexivity|]); (split; [congruence|]); intros T; destruct (C2 T) as (-> & e' & [= <-] & Hsw);
        (split; [reflexivity|]); intros _; try discriminate.
      intros Q. apply Ok_inj in Q. exact (Hsw _ eq_refl Q).
  - destruct (nth 1 b 0 mod 256 =? 176).
    + assert (R : forall secret, card_read secret (pin, a) = (Err (ISOExc SW_SECURITY_STATUS_NOT_SATISFIED), (pin, a))).
      { intros secret. unfold card_read. assert (V0 : with_pin isValidated (pin, a) = (Ok (validated pin), (pin, a))) by reflexivity.
        rewrite (bind_ok _ _ _ _ _ V0), V. reflexivity. }
      setoid_rewrite R. do 2 eexists. split; [reflexivity|]. split; [congruence|]. intros _. split; [reflexivity|discriminate].
    + do 2 eexists. split; [reflexivity|]. split; [congruence|]. intros _. split; [reflexivity|discriminate].
Qed.

Lemma guesses_nonneg g : 0 <= guesses g.
Proof. induction g as [|x g IH]; cbn [guesses]; [lia|]. unfold guess1. destruct x as [|? i ? ? ?]; [|destruct (i =? 32)]; lia. Qed.
Lemma card_run_cons secret e h pin : card_run secret (e :: h) pin =
  (fst (card_step secret e pin) :: fst (card_run secret h (snd (card_step secret e pin))), snd (card_run secret h (snd (card_step secret e pin)))).
Proof. cbn [card_run]. destruct (card_step secret e pin) as [r p]. cbn [fst snd]. now destruct (card_run secret h p). Qed.
Lemma card_run_app secret h1 h2 pin : fst (card_run secret (h1 ++ h2) pin) =
  fst (card_run secret h1 pin) ++ fst (card_run secret h2 (snd (card_run secret h1 pin))).
Proof.
  revert pin. induction h1 as [|e h1 IH]; intros pin; [reflexivity|]. cbn [app]. rewrite !card_run_cons. cbn [fst snd app]. now rewrite IH.
Qed.
Lemma card_run_len secret h pin : length (fst (card_run secret h pin)) = length h.
Proof. revert pin. induction h as [|e h IH]; intros pin; [reflexivity|]. rewrite card_run_cons. cbn [fst length]. now rewrite IH. Qed.
Lemma card_run_app_snd secret h1 h2 pin : snd (card_run secret (h1 ++ h2) pin) = snd (card_run secret h2 (snd (card_run secret h1 pin))).
Proof. revert pin. induction h1 as [|e h1 IH]; intros pin; [reflexivity|]. cbn [app]. rewrite !card_run_cons. cbn [snd]. now rewrite IH. Qed.

Lemma va_cons e h r rs : verify_answers (e :: h) (r :: rs) = if is_verify e then r :: verify_answers h rs else verify_answers h rs.
Proof. unfold verify_answers. cbn [combine filter fst]. now destruct (is_verify e). Qed.
Lemma va_app h1 h2 rs1 rs2 : length h1 = length rs1 -> verify_answers (h1 ++ h2) (rs1 ++ rs2) = verify_answers h1 rs1 ++ verify_answers h2 rs2.
Proof.
  revert rs1. induction h1 as [|e h1 IH]; intros [|r rs1] H; try discriminate; [reflexivity|].
  cbn [app]. rewrite !va_cons, IH by (cbn in H; lia). now destruct (is_verify e).
Qed.

Lemma closed_run secret1 secret2 h : forall pin, validated pin = false ->
  (forall r, In r (verify_answers h (fst (card_run secret1 h pin))) -> r <> Ok [144; 0]) ->
  card_run secret1 h pin = card_run secret2 h pin /\ validated (snd (card_run secret1 h pin)) = false.
Proof.
  induction h as [|e h IH]; intros pin V Hn; [split; [reflexivity|exact V]|].
  destruct (closed_step e pin V) as (r & pin' & E & O & _).
  rewrite card_run_cons in Hn |- *. rewrite card_run_cons. rewrite !E in *. cbn [fst snd] in *. rewrite va_cons in Hn.
  assert (V' : validated pin' = false).
  { destruct (validated pin'); [|reflexivity]. destruct (O eq_refl) as [I ->]. rewrite I in Hn. exfalso. apply (Hn (Ok [144; 0])); [now left|reflexivity]. }
  destruct (IH pin' V') as [Q1 Q2].
  { intros r' Hr'. apply Hn. destruct (is_verify e); [now right|exact Hr']. }
  rewrite <- Q1. auto.
Qed.
Lemma blocked_run secret h : forall pin, validated pin = false -> triesremaining pin = 0 ->
  forall r, In r (verify_answers h (fst (card_run secret h pin))) -> r <> Ok [144; 0].
Proof.
  induction h as [|e h IH]; intros pin V T r Hr; [destruct Hr|].
  destruct (closed_step e pin V) as (r' & pin' & E & _ & B). destruct (B T) as [-> B2].
  rewrite card_run_cons, E in Hr. cbn [fst snd] in Hr. rewrite va_cons in Hr.
  destruct (is_verify e); [destruct Hr as [<-|Hr]; [now apply B2|]|]; eapply IH; eauto.
Qed.
Lemma reset_closed secret pin : fst (card_step secret CardSelect pin) = Ok [] /\ validated (snd (card_step secret CardSelect pin)) = false.
Proof.
  cbn [card_step]. unfold reset, bind, get, ret. destruct (validated pin) eqn:V; [|cbn; rewrite ?V; auto].
  cbn. auto.
Qed.

Lemma C141_secret_pf : forall secret1 secret2 pin h,
  (forall r, In r (verify_answers (CardSelect :: h) (fst (card_run secret1 (CardSelect :: h) pin))) -> r <> Ok [144; 0]) ->
  card_run secret1 (CardSelect :: h) pin = card_run secret2 (CardSelect :: h) pin.
Proof.
  intros secret1 secret2 pin h Hn. rewrite card_run_cons in Hn. rewrite !card_run_cons. cbn [fst] in Hn. rewrite va_cons in Hn. cbn [is_verify] in Hn.
  pose proof (reset_closed secret1 pin) as [_ V]. change (card_step secret2 CardSelect pin) with (card_step secret1 CardSelect pin).
  destruct (closed_run secret1 secret2 h _ V Hn) as [-> _]. reflexivity.
Qed.

Lemma C141_blocked_pf : forall limit code secret secret' g h,
  0 < limit -> 1 <= zlen code <= 127 -> ~ In 0 code -> zlen secret <= 256 ->
  Forall terminal_ok g -> Forall (verify_fits (zlen code)) g -> Forall (wrong_guess code) g -> limit <= guesses g ->
  (forall r, In r (verify_answers (CardSelect :: map on_wire g ++ h) (fst (card_run secret (CardSelect :: map on_wire g ++ h) (card_install limit (zlen code) code)))) -> r <> Ok [144; 0])
  /\ card_run secret (CardSelect :: map on_wire g ++ h) (card_install limit (zlen code) code)
      = card_run secret' (CardSelect :: map on_wire g ++ h) (card_install limit (zlen code) code).
Proof.
  intros limit code secret secret' g h Hlim Hc Hnz Hsec Hok Hf Hw Hg.
  assert (Hc0 : code <> []) by (intros ->; cbn in Hc; lia).
  destruct (install_layout limit code Hc0) as (l & Hi & Hl).
  assert (R : forall g, Forall terminal_ok g -> Forall (verify_fits (zlen code)) g -> Forall (wrong_guess code) g -> forall t, 0 <= t ->
    (forall r, In r (verify_answers (map on_wire g) (fst (card_run secret (map on_wire g) (mkPIN limit t (zlen code) l false)))) -> r <> Ok [144; 0])
    /\ snd (card_run secret (map on_wire g) (mkPIN limit t (zlen code) l false)) = mkPIN limit (Z.max 0 (t - guesses g)) (zlen code) l false).
  { clear g Hok Hf Hw Hg. induction g as [|x g IH]; intros Hok Hf Hw t Ht.
    - cbn. split; [tauto|]. f_equal. lia.
    - inversion Hok as [|? ? Ox Og]; inversion Hf as [|? ? Fx Fg]; inversion Hw as [|? ? Wx Wg]; subst.
      destruct (card_step_exact limit code secret l x t false) as (r & t' & v' & E & S1 & Ht'); try assumption; try lia.
      cbn [map]. rewrite card_run_cons, E. cbn [fst snd]. rewrite va_cons.
      assert (X : v' = false /\ t' = Z.max 0 (t - guess1 x) /\ (is_verify (on_wire x) = true -> answer r <> Some [144; 0])).
      { destruct x as [|cla ins p1 p2 c]; cbn [vault_step v_open v_tries] in S1.
        - apply (f_equal snd) in S1. cbn [snd] in S1. injection S1 as <- <-. cbn [guess1 on_wire is_verify]. split; [reflexivity|]. split; [lia|discriminate].
        - assert (B : is_verify (on_wire (TSend cla ins p1 p2 c)) = (ins =? 32)).
          { cbn. destruct Ox as (_ & U & _). unfold ubyte in U. now rewrite Z.mod_small by lia. }
          rewrite B. cbn [guess1]. cbn [wrong_guess] in Wx. destruct (ins =? 32) eqn:Ei.
          + specialize (Wx ltac:(lia)). destruct (t =? 0) eqn:Et.
            * injection S1 as R1 <- <-. split; [reflexivity|]. split; [lia|]. intros _. rewrite <- R1. discriminate.
            * destruct (list_eqb (command_data c) code) eqn:El; [apply list_eqb_eq in El; congruence|].
              injection S1 as R1 <- <-. split; [reflexivity|]. split; [lia|]. intros _. rewrite <- R1. discriminate.
          + assert (v' = false /\ t' = t) as [-> ->]; [|split; [reflexivity|]; split; [lia|discriminate]].
            destruct (ins =? 176); apply (f_equal snd) in S1; cbn [snd] in S1; injection S1 as <- <-; auto. }
      destruct X as (-> & -> & X). destruct (IH Og Fg Wg _ Ht') as [I1 I2]. split.
      + intros q Hq. destruct (is_verify (on_wire x)); [|now apply I1].
        destruct Hq as [<-|Hq]; [|now apply I1]. intros ->. now apply X.
      + rewrite I2. cbn [guesses]. pose proof (guesses_nonneg g). f_equal. unfold guess1 in *. destruct x as [|? i ? ? ?]; try destruct (i =? 32); lia. }
  assert (N : forall r, In r (verify_answers (CardSelect :: map on_wire g ++ h) (fst (card_run secret (CardSelect :: map on_wire g ++ h) (card_install limit (zlen code) code)))) -> r <> Ok [144; 0]).
  { rewrite card_run_cons. cbn [fst]. rewrite va_cons. cbn [is_verify]. rewrite Hi.
    change (snd (card_step secret CardSelect (mkPIN limit limit (zlen code) l true))) with (mkPIN limit limit (zlen code) l false).
    destruct (R g Hok Hf Hw limit ltac:(lia)) as [R1 R2]. rewrite card_run_app, va_app by now rewrite card_run_len.
    intros r Hr. apply in_app_or in Hr as [Hr|Hr]; [now apply R1|].
    rewrite R2 in Hr. revert Hr. apply blocked_run; cbn; [reflexivity|lia]. }
  split; [exact N|]. now apply C141_secret_pf.
Qed.

(** ** what a wrong guess opens *)
Lemma check_flag p off len a t m l v v' : check p off len (mkPIN a t m l v) = check p off len (mkPIN a t m l v').
Proof. reflexivity. Qed.
Lemma guess_opens limit max code secret guess : 0 < limit -> 1 <= zlen guess <= 128 -> bytes guess -> zlen secret <= 256 ->
  trylimit (card_install limit max code) = limit -> triesremaining (card_install limit max code) = limit ->
  (forall b, length b = 257%nat -> sub b 5 (length guess) = guess -> fst (check (PArr b) 5 (zlen guess) (card_install limit max code)) = Ok true) ->
  fst (card_run secret [CardSelect; on_wire (TSend 0 0x20 0 0 (Case3S guess)); on_wire (TSend 0 0xB0 0 0 Case1)] (card_install limit max code))
  = [Ok []; Ok [0x90; 0]; Ok (secret ++ [0x90; 0])].
Proof.
  intros Hlim Hg Hb Hs T1 T2 Hc. destruct (card_install limit max code) as [tl tr mx l v]. cbn [trylimit triesremaining] in T1, T2. subst tl tr.
  rewrite card_run_cons. cbn [fst].
  assert (Es : card_step secret CardSelect (mkPIN limit limit mx l v) = (Ok [], mkPIN limit limit mx l false)) by (destruct v; reflexivity).
  rewrite Es. cbn [fst snd].
  assert (W3 : wf_command (Case3S guess)) by (split; cbn [command_data]; [exact Hb|unfold zlen in Hg; lia]).
  assert (U0 : ubyte 0) by (unfold ubyte; lia).
  destruct (receive_short 0 32 0 0 (Case3S guess) U0 ltac:(unfold ubyte; lia) U0 U0 W3 eq_refl) as (s & Ea & Ei & _ & _ & _ & _ & Hr).
  cbn [command_data] in Hr. destruct Hr as (n & s' & Er & O' & Lb & _ & Hd); [lia|].
  destruct Hd as [-> Hd]; [intros ->; rewrite zlen_nil in Hg; lia|].
  assert (Ev : card_step secret (on_wire (TSend 0 32 0 0 (Case3S guess))) (mkPIN limit limit mx l false) = (Ok [144; 0], mkPIN limit limit mx l true)).
  { cbn [on_wire card_step]. unfold card_answer. rewrite Ea. unfold card_process. unfold bind at 1, get at 1. unfold bind at 1, lift at 1, getBuffer. cbn [snd].
    rewrite Ei. change (Z.land 32 255 =? 32) with true. cbn beta iota.
    unfold card_verify, with_apdu, with_pin, bind, get, ret, raise. cbn [fst snd]. rewrite Er. cbn [fst snd].
    specialize (Hc (buf s') Lb Hd). rewrite (check_flag _ _ _ _ _ _ _ v false) in Hc. unfold OFFSET_CDATA, getBuffer.
    pose proof (check_cases (PArr (buf s')) 5 (zlen guess) (mkPIN limit limit mx l false)) as CC. cbv zeta in CC.
    cbn [triesremaining trylimit maxpinsize thepin] in CC.
    destruct CC as [[T CC]|[T [CC|[(e & CC & _)|[CC|CC]]]]]; rewrite CC in Hc; cbn [fst] in Hc; try discriminate.
    rewrite CC. rewrite O', slice0. reflexivity. }
  rewrite card_run_cons. cbn [fst]. rewrite Ev. cbn [fst snd].
  assert (W1 : wf_command Case1) by (split; cbn; [constructor|exact I]).
  destruct (receive_short 0 176 0 0 Case1 U0 ltac:(unfold ubyte; lia) U0 U0 W1 eq_refl) as (q & Qa & Qi & Q0 & QN & _ & _ & _).
  rewrite card_run_cons. cbn [fst snd card_run].
  assert (Eq : fst (card_step secret (on_wire (TSend 0 176 0 0 Case1)) (mkPIN limit limit mx l true)) = Ok (secret ++ [144; 0])).
  { cbn [on_wire card_step]. unfold card_answer. rewrite Qa. unfold card_process. unfold bind at 1, get at 1. unfold bind at 1, lift at 1, getBuffer. cbn [snd].
    rewrite Qi. change (Z.land 176 255 =? 32) with false. change (Z.land 176 255 =? 176) with true. cbn beta iota.
    pose proof (read_open secret q (mkPIN limit limit mx l true) Q0 Hs) as R. rewrite QN in R. cbn [command_le validated] in R.
    destruct (card_read secret (mkPIN limit limit mx l true, q)) as [[u|e] [pin' q']].
    - destruct R as (_ & _ & _ & ->). reflexivity.
    - destruct R as [_ [[R _]|(_ & (m & R & _) & _)]]; discriminate. }
  now rewrite Eq.
Qed.
Lemma install_tries limit max code : 0 <= max -> zlen code <= max -> trylimit (card_install limit max code) = limit /\ triesremaining (card_install limit max code) = limit.
Proof.
  intros Hm H. unfold card_install. destruct (update_proper (PArr code) 0 (zlen code) (newOwnerPIN limit max)) as (l & -> & _).
  - cbn. unfold py_repeat. rewrite zlen_repeat. lia.
  - unfold proper. cbn. pose proof (zlen_nonneg code). lia.
  - auto.
Qed.

Lemma C141_wrong_pin_refuted_pf : forall limit max code guess secret,
  0 < limit -> 1 <= zlen code <= 128 -> 2 * zlen code - 1 <= max -> bytes guess -> zlen guess = zlen code -> hd 0 guess = hd 0 code ->
  zlen secret <= 256 ->
  fst (card_run secret [CardSelect; on_wire (TSend 0 0x20 0 0 (Case3S guess)); on_wire (TSend 0 0xB0 0 0 Case1)] (card_install limit max code))
  = [Ok []; Ok [0x90; 0]; Ok (secret ++ [0x90; 0])].
Proof.
  intros limit max code guess secret Hlim Hc Hm Hb Hz Hh Hs.
  destruct (install_tries limit max code) as [T1 T2]; try lia.
  apply guess_opens; auto; try lia. intros b Lb Hsub. unfold card_install. rewrite Hz.
  apply C14_accepts_wrong_pin_refuted_pf; try lia.
  - unfold proper. cbn [pin_cells]. lia.
  - assert (zlen b = 257) by (unfold zlen; lia). unfold proper. cbn [pin_cells]. lia.
  - assert (E : nth 0 (sub b 5 (length guess)) 0 = nth 0 guess 0) by now rewrite Hsub.
    rewrite nth_sub in E by (unfold zlen in *; lia). change (Z.to_nat 0) with 0%nat. change (Z.to_nat 5) with (5 + 0)%nat. rewrite E.
    destruct guess, code; cbn in *; auto.
Qed.

Lemma C141_too_long_refuted_pf : forall limit c code x secret,
  0 < limit -> zlen (c :: code) <= 127 -> bytes (c :: code) -> ubyte x -> zlen secret <= 256 ->
  fst (card_run secret [CardSelect; on_wire (TSend 0 0x20 0 0 (Case3S (x :: code ++ [c]))); on_wire (TSend 0 0xB0 0 0 Case1)] (card_install limit (zlen (c :: code)) (c :: code)))
  = [Ok []; Ok [0x90; 0]; Ok (secret ++ [0x90; 0])].
Proof.
  intros limit c code x secret Hlim Hz Hb Hx Hs. pose proof (zlen_nonneg code) as H0.
  assert (Lg : zlen (x :: code ++ [c]) = zlen (c :: code) + 1) by (rewrite !zlen_cons, zlen_app, zlen_cons, zlen_nil; lia).
  rewrite zlen_cons in Hz.
  destruct (install_tries limit (zlen (c :: code)) (c :: code)) as [T1 T2]; try (rewrite zlen_cons; lia).
  apply guess_opens; auto; try (rewrite Lg, zlen_cons; lia).
  - inversion Hb; subst. constructor; [assumption|]. apply Forall_app. split; [assumption|]. constructor; [assumption|constructor].
  - intros b Lb Hsub. rewrite Lg. unfold card_install.
    assert (G : forall k, (k <= length code + 1)%nat -> nth (5 + k) b 0 = nth k (x :: code ++ [c]) 0).
    { intros k Hk. rewrite <- Hsub. rewrite nth_sub; [reflexivity|]. cbn. rewrite app_length. cbn. lia. }
    apply C14_too_long_refuted_pf; try (rewrite ?zlen_cons; unfold zlen; rewrite ?Lb; unfold zlen in *; lia).
    + unfold proper. cbn [pin_cells]. rewrite zlen_cons. lia.
    + replace (Z.to_nat (5 + zlen (c :: code))) with (5 + (length code + 1))%nat by (rewrite zlen_cons; unfold zlen; lia).
      rewrite G by lia. replace (length code + 1)%nat with (S (length code)) by lia. cbn [nth]. rewrite app_nth2 by lia. now rewrite Nat.sub_diag.
    + replace (Z.to_nat (5 + 1)) with 6%nat by lia. replace (Z.to_nat (0 + 1)) with 1%nat by lia.
      replace (Z.to_nat (zlen (c :: code) - 1)) with (length code) by (rewrite zlen_cons; unfold zlen; lia).
      apply (nth_ext_all _ _ 0); [rewrite !sub_length; [reflexivity|cbn; lia|rewrite Lb; unfold zlen in *; lia]|].
      intros k Hk. rewrite sub_length in Hk by (rewrite Lb; unfold zlen in *; lia). rewrite !nth_sub by lia.
      change (6 + k)%nat with (5 + S k)%nat. rewrite G by lia. cbn [nth plus]. now rewrite app_nth1 by lia.
Qed.

Lemma C141_unreset_refuted_pf : forall limit max code secret, 0 <= zlen code <= max -> zlen secret <= 256 ->
  fst (card_run secret [on_wire (TSend 0 0xB0 0 0 Case1)] (card_install limit max code)) = [Ok (secret ++ [0x90; 0])].
Proof.
  intros limit max code secret Hc Hs. rewrite card_run_cons. cbn [fst card_run].
  assert (V : validated (card_install limit max code) = true).
  { unfold card_install. destruct (update_proper (PArr code) 0 (zlen code) (newOwnerPIN limit max)) as (l & -> & _); [| |reflexivity].
    - cbn. unfold py_repeat. rewrite zlen_repeat. lia.
    - unfold proper. cbn. lia. }
  assert (U0 : ubyte 0) by (unfold ubyte; lia). assert (W1 : wf_command Case1) by (split; cbn; [constructor|exact I]).
  destruct (receive_short 0 176 0 0 Case1 U0 ltac:(unfold ubyte; lia) U0 U0 W1 eq_refl) as (q & Qa & Qi & Q0 & QN & _ & _ & _).
  f_equal. cbn [on_wire card_step]. unfold card_answer. rewrite Qa. unfold card_process. unfold bind at 1, get at 1. unfold bind at 1, lift at 1, getBuffer. cbn [snd].
  rewrite Qi. change (Z.land 176 255 =? 32) with false. change (Z.land 176 255 =? 176) with true. cbn beta iota.
  pose proof (read_open secret q (card_install limit max code) Q0 Hs) as R. rewrite QN, V in R. cbn [command_le] in R.
  destruct (card_read secret (card_install limit max code, q)) as [[u|e] [pin' q']].
  - destruct R as (_ & _ & _ & ->). reflexivity.
  - destruct R as [_ [[R _]|(_ & (m & R & _) & _)]]; discriminate.
Qed.

Lemma C141_full_refuted_pf : ~ C141_full.
Proof.
  intros H. specialize (H 3 3 [1; 2] [7] [TSelect; TSend 0 0x20 0 0 (Case3S [1; 9]); TSend 0 0xB0 0 0 Case1]).
  assert (Some [7; 0x90; 0] = Some [0x69; 0x82]); [|discriminate].
  refine (f_equal (fun l => nth 2 l None) (H _ _ _ _ _ _)); try (cbn; lia); repeat constructor; unfold ubyte; cbn; try lia; repeat constructor; unfold ubyte; lia.
Qed.
