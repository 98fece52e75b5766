(** * C94-C97: the current APDU, a complete applet, available memory: proofs *)
From Verif Require Import Py S_Base S_APDU L_Py M_utils M_util L_utils L_util M_apdu S_ApduObs L_apdu M_system M_world S_World LP_apdu LP_util.
From Coq Require Import ZifyBool ZifyNat.
Ltac Zify.zify_post_hook ::= Z.div_mod_to_equations.


Lemma header_part_ok b : 4 <= zlen b -> header_part b = Ok (initbuf b).
Proof.
  intros H. unfold header_part.
  assert (R : zlen (py_repeat 0 (255 + 2)) = 257) by reflexivity.
  rewrite copy_cells_ok by lia.
  assert (P : (if 4 <? zlen b then
                let? lc := py_get b OFFSET_LC in
                Ok (if (lc =? 0) && (OFFSET_LC + 3 <? zlen b) then 3 else 1)
              else Ok 0) = Ok (p3len b)).
  { unfold p3len. destruct (Z.ltb_spec 4 (zlen b)); [|reflexivity].
    unfold OFFSET_LC. rewrite (py_get_in b 4 0) by lia. reflexivity. }
  rewrite P. cbn [rbind]. pose proof (p3len_bounds b H) as Hp.
  assert (L4 : zlen (splice (py_repeat 0 (255 + 2)) (Z.to_nat 0) (sub b (Z.to_nat 0) (Z.to_nat 4))) = 257).
  { unfold zlen. rewrite splice_length; [reflexivity|].
    rewrite sub_length by (unfold zlen in *; lia). unfold py_repeat. rewrite repeat_length. lia. }
  unfold OFFSET_LC. rewrite copy_cells_ok by lia. f_equal. now apply initbuf_two.
Qed.
Lemma newAPDU_fails b e : newAPDU b = Err e -> zlen b < 4 \/ six_bytes b /\ e = IndexError.
Proof.
  intros H. destruct (Z.lt_ge_cases (zlen b) 4) as [|H4]; [auto|]. right.
  rewrite newAPDU_eq in H by lia. repeat match type of H with (if ?c then _ else _) = _ => destruct c eqn:? end; try discriminate H.
  injection H as <-. split; [|reflexivity]. unfold six_bytes, b4 in *. assert (length b = 6%nat) by (unfold zlen in *; lia).
  split; [assumption|]. rewrite (nth_indep b 1 0) by lia. lia.
Qed.
Lemma construct_eq b w : 4 <= zlen b ->
  construct b w = match newAPDU b with
    | Ok s => (Ok (length (w_objs w)), mkWorld (w_objs w ++ [WFull s]) (Some (length (w_objs w))))
    | Err e => (Err e, mkWorld (w_objs w ++ [WPart b (initbuf b)]) (Some (length (w_objs w)))) end.
Proof.
  intros H. unfold construct. replace (zlen b <? 4) with false by lia. rewrite header_part_ok by lia.
  unfold bind at 1, lift. unfold bind at 1, get. destruct (newAPDU b); reflexivity.
Qed.
Lemma construct_short b w : zlen b < 4 -> construct b w = (Err (APDUExc BAD_LENGTH), w).
Proof. intros H. unfold construct. now replace (zlen b <? 4) with true by lia. Qed.

(** *** C94 *)

Lemma C94_exact_partial_pf : forall b w,
  (zlen b < 4 -> construct b w = (Err (APDUExc BAD_LENGTH), w))
  /\ (4 <= zlen b -> ~ six_bytes b -> exists s, newAPDU b = Ok s
        /\ construct b w = (Ok (length (w_objs w)), mkWorld (w_objs w ++ [WFull s]) (Some (length (w_objs w)))))
  /\ (six_bytes b -> exists w', construct b w = (Err IndexError, w')
        /\ getCurrentAPDU w' = Some (length (w_objs w))
        /\ getCurrentAPDUBuffer w' = Ok (firstn 5 b ++ repeat 0 252)).
Proof.
  intros b w. split; [apply construct_short|]. split.
  - intros H N. rewrite construct_eq by lia. destruct (newAPDU b) as [s|e] eqn:E; [eauto|].
    apply newAPDU_fails in E. destruct E as [E|[E _]]; [lia|contradiction].
  - intros [H1 H2]. assert (H4 : 4 <= zlen b) by (unfold zlen; lia). rewrite construct_eq by lia.
    assert (E : newAPDU b = Err IndexError) by (apply C31_six_bytes_refuted_pf; assumption).
    rewrite E. eexists. split; [reflexivity|]. split; [reflexivity|].
    unfold getCurrentAPDUBuffer. cbn [w_cur w_objs]. rewrite nth_error_app2, Nat.sub_diag by lia. cbn [nth_error obj_buf]. f_equal.
    do 7 (destruct b as [|? b]; try discriminate H1). cbn in H2. subst. reflexivity.
Qed.

Lemma wrun_cur h : (forall b, In (WNew b) h -> ~ six_bytes b) -> forall w tr w', wrun h w = (tr, w') ->
  w_cur w' = last_created tr (w_cur w).
Proof.
  induction h as [|o h IH]; intros Hh w tr w' E; [injection E as <- <-; reflexivity|].
  cbn [wrun] in E. destruct (wstep o w) as [r w1] eqn:E1. destruct (wrun h w1) as [tr1 w2] eqn:E2.
  injection E as <- <-. apply IH in E2; [|intros b Hb; apply Hh; now right]. rewrite E2.
  destruct o as [b|id o]; cbn [wstep] in E1.
  - destruct (Z.lt_ge_cases (zlen b) 4) as [H4|H4].
    + rewrite (bind_err _ _ _ _ _ (construct_short b w H4)) in E1. injection E1 as <- <-. reflexivity.
    + unfold bind in E1. rewrite construct_eq in E1 by lia. destruct (newAPDU b) as [s|e] eqn:Eb.
      * injection E1 as <- <-. reflexivity.
      * apply newAPDU_fails in Eb. destruct Eb as [|[Eb _]]; [lia|]. elim (Hh b); [now left|assumption].
  - cbn [last_created]. destruct (nth_error (w_objs w) id) as [[s|? ?]|]; [|injection E1 as <- <-; reflexivity..].
    destruct (apdu_step o s) as [r' s']. injection E1 as <- <-. destruct r'; reflexivity.
Qed.

Lemma C94_current_partial_pf : forall h tr w, (forall b, In (WNew b) h -> ~ six_bytes b) ->
  wrun h world0 = (tr, w) -> getCurrentAPDU w = last_created tr None.
Proof. intros h tr w H E. exact (wrun_cur h H world0 tr w E). Qed.

Lemma C94_full_refuted_pf : ~ C94_full.
Proof.
  intros H. specialize (H [WNew [0; 0; 0; 0]; WNew [0; 0; 0; 0; 0; 1]] _ _ eq_refl). vm_compute in H. discriminate H.
Qed.

(** *** C95 *)
Lemma wrun_app h1 : forall h2 w, wrun (h1 ++ h2) w
  = let '(t1, w1) := wrun h1 w in let '(t2, w2) := wrun h2 w1 in (t1 ++ t2, w2).
Proof.
  induction h1 as [|o h1 IH]; intros h2 w; [cbn [app wrun]; destruct (wrun h2 w); reflexivity|].
  cbn [app wrun]. destruct (wstep o w) as [r w1]. rewrite IH. destruct (wrun h1 w1) as [t1 w2]. destruct (wrun h2 w2). reflexivity.
Qed.
Lemma set_head i v (b : list Z) : 0 < i -> nth_error (snd (aset i v b)) 0 = nth_error b 0.
Proof.
  intros H. unfold aset, bind, get, lift, put.
  destruct (py_set b i v) as [b'|e] eqn:E; [|reflexivity].
  unfold py_set in E. destruct (py_index (zlen b) i) as [k|] eqn:K; [|discriminate]. injection E as <-.
  unfold py_index in K. destruct ((0 <=? i) && (i <? zlen b)); [injection K as <-|destruct ((- zlen b <=? i) && (i <? 0)) eqn:?; [lia|discriminate]].
  cbn [snd]. destruct b as [|x b]; [reflexivity|]. destruct (Z.to_nat i) eqn:Q; [lia|]. reflexivity.
Qed.
Lemma cp_loop_head n : forall src so bo i b, 0 < bo + i ->
  nth_error (snd (for_loop n i (cp_body src so bo) b)) 0 = nth_error b 0.
Proof.
  induction n as [|n IH]; intros src so bo i b H; [reflexivity|]. rewrite for_loop_S. unfold bind at 1. unfold cp_body at 1. unfold bind, lift.
  destruct (py_get src (so + i)) as [v|e]; [|reflexivity]. pose proof (set_head (bo + i) v b H) as Q.
  destruct (aset (bo + i) v b) as [[u|e] b']; cbn [snd] in *; [|exact Q]. rewrite IH by lia. exact Q.
Qed.
Lemma receive_head bOffs s : 0 < bOffs -> nth_error (buf (snd (receive_block bOffs s))) 0 = nth_error (buf s) 0.
Proof.
  intros H. rewrite receive_block_unfold. cbv zeta.
  pose proof (cp_loop_head (Z.to_nat (Z.min IN_BLOCKSIZE (zlen (raw s) - offin s - lelength s))) (raw s) (offin s) bOffs 0 (buf s) ltac:(lia)) as Q.
  destruct (for_loop _ 0 _ (buf s)) as [[u|e] b]; cbn [snd with_in with_buf buf] in *; exact Q.
Qed.

Definition keep (P : apdu) (s : apdu) : Prop := nth_error (buf s) 0 = nth_error (buf P) 0 /\ (st s = 0 -> 0 < offin s).
Lemma keep_out s0 s r x n c : keep s0 s -> 3 <= x -> keep s0 (with_out r x n c s).
Proof. intros [H1 H2] Hx. split; [exact H1|]. cbn [st with_out]. lia. Qed.
Lemma keep_send s0 src b n s : keep s0 s -> keep s0 (snd (send_block src b n s)).
Proof.
  intros H. unfold send_block, bind, get, raise, put. destruct (curout s); [|exact H]. destruct (_ <? _); [exact H|].
  cbn [snd]. apply keep_out; [exact H|]. unfold STATE_PARTIAL_OUTGOING, STATE_FULL_OUTGOING. destruct (_ <? _); lia.
Qed.
Lemma keep_setOutgoing s0 s : keep s0 s -> keep s0 (snd (setOutgoing s)).
Proof.
  intros H. unfold setOutgoing, bind, get, raise, put, ret. destruct (_ <=? _); [exact H|]. cbn [snd]. apply keep_out; [exact H|unfold STATE_OUTGOING; lia].
Qed.
Lemma keep_setOutgoingLength s0 n s : keep s0 s -> keep s0 (snd (setOutgoingLength n s)).
Proof.
  intros H. unfold setOutgoingLength, bind, get, raise, put, ret. destruct (_ <? _); [exact H|].
  destruct (match Ne s with Some e => e <? n | None => false end); [exact H|]. cbn [snd]. apply keep_out; [exact H|unfold STATE_OUTGOING_LENGTH_KNOWN; lia].
Qed.
Lemma keep_sendBytes s0 b n s : keep s0 s -> keep s0 (snd (sendBytes b n s)).
Proof. intros H. unfold sendBytes, bind at 1, get, raise. destruct (_ <? _); [exact H|]. now apply keep_send. Qed.
Lemma keep_sendBytesLong s0 d b n s : keep s0 s -> keep s0 (snd (sendBytesLong d b n s)).
Proof. intros H. unfold sendBytesLong, bind at 1, get, raise. destruct (_ && _); [exact H|]. now apply keep_send. Qed.
Lemma keep_receive s0 b s : keep s0 s -> 0 < b -> keep s0 (snd (receive_block b s)).
Proof.
  intros [H1 H2] Hb. split; [rewrite receive_head by assumption; exact H1|].
  rewrite receive_block_unfold. cbv zeta. destruct (for_loop _ 0 _ (buf s)) as [[u|e] b1]; cbn [snd with_in with_buf st offin]; [|exact H2].
  unfold STATE_FULL_INCOMING, STATE_PARTIAL_INCOMING. destruct (_ =? _); discriminate.
Qed.
Lemma keep_step s0 o s : keep s0 s -> keeps_cla o -> keep s0 (snd (apdu_step o s)).
Proof.
  intros H Ho. destruct o as [|b| |n|b n|d b n|b n|i v]; cbn [apdu_step keeps_cla] in *; clear - H Ho.
  - unfold msome. revert s H. apply (pres_bind (keep s0)); [|auto]. intros s H. unfold setIncomingAndReceive, bind, get, raise, STATE_INITIAL.
    destruct (negb (st s =? 0)) eqn:E; [exact H|]. destruct (broken s); [exact H|]. apply keep_receive; [exact H|]. apply H. lia.
  - unfold msome. revert s H. apply (pres_bind (keep s0)); [|auto]. intros s H. unfold receiveBytes, bind, get, raise.
    destruct (_ || _); [exact H|]. now apply keep_receive.
  - revert s H. apply (pres_bind (keep s0)); [intros; now apply keep_setOutgoing|auto].
  - revert s H. apply (pres_bind (keep s0)); [intros; now apply keep_setOutgoingLength|auto].
  - revert s H. apply (pres_bind (keep s0)); [intros; now apply keep_sendBytes|auto].
  - revert s H. apply (pres_bind (keep s0)); [intros; now apply keep_sendBytesLong|auto].
  - revert s H. apply (pres_bind (keep s0)); [|auto]. unfold setOutgoingAndSend.
    apply (pres_bind (keep s0)); [intros; now apply keep_setOutgoing|]. intros _.
    apply (pres_bind (keep s0)); [intros; now apply keep_setOutgoingLength|]. intros _ s H. now apply keep_sendBytes.
  - pose proof (set_head i v (buf s) Ho) as Q. destruct (aset i v (buf s)) as [[u|e] b1]; cbn [snd] in *; [|exact H].
    destruct H as [H1 H2]. split; [cbn [buf with_buf]; congruence|exact H2].
Qed.
Lemma list_upd_same {A} (l : list A) k v x : nth_error l k = Some x -> nth_error (list_upd l k v) k = Some v.
Proof. revert k; induction l as [|y l IH]; intros [|k] H; try discriminate; [reflexivity|]. cbn. now apply IH. Qed.
Lemma list_upd_other {A} (l : list A) k j v : j <> k -> nth_error (list_upd l k v) j = nth_error l j.
Proof. revert k j; induction l as [|y l IH]; intros [|k] [|j] H; try reflexivity; [contradiction|]. cbn. apply IH. congruence. Qed.
Lemma calls_keep h : Forall (fun o => match o with WCall _ o => keeps_cla o | WNew _ => False end) h ->
  forall w tr w' id s0 s, wrun h w = (tr, w') -> w_cur w = Some id -> nth_error (w_objs w) id = Some (WFull s) -> keep s0 s ->
  exists s', w_cur w' = Some id /\ nth_error (w_objs w') id = Some (WFull s') /\ keep s0 s'.
Proof.
  induction 1 as [|o h Ho Hh IH]; intros w tr w' id s0 s E Hc Hi Hk; [injection E as <- <-; eauto|].
  cbn [wrun] in E. destruct (wstep o w) as [r w1] eqn:E1. destruct (wrun h w1) as [tr1 w2] eqn:E2. injection E as <- <-.
  destruct o as [b|id' o]; [contradiction|]. cbn [wstep] in E1.
  destruct (nth_error (w_objs w) id') as [[s'|? ?]|] eqn:En; [|injection E1 as <- <-; now apply (IH _ _ _ id s0 s E2)..].
  pose proof (keep_step s0 o s') as K. destruct (apdu_step o s') as [r' s'']. injection E1 as <- <-.
  destruct (Nat.eq_dec id id') as [<-|N].
  - assert (s' = s) by congruence; subst s'. apply (IH _ _ _ id s0 s'' E2); [exact Hc|cbn [w_objs]; now apply list_upd_same with (1 := Hi)|].
    now apply K.
  - apply (IH _ _ _ id s0 s E2); [exact Hc|cbn [w_objs]; rewrite list_upd_other by congruence; exact Hi|exact Hk].
Qed.

Lemma C95_channel_partial_pf : forall b s h h' tr w, newAPDU b = Ok s ->
  Forall (fun o => match o with WCall _ o => keeps_cla o | WNew _ => False end) h' ->
  wrun (h ++ [WNew b] ++ h') world0 = (tr, w) -> getCLAChannel w = Ok (nth 0 b 0 mod 4).
Proof.
  intros b s h h' tr w Hb Hh E. rewrite wrun_app in E. destruct (wrun h world0) as [t1 w1].
  rewrite wrun_app in E. cbn [wrun wstep] in E. unfold bind in E.
  assert (H4 : 4 <= zlen b) by (apply newAPDU_inv in Hb; tauto).
  rewrite construct_eq, Hb in E by lia. cbn [ret] in E. remember (mkWorld _ _) as w2 eqn:E2 in E.
  destruct (wrun h' w2) as [t2 w3] eqn:E3. injection E as _ <-.
  assert (Hs : nth_error (buf s) 0 = Some (nth 0 b 0) /\ keep s s).
  { apply newAPDU_inv in Hb as (_ & br & cd & ty & nc & ne & ll & -> & _). pose proof (p3len_bounds b H4).
    split; [|split; [reflexivity|cbn [st offin mk_apdu]; lia]]. cbn [buf mk_apdu]. unfold initbuf.
    replace (Z.to_nat (4 + p3len b)) with (S (Z.to_nat (3 + p3len b))) by lia.
    destruct b as [|x b]; [cbn in H4; lia|]. reflexivity. }
  destruct Hs as [Hs Hk].
  destruct (calls_keep h' Hh w2 t2 w3 (length (w_objs w1)) s s E3) as (s' & Q1 & Q2 & Q3 & _); [now subst w2| |exact Hk|].
  { subst w2. cbn [w_objs]. rewrite nth_error_app2, Nat.sub_diag by lia. reflexivity. }
  unfold getCLAChannel, getCurrentAPDUBuffer. rewrite Q1, Q2. cbn [obj_buf rbind]. rewrite Hs in Q3.
  destruct (buf s') as [|x l] eqn:Eb; [discriminate|]. injection Q3 as ->.
  unfold OFFSET_CLA. rewrite (py_get_in (nth 0 b 0 :: l) 0 0) by (rewrite zlen_cons; pose proof (zlen_nonneg l); lia).
  cbn [rbind Z.to_nat]. f_equal. cbn [nth]. change 3 with (Z.ones 2). rewrite Z.land_ones by lia. reflexivity.
Qed.

Lemma C95_none_pf : getCLAChannel world0 = Err AttributeError.
Proof. reflexivity. Qed.

Lemma C95_full_refuted_pf : ~ C95_full.
Proof.
  intros H. assert (O : only_calls [WCall 0 (OpWriteBuffer 0 1)]) by repeat constructor.
  pose proof (H [2; 0; 0; 0] _ [] _ _ _ eq_refl O eq_refl) as Q. vm_compute in Q. discriminate Q.
Qed.

(** *** C96 *)
Lemma recv_short raw c s : wf_command c -> is_short c = true -> encodes raw c -> newAPDU raw = Ok s ->
  exists n b o x, setIncomingAndReceive s = (Ok n, with_in b o x s) /\ length b = 257%nat /\ x < 3 /\ 4 <= zlen raw
    /\ M_apdu.raw s = raw /\ st s = 0 /\ Ne s = command_le c /\ buf s = initbuf raw /\ outlen s = 0.
Proof.
  intros Hw Hs He H. destruct (short_exact raw c Hw Hs He) as (ty & ll & Q & Hcd & Hll). rewrite Q in H. apply Ok_inj in H. subst s.
  pose proof (encodes_len raw c He) as HL. pose proof (zlen_nonneg (body c)) as HB. assert (H4 : 4 <= zlen raw) by lia.
  pose proof (p3len_bounds raw H4) as Hp. pose proof (initbuf_length raw H4) as HI.
  unfold setIncomingAndReceive, bind, get. cbn [st mk_apdu broken STATE_INITIAL Z.eqb negb].
  destruct (command_data c) as [|x0 d] eqn:Ec.
  - rewrite receive_block_unfold. cbn [offin mk_apdu M_apdu.raw lelength buf].
    assert (N : zlen raw - (4 + p3len raw) - ll <= 0).
    { destruct c; try discriminate; cbn [command_data body] in *; subst; unfold le1 in *; rewrite ?zlen_cons, ?zlen_nil in HL; try (destruct Hw as [_ Hw]; cbn in Hw; lia).
      unfold p3len. replace (4 <? zlen raw) with true by lia. replace (7 <? zlen raw) with false by lia. rewrite andb_false_r. lia. }
    cbv zeta. replace (Z.to_nat (Z.min IN_BLOCKSIZE (zlen raw - (4 + p3len raw) - ll))) with 0%nat by lia. cbn [for_loop ret].
    do 4 eexists. split; [reflexivity|]. split; [exact HI|]. split; [unfold STATE_FULL_INCOMING, STATE_PARTIAL_INCOMING; destruct (_ =? _); lia|].
    repeat split; try reflexivity; lia.
  - rewrite <- Ec in *. destruct (Hcd ltac:(congruence)) as [P1 P2]. pose proof (zlen_nonneg (command_data c)).
    rewrite (receive_block_ok _ _ (Z.min IN_BLOCKSIZE (zlen (command_data c)))); cbn [M_apdu.raw offin lelength buf mk_apdu]; try lia; try (unfold IN_BLOCKSIZE; lia).
    2:{ unfold zlen at 2. rewrite HI. unfold IN_BLOCKSIZE. lia. }
    do 4 eexists. split; [reflexivity|].
    split.
    { rewrite splice_length; [exact HI|]. rewrite sub_length by (unfold zlen, IN_BLOCKSIZE in *; lia). rewrite HI. unfold IN_BLOCKSIZE. lia. }
    split; [unfold STATE_FULL_INCOMING, STATE_PARTIAL_INCOMING; destruct (_ =? _); lia|].
    repeat split; try reflexivity; lia.
Qed.
Lemma write_ok i v s : 0 <= i < zlen (buf s) -> write_buffer i v s = (Ok tt, with_buf (list_upd (buf s) (Z.to_nat i) v) s).
Proof. intros H. unfold write_buffer. rewrite aset_in by lia. reflexivity. Qed.
Lemma slice3 {A} (a b c : A) l : py_slice (a :: b :: c :: l) 0 3 = [a; b; c].
Proof.
  pose proof (zlen_nonneg l). unfold py_slice, py_clamp. rewrite !zlen_cons. cbn [Z.ltb Z.compare].
  rewrite (Z.min_l 3) by lia. rewrite (Z.min_l 0) by lia. reflexivity.
Qed.
Lemma slice_set3 {A} (a b c : A) l v : py_slice_set (a :: b :: c :: l) 0 3 v = v ++ l.
Proof.
  pose proof (zlen_nonneg l). unfold py_slice_set, py_clamp. rewrite !zlen_cons. cbn [Z.ltb Z.compare].
  rewrite (Z.min_l 3) by lia. rewrite (Z.min_l 0) by lia. reflexivity.
Qed.
Lemma slice0 {A} (l : list A) : py_slice l 0 0 = [].
Proof. unfold py_slice. now rewrite Z.sub_diag. Qed.
Lemma bit7 v : (Z.land v 128 =? 0) = negb (Z.testbit v 7).
Proof.
  destruct (Z.testbit v 7) eqn:E.
  - apply Z.eqb_neq. intros H. assert (Q : Z.testbit (Z.land v 128) 7 = false) by (rewrite H; apply Z.bits_0).
    rewrite Z.land_spec, E in Q. discriminate Q.
  - apply Z.eqb_eq. apply Z.bits_inj_iff. intros i. rewrite Z.land_spec, Z.bits_0. change 128 with (2 ^ 7).
    destruct (Z.eq_dec i 7) as [->|N]; [now rewrite E|]. rewrite Z.pow2_bits_false by congruence. apply andb_false_r.
Qed.
Lemma choice1_short raw c s : wf_command c -> is_short c = true -> encodes raw c -> newAPDU raw = Ok s ->
  match choice1 s with
  | (Ok _, s') => match command_le c with Some n => 3 <= n | None => True end /\ py_slice (M_apdu.raw s') 0 (outlen s') = [55; 77; 99]
  | (Err e, _) => match command_le c with Some n => n < 3 | None => False end /\ e = APDUExc BAD_LENGTH
  end.
Proof.
  intros Hw Hs He H. destruct (recv_short raw c s Hw Hs He H) as (n & b & o & x & E & Lb & Hx & H4 & R & S0 & N & _).
  unfold choice1. rewrite (bind_ok _ _ _ _ _ E).
  do 3 (destruct b as [|? b]; [discriminate Lb|]). cbn [length] in Lb. assert (Zb : zlen b = 254) by (unfold zlen; lia).
  do 3 (erewrite bind_ok; [|apply write_ok; cbn [buf with_in with_buf]; unfold zlen in *; rewrite ?list_upd_length; cbn [length]; lia]).
  cbn [buf with_in with_buf]. change (Z.to_nat 0) with 0%nat. change (Z.to_nat 1) with 1%nat. change (Z.to_nat 2) with 2%nat. cbn [list_upd].
  unfold setOutgoingAndSend, setOutgoing, bind, get, raise, put, ret.
  cbn [st with_in with_buf]. unfold STATE_OUTGOING. replace (3 <=? x) with false by lia.
  cbn [fst snd]. unfold setOutgoingLength, bind, get, raise, put. cbn [st with_out Ne with_in with_buf]. unfold STATE_OUTGOING. cbn [Z.ltb Z.compare Pos.compare Pos.compare_cont].
  rewrite N. destruct (match command_le c with Some n0 => n0 <? 3 | None => false end) eqn:E3.
  - split; [|reflexivity]. destruct (command_le c); [lia|discriminate].
  - unfold sendBytes, send_block, bind, get, raise, put. cbn [st with_out curout buf M_apdu.raw with_in with_buf outlen]. unfold STATE_OUTGOING, OUT_BLOCKSIZE, STATE_OUTGOING_LENGTH_KNOWN.
    cbn [Z.ltb Z.compare Pos.compare Pos.compare_cont Z.add]. split; [destruct (command_le c); [lia|exact I]|].
    cbn [M_apdu.raw outlen with_out]. rewrite R. do 4 (destruct raw as [|? raw]; [cbn in H4; lia|]).
    rewrite slice3. change (0 + 3) with 3. rewrite slice_set3. apply slice3.
Qed.

Lemma C96_base_pf : forall raw c, wf_command c -> is_short c = true -> encodes raw c ->
  respond (base_process (Some false)) raw
  = match base_answer (nth 0 raw 0) (nth 1 raw 0) (command_le c) with Some a => Ok a | None => Err (APDUExc BAD_LENGTH) end
  /\ respond (base_process (Some true)) raw = Ok [0x90; 0].
Proof.
  intros raw c Hw Hs He. destruct (C23_short_pf raw c Hw Hs He) as (s & H & _).
  pose proof (choice1_short raw c s Hw Hs He H) as CH.
  destruct (recv_short raw c s Hw Hs He H) as (n & b & o & x & _ & _ & _ & H4 & R & _ & _ & B & O).
  unfold respond. rewrite H. cbn [rbind base_process].
  assert (B0 : py_get (buf s) 0 = Ok (nth 0 raw 0) /\ py_get (buf s) 1 = Ok (nth 1 raw 0)).
  { pose proof (initbuf_length raw H4). pose proof (p3len_bounds raw H4).
    rewrite B, !(py_get_in (initbuf raw) _ 0) by (unfold zlen; lia).
    unfold initbuf. replace (Z.to_nat (4 + p3len raw)) with (S (S (Z.to_nat (2 + p3len raw)))) by lia.
    do 2 (destruct raw as [|? raw]; [cbn in H4; lia|]). split; reflexivity. }
  destruct B0 as [_ B1]. split.
  - unfold bind at 1, get. unfold isISOInterindustryCLA, OFFSET_CLA. rewrite R, (py_get_in raw 0 0) by lia. cbn [rbind]. unfold bind at 1, lift, raise. change (Z.to_nat 0) with 0%nat.
    unfold base_answer. rewrite bit7. destruct (Z.testbit (nth 0 raw 0) 7); cbn [negb]; [|reflexivity].
    unfold bind at 1, OFFSET_INS. rewrite B1.
    destruct (nth 1 raw 0 =? 8).
    + destruct (choice1 s) as [[u|e] s']; destruct CH as [CH1 CH2].
      * rewrite CH2. replace (match command_le c with Some n => 3 <=? n | None => true end) with true by (destruct (command_le c); lia). reflexivity.
      * subst e. destruct (command_le c); [|contradiction]. replace (3 <=? z) with false by lia. reflexivity.
    + destruct (nth 1 raw 0 =? 56); [cbn [orb]; unfold ret; rewrite O, slice0; reflexivity|].
      destruct (nth 1 raw 0 =? 42); [cbn [orb]; unfold ret; rewrite O, slice0; reflexivity|]. reflexivity.
  - unfold ret. rewrite O, slice0. reflexivity.
Qed.

Lemma C96_unselected_pf : forall raw s, newAPDU raw = Ok s -> respond (base_process None) raw = Err AttributeError.
Proof. intros raw s H. unfold respond. now rewrite H. Qed.

Lemma C96_abstract_pf : forall s, applet_install = Err NotImplementedError /\ applet_process s = (Err NotImplementedError, s).
Proof. split; reflexivity. Qed.

(** *** C97 *)

Lemma C97_partial_pf : forall offset memoryType buffer, 0 <= offset -> offset + 2 <= zlen buffer ->
  exists b', getAvailableMemory3 offset memoryType (Some buffer) = (Ok tt, Some b')
    /\ getShort b' offset = Ok 32767 /\ length b' = length buffer
    /\ forall i, Z.of_nat i <> offset -> Z.of_nat i <> offset + 1 -> nth_error b' i = nth_error buffer i.
Proof.
  intros offset mt buffer H0 H1. unfold getAvailableMemory3. rewrite !py_set_in by (rewrite ?zlen_list_upd; lia).
  eexists. split; [reflexivity|]. split; [|split].
  - rewrite getShort_ok by (rewrite ?zlen_list_upd; lia). unfold zlen in *.
    rewrite !nth_list_upd by (rewrite ?list_upd_length; lia). rewrite !list_upd_length.
    replace (Z.to_nat (offset + 1)) with (S (Z.to_nat offset)) by lia. rewrite !Nat.eqb_refl.
    replace (Z.to_nat offset =? S (Z.to_nat offset))%nat with false by lia.
    replace (S (Z.to_nat offset) <? length buffer)%nat with true by lia. replace (Z.to_nat offset <? length buffer)%nat with true by lia. reflexivity.
  - now rewrite !list_upd_length.
  - intros i N1 N2. rewrite !list_upd_other by lia. reflexivity.
Qed.

Lemma C97_errors_refuted_pf : forall offset memoryType,
  getAvailableMemory3 offset memoryType None = (Err NameError, None)
  /\ forall buffer, 0 <= offset -> zlen buffer < offset + 2 ->
     getAvailableMemory3 offset memoryType (Some buffer)
     = (Err NameError, Some (if offset <? zlen buffer then list_upd buffer (Z.to_nat offset) 127 else buffer)).
Proof.
  intros offset mt. split; [reflexivity|]. intros buffer H0 H1. unfold getAvailableMemory3.
  destruct (Z.ltb_spec offset (zlen buffer)).
  - rewrite py_set_in by lia. rewrite py_set_out by (rewrite zlen_list_upd; lia). reflexivity.
  - rewrite py_set_out by lia. reflexivity.
Qed.

Lemma C97_full_refuted_pf : ~ C97_full.
Proof. intros H. destruct (H 0 0) as [H1 _]. discriminate H1. Qed.
