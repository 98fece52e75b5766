(** * C113-C114: the arrays APDU objects share: proofs *)
From Verif Require Import Py S_Base S_APDU L_Py M_utils M_util L_utils L_util M_apdu S_ApduObs L_apdu LP_apdu M_apduheap S_ApduHeap.
From Coq Require Import ZifyBool ZifyNat.
Ltac Zify.zify_post_hook ::= Z.div_mod_to_equations.

Lemma hget_hset h l v j : hget (hset h l v) j = if Nat.eqb j l && Nat.ltb l (length h) then v else hget h j.
Proof. unfold hget, hset. apply nth_list_upd. Qed.
Lemma hset_length h l v : length (hset h l v) = length h.
Proof. apply list_upd_length. Qed.
Lemma hget_app h v l : (l < length h)%nat -> hget (h ++ [v]) l = hget h l.
Proof. intros H. unfold hget. now apply app_nth1. Qed.
Lemma view_raw h o : raw (view h o) = hget h (oraw o).
Proof. reflexivity. Qed.
Lemma view_buf h o : buf (view h o) = hget h (obuf o).
Proof. reflexivity. Qed.
Lemma with_lists_id s : with_lists (raw s) (buf s) s = s.
Proof. destruct s; reflexivity. Qed.

(** reachable programs *)
Definition wf (p : prog) : Prop :=
  (forall k x, nth_error (objs p) k = Some x ->
     (oraw x < length (lists p))%nat /\ (obuf x < length (lists p))%nat /\ oraw x <> obuf x)
  /\ (forall j y k x, nth_error (objs p) j = Some y -> nth_error (objs p) k = Some x -> j <> k -> obuf y <> obuf x).

Lemma call_on_eq k o p x : nth_error (objs p) k = Some x ->
  call_on k o p =
  (fst (apdu_step o (view (lists p) x)),
   mkP (hset (hset (lists p) (oraw x) (raw (snd (apdu_step o (view (lists p) x))))) (obuf x)
         (buf (snd (apdu_step o (view (lists p) x)))))
       (list_upd (objs p) k (mkH (oraw x) (obuf x) (snd (apdu_step o (view (lists p) x)))))).
Proof. intros H. unfold call_on. rewrite H. destruct (apdu_step _ _); reflexivity. Qed.
Lemma call_on_none k o p : nth_error (objs p) k = None -> call_on k o p = (Err IndexError, p).
Proof. intros H. unfold call_on. now rewrite H. Qed.

(** the objects keep their lists *)
Lemma call_on_objs k o p j :
  option_map oraw (nth_error (objs (snd (call_on k o p))) j) = option_map oraw (nth_error (objs p) j)
  /\ option_map obuf (nth_error (objs (snd (call_on k o p))) j) = option_map obuf (nth_error (objs p) j).
Proof.
  destruct (nth_error (objs p) k) as [x|] eqn:E; [|now rewrite call_on_none].
  rewrite (call_on_eq _ _ _ _ E). cbn [snd objs]. rewrite nth_error_list_upd.
  destruct (Nat.eqb_spec j k) as [->|N]; [|auto].
  assert (Hk : (k < length (objs p))%nat) by (apply nth_error_Some; congruence).
  apply Nat.ltb_lt in Hk. rewrite Hk, E. auto.
Qed.
Lemma call_on_len k o p : length (lists (snd (call_on k o p))) = length (lists p).
Proof.
  destruct (nth_error (objs p) k) as [x|] eqn:E; [|now rewrite call_on_none].
  rewrite (call_on_eq _ _ _ _ E). cbn [snd lists]. now rewrite !hset_length.
Qed.
Lemma omap_some {A B} (f : A -> B) o o' x : option_map f o = option_map f o' -> o = Some x ->
  exists x', o' = Some x' /\ f x' = f x.
Proof. intros H ->. destruct o'; [|discriminate]. injection H as H. eauto. Qed.

Lemma wf_call k o p : wf p -> wf (snd (call_on k o p)).
Proof.
  intros [W1 W2]. split.
  - intros j x H. destruct (call_on_objs k o p j) as [A B].
    destruct (omap_some _ _ _ _ A H) as (y & Hy & E1).
    destruct (omap_some _ _ _ _ B H) as (y' & Hy' & E2).
    rewrite Hy in Hy'. injection Hy' as <-. rewrite call_on_len, <- E1, <- E2. eauto.
  - intros j y i x Hj Hi N.
    destruct (call_on_objs k o p j) as [_ B]. destruct (omap_some _ _ _ _ B Hj) as (y' & Hy & E1).
    destruct (call_on_objs k o p i) as [_ B']. destruct (omap_some _ _ _ _ B' Hi) as (x' & Hx & E2).
    rewrite <- E1, <- E2. eauto.
Qed.
Lemma nth_error_snoc {A} (l : list A) v k x : nth_error (l ++ [v]) k = Some x ->
  nth_error l k = Some x \/ (k = length l /\ x = v).
Proof.
  intros H. destruct (Nat.lt_ge_cases k (length l)).
  - left. now rewrite nth_error_app1 in H.
  - rewrite nth_error_app2 in H by assumption. destruct (k - length l)%nat as [|m] eqn:E.
    + right. injection H as <-. split; [lia|reflexivity].
    + destruct m; discriminate.
Qed.
Lemma new_ok_len h l s : newAPDU (hget h l) = Ok s -> (l < length h)%nat.
Proof.
  intros H. destruct (Nat.lt_ge_cases l (length h)) as [|G]; [assumption|].
  unfold hget in H. rewrite nth_overflow in H by assumption. discriminate.
Qed.
Lemma wf_step c p : wf p -> wf (snd (pstep c p)).
Proof.
  intros W. destruct c as [l|k o|k l b n|v|l i v]; cbn [pstep]; try now apply wf_call.
  - destruct (newAPDU (hget (lists p) l)) as [s|e] eqn:E; [|assumption]. cbn [snd].
    pose proof (new_ok_len _ _ _ E) as Hl. destruct W as [W1 W2].
    split; cbn [lists objs]; rewrite ?app_length; cbn [length].
    + intros k x H. apply nth_error_snoc in H as [H|[-> ->]].
      * destruct (W1 _ _ H) as (A & B & C). repeat split; try lia; assumption.
      * cbn. lia.
    + intros j y k x Hj Hk N. apply nth_error_snoc in Hj as [Hj|[-> ->]]; apply nth_error_snoc in Hk as [Hk|[-> ->]]; cbn.
      * eauto.
      * destruct (W1 _ _ Hj) as (A & B & C). lia.
      * destruct (W1 _ _ Hk) as (A & B & C). lia.
      * congruence.
  - destruct W as [W1 W2]. split; cbn [snd lists objs]; [|assumption].
    intros k x H. rewrite app_length. destruct (W1 _ _ H) as (A & B & C). repeat split; try lia; assumption.
  - destruct (aset i v (hget (lists p) l)) as [[[]|e] w]; [|assumption].
    destruct W as [W1 W2]. split; cbn [snd lists objs]; rewrite ?hset_length; assumption.
Qed.
Lemma prun_cons c cs p : prun (c :: cs) p =
  (fst (pstep c p) :: fst (prun cs (snd (pstep c p))), snd (prun cs (snd (pstep c p)))).
Proof. cbn [prun]. destruct (pstep c p) as [r p1]. cbn [fst snd]. destruct (prun cs p1); reflexivity. Qed.
Lemma prun_app cs : forall cs' p, prun (cs ++ cs') p =
  (fst (prun cs p) ++ fst (prun cs' (snd (prun cs p))), snd (prun cs' (snd (prun cs p)))).
Proof.
  induction cs as [|c cs IH]; intros cs' p; [cbn; destruct (prun cs' p); reflexivity|].
  cbn [app]. rewrite !prun_cons, IH. reflexivity.
Qed.
Lemma wf_run cs : forall p, wf p -> wf (snd (prun cs p)).
Proof.
  induction cs as [|c cs IH]; intros p W; [assumption|]. rewrite prun_cons. cbn [snd]. apply IH. now apply wf_step.
Qed.
Lemma wf_start ls : wf (start ls).
Proof. split; cbn; intros k x H; destruct k; discriminate. Qed.
Lemma wf_reach ls cs rs p : prun cs (start ls) = (rs, p) -> wf p.
Proof. intros H. pose proof (wf_run cs _ (wf_start ls)) as W. now rewrite H in W. Qed.

(** which methods store into the first list *)
Definition sends (o : apdu_op) : bool :=
  match o with OpSendBytes _ _ | OpSendBytesLong _ _ _ | OpSetOutgoingAndSend _ _ => true | _ => false end.
Lemma receive_raw bOffs s : raw (snd (receive_block bOffs s)) = raw s.
Proof.
  rewrite receive_block_unfold. cbv zeta. destruct (for_loop _ _ _ _) as [[[]|e] b]; reflexivity.
Qed.
Lemma step_raw o s : sends o = false -> raw (snd (apdu_step o s)) = raw s.
Proof.
  intros H. destruct o; try discriminate; cbn [apdu_step].
  - unfold msome, setIncomingAndReceive, bind, get, raise, ret. destruct (negb _); [reflexivity|]. destruct (broken s); [reflexivity|].
    pose proof (receive_raw (offin s) s) as R. destruct (receive_block _ _) as [[|] ?]; exact R.
  - unfold msome, receiveBytes, bind, get, raise, ret. destruct (_ || _); [reflexivity|].
    pose proof (receive_raw bOffs s) as R. destruct (receive_block _ _) as [[|] ?]; exact R.
  - unfold msome, setOutgoing, bind, get, raise, ret, put. destruct (_ <=? _); reflexivity.
  - unfold mvoid, setOutgoingLength, bind, get, raise, ret, put. destruct (_ <? _); [reflexivity|].
    destruct (Ne s) as [m|]; [destruct (m <? len)|]; reflexivity.
  - destruct (aset i v (buf s)) as [[[]|e] b]; reflexivity.
Qed.

Lemma C113_frame_partial_pf : forall ls cs rs p k x c r p' l, prun cs (start ls) = (rs, p) ->
  nth_error (objs p) k = Some x ->
  (exists o, c = CCall k o) \/ (exists d b n, c = CSendFrom k d b n) -> pstep c p = (r, p') ->
  l <> oraw x -> l <> obuf x -> hget (lists p') l = hget (lists p) l.
Proof.
  intros ls cs rs p k x c r p' l _ Hx HC HS N1 N2.
  assert (E : exists o, pstep c p = call_on k o p).
  { destruct HC as [[o ->]|(d & b & n & ->)]; eexists; reflexivity. }
  destruct E as [o E]. rewrite E, (call_on_eq _ _ _ _ Hx) in HS. injection HS as _ <-. cbn [lists].
  rewrite !hget_hset, !hset_length.
  replace (Nat.eqb l (obuf x)) with false by (symmetry; now apply Nat.eqb_neq).
  replace (Nat.eqb l (oraw x)) with false by (symmetry; now apply Nat.eqb_neq). reflexivity.
Qed.

Lemma quiet_step c p l : wf p -> quiet c -> (l < length (lists p))%nat -> ~ is_buffer p l ->
  hget (lists (snd (pstep c p))) l = hget (lists p) l /\ ~ is_buffer (snd (pstep c p)) l
  /\ (length (lists p) <= length (lists (snd (pstep c p))))%nat.
Proof.
  intros W Q Hl NB. destruct c as [l'|k o|k l' b n|v|l' i v]; cbn [pstep quiet] in *; try contradiction.
  - destruct (newAPDU (hget (lists p) l')) as [s|e] eqn:E; [|auto]. cbn [snd lists].
    split; [now apply hget_app|]. split; [|rewrite app_length; lia].
    intros (j & y & H & B). apply nth_error_snoc in H as [H|[-> ->]]; [apply NB; red; eauto|]. cbn in B. apply Nat.lt_irrefl with l. congruence.
  - split; [|split].
    + destruct (nth_error (objs p) k) as [x|] eqn:E; [|now rewrite call_on_none].
      rewrite (call_on_eq _ _ _ _ E). cbn [snd lists]. rewrite step_raw by (destruct o; cbn in *; easy). rewrite view_raw.
      rewrite !hget_hset, !hset_length.
      replace (Nat.eqb l (obuf x)) with false.
      2:{ symmetry. apply Nat.eqb_neq. intros ->. apply NB. red; eauto. }
      cbn [andb]. destruct (Nat.eqb_spec l (oraw x)) as [->|]; [|reflexivity]. cbn [andb].
      destruct (Nat.ltb_spec (oraw x) (length (lists p))); reflexivity.
    + intros (j & y & H & B). destruct (call_on_objs k o p j) as [_ A].
      destruct (omap_some _ _ _ _ A H) as (y' & H' & E). apply NB. exists j, y'. split; [assumption|congruence].
    + now rewrite call_on_len.
  - cbn [snd lists objs]. split; [now apply hget_app|]. split; [exact NB|rewrite app_length; lia].
Qed.

Lemma C113_until_send_partial_pf : forall ls cs0 rs0 p cs rs p' l, prun cs0 (start ls) = (rs0, p) ->
  (l < length (lists p))%nat -> ~ is_buffer p l -> Forall quiet cs -> prun cs p = (rs, p') ->
  hget (lists p') l = hget (lists p) l.
Proof.
  intros ls cs0 rs0 p cs rs p' l R Hl NB Q HP.
  assert (W : wf p) by (eapply wf_reach; eassumption). clear R cs0 rs0 ls.
  replace p' with (snd (prun cs p)) by now rewrite HP. clear HP rs p'.
  revert p W Hl NB; induction Q as [|c cs Hc Q IH]; intros p W Hl NB; [reflexivity|].
  rewrite prun_cons. cbn [snd]. destruct (quiet_step c p l W Hc Hl NB) as (A & B & C).
  rewrite IH; [assumption|now apply wf_step|lia|assumption].
Qed.

Lemma raw_send_state s off n : getCurrentState s < 3 -> length (buf s) = 257%nat -> in_range off n 257 -> n <= 256 ->
  (forall m, Ne s = Some m -> n <= m) ->
  fst (setOutgoingAndSend off n s) = Ok tt
  /\ buf (snd (setOutgoingAndSend off n s)) = buf s
  /\ raw (snd (setOutgoingAndSend off n s)) = sub (buf s) (Z.to_nat off) (Z.to_nat n) ++ skipn (Z.to_nat n) (raw s).
Proof.
  intros Hs Hb HR Hn HN. unfold getCurrentState in Hs. destruct HR as (R1 & R2 & R3).
  unfold setOutgoingAndSend, setOutgoing, setOutgoingLength, sendBytes, send_block, bind, get, put, ret, raise,
    STATE_OUTGOING, STATE_OUTGOING_LENGTH_KNOWN, STATE_PARTIAL_OUTGOING, STATE_FULL_OUTGOING, OUT_BLOCKSIZE, with_out.
  replace (3 <=? st s) with false by lia. cbn [fst snd st Ne].
  change (3 <? 3) with false. cbv iota.
  destruct (Ne s) as [m|] eqn:EN; [replace (m <? n) with false by (specialize (HN m eq_refl); lia)|];
    cbn [st curout buf raw outlen Ne fst snd]; change (4 <? 3) with false; cbv iota; cbn [curout];
    replace (256 <? 0 + n) with false by lia; cbn [fst snd raw buf].
  - split; [reflexivity|]. split; [reflexivity|].
    rewrite py_slice_in by (unfold zlen; lia). replace (off + n - off) with n by lia.
    unfold py_slice_set, py_clamp, zlen. replace (0 <? 0) with false by reflexivity.
    destruct (Z.ltb_spec (0 + n) 0); [lia|].
    replace (Z.to_nat (Z.min 0 (Z.of_nat (length (raw s))))) with 0%nat by lia. cbn [firstn app]. f_equal.
    destruct (Z.le_ge_cases n (Z.of_nat (length (raw s)))).
    + f_equal. lia.
    + rewrite !skipn_all2 by lia. reflexivity.
  - split; [reflexivity|]. split; [reflexivity|].
    rewrite py_slice_in by (unfold zlen; lia). replace (off + n - off) with n by lia.
    unfold py_slice_set, py_clamp, zlen. replace (0 <? 0) with false by reflexivity.
    destruct (Z.ltb_spec (0 + n) 0); [lia|].
    replace (Z.to_nat (Z.min 0 (Z.of_nat (length (raw s))))) with 0%nat by lia. cbn [firstn app]. f_equal.
    destruct (Z.le_ge_cases n (Z.of_nat (length (raw s)))).
    + f_equal. lia.
    + rewrite !skipn_all2 by lia. reflexivity.
Qed.

Lemma C113_refuted_pf : forall ls l s off n rs p, newAPDU (hget ls l) = Ok s -> in_range off n 257 -> n <= 256 ->
  (forall m, Ne s = Some m -> n <= m) ->
  prun [CNew l; CCall 0 (OpSetOutgoingAndSend off n)] (start ls) = (rs, p) ->
  rs = [Ok None; Ok None]
  /\ hget (lists p) l = sub (getBuffer s) (Z.to_nat off) (Z.to_nat n) ++ skipn (Z.to_nat n) (hget ls l).
Proof.
  intros ls l s off n rs p HN HR Hn HM. cbn [prun pstep start lists objs]. rewrite HN. cbn [app].
  pose proof (new_ok_len _ _ _ HN) as Hl.
  pose proof HN as HI. apply newAPDU_inv in HI as (H4 & br & cd & ty & nc & ne & ll & E & _).
  rewrite (call_on_eq 0 _ _ (mkH l (length ls) s)) by reflexivity. cbn [lists objs oraw obuf].
  assert (V : view (ls ++ [buf s]) (mkH l (length ls) s) = s).
  { unfold view. cbn [oraw obuf orest]. rewrite hget_app by assumption.
    unfold hget at 2. rewrite nth_middle. subst s. cbn. reflexivity. }
  rewrite V.
  destruct (raw_send_state s off n) as (A & B & C); try assumption.
  { subst s. reflexivity. } { subst s. cbn. now apply initbuf_length. }
  cbn [apdu_step]. unfold mvoid, bind, ret.
  destruct (setOutgoingAndSend off n s) as [r s1]. cbn [fst snd] in A, B, C. subst r. cbn [fst snd].
  intros [= <- <-]. split; [reflexivity|]. cbn [lists].
  rewrite !hget_hset, !hset_length, app_length. cbn [length].
  replace (Nat.eqb l (length ls)) with false by (symmetry; apply Nat.eqb_neq; lia). cbn [andb].
  rewrite Nat.eqb_refl. replace (Nat.ltb l (length ls + 1)) with true by (symmetry; apply Nat.ltb_lt; lia). cbn [andb].
  rewrite C. f_equal. f_equal. subst s. reflexivity.
Qed.

Lemma C113_full_refuted_pf : ~ C113_full.
Proof.
  intros F. specialize (F [[0; 176; 0; 0; 16]] 0%nat [OpSetOutgoingAndSend 8 2] _ _ ltac:(cbn; lia) eq_refl).
  vm_compute in F. discriminate.
Qed.

(** ** C114 *)
Lemma calls_of_cons k c cs p : calls_of k (c :: cs) p =
  match call_of k c p with Some o => [(o, fst (pstep c p))] | None => [] end ++ calls_of k cs (snd (pstep c p)).
Proof. cbn [calls_of]. destruct (pstep c p); reflexivity. Qed.
Lemma apdu_run_cons o ops s : apdu_run (o :: ops) s =
  ((o, fst (apdu_step o s)) :: fst (apdu_run ops (snd (apdu_step o s))), snd (apdu_run ops (snd (apdu_step o s)))).
Proof. cbn [apdu_run]. destruct (apdu_step o s) as [r s1]. cbn [fst snd]. destruct (apdu_run ops s1); reflexivity. Qed.

Lemma own_call k o p x : wf p -> nth_error (objs p) k = Some x ->
  exists x', nth_error (objs (snd (call_on k o p))) k = Some x' /\ oraw x' = oraw x /\ obuf x' = obuf x
    /\ fst (call_on k o p) = fst (apdu_step o (view (lists p) x))
    /\ view (lists (snd (call_on k o p))) x' = snd (apdu_step o (view (lists p) x)).
Proof.
  intros [W1 _] Hx. destruct (W1 _ _ Hx) as (A & B & C). rewrite (call_on_eq _ _ _ _ Hx). cbn [fst snd objs lists].
  assert (Hk : (k < length (objs p))%nat) by (apply nth_error_Some; congruence).
  rewrite nth_error_list_upd, Nat.eqb_refl. apply Nat.ltb_lt in Hk. rewrite Hk.
  eexists. split; [reflexivity|]. cbn [oraw obuf]. repeat split.
  unfold view at 1. cbn [oraw obuf orest]. rewrite !hget_hset, !hset_length, !Nat.eqb_refl.
  apply Nat.ltb_lt in A. apply Nat.ltb_lt in B. rewrite A, B.
  replace (Nat.eqb (oraw x) (obuf x)) with false by (symmetry; now apply Nat.eqb_neq). cbn [andb].
  apply with_lists_id.
Qed.

(** a step that is not a call on [k] leaves k as it is *)
Lemma other_step k c p x : wf p -> unshared p k -> nth_error (objs p) k = Some x -> keeps (oraw x) c -> keeps (obuf x) c ->
  call_of k c p = None ->
  nth_error (objs (snd (pstep c p))) k = Some x /\ view (lists (snd (pstep c p))) x = view (lists p) x.
Proof.
  intros W U Hx K1 K2 HC. pose proof W as [W1 W2]. destruct (W1 _ _ Hx) as (A & B & C).
  assert (G : forall j o, j <> k ->
    nth_error (objs (snd (call_on j o p))) k = Some x /\ view (lists (snd (call_on j o p))) x = view (lists p) x).
  { intros j o N. destruct (nth_error (objs p) j) as [y|] eqn:Hy; [|now rewrite call_on_none].
    destruct (U _ _ _ Hx Hy N) as (U1 & U2 & U3). pose proof (W2 _ _ _ _ Hy Hx N) as U4.
    rewrite (call_on_eq _ _ _ _ Hy). cbn [snd lists objs]. split.
    - rewrite nth_error_list_upd. replace (Nat.eqb k j) with false by (symmetry; apply Nat.eqb_neq; congruence). assumption.
    - unfold view. rewrite !hget_hset.
      replace (Nat.eqb (oraw x) (obuf y)) with false by (symmetry; apply Nat.eqb_neq; congruence).
      replace (Nat.eqb (oraw x) (oraw y)) with false by (symmetry; apply Nat.eqb_neq; congruence).
      replace (Nat.eqb (obuf x) (obuf y)) with false by (symmetry; apply Nat.eqb_neq; congruence).
      replace (Nat.eqb (obuf x) (oraw y)) with false by (symmetry; apply Nat.eqb_neq; congruence). reflexivity. }
  destruct c as [l|j o|j l b n|v|l i v]; cbn [pstep keeps] in *; unfold call_of in HC; rewrite Hx in HC.
  - destruct (newAPDU _) as [s|e]; [|auto]. cbn [snd objs lists]. split.
    + rewrite nth_error_app1; [assumption|]. apply nth_error_Some; congruence.
    + unfold view. now rewrite !hget_app.
  - destruct (Nat.eqb_spec j k); [discriminate|auto].
  - destruct (Nat.eqb_spec j k); [discriminate|auto].
  - cbn [snd objs lists]. split; [assumption|]. unfold view. now rewrite !hget_app.
  - destruct (aset i v _) as [[[]|e] w]; [|auto]. cbn [snd objs lists]. split; [assumption|].
    unfold view. rewrite !hget_hset.
    replace (Nat.eqb (oraw x) l) with false by (symmetry; apply Nat.eqb_neq; congruence).
    replace (Nat.eqb (obuf x) l) with false by (symmetry; apply Nat.eqb_neq; congruence). reflexivity.
Qed.

Lemma unshared_step k c p x : wf p -> unshared p k -> nth_error (objs p) k = Some x -> keeps (oraw x) c -> keeps (obuf x) c ->
  unshared (snd (pstep c p)) k.
Proof.
  intros W U Hx K1 K2. pose proof W as [W1 W2]. destruct (W1 _ _ Hx) as (A & B & C).
  assert (G : forall j o, unshared (snd (call_on j o p)) k).
  { intros j o x1 i y Hk Hi N.
    destruct (call_on_objs j o p i) as [P1 P2]. destruct (call_on_objs j o p k) as [Q1 Q2].
    destruct (omap_some _ _ _ _ P1 Hi) as (y1 & Y1 & E1). destruct (omap_some _ _ _ _ P2 Hi) as (y2 & Y2 & E2).
    destruct (omap_some _ _ _ _ Q1 Hk) as (z1 & Z1 & E3). destruct (omap_some _ _ _ _ Q2 Hk) as (z2 & Z2 & E4).
    rewrite <- E1, <- E2, <- E3, <- E4. rewrite Y1 in Y2. injection Y2 as <-. rewrite Z1 in Z2. injection Z2 as <-.
    eauto. }
  destruct c as [l|j o|j l b n|v|l i v]; cbn [pstep keeps] in *; auto.
  - destruct (newAPDU _) as [s|e]; [|assumption]. cbn [snd].
    assert (Hk : (k < length (objs p))%nat) by (apply nth_error_Some; congruence).
    intros x1 i y H1 Hi N. cbn [objs] in H1, Hi. rewrite nth_error_app1 in H1 by assumption.
    rewrite Hx in H1. injection H1 as <-. apply nth_error_snoc in Hi as [Hi|[-> ->]]; [eauto|].
    cbn [oraw obuf]. repeat split; try assumption. lia.
  - destruct (aset i v _) as [[[]|e] w]; assumption.
Qed.

Lemma C114_alone_partial_pf : forall ls cs0 rs0 p cs rs p' k x,
  prun cs0 (start ls) = (rs0, p) -> prun cs p = (rs, p') -> nth_error (objs p) k = Some x ->
  unshared p k -> Forall (keeps (oraw x)) cs -> Forall (keeps (obuf x)) cs ->
  exists x', nth_error (objs p') k = Some x'
    /\ apdu_run (map fst (calls_of k cs p)) (view (lists p) x) = (calls_of k cs p, view (lists p') x').
Proof.
  intros ls cs0 rs0 p cs rs p' k x R HP Hx U K1 K2.
  assert (W : wf p) by (eapply wf_reach; eassumption). clear R cs0 rs0 ls.
  replace p' with (snd (prun cs p)) by now rewrite HP. clear HP rs p'.
  revert p x W Hx U K1 K2; induction cs as [|c cs IH]; intros p x W Hx U K1 K2.
  - exists x. split; [assumption|]. reflexivity.
  - inversion_clear K1 as [|? ? K1c K1r]. inversion_clear K2 as [|? ? K2c K2r].
    rewrite prun_cons, calls_of_cons. cbn [snd].
    pose proof (wf_step c p W) as W'. pose proof (unshared_step k c p x W U Hx K1c K2c) as U'.
    destruct (call_of k c p) as [o|] eqn:HC.
    + assert (E : pstep c p = call_on k o p).
      { destruct c as [l|j o'|j l b n|v|l i v]; unfold call_of in HC; rewrite Hx in HC; try discriminate;
          destruct (Nat.eqb_spec j k); try discriminate; injection HC as <-; subst j; reflexivity. }
      destruct (own_call k o p x W Hx) as (x1 & H1 & E1 & E2 & E3 & E4). rewrite <- E in H1, E3, E4.
      destruct (IH _ x1 W' H1 U') as (x' & Hx' & HR); [now rewrite E1|now rewrite E2|].
      exists x'. split; [assumption|]. cbn [app map fst]. rewrite apdu_run_cons, <- E4, HR, E3. reflexivity.
    + destruct (other_step k c p x W U Hx K1c K2c HC) as [H1 V].
      destruct (IH _ x W' H1 U' K1r K2r) as (x' & Hx' & HR). exists x'. split; [assumption|].
      cbn [app]. rewrite <- V. exact HR.
Qed.

Lemma call_objs_len k o p : length (objs (snd (call_on k o p))) = length (objs p).
Proof.
  destruct (nth_error (objs p) k) as [x|] eqn:E; [|now rewrite call_on_none].
  rewrite (call_on_eq _ _ _ _ E). cbn [snd objs]. apply list_upd_length.
Qed.
(** the step that makes object k *)
Lemma made_at cs : forall p k, (length (objs p) <= k < length (objs (snd (prun cs p))))%nat ->
  exists cs1 l cs2 s, cs = cs1 ++ CNew l :: cs2 /\ length (objs (snd (prun cs1 p))) = k
    /\ newAPDU (hget (lists (snd (prun cs1 p))) l) = Ok s.
Proof.
  induction cs as [|c cs IH]; intros p k [H1 H2]; [cbn in H2; lia|].
  rewrite prun_cons in H2. cbn [snd] in H2.
  destruct (Nat.lt_ge_cases k (length (objs (snd (pstep c p))))) as [L|L].
  - assert (G : exists l s, c = CNew l /\ newAPDU (hget (lists p) l) = Ok s /\ k = length (objs p)).
    { destruct c as [l|j o|j l b n|v|l i v]; cbn [pstep] in L; rewrite ?call_objs_len in L; try lia.
      - destruct (newAPDU (hget (lists p) l)) as [s|e] eqn:E; [|cbn in L; lia].
        cbn [snd objs] in L. rewrite app_length in L. cbn in L. exists l, s. repeat split; try assumption. lia.
      - cbn in L. lia.
      - destruct (aset i v _) as [[[]|e] w]; cbn in L; lia. }
    destruct G as (l & s & -> & E & ->). exists [], l, cs, s. cbn [prun snd app]. auto.
  - destruct (IH (snd (pstep c p)) k (conj L H2)) as (cs1 & l & cs2 & s & -> & E1 & E2).
    exists (c :: cs1), l, cs2, s. rewrite prun_cons. cbn [snd app]. auto.
Qed.
(** lists nothing was built from are as at the start *)
Definition untouched (ls : heap) (l : nat) (p : prog) : Prop :=
  hget (lists p) l = hget ls l /\ (length ls <= length (lists p))%nat
  /\ forall j y, nth_error (objs p) j = Some y -> oraw y <> l /\ (length ls <= obuf y)%nat.
Lemma untouched_step ls l c p : (l < length ls)%nat -> keeps l c -> untouched ls l p -> untouched ls l (snd (pstep c p)).
Proof.
  intros Hl K (U1 & U2 & U3).
  assert (G : forall k o, untouched ls l (snd (call_on k o p))).
  { intros k o. repeat split.
    - destruct (nth_error (objs p) k) as [x|] eqn:E; [|now rewrite call_on_none].
      rewrite (call_on_eq _ _ _ _ E). cbn [snd lists]. rewrite !hget_hset. destruct (U3 _ _ E) as [A B].
      replace (Nat.eqb l (obuf x)) with false by (symmetry; apply Nat.eqb_neq; lia).
      replace (Nat.eqb l (oraw x)) with false by (symmetry; apply Nat.eqb_neq; congruence). exact U1.
    - now rewrite call_on_len.
    - destruct (call_on_objs k o p j) as [A _]. destruct (omap_some _ _ _ _ A H) as (y' & Hy & <-). now apply (U3 _ _ Hy).
    - destruct (call_on_objs k o p j) as [_ A]. destruct (omap_some _ _ _ _ A H) as (y' & Hy & <-). now apply (U3 _ _ Hy). }
  destruct c as [l'|k o|k l' b n|v|l' i v]; cbn [pstep keeps] in *; auto.
  - destruct (newAPDU _) as [s|e]; [|split; auto]. cbn [snd].
    split; [cbn [lists]; rewrite hget_app by lia; exact U1|].
    split; [cbn [lists]; rewrite app_length; lia|].
    intros j y H. cbn [objs] in H. apply nth_error_snoc in H as [H|[-> ->]]; [eauto|]. cbn. auto.
  - split; [cbn [snd lists]; rewrite hget_app by lia; exact U1|].
    split; [cbn [snd lists]; rewrite app_length; lia|exact U3].
  - destruct (aset i v _) as [[[]|e] w]; [|split; auto]. split; [|split; [|exact U3]]; cbn [snd lists].
    + rewrite hget_hset. replace (Nat.eqb l l') with false by (symmetry; apply Nat.eqb_neq; congruence). exact U1.
    + now rewrite hset_length.
Qed.
Lemma untouched_run ls l cs : forall p, (l < length ls)%nat -> Forall (keeps l) cs -> untouched ls l p ->
  untouched ls l (snd (prun cs p)).
Proof.
  induction cs as [|c cs IH]; intros p Hl K U; [assumption|]. inversion_clear K as [|? ? K1 K2].
  rewrite prun_cons. cbn [snd]. apply IH; auto. now apply untouched_step.
Qed.
Lemma calls_before k cs : forall p, (length (objs (snd (prun cs p))) <= k)%nat -> calls_of k cs p = [].
Proof.
  induction cs as [|c cs IH]; intros p H; [reflexivity|]. rewrite calls_of_cons.
  rewrite prun_cons in H. cbn [snd] in H.
  assert (M : forall cs' q, (length (objs q) <= length (objs (snd (prun cs' q))))%nat).
  { clear. induction cs' as [|c cs' IH]; intros q; [cbn; lia|]. rewrite prun_cons. cbn [snd].
    specialize (IH (snd (pstep c q))).
    enough (length (objs q) <= length (objs (snd (pstep c q))))%nat by lia.
    destruct c as [l|j o|j l b n|v|l i v]; cbn [pstep]; rewrite ?call_objs_len; try lia.
    - destruct (newAPDU _); cbn [snd objs]; rewrite ?app_length; lia.
    - cbn; lia.
    - destruct (aset i v _) as [[[]|e] w]; cbn; lia. }
  assert (N : nth_error (objs p) k = None).
  { apply nth_error_None. specialize (M (c :: cs) p). rewrite prun_cons in M. cbn [snd] in M. lia. }
  unfold call_of. rewrite N. cbn [app]. now apply IH.
Qed.
Lemma calls_of_app k cs : forall cs' p, calls_of k (cs ++ cs') p = calls_of k cs p ++ calls_of k cs' (snd (prun cs p)).
Proof.
  induction cs as [|c cs IH]; intros cs' p; [reflexivity|].
  cbn [app]. rewrite !calls_of_cons, prun_cons, IH, app_assoc. reflexivity.
Qed.

Lemma C114_separate_partial_pf : forall ls cs rs p k x, prun cs (start ls) = (rs, p) ->
  NoDup (built_from cs) -> Forall (fun l => (l < length ls)%nat) (built_from cs) ->
  (forall l i v, In (CStore l i v) cs -> (l < length ls)%nat /\ ~ In l (built_from cs)) ->
  nth_error (objs p) k = Some x ->
  exists s, newAPDU (hget ls (oraw x)) = Ok s
    /\ apdu_run (map fst (calls_of k cs (start ls))) s = (calls_of k cs (start ls), view (lists p) x).
Proof.
  intros ls cs rs p k x HP ND FL ST Hx.
  assert (Hk : (k < length (objs (snd (prun cs (start ls)))))%nat).
  { rewrite HP. cbn [snd]. apply nth_error_Some. congruence. }
  destruct (made_at cs (start ls) k) as (cs1 & l & cs2 & s & -> & E1 & E2); [cbn; lia|].
  unfold built_from in ND, FL, ST. rewrite flat_map_app in ND, FL, ST. cbn [flat_map app] in ND, FL, ST.
  fold (built_from cs1) in ND, FL, ST. fold (built_from cs2) in ND, FL, ST.
  assert (Hl : (l < length ls)%nat).
  { rewrite Forall_forall in FL. apply FL. apply in_or_app. right. now left. }
  apply NoDup_remove in ND as [_ NI].
  assert (IN : forall cs' l', In (CNew l') cs' -> In l' (built_from cs')).
  { intros cs' l' H. apply in_flat_map. exists (CNew l'). split; [assumption|now left]. }
  assert (K1 : Forall (keeps l) cs1).
  { apply Forall_forall. intros [l'|? ?|? ? ? ?|?|l' i v] H; cbn; auto.
    - intros ->. apply NI, in_or_app. left. now apply IN.
    - intros ->. destruct (ST l i v) as [_ N]; [apply in_or_app; now left|]. apply N, in_or_app. right. now left. }
  assert (K2 : Forall (keeps l) cs2).
  { apply Forall_forall. intros [l'|? ?|? ? ? ?|?|l' i v] H; cbn; auto.
    - intros ->. apply NI, in_or_app. right. now apply IN.
    - intros ->. destruct (ST l i v) as [_ N]; [apply in_or_app; right; now right|]. apply N, in_or_app. right. now left. }
  assert (K3 : forall m, (length ls <= m)%nat -> Forall (keeps m) cs2).
  { intros m Hm. apply Forall_forall. intros [l'|? ?|? ? ? ?|?|l' i v] H; cbn; auto.
    - intros ->. rewrite Forall_forall in FL. specialize (FL m). cbn in FL.
      assert (m < length ls)%nat by (apply FL, in_or_app; right; right; now apply IN). lia.
    - intros ->. destruct (ST m i v) as [N _]; [apply in_or_app; right; now right|]. lia. }
  assert (U0 : untouched ls l (start ls)).
  { split; [reflexivity|]. split; [apply le_n|]. intros j y H. destruct j; discriminate H. }
  pose proof (untouched_run ls l cs1 (start ls) Hl K1 U0) as (U1 & U2 & U3).
  set (q := snd (prun cs1 (start ls))) in *.
  assert (HQ : prun cs1 (start ls) = (fst (prun cs1 (start ls)), q)) by apply surjective_pairing.
  assert (ST1 : pstep (CNew l) q = (Ok None, mkP (lists q ++ [buf s]) (objs q ++ [mkH l (length (lists q)) s]))).
  { cbn [pstep]. now rewrite E2. }
  set (q1 := mkP _ _) in ST1. set (x0 := mkH l (length (lists q)) s) in *.
  assert (Hx0 : nth_error (objs q1) k = Some x0).
  { cbn [objs q1]. rewrite nth_error_app2 by lia. rewrite E1, Nat.sub_diag. reflexivity. }
  assert (HQ1 : prun (cs1 ++ [CNew l]) (start ls) = (fst (prun (cs1 ++ [CNew l]) (start ls)), q1)).
  { rewrite prun_app. fold q. rewrite prun_cons, ST1. reflexivity. }
  assert (UN : unshared q1 k).
  { intros x1 j y H1 Hj N. rewrite Hx0 in H1. injection H1 as <-. cbn [oraw obuf x0].
    cbn [objs q1] in Hj. apply nth_error_snoc in Hj as [Hj|[-> _]]; [|congruence].
    destruct (U3 _ _ Hj) as [A B]. pose proof (wf_reach _ _ _ _ HQ) as [W1 _]. destruct (W1 _ _ Hj) as (C & D & _). lia. }
  destruct (C114_alone_partial_pf ls (cs1 ++ [CNew l]) _ q1 cs2 _ _ k x0 HQ1 (surjective_pairing _) Hx0 UN K2 (K3 _ U2))
    as (x' & Hx' & HR).
  rewrite prun_app in HP. fold q in HP. rewrite prun_cons, ST1 in HP. cbn [snd] in HP. injection HP as _ HP. rewrite HP in *.
  rewrite Hx in Hx'. injection Hx' as <-.
  assert (V : view (lists q1) x0 = s).
  { unfold view, x0, q1. cbn [lists oraw obuf orest]. rewrite hget_app by lia. unfold hget at 2. rewrite nth_middle.
    apply newAPDU_inv in E2 as (_ & br & cd & ty & nc & ne & ll & -> & _). reflexivity. }
  rewrite V in HR. exists s. split.
  - 
    assert (OR : oraw x = l).
    { clear - HP Hx Hx0. revert q1 HP Hx0. generalize dependent p.
      assert (G : forall cs3 q1 y, nth_error (objs q1) k = Some y -> exists y', nth_error (objs (snd (prun cs3 q1))) k = Some y' /\ oraw y' = oraw y).
      { induction cs3 as [|c cs3 IH]; intros q2 y H; [eauto|]. rewrite prun_cons. cbn [snd].
        assert (S1 : exists y', nth_error (objs (snd (pstep c q2))) k = Some y' /\ oraw y' = oraw y).
        { assert (CO : forall j o, exists y', nth_error (objs (snd (call_on j o q2))) k = Some y' /\ oraw y' = oraw y).
          { intros j o. destruct (call_on_objs j o q2 k) as [A _]. symmetry in A.
            destruct (omap_some _ _ _ _ A H) as (y' & ? & ?). eauto. }
          destruct c as [l'|j o|j l' b n|v|l' i v]; cbn [pstep]; auto.
          - destruct (newAPDU _); cbn [snd objs]; [|eauto]. rewrite nth_error_app1; [eauto|]. apply nth_error_Some. congruence.
          - eauto.
          - destruct (aset i v _) as [[[]|e] w]; eauto. }
        destruct S1 as (y1 & H1 & <-). now apply IH. }
      intros p Hx q1 HP Hx0. destruct (G cs2 q1 x0 Hx0) as (y' & Hy & E). rewrite HP, Hx in Hy. injection Hy as <-. exact E. }
    now rewrite OR, <- U1.
  - rewrite calls_of_app, calls_before by (fold q; lia). fold q. cbn [app]. rewrite calls_of_cons, ST1. cbn [snd].
    replace (call_of k (CNew l) q) with (@None apdu_op); [exact HR|].
    unfold call_of. replace (nth_error (objs q) k) with (@None hapdu); [reflexivity|]. symmetry. apply nth_error_None. lia.
Qed.

Lemma C114_refuted_pf : forall cla ins p1 p2 d v rs p x, 1 <= zlen d <= 128 ->
  prun [CNew 0; CNew 0; CCall 0 (OpWriteBuffer 5 v); CCall 0 (OpSetOutgoingAndSend 0 6); CCall 1 OpSetIncomingAndReceive]
    (start [[cla; ins; p1; p2; zlen d] ++ d]) = (rs, p) -> nth_error (objs p) 1 = Some x ->
  rs = [Ok None; Ok None; Ok None; Ok None; Ok (Some (zlen d))]
  /\ sub (getBuffer (view (lists p) x)) 5 (length d) = v :: skipn 1 d.
Proof.
  intros cla ins p1 p2 d v rs p x Hd. set (b := [cla; ins; p1; p2; zlen d] ++ d).
  assert (Lb : zlen b = 5 + zlen d) by (unfold b; rewrite zlen_app; unfold zlen; cbn; lia).
  assert (B4 : b4 b = zlen d) by reflexivity.
  assert (HN : newAPDU b = Ok (mk_apdu b false 5 3 (zlen d) None 0)).
  { rewrite newAPDU_eq by lia. rewrite B4, Lb.
    replace (5 + zlen d =? 4) with false by lia. replace (5 + zlen d =? 5) with false by lia.
    replace (zlen d =? 0) with false by lia. cbn [andb orb].
    replace (5 + zlen d =? zlen d + 5) with true by lia. cbn [orb].
    unfold inl_. rewrite B4. replace (zlen d =? 0) with false by lia. cbn [fst snd].
    rewrite Z.mod_small by lia. reflexivity. }
  set (s := mk_apdu b false 5 3 (zlen d) None 0) in HN.
  assert (P3 : p3len b = 1).
  { unfold p3len. rewrite B4. replace (4 <? zlen b) with true by lia. replace (zlen d =? 0) with false by lia. reflexivity. }
  assert (Bs : buf s = [cla; ins; p1; p2; zlen d] ++ repeat 0 252).
  { change (buf s) with (initbuf b). unfold initbuf. rewrite P3. reflexivity. }
  assert (Os : offin s = 5) by (change (offin s) with (4 + p3len b); lia).
  set (buf1 := [cla; ins; p1; p2; zlen d; v] ++ repeat 0 251).
  set (raw1 := [cla; ins; p1; p2; zlen d; v] ++ skipn 1 d).
  set (s1 := with_buf buf1 s).
  assert (ST2 : pstep (CCall 0 (OpWriteBuffer 5 v)) (mkP [b; buf s; buf s] [mkH 0 1 s; mkH 0 2 s])
    = (Ok None, mkP [b; buf1; buf s] [mkH 0 1 s1; mkH 0 2 s])).
  { cbn [pstep]. rewrite (call_on_eq 0 _ _ (mkH 0 1 s)) by reflexivity. cbn [lists objs oraw obuf].
    replace (view [b; buf s; buf s] (mkH 0 1 s)) with s by (symmetry; exact (with_lists_id s)).
    cbn [apdu_step]. rewrite aset_in by (rewrite Bs; unfold zlen; cbn; lia). cbn [fst snd].
    replace (list_upd (buf s) (Z.to_nat 5) v) with buf1 by (rewrite Bs; reflexivity). reflexivity. }
  destruct (raw_send_state s1 0 6) as (A & B & C).
  { change (getCurrentState s1) with 0. lia. } { reflexivity. } { unfold in_range; lia. } { lia. }
  { intros m E. change (Ne s1) with (@None Z) in E. discriminate. }
  assert (ST3 : exists s3, pstep (CCall 0 (OpSetOutgoingAndSend 0 6)) (mkP [b; buf1; buf s] [mkH 0 1 s1; mkH 0 2 s])
    = (Ok None, mkP [raw1; buf1; buf s] [mkH 0 1 s3; mkH 0 2 s])).
  { cbn [pstep]. rewrite (call_on_eq 0 _ _ (mkH 0 1 s1)) by reflexivity. cbn [lists objs oraw obuf].
    replace (view [b; buf1; buf s] (mkH 0 1 s1)) with s1 by (symmetry; exact (with_lists_id s1)).
    cbn [apdu_step]. unfold mvoid, bind, ret. destruct (setOutgoingAndSend 0 6 s1) as [r s3]. cbn [fst snd] in A, B, C.
    subst r. exists s3. cbn [fst snd]. rewrite B, C. reflexivity. }
  destruct ST3 as [s3 ST3].
  set (buf2 := splice (buf s) 5 (v :: skipn 1 d)).
  assert (Ld : length (v :: skipn 1 d) = length d).
  { unfold zlen in Hd. destruct d; cbn in *; [lia|reflexivity]. }
  assert (ST4 : exists s4, pstep (CCall 1 OpSetIncomingAndReceive) (mkP [raw1; buf1; buf s] [mkH 0 1 s3; mkH 0 2 s])
    = (Ok (Some (zlen d)), mkP [raw1; buf1; buf2] [mkH 0 1 s3; mkH 0 2 s4])).
  { cbn [pstep]. rewrite (call_on_eq 1 _ _ (mkH 0 2 s)) by reflexivity. cbn [lists objs oraw obuf].
    set (w := view [raw1; buf1; buf s] (mkH 0 2 s)).
    cbn [apdu_step]. unfold msome, setIncomingAndReceive, bind, get, ret.
    change (st w) with 0. change (broken w) with false. change (offin w) with (offin s). rewrite Os. cbn [negb Z.eqb STATE_INITIAL].
    assert (Lr : zlen raw1 = 5 + zlen d).
    { unfold raw1. unfold zlen in *. rewrite app_length, skipn_length. cbn [length]. lia. }
    rewrite (receive_block_ok 5 w (zlen d)); cbn [fst snd].
    - change (raw w) with raw1. change (buf w) with (buf s). change (offin w) with (offin s). rewrite Os.
      eexists. unfold hset. cbn [list_upd raw buf with_in].
      replace (splice (buf s) (Z.to_nat 5) (sub raw1 (Z.to_nat 5) (Z.to_nat (zlen d)))) with buf2; [reflexivity|].
      unfold buf2. f_equal. unfold sub. change (skipn (Z.to_nat 5) raw1) with (v :: skipn 1 d).
      rewrite to_nat_zlen, <- Ld. symmetry. apply firstn_all.
    - change (raw w) with raw1. change (offin w) with (offin s). change (lelength w) with 0. rewrite Os. unfold IN_BLOCKSIZE. lia.
    - lia.
    - change (offin w) with (offin s). lia.
    - change (lelength w) with 0. lia.
    - lia.
    - change (buf w) with (buf s). rewrite Bs. rewrite zlen_app, zlen_repeat. change (zlen [cla; ins; p1; p2; zlen d]) with 5. lia. }
  destruct ST4 as [s4 ST4].
  cbn [prun]. cbn [pstep start lists objs]. change (hget [b] 0) with b. rewrite HN. cbn [app length].
  cbn [lists objs]. change (hget [b; buf s] 0) with b. rewrite HN. cbn [app length lists objs].
  change (call_on 0 (OpWriteBuffer 5 v)) with (pstep (CCall 0 (OpWriteBuffer 5 v))). rewrite ST2.
  change (call_on 0 (OpSetOutgoingAndSend 0 6)) with (pstep (CCall 0 (OpSetOutgoingAndSend 0 6))). rewrite ST3.
  change (call_on 1 OpSetIncomingAndReceive) with (pstep (CCall 1 OpSetIncomingAndReceive)). rewrite ST4.
  intros [= <- <-] [= <-]. split; [reflexivity|].
  change (getBuffer (view _ _)) with buf2. unfold buf2. rewrite <- Ld at 1. rewrite sub_splice; [reflexivity|reflexivity|].
  rewrite Ld, Bs. unfold zlen in Hd. rewrite app_length, repeat_length. cbn [length]. lia.
Qed.

Lemma C114_full_refuted_pf : ~ C114_full.
Proof.
  intros F.
  pose (cs0 := [CNew 0; CNew 0]%nat). pose (ls := [[0; 16; 0; 0; 2; 77; 88]]).
  pose (cs := [CCall 0 (OpWriteBuffer 5 9); CCall 0 (OpSetOutgoingAndSend 0 6); CCall 1 OpSetIncomingAndReceive]%nat).
  destruct (nth_error (objs (snd (prun cs0 (start ls)))) 1) as [x|] eqn:Hx; [|vm_compute in Hx; discriminate Hx].
  destruct (F ls cs0 _ _ cs _ _ 1%nat x (surjective_pairing _) (surjective_pairing _) Hx) as (x' & Hx' & E).
  - repeat constructor.
  - repeat constructor.
  - vm_compute in Hx. injection Hx as <-. vm_compute in Hx'. injection Hx' as <-. apply (f_equal (fun q => nth 5 (buf (snd q)) 0)) in E.
    cbn [snd] in E. rewrite view_buf in E. vm_compute in E. discriminate E.
Qed.
