(** * C135: the exceptions that reach an applet: proofs *)
From Verif Require Import Py S_Base L_Py M_util M_aid M_ownerpin M_apdu M_bignumber M_jcint M_bertag M_bertlv M_system M_digest M_key M_cipher M_signature.
From Verif Require Import L_utils S_APDU S_ApduObs L_apdu L_util LP_util LP_arrayall LP_apdu LP_world LP_bignumber LP_bertag LP_tlvparse LP_system LP_tlvterm LP_cipher LP_keys LP_rsa S_Cipher S_RSA M_des LP_des LP_tdes S_Errors.
From Coq Require Import Lia Bool ZifyBool ZifyNat.
Ltac Zify.zify_post_hook ::= Z.div_mod_to_equations.

(** every exception of [m] satisfies [P] *)
Definition only {S A} (P : exn -> Prop) (m : M S A) : Prop := forall s e, fst (m s) = Err e -> P e.
Lemma only_ret {S A} P (a : A) : only P (@ret S A a).
Proof. intros s e E. discriminate E. Qed.
Lemma only_bind {S A B} P (m : M S A) (f : A -> M S B) : only P m -> (forall a, only P (f a)) -> only P (bind m f).
Proof.
  intros H K s e E. unfold bind in E. destruct (m s) as [[a|e'] s'] eqn:Q.
  - exact (K a s' e E).
  - cbn in E. apply (H s). rewrite Q. cbn. congruence.
Qed.
Lemma only_for {S} P (body : Z -> M S unit) : (forall i, only P (body i)) -> forall n i, only P (for_loop n i body).
Proof. intros H n. induction n as [|n IH]; intros i; cbn [for_loop]; [apply only_ret|]. apply only_bind; auto. Qed.
Lemma only_lift {S A} (P : exn -> Prop) (r : res A) : (forall e, r = Err e -> P e) -> only P (@lift S A r).
Proof. intros H s e E. now apply H. Qed.
Lemma only_get {S} P : only P (@get S).
Proof. intros s e E. discriminate E. Qed.
Lemma only_put {S} P (s : S) : only P (put s).
Proof. intros s' e E. discriminate E. Qed.
Lemma py_get_err {A} (l : list A) i e : py_get l i = Err e -> e = IndexError.
Proof. destruct (py_get_cases l i) as [[v ->]| ->]; congruence. Qed.
Lemma py_set_err {A} (l : list A) i v e : py_set l i v = Err e -> e = IndexError.
Proof. unfold py_set. destruct (py_index _ _); congruence. Qed.
Notation IE := (fun e => e = IndexError).
Lemma only_aset i v : only IE (aset i v).
Proof. intros s e. unfold aset. destruct (py_set s i v) eqn:Q; cbn; [discriminate|]. intros E. assert (e0 = e) by congruence. subst. now apply py_set_err in Q. Qed.
Lemma only_aget i : only IE (aget i).
Proof. intros s e. unfold aget. cbn. apply py_get_err. Qed.
Lemma only_index {S A} (l : list A) i : only IE (@lift S A (py_get l i)).
Proof. apply only_lift. intros e. apply py_get_err. Qed.
Lemma copy_body_only src so dest do i : only IE (copy_body src so dest do i).
Proof.
  unfold copy_body. apply only_bind.
  - intros s e. unfold hget_at. cbn. apply py_get_err.
  - intros v s e. unfold hset_at. destruct (py_set _ _ _) eqn:Q; cbn; [discriminate|]. intros E. assert (e0 = e) by congruence. subst. now apply py_set_err in Q.
Qed.
Lemma copy_err s so d do n h e : fst (arrayCopy s so d do n h) = Err e -> e = ArrayIndexOutOfBounds.
Proof. destruct (C08_copy_partial_pf s so d do n h) as (h' & -> & _). cbn [fst]. destruct (_ <? n); congruence. Qed.
Lemma into_err s so do n a e : fst (arrayCopy_into s so do n a) = Err e -> e = ArrayIndexOutOfBounds.
Proof.
  unfold arrayCopy_into. pose proof (copy_err 0%nat so 1%nat do n (fun k => match k with O => s | _ => a end) e) as H.
  destruct (arrayCopy _ _ _ _ _ _) as [r h]. exact H.
Qed.
Lemma catch_err {S A} (m : M S A) x s e : only IE m -> fst (catch_index m x s) = Err e -> e = x.
Proof.
  intros H. unfold catch_index. destruct (m s) as [[a|e'] s'] eqn:Q; [discriminate|].
  assert (e' = IndexError) as -> by (apply (H s); now rewrite Q). cbn. congruence.
Qed.
Ltac wit := intuition (subst; repeat eexists; try (vm_compute; reflexivity)).
Ltac one := cbn [allowed In]; split; [|intros [<-|[]]].
Ltac two := cbn [allowed In]; split; [|intros [<-|[<-|[]]]].
Ltac three := cbn [allowed In]; split; [|intros [<-|[<-|[<-|[]]]]].
Ltac four := cbn [allowed In]; split; [|intros [<-|[<-|[<-|[<-|[]]]]]].
Lemma short_get_err a o e : getShort a o = Err e -> e = ArrayIndexOutOfBounds.
Proof.
  unfold getShort. destruct (py_get a o) as [x|e1] eqn:Q1; cbn [rbind].
  - destruct (py_get a (o + 1)) as [y|e2] eqn:Q2; cbn [rbind]; [discriminate|]. apply py_get_err in Q2. subst. cbn. congruence.
  - apply py_get_err in Q1. subst. cbn. congruence.
Qed.
Lemma errors_util : forall f e, In f [Util_arrayCopy; Util_arrayCopyNonAtomic; Util_arrayFillNonAtomic; Util_arrayCompare; Util_getShort; Util_setShort] ->
  (raised f e <-> allowed f e).
Proof.
  intros f e [<-|[<-|[<-|[<-|[<-|[<-|[]]]]]]]; unfold raised; one.
  - intros (s & so & d & do & n & h & E). left. symmetry. now apply copy_err in E.
  - exists 0%nat, 0, 1%nat, 0, 1, (fun _ => []). reflexivity.
  - intros (s & so & d & do & n & h & E). left. symmetry. unfold arrayCopyNonAtomic in E. apply catch_err in E; [exact E|]. apply only_for. apply copy_body_only.
  - exists 0%nat, 0, 1%nat, 0, 1, (fun _ => []). reflexivity.
  - intros (o & n & v & a & E). left. symmetry. unfold arrayFillNonAtomic in E. apply catch_err in E; [exact E|]. apply only_for. intros i. apply only_aset.
  - exists 0, 1, 0, []. reflexivity.
  - intros (s & so & d & do & n & E). left. symmetry.
    destruct (C08_compare_partial_pf s so d do n) as [(i & _ & _ & _ & Q)|[_ Q]]; rewrite Q in E; [discriminate|]. destruct (_ <? n); congruence.
  - exists [], 0, [], 0, 1. reflexivity.
  - intros (a & o & E). left. symmetry. now apply short_get_err in E.
  - exists [], 0. reflexivity.
  - intros (o & v & a & E). left. symmetry. unfold setShort in E. apply catch_err in E; [exact E|]. apply only_bind; [apply only_aset|]. intros _. apply only_aset.
  - exists 0, 0, []. reflexivity.
Qed.
Lemma errors_aid : forall f e, In f [AID_new; AID_equals; AID_getBytes; AID_getPartialBytes; AID_partialEquals] -> (raised f e <-> allowed f e).
Proof.
  intros f e [<-|[<-|[<-|[<-|[<-|[]]]]]]; unfold raised.
  - two.
    + intros (a & o & n & E). unfold newAID in E. destruct (_ || _); [left; congruence|]. destruct (_ <? _); [right; left; congruence|discriminate].
    + now exists [], 0, 0.
    + now exists [], 0, 5.
  - one.
    + intros (s & a & o & n & E). unfold equals in E. destruct (_ <? _); [left; congruence|discriminate].
    + now exists [], [], 0, 1.
  - one.
    + intros (s & o & a & E). unfold getBytes in E. destruct (_ <? _); [left; cbn in E; congruence|discriminate].
    + now exists [1], 0, [].
  - two.
    + intros (s & ao & o & n & a & E). unfold getPartialBytes in E. cbv zeta in E. destruct (_ <? _); [left; cbn in E; congruence|]. destruct (zlen s <? _); cbn in E; [left|right; left]; congruence.
    + now exists [1], 0, 0, 1, [].
    + now exists [1], 0, 0, 1, [0].
  - one.
    + intros (s & a & o & n & E). unfold partialEquals in E. destruct (_ <? _); [left; congruence|]. destruct (_ <? _); [left; congruence|discriminate].
    + now exists [], [], 0, 1.
Qed.
Lemma store_only cs : forall i, only IE (store_chars cs i).
Proof. induction cs as [|c cs IH]; intros i; cbn [store_chars]; [apply only_ret|]. apply only_bind; [apply only_aset|auto]. Qed.
Lemma check_fill_only p o n m : only IE (check_fill p o n m).
Proof.
  unfold check_fill. destruct p as [p|p].
  - apply only_bind; [apply store_only|]. intros _. apply only_for. intros i. apply only_aset.
  - apply only_bind; [|intros _; apply only_for; intros i; apply only_aset].
    apply only_for. intros i. apply only_bind; [apply only_index|]. intros v. apply only_aset.
Qed.
Lemma update_fill_only p o n m : only IE (update_fill p o n m).
Proof.
  unfold update_fill. apply only_bind; [|intros _; apply only_for; intros i; apply only_aset].
  destruct p as [p|p]; [apply store_only|]. apply only_for. intros i. apply only_bind; [apply only_index|]. intros v. apply only_aset.
Qed.
Lemma pin_run_size ops : forall s, maxpinsize (snd (pin_run ops s)) = maxpinsize s.
Proof.
  induction ops as [|o ops IH]; intros s; cbn [pin_run]; [reflexivity|].
  assert (H : maxpinsize (snd (pin_step o s)) = maxpinsize s).
  { destruct o as [p of n|p of n| | |b| |]; cbn [pin_step]; unfold mmap, bind, ret.
    - unfold check, bind, set_validated, get, set_tries, raise, ret. cbn [triesremaining maxpinsize thepin trylimit validated].
      destruct (_ <=? 0); [reflexivity|]. destruct (_ || _); [reflexivity|]. destruct (check_fill _ _ _ _ _) as [[[]|e] l]; [|reflexivity].
      destruct (negb _); reflexivity.
    - unfold update, bind, get, raise, on_pin, set_validated, set_tries. destruct (_ <? n); [reflexivity|]. destruct (_ <? _); [reflexivity|].
      destruct (update_fill _ _ _ _ _) as [[[]|e] l]; reflexivity.
    - unfold reset, resetAndUnblock, bind, get, set_validated, set_tries, ret. destruct (validated s); reflexivity.
    - reflexivity.
    - reflexivity.
    - reflexivity.
    - reflexivity. }
  destruct (pin_step o s) as [r s1] eqn:E. cbn [snd] in H. specialize (IH s1). destruct (pin_run ops s1) as [tr s2]. cbn [snd] in *. congruence.
Qed.
Lemma new_pin limit size : 1 <= size -> a_pin (newOwnerPIN limit size).
Proof. intros H. now exists limit, size, []. Qed.
Lemma errors_pin : forall f e, In f [OwnerPIN_check; OwnerPIN_update] -> (raised f e <-> allowed f e).
Proof.
  intros f e [<-|[<-|[]]]; unfold raised.
  - two.
    + intros (s & p & o & n & _ & E). unfold check, bind, set_validated, get, set_tries, raise, ret in E. cbn [triesremaining maxpinsize thepin trylimit validated] in E.
      destruct (_ <=? 0); [discriminate|]. destruct (_ || _); [left; cbn in E; congruence|].
      destruct (check_fill _ _ _ _ _) as [[[]|e'] l] eqn:Q; [destruct (negb _); discriminate|].
      right. left. cbn in E. assert (e' = e) by congruence. subst. symmetry. eapply (check_fill_only p o n). now rewrite Q.
    + exists (snd (pin_run [OpUpdate (PArr [1]) 0 1] (newOwnerPIN 3 1))), (PArr []), 1, 0. split; [|vm_compute; reflexivity]. exists 3, 1, [OpUpdate (PArr [1]) 0 1]. split; [lia|reflexivity].
    + exists (snd (pin_run [OpUpdate (PArr [1]) 0 1] (newOwnerPIN 3 1))), (PArr [1; 2; 3]), 0, 3. split; [|vm_compute; reflexivity]. exists 3, 1, [OpUpdate (PArr [1]) 0 1]. split; [lia|reflexivity].
  - cbn [allowed]. split.
    + intros (s & p & o & n & (l & m & ops & Hm & ->) & E). unfold update, bind, get in E.
      set (s := snd (pin_run ops (newOwnerPIN l m))) in *. assert (Hs : maxpinsize s = m) by (unfold s; now rewrite pin_run_size).
      destruct (Z.ltb_spec (maxpinsize s) n) as [L|L]; [right; right; exists n; split; [lia|]; cbn in E; congruence|].
      destruct (_ <? _); [left; cbn in E; congruence|]. unfold on_pin in E.
      destruct (update_fill _ _ _ _ _) as [[[]|e'] x] eqn:Q; [discriminate|]. right. left. cbn in E. assert (e' = e) by congruence. subst e'.
      eapply (update_fill_only p o n). now rewrite Q.
    + intros [->|[->|(n & Hn & ->)]].
      * exists (newOwnerPIN 3 1), (PArr []), 0, 1. split; [now apply new_pin|reflexivity].
      * exists (newOwnerPIN 3 1), (PArr []), (-1), 1. split; [now apply new_pin|reflexivity].
      * exists (newOwnerPIN 3 1), (PArr []), 0, n. split; [now apply new_pin|]. unfold update, bind, get. cbn [maxpinsize newOwnerPIN].
        replace (1 <? n) with true by lia. reflexivity.
Qed.
(** ** APDU *)
Definition obj (cmd : list Z) (ops : list apdu_op) : apdu :=
  match newAPDU cmd with Ok s => snd (apdu_run ops s) | Err _ => mkAPDU [] [] 0 0 false 0 0 0 None 0 0 None end.
Lemma obj_is cmd ops : is_ok (newAPDU cmd) = true -> an_apdu (obj cmd ops).
Proof. unfold obj, an_apdu. destruct (newAPDU cmd) as [s|e] eqn:E; [|discriminate]. intros _. now exists cmd, s, ops. Qed.
Definition early (s : apdu) : Prop := st s = 0 -> offin s <= 7.
Lemma early_out s r x n c : early s -> 3 <= x -> early (with_out r x n c s).
Proof. unfold early. cbn. lia. Qed.
Lemma early_send src b n s : early s -> early (snd (send_block src b n s)).
Proof.
  intros H. unfold send_block, bind, get, raise, put. destruct (curout s) as [c|]; [|assumption]. destruct (_ <? _); [assumption|].
  cbn [snd]. apply early_out; [assumption|]. unfold STATE_PARTIAL_OUTGOING, STATE_FULL_OUTGOING. destruct (_ <? _); lia.
Qed.
Lemma early_setOutgoing s : early s -> early (snd (setOutgoing s)).
Proof. intros H. unfold setOutgoing, bind, get, raise, ret, put. destruct (_ <=? _); cbn [snd]; [assumption|]. apply early_out; [assumption|unfold STATE_OUTGOING; lia]. Qed.
Lemma early_setOutgoingLength n s : early s -> early (snd (setOutgoingLength n s)).
Proof.
  intros H. unfold setOutgoingLength, bind, get, raise, put. destruct (_ <? _); cbn [snd]; [assumption|].
  destruct (match Ne s with Some m => m <? n | None => false end); [assumption|]. cbn [snd]. apply early_out; [assumption|unfold STATE_OUTGOING_LENGTH_KNOWN; lia].
Qed.
Lemma early_sendBytes b n s : early s -> early (snd (sendBytes b n s)).
Proof. intros H. unfold sendBytes, bind at 1, get, raise. destruct (_ <? _); [assumption|]. now apply early_send. Qed.
Lemma early_receive b s : early s -> early (snd (receive_block b s)).
Proof.
  intros H. rewrite receive_block_unfold. cbv zeta. destruct (for_loop _ _ _ _) as [[[]|e] b0]; cbn [snd].
  - unfold early. cbn. unfold STATE_FULL_INCOMING, STATE_PARTIAL_INCOMING. destruct (_ =? _); lia.
  - exact H.
Qed.
Lemma early_step o s : early s -> early (snd (apdu_step o s)).
Proof.
  intros HI. destruct o as [|b| |n|b n|d b n|b n|i v]; cbn [apdu_step]; revert s HI.
  - apply pres_bind; [|auto]. unfold setIncomingAndReceive. intros s H. unfold bind, get, raise. destruct (negb _); [assumption|]. destruct (broken s); [assumption|]. now apply early_receive.
  - apply pres_bind; [|auto]. unfold receiveBytes. intros s H. unfold bind, get, raise. destruct (_ || _); [assumption|]. now apply early_receive.
  - apply pres_bind; [intros; now apply early_setOutgoing|auto].
  - apply pres_bind; [intros; now apply early_setOutgoingLength|auto].
  - apply pres_bind; [intros; now apply early_sendBytes|auto].
  - apply pres_bind; [|auto]. intros s H. unfold sendBytesLong, bind at 1, get, raise. destruct (_ && _); [assumption|]. now apply early_send.
  - apply pres_bind; [|auto]. unfold setOutgoingAndSend. apply pres_bind; [intros; now apply early_setOutgoing|]. intros _.
    apply pres_bind; [intros; now apply early_setOutgoingLength|]. intros _ s H. now apply early_sendBytes.
  - intros s H. destruct (aset i v (buf s)) as [[[]|e] b]; exact H.
Qed.
Lemma apdu_facts s : an_apdu s -> exists raw0 ne0, inv raw0 ne0 s /\ early s.
Proof.
  intros (cmd & s0 & ops & E & ->). exists cmd, (Ne s0). destruct (apdu_run ops s0) as [tr s'] eqn:R. cbn [snd].
  refine (proj1 (run_ind (fun s => inv cmd (Ne s0) s /\ early s) (fun _ _ => True) _ ops s0 tr s' _ R)).
  - intros o s [H1 H2]. split; [|exact I]. split; [now apply inv_step|now apply early_step].
  - split; [now apply inv_new|]. apply newAPDU_inv in E as (H4 & br & cd & ty & nc & ne & ll & -> & _). unfold early. cbn [st offin mk_apdu]. intros _. pose proof (p3len_bounds cmd H4). lia.
Qed.
Lemma send_err raw0 ne0 src b n s e : inv raw0 ne0 s -> 3 <= st s -> fst (send_block src b n s) = Err e -> e = APDUExc BUFFER_BOUNDS.
Proof.
  intros (_ & _ & _ & _ & _ & _ & Hc & _) H. unfold send_block, bind, get, raise, put. destruct (curout s) as [c|]; [|now destruct (Hc H)].
  destruct (_ <? _); cbn; congruence.
Qed.
Lemma setOutgoing_err s e : fst (setOutgoing s) = Err e -> e = APDUExc M_apdu.ILLEGAL_USE.
Proof. unfold setOutgoing, bind, get, raise, ret, put. destruct (_ <=? _); cbn; congruence. Qed.
Lemma setOutgoingLength_err n s e : fst (setOutgoingLength n s) = Err e -> (e = APDUExc M_apdu.ILLEGAL_USE /\ st s < 3) \/ e = APDUExc BAD_LENGTH.
Proof.
  unfold setOutgoingLength, bind, get, raise, put, STATE_OUTGOING. destruct (Z.ltb_spec (st s) 3); [left; cbn in *; split; [congruence|assumption]|].
  destruct (match Ne s with Some m => m <? n | None => false end); cbn; [right; congruence|discriminate].
Qed.
Ltac objs c o := exists (obj c o).
Lemma errors_apdu : forall f e, In f [APDU_new; APDU_setIncomingAndReceive; APDU_receiveBytes; APDU_setOutgoing; APDU_setOutgoingLength; APDU_sendBytes;
    APDU_sendBytesLong; APDU_setOutgoingAndSend; APDU_isCommandChainingCLA] -> (raised f e <-> allowed f e).
Proof.
  intros f e [<-|[<-|[<-|[<-|[<-|[<-|[<-|[<-|[<-|[]]]]]]]]]]; unfold raised.
  - two.
    + intros (cmd & E). destruct (newAPDU_fails _ _ E) as [L|[_ ->]]; [|right; now left]. left. unfold newAPDU in E. replace (zlen cmd <? 4) with true in E by lia. congruence.
    + now exists [].
    + exists [0; 0; 0; 0; 0; 1]. vm_compute. reflexivity.
  - two.
    + intros (s & A & E). destruct (apdu_facts s A) as (raw0 & ne0 & (HL & Hst & Ho & Hl & Hne & H3 & Hcur & H0 & H1) & Q).
      unfold setIncomingAndReceive, bind, get, raise, STATE_INITIAL in E. destruct (Z.eqb_spec (st s) 0) as [Z0|Z0]; cbn [negb] in E; [|left; cbn in E; congruence].
      destruct (broken s) eqn:B; [right; left; cbn in E; congruence|]. exfalso. specialize (Q Z0). specialize (H0 Z0 eq_refl). destruct (H3 ltac:(lia)) as [Hr _].
      destruct H0 as [(A1 & A2 & A3)|[A1 A2]].
      * rewrite receive_block_unfold in E. cbv zeta in E. rewrite Hr, A1, A2, A3 in E. cbn in E. discriminate.
      * rewrite (receive_block_ok (offin s) s (Z.min IN_BLOCKSIZE (zlen (raw s) - offin s - lelength s))) in E; [discriminate|reflexivity|..];
          rewrite ?Hr; unfold IN_BLOCKSIZE, zlen in *; lia.
    + objs [0; 0; 0; 0] [OpSetOutgoing]. split; [now apply obj_is|reflexivity].
    + objs [0; 0; 0; 0; 5; 1; 2] (@nil apdu_op). split; [now apply obj_is|reflexivity].
  - two.
    + intros (s & o & A & E). unfold receiveBytes, bind, get, raise in E. destruct (_ || _); [left; cbn in E; congruence|]. right. left. symmetry. now apply receive_err in E.
    + objs [0; 0; 0; 0] (@nil apdu_op). exists 0. split; [now apply obj_is|reflexivity].
    + objs ([0; 0; 0; 0; 200] ++ repeat 1 200) [OpSetIncomingAndReceive]. exists 300. split; [now apply obj_is|vm_compute; reflexivity].
  - one.
    + intros (s & A & E). left. symmetry. now apply setOutgoing_err in E.
    + objs [0; 0; 0; 0] [OpSetOutgoing]. split; [now apply obj_is|reflexivity].
  - two.
    + intros (s & n & A & E). apply setOutgoingLength_err in E. intuition.
    + objs [0; 0; 0; 0] (@nil apdu_op). exists 0. split; [now apply obj_is|reflexivity].
    + objs [0; 0; 0; 0; 5] [OpSetOutgoing]. exists 6. split; [now apply obj_is|reflexivity].
  - two.
    + intros (s & o & n & A & E). unfold sendBytes, bind at 1, get, raise, STATE_OUTGOING in E. destruct (Z.ltb_spec (st s) 3); [left; cbn in E; congruence|].
      destruct (apdu_facts s A) as (raw0 & ne0 & Q & _). right. left. symmetry. eapply send_err; eauto.
    + objs [0; 0; 0; 0] (@nil apdu_op). exists 0, 0. split; [now apply obj_is|reflexivity].
    + objs [0; 0; 0; 0; 5] [OpSetOutgoing]. exists 0, 257. split; [now apply obj_is|reflexivity].
  - two.
    + intros (s & d & o & n & A & E). unfold sendBytesLong, bind at 1, get, raise, STATE_PARTIAL_OUTGOING, STATE_OUTGOING_LENGTH_KNOWN in E.
      replace ((5 <? st s) && (st s <? 4)) with false in E by lia. unfold send_block, bind, get, raise, put in E. destruct (curout s); [|left; cbn in E; congruence].
      destruct (_ <? _); [right; left; cbn in E; congruence|discriminate].
    + objs [0; 0; 0; 0] (@nil apdu_op). exists [], 0, 0. split; [now apply obj_is|reflexivity].
    + objs [0; 0; 0; 0; 5] [OpSetOutgoing]. exists [], 0, 257. split; [now apply obj_is|reflexivity].
  - three.
    + intros (s & o & n & A & E). destruct (apdu_facts s A) as (raw0 & ne0 & Q & _). unfold setOutgoingAndSend in E. unfold bind in E.
      pose proof (setOutgoing_err s) as E1. pose proof (inv_setOutgoing _ _ _ Q) as Q1.
      assert (S1 : forall r, fst (setOutgoing s) = Ok r -> st (snd (setOutgoing s)) = 3).
      { intros r. unfold setOutgoing, bind, get, raise, ret, put. destruct (_ <=? _); [discriminate|reflexivity]. }
      destruct (setOutgoing s) as [[r|e1] s1]; cbn [fst snd] in *; [|left; symmetry; apply E1; congruence]. specialize (S1 r eq_refl).
      pose proof (setOutgoingLength_err n s1) as E2. pose proof (inv_setOutgoingLength _ _ n _ Q1) as Q2.
      assert (S2 : forall r, fst (setOutgoingLength n s1) = Ok r -> st (snd (setOutgoingLength n s1)) = 4).
      { intros r'. unfold setOutgoingLength, bind, get, raise, ret, put. destruct (_ <? _); [discriminate|].
        destruct (match Ne s1 with Some m => m <? n | None => false end); [discriminate|reflexivity]. }
      destruct (setOutgoingLength n s1) as [[r'|e1] s2]; cbn [fst snd] in *; [|destruct (E2 e E); [lia|intuition]]. specialize (S2 r' eq_refl).
      right. right. left. symmetry. unfold sendBytes, bind at 1, get, raise, STATE_OUTGOING in E. replace (st s2 <? 3) with false in E by lia.
      eapply send_err; [exact Q2|lia|exact E].
    + objs [0; 0; 0; 0] [OpSetOutgoing]. exists 0, 0. split; [now apply obj_is|reflexivity].
    + objs [0; 0; 0; 0; 5] (@nil apdu_op). exists 0, 6. split; [now apply obj_is|reflexivity].
    + objs [0; 0; 0; 0] (@nil apdu_op). exists 0, 257. split; [now apply obj_is|reflexivity].
  - one.
    + intros (s & A & E). unfold isCommandChainingCLA in E. destruct (py_get _ _) eqn:G; [discriminate|]. cbn in E. left. symmetry. assert (e0 = e) by congruence. subst. now apply py_get_err in G.
    + objs [0; 0; 0; 0] [OpSetOutgoing; OpSendBytes 257 4]. split; [now apply obj_is|vm_compute; reflexivity].
Qed.
(** ** BigNumber and JCint *)
Lemma init_loop_only (conv mul : Z -> Z) a o : forall n i mb v e,
  fst (for_loop n i (fun i => v <- get_value ;; set_value (mul v) ;;; v <- get_value ;; x <- lift (py_get a (o + i)) ;; set_value (v + conv x)) (mkBig mb (Some v))) = Err e ->
  e = IndexError.
Proof.
  induction n as [|n IH]; intros i mb v e; cbn [for_loop]; [discriminate|].
  unfold bind at 1. unfold bind, get_value, set_value, lift. cbn [value maxBytes].
  destruct (py_get_cases a (o + i)) as [[x ->]| ->]; cbn [maxBytes]; [apply IH|]. cbn. congruence.
Qed.
Lemma big_init_err a o n f b e : fst (M_bignumber.init a o n f b) = Err e -> e = Arithmetic \/ e = NullPointer \/ e = IndexError.
Proof.
  unfold M_bignumber.init. destruct (n =? 0); [left; cbn in *; congruence|]. destruct a as [a|]; [|right; left; cbn in *; congruence].
  destruct (f =? FORMAT_BCD).
  - intros E. right. right. unfold bind at 1, set_value at 1, for_range in E. cbn [maxBytes] in E. now apply (init_loop_only from_bcd (fun v => v * 100)) in E.
  - destruct (f =? FORMAT_HEX); [|left; cbn in *; congruence].
    intros E. right. right. unfold bind at 1, set_value at 1, for_range in E. cbn [maxBytes] in E. now apply (init_loop_only from_hex (fun v => Z.shiftl v 8)) in E.
Qed.
Lemma operand_err a o n f e : operand a o n f = Err e -> e = Arithmetic \/ e = NullPointer \/ e = IndexError.
Proof.
  unfold operand. pose proof (big_init_err a o n f (mkBig None None)) as H. destruct (M_bignumber.init _ _ _ _ _) as [[u|e'] s]; [discriminate|].
  intros E. apply H. cbn. congruence.
Qed.
Lemma combine_err op a o n f b e : fst ((x <- lift (operand a o n f) ;; combine op x) b) = Err e ->
  e = Arithmetic \/ e = NullPointer \/ e = IndexError \/ e = TypeError.
Proof.
  unfold bind, lift. destruct (operand a o n f) as [x|e'] eqn:Q.
  - unfold combine. destruct (value b), (value x); cbn; intros; try discriminate; right; right; right; congruence.
  - cbn. intros E. assert (e' = e) by congruence. subst. apply operand_err in Q. intuition.
Qed.
Lemma digits_fine B enc v : 1 < B -> enc 0 = 0 -> exists ds, digit_loop (digit_fuel v) B enc v [] = Ok ds.
Proof.
  intros HB H0. destruct (Z.lt_ge_cases v 0) as [L|L].
  - exists []. unfold digit_fuel. rewrite Z.log2_nonpos by lia. change (Z.to_nat (0 + 2)) with 2%nat. cbn [digit_loop]. now replace (0 <? v) with false by lia.
  - destruct (digit_fuel_enough v L) as [F1 F2]. destruct (digit_loop_ok B enc HB H0 (digit_fuel v) v [] L F1 F2) as (ds & E & _). eauto.
Qed.
Ltac bigs := first [exists (mkBig None (Some 0)), (Some []), 0, 0, 1; reflexivity | exists (mkBig None (Some 0)), None, 0, 1, 1; reflexivity
  | exists (mkBig None (Some 0)), (Some []), 0, 1, 1; reflexivity | exists (mkBig None None), (Some [1]), 0, 1, 1; reflexivity].
Lemma errors_big : forall f e, In f [BigNumber_new; BigNumber_init; BigNumber_add; BigNumber_subtract; BigNumber_multiply; BigNumber_compareTo; BigNumber_toBytes;
    JCint_getInt; JCint_setInt] -> (raised f e <-> allowed f e).
Proof.
  intros f e [<-|[<-|[<-|[<-|[<-|[<-|[<-|[<-|[<-|[]]]]]]]]]]; unfold raised.
  - one.
    + intros (m & E). unfold newBigNumber in E. destruct m as [m|]; [|discriminate]. destruct (m <=? 0); [left; congruence|discriminate].
    + now exists (Some 0).
  - three; [|bigs..]. intros (b & a & o & n & f & E). apply big_init_err in E. intuition.
  - four; [|bigs..]. intros (b & a & o & n & f & E). apply combine_err in E. intuition.
  - four; [|bigs..]. intros (b & a & o & n & f & E). apply combine_err in E. intuition.
  - four; [|bigs..]. intros (b & a & o & n & f & E). apply combine_err in E. intuition.
  - four; [|bigs..]. intros (b & a & o & n & f & E). unfold compareTo in E. destruct (operand a o n f) as [x|e'] eqn:Q; cbn in E.
    + unfold compareTo_big in E. destruct (value b), (value x); try discriminate; right; right; right; left; congruence.
    + assert (e' = e) by congruence. subst. apply operand_err in Q. intuition.
  - three.
    + intros (b & o & n & f & a & E). unfold toBytes in E.
      assert (K : forall r : res (list Z), (forall x, r = Err x -> x = Arithmetic \/ x = TypeError) ->
        fst (match r with Err e => (Err e, a) | Ok array => if n <? zlen array then (Err Arithmetic, a) else arrayCopy_into (rev (array ++ py_repeat 0 (n - zlen array))) 0 o n a end) = Err e ->
        Arithmetic = e \/ TypeError = e \/ ArrayIndexOutOfBounds = e \/ False).
      { intros [ds|x] Hx X; [|cbn in X; destruct (Hx x eq_refl); subst; intuition congruence].
        destruct (_ <? _); [left; cbn in X; congruence|]. right. right. left. symmetry. now apply into_err in X. }
      apply K in E; [exact E|]. intros x. destruct (f =? FORMAT_BCD).
      * destruct (value b) as [v|]; [|intros [= <-]; now right]. destruct (digits_fine 100 to_bcd v ltac:(lia) eq_refl) as [ds ->]. discriminate.
      * destruct (f =? FORMAT_HEX); [|intros [= <-]; now left].
        destruct (value b) as [v|]; [|intros [= <-]; now right]. destruct (digits_fine 256 to_hex v ltac:(lia) eq_refl) as [ds ->]. discriminate.
    + now exists (mkBig None None), 0, 0, 0, [].
    + now exists (mkBig None None), 0, 0, 1, [].
    + now exists (mkBig None (Some 1)), 0, 1, 1, [].
  - one.
    + intros (a & o & E). left. symmetry. unfold getInt in E.
      destruct (py_get a o) eqn:G1; cbn [rbind] in E; [|apply py_get_err in G1; congruence].
      destruct (py_get a (o + 1)) eqn:G2; cbn [rbind] in E; [|apply py_get_err in G2; congruence].
      destruct (py_get a (o + 2)) eqn:G3; cbn [rbind] in E; [|apply py_get_err in G3; congruence].
      destruct (py_get a (o + 3)) eqn:G4; cbn [rbind] in E; [discriminate|apply py_get_err in G4; congruence].
    + now exists [], 0.
  - one.
    + intros (o & h & l & a & E). left. symmetry. revert E. unfold setInt. cbv zeta.
      apply (only_bind IE); [apply only_aset|]. intros _. apply only_bind; [apply only_aset|]. intros _. apply only_bind; [apply only_aset|]. intros _.
      apply only_bind; [apply only_aset|]. intros _. apply only_ret.
    + now exists 0, 0, 0, [].
Qed.
(** ** BER-TLV *)
Lemma only_aadd i v : only IE (aadd i v).
Proof. unfold aadd. apply only_bind; [apply only_aget|]. intros x. apply only_aset. Qed.
Lemma only_sanity : only IE sanitycheck.
Proof.
  intros s e. unfold sanitycheck, for_range. apply (only_for IE). intros i. apply only_bind; [apply only_aget|]. intros v. destruct (_ <? v); [apply only_aset|apply only_ret].
Qed.
Lemma put_chunks_only l : forall o b, only IE (put_chunks l o b).
Proof.
  induction l as [|x l IH]; intros o b; cbn [put_chunks]; [apply only_ret|]. apply only_bind; [apply only_aset|]. intros _.
  apply only_bind; [apply only_aadd|]. intros _. apply IH.
Qed.
Lemma chunks_fine : forall fuel n acc, n < 2 ^ (Z.of_nat fuel - 1) -> (0 < fuel)%nat -> exists r, chunk_loop fuel n acc = Ok r.
Proof.
  induction fuel as [|fuel IH]; intros n acc H F; [lia|]. cbn [chunk_loop]. destruct (Z.ltb_spec 0 n) as [L|L]; [|eauto].
  destruct fuel as [|fuel]; [cbn in H; lia|]. apply IH; [|lia]. rewrite shiftr_div by lia. change (2 ^ 7) with 128.
  replace (Z.of_nat (S (S fuel)) - 1) with (Z.succ (Z.of_nat (S fuel) - 1)) in H by lia. rewrite Z.pow_succ_r in H by lia. lia.
Qed.
Lemma tag_toBytes_only g o : only IE (tag_toBytes g o).
Proof.
  unfold tag_toBytes. apply only_bind; [apply only_aset|]. intros _. apply only_bind; [apply only_aadd|]. intros _. destruct (_ <=? 30).
  - apply only_bind; [apply only_aadd|]. intros _. apply only_bind; [apply only_sanity|]. intros _. apply only_ret.
  - apply only_bind; [apply only_aadd|]. intros _. apply only_bind.
    + apply only_lift. intros e E. destruct (chunks_fine (chunk_fuel (tnumber g)) (tnumber g) []) as [r R]; [| |congruence].
      * unfold chunk_fuel. pose proof (Z.log2_nonneg (tnumber g)). rewrite Z2Nat.id by lia. replace (Z.log2 (tnumber g) + 2 - 1) with (Z.succ (Z.log2 (tnumber g))) by lia.
        destruct (Z.le_gt_cases (tnumber g) 0); [pose proof (Z.pow_nonneg 2 (Z.succ (Z.log2 (tnumber g)))); assert (0 < 2 ^ Z.succ (Z.log2 (tnumber g))) by (apply Z.pow_pos_nonneg; lia); lia|].
        now apply Z.log2_spec.
      * unfold chunk_fuel. pose proof (Z.log2_nonneg (tnumber g)). lia.
    + intros c. apply only_bind; [apply put_chunks_only|]. intros b. apply only_bind; [apply only_aget|]. intros x. apply only_bind; [apply only_aset|]. intros _.
      apply only_bind; [apply only_sanity|]. intros _. apply only_ret.
Qed.
Lemma tag_err a o e : BERTag_getInstance a o = Err e -> e = ArrayIndexOutOfBounds.
Proof. destruct (getInstance_any a o) as [(c & k & n & s & _ & ->)|[_ ->]]; congruence. Qed.
Lemma tag_init_err a o e : BERTag_init a o = Err e -> e = IndexError.
Proof. destruct (init_any a o) as [(c & k & n & s & _ & ->)|[_ ->]]; congruence. Qed.
Lemma tlv_err a o n e : getInstance a o n = Err e -> e = ArrayIndexOutOfBounds \/ e = IndexError.
Proof.
  intros E. apply C42_exact_partial_pf in E. destruct E as [(c & k & m & s & _ & [(ll & L & _ & Q)|[_ Q]])|[_ Q]]; cbv zeta in Q; [discriminate|right|left]; congruence.
Qed.
Lemma tlv_some a o n t : getInstance a o n = Ok t -> exists g v, ttag t = Some g /\ tval t = Some v.
Proof.
  intros E. apply C42_exact_partial_pf in E. destruct E as [(c & k & m & s & _ & [(ll & L & _ & Q)|[_ Q]])|[_ Q]]; try discriminate.
  cbv zeta in Q. apply Ok_inj in Q. subst. cbn. eauto.
Qed.
Lemma tlv_toBytes_err t o b e : a_tlv t -> fst (tlv_toBytes t o b) = Err e ->
  (e = AttributeError /\ ttag t = None) \/ e = IndexError \/ e = NameError \/ e = ArrayIndexOutOfBounds.
Proof.
  intros A. unfold tlv_toBytes. destruct (ttag t) as [g|] eqn:G; [|left; cbn in *; split; congruence].
  intros E. right. revert b e E.
  change (only (fun e => e = IndexError \/ e = NameError \/ e = ArrayIndexOutOfBounds)
    (bLen <- tag_toBytes g o ;; if 127 <? tlen t then raise NameError
      else aset (o + bLen) (tlen t) ;;;
        match tval t with None => raise TypeError | Some v => arrayCopy_into v 0 (o + (bLen + 1)) (tlen t) end ;;; ret (bLen + 1 + tlen t))).
  apply only_bind. { intros s e E. left. now apply tag_toBytes_only in E. }
  intros bLen. destruct (_ <? _). { intros s e E. right. left. cbn in E. congruence. }
  apply only_bind. { intros s e E. left. now apply only_aset in E. }
  intros _. apply only_bind; [|intros _; apply only_ret].
  destruct (tval t) as [v|] eqn:V; [|destruct (A V); congruence]. intros s e E. right. right. now apply into_err in E.
Qed.
Lemma append_err u t e : a_tlv u -> fst (append u t) = Err e ->
  (e = AttributeError /\ (ttag u = None \/ ttag t = None \/ tval t = None)) \/ e = IndexError \/ e = NameError \/ e = ArrayIndexOutOfBounds.
Proof.
  intros A. unfold append, bind, lift, get, put, raise. destruct (tlv_size u) as [n|e1] eqn:S1.
  2:{ intros E. left. unfold tlv_size in S1. destruct (ttag u) eqn:U; [discriminate|]. cbn in E. split; [congruence|now left]. }
  pose proof (tlv_toBytes_err u 0 (py_repeat 0 n)) as K. destruct (tlv_toBytes u 0 (py_repeat 0 n)) as [[m|e1] arr].
  2:{ intros E. cbn in E. destruct (K e A) as [[K1 K2]|K1]; [cbn; congruence|left; auto|right; exact K1]. }
  destruct (tval t) as [v|] eqn:V; [|intros E; left; cbn in E; split; [congruence|auto]].
  cbn [tkind ttag tlen tval]. unfold tlv_size. cbn [ttag]. destruct (ttag t); [discriminate|]. intros E. left. cbn in E. split; [congruence|auto].
Qed.
(** walks over the children *)
Lemma find_err : forall k self g o e, find_ k self g o = Err e ->
  e = OutOfFuel \/ (e = TypeError /\ tval self = None) \/ (e = AttributeError /\ g = None) \/ e = IndexError \/ e = ArrayIndexOutOfBounds.
Proof.
  induction k as [|k IH]; intros self g o e E; cbn [find_] in E; [left; congruence|].
  destruct (_ <? _); [|discriminate]. destruct (tval self) as [v|] eqn:V; [|right; left; split; [congruence|auto]].
  destruct (getInstance v o None) as [t|e1] eqn:G; cbn [rbind] in E.
  2:{ assert (e1 = e) by congruence. subst. apply tlv_err in G. intuition. }
  destruct (tlv_some _ _ _ _ G) as (h & w & Ht & _). unfold tlv_size in E. rewrite Ht in E. unfold tag_eq_opt in E. destruct g as [g|]; cbn [rbind] in E; [|right; right; left; split; [congruence|auto]].
  destruct (tag_eqb h g); [discriminate|]. cbn [rbind] in E. apply IH in E. now rewrite V in E.
Qed.
Lemma find_none k self g o : tval self = None -> tlen self <= o -> find_ (S k) self g o = Ok (-1).
Proof. intros V L. cbn [find_]. now replace (o <? tlen self) with false by lia. Qed.
Lemma of_err self o e : getInstance_of self o = Err e -> (e = TypeError /\ tval self = None) \/ e = IndexError \/ e = ArrayIndexOutOfBounds.
Proof. unfold getInstance_of. destruct (tval self); [|left; split; [congruence|auto]]. intros E. apply tlv_err in E. intuition. Qed.
Lemma rmap_err {A B} (f : A -> B) r e : rmap f r = Err e -> r = Err e.
Proof. destruct r; [discriminate|]. cbn. congruence. Qed.
Lemma bound_err k t g e : a_tlv t -> findBound k t g = Err e -> e = OutOfFuel \/ e = IndexError \/ e = ArrayIndexOutOfBounds.
Proof.
  intros A. unfold findBound. destruct g as [g|].
  - intros E. destruct k as [|k]; [left; cbn in E; congruence|]. destruct (find_ (S k) t (Some g) 0) as [o|e1] eqn:F; cbn [rbind] in E.
    + destruct (Z.eqb_spec o (-1)) as [|N]; [discriminate|]. apply rmap_err, of_err in E. destruct E as [[_ V]|E]; [|now right].
      destruct (A V) as [_ L]. rewrite find_none in F by (auto; lia). apply Ok_inj in F. lia.
    + assert (e1 = e) by congruence. subst. pose proof (find_err _ _ _ _ _ F) as Q. destruct Q as [Q|[[Q V]|[[_ Q]|Q]]]; [now left| |discriminate|now right].
      destruct (A V) as [_ L]. rewrite find_none in F by (auto; lia). discriminate.
  - destruct (Z.ltb_spec 0 (tlen t)); [|discriminate]. intros E. apply rmap_err, of_err in E. destruct E as [[_ V]|E]; [|now right]. destruct (A V). lia.
Qed.
Lemma size_err t e : tlv_size t = Err e -> e = AttributeError /\ ttag t = None.
Proof. unfold tlv_size. destruct (ttag t); [discriminate|]. intros. split; congruence. Qed.
Notation walk e := (e = OutOfFuel \/ e = AttributeError \/ e = IndexError \/ e = ArrayIndexOutOfBounds \/ e = TypeError).
Lemma occurrence_err : forall k self u i n o e, occurrence_loop k self u i n o = Err e -> walk e.
Proof.
  induction k as [|k IH]; intros self u i n o e E; cbn [occurrence_loop] in E; [left; congruence|].
  destruct (i <? n); [|discriminate].
  match type of E with rbind ?f _ = _ => change f with (find_ (S k) self (ttag u) o) in E; destruct (find_ (S k) self (ttag u) o) as [p|e1] eqn:F end; cbn [rbind] in E.
  2:{ assert (e1 = e) by congruence. subst. apply find_err in F. intuition. }
  destruct (p =? -1); [discriminate|]. destruct (getInstance_of self p) as [t|e1] eqn:G; cbn [rbind] in E.
  2:{ assert (e1 = e) by congruence. subst. apply of_err in G. intuition. }
  destruct (tlv_size t) as [m|e1] eqn:S1; cbn [rbind] in E; [now apply IH in E|]. assert (e1 = e) by congruence. subst. apply size_err in S1. intuition.
Qed.
Lemma findNext_err k t g u n e : findNextBound k t g u n = Err e -> walk e.
Proof.
  unfold findNextBound. destruct (occurrence_loop k t u 0 n 0) as [o|e1] eqn:Q; cbn [rbind].
  2:{ intros E. assert (e1 = e) by congruence. subst. now apply occurrence_err in Q. }
  destruct o as [o|]; [|discriminate]. destruct g as [g|].
  - destruct (find_ k t (Some g) o) as [r|e1] eqn:F; cbn [rbind].
    + destruct (r =? -1); [discriminate|]. intros E. apply rmap_err, of_err in E. intuition.
    + intros E. assert (e1 = e) by congruence. subst. apply find_err in F. intuition.
  - intros E. apply rmap_err, of_err in E. intuition.
Qed.
Lemma start_err : forall k t f s c e, tval t <> None -> start_loop k t f s c = Err e -> e = OutOfFuel \/ e = AttributeError \/ e = IndexError \/ e = ArrayIndexOutOfBounds.
Proof.
  induction k as [|k IH]; intros t f s c e V E; cbn [start_loop] in E; [left; congruence|].
  destruct (_ <? s); [|discriminate]. destruct (tkind t); cbn [rbind] in E; [|right; left; congruence].
  match type of E with rbind ?x _ = _ => change x with (find_ (S k) t None c) in E; destruct (find_ (S k) t None c) as [p|e1] eqn:F end; cbn [rbind] in E.
  - destruct (p =? -1); [discriminate|]. now apply IH in E.
  - assert (e1 = e) by congruence. subst. apply find_err in F. intuition.
Qed.
Lemma errors_tag : forall f e, In f [BERTag_getInstance_; PrimitiveBERTag_init; ConstructedBERTag_init; BERTag_toBytes; BERTag_size_static; BERTag_tagNumber_static] ->
  (raised f e <-> allowed f e).
Proof.
  intros f e [<-|[<-|[<-|[<-|[<-|[<-|[]]]]]]]; unfold raised.
  - one.
    + intros (a & o & E). left. symmetry. now apply tag_err in E.
    + now exists [], 0.
  - two.
    + intros (a & o & E). unfold Primitive_init_bytes in E. destruct (py_get a o) eqn:G; cbn [rbind] in E; [|apply py_get_err in G; right; left; congruence].
      destruct (_ =? 32); [left; unfold MALFORMED_TAG in E; congruence|]. right. left. symmetry. now apply tag_init_err in E.
    + now exists [32], 0.
    + now exists [], 0.
  - two.
    + intros (a & o & E). unfold Constructed_init_bytes in E. destruct (py_get a o) eqn:G; cbn [rbind] in E; [|apply py_get_err in G; right; left; congruence].
      destruct (_ =? 0); [left; unfold MALFORMED_TAG in E; congruence|]. right. left. symmetry. now apply tag_init_err in E.
    + now exists [0], 0.
    + now exists [], 0.
  - one.
    + intros (g & o & a & E). left. symmetry. now apply tag_toBytes_only in E.
    + now exists newPrimitiveBERTag, 0, [].
  - one.
    + intros (a & o & E). left. symmetry. unfold tag_sizeStatic in E. now apply rmap_err, tag_init_err in E.
    + now exists [], 0.
  - one.
    + intros (a & o & E). left. symmetry. unfold tag_tagNumberStatic in E. now apply rmap_err, tag_err in E.
    + now exists [], 0.
Qed.
Lemma new_tlv k : a_tlv (newTLV k).
Proof. now intros _. Qed.
Lemma full_tlv k g n v : a_tlv (mkTLV k g n (Some v)).
Proof. discriminate. Qed.
Definition tg := mkTag 0 false 4 1.
Ltac sy H := intuition (subst; auto).
Lemma errors_tlv : forall f e, In f [BERTLV_getInstance; BERTLV_getLength_static; BERTLV_size; BERTLV_toBytes; ConstructedBERTLV_append; ConstructedBERTLV_append_static;
    ConstructedBERTLV_find; ConstructedBERTLV_find_static; ConstructedBERTLV_findNext; ConstructedBERTLV_findNext_static; PrimitiveBERTLV_getValueOffset;
    PrimitiveBERTLV_getValue; PrimitiveBERTLV_replaceValue] -> (raised f e <-> allowed f e).
Proof.
  intros f e [<-|[<-|[<-|[<-|[<-|[<-|[<-|[<-|[<-|[<-|[<-|[<-|[<-|[]]]]]]]]]]]]]]; unfold raised.
  - two.
    + intros (a & o & n & E). apply tlv_err in E. intuition.
    + now exists [], 0, None.
    + now exists [4], 0, None.
  - two.
    + intros (a & o & E). unfold getLengthStatic in E. destruct (BERTag_getInstance a o) as [t|e1] eqn:G; cbn [rbind] in E; [|apply tag_err in G; left; congruence].
      destruct (length_any (py_slice_from a (o + tag_size t))) as [(k & n & _ & Q)|[_ Q]]; rewrite Q in E; [discriminate|]. right. left. cbn in E. congruence.
    + now exists [], 0.
    + now exists [4], 0.
  - one.
    + intros (t & A & E). apply size_err in E. left. symmetry. tauto.
    + exists (newTLV true). split; [apply new_tlv|reflexivity].
  - four.
    + intros (t & o & a & A & E). apply tlv_toBytes_err in E; [|exact A]. intuition.
    + exists (newTLV true), 0, []. split; [apply new_tlv|reflexivity].
    + exists (mkTLV false (Some tg) 0 (Some [])), 0, []. split; [apply full_tlv|reflexivity].
    + exists (mkTLV false (Some tg) 128 (Some [])), 0, [0]. split; [apply full_tlv|reflexivity].
    + exists (mkTLV false (Some tg) 1 (Some [])), 0, [0; 0]. split; [apply full_tlv|reflexivity].
  - four.
    + intros (t & u & _ & A & E). apply append_err in E; [|exact A]. intuition.
    + exists (newTLV true), (newTLV true). split; [apply new_tlv|]. split; [apply new_tlv|reflexivity].
    + exists (newTLV true), (mkTLV false (Some (mkTag 0 false 4 0)) 0 (Some [])). split; [apply new_tlv|]. split; [apply full_tlv|reflexivity].
    + exists (newTLV true), (mkTLV false (Some tg) 128 (Some [])). split; [apply new_tlv|]. split; [apply full_tlv|reflexivity].
    + exists (newTLV true), (mkTLV false (Some tg) 1 (Some [])). split; [apply new_tlv|]. split; [apply full_tlv|reflexivity].
  - four.
    + intros (a & o & b & p & E). unfold appendStatic, bind, lift, get in E.
      destruct (getInstance a o None) as [t|e1] eqn:G1; [|assert (e1 = e) by (cbn in E; congruence); subst; apply tlv_err in G1; intuition].
      destruct (getInstance b p None) as [t'|e1] eqn:G2; [|assert (e1 = e) by (cbn in E; congruence); subst; apply tlv_err in G2; intuition].
      destruct (tlv_some _ _ _ _ G1) as (g & v & T1 & V1). destruct (tkind t'); [|left; cbn in E; congruence].
      assert (A1 : a_tlv t) by (intros X; congruence). pose proof (append_err t t') as K.
      destruct (append t t') as [[m|e1] t2] eqn:Q.
      * assert (A2 : a_tlv t2).
        { unfold append, bind, lift, get, put, raise in Q. destruct (tlv_size t); [|discriminate]. destruct (tlv_toBytes t 0 _) as [[m'|e1] arr]; [|discriminate].
          destruct (tval t'); [|discriminate]. apply pair_equal_spec in Q as [_ <-]. apply full_tlv. }
        apply tlv_toBytes_err in E; [|exact A2]. intuition.
      * unfold raise in E. destruct (K e A1) as [[K1 _]|K1]; [cbn in *; congruence| |]; intuition.
    + exists [4; 0], 0, [4; 0], 0. reflexivity.
    + exists [4], 0, [], 0. reflexivity.
    + exists [4; 129; 128], 0, [32; 0], 0. reflexivity.
    + exists [], 0, [], 0. reflexivity.
  - two.
    + intros (k & t & g & A & N & E). apply bound_err in E; [|exact A]. intuition.
    + exists 2%nat, (mkTLV true (Some tg) 1 (Some [])), (Some tg). split; [apply full_tlv|]. split; [discriminate|reflexivity].
    + exists 2%nat, (mkTLV true (Some tg) 1 (Some [4])), (Some tg). split; [apply full_tlv|]. split; [discriminate|reflexivity].
  - three.
    + intros (k & a & o & g & p & N & E). unfold findStatic in E.
      destruct (getInstance a o None) as [t|e1] eqn:G1; cbn [rbind] in E; [|assert (e1 = e) by congruence; subst; apply tlv_err in G1; intuition].
      destruct (tlv_some _ _ _ _ G1) as (h & v & T1 & V1). rewrite T1 in E. destruct g as [ta|]; [|destruct (0 <? tlen t); discriminate].
      destruct (tkind t); [|left; congruence]. destruct (BERTag_getInstance ta p) as [x|e1] eqn:G2; cbn [rbind] in E; [|apply tag_err in G2; right; right; left; congruence].
      destruct (find_ k t (Some x) 0) as [y|e1] eqn:F; cbn [rbind] in E; [destruct (y =? -1); discriminate|]. assert (e1 = e) by congruence. subst. apply find_err in F. intuition congruence.
    + exists 2%nat, [4; 0], 0, (Some []), 0. split; [discriminate|reflexivity].
    + exists 2%nat, [4], 0, (Some []), 0. split; [discriminate|reflexivity].
    + exists 2%nat, [], 0, (Some []), 0. split; [discriminate|reflexivity].
  - four.
    + intros (k & t & g & u & n & _ & _ & N & E). apply findNext_err in E. intuition.
    + exists 2%nat, (mkTLV true (Some tg) 2 (Some [4; 0])), None, (newTLV true), 1. split; [apply full_tlv|]. split; [apply new_tlv|]. split; [discriminate|reflexivity].
    + exists 2%nat, (mkTLV true (Some tg) 2 (Some [4])), None, (newTLV true), 1. split; [apply full_tlv|]. split; [apply new_tlv|]. split; [discriminate|reflexivity].
    + exists 2%nat, (mkTLV true (Some tg) 2 (Some [])), None, (newTLV true), 1. split; [apply full_tlv|]. split; [apply new_tlv|]. split; [discriminate|reflexivity].
    + exists 2%nat, (newTLV true), None, (newTLV true), 0. split; [apply new_tlv|]. split; [apply new_tlv|]. split; [discriminate|reflexivity].
  - four.
    + intros (k & a & o & s & g & p & N & E). unfold findNextStatic in E.
      destruct (getInstance a o None) as [t|e1] eqn:G1; cbn [rbind] in E; [|assert (e1 = e) by congruence; subst; apply tlv_err in G1; intuition].
      destruct (tlv_some _ _ _ _ G1) as (h & v & T1 & V1). rewrite T1 in E.
      destruct (start_loop k t _ s 0) as [b|e1] eqn:F; cbn [rbind] in E.
      * destruct b; [|discriminate]. destruct (tkind t); [right; right; left|left]; congruence.
      * assert (e1 = e) by congruence. subst. apply start_err in F; [|congruence]. intuition.
    + exists 2%nat, [4; 0], 0, 0, None, 0. split; [discriminate|reflexivity].
    + exists 2%nat, [4], 0, 0, None, 0. split; [discriminate|reflexivity].
    + exists 2%nat, [32; 0], 0, 0, None, 0. split; [discriminate|reflexivity].
    + exists 2%nat, [], 0, 0, None, 0. split; [discriminate|reflexivity].
  - two.
    + intros (a & o & E). unfold getValueOffset in E.
      destruct (getInstance a o None) as [t|e1] eqn:G1; cbn [rbind] in E; [|assert (e1 = e) by congruence; subst; apply tlv_err in G1; intuition].
      destruct (tlv_some _ _ _ _ G1) as (h & v & T1 & V1). rewrite T1 in E. discriminate.
    + now exists [], 0.
    + now exists [4], 0.
  - one.
    + intros (t & o & a & A & E). left. symmetry. revert E. unfold getValue. apply (only_bind (fun e => e = ArrayIndexOutOfBounds)); [|intros _; apply only_ret].
      intros s x. apply into_err.
    + exists (mkTLV false (Some tg) 1 (Some [7])), 0, []. split; [apply full_tlv|reflexivity].
  - one.
    + intros (t & a & o & n & A & E). left. symmetry. unfold replaceValue in E. pose proof (into_err a o 0 n (py_repeat 0 n) e) as K.
      destruct (arrayCopy_into a o 0 n (py_repeat 0 n)) as [[[]|e1] v]; [discriminate|]. cbn in E. apply K. cbn. congruence.
    + exists (newTLV false), [], 0, 1. split; [apply new_tlv|reflexivity].
Qed.
(** ** The rest *)
Lemma digest_alg H c s : md_alg (digest_call H s c) = md_alg s.
Proof.
  assert (U : forall b o l s, md_alg (snd (digest_update b o l s)) = md_alg s).
  { intros b o l s'. unfold digest_update, bind, get, raise, put. destruct (catch_index _ _ _) as [[u|e] x]; reflexivity. }
  assert (R : forall s, md_alg (snd (digest_reset H s)) = md_alg s).
  { intros s'. unfold digest_reset, bind, get, raise, put. destruct (negb _); [reflexivity|]. destruct (negb _); reflexivity. }
  destruct c as [|b o l|b o l out oo]; cbn [digest_call]; auto.
  unfold digest_doFinal. pose proof (U b o l s) as U1. destruct (digest_update b o l s) as [[u|e] s1]; [|exact U1]. cbn [snd] in U1.
  destruct (catch_index _ _ _) as [r out']. pose proof (R s1) as R1. destruct (digest_reset H s1) as [[x|e] s2]; cbn [snd] in R1; [|cbn; congruence].
  destruct r; cbn; congruence.
Qed.
Lemma digest_run_alg H h : forall s, md_alg (digest_run H h s) = md_alg s.
Proof. unfold digest_run. induction h as [|c h IH]; intros s; cbn [fold_left]; [reflexivity|]. rewrite IH. apply digest_alg. Qed.
Lemma collect_only b o l : only IE (collect b o l).
Proof. unfold collect. apply only_for. intros i. unfold collect_body. apply only_bind; [apply only_index|]. intros v. apply only_bind; [apply only_get|]. intros x. apply only_put. Qed.
Lemma update_err b o l s e : fst (digest_update b o l s) = Err e -> e = NameError.
Proof.
  unfold digest_update, bind, get, raise, put. pose proof (catch_err (collect b o l) NameError [] e (collect_only b o l)) as K.
  destruct (catch_index _ _ _) as [[u|e1] x]; [discriminate|]. intros E. apply K. cbn in *. congruence.
Qed.
Lemma write_only vs : forall i o, only IE (write_loop i vs o).
Proof.
  induction vs as [|v vs IH]; intros i o; cbn [write_loop]; [apply only_ret|]. apply only_bind; [apply only_get|]. intros x.
  apply only_bind; [apply only_lift; intros e; apply py_set_err|]. intros y. apply only_bind; [apply only_put|]. intros _. apply IH.
Qed.
Definition pkept (k : pubkey) : Prop := pk_init k = true -> pk_exp k <> None /\ pk_mod k <> None.
Lemma pub_setter_kept X f k : pkept k -> (forall k, pkept k -> pkept (snd (f k))) -> pkept (snd (pub_setter X f k)).
Proof.
  intros K F. unfold pub_setter, bind at 1. specialize (F k K). destruct (f k) as [[u|e] k1]; [|exact F]. cbn [snd] in F.
  unfold bind at 1, get. destruct (pk_mod k1) as [m|] eqn:M1; [|exact F]. destruct (pk_exp k1) as [x|] eqn:X1; [|exact F].
  unfold bind at 1. destruct (pk_the k1) as [r|]; cbn [ret].
  - unfold bind, put. cbn. unfold pkept. cbn. rewrite M1, X1. split; discriminate.
  - unfold pub_construct, bind, get, raise, lift, put. destruct (negb _); [exact F|]. rewrite M1, X1.
    destruct (pc_construct _ _ _); [|exact F]. cbn. unfold pkept. cbn. split; discriminate.
Qed.
Lemma pub_kept X h : forall k, pkept k -> pkept (run_pub X h k).
Proof.
  unfold run_pub. induction h as [|c h IH]; intros k K; cbn [fold_left]; [exact K|]. apply IH. destruct c as [b o n|b o n].
  - unfold pub_setExponent. apply pub_setter_kept; [exact K|]. clear. intros k K. unfold bind, get, put, pkept in *. cbn. intros Q. destruct (K Q). split; [discriminate|assumption].
  - unfold pub_setModulus. apply pub_setter_kept; [exact K|]. clear. intros k K. unfold bind, get, raise, put, pkept in *. destruct (negb _); [exact K|]. cbn. intros Q. destruct (K Q). split; [assumption|discriminate].
Qed.
Lemma getter_err i p o a e : (i = true -> p <> None) -> fst (rsa_getter i p o a) = Err e -> CryptoExc UNINITIALIZED_KEY = e \/ ArrayIndexOutOfBounds = e \/ False.
Proof.
  intros H. unfold rsa_getter. destruct i; cbn [negb]; [|intros E; left; cbn in E; congruence]. destruct p as [p|]; [|now destruct (H eq_refl)].
  intros E. right. left. symmetry. revert E. apply (only_bind (fun e => e = ArrayIndexOutOfBounds)); [|intros _; apply only_ret]. intros s x. apply into_err.
Qed.
Definition hl1 (b : bool) : hashlib := mkHashlib (fun _ => b) (fun _ => 0) (fun _ _ => [1]).
Definition rs0 : pycrypto := mkPyCrypto true (fun n e => Ok (mkRsa n e 0 0 0 0)) (fun _ => Err ValueError) (fun _ _ => Err ValueError) (fun _ _ => Err ValueError).
Lemma errors_system : forall f e, In f [JCSystem_makeGlobalArray; JCSystem_getAvailableMemory; Dispatcher_new; Dispatcher_addService; Memory_getMemoryAccessInstance;
    MessageDigest_getInstance; MessageDigest_update; MessageDigest_doFinal; RandomData_getInstance; RandomData_generateData] -> (raised f e <-> allowed f e).
Proof.
  intros f e [<-|[<-|[<-|[<-|[<-|[<-|[<-|[<-|[<-|[<-|[]]]]]]]]]]]; unfold raised.
  - two.
    + intros (t & n & E). unfold makeGlobalArray in E. destruct (n <? 0); [left; congruence|]. right. left.
      repeat match type of E with rbind (if ?c then _ else _) _ = _ => destruct c; [discriminate|] end. cbn in E. congruence.
    + now exists 1, (-1).
    + now exists 0, 0.
  - one.
    + intros (o & t & b & E). left. unfold getAvailableMemory3 in E. destruct b as [b|]; [|cbn in E; congruence].
      destruct (py_set b o 127); [|cbn in E; congruence]. destruct (py_set _ _ _); [discriminate|cbn in E; congruence].
    + now exists 0, 0, None.
  - one.
    + intros (n & E). unfold dispatcher_new in E. destruct (n <? 0); [left; congruence|discriminate].
    + now exists (-1).
  - one.
    + intros (s & v & p & E). left. unfold addService, raise in E. destruct v; [|cbn in E; congruence]. unfold bind, get, put in E.
      repeat match type of E with context [if ?c then _ else _] => destruct c; [discriminate|] end. cbn in E. congruence.
    + now exists (mkDisp [] [] [] []), None, 0.
  - one.
    + intros (t & o & m & E). left. unfold getMemoryAccessInstance in E. congruence.
    + now exists 0, 0, [].
  - two.
    + intros (H & alg & E). unfold digest_getInstance, digest_reset, bind, get, raise, put in E. destruct (negb _); [left; congruence|]. destruct (negb _); [right; left; congruence|discriminate].
    + now exists (hl1 true), 0.
    + now exists (hl1 false), 1.
  - one.
    + intros (H & s & a & o & n & _ & E). left. symmetry. now apply update_err in E.
    + exists (hl1 true), (mkDigest 1 []), [], 0, 1. split; [|reflexivity]. exists 1, [], (mkDigest 1 []). split; reflexivity.
  - one.
    + intros (H & s & a & o & n & out & p & (alg & h & s0 & G & ->) & E). left. symmetry. unfold digest_doFinal in E.
      pose proof (update_err a o n (digest_run H h s0)) as K.
      assert (U : md_alg (snd (digest_update a o n (digest_run H h s0))) = alg).
      { change (md_alg (digest_call H (digest_run H h s0) (S_System.DUpdate a o n)) = alg). rewrite digest_alg, digest_run_alg, (getInstance_eq _ _ _ G). reflexivity. }
      destruct (digest_update a o n (digest_run H h s0)) as [[u|e1] s1]; cbn [snd] in U; [|cbn in E; apply K; cbn; congruence].
      pose proof (catch_err (write_loop 0 (hl_digest H (md_alg s1) (md_fed s1)) p) NameError out e (write_only _ _ _)) as W.
      destruct (catch_index _ _ out) as [r out']. rewrite (reset_ok H alg s0 s1 G U) in E. destruct r as [y|e1]; [discriminate|]. apply W. cbn in *. congruence.
    + exists (hl1 true), (mkDigest 1 []), [], 0, 1, [], 0. split; [|reflexivity]. exists 1, [], (mkDigest 1 []). split; reflexivity.
  - one.
    + intros (alg & E). unfold random_getInstance in E. destruct (_ =? _); [discriminate|]. left. congruence.
    + now exists 0.
  - two.
    + intros (rnd & o & n & a & E). unfold generateData in E. destruct (n =? 0); [left; cbn in E; congruence|]. right. left. symmetry. apply catch_err in E; [exact E|].
      apply only_for. intros i. unfold generate_body. apply only_bind; [apply only_get|]. intros b. apply only_bind; [apply only_lift; intros x; apply py_set_err|]. intros y. apply only_put.
    + now exists (fun _ => 0), 0, 0, [].
    + now exists (fun _ => 0), 0, 1, [].
Qed.
Lemma errors_crypto : forall f e, In f [KeyBuilder_buildKey; DESKey_getKey; RSAPublicKey_getExponent; RSAPublicKey_getModulus; RSAPrivateKey_setModulus; KeyPair_new; KeyPair_of;
    Cipher_getInstance; Cipher_update; Signature_getInstance] -> (raised f e <-> allowed f e).
Proof.
  intros f e [<-|[<-|[<-|[<-|[<-|[<-|[<-|[<-|[<-|[<-|[]]]]]]]]]]]; unfold raised.
  - two.
    + intros (args & E). unfold buildKey_args, buildKey in E. destruct args as [|a [|b [|c [|d [|x l]]]]]; try (right; left; congruence); try (left; congruence).
      repeat match type of E with (if ?c then _ else _) = _ => destruct c; [discriminate|] end. discriminate.
    + now exists [0; 0; 0; 0].
    + now exists [].
  - two.
    + intros (k & o & a & E). unfold getKey in E. destruct (dk_key k); [|left; cbn in E; congruence]. right. left. symmetry. now apply into_err in E.
    + now exists (deskey_new 3 64), 0, [].
    + now exists (mkDesKey 3 8 true (Some [1])), 0, [].
  - two.
    + intros (X & size & h & o & a & E). unfold pub_getExponent in E. apply getter_err in E; [exact E|]. intros Q.
      assert (K : pkept (run_pub X h (pubkey_new size))) by (apply pub_kept; discriminate). now destruct (K Q).
    + now exists rs0, 8, [], 0, [].
    + now exists rs0, 8, [S_Key.SExp [3] 0 1; S_Key.SMod [5] 0 1], 0, [].
  - two.
    + intros (X & size & h & o & a & E). unfold pub_getModulus in E. apply getter_err in E; [exact E|]. intros Q.
      assert (K : pkept (run_pub X h (pubkey_new size))) by (apply pub_kept; discriminate). now destruct (K Q).
    + now exists rs0, 8, [], 0, [].
    + now exists rs0, 8, [S_Key.SExp [3] 0 1; S_Key.SMod [5] 0 1], 0, [].
  - one.
    + intros (size & h & b & o & n & E). left. unfold priv_setModulus, priv_setter, bind, get, raise, put, ret in E. destruct (negb _); [cbn in E; congruence|].
      cbn [vk_mod vk_exp] in E. destruct (vk_exp _); discriminate.
    + now exists 8, [], [], 0, 0.
  - one.
    + intros (alg & n & E). unfold keypair_new in E. destruct (_ || _); [discriminate|]. left. congruence.
    + now exists 0, 0.
  - one.
    + intros (k & v & E). unfold keypair_of in E. left. destruct k; try congruence. destruct v; congruence.
    + now exists (KDes (deskey_new 3 64)), (KDes (deskey_new 3 64)).
  - three.
    + intros (args & E). unfold cipher_getInstance in E. destruct args as [|a [|b [|c [|d l]]]]; try (right; left; congruence).
      * unfold getInstance2, getInstance_alg in E. destruct (_ || _); [discriminate|left; congruence].
      * unfold getInstance3, getInstance_alg in E.
        repeat match type of E with context [if ?c then _ else _] => destruct c end; try discriminate; first [left; congruence|right; left; congruence|right; right; left; congruence].
    + now exists [0; 0].
    + now exists [].
    + now exists [0; 0; 0].
  - one.
    + intros (a & o & n & p & s & E). unfold cipher_update, bind, get, raise, ret in E. destruct (negb _); [left; cbn in E; congruence|discriminate].
    + now exists [], 0, 0, 0, (cipher_new 0, []).
  - one.
    + intros (args & E). left. cbn in E. congruence.
    + now exists [].
Qed.

(** DES ciphers *)
Lemma deskey_kept k : a_deskey k -> dk_init k = true -> dk_key k <> None.
Proof.
  intros (typ & size & h & ->). assert (G : forall k0, (dk_init k0 = true -> dk_key k0 <> None) ->
    dk_init (fold_left (fun k x => snd (setKey (fst x) (snd x) k)) h k0) = true ->
    dk_key (fold_left (fun k x => snd (setKey (fst x) (snd x) k)) h k0) <> None).
  { induction h as [|x h IH]; intros k0 K; cbn [fold_left]; [exact K|]. apply IH. intros _. cbn. discriminate. }
  apply G. discriminate.
Qed.
Lemma des_new_err key mode iv pm e : length iv = 8%nat -> des_new key mode iv [] pm = Err e -> e = ValueError.
Proof.
  intros Hi E. destruct (Nat.eq_dec (length key) 8) as [Hk|Hk].
  - destruct (des_new_exists key mode iv [] pm Hk (or_intror Hi) (or_introl eq_refl)) as [d Ed]. congruence.
  - unfold des_new in E. replace (zlen key =? 8) with false in E by (unfold zlen; lia). cbn [negb] in E. congruence.
Qed.
Lemma tdes_new_err key mode iv pm e : length iv = 8%nat -> tdes_new key mode iv [] pm = Err e -> e = ValueError.
Proof.
  intros Hi E. destruct (Nat.eq_dec (length key) 16) as [Hk|Hk]; [|destruct (Nat.eq_dec (length key) 24) as [Hk2|Hk2]].
  - destruct (tdes_new_exists key mode iv [] pm (or_introl Hk) (or_intror Hi) (or_introl eq_refl)) as [d Ed]. congruence.
  - destruct (tdes_new_exists key mode iv [] pm (or_intror Hk2) (or_intror Hi) (or_introl eq_refl)) as [d Ed]. congruence.
  - unfold tdes_new, base_init in E. cbn [nonempty andb] in E.
    replace (nonempty iv && negb (zlen iv =? 8)) with false in E by (destruct iv; [reflexivity|]; cbn [nonempty andb]; unfold zlen; lia).
    cbn [rbind] in E. unfold tdes_setKey in E. replace ((zlen key =? 24) || (zlen key =? 16)) with false in E by (unfold zlen; lia). cbn [negb] in E. congruence.
Qed.
Lemma des_init_err k mode b o n c e : a_key k -> fst (des_init k mode b o n c) = Err e ->
  In e [CryptoExc ILLEGAL_VALUE; CryptoExc UNINITIALIZED_KEY; ArrayIndexOutOfBounds; ValueError].
Proof.
  intros A. unfold des_init, base_cipher_init. cbn [In]. destruct k as [k|]; [|intros E; left; cbn in E; congruence].
  destruct (isInitialized k) eqn:I; cbn [negb]; [|intros E; right; left; cbn in E; congruence].
  destruct (_ || _); cbn [negb]; [|intros E; left; cbn in E; congruence].
  unfold bind at 1 2 3. cbn [get put ret fst snd]. destruct k as [dk|p|v]; try (intros E; left; cbn in E; congruence).
  destruct (n =? 8) eqn:N; cbn [negb]; [|intros E; left; cbn in E; congruence]. assert (n = 8) by lia. subst n.
  pose proof (arrayCopy_into_length b o 0 8 (py_repeat 0 8)) as Hl. pose proof (into_err b o 0 8 (py_repeat 0 8)) as Hx.
  destruct (arrayCopy_into _ _ _ _ _) as [[[]|x] v]; [|intros E; right; right; left; symmetry; apply Hx; exact E]. cbn [snd] in Hl. cbv zeta.
  rewrite bind_get. cbn [a_key isInitialized] in *. pose proof (deskey_kept dk A I) as Hk. destruct (dk_key dk) as [key|]; [|now destruct Hk]. clear Hk.
  assert (Lv : length (arrayTobinary v) = 8%nat) by (unfold arrayTobinary; rewrite map_length; exact Hl).
  cbn [c_alg]. intros E. right. right. right. left. symmetry. destruct (64 =? dk_size dk).
  - pose proof (des_new_err key (desmode (c_alg c)) (arrayTobinary v) (padmode (c_alg c)) e Lv) as K.
    destruct (des_new _ _ _ _ _) as [d|y]; cbn in E; [discriminate|]. apply K. congruence.
  - pose proof (tdes_new_err key (desmode (c_alg c)) (arrayTobinary v) (padmode (c_alg c)) e Lv) as K.
    destruct (tdes_new _ _ _ _ _) as [d|y]; cbn in E; [discriminate|]. apply K. congruence.
Qed.
Definition dinv (alg : Z) (c : cipher) : Prop :=
  c_alg c = alg /\ (c_init c = false \/ exists mode key iv, cst alg mode key iv c /\ length iv = 8%nat /\ Forall ubyte iv).
Lemma dinv_step alg c x : dinv alg c -> dinv alg (dcall_step c x).
Proof.
  intros (Ha & H). destruct x as [k mode b o n|x]; cbn [dcall_step].
  - destruct (des_init k mode b o n c) as [[[]|e] c'] eqn:E; cbn [snd].
    + assert (exists d, k = Some (KDes d) /\ n = 8) as (d & -> & ->).
      { unfold des_init, base_cipher_init in E. destruct k as [k|]; [|discriminate].
        destruct (isInitialized k); cbn [negb] in E; [|discriminate]. destruct (_ || _); cbn [negb] in E; [|discriminate].
        unfold bind at 1 2 3 in E. cbn [get put ret fst snd] in E. destruct k as [dk|p|v]; try discriminate.
        destruct (Z.eqb_spec n 8); cbn [negb] in E; [|discriminate]. exists dk. now split. }
      destruct (init_cst _ _ _ _ _ _ _ Ha E) as (key & v & _ & _ & _ & V & C). split; [apply C|]. right. exists mode, key, (map unsigned v).
      split; [exact C|]. split; [|apply unsigned_ubyte]. rewrite map_length. pose proof (arrayCopy_into_length b o 0 8 (py_repeat 0 8)) as Hl.
      rewrite V in Hl. exact Hl.
    + destruct (C61_partial_pf k mode b o n c e c' E) as ([->| ->] & _); [now split|]. split; [exact Ha|].
      destruct H as [H|(m & key & iv & (C1 & C2 & C3 & en & C4 & C5) & Hi)]; [left; exact H|]. right. exists mode, key, iv. split; [|exact Hi].
      unfold cst. cbn [c_alg c_init c_mode c_engine]. rewrite C2. repeat split; auto. eauto.
  - destruct H as [H|(m & key & iv & C & Hi)].
    + assert (cipher_call c x = c) as ->; [|split; [exact Ha|left; exact H]].
      destruct x; cbn [cipher_call]; unfold cipher_update, des_doFinal; rewrite bind_get; cbn [fst]; rewrite H; reflexivity.
    + pose proof (cst_call _ _ _ _ _ x C) as C'. split; [apply C'|]. right. eauto.
Qed.
Lemma dinv_reach c : a_des_cipher c -> exists alg, des_alg alg /\ dinv alg c.
Proof.
  intros (alg & h & A & _ & ->). exists alg. split; [exact A|].
  assert (G : forall c, dinv alg c -> dinv alg (fold_left dcall_step h c)).
  { induction h as [|x h IH]; intros c D; cbn [fold_left]; [exact D|]. apply IH. now apply dinv_step. }
  apply G. split; [reflexivity|left; reflexivity].
Qed.
Lemma engine_err enc key alg iv e data x : des_alg alg -> ewf key (cbase alg key iv) e -> length iv = 8%nat -> Forall ubyte iv -> Forall ubyte data ->
  fst (engine_run enc data e) = Err x -> x = ValueError.
Proof.
  intros Ha W Hi Hu Hd E. assert (HI : iv_ok (desmode alg) iv) by (intro; auto).
  destruct (Z.eq_dec (zlen data mod 8) 0) as [Hm|Hm].
  - destruct enc.
    + destruct (padded_blocks alg data Ha Hd (fun _ => Hm)) as (bs & _ & Hb & _ & _ & Hp).
      rewrite (engine_enc key (cbase alg key iv) e data bs W (Hp key iv) Hb HI) in E. discriminate.
    + destruct (split_blocks (length data / 8) data) as (bs & -> & Hb & Hbu & _); [unfold zlen in Hm; lia|exact Hd|].
      rewrite (engine_dec key (cbase alg key iv) e bs W Hb Hbu HI) in E. revert E. generalize (concat (e_dec (b_mode (cbase alg key iv)) key (b_iv (cbase alg key iv)) bs)).
      intros l. unfold unpadData. destruct l as [|y l]; [discriminate|]. cbn [nonempty negb andb]. unfold cbase. cbn [b_padmode b_pad nonempty].
      destruct (_ =? PAD_NORMAL); [discriminate|]. destruct (_ =? PAD_PKCS5); [|discriminate].
      rewrite (py_get_neg (y :: l) (-1) 0) by (unfold zlen; cbn [length]; lia). discriminate.
  - destruct enc.
    + destruct (alg_pkcs5 alg) eqn:P5.
      * destruct (padded_blocks alg data Ha Hd) as (bs & _ & Hb & _ & _ & Hp); [congruence|].
        rewrite (engine_enc key (cbase alg key iv) e data bs W (Hp key iv) Hb HI) in E. discriminate.
      * rewrite (engine_short true key alg iv e data W Hi Hu Hd Hm) in E; [congruence|]. intros _. now rewrite (padmode_pkcs5 alg Ha), P5.
    + rewrite (engine_short false key alg iv e data W Hi Hu Hd Hm) in E; [congruence|discriminate].
Qed.
Lemma des_doFinal_err c b o n p out e : a_des_cipher c -> fst (des_doFinal b o n p (c, out)) = Err e ->
  In e [CryptoExc INVALID_INIT; ArrayIndexOutOfBounds; ValueError].
Proof.
  intros A. destruct (dinv_reach c A) as (alg & Ha & Hc & [H|(mode & key & iv & (H1 & H2 & H3 & en & H4 & W) & Hi & Hu)]); cbn [In].
  - unfold des_doFinal. rewrite bind_get, H. cbn. intros E. left. congruence.
  - pose proof (into_err b o 0 n (py_repeat 0 n)) as Hx. destruct (arrayCopy_into b o 0 n (py_repeat 0 n)) as [[[]|x] v] eqn:Ev.
    + rewrite (doFinal_eq alg mode key iv c en b o n p out v H1 H2 H3 H4 W Ev). cbv zeta. clear Ev Hx.
      pose proof (engine_err (mode =? MODE_ENCRYPT) key alg iv en (map unsigned v) e Ha W Hi Hu (unsigned_ubyte _)) as K.
      destruct (fst (engine_run _ _ en)) as [r|x].
      * pose proof (into_err (binaryToarray r) 0 p (zlen (binaryToarray r)) out e) as Hx. destruct (arrayCopy_into _ _ _ _ _) as [[[]|x] o'].
        -- discriminate.
        -- intros E. right. left. symmetry. apply Hx. cbn in *. congruence.
      * intros E. right. right. left. symmetry. apply K. cbn in *. congruence.
    + unfold des_doFinal. rewrite bind_get, H2. cbn [negb]. rewrite Ev. intros E. right. left. symmetry. apply Hx. cbn in *. congruence.
Qed.
Definition key8 : deskey := snd (setKey [1;2;3;4;5;6;7;8] 0 (deskey_new 3 64)).
Lemma key8_ok : a_key (Some (KDes key8)).
Proof. exists 3, 64, [([1;2;3;4;5;6;7;8], 0)]. reflexivity. Qed.
Definition des8 : cipher := fold_left dcall_step [DInit (Some (KDes key8)) 2 [0;0;0;0;0;0;0;0] 0 8] (cipher_new 5).
Lemma des8_ok : a_des_cipher des8.
Proof.
  exists 5, [DInit (Some (KDes key8)) 2 [0;0;0;0;0;0;0;0] 0 8]. split; [unfold des_alg; tauto|]. split; [|reflexivity].
  constructor; [exact key8_ok|constructor].
Qed.
Lemma des_new_ok : a_des_cipher (cipher_new 5).
Proof. exists 5, []. split; [unfold des_alg; tauto|]. split; [constructor|reflexivity]. Qed.

(** RSA keys and ciphers *)
Definition rst (a : bool) (y : Z) : pycrypto :=
  mkPyCrypto a (fun n e => Ok (mkRsa n e 0 0 0 0)) (fun _ => Ok (mkRsa 35 5 5 0 0 0)) (fun _ _ => Ok y) (fun _ _ => Ok y).
Lemma rst_total a y : 0 <= y -> pc_total (rst a y).
Proof. intros H. split; [|split; [|split]]; intros; cbn; eauto. Qed.
Lemma pub_setter_err X f k e : pc_total X -> fst (pub_setter X f k) = Err e ->
  (exists k', f k = (Err e, k')) \/ e = CryptoExc NO_SUCH_ALGORITHM.
Proof.
  intros T. unfold pub_setter, bind at 1. destruct (f k) as [[u|x] k1]; [|intros E; left; exists k1; cbn in E; congruence]. intros E. right. revert E.
  unfold bind at 1, get. destruct (pk_mod k1) as [m|] eqn:M1; [|discriminate]. destruct (pk_exp k1) as [y|] eqn:X1; [|discriminate].
  unfold bind at 1. destruct (pk_the k1) as [r|]; cbn [ret]; [discriminate|].
  unfold pub_construct, bind, get, raise, lift, put. destruct (pc_avail X); cbn [negb]; [|cbn; congruence]. rewrite M1, X1.
  destruct (proj1 T (arrayTolong m) (arrayTolong y)) as [r ->]. discriminate.
Qed.
Definition vkept (k : privkey) : Prop := vk_init k = true -> vk_exp k <> None /\ vk_mod k <> None.
Lemma priv_setter_kept f k : vkept k -> (forall k, vkept k -> vkept (snd (f k))) -> vkept (snd (priv_setter f k)).
Proof.
  intros K F. unfold priv_setter, bind at 1. specialize (F k K). destruct (f k) as [[u|e] k1]; [|exact F]. cbn [snd] in F.
  unfold bind at 1, get. destruct (vk_mod k1) as [m|] eqn:M1; [|exact F]. destruct (vk_exp k1) as [x|] eqn:X1; [|exact F].
  cbn. unfold vkept. cbn. split; discriminate.
Qed.
Lemma priv_kept h : forall k, vkept k -> vkept (run_priv h k).
Proof.
  unfold run_priv. induction h as [|c h IH]; intros k K; cbn [fold_left]; [exact K|]. apply IH. destruct c as [b o n|b o n].
  - unfold priv_setExponent. apply priv_setter_kept; [exact K|]. clear. intros k K. unfold bind, get, put, vkept in *. cbn. intros Q. destruct (K Q). split; [discriminate|assumption].
  - unfold priv_setModulus. apply priv_setter_kept; [exact K|]. clear. intros k K. unfold bind, get, raise, put, vkept in *. destruct (negb _); [exact K|]. cbn. intros Q. destruct (K Q). split; [assumption|discriminate].
Qed.
Lemma rsa_init_err k mode c e : fst (rsa_init k mode c) = Err e -> In e [CryptoExc ILLEGAL_VALUE; CryptoExc UNINITIALIZED_KEY].
Proof.
  unfold rsa_init, base_cipher_init. cbn [In]. destruct k as [k|]; [|intros E; left; cbn in E; congruence].
  destruct (isInitialized k) eqn:I; cbn [negb]; [|intros E; right; left; cbn in E; congruence].
  destruct (_ || _); cbn [negb]; [|intros E; left; cbn in E; congruence].
  unfold bind at 1 2 3. cbn [get put ret fst snd]. destruct k as [dk|p|v]; [intros E; left; cbn in E; congruence|discriminate|discriminate].
Qed.
Lemma index_from_err l v : forall i s e, index_from l v i s = Err e -> e = ValueError.
Proof. induction l as [|x l IH]; intros i s e; cbn [index_from]; [congruence|]. destruct (_ && _); [discriminate|apply IH]. Qed.
Lemma zfr_err rnd : forall n out e, zeroFreeRandom rnd n out = Err e -> e = OutOfFuel.
Proof. induction rnd as [|x rnd IH]; intros n out e; cbn [zeroFreeRandom]; (destruct (_ <? n); [|discriminate]); [congruence|apply IH]. Qed.
Lemma rsa_doFinal_err X rnd k c b o n p out e : pc_total X -> an_rsa_cipher k c -> e <> OutOfFuel ->
  fst (rsa_doFinal X rnd c k b o n p out) = Err e ->
  In e [CryptoExc INVALID_INIT; ArrayIndexOutOfBounds; CryptoExc ILLEGAL_VALUE; AttributeError; ValueError].
Proof.
  intros (_ & _ & Te & Td) _ NF. unfold rsa_doFinal. cbn [In]. destruct (c_init c); cbn [negb]; [|intros E; left; cbn in E; congruence].
  pose proof (into_err b o 0 n (py_repeat 0 n)) as Hx. destruct (arrayCopy_into b o 0 n (py_repeat 0 n)) as [[[]|x] v];
    [|intros E; right; left; symmetry; apply Hx; cbn in *; congruence]. clear Hx.
  destruct (c_mode c) as [m|]; [|intros E; right; right; right; left; cbn in E; congruence].
  intros E. enough (e = ArrayIndexOutOfBounds \/ e = CryptoExc ILLEGAL_VALUE \/ e = AttributeError \/ e = ValueError) as Q
    by (destruct Q as [Q|[Q|[Q|Q]]]; rewrite Q; tauto).
  revert E.
  match goal with |- fst (?mm out) = Err e -> _ => assert (G : only (fun e => e = OutOfFuel \/ e = ArrayIndexOutOfBounds \/ e = CryptoExc ILLEGAL_VALUE \/ e = AttributeError \/ e = ValueError) mm) end.
  { apply only_bind.
    { apply only_lift. intros x. destruct (_ && _); [|discriminate]. unfold EME_enc. destruct (_ <? _); [intros Q; right; right; left; congruence|].
      destruct (zeroFreeRandom _ _ _) eqn:Z0; cbn [rbind]; [discriminate|]. apply zfr_err in Z0. intros Q. left. congruence. }
    intros data. destruct (negb _); [intros s x Q; right; right; left; cbn in Q; congruence|].
    apply only_bind.
    { apply only_lift. intros x. destruct k as [d|q|q]; cbn [the_rsa]; [intros Q; right; right; right; left; congruence| |];
        (destruct (pk_the q) || destruct (vk_the q)); try discriminate; intros Q; right; right; right; left; congruence. }
    intros r. apply only_bind.
    { apply only_lift. intros x. destruct (Te r (arrayTolong data)) as (y & -> & _). destruct (Td r (arrayTolong data)) as (z & -> & _).
      destruct (_ =? _); [discriminate|]. destruct k; discriminate. }
    intros x. cbv zeta. apply only_bind.
    { apply only_lift. intros y. destruct (_ && _); [|discriminate]. unfold EME_dec. destruct (negb _); [intros Q; right; right; left; congruence|].
      destruct (index_from _ _ _ _) eqn:Z0; cbn [rbind]; [discriminate|]. apply index_from_err in Z0. intros Q. right. right. right. right. congruence. }
    intros buf. apply only_bind; [|intros u; apply only_ret]. intros s y Q. right. left. now apply into_err in Q. }
  intros E. destruct (G _ _ E) as [Q|Q]; [contradiction|exact Q].
Qed.
Definition pub8 : pubkey := run_pub (rst true 0) [S_Key.SExp [3] 0 1; S_Key.SMod [5] 0 1] (pubkey_new 8).
Definition priv8 : privkey := run_priv [S_Key.SExp [3] 0 1; S_Key.SMod [5] 0 1] (privkey_new 8).
Lemma errors_cipher : forall f e, In f [DESKey_setKey; RSAPublicKey_setExponent; RSAPublicKey_setModulus;
    RSAPrivateKey_setExponent; RSAPrivateKey_getExponent; RSAPrivateKey_getModulus; KeyPair_genKeyPair;
    DESCipher_init; DESCipher_doFinal; RSACipher_init; RSACipher_doFinal] -> (raised f e <-> allowed f e).
Proof.
  intros f e [<-|[<-|[<-|[<-|[<-|[<-|[<-|[<-|[<-|[<-|[<-|[]]]]]]]]]]]]; unfold raised.
  - cbn [allowed In]. split; [|intros []]. intros (k & b & o & E). discriminate.
  - one.
    + intros (X & size & h & b & o & n & T & E). left. symmetry. unfold pub_setExponent in E. apply pub_setter_err in E as [(k' & E)|E]; [discriminate|exact E|exact T].
    + exists (rst false 0), 8, [S_Key.SMod [5] 0 1], [3], 0, 1. split; [now apply rst_total|reflexivity].
  - two.
    + intros (X & size & h & b & o & n & T & E). unfold pub_setModulus in E. apply pub_setter_err in E as [(k' & E)|E]; [|right; left; congruence|exact T].
      left. unfold bind, get, raise, put in E. destruct (negb _); [congruence|discriminate].
    + exists (rst true 0), 8, [], [3], 0, 2. split; [now apply rst_total|reflexivity].
    + exists (rst false 0), 8, [S_Key.SExp [5] 0 1], [3], 0, 1. split; [now apply rst_total|reflexivity].
  - cbn [allowed In]. split; [|intros []]. intros (size & h & b & o & n & E).
    unfold priv_setExponent, priv_setter, bind, get, put, ret in E. cbn [vk_mod vk_exp] in E. destruct (vk_mod _); discriminate.
  - two.
    + intros (size & h & o & a & E). unfold priv_getExponent in E. apply getter_err in E; [exact E|]. intros Q.
      assert (K : vkept (run_priv h (privkey_new size))) by (apply priv_kept; discriminate). now destruct (K Q).
    + now exists 8, [], 0, [].
    + now exists 8, [S_Key.SExp [3] 0 1; S_Key.SMod [5] 0 1], 0, [].
  - two.
    + intros (size & h & o & a & E). unfold priv_getModulus in E. apply getter_err in E; [exact E|]. intros Q.
      assert (K : vkept (run_priv h (privkey_new size))) by (apply priv_kept; discriminate). now destruct (K Q).
    + now exists 8, [], 0, [].
    + now exists 8, [S_Key.SExp [3] 0 1; S_Key.SMod [5] 0 1], 0, [].
  - three.
    + intros (X & s & T & _ & E). unfold genKeyPair, pyCryptogenKeyPair, bind, get, raise, put, lift in E.
      destruct (_ || _); [left; cbn in E; congruence|]. destruct (negb _); [right; left; cbn in E; congruence|].
      destruct (kp_alg s); [|right; right; left; cbn in E; congruence]. destruct (negb _); [left; cbn in E; congruence|].
      destruct (kp_len s) as [n|]; [|right; right; left; cbn in E; congruence]. destruct (proj1 (proj2 T) n) as [r R]. rewrite R in E. discriminate.
    + exists (rst true 0), (mkPair None None pub8 (privkey_new 8)). split; [now apply rst_total|]. split; [|reflexivity].
      exists 0%nat, (mkPair None None pub8 (privkey_new 8)). split; [|reflexivity]. right. now exists (KPub pub8), (KPriv (privkey_new 8)).
    + exists (rst false 0), (mkPair (Some 1) (Some 8) (pubkey_new 8) (privkey_new 8)). split; [now apply rst_total|]. split; [|reflexivity].
      exists 0%nat, (mkPair (Some 1) (Some 8) (pubkey_new 8) (privkey_new 8)). split; [|reflexivity]. left. now exists 1, 8.
    + exists (rst true 0), (mkPair None None (pubkey_new 8) (privkey_new 8)). split; [now apply rst_total|]. split; [|reflexivity].
      exists 0%nat, (mkPair None None (pubkey_new 8) (privkey_new 8)). split; [|reflexivity]. right. now exists (KPub (pubkey_new 8)), (KPriv (privkey_new 8)).
  - four.
    + intros (c & k & mode & b & o & n & _ & A & E). now apply des_init_err in E.
    + exists (cipher_new 5), None, 1, [], 0, 8. split; [exact des_new_ok|]. split; [exact I|reflexivity].
    + exists (cipher_new 5), (Some (KDes (deskey_new 3 64))), 1, [], 0, 8. split; [exact des_new_ok|]. split; [now exists 3, 64, []|reflexivity].
    + exists (cipher_new 5), (Some (KDes key8)), 1, [], 0, 8. split; [exact des_new_ok|]. split; [exact key8_ok|reflexivity].
    + exists (cipher_new 5), (Some (KDes (snd (setKey [1] 0 (deskey_new 3 64))))), 1, [0;0;0;0;0;0;0;0], 0, 8. split; [exact des_new_ok|].
      split; [now exists 3, 64, [([1], 0)]|reflexivity].
  - three.
    + intros (c & b & o & n & p & out & A & E). now apply des_doFinal_err in E.
    + exists (cipher_new 5), [], 0, 0, 0, []. split; [exact des_new_ok|reflexivity].
    + exists des8, [], 0, 1, 0, []. split; [exact des8_ok|vm_compute; reflexivity].
    + exists des8, [1], 0, 1, 0, []. split; [exact des8_ok|vm_compute; reflexivity].
  - two.
    + intros (c & k & mode & E). now apply rsa_init_err in E.
    + now exists (cipher_new 12), None, 1.
    + now exists (cipher_new 12), (Some (KPub (pubkey_new 8))), 1.
  - cbn [allowed In]. split; [|intros [<-|[<-|[<-|[<-|[<-|[]]]]]]].
    + intros (X & rnd & k & c & b & o & n & p & out & T & _ & A & NF & E). eapply rsa_doFinal_err; eassumption.
    + exists (rst true 0), [], (KPub (pubkey_new 8)), (cipher_new 12), [], 0, 0, 0, []. split; [now apply rst_total|].
      split; [exists 8, []; now left|]. split; [|split; [discriminate|reflexivity]]. split; [now left|now left].
    + exists (rst true 0), [], (KPub pub8), (mkCipher 12 true (Some 1) None), [], 0, 1, 0, []. split; [now apply rst_total|].
      split; [exists 8, [S_Key.SExp [3] 0 1; S_Key.SMod [5] 0 1]; now left|]. split; [|split; [discriminate|reflexivity]]. split; [now left|]. right. exists 1, (cipher_new 12). now split.
    + exists (rst true 0), [], (KPub pub8), (mkCipher 12 true (Some 1) None), [1; 2], 0, 2, 0, []. split; [now apply rst_total|].
      split; [exists 8, [S_Key.SExp [3] 0 1; S_Key.SMod [5] 0 1]; now left|]. split; [|split; [discriminate|reflexivity]]. split; [now left|]. right. exists 1, (cipher_new 12). now split.
    + exists (rst true 0), [], (KPriv priv8), (mkCipher 12 true (Some 1) None), [1], 0, 1, 0, []. split; [now apply rst_total|].
      split; [exists 8, [S_Key.SExp [3] 0 1; S_Key.SMod [5] 0 1]; now right; left|]. split; [|split; [discriminate|reflexivity]]. split; [now left|]. right. exists 1, (cipher_new 12). now split.
    + exists (rst true 8192), [], (KPub (run_pub (rst true 8192) [S_Key.SExp [3] 0 1; S_Key.SMod [5] 0 1] (pubkey_new 8))), (mkCipher 10 true (Some 1) None), [1], 0, 1, 0, []. split; [now apply rst_total|].
      split; [exists 8, [S_Key.SExp [3] 0 1; S_Key.SMod [5] 0 1]; now left|]. split; [|split; [discriminate|reflexivity]]. split; [now right|]. right. exists 1, (cipher_new 10). now split.
Qed.

Lemma C135_exact_partial_pf : forall f e, raised f e <-> allowed f e.
Proof.
  intros f e. destruct f; first
    [ apply errors_util; cbn; tauto | apply errors_aid; cbn; tauto | apply errors_pin; cbn; tauto | apply errors_apdu; cbn; tauto | apply errors_big; cbn; tauto
    | apply errors_tag; cbn; tauto | apply errors_tlv; cbn; tauto | apply errors_system; cbn; tauto | apply errors_crypto; cbn; tauto | apply errors_cipher; cbn; tauto ].
Qed.

Lemma C135_refuted_pf : forall f, (exists e, raised f e /\ java e = false) <-> leaks f = true.
Proof.
  intros f. split.
  - intros (e & R & J). apply C135_exact_partial_pf in R.
    destruct f; cbn [allowed In leaks] in *; try reflexivity; exfalso;
      repeat match goal with H : _ \/ _ |- _ => destruct H as [H|H] end; subst; first [contradiction|discriminate J].
  - intros L.
    assert (K : exists e, allowed f e /\ java e = false).
    { destruct f; try discriminate L; cbn [allowed In];
      first [ exists IndexError; split; [tauto|reflexivity] | exists NameError; split; [tauto|reflexivity] | exists TypeError; split; [tauto|reflexivity]
            | exists AttributeError; split; [tauto|reflexivity] | exists KeyError; split; [tauto|reflexivity] | exists ValueError; split; [tauto|reflexivity] ]. }
    destruct K as (e & A & J). exists e. split; [|exact J]. now apply C135_exact_partial_pf.
Qed.

Lemma C135_full_refuted_pf : ~ C135_full.
Proof.
  intros H. destruct (proj2 (C135_refuted_pf JCint_getInt) eq_refl) as (e & R & J). rewrite (H _ _ R) in J. discriminate.
Qed.
