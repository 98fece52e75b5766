(** * C140: returned numbers fit the result type of the API: proofs *)
From Verif Require Import Py S_Base L_Py M_utils M_util M_aid M_ownerpin M_apdu M_world M_bignumber M_jcint M_bertag M_bertlv M_digest M_key M_cipher.
From Verif Require Import L_utils L_util LP_util LP_aid LP_ownerpin LP_apdu LP_bertag LP_keys LP_des LP_cipher LP_arrayall S_ArrayAll LP_return S_Return S_JavaType.
From Coq Require Import Lia Bool ZifyBool ZifyNat.
Ltac Zify.zify_post_hook ::= Z.div_mod_to_equations.

Lemma into_fits src do len dest r d : 0 <= do -> 0 <= len -> len <= zlen src -> arrayCopy_into src 0 do len dest = (Ok r, d) -> len <= zlen dest.
Proof.
  intros D L S H. destruct (Z.le_gt_cases len (zlen dest)) as [X|X]; [exact X|exfalso].
  pose proof (zlen_nonneg dest). pose proof (arrayCopy_into_err src 0 do len dest ltac:(lia) D ltac:(lia) ltac:(lia)) as E. rewrite H in E. discriminate E.
Qed.
Lemma aset_inv i v (a : list Z) u a' : aset i v a = (Ok u, a') -> i < zlen a /\ zlen a' = zlen a.
Proof.
  intros H. pose proof (aset_length i v a) as L. rewrite H in L. cbn [snd] in L. split; [|unfold zlen; now rewrite L].
  destruct (Z.lt_ge_cases i (zlen a)) as [X|X]; [exact X|]. rewrite (aset_out i v a ltac:(lia)) in H. discriminate H.
Qed.
Lemma aget_inv i (a : list Z) v a' : aget i a = (Ok v, a') -> a' = a.
Proof. unfold aget. destruct (py_get a i); congruence. Qed.
Lemma put_fits l : forall o b a r a', 0 <= o -> o + b <= zlen a -> put_chunks l o b a = (Ok r, a') -> o + r <= zlen a.
Proof.
  induction l as [|x l IH]; intros o b a r a' O B H; cbn [put_chunks] in H.
  - unfold ret in H. assert (b = r) by congruence. lia.
  - inv H. apply aset_inv in E as [E1 E2]. inv H. unfold aadd in E. inv E. apply aset_inv in E as [_ E3].
    assert (s1 = s) by (eapply aget_inv; exact E0). subst s1.
    apply IH in H; lia.
Qed.
Lemma aadd_inv i v (a : list Z) u a' : aadd i v a = (Ok u, a') -> zlen a' = zlen a.
Proof. unfold aadd. intros H. apply bind_inv in H as (x & b & H1 & H). apply aget_inv in H1. subst b. now apply aset_inv in H. Qed.
Lemma tag_fits g o a r a' : 0 <= o -> tag_toBytes g o a = (Ok r, a') -> 0 <= r /\ o + r <= zlen a.
Proof.
  intros O H. unfold tag_toBytes in H. apply bind_inv in H as (x1 & a1 & H1 & H). apply aset_inv in H1 as [H1 L1].
  apply bind_inv in H as (x2 & a2 & H2 & H). apply aadd_inv in H2. destruct (tnumber g <=? 30).
  - apply bind_inv in H as (x3 & a3 & H3 & H). apply bind_inv in H as (x4 & a4 & H4 & H). unfold ret in H. assert (r = 1) by congruence. lia.
  - apply bind_inv in H as (x3 & a3 & H3 & H). apply aadd_inv in H3. apply bind_inv in H as (l & a4 & H4 & H).
    assert (a4 = a3) by (unfold lift in H4; destruct (chunk_loop _ _ _); congruence). subst a4.
    apply bind_inv in H as (n & a5 & H5 & H). pose proof (put_len _ _ _ _ _ _ H5) as P. apply put_fits in H5; [|lia|lia].
    apply bind_inv in H as (x6 & a6 & H6 & H). apply bind_inv in H as (x7 & a7 & H7 & H). apply bind_inv in H as (x8 & a8 & H8 & H).
    unfold ret in H. assert (n = r) by congruence. pose proof (zlen_nonneg (rev l)). lia.
Qed.
Lemma step_fixed o s : Nc (snd (apdu_step o s)) = Nc s /\ cdataoffs (snd (apdu_step o s)) = cdataoffs s.
Proof.
  assert (R : forall b t, Nc (snd (receive_block b t)) = Nc t /\ cdataoffs (snd (receive_block b t)) = cdataoffs t).
  { intros b t. unfold receive_block. destruct (for_range _ _ _ _) as [[w|w] z]; now split. }
  assert (SB : forall d b n t, Nc (snd (send_block d b n t)) = Nc t /\ cdataoffs (snd (send_block d b n t)) = cdataoffs t).
  { intros d b n t. unfold send_block. rewrite bind_get. destruct (curout t); [|now split]. destruct (_ <? _); now split. }
  assert (P : forall A B (m : M apdu A) (f : A -> M apdu B), (forall t, Nc (snd (m t)) = Nc t /\ cdataoffs (snd (m t)) = cdataoffs t) ->
     (forall a t, Nc (snd (f a t)) = Nc t /\ cdataoffs (snd (f a t)) = cdataoffs t) -> forall t, Nc (snd (bind m f t)) = Nc t /\ cdataoffs (snd (bind m f t)) = cdataoffs t).
  { intros A B m f Hm Hf t. unfold bind. specialize (Hm t). destruct (m t) as [[a|e] t']; cbn [snd] in *; [|exact Hm]. destruct (Hf a t'). destruct Hm. split; congruence. }
  assert (SO : forall t, Nc (snd (setOutgoing t)) = Nc t /\ cdataoffs (snd (setOutgoing t)) = cdataoffs t).
  { intros t. unfold setOutgoing. rewrite bind_get. destruct (_ <=? _); now split. }
  assert (SL : forall n t, Nc (snd (setOutgoingLength n t)) = Nc t /\ cdataoffs (snd (setOutgoingLength n t)) = cdataoffs t).
  { intros n t. unfold setOutgoingLength. rewrite bind_get. destruct (_ <? _); [now split|]. destruct (match Ne t with Some _ => _ | None => _ end); now split. }
  assert (SE : forall b n t, Nc (snd (sendBytes b n t)) = Nc t /\ cdataoffs (snd (sendBytes b n t)) = cdataoffs t).
  { intros b n t. unfold sendBytes. rewrite bind_get. destruct (_ <? _); [now split|apply SB]. }
  destruct o; cbn [apdu_step]; unfold msome, mvoid; try (apply P; [|intros; now split]).
  - intros t. unfold setIncomingAndReceive. rewrite bind_get. destruct (negb _); [now split|]. destruct (broken t); [now split|apply R].
  - intros t. unfold receiveBytes. rewrite bind_get. destruct (_ || _); [now split|apply R].
  - exact SO.
  - apply SL.
  - apply SE.
  - intros t. unfold sendBytesLong. rewrite bind_get. destruct (_ && _); [now split|apply SB].
  - unfold setOutgoingAndSend. intros t. apply P; [exact SO|]. intros _. apply P; [apply SL|intros; apply SE].
  - match goal with |- context [aset ?i ?v ?b] => destruct (aset i v b) as [[w|w] z] end; now split.
Qed.
Lemma run_fixed ops : forall s, Nc (snd (apdu_run ops s)) = Nc s /\ cdataoffs (snd (apdu_run ops s)) = cdataoffs s.
Proof.
  induction ops as [|o ops IH]; intros s; [now split|]. cbn [apdu_run]. pose proof (step_fixed o s) as [A B]. destruct (apdu_step o s) as [r s1]. cbn [snd] in A, B.
  specialize (IH s1) as [C D]. destruct (apdu_run ops s1) as [tr s2]. cbn [snd] in *. split; congruence.
Qed.
Lemma in_field b p : getInLengths b = Ok p -> snd p = 1 \/ snd p = 3.
Proof.
  unfold getInLengths. destruct (py_get b OFFSET_LC) as [lc|e]; [|discriminate]. cbn [rbind]. destruct (lc =? 0).
  - destruct (py_get b _) as [x|e]; [|discriminate]. cbn [rbind]. destruct (py_get b _) as [y|e]; [|discriminate]. cbn [rbind]. intros [= <-]. now right.
  - intros [= <-]. now left.
Qed.
Lemma new_offset b s : newAPDU b = Ok s -> cdataoffs s = 5 \/ cdataoffs s = 7.
Proof.
  unfold newAPDU. destruct (zlen b <? 4); [discriminate|]. destruct (copy_cells b 0 4 _) as [[u|e] z]; [|discriminate].
  destruct (if 4 <? zlen b then _ else _) as [p|e]; [|discriminate]. cbn [rbind]. destruct (copy_cells b _ _ z) as [[v|e] y]; [|discriminate].
  destruct (zlen b =? 4); [intros [= <-]; now left|]. destruct (py_get b 4) as [b4|e]; [|discriminate]. cbn [rbind].
  destruct (_ || _).
  - destruct (getOutLengths _ _) as [ol|e]; [|discriminate]. cbn [rbind]. intros [= <-]. now left.
  - destruct (is_type3 b) as [t3|e]; [|discriminate]. cbn [rbind]. destruct t3; (destruct (getInLengths b) as [il|e] eqn:I; [|discriminate]; cbn [rbind]).
    + intros [= <-]. cbn [cdataoffs]. unfold OFFSET_CDATA. destruct (in_field _ _ I) as [Q|Q]; rewrite Q; [now left|now right].
    + destruct (getOutLengths _ _) as [ol|e]; [|discriminate]. cbn [rbind]. intros [= <-]. cbn [cdataoffs]. unfold OFFSET_CDATA. destruct (in_field _ _ I) as [Q|Q]; rewrite Q; [now left|now right].
Qed.
Lemma run_st b s ops : newAPDU b = Ok s -> inv b (Ne s) (snd (apdu_run ops s)).
Proof.
  intros H. destruct (apdu_run ops s) as [tr s'] eqn:E.
  destruct (run_ind (inv b (Ne s)) (rx_ok b) (fun o t => inv_step b (Ne s) o t) ops s tr s' (inv_new b s H) E) as [I _]. exact I.
Qed.
Lemma neg_tries lim : lim < 0 -> forall max ops, lim <= triesremaining (snd (pin_run ops (newOwnerPIN lim max))) <= 0.
Proof.
  intros N max ops. apply (run_inv (fun s => lim <= triesremaining s <= 0 /\ trylimit s = lim)); [|cbn; lia].
  intros o s [T L]. destruct o; cbn [pin_step]; unfold mmap.
  - unfold check, set_validated. unfold bind, get, put, ret, raise. cbn [triesremaining trylimit]. replace (triesremaining s <=? 0) with true by lia. now split.
  - unfold update. unfold bind, get, put, ret, raise, on_pin, set_tries, set_validated, lift. cbn [triesremaining trylimit maxpinsize thepin].
    destruct (_ <? _); [now split|]. destruct (_ <? _); [now split|]. destruct (update_fill _ _ _ _ _) as [[u|u] l]; cbn; lia.
  - unfold reset, resetAndUnblock. unfold bind, get, put, ret. destruct (validated s); cbn; lia.
  - cbn; lia.
  - cbn; lia.
  - cbn; lia.
  - cbn; lia.
Qed.
Lemma compare_range s so d do n r : arrayCompare s so d do n = Ok r -> -1 <= r <= 1.
Proof.
  intros H. destruct (C08_compare_partial_pf s so d do n) as [(i & _ & _ & _ & E)|(_ & E)]; rewrite E in H.
  - assert (r = if elem d (do + i) <? elem s (so + i) then 1 else -1) by congruence. destruct (_ <? _); lia.
  - destruct (_ <? _); [discriminate|]. assert (r = 0) by congruence. lia.
Qed.
Lemma init_class a o g : BERTag_init a o = Ok g -> 0 <= tclass g <= 3.
Proof.
  unfold BERTag_init. destruct (py_get a o) as [b|e]; [|discriminate]. cbn [rbind].
  assert (0 <= Z.shiftr (Z.land b 255) 6 <= 3) as C.
  { change 255 with (Z.ones 8). rewrite Z.land_ones by lia. rewrite Z.shiftr_div_pow2 by lia. change (2 ^ 8) with 256. change (2 ^ 6) with 64. lia. }
  destruct (_ =? _).
  - destruct (tag_loop _ _ _ _ _) as [[num n]|e]; [|discriminate]. cbn [rbind]. destruct (py_get a _) as [x|e]; [|discriminate]. cbn [rbind]. intros [= <-]. exact C.
  - intros [= <-]. exact C.
Qed.
Lemma getInstance_class a o g : BERTag_getInstance a o = Ok g -> 0 <= tclass g <= 3.
Proof.
  unfold BERTag_getInstance, Constructed_init_bytes, Primitive_init_bytes. destruct (py_get a o) as [b|e]; cbn [rbind]; [|destruct e; discriminate].
  intros H. apply (init_class a o). destruct (negb _); (destruct (_ =? _) in H; [discriminate|]); destruct (BERTag_init a o) as [x|[]]; congruence.
Qed.
Lemma wl_fits vs : forall i o out u out', 0 <= o -> 0 <= i -> o + i <= zlen out -> write_loop i vs o out = (Ok u, out') -> o + i + zlen vs <= zlen out.
Proof.
  induction vs as [|v vs IH]; intros i o out u out' O I L H.
  - change (zlen (@nil Z)) with 0. lia.
  - cbn [write_loop] in H. rewrite bind_get in H. apply bind_inv in H as (x & t & H1 & H). apply bind_inv in H as (y & t2 & H2 & H).
    unfold lift in H1. destruct (py_set out (o + i) (M_utils.s1 v)) as [l|e] eqn:E; [|discriminate].
    assert (zlen l = zlen out /\ o + i < zlen out) as [Ll Lo].
    { pose proof (aset_length (o + i) (M_utils.s1 v) out) as A. pose proof (aset_inv (o + i) (M_utils.s1 v) out tt l) as B. unfold aset in A, B. rewrite E in A, B. cbn [snd] in A. unfold zlen. rewrite A. split; [reflexivity|]. now apply B. }
    unfold put in H2. assert (t2 = l) by congruence. subst t2. apply IH in H; [|lia..]. rewrite zlen_cons. lia.
Qed.
Lemma write_fits vs o out u out' : 0 <= o -> catch_index (write_loop 0 vs o) NameError out = (Ok u, out') -> zlen vs <= zlen out.
Proof.
  intros O H. unfold catch_index in H. destruct (write_loop 0 vs o out) as [[x|x] z] eqn:E; [|destruct x; discriminate].
  destruct vs as [|v vs]; [apply zlen_nonneg|]. pose proof E as E'. cbn [write_loop] in E'. rewrite bind_get in E'. apply bind_inv in E' as (y & t & H1 & _).
  unfold lift in H1. destruct (py_set out (o + 0) (M_utils.s1 v)) as [l|e] eqn:P; [|discriminate].
  pose proof (aset_inv (o + 0) (M_utils.s1 v) out tt l) as B. unfold aset in B. rewrite P in B. destruct (B eq_refl) as [B1 _].
  apply wl_fits in E; lia.
Qed.
Lemma jb_small l : forallb (fun v => (-128 <=? v) && (v <=? 127)) l && (zlen l <=? 32767) = true -> jbytes l.
Proof.
  intros H. apply andb_prop in H as [H L]. split; [|lia]. apply Forall_forall. intros x I. rewrite forallb_forall in H. specialize (H x I). cbn [within_type]. lia.
Qed.
Lemma cmp_range s o r : compareTo_big s o = Ok r -> -1 <= r <= 1.
Proof.
  unfold compareTo_big. destruct (value s) as [v|], (value o) as [w|]; try discriminate.
  - destruct (v =? w); [intros [= <-]; lia|]. destruct (w <? v); intros [= <-]; lia.
  - intros [= <-]. lia.
Qed.

Lemma C140_exact_partial_pf : forall f, keeps_type f <-> typed f = true.
Proof.
  assert (Z0 : joffset 0) by (split; discriminate).
  intros f. destruct f; cbn [typed]; (split; [intros Q; try reflexivity; exfalso|intros Q; try discriminate Q; clear Q; intros r Q; cbn [result_type within_type returns] in *]).
  - (* arrayCompare *) destruct Q as (s & so & d & do & n & _ & _ & H).
    apply compare_range in H. lia.
  - destruct Q as (b & c & _ & _ & <-). destruct (C01_makeShort_pf b c) as [H _]. exact H.
  - destruct Q as (a & o & _ & _ & H). unfold getShort in H. destruct (py_get a o) as [x|e]; cbn in H; [|destruct e; discriminate].
    destruct (py_get a (o + 1)) as [y|e]; cbn in H; [|destruct e; discriminate].
    assert (r = makeShort x y) by congruence. subst r. apply (C01_makeShort_pf x y).
  - (* makeInt of bytes *)
    specialize (Q (makeInt4 (-128) (-1) 0 0)). cbn [returns result_type within_type] in Q. destruct Q as [Q _]; [|vm_compute in Q; now apply Q].
    exists (-128), (-1), 0, 0. split; [|reflexivity]. repeat constructor; cbn [within_type]; lia.
  - specialize (Q (makeInt2 (-32768) (-1))). cbn [returns result_type within_type] in Q. destruct Q as [Q _]; [|vm_compute in Q; now apply Q].
    exists (-32768), (-1). split; [lia|]. split; [lia|reflexivity].
  - specialize (Q (-2147549184)). cbn [returns result_type within_type] in Q. destruct Q as [Q _]; [|lia].
    exists [-128; -1; 0; 0], 0. split; [now apply jb_small|]. now split.
  - (* setInt *) destruct Q as (a & o & v & w & a' & [_ L] & [O _] & H). unfold setInt in H.
    apply bind_inv in H as (x1 & a1 & H1 & H). apply aset_inv in H1 as [_ L1]. apply bind_inv in H as (x2 & a2 & H2 & H). apply aset_inv in H2 as [_ L2].
    apply bind_inv in H as (x3 & a3 & H3 & H). apply aset_inv in H3 as [_ L3]. apply bind_inv in H as (x4 & a4 & H4 & H). apply aset_inv in H4 as [F4 L4].
    unfold ret in H. assert (r = o + 4) by congruence. lia.
  - (* getBytes *) destruct Q as (b & o & n & x & p & a & a' & N & _ & _ & H). destruct (C21_size_partial_pf b x o n N) as [L _].
    unfold getBytes in H. destruct (zlen a <? _); [discriminate|]. assert (r = zlen x) by congruence. pose proof (zlen_nonneg x). lia.
  - (* getTriesRemaining *) destruct Q as (lim & max & ops & s & L & <- & H).
    destruct (Z.lt_ge_cases lim 0) as [N|N].
    + pose proof (neg_tries lim N max ops) as E. unfold getTriesRemaining, bind, get, ret in H. assert (r = triesremaining (snd (pin_run ops (newOwnerPIN lim max)))) by congruence. lia.
    + destruct (C11_tries_in_range_pf lim max ops N) as ((t & E & T) & _). cbv zeta in E. assert (r = t) by congruence. lia.
  - (* getCurrentState *) destruct Q as (b & s & ops & N & <-). destruct (run_st b s ops N) as (_ & I & _). unfold getCurrentState. lia.
  - (* getCLAChannel *) destruct Q as (w & H). unfold getCLAChannel in H. destruct (getCurrentAPDUBuffer w) as [b|e]; [|discriminate]. cbn [rbind] in H.
    destruct (py_get b OFFSET_CLA) as [cla|e]; [|discriminate]. cbn [rbind] in H. assert (r = Z.land cla 3) by congruence. subst r.
    change 3 with (Z.ones 2). rewrite Z.land_ones by lia. change (2 ^ 2) with 4. lia.
  - (* getIncomingLength *) specialize (Q 65535). cbn [returns result_type within_type] in Q. destruct Q as [_ Q]; [|lia].
    eexists [0; 0; 0; 0; 0; -1; -1; 0], _, []. split; vm_compute; reflexivity.
  - (* getOffsetCdata *) destruct Q as (b & s & ops & N & <-). unfold getOffsetCdata. rewrite (proj2 (run_fixed ops s)). destruct (new_offset b s N); lia.
  - (* setIncomingAndReceive *) destruct Q as (b & s & ops & s' & N & H). pose proof (run_st b s ops N) as I.
    unfold setIncomingAndReceive in H. rewrite bind_get in H. destruct (Z.eqb_spec (st (snd (apdu_run ops s))) STATE_INITIAL) as [E|E]; [|discriminate]. cbn [negb] in H.
    destruct (broken _) eqn:B; [discriminate|]. unfold STATE_INITIAL in E.
    destruct (receive_block_inv (offin (snd (apdu_run ops s))) _ _ _ I ltac:(lia) (or_introl B)) as [_ R]. specialize (R r). rewrite H in R. specialize (R eq_refl). lia.
  - (* receiveBytes *) destruct Q as (b & s & ops & o & s' & N & H). pose proof (run_st b s ops N) as I.
    unfold receiveBytes in H. rewrite bind_get in H. destruct (_ || _) eqn:E; [discriminate|]. unfold STATE_PARTIAL_INCOMING, STATE_OUTGOING in E.
    destruct (receive_block_inv o _ _ _ I ltac:(lia) ltac:(right; lia)) as [_ R]. specialize (R r). rewrite H in R. specialize (R eq_refl). lia.
  - (* setOutgoing *) specialize (Q 65536). cbn [returns result_type within_type] in Q. destruct Q as [_ Q]; [|lia].
    eexists [0; 0; 0; 0; 0; 0; 0], _, [], _. split; vm_compute; reflexivity.
  - (* compareTo *) destruct Q as (s & a & o & n & fmt & H). unfold compareTo in H. destruct (operand _ _ _ _) as [x|e]; [|discriminate]. cbn [rbind] in H. apply cmp_range in H. lia.
  - (* tagClass *) destruct Q as (a & o & g & _ & _ & H & <-). assert (0 <= tclass g <= 3) by (eapply getInstance_class; exact H). lia.
  - specialize (Q 2097024). cbn [returns result_type within_type] in Q. destruct Q as [_ Q]; [|lia].
    exists [31; -1; -1; 0], 0. eexists. split; [now apply jb_small|]. split; [exact Z0|]. split; vm_compute; reflexivity.
  - specialize (Q 130). cbn [returns result_type within_type] in Q. destruct Q as [_ Q]; [|lia].
    exists (31 :: repeat (-1) 129 ++ [0]), 0. eexists. split; [now apply jb_small|]. split; [exact Z0|]. split; vm_compute; reflexivity.
  - (* toBytes of a tag *) destruct Q as (g & o & a & a' & [_ L] & [O _] & H). apply tag_fits in H; lia.
  - (* getLength *) specialize (Q 2130706432). cbn [returns result_type within_type] in Q. destruct Q as [_ Q]; [|lia].
    exists [1; -124; 0; 0; 0; 127], 0. eexists. split; [now apply jb_small|]. split; [exact Z0|]. split; vm_compute; reflexivity.
  - specialize (Q 2147483650). cbn [returns result_type within_type] in Q. destruct Q as [_ Q]; [|lia].
    exists [1; -124; 0; 0; 0; 127], 0. eexists. split; [now apply jb_small|]. split; [exact Z0|]. split; vm_compute; reflexivity.
  - specialize (Q 2130706437). cbn [returns result_type within_type] in Q. destruct Q as [_ Q]; [|lia].
    exists [1; -124; 0; 0; 0; 127], 0. split; [now apply jb_small|]. split; [exact Z0|]. vm_compute; reflexivity.
  - specialize (Q 16777218). cbn [returns result_type within_type] in Q. destruct Q as [_ Q]; [|lia].
    exists [1; -124; 0; 0; 0; 127], 0. split; [now apply jb_small|]. split; [exact Z0|]. vm_compute; reflexivity.
  - (* toBytes of a TLV *) specialize (Q (-2147483646)). cbn [returns result_type within_type] in Q. destruct Q as [Q _]; [|lia].
    exists [1; -124; 0; 0; 0; -128], 0. eexists. exists 0, [0; 0]. eexists. split; [now apply jb_small|]. split; [exact Z0|]. split; [vm_compute; reflexivity|].
    split; [now apply jb_small|]. split; [exact Z0|]. vm_compute; reflexivity.
  - specialize (Q (-2147483648)). cbn [returns result_type within_type] in Q. destruct Q as [Q _]; [|lia].
    exists [1; -124; 0; 0; 0; -128], 0. eexists. exists 0, [0; 0]. eexists. split; [now apply jb_small|]. split; [exact Z0|]. split; [vm_compute; reflexivity|].
    split; [now apply jb_small|]. split; [exact Z0|]. vm_compute; reflexivity.
  - (* getExponent *) destruct Q as (k & o & a & a' & [_ L] & [O _] & H). unfold pub_getExponent, rsa_getter in H. destruct (negb _); [discriminate|].
    destruct (pk_exp k) as [p|]; [|discriminate]. apply bind_inv in H as (u & a1 & H1 & H). pose proof (zlen_nonneg p). apply into_fits in H1; [|lia..]. unfold ret in H. assert (r = zlen p) by congruence. lia.
  - destruct Q as (k & o & a & a' & [_ L] & [O _] & H). unfold pub_getModulus, rsa_getter in H. destruct (negb _); [discriminate|].
    destruct (pk_mod k) as [p|]; [|discriminate]. apply bind_inv in H as (u & a1 & H1 & H). pose proof (zlen_nonneg p). apply into_fits in H1; [|lia..]. unfold ret in H. assert (r = zlen p) by congruence. lia.
  - (* digest *) destruct Q as (H & s & b & o & n & p & a & s' & Sz & [_ L] & [O _] & D). unfold digest_doFinal in D.
    destruct (digest_update _ _ _ s) as [[u|e] s1] eqn:U; [|discriminate].
    destruct (catch_index _ _ a) as [w out] eqn:W. destruct (digest_reset H s1) as [[v|e] s2] eqn:R; [|discriminate]. destruct w as [w|w]; [|discriminate].
    apply reset_alg in R. unfold digest_getLength in D. rewrite R in D. assert (E : r = hl_size H (md_alg s1)) by congruence. subst r. rewrite <- (Sz _ (md_fed s1)) in *.
    pose proof (zlen_nonneg (hl_digest H (md_alg s1) (md_fed s1))). apply write_fits in W; lia.
  - (* DES *) destruct Q as (b & o & n & p & c & a & s' & [_ L] & [O _] & H). unfold des_doFinal in H. rewrite bind_get in H. destruct (negb _); [discriminate|].
    destruct (arrayCopy_into b _ _ _ _) as [[u|u] d]; [|discriminate]. destruct (c_mode c) as [m|]; [|discriminate]. destruct (c_engine c) as [e|]; [|discriminate].
    destruct (engine_run _ _ e) as [x e']. apply bind_inv in H as (u1 & t1 & H1 & H). apply bind_inv in H as (y & t2 & H2 & H).
    assert (t2 = t1) by (unfold lift in H2; destruct x; congruence). subst t2. rewrite bind_get in H. unfold put in H1. assert (T : t1 = (mkCipher (c_alg c) (c_init c) (Some m) (Some e'), a)) by congruence. subst t1. cbn [fst snd] in H.
    destruct (arrayCopy_into (binaryToarray y) _ _ _ a) as [z out] eqn:Y. apply bind_inv in H as (u2 & t3 & H3 & H). apply bind_inv in H as (u3 & t4 & H4 & H).
    destruct z as [z|z]; [|discriminate]. pose proof (zlen_nonneg (binaryToarray y)). apply into_fits in Y; [|lia..]. unfold ret in H. assert (r = zlen (binaryToarray y)) by congruence. lia.
Qed.

Lemma C140_full_refuted_pf : ~ C140_full.
Proof. intros Q. specialize (Q N_getInt). apply C140_exact_partial_pf in Q. discriminate Q. Qed.
