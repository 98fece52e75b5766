(** * C73-C78: message digests, random data, dispatcher and JCSystem: proofs *)
From Verif Require Import Py S_Base S_System L_Py M_utils L_utils M_util L_util M_key M_digest S_Samples M_system.
From Coq Require Import ZifyBool ZifyNat.
Ltac Zify.zify_post_hook ::= Z.div_mod_to_equations.


(** *** MessageDigest *)
Lemma s_tob l : arrayTobinary l = map (fun v => v mod 256) l.
Proof. apply map_ext. intro; apply land_255. Qed.

Lemma collect_ok inBuff n : forall i acc, 0 <= i -> i + Z.of_nat n <= zlen inBuff ->
  for_loop n i (collect_body inBuff) acc = (Ok tt, acc ++ sub inBuff (Z.to_nat i) n).
Proof.
  induction n as [|n IH]; intros i acc H0 H1; [cbn; now rewrite app_nil_r|].
  rewrite for_loop_S. erewrite bind_ok; [|unfold collect_body, bind, lift, get, put; rewrite (py_get_in _ _ 0) by lia; reflexivity].
  rewrite IH by lia. f_equal. rewrite (sub_S inBuff (Z.to_nat i) n 0) by (unfold zlen in *; lia).
  rewrite <- app_assoc. cbn [app]. do 3 f_equal. lia.
Qed.
Lemma collect_err inBuff n : forall i acc, 0 <= i -> zlen inBuff < i + Z.of_nat n -> (0 < n)%nat ->
  exists acc', for_loop n i (collect_body inBuff) acc = (Err IndexError, acc').
Proof.
  induction n as [|n IH]; intros i acc H0 H1 H2; [lia|]. rewrite for_loop_S.
  destruct (Z_lt_le_dec i (zlen inBuff)) as [Hi|Hi].
  - erewrite bind_ok; [|unfold collect_body, bind, lift, get, put; rewrite (py_get_in _ _ 0) by lia; reflexivity]. apply IH; [lia|lia|].
    destruct n; lia.
  - exists acc. unfold collect_body, bind, lift. rewrite py_get_out by lia. reflexivity.
Qed.

Lemma update_eq inBuff o l s : 0 <= o ->
  digest_update inBuff o l s
  = if readable o l inBuff then (Ok tt, mkDigest (md_alg s) (md_fed s ++ bytes_of inBuff o l)) else (Err NameError, s).
Proof.
  intros Ho. unfold digest_update, bind, get, catch_index, collect, for_range, readable, bytes_of. fold (zlen inBuff).
  replace (o + l - o) with l by lia.
  destruct (Z.leb_spec l 0); cbn [orb].
  - replace (Z.to_nat l) with O by lia. cbn [for_loop ret]. rewrite s_tob. reflexivity.
  - destruct (Z.leb_spec (o + l) (zlen inBuff)).
    + rewrite collect_ok by lia. rewrite s_tob. reflexivity.
    + destruct (collect_err inBuff (Z.to_nat l) o [] Ho) as [acc' E]; [lia|lia|]. rewrite E. reflexivity.
Qed.

Lemma write_ok vs : forall i out oo, 0 <= oo + i -> oo + i + zlen vs <= zlen out ->
  write_loop i vs oo out = (Ok tt, splice out (Z.to_nat (oo + i)) (map s1 vs)).
Proof.
  induction vs as [|v vs IH]; intros i out oo H0 H1; [cbn; now rewrite splice_nil|].
  rewrite zlen_cons in H1. pose proof (zlen_nonneg vs). cbn [write_loop]. unfold bind at 1. cbn [get].
  unfold bind at 1, lift. rewrite py_set_in by lia. unfold bind, put.
  rewrite IH; [|lia|rewrite zlen_list_upd; lia]. f_equal. cbn [map].
  replace (Z.to_nat (oo + (i + 1))) with (S (Z.to_nat (oo + i))) by lia. apply splice_cons. rewrite map_length. unfold zlen in *. lia.
Qed.
Lemma write_err vs : forall i out oo, 0 <= oo + i -> zlen out < oo + i + zlen vs -> vs <> [] ->
  exists out', write_loop i vs oo out = (Err IndexError, out').
Proof.
  induction vs as [|v vs IH]; intros i out oo H0 H1 H2; [congruence|].
  rewrite zlen_cons in H1. cbn [write_loop]. unfold bind at 1. cbn [get]. unfold bind at 1, lift.
  destruct (Z_lt_le_dec (oo + i) (zlen out)) as [Hi|Hi].
  - rewrite py_set_in by lia. unfold bind, put. apply IH; [lia|rewrite zlen_list_upd; lia|].
    intros ->. change (zlen (@nil Z)) with 0 in H1. lia.
  - rewrite py_set_out by lia. eauto.
Qed.

Lemma reset_ok H alg s0 s : digest_getInstance H alg = Ok s0 -> md_alg s = alg -> digest_reset H s = (Ok tt, s0).
Proof.
  unfold digest_getInstance, digest_reset, bind, get, put, raise. cbn [md_alg]. intros E <-.
  destruct (negb (known_digest (md_alg s))); [discriminate|]. destruct (negb (hl_avail H (md_alg s))); [discriminate|]. congruence.
Qed.
Lemma getInstance_eq H alg s0 : digest_getInstance H alg = Ok s0 -> s0 = mkDigest alg [].
Proof.
  unfold digest_getInstance, digest_reset, bind, get, put, raise. cbn [md_alg].
  destruct (negb (known_digest alg)); [discriminate|]. destruct (negb (hl_avail H alg)); [discriminate|]. congruence.
Qed.
Lemma run_fed H alg s0 h : digest_getInstance H alg = Ok s0 -> Forall offset_ok h -> digest_run H h s0 = mkDigest alg (fed h).
Proof.
  intros Hs Hh. unfold digest_run, fed. rewrite (getInstance_eq _ _ _ Hs).
  enough (G : forall acc, fold_left (digest_call H) h (mkDigest alg acc) = mkDigest alg (fold_left (fun acc c => match c with
    | DReset => []
    | DUpdate b o l => if readable o l b then acc ++ bytes_of b o l else acc
    | DFinal b o l _ _ => if readable o l b then [] else acc
    end) h acc)) by apply G.
  induction Hh as [|c h Hc Hh IH]; intros acc; [reflexivity|]. cbn [fold_left]. rewrite <- IH. f_equal.
  destruct c as [|b o l|b o l out oo]; cbn [digest_call offset_ok] in *.
  - rewrite (reset_ok _ _ _ (mkDigest alg acc) Hs) by reflexivity. cbn [snd]. exact (getInstance_eq _ _ _ Hs).
  - rewrite update_eq by exact Hc. destruct (readable o l b); reflexivity.
  - unfold digest_doFinal. rewrite update_eq by exact Hc. destruct (readable o l b); [|reflexivity]. cbn [md_alg md_fed].
    destruct (catch_index _ _ _) as [r out']. rewrite (reset_ok _ _ _ _ Hs) by reflexivity.
    destruct r; cbn [fst snd]; exact (getInstance_eq _ _ _ Hs).
Qed.

Lemma C73_pf : forall H alg s0 h inBuff io il out oo,
  (forall m, zlen (hl_digest H alg m) = hl_size H alg /\ Forall ubyte (hl_digest H alg m)) ->
  digest_getInstance H alg = Ok s0 -> Forall offset_ok h ->
  0 <= io -> 0 <= il -> io + il <= zlen inBuff -> 0 <= oo ->
  let s := digest_run H h s0 in
  let d := hl_digest H alg (fed h ++ bytes_of inBuff io il) in
  digest_getLength H s = hl_size H alg
  /\ (oo + hl_size H alg <= zlen out ->
      digest_doFinal H inBuff io il oo (s, out) = (Ok (hl_size H alg), (s0, splice out (Z.to_nat oo) (map (twos 1) d))))
  /\ (zlen out < oo + hl_size H alg -> 0 < hl_size H alg ->
      exists e out', digest_doFinal H inBuff io il oo (s, out) = (Err e, (s0, out'))).
Proof.
  intros H alg s0 h inBuff io il out oo HH Hs Hh H0 H1 H2 H3 s d.
  assert (Es : s = mkDigest alg (fed h)) by (apply run_fed; assumption).
  assert (Er : readable io il inBuff = true) by (unfold readable; fold (zlen inBuff); lia).
  destruct (HH (fed h ++ bytes_of inBuff io il)) as [HL HB]. fold d in HL, HB.
  rewrite Es. split; [reflexivity|]. unfold digest_doFinal. rewrite update_eq, Er by exact H0. cbn [md_alg md_fed]. fold d. split; intros Ho.
  - unfold catch_index. rewrite write_ok by lia. rewrite (reset_ok _ _ _ _ Hs) by reflexivity.
    unfold digest_getLength. rewrite (getInstance_eq _ _ _ Hs). cbn [md_alg]. replace (oo + 0) with oo by lia. do 3 f_equal.
    apply map_ext_in. intros v Hv. rewrite Forall_forall in HB. specialize (HB _ Hv). unfold ubyte in HB.
    transitivity (s1 (v mod 256)); [f_equal; lia|apply s1_of_mod].
  - intros Hp. destruct (write_err d 0 out oo) as [out' E]; [lia|lia|intros Ed; rewrite Ed in HL; change (zlen (@nil Z)) with 0 in HL; lia|].
    unfold catch_index. rewrite E. rewrite (reset_ok _ _ _ _ Hs) by reflexivity. eauto.
Qed.

Lemma C73_getInstance_pf : forall H alg,
  (exists s0, digest_getInstance H alg = Ok s0 /\ digest_getAlgorithm s0 = alg) <-> (1 <= alg <= 11 /\ hl_avail H alg = true).
Proof.
  intros H alg. unfold digest_getInstance, digest_reset, bind, get, put, raise, known_digest. cbn [md_alg].
  destruct ((1 <=? alg) && (alg <=? 11)) eqn:E; cbn [negb]; [destruct (hl_avail H alg); cbn [negb]|]; split.
  - split; [lia|reflexivity].
  - intros _. eexists. split; reflexivity.
  - intros (s0 & F & _). discriminate.
  - intros [_ F]. discriminate.
  - intros (s0 & F & _). discriminate.
  - lia.
Qed.

Lemma C74_refuted_pf : forall H s inBuff io il,
  (0 <= io -> 0 < il -> zlen inBuff < io + il ->
     digest_update inBuff io il s = (Err NameError, s)
     /\ forall oo out, digest_doFinal H inBuff io il oo (s, out) = (Err NameError, (s, out)))
  /\ (- zlen inBuff <= io < 0 -> 0 <= il -> io + il <= 0 ->
     digest_update inBuff io il s = (Ok tt, mkDigest (md_alg s) (md_fed s ++ bytes_of inBuff (zlen inBuff + io) il))).
Proof.
  intros H s inBuff io il. split.
  - intros Hi Hl Hr. assert (Er : readable io il inBuff = false) by (unfold readable; fold (zlen inBuff); lia).
    assert (E : digest_update inBuff io il s = (Err NameError, s)) by (rewrite update_eq, Er by exact Hi; reflexivity).
    split; [exact E|]. intros oo out. unfold digest_doFinal. rewrite E. reflexivity.
  - intros Hi Hl Hr. unfold digest_update, bind, get, put, catch_index, collect, for_range, bytes_of. replace (io + il - io) with il by lia.
    assert (G : forall n i acc, - zlen inBuff <= i -> i + Z.of_nat n <= 0 ->
      for_loop n i (collect_body inBuff) acc
      = (Ok tt, acc ++ sub inBuff (Z.to_nat (zlen inBuff + i)) n)).
    { induction n as [|n IH]; intros i acc G0 G1; [cbn; now rewrite app_nil_r|]. rewrite for_loop_S.
      erewrite bind_ok; [|unfold collect_body, bind, lift, get, put; rewrite (py_get_neg _ _ 0) by lia; reflexivity].
      rewrite IH by lia. f_equal. rewrite (sub_S inBuff (Z.to_nat (zlen inBuff + i)) n 0) by (unfold zlen in *; lia).
      rewrite <- app_assoc. cbn [app]. do 3 f_equal; f_equal; lia. }
    rewrite G by lia. rewrite s_tob. reflexivity.
Qed.

Lemma C74_partial_pf : forall s inBuff io il, 0 <= io ->
  (fst (digest_update inBuff io il s) = Ok tt <-> (il <= 0 \/ io + il <= zlen inBuff)).
Proof.
  intros s inBuff io il Hi. rewrite update_eq by exact Hi. unfold readable. fold (zlen inBuff).
  destruct ((il <=? 0) || (io + il <=? zlen inBuff)) eqn:E; cbn [fst]; split; intros; try reflexivity; try discriminate; lia.
Qed.

(** *** RandomData *)
Lemma gen_ok rnd off n : forall i buf, 0 <= off + i -> 0 <= i -> off + i + Z.of_nat n <= zlen buf ->
  for_loop n i (generate_body rnd off) buf
  = (Ok tt, splice buf (Z.to_nat (off + i)) (map rnd (seq (Z.to_nat i) n))).
Proof.
  induction n as [|n IH]; intros i buf G0 G2 G1; [cbn; now rewrite splice_nil|]. rewrite for_loop_S.
  erewrite bind_ok; [|unfold generate_body, bind, get, lift, put; rewrite py_set_in by lia; reflexivity].
  rewrite IH; [|lia|lia|rewrite zlen_list_upd; lia]. f_equal. cbn [seq map].
  replace (Z.to_nat (off + (i + 1))) with (S (Z.to_nat (off + i))) by lia. replace (Z.to_nat (i + 1)) with (S (Z.to_nat i)) by lia.
  apply splice_cons. rewrite map_length, seq_length. unfold zlen in *. lia.
Qed.
Lemma gen_err (rnd : nat -> Z) off n : forall i buf, 0 <= off + i -> zlen buf < off + i + Z.of_nat n -> (0 < n)%nat ->
  exists buf', for_loop n i (generate_body rnd off) buf = (Err IndexError, buf').
Proof.
  induction n as [|n IH]; intros i buf G0 G1 G2; [lia|]. rewrite for_loop_S.
  destruct (Z_lt_le_dec (off + i) (zlen buf)) as [Hi|Hi].
  - erewrite bind_ok; [|unfold generate_body, bind, get, lift, put; rewrite py_set_in by lia; reflexivity].
    apply IH; [lia|rewrite zlen_list_upd; lia|]. destruct n; [lia|lia].
  - exists buf. unfold generate_body, bind, get, lift. rewrite py_set_out by lia. reflexivity.
Qed.

Lemma C75_partial_pf : forall rnd buf off n,
  (0 < n -> 0 <= off -> off + n <= zlen buf ->
     generateData rnd off n buf = (Ok tt, splice buf (Z.to_nat off) (map rnd (seq 0 (Z.to_nat n)))))
  /\ generateData rnd off 0 buf = (Err (CryptoExc 1), buf).
Proof.
  intros rnd buf off n. split; [|reflexivity]. intros H0 H1 H2. unfold generateData. replace (n =? 0) with false by lia.
  unfold catch_index, for_range. replace (n - 0) with n by lia. rewrite gen_ok by lia. replace (off + 0) with off by lia. reflexivity.
Qed.

Lemma C75_refuted_pf : forall rnd buf off n,
  (0 < n -> 0 <= off -> zlen buf < off + n -> fst (generateData rnd off n buf) = Err NameError)
  /\ (n < 0 -> generateData rnd off n buf = (Ok tt, buf)).
Proof.
  intros rnd buf off n. unfold generateData, catch_index, for_range. split; intros.
  - replace (n =? 0) with false by lia. destruct (gen_err rnd off (Z.to_nat (n - 0)) 0 buf) as [buf' E]; [lia|lia|lia|]. now rewrite E.
  - replace (n =? 0) with false by lia. replace (Z.to_nat (n - 0)) with O by lia. reflexivity.
Qed.

Lemma C75_getInstance_pf : forall alg,
  random_getInstance alg = if alg =? 2 then Ok tt else Err (CryptoExc 3).
Proof. reflexivity. Qed.

(** *** Dispatcher *)
Lemma add_eq v p s : addService (Some v) p s =
  if (0 <=? p) && (p <=? 3)
  then (Ok tt, mkDisp (ds_input s ++ (if p =? 1 then [v] else [])) (ds_command s ++ (if p =? 2 then [v] else []))
                 (ds_output s ++ (if p =? 3 then [v] else [])) (ds_none s ++ (if p =? 0 then [v] else [])))
  else (Err (ServiceExc 1), s).
Proof.
  unfold addService, bind, get, put, raise, PROCESS_INPUT_DATA, PROCESS_COMMAND, PROCESS_OUTPUT_DATA, PROCESS_NONE.
  destruct ((0 <=? p) && (p <=? 3)) eqn:E.
  - assert (C : p = 0 \/ p = 1 \/ p = 2 \/ p = 3) by lia.
    destruct C as [-> | [-> | [-> | ->]]]; cbn [Z.eqb Pos.eqb]; rewrite ?app_nil_r; reflexivity.
  - replace (p =? 1) with false by lia. replace (p =? 2) with false by lia. replace (p =? 3) with false by lia. replace (p =? 0) with false by lia. reflexivity.
Qed.
Lemma disp_run_eq h : forall s,
  disp_run h s = mkDisp (ds_input s ++ expected 1 h) (ds_command s ++ expected 2 h) (ds_output s ++ expected 3 h) (ds_none s ++ expected 0 h).
Proof.
  unfold disp_run. induction h as [|[v p] h IH]; intros s.
  - cbn. rewrite !app_nil_r. now destruct s.
  - cbn [fold_left fst snd]. rewrite IH. unfold expected. cbn [flat_map fst snd]. destruct v as [v|].
    + rewrite add_eq. destruct ((0 <=? p) && (p <=? 3)) eqn:E; cbn [snd ds_input ds_command ds_output ds_none].
      * now rewrite !app_assoc.
      * replace (p =? 1) with false by lia. replace (p =? 2) with false by lia. replace (p =? 3) with false by lia. replace (p =? 0) with false by lia. reflexivity.
    + reflexivity.
Qed.

Lemma C76_partial_pf : forall maxServices s0 h phase service, dispatcher_new maxServices = Ok s0 ->
  let s := disp_run h s0 in
  (0 <= phase <= 3 -> services s phase = Ok (expected phase h))
  /\ ((service = None \/ ~ 0 <= phase <= 3) -> addService service phase s = (Err (ServiceExc 1), s))
  /\ (forall m, m < 0 -> dispatcher_new m = Err (ServiceExc 1)).
Proof.
  intros mx s0 h phase service Hs s. assert (E0 : s0 = mkDisp [] [] [] []) by (unfold dispatcher_new in Hs; destruct (mx <? 0); congruence).
  split; [|split].
  - intros Hp. unfold s. rewrite disp_run_eq, E0. cbn [ds_input ds_command ds_output ds_none app].
    assert (C : phase = 0 \/ phase = 1 \/ phase = 2 \/ phase = 3) by lia. destruct C as [-> | [-> | [-> | ->]]]; reflexivity.
  - intros H. destruct service as [v|]; [|reflexivity]. destruct H as [H|H]; [discriminate|]. rewrite add_eq.
    replace ((0 <=? phase) && (phase <=? 3)) with false by lia. reflexivity.
  - intros m Hm. unfold dispatcher_new. replace (m <? 0) with true by lia. reflexivity.
Qed.

Lemma C76_refuted_pf : forall maxServices s0 h phase v, dispatcher_new maxServices = Ok s0 -> 0 <= phase <= 3 ->
  fst (addService (Some v) phase (disp_run h s0)) = Ok tt.
Proof.
  intros mx s0 h phase v _ Hp. rewrite add_eq. replace ((0 <=? phase) && (phase <=? 3)) with true by lia. reflexivity.
Qed.

(** *** JCSystem *)

Lemma C77_refuted_pf : forall (S A : Type) (f : M S A) (s : S) a s', f s = (Ok a, s') ->
  (beginTransaction ;;; (x <- f ;; (abortTransaction ;;; ret x))) s = (Ok a, s')
  /\ (beginTransaction ;;; beginTransaction) s = (Ok tt, s)
  /\ commitTransaction s = (Ok tt, s) /\ abortTransaction s = (Ok tt, s).
Proof.
  intros S A f s a s' E. unfold beginTransaction, abortTransaction, commitTransaction, bind, ret. rewrite E. auto.
Qed.

Lemma C78_partial_pf : forall n event, 0 <= n ->
  (exists a, makeTransientShortArray n event = Ok a /\ zlen a = n /\ forall v, In v a -> v = VInt 0)
  /\ (exists a, makeTransientByteArray n event = Ok a /\ zlen a = n /\ forall v, In v a -> v = VInt 0)
  /\ (exists a, makeTransientBooleanArray n event = Ok a /\ zlen a = n /\ forall v, In v a -> v = VBool false)
  /\ (exists a, makeTransientObjectArray n event = Ok a /\ zlen a = n /\ forall v, In v a -> v = VNone)
  /\ (forall t, 1 <= t <= 5 -> exists a, makeGlobalArray t n = Ok a /\ zlen a = n
        /\ forall v, In v a -> v = if t =? 1 then VBool false else if t =? 5 then VNone else VInt 0).
Proof.
  intros n event Hn.
  assert (G : forall v, zlen (comprehension v n) = n /\ forall w, In w (comprehension v n) -> w = v).
  { intros v. unfold comprehension. split; [rewrite zlen_repeat; lia|apply repeat_spec]. }
  split; [exists (comprehension (VInt 0) n); split; [reflexivity|apply G]|].
  split; [exists (comprehension (VInt 0) n); split; [reflexivity|apply G]|].
  split; [exists (comprehension (VBool false) n); split; [reflexivity|apply G]|].
  split; [exists (comprehension VNone n); split; [reflexivity|apply G]|].
  intros t Ht. unfold makeGlobalArray. replace (n <? 0) with false by lia.
  assert (C : t = 1 \/ t = 2 \/ t = 3 \/ t = 4 \/ t = 5) by lia.
  destruct C as [-> | [-> | [-> | [-> | ->]]]]; eexists; (split; [reflexivity|]); apply G.
Qed.

Lemma C78_refuted_pf : forall n event t, n < 0 ->
  makeTransientShortArray n event = Ok [] /\ makeTransientByteArray n event = Ok []
  /\ makeTransientBooleanArray n event = Ok [] /\ makeTransientObjectArray n event = Ok []
  /\ makeGlobalArray t n = Err NameError.
Proof.
  intros n event t Hn. unfold makeTransientByteArray, makeTransientShortArray, makeTransientBooleanArray, makeTransientObjectArray, comprehension, makeGlobalArray.
  replace (Z.to_nat n) with O by lia. replace (n <? 0) with true by lia. auto.
Qed.

Lemma C78_unknown_type_pf : forall t n, 0 <= n -> ~ 1 <= t <= 5 -> makeGlobalArray t n = Err KeyError.
Proof.
  intros t n Hn Ht. unfold makeGlobalArray, ARRAY_TYPE_BOOLEAN, ARRAY_TYPE_BYTE, ARRAY_TYPE_INT, ARRAY_TYPE_OBJECT, ARRAY_TYPE_SHORT.
  replace (n <? 0) with false by lia. replace (t =? 1) with false by lia. replace (t =? 2) with false by lia.
  replace (t =? 4) with false by lia. replace (t =? 5) with false by lia. replace (t =? 3) with false by lia. reflexivity.
Qed.
