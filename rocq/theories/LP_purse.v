(** * C143: a purse: proofs *)
From Verif Require Import Py S_Base S_APDU S_Number S_BigNumber S_Cipher L_Py M_utils M_util L_utils L_util M_apdu S_ApduObs L_apdu LP_apdu LP_des M_world LP_world M_bignumber LP_bignumber LP_cipher M_rsaapplet LP_pincard S_DesCard LP_descard M_purse S_Purse.
From Coq Require Import ZifyBool ZifyNat.
Ltac Zify.zify_post_hook ::= Z.div_mod_to_equations.


(** ** the APDU side *)
Lemma receive_hdr cla ins p1 p2 c s : ubyte cla -> ubyte ins -> ubyte p1 -> ubyte p2 -> wf_command c -> is_short c = true ->
  newAPDU ([cla; ins; p1; p2] ++ body c) = Ok s ->
  py_get (buf s) 3 = Ok p2 /\ st s = 0 /\ Ne s = command_le c /\ length (buf s) = 257%nat /\ outlen s = 0.
Proof.
  intros U1 U2 U3 U4 Hw Hs Q. set (rw := [cla; ins; p1; p2] ++ body c) in *.
  assert (He : encodes rw c) by now apply wire_encodes.
  destruct (short_exact rw c Hw Hs He) as (ty & ll & Q' & Hcd & Hll). rewrite Q' in Q. apply Ok_inj in Q. subst s.
  pose proof (encodes_len rw c He) as HL. pose proof (zlen_nonneg (body c)) as HB. assert (H4 : 4 <= zlen rw) by lia.
  pose proof (p3len_bounds rw H4) as Hp. pose proof (initbuf_length rw H4) as HI.
  cbn [buf mk_apdu st Ne outlen]. split; [|repeat split; auto].
  rewrite (py_get_in _ _ 0) by (unfold zlen; lia). f_equal. unfold initbuf.
  replace (Z.to_nat (4 + p3len rw)) with (S (S (S (S (Z.to_nat (p3len rw)))))) by lia. reflexivity.
Qed.

(** ** the numbers *)
Lemma operand_bad a off n fmt : n <> 0 -> fmt <> 1 -> fmt <> 2 -> operand (Some a) off n fmt = Err Arithmetic.
Proof.
  intros Hn H1 H2. unfold operand, init, FORMAT_BCD, FORMAT_HEX. replace (n =? 0) with false by lia.
  replace (fmt =? 1) with false by lia. replace (fmt =? 2) with false by lia. reflexivity.
Qed.
Lemma amount a n data fmt : n = zlen data -> 1 <= n <= 128 -> length a = 257%nat -> sub a 5 (length data) = data -> fmt = 1 \/ fmt = 2 ->
  operand (Some a) OFFSET_CDATA n fmt = Ok (mkBig None (Some (denote fmt data))).
Proof.
  intros Hn H128 La Hs Hf. rewrite operand_ok.
  - do 3 f_equal. unfold range_value, OFFSET_CDATA. change (Z.to_nat 5) with 5%nat.
    replace (Z.to_nat n) with (length data) by (subst n; unfold zlen; lia). now rewrite Hs.
  - exists a. unfold OFFSET_CDATA, zlen. repeat split; auto; lia.
Qed.
Lemma all_ones m : 0 <= m -> denote 2 (sub (repeat (-1) (Z.to_nat m)) 0 (Z.to_nat m)) = 256 ^ m - 1.
Proof.
  intros Hm. rewrite sub_full by (now rewrite repeat_length). unfold denote. cbn [Z.eqb Pos.eqb]. replace m with (Z.of_nat (Z.to_nat m)) at 2 by lia.
  generalize (Z.to_nat m) as k. induction k as [|k IH]; [reflexivity|]. cbn [repeat map digits_value]. rewrite IH, map_length, repeat_length.
  change ((-1) mod 256) with 255. rewrite Nat2Z.inj_succ, Z.pow_succ_r by lia. lia.
Qed.
Lemma compare_max mb v m : 1 <= m -> compareTo (mkBig mb (Some v)) (Some (py_repeat (-1) m)) 0 m FORMAT_HEX = Ok (cmp_sign v (256 ^ m - 1)).
Proof.
  intros Hm. assert (R : range_ok (Some (py_repeat (-1) m)) 0 m 2).
  { exists (py_repeat (-1) m). unfold py_repeat. rewrite zlen_repeat. repeat split; auto; lia. }
  unfold FORMAT_HEX. rewrite (proj2 (C33_compareTo_pf mb v (Some (py_repeat (-1) m)) 0 m 2 None 0) R).
  unfold range_value, py_repeat. change (Z.to_nat 0) with 0%nat. rewrite all_ones by lia. reflexivity.
Qed.
Lemma cmp_pos v w : (0 <? cmp_sign v w) = (w <? v).
Proof. unfold cmp_sign. destruct (Z.compare_spec v w); lia. Qed.
Lemma cmp_neg v w : (cmp_sign v w <? 0) = (v <? w).
Proof. unfold cmp_sign. destruct (Z.compare_spec v w); lia. Qed.

Lemma to_base_0 B n : 1 < B -> to_base B n 0 = repeat 0 n.
Proof. intros H. induction n as [|n IH]; [reflexivity|]. cbn [to_base repeat]. rewrite IH. now rewrite Zdiv_0_l, Zmod_0_l. Qed.
Lemma map_repeat0 fmt n : map (digit_byte fmt) (repeat 0 n) = repeat 0 n.
Proof. induction n as [|n IH]; [reflexivity|]. cbn [repeat map]. rewrite IH. f_equal. unfold digit_byte. destruct (fmt =? 1); reflexivity. Qed.
Lemma shown mb v nb fmt out : fmt = 1 \/ fmt = 2 -> 0 <= nb <= 128 -> length out = 257%nat ->
  toBytes (mkBig mb (Some v)) OFFSET_CDATA nb fmt out
  = if base_of fmt ^ nb <=? v then (Err Arithmetic, out)
    else (Ok tt, splice out 5 (map (digit_byte fmt) (to_base (base_of fmt) (Z.to_nat nb) (Z.max 0 v)))).
Proof.
  intros Hf Hnb Lo. assert (HB : 1 < base_of fmt) by (destruct Hf as [-> | ->]; reflexivity).
  destruct (Z.lt_ge_cases v 0) as [Hv|Hv].
  - assert (P : 0 < base_of fmt ^ nb) by (apply Z.pow_pos_nonneg; lia). replace (base_of fmt ^ nb <=? v) with false by lia.
    rewrite Z.max_l, to_base_0, map_repeat0 by lia.
    assert (D : digit_loop (digit_fuel v) (base_of fmt) (if fmt =? 1 then to_bcd else to_hex) v [] = Ok []).
    { unfold digit_fuel. rewrite Z.log2_nonpos by lia. change (Z.to_nat (0 + 2)) with 2%nat. cbn [digit_loop]. now replace (0 <? v) with false by lia. }
    unfold toBytes. cbn [value].
    assert (E : (if fmt =? FORMAT_BCD then digit_loop (digit_fuel v) 100 to_bcd v [] else if fmt =? FORMAT_HEX then digit_loop (digit_fuel v) 256 to_hex v [] else Err Arithmetic) = Ok []).
    { destruct Hf as [-> | ->]; exact D. }
    rewrite E. rewrite zlen_nil. replace (nb <? 0) with false by lia. cbn [app]. unfold py_repeat. rewrite Z.sub_0_r.
    assert (Er : rev (repeat 0 (Z.to_nat nb)) = repeat 0 (Z.to_nat nb)).
    { generalize (Z.to_nat nb). intros n. induction n; cbn; [auto|]. rewrite IHn. clear. induction n; cbn; congruence. }
    rewrite Er, arrayCopy_into_ok; unfold OFFSET_CDATA, zlen in *; try lia.
    + now rewrite sub_full by (rewrite repeat_length; lia).
    + rewrite repeat_length. lia.
  - rewrite Z.max_r by lia. rewrite C33_toBytes_pf by (auto; unfold OFFSET_CDATA, zlen; lia). change (Z.to_nat OFFSET_CDATA) with 5%nat.
    destruct (Z.ltb_spec v (base_of fmt ^ nb)); [now replace (base_of fmt ^ nb <=? v) with false by lia|now replace (base_of fmt ^ nb <=? v) with true by lia].
Qed.
Lemma rules m v : (256 ^ m - 1 <? v) = negb (v <? 256 ^ m).
Proof. lia. Qed.

(** ** the card *)
Definition careless (guard : bool) (m : Z) : Z -> bool := if guard then in_purse m else fun _ => true.

Lemma credit_exact guard m mb v s n data fmt : 1 <= m -> (guard = true -> in_purse m v = true) ->
  n = zlen data -> 1 <= n <= 128 -> length (buf s) = 257%nat -> sub (buf s) 5 (length data) = data ->
  purse_credit guard m n fmt (mkBig mb (Some v), s)
  = if negb ((fmt =? 1) || (fmt =? 2)) then (Err Arithmetic, (mkBig mb (Some v), s))
    else if careless guard m (v + denote fmt data) then (Ok tt, (mkBig mb (Some (v + denote fmt data)), s))
    else (Err (ISOExc SW_WRONG_DATA), (mkBig mb (Some v), s)).
Proof.
  intros Hm Hg Hn H128 Lb Hs. unfold purse_credit. rewrite bind_get. cbn [snd].
  destruct ((fmt =? 1) || (fmt =? 2)) eqn:Ef; cbn [negb].
  2:{ assert (E : in_big (add (Some (buf s)) OFFSET_CDATA n fmt) (mkBig mb (Some v), s) = (Err Arithmetic, (mkBig mb (Some v), s))).
      { unfold in_big, add. cbn [fst snd]. rewrite operand_bad by lia. reflexivity. }
      now rewrite (bind_err _ _ _ _ _ E). }
  pose proof (amount (buf s) n data fmt Hn H128 Lb Hs ltac:(lia)) as Am.
  set (w := denote fmt data) in *. assert (Hw : 0 <= w) by apply denote_nonneg.
  assert (E : in_big (add (Some (buf s)) OFFSET_CDATA n fmt) (mkBig mb (Some v), s) = (Ok tt, (mkBig mb (Some (v + w)), s))).
  { unfold in_big, add. cbn [fst snd]. rewrite Am. reflexivity. }
  rewrite (bind_ok _ _ _ _ _ E). destruct guard; [|reflexivity]. rewrite bind_get. cbn [fst].
  rewrite (bind_ok _ _ _ (cmp_sign (v + w) (256 ^ m - 1)) (mkBig mb (Some (v + w)), s)) by (unfold lift; now rewrite compare_max by lia).
  rewrite cmp_pos, rules. unfold careless, in_purse. specialize (Hg eq_refl). unfold in_purse in Hg.
  replace (0 <=? v + w) with true by lia. cbn [andb]. destruct (v + w <? 256 ^ m); cbn [negb]; [reflexivity|].
  assert (E2 : in_big (subtract (Some (buf s)) OFFSET_CDATA n fmt) (mkBig mb (Some (v + w)), s) = (Ok tt, (mkBig mb (Some (v + w - w)), s))).
  { unfold in_big, subtract. cbn [fst snd]. rewrite Am. reflexivity. }
  rewrite (bind_ok _ _ _ _ _ E2). replace (v + w - w) with v by lia. reflexivity.
Qed.
Lemma debit_exact guard m mb v s n data fmt : 1 <= m -> (guard = true -> in_purse m v = true) ->
  n = zlen data -> 1 <= n <= 128 -> length (buf s) = 257%nat -> sub (buf s) 5 (length data) = data ->
  purse_debit guard n fmt (mkBig mb (Some v), s)
  = if negb ((fmt =? 1) || (fmt =? 2)) then (Err Arithmetic, (mkBig mb (Some v), s))
    else if careless guard m (v - denote fmt data) then (Ok tt, (mkBig mb (Some (v - denote fmt data)), s))
    else (Err (ISOExc SW_WRONG_DATA), (mkBig mb (Some v), s)).
Proof.
  intros Hm Hg Hn H128 Lb Hs. unfold purse_debit. rewrite bind_get. cbn [snd fst].
  destruct ((fmt =? 1) || (fmt =? 2)) eqn:Ef; cbn [negb].
  2:{ destruct guard.
      - rewrite (bind_err _ _ (mkBig mb (Some v), s) Arithmetic (mkBig mb (Some v), s)); [reflexivity|].
        rewrite (bind_err _ _ (mkBig mb (Some v), s) Arithmetic (mkBig mb (Some v), s)); [reflexivity|].
        unfold lift, compareTo. now rewrite operand_bad by lia.
      - rewrite (bind_ok _ _ _ tt (mkBig mb (Some v), s)) by reflexivity.
        unfold in_big, subtract. cbn [fst snd]. rewrite operand_bad by lia. reflexivity. }
  pose proof (amount (buf s) n data fmt Hn H128 Lb Hs ltac:(lia)) as Am.
  set (w := denote fmt data) in *. assert (Hw : 0 <= w) by apply denote_nonneg.
  assert (E : in_big (subtract (Some (buf s)) OFFSET_CDATA n fmt) (mkBig mb (Some v), s) = (Ok tt, (mkBig mb (Some (v - w)), s))).
  { unfold in_big, subtract. cbn [fst snd]. rewrite Am. reflexivity. }
  destruct guard.
  - assert (C : compareTo (mkBig mb (Some v)) (Some (buf s)) OFFSET_CDATA n fmt = Ok (cmp_sign v w)).
    { unfold compareTo. rewrite Am. cbn [rbind]. apply (proj1 (C33_compareTo_pf mb v None 0 0 0 None w)). }
    unfold careless, in_purse. specialize (Hg eq_refl). unfold in_purse in Hg. replace (v - w <? 256 ^ m) with true by lia. rewrite andb_true_r.
    destruct (Z.ltb_spec v w).
    + replace (0 <=? v - w) with false by lia.
      rewrite (bind_err _ _ (mkBig mb (Some v), s) (ISOExc SW_WRONG_DATA) (mkBig mb (Some v), s)); [reflexivity|].
      rewrite (bind_ok _ _ _ (cmp_sign v w) (mkBig mb (Some v), s)) by (unfold lift; now rewrite C).
      rewrite cmp_neg. now replace (v <? w) with true by lia.
    + replace (0 <=? v - w) with true by lia.
      rewrite (bind_ok _ _ _ tt (mkBig mb (Some v), s)); [exact E|].
      rewrite (bind_ok _ _ _ (cmp_sign v w) (mkBig mb (Some v), s)) by (unfold lift; now rewrite C).
      rewrite cmp_neg. now replace (v <? w) with false by lia.
  - rewrite (bind_ok _ _ _ tt (mkBig mb (Some v), s)) by reflexivity. exact E.
Qed.

Lemma balance_exact mb v s nb fmt : 0 <= nb <= 128 -> length (buf s) = 257%nat -> st s < 3 ->
  exists s', purse_balance nb fmt (mkBig mb (Some v), s)
  = (if negb ((fmt =? 1) || (fmt =? 2)) || (base_of fmt ^ nb <=? v) then Err Arithmetic
     else if match Ne s with Some n => n <? nb | None => false end then Err (APDUExc BAD_LENGTH) else Ok tt, (mkBig mb (Some v), s'))
  /\ (negb ((fmt =? 1) || (fmt =? 2)) || (base_of fmt ^ nb <=? v) = false -> match Ne s with Some n => n <? nb | None => false end = false ->
      py_slice (raw s') 0 (outlen s') = map (digit_byte fmt) (to_base (base_of fmt) (Z.to_nat nb) (Z.max 0 v))).
Proof.
  intros Hnb Lb Hst. unfold purse_balance. rewrite bind_get. cbn [fst snd].
  destruct ((fmt =? 1) || (fmt =? 2)) eqn:Ef; cbn [negb orb].
  2:{ assert (T : toBytes (mkBig mb (Some v)) OFFSET_CDATA nb fmt (buf s) = (Err Arithmetic, buf s)).
      { unfold toBytes, FORMAT_BCD, FORMAT_HEX. replace (fmt =? 1) with false by lia. replace (fmt =? 2) with false by lia. reflexivity. }
      rewrite T. eexists. split; [reflexivity|discriminate]. }
  rewrite shown by (auto; lia). destruct (base_of fmt ^ nb <=? v); [eexists; split; [reflexivity|discriminate]|].
  set (ds := map (digit_byte fmt) (to_base (base_of fmt) (Z.to_nat nb) (Z.max 0 v))).
  assert (Ld : length ds = Z.to_nat nb) by (unfold ds; now rewrite map_length, to_base_length).
  assert (Zd : zlen ds = nb) by (unfold zlen; lia).
  set (b := splice (buf s) 5 ds).
  rewrite (bind_ok _ _ _ tt (mkBig mb (Some v), with_buf b s)) by reflexivity.
  rewrite (bind_ok _ _ _ tt (mkBig mb (Some v), with_buf b s)) by reflexivity.
  assert (Lbb : length b = 257%nat) by (unfold b; rewrite splice_length; [exact Lb|lia]).
  destruct (send_crypted (with_buf b s) ds) as (s' & E & F); cbn [buf with_buf st];
    [unfold zlen; lia|exact Hst|lia|unfold b; apply sub_splice; [reflexivity|lia]|].
  rewrite Zd in E, F. cbn [buf with_buf Ne] in E, F. exists s'. split; [|intros _; exact F].
  unfold in_apdu. cbn [fst snd]. change OFFSET_CDATA with 5. rewrite E. reflexivity.
Qed.

Lemma account_careful guard m q v mb : 1 <= m -> request_ok q -> (guard = true -> in_purse m v = true) ->
  exists r v', purse_answer guard m (bytes_of q) (mkBig mb (Some v)) = (r, mkBig mb (Some v'))
    /\ account_step (careless guard m) (fun _ _ => true) q v = (reply r, v') /\ (guard = true -> in_purse m v' = true).
Proof.
  intros Hm (U1 & U2 & U3 & U4 & Hw & Hs) Hg. unfold bytes_of, purse_answer, account_step. cbv zeta.
  destruct (receive_des (q_cla q) (q_ins q) (q_p1 q) (q_p2 q) (q_body q) U1 U2 U3 U4 Hw Hs) as (s & Q & Gi & Gp & HN & Hr).
  destruct (receive_hdr _ _ _ _ _ s U1 U2 U3 U4 Hw Hs Q) as (G3 & S0 & N0 & L0 & O0). rewrite Q.
  unfold purse_process. rewrite bind_get. cbn [snd].
  rewrite (bind_ok _ _ _ (q_ins q) (mkBig mb (Some v), s)) by (unfold lift; now rewrite Gi).
  rewrite (bind_ok _ _ _ (q_p1 q) (mkBig mb (Some v), s)) by (unfold lift; now rewrite Gp).
  rewrite (bind_ok _ _ _ (q_p2 q) (mkBig mb (Some v), s)) by (unfold lift; now rewrite G3).
  change 0x30 with 48. change 0x40 with 64. change 0x50 with 80.
  unfold getIncomingLength. rewrite HN.
  destruct ((q_ins q =? 48) || (q_ins q =? 64)) eqn:Ei.
  - destruct ((zlen (command_data (q_body q)) <? 1) || (128 <? zlen (command_data (q_body q)))) eqn:El.
    { do 2 eexists. split; [reflexivity|]. split; [reflexivity|exact Hg]. }
    destruct Hr as (s' & Er & O & Lb & Hst & HNe & Hsub); [lia|].
    set (data := command_data (q_body q)) in *. set (fmt := q_p1 q) in *.
    rewrite (bind_ok _ _ _ (zlen data) (mkBig mb (Some v), s')) by (unfold in_apdu; cbn [snd fst]; now rewrite Er).
    rewrite orb_false_r. unfold wrong_data.
    assert (OUT : py_slice (raw s') 0 (outlen s') ++ [144; 0] = [144; 0]) by (rewrite O, py_slice_00; reflexivity).
    assert (P : forall v', careless guard m v' = true -> guard = true -> in_purse m v' = true) by (intros v' A ->; exact A).
    destruct (q_ins q =? 48).
    + rewrite (credit_exact guard m mb v s' (zlen data) data fmt Hm Hg eq_refl ltac:(lia) Lb Hsub).
      destruct ((fmt =? 1) || (fmt =? 2)); cbn [negb].
      * destruct (careless guard m (v + denote fmt data)) eqn:Ec.
        -- rewrite OUT. do 2 eexists. split; [reflexivity|]. split; [reflexivity|auto].
        -- do 2 eexists. split; [reflexivity|]. split; [reflexivity|auto].
      * do 2 eexists. split; [reflexivity|]. split; [reflexivity|auto].
    + rewrite (debit_exact guard m mb v s' (zlen data) data fmt Hm Hg eq_refl ltac:(lia) Lb Hsub).
      destruct ((fmt =? 1) || (fmt =? 2)); cbn [negb].
      * destruct (careless guard m (v - denote fmt data)) eqn:Ec.
        -- rewrite OUT. do 2 eexists. split; [reflexivity|]. split; [reflexivity|auto].
        -- do 2 eexists. split; [reflexivity|]. split; [reflexivity|auto].
      * do 2 eexists. split; [reflexivity|]. split; [reflexivity|auto].
  - destruct (q_ins q =? 80).
    2:{ do 2 eexists. split; [reflexivity|]. split; [reflexivity|exact Hg]. }
    destruct (Z.ltb_spec 128 (q_p2 q)).
    { do 2 eexists. split; [reflexivity|]. split; [reflexivity|exact Hg]. }
    unfold ubyte in U4. destruct (balance_exact mb v s (q_p2 q) (q_p1 q) ltac:(lia) L0 ltac:(lia)) as (s' & E & F).
    unfold wrong_data. rewrite E. destruct (negb _ || _).
    { do 2 eexists. split; [reflexivity|]. split; [reflexivity|exact Hg]. }
    rewrite N0 in *. destruct (match command_le (q_body q) with Some n => n <? q_p2 q | None => false end).
    { do 2 eexists. split; [reflexivity|]. split; [reflexivity|exact Hg]. }
    rewrite (F eq_refl eq_refl). do 2 eexists. split; [reflexivity|]. split; [|exact Hg]. cbn [reply]. rewrite map_app, map_map. reflexivity.
Qed.

Lemma purse_exact guard m qs mb : 1 <= m -> Forall request_ok qs -> forall v, (guard = true -> in_purse m v = true) ->
  purse_replies guard m qs (mkBig mb (Some v)) = account_run (careless guard m) (fun _ _ => true) qs v.
Proof.
  intros Hm. unfold purse_replies. induction 1 as [|q qs Hq Hqs IH]; intros v Hv; [reflexivity|]. cbn [map purse_run account_run].
  destruct (account_careful guard m q v mb Hm Hq Hv) as (r & v' & -> & -> & Hv'). specialize (IH v' Hv').
  destruct (purse_run guard m (map bytes_of qs) (mkBig mb (Some v'))) as [rs c]. cbn [fst map] in *. now rewrite IH.
Qed.
Lemma install_zero m b : 1 <= m -> purse_install m = Ok b -> b = mkBig (Some m) (Some 0).
Proof.
  intros Hm. unfold purse_install, newBigNumber. replace (m <=? 0) with false by lia. cbn [rbind]. unfold FORMAT_HEX.
  assert (R : range_ok (Some (py_repeat 0 m)) 0 m 2).
  { exists (py_repeat 0 m). unfold py_repeat. rewrite zlen_repeat. repeat split; auto; lia. }
  rewrite (proj1 (C33_init_pf (Some (py_repeat 0 m)) 0 m 2 (mkBig (Some m) None) R)). intros E. apply Ok_inj in E. subst b. cbn [maxBytes].
  do 2 f_equal. unfold range_value, py_repeat, denote. cbn [Z.eqb Pos.eqb]. change (Z.to_nat 0) with 0%nat. rewrite sub_full by (now rewrite repeat_length).
  generalize (Z.to_nat m) as k. induction k as [|k IH]; [reflexivity|]. cbn [repeat map digits_value]. rewrite IH. reflexivity.
Qed.

Lemma C143_exact_partial_pf : forall m b qs, 1 <= m <= 128 -> purse_install m = Ok b -> Forall request_ok qs ->
  purse_replies false m qs b = account_run (fun _ => true) (fun _ _ => true) qs 0.
Proof.
  intros m b qs Hm Hi Hq. rewrite (install_zero m b ltac:(lia) Hi). apply (purse_exact false m qs (Some m) ltac:(lia) Hq). discriminate.
Qed.

Lemma C143_guarded_pf : forall m b qs, 1 <= m <= 128 -> purse_install m = Ok b -> Forall request_ok qs ->
  purse_replies true m qs b = account_run (in_purse m) (fun _ _ => true) qs 0.
Proof.
  intros m b qs Hm Hi Hq. rewrite (install_zero m b ltac:(lia) Hi). apply (purse_exact true m qs (Some m) ltac:(lia) Hq). intros _.
  unfold in_purse. pose proof (Z.pow_pos_nonneg 256 m). lia.
Qed.

Fixpoint account_end (fits : Z -> bool) (valid : Z -> list Z -> bool) (qs : list request) (v : Z) : Z :=
  match qs with [] => v | q :: qs' => account_end fits valid qs' (snd (account_step fits valid q v)) end.
Lemma account_run_last fits valid q : forall qs v,
  account_run fits valid (qs ++ [q]) v = account_run fits valid qs v ++ [fst (account_step fits valid q (account_end fits valid qs v))].
Proof.
  induction qs as [|x qs IH]; intros v; cbn [app account_run account_end].
  - destruct (account_step fits valid q v); reflexivity.
  - destruct (account_step fits valid x v) as [r v']. cbn [snd app]. now rewrite IH.
Qed.
Lemma concluded_still q qs r rs : (q_ins q =? 48) = false -> (q_ins q =? 64) = false -> concluded (q :: qs) (r :: rs) = concluded qs rs.
Proof.
  intros A B. cbn [concluded]. rewrite A, B. rewrite Z.add_0_l. destruct r as [[|a [|b [|c l]]]|]; try reflexivity;
    repeat match goal with |- context [match ?x with _ => _ end] => is_var x; destruct x; try reflexivity end.
Qed.
Lemma account_end_concluded fits valid : forall qs v,
  account_end fits valid qs v = v + concluded qs (account_run fits valid qs v).
Proof.
  induction qs as [|q qs IH]; intros v; [cbn; lia|]. cbn [account_end account_run].
  destruct (account_step fits valid q v) as [r v'] eqn:E. cbn [snd]. rewrite IH. unfold account_step in E. cbv zeta in E.
  destruct ((q_ins q =? 48) || (q_ins q =? 64)) eqn:Ei.
  - destruct (_ || _) in E; [injection E as <- <-; reflexivity|]. destruct (_ || _) in E; [injection E as <- <-; reflexivity|].
    destruct (fits _) in E; injection E as <- <-; [|reflexivity]. cbn [concluded].
    destruct (q_ins q =? 48); [lia|]. cbn [orb] in Ei. rewrite Ei. lia.
  - assert (v' = v).
    { destruct (q_ins q =? 80); [|now injection E]. destruct (128 <? q_p2 q); [now injection E|].
      destruct (_ || _) in E; [now injection E|]. destruct (match command_le _ with Some _ => _ | None => _ end) in E; now injection E. }
    subst v'. rewrite concluded_still by lia. reflexivity.
Qed.
Lemma account_in m valid : 1 <= m -> forall qs v, in_purse m v = true -> in_purse m (account_end (in_purse m) valid qs v) = true.
Proof.
  intros Hm. induction qs as [|q qs IH]; intros v Hv; [exact Hv|]. cbn [account_end]. apply IH. unfold account_step. cbv zeta.
  destruct (_ || _); [|destruct (q_ins q =? 80); [|exact Hv]].
  - destruct (_ || _); [exact Hv|]. destruct (_ || _); [exact Hv|]. match goal with |- context [if in_purse m ?x then _ else _] => destruct (in_purse m x) eqn:E end; [exact E|exact Hv].
  - destruct (128 <? _); [exact Hv|]. destruct (_ || _); [exact Hv|]. destruct (match command_le _ with Some _ => _ | None => _ end); exact Hv.
Qed.
Lemma hex_shown n v : map (fun d => unsigned (digit_byte 2 d)) (to_base 256 n v) = to_base 256 n v.
Proof.
  pose proof (to_base_range 256 n v ltac:(lia)) as H. induction H as [|d l Hd Hl IH]; [reflexivity|]. cbn [map]. rewrite IH. f_equal.
  unfold digit_byte. cbn [Z.eqb Pos.eqb]. unfold unsigned, twos. change (2 ^ (8 * 1)) with 256. cbv zeta. destruct (2 * (d mod 256) <? 256) eqn:E; lia.
Qed.
Lemma balance_asked fits valid nb q v : asks_balance 2 nb q -> 0 <= nb <= 128 -> v < 256 ^ nb ->
  account_step fits valid q v = (Some (to_base 256 (Z.to_nat nb) (Z.max 0 v) ++ [0x90; 0]), v).
Proof.
  intros (Hq & Hi & Hp & Hp2 & Hle) Hnb Hv. unfold account_step. cbv zeta. rewrite Hi, Hp, Hp2. cbn [Z.eqb Pos.eqb orb negb].
  replace (128 <? nb) with false by lia. change (base_of 2) with 256. replace (256 ^ nb <=? v) with false by lia. cbn [orb].
  replace (match command_le (q_body q) with Some n => n <? nb | None => false end) with false by (destruct (command_le (q_body q)); lia).
  now rewrite hex_shown.
Qed.

Lemma C143_conserved_pf : forall m b qs q, 1 <= m <= 128 -> purse_install m = Ok b -> Forall request_ok qs -> asks_balance 2 m q ->
  let rs := purse_replies true m qs b in
  0 <= concluded qs rs < 256 ^ m
  /\ purse_replies true m (qs ++ [q]) b = rs ++ [Some (to_base 256 (Z.to_nat m) (concluded qs rs) ++ [0x90; 0])].
Proof.
  intros m b qs q Hm Hi Hqs Hq rs. subst rs. rewrite (C143_guarded_pf m b qs Hm Hi Hqs).
  rewrite (C143_guarded_pf m b (qs ++ [q]) Hm Hi) by (apply Forall_app; split; [exact Hqs|constructor; [apply Hq|constructor]]).
  set (valid := fun (_ : Z) (_ : list Z) => true). rewrite account_run_last.
  assert (Z0 : in_purse m 0 = true) by (unfold in_purse; pose proof (Z.pow_pos_nonneg 256 m); lia).
  pose proof (account_in m valid ltac:(lia) qs 0 Z0) as Hv. rewrite (account_end_concluded _ _ qs 0), Z.add_0_l in *.
  unfold in_purse in Hv at 1. split; [lia|]. rewrite (balance_asked _ _ m q _ Hq) by lia. cbn [fst]. now rewrite Z.max_r by lia.
Qed.

Lemma moved fits valid ins fmt data q v : moves ins fmt data q -> ins = 48 \/ ins = 64 -> 1 <= zlen data <= 128 -> fmt = 1 \/ fmt = 2 -> valid fmt data = true ->
  account_step fits valid q v
  = let v' := if ins =? 48 then v + denote fmt data else v - denote fmt data in
    if fits v' then (Some [0x90; 0], v') else (Some [0x6a; 0x80], v).
Proof.
  intros (Hq & Hi & Hp & Hd) Hins Hl Hf Hv. unfold account_step. cbv zeta. rewrite Hi, Hp, Hd, Hv.
  replace ((ins =? 48) || (ins =? 64)) with true by lia. replace ((zlen data <? 1) || (128 <? zlen data)) with false by lia.
  replace ((fmt =? 1) || (fmt =? 2)) with true by lia. reflexivity.
Qed.

Lemma C143_overdraft_refuted_pf : forall m b a d c q1 q2 q3 q4, 1 <= m <= 128 -> purse_install m = Ok b ->
  moves 0x30 2 a q1 -> moves 0x40 2 d q2 -> moves 0x30 2 c q3 -> asks_balance 2 m q4 ->
  1 <= zlen a <= 128 -> 1 <= zlen d <= 128 -> 1 <= zlen c <= 128 ->
  denote 2 a < denote 2 d -> denote 2 c <= denote 2 d - denote 2 a ->
  purse_replies false m [q1; q2; q3; q4] b
  = [Some [0x90; 0]; Some [0x90; 0]; Some [0x90; 0]; Some (repeat 0 (Z.to_nat m) ++ [0x90; 0])].
Proof.
  intros m b a d c q1 q2 q3 q4 Hm Hi H1 H2 H3 H4 La Ld Lc Hlt Hle.
  rewrite (C143_exact_partial_pf m b _ Hm Hi) by (repeat constructor; first [apply H1|apply H2|apply H3|apply H4]). cbn [account_run].
  rewrite (moved _ _ 48 2 a q1) by auto. cbn [Z.eqb Pos.eqb]. cbv zeta. rewrite (moved _ _ 64 2 d q2) by auto. cbn [Z.eqb Pos.eqb]. cbv zeta.
  rewrite (moved _ _ 48 2 c q3) by auto. cbn [Z.eqb Pos.eqb]. cbv zeta. pose proof (Z.pow_pos_nonneg 256 m).
  rewrite (balance_asked _ _ m q4 _ H4) by lia. rewrite Z.max_l by lia. now rewrite to_base_0 by lia.
Qed.

Lemma C143_capacity_refuted_pf : forall m b a q1 q2, 1 <= m <= 128 -> purse_install m = Ok b ->
  moves 0x30 2 a q1 -> asks_balance 2 m q2 -> 1 <= zlen a <= 128 -> 256 ^ m <= denote 2 a ->
  purse_replies false m [q1; q2] b = [Some [0x90; 0]; Some [0x6a; 0x80]].
Proof.
  intros m b a q1 q2 Hm Hi H1 H2 La Hle. rewrite (C143_exact_partial_pf m b _ Hm Hi) by (repeat constructor; first [apply H1|apply H2]). cbn [account_run].
  rewrite (moved _ _ 48 2 a q1) by auto. cbn [Z.eqb Pos.eqb]. cbv zeta. destruct H2 as (Hq & H5 & Hp & Hp2 & Hle').
  unfold account_step. cbv zeta. rewrite H5, Hp, Hp2. cbn [Z.eqb Pos.eqb orb negb]. replace (128 <? m) with false by lia.
  change (base_of 2) with 256. replace (256 ^ m <=? 0 + denote 2 a) with true by lia. reflexivity.
Qed.

Lemma C143_bcd_refuted_pf : forall guard m b a q1 q2, 1 <= m <= 128 -> purse_install m = Ok b ->
  moves 0x30 1 a q1 -> asks_balance 2 m q2 -> 1 <= zlen a <= 128 -> bcd_ok 1 a = false -> denote 1 a < 256 ^ m ->
  purse_replies guard m [q1; q2] b = [Some [0x90; 0]; Some (to_base 256 (Z.to_nat m) (denote 1 a) ++ [0x90; 0])].
Proof.
  intros guard m b a q1 q2 Hm Hi H1 H2 La _ Hlt. pose proof (denote_nonneg 1 a) as Hn.
  assert (F : Forall request_ok [q1; q2]) by (repeat constructor; first [apply H1|apply H2]).
  assert (G : forall fits, fits (denote 1 a) = true -> account_run fits (fun _ _ => true) [q1; q2] 0 = [Some [0x90; 0]; Some (to_base 256 (Z.to_nat m) (denote 1 a) ++ [0x90; 0])]).
  { intros fits Hf. cbn [account_run]. rewrite (moved _ _ 48 1 a q1) by auto. cbn [Z.eqb Pos.eqb]. cbv zeta. rewrite Z.add_0_l, Hf.
    rewrite (balance_asked _ _ m q2 _ H2) by lia. now rewrite Z.max_r by lia. }
  destruct guard; [rewrite (C143_guarded_pf m b _ Hm Hi F)|rewrite (C143_exact_partial_pf m b _ Hm Hi F)]; apply G; [|reflexivity].
  unfold in_purse. lia.
Qed.

Lemma C143_full_refuted_pf : ~ C143_full.
Proof.
  intros H. specialize (H 1 (mkBig (Some 1) (Some 0)) [mkReq 0 0x40 2 0 (Case3S [1])] ltac:(lia) eq_refl).
  assert (F : Forall request_ok [mkReq 0 0x40 2 0 (Case3S [1])]).
  { repeat constructor; cbn; unfold ubyte; lia. }
  specialize (H F). vm_compute in H. discriminate.
Qed.
