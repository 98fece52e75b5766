(** * C146: a card that keeps data objects: proofs *)
From Verif Require Import Py S_Base S_Number S_APDU S_BER S_TLV L_Py M_utils M_util L_utils L_util LP_util M_apdu S_ApduObs L_apdu LP_apdu M_world LP_world S_Cipher LP_des LP_cipher M_bertag LP_bertag M_bertlv LP_bertlv M_rsaapplet M_pincard LP_pincard S_DesCard LP_descard M_purse LP_purse M_chalcard S_Chal M_datacard S_DataCard.
From Coq Require Import ZifyBool ZifyNat.
Ltac Zify.zify_post_hook ::= Z.div_mod_to_equations.


(** ** the store *)
(** the object as the store keeps it: the tag byte is signed *)
Definition kept (o : child) : child := (twos 1 (fst o), snd o).
Definition obj_ok (o : child) : Prop := ubyte (fst o) /\ fst o mod 32 <> 31 /\ Forall ubyte (snd o) /\ zlen (snd o) <= 126.
Definition sinv (objs : list child) (store : tlv) : Prop :=
  Forall obj_ok objs /\ tval store = Some (encs (map kept objs)) /\ tlen store = zlen (encs (map kept objs)) /\ exists g, ttag store = Some g.

Lemma twos_byte tb : ubyte tb -> twos 1 tb = if tb <=? 127 then tb else tb - 256.
Proof. intros H. unfold ubyte in H. rewrite twos1. rewrite Z.mod_small by lia. destruct (Z.leb_spec tb 127), (Z.ltb_spec tb 128); try lia. Qed.
Lemma kept_simple o : obj_ok o -> simple (kept o).
Proof.
  intros (U & M & _ & L). unfold simple, kept, anybyte. cbn [fst snd]. rewrite (twos_byte _ U). unfold ubyte in U.
  destruct (Z.leb_spec (fst o) 127); lia.
Qed.
Lemma bit5_eq tb : Z.testbit tb 5 = (tb / 32 mod 2 =? 1).
Proof. pose proof (Z.testbit_spec' tb 5 ltac:(lia)) as T. change (2 ^ 5) with 32 in T. destruct (Z.testbit tb 5); cbn [Z.b2z] in T; lia. Qed.
Lemma tag_of_twos tb : ubyte tb -> tag_of (twos 1 tb) = tag_of tb.
Proof.
  intros U. unfold tag_of. rewrite !bit5_eq, (twos_byte _ U). unfold ubyte in U. destruct (Z.leb_spec tb 127); [reflexivity|].
  f_equal; lia.
Qed.
Lemma kept_tag p2 o : ubyte p2 -> obj_ok o -> has_tag (tag_of p2) (kept o) = (fst o =? p2).
Proof.
  intros Up (U & _). unfold has_tag, kept. cbn [fst snd]. pose proof (tag_of_twos _ U) as T. unfold tag_of in T.
  assert (T1 : twos 1 (fst o) mod 256 / 64 = fst o mod 256 / 64) by congruence.
  assert (T2 : Z.testbit (twos 1 (fst o)) 5 = Z.testbit (fst o) 5) by congruence.
  assert (T3 : twos 1 (fst o) mod 32 = fst o mod 32) by congruence.
  rewrite T1, T2, T3. unfold tag_of. cbn [tclass tconstr tnumber]. rewrite !bit5_eq. unfold ubyte in *.
  destruct (Z.eqb_spec (fst o) p2) as [->|N]; [rewrite !Z.eqb_refl, eqb_reflx; reflexivity|].
  destruct (Z.eqb_spec (fst o mod 256 / 64) (p2 mod 256 / 64)); [|reflexivity].
  destruct (Z.eqb_spec (fst o mod 32) (p2 mod 32)); [|apply andb_false_r]. rewrite andb_true_r. cbn [andb].
  apply eqb_false_iff. intros E. apply N. apply eqb_true_iff in E || idtac. lia.
Qed.
Lemma find_kept p2 objs : ubyte p2 -> Forall obj_ok objs ->
  find (has_tag (tag_of p2)) (map kept objs) = option_map kept (find (fun o => fst o =? p2) objs).
Proof.
  intros U H. induction H as [|o objs Ho H IH]; [reflexivity|]. cbn [map find]. rewrite kept_tag by assumption.
  destruct (fst o =? p2); [reflexivity|exact IH].
Qed.
Lemma find_enc p2 objs : find (fun o => hd 0 o =? p2) (map enc objs) = option_map enc (find (fun o => fst o =? p2) objs).
Proof. induction objs as [|o objs IH]; [reflexivity|]. cbn [map find]. unfold enc at 1. cbn [hd]. destruct (fst o =? p2); [reflexivity|exact IH]. Qed.

Lemma kept_bytes o : obj_ok o -> map unsigned (enc (kept o)) = enc o.
Proof.
  intros (U & _ & V & L). unfold enc, kept. cbn [fst snd map]. rewrite (unsigned_id _ V). rewrite (twos_byte _ U). unfold ubyte, unsigned in *. pose proof (zlen_nonneg (snd o)).
  f_equal; [destruct (Z.leb_spec (fst o) 127); lia|f_equal; lia].
Qed.
Lemma encs_len objs : (length objs <= length (encs objs))%nat.
Proof. induction objs as [|o objs IH]; [cbn; lia|]. rewrite encs_cons, app_length. unfold enc. cbn [length]. lia. Qed.

Lemma land_31 b : Z.land b 31 = b mod 32.
Proof. change 31 with (Z.ones 5). now rewrite Z.land_ones by lia. Qed.

Lemma append_kept objs store o : sinv objs store -> obj_ok o ->
  exists n store', append (tlv_of o) store = (Ok n, store') /\ sinv (objs ++ [o]) store'.
Proof.
  intros (HO & HV & HL & g & HG) Ho. pose proof Ho as (U & M & V & L). destruct o as [tb v]. cbn [fst snd] in *.
  destruct (C47_partial_pf tb v store (encs (map kept objs)) (map kept objs)) as (r & store' & E & Er & K & T & V' & L' & X); [|exact HV|].
  { unfold simple, anybyte. cbn [fst snd]. unfold ubyte in U. lia. }
  destruct (X eq_refl) as [X1 _]. rewrite T, HG in Er || idtac.
  assert (ER : exists n, r = Ok n) by (rewrite Er; unfold tlv_size; rewrite T, HG; eauto). destruct ER as [n ->].
  exists n, store'. split; [exact E|]. split; [apply Forall_app; split; [exact HO|constructor; [exact Ho|constructor]]|].
  rewrite map_app. cbn [map]. unfold kept at 2 4. cbn [fst snd]. split; [exact X1|]. split; [|exists g; congruence].
  rewrite L', HL, encs_app, zlen_app. f_equal. unfold encs. cbn [map concat]. rewrite app_nil_r. unfold enc. cbn [fst snd]. now rewrite !zlen_cons.
Qed.

(** the bytes of the buffer behind the header are an object with some value *)
Lemma split_at {A} (l : list A) a n : (a + n <= length l)%nat -> l = firstn a l ++ sub l a n ++ skipn (a + n) l.
Proof. intros H. unfold sub. rewrite <- (firstn_skipn a l) at 1. f_equal. rewrite <- (firstn_skipn n (skipn a l)) at 1. f_equal. rewrite skipn_skipn. f_equal. lia. Qed.

Lemma put_exact objs store s data : sinv objs store -> Forall ubyte data -> 2 <= zlen data <= 128 -> nth 1 data 0 <= 127 ->
  length (buf s) = 257%nat -> sub (buf s) 5 (length data) = data ->
  exists store', data_put (zlen data) (store, s) = (if whole data then Ok tt else Err (ISOExc SW_WRONG_DATA), (store', s))
  /\ exists objs', sinv objs' store' /\ map enc objs' = if whole data then map enc objs ++ [data] else map enc objs.
Proof.
  intros HI U L1 L2 Lb Hs. destruct data as [|tb [|l rest]]; try (unfold zlen in L1; cbn [length] in L1; lia).
  cbn [nth] in L2. assert (Ut : ubyte tb) by now inversion U. assert (Ul : ubyte l) by (inversion U as [|? ? ? U']; now inversion U').
  assert (Ur : Forall ubyte rest) by (inversion U as [|? ? ? U']; now inversion U').
  set (n := zlen (tb :: l :: rest)) in *. assert (En : n = 2 + zlen rest) by (unfold n; rewrite !zlen_cons; lia).
  assert (Hl : 0 <= l <= 127) by (unfold ubyte in Ul; lia).
  set (w := sub (buf s) 7 (Z.to_nat l)).
  assert (Lw : zlen w = l) by (unfold w, zlen; rewrite sub_length; lia).
  assert (B : buf s = firstn 5 (buf s) ++ enc (tb, w) ++ skipn (7 + Z.to_nat l) (buf s)).
  { rewrite (split_at (buf s) 5 (2 + Z.to_nat l)) at 1 by lia. f_equal. f_equal. rewrite sub_plus. fold w. unfold enc. cbn [fst snd]. rewrite Lw.
    change (tb :: l :: w) with ([tb; l] ++ w). f_equal. cbn [length] in Hs. change (S (S (length rest))) with (2 + length rest)%nat in Hs. rewrite sub_plus in Hs.
    assert (L5 : length (sub (buf s) 5 2) = 2%nat) by (apply sub_length; lia).
    destruct (sub (buf s) 5 2) as [|x0 [|x1 [|]]]; try discriminate. cbn [app] in Hs. congruence. }
  assert (Z5 : zlen (firstn 5 (buf s)) = 5) by (unfold zlen; rewrite firstn_length_le; lia).
  assert (G : py_get (buf s) OFFSET_CDATA = Ok tb).
  { rewrite B. replace OFFSET_CDATA with (zlen (firstn 5 (buf s))) by exact Z5. apply py_get_app. }
  unfold data_put. rewrite bind_get. cbn [fst snd]. cbv zeta.
  rewrite (bind_ok _ _ _ tb (store, s)) by (unfold lift; now rewrite G). rewrite land_31. unfold whole. replace (l <=? 127) with true by lia.
  destruct (Z.eqb_spec (tb mod 32) 31) as [E|E]; cbn [negb andb].
  { exists store. split; [reflexivity|]. exists objs. auto. }
  assert (SM : simple (tb, w)) by (unfold simple, anybyte; cbn [fst snd]; unfold ubyte in Ut; lia).
  destruct (parse_child (firstn 5 (buf s)) (tb, w) (skipn (7 + Z.to_nat l) (buf s)) SM) as [P _]. rewrite <- B, Z5 in P.
  rewrite (bind_ok _ _ _ (tlv_of (tb, w)) (store, s)) by (unfold lift; change OFFSET_CDATA with 5; now rewrite P).
  rewrite (bind_ok _ _ _ (2 + l) (store, s)) by (unfold lift; rewrite tlv_of_size, enc_length by exact SM; cbn [snd]; now rewrite Lw).
  replace (2 + l =? n) with (zlen rest =? l) by lia.
  destruct (Z.eqb_spec (zlen rest) l) as [E2|E2]; cbn [negb].
  2:{ exists store. split; [reflexivity|]. exists objs. auto. }
  assert (W : w = rest).
  { cbn [length] in Hs. change (S (S (length rest))) with (2 + length rest)%nat in Hs. rewrite sub_plus in Hs.
    replace (length rest) with (Z.to_nat l) in Hs by (unfold zlen in E2; lia). change (5 + 2)%nat with 7%nat in Hs. fold w in Hs.
    assert (L5 : length (sub (buf s) 5 2) = 2%nat) by (apply sub_length; lia).
    destruct (sub (buf s) 5 2) as [|x0 [|x1 [|]]]; try discriminate. cbn [app] in Hs. congruence. }
  assert (O : obj_ok (tb, w)) by (rewrite W; unfold obj_ok; cbn [fst snd]; repeat split; auto; try apply Ut; lia).
  destruct (append_kept objs store (tb, w) HI O) as (m & store' & E3 & HI'). rewrite E3.
  exists store'. split; [reflexivity|]. exists (objs ++ [(tb, w)]). split; [exact HI'|]. rewrite map_app. cbn [map]. do 2 f_equal. unfold enc. cbn [fst snd]. rewrite Lw, W. reflexivity.
Qed.

Lemma get_exact objs store s p2 : sinv objs store -> ubyte p2 -> py_get (buf s) 3 = Ok p2 -> length (buf s) = 257%nat -> st s < 3 ->
  let F := find (fun o => hd 0 o =? p2) (map enc objs) in
  let small x := match Ne s with Some n => n <? zlen x | None => false end in
  exists s', data_get (store, s)
    = (if p2 mod 32 =? 31 then Err (ISOExc SW_INCORRECT_P1P2)
       else match F with
            | None => Err (ISOExc SW_RECORD_NOT_FOUND)
            | Some x => if small x then Err (APDUExc BAD_LENGTH) else Ok tt
            end, (store, s'))
  /\ forall x, F = Some x -> p2 mod 32 <> 31 -> small x = false -> map unsigned (py_slice (raw s') 0 (outlen s')) = x.
Proof.
  intros HI U G Lb Hst F small. pose proof HI as (HO & HV & HL & _).
  unfold data_get. rewrite bind_get. cbn [fst snd]. cbv zeta. rewrite (bind_ok _ _ _ p2 (store, s)) by (unfold lift; now rewrite G). rewrite land_31.
  destruct (Z.eqb_spec (p2 mod 32) 31) as [E|E].
  { exists s. split; [reflexivity|]. intros x _ N. contradiction. }
  rewrite (bind_ok _ _ _ (tag_of p2) (store, s)) by (unfold lift; now rewrite (init_low _ 3 p2 G E)).
  assert (FB : findBound (Z.to_nat (tlen store + 1)) store (Some (tag_of p2)) = Ok (option_map tlv_of (option_map kept (find (fun o => fst o =? p2) objs)))).
  { rewrite <- find_kept by assumption. refine (proj1 (C44_partial_pf _ store (tag_of p2) _ _ HV HL _)).
    - apply Forall_forall. intros x Hx. apply in_map_iff in Hx. destruct Hx as (o & <- & Hx). apply kept_simple. rewrite Forall_forall in HO. auto.
    - rewrite HL. pose proof (encs_len (map kept objs)). unfold zlen. lia. }
  rewrite (bind_ok _ _ _ (option_map tlv_of (option_map kept (find (fun o => fst o =? p2) objs))) (store, s)) by (unfold lift; now rewrite FB).
  unfold F. rewrite find_enc. destruct (find (fun o => fst o =? p2) objs) as [o|] eqn:EF; cbn [option_map].
  2:{ exists s. split; [reflexivity|]. discriminate. }
  assert (Ho : obj_ok o) by (apply find_some in EF; rewrite Forall_forall in HO; apply HO; tauto).
  pose proof Ho as (Uo & Mo & Vo & Lo). pose proof (zlen_nonneg (snd o)).
  assert (TB : tlv_toBytes (tlv_of (kept o)) OFFSET_CDATA (buf s) = (Ok (zlen (enc (kept o))), splice (map s1 (buf s)) 5 (enc (kept o)))).
  { unfold tlv_of, kept. cbn [fst snd]. rewrite (tag_of_twos _ Uo). rewrite toBytes_simple.
    - change (Z.to_nat OFFSET_CDATA) with 5%nat. rewrite enc_length. cbn [snd]. unfold enc. cbn [fst snd]. do 3 f_equal. unfold tag_of. cbn [tclass tconstr tnumber]. rewrite bit5_eq. unfold ubyte in Uo.
      f_equal. destruct (Z.eqb_spec (fst o / 32 mod 2) 1); lia.
    - unfold tag_of. cbn [tclass]. unfold ubyte in Uo. lia.
    - unfold tag_of. cbn [tnumber]. unfold ubyte in Uo. lia.
    - lia.
    - unfold OFFSET_CDATA; lia.
    - unfold OFFSET_CDATA, zlen in *; lia. }
  rewrite TB. set (b := splice (map s1 (buf s)) 5 (enc (kept o))).
  assert (LE : zlen (enc (kept o)) = zlen (enc o)) by (rewrite !enc_length; reflexivity).
  assert (L2 : zlen (enc o) <= 128) by (rewrite enc_length; lia).
  assert (Lbb : length b = 257%nat) by (unfold b; rewrite splice_length; rewrite map_length; unfold zlen in *; lia).
  rewrite (bind_ok _ _ _ tt (store, with_buf b s)) by reflexivity.
  rewrite (bind_ok _ _ _ (zlen (enc (kept o))) (store, with_buf b s)) by reflexivity.
  destruct (send_crypted (with_buf b s) (enc (kept o))) as (s' & E3 & F3); cbn [buf with_buf st];
    [unfold zlen; lia|exact Hst|lia|unfold b; apply sub_splice; [reflexivity|rewrite map_length; unfold zlen in *; lia]|].
  cbn [buf with_buf Ne] in E3, F3. exists s'. unfold small. rewrite LE in E3, F3. split.
  - unfold with_apdu. cbn [fst snd]. change OFFSET_CDATA with 5. rewrite LE, E3. reflexivity.
  - intros x Hx _ Hsm. assert (x = enc o) by congruence. subst x. rewrite (F3 Hsm). now apply kept_bytes.
Qed.

Lemma data_step_exact objs store q : sinv objs store -> request_ok q -> short_form q ->
  exists r store' objs', data_answer (bytes_of q) store = (r, store')
    /\ data_step q (map enc objs) = (reply r, map enc objs') /\ sinv objs' store'.
Proof.
  intros HI (U1 & U2 & U3 & U4 & Hw & Hs) HF. unfold short_form in HF. unfold bytes_of, data_answer, data_step. cbv zeta.
  destruct (receive_des (q_cla q) (q_ins q) (q_p1 q) (q_p2 q) (q_body q) U1 U2 U3 U4 Hw Hs) as (s & Q & Gi & Gp & HN & Hr).
  destruct (receive_hdr _ _ _ _ _ s U1 U2 U3 U4 Hw Hs Q) as (G3 & S0 & N0 & L0 & O0). rewrite Q.
  unfold data_process. rewrite bind_get. cbn [snd fst].
  rewrite (bind_ok _ _ _ (q_ins q) (store, s)) by (unfold lift; now rewrite Gi).
  change 0xDA with 218 in *. change 0xCA with 202. unfold getIncomingLength. rewrite HN. set (data := command_data (q_body q)) in *.
  destruct (Z.eqb_spec (q_ins q) 218) as [E|E].
  { destruct ((zlen data <? 2) || (128 <? zlen data)) eqn:El.
    { do 3 eexists. split; [reflexivity|]. split; [reflexivity|exact HI]. }
    destruct Hr as (s' & Er & O & Lb & Hst & HNe & Hsub); [lia|]. destruct Hw as [Hd _].
    rewrite (bind_ok _ _ _ (zlen data) (store, s')) by (unfold with_apdu; cbn [snd fst]; now rewrite Er).
    destruct (put_exact objs store s' data HI Hd ltac:(lia) (HF E) Lb Hsub) as (store' & E1 & objs' & HI' & M). rewrite E1.
    exists (if whole data then Ok [144; 0] else Ok [106; 128]), store', objs'. destruct (whole data).
    - rewrite O, py_slice_00, M. auto.
    - rewrite M. auto. }
  destruct (Z.eqb_spec (q_ins q) 202) as [E2|E2].
  2:{ do 3 eexists. split; [reflexivity|]. split; [reflexivity|exact HI]. }
  destruct (get_exact objs store s (q_p2 q) HI U4 G3 L0 ltac:(lia)) as (s' & E1 & F1). cbv zeta in E1, F1. rewrite E1. rewrite N0 in *.
  destruct (Z.eqb_spec (q_p2 q mod 32) 31) as [E3|E3].
  { do 3 eexists. split; [reflexivity|]. split; [reflexivity|exact HI]. }
  destruct (find _ (map enc objs)) as [x|] eqn:EF.
  2:{ do 3 eexists. split; [reflexivity|]. split; [reflexivity|exact HI]. }
  unfold with_data. specialize (F1 x eq_refl E3).
  destruct (match command_le (q_body q) with Some n => n <? zlen x | None => false end).
  - do 3 eexists. split; [reflexivity|]. split; [reflexivity|exact HI].
  - do 3 eexists. split; [reflexivity|]. split; [|exact HI]. cbn [reply]. rewrite map_app, (F1 eq_refl). reflexivity.
Qed.

Lemma data_exact qs : Forall (fun q => request_ok q /\ short_form q) qs ->
  forall objs store, sinv objs store -> data_replies qs store = objects_run qs (map enc objs).
Proof.
  unfold data_replies. induction 1 as [|q qs [Hq Hf] H IH]; intros objs store HI; [reflexivity|]. cbn [map data_run objects_run].
  destruct (data_step_exact objs store q HI Hq Hf) as (r & store' & objs' & -> & -> & HI'). specialize (IH objs' store' HI').
  destruct (data_run _ store') as [rs c]. cbn [fst map] in *. now rewrite IH.
Qed.

Lemma C146_exact_partial_pf : forall store qs,
  data_install = Ok store -> Forall request_ok qs -> Forall short_form qs -> data_replies qs store = objects_run qs [].
Proof.
  intros store qs Hi W T. apply (data_exact qs) with (objs := []).
  - apply Forall_forall. intros q Hq. rewrite Forall_forall in W, T. auto.
  - assert (E : store = mkTLV true (Some (tag_of 97)) 0 (Some [])) by (apply Ok_inj; rewrite <- Hi; reflexivity). subst store.
    split; [constructor|]. split; [reflexivity|]. split; [reflexivity|]. eexists. reflexivity.
Qed.

Lemma C146_whole_pf : forall data, Forall ubyte data -> zlen data <= 128 ->
  (whole data = true <-> exists tb lo v, data = tb :: lo ++ v /\ tb mod 32 <> 31 /\ length_octets (zlen v) lo).
Proof.
  intros data U L. split.
  - intros W. destruct data as [|tb [|l rest]]; try discriminate. cbn [whole] in W. apply andb_true_iff in W. destruct W as [W1 W2].
    rewrite !zlen_cons in L. assert (Ul : ubyte l) by (inversion U as [|? ? ? U']; now inversion U'). unfold ubyte in Ul.
    assert (Ur : Forall ubyte rest) by (inversion U as [|? ? ? U']; now inversion U').
    destruct (Z.leb_spec l 127).
    + exists tb, [l], rest. split; [reflexivity|]. split; [lia|]. replace l with (zlen rest) by lia. apply len_short. lia.
    + set (k := Z.to_nat (l - 128)) in *. exists tb, (l :: firstn k rest), (skipn k rest). split; [cbn [app]; now rewrite firstn_skipn|]. split; [lia|].
      assert (Lk : length (firstn k rest) = k) by (apply firstn_length_le; unfold zlen in *; lia).
      replace l with (128 + Z.of_nat (length (firstn k rest))) by (rewrite Lk; lia). apply len_long.
      * unfold zlen in *. lia.
      * assert (Uf : Forall ubyte (firstn k rest)) by (rewrite <- (firstn_skipn k rest) in Ur; apply Forall_app in Ur; tauto). revert Uf. apply Forall_impl. unfold ubyte. lia.
      * unfold zlen at 1. rewrite skipn_length. unfold zlen in *. lia.
  - intros (tb & lo & v & -> & M & H). rewrite zlen_cons, zlen_app in L. pose proof (zlen_nonneg v).
    inversion H as [H1 E|ds H1 H2 H3 E]; subst lo; cbn [app whole].
    + replace (zlen v <=? 127) with true by lia. lia.
    + assert (Ld : Z.of_nat (length ds) = zlen ds) by reflexivity. rewrite Ld in *. replace (128 + zlen ds <=? 127) with false by lia.
      rewrite zlen_app. replace (Z.to_nat (128 + zlen ds - 128)) with (length ds) by (unfold zlen; lia).
      rewrite firstn_app, Nat.sub_diag, firstn_all, firstn_O, app_nil_r. lia.
Qed.

Lemma step_keeps tb o q objs : find (fun o => hd 0 o =? tb) objs = Some o -> find (fun o => hd 0 o =? tb) (snd (data_step q objs)) = Some o.
Proof.
  intros H. assert (X : forall l, find (fun o => hd 0 o =? tb) (objs ++ l) = Some o).
  { intros l. revert H. induction objs as [|x objs IH]; [discriminate|]. cbn [find app]. destruct (hd 0 x =? tb); auto. }
  unfold data_step. repeat match goal with |- context [if ?b then _ else _] => destruct b end; cbn [snd]; auto. destruct (find (fun o => hd 0 o =? q_p2 q) objs); cbn [snd]; exact H.
Qed.
Lemma run_last h q : forall objs, exists objs', objects_run (h ++ [q]) objs = objects_run h objs ++ [fst (data_step q objs')]
  /\ forall tb o, find (fun o => hd 0 o =? tb) objs = Some o -> find (fun o => hd 0 o =? tb) objs' = Some o.
Proof.
  induction h as [|x h IH]; intros objs; cbn [app objects_run].
  - exists objs. destruct (data_step q objs). auto.
  - pose proof (fun tb o => step_keeps tb o x objs) as K. destruct (data_step x objs) as [r a]. destruct (IH a) as (objs' & E & F). exists objs'. rewrite E. split; [reflexivity|]. auto.
Qed.
Lemma run_none tb h rest : Forall (fun q => ~ puts tb q) h -> forall objs, find (fun o => hd 0 o =? tb) objs = None ->
  exists rs objs', length rs = length h /\ objects_run (h ++ rest) objs = rs ++ objects_run rest objs' /\ find (fun o => hd 0 o =? tb) objs' = None.
Proof.
  induction 1 as [|q h Hq H IH]; intros objs Hn; cbn [app objects_run length].
  - exists [], objs. auto.
  - assert (K : find (fun o => hd 0 o =? tb) (snd (data_step q objs)) = None).
    { unfold data_step. destruct (Z.eqb_spec (q_ins q) 0xDA) as [E|E].
      - destruct (_ || _); [exact Hn|]. destruct (whole _); [|exact Hn]. cbn [snd]. revert Hn. induction objs as [|y objs IHo]; cbn [find app].
        + intros _. destruct (Z.eqb_spec (hd 0 (command_data (q_body q))) tb) as [E'|E']; [|reflexivity]. contradiction Hq. split; assumption.
        + destruct (hd 0 y =? tb); [discriminate|exact IHo].
      - repeat match goal with |- context [if ?b then _ else _] => destruct b end; cbn [snd]; auto. destruct (find (fun o => hd 0 o =? q_p2 q) objs); cbn [snd]; exact Hn. }
    destruct (data_step q objs) as [r a]. destruct (IH a K) as (rs & objs' & L & E & F). exists (r :: rs), objs'. rewrite E. cbn [length]. auto.
Qed.

Lemma C146_first_partial_pf : forall store tb h1 p h2 g,
  data_install = Ok store -> Forall request_ok (h1 ++ p :: h2 ++ [g]) -> Forall short_form (h1 ++ p :: h2 ++ [g]) ->
  Forall (fun q => ~ puts tb q) h1 -> puts tb p -> whole (command_data (q_body p)) = true -> zlen (command_data (q_body p)) <= 128 -> asks tb g ->
  last (data_replies (h1 ++ p :: h2 ++ [g]) store) None = with_data g (command_data (q_body p)).
Proof.
  intros store tb h1 p h2 g Hi W T H1 [P1 P2] Hw Hl [A1 A2]. rewrite (C146_exact_partial_pf store _ Hi W T).
  destruct (run_none tb h1 (p :: h2 ++ [g]) H1 [] eq_refl) as (rs & objs & _ & E & F). rewrite E. cbn [objects_run].
  set (data := command_data (q_body p)) in *.
  assert (L2 : 2 <= zlen data) by (destruct data as [|? [|? ?]]; try discriminate Hw; rewrite !zlen_cons; pose proof (zlen_nonneg l); lia).
  assert (ST : data_step p objs = (Some [0x90; 0], objs ++ [data])).
  { unfold data_step. cbv zeta. fold data. rewrite P1. cbn [Z.eqb Pos.eqb]. replace ((zlen data <? 2) || (128 <? zlen data)) with false by lia. now rewrite Hw. }
  rewrite ST. destruct (run_last h2 g (objs ++ [data])) as (objs' & E2 & K). rewrite E2.
  assert (FD : find (fun o => hd 0 o =? tb) (objs ++ [data]) = Some data).
  { revert F. clear -P2. induction objs as [|y objs IHo]; cbn [find app]; [intros _; now rewrite P2, Z.eqb_refl|]. destruct (hd 0 y =? tb); [discriminate|exact IHo]. }
  rewrite app_comm_cons, app_assoc, last_last. unfold data_step. cbv zeta. rewrite A1, A2. cbn [Z.eqb Pos.eqb]. rewrite (K _ _ FD).
  replace (tb mod 32 =? 31) with false; [reflexivity|]. symmetry. clear -Hw P2. destruct data as [|x [|? ?]]; try discriminate. cbn [whole hd] in *. subst x. destruct (tb mod 32 =? 31); [discriminate|reflexivity].
Qed.

Lemma C146_long_refuted_pf : forall store q tb v,
  request_ok q -> q_ins q = 0xDA -> tb mod 32 <> 31 -> zlen v <= 125 ->
  command_data (q_body q) = tb :: 129 :: zlen v :: v ->
  whole (command_data (q_body q)) = true /\ data_answer (bytes_of q) store = (Ok [0x6a; 0x80], store).
Proof.
  intros store q tb v (U1 & U2 & U3 & U4 & Hw & Hs) Hi Hm Hv Hc. rewrite Hc. pose proof (zlen_nonneg v). split.
  { cbn [whole]. replace (tb mod 32 =? 31) with false by lia. change (Z.to_nat (129 - 128)) with 1%nat. rewrite zlen_cons. cbn [firstn]. replace (digits_value 256 [zlen v]) with (zlen v) by (cbn; lia). change (129 <=? 127) with false. cbv iota. lia. }
  unfold bytes_of, data_answer.
  destruct (receive_des (q_cla q) (q_ins q) (q_p1 q) (q_p2 q) (q_body q) U1 U2 U3 U4 Hw Hs) as (s & Q & Gi & Gp & HN & Hr). rewrite Q.
  unfold data_process. rewrite bind_get. cbn [snd fst].
  rewrite (bind_ok _ _ _ (q_ins q) (store, s)) by (unfold lift; now rewrite Gi). rewrite Hi. change (218 =? 218) with true. cbv iota.
  unfold getIncomingLength. rewrite HN. rewrite Hc in Hr. rewrite Hc. rewrite !zlen_cons in *. replace ((_ <? 2) || (128 <? _)) with false by lia.
  destruct Hr as (s' & Er & O & Lb & Hst & HNe & Hsub); [lia|].
  rewrite (bind_ok _ _ _ (zlen v + 1 + 1 + 1) (store, s')) by (unfold with_apdu; cbn [snd fst]; rewrite Er; do 2 f_equal; lia).
  set (data := tb :: 129 :: zlen v :: v) in *. assert (Ld : length data = (3 + length v)%nat) by reflexivity.
  assert (B : buf s' = firstn 5 (buf s') ++ data ++ skipn (5 + length data) (buf s')).
  { rewrite (split_at (buf s') 5 (length data)) at 1 by (rewrite Ld; unfold zlen in *; lia). now rewrite Hsub. }
  assert (Z5 : zlen (firstn 5 (buf s')) = 5) by (unfold zlen; rewrite firstn_length_le; lia).
  assert (G : py_get (buf s') 5 = Ok tb).
  { rewrite B. replace 5 with (zlen (firstn 5 (buf s'))) by exact Z5. unfold data. apply py_get_app. }
  assert (T : BERTag_getInstance (buf s') 5 = Ok (tag_of tb)) by (apply init_low; assumption).
  assert (LP : getLengthPair (py_slice_from (buf s') 6) = Ok (1, zlen v)).
  { assert (B6 : buf s' = (firstn 5 (buf s') ++ [tb]) ++ (129 :: zlen v :: v ++ skipn (5 + length data) (buf s'))) by (rewrite B at 1; unfold data; now rewrite <- app_assoc).
    rewrite B6. replace 6 with (zlen (firstn 5 (buf s') ++ [tb])) by (rewrite zlen_app, Z5; reflexivity). rewrite py_slice_from_app. set (post := v ++ _). clearbody post. unfold getLengthPair.
    change (py_get (129 :: zlen v :: post) 0) with (Ok 129). cbn [rbind]. change (Z.land 129 128 =? 128) with true. change (Z.land 129 127) with 1. change (1 + 1) with 2.
    pose proof (zlen_nonneg post). rewrite py_slice_in by (rewrite ?zlen_cons; lia). reflexivity. }
  unfold data_put. rewrite bind_get. cbn [fst snd]. cbv zeta. change OFFSET_CDATA with 5.
  rewrite (bind_ok _ _ _ tb (store, s')) by (unfold lift; now rewrite G). rewrite land_31. replace (tb mod 32 =? 31) with false by lia.
  assert (P : exists x, getInstance (buf s') 5 None = Ok (mkTLV (tconstr (tag_of tb)) (Some (tag_of tb)) (zlen v) x)).
  { unfold getInstance, getLengthStatic. rewrite T. cbn [rbind]. unfold tag_size. cbn [tsize tag_of]. change (5 + 1) with 6. rewrite LP. cbn [rbind]. unfold init_tag. cbn [tkind newTLV]. replace (1 + 1 + zlen v - 1 - 1) with (zlen v) by lia. eexists. reflexivity. }
  destruct P as [x P]. rewrite (bind_ok _ _ _ _ (store, s')) by (unfold lift; now rewrite P).
  rewrite (bind_ok _ _ _ (1 + 1 + zlen v) (store, s')) by (unfold lift, tlv_size, getLengthLen; cbn [ttag tlen]; replace (127 <? zlen v) with false by lia; reflexivity).
  replace (negb _) with true by lia. reflexivity.
Qed.

(** behind the data the buffer is still zero *)
Lemma receive_tail cla ins p1 p2 c s n s' j : ubyte cla -> ubyte ins -> ubyte p1 -> ubyte p2 -> wf_command c -> is_short c = true ->
  newAPDU ([cla; ins; p1; p2] ++ body c) = Ok s -> 1 <= zlen (command_data c) <= 128 -> setIncomingAndReceive s = (n, s') ->
  (5 + length (command_data c) <= j)%nat -> nth j (buf s') 0 = 0.
Proof.
  intros U1 U2 U3 U4 Hw Hs Q H128 R Hj. set (rw := [cla; ins; p1; p2] ++ body c) in *.
  assert (He : encodes rw c) by now apply wire_encodes.
  destruct (short_exact rw c Hw Hs He) as (ty & ll & Q' & Hcd & Hll). rewrite Q' in Q. apply Ok_inj in Q. subst s.
  pose proof (encodes_len rw c He) as HL. pose proof (zlen_nonneg (body c)) as HB. assert (H4 : 4 <= zlen rw) by lia.
  pose proof (p3len_bounds rw H4) as Hp. pose proof (initbuf_length rw H4) as HI.
  unfold setIncomingAndReceive, bind, get in R. cbn [st mk_apdu broken STATE_INITIAL Z.eqb negb] in R.
  assert (Hne : command_data c <> []) by (intros E; rewrite E, zlen_nil in H128; lia).
  destruct (Hcd Hne) as [P1 P2].
  rewrite (receive_block_ok _ _ (zlen (command_data c))) in R; cbn [M_apdu.raw offin lelength buf mk_apdu]; try lia; try (unfold IN_BLOCKSIZE; lia).
  2:{ unfold zlen at 2. rewrite HI. lia. }
  assert (E : s' = snd (n, s')) by reflexivity. rewrite <- R in E. rewrite E. cbn [snd buf with_in mk_apdu M_apdu.raw offin]. rewrite P1.
  assert (LS : length (sub rw (Z.to_nat 5) (Z.to_nat (zlen (command_data c)))) = length (command_data c)) by (rewrite sub_length; unfold zlen in *; lia).
  rewrite nth_splice_out; [|rewrite LS, HI; unfold zlen in *; lia|rewrite LS; right; lia].
  unfold initbuf. rewrite P1. assert (L5 : length (sub rw 0 (Z.to_nat 5)) = 5%nat) by (apply sub_length; unfold zlen in *; lia).
  rewrite nth_splice_out; [|rewrite L5, repeat_length; lia|rewrite L5; right; lia]. apply nth_repeat.
Qed.

Lemma C146_malformed_refuted_pf : forall store p g tb rest,
  data_install = Ok store -> request_ok p -> request_ok g -> puts tb p -> asks tb g -> tb mod 32 <> 31 -> zlen rest <= 124 ->
  command_data (q_body p) = tb :: 130 :: zlen rest + 2 :: 0 :: rest ->
  whole (command_data (q_body p)) = false
  /\ data_replies [p; g] store = [Some [0x90; 0]; with_data g (tb :: zlen rest + 2 :: 0 :: rest ++ [0])].
Proof.
  intros store p g tb rest Hst Hp Hg [Hi _] [A1 A2] Hm Hv Hc. pose proof (zlen_nonneg rest). split.
  { rewrite Hc. cbn [whole]. change (130 <=? 127) with false. cbv iota. change (Z.to_nat (130 - 128)) with 2%nat. rewrite !zlen_cons. cbn [firstn].
    change (digits_value 256 [zlen rest + 2; 0]) with ((zlen rest + 2) * 256 + (0 * 1 + 0)). lia. }
  pose proof Hp as (U1 & U2 & U3 & U4 & Hw & Hs). set (y := zlen rest + 2) in *.
  assert (Hd : Forall ubyte (command_data (q_body p))) by apply Hw. rewrite Hc in Hd.
  assert (Ut : ubyte tb) by now inversion Hd.
  assert (Ur : Forall ubyte rest) by (do 4 (apply Forall_inv_tail in Hd); exact Hd).
  assert (O : obj_ok (tb, 0 :: rest ++ [0])).
  { unfold obj_ok. cbn [fst snd]. rewrite zlen_cons, zlen_app. change (zlen [0]) with 1. split; [exact Ut|]. split; [exact Hm|]. split; [|lia].
    constructor; [unfold ubyte; lia|]. apply Forall_app. split; [exact Ur|]. repeat constructor; unfold ubyte; lia. }
  assert (I0 : sinv [] store).
  { assert (E : store = mkTLV true (Some (tag_of 97)) 0 (Some [])) by (apply Ok_inj; rewrite <- Hst; reflexivity). subst store.
    split; [constructor|]. split; [reflexivity|]. split; [reflexivity|]. eexists. reflexivity. }
  destruct (append_kept [] store _ I0 O) as (m & store' & EA & HI').
  assert (PA : data_answer (bytes_of p) store = (Ok [144; 0], store')).
  { unfold bytes_of, data_answer.
    destruct (receive_des (q_cla p) (q_ins p) (q_p1 p) (q_p2 p) (q_body p) U1 U2 U3 U4 Hw Hs) as (s & Q & Gi & Gp & HN & Hr). rewrite Q.
    unfold data_process. rewrite bind_get. cbn [snd fst].
    rewrite (bind_ok _ _ _ (q_ins p) (store, s)) by (unfold lift; now rewrite Gi). rewrite Hi. change (218 =? 218) with true. cbv iota.
    unfold getIncomingLength. rewrite HN.
    assert (ZD : zlen (command_data (q_body p)) = y + 2) by (rewrite Hc, !zlen_cons; lia).
    rewrite ZD in *. replace ((y + 2 <? 2) || (128 <? y + 2)) with false by lia.
    destruct Hr as (s' & Er & Ou & Lb & Hst' & HNe & Hsub); [lia|].
    pose proof (fun j => receive_tail _ _ _ _ _ s _ s' j U1 U2 U3 U4 Hw Hs Q ltac:(lia) Er) as TL. rewrite Hc in TL, Hsub.
    rewrite (bind_ok _ _ _ (y + 2) (store, s')) by (unfold with_apdu; cbn [snd fst]; now rewrite Er).
    set (data := tb :: 130 :: y :: 0 :: rest) in *. assert (Ld : length data = (4 + length rest)%nat) by reflexivity.
    set (post := skipn (5 + length data + 1) (buf s')).
    assert (B : buf s' = firstn 5 (buf s') ++ data ++ [0] ++ post).
    { rewrite (split_at (buf s') 5 (length data + 1)) at 1 by (rewrite Ld; unfold zlen in *; lia). rewrite sub_plus, Hsub, <- app_assoc, Nat.add_assoc. fold post.
      do 3 f_equal. specialize (TL (5 + length data)%nat ltac:(lia)). unfold sub.
      assert (L1 : (5 + length data < length (buf s'))%nat) by (rewrite Ld; unfold zlen in *; lia).
      rewrite <- TL. clear -L1. revert L1. generalize (5 + length data)%nat. generalize (buf s'). intros l k. revert l. induction k as [|k IH]; intros [|x l] L1; cbn [length] in L1; try lia; [reflexivity|]. cbn [skipn nth]. apply IH. lia. }
    assert (Z5 : zlen (firstn 5 (buf s')) = 5) by (unfold zlen; rewrite firstn_length_le; lia).
    assert (G : py_get (buf s') 5 = Ok tb).
    { rewrite B. replace 5 with (zlen (firstn 5 (buf s'))) by exact Z5. unfold data. apply py_get_app. }
    assert (T : BERTag_getInstance (buf s') 5 = Ok (tag_of tb)) by (apply init_low; assumption).
    assert (LP : getLengthPair (py_slice_from (buf s') 6) = Ok (2, y)).
    { assert (B6 : buf s' = (firstn 5 (buf s') ++ [tb]) ++ (130 :: y :: 0 :: rest ++ [0] ++ post)) by (rewrite B at 1; unfold data; now rewrite <- app_assoc).
      rewrite B6. replace 6 with (zlen (firstn 5 (buf s') ++ [tb])) by (rewrite zlen_app, Z5; reflexivity). rewrite py_slice_from_app. set (po := rest ++ _). clearbody po. unfold getLengthPair.
      change (py_get (130 :: y :: 0 :: po) 0) with (Ok 130). cbn [rbind]. change (Z.land 130 128 =? 128) with true. change (Z.land 130 127) with 2. change (2 + 1) with 3.
      pose proof (zlen_nonneg po). rewrite py_slice_in by (rewrite ?zlen_cons; lia). reflexivity. }
    assert (P : getInstance (buf s') 5 None = Ok (tlv_of (tb, 0 :: rest ++ [0]))).
    { unfold getInstance, getLengthStatic. rewrite T. cbn [rbind]. unfold tag_size. cbn [tsize tag_of]. change (5 + 1) with 6. rewrite LP. cbn [rbind]. unfold init_tag. cbn [tkind newTLV].
      replace (1 + 2 + y - 1 - 2) with y by lia.
      assert (ZW : zlen (0 :: rest ++ [0]) = y) by (rewrite zlen_cons, zlen_app; change (zlen [0]) with 1; lia).
      assert (B8 : buf s' = (firstn 5 (buf s') ++ [tb; 130; y]) ++ (0 :: rest ++ [0]) ++ post) by (rewrite B at 1; unfold data; rewrite <- !app_assoc; cbn [app]; now rewrite <- app_assoc).
      assert (SL : py_slice (buf s') (6 + 2) (6 + 2 + y) = 0 :: rest ++ [0]).
      { rewrite B8. replace (6 + 2) with (zlen (firstn 5 (buf s') ++ [tb; 130; y])) by (rewrite zlen_app, Z5; reflexivity). set (pre := _ ++ [tb; 130; y]). rewrite <- ZW. apply py_slice_app. }
      rewrite SL. unfold tlv_of. cbn [fst snd]. rewrite ZW. reflexivity. }
    unfold data_put. rewrite bind_get. cbn [fst snd]. cbv zeta. change OFFSET_CDATA with 5.
    rewrite (bind_ok _ _ _ tb (store, s')) by (unfold lift; now rewrite G). rewrite land_31. replace (tb mod 32 =? 31) with false by lia.
    rewrite (bind_ok _ _ _ _ (store, s')) by (unfold lift; now rewrite P).
    rewrite (bind_ok _ _ _ (y + 2) (store, s')).
    2:{ unfold lift. rewrite tlv_of_size, enc_length. 2:{ destruct O as (O1 & O2 & O3 & O4). unfold simple, anybyte. cbn [fst snd] in *. unfold ubyte in O1. lia. }
        cbn [snd]. rewrite zlen_cons, zlen_app. change (zlen [0]) with 1. do 2 f_equal. lia. }
    rewrite Z.eqb_refl. cbn [negb]. rewrite EA.
    rewrite (bind_ok _ _ _ tt (store', s')) by reflexivity. rewrite (bind_ok _ _ _ m (store', s')) by reflexivity. unfold ret. rewrite Ou, py_slice_00. reflexivity. }
  assert (SF : short_form g) by (intros E; rewrite A1 in E; discriminate).
  pose proof (data_exact [g] ltac:(repeat constructor; [apply Hg..|exact SF]) _ store' HI') as D.
  unfold data_replies in *. cbn [map data_run] in *. rewrite PA. destruct (data_answer (bytes_of g) store') as [r st2]. cbn [fst map] in *. rewrite D.
  f_equal. cbn [objects_run app map]. unfold data_step. cbv zeta. rewrite A1, A2. cbn [Z.eqb Pos.eqb]. replace (tb mod 32 =? 31) with false by lia.
  unfold enc. cbn [fst snd find hd]. rewrite Z.eqb_refl. do 2 f_equal. rewrite zlen_cons, zlen_app. change (zlen [0]) with 1. unfold y. do 2 f_equal. lia.
Qed.

Lemma C146_full_refuted_pf : ~ C146_full.
Proof.
  intro F. specialize (F (mkTLV true (Some (tag_of 97)) 0 (Some [])) [mkReq 0 218 0 0 (Case3S [4; 129; 1; 7])] eq_refl).
  assert (W : Forall request_ok [mkReq 0 218 0 0 (Case3S [4; 129; 1; 7])]) by (repeat constructor; cbn; unfold ubyte; lia).
  specialize (F W). vm_compute in F. discriminate F.
Qed.
