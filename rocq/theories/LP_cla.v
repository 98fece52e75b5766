(** * C121-C122: the class byte; block sizes and protocol: proofs *)
From Verif Require Import Py S_Base S_APDU L_Py M_utils M_util L_utils L_util M_apdu S_ApduObs L_apdu M_system M_world S_World LP_apdu LP_world M_cla S_Cla.
From Coq Require Import ZifyBool ZifyNat.
Ltac Zify.zify_post_hook ::= Z.div_mod_to_equations.

Lemma bit7_128 c : -128 <= c <= 255 -> negb (Z.testbit c 7) = (c mod 256 <? 128).
Proof.
  intros H. pose proof (Z.testbit_spec' c 7 ltac:(lia)) as T. change (2 ^ 7) with 128 in T.
  destruct (Z.testbit c 7); cbn [Z.b2z negb] in *; destruct (Z.ltb_spec (c mod 256) 128); try reflexivity; lia.
Qed.
Lemma bit4_16 c : Z.testbit c 4 = (16 <=? c mod 32).
Proof.
  pose proof (Z.testbit_spec' c 4 ltac:(lia)) as T. change (2 ^ 4) with 16 in T.
  destruct (Z.testbit c 4); cbn [Z.b2z] in *; destruct (Z.leb_spec 16 (c mod 32)); try reflexivity; lia.
Qed.
Lemma iso_cla_parts c i : iso_cla c = Some i -> 0 <= c < 128 /\ ci_chaining i = (16 <=? c mod 32) /\ ci_channel i mod 4 = c mod 4
  /\ (c < 32 /\ ci_channel i = c mod 4 \/ 64 <= c /\ 4 <= ci_channel i).
Proof.
  unfold iso_cla. destruct ((0 <=? c) && (c <? 32)) eqn:E1; [|destruct ((64 <=? c) && (c <? 128)) eqn:E2; [|discriminate]].
  - intros H. assert (i = mkCla (16 <=? c) (negb ((c / 4) mod 4 =? 0)) (c mod 4)) as -> by congruence. cbn [ci_chaining ci_channel].
    apply andb_prop in E1 as [E1 E2]. split; [lia|]. split; [f_equal; lia|]. split; [lia|left; lia].
  - intros H. assert (i = mkCla (16 <=? c mod 32) (96 <=? c) (4 + c mod 16)) as -> by congruence. cbn [ci_chaining ci_channel].
    clear E1. apply andb_prop in E2 as [E2 E3]. split; [lia|]. split; [reflexivity|]. split; [lia|right; lia].
Qed.

Lemma C121_partial_pf : forall h b s tr w cla, newAPDU b = Ok s -> nth_error b 0 = Some cla -> -128 <= cla <= 255 ->
  wrun (h ++ [WNew b]) world0 = (tr, w) ->
  isISOInterindustryCLA s = Ok (cla mod 256 <? 128)
  /\ forall i, iso_cla (cla mod 256) = Some i ->
       isCommandChainingCLA s = Ok (ci_chaining i)
       /\ getCLAChannel w = Ok (ci_channel i mod 4)
       /\ (getCLAChannel w = Ok (ci_channel i) <-> cla mod 256 < 32).
Proof.
  intros h b s tr w cla HN HC HR HW.
  destruct (C30_cla_partial_pf b s [] [] s cla HN HC eq_refl ltac:(constructor)) as [H1 H2].
  rewrite <- (bit7_128 cla HR). split; [exact H1|]. intros i Hi. destruct (iso_cla_parts _ _ Hi) as (R & P1 & P2 & P3).
  assert (G : getCLAChannel w = Ok (cla mod 4)).
  { pose proof (C95_channel_partial_pf b s h [] tr w HN ltac:(constructor)) as G. cbn [app] in G. rewrite (G HW).
    destruct b as [|x b']; [discriminate|]. injection HC as ->. reflexivity. }
  split; [rewrite H2, bit4_16, P1; f_equal; f_equal; lia|]. rewrite G.
  split; [f_equal; lia|]. split.
  - intros E. injection E as E. lia.
  - intros L. f_equal. lia.
Qed.

Lemma C121_secure_refuted_pf : forall b s i, newAPDU b = Ok s -> iso_cla (nth 0 b 0 mod 256) = Some i ->
  truth (isSecureMessagingCLA s) = false /\ (ci_secure i = true -> truth (isSecureMessagingCLA s) <> ci_secure i).
Proof. intros b s i _ _. split; [reflexivity|]. intros ->. discriminate. Qed.

Lemma C121_full_refuted_pf : ~ C121_full.
Proof.
  intros F. destruct (newAPDU [4; 0; 0; 0]) as [s|] eqn:E; [|discriminate E].
  destruct (wrun ([] ++ [WNew [4; 0; 0; 0]]) world0) as [tr w] eqn:W.
  destruct (F [] [4; 0; 0; 0] s tr w 4 E eq_refl ltac:(lia) W) as [_ G].
  destruct (G _ eq_refl) as (_ & G1 & _). discriminate G1.
Qed.

Lemma C122_blocks_pf : forall b s ops tr s', newAPDU b = Ok s -> apdu_run ops s = (tr, s') ->
  Forall (fun x => match x with
    | ((OpSetIncomingAndReceive | OpReceiveBytes _), Ok (Some n)) => n <= getInBlockSize
    | _ => True end) tr
  /\ forall c, curout s' = Some c -> c <= getOutBlockSize.
Proof.
  intros b s ops tr s' HN HR. split; [|exact (proj1 (C29_limits_partial_pf b s ops tr s' HN HR))].
  eapply Forall_impl; [|exact (C26_counts_partial_pf b s ops tr s' HN HR)].
  intros [o r]. unfold getInBlockSize, IN_BLOCKSIZE. destruct o; auto; destruct r as [[n|]|]; auto; intros; lia.
Qed.

Lemma C122_protocol_pf :
  Z.land getProtocol PROTOCOL_TYPE_MASK = PROTOCOL_T1 /\ Z.land getProtocol PROTOCOL_TYPE_MASK <> PROTOCOL_T0
  /\ Z.land getProtocol PROTOCOL_MEDIA_MASK = PROTOCOL_MEDIA_DEFAULT
  /\ Forall (fun m => Z.land getProtocol PROTOCOL_MEDIA_MASK <> m)
       [PROTOCOL_MEDIA_CONTACTLESS_TYPE_A; PROTOCOL_MEDIA_CONTACTLESS_TYPE_B; PROTOCOL_MEDIA_USB]
  /\ Z.shiftr getProtocol 4 = PROTOCOL_MEDIA_DEFAULT /\ Z.land getProtocol 15 = PROTOCOL_T1.
Proof. repeat split; try (vm_compute; congruence). repeat constructor; vm_compute; discriminate. Qed.
