(** * The violated properties C05-C51: their full statements do not hold: proofs *)
From Verif Require Import Py S_Base S_Number S_APDU L_Py M_utils M_util M_ownerpin S_OwnerPIN M_aid
  M_apdu S_ApduObs M_bignumber S_BigNumber M_jcint S_BER M_bertag M_bertlv S_TLV S_Full1 LP_bertlv LP_apdu.
From Coq Require Import ZifyBool ZifyNat.
Ltac Zify.zify_post_hook ::= Z.div_mod_to_equations.

Ltac cmp := vm_compute; repeat split; try discriminate; try lia.
Ltac bytes := repeat constructor; unfold anybyte, ubyte, sbyte; lia.

Lemma C05_full_refuted_pf : ~ C05_full.
Proof.
  intros H. specialize (H 0%nat 0 1 2 (fun _ => [1; 2; 3]) ltac:(lia) ltac:(lia) ltac:(lia) ltac:(cbn; lia) ltac:(cbn; lia)).
  vm_compute in H. discriminate.
Qed.

Lemma C06_full_refuted_pf : ~ C06_full.
Proof.
  intros H. specialize (H 0%nat 0 1%nat 0 2 (fun k => match k with O => [1] | _ => [7; 7] end) _ _ (surjective_pairing _)).
  vm_compute in H. discriminate.
Qed.

Lemma C08_full_refuted_pf : ~ C08_full.
Proof.
  intros (_ & _ & _ & H & _). specialize (H [1; 2] (-2) ltac:(lia)). vm_compute in H. discriminate.
Qed.

Lemma C09_full_refuted_pf : ~ C09_full.
Proof.
  intros H. destruct (H 0%nat 0 1%nat 0 2 (fun k => [1]) ltac:(lia) ltac:(lia) ltac:(lia)) as [_ G].
  specialize (G ltac:(cbn; lia)). vm_compute in G. discriminate.
Qed.

Lemma C13_full_refuted_pf : ~ C13_full.
Proof.
  intros H. destruct (H (PStr [49; 50; 51]) 0 3 (mkPIN 3 3 2 [49; 50] false) ltac:(cbn; lia) ltac:(reflexivity)) as [G _];
    vm_compute in *; congruence.
Qed.

Lemma C14_full_refuted_pf : ~ C14_full.
Proof.
  intros H. specialize (H (newOwnerPIN 3 8) (PArr [1; 2; 3; 4]) 0 4 (PArr [1; 9; 9; 9]) 0 4 ltac:(reflexivity)
    ltac:(unfold proper; cbn; lia) ltac:(unfold proper; cbn; lia)).
  specialize (H ltac:(vm_compute; reflexivity) ltac:(vm_compute; reflexivity)).
  destruct H as [H _]. specialize (H ltac:(vm_compute; reflexivity)). vm_compute in H. discriminate.
Qed.

Lemma C15_full_refuted_pf : ~ C15_full.
Proof.
  intros H. specialize (H (PStr [49]) 0 1 (newOwnerPIN 3 4) _ ltac:(vm_compute; reflexivity)). vm_compute in H. discriminate.
Qed.

Lemma C20_full_refuted_pf : ~ C20_full.
Proof.
  intros H. specialize (H [1; 2; 3; 4; 5] [0; 0] 1 0 2 ltac:(cmp) ltac:(lia) ltac:(lia) ltac:(cmp) ltac:(cmp)).
  vm_compute in H. discriminate.
Qed.

Lemma C21_full_refuted_pf : ~ C21_full.
Proof.
  intros H. specialize (H [0; 1; 2; 3; 4; 5; 6; 7; 8; 9] (-5) 5 [] ltac:(reflexivity)). cbn in H. lia.
Qed.

Lemma C24_full_refuted_pf : ~ C24_full.
Proof.
  intros H. destruct (H [0; 0; 0; 0; 0; 0; 1; 9] (Case3E [9])) as (s & E & D).
  - split; [repeat constructor; unfold ubyte; lia|cbn; lia].
  - reflexivity.
  - split; [bytes|]. exists 0, 0, 0, 0. reflexivity.
  - destruct D as (_ & _ & _ & _ & D). vm_compute in E. injection E as <-. apply D. vm_compute. reflexivity.
Qed.

Lemma C26_full_refuted_pf : ~ C26_full.
Proof.
  intros H. specialize (H [0; 0; 0; 0; 9] _ [OpSetIncomingAndReceive] _ _ ltac:(vm_compute; reflexivity) ltac:(vm_compute; reflexivity)).
  inversion H as [|? ? G _]. cbn in G. lia.
Qed.

Lemma C28_full_refuted_pf : ~ C28_full.
Proof.
  intros H. specialize (H [0; 0; 0; 0; 9] _ [OpSetOutgoing; OpSetOutgoingLength 2] _ _ ltac:(vm_compute; reflexivity) ltac:(vm_compute; reflexivity)).
  destruct H as (_ & _ & H & _). specialize (H ltac:(do 2 eexists; right; left; reflexivity) 2). vm_compute in H. discriminate.
Qed.

Lemma C29_full_refuted_pf : ~ C29_full.
Proof.
  intros H. specialize (H [0; 0; 0; 0; 9] _ [OpSetOutgoing; OpSetOutgoingLength 2; OpSendBytes 0 3] _ _ 2 ltac:(vm_compute; reflexivity) ltac:(vm_compute; reflexivity)).
  destruct H as [H _].
  - intros m r [E|[E|[E|[]]]]; congruence.
  - eexists. right; left; reflexivity.
  - intros (b & m & [E|[E|[E|[]]]]); discriminate.
  - cbn in H. lia.
Qed.

Lemma C30_full_refuted_pf : ~ C30_full.
Proof.
  intros H. destruct C30_cla_refuted_pf as (raw & s & ops & tr & s' & E & R & _ & D & _).
  destruct (H raw s ops tr s' E R) as [G _]. congruence.
Qed.

Lemma C31_full_refuted_pf : ~ C31_full.
Proof.
  intros H. destruct (C31_six_bytes_refuted_pf [0; 0; 0; 0; 0; 0] eq_refl eq_refl) as [E N].
  destruct (H [0; 0; 0; 0; 0; 0] ltac:(cbn; lia) ltac:(bytes) N) as (s & G & _). congruence.
Qed.

Lemma C34_full_refuted_pf : ~ C34_full.
Proof.
  intros H. specialize (H None 3 (Some [5]) 0 1 2 ltac:(exists [5]; cbn; repeat split; lia) ltac:(lia) ltac:(vm_compute; reflexivity)).
  vm_compute in H. discriminate.
Qed.

Lemma C35_full_refuted_pf : ~ C35_full.
Proof.
  intros H. specialize (H [255] 0 1 (mkBig None None) ltac:(lia) ltac:(lia) ltac:(cbn; lia)).
  specialize (H ltac:(exists 255; split; [left; reflexivity|left; reflexivity])). vm_compute in H. discriminate.
Qed.

Lemma C36_full_refuted_pf : ~ C36_full.
Proof.
  intros H. destruct (H 1 _ 0 (Some [1; 0]) 0 2 2 ltac:(reflexivity) ltac:(lia) ltac:(exists [1; 0]; cbn; repeat split; lia)) as [G _].
  specialize (G ltac:(vm_compute; discriminate)). vm_compute in G. discriminate.
Qed.

Lemma C37_full_refuted_pf : ~ C37_full.
Proof.
  intros H. specialize (H (OpInit (Some [1]) 0 2 2) (mkBig None (Some 77)) _ _ ltac:(vm_compute; reflexivity)). discriminate.
Qed.

Lemma C38_full_refuted_pf : ~ C38_full.
Proof.
  intros H. destruct (H [0; 0; 0; 0] 0 0 128 ltac:(lia) ltac:(cbn; lia) ltac:(lia) ltac:(lia)) as (bs & a' & E & _ & _ & _ & _ & G & _).
  vm_compute in E. injection E as <-. vm_compute in G. discriminate.
Qed.

Lemma C40_full_refuted_pf : ~ C40_full.
Proof.
  intros H. destruct (H 0 false 5 [5] [5] 0 (ident_low 0 false 5 ltac:(lia)) ltac:(lia) ltac:(lia) eq_refl) as [_ G].
  vm_compute in G. discriminate.
Qed.

Lemma C41_full_refuted_pf : ~ C41_full.
Proof.
  intros H. specialize (H 0 false 5 1 [5] 0 [0; 200] 1%nat (ident_low 0 false 5 ltac:(lia)) ltac:(lia) ltac:(lia) ltac:(cbn; lia) ltac:(cbn; lia) ltac:(cbn; lia)).
  vm_compute in H. discriminate.
Qed.

(** 5f 24 01 07: class 1, number 36, one value byte *)
Lemma high_tlv : is_tlv 1 false 36 [7] [0x5f; 0x24; 1; 7].
Proof.
  split; [lia|]. exists [0x5f; 0x24], [1]. split; [|split; [apply (len_short 1); lia|reflexivity]].
  apply (ident_high 1 false 36 [] 36); [lia|]. split; [repeat constructor; lia|]. split; [reflexivity|cbn; lia].
Qed.

Lemma C42_full_refuted_pf : ~ C42_full.
Proof.
  intros H. destruct (H 1 false 36 [7] [0x5f; 0x24; 1; 7] [0x5f; 0x24; 1; 7] 0 high_tlv ltac:(lia) ltac:(bytes) ltac:(reflexivity)) as (t & E & D & _).
  vm_compute in E. injection E as <-. destruct D as (_ & _ & D & _). vm_compute in D. discriminate.
Qed.

Lemma C43_full_refuted_pf : ~ C43_full.
Proof.
  intros H. destruct (H 1 false 36 [7] [0x5f; 0x24; 1; 7] [0x5f; 0x24; 1; 7] 0 _ [0; 0; 0; 0] 0 high_tlv ltac:(lia) ltac:(bytes) ltac:(reflexivity)
    ltac:(vm_compute; reflexivity) ltac:(lia) ltac:(cbn; lia)) as (ws & _ & D).
  vm_compute in D. discriminate.
Qed.

Lemma C44_full_refuted_pf : ~ C44_full.
Proof.
  intros H.
  set (ws := [mkW 1 false 36 [7] [0x5f; 0x24; 1; 7]; mkW 0 false 5 [9] [5; 1; 9]]).
  destruct (H ws (mkTLV true None (zlen (concat (map w_bs ws))) (Some (concat (map w_bs ws)))) (mkTag 0 false 5 1)) as [(fuel & r & E & D) _].
  - constructor; [|constructor; [|constructor]].
    + split; [exact high_tlv|bytes].
    + split; [|bytes]. split; [cbn; lia|]. exists [5], [1]. split; [apply (ident_low 0 false 5); lia|].
      split; [apply (len_short 1); lia|reflexivity].
  - reflexivity.
  - reflexivity.
  - destruct fuel as [|[|fuel]]; [vm_compute in E; discriminate..|].
    vm_compute in E. injection E as <-. exact D.
Qed.

Lemma C45_full_refuted_pf : ~ C45_full.
Proof.
  intros H. assert (Sm : Forall simple [(1, [7])]) by (repeat constructor; cbn; try lia; unfold anybyte; cbn; lia).
  destruct (H [(1, [7])] (mkTLV true None 3 (Some [1; 1; 7])) None (tag_of 1) [7] (tlv_of (1, [7])) 1 Sm eq_refl eq_refl eq_refl eq_refl ltac:(lia)) as (fuel & E).
  destruct fuel as [|[|fuel]]; [vm_compute in E; discriminate..|].
  destruct (C45_refuted_pf [(1, [7])] (mkTLV true None 3 (Some [1; 1; 7])) (tag_of 1) [7] (tlv_of (1, [7])) 1 (S (S fuel)) Sm eq_refl eq_refl ltac:(cbn; lia) eq_refl eq_refl ltac:(lia)) as [G' _].
  rewrite G' in E by reflexivity. discriminate.
Qed.

Lemma C46_full_refuted_pf : ~ C46_full.
Proof.
  intros H. destruct C46_refuted_pf as (self & N). destruct (H self (Some (mkTag 0 false 2 1))) as (fuel & F).
  apply F, N. reflexivity.
Qed.

Lemma C47_full_refuted_pf : ~ C47_full.
Proof.
  intros H. destruct (H (init_class_number newPrimitiveBERTag 0 5) [5] [1] [7] false (mkTLV true None 0 (Some [])) [] ltac:(cbn; lia)
    (ident_low 0 false 5 ltac:(lia)) (len_short 1 ltac:(lia)) ltac:(left; cbn; lia) ltac:(bytes) eq_refl) as (r & self' & bs & E & _).
  vm_compute in E. discriminate.
Qed.

Lemma C48_full_refuted_pf : ~ C48_full.
Proof.
  intros H. destruct (H 0 false 5 [9] [5; 1; 9] [5; 1; 9] 0 (newTLV false)) as (r & self' & E & D).
  - split; [lia|]. exists [5], [1]. split; [apply (ident_low 0 false 5); lia|]. split; [apply (len_short 1); lia|reflexivity].
  - lia.
  - bytes.
  - reflexivity.
  - reflexivity.
  - vm_compute in E. injection E as <- <-. destruct D as (_ & _ & D & _). discriminate.
Qed.

Lemma C49_full_refuted_pf : ~ C49_full.
Proof.
  intros H. destruct (H [] 0x21 [] (1, [7]) [(2, [8])] [] [2] 0 (tag_of 2)) as (fuel & r & E & D).
  - repeat constructor; cbn; try lia; unfold anybyte; cbn; lia.
  - reflexivity.
  - repeat constructor; cbn; try lia; unfold anybyte; cbn; lia.
  - reflexivity.
  - apply C49_refuted_pf in E. subst r. destruct D as [(_ & F)|(l2 & ch2 & l3 & _ & _ & _ & F)].
    + inversion F as [|? ? G _]. vm_compute in G. discriminate.
    + unfold zlen in F. cbn [length] in F. lia.
Qed.

Lemma C51_full_refuted_pf : ~ C51_full.
Proof.
  intros H. destruct (H (mkTLV false None 1 (Some [9])) [1; 2; 3] 2 2 [] 0 ltac:(lia)) as [_ G].
  specialize (G _ _ ltac:(vm_compute; reflexivity)). discriminate.
Qed.
