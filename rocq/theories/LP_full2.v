(** * The violated properties C60-C78: their full statements do not hold: proofs *)
From Verif Require Import Py S_Base S_Number S_Key S_System S_DES S_Cipher L_Py M_utils M_util M_des M_key M_cipher
  M_digest S_Samples M_system S_Full2 LP_des LP_keys.
From Coq Require Import ZifyBool ZifyNat.
Ltac Zify.zify_post_hook ::= Z.div_mod_to_equations.

Definition kd : list Z := [0x13; 0x34; 0x57; 0x79; 0x9B; 0xBC; 0xDF; 0xF1].
Definition c1 (alg mode : Z) : cipher := snd (des_init_default (Some (KDes (the_key 3 64 kd 0))) mode (cipher_new alg)).
Lemma c1_reach alg mode : des_alg alg -> mode = 1 \/ mode = 2 ->
  cipher_reach alg (the_key 3 64 kd 0) mode (repeat 0 8) 0 (c1 alg mode).
Proof.
  intros Ha Hm. exists (cipher_new alg), (c1 alg mode), []. split; [reflexivity|]. split; [|reflexivity].
  destruct Ha as [->|[->|[->| ->]]]; destruct Hm as [->| ->]; vm_compute; reflexivity.
Qed.

Lemma C60_full_refuted_pf : ~ C60_full.
Proof.
  intros H. destruct (H 5 3 64 kd 0 (repeat 0 8) 0 2 (c1 5 2) (repeat 7 8) 0 8 [] 0 0 (repeat 0 16) 0) as (n1 & _ & E);
    [right; right; left; reflexivity|split; [cbn; auto|split; vm_compute; congruence]|lia|vm_compute; congruence
    |apply c1_reach; [right; right; left|right]; reflexivity|try lia; try reflexivity; try (vm_compute; congruence)..|].
  - rewrite Z.add_0_l in E. vm_compute in E. discriminate.
Qed.

Lemma C61_full_refuted_pf : ~ C61_full.
Proof.
  intros H. destruct (H 5 (the_key 3 64 kd 0) 2 (repeat 0 8) 0 (c1 5 2) (Some (KDes (the_key 3 64 kd 0))) 1 [] 0 7 _ _
    (c1_reach 5 2 ltac:(right; right; left; reflexivity) ltac:(auto)) ltac:(vm_compute; reflexivity)
    (repeat 7 8) 0 8 (repeat 0 8) 0) as [_ E]. vm_compute in E. discriminate.
Qed.

Lemma C62_full_refuted_pf : ~ C62_full.
Proof.
  intros H. destruct (H 5 3 64 kd 0 (repeat 0 8) 0 2 (c1 5 2) (repeat 7 8) 0 3 (repeat 0 16) 0) as [E _];
    [right; right; left; reflexivity|reflexivity|split; [cbn; auto|split; vm_compute; congruence]|lia|vm_compute; congruence
    |apply c1_reach; [right; right; left|right]; reflexivity|try lia; try reflexivity; try (vm_compute; congruence)..|].
  - vm_compute in E. discriminate.
Qed.

Lemma C63_full_refuted_pf : ~ C63_full.
Proof.
  intros H. set (ct := DES_bytes kd [1; 2; 3; 4; 5; 6; 7; 5]).
  assert (D : exists d, des_new kd ECB [] [] PAD_PKCS5 = Ok d) by (eexists; vm_compute; reflexivity).
  destruct D as (d & D). destruct (H kd ECB [] d ct) as (e & E).
  - exists d, []. auto.
  - discriminate.
  - vm_compute. repeat constructor; discriminate.
  - vm_compute. discriminate.
  - vm_compute. reflexivity.
  - intros (m & n & Hn & P). vm_compute in P.
    apply (f_equal (@rev Z)) in P. rewrite rev_app_distr in P. cbn [rev app] in P.
    assert (n = 1 \/ n = 2 \/ n = 3 \/ n = 4 \/ n = 5 \/ n = 6 \/ n = 7 \/ n = 8) as C by lia.
    repeat (destruct C as [->|C]); [..|subst n]; cbn in P; discriminate.
  - vm_compute in D. injection D as <-. vm_compute in E. discriminate.
Qed.

Lemma C64_full_refuted_pf : ~ C64_full.
Proof.
  intros H. assert (D : exists d, des_new kd ECB [] [0] PAD_NORMAL = Ok d) by (eexists; vm_compute; reflexivity).
  destruct D as (d & D).
  assert (R : des_reach kd ECB [] [0] PAD_NORMAL d) by (exists d, []; auto).
  assert (B : Forall ubyte [1; 0]) by (repeat constructor; unfold ubyte; lia).
  destruct (H kd ECB [] d [1; 0] 0 R ltac:(discriminate) B ltac:(unfold ubyte; lia)) as (e & d1 & E & F).
  destruct (C64_refuted_pf kd ECB [] d [1; 0] 0 R ltac:(discriminate) B ltac:(unfold ubyte; lia)) as (e' & d1' & m' & E' & F' & G).
  rewrite E in E'. injection E' as <- <-. rewrite F in F'. injection F' as <-.
  destruct (proj1 G eq_refl) as [X|X]; [discriminate|]. apply X. reflexivity.
Qed.

Lemma C65_full_refuted_pf : ~ C65_full.
Proof.
  intros [_ H]. specialize (H (the_key 3 64 kd 0) _ eq_refl). vm_compute in H. discriminate.
Qed.

Lemma C67_full_refuted_pf : ~ C67_full.
Proof.
  intros H. specialize (H X0 16 [SExp [3] 0 1; SMod [251; 0] 0 2; SMod [241; 0] 0 2] [3] [241; 0] [] (mkCipher 12 true (Some 2) None) [10; 0] 0 2 0 [99; 99]
    eq_refl ltac:(intros n e; eexists; reflexivity)).
  specialize (H ltac:(repeat constructor; vm_compute; intuition congruence) eq_refl eq_refl). vm_compute in H. discriminate.
Qed.

Lemma C68_full_refuted_pf : ~ C68_full.
Proof.
  intros H. destruct (H X0 16 1 _ _ _ 0 (repeat 0 (Z.to_nat 4000)) eq_refl eq_refl eq_refl eq_refl eq_refl eq_refl ltac:(lia) ltac:(vm_compute; congruence))
    as (db & nb & E & _ & G & _).
  match type of E with ?l = _ =>
    assert (Q : fst l = Ok 1) by (vm_compute; reflexivity); assert (J : nth 0 (snd l) 9 = 1) by (vm_compute; reflexivity)
  end.
  rewrite E in Q, J. cbn [fst snd] in Q, J. injection Q as Q.
  destruct db as [|b [|b' db]]; try discriminate; [|unfold zlen in Q; cbn [length] in Q; lia].
  cbn in J. subst b. vm_compute in G. destruct G as [G|G]; discriminate.
Qed.

Lemma C70_full_refuted_pf : ~ C70_full.
Proof. intros [H _]. specialize (H 17 ltac:(lia)). vm_compute in H. discriminate. Qed.

Lemma C71_full_refuted_pf : ~ C71_full.
Proof. intros H. exact (H 15 128 0). Qed.

Lemma C72_full_refuted_pf : ~ C72_full.
Proof.
  intros (_ & H & _). destruct (H X0 16 (mkPair None None (pubkey_new 16) (privkey_new 16)) _ eq_refl eq_refl ltac:(right; reflexivity)) as (s' & E & _).
  vm_compute in E. discriminate.
Qed.

Lemma C74_full_refuted_pf : ~ C74_full.
Proof.
  intros H. destruct (H H0 (mkDigest 1 []) [1] 0 2 0 [] ltac:(lia) ltac:(cbn; lia)) as [E _]. vm_compute in E. discriminate.
Qed.

Lemma C75_full_refuted_pf : ~ C75_full.
Proof.
  intros H. destruct (H (fun _ => 0) [0] 0 2 ltac:(intros; unfold anybyte; lia)) as (_ & _ & E).
  specialize (E ltac:(lia) ltac:(cbn; lia)). vm_compute in E. discriminate.
Qed.

Lemma C76_full_refuted_pf : ~ C76_full.
Proof.
  intros H. destruct (H 0 _ [] None 1 eq_refl) as (_ & _ & E). specialize (E ltac:(vm_compute; congruence) 7 ltac:(lia)).
  vm_compute in E. discriminate.
Qed.

Lemma C77_full_refuted_pf : ~ C77_full.
Proof. intros H. destruct (H unit unit (ret tt) tt) as (_ & (r & E) & _). vm_compute in E. discriminate. Qed.

Lemma C78_full_refuted_pf : ~ C78_full.
Proof. intros H. destruct (H (-1) 0 1) as ((e & E) & _). discriminate. Qed.
