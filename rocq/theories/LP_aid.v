(** * C18-C21: AID: proofs *)
From Verif Require Import Py S_Base L_Py M_aid.
From Coq Require Import ZifyBool ZifyNat.
Ltac Zify.zify_post_hook ::= Z.div_mod_to_equations.


Lemma py_slice_len {A} (l : list A) a b : 
  zlen (py_slice l a b) = Z.max 0 (py_clamp (zlen l) b - py_clamp (zlen l) a).
Proof.
  unfold py_slice. unfold zlen at 1. rewrite firstn_length, skipn_length.
  unfold py_clamp. pose proof (zlen_nonneg l). unfold zlen in *.
  destruct (Z.ltb_spec a 0); destruct (Z.ltb_spec b 0); lia.
Qed.

Lemma py_slice0 {A} (l : list A) n : 0 <= n -> py_slice l 0 n = firstn (Z.to_nat n) l.
Proof.
  intros H. unfold py_slice, py_clamp. pose proof (zlen_nonneg l).
  replace (0 <? 0) with false by lia. replace (n <? 0) with false by lia.
  rewrite (Z.min_l 0) by lia. rewrite Z.sub_0_r. cbn [Z.to_nat skipn].
  destruct (Z.le_ge_cases n (zlen l)).
  - now rewrite Z.min_l by lia.
  - rewrite Z.min_r by lia. rewrite !firstn_all2; auto; unfold zlen in *; lia.
Qed.

Lemma C18_constructor_pf : forall b off len, 0 <= off ->
  ((exists a, newAID b off len = Ok a) <-> (5 <= len <= 16 /\ off + len <= zlen b))
  /\ (forall a, newAID b off len = Ok a -> a = sub b (Z.to_nat off) (Z.to_nat len) /\ zlen a = len).
Proof.
  intros b off len Ho. unfold newAID.
  destruct ((len <? 5) || (16 <? len)) eqn:E1.
  { split; [split|]; [intros [a H]; discriminate|lia|discriminate]. }
  destruct (Z.ltb_spec (zlen b) (off + len)) as [E2|E2].
  { split; [split|]; [intros [a H]; discriminate|lia|discriminate]. }
  split; [split; eauto; intros _; lia|].
  intros a [= <-]. rewrite py_slice_in by lia. replace (off + len - off) with len by lia.
  split; [reflexivity|]. unfold zlen. rewrite sub_length; unfold zlen in *; lia.
Qed.

Lemma C18_getBytes_pf : forall (a dest : list Z) off, 0 <= off ->
  getBytes a off dest =
  if off + zlen a <=? zlen dest
  then (Ok (zlen a), splice dest (Z.to_nat off) a)
  else (Err ArrayIndexOutOfBounds, dest).
Proof.
  intros a dest off Ho. unfold getBytes. pose proof (zlen_nonneg a).
  destruct (Z.leb_spec (off + zlen a) (zlen dest)) as [H1|H1].
  - replace (zlen dest <? off + zlen a) with false by lia. f_equal.
    apply py_slice_set_in; lia.
  - now replace (zlen dest <? off + zlen a) with true by lia.
Qed.

Lemma C18_equals_pf : forall (a c : list Z) off len, 0 <= off -> 0 <= len ->
  (off + len <= zlen c ->
     exists r, equals a c off len = Ok r /\ (r = true <-> a = sub c (Z.to_nat off) (Z.to_nat len)))
  /\ (zlen c < off + len -> equals a c off len = Err ArrayIndexOutOfBounds).
Proof.
  intros a c off len Ho Hl. unfold equals. split; intros H.
  - replace (zlen c <? off + len) with false by lia. eexists; split; [reflexivity|].
    rewrite list_eqb_eq. rewrite py_slice_in by lia. replace (off + len - off) with len by lia. reflexivity.
  - now replace (zlen c <? off + len) with true by lia.
Qed.

Lemma C18_roundtrip_pf : forall b off len a dest doff,
  0 <= off -> 0 <= doff -> newAID b off len = Ok a -> doff + len <= zlen dest ->
  exists dest', getBytes a doff dest = (Ok len, dest')
  /\ equals a dest' doff len = Ok true /\ newAID dest' doff len = Ok a.
Proof.
  intros b off len a dest doff Ho Hd Ha Hb.
  destruct (C18_constructor_pf b off len Ho) as [X Y].
  assert (R : 5 <= len <= 16 /\ off + len <= zlen b) by (apply X; eauto).
  destruct (Y a Ha) as [Ea La]. rewrite C18_getBytes_pf by assumption. rewrite La.
  replace (doff + len <=? zlen dest) with true by lia.
  eexists; split; [reflexivity|].
  assert (Ln : zlen (splice dest (Z.to_nat doff) a) = zlen dest)
    by (unfold zlen; rewrite splice_length; unfold zlen in *; lia).
  assert (Es : py_slice (splice dest (Z.to_nat doff) a) doff (doff + len) = a).
  { rewrite py_slice_in by lia. apply sub_splice; unfold zlen in *; lia. }
  unfold equals, newAID. rewrite Ln, Es, list_eqb_refl.
  replace (zlen dest <? doff + len) with false by lia.
  replace ((len <? 5) || (16 <? len)) with false by lia. auto.
Qed.

Lemma C19_equality_pf : forall a b c : list Z,
  aid_eq a a = true
  /\ aid_eq a b = aid_eq b a
  /\ (aid_eq a b = true -> aid_eq b c = true -> aid_eq a c = true)
  /\ (aid_eq a b = true <-> a = b)
  /\ (RIDEquals a b = true <-> firstn 5 a = firstn 5 b)
  /\ (aid_eq a b = true -> RIDEquals a b = true).
Proof.
  intros a b c. unfold aid_eq, RIDEquals. rewrite !py_slice0 by lia. rewrite !list_eqb_eq.
  change (Z.to_nat 5) with 5%nat.
  split; [reflexivity|]. split; [apply list_eqb_sym|]. split; [congruence|].
  split; [reflexivity|]. split; [reflexivity|]. congruence.
Qed.

Lemma C19_eq_getBytes_pf : forall a b dest : list Z,
  zlen a <= zlen dest -> zlen b <= zlen dest ->
  (aid_eq a b = true <-> getBytes a 0 dest = getBytes b 0 dest).
Proof.
  intros a b dest Ha Hb. rewrite !C18_getBytes_pf by lia.
  replace (0 + zlen a <=? zlen dest) with true by lia.
  replace (0 + zlen b <=? zlen dest) with true by lia.
  unfold aid_eq. rewrite list_eqb_eq. split; [intros ->; reflexivity|].
  intros E. injection E as El Es.
  assert (Hs : forall x, zlen x <= zlen dest -> sub (splice dest 0 x) 0 (Z.to_nat (zlen x)) = x).
  { intros x Hx. apply sub_splice; unfold zlen in *; lia. }
  rewrite <- (Hs a Ha), <- (Hs b Hb), El. change (Z.to_nat 0) with 0%nat in Es. now rewrite Es.
Qed.

Lemma C19_prefixes_pf : forall (a c : list Z) off n, 0 <= off -> 0 <= n ->
  (n <= zlen a -> off + n <= zlen c ->
     exists r, partialEquals a c off n = Ok r
       /\ (r = true <-> firstn (Z.to_nat n) a = sub c (Z.to_nat off) (Z.to_nat n)))
  /\ (zlen a < n \/ zlen c < off + n -> partialEquals a c off n = Err ArrayIndexOutOfBounds).
Proof.
  intros a c off n Ho Hn. unfold partialEquals. split.
  - intros H1 H2. replace (zlen a <? n) with false by lia. replace (zlen c <? off + n) with false by lia.
    eexists; split; [reflexivity|]. rewrite list_eqb_eq, py_slice0, py_slice_in by lia.
    replace (off + n - off) with n by lia. reflexivity.
  - intros H. destruct (Z.ltb_spec (zlen a) n); [reflexivity|].
    now replace (zlen c <? off + n) with true by lia.
Qed.

Lemma C20_getPartialBytes_refuted_pf : forall (a dest : list Z) aoff off len,
  let n := if len =? 0 then zlen a else len in
  off + n <= zlen dest -> aoff + n <= zlen a ->
  getPartialBytes a aoff off len dest = (Err NameError, dest).
Proof.
  intros a dest aoff off len n H1 H2. unfold getPartialBytes. fold n.
  replace (zlen dest <? off + n) with false by lia.
  now replace (zlen a <? aoff + n) with false by lia.
Qed.

Lemma C20_getPartialBytes_partial_pf : forall (a dest : list Z) aoff off len,
  let n := if len =? 0 then zlen a else len in
  (zlen dest < off + n \/ zlen a < aoff + n ->
     getPartialBytes a aoff off len dest = (Err ArrayIndexOutOfBounds, dest))
  /\ snd (getPartialBytes a aoff off len dest) = dest
  /\ is_ok (fst (getPartialBytes a aoff off len dest)) = false.
Proof.
  intros a dest aoff off len n. unfold getPartialBytes. fold n. split; [intros H|].
  - destruct (Z.ltb_spec (zlen dest) (off + n)); [reflexivity|].
    now replace (zlen a <? aoff + n) with true by lia.
  - destruct (_ <? _); [auto|]. destruct (_ <? _); auto.
Qed.

Lemma C21_size_refuted_pf : forall (b : list Z) off, -5 <= off <= -1 -> 10 <= zlen b ->
  newAID b off 5 = Ok [].
Proof.
  intros b off H Hb. unfold newAID. cbn [Z.ltb orb]. replace ((5 <? 5) || (16 <? 5)) with false by lia.
  replace (zlen b <? off + 5) with false by lia. f_equal.
  pose proof (py_slice_len b off (off + 5)) as E.
  assert (Hz : zlen (py_slice b off (off + 5)) = 0).
  { rewrite E. unfold py_clamp. replace (off <? 0) with true by lia. replace (off + 5 <? 0) with false by lia. lia. }
  destruct (py_slice b off (off + 5)); [reflexivity|]. rewrite zlen_cons in Hz. pose proof (zlen_nonneg l). lia.
Qed.

Lemma C21_size_partial_pf : forall (b a : list Z) off len, newAID b off len = Ok a ->
  zlen a <= 16
  /\ (0 <= off -> 5 <= zlen a <= 16)
  /\ (- zlen b <= off -> off + len < 0 -> 5 <= zlen a <= 16).
Proof.
  intros b a off len H. unfold newAID in H.
  destruct ((len <? 5) || (16 <? len)) eqn:E1; [discriminate|].
  destruct (Z.ltb_spec (zlen b) (off + len)) as [E2|E2]; [discriminate|].
  injection H as <-. rewrite py_slice_len. unfold py_clamp. pose proof (zlen_nonneg b).
  destruct (Z.ltb_spec off 0); destruct (Z.ltb_spec (off + len) 0); lia.
Qed.
