(** * C125-C126: the constants: proofs *)
From Coq Require Import String.
From Verif Require Import Py S_Base S_Number S_BER L_Py M_utils L_utils M_util L_util M_bertag LP_bertag S_Consts M_consts.
From Coq Require Import ZifyBool ZifyNat.
Open Scope string_scope.


Lemma C125_partial_pf : forall c n v, In (c, n, v) jc_consts ->
  (named_const all_consts c n = Some v <-> own_numbering c n = false)
  /\ named_const all_consts c n <> None.
Proof.
  assert (F : forallb (fun e => let '(c, n, v) := e in
     match named_const all_consts c n with
     | Some w => Bool.eqb (w =? v)%Z (negb (own_numbering c n)) | None => false end) jc_consts = true)
    by (vm_compute; reflexivity).
  intros c n v H. rewrite forallb_forall in F. specialize (F _ H). cbn beta iota in F.
  destruct (named_const all_consts c n) as [w|]; [|discriminate]. split; [|discriminate].
  apply Bool.eqb_prop in F. destruct (Z.eqb_spec w v) as [E|E]; [subst w|]; destruct (own_numbering c n); try discriminate.
  - split; auto.
  - split; congruence.
Qed.

Lemma C125_full_refuted_pf : ~ C125_full (named_const all_consts).
Proof.
  intros F. specialize (F "PINException" "ILLEGAL_VALUE" 1%Z). enough (In ("PINException", "ILLEGAL_VALUE", 1%Z) jc_consts) as H.
  { specialize (F H). vm_compute in F. discriminate. }
  unfold jc_consts. repeat (apply in_app_iff; try (left; left; reflexivity); right).
Qed.

Lemma const_in : forall c n v, named_const all_consts c n = Some v -> In (c, n, v) all_consts.
Proof.
  intros c n v. unfold named_const. generalize all_consts as l. intros l.
  match goal with |- context [find ?f l] => destruct (find f l) as [[[c' n'] v']|] eqn:E end; [|discriminate]. cbn. intros [= ->].
  apply find_some in E as [E1 E2]. apply andb_prop in E2 as [E2 E3]. cbn in E2, E3.
  apply String.eqb_eq in E2, E3. now subst.
Qed.

Lemma C125_distinct_pf : forall c n m v, named_const all_consts c n = Some v -> named_const all_consts c m = Some v ->
  exception_class c = true \/ (c = "ISO7816" /\ prefix "SW_" n = true /\ prefix "SW_" m = true) -> n = m.
Proof.
  assert (F : forallb (fun e => forallb (fun f => let '(c, n, v) := e in let '(d, m, w) := f in
     if String.eqb c d && (v =? w)%Z
        && (exception_class c || (String.eqb c "ISO7816" && prefix "SW_" n && prefix "SW_" m))
     then String.eqb n m else true) all_consts) all_consts = true) by (vm_compute; reflexivity).
  assert (I : forall c n v, named_const all_consts c n = Some v -> In (c, n, v) all_consts).
  { intros c n v. unfold named_const. generalize all_consts as l. intros l.
    match goal with |- context [find ?f l] => destruct (find f l) as [[[c' n'] v']|] eqn:E end; [|discriminate]. cbn. intros [= ->].
    apply find_some in E as [E1 E2]. apply andb_prop in E2 as [E2 E3]. cbn in E2, E3.
    apply String.eqb_eq in E2, E3. now subst. }
  intros c n m v H1 H2 Hc. apply I in H1, H2.
  rewrite forallb_forall in F. specialize (F _ H1). rewrite forallb_forall in F. specialize (F _ H2). cbn beta iota in F.
  rewrite String.eqb_refl, Z.eqb_refl in F.
  assert (B : exception_class c || (String.eqb c "ISO7816" && prefix "SW_" n && prefix "SW_" m) = true).
  { destruct Hc as [->|(-> & -> & ->)]; [reflexivity|]. rewrite String.eqb_refl. apply Bool.orb_true_r. }
  rewrite B in F. cbn [andb] in F. now apply String.eqb_eq.
Qed.

Lemma C125_choices_pf : forall c p, In (c, p) choices -> forall n m v,
  prefix p n = true -> prefix p m = true ->
  named_const all_consts c n = Some v -> named_const all_consts c m = Some v -> n = m.
Proof.
  assert (F : forallb (fun g => let '(k, p) := g in forallb (fun e => let '(c, n, v) := e in
     if String.eqb c k && prefix p n then
       forallb (fun f => let '(d, m, w) := f in
         if String.eqb d k && (v =? w)%Z && prefix p m then String.eqb n m else true) all_consts
     else true) all_consts) choices = true) by (vm_compute; reflexivity).
  intros c p Hg n m v Pn Pm H1 H2. apply const_in in H1, H2.
  rewrite forallb_forall in F. specialize (F _ Hg). cbn beta iota in F.
  rewrite forallb_forall in F. specialize (F _ H1). cbn beta iota in F. rewrite String.eqb_refl, Pn in F. cbn [andb] in F.
  rewrite forallb_forall in F. specialize (F _ H2). cbn beta iota in F. rewrite String.eqb_refl, Z.eqb_refl, Pm in F.
  cbn [andb] in F. now apply String.eqb_eq.
Qed.

Lemma C125_lengths_pf : forall n k v, prefix "LENGTH_" n = true -> number_in_name n = Some k ->
  (named_const all_consts "KeyBuilder" n = Some v -> v = k)
  /\ (named_const all_consts "MessageDigest" n = Some v -> (8 * v)%Z = k).
Proof.
  assert (F : forallb (fun e => let '(c, n, v) := e in
     match number_in_name n with
     | Some k => if prefix "LENGTH_" n then
         (if String.eqb c "KeyBuilder" then (v =? k)%Z else true) && (if String.eqb c "MessageDigest" then (8 * v =? k)%Z else true)
         else true
     | None => true end) all_consts = true) by (vm_compute; reflexivity).
  intros n k v P K. rewrite forallb_forall in F.
  split; intros H; apply const_in in H; specialize (F _ H); cbn beta iota in F; rewrite K, P in F;
    apply andb_prop in F as [F1 F2].
  - rewrite String.eqb_refl in F1. now apply Z.eqb_eq.
  - rewrite String.eqb_refl in F2. now apply Z.eqb_eq.
Qed.

Lemma C125_error_states_pf : forall n v, named_const all_consts "APDU" n = Some v -> prefix "STATE_" n = true ->
  ((v < 0)%Z <-> prefix "STATE_ERROR_" n = true).
Proof.
  assert (F : forallb (fun e => let '(c, n, v) := e in
     if String.eqb c "APDU" && prefix "STATE_" n then Bool.eqb (v <? 0)%Z (prefix "STATE_ERROR_" n) else true) all_consts = true)
    by (vm_compute; reflexivity).
  intros n v H P. apply const_in in H. rewrite forallb_forall in F. specialize (F _ H). cbn beta iota in F.
  rewrite String.eqb_refl, P in F. cbn [andb] in F. apply Bool.eqb_prop in F. rewrite <- F. lia.
Qed.

Lemma C126_refuted_pf : forall name bits, In (name, bits) tag_classes ->
  exists K, named_const all_consts "BERTag" name = Some K
  /\ (forall t n out off os, (t = newPrimitiveBERTag \/ t = newConstructedBERTag) -> 0 <= off ->
        identifier bits (tconstr t) n os -> off + zlen os <= zlen out ->
        exists r out', tag_toBytes (init_class_number t K n) off out = (r, out')
          /\ octets (sub out' (Z.to_nat off) (length os)) <> os)%Z
  /\ (forall k n os arr off, identifier bits k n os -> 0 <= off ->
        octets (sub arr (Z.to_nat off) (length os)) = os ->
        exists t, BERTag_getInstance arr off = Ok t /\ tclass t <> K)%Z.
Proof.
  assert (Q : forall name bits, In (name, bits) tag_classes ->
     exists K, named_const all_consts "BERTag" name = Some K /\ (0 <= K <= 3 /\ 0 <= bits <= 3 /\ K <> bits)%Z).
  { intros name bits H. destruct H as [H|[H|[H|[H|[]]]]]; inversion H; subst; clear H; eexists; (split; [vm_compute; reflexivity|lia]). }
  intros name bits Hin. destruct (Q name bits Hin) as (K & EK & HK & Hb & Hne). exists K. split; [exact EK|]. split.
  - intros t n out off os Ht Ho Hi Hr.
    set (k := tconstr t) in *.
    assert (Hi' : exists os', identifier K k n os' /\ length os' = length os /\ hd 0%Z os' <> hd 0%Z os
        /\ Forall (fun b => 0 <= b <= 255)%Z os').
    { destruct Hi as [Hn|ds d Hn Hd]; eexists; (split; [econstructor; eauto|]); (split; [reflexivity|]); cbn [hd];
        (split; [destruct k; lia|]).
      - repeat constructor; destruct k; lia.
      - constructor; [destruct k; lia|]. destruct Hd as (Hd & _). apply Forall_app in Hd as [Hd1 Hd2].
        apply Forall_app. split; [|inversion Hd2; subst; repeat constructor; lia].
        apply Forall_forall. intros x Hx. apply in_map_iff in Hx as (y & <- & Hy). rewrite Forall_forall in Hd1. specialize (Hd1 y Hy). cbn in Hd1. lia. }
    destruct Hi' as (os' & Hi' & Hl & Hh & Hub).
    pose proof (C39_encode_pf K k n 0%Z os' off out Hi' HK Ho) as E.
    assert (Eg : init_class_number t K n = mkTag K k n 0) by (unfold k; destruct Ht as [-> | ->]; reflexivity).
    rewrite Eg. destruct (tag_toBytes (mkTag K k n 0) off out) as [r out'] eqn:Et.
    exists r, out'. split; [reflexivity|].
    destruct E as (_ & E & _); [unfold zlen in *; lia|]. rewrite <- Hl, E. intros Bad. apply Hh.
    rewrite <- Bad. destruct os' as [|o os']; [destruct os; [inversion Hi|discriminate]|].
    cbn [map octets hd]. pose proof (twos_cong 1 o ltac:(lia)) as T. change (2 ^ (8 * 1))%Z with 256%Z in T.
    rewrite T. inversion Hub; subst. symmetry. apply Z.mod_small. lia.
  - intros k n os arr off Hi Ho Hs.
    destruct (C39_decode_pf bits k n os arr off Hi Hb Ho Hs) as (t & Et & Ec & _).
    exists t. split; [exact Et|]. congruence.
Qed.

Lemma C126_full_refuted_pf : ~ C126_full (named_const all_consts).
Proof.
  intros F. destruct (F "BER_TAG_CLASS_MASK_UNIVERSAL" 0%Z) as (K & EK & _ & H); [left; reflexivity|].
  destruct (H false 1%Z [1%Z] [1%Z] 0%Z) as (t & Et & Ec); [apply (ident_low 0 false 1); lia|lia|reflexivity|].
  vm_compute in EK, Et. assert (K = 3%Z) by congruence. assert (t = mkTag 0 false 1 1) by congruence. subst. discriminate.
Qed.

Lemma C126_partial_pf : forall name bits, In (name, bits) tag_classes ->
  let K := ((bits + 3) mod 4)%Z in
  named_const all_consts "BERTag" name = Some K
  /\ (forall t n out off os, (t = newPrimitiveBERTag \/ t = newConstructedBERTag) -> 0 <= off ->
        identifier K (tconstr t) n os -> off + zlen os <= zlen out ->
        exists out', tag_toBytes (init_class_number t K n) off out = (Ok (zlen os), out')
          /\ sub out' (Z.to_nat off) (length os) = map (twos 1) os)%Z
  /\ (forall k n os arr off, identifier K k n os -> 0 <= off ->
        octets (sub arr (Z.to_nat off) (length os)) = os ->
        exists t, BERTag_getInstance arr off = Ok t /\ tclass t = K)%Z.
Proof.
  intros name bits Hin K.
  assert (HK : (0 <= K <= 3)%Z) by (unfold K; pose proof (Z.mod_pos_bound (bits + 3) 4); lia).
  split; [|split].
  - destruct Hin as [H|[H|[H|[H|[]]]]]; inversion H; subst; vm_compute; reflexivity.
  - intros t n out off os Ht Ho Hi Hr.
    pose proof (C39_encode_pf K (tconstr t) n 0%Z os off out Hi HK Ho Hr) as E.
    assert (Eg : init_class_number t K n = mkTag K (tconstr t) n 0) by (destruct Ht as [-> | ->]; reflexivity).
    rewrite Eg. destruct (tag_toBytes (mkTag K (tconstr t) n 0) off out) as [r out'].
    destruct E as (-> & E & _). exists out'. auto.
  - intros k n os arr off Hi Ho Hs.
    destruct (C39_decode_pf K k n os arr off Hi HK Ho Hs) as (t & Et & Ec & _). exists t. auto.
Qed.
