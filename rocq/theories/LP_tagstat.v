(** * C103: static functions of BERTag, unambiguous encodings: proofs *)
From Verif Require Import Py S_Base S_Number S_BER S_TagStat L_Py M_utils L_utils M_util L_util M_bertag LP_bertag.
From Coq Require Import ZifyBool ZifyNat.
Ltac Zify.zify_post_hook ::= Z.div_mod_to_equations.


Lemma C103_statics_pf : forall c k n os, identifier c k n os -> 0 <= c <= 3 ->
  (forall arr off, 0 <= off -> octets (sub arr (Z.to_nat off) (length os)) = os ->
     tag_isConstructedStatic arr off = Ok k /\ tag_tagClassStatic arr off = Ok c /\ tag_tagNumberStatic arr off = Ok n)
  /\ (forall off out, 0 <= off -> off + zlen os <= zlen out ->
     tag_toBytesStatic c k n off out = (Ok (zlen os), splice (map s1 out) (Z.to_nat off) (map (twos 1) os))).
Proof.
  intros c k n os I C. split.
  - intros arr off O OC. destruct (C39_decode_pf c k n os arr off I C O OC) as (t & E & <- & <- & <-).
    unfold tag_isConstructedStatic, tag_tagClassStatic, tag_tagNumberStatic. rewrite E. repeat split.
  - intros off out O L. unfold tag_toBytesStatic, init_class_number. destruct k; apply toBytes_exact; assumption.
Qed.

Lemma C103_size_refuted_pf : forall a off,
  (forall e, tag_sizeStatic a off = Err e <-> e = IndexError /\ BERTag_getInstance a off = Err ArrayIndexOutOfBounds)
  /\ (forall e, tag_tagClassStatic a off = Err e -> e = ArrayIndexOutOfBounds).
Proof.
  intros a off. split.
  - intros e. unfold tag_sizeStatic. destruct (BERTag_init a off) as [t|e'] eqn:I; cbn [rmap].
    + split; [discriminate|]. intros [_ H]. unfold BERTag_init in I. destruct (py_get a off) as [b|e'] eqn:G; [|discriminate].
      rewrite (getInstance_init a off t b G) in H; [discriminate|]. unfold BERTag_init. rewrite G. exact I.
    + pose proof (BERTag_init_err a off e' I) as ->. split; [|intros [-> _]; reflexivity].
      intros E. injection E as <-. split; [reflexivity|].
      unfold BERTag_getInstance, Constructed_init_bytes, Primitive_init_bytes.
      destruct (py_get a off) as [b|e'] eqn:G; cbn [rbind].
      * destruct (constr_bit b) as [[-> ->] | [-> ->]]; cbn; rewrite I; reflexivity.
      * unfold BERTag_init in I. rewrite G in I. cbn [rbind] in I. injection I as ->. reflexivity.
  - intros e. unfold tag_tagClassStatic. destruct (BERTag_getInstance a off) as [t|e'] eqn:I; cbn [rmap]; [discriminate|].
    intros E. injection E as <-. apply (C50_getInstance_errors_pf a off). exact I.
Qed.

Lemma land_31 x : Z.land x 31 = x mod 32.
Proof. change 31 with (Z.ones 5). rewrite Z.land_ones by lia. reflexivity. Qed.
Lemma land_128 x : (Z.land x 128 =? 128) = (128 <=? x mod 256).
Proof.
  assert (E : Z.land x 128 = Z.land (x mod 256) 128).
  { change 256 with (2 ^ 8). rewrite <- Z.land_ones by lia. rewrite <- Z.land_assoc. reflexivity. }
  rewrite E. assert (U : 0 <= x mod 256 < 256) by (apply Z.mod_pos_bound; lia).
  destruct (octet_bits (x mod 256)) as (-> & _); [lia|]. remember (x mod 256) as u. clear - U. lia.
Qed.
Lemma skipn_py_get (a : list Z) i : 0 <= i ->
  (skipn (Z.to_nat i) a = [] /\ py_get a i = Err IndexError)
  \/ exists x, skipn (Z.to_nat i) a = x :: skipn (Z.to_nat (i + 1)) a /\ py_get a i = Ok x.
Proof.
  intros I. destruct (Z.lt_ge_cases i (zlen a)) as [L|L].
  - right. exists (nth (Z.to_nat i) a 0). split; [|apply py_get_in; lia].
    replace (Z.to_nat (i + 1)) with (S (Z.to_nat i)) by lia. unfold zlen in L.
    assert (L' : (Z.to_nat i < length a)%nat) by lia. clear - L'. revert L'. generalize (Z.to_nat i) as k.
    induction a as [|y a IH]; intros k L; [cbn in L; lia|]. destruct k; [reflexivity|]. cbn [skipn nth]. apply IH. cbn in L; lia.
  - left. split; [apply skipn_all2; unfold zlen in L; lia|apply py_get_out; lia].
Qed.
Lemma tag_loop_exact a off : forall fuel num bLen, 0 <= off + bLen -> (length (skipn (Z.to_nat (off + bLen)) a) < fuel)%nat ->
  (Forall (fun x => 128 <= x mod 256) (skipn (Z.to_nat (off + bLen)) a) -> tag_loop fuel a off num bLen = Err IndexError)
  /\ (~ Forall (fun x => 128 <= x mod 256) (skipn (Z.to_nat (off + bLen)) a) ->
      exists n l x, tag_loop fuel a off num bLen = Ok (n, l) /\ py_get a (off + l) = Ok x).
Proof.
  induction fuel as [|fuel IH]; intros num bLen O L; [lia|]. cbn [tag_loop].
  destruct (skipn_py_get a (off + bLen) O) as [[E G]|(x & E & G)]; rewrite E, G in *; cbn [rbind].
  - split; [reflexivity|]. intros H. destruct H. constructor.
  - rewrite land_128. cbn [length] in L. replace (off + bLen + 1) with (off + (bLen + 1)) in * by lia.
    destruct (128 <=? x mod 256) eqn:B.
    + destruct (IH (Z.shiftl num 7 + Z.land x 127) (bLen + 1)) as [I1 I2]; [lia|lia|]. split; intros H.
      * inversion H; subst. apply I1. assumption.
      * apply I2. intros F. apply H. constructor; [apply Z.leb_le; exact B|exact F].
    + split; intros H; [|exists num, bLen, x; auto].
      inversion H as [|y l Y _]; subst. apply Z.leb_le in Y. congruence.
Qed.

Lemma C103_truncated_pf : forall a off, 0 <= off ->
  (unfinished (skipn (Z.to_nat off) a) ->
     tag_isConstructedStatic a off = Err ArrayIndexOutOfBounds /\ tag_tagClassStatic a off = Err ArrayIndexOutOfBounds
     /\ tag_tagNumberStatic a off = Err ArrayIndexOutOfBounds /\ tag_sizeStatic a off = Err IndexError)
  /\ (~ unfinished (skipn (Z.to_nat off) a) ->
     exists k c n s, tag_isConstructedStatic a off = Ok k /\ tag_tagClassStatic a off = Ok c
       /\ tag_tagNumberStatic a off = Ok n /\ tag_sizeStatic a off = Ok s).
Proof.
  intros a off O.
  assert (K : (unfinished (skipn (Z.to_nat off) a) -> BERTag_init a off = Err IndexError)
    /\ (~ unfinished (skipn (Z.to_nat off) a) -> exists b t, py_get a off = Ok b /\ BERTag_init a off = Ok t)).
  { unfold BERTag_init. destruct (skipn_py_get a off O) as [[E G]|(x & E & G)]; rewrite E, G; cbn [rbind].
    - split; [reflexivity|]. intros H. destruct H. left; reflexivity.
    - rewrite land_31.
      destruct (tag_loop_exact a off (tag_fuel a off) 0 1) as [T1 T2]; [lia| |].
      { rewrite skipn_length. unfold tag_fuel, zlen. apply (f_equal (@length Z)) in E. rewrite skipn_length in E. cbn [length] in E. lia. }
      split; intros H.
      + destruct H as [H|(b & rest & H & B & F)]; [discriminate|]. injection H as <- <-. rewrite B. cbn [Z.eqb Pos.eqb].
        rewrite (T1 F). reflexivity.
      + destruct (x mod 32 =? 31) eqn:B; [|eauto].
        destruct T2 as (n & l & y & -> & Y).
        { intros F. apply H. right. exists x. eexists. split; [reflexivity|]. split; [apply Z.eqb_eq; exact B|exact F]. }
        cbn [rbind]. rewrite Y. cbn [rbind]. eauto. }
  destruct K as [K1 K2]. destruct (C103_size_refuted_pf a off) as [R _].
  unfold tag_isConstructedStatic, tag_tagClassStatic, tag_tagNumberStatic. split; intros H.
  - specialize (K1 H). assert (S : tag_sizeStatic a off = Err IndexError) by (unfold tag_sizeStatic; rewrite K1; reflexivity).
    destruct (proj1 (R IndexError) S) as [_ ->]. repeat split. exact S.
  - destruct (K2 H) as (b & t & G & I). rewrite (getInstance_init a off t b G I).
    unfold tag_sizeStatic. rewrite I. cbn [rmap]. eauto 8.
Qed.

Lemma octets_id l : Forall (fun x => 0 <= x <= 255) l -> octets l = l.
Proof. induction 1 as [|x l H _ IH]; [reflexivity|]. cbn. unfold octets in IH. rewrite IH. f_equal. lia. Qed.
Lemma identifier_bytes c k n os : identifier c k n os -> 0 <= c <= 3 -> Forall (fun x => 0 <= x <= 255) os.
Proof.
  intros I C. inversion I as [N E|ds d N (D & V & _) E].
  - constructor; [destruct k; lia|constructor].
  - constructor; [destruct k; lia|]. apply Forall_app in D as [D1 D2]. apply Forall_app. split.
    + rewrite Forall_map. eapply Forall_impl; [|exact D1]. cbv beta. intros; lia.
    + eapply Forall_impl; [|exact D2]. cbv beta. intros; lia.
Qed.

Lemma C103_prefix_free_pf : forall c k n os c' k' n' os' rest rest',
  0 <= c <= 3 -> 0 <= c' <= 3 -> identifier c k n os -> identifier c' k' n' os' -> os ++ rest = os' ++ rest' ->
  c = c' /\ k = k' /\ n = n' /\ os = os' /\ rest = rest'.
Proof.
  intros c k n os c' k' n' os' rest rest' C C' I I' E.
  assert (D : forall c k n os rest, 0 <= c <= 3 -> identifier c k n os ->
    exists t, BERTag_getInstance (os ++ rest) 0 = Ok t /\ tclass t = c /\ tconstr t = k /\ tnumber t = n).
  { clear. intros c k n os rest C I. apply (C39_decode_pf c k n os); [exact I|exact C|lia|].
    unfold sub. cbn [Z.to_nat skipn]. rewrite firstn_app, Nat.sub_diag, firstn_all. cbn [firstn]. rewrite app_nil_r.
    apply octets_id. eapply identifier_bytes; eassumption. }
  destruct (D c k n os rest C I) as (t & G & T1 & T2 & T3). destruct (D c' k' n' os' rest' C' I') as (t' & G' & T1' & T2' & T3').
  rewrite E in G. assert (t = t') by congruence. subst t'. rewrite T1 in T1'. rewrite T2 in T2'. rewrite T3 in T3'. subst c' k' n'.
  assert (N : 0 <= n) by (inversion I; lia).
  destruct (C39_identifier_pf c k n N) as (u & _ & U). pose proof (U os I) as ->. pose proof (U os' I') as ->.
  repeat split. apply app_inv_head in E. exact E.
Qed.

Lemma twos1_octet x : 0 <= x <= 255 -> twos 1 x mod 256 = x.
Proof. intros H. pose proof (twos_cong 1 x ltac:(lia)) as E. change (2 ^ (8 * 1)) with 256 in E. rewrite E. lia. Qed.

Lemma C103_unambiguous_pf : forall c k n s os c' k' n' s' os' o1 o2 a1 a2,
  0 <= c <= 3 -> 0 <= c' <= 3 -> identifier c k n os -> identifier c' k' n' os' -> 0 <= o1 -> 0 <= o2 ->
  o1 + zlen os <= zlen a1 -> o2 + zlen os' <= zlen a2 ->
  exists l1 b1 l2 b2, tag_toBytes (mkTag c k n s) o1 a1 = (Ok l1, b1) /\ tag_toBytes (mkTag c' k' n' s') o2 a2 = (Ok l2, b2)
    /\ (sub b1 (Z.to_nat o1) (Z.to_nat (Z.min l1 l2)) = sub b2 (Z.to_nat o2) (Z.to_nat (Z.min l1 l2)) ->
        tag_eqb (mkTag c k n s) (mkTag c' k' n' s') = true).
Proof.
  intros c k n s os c' k' n' s' os' o1 o2 a1 a2 C C' I I' O1 O2 L1 L2.
  eexists. eexists. eexists. eexists.
  split; [apply toBytes_exact; eassumption|]. split; [apply toBytes_exact; eassumption|].
  intros E.
  assert (S : forall o a (os : list Z) m, 0 <= o -> o + zlen os <= zlen a -> 0 <= m <= zlen os -> Forall (fun x => 0 <= x <= 255) os ->
    octets (sub (splice (map s1 a) (Z.to_nat o) (map (twos 1) os)) (Z.to_nat o) (Z.to_nat m)) = firstn (Z.to_nat m) os).
  { clear. intros o a os m O L M B.
    replace (sub _ (Z.to_nat o) (Z.to_nat m)) with (firstn (Z.to_nat m) (map (twos 1) os)).
    - rewrite firstn_map. unfold octets. rewrite map_map. rewrite <- (map_id (firstn _ _)) at 2. apply map_ext_in.
      intros x X. apply twos1_octet. rewrite Forall_forall in B. apply B.
      rewrite <- (firstn_skipn (Z.to_nat m) os). apply in_or_app. left. exact X.
    - unfold sub, splice. rewrite skipn_app, skipn_all2 by (rewrite firstn_length; lia).
      rewrite firstn_length, map_length. unfold zlen in *. replace (Z.to_nat o - Nat.min (Z.to_nat o) (length a))%nat with 0%nat by lia.
      cbn [skipn app]. rewrite firstn_app, map_length. replace (Z.to_nat m - length os)%nat with 0%nat by lia. cbn [firstn].
      rewrite app_nil_r. reflexivity. }
  apply (f_equal octets) in E. pose proof (zlen_nonneg os). pose proof (zlen_nonneg os').
  rewrite !S in E; try lia; try (eapply identifier_bytes; eassumption).
  assert (P : exists r r', os ++ r = os' ++ r').
  { destruct (Z.le_ge_cases (zlen os) (zlen os')) as [K|K].
    - exists (skipn (length os) os'), []. rewrite Z.min_l in E by lia. rewrite to_nat_zlen, firstn_all in E.
      rewrite app_nil_r. transitivity (firstn (length os) os' ++ skipn (length os) os'); [f_equal; exact E|apply firstn_skipn].
    - exists [], (skipn (length os') os). rewrite Z.min_r in E by lia. rewrite to_nat_zlen, firstn_all in E.
      rewrite app_nil_r. transitivity (firstn (length os') os ++ skipn (length os') os); [symmetry; apply firstn_skipn|f_equal; exact E]. }
  destruct P as (r & r' & P). destruct (C103_prefix_free_pf c k n os c' k' n' os' r r' C C' I I' P) as (-> & -> & -> & _).
  unfold tag_eqb. cbn [tclass tconstr tnumber]. rewrite !Z.eqb_refl, Bool.eqb_reflx. reflexivity.
Qed.
