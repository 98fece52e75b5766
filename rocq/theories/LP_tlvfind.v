(** * C44: the answer of find for every value: proofs *)
From Coq Require Import Relations.
From Verif Require Import Py S_Base L_Py M_bertag M_bertlv LP_bertag LP_bertlv S_TlvTerm S_TlvFind LP_tlvterm S_BER LP_tagstat.
From Coq Require Import Lia Bool ZifyBool ZifyNat.

Lemma instance_whole self p t : getInstance_of self p = Ok t -> exists h n, ttag t = Some h /\ tlv_size t = Ok n.
Proof.
  unfold getInstance_of. destruct (tval self) as [v|]; [|discriminate]. unfold getInstance.
  destruct (getLengthStatic v p) as [n|]; [|discriminate]. cbn [rbind]. destruct (BERTag_getInstance v p) as [g|]; [|discriminate]. cbn [rbind].
  destruct (getLengthPair (py_slice_from v (p + tag_size g))) as [[l x]|]; [|discriminate]. cbn [rbind]. intros [= <-]. exists g. eexists. split; reflexivity.
Qed.
Definition stops (self : tlv) (g : tag) (p : Z) (x : res Z) : Prop :=
  (tlen self <= p /\ x = Ok (-1)) \/ (exists t, found_at self g p t /\ x = Ok p) \/ (p < tlen self /\ exists e, getInstance_of self p = Err e /\ x = Err e).
Lemma find_stop self g p x f : stops self g p x -> find_ (S f) self (Some g) p = x.
Proof.
  unfold stops, found_at. cbn [find_]. intros [[L ->]|[(t & (L & E & h & T & Q) & ->)|(L & e & E & ->)]].
  - destruct (Z.ltb_spec p (tlen self)); [lia|reflexivity].
  - destruct (Z.ltb_spec p (tlen self)); [|lia]. unfold getInstance_of in E. destruct (tval self) as [v|]; [|discriminate]. rewrite E. cbn [rbind]. rewrite T. cbn. now rewrite Q.
  - destruct (Z.ltb_spec p (tlen self)); [|lia]. unfold getInstance_of in E. destruct (tval self) as [v|]; [|congruence]. now rewrite E.
Qed.
Lemma find_walk self g m : forall k p q, iter (fstep self (Some g)) k p = Some q -> find_ (k + m) self (Some g) p = find_ m self (Some g) q.
Proof.
  induction k as [|k IH]; intros p q E; cbn [iter Nat.add] in *; [congruence|].
  pose proof (find_step (k + m) self (Some g) p) as S0. destruct (fstep self (Some g) p) as [r|]; [|discriminate]. rewrite S0. now apply IH.
Qed.
Lemma find_stops self g : forall f p x, find_ f self (Some g) p = x -> x <> Err OutOfFuel -> exists k q, iter (fstep self (Some g)) k p = Some q /\ stops self g q x.
Proof.
  induction f as [|f IH]; intros p x E N; [now cbn in E; congruence|].
  pose proof (find_step f self (Some g) p) as S0. destruct (fstep self (Some g) p) as [r|] eqn:F.
  - rewrite S0 in E. destruct (IH r x E N) as (k & q & K & Q). exists (S k), q. cbn [iter]. now rewrite F.
  - exists 0%nat, p. split; [reflexivity|]. clear S0. unfold fstep in F. cbn [find_] in E. unfold stops, found_at.
    destruct (Z.ltb_spec p (tlen self)) as [L|L]; [|left; now split]. right.
    unfold getInstance_of in *. destruct (tval self) as [v|] eqn:V; [|right; split; [exact L|]; exists TypeError; now split].
    destruct (getInstance v p None) as [t|e] eqn:G; cbn [rbind] in E; [|right; split; [exact L|]; exists e; now split].
    left. exists t. destruct (instance_whole self p t) as (h & n & T & Z0); [unfold getInstance_of; now rewrite V|].
    rewrite T in *. cbn [tag_eq_opt rbind] in *. rewrite Z0 in *. destruct (tag_eqb h g) eqn:Q; [|discriminate]. split; [|now symmetry]. repeat split; auto. exists h. now split.
Qed.

Lemma C44_exact_partial_pf : forall self g r, r <> Err OutOfFuel ->
  ((exists fuel, findBound fuel self (Some g) = r) <-> (exists p, walks self g 0 p /\ answer self g p r)).
Proof.
  intros self g r N. unfold findBound. split.
  - intros [f E]. destruct (find_ f self (Some g) 0) as [o|e] eqn:F; cbn [rbind] in E.
    + destruct (find_stops self g f 0 (Ok o) F ltac:(discriminate)) as (k & q & K & Q). exists q. split; [now apply iter_walks with k|].
      unfold answer. destruct Q as [[L Q]|[(t & FA & Q)|(L & e & G & Q)]].
      * left. split; [exact L|]. assert (o = -1) by congruence. subst o. now symmetry.
      * right. left. exists t. split; [exact FA|]. assert (o = q) by congruence. subst o. rewrite <- E. destruct (q =? -1); [reflexivity|]. destruct FA as (_ & G & _). now rewrite G.
      * discriminate.
    + assert (e <> OutOfFuel) by congruence.
      destruct (find_stops self g f 0 (Err e) F ltac:(congruence)) as (k & q & K & Q). exists q. split; [now apply iter_walks with k|].
      unfold answer. destruct Q as [[L Q]|[(t & FA & Q)|(L & e' & G & Q)]]; try discriminate. right. right. split; [exact L|]. exists e'. split; [exact G|congruence].
  - intros (p & W & A). apply walks_iter in W as [k K]. exists (k + 1)%nat. rewrite (find_walk self g 1 k 0 p K).
    destruct A as [[L ->]|[(t & FA & ->)|(L & e & G & ->)]].
    + rewrite (find_stop self g p (Ok (-1))) by (left; now split). reflexivity.
    + rewrite (find_stop self g p (Ok p)) by (right; left; exists t; now split). cbn [rbind]. destruct FA as (_ & G & _). destruct (p =? -1); [reflexivity|now rewrite G].
    + rewrite (find_stop self g p (Err e)) by (right; right; split; [exact L|]; exists e; now split). reflexivity.
Qed.

Lemma C44_static_exact_partial_pf : forall arr off ta toff t k g r, r <> Err OutOfFuel ->
  getInstance arr off None = Ok t -> tkind t = true -> ttag t = Some k -> BERTag_getInstance ta toff = Ok g ->
  ((exists fuel, findStatic fuel arr off (Some ta) toff = r)
   <-> (exists p, walks t g 0 p /\ answer_static t g (off + tag_size k + getLengthLen (tlen t)) p r)).
Proof.
  intros arr off ta toff t k g r N Ht Hk Hg Hta. unfold findStatic. rewrite Ht. cbn [rbind]. rewrite Hg, Hk, Hta. cbn [rbind]. split.
  - intros [f E]. destruct (find_ f t (Some g) 0) as [o|e] eqn:F; cbn [rbind] in E.
    + destruct (find_stops t g f 0 (Ok o) F ltac:(discriminate)) as (j & q & K & Q). exists q. split; [now apply iter_walks with j|].
      unfold answer_static. destruct Q as [[L Q]|[(c & FA & Q)|(L & e & G & Q)]].
      * left. split; [exact L|]. assert (o = -1) by congruence. subst o. now symmetry.
      * right. left. exists c. split; [exact FA|]. assert (o = q) by congruence. subst o. rewrite <- E. now destruct (q =? -1).
      * discriminate.
    + assert (e <> OutOfFuel) by congruence.
      destruct (find_stops t g f 0 (Err e) F ltac:(congruence)) as (j & q & K & Q). exists q. split; [now apply iter_walks with j|].
      unfold answer_static. destruct Q as [[L Q]|[(c & FA & Q)|(L & e' & G & Q)]]; try discriminate. right. right. split; [exact L|]. exists e'. split; [exact G|congruence].
  - intros (p & W & A). apply walks_iter in W as [j K]. exists (j + 1)%nat. rewrite (find_walk t g 1 j 0 p K).
    destruct A as [[L ->]|[(c & FA & ->)|(L & e & G & ->)]].
    + rewrite (find_stop t g p (Ok (-1))) by (left; now split). reflexivity.
    + rewrite (find_stop t g p (Ok p)) by (right; left; exists c; now split). cbn [rbind]. now destruct (p =? -1).
    + rewrite (find_stop t g p (Err e)) by (right; right; split; [exact L|]; exists e; now split). reflexivity.
Qed.

Lemma C44_high_refuted_pf : forall c k n io rest self g, identifier c k n io -> 0 <= c <= 3 -> 31 <= n ->
  Forall anybyte rest -> tval self = Some (io ++ rest) -> tlen self = zlen (io ++ rest) ->
  (tclass g = c -> tconstr g = k -> tnumber g = n -> forall fuel, (0 < fuel)%nat ->
     findBound fuel self (Some g)
     = Ok (Some (mkTLV k (Some (mkTag c k n (zlen io - 1))) (n mod 128) (Some (firstn (Z.to_nat (n mod 128)) rest)))))
  /\ (tag_eqb (mkTag c k n (zlen io - 1)) g = false -> zlen rest <= n mod 128 -> forall fuel, (1 < fuel)%nat -> findBound fuel self (Some g) = Ok None).
Proof.
  intros c k n io rest self g I0 Hc Hn Hr Hv Hl.
  assert (Hio : Forall anybyte io /\ octets io = io /\ 0 < zlen io).
  { pose proof (identifier_bytes c k n io I0 Hc) as IB. split; [eapply Forall_impl; [|exact IB]; intros x Hx; cbn beta in Hx; unfold anybyte; lia|]. split; [now apply octets_id|].
    destruct I0; unfold zlen; cbn [length]; lia. }
  destruct Hio as (B & O & P).
  destruct (C42_high_tag_refuted_pf c k n io (io ++ rest) 0 I0 Hc Hn) as [_ G]; [lia|now apply Forall_app|rewrite sub_app_l by (cbn; lia); rewrite sub_full by (cbn; lia); exact O|].
  assert (S0 : py_slice (io ++ rest) (0 + zlen io) (0 + zlen io + n mod 128) = firstn (Z.to_nat (n mod 128)) rest).
  { pose proof (Z.mod_pos_bound n 128 ltac:(lia)). unfold py_slice, py_clamp. pose proof (zlen_nonneg rest) as R. assert (E : zlen (io ++ rest) = zlen io + zlen rest) by (unfold zlen; rewrite app_length; lia). rewrite E.
    destruct (Z.ltb_spec (0 + zlen io) 0); [lia|]. destruct (Z.ltb_spec (0 + zlen io + n mod 128) 0); [lia|].
    replace (Z.min (0 + zlen io) (zlen io + zlen rest)) with (zlen io) by lia. replace (Z.to_nat (zlen io)) with (length io) by (unfold zlen; lia).
    rewrite skipn_app, skipn_all, Nat.sub_diag. cbn [app skipn]. destruct (Z.le_gt_cases (n mod 128) (zlen rest)).
    - f_equal. lia.
    - rewrite !firstn_all2; [reflexivity| |]; unfold zlen in *; lia. }
  rewrite S0 in G. set (t := mkTLV k (Some (mkTag c k n (zlen io - 1))) (n mod 128) (Some (firstn (Z.to_nat (n mod 128)) rest))) in *.
  assert (L : 0 < tlen self) by (rewrite Hl; unfold zlen in *; rewrite app_length; lia).
  split.
  - intros E1 E2 E3 [|f] Hf; [lia|]. unfold findBound. rewrite (find_stop self g 0 (Ok 0)).
    + cbn. unfold getInstance_of. rewrite Hv, G. reflexivity.
    + right. left. exists t. split; [|reflexivity]. split; [exact L|]. split; [unfold getInstance_of; now rewrite Hv|].
      eexists. split; [reflexivity|]. unfold tag_eqb. cbn. rewrite E1, E2, E3, !Z.eqb_refl. now destruct k.
  - intros Q Hk [|[|f]] Hf; [lia|lia|]. unfold findBound. pose proof (find_step (S f) self (Some g) 0) as S1.
    assert (F : fstep self (Some g) 0 = Some (0 + (zlen io - 1 + getLengthLen (n mod 128) + n mod 128))).
    { unfold fstep. destruct (Z.ltb_spec 0 (tlen self)); [|lia]. unfold getInstance_of. rewrite Hv, G. unfold t. cbn [ttag tag_eq_opt]. rewrite Q. reflexivity. }
    rewrite F in S1. rewrite S1. assert (LL : getLengthLen (n mod 128) = 1).
    { unfold getLengthLen. pose proof (Z.mod_pos_bound n 128 ltac:(lia)). destruct (Z.ltb_spec 127 (n mod 128)); [lia|reflexivity]. }
    rewrite LL. rewrite (find_stop self g _ (Ok (-1))); [reflexivity|]. left. split; [|reflexivity]. rewrite Hl. unfold zlen in *. rewrite app_length. lia.
Qed.
