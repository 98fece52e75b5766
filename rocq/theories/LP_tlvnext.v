(** * C45: the answer of findNext for every value: proofs *)
From Coq Require Import Relations.
From Verif Require Import Py S_Base L_Py M_bertag M_bertlv LP_bertag LP_bertlv S_TlvTerm S_TlvFind LP_tlvterm LP_tlvfind.
From Coq Require Import Lia Bool ZifyBool ZifyNat.

Lemma find_mono self g : forall f f' p x, find_ f self (Some g) p = x -> x <> Err OutOfFuel -> (f <= f')%nat -> find_ f' self (Some g) p = x.
Proof.
  induction f as [|f IH]; intros f' p x E N L; [now cbn in E; congruence|]. destruct f' as [|f']; [lia|].
  pose proof (find_step f self (Some g) p) as S0. pose proof (find_step f' self (Some g) p) as S1.
  destruct (fstep self (Some g) p) as [q|].
  - rewrite S0 in E. rewrite S1. apply IH; auto. lia.
  - destruct S0 as (r & _ & S0). now rewrite S0 in *.
Qed.
Lemma find_exact self g p x : x <> Err OutOfFuel -> ((exists f, find_ f self (Some g) p = x) <-> exists q, walks self g p q /\ stops self g q x).
Proof.
  intros N. split.
  - intros [f E]. destruct (find_stops self g f p x E N) as (k & q & K & Q). exists q. split; [now apply iter_walks with k|exact Q].
  - intros (q & W & Q). apply walks_iter in W as [k K]. exists (k + 1)%nat. rewrite (find_walk self g 1 k p q K). now apply find_stop.
Qed.
Lemma opt_list_eqb_eq l l' : opt_list_eqb l l' = true <-> l = l'.
Proof.
  destruct l as [l|], l' as [l'|]; cbn; try (split; [discriminate|congruence]); [|now split].
  rewrite list_eqb_eq. split; congruence.
Qed.
Lemma occ_mono self a ga n : ttag a = Some ga -> forall f f' i q x, occurrence_loop f self a i n q = x -> x <> Err OutOfFuel -> (f <= f')%nat ->
  occurrence_loop f' self a i n q = x.
Proof.
  intros Ha. induction f as [|f IH]; intros f' i q x E N L; [now cbn in E; congruence|]. destruct f' as [|f']; [lia|].
  cbn [occurrence_loop] in *. destruct (i <? n); [|exact E]. rewrite Ha in *.
  assert (NF : find_ (S f) self (Some ga) q <> Err OutOfFuel) by (intros Q; rewrite Q in E; cbn in E; congruence).
  rewrite (find_mono self ga (S f) (S f') q _ eq_refl NF ltac:(lia)).
  destruct (find_ (S f) self (Some ga) q) as [c|e]; cbn [rbind] in *; [|exact E].
  destruct (c =? -1); [exact E|]. destruct (getInstance_of self c) as [t|e]; cbn [rbind] in *; [|exact E].
  destruct (tlv_size t) as [m|e]; cbn [rbind] in *; [|exact E]. apply IH; auto. lia.
Qed.
(** where the counting loop ends *)
Definition counted (self a : tlv) (ga : tag) (n : Z) (x : res (option Z)) : Prop :=
  exists q k, progress self a ga n q k
  /\ ((k <= 0 /\ x = Ok (Some q))
      \/ (0 < k /\ exists p, walks self ga q p /\ ((stops self ga p (Ok (-1)) /\ x = Ok None) \/ exists e, stops self ga p (Err e) /\ x = Err e))).
Lemma occ_fwd self a ga n : ttag a = Some ga -> forall f i q x, progress self a ga n q (n - i) -> occurrence_loop f self a i n q = x -> x <> Err OutOfFuel ->
  counted self a ga n x.
Proof.
  intros Ha. induction f as [|f IH]; intros i q x P E N; [now cbn in E; congruence|]. cbn [occurrence_loop] in E.
  destruct (Z.ltb_spec i n) as [L|L].
  2:{ exists q, (n - i). split; [exact P|]. left. split; [lia|now symmetry]. }
  rewrite Ha in E. assert (NF : find_ (S f) self (Some ga) q <> Err OutOfFuel) by (intros Q; rewrite Q in E; cbn in E; congruence).
  destruct (proj1 (find_exact self ga q _ NF) (ex_intro _ (S f) eq_refl)) as (p & W & S0).
  destruct (find_ (S f) self (Some ga) q) as [c|e] eqn:F; cbn [rbind] in E.
  2:{ exists q, (n - i). split; [exact P|]. right. split; [lia|]. exists p. split; [exact W|]. right. exists e. now split. }
  destruct (Z.eqb_spec c (-1)) as [->|C].
  { exists q, (n - i). split; [exact P|]. right. split; [lia|]. exists p. split; [exact W|]. left. now split. }
  destruct S0 as [[_ Q]|[(t & FA & Q)|(_ & e & _ & Q)]]; [congruence| |discriminate]. assert (c = p) by congruence. subst p.
  pose proof FA as (_ & G & _). rewrite G in E. cbn [rbind] in E.
  destruct (instance_whole self c t G) as (h & m & _ & M). rewrite M in E. cbn [rbind] in E.
  destruct (opt_list_eqb (tval t) (tval a)) eqn:V.
  - apply opt_list_eqb_eq in V. eapply IH; [|exact E|exact N]. replace (n - (i + 1)) with (n - i - 1) by lia. eapply occurrence; eauto. lia.
  - assert (V' : tval t <> tval a) by (intros Q'; apply opt_list_eqb_eq in Q'; congruence). eapply IH; [|exact E|exact N]. eapply another; eauto. lia.
Qed.
Lemma occ_step self a ga n q i c t m f x : ttag a = Some ga -> i < n -> walks self ga q c -> found_at self ga c t -> c <> -1 -> tlv_size t = Ok m ->
  occurrence_loop f self a (if opt_list_eqb (tval t) (tval a) then i + 1 else i) n (c + m) = x -> x <> Err OutOfFuel -> exists f', occurrence_loop f' self a i n q = x.
Proof.
  intros Ha L W FA C M E N. destruct (proj2 (find_exact self ga q (Ok c) ltac:(discriminate))) as [g F].
  { exists c. split; [exact W|]. right. left. exists t. now split. }
  exists (S (max f g)). cbn [occurrence_loop]. replace (i <? n) with true by lia. rewrite Ha.
  rewrite (find_mono self ga g (S (max f g)) q (Ok c) F ltac:(discriminate) ltac:(lia)). cbn [rbind].
  destruct (Z.eqb_spec c (-1)); [contradiction|]. destruct FA as (_ & G & _). rewrite G. cbn [rbind]. rewrite M. cbn [rbind].
  apply (occ_mono self a ga n Ha f); auto. lia.
Qed.
Lemma occ_bwd self a ga n : ttag a = Some ga -> forall q k, progress self a ga n q k -> forall f x, occurrence_loop f self a (n - k) n q = x -> x <> Err OutOfFuel ->
  exists f', occurrence_loop f' self a 0 n 0 = x.
Proof.
  intros Ha q k P. induction P as [|q k c t m P IH K W FA C V M|q k c t m P IH K W FA C V M]; intros f x E N.
  - exists f. now rewrite Z.sub_diag in E.
  - assert (V' : opt_list_eqb (tval t) (tval a) = false) by (destruct (opt_list_eqb (tval t) (tval a)) eqn:Q; [apply opt_list_eqb_eq in Q; contradiction|reflexivity]).
    destruct (occ_step self a ga n q (n - k) c t m f x Ha ltac:(lia) W FA C M) as [f' E']; [now rewrite V'|exact N|]. exact (IH f' x E' N).
  - apply opt_list_eqb_eq in V.
    destruct (occ_step self a ga n q (n - k) c t m f x Ha ltac:(lia) W FA C M) as [f' E']; [rewrite V; now replace (n - k + 1) with (n - (k - 1)) by lia|exact N|]. exact (IH f' x E' N).
Qed.
Lemma occ_exact self a ga n x : ttag a = Some ga -> x <> Err OutOfFuel -> ((exists f, occurrence_loop f self a 0 n 0 = x) <-> counted self a ga n x).
Proof.
  intros Ha N. split.
  - intros [f E]. apply (occ_fwd self a ga n Ha f 0 0 x); auto. rewrite Z.sub_0_r. constructor.
  - intros (q & k & P & [[K ->]|(K & p & W & H)]).
    + apply (occ_bwd self a ga n Ha q k P 1); [|exact N]. cbn [occurrence_loop]. now replace (n - k <? n) with false by lia.
    + assert (F : exists y, stops self ga p y /\ ((y = Ok (-1) /\ x = Ok None) \/ exists e, y = Err e /\ x = Err e)).
      { destruct H as [[H1 H2]|(e & H1 & H2)]; [exists (Ok (-1))|exists (Err e)]; split; auto. right. exists e. now split. }
      destruct F as (y & S0 & F). assert (NY : y <> Err OutOfFuel) by (destruct F as [[-> _]|(e & -> & ->)]; congruence).
      destruct (proj2 (find_exact self ga q y NY)) as [f E]; [exists p; now split|].
      apply (occ_bwd self a ga n Ha q k P (S f)); [|exact N]. cbn [occurrence_loop]. replace (n - k <? n) with true by lia. rewrite Ha.
      rewrite (find_mono self ga f (S f) q y E NY ltac:(lia)). destruct F as [[-> ->]|(e & -> & ->)]; reflexivity.
Qed.
Lemma answer_stops self g p r : answer self g p r <-> exists y, stops self g p y
  /\ r = match y with Err e => Err e | Ok o => if o =? -1 then Ok None else rmap Some (getInstance_of self o) end.
Proof.
  unfold answer, stops. split.
  - intros [[L ->]|[(t & FA & ->)|(L & e & G & ->)]].
    + exists (Ok (-1)). split; [left; now split|reflexivity].
    + exists (Ok p). split; [right; left; exists t; now split|]. destruct (p =? -1); [reflexivity|]. destruct FA as (_ & G & _). now rewrite G.
    + exists (Err e). split; [right; right; split; [exact L|]; exists e; now split|reflexivity].
  - intros (y & [[L ->]|[(t & FA & ->)|(L & e & G & ->)]] & ->).
    + left. now split.
    + right. left. exists t. split; [exact FA|]. destruct (p =? -1); [reflexivity|]. destruct FA as (_ & G & _). now rewrite G.
    + right. right. split; [exact L|]. exists e. now split.
Qed.

Lemma C45_exact_partial_pf : forall self a ga g n r, ttag a = Some ga -> r <> Err OutOfFuel ->
  ((exists fuel, findNextBound fuel self g a n = r) <-> next_answer self a ga g n r).
Proof.
  intros self a ga g n r Ha N. unfold next_answer. split.
  - intros [f E]. unfold findNextBound in E. destruct (occurrence_loop f self a 0 n 0) as [o|e] eqn:O; cbn [rbind] in E.
    + destruct (proj1 (occ_exact self a ga n (Ok o) Ha ltac:(discriminate)) (ex_intro _ f O)) as (q & k & P & [[K Q]|(K & p & W & H)]).
      * assert (o = Some q) by congruence. subst o. exists q, k. split; [exact P|]. left. split; [exact K|]. destruct g as [g|]; [|now symmetry].
        destruct (find_ f self (Some g) q) as [c|e] eqn:F; cbn [rbind] in E.
        -- destruct (proj1 (find_exact self g q (Ok c) ltac:(discriminate)) (ex_intro _ f F)) as (p & W & S0). exists p. split; [exact W|].
           apply answer_stops. exists (Ok c). split; [exact S0|now symmetry].
        -- destruct (proj1 (find_exact self g q (Err e) ltac:(congruence)) (ex_intro _ f F)) as (p & W & S0). exists p. split; [exact W|].
           apply answer_stops. exists (Err e). split; [exact S0|now symmetry].
      * exists q, k. split; [exact P|]. right. split; [exact K|]. destruct H as [[S0 Q]|(e & _ & Q)]; [|discriminate]. assert (o = None) by congruence. subst o r.
        split; [discriminate|]. exists p. split; [exact W|]. apply answer_stops. exists (Ok (-1)). now split.
    + destruct (proj1 (occ_exact self a ga n (Err e) Ha ltac:(congruence)) (ex_intro _ f O)) as (q & k & P & [[K Q]|(K & p & W & H)]); [discriminate|].
      exists q, k. split; [exact P|]. right. split; [exact K|]. destruct H as [[_ Q]|(e' & S0 & Q)]; [discriminate|]. assert (e' = e) by congruence. subst e' r.
      split; [discriminate|]. exists p. split; [exact W|]. apply answer_stops. exists (Err e). now split.
  - intros (q & k & P & [[K H]|(K & NS & p & W & A)]).
    + destruct (proj2 (occ_exact self a ga n (Ok (Some q)) Ha ltac:(discriminate))) as [f O]; [exists q, k; split; [exact P|]; left; now split|].
      destruct g as [g|].
      * destruct H as (p & W & A). apply answer_stops in A as (y & S0 & ->).
        assert (NY : y <> Err OutOfFuel) by (intros ->; now apply N).
        destruct (proj2 (find_exact self g q y NY)) as [f' F]; [exists p; now split|].
        exists (max f f'). unfold findNextBound. rewrite (occ_mono self a ga n Ha f (max f f') 0 0 _ O ltac:(discriminate) ltac:(lia)). cbn [rbind].
        rewrite (find_mono self g f' (max f f') q y F NY ltac:(lia)). now destruct y.
      * exists f. unfold findNextBound. rewrite O. cbn [rbind]. now symmetry.
    + apply answer_stops in A as (y & S0 & ->).
      set (x := match y with Err e => Err e | Ok _ => Ok None end : res (option Z)).
      assert (NX : x <> Err OutOfFuel) by (unfold x; destruct y; congruence).
      assert (Y1 : forall c, y = Ok c -> c = -1).
      { intros c ->. destruct (Z.eqb_spec c (-1)) as [|C]; [assumption|]. exfalso.
        destruct S0 as [[_ Q]|[(t & FA & Q)|(_ & e & _ & Q)]]; [congruence| |discriminate]. assert (c = p) by congruence. subst p.
        destruct FA as (_ & G & _). rewrite G in NS. exact (NS t eq_refl). }
      destruct (proj2 (occ_exact self a ga n x Ha NX)) as [f O].
      { exists q, k. split; [exact P|]. right. split; [exact K|]. exists p. split; [exact W|]. unfold x. destruct y as [c|e].
        - left. rewrite (Y1 c eq_refl) in S0. now split.
        - right. exists e. now split. }
      exists f. unfold findNextBound. rewrite O. unfold x. destruct y as [c|e]; cbn [rbind]; [|reflexivity]. rewrite (Y1 c eq_refl). reflexivity.
Qed.
