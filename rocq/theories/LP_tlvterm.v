(** * C46: find ends or never does: proofs *)
From Verif Require Import Py S_Base L_Py M_bertag M_bertlv LP_bertag LP_bertlv S_TlvTerm.
From Coq Require Import ZifyBool ZifyNat Relations.

(** ** a deterministic walk in a finite set *)
Fixpoint iter {A} (f : A -> option A) (k : nat) (a : A) : option A :=
  match k with O => Some a | S k => match f a with Some b => iter f k b | None => None end end.
Lemma iter_plus {A} (f : A -> option A) k : forall m a,
  iter f (k + m) a = match iter f k a with Some b => iter f m b | None => None end.
Proof. induction k as [|k IH]; intros m a; [reflexivity|]. cbn [Nat.add iter]. destruct (f a); [apply IH|reflexivity]. Qed.
Lemma iter_less {A} (f : A -> option A) k m a b : (m <= k)%nat -> iter f k a = Some b -> exists c, iter f m a = Some c.
Proof.
  intros H E. replace k with (m + (k - m))%nat in E by lia. rewrite iter_plus in E.
  destruct (iter f m a) as [c|]; [eauto|discriminate].
Qed.
Fixpoint trail {A} (f : A -> option A) (k : nat) (a : A) : list A :=
  match k with O => [] | S k => a :: match f a with Some b => trail f k b | None => [] end end.
Lemma trail_nth {A} (f : A -> option A) k : forall a b, iter f k a = Some b ->
  length (trail f k a) = k /\ forall i, (i < k)%nat -> iter f i a = nth_error (trail f k a) i.
Proof.
  induction k as [|k IH]; intros a b E; [split; [reflexivity|lia]|]. cbn [iter trail] in *.
  destruct (f a) as [c|] eqn:Ef; [|discriminate]. destruct (IH c b E) as [L N]. split; [cbn [length]; lia|].
  intros [|i] Hi; [reflexivity|]. cbn [iter nth_error]. rewrite Ef. apply N. lia.
Qed.
Lemma trail_in {A} (f : A -> option A) (P : A -> Prop) k : (forall a b, f a = Some b -> P a) ->
  forall a b, iter f k a = Some b -> Forall P (trail f k a).
Proof.
  intros HP. induction k as [|k IH]; intros a b E; [constructor|]. cbn [iter trail] in *.
  destruct (f a) as [c|] eqn:Ef; [|discriminate]. constructor; [eauto|]. eauto.
Qed.
Lemma twice {A} (dec : forall a b : A, {a = b} + {a <> b}) (l : list A) : ~ NoDup l ->
  exists i j a, (i < j)%nat /\ nth_error l i = Some a /\ nth_error l j = Some a.
Proof.
  induction l as [|x l IH]; intros H; [exfalso; apply H; constructor|].
  destruct (in_dec dec x l) as [I|I].
  - apply In_nth_error in I as [j Hj]. exists 0%nat, (S j), x. split; [lia|auto].
  - destruct IH as (i & j & a & H1 & H2 & H3); [intros N; apply H; constructor; assumption|].
    exists (S i), (S j), a. split; [lia|auto].
Qed.
(** Visiting more points than there are, the walk has come back and never ends. *)
Lemma revisit {A} (dec : forall a b : A, {a = b} + {a <> b}) (f : A -> option A) (L : list A) a b :
  (forall a b, f a = Some b -> In a L) -> iter f (S (length L)) a = Some b ->
  exists i j c, (i < j)%nat /\ iter f i a = Some c /\ iter f j a = Some c.
Proof.
  intros HL E. destruct (trail_nth f _ a b E) as [LT NT].
  destruct (twice dec (trail f (S (length L)) a)) as (i & j & c & H1 & H2 & H3).
  { intros N. pose proof (NoDup_incl_length N (l' := L)) as HI.
    assert (incl (trail f (S (length L)) a) L) as H0.
    { intros x Hx. pose proof (trail_in f (fun a => In a L) _ HL a b E) as HF. rewrite Forall_forall in HF. auto. }
    specialize (HI H0). lia. }
  exists i, j, c. split; [assumption|].
  assert (j < S (length L))%nat by (rewrite <- LT; apply nth_error_Some; congruence).
  rewrite !NT by lia. auto.
Qed.
Lemma forever {A} (f : A -> option A) a i j c : (i < j)%nat -> iter f i a = Some c -> iter f j a = Some c ->
  forall k, exists b, iter f k a = Some b.
Proof.
  intros Hij Ei Ej k. induction k as [k IH] using lt_wf_ind.
  destruct (Nat.le_gt_cases k j) as [H|H]; [exact (iter_less f j k a c H Ej)|].
  destruct (IH (k - j + i)%nat ltac:(lia)) as [b Eb]. exists b.
  replace k with (j + (k - j))%nat by lia. rewrite iter_plus, Ej.
  rewrite Nat.add_comm in Eb. rewrite iter_plus, Ei in Eb. exact Eb.
Qed.

(** ** find *)
Definition fstep (self : tlv) (g : option tag) (p : Z) : option Z :=
  if p <? tlen self then
    match getInstance_of self p with
    | Ok t => match tag_eq_opt (ttag t) g with
              | Ok false => match tlv_size t with Ok n => Some (p + n) | Err _ => None end
              | _ => None
              end
    | Err _ => None
    end
  else None.
Lemma tlv_size_not_fuel t : tlv_size t <> Err OutOfFuel.
Proof. unfold tlv_size. destruct (ttag t); discriminate. Qed.
Lemma find_step fuel self g p : match fstep self g p with
  | Some q => find_ (S fuel) self g p = find_ fuel self g q
  | None => exists r, r <> Err OutOfFuel /\ forall f, find_ (S f) self g p = r
  end.
Proof.
  unfold fstep, getInstance_of. cbn [find_]. destruct (p <? tlen self); [|exists (Ok (-1)); split; [discriminate|reflexivity]].
  destruct (tval self) as [v|]; [|exists (Err TypeError); split; [discriminate|reflexivity]].
  pose proof (getInstance_not_fuel v p None) as N.
  destruct (getInstance v p None) as [t|e]; cbn [rbind]; [|exists (Err e); split; [congruence|reflexivity]].
  destruct (tag_eq_opt (ttag t) g) as [[|]|e] eqn:E; cbn [rbind].
  - exists (Ok p). split; [discriminate|reflexivity].
  - pose proof (tlv_size_not_fuel t). destruct (tlv_size t) as [n|e]; cbn [rbind]; [reflexivity|].
    exists (Err e). split; [congruence|reflexivity].
  - exists (Err e). split; [|reflexivity]. unfold tag_eq_opt in E. destruct (ttag t), g; congruence.
Qed.
Lemma find_iter self g : forall fuel p, find_ fuel self g p = Err OutOfFuel <-> exists q, iter (fstep self g) fuel p = Some q.
Proof.
  induction fuel as [|f IH]; intros p; [cbn; split; [eauto|reflexivity]|].
  cbn [iter]. pose proof (find_step f self g p) as S. destruct (fstep self g p) as [q|].
  - rewrite S. apply IH.
  - destruct S as (r & R1 & R2). rewrite R2. split; [congruence|]. intros [q E]. discriminate E.
Qed.
Lemma find_more self g k : forall fuel p, find_ fuel self g p <> Err OutOfFuel -> find_ (fuel + k) self g p = find_ fuel self g p.
Proof.
  induction fuel as [|f IH]; intros p H; [cbn in H; congruence|].
  pose proof (find_step f self g p) as S1. pose proof (find_step (f + k) self g p) as S2. cbn [Nat.add].
  destruct (fstep self g p) as [q|].
  - rewrite S1 in *. rewrite S2. apply IH. exact H.
  - destruct S1 as (r & R1 & R2). now rewrite !R2.
Qed.

Definition pos_list (self : tlv) : list Z :=
  match tval self with Some v => map (fun i => Z.of_nat i - zlen v) (seq 0 (2 * length v)) | None => [] end.
Lemma pos_list_length self : length (pos_list self) = positions self.
Proof. unfold pos_list, positions. destruct (tval self); [|reflexivity]. now rewrite map_length, seq_length. Qed.
Lemma child_pos self p t : getInstance_of self p = Ok t -> In p (pos_list self).
Proof.
  unfold getInstance_of, pos_list. destruct (tval self) as [v|]; [|discriminate]. intros E.
  assert (- zlen v <= p < zlen v).
  { destruct (Z_lt_dec p (- zlen v)) as [H|H]; [exfalso|destruct (Z_le_dec (zlen v) p) as [H'|H']; [exfalso|lia]];
    (assert (G : BERTag_getInstance v p = Err ArrayIndexOutOfBounds) by (unfold BERTag_getInstance; rewrite py_get_out by lia; reflexivity));
    unfold getInstance, getLengthStatic in E; rewrite G in E; discriminate E. }
  apply in_map_iff. exists (Z.to_nat (p + zlen v)). split; [lia|]. apply in_seq. unfold zlen in *. lia.
Qed.
Lemma fstep_pos self g p q : fstep self g p = Some q -> In p (pos_list self).
Proof.
  unfold fstep. destruct (p <? tlen self); [|discriminate]. destruct (getInstance_of self p) as [t|] eqn:E; [|discriminate].
  intros _. exact (child_pos self p t E).
Qed.
Lemma find_decided self g p : find_ (S (positions self)) self g p = Err OutOfFuel -> forall fuel, find_ fuel self g p = Err OutOfFuel.
Proof.
  intros H fuel. apply find_iter in H as [q Hq]. apply find_iter.
  rewrite <- pos_list_length in Hq.
  destruct (revisit Z.eq_dec (fstep self g) (pos_list self) p q (fstep_pos self g) Hq) as (i & j & c & H1 & H2 & H3).
  exact (forever _ p i j c H1 H2 H3 fuel).
Qed.
Lemma fstep_skips self g p q : fstep self (Some g) p = Some q <-> skips self g p q.
Proof.
  unfold fstep, skips. split.
  - destruct (Z.ltb_spec p (tlen self)) as [L|L]; [|discriminate]. destruct (getInstance_of self p) as [t|]; [|discriminate].
    unfold tag_eq_opt. destruct (ttag t) as [h|] eqn:ET; [|discriminate]. destruct (tag_eqb h g) eqn:EQ; [discriminate|].
    destruct (tlv_size t) as [n|] eqn:ES; [|discriminate]. intros [= <-]. split; [assumption|]. exists t, h, n. auto.
  - intros (L & t & h & n & E1 & E2 & E3 & E4 & ->). replace (p <? tlen self) with true by lia.
    rewrite E1. unfold tag_eq_opt. now rewrite E2, E3, E4.
Qed.
Lemma iter_walks self g : forall k p q, iter (fstep self (Some g)) k p = Some q -> walks self g p q.
Proof.
  intros k p. induction k as [|k IH]; intros q E.
  - cbn in E. injection E as <-. apply rtn1_refl.
  - replace (S k) with (k + 1)%nat in E by lia. rewrite iter_plus in E.
    destruct (iter _ k p) as [r|]; [|discriminate]. cbn [iter] in E.
    destruct (fstep self (Some g) r) as [x|] eqn:Ef; [|discriminate]. injection E as <-.
    eapply (Relation_Operators.rtn1_trans _ _ _ r); [now apply fstep_skips|apply IH; reflexivity].
Qed.
Lemma walks_iter self g p q : walks self g p q -> exists k, iter (fstep self (Some g)) k p = Some q.
Proof.
  intros H. induction H as [|q r S H [k IH]]; [exists 0%nat; reflexivity|].
  exists (k + 1)%nat. rewrite iter_plus, IH. cbn [iter]. apply fstep_skips in S. now rewrite S.
Qed.

Lemma C46_exact_partial_pf : forall self g,
  ((forall fuel, findBound fuel self (Some g) = Err OutOfFuel) <-> comes_back self g)
  /\ (findBound (S (positions self)) self (Some g) = Err OutOfFuel -> forall fuel, findBound fuel self (Some g) = Err OutOfFuel).
Proof.
  intros self g.
  assert (FB : forall fuel, findBound fuel self (Some g) = Err OutOfFuel <-> find_ fuel self (Some g) 0 = Err OutOfFuel).
  { intros fuel. unfold findBound. destruct (find_ fuel self (Some g) 0) as [o|e]; cbn [rbind].
    - split; [|discriminate]. destruct (o =? -1); [discriminate|].
      unfold getInstance_of. destruct (tval self) as [v|]; [|discriminate].
      pose proof (getInstance_not_fuel v o None). destruct (getInstance v o None); cbn [rmap rbind]; congruence.
    - split; intros E; congruence. }
  split; [split|].
  - intros H. specialize (H (S (positions self))). apply FB, find_iter in H as [q Hq]. rewrite <- pos_list_length in Hq.
    destruct (revisit Z.eq_dec _ (pos_list self) 0 q (fstep_pos self (Some g)) Hq) as (i & j & c & H1 & H2 & H3).
    replace j with (i + (1 + (j - i - 1)))%nat in H3 by lia. rewrite iter_plus, H2, iter_plus in H3. cbn [iter] in H3.
    destruct (fstep self (Some g) c) as [x|] eqn:Ef; [|discriminate].
    exists c, x. split; [exact (iter_walks _ _ _ _ _ H2)|]. split; [now apply fstep_skips|exact (iter_walks _ _ _ _ _ H3)].
  - intros (p & q & W1 & S & W2) fuel. apply FB, find_iter.
    apply walks_iter in W1 as [k1 W1]. apply walks_iter in W2 as [k2 W2]. apply fstep_skips in S.
    assert (E : iter (fstep self (Some g)) (k1 + (1 + k2)) 0 = Some p).
    { rewrite iter_plus, W1, iter_plus. cbn [iter]. now rewrite S. }
    apply (forever (fstep self (Some g)) 0 k1 (k1 + (1 + k2)) p); [lia|assumption|assumption].
  - intros H fuel. apply FB. apply FB in H. exact (find_decided self (Some g) 0 H fuel).
Qed.

(** ** findNext *)
Definition ostep (self aTLV : tlv) (N : Z) (x : Z * Z) : option (Z * Z) :=
  let '(i, off) := x in
  if (0 <=? i) && (i <? N) then
    match find_ (S (positions self)) self (ttag aTLV) off with
    | Ok p => if p =? -1 then None else
        match getInstance_of self p with
        | Ok t => match tlv_size t with
                  | Ok n => Some (if opt_list_eqb (tval t) (tval aTLV) then i + 1 else i, p + n)
                  | Err _ => None
                  end
        | Err _ => None
        end
    | Err _ => None
    end
  else None.
Lemma exn_fuel e : e = OutOfFuel \/ e <> OutOfFuel.
Proof. destruct e; (left; reflexivity) || (right; discriminate). Qed.
Lemma getInstance_of_not_fuel self p : getInstance_of self p <> Err OutOfFuel.
Proof. unfold getInstance_of. destruct (tval self); [apply getInstance_not_fuel|discriminate]. Qed.
Lemma find_cases self g p fuel : find_ fuel self g p = Err OutOfFuel \/ find_ fuel self g p = find_ (S (positions self)) self g p.
Proof.
  assert (D : find_ fuel self g p = Err OutOfFuel \/ find_ fuel self g p <> Err OutOfFuel).
  { destruct (find_ fuel self g p) as [r|e]; [right; discriminate|]. destruct (exn_fuel e) as [->|D]; [now left|right; congruence]. }
  destruct D as [D|D]; [now left|right].
  destruct (Nat.le_gt_cases fuel (S (positions self))) as [H|H].
  - replace (S (positions self)) with (fuel + (S (positions self) - fuel))%nat by lia. now rewrite find_more.
  - replace fuel with (S (positions self) + (fuel - S (positions self)))%nat by lia. rewrite find_more; [reflexivity|].
    intros H0. apply D. exact (find_decided self g p H0 fuel).
Qed.
Definition stuck (self aTLV : tlv) (N : Z) (x : Z * Z) : Prop :=
  0 <= fst x < N /\ forall fuel, find_ fuel self (ttag aTLV) (snd x) = Err OutOfFuel.

(** one round of the loop, with enough fuel for the inner search or too little *)
Lemma occ_step self aTLV N f i off : 0 <= i ->
  (occurrence_loop (S f) self aTLV i N off = Err OutOfFuel /\ i < N /\ find_ (S f) self (ttag aTLV) off = Err OutOfFuel)
  \/ match ostep self aTLV N (i, off) with
     | Some (i', off') => 0 <= i' /\ occurrence_loop (S f) self aTLV i N off = occurrence_loop f self aTLV i' N off'
     | None => stuck self aTLV N (i, off) \/ exists r, r <> Err OutOfFuel /\ forall f, find_ (S f) self (ttag aTLV) off <> Err OutOfFuel \/ N <= i ->
                 occurrence_loop (S f) self aTLV i N off = r
     end.
Proof.
  intros Hi. cbn [occurrence_loop]. unfold ostep. replace (0 <=? i) with true by lia. cbn [andb].
  destruct (Z.ltb_spec i N) as [L|L]; [|right; right; exists (Ok (Some off)); split; [discriminate|intros; reflexivity]].
  destruct (find_cases self (ttag aTLV) off (S f)) as [F|F]; [left; rewrite F; cbn [rbind]; auto|].
  right. rewrite F.
  destruct (find_ (S (positions self)) self (ttag aTLV) off) as [p|e] eqn:EF; cbn [rbind].
  - assert (RF : forall f, find_ (S f) self (ttag aTLV) off <> Err OutOfFuel \/ N <= i -> find_ (S f) self (ttag aTLV) off = Ok p).
    { intros f0 [H|H]; [|lia]. destruct (find_cases self (ttag aTLV) off (S f0)) as [F'|F']; congruence. }
    destruct (Z.eqb_spec p (-1)) as [->|P1].
    { right. exists (Ok None). split; [discriminate|]. intros f0 H0. rewrite (RF f0 H0). reflexivity. }
    pose proof (getInstance_of_not_fuel self p) as G. destruct (getInstance_of self p) as [t|e] eqn:EG; cbn [rbind].
    2: { right. exists (Err e). split; [congruence|]. intros f0 H0. rewrite (RF f0 H0). cbn [rbind].
         replace (p =? -1) with false by lia. now rewrite EG. }
    pose proof (tlv_size_not_fuel t) as T. destruct (tlv_size t) as [n|e] eqn:ES; cbn [rbind].
    2: { right. exists (Err e). split; [congruence|]. intros f0 H0. rewrite (RF f0 H0). cbn [rbind].
         replace (p =? -1) with false by lia. rewrite EG. cbn [rbind]. now rewrite ES. }
    split; [destruct (opt_list_eqb _ _); lia|reflexivity].
  - destruct (exn_fuel e) as [->|D].
    + left. split; [cbn [fst]; lia|]. cbn [snd]. exact (find_decided self (ttag aTLV) off EF).
    + right. exists (Err e). split; [congruence|]. intros f0 [H|H]; [|lia].
      destruct (find_cases self (ttag aTLV) off (S f0)) as [F'|F']; [congruence|]. rewrite F', EF. reflexivity.
Qed.
Lemma occ_more self aTLV N k : forall fuel i off, occurrence_loop fuel self aTLV i N off <> Err OutOfFuel ->
  occurrence_loop (fuel + k) self aTLV i N off = occurrence_loop fuel self aTLV i N off.
Proof.
  induction fuel as [|f IH]; intros i off H; [cbn in H; congruence|].
  cbn [Nat.add]. cbn [occurrence_loop] in *. destruct (i <? N); [|reflexivity].
  destruct (find_cases self (ttag aTLV) off (S f)) as [F|F]; [rewrite F in H; cbn [rbind] in H; congruence|].
  assert (F' : find_ (S (f + k)) self (ttag aTLV) off = find_ (S f) self (ttag aTLV) off).
  { change (S (f + k)) with (S f + k)%nat. apply find_more. intros E. rewrite E in H. cbn [rbind] in H. congruence. }
  rewrite F'. clear F F'. destruct (find_ (S f) self (ttag aTLV) off) as [p|e]; cbn [rbind] in *; [|reflexivity].
  destruct (p =? -1); [reflexivity|]. destruct (getInstance_of self p) as [t|]; cbn [rbind] in *; [|reflexivity].
  destruct (tlv_size t) as [n|]; cbn [rbind] in *; [|reflexivity]. now apply IH.
Qed.
Lemma occ_diverges self aTLV N fuel : forall i off, 0 <= i ->
  ((forall k, exists y, iter (ostep self aTLV N) k (i, off) = Some y)
   \/ (exists k y, iter (ostep self aTLV N) k (i, off) = Some y /\ stuck self aTLV N y)) ->
  occurrence_loop fuel self aTLV i N off = Err OutOfFuel.
Proof.
  induction fuel as [|f IH]; intros i off Hi H; [reflexivity|].
  destruct (occ_step self aTLV N f i off Hi) as [(E & _)|E]; [exact E|].
  destruct (ostep self aTLV N (i, off)) as [[i' off']|] eqn:ES.
  - destruct E as [Hi' E]. rewrite E. apply IH; [exact Hi'|].
    destruct H as [H|(k & y & H1 & H2)].
    + left. intros k. destruct (H (S k)) as [y Hy]. cbn [iter] in Hy. rewrite ES in Hy. eauto.
    + destruct k as [|k]; cbn [iter] in H1.
      * injection H1 as <-. destruct H2 as [H2 H3]. cbn [fst snd] in *. unfold ostep in ES. rewrite H3 in ES.
        destruct ((0 <=? i) && (i <? N)); discriminate ES.
      * rewrite ES in H1. right. eauto.
  - assert (ST : stuck self aTLV N (i, off)).
    { destruct H as [H|(k & y & H1 & H2)].
      - destruct (H 1%nat) as [y Hy]. cbn [iter] in Hy. rewrite ES in Hy. discriminate Hy.
      - destruct k as [|k]; cbn [iter] in H1; [injection H1 as <-; exact H2|rewrite ES in H1; discriminate H1]. }
    destruct ST as [S1 S2]. cbn [fst snd] in *. cbn [occurrence_loop]. replace (i <? N) with true by lia. now rewrite S2.
Qed.
Lemma occ_round self aTLV N f i off : 0 <= i -> (positions self <= f)%nat -> occurrence_loop (S f) self aTLV i N off = Err OutOfFuel ->
  stuck self aTLV N (i, off)
  \/ exists i' off', ostep self aTLV N (i, off) = Some (i', off') /\ 0 <= i' /\ occurrence_loop f self aTLV i' N off' = Err OutOfFuel.
Proof.
  intros Hi Hf H.
  assert (D : stuck self aTLV N (i, off) \/ (find_ (S f) self (ttag aTLV) off <> Err OutOfFuel \/ N <= i)).
  { destruct (Z.lt_ge_cases i N) as [L|L]; [|right; now right].
    destruct (find_ (S f) self (ttag aTLV) off) as [p|e] eqn:E; [right; left; discriminate|].
    destruct (exn_fuel e) as [->|D]; [left|right; left; congruence].
    split; [cbn [fst]; lia|]. cbn [snd]. apply find_decided.
    destruct (find_ (S (positions self)) self (ttag aTLV) off) as [q|e'] eqn:E'.
    - pose proof (find_more self (ttag aTLV) (f - positions self) (S (positions self)) off ltac:(congruence)) as M.
      replace (S (positions self) + (f - positions self))%nat with (S f) in M by lia. congruence.
    - destruct (exn_fuel e') as [->|D']; [reflexivity|].
      pose proof (find_more self (ttag aTLV) (f - positions self) (S (positions self)) off ltac:(congruence)) as M.
      replace (S (positions self) + (f - positions self))%nat with (S f) in M by lia. congruence. }
  destruct D as [D|D]; [now left|].
  destruct (occ_step self aTLV N f i off Hi) as [(_ & L & E)|E]; [destruct D; [congruence|lia]|].
  destruct (ostep self aTLV N (i, off)) as [[i' off']|].
  - right. exists i', off'. destruct E as [E1 E2]. split; [reflexivity|]. split; [exact E1|congruence].
  - destruct E as [E|(r & R1 & R2)]; [now left|]. rewrite (R2 f D) in H. congruence.
Qed.
Lemma occ_enough self aTLV N m : forall i off, 0 <= i ->
  occurrence_loop (S (positions self) + m) self aTLV i N off = Err OutOfFuel ->
  (exists y, iter (ostep self aTLV N) (S m) (i, off) = Some y)
  \/ (exists k y, iter (ostep self aTLV N) k (i, off) = Some y /\ stuck self aTLV N y).
Proof.
  induction m as [|m IH]; intros i off Hi H.
  - rewrite Nat.add_0_r in H. destruct (occ_round self aTLV N (positions self) i off Hi ltac:(lia) H) as [ST|(i' & off' & E & _)].
    + right. exists 0%nat, (i, off). auto.
    + left. exists (i', off'). cbn [iter]. now rewrite E.
  - replace (S (positions self) + S m)%nat with (S (S (positions self) + m)) in H by lia.
    destruct (occ_round self aTLV N (S (positions self) + m) i off Hi ltac:(lia) H) as [ST|(i' & off' & E & Hi' & H')].
    + right. exists 0%nat, (i, off). auto.
    + destruct (IH i' off' Hi' H') as [[y Hy]|(k & y & H1 & H2)].
      * left. exists y. cbn [iter]. rewrite E. exact Hy.
      * right. exists (S k), y. cbn [iter]. rewrite E. auto.
Qed.
Definition occ_list (self : tlv) (N : Z) : list (Z * Z) := list_prod (map Z.of_nat (seq 0 (Z.to_nat N))) (pos_list self).
Lemma occ_list_length self N : length (occ_list self N) = (Z.to_nat N * positions self)%nat.
Proof. unfold occ_list. rewrite prod_length, map_length, seq_length, pos_list_length. reflexivity. Qed.
Lemma find_from self g p q fuel : find_ fuel self g p = Ok q -> q <> -1 -> In p (pos_list self).
Proof.
  destruct fuel as [|f]; [discriminate|]. cbn [find_]. destruct (p <? tlen self); [|congruence].
  destruct (tval self) as [v|] eqn:EV; [|discriminate]. destruct (getInstance v p None) as [t|] eqn:E; [|discriminate].
  intros _ _. apply (child_pos self p t). unfold getInstance_of. now rewrite EV.
Qed.
Lemma ostep_list self aTLV N x y : ostep self aTLV N x = Some y -> In x (occ_list self N).
Proof.
  destruct x as [i off]. unfold ostep. destruct ((0 <=? i) && (i <? N)) eqn:Ei; [|discriminate]. apply andb_prop in Ei as [Ei1 Ei2].
  destruct (find_ _ self (ttag aTLV) off) as [p|] eqn:E; [|discriminate]. destruct (Z.eqb_spec p (-1)) as [|P]; [discriminate|].
  intros _. apply in_prod; [|exact (find_from _ _ _ _ _ E P)].
  apply in_map_iff. exists (Z.to_nat i). split; [lia|]. apply in_seq. lia.
Qed.
Lemma pair_dec : forall a b : Z * Z, {a = b} + {a <> b}.
Proof. intros a b. repeat decide equality. Qed.

Lemma occ_decided self aTLV N i off : 0 <= i ->
  occurrence_loop (S (positions self) + Z.to_nat N * positions self) self aTLV i N off = Err OutOfFuel ->
  ((exists a b c, (a < b)%nat /\ iter (ostep self aTLV N) a (i, off) = Some c /\ iter (ostep self aTLV N) b (i, off) = Some c)
   \/ exists k y, iter (ostep self aTLV N) k (i, off) = Some y /\ stuck self aTLV N y)
  /\ forall fuel, occurrence_loop fuel self aTLV i N off = Err OutOfFuel.
Proof.
  intros Hi H. rewrite <- occ_list_length in H.
  destruct (occ_enough _ _ _ _ _ _ Hi H) as [[y Hy]|ST].
  - destruct (revisit pair_dec _ (occ_list self N) (i, off) y (ostep_list self aTLV N) Hy) as (a & b & c & H1 & H2 & H3).
    split; [left; eauto 10|]. intros fuel. apply occ_diverges; [exact Hi|]. left. exact (forever _ _ a b c H1 H2 H3).
  - split; [now right|]. intros fuel. apply occ_diverges; [exact Hi|]. now right.
Qed.

Lemma find_up self (HP : forall p t n, getInstance_of self p = Ok t -> tlv_size t = Ok n -> 0 < n) h q fuel : forall p,
  find_ fuel self h p = Ok q -> q <> -1 -> p <= q.
Proof.
  induction fuel as [|f IH]; intros p E Q; [discriminate|]. cbn [find_] in E. destruct (p <? tlen self); [|congruence].
  destruct (tval self) as [v|] eqn:EV; [|discriminate].
  destruct (getInstance v p None) as [t|] eqn:EG; cbn [rbind] in E; [|discriminate].
  destruct (tag_eq_opt (ttag t) h) as [[|]|] eqn:ET; cbn [rbind] in E; [injection E as <-; lia| |discriminate].
  destruct (tlv_size t) as [n|] eqn:ES; cbn [rbind] in E; [|discriminate].
  assert (EG' : getInstance_of self p = Ok t) by (unfold getInstance_of; now rewrite EV).
  pose proof (HP p t n EG' ES). apply IH in E; [lia|assumption].
Qed.

Lemma C46_next_partial_pf : forall self g aTLV N,
  (findNextBound (S (positions self) + Z.to_nat N * positions self) self g aTLV N = Err OutOfFuel ->
   forall fuel, findNextBound fuel self g aTLV N = Err OutOfFuel)
  /\ ((forall p t n, getInstance_of self p = Ok t -> tlv_size t = Ok n -> 0 < n) ->
      findNextBound (S (positions self) + Z.to_nat N * positions self) self g aTLV N <> Err OutOfFuel)
  /\ (forall v, tval self = Some v -> Forall (fun b => 0 <= b) v ->
      forall p t n, getInstance_of self p = Ok t -> tlv_size t = Ok n -> 0 < n).
Proof.
  intros self g aTLV N. set (B := (S (positions self) + Z.to_nat N * positions self)%nat).
  assert (RM : forall p, rmap Some (getInstance_of self p) <> Err OutOfFuel).
  { intros p. pose proof (getInstance_of_not_fuel self p). destruct (getInstance_of self p); cbn [rmap rbind]; congruence. }
  assert (C : findNextBound B self g aTLV N = Err OutOfFuel ->
     occurrence_loop B self aTLV 0 N 0 = Err OutOfFuel
     \/ exists off h, occurrence_loop B self aTLV 0 N 0 = Ok (Some off) /\ g = Some h /\ find_ B self g off = Err OutOfFuel).
  { unfold findNextBound. destruct (occurrence_loop B self aTLV 0 N 0) as [[off|]|e]; cbn [rbind]; [|discriminate|left; congruence].
    destruct g as [h|]; [|intros E; now apply RM in E]. destruct (find_ B self (Some h) off) as [r|e] eqn:E; cbn [rbind].
    - destruct (r =? -1); [discriminate|]. intros E1. now apply RM in E1.
    - intros [= ->]. right. eauto. }
  assert (FB : forall h off, find_ B self h off = Err OutOfFuel -> find_ (S (positions self)) self h off = Err OutOfFuel).
  { intros h off E. destruct (find_ (S (positions self)) self h off) as [r|e] eqn:E'.
    - pose proof (find_more self h (Z.to_nat N * positions self) (S (positions self)) off ltac:(congruence)) as M. fold B in M. congruence.
    - destruct (exn_fuel e) as [->|D]; [reflexivity|].
      pose proof (find_more self h (Z.to_nat N * positions self) (S (positions self)) off ltac:(congruence)) as M. fold B in M. congruence. }
  split; [|split].
  - intros H fuel. destruct (C H) as [E|(off & h & E1 & -> & E2)].
    + apply occ_decided in E as [_ E]; [|lia]. unfold findNextBound. now rewrite E.
    + pose proof (find_decided self (Some h) off (FB _ _ E2)) as E3. unfold findNextBound.
      destruct (occurrence_loop fuel self aTLV 0 N 0) as [o|e] eqn:E; cbn [rbind].
      * assert (E4 : Ok o = Ok (Some off)).
        { rewrite <- E, <- E1. destruct (Nat.le_gt_cases fuel B) as [L|L].
          - replace B with (fuel + (B - fuel))%nat by lia. symmetry. apply occ_more. congruence.
          - replace fuel with (B + (fuel - B))%nat by lia. apply occ_more. congruence. }
        injection E4 as ->. now rewrite E3.
      * destruct (exn_fuel e) as [->|D]; [reflexivity|exfalso].
        assert (E4 : Err e = Ok (Some off)).
        { rewrite <- E, <- E1. destruct (Nat.le_gt_cases fuel B) as [L|L].
          - replace B with (fuel + (B - fuel))%nat by lia. symmetry. apply occ_more. congruence.
          - replace fuel with (B + (fuel - B))%nat by lia. apply occ_more. congruence. }
        discriminate E4.
  - intros HP H.
    assert (NF : forall h off, find_ B self h off = Err OutOfFuel -> False).
    { intros h off E. apply FB, find_iter in E as [q Hq]. rewrite <- pos_list_length in Hq.
      destruct (revisit Z.eq_dec _ (pos_list self) off q (fstep_pos self h) Hq) as (i & j & c & H1 & H2 & H3).
      revert H3. replace j with (i + (j - i))%nat by lia. rewrite iter_plus, H2.
      assert (UP : forall k a b, iter (fstep self h) k a = Some b -> a + Z.of_nat k <= b).
      { induction k as [|k IH]; intros a b Ek; cbn [iter] in Ek; [injection Ek as <-; lia|].
        destruct (fstep self h a) as [a'|] eqn:Ef; [|discriminate]. apply IH in Ek.
        unfold fstep in Ef. destruct (a <? tlen self); [|discriminate]. destruct (getInstance_of self a) as [t|] eqn:EG; [|discriminate].
        destruct (tag_eq_opt _ _) as [[|]|]; try discriminate. destruct (tlv_size t) as [n|] eqn:ES; [|discriminate].
        injection Ef as <-. specialize (HP a t n EG ES). lia. }
      intros H3. apply UP in H3. lia. }
    destruct (C H) as [E|(off & h & E1 & -> & E2)]; [|exact (NF _ _ E2)].
    apply occ_decided in E as [[(a & b & c & H1 & H2 & H3)|(k & y & _ & ST)] _]; [| |lia].
    + revert H3. replace b with (a + (b - a))%nat by lia. rewrite iter_plus, H2.
      assert (UP : forall k x y, iter (ostep self aTLV N) k x = Some y -> snd x + Z.of_nat k <= snd y).
      { induction k as [|k IH]; intros x y Ek; cbn [iter] in Ek; [injection Ek as <-; lia|].
        destruct (ostep self aTLV N x) as [[i' off']|] eqn:Eo; [|discriminate]. apply IH in Ek. cbn [snd] in Ek.
        destruct x as [i off]. unfold ostep in Eo. destruct (_ && _); [|discriminate].
        destruct (find_ _ self (ttag aTLV) off) as [p|] eqn:EF; [|discriminate]. destruct (Z.eqb_spec p (-1)) as [|P]; [discriminate|].
        destruct (getInstance_of self p) as [t|] eqn:EG; [|discriminate]. destruct (tlv_size t) as [n|] eqn:ES; [|discriminate].
        injection Eo as <- <-. cbn [snd]. pose proof (HP p t n EG ES). pose proof (find_up self HP _ _ _ _ EF P). lia. }
      intros H3. apply UP in H3. lia.
    + exact (NF _ _ (proj2 ST B)).
  - intros v Hv Hn p t n EG ES. unfold getInstance_of in EG. rewrite Hv in EG.
    destruct (getInstance_progress v p t Hn EG) as (m & E1 & E2). assert (n = m) by congruence. lia.
Qed.
