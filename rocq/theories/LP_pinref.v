(** * C106-C107: OwnerPIN against a reference PIN, and guessing: proofs *)
From Verif Require Import Py S_Base L_Py M_utils L_utils M_util L_util M_ownerpin S_OwnerPIN LP_ownerpin S_PinRef.
From Coq Require Import ZifyBool ZifyNat.
Ltac Zify.zify_post_hook ::= Z.div_mod_to_equations.


Definition pad (max : Z) (l : list Z) : list Z := l ++ repeat 0 (Z.to_nat max - length l).
Definition sim (lim max : Z) (a : refpin) (s : ownerpin) : Prop :=
  s = mkPIN lim (rtries a) max (pad max (rpin a)) (rflag a) /\ ~ In 0 (rpin a) /\ zlen (rpin a) <= max.

Lemma pad_inj max l l' : ~ In 0 l -> ~ In 0 l' -> pad max l = pad max l' -> l = l'.
Proof.
  unfold pad. generalize (Z.to_nat max - length l)%nat, (Z.to_nat max - length l')%nat. intros n m.
  revert l'. induction l as [|x l IH]; intros [|y l'] N N' E; auto.
  - destruct n as [|n]; cbn in E; [discriminate|]. injection E as E _. subst y. elim N'; now left.
  - destruct m as [|m]; cbn in E; [discriminate|]. injection E as E _. subst x. elim N; now left.
  - cbn in E. injection E as -> E. f_equal. apply IH; auto; intro; [apply N|apply N']; now right.
Qed.

Lemma in_sub {A} (x : A) l o n : In x (sub l o n) -> In x l.
Proof.
  unfold sub. intro H. rewrite <- (firstn_skipn o l). apply in_or_app. right.
  rewrite <- (firstn_skipn n (skipn o l)). apply in_or_app. now left.
Qed.

Lemma str_fill l off len max (old : list Z) : 0 <= off -> 0 <= len <= max -> off + len <= zlen l -> zlen old = max ->
  update_fill (PStr l) off len max old = (Ok tt, pad max (sub l (Z.to_nat off) (Z.to_nat len))).
Proof.
  intros H0 H1 H2 H3. destruct (update_fill_ok (PStr l) off len max old H0 H1 H2 H3) as (l' & -> & L & N).
  f_equal. unfold zlen in *. apply (nth_ext _ _ 0 0).
  - unfold pad. rewrite app_length, repeat_length, sub_length by lia. lia.
  - intros j Hj. rewrite N by lia. cbn [cell]. unfold pad. destruct (Nat.ltb_spec j (Z.to_nat len)).
    + rewrite app_nth1 by (rewrite sub_length by lia; lia). now rewrite nth_sub by lia.
    + rewrite app_nth2 by (rewrite sub_length by lia; lia). now rewrite nth_repeat0.
Qed.

Lemma py_repeat_zlen max : 0 <= max -> zlen (py_repeat 0 max) = max.
Proof. intro H. unfold py_repeat, zlen. rewrite repeat_length. lia. Qed.

Lemma sim_step lim max o a s : 0 <= max -> string_op o -> sim lim max a s ->
  fst (pin_step o s) = fst (ref_step lim max o a) /\ sim lim max (snd (ref_step lim max o a)) (snd (pin_step o s)).
Proof.
  intros Hm Ho (-> & N & L). destruct o as [p off len|p off len| | |b| |]; cbn [string_op] in Ho.
  - destruct Ho as ((l & -> & Nl) & H0 & H1). cbn [ref_step pin_cells pin_step].
    unfold mmap, check, bind, set_validated, get. cbn [trylimit triesremaining maxpinsize thepin validated pin_cells].
    destruct (Z.leb_spec (rtries a) 0) as [T|T]; [cbn; repeat split; auto|].
    assert (B : (zlen l <? off) || (zlen l <? off + len) = (zlen l <? off + len)) by lia. rewrite B; clear B.
    destruct (Z.ltb_spec (zlen l) (off + len)) as [R|R]; [cbn; repeat split; auto|].
    destruct (Z.ltb_spec max len) as [M|M].
    + pose proof (C13_failed_check_refuted_pf (mkPIN lim (rtries a) max (pad max (rpin a)) (rflag a)) l off len T Hm H0 R) as [C _].
      specialize (C M). revert C. unfold check, bind, set_validated, get.
      cbn [trylimit triesremaining maxpinsize thepin validated pin_cells].
      destruct (Z.leb_spec (rtries a) 0); [lia|].
      assert (B : (zlen l <? off) || (zlen l <? off + len) = false) by lia. rewrite B; clear B.
      intros ->. cbn. repeat split; auto.
    + rewrite check_fill_update, str_fill by (rewrite ?py_repeat_zlen; lia).
      destruct (list_eq_dec Z.eq_dec (sub l (Z.to_nat off) (Z.to_nat len)) (rpin a)) as [E|E].
      * rewrite E, (proj2 (list_eqb_eq _ _) eq_refl). cbn. repeat split; auto.
      * destruct (list_eqb (pad max (rpin a)) (pad max (sub l (Z.to_nat off) (Z.to_nat len)))) eqn:Q.
        -- apply list_eqb_eq, pad_inj in Q; auto; [congruence|]. intro I. apply Nl, (in_sub _ _ _ _ I).
        -- cbn. repeat split; auto.
  - destruct Ho as ((l & -> & Nl) & H0 & H1). cbn [ref_step pin_cells pin_step].
    unfold mmap, update, bind, get, raise. cbn [trylimit triesremaining maxpinsize thepin validated pin_cells].
    destruct (Z.ltb_spec max len) as [M|M]; [cbn; repeat split; auto|].
    rewrite (Z.add_comm len off). destruct (Z.ltb_spec (zlen l) (off + len)) as [R|R]; [cbn; repeat split; auto|].
    unfold on_pin. cbn [thepin trylimit triesremaining maxpinsize validated]. rewrite str_fill; try lia.
    + cbn. repeat split; auto; cbn.
      * intro I. apply Nl, (in_sub _ _ _ _ I).
      * unfold zlen in *. rewrite sub_length; lia.
    + unfold pad, zlen in *. rewrite app_length, repeat_length. lia.
  - cbn. unfold mmap, reset, bind, get. cbn. destruct (rflag a) eqn:F; cbn; repeat split; auto. now rewrite F.
  - cbn. repeat split; auto.
  - cbn. repeat split; auto.
  - cbn. repeat split; auto.
  - cbn. repeat split; auto.
Qed.

Lemma sim_run lim max ops : 0 <= max -> Forall string_op ops -> forall a s, sim lim max a s ->
  map snd (fst (pin_run ops s)) = fst (ref_run lim max ops a)
  /\ sim lim max (snd (ref_run lim max ops a)) (snd (pin_run ops s)).
Proof.
  intros Hm. induction 1 as [|o ops Ho _ IH]; intros a s R; [split; auto|].
  destruct (sim_step lim max o a s Hm Ho R) as [E R']. rewrite run_cons. cbn [ref_run].
  destruct (ref_step lim max o a) as [r a']. cbn [fst snd] in *. specialize (IH _ _ R').
  destruct (ref_run lim max ops a') as [rs a'']. cbn [fst snd map] in *. destruct IH as [-> IH]. rewrite E. auto.
Qed.

Lemma C106_history_pf : forall tryLimit maxPINSize ops, 0 <= maxPINSize -> Forall string_op ops ->
  let '(tr, s) := pin_run ops (newOwnerPIN tryLimit maxPINSize) in
  let '(rs, a) := ref_run tryLimit maxPINSize ops ref_new in
  map snd tr = rs /\ isValidated s = (Ok (rflag a), s) /\ getTriesRemaining s = (Ok (rtries a), s).
Proof.
  intros lim max ops Hm Ho. pose proof (sim_run lim max ops Hm Ho ref_new (newOwnerPIN lim max)) as R.
  destruct (pin_run ops (newOwnerPIN lim max)) as [tr s]. destruct (ref_run lim max ops ref_new) as [rs a].
  cbn [fst snd] in R. destruct R as [-> (-> & _)].
  - split; [|split; [intros []|cbn; lia]]. unfold newOwnerPIN, pad, ref_new, py_repeat. cbn. now rewrite Nat.sub_0_r.
  - repeat split; reflexivity.
Qed.

Lemma pin_run_app ops1 : forall ops2 s, pin_run (ops1 ++ ops2) s
  = let '(t1, s1) := pin_run ops1 s in let '(t2, s2) := pin_run ops2 s1 in (t1 ++ t2, s2).
Proof.
  induction ops1 as [|o ops1 IH]; intros ops2 s; cbn [app pin_run].
  - now destruct (pin_run ops2 s).
  - destruct (pin_step o s) as [r s']. rewrite IH. destruct (pin_run ops1 s') as [t1 s1].
    now destruct (pin_run ops2 s1) as [t2 s2].
Qed.

Lemma C106_state_pf : forall tryLimit maxPINSize ops1 ops2 ops, 0 <= maxPINSize ->
  Forall string_op ops1 -> Forall string_op ops2 -> Forall string_op ops ->
  snd (ref_run tryLimit maxPINSize ops1 ref_new) = snd (ref_run tryLimit maxPINSize ops2 ref_new) ->
  map snd (fst (pin_run ops (snd (pin_run ops1 (newOwnerPIN tryLimit maxPINSize)))))
  = map snd (fst (pin_run ops (snd (pin_run ops2 (newOwnerPIN tryLimit maxPINSize))))).
Proof.
  intros lim max ops1 ops2 ops Hm H1 H2 H E.
  assert (S0 : sim lim max ref_new (newOwnerPIN lim max)).
  { split; [|split; [intros []|cbn; lia]]. unfold newOwnerPIN, pad, ref_new, py_repeat. cbn. now rewrite Nat.sub_0_r. }
  pose proof (sim_run lim max ops1 Hm H1 _ _ S0) as [_ (E1 & _)]. pose proof (sim_run lim max ops2 Hm H2 _ _ S0) as [_ (E2 & _)].
  rewrite E1, E2, E. reflexivity.
Qed.

Lemma guess_none lim max p ops : zlen p <= max -> forall k a, rpin a = p -> (rflag a = true -> rtries a = lim) ->
  rtries a <= Z.of_nat k -> lim <= Z.of_nat k \/ rflag a = false ->
  Forall guessing ops -> Forall string_op ops ->
  (forall o, In o (firstn k (filter (counted max) ops)) -> ~ right_guess p o) ->
  forall j o, nth_error ops j = Some o -> nth_error (fst (ref_run lim max ops a)) j = Some (Ok (VBool true)) -> o = OpIsValidated.
Proof.
  intro Hp. induction ops as [|o ops IH]; intros k a E F T K G St N; [intros [|j] o'; discriminate|].
  inversion G as [|? ? G1 G2]; inversion St as [|? ? S1 S2]; subst.
  cbn [ref_run].
  assert (X : forall r a', ref_step lim max o a = (r, a') ->
    (r = Ok (VBool true) -> o = OpIsValidated) /\ rpin a' = rpin a /\ (rflag a' = true -> rtries a' = lim)
    /\ exists k', rtries a' <= Z.of_nat k' /\ (lim <= Z.of_nat k' \/ rflag a' = false)
       /\ forall o', In o' (firstn k' (filter (counted max) ops)) -> In o' (firstn k (filter (counted max) (o :: ops)))).
  { intros r a' R. destruct o as [c off len|c off len| | |b| |]; cbn [guessing] in G1; try contradiction;
      cbn [ref_step] in R; cbn [filter counted] in N |- *.
    - destruct S1 as ((l & -> & Nl) & H0 & H1). cbn [pin_cells] in *.
      destruct (Z.leb_spec (rtries a) 0) as [T0|T0].
      + injection R as <- <-. cbn. repeat split; auto; try discriminate.
        exists 0%nat. repeat split; [lia|auto|]. intros o' [].
      + destruct k as [|k]; [lia|].
        destruct (Z.ltb_spec (zlen l) (off + len)) as [B|B].
        * injection R as <- <-. cbn. repeat split; auto; try discriminate.
          exists k. repeat split; [lia|auto|]. intros o' I. now right.
        * destruct (Z.ltb_spec max len) as [M|M].
          -- injection R as <- <-. cbn [rpin rtries rflag]. repeat split; auto; try discriminate.
             replace (len <=? max) with false by lia. cbn [orb]. exists (S k). repeat split; auto.
          -- replace (len <=? max) with true in * by lia. cbn [orb firstn] in *.
             destruct (list_eq_dec Z.eq_dec (sub l (Z.to_nat off) (Z.to_nat len)) (rpin a)) as [Q|Q].
             ++ exfalso. apply (N (OpCheck (PStr l) off len)); [now left|]. split; [exact B|exact Q].
             ++ injection R as <- <-. cbn [rpin rtries rflag]. repeat split; auto; try discriminate.
                exists k. repeat split; [lia|auto|]. intros o' I. now right.
    - injection R as <- <-. destruct (rflag a) eqn:Fl; cbn [rpin rtries rflag]; repeat split; auto; try discriminate.
      + exists k. repeat split; auto. specialize (F eq_refl). lia.
      + intro Q. congruence.
      + exists k. repeat split; auto.
    - injection R as <- <-. repeat split; auto. exists k. repeat split; auto.
    - injection R as <- <-. repeat split; auto; try discriminate. exists k. repeat split; auto. }
  destruct (ref_step lim max o a) as [r a'] eqn:R. destruct (X r a' eq_refl) as (X1 & X2 & X3 & k' & X4 & X5 & X6).
  destruct (ref_run lim max ops a') as [rs a''] eqn:R2. cbn [fst]. intros [|j] o'; cbn [nth_error].
  - intros Q1 Q2. injection Q1 as <-. injection Q2 as ->. now apply X1.
  - intros Q1 Q2. refine (IH k' a' X2 X3 X4 X5 G2 S2 _ j o' Q1 _); [|now rewrite R2].
    intros o1 I1. apply N, X6, I1.
Qed.

Lemma C107_guesses_pf : forall tryLimit maxPINSize before p ops,
  0 <= tryLimit -> zlen p <= maxPINSize -> ~ In 0 p ->
  Forall string_op before -> Forall string_op ops -> Forall guessing ops ->
  (forall o, In o (firstn (Z.to_nat tryLimit) (filter (counted maxPINSize) ops)) -> ~ right_guess p o) ->
  let s := snd (pin_run (before ++ [OpUpdate (PStr p) 0 (zlen p)]) (newOwnerPIN tryLimit maxPINSize)) in
  forall c off len, ~ In (OpCheck c off len, Ok (VBool true)) (fst (pin_run ops s)).
Proof.
  intros lim max before p ops Hl Hp Np Hb Ho Hg N s c off len I.
  pose proof (zlen_nonneg p) as Zp.
  assert (U : Forall string_op [OpUpdate (PStr p) 0 (zlen p)]).
  { constructor; [|constructor]. cbn. repeat split; [|lia|lia]. exists p. auto. }
  assert (S0 : sim lim max ref_new (newOwnerPIN lim max)).
  { split; [|split; [intros []|cbn; lia]]. unfold newOwnerPIN, pad, ref_new, py_repeat. cbn. now rewrite Nat.sub_0_r. }
  assert (Hm : 0 <= max) by lia.
  destruct (sim_run lim max before Hm Hb _ _ S0) as [_ S1].
  destruct (sim_run lim max _ Hm U _ _ S1) as [_ S2].
  assert (Es : s = snd (pin_run [OpUpdate (PStr p) 0 (zlen p)] (snd (pin_run before (newOwnerPIN lim max))))).
  { unfold s. rewrite pin_run_app. destruct (pin_run before (newOwnerPIN lim max)) as [t1 s1]. cbn [snd].
    destruct (pin_run [OpUpdate (PStr p) 0 (zlen p)] s1); reflexivity. }
  set (a0 := snd (ref_run lim max before ref_new)) in *.
  assert (Ea : snd (ref_run lim max [OpUpdate (PStr p) 0 (zlen p)] a0) = mkRef p lim true).
  { cbn [ref_run ref_step pin_cells]. replace (max <? zlen p) with false by lia.
    replace (zlen p <? 0 + zlen p) with false by lia. cbn [snd]. f_equal.
    unfold sub, zlen. rewrite Nat2Z.id. cbn [Z.to_nat skipn]. apply firstn_all. }
  rewrite <- Es, Ea in S2.
  destruct (sim_run lim max ops Hm Ho _ _ S2) as [O _].
  apply In_nth_error in I. destruct I as [j J].
  assert (T : map fst (fst (pin_run ops s)) = ops).
  { generalize s. clear. induction ops as [|o ops IH]; intro s; [reflexivity|]. rewrite run_cons. cbn [fst map]. now rewrite IH. }
  assert (J1 : nth_error ops j = Some (OpCheck c off len)) by (rewrite <- T, nth_error_map, J; reflexivity).
  assert (J2 : nth_error (fst (ref_run lim max ops (mkRef p lim true))) j = Some (Ok (VBool true)))
    by (rewrite <- O, nth_error_map, J; reflexivity).
  pose proof (guess_none lim max p ops Hp (Z.to_nat lim) (mkRef p lim true) eq_refl (fun _ => eq_refl)
    ltac:(cbn; lia) ltac:(left; lia) Hg Ho N j _ J1 J2). discriminate.
Qed.

Lemma secret_ref lim max p p' ops : Forall guessing ops ->
  (forall o, In o ops -> ~ right_guess p o /\ ~ right_guess p' o) ->
  forall t f, fst (ref_run lim max ops (mkRef p t f)) = fst (ref_run lim max ops (mkRef p' t f)).
Proof.
  induction 1 as [|o ops G _ IH]; intros N t f; [reflexivity|]. cbn [ref_run].
  assert (N' : forall o, In o ops -> ~ right_guess p o /\ ~ right_guess p' o) by (intros; apply N; now right).
  specialize (IH N'). destruct (N o (or_introl eq_refl)) as [N1 N2].
  assert (X : exists r t' f', ref_step lim max o (mkRef p t f) = (r, mkRef p t' f')
                           /\ ref_step lim max o (mkRef p' t f) = (r, mkRef p' t' f')).
  { destruct o as [c off len|c off len| | |b| |]; cbn [guessing] in G; try contradiction;
      cbn [ref_step rpin rtries rflag].
    - cbn [right_guess] in N1, N2. destruct (t <=? 0); [eauto 6|].
      destruct (Z.ltb_spec (zlen (pin_cells c)) (off + len)); [eauto 6|]. destruct (max <? len); [eauto 6|].
      destruct (list_eq_dec Z.eq_dec _ p); [exfalso; apply N1; auto|].
      destruct (list_eq_dec Z.eq_dec _ p'); [exfalso; apply N2; auto|]. eauto 6.
    - destruct f; eauto 6.
    - eauto 6.
    - eauto 6. }
  destruct X as (r & t' & f' & -> & ->). specialize (IH t' f').
  destruct (ref_run lim max ops (mkRef p t' f')), (ref_run lim max ops (mkRef p' t' f')). cbn [fst] in *. now f_equal.
Qed.

Lemma C107_secrecy_pf : forall tryLimit maxPINSize before p p' ops,
  zlen p <= maxPINSize -> zlen p' <= maxPINSize -> ~ In 0 p -> ~ In 0 p' ->
  Forall string_op before -> Forall string_op ops -> Forall guessing ops ->
  (forall o, In o ops -> ~ right_guess p o /\ ~ right_guess p' o) ->
  let s q := snd (pin_run (before ++ [OpUpdate (PStr q) 0 (zlen q)]) (newOwnerPIN tryLimit maxPINSize)) in
  fst (pin_run ops (s p)) = fst (pin_run ops (s p')).
Proof.
  intros lim max before p p' ops Hp Hp' Np Np' Hb Ho Hg N s.
  assert (Hm : 0 <= max) by (pose proof (zlen_nonneg p); lia).
  assert (S0 : sim lim max ref_new (newOwnerPIN lim max)).
  { split; [|split; [intros []|cbn; lia]]. unfold newOwnerPIN, pad, ref_new, py_repeat. cbn. now rewrite Nat.sub_0_r. }
  destruct (sim_run lim max before Hm Hb _ _ S0) as [_ S1].
  assert (Q : forall q, zlen q <= max -> ~ In 0 q -> sim lim max (mkRef q lim true) (s q)).
  { intros q Hq Nq. pose proof (zlen_nonneg q).
    assert (U : Forall string_op [OpUpdate (PStr q) 0 (zlen q)]).
    { constructor; [|constructor]. cbn. repeat split; [|lia|lia]. exists q. auto. }
    destruct (sim_run lim max _ Hm U _ _ S1) as [_ S2].
    assert (Es : s q = snd (pin_run [OpUpdate (PStr q) 0 (zlen q)] (snd (pin_run before (newOwnerPIN lim max))))).
    { unfold s. rewrite pin_run_app. destruct (pin_run before (newOwnerPIN lim max)) as [t1 s1]. cbn [snd].
      destruct (pin_run [OpUpdate (PStr q) 0 (zlen q)] s1); reflexivity. }
    assert (Ea : snd (ref_run lim max [OpUpdate (PStr q) 0 (zlen q)] (snd (ref_run lim max before ref_new))) = mkRef q lim true).
    { cbn [ref_run ref_step pin_cells]. replace (max <? zlen q) with false by lia.
      replace (zlen q <? 0 + zlen q) with false by lia. cbn [snd]. f_equal.
      unfold sub, zlen. rewrite Nat2Z.id. cbn [Z.to_nat skipn]. apply firstn_all. }
    now rewrite <- Es, Ea in S2. }
  destruct (sim_run lim max ops Hm Ho _ _ (Q p Hp Np)) as [O1 _].
  destruct (sim_run lim max ops Hm Ho _ _ (Q p' Hp' Np')) as [O2 _].
  rewrite (secret_ref lim max p p' ops Hg N) in O1. rewrite <- O2 in O1. revert O1.
  generalize (s p), (s p'). clear. induction ops as [|o ops IH]; intros s s' E; [reflexivity|].
  rewrite !run_cons in E |- *. cbn [fst map] in *. injection E as E1 E2. now rewrite E1, (IH _ _ E2).
Qed.
