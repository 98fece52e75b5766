(** * C11-C17: OwnerPIN: proofs *)
From Verif Require Import Py S_Base L_Py M_utils M_util L_utils L_util M_ownerpin S_OwnerPIN.
From Coq Require Import ZifyBool ZifyNat.
Ltac Zify.zify_post_hook ::= Z.div_mod_to_equations.


(** ** the fill functions keep the length *)
Lemma bind_inv {S A B} (P : S -> Prop) (m : M S A) (f : A -> M S B) :
  (forall s, P s -> P (snd (m s))) -> (forall a s, P s -> P (snd (f a s))) ->
  forall s, P s -> P (snd (bind m f s)).
Proof.
  intros Hm Hf s Hs. unfold bind. specialize (Hm s Hs). destruct (m s) as [[a|e] s']; cbn in *; auto.
Qed.

Lemma aset_len_inv k i v l : length l = k -> length (snd (aset i v l)) = k.
Proof. rewrite aset_length. auto. Qed.

Lemma store_chars_len cs : forall i (l : list Z) k, length l = k -> length (snd (store_chars cs i l)) = k.
Proof.
  induction cs as [|c cs IH]; intros i l k H; cbn [store_chars]; [exact H|].
  apply (bind_inv (fun l => length l = k)); auto using aset_len_inv.
Qed.

Lemma for_range_len a b body k : (forall i l, length l = k -> length (snd (body i l)) = k) ->
  forall l : list Z, length l = k -> length (snd (for_range a b body l)) = k.
Proof. intros H l. unfold for_range. apply (for_loop_inv (fun l => length l = k)); auto. Qed.

Lemma arr_fill_len pin off len k : forall l, length l = k ->
  length (snd (for_range off (off + len) (fun i => v <- lift (py_get pin i) ;; aset (off - i) v) l)) = k.
Proof.
  apply for_range_len. intros i l H.
  apply (bind_inv (fun l => length l = k)); auto using aset_len_inv.
Qed.

Lemma zero_fill_len len max k : forall l, length l = k ->
  length (snd (for_range len max (fun i => aset i 0) l)) = k.
Proof. apply for_range_len. intros; now apply aset_len_inv. Qed.

Lemma update_fill_len p off len max l : length (snd (update_fill p off len max l)) = length l.
Proof.
  unfold update_fill. apply (bind_inv (fun l' => length l' = length l)); auto.
  - intros s Hs. destruct p; auto using store_chars_len, arr_fill_len.
  - intros _ s Hs. now apply zero_fill_len.
Qed.

Lemma check_fill_update p off len max l : check_fill p off len max l = update_fill p off len max l.
Proof. destruct p; reflexivity. Qed.

(** ** exact result of the fills *)
Lemma store_chars_ok cs : forall i (l : list Z), 0 <= i -> i + zlen cs <= zlen l ->
  store_chars cs i l = (Ok tt, splice l (Z.to_nat i) cs).
Proof.
  induction cs as [|c cs IH]; intros i l H0 H1; cbn [store_chars].
  - now rewrite splice_nil.
  - rewrite zlen_cons in H1. pose proof (zlen_nonneg cs).
    unfold bind. rewrite aset_in by lia. rewrite IH by (rewrite ?zlen_list_upd; lia).
    f_equal. rewrite <- splice_cons by (unfold zlen in *; lia). f_equal. lia.
Qed.

Lemma store_chars_err cs : forall i (l : list Z), 0 <= i -> zlen l < i + zlen cs -> 0 < zlen cs ->
  fst (store_chars cs i l) = Err IndexError.
Proof.
  induction cs as [|c cs IH]; intros i l H0 H1 H2; [cbn in H2; lia|]. cbn [store_chars].
  rewrite zlen_cons in *. unfold bind.
  destruct (Z.lt_ge_cases i (zlen l)) as [H|H].
  - rewrite aset_in by lia. apply IH; rewrite ?zlen_list_upd; lia.
  - now rewrite aset_out by lia.
Qed.

Lemma zero_fill_ok len max (l : list Z) : 0 <= len -> max <= zlen l ->
  for_range len max (fun i => aset i 0) l
  = (Ok tt, splice l (Z.to_nat len) (repeat 0 (Z.to_nat (max - len)))).
Proof.
  intros H0 H1. unfold for_range. destruct (Z.lt_ge_cases len max) as [H|H].
  - pose proof (fill_loop_ok (Z.to_nat (max - len)) l 0 len 0) as E. rewrite !Z.add_0_l in E.
    rewrite <- E by lia. reflexivity.
  - replace (Z.to_nat (max - len)) with 0%nat by lia. cbn. now rewrite splice_nil.
Qed.

(** the reversed store: after [n] steps *)
Lemma arr_loop_ok pin off : forall n i (l : list Z),
  0 <= off -> off <= i -> i + Z.of_nat n <= zlen pin -> 0 < zlen l ->
  i + Z.of_nat n - off <= zlen l ->
  exists l', for_loop n i (fun i => v <- lift (py_get pin i) ;; aset (off - i) v) l = (Ok tt, l')
  /\ length l' = length l
  /\ forall j, (j < length l)%nat -> nth j l' 0 =
       let k := if Nat.eqb j 0 then 0 else zlen l - Z.of_nat j in
       if (i - off <=? k) && (k <? i - off + Z.of_nat n) then nth (Z.to_nat (off + k)) pin 0
       else nth j l 0.
Proof.
  induction n as [|n IH]; intros i l H0 Hi Hp Hl Hn.
  - exists l. split; [reflexivity|]. split; [reflexivity|]. intros j Hj. cbv zeta.
    set (k := if Nat.eqb j 0 then 0 else zlen l - Z.of_nat j).
    replace ((i - off <=? k) && (k <? i - off + Z.of_nat 0)) with false by lia. reflexivity.
  - cbn [for_loop]. unfold bind at 1. unfold bind at 1. unfold lift at 1.
    rewrite (py_get_in _ _ 0) by lia.
    set (v := nth (Z.to_nat i) pin 0).
    assert (E : exists q, aset (off - i) v l = (Ok tt, list_upd l q v)
       /\ (q < length l)%nat
       /\ (if Nat.eqb q 0 then 0 else zlen l - Z.of_nat q) = i - off).
    { unfold aset. destruct (Z.eq_dec i off) as [->|Hne].
      - rewrite Z.sub_diag. rewrite py_set_in by lia. exists 0%nat.
        split; [reflexivity|]. split; [unfold zlen in *; lia|]. cbn. lia.
      - rewrite py_set_neg by lia. exists (Z.to_nat (off - i + zlen l)).
        split; [reflexivity|]. split; [unfold zlen in *; lia|].
        destruct (Nat.eqb_spec (Z.to_nat (off - i + zlen l)) 0); lia. }
    destruct E as (q & -> & Hq & Ek).
    destruct (IH (i + 1) (list_upd l q v)) as (l' & Hr & Hlen & Hnth);
      try (rewrite ?zlen_list_upd); try lia.
    exists l'. rewrite Hr. rewrite list_upd_length in Hlen, Hnth. split; [reflexivity|].
    split; [assumption|]. intros j Hj. rewrite (Hnth j Hj). rewrite zlen_list_upd.
    cbv zeta. set (k := if Nat.eqb j 0 then 0 else zlen l - Z.of_nat j).
    rewrite nth_list_upd. replace (Nat.ltb q (length l)) with true by lia. rewrite andb_true_r.
    destruct (Nat.eqb_spec j q) as [->|Hjq].
    + assert (Ekq : k = i - off) by exact Ek. rewrite Ekq.
      replace ((i + 1 - off <=? i - off) && (i - off <? i + 1 - off + Z.of_nat n)) with false by lia.
      replace ((i - off <=? i - off) && (i - off <? i - off + Z.of_nat (S n))) with true by lia.
      unfold v. f_equal. lia.
    + assert (Hk : k <> i - off).
      { unfold k. intros E. rewrite <- Ek in E. apply Hjq.
        destruct (Nat.eqb_spec j 0); destruct (Nat.eqb_spec q 0); unfold zlen in *; lia. }
      replace ((i - off <=? k) && (k <? i - off + Z.of_nat (S n)))
        with ((i + 1 - off <=? k) && (k <? i + 1 - off + Z.of_nat n)) by lia.
      reflexivity.
Qed.

Lemma nth_repeat0 n j : nth j (repeat 0 n) 0 = 0.
Proof. revert j; induction n as [|n IH]; intros [|j]; simpl; auto. Qed.

Lemma nth_splice_zeros (l : list Z) len m j : (len + m <= length l)%nat -> (len <= j)%nat -> (length l <= len + m)%nat ->
  nth j (splice l len (repeat 0 m)) 0 = 0.
Proof.
  intros H H0 H1. destruct (Nat.lt_ge_cases j (len + m)).
  - rewrite nth_splice_in by (rewrite ?repeat_length; lia). apply nth_repeat0.
  - apply nth_overflow. rewrite splice_length; rewrite ?repeat_length; lia.
Qed.

(** Laying out a proper range over [old]: never fails, cell by cell as the
    specification says. *)
Lemma update_fill_ok p off len max (old : list Z) :
  0 <= off -> 0 <= len <= max -> off + len <= zlen (pin_cells p) -> zlen old = max ->
  exists l', update_fill p off len max old = (Ok tt, l') /\ length l' = length old
  /\ forall j, (j < length old)%nat ->
     nth j l' 0 = cell p (Z.to_nat off) (Z.to_nat len) (Z.to_nat max) old j.
Proof.
  intros H0 H1 H2 H3. unfold update_fill. destruct p as [pin|pin]; cbn [pin_cells] in H2.
  - unfold bind. rewrite py_slice_in by lia. replace (off + len - off) with len by lia.
    assert (Hs : length (sub pin (Z.to_nat off) (Z.to_nat len)) = Z.to_nat len)
      by (apply sub_length; unfold zlen in *; lia).
    rewrite store_chars_ok by (unfold zlen in *; lia).
    set (l1 := splice old _ _).
    assert (L1 : length l1 = length old) by (apply splice_length; rewrite Hs; unfold zlen in *; lia).
    rewrite zero_fill_ok by (unfold zlen in *; lia).
    eexists; split; [reflexivity|]. split.
    { rewrite splice_length; [assumption|]. rewrite repeat_length. unfold zlen in *; lia. }
    intros j Hj. cbn [cell]. destruct (Nat.ltb_spec j (Z.to_nat len)).
    + rewrite nth_splice_out by (rewrite ?repeat_length; unfold zlen in *; lia).
      unfold l1. rewrite nth_splice_in by (rewrite ?Hs; unfold zlen in *; lia).
      rewrite nth_sub by lia. f_equal. lia.
    + apply nth_splice_zeros; unfold zlen in *; lia.
  - unfold for_range at 1. replace (off + len - off) with len by lia.
    destruct (Z.eq_dec len 0) as [->|Hlen].
    + change (Z.to_nat 0) with 0%nat. cbn [for_loop]. rewrite (bind_ok _ _ _ tt old) by reflexivity.
      rewrite zero_fill_ok by lia.
      eexists; split; [reflexivity|]. split.
      { rewrite splice_length; [reflexivity|]. rewrite repeat_length. unfold zlen in *; lia. }
      intros j Hj. cbn [cell]. change (Z.to_nat 0) with 0%nat. cbn [Nat.leb].
      apply nth_splice_zeros; unfold zlen in *; lia.
    + destruct (arr_loop_ok pin off (Z.to_nat len) off old) as (l1 & Hr & L1 & Hn); try lia.
      rewrite (bind_ok _ _ _ _ _ Hr). rewrite zero_fill_ok by (unfold zlen in *; lia).
      eexists; split; [reflexivity|]. split.
      { rewrite splice_length; [assumption|]. rewrite repeat_length. unfold zlen in *; lia. }
      intros j Hj. cbn [cell]. destruct (Nat.leb_spec (Z.to_nat len) j).
      * apply nth_splice_zeros; unfold zlen in *; lia.
      * rewrite nth_splice_out by (rewrite ?repeat_length; unfold zlen in *; lia).
        rewrite Hn by assumption. cbv zeta. rewrite Z.sub_diag, Z.add_0_l. rewrite Z2Nat.id by lia.
        destruct (Nat.eqb_spec j 0) as [->|Hj0].
        -- replace ((0 <=? 0) && (0 <? len)) with true by lia. f_equal. lia.
        -- destruct (Nat.ltb_spec (Z.to_nat max) (j + Z.to_nat len)).
           ++ replace ((0 <=? zlen old - Z.of_nat j) && (zlen old - Z.of_nat j <? len)) with true by (unfold zlen in *; lia).
              f_equal. lia.
           ++ replace ((0 <=? zlen old - Z.of_nat j) && (zlen old - Z.of_nat j <? len)) with false by (unfold zlen in *; lia).
              reflexivity.
Qed.

(** ** the calls *)

(** every outcome of check *)
Lemma check_cases p off len s :
  let s0 := mkPIN (trylimit s) (triesremaining s) (maxpinsize s) (thepin s) false in
  let dec := mkPIN (trylimit s) (triesremaining s - 1) (maxpinsize s) (thepin s) false in
  let good := mkPIN (trylimit s) (trylimit s) (maxpinsize s) (thepin s) true in
  (triesremaining s <= 0 /\ check p off len s = (Ok false, s0))
  \/ (0 < triesremaining s /\
      (check p off len s = (Err ArrayIndexOutOfBounds, dec)
       \/ (exists e, check p off len s = (Err e, s0)
            /\ fst (check_fill p off len (maxpinsize s) (py_repeat 0 (maxpinsize s))) = Err e)
       \/ check p off len s = (Ok false, dec)
       \/ check p off len s = (Ok true, good))).
Proof.
  cbv zeta. unfold check, set_validated, set_tries, bind, get, ret, raise.
  cbn [triesremaining trylimit maxpinsize thepin validated].
  destruct (Z.leb_spec (triesremaining s) 0) as [H|H]; [left; auto|right]. split; [lia|].
  destruct (_ || _); [left; reflexivity|].
  destruct (check_fill p off len (maxpinsize s) (py_repeat 0 (maxpinsize s))) as [[u|e] l]; cbn [fst].
  - destruct (list_eqb (thepin s) l); cbn; auto.
  - right. left. exists e. auto.
Qed.

Definition inv (lim max : Z) (s : ownerpin) : Prop :=
  trylimit s = lim /\ maxpinsize s = max /\ zlen (thepin s) = Z.max 0 max /\
  0 <= triesremaining s <= lim.

Lemma update_cases p off len s :
  (exists e l, update p off len s = (Err e, mkPIN (trylimit s) (triesremaining s) (maxpinsize s) l (validated s))
     /\ length l = length (thepin s))
  \/ (exists l, update p off len s = (Ok tt, mkPIN (trylimit s) (trylimit s) (maxpinsize s) l true)
     /\ length l = length (thepin s)).
Proof.
  unfold update, bind, get, raise.
  destruct (_ <? _); [left; exists (PINExc len), (thepin s); split; auto; now destruct s|].
  destruct (_ <? _); [left; exists ArrayIndexOutOfBounds, (thepin s); split; auto; now destruct s|].
  unfold on_pin. pose proof (update_fill_len p off len (maxpinsize s) (thepin s)) as L.
  destruct (update_fill p off len (maxpinsize s) (thepin s)) as [[u|e] l]; cbn [snd] in L.
  - right. exists l. auto.
  - left. exists e, l. auto.
Qed.

Lemma step_inv lim max o s : 0 <= lim -> inv lim max s -> inv lim max (snd (pin_step o s)).
Proof.
  intros Hl (H1 & H2 & H3 & H4). destruct o; unfold pin_step, mmap, bind.
  - destruct (check_cases p offset length s) as [[Ht ->]|[Ht [->|[(e & -> & _)|[->| ->]]]]];
      cbn; unfold inv; cbn; repeat split; auto; lia.
  - destruct (update_cases p offset length s) as [(e & l & -> & L)|(l & -> & L)];
      cbn; unfold inv; cbn; repeat split; auto; unfold zlen in *; lia.
  - unfold reset, bind, get. destruct (validated s); cbn; unfold inv; cbn; repeat split; auto; lia.
  - cbn; unfold inv; cbn; repeat split; auto; lia.
  - cbn; unfold inv; cbn; repeat split; auto; lia.
  - cbn; unfold inv; cbn; repeat split; auto; lia.
  - cbn; unfold inv; cbn; repeat split; auto; lia.
Qed.

Lemma run_cons o ops s : pin_run (o :: ops) s =
  ((o, fst (pin_step o s)) :: fst (pin_run ops (snd (pin_step o s))),
   snd (pin_run ops (snd (pin_step o s)))).
Proof. cbn [pin_run]. destruct (pin_step o s) as [r s']. cbn. destruct (pin_run ops s'); reflexivity. Qed.

Lemma run_inv (P : ownerpin -> Prop) :
  (forall o s, P s -> P (snd (pin_step o s))) ->
  forall ops s, P s -> P (snd (pin_run ops s)).
Proof.
  intros H ops; induction ops as [|o ops IH]; intros s Hs; [exact Hs|].
  rewrite run_cons. cbn [snd]. apply IH, H, Hs.
Qed.

Lemma C11_tries_in_range_pf : forall tryLimit maxPINSize ops, 0 <= tryLimit ->
  let s := snd (pin_run ops (newOwnerPIN tryLimit maxPINSize)) in
  (exists t, getTriesRemaining s = (Ok t, s) /\ 0 <= t <= tryLimit)
  /\ zlen (thepin s) = Z.max 0 maxPINSize
  /\ trylimit s = tryLimit /\ maxpinsize s = maxPINSize.
Proof.
  intros lim max ops Hl s.
  assert (I : inv lim max s).
  { apply run_inv; [intros; now apply step_inv|].
    unfold inv, newOwnerPIN; cbn. repeat split; auto; try lia.
    unfold py_repeat. rewrite zlen_repeat. lia. }
  destruct I as (H1 & H2 & H3 & H4).
  split; [exists (triesremaining s); split; [reflexivity|assumption]|]. auto.
Qed.

Lemma C12_blocked_stays_blocked_pf : forall s, triesremaining s = 0 ->
  (forall p off len, check p off len s
     = (Ok false, mkPIN (trylimit s) 0 (maxpinsize s) (thepin s) false))
  /\ (validated s = false -> forall ops, forallb harmless ops = true ->
      snd (pin_run ops s) = s
      /\ (forall p off len r, In (OpCheck p off len, r) (fst (pin_run ops s)) -> r = Ok (VBool false))
      /\ (forall r, In (OpIsValidated, r) (fst (pin_run ops s)) -> r = Ok (VBool false))
      /\ (forall r, In (OpGetTries, r) (fst (pin_run ops s)) -> r = Ok (VInt 0))).
Proof.
  intros s Hs.
  assert (Hc : forall p off len, check p off len s
     = (Ok false, mkPIN (trylimit s) 0 (maxpinsize s) (thepin s) false)).
  { intros p off len. destruct (check_cases p off len s) as [[Ht E]|[Ht _]]; [|lia].
    rewrite E, Hs. reflexivity. }
  split; [exact Hc|]. intros Hv ops.
  assert (Es : mkPIN (trylimit s) 0 (maxpinsize s) (thepin s) false = s).
  { rewrite <- Hs, <- Hv. now destruct s. }
  assert (St : forall o, harmless o = true -> snd (pin_step o s) = s /\
     fst (pin_step o s) = match o with OpCheck _ _ _ | OpIsValidated => Ok (VBool false)
                          | OpGetTries => Ok (VInt 0) | _ => Ok VUnit end).
  { intros o Ho. destruct o; try discriminate; unfold pin_step, mmap, bind.
    - rewrite Hc, Es. auto.
    - unfold reset, bind, get. rewrite Hv. auto.
    - destruct b; [discriminate|]. cbn. rewrite Hs, Es. auto.
    - cbn. rewrite Hv. auto.
    - cbn. rewrite Hs. auto. }
  induction ops as [|o ops IH]; intros Hops.
  { cbn. repeat split; tauto. }
  cbn [forallb] in Hops. apply andb_true_iff in Hops as [Ho Hops].
  destruct (St o Ho) as [E1 E2]. rewrite run_cons, E1. cbn [fst snd].
  destruct (IH Hops) as (I1 & I2 & I3 & I4). split; [assumption|].
  rewrite E2. split; [|split].
  - intros p off len r [E|Hin]; [|eauto]. injection E as -> <-. reflexivity.
  - intros r [E|Hin]; [|eauto]. injection E as -> <-. reflexivity.
  - intros r [E|Hin]; [|eauto]. injection E as -> <-. reflexivity.
Qed.

Lemma C13_failed_check_refuted_pf : forall s l off len,
  0 < triesremaining s -> 0 <= maxpinsize s -> 0 <= off -> off + len <= zlen l ->
  (maxpinsize s < len -> check (PStr l) off len s = (Err IndexError, mkPIN (trylimit s) (triesremaining s) (maxpinsize s) (thepin s) false))
  /\ (maxpinsize s + 1 < len -> check (PArr l) off len s = (Err IndexError, mkPIN (trylimit s) (triesremaining s) (maxpinsize s) (thepin s) false)).
Proof.
  intros s l off len Ht Hm Ho Hb.
  unfold check, set_validated, set_tries, bind, get, ret, raise.
  cbn [triesremaining trylimit maxpinsize thepin validated pin_cells].
  replace (triesremaining s <=? 0) with false by lia.
  assert (Z0 : zlen (py_repeat 0 (maxpinsize s)) = maxpinsize s).
  { unfold py_repeat. rewrite zlen_repeat. lia. }
  split; intros Hlen.
  - replace ((zlen l <? off) || (zlen l <? off + len)) with false by lia.
    cbn [check_fill]. unfold bind.
    rewrite py_slice_in by lia. replace (off + len - off) with len by lia.
    assert (Hs : zlen (sub l (Z.to_nat off) (Z.to_nat len)) = len)
      by (unfold zlen; rewrite sub_length; unfold zlen in *; lia).
    pose proof (store_chars_err (sub l (Z.to_nat off) (Z.to_nat len)) 0 (py_repeat 0 (maxpinsize s))) as E.
    rewrite Hs in E. destruct (store_chars _ _ _) as [r l']. cbn [fst] in E. rewrite E by lia. reflexivity.
  - replace ((zlen l <? off) || (zlen l <? off + len)) with false by lia.
    cbn [check_fill]. unfold for_range at 1. replace (off + len - off) with len by lia.
    match goal with |- context [bind (for_loop ?n ?i ?b) _ ?l0] => set (body := b); set (l1 := l0) end.
    assert (E : fst (for_loop (Z.to_nat len) off body l1) = Err IndexError).
    { destruct (Z.eq_dec (maxpinsize s) 0) as [Hm0|Hm0].
      - replace (Z.to_nat len) with (S (Z.to_nat (len - 1))) by lia. cbn [for_loop].
        unfold bind at 1, body at 1, lift, bind. rewrite (py_get_in _ _ 0) by lia.
        rewrite aset_out; [reflexivity|]. unfold l1; lia.
      - replace (Z.to_nat len) with (Z.to_nat (maxpinsize s) + (1 + (1 + Z.to_nat (len - maxpinsize s - 2))))%nat by lia.
        rewrite for_loop_app.
        destruct (arr_loop_ok l off (Z.to_nat (maxpinsize s)) off l1) as (l2 & Hr & L2 & _);
          try (unfold l1; lia).
        fold body in Hr. rewrite Hr.
        assert (Z2 : zlen l2 = maxpinsize s) by (unfold zlen, l1 in *; lia).
        cbn [Nat.add for_loop].
        assert (B1 : body (off + Z.of_nat (Z.to_nat (maxpinsize s))) l2
                = (Ok tt, list_upd l2 0 (nth (Z.to_nat (off + maxpinsize s)) l 0))).
        { unfold body, bind, lift, aset. rewrite (py_get_in _ _ 0) by lia.
          rewrite py_set_neg by lia. do 2 f_equal; [lia|]. f_equal. lia. }
        rewrite (bind_ok _ _ _ _ _ B1). apply bind_err_fst.
        unfold body, bind, lift. rewrite (py_get_in _ _ 0) by lia.
        rewrite aset_out; [reflexivity|]. rewrite zlen_list_upd. lia. }
    apply bind_err_fst with (f := fun _ => for_range len (maxpinsize s) (fun i => aset i 0)) in E.
    match goal with |- context [bind ?m ?f l1] => change (fst (bind m f l1) = Err IndexError) in E; destruct (bind m f l1) as [r l'] end.
    cbn [fst] in E. rewrite E. reflexivity.
Qed.

(** Exact description of check on an unblocked object for proper ranges
    (inside the argument, not longer than the PIN size). *)
Lemma check_proper p off len s :
  0 < triesremaining s -> zlen (thepin s) = maxpinsize s -> proper (maxpinsize s) p off len ->
  check p off len s =
  (let ok := forallb (fun j => nth j (thepin s) 0 =?
               cell p (Z.to_nat off) (Z.to_nat len) (Z.to_nat (maxpinsize s)) [] j)
             (seq 0 (length (thepin s))) in
   if ok then (Ok true, mkPIN (trylimit s) (trylimit s) (maxpinsize s) (thepin s) true)
   else (Ok false, mkPIN (trylimit s) (triesremaining s - 1) (maxpinsize s) (thepin s) false)).
Proof.
  intros Ht Hz (Ho & Hl & Hb).
  unfold check, set_validated, set_tries, bind, get, ret, raise.
  cbn [triesremaining trylimit maxpinsize thepin validated].
  replace (triesremaining s <=? 0) with false by lia.
  replace ((zlen (pin_cells p) <? off) || (zlen (pin_cells p) <? off + len)) with false by lia.
  rewrite check_fill_update.
  destruct (update_fill_ok p off len (maxpinsize s) (py_repeat 0 (maxpinsize s))) as (l' & -> & L & Hn); auto.
  { unfold py_repeat. rewrite zlen_repeat. pose proof (zlen_nonneg (thepin s)). lia. }
  assert (L' : length l' = length (thepin s)).
  { rewrite L. unfold py_repeat. rewrite repeat_length. unfold zlen in *. lia. }
  cbv zeta.
  assert (E : list_eqb (thepin s) l' = forallb (fun j => nth j (thepin s) 0 =?
               cell p (Z.to_nat off) (Z.to_nat len) (Z.to_nat (maxpinsize s)) [] j)
             (seq 0 (length (thepin s)))).
  { apply Bool.eq_iff_eq_true. rewrite list_eqb_eq, forallb_forall. split.
    - intros E j Hj. apply in_seq in Hj. rewrite E, Hn by lia. apply Z.eqb_eq.
      unfold cell. destruct p; auto. destruct (_ <=? _)%nat; auto. destruct (_ =? _)%nat; auto.
      destruct (_ <? _)%nat; auto. unfold py_repeat. rewrite nth_repeat0. destruct j; reflexivity.
    - intros E. apply (nth_ext_all _ _ 0); [auto|]. intros j Hj.
      specialize (E j). rewrite in_seq in E. specialize (E ltac:(lia)). apply Z.eqb_eq in E.
      rewrite E, Hn by lia.
      unfold cell. destruct p; auto. destruct (_ <=? _)%nat; auto. destruct (_ =? _)%nat; auto.
      destruct (_ <? _)%nat; auto. unfold py_repeat. rewrite nth_repeat0. destruct j; reflexivity. }
  rewrite E. destruct (forallb _ _); reflexivity.
Qed.

Lemma C13_failed_check_partial_pf : forall p off len s,
  0 < triesremaining s -> zlen (thepin s) = maxpinsize s ->
  (proper (maxpinsize s) p off len \/ zlen (pin_cells p) < off \/ zlen (pin_cells p) < off + len) ->
  check p off len s = (Ok true, mkPIN (trylimit s) (trylimit s) (maxpinsize s) (thepin s) true)
  \/ ((fst (check p off len s) = Ok false \/ fst (check p off len s) = Err ArrayIndexOutOfBounds)
      /\ snd (check p off len s) = mkPIN (trylimit s) (triesremaining s - 1) (maxpinsize s) (thepin s) false).
Proof.
  intros p off len s Ht Hz [H|H].
  - rewrite check_proper by assumption. cbv zeta. destruct (forallb _ _); auto.
  - right. unfold check, set_validated, set_tries, bind, get, ret, raise.
    cbn [triesremaining trylimit maxpinsize thepin validated].
    replace (triesremaining s <=? 0) with false by lia.
    replace ((zlen (pin_cells p) <? off) || (zlen (pin_cells p) <? off + len)) with true by lia. auto.
Qed.

Lemma C13_guesses_partial_pf : forall guesses s,
  zlen (thepin s) = maxpinsize s -> 0 <= triesremaining s ->
  (forall p off len, In (p, off, len) guesses ->
     proper (maxpinsize s) p off len \/ zlen (pin_cells p) < off \/ zlen (pin_cells p) < off + len) ->
  let ops := map (fun g => OpCheck (fst (fst g)) (snd (fst g)) (snd g)) guesses in
  (forall o, ~ In (o, Ok (VBool true)) (fst (pin_run ops s))) ->
  triesremaining (snd (pin_run ops s)) = Z.max 0 (triesremaining s - zlen guesses)
  /\ thepin (snd (pin_run ops s)) = thepin s.
Proof.
  induction guesses as [|[[p off] len] gs IH]; intros s Hz Ht Hg ops Hn.
  { cbn. split; [lia|reflexivity]. }
  subst ops. cbn [map fst snd] in *. rewrite run_cons in *. cbn [fst snd] in *.
  set (s' := snd (pin_step (OpCheck p off len) s)) in *.
  assert (Hg1 : proper (maxpinsize s) p off len \/ zlen (pin_cells p) < off \/ zlen (pin_cells p) < off + len)
    by (apply Hg; left; reflexivity).
  assert (E : triesremaining s' = Z.max 0 (triesremaining s - 1) /\ thepin s' = thepin s /\ maxpinsize s' = maxpinsize s).
  { destruct (Z.eq_dec (triesremaining s) 0) as [H0|H0].
    - destruct (check_cases p off len s) as [[_ E]|[Hc _]]; [|lia].
      unfold s', pin_step, mmap, bind. rewrite E. cbn. repeat split; lia.
    - destruct (C13_failed_check_partial_pf p off len s) as [E|[E1 E2]]; auto; try lia.
      + exfalso. eapply Hn. left. unfold pin_step, mmap, bind. rewrite E. reflexivity.
      + unfold s', pin_step, mmap, bind. destruct (check p off len s) as [r s2]. cbn [fst snd] in *. subst s2.
        destruct E1 as [-> | ->]; cbn; repeat split; lia. }
  destruct E as (E1 & E2 & E3).
  destruct (IH s') as [I1 I2]; try congruence; try lia.
  - intros p' off' len' Hin. rewrite E3. apply Hg. right. assumption.
  - intros o Hin. eapply Hn. right. exact Hin.
  - rewrite I1, I2, E1, E2. rewrite zlen_cons. pose proof (zlen_nonneg gs). split; [lia|reflexivity].
Qed.

Lemma update_proper p off len s :
  zlen (thepin s) = maxpinsize s -> proper (maxpinsize s) p off len ->
  exists l, update p off len s = (Ok tt, mkPIN (trylimit s) (trylimit s) (maxpinsize s) l true)
  /\ length l = length (thepin s)
  /\ forall j, (j < length l)%nat ->
     nth j l 0 = cell p (Z.to_nat off) (Z.to_nat len) (Z.to_nat (maxpinsize s)) (thepin s) j.
Proof.
  intros Hz (Ho & Hl & Hb). unfold update, bind, get.
  replace (maxpinsize s <? len) with false by lia.
  replace (zlen (pin_cells p) <? len + off) with false by lia.
  unfold on_pin. destruct (update_fill_ok p off len (maxpinsize s) (thepin s)) as (l & -> & L & Hn); auto.
  exists l. split; [reflexivity|]. split; [assumption|]. rewrite L. assumption.
Qed.

Lemma C14_check_exact_partial_pf : forall s p off len ops c coff clen,
  zlen (thepin s) = maxpinsize s -> proper (maxpinsize s) p off len -> proper (maxpinsize s) c coff clen ->
  forallb (fun o => negb (is_update o)) ops = true ->
  let s1 := snd (update p off len s) in
  let s2 := snd (pin_run ops s1) in
  0 < triesremaining s2 ->
  fst (update p off len s) = Ok tt
  /\ (fst (check c coff clen s2) = Ok true <->
      forall j, (j < Z.to_nat (maxpinsize s))%nat ->
        cell p (Z.to_nat off) (Z.to_nat len) (Z.to_nat (maxpinsize s)) (thepin s) j
        = cell c (Z.to_nat coff) (Z.to_nat clen) (Z.to_nat (maxpinsize s)) [] j)
  /\ (fst (check c coff clen s2) = Ok true \/ fst (check c coff clen s2) = Ok false).
Proof.
  intros s p off len ops c coff clen Hz Hp Hc Hops s1 s2 Ht.
  destruct (update_proper p off len s) as (l & Hu & Hl & Hn); auto.
  assert (Es2 : s2 = snd (pin_run ops (mkPIN (trylimit s) (trylimit s) (maxpinsize s) l true)))
    by (unfold s2, s1; rewrite Hu; reflexivity).
  clearbody s2. clear s1. rewrite Hu. cbn [fst snd].
  assert (E : thepin s2 = l /\ maxpinsize s2 = maxpinsize s).
  { rewrite Es2. clear Ht Es2. match goal with |- context [pin_run ops ?x] => set (s0 := x) end.
    assert (E0 : thepin s0 = l /\ maxpinsize s0 = maxpinsize s) by (split; reflexivity).
    clearbody s0. revert s0 E0. induction ops as [|o ops IH]; intros s0 E0; [exact E0|].
    cbn [forallb] in Hops. apply andb_true_iff in Hops as [Ho Hops].
    rewrite run_cons. cbn [snd]. apply IH; [assumption|]. destruct E0 as [<- <-].
    destruct o; try discriminate; unfold pin_step, mmap, bind.
    - destruct (check_cases p0 offset length s0) as [[_ ->]|[_ [->|[(e & -> & _)|[->| ->]]]]]; auto.
    - unfold reset, bind, get. destruct (validated s0); auto.
    - auto.
    - auto.
    - auto.
    - auto. }
  destruct E as [E1 E2]. clear Hops. split; [reflexivity|].
  rewrite check_proper; auto; [|rewrite E1, E2; unfold zlen in *; lia|rewrite E2; assumption].
  cbv zeta. rewrite E1, E2.
  assert (Hlen : length l = Z.to_nat (maxpinsize s)) by (unfold zlen in *; lia).
  rewrite Hlen in *.
  split.
  - match goal with |- context [forallb ?f ?l] => pose proof (forallb_forall f l) as Eb; destruct (forallb f l) end;
    cbn [fst].
    + split; [|auto]. intros _ j Hj. rewrite <- Hn by assumption. apply Z.eqb_eq. apply Eb; [reflexivity|].
      apply in_seq. lia.
    + split; [discriminate|]. intros H. exfalso. assert (false = true); [|discriminate].
      apply Eb. intros j Hj. apply in_seq in Hj. apply Z.eqb_eq. rewrite Hn by lia. apply H. lia.
  - destruct (forallb _ _); auto.
Qed.

Lemma C14_check_str_partial_pf : forall s p off len ops c coff clen,
  zlen (thepin s) = maxpinsize s ->
  proper (maxpinsize s) (PStr p) off len -> proper (maxpinsize s) (PStr c) coff clen ->
  ~ In 0 (sub p (Z.to_nat off) (Z.to_nat len)) -> ~ In 0 (sub c (Z.to_nat coff) (Z.to_nat clen)) ->
  forallb (fun o => negb (is_update o)) ops = true ->
  let s2 := snd (pin_run ops (snd (update (PStr p) off len s))) in
  0 < triesremaining s2 ->
  (fst (check (PStr c) coff clen s2) = Ok true <->
   sub p (Z.to_nat off) (Z.to_nat len) = sub c (Z.to_nat coff) (Z.to_nat clen)).
Proof.
  intros s p off len ops c coff clen Hz Hp Hc Np Nc Hops s2 Ht.
  destruct (C14_check_exact_partial_pf s (PStr p) off len ops (PStr c) coff clen) as (_ & E & _); auto.
  fold s2 in E. rewrite E. clear E Ht s2. cbn [cell].
  destruct Hp as (Hp1 & Hp2 & Hp3). destruct Hc as (Hc1 & Hc2 & Hc3). cbn [pin_cells] in *.
  assert (Lp : length (sub p (Z.to_nat off) (Z.to_nat len)) = Z.to_nat len) by (apply sub_length; unfold zlen in *; lia).
  assert (Lc : length (sub c (Z.to_nat coff) (Z.to_nat clen)) = Z.to_nat clen) by (apply sub_length; unfold zlen in *; lia).
  assert (Sp : forall j, (j < Z.to_nat len)%nat -> nth (Z.to_nat off + j) p 0 <> 0).
  { intros j Hj E. apply Np. rewrite <- (nth_sub p _ (Z.to_nat len)) in E by assumption. rewrite <- E. apply nth_In. lia. }
  assert (Sc : forall j, (j < Z.to_nat clen)%nat -> nth (Z.to_nat coff + j) c 0 <> 0).
  { intros j Hj E. apply Nc. rewrite <- (nth_sub c _ (Z.to_nat clen)) in E by assumption. rewrite <- E. apply nth_In. lia. }
  split.
  - intros E.
    assert (El : Z.to_nat len = Z.to_nat clen).
    { destruct (Nat.lt_trichotomy (Z.to_nat len) (Z.to_nat clen)) as [H|[H|H]]; auto; exfalso.
      - specialize (E (Z.to_nat len) ltac:(lia)). rewrite Nat.ltb_irrefl in E.
        apply Nat.ltb_lt in H as H'. rewrite H' in E. eapply Sc; eauto.
      - specialize (E (Z.to_nat clen) ltac:(lia)). rewrite Nat.ltb_irrefl in E.
        apply Nat.ltb_lt in H as H'. rewrite H' in E. eapply Sp; eauto. }
    apply (nth_ext_all _ _ 0); [lia|]. intros j Hj. rewrite Lp in Hj.
    specialize (E j ltac:(lia)). rewrite !nth_sub by lia.
    replace (j <? Z.to_nat len)%nat with true in E by lia.
    replace (j <? Z.to_nat clen)%nat with true in E by lia. exact E.
  - intros E j Hj. assert (El : Z.to_nat len = Z.to_nat clen) by (rewrite <- Lp, <- Lc, E; reflexivity).
    rewrite <- El. destruct (Nat.ltb_spec j (Z.to_nat len)); [|reflexivity].
    rewrite <- (nth_sub p _ (Z.to_nat len)) by lia. rewrite E. apply nth_sub. lia.
Qed.

Lemma C14_check_full_length_partial_pf : forall s p off ops c coff,
  let max := maxpinsize s in
  zlen (thepin s) = max -> proper max (PArr p) off max -> proper max (PArr c) coff max ->
  forallb (fun o => negb (is_update o)) ops = true ->
  let s2 := snd (pin_run ops (snd (update (PArr p) off max s))) in
  0 < triesremaining s2 ->
  (fst (check (PArr c) coff max s2) = Ok true <->
   sub p (Z.to_nat off) (Z.to_nat max) = sub c (Z.to_nat coff) (Z.to_nat max)).
Proof.
  intros s p off ops c coff max Hz Hp Hc Hops s2 Ht.
  destruct (C14_check_exact_partial_pf s (PArr p) off max ops (PArr c) coff max) as (_ & E & _); auto.
  fold s2 in E. rewrite E. clear E Ht s2. cbn [cell]. fold max.
  destruct Hp as (Hp1 & Hp2 & Hp3). destruct Hc as (Hc1 & Hc2 & Hc3). cbn [pin_cells] in *.
  assert (Lp : length (sub p (Z.to_nat off) (Z.to_nat max)) = Z.to_nat max) by (apply sub_length; unfold zlen in *; lia).
  assert (Lc : length (sub c (Z.to_nat coff) (Z.to_nat max)) = Z.to_nat max) by (apply sub_length; unfold zlen in *; lia).
  assert (C : forall j (q : list Z) o old, (j < Z.to_nat max)%nat ->
     (if (Z.to_nat max <=? j)%nat then 0 else if (j =? 0)%nat then nth o q 0
      else if (Z.to_nat max <? j + Z.to_nat max)%nat then nth (o + (Z.to_nat max - j)) q 0 else nth j old 0)
     = nth (o + (if (j =? 0)%nat then 0 else Z.to_nat max - j)) q 0).
  { intros j q o old Hj. replace (Z.to_nat max <=? j)%nat with false by lia.
    destruct (Nat.eqb_spec j 0) as [->|Hj0]; [now rewrite Nat.add_0_r|].
    replace (Z.to_nat max <? j + Z.to_nat max)%nat with true by lia. reflexivity. }
  split.
  - intros E. apply (nth_ext_all _ _ 0); [lia|]. intros j Hj. rewrite Lp in Hj. rewrite !nth_sub by lia.
    set (k := if (j =? 0)%nat then 0%nat else (Z.to_nat max - j)%nat).
    assert (Hk : (k < Z.to_nat max)%nat) by (unfold k; destruct (Nat.eqb_spec j 0); lia).
    assert (Ek : (if (k =? 0)%nat then 0%nat else (Z.to_nat max - k)%nat) = j).
    { unfold k. destruct (Nat.eqb_spec j 0) as [->|Hj0]; [reflexivity|].
      destruct (Nat.eqb_spec (Z.to_nat max - j) 0); lia. }
    specialize (E k Hk). rewrite !C, Ek in E by assumption. exact E.
  - intros E j Hj. rewrite !C by assumption.
    set (k := if (j =? 0)%nat then 0%nat else (Z.to_nat max - j)%nat).
    assert (Hk : (k < Z.to_nat max)%nat) by (unfold k; destruct (Nat.eqb_spec j 0); lia).
    rewrite <- (nth_sub p _ (Z.to_nat max)), <- (nth_sub c _ (Z.to_nat max)) by assumption. now rewrite E.
Qed.

Lemma C14_accepts_wrong_pin_refuted_pf : forall lim max p c off coff len,
  0 < lim -> 0 < len -> 2 * len - 1 <= max -> proper max (PArr p) off len -> proper max (PArr c) coff len ->
  nth (Z.to_nat off) p 0 = nth (Z.to_nat coff) c 0 ->
  fst (check (PArr c) coff len (snd (update (PArr p) off len (newOwnerPIN lim max)))) = Ok true.
Proof.
  intros lim max p c off coff len Hlim Hl Hm Hp Hc E.
  assert (Z0 : zlen (thepin (newOwnerPIN lim max)) = max).
  { cbn. unfold py_repeat. rewrite zlen_repeat. lia. }
  destruct (C14_check_exact_partial_pf (newOwnerPIN lim max) (PArr p) off len [] (PArr c) coff len) as (_ & X & _); auto.
  - cbn [pin_run snd]. destruct (update_proper (PArr p) off len (newOwnerPIN lim max)) as (l & -> & _); auto.
  - cbn [pin_run snd] in X. apply X. clear X. cbn [cell maxpinsize newOwnerPIN thepin]. intros j Hj.
    destruct (Nat.leb_spec (Z.to_nat len) j); [reflexivity|].
    destruct (Nat.eqb_spec j 0); [assumption|].
    replace (Z.to_nat max <? j + Z.to_nat len)%nat with false by lia.
    unfold py_repeat. rewrite nth_repeat0. destruct j; reflexivity.
Qed.

Lemma C14_too_long_refuted_pf : forall lim max p c off coff,
  0 < lim -> 0 < max -> proper max (PArr p) off max -> 0 <= coff -> coff + max + 1 <= zlen c ->
  nth (Z.to_nat (coff + max)) c 0 = nth (Z.to_nat off) p 0 ->
  sub c (Z.to_nat (coff + 1)) (Z.to_nat (max - 1)) = sub p (Z.to_nat (off + 1)) (Z.to_nat (max - 1)) ->
  fst (check (PArr c) coff (max + 1) (snd (update (PArr p) off max (newOwnerPIN lim max)))) = Ok true.
Proof.
  intros lim max p c off coff Hlim Hm Hp Hco Hc E0 E.
  assert (Z0 : zlen (thepin (newOwnerPIN lim max)) = max).
  { cbn. unfold py_repeat. rewrite zlen_repeat. lia. }
  destruct (update_proper (PArr p) off max (newOwnerPIN lim max)) as (l & -> & Ll & Hl); auto.
  cbn [snd trylimit maxpinsize newOwnerPIN thepin] in *. destruct Hp as (Hp1 & _ & Hp3). cbn [pin_cells] in Hp3.
  assert (Ln : length l = Z.to_nat max) by (rewrite Ll; unfold zlen in Z0; lia).
  unfold check, set_validated, set_tries, bind at 1, get, ret, raise.
  unfold bind at 1. cbn [triesremaining trylimit maxpinsize thepin validated pin_cells].
  replace (lim <=? 0) with false by lia.
  replace ((zlen c <? coff) || (zlen c <? coff + (max + 1))) with false by lia.
  unfold check_fill, for_range at 1. replace (Z.to_nat (coff + (max + 1) - coff)) with (Z.to_nat max + 1)%nat by lia.
  assert (R : zlen (py_repeat 0 max) = max) by exact Z0.
  destruct (arr_loop_ok c coff (Z.to_nat max) coff (py_repeat 0 max)) as (l1 & Hr & L1 & Hn); try lia.
  assert (F : for_loop (Z.to_nat max + 1) coff (fun i => v <- lift (py_get c i) ;; aset (coff - i) v) (py_repeat 0 max)
     = (Ok tt, list_upd l1 0 (nth (Z.to_nat (coff + max)) c 0))).
  { rewrite for_loop_app, Hr. rewrite Z2Nat.id by lia. cbn [for_loop]. unfold bind at 1. unfold bind at 1. unfold lift at 1.
    rewrite (py_get_in _ _ 0) by lia. unfold aset. rewrite py_set_neg by (unfold zlen in *; lia).
    replace (Z.to_nat (coff - (coff + max) + zlen l1)) with 0%nat by (unfold zlen in *; lia). reflexivity. }
  rewrite (bind_ok _ _ _ _ _ F). unfold for_range. replace (Z.to_nat (max - (max + 1))) with 0%nat by lia. cbn [for_loop].
  assert (Q : list_eqb l (list_upd l1 0 (nth (Z.to_nat (coff + max)) c 0)) = true).
  { apply list_eqb_eq. apply (nth_ext_all _ _ 0); [rewrite list_upd_length; unfold zlen in *; lia|]. intros j Hj.
    rewrite Hl by lia. cbn [cell]. replace (Z.to_nat max <=? j)%nat with false by lia.
    rewrite nth_list_upd. replace (0 <? length l1)%nat with true by (unfold zlen in *; lia). rewrite andb_true_r.
    destruct (Nat.eqb_spec j 0) as [->|Hj0]; [now rewrite E0|].
    replace (Z.to_nat max <? j + Z.to_nat max)%nat with true by lia.
    rewrite Hn by (unfold zlen in *; lia). cbv zeta. replace (j =? 0)%nat with false by lia.
    replace ((coff - coff <=? zlen (py_repeat 0 max) - Z.of_nat j) && (zlen (py_repeat 0 max) - Z.of_nat j <? coff - coff + Z.of_nat (Z.to_nat max))) with true by lia.
    rewrite R. pose proof (f_equal (fun x => nth (Z.to_nat max - j - 1) x 0) E) as En. cbv beta in En. rewrite !nth_sub in En by lia.
    replace (Z.to_nat (coff + (max - Z.of_nat j))) with (Z.to_nat (coff + 1) + (Z.to_nat max - j - 1))%nat by lia.
    replace (Z.to_nat off + (Z.to_nat max - j))%nat with (Z.to_nat (off + 1) + (Z.to_nat max - j - 1))%nat by lia.
    now rewrite En. }
  unfold ret. rewrite Q. reflexivity.
Qed.

Lemma C14_rejects_right_pin_refuted_pf : exists lim max old new len,
  proper max (PArr old) 0 max /\ proper max (PArr new) 0 len /\
  let s := snd (update (PArr new) 0 len (snd (update (PArr old) 0 max (newOwnerPIN lim max)))) in
  fst (update (PArr new) 0 len (snd (update (PArr old) 0 max (newOwnerPIN lim max)))) = Ok tt
  /\ triesremaining s = lim /\ 0 < lim
  /\ fst (check (PArr new) 0 len s) = Ok false.
Proof.
  exists 3, 8, [1; 2; 3; 4; 5; 6; 7; 8], [1; 2; 3; 4], 4.
  unfold proper. cbn -[Z.le]. vm_compute. intuition discriminate.
Qed.

Lemma C15_update_validates_refuted_pf : forall p off len s s',
  update p off len s = (Ok tt, s') -> isValidated s' = (Ok true, s').
Proof.
  intros p off len s s' H. destruct (update_cases p off len s) as [(e & l & E & _)|(l & E & _)];
  rewrite E in H; [discriminate|]. injection H as <-. reflexivity.
Qed.

Lemma C15_update_partial_pf : forall p off len s,
  (exists e s', update p off len s = (Err e, s')
     /\ validated s' = validated s /\ triesremaining s' = triesremaining s)
  \/ (exists s', update p off len s = (Ok tt, s') /\ triesremaining s' = trylimit s
     /\ reset s' = (Ok tt, mkPIN (trylimit s) (trylimit s) (maxpinsize s) (thepin s') false)).
Proof.
  intros p off len s. destruct (update_cases p off len s) as [(e & l & E & _)|(l & E & _)]; rewrite E.
  - left. eexists _, _. split; [reflexivity|]. auto.
  - right. eexists. split; [reflexivity|]. auto.
Qed.

Lemma first_some_app {A} (l l' : list (option A)) :
  first_some (l ++ l') = match first_some l with Some a => Some a | None => first_some l' end.
Proof. induction l as [|[a|] l IH]; simpl; auto. Qed.

Lemma C16_validated_flag_pf : forall ops s,
  validated (snd (pin_run ops s)) =
    match last_flag_event (fst (pin_run ops s)) with Some b => b | None => validated s end
  /\ isValidated (snd (pin_run ops s)) = (Ok (validated (snd (pin_run ops s))), snd (pin_run ops s)).
Proof.
  intros ops s. split; [|reflexivity]. unfold last_flag_event. revert s.
  induction ops as [|o ops IH]; intros s; [reflexivity|].
  rewrite run_cons. cbn [fst snd rev]. rewrite map_app, first_some_app. cbn [map first_some].
  rewrite IH. destruct (first_some _); auto.
  destruct o; unfold pin_step, mmap, bind; cbn [flag_event].
  - destruct (check_cases p offset length s) as [[_ ->]|[_ [->|[(e & -> & _)|[->| ->]]]]]; reflexivity.
  - destruct (update_cases p offset length s) as [(e & l & -> & _)|(l & -> & _)]; reflexivity.
  - unfold reset, bind, get. destruct (validated s) eqn:E; [reflexivity|]. cbn. assumption.
  - reflexivity.
  - reflexivity.
  - reflexivity.
  - reflexivity.
Qed.

Lemma C17_reset_pf : forall s,
  resetAndUnblock s = (Ok tt, mkPIN (trylimit s) (trylimit s) (maxpinsize s) (thepin s) false)
  /\ (validated s = true ->
      reset s = (Ok tt, mkPIN (trylimit s) (trylimit s) (maxpinsize s) (thepin s) false))
  /\ (validated s = false -> reset s = (Ok tt, s)).
Proof.
  intros s. split; [reflexivity|]. unfold reset, bind, get.
  split; intros ->; reflexivity.
Qed.
