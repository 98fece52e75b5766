(** * Lemmas about the APDU model *)
From Verif Require Import Py S_Base S_APDU L_Py M_utils M_util L_utils L_util M_apdu.
From Coq Require Import ZifyBool ZifyNat.
Ltac Zify.zify_post_hook ::= Z.div_mod_to_equations.

(** block copy: the loop shared by the constructor and the receive calls *)
Definition cp_body (src : list Z) (so bo : Z) : Z -> M (list Z) unit :=
  fun i => v <- lift (py_get src (so + i)) ;; aset (bo + i) v.

Lemma cp_body_in src so bo i b : 0 <= so + i < zlen src -> 0 <= bo + i < zlen b ->
  cp_body src so bo i b = (Ok tt, list_upd b (Z.to_nat (bo + i)) (nth (Z.to_nat (so + i)) src 0)).
Proof.
  intros H1 H2. unfold cp_body, bind, lift. rewrite (py_get_in _ _ 0) by assumption.
  now rewrite aset_in.
Qed.

Lemma cp_loop n : forall src so bo i b,
  0 <= so + i -> so + i + Z.of_nat n <= zlen src -> 0 <= bo + i -> bo + i + Z.of_nat n <= zlen b ->
  for_loop n i (cp_body src so bo) b
  = (Ok tt, splice b (Z.to_nat (bo + i)) (sub src (Z.to_nat (so + i)) n)).
Proof.
  induction n as [|n IH]; intros src so bo i b H1 H2 H3 H4.
  - cbn [for_loop]. unfold ret. now rewrite sub_0, splice_nil.
  - rewrite for_loop_S. rewrite (bind_ok _ _ _ tt _ (cp_body_in src so bo i b ltac:(lia) ltac:(lia))).
    rewrite IH; try (rewrite ?zlen_list_upd; lia).
    f_equal. rewrite (sub_S _ _ _ 0) by (unfold zlen in *; lia).
    replace (Z.to_nat (bo + (i + 1))) with (S (Z.to_nat (bo + i))) by lia.
    replace (Z.to_nat (so + (i + 1))) with (S (Z.to_nat (so + i))) by lia.
    apply splice_cons. rewrite sub_length; unfold zlen in *; lia.
Qed.

Lemma cp_loop_length n : forall src so bo i b,
  length (snd (for_loop n i (cp_body src so bo) b)) = length b.
Proof.
  intros src so bo i b. apply (for_loop_inv (fun l => length l = length b)); [|reflexivity].
  intros j s Hs. unfold cp_body, bind, lift. destruct (py_get src (so + j)); cbn; [|assumption].
  now rewrite aset_length.
Qed.

Lemma copy_cells_ok b a n buf : 0 <= a -> 0 <= n -> a + n <= zlen b -> a + n <= zlen buf ->
  copy_cells b a n buf = (Ok tt, splice buf (Z.to_nat a) (sub b (Z.to_nat a) (Z.to_nat n))).
Proof.
  intros H1 H2 H3 H4. unfold copy_cells, for_range. replace (a + n - a) with n by lia.
  change (fun i => v <- lift (py_get b i);; aset i v) with (cp_body b 0 0).
  now rewrite cp_loop by lia.
Qed.

(** total forms of the constructor's pieces *)
Definition b4 (b : list Z) : Z := nth 4 b 0.
Definition p3len (b : list Z) : Z :=
  if 4 <? zlen b then if (b4 b =? 0) && (7 <? zlen b) then 3 else 1 else 0.
Definition initbuf (b : list Z) : list Z :=
  splice (repeat 0 257) 0 (sub b 0 (Z.to_nat (4 + p3len b))).
Definition inl_ (b : list Z) : Z * Z :=
  if b4 b =? 0 then ((nth 5 b 0) mod 256 * 256 + (nth 6 b 0) mod 256, 3) else ((b4 b) mod 256, 1).
Definition blast (b : list Z) (k : nat) : Z := nth (length b - k) b 0.
Definition outl (b : list Z) : Z * Z :=
  if (zlen b =? 5) || negb (b4 b =? 0)
  then (if blast b 1 =? 0 then 256 else blast b 1 mod 256, 1)
  else if blast b 1 =? 0 then (if blast b 2 =? 0 then (65536, 2) else (256, 1))
       else (blast b 2 mod 256 * 256 + blast b 1 mod 256, 2).

Lemma getInLengths_ok b : 5 <= zlen b -> (b4 b <> 0 \/ 7 <= zlen b) -> getInLengths b = Ok (inl_ b).
Proof.
  intros H H'. unfold getInLengths, inl_, OFFSET_LC. rewrite (py_get_in b 4 0) by lia. cbn [rbind].
  change (nth (Z.to_nat 4) b 0) with (b4 b).
  destruct (Z.eqb_spec (b4 b) 0) as [E|E]; [|now rewrite u1_spec].
  rewrite (py_get_in b (4 + 1) 0) by lia. cbn [rbind].
  rewrite (py_get_in b (4 + 2) 0) by lia. cbn [rbind]. now rewrite !u1_spec.
Qed.

Lemma getOutLengths_ok b : 5 <= zlen b -> getOutLengths b (zlen b) = Ok (outl b).
Proof.
  intros H. unfold getOutLengths, outl, OFFSET_LC, blast. cbv zeta.
  rewrite (py_get_in b (zlen b - 1) 0) by lia. cbn [rbind].
  replace (Z.to_nat (zlen b - 1)) with (length b - 1)%nat by (unfold zlen; lia).
  destruct (Z.eqb_spec (zlen b - 1) 4) as [E1|E1].
  - replace (zlen b =? 5) with true by lia. cbn [negb orb].
    destruct (nth (length b - 1) b 0 =? 0); now rewrite ?u1_spec.
  - replace (zlen b =? 5) with false by lia. cbn [negb orb].
    rewrite (py_get_in b 4 0) by lia. cbn [rbind]. change (nth (Z.to_nat 4) b 0) with (b4 b).
    rewrite (py_get_in b (zlen b - 1 - 1) 0) by lia. cbn [rbind].
    replace (Z.to_nat (zlen b - 1 - 1)) with (length b - 2)%nat by (unfold zlen; lia).
    destruct (nth (length b - 1) b 0 =? 0); destruct (b4 b =? 0); cbn [negb]; rewrite ?u1_spec; auto.
    destruct (nth (length b - 2) b 0 =? 0); reflexivity.
Qed.

Definition mk_apdu (b : list Z) (br : bool) (cd ty nc : Z) (ne : option Z) (ll : Z) : apdu :=
  mkAPDU b (initbuf b) (4 + p3len b) STATE_INITIAL br cd ty nc ne ll 0 None.

Lemma initbuf_two b : 4 <= zlen b ->
  splice (splice (repeat 0 257) 0 (sub b 0 4)) 4 (sub b 4 (Z.to_nat (p3len b))) = initbuf b.
Proof.
  intros H. unfold initbuf.
  assert (Hp : 0 <= p3len b <= 3 /\ 4 + p3len b <= zlen b).
  { unfold p3len. destruct (Z.ltb_spec 4 (zlen b)); [|lia].
    destruct (Z.ltb_spec 7 (zlen b)); destruct (b4 b =? 0); cbn [andb]; lia. }
  assert (L : length (sub b 0 4) = 4%nat) by (apply sub_length; unfold zlen in *; lia).
  pose proof (splice_app (repeat 0 257) 0 (sub b 0 4) (sub b 4 (Z.to_nat (p3len b)))) as Hs.
  rewrite L in Hs. cbn [Nat.add] in Hs. rewrite Hs; [f_equal|].
  - replace (Z.to_nat (4 + p3len b)) with (4 + Z.to_nat (p3len b))%nat by lia.
    now rewrite sub_plus.
  - rewrite sub_length by (unfold zlen in *; lia). rewrite repeat_length. lia.
Qed.

Lemma newAPDU_short b : zlen b < 4 -> newAPDU b = Err (APDUExc BAD_LENGTH).
Proof. intros H. unfold newAPDU. now replace (zlen b <? 4) with true by lia. Qed.

Lemma newAPDU_eq b : 4 <= zlen b ->
  newAPDU b =
  if zlen b =? 4 then Ok (mk_apdu b false 5 1 0 None 0)
  else if (zlen b =? 5) || ((b4 b =? 0) && (zlen b =? 7))
  then Ok (mk_apdu b false 5 2 0 (Some (fst (outl b))) (snd (outl b)))
  else if (b4 b =? 0) && (zlen b =? 6) then Err IndexError
  else if (zlen b =? b4 b + 5) || (zlen b =? fst (inl_ b) + 5)
  then Ok (mk_apdu b false (4 + snd (inl_ b)) 3 (fst (inl_ b)) None 0)
  else Ok (mk_apdu b (negb (4 + snd (inl_ b) + snd (outl b) + fst (inl_ b) =? zlen b))
             (4 + snd (inl_ b)) 4 (fst (inl_ b)) (Some (fst (outl b))) (snd (outl b))).
Proof.
  intros H. unfold newAPDU. replace (zlen b <? 4) with false by lia.
  assert (R : zlen (py_repeat 0 (255 + 2)) = 257) by reflexivity.
  rewrite copy_cells_ok by lia.
  assert (P : (if 4 <? zlen b then
                let? lc := py_get b OFFSET_LC in
                Ok (if (lc =? 0) && (OFFSET_LC + 3 <? zlen b) then 3 else 1)
              else Ok 0) = Ok (p3len b)).
  { unfold p3len. destruct (Z.ltb_spec 4 (zlen b)); [|reflexivity].
    unfold OFFSET_LC. rewrite (py_get_in b 4 0) by lia. reflexivity. }
  rewrite P. cbn [rbind].
  assert (Hp : 0 <= p3len b <= 3 /\ 4 + p3len b <= zlen b).
  { unfold p3len. destruct (Z.ltb_spec 4 (zlen b)); [|lia].
    destruct (Z.ltb_spec 7 (zlen b)); destruct (b4 b =? 0); cbn [andb]; lia. }
  assert (L4 : zlen (splice (py_repeat 0 (255 + 2)) (Z.to_nat 0) (sub b (Z.to_nat 0) (Z.to_nat 4))) = 257).
  { unfold zlen. rewrite splice_length; [reflexivity|].
    rewrite sub_length by (unfold zlen in *; lia). unfold py_repeat. rewrite repeat_length. lia. }
  unfold OFFSET_LC.
  rewrite copy_cells_ok by lia.
  change (splice (splice (py_repeat 0 (255 + 2)) (Z.to_nat 0) (sub b (Z.to_nat 0) (Z.to_nat 4))) (Z.to_nat 4)
             (sub b (Z.to_nat 4) (Z.to_nat (p3len b))))
    with (splice (splice (repeat 0 257) 0 (sub b 0 4)) 4 (sub b 4 (Z.to_nat (p3len b)))).
  rewrite initbuf_two by assumption.
  destruct (Z.eqb_spec (zlen b) 4) as [E4|E4]; [reflexivity|].
  rewrite (py_get_in b 4 0) by lia. cbn [rbind]. change (nth (Z.to_nat 4) b 0) with (b4 b).
  destruct ((zlen b =? 5) || ((b4 b =? 0) && (zlen b =? 7))) eqn:E5.
  { rewrite getOutLengths_ok by lia. reflexivity. }
  unfold is_type3. rewrite (py_get_in b 4 0) by lia. cbn [rbind]. change (nth (Z.to_nat 4) b 0) with (b4 b).
  destruct ((b4 b =? 0) && (zlen b =? 6)) eqn:E6.
  { replace (zlen b =? b4 b + 5) with false by lia.
    assert (G : getInLengths b = Err IndexError).
    { unfold getInLengths, OFFSET_LC. rewrite (py_get_in b 4 0) by lia. cbn [rbind].
      change (nth (Z.to_nat 4) b 0) with (b4 b). replace (b4 b =? 0) with true by lia.
      rewrite (py_get_in b (4 + 1) 0) by lia. cbn [rbind].
      rewrite (py_get_out b (4 + 2)) by lia. reflexivity. }
    now rewrite G. }
  assert (HG : getInLengths b = Ok (inl_ b)) by (apply getInLengths_ok; lia).
  rewrite HG. cbn [rbind]. rewrite getOutLengths_ok by lia. cbn [rbind].
  unfold mk_apdu, OFFSET_CDATA.
  replace (5 + (snd (inl_ b) - 1)) with (4 + snd (inl_ b)) by lia.
  destruct (zlen b =? b4 b + 5); cbn [orb rbind]; [reflexivity|].
  destruct (zlen b =? fst (inl_ b) + 5); reflexivity.
Qed.

(** facts about the pieces *)
Lemma p3len_bounds b : 4 <= zlen b -> 0 <= p3len b <= 3 /\ 4 + p3len b <= zlen b.
Proof.
  intros H. unfold p3len. destruct (Z.ltb_spec 4 (zlen b)); [|lia].
  destruct (Z.ltb_spec 7 (zlen b)); destruct (b4 b =? 0); cbn [andb]; lia.
Qed.
Lemma inl_bounds b : 0 <= fst (inl_ b) <= 65535 /\ (snd (inl_ b) = 1 \/ snd (inl_ b) = 3).
Proof. unfold inl_. destruct (b4 b =? 0); cbn [fst snd]; lia. Qed.
Lemma outl_bounds b : 0 <= fst (outl b) <= 65536 /\ (snd (outl b) = 1 \/ snd (outl b) = 2).
Proof.
  unfold outl. destruct ((zlen b =? 5) || negb (b4 b =? 0)).
  - destruct (blast b 1 =? 0); cbn [fst snd]; lia.
  - destruct (blast b 1 =? 0); [destruct (blast b 2 =? 0)|]; cbn [fst snd]; lia.
Qed.

Lemma initbuf_length b : 4 <= zlen b -> length (initbuf b) = 257%nat.
Proof.
  intros H. pose proof (p3len_bounds b H). unfold initbuf. rewrite splice_length; [now rewrite repeat_length|].
  rewrite repeat_length, sub_length by (unfold zlen in *; lia). lia.
Qed.

Lemma Ok_inj {A} (a b : A) : Ok a = Ok b -> a = b.
Proof. congruence. Qed.

(** every accepted APDU *)
Lemma newAPDU_inv b s : newAPDU b = Ok s ->
  4 <= zlen b /\ exists br cd ty nc ne ll, s = mk_apdu b br cd ty nc ne ll
   /\ 0 <= ll <= 2 /\ 0 <= nc
   /\ ((zlen b = 5 /\ ll = 1 /\ br = false) \/ (br = false -> 4 + p3len b + ll <= zlen b) /\ zlen b <> 5).
Proof.
  intros H. destruct (Z.lt_ge_cases (zlen b) 4) as [H4|H4]; [rewrite newAPDU_short in H by lia; discriminate|].
  split; [lia|]. rewrite newAPDU_eq in H by lia.
  pose proof (p3len_bounds b ltac:(lia)). pose proof (inl_bounds b). pose proof (outl_bounds b).
  destruct (Z.eqb_spec (zlen b) 4) as [E|E].
  { apply Ok_inj in H; subst s. do 6 eexists; split; [reflexivity|]. split; [lia|]. split; [lia|]. right; lia. }
  destruct ((zlen b =? 5) || ((b4 b =? 0) && (zlen b =? 7))) eqn:E5.
  { apply Ok_inj in H; subst s. do 6 eexists; split; [reflexivity|]. split; [lia|]. split; [lia|].
    destruct (Z.eqb_spec (zlen b) 5) as [E'|E'].
    - left. unfold outl. replace (zlen b =? 5) with true by lia. cbn [orb snd]. auto.
    - right. unfold p3len. replace (4 <? zlen b) with true by lia.
      replace (7 <? zlen b) with false by lia. rewrite andb_false_r. lia. }
  destruct ((b4 b =? 0) && (zlen b =? 6)) eqn:E6; [discriminate|].
  destruct ((zlen b =? b4 b + 5) || (zlen b =? fst (inl_ b) + 5)) eqn:E3.
  { apply Ok_inj in H; subst s. do 6 eexists; split; [reflexivity|]. split; [lia|]. split; [lia|]. right. lia. }
  apply Ok_inj in H; subst s. do 6 eexists; split; [reflexivity|]. split; [lia|]. split; [lia|].
  right. split; [|lia]. intros Hb. apply negb_false_iff in Hb. apply Z.eqb_eq in Hb.
  assert (p3len b <= snd (inl_ b)); [|lia].
  unfold p3len, inl_. destruct (4 <? zlen b); destruct (b4 b =? 0); cbn [andb snd]; try lia.
  destruct (7 <? zlen b); lia.
Qed.

(** receive_block *)
Lemma receive_block_unfold bOffs s :
  receive_block bOffs s =
  let n := Z.min IN_BLOCKSIZE (zlen (raw s) - offin s - lelength s) in
  match for_loop (Z.to_nat n) 0 (cp_body (raw s) (offin s) bOffs) (buf s) with
  | (Err e, b) => (Err e, with_buf b s)
  | (Ok _, b) => (Ok n, with_in b (offin s + n)
        (if offin s + n =? zlen (raw s) - lelength s then STATE_FULL_INCOMING else STATE_PARTIAL_INCOMING) s)
  end.
Proof. unfold receive_block. cbv zeta. rewrite for_range_0. reflexivity. Qed.

Lemma receive_block_ok bOffs s n :
  n = Z.min IN_BLOCKSIZE (zlen (raw s) - offin s - lelength s) -> 0 <= n ->
  0 <= offin s -> 0 <= lelength s -> 0 <= bOffs -> bOffs + n <= zlen (buf s) ->
  receive_block bOffs s =
  (Ok n, with_in (splice (buf s) (Z.to_nat bOffs) (sub (raw s) (Z.to_nat (offin s)) (Z.to_nat n)))
           (offin s + n)
           (if offin s + n =? zlen (raw s) - lelength s then STATE_FULL_INCOMING else STATE_PARTIAL_INCOMING) s).
Proof.
  intros Hn H0 H1 H2 H3 H4. rewrite receive_block_unfold. cbv zeta. rewrite <- Hn.
  rewrite cp_loop by lia. rewrite !Z.add_0_r. reflexivity.
Qed.

Lemma cp_loop_err n : forall src so bo i b e b',
  for_loop n i (cp_body src so bo) b = (Err e, b') -> e = IndexError.
Proof.
  induction n as [|n IH]; intros src so bo i b e b'; [discriminate|].
  rewrite for_loop_S. unfold bind at 1. unfold cp_body at 1, bind, lift.
  destruct (py_get_cases src (so + i)) as [[v ->]| ->]; [|intros [= <- _]; reflexivity].
  destruct (aset (bo + i) v b) as [[[]|e1] b1] eqn:E.
  - apply IH.
  - intros [= <- _]. apply (aset_err (bo + i) v b). now rewrite E.
Qed.
