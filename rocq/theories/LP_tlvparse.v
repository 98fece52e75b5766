(** * C39 and C42: reading tags and TLVs from every array: proofs *)
From Verif Require Import Py S_Base S_Number S_BER L_Py L_utils M_bertag M_bertlv LP_bertag LP_bertlv S_TlvParse.
From Coq Require Import Lia Bool ZifyBool ZifyNat.
Ltac Zify.zify_post_hook ::= Z.div_mod_to_equations.

Lemma nth_skipn {A} (d : A) : forall k l i, nth i (skipn k l) d = nth (k + i) l d.
Proof. induction k as [|k IH]; intros [|x l] i; cbn; auto. now destruct i. Qed.
Lemma get_from a off i : (i = O \/ - zlen a <= off) ->
  py_get a (off + Z.of_nat i) = match nth_error (cells_from a off) i with Some x => Ok x | None => Err IndexError end.
Proof.
  intros H. unfold cells_from. destruct (Z.ltb_spec off (- zlen a)).
  { destruct H as [->|H]; [|lia]. rewrite py_get_out by lia. reflexivity. }
  pose proof (zlen_nonneg a) as NN.
  destruct (Z.ltb_spec off 0).
  - destruct (Z.lt_ge_cases (off + Z.of_nat i) 0) as [L|L].
    + rewrite (py_get_neg _ _ 0) by lia. rewrite nth_error_app1 by (rewrite skipn_length; unfold zlen in *; lia).
      rewrite (nth_error_nth' _ 0) by (rewrite skipn_length; unfold zlen in *; lia). rewrite nth_skipn. do 2 f_equal. lia.
    + rewrite nth_error_app2 by (rewrite skipn_length; unfold zlen in *; lia). rewrite skipn_length.
      replace (i - (length a - Z.to_nat (zlen a + off)))%nat with (Z.to_nat (off + Z.of_nat i)) by (unfold zlen in *; lia).
      destruct (Z.lt_ge_cases (off + Z.of_nat i) (zlen a)) as [L'|L'].
      * rewrite (py_get_in _ _ 0) by lia. now rewrite (nth_error_nth' _ 0) by (unfold zlen in *; lia).
      * rewrite py_get_out by lia. now rewrite (proj2 (nth_error_None _ _)) by (unfold zlen in *; lia).
  - destruct (Z.lt_ge_cases (off + Z.of_nat i) (zlen a)) as [L'|L'].
    + rewrite (py_get_in _ _ 0) by lia. rewrite (nth_error_nth' _ 0) by (rewrite skipn_length; unfold zlen in *; lia).
      rewrite nth_skipn. do 2 f_equal. lia.
    + rewrite py_get_out by lia. now rewrite (proj2 (nth_error_None _ _)) by (rewrite skipn_length; unfold zlen in *; lia).
Qed.
Lemma land_goes x : Z.land x 128 =? 128 = Z.testbit x 7.
Proof.
  rewrite land_mod256 by lia. destruct (octet_bits (x mod 256)) as (B & _); [lia|]. rewrite B.
  rewrite <- (Z.mod_pow2_bits_low x 8 7) by lia. change (2 ^ 8) with 256. rewrite Z.testbit_spec' || idtac.
  destruct (Z.testbit (x mod 256) 7) eqn:T; apply Z.testbit_true in T || apply Z.testbit_false in T; try lia;
    change (2 ^ 7) with 128 in T; lia.
Qed.
Lemma land_127 x : Z.land x 127 = x mod 128.
Proof. change 127 with (Z.ones 7). now rewrite Z.land_ones by lia. Qed.
Lemma land_31 x : Z.land x 31 = x mod 32.
Proof. change 31 with (Z.ones 5). now rewrite Z.land_ones by lia. Qed.
Lemma land_cls x : Z.shiftr (Z.land x 255) 6 = x mod 256 / 64.
Proof. change 255 with (Z.ones 8). rewrite Z.land_ones by lia. now rewrite shiftr_div by lia. Qed.
Lemma land_constr x : negb (Z.land x 32 =? 0) = Z.testbit x 5.
Proof.
  destruct (constr_bit x) as [[E ->]|[E ->]]; change (negb _) with false || change (negb _) with true; symmetry;
    [apply Z.testbit_false|apply Z.testbit_true]; try lia; change 1 with (Z.ones 1) in E; rewrite Z.land_ones, shiftr_div in E by lia; exact E.
Qed.
Lemma tag_loop_any a off : forall l fuel num bLen,
  (forall i, py_get a (off + bLen + Z.of_nat i) = match nth_error l i with Some x => Ok x | None => Err IndexError end) -> (length l < fuel)%nat ->
  (exists ds d r, l = ds ++ d :: r /\ Forall goes_on ds /\ ~ goes_on d
    /\ tag_loop fuel a off num bLen = Ok (num * 128 ^ Z.of_nat (length ds) + digits_value 128 (map (fun x => x mod 128) ds), bLen + zlen ds)
    /\ py_get a (off + (bLen + zlen ds)) = Ok d)
  \/ (Forall goes_on l /\ tag_loop fuel a off num bLen = Err IndexError).
Proof.
  induction l as [|x l IH]; intros fuel num bLen G F; (destruct fuel as [|fuel]; [lia|]); cbn [tag_loop];
    pose proof (G O) as G0; cbn in G0; rewrite Z.add_0_r in G0; rewrite G0; cbn [rbind].
  - right. now split.
  - rewrite land_goes. destruct (Z.testbit x 7) eqn:T.
    + destruct (IH fuel (Z.shiftl num 7 + Z.land x 127) (bLen + 1)) as [(ds & d & r & -> & A & B & C & D)|[A B]].
      * intros i. replace (off + (bLen + 1) + Z.of_nat i) with (off + bLen + Z.of_nat (S i)) by lia. apply G.
      * cbn [length] in F. lia.
      * left. exists (x :: ds), d, r. split; [reflexivity|]. split; [now constructor|]. split; [exact B|]. rewrite C. split.
        -- cbn [map digits_value length]. rewrite map_length, land_127, shiftl_mul by lia. change (2 ^ 7) with 128.
           rewrite Nat2Z.inj_succ, Z.pow_succ_r by lia. rewrite zlen_cons. f_equal. f_equal; [ring|lia].
        -- rewrite <- D. f_equal. rewrite zlen_cons. lia.
      * right. split; [now constructor|exact B].
    + left. exists [], x, l. split; [reflexivity|]. split; [constructor|]. split; [unfold goes_on; congruence|]. split.
      * unfold zlen. cbn [length map digits_value]. change (Z.of_nat 0) with 0. rewrite Z.pow_0_r. f_equal. f_equal; lia.
      * unfold zlen. cbn [length]. change (Z.of_nat 0) with 0. now rewrite Z.add_0_r.
Qed.
Lemma cells_from_length a off : zlen (cells_from a off) <= Z.max 0 (zlen a - off).
Proof.
  unfold cells_from. pose proof (zlen_nonneg a). destruct (Z.ltb_spec off (- zlen a)); [rewrite zlen_nil; lia|].
  destruct (Z.ltb_spec off 0); unfold zlen in *; rewrite ?app_length, skipn_length; lia.
Qed.
(** every array reads as a tag, or is cut *)
Lemma init_any a off :
  (exists c k n s, reads_tag (cells_from a off) c k n s /\ BERTag_init a off = Ok (mkTag c k n s))
  \/ (cut_tag (cells_from a off) /\ BERTag_init a off = Err IndexError).
Proof.
  unfold BERTag_init. pose proof (get_from a off 0 (or_introl eq_refl)) as G0. change (Z.of_nat 0) with 0 in G0. rewrite Z.add_0_r in G0.
  rewrite G0. destruct (cells_from a off) as [|b l] eqn:C; cbn [nth_error rbind].
  { right. split; [now left|reflexivity]. }
  assert (RO : - zlen a <= off). { unfold cells_from in C. destruct (Z.ltb_spec off (- zlen a)); [discriminate|assumption]. }
  rewrite land_31, land_cls, land_constr. destruct (Z.eqb_spec (b mod 32) 31) as [E|E].
  - destruct (tag_loop_any a off l (tag_fuel a off) 0 1) as [(ds & d & r & -> & A & B & T & D)|[A T]].
    + intros i. replace (off + 1 + Z.of_nat i) with (off + Z.of_nat (S i)) by lia. rewrite get_from by now right. now rewrite C.
    + pose proof (cells_from_length a off) as L. rewrite C, zlen_cons in L. unfold tag_fuel, zlen in *. lia.
    + rewrite T. cbn [rbind]. rewrite D. cbn [rbind]. left. do 4 eexists. split; [apply high_tag; eassumption|].
      rewrite map_app. cbn [map]. rewrite digits_value_snoc, land_127, shiftl_mul by lia. change (2 ^ 7) with 128. do 2 f_equal; lia.
    + rewrite T. cbn [rbind]. right. split; [|reflexivity]. right. exists b, l. auto.
  - left. do 4 eexists. split; [now apply low_tag|reflexivity].
Qed.
Lemma getInstance_any a off :
  (exists c k n s, reads_tag (cells_from a off) c k n s /\ BERTag_getInstance a off = Ok (mkTag c k n s))
  \/ (cut_tag (cells_from a off) /\ BERTag_getInstance a off = Err ArrayIndexOutOfBounds).
Proof.
  destruct (init_any a off) as [(c & k & n & s & R & I)|[C I]].
  - left. exists c, k, n, s. split; [exact R|]. destruct (py_get_cases a off) as [[b Hb]|Hb].
    + now apply getInstance_init with b.
    + unfold BERTag_init in I. rewrite Hb in I. discriminate.
  - right. split; [exact C|]. unfold BERTag_getInstance, Constructed_init_bytes, Primitive_init_bytes.
    destruct (py_get_cases a off) as [[b Hb]|Hb]; rewrite Hb; cbn [rbind]; [|reflexivity].
    destruct (constr_bit b) as [[-> ->]|[-> ->]]; cbn; now rewrite I.
Qed.
Lemma first_stop : forall ds d r ds' d' r', ds ++ d :: r = ds' ++ d' :: r' -> Forall goes_on ds -> ~ goes_on d -> Forall goes_on ds' -> ~ goes_on d' ->
  ds = ds' /\ d = d'.
Proof.
  induction ds as [|x ds IH]; intros d r [|x' ds'] d' r' E F N F' N'; cbn in E; inversion E; subst; auto.
  - inversion F'. contradiction.
  - inversion F. contradiction.
  - inversion F; inversion F'; subst. destruct (IH _ _ _ _ _ H1) as [-> ->]; auto.
Qed.
Lemma reads_tag_det l c k n s c' k' n' s' : reads_tag l c k n s -> reads_tag l c' k' n' s' -> mkTag c k n s = mkTag c' k' n' s'.
Proof.
  intros R R'. inversion R as [b r B|b ds d r B F N]; subst; inversion R' as [b' r' B'|b' ds' d' r' B' F' N' Q]; subst; try contradiction; auto.
  destruct (first_stop _ _ _ _ _ _ H) as [-> ->]; auto.
Qed.
Lemma reads_not_cut l c k n s : reads_tag l c k n s -> ~ cut_tag l.
Proof.
  intros R [->|(b & ds & -> & E & F)]; [inversion R|]. inversion R as [b' r B|b' ds' d r B F' N]; subst; [contradiction|].
  rewrite Forall_app in F. destruct F as [_ F]. inversion F. contradiction.
Qed.

Lemma C39_any_pf : forall a off r, BERTag_getInstance a off = r
  <-> match r with Ok g => reads_tag (cells_from a off) (tclass g) (tconstr g) (tnumber g) (tag_size g)
      | Err e => e = ArrayIndexOutOfBounds /\ cut_tag (cells_from a off) end.
Proof.
  intros a off r. split.
  - intros <-. destruct (getInstance_any a off) as [(c & k & n & s & R & ->)|[C ->]]; [exact R|now split].
  - intros H. destruct (getInstance_any a off) as [(c & k & n & s & R & ->)|[C ->]]; destruct r as [[c' k' n' s']|e].
    + f_equal. cbn in H. now apply reads_tag_det with (cells_from a off).
    + destruct H as [_ H]. now apply reads_not_cut in R.
    + now apply reads_not_cut in H.
    + now destruct H as [-> _].
Qed.

Lemma length_any l : (exists k n, reads_length l k n /\ getLengthPair l = Ok (k, n)) \/ (l = [] /\ getLengthPair l = Err IndexError).
Proof.
  destruct l as [|b r]; [now right|]. left. unfold getLengthPair. change (py_get (b :: r) 0) with (@Ok Z b). cbn [rbind].
  rewrite land_goes, land_127. destruct (Z.testbit b 7) eqn:T.
  - do 2 eexists. split; [now apply long_length|]. rewrite fold_le. do 2 f_equal. rewrite Z.mul_0_l, Z.add_0_l. do 2 f_equal.
    unfold py_slice. rewrite !zlen_cons. unfold py_clamp. pose proof (zlen_nonneg r). replace (1 <? 0) with false by reflexivity.
    replace (b mod 128 + 1 <? 0) with false by lia. replace (Z.min 1 (zlen r + 1)) with 1 by lia. change (Z.to_nat 1) with 1%nat. cbn [skipn].
    destruct (Z.le_ge_cases (b mod 128) (zlen r)).
    + f_equal. lia.
    + rewrite !firstn_all2 by (unfold zlen in *; lia). reflexivity.
  - do 2 eexists. split; [apply short_length; unfold goes_on; congruence|reflexivity].
Qed.
Lemma reads_length_det l k n k' n' : reads_length l k n -> reads_length l k' n' -> k = k' /\ n = n'.
Proof. intros R R'. inversion R; subst; inversion R'; subst; try contradiction; auto. Qed.

Lemma C42_length_exact_partial_pf : forall a off r, getLengthStatic a off = r
  <-> (exists c k n s, reads_tag (cells_from a off) c k n s
        /\ ((exists ll L, reads_length (py_slice_from a (off + s)) ll L /\ r = Ok (s + ll + L)) \/ (py_slice_from a (off + s) = [] /\ r = Err IndexError)))
      \/ (cut_tag (cells_from a off) /\ r = Err ArrayIndexOutOfBounds).
Proof.
  intros a off r. unfold getLengthStatic. split.
  - intros <-. destruct (getInstance_any a off) as [(c & k & n & s & R & ->)|[C ->]]; cbn [rbind]; [left|now right].
    exists c, k, n, s. split; [exact R|]. unfold tag_size. cbn [tsize].
    destruct (length_any (py_slice_from a (off + s))) as [(ll & L & RL & ->)|[E ->]]; cbn [rbind]; [left|right; now split].
    exists ll, L. now split.
  - intros [(c & k & n & s & R & H)|[C ->]].
    + rewrite (proj2 (C39_any_pf a off (Ok (mkTag c k n s))) R). cbn [rbind]. unfold tag_size. cbn [tsize].
      destruct H as [(ll & L & RL & ->)|[E ->]]; [|now rewrite E].
      destruct (length_any (py_slice_from a (off + s))) as [(ll' & L' & RL' & ->)|[E _]]; [|rewrite E in RL; inversion RL].
      destruct (reads_length_det _ _ _ _ _ RL RL') as [-> ->]. reflexivity.
    + now rewrite (proj2 (C39_any_pf a off (Err ArrayIndexOutOfBounds)) (conj eq_refl C)).
Qed.

Lemma C42_exact_partial_pf : forall a off len r, getInstance a off len = r
  <-> (exists c k n s, reads_tag (cells_from a off) c k n s
        /\ ((exists ll L, reads_length (py_slice_from a (off + s)) ll L
              /\ let N := match len with Some m => m - s - ll | None => L end in
                 r = Ok (mkTLV k (Some (mkTag c k n s)) N (Some (py_slice a (off + s + ll) (off + s + ll + N)))))
            \/ (py_slice_from a (off + s) = [] /\ r = Err IndexError)))
      \/ (cut_tag (cells_from a off) /\ r = Err ArrayIndexOutOfBounds).
Proof.
  intros a off len r.
  assert (X : forall c k n s ll L, BERTag_getInstance a off = Ok (mkTag c k n s) -> getLengthPair (py_slice_from a (off + s)) = Ok (ll, L) ->
    let N := match len with Some m => m - s - ll | None => L end in
    getInstance a off len = Ok (mkTLV k (Some (mkTag c k n s)) N (Some (py_slice a (off + s + ll) (off + s + ll + N))))).
  { intros c k n s ll L G P N. unfold getInstance, getLengthStatic. rewrite G. cbn [rbind]. unfold tag_size. cbn [tsize tconstr]. rewrite P. cbn [rbind].
    unfold init_tag, newTLV, N. destruct len as [m|]; cbn [rbind tkind]; [reflexivity|].
    replace (s + ll + L - s - ll) with L by lia. reflexivity. }
  assert (Y : forall c k n s, BERTag_getInstance a off = Ok (mkTag c k n s) -> py_slice_from a (off + s) = [] -> getInstance a off len = Err IndexError).
  { intros c k n s G P. unfold getInstance, getLengthStatic. rewrite G. cbn [rbind]. unfold tag_size. cbn [tsize]. rewrite P. cbn. now destruct len. }
  assert (W : BERTag_getInstance a off = Err ArrayIndexOutOfBounds -> getInstance a off len = Err ArrayIndexOutOfBounds).
  { intros G. unfold getInstance, getLengthStatic. rewrite G. cbn. now destruct len. }
  split.
  - intros <-. destruct (getInstance_any a off) as [(c & k & n & s & R & G)|[C G]]; [left|right; split; auto].
    exists c, k, n, s. split; [exact R|].
    destruct (length_any (py_slice_from a (off + s))) as [(ll & L & RL & P)|[E _]]; [left|right; split; eauto].
    exists ll, L. split; [exact RL|]. exact (X c k n s ll L G P).
  - intros [(c & k & n & s & R & H)|[C ->]].
    + pose proof (proj2 (C39_any_pf a off (Ok (mkTag c k n s))) R) as G.
      destruct H as [(ll & L & RL & ->)|[E ->]]; [|eauto].
      destruct (length_any (py_slice_from a (off + s))) as [(ll' & L' & RL' & P)|[E _]]; [|rewrite E in RL; inversion RL].
      destruct (reads_length_det _ _ _ _ _ RL RL') as [<- <-]. exact (X c k n s ll L G P).
    + apply W. exact (proj2 (C39_any_pf a off (Err ArrayIndexOutOfBounds)) (conj eq_refl C)).
Qed.
