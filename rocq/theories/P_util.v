(** * C01-C10: Util and utils: property theorems *)
From Verif Require Import LP_util Py S_Base L_Py M_utils M_util L_utils L_util.
From Coq Require Import ZifyBool ZifyNat.
Ltac Zify.zify_post_hook ::= Z.div_mod_to_equations.

(** C01.  makeShort: range, value modulo 65536, and independence of the
    signed/unsigned reading of the bytes.  No hypothesis on the arguments. *)
Theorem C01_makeShort : forall b1 b2,
  -32768 <= makeShort b1 b2 <= 32767
  /\ (makeShort b1 b2) mod 65536 = (256 * b1 + b2 mod 256) mod 65536
  /\ makeShort b1 b2 = makeShort (b1 mod 256) (b2 mod 256).
Proof. exact C01_makeShort_pf. Qed.
Print Assumptions C01_makeShort.

Example C01_ex : makeShort (-1) 254 = -2 /\ makeShort 255 (-2) = -2 /\ makeShort 127 (-1) = 32767.
Proof. vm_compute. auto. Qed.

(** C02.  setShort/getShort: the two cells written are signed bytes, read back
    as the 16-bit value of [v]; every other cell is unchanged (splice); both
    functions raise AIOOBE when a cell is past the end (setShort then may have
    written the first byte: second component). *)
Theorem C02_setShort_getShort : forall (a : list Z) (off v : Z), 0 <= off ->
  (off + 1 < zlen a ->
     exists x y a', setShort off v a = (Ok tt, a')
       /\ a' = splice a (Z.to_nat off) [x; y] /\ sbyte x /\ sbyte y
       /\ length a' = length a
       /\ getShort a' off = Ok (twos 2 v))
  /\ (zlen a <= off + 1 ->
     getShort a off = Err ArrayIndexOutOfBounds
     /\ exists a', setShort off v a = (Err ArrayIndexOutOfBounds, a')
        /\ a' = (if off <? zlen a then splice a (Z.to_nat off) [twos 1 (v / 256)] else a)).
Proof. exact C02_setShort_getShort_pf. Qed.
Print Assumptions C02_setShort_getShort.

Example C02_ex : setShort 1 (-2) [7; 7; 7; 7] = (Ok tt, [7; -1; -2; 7])
  /\ getShort [7; -1; -2; 7] 1 = Ok (-2)
  /\ setShort 3 (-2) [7; 7; 7; 7] = (Err ArrayIndexOutOfBounds, [7; 7; 7; -1]).
Proof. vm_compute. auto. Qed.

(** C03.  arrayCopy between distinct arrays. *)
Theorem C03_arrayCopy_distinct : forall src so dest do len (h : heap),
  src <> dest -> 0 <= so -> 0 <= do -> 0 <= len ->
  so + len <= zlen (h src) -> do + len <= zlen (h dest) ->
  exists h', arrayCopy src so dest do len h = (Ok tt, h')
    /\ sub (h' dest) (Z.to_nat do) (Z.to_nat len) = sub (h src) (Z.to_nat so) (Z.to_nat len)
    /\ (forall j, (j < Z.to_nat do \/ Z.to_nat do + Z.to_nat len <= j)%nat ->
         nth j (h' dest) 0 = nth j (h dest) 0)
    /\ length (h' dest) = length (h dest)
    /\ (forall k, k <> dest -> h' k = h k).
Proof. exact C03_arrayCopy_distinct_pf. Qed.
Print Assumptions C03_arrayCopy_distinct.

Example C03_ex : let h := fun k => match k with O => [1; 2; 3] | _ => [0; 0; 0; 0] end in
  fst (arrayCopy 0%nat 1 1%nat 2 2 h) = Ok tt /\ snd (arrayCopy 0%nat 1 1%nat 2 2 h) 1%nat = [0; 0; 2; 3].
Proof. vm_compute. auto. Qed.

(** C04, first part.  arrayCopy (distinct or same array) and arrayFill raise
    AIOOBE exactly when a requested cell lies past the end and return
    otherwise. *)
Theorem C04_bounds_exact : forall src so dest do len v (h : heap) (a : list Z),
  0 <= so -> 0 <= do -> 0 <= len ->
  fst (arrayCopy src so dest do len h) =
    (if (0 <? len) && ((zlen (h src) <? so + len) || (zlen (h dest) <? do + len))
     then Err ArrayIndexOutOfBounds else Ok tt)
  /\ fst (arrayFillNonAtomic do len v a) =
    (if (0 <? len) && (zlen a <? do + len) then Err ArrayIndexOutOfBounds else Ok tt).
Proof. exact C04_bounds_exact_pf. Qed.
Print Assumptions C04_bounds_exact.

(** C04, second part.  No raw IndexError escapes, for all integer arguments. *)
Theorem C04_no_IndexError : forall src so dest do len v (h : heap) (a b : list Z),
  fst (arrayCopy src so dest do len h) <> Err IndexError
  /\ arrayCompare a so b do len <> Err IndexError
  /\ fst (arrayFillNonAtomic do len v a) <> Err IndexError
  /\ getShort a do <> Err IndexError
  /\ fst (setShort do v a) <> Err IndexError.
Proof. exact C04_no_IndexError_pf. Qed.
Print Assumptions C04_no_IndexError.

Example C04_ex : fst (arrayCopy 0%nat 0 1%nat 0 4 (fun _ => [1; 2; 3])) = Err ArrayIndexOutOfBounds
  /\ fst (arrayFillNonAtomic 2 2 9 [1; 2; 3]) = Err ArrayIndexOutOfBounds
  /\ fst (arrayCopy 0%nat 0 1%nat 0 3 (fun _ => [1; 2; 3])) = Ok tt
  /\ arrayFillNonAtomic 1 2 9 [1; 2; 3] = (Ok tt, [1; 9; 9]).
Proof. vm_compute. auto. Qed.

(** C04, third part: effect of arrayFillNonAtomic: exactly the requested cells
    are replaced. *)
Theorem C04_fill_effect : forall (a : list Z) off len v,
  0 <= off -> 0 <= len -> off + len <= zlen a ->
  exists a', arrayFillNonAtomic off len v a = (Ok tt, a')
    /\ length a' = length a
    /\ forall j, (j < length a)%nat ->
       nth j a' 0 = if (off <=? Z.of_nat j) && (Z.of_nat j <? off + len) then v else nth j a 0.
Proof. exact C04_fill_effect_pf. Qed.
Print Assumptions C04_fill_effect.

(** C05.  The full statement ("as through a temporary") is false: witness. *)
Theorem C05_overlap_refuted : ~ (forall a so do len (h : heap),
  0 <= so -> 0 <= do -> 0 <= len -> so + len <= zlen (h a) -> do + len <= zlen (h a) ->
  sub (snd (arrayCopy a so a do len h) a) (Z.to_nat do) (Z.to_nat len)
  = sub (h a) (Z.to_nat so) (Z.to_nat len)).
Proof. exact C05_overlap_refuted_pf. Qed.
Print Assumptions C05_overlap_refuted.

(** C05, the true fragment: destination not to the right of the source, or
    disjoint ranges.  What is missing is so < do < so+len, settled exactly by
    [C05_overlap_right_exact]. *)
Theorem C05_overlap_partial : forall a so do len (h : heap),
  0 <= so -> 0 <= do -> 0 <= len -> so + len <= zlen (h a) -> do + len <= zlen (h a) ->
  (do <= so \/ so + len <= do) ->
  exists h', arrayCopy a so a do len h = (Ok tt, h')
    /\ h' a = splice (h a) (Z.to_nat do) (sub (h a) (Z.to_nat so) (Z.to_nat len))
    /\ (forall k, k <> a -> h' k = h k).
Proof. exact C05_overlap_partial_pf. Qed.
Print Assumptions C05_overlap_partial.

(** C05, what the code does when the ranges overlap to the right: the block of
    length do-so is repeated. *)
Theorem C05_overlap_right_exact : forall a so do len (h : heap),
  0 <= so < do -> 0 <= len -> do + len <= zlen (h a) ->
  exists h', arrayCopy a so a do len h = (Ok tt, h')
    /\ (forall k, k <> a -> h' k = h k) /\ length (h' a) = length (h a)
    /\ (forall j, 0 <= j < len ->
        nth (Z.to_nat (do + j)) (h' a) 0 = nth (Z.to_nat (so + j mod (do - so))) (h a) 0)
    /\ (forall j, 0 <= j < zlen (h a) -> (j < do \/ do + len <= j) ->
        nth (Z.to_nat j) (h' a) 0 = nth (Z.to_nat j) (h a) 0).
Proof. exact C05_overlap_right_exact_pf. Qed.
Print Assumptions C05_overlap_right_exact.

Example C05_ex : snd (arrayCopy 0%nat 0 0%nat 1 4 (fun _ => [1; 2; 3; 4; 5])) 0%nat = [1; 1; 1; 1; 1]
  /\ snd (arrayCopy 0%nat 1 0%nat 0 4 (fun _ => [1; 2; 3; 4; 5])) 0%nat = [2; 3; 4; 5; 5].
Proof. vm_compute. auto. Qed.

(** C06.  Atomicity is false: a failing copy leaves the cells that fitted
    overwritten. *)
Theorem C06_atomic_refuted : ~ (forall src so dest do len (h h' : heap) e,
  arrayCopy src so dest do len h = (Err e, h') -> h' dest = h dest).
Proof. exact C06_atomic_refuted_pf. Qed.
Print Assumptions C06_atomic_refuted.

(** C06, what holds: on failure the destination is the old one with the first
    k cells copied, k the number of cells that fit; hence it is untouched
    exactly when nothing fitted (or the copied cells already agreed); all other
    arrays are untouched. *)
Theorem C06_atomic_partial : forall src so dest do len (h : heap),
  src <> dest -> 0 <= so -> 0 <= do -> 0 < len ->
  (zlen (h src) < so + len \/ zlen (h dest) < do + len) ->
  exists h', arrayCopy src so dest do len h = (Err ArrayIndexOutOfBounds, h')
    /\ h' dest = splice (h dest) (Z.to_nat do)
                  (sub (h src) (Z.to_nat so)
                     (Z.to_nat (Z.min (zlen (h src) - so) (zlen (h dest) - do))))
    /\ (zlen (h src) <= so \/ zlen (h dest) <= do -> h' dest = h dest)
    /\ (forall k, k <> dest -> h' k = h k).
Proof. exact C06_atomic_partial_pf. Qed.
Print Assumptions C06_atomic_partial.

Example C06_ex : let h := fun k => match k with O => [1; 2; 3] | _ => [0; 0] end in
  fst (arrayCopy 0%nat 0 1%nat 0 3 h) = Err ArrayIndexOutOfBounds
  /\ snd (arrayCopy 0%nat 0 1%nat 0 3 h) 1%nat = [1; 2].
Proof. vm_compute. auto. Qed.

(** C07.  arrayCompare: [r] is 0 exactly for equal ranges, 1 / -1 exactly when
    the source element is greater / smaller at the first difference, and one of
    the three always holds. *)
Theorem C07_arrayCompare : forall src so dest do len,
  0 <= so -> 0 <= do -> 0 <= len -> so + len <= zlen src -> do + len <= zlen dest ->
  let s := sub src (Z.to_nat so) (Z.to_nat len) in
  let d := sub dest (Z.to_nat do) (Z.to_nat len) in
  exists r, arrayCompare src so dest do len = Ok r
  /\ (r = 0 \/ r = 1 \/ r = -1)
  /\ (r = 0 <-> s = d)
  /\ (r = 1 <-> exists k, (k < Z.to_nat len)%nat /\ firstn k s = firstn k d /\ nth k d 0 < nth k s 0)
  /\ (r = -1 <-> exists k, (k < Z.to_nat len)%nat /\ firstn k s = firstn k d /\ nth k s 0 < nth k d 0)
  /\ arrayCompare dest do src so len = Ok (- r).
Proof. exact C07_arrayCompare_pf. Qed.
Print Assumptions C07_arrayCompare.

Example C07_ex : arrayCompare [9; 1; 2; 3] 1 [1; 2; 4] 0 3 = Ok (-1)
  /\ arrayCompare [1; 2; 4] 0 [9; 1; 2; 3] 1 3 = Ok 1 /\ arrayCompare [5; 6] 0 [5; 6] 0 2 = Ok 0.
Proof. vm_compute. auto. Qed.

(** C08.  Negative offsets are not rejected: for every array of at least two
    cells and every offset in [-length, -2], setShort writes from the end and
    getShort reads from the end (and so on for the other functions). *)
Theorem C08_negative_refuted : forall (a : list Z) off v, - zlen a <= off <= -2 ->
  setShort off v a = (Ok tt, splice a (Z.to_nat (zlen a + off)) [twos 1 (v / 256); twos 1 v])
  /\ getShort a off = getShort a (zlen a + off)
  /\ (exists x, getShort a off = Ok x)
  /\ (forall b, 0 < zlen b -> exists r, arrayCompare a off b 0 1 = Ok r)
  /\ (forall h dest src, h src = a -> 0 < zlen (h dest) ->
       fst (arrayCopy src off dest 0 1 h) = Ok tt).
Proof. exact C08_negative_refuted_pf. Qed.
Print Assumptions C08_negative_refuted.

Example C08_ex : setShort (-2) 258 [0; 0; 0; 0] = (Ok tt, [0; 0; 1; 2]).
Proof. vm_compute. reflexivity. Qed.

(** C08, the true fragment: offsets below -length are rejected and nothing
    changes. *)
Theorem C08_negative_partial : forall src so dest do len v (h : heap) (a : list Z),
  0 < len ->
  (so < - zlen (h src) -> arrayCopy src so dest do len h = (Err ArrayIndexOutOfBounds, h))
  /\ (0 <= so < zlen (h src) -> do < - zlen (h dest) ->
      arrayCopy src so dest do len h = (Err ArrayIndexOutOfBounds, h))
  /\ (do < - zlen a -> arrayFillNonAtomic do len v a = (Err ArrayIndexOutOfBounds, a)
       /\ setShort do v a = (Err ArrayIndexOutOfBounds, a)
       /\ getShort a do = Err ArrayIndexOutOfBounds
       /\ arrayCompare a do (h src) so len = Err ArrayIndexOutOfBounds).
Proof. exact C08_negative_partial_pf. Qed.
Print Assumptions C08_negative_partial.

(** C09.  The error clause is false for every out-of-bounds call: the code
    raises NameError. *)
Theorem C09_nonAtomic_refuted : forall src so dest do len (h : heap),
  0 <= so -> 0 <= do -> 0 < len -> (zlen (h src) < so + len \/ zlen (h dest) < do + len) ->
  fst (arrayCopyNonAtomic src so dest do len h) = Err NameError.
Proof. exact C09_nonAtomic_refuted_pf. Qed.
Print Assumptions C09_nonAtomic_refuted.

(** C09, the true fragment: same heap as arrayCopy for all arguments, same
    outcome except that AIOOBE becomes NameError; hence same result on
    in-bounds ranges. *)
Theorem C09_nonAtomic_partial : forall src so dest do len (h : heap),
  snd (arrayCopyNonAtomic src so dest do len h) = snd (arrayCopy src so dest do len h)
  /\ fst (arrayCopyNonAtomic src so dest do len h) =
     match fst (arrayCopy src so dest do len h) with
     | Err ArrayIndexOutOfBounds => Err NameError
     | r => r
     end.
Proof. exact C09_nonAtomic_partial_pf. Qed.
Print Assumptions C09_nonAtomic_partial.

Example C09_ex : let h := fun k => match k with O => [1; 2; 3] | _ => [0; 0; 0; 0] end in
  fst (arrayCopyNonAtomic 0%nat 1 1%nat 2 2 h) = Ok tt
  /\ snd (arrayCopyNonAtomic 0%nat 1 1%nat 2 2 h) 1%nat = [0; 0; 2; 3]
  /\ fst (arrayCopyNonAtomic 0%nat 1 1%nat 3 2 h) = Err NameError.
Proof. vm_compute. auto. Qed.

(** C10.  signed(v, d) for every byte count d >= 1 and every integer v. *)
Theorem C10_signed : forall v d, 1 <= d ->
  (signed v d) mod 2 ^ (8 * d) = v mod 2 ^ (8 * d)
  /\ (- 2 ^ (8 * d - 1) <= v < 2 ^ (8 * d - 1) -> signed v d = v)
  /\ (0 <= v < 2 ^ (8 * d) -> - 2 ^ (8 * d - 1) <= signed v d < 2 ^ (8 * d - 1))
  /\ ((- 2 ^ (8 * d - 1) <= signed v d < 2 ^ (8 * d - 1)) <->
      (- 2 ^ (8 * d - 1) <= v < 2 ^ (8 * d - 1) \/
       (2 ^ (8 * d - 1) <= v /\
        (v mod 2 ^ (8 * d) = 0 \/ 2 ^ (8 * d - 1) <= v mod 2 ^ (8 * d)))))
  /\ signed (signed v d) d = signed v d
  /\ u1 (signed v 1) = v mod 256.
Proof. exact C10_signed_pf. Qed.
Print Assumptions C10_signed.

Example C10_ex : signed 200 1 = -56 /\ signed 65535 2 = -1 /\ signed (-5) 2 = -5 /\ signed 300 1 = -212.
Proof. vm_compute. auto. Qed.
