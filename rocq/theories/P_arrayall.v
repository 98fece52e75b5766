(** * C08: the array functions of util.py for every integer argument: property theorems *)
From Verif Require Import LP_arrayall Py S_Base S_Number S_ArrayAll L_Py M_utils M_util M_jcint M_key S_System S_DigestAll M_digest M_system L_utils L_util LP_util LP_system LP_jcint.
From Coq Require Import ZifyBool ZifyNat.
Ltac Zify.zify_post_hook ::= Z.div_mod_to_equations.

(** C08, what arrayFillNonAtomic does, for every offset and every length: the cells
    that exist are written, in order, and the exception is raised exactly when one of
    the indices names no cell. *)
Theorem C08_fill_partial : forall off len v (a : list Z),
  exists b, arrayFillNonAtomic off len v a
    = (if fit (zlen a) off len <? len then Err ArrayIndexOutOfBounds else Ok tt, b)
    /\ after_writes (fun _ => v) off (fit (zlen a) off len) a b.
Proof. exact C08_fill_partial_pf. Qed.
Print Assumptions C08_fill_partial.

Example C08_fill_ex :
  arrayFillNonAtomic (-2) 3 9 [1; 2; 3; 4] = (Ok tt, [9; 2; 9; 9])
  /\ arrayFillNonAtomic (-5) 2 9 [1; 2; 3; 4] = (Err ArrayIndexOutOfBounds, [1; 2; 3; 4])
  /\ fit 4 (-2) 3 = 3 /\ fit 4 (-2) 9 = 6 /\ fit 4 (-5) 2 = 0.
Proof. vm_compute. auto. Qed.

(** C08, C04 and C06: arrayCopy for all integer arguments.  With [k] the number of
    steps before the first index that names no cell, the exception is raised exactly when
    [k < len]; nothing but [dest] changes, no array changes its length; and when the two
    arrays are distinct exactly the first [k] elements have been written.  (For one
    array with itself see [C08_self_partial].) *)
Theorem C08_copy_partial : forall src so dest do len (h : heap),
  let k := Z.min (fit (zlen (h src)) so len) (fit (zlen (h dest)) do len) in
  exists h', arrayCopy src so dest do len h
    = (if k <? len then Err ArrayIndexOutOfBounds else Ok tt, h')
    /\ (forall l, length (h' l) = length (h l)) /\ (forall l, l <> dest -> h' l = h l)
    /\ (src <> dest -> after_writes (fun i => elem (h src) (so + i)) do k (h dest) (h' dest)).
Proof. exact C08_copy_partial_pf. Qed.
Print Assumptions C08_copy_partial.

Example C08_copy_ex :
  let h : heap := fun l => match l with O => [1; 2; 3] | _ => [10; 20; 30; 40] end in
  (let r := arrayCopy 0%nat (-1) 1%nat (-2) 4 h in (fst r, snd r 1%nat)) = (Ok tt, [2; 3; 3; 1])
  /\ (let r := arrayCopy 0%nat (-1) 1%nat (-2) 5 h in (fst r, snd r 1%nat)) = (Err ArrayIndexOutOfBounds, [2; 3; 3; 1])
  /\ Z.min (fit 3 (-1) 5) (fit 4 (-2) 5) = 4.
Proof. vm_compute. auto. Qed.

(** C08 and C05: one array copied into itself, for all integer arguments: the cells written are
    those of the range, and each move takes what the earlier moves left at its source. *)
Theorem C08_self_partial : forall a so do len (h : heap),
  let k := Z.min (fit (zlen (h a)) so len) (fit (zlen (h a)) do len) in
  exists h' f, arrayCopy a so a do len h = (if k <? len then Err ArrayIndexOutOfBounds else Ok tt, h')
    /\ moved_in f so do k (h a) /\ after_writes f do k (h a) (h' a).
Proof. exact C08_self_partial_pf. Qed.
Print Assumptions C08_self_partial.

(** the moves determine the values moved *)
Theorem C08_self_unique : forall f g so do k a, moved_in f so do k a -> moved_in g so do k a -> forall i, 0 <= i < k -> f i = g i.
Proof. exact C08_self_unique_pf. Qed.
Print Assumptions C08_self_unique.

Example C08_self_ex :
  let h : heap := fun _ => [1; 2; 3; 4; 5] in
  (let r := arrayCopy 0%nat (-2) 0%nat (-4) 4 h in (fst r, snd r 0%nat)) = (Ok tt, [1; 4; 5; 1; 4])
  /\ (let r := arrayCopy 0%nat 0 0%nat (-3) 9 h in (fst r, snd r 0%nat)) = (Err ArrayIndexOutOfBounds, [2; 1; 1; 2; 1])
  /\ Z.min (fit 5 0 9) (fit 5 (-3) 9) = 5.
Proof. vm_compute. auto. Qed.

(** C08, arrayCompare for all integer arguments: the first difference among the
    elements that exist decides; without one the result is 0 or the exception. *)
Theorem C08_compare_partial : forall src so dest do len,
  let k := Z.min (fit (zlen src) so len) (fit (zlen dest) do len) in
  (exists i, 0 <= i < k
     /\ (forall j, 0 <= j < i -> elem src (so + j) = elem dest (do + j))
     /\ elem src (so + i) <> elem dest (do + i)
     /\ arrayCompare src so dest do len
        = Ok (if elem dest (do + i) <? elem src (so + i) then 1 else -1))
  \/ ((forall j, 0 <= j < k -> elem src (so + j) = elem dest (do + j))
      /\ arrayCompare src so dest do len = if k <? len then Err ArrayIndexOutOfBounds else Ok 0).
Proof. exact C08_compare_partial_pf. Qed.
Print Assumptions C08_compare_partial.

Example C08_compare_ex :
  arrayCompare [1; 2; 3] (-1) [3; 1; 9; 3] (-1) 3 = Ok (-1)
  /\ arrayCompare [1; 2] (-1) [2; 1; 2] 0 9 = Err ArrayIndexOutOfBounds
  /\ arrayCompare [1; 2] (-1) [2; 1; 7] 0 9 = Ok (-1)
  /\ Z.min (fit 2 (-1) 9) (fit 3 0 9) = 3.
Proof. vm_compute. auto. Qed.

(** C08, getShort and setShort at every offset.  At offset -1 the two bytes are the
    last cell and the first one. *)
Theorem C08_short_partial : forall off v (a : list Z),
  getShort a off = (if fit (zlen a) off 2 =? 2
                    then Ok (twos 2 (256 * elem a off + elem a (off + 1) mod 256))
                    else Err ArrayIndexOutOfBounds)
  /\ exists b, setShort off v a = (if fit (zlen a) off 2 =? 2 then Ok tt else Err ArrayIndexOutOfBounds, b)
     /\ after_writes (fun i => if i =? 0 then twos 1 (v / 256) else twos 1 v) off (fit (zlen a) off 2) a b.
Proof. exact C08_short_partial_pf. Qed.
Print Assumptions C08_short_partial.

Example C08_short_ex :
  setShort (-1) 258 [7; 8; 9] = (Ok tt, [2; 8; 1]) /\ getShort [2; 8; 1] (-1) = Ok 258
  /\ setShort 2 258 [7; 8; 9] = (Err ArrayIndexOutOfBounds, [7; 8; 1])
  /\ fit 3 (-1) 2 = 2 /\ fit 3 2 2 = 1.
Proof. vm_compute. auto. Qed.

(** C75 for every offset and every length other than 0: the bytes of the source go, in
    order, to the cells the indices name; NameError exactly when one names none; a
    negative length writes nothing. *)
Theorem C75_any_partial : forall rnd off n buf, n <> 0 ->
  exists b, generateData rnd off n buf = (if fit (zlen buf) off n <? n then Err NameError else Ok tt, b)
    /\ after_writes (fun i => rnd (Z.to_nat i)) off (fit (zlen buf) off n) buf b.
Proof. exact C75_any_partial_pf. Qed.
Print Assumptions C75_any_partial.

Example C75_any_ex : generateData Z.of_nat (-1) 3 [7; 8; 9] = (Ok tt, [1; 2; 0]).
Proof. vm_compute. reflexivity. Qed.

(** C97 at every offset *)
Theorem C97_any_partial : forall offset memoryType buffer,
  exists b, getAvailableMemory3 offset memoryType (Some buffer)
            = (if fit (zlen buffer) offset 2 <? 2 then Err NameError else Ok tt, Some b)
    /\ after_writes (fun i => if i =? 0 then 127 else 255) offset (fit (zlen buffer) offset 2) buffer b.
Proof. exact C97_any_partial_pf. Qed.
Print Assumptions C97_any_partial.

Example C97_any_ex : getAvailableMemory3 (-1) 0 (Some [7; 8; 9]) = (Ok tt, Some [255; 8; 127]).
Proof. vm_compute. reflexivity. Qed.

(** C74, update at every offset and length: the bytes named by the range are fed, or
    NameError is raised and nothing is fed. *)
Theorem C74_update_partial : forall inBuff io il s,
  digest_update inBuff io il s
  = if all_cells inBuff io il then (Ok tt, mkDigest (md_alg s) (md_fed s ++ named inBuff io il))
    else (Err NameError, s).
Proof. exact C74_update_partial_pf. Qed.
Print Assumptions C74_update_partial.

Example C74_update_ex :
  digest_update [1; 2; 3] (-1) 4 (mkDigest 1 [9]) = (Ok tt, mkDigest 1 [9; 3; 1; 2; 3])
  /\ digest_update [1; 2; 3] (-1) 5 (mkDigest 1 [9]) = (Err NameError, mkDigest 1 [9])
  /\ named [1; 2; 3] (-1) 4 = [3; 1; 2; 3] /\ all_cells [1; 2; 3] (-1) 5 = false.
Proof. vm_compute. auto. Qed.

(** C73 and C74: a message digest after any calls, with any integer offsets and
    lengths.  What it has been fed is [fed_any]; doFinal digests that and the range, or
    raises NameError and changes nothing when the range names a missing cell; the
    digest goes to the cells the indices name, and when one is missing NameError is
    raised after the others have been written; the object is as new in both cases. *)
Theorem C73_any_offsets : forall H alg s0 h inBuff io il out oo,
  (forall m, zlen (hl_digest H alg m) = hl_size H alg /\ Forall ubyte (hl_digest H alg m)) ->
  digest_getInstance H alg = Ok s0 ->
  let s := digest_run H h s0 in
  let d := hl_digest H alg (fed_any h ++ named inBuff io il) in
  let k := fit (zlen out) oo (hl_size H alg) in
  s = mkDigest alg (fed_any h)
  /\ (all_cells inBuff io il = false -> digest_doFinal H inBuff io il oo (s, out) = (Err NameError, (s, out)))
  /\ (all_cells inBuff io il = true ->
      exists b, digest_doFinal H inBuff io il oo (s, out)
        = (if k <? hl_size H alg then Err NameError else Ok (hl_size H alg), (s0, b))
        /\ after_writes (fun i => twos 1 (nth (Z.to_nat i) d 0)) oo k out b).
Proof. exact C73_any_offsets_pf. Qed.
Print Assumptions C73_any_offsets.

Example C73_any_ex :
  let H := mkHashlib (fun _ => true) (fun _ => 2) (fun _ m => [fold_left Z.add m 0 mod 256; 200]) in
  let s := digest_run H [DUpdate [1; 2; 3] (-1) 2; DUpdate [1] (-2) 2; DFinal [1] 1 1 [] 0] (mkDigest 1 []) in
  s = mkDigest 1 [3; 1]
  /\ digest_doFinal H [5] (-1) 2 (-1) (s, [0; 0; 0]) = (Ok 2, (mkDigest 1 [], [-56; 0; 14])).
Proof. vm_compute. auto. Qed.

(** C38, setInt for all integers and at every offset: the big-endian bytes of
    65536*hi + lo go to the cells that exist; no ArrayIndexOutOfBoundsException is
    raised but Python's own IndexError. *)
Theorem C38_setInt_any_partial : forall off hi lo (a : list Z),
  exists b, setInt off hi lo a = (if fit (zlen a) off 4 =? 4 then Ok (off + 4) else Err IndexError, b)
    /\ after_writes (fun i => twos 1 ((65536 * hi + lo) / 256 ^ (3 - i))) off (fit (zlen a) off 4) a b.
Proof. exact C38_setInt_any_partial_pf. Qed.
Print Assumptions C38_setInt_any_partial.

(** C38, getInt at every offset and for cells holding signed bytes: their weighted sum
    with the signs kept, which is the 32-bit integer of the four bytes exactly when
    the three low ones are not negative. *)
Theorem C38_getInt_any_partial : forall (a : list Z) off,
  (fit (zlen a) off 4 < 4 -> getInt a off = Err IndexError)
  /\ (fit (zlen a) off 4 = 4 ->
      let e i := elem a (off + i) in
      (forall i, 0 <= i < 4 -> sbyte (e i)) ->
      getInt a off = Ok (16777216 * e 0 + 65536 * e 1 + 256 * e 2 + e 3)
      /\ (getInt a off = Ok (twos 4 (digits_value 256 [e 0 mod 256; e 1 mod 256; e 2 mod 256; e 3 mod 256]))
          <-> 0 <= e 1 /\ 0 <= e 2 /\ 0 <= e 3)).
Proof. exact C38_getInt_any_partial_pf. Qed.
Print Assumptions C38_getInt_any_partial.

Example C38_any_ex :
  setInt (-2) 258 772 [7; 8; 9] = (Ok 2, [3; 4; 2])
  /\ setInt (-2) 258 772 [7; 8; 9; 10; 11] = (Ok 2, [3; 4; 9; 1; 2])
  /\ setInt 1 258 772 [7; 8; 9] = (Err IndexError, [7; 1; 2])
  /\ getInt [3; 4; 9; 1; 2] (-2) = Ok 16909060
  /\ getInt [0; 0; -1; 0] 0 = Ok (-256) /\ getInt [1; 2; 3] 0 = Err IndexError.
Proof. vm_compute. auto 10. Qed.
