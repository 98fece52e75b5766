(** * C99-C100: copies, fills and comparisons as an algebra: property theorems *)
From Verif Require Import LP_algebra Py S_Base L_Py M_utils M_util L_utils L_util LP_util.
From Coq Require Import ZifyBool ZifyNat.
Ltac Zify.zify_post_hook ::= Z.div_mod_to_equations.

(** copying l1 + l2 elements is copying l1 and then the next l2: for any two arrays, the
    same array included, any offsets, and also when an access fails *)
Theorem C99_copy_split : forall src so dest do l1 l2 (h : heap), 0 <= l1 -> 0 <= l2 ->
  arrayCopy src so dest do (l1 + l2) h
  = (arrayCopy src so dest do l1 ;;; arrayCopy src (so + l1) dest (do + l1) l2) h
  /\ arrayCopyNonAtomic src so dest do (l1 + l2) h
  = (arrayCopyNonAtomic src so dest do l1 ;;; arrayCopyNonAtomic src (so + l1) dest (do + l1) l2) h.
Proof. exact C99_copy_split_pf. Qed.
Print Assumptions C99_copy_split.

(** the same for arrayFillNonAtomic *)
Theorem C99_fill_split : forall off l1 l2 v (a : list Z), 0 <= l1 -> 0 <= l2 ->
  arrayFillNonAtomic off (l1 + l2) v a
  = (arrayFillNonAtomic off l1 v ;;; arrayFillNonAtomic (off + l1) l2 v) a.
Proof. exact C99_fill_split_pf. Qed.
Print Assumptions C99_fill_split.

(** comparing l1 + l2 elements: the answer for the first l1, unless they are equal *)
Theorem C99_compare_split : forall src so dest do l1 l2, 0 <= l1 -> 0 <= l2 ->
  arrayCompare src so dest do (l1 + l2)
  = match arrayCompare src so dest do l1 with
    | Ok 0 => arrayCompare src (so + l1) dest (do + l1) l2
    | r => r
    end.
Proof. exact C99_compare_split_pf. Qed.
Print Assumptions C99_compare_split.

Example C99_ex : snd (arrayCopy 0%nat 0 0%nat 1 (1 + 2) (fun _ => [1; 2; 3; 4; 5])) 0%nat = [1; 1; 1; 1; 5]
  /\ fst ((arrayCopy 0%nat 0 1%nat 0 2 ;;; arrayCopy 0%nat 2 1%nat 2 2) (fun _ => [1; 2; 3])) = Err ArrayIndexOutOfBounds
  /\ arrayFillNonAtomic 1 (1 + 1) 7 [1; 2; 3] = (Ok tt, [1; 7; 7])
  /\ arrayCompare [1; 2; 3] 0 [1; 2; 4] 0 (2 + 1) = Ok (-1).
Proof. vm_compute. auto. Qed.

(** after a copy between two arrays the two ranges compare equal *)
Theorem C100_copy_compare : forall src so dest do len (h : heap), src <> dest ->
  0 <= so -> 0 <= do -> 0 <= len -> so + len <= zlen (h src) -> do + len <= zlen (h dest) ->
  exists h', arrayCopy src so dest do len h = (Ok tt, h')
    /\ arrayCompare (h' src) so (h' dest) do len = Ok 0.
Proof. exact C100_copy_compare_pf. Qed.
Print Assumptions C100_copy_compare.

(** saving a range, overwriting it and copying it back restores the array *)
Theorem C100_save_restore : forall a off len tmp to src so (h : heap),
  a <> tmp -> a <> src -> tmp <> src -> 0 <= off -> 0 <= to -> 0 <= so -> 0 <= len ->
  off + len <= zlen (h a) -> to + len <= zlen (h tmp) -> so + len <= zlen (h src) ->
  exists h', (arrayCopy a off tmp to len ;;; arrayCopy src so a off len ;;; arrayCopy tmp to a off len) h = (Ok tt, h')
    /\ h' a = h a /\ h' src = h src.
Proof. exact C100_save_restore_pf. Qed.
Print Assumptions C100_save_restore.

(** arrayCompare orders the ranges totally: it answers for every pair, is 0 exactly on
    equal ranges, changes sign when the arguments are exchanged, and is transitive *)
Theorem C100_order : forall a ao b bo c co len, 0 <= ao -> 0 <= bo -> 0 <= co -> 0 <= len ->
  ao + len <= zlen a -> bo + len <= zlen b -> co + len <= zlen c ->
  exists ab bc ac, arrayCompare a ao b bo len = Ok ab /\ arrayCompare b bo c co len = Ok bc
    /\ arrayCompare a ao c co len = Ok ac /\ arrayCompare b bo a ao len = Ok (- ab)
    /\ (ab = 0 <-> sub a (Z.to_nat ao) (Z.to_nat len) = sub b (Z.to_nat bo) (Z.to_nat len))
    /\ (ab <= 0 -> bc <= 0 -> ac <= 0) /\ (ab < 0 -> bc <= 0 -> ac < 0) /\ (ab <= 0 -> bc < 0 -> ac < 0).
Proof. exact C100_order_pf. Qed.
Print Assumptions C100_order.

(** two ranges filled with v and w compare as v and w do *)
Theorem C100_fill_compare : forall a ao b bo len v w, 0 <= ao -> 0 <= bo -> 0 < len ->
  ao + len <= zlen a -> bo + len <= zlen b ->
  exists a' b', arrayFillNonAtomic ao len v a = (Ok tt, a') /\ arrayFillNonAtomic bo len w b = (Ok tt, b')
    /\ arrayCompare a' ao b' bo len = Ok (Z.sgn (v - w)).
Proof. exact C100_fill_compare_pf. Qed.
Print Assumptions C100_fill_compare.

Example C100_ex : let h := fun k => match k with O => [1; 2; 3] | 1%nat => [7; 8; 9; 0] | _ => [5; 5; 5] end in
  snd ((arrayCopy 0%nat 1 1%nat 2 2 ;;; arrayCopy 2%nat 0 0%nat 1 2 ;;; arrayCopy 1%nat 2 0%nat 1 2) h) 0%nat = [1; 2; 3]
  /\ snd ((arrayCopy 0%nat 1 1%nat 2 2 ;;; arrayCopy 2%nat 0 0%nat 1 2) h) 0%nat = [1; 5; 5]
  /\ arrayCompare [1; 2] 0 [1; 3] 0 2 = Ok (-1) /\ arrayCompare [1; 3] 0 [2; 0] 0 2 = Ok (-1)
  /\ arrayCompare [1; 2] 0 [2; 0] 0 2 = Ok (-1).
Proof. vm_compute. auto. Qed.
