(** * Specification for C08 over all integer arguments: which cell an index names,
      how many cells of a range exist, and what a run of writes leaves *)
From Verif Require Import Py.

(** In an array of [n] cells the index [i] names a cell when [-n <= i < n]; the
    negative ones count from the end. *)
Definition cell (n i : Z) : Z := if i <? 0 then n + i else i.

(** the element named by an index *)
Definition elem (a : list Z) (i : Z) : Z := nth (Z.to_nat (cell (zlen a) i)) a 0.

(** Of the indices [off, off+1, ..., off+len-1], how many come before the first that
    names no cell. *)
Definition fit (n off len : Z) : Z :=
  if off <? - n then 0 else Z.max 0 (Z.min len (n - off)).

(** The element at position [j] after [f 0, ..., f (k-1)] have been written, in that
    order, at the indices [off, ..., off+k-1].  A range that starts below zero and
    goes on past zero comes back to the first cells: position [j] is then named twice,
    by [j] and by [j - n], and the later write (the one at [j]) stays. *)
Definition written (f : Z -> Z) (off k : Z) (a : list Z) (j : Z) : Z :=
  if (0 <=? j - off) && (j - off <? k) then f (j - off)
  else if (0 <=? j - zlen a - off) && (j - zlen a - off <? k) then f (j - zlen a - off)
  else nth (Z.to_nat j) a 0.

(** [b] is [a] after these writes *)
Definition after_writes (f : Z -> Z) (off k : Z) (a b : list Z) : Prop :=
  length b = length a
  /\ forall j, 0 <= j < zlen a -> nth (Z.to_nat j) b 0 = written f off k a j.

(** the indices of a range, from its start *)
Definition steps (k : Z) : list Z := map Z.of_nat (seq 0 (Z.to_nat k)).
(** every index of the range names a cell (a range of length 0 or less has none) *)
Definition all_cells (a : list Z) (off len : Z) : bool := len <=? fit (zlen a) off len.
(** the bytes named by a range *)
Definition named (a : list Z) (off len : Z) : list Z :=
  map (fun i => elem a (off + i) mod 256) (steps len).

(** One array copied into itself, element by element: [f i] is the value moved at step [i],
    which is what position [so + i] holds after the first [i] moves. *)
Definition moved_in (f : Z -> Z) (so do k : Z) (a : list Z) : Prop :=
  forall i, 0 <= i < k -> f i = written f do i a (cell (zlen a) (so + i)).
