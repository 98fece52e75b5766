(** * C18-C21: AID: property theorems *)
From Verif Require Import LP_aid Py S_Base L_Py M_aid.
From Coq Require Import ZifyBool ZifyNat.
Ltac Zify.zify_post_hook ::= Z.div_mod_to_equations.

(** C18, constructor: success exactly when 5 <= len <= 16 and the range is in
    bounds, and then the AID holds exactly the range. *)
Theorem C18_constructor : forall b off len, 0 <= off ->
  ((exists a, newAID b off len = Ok a) <-> (5 <= len <= 16 /\ off + len <= zlen b))
  /\ (forall a, newAID b off len = Ok a -> a = sub b (Z.to_nat off) (Z.to_nat len) /\ zlen a = len).
Proof. exact C18_constructor_pf. Qed.
Print Assumptions C18_constructor.

Example C18_ex1 : newAID [9; 1; 2; 3; 4; 5; 6] 1 5 = Ok [1; 2; 3; 4; 5]
  /\ newAID [9; 1; 2; 3; 4; 5; 6] 1 7 = Err ArrayIndexOutOfBounds /\ newAID [1; 2; 3; 4] 0 4 = Err ValueError.
Proof. vm_compute. auto. Qed.

(** C18, getBytes: writes exactly the AID at the offset and nothing else,
    returns its length; raises AIOOBE exactly when it does not fit, leaving the
    destination untouched. *)
Theorem C18_getBytes : forall (a dest : list Z) off, 0 <= off ->
  getBytes a off dest =
  if off + zlen a <=? zlen dest
  then (Ok (zlen a), splice dest (Z.to_nat off) a)
  else (Err ArrayIndexOutOfBounds, dest).
Proof. exact C18_getBytes_pf. Qed.
Print Assumptions C18_getBytes.

Example C18_ex2 : getBytes [1; 2; 3; 4; 5] 1 [0; 0; 0; 0; 0; 0; 0] = (Ok 5, [0; 1; 2; 3; 4; 5; 0]).
Proof. vm_compute. reflexivity. Qed.

(** C18, equals: on in-bounds ranges True iff the range is exactly the AID's
    bytes; past the end AIOOBE. *)
Theorem C18_equals : forall (a c : list Z) off len, 0 <= off -> 0 <= len ->
  (off + len <= zlen c ->
     exists r, equals a c off len = Ok r /\ (r = true <-> a = sub c (Z.to_nat off) (Z.to_nat len)))
  /\ (zlen c < off + len -> equals a c off len = Err ArrayIndexOutOfBounds).
Proof. exact C18_equals_pf. Qed.
Print Assumptions C18_equals.

(** C18, round trip: the bytes given by getBytes compare equal to the AID and
    build an equal AID. *)
Theorem C18_roundtrip : forall b off len a dest doff,
  0 <= off -> 0 <= doff -> newAID b off len = Ok a -> doff + len <= zlen dest ->
  exists dest', getBytes a doff dest = (Ok len, dest')
  /\ equals a dest' doff len = Ok true /\ newAID dest' doff len = Ok a.
Proof. exact C18_roundtrip_pf. Qed.
Print Assumptions C18_roundtrip.

Example C18_ex3 : equals [1; 2; 3; 4; 5] [0; 1; 2; 3; 4; 5] 1 5 = Ok true
  /\ equals [1; 2; 3; 4; 5] [0; 1; 2; 3; 4; 5] 0 5 = Ok false.
Proof. vm_compute. auto. Qed.

(** C19.  == is an equivalence and holds iff the bytes are the same;
    RIDEquals compares the first five bytes and is implied by ==. *)
Theorem C19_equality : forall a b c : list Z,
  aid_eq a a = true
  /\ aid_eq a b = aid_eq b a
  /\ (aid_eq a b = true -> aid_eq b c = true -> aid_eq a c = true)
  /\ (aid_eq a b = true <-> a = b)
  /\ (RIDEquals a b = true <-> firstn 5 a = firstn 5 b)
  /\ (aid_eq a b = true -> RIDEquals a b = true).
Proof. exact C19_equality_pf. Qed.
Print Assumptions C19_equality.

(** C19, == agrees with what getBytes writes. *)
Theorem C19_eq_getBytes : forall a b dest : list Z,
  zlen a <= zlen dest -> zlen b <= zlen dest ->
  (aid_eq a b = true <-> getBytes a 0 dest = getBytes b 0 dest).
Proof. exact C19_eq_getBytes_pf. Qed.
Print Assumptions C19_eq_getBytes.

(** C19, partialEquals: for 0 <= n, compares the first n bytes; AIOOBE exactly
    when n exceeds the AID or the range exceeds the array. *)
Theorem C19_prefixes : forall (a c : list Z) off n, 0 <= off -> 0 <= n ->
  (n <= zlen a -> off + n <= zlen c ->
     exists r, partialEquals a c off n = Ok r
       /\ (r = true <-> firstn (Z.to_nat n) a = sub c (Z.to_nat off) (Z.to_nat n)))
  /\ (zlen a < n \/ zlen c < off + n -> partialEquals a c off n = Err ArrayIndexOutOfBounds).
Proof. exact C19_prefixes_pf. Qed.
Print Assumptions C19_prefixes.

Example C19_ex : aid_eq [1; 2; 3; 4; 5] [1; 2; 3; 4; 5] = true
  /\ RIDEquals [1; 2; 3; 4; 5; 6] [1; 2; 3; 4; 5; 7] = true /\ aid_eq [1; 2; 3; 4; 5; 6] [1; 2; 3; 4; 5; 7] = false
  /\ partialEquals [1; 2; 3; 4; 5; 6] [9; 1; 2; 3] 1 3 = Ok true
  /\ partialEquals [1; 2; 3; 4; 5] [1; 2; 3; 4; 5; 6] 0 6 = Err ArrayIndexOutOfBounds.
Proof. vm_compute. auto. Qed.

(** C20 is false of every in-bounds call: getPartialBytes raises NameError. *)
Theorem C20_getPartialBytes_refuted : forall (a dest : list Z) aoff off len,
  let n := if len =? 0 then zlen a else len in
  off + n <= zlen dest -> aoff + n <= zlen a ->
  getPartialBytes a aoff off len dest = (Err NameError, dest).
Proof. exact C20_getPartialBytes_refuted_pf. Qed.
Print Assumptions C20_getPartialBytes_refuted.

(** C20, what holds: out-of-bounds requests raise AIOOBE and no call ever
    changes the destination or returns. *)
Theorem C20_getPartialBytes_partial : forall (a dest : list Z) aoff off len,
  let n := if len =? 0 then zlen a else len in
  (zlen dest < off + n \/ zlen a < aoff + n ->
     getPartialBytes a aoff off len dest = (Err ArrayIndexOutOfBounds, dest))
  /\ snd (getPartialBytes a aoff off len dest) = dest
  /\ is_ok (fst (getPartialBytes a aoff off len dest)) = false.
Proof. exact C20_getPartialBytes_partial_pf. Qed.
Print Assumptions C20_getPartialBytes_partial.

Example C20_ex : getPartialBytes [1; 2; 3; 4; 5] 1 0 3 [0; 0; 0] = (Err NameError, [0; 0; 0]).
Proof. vm_compute. reflexivity. Qed.

(** C21 is false: a negative offset can give an AID with no bytes at all
    (every array of at least 10 cells, every offset in -5..-1). *)
Theorem C21_size_refuted : forall (b : list Z) off, -5 <= off <= -1 -> 10 <= zlen b ->
  newAID b off 5 = Ok [].
Proof. exact C21_size_refuted_pf. Qed.
Print Assumptions C21_size_refuted.

(** C21, the true fragment: never more than 16 bytes; exactly [len] (5..16)
    bytes for a non-negative offset, and also for a negative range that lies
    inside the array. *)
Theorem C21_size_partial : forall (b a : list Z) off len, newAID b off len = Ok a ->
  zlen a <= 16
  /\ (0 <= off -> 5 <= zlen a <= 16)
  /\ (- zlen b <= off -> off + len < 0 -> 5 <= zlen a <= 16).
Proof. exact C21_size_partial_pf. Qed.
Print Assumptions C21_size_partial.

Example C21_ex : newAID [0; 1; 2; 3; 4; 5; 6; 7; 8; 9] (-3) 5 = Ok []
  /\ newAID [0; 1; 2; 3; 4; 5; 6; 7; 8; 9] (-8) 6 = Ok [2; 3; 4; 5; 6; 7].
Proof. vm_compute. auto. Qed.
