(** * C38: JCint: property theorems *)
From Verif Require Import LP_jcint Py S_Base S_Number L_Py M_utils L_utils M_util L_util M_jcint.
From Coq Require Import ZifyBool ZifyNat.
Ltac Zify.zify_post_hook ::= Z.div_mod_to_equations.

(** C38, makeInt of two shorts, as it should be stated: the 32-bit integer
    hi*65536 + (lo mod 65536).  It is false (makeInt(0, -1) is -1, not 65535); this
    is the exact result: the low short is added with its sign. *)
Theorem C38_makeInt_partial : forall hi lo, -32768 <= hi <= 32767 -> -32768 <= lo <= 32767 ->
  makeInt2 hi lo = hi * 65536 + lo
  /\ (makeInt2 hi lo = hi * 65536 + lo mod 65536 <-> 0 <= lo).
Proof. exact C38_makeInt_partial_pf. Qed.
Print Assumptions C38_makeInt_partial.

Theorem C38_makeInt_refuted : forall hi lo, -32768 <= hi <= 32767 -> -32768 <= lo < 0 ->
  makeInt2 hi lo <> hi * 65536 + lo mod 65536.
Proof. exact C38_makeInt_refuted_pf. Qed.
Print Assumptions C38_makeInt_refuted.

Example C38_makeInt_ex : makeInt2 1 2 = 65538 /\ makeInt2 0 (-1) = -1 /\ makeInt4 0 0 1 2 = 258 /\ makeInt4 0 0 0 (-1) = -1.
Proof. vm_compute. auto. Qed.

(** C38, makeInt of four bytes: the integer of the four bytes whenever the three
    low ones are given as non-negative values. *)
Theorem C38_makeInt4_partial : forall b1 b2 b3 b4, anybyte b1 -> ubyte b2 -> ubyte b3 -> ubyte b4 ->
  makeInt4 b1 b2 b3 b4 = twos 4 (digits_value 256 [b1; b2; b3; b4]).
Proof. exact C38_makeInt4_partial_pf. Qed.
Print Assumptions C38_makeInt4_partial.

(** C38, setInt: the four big-endian bytes of makeInt(hi, lo) at the offset, and
    nothing else changes; the result is off+4. *)
Theorem C38_setInt : forall a off hi lo, 0 <= off -> off + 4 <= zlen a ->
  -32768 <= hi <= 32767 -> -32768 <= lo <= 32767 ->
  setInt off hi lo a
  = (Ok (off + 4), splice a (Z.to_nat off) (map (twos 1) (to_base 256 4 (hi * 65536 + lo)))).
Proof. exact C38_setInt_pf. Qed.
Print Assumptions C38_setInt.

Example C38_setInt_ex : setInt 1 1 200 [9; 9; 9; 9; 9; 9] = (Ok 5, [9; 0; 1; 0; -56; 9]).
Proof. reflexivity. Qed.

(** getInt on bytes whose three low cells are non-negative (for instance an
    array of unsigned bytes): the 32-bit integer they denote. *)
Theorem C38_getInt_partial : forall a off b1 b2 b3 b4, 0 <= off ->
  sub a (Z.to_nat off) 4 = [b1; b2; b3; b4] ->
  anybyte b1 -> ubyte b2 -> ubyte b3 -> ubyte b4 ->
  getInt a off = Ok (twos 4 (digits_value 256 [b1; b2; b3; b4])).
Proof. exact C38_getInt_partial_pf. Qed.
Print Assumptions C38_getInt_partial.

(** The round-trip getInt(setInt(v)) = v is false: what getInt returns, exactly.
    Each of the three low bytes that is negative is subtracted instead of added. *)
Theorem C38_roundtrip_partial : forall a off hi lo r a', 0 <= off -> off + 4 <= zlen a ->
  -32768 <= hi <= 32767 -> -32768 <= lo <= 32767 ->
  -2147483648 <= hi * 65536 + lo -> setInt off hi lo a = (Ok r, a') ->
  let v := hi * 65536 + lo in
  getInt a' off = Ok (v - 16777216 * Z.b2z (Z.testbit v 23) - 65536 * Z.b2z (Z.testbit v 15)
                        - 256 * Z.b2z (Z.testbit v 7))
  /\ (getInt a' off = Ok v <-> Z.testbit v 23 = false /\ Z.testbit v 15 = false /\ Z.testbit v 7 = false).
Proof. exact C38_roundtrip_partial_pf. Qed.
Print Assumptions C38_roundtrip_partial.

Theorem C38_roundtrip_refuted : exists a off hi lo, 0 <= off /\ off + 4 <= zlen a
  /\ -32768 <= hi <= 32767 /\ 0 <= lo <= 32767
  /\ exists a', setInt off hi lo a = (Ok (off + 4), a') /\ getInt a' off <> Ok (hi * 65536 + lo).
Proof. exact C38_roundtrip_refuted_pf. Qed.
Print Assumptions C38_roundtrip_refuted.

Example C38_roundtrip_ex : exists a', setInt 0 0 100 [0; 0; 0; 0] = (Ok 4, a') /\ getInt a' 0 = Ok 100.
Proof. exists [0; 0; 0; 100]. split; reflexivity. Qed.

(** C78 for JCint.makeTransientIntArray: as many zeros as asked for *)
Theorem C78_makeTransientIntArray : forall n event, 0 <= n ->
  zlen (makeTransientIntArray n event) = n /\ Forall (fun x => x = 0) (makeTransientIntArray n event).
Proof. exact C78_makeTransientIntArray_pf. Qed.
Print Assumptions C78_makeTransientIntArray.

Example C78_makeTransientIntArray_ex : makeTransientIntArray 3 1 = [0; 0; 0].
Proof. reflexivity. Qed.

Theorem C10_sanatize : forall a, exists a', sanatize a = (Ok tt, a') /\ length a' = length a
  /\ forall i x, nth_error a i = Some x -> exists y, nth_error a' i = Some y /\ y mod 256 = x mod 256 /\ (sbyte x -> y = x) /\ (0 <= x <= 255 -> sbyte y).
Proof. exact C10_sanatize_pf. Qed.
Print Assumptions C10_sanatize.

Example C10_sanatize_ex : sanatize [0; 127; 128; 255; -1] = (Ok tt, [0; 127; -128; -1; -1]).
Proof. reflexivity. Qed.
