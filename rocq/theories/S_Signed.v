(** * C132: a byte may be stored signed or unsigned

    Python's lists hold any ints; the library itself stores bytes now as -128..127 (s1), now
    as 0..255.  Two arrays hold the same bytes if each cell is the same int in both, or two ints
    of -128..255 that agree modulo 256. *)
From Verif Require Import Py S_Base M_util S_System S_Key.
From Verif Require M_aid M_ownerpin M_bignumber M_jcint M_bertag M_bertlv M_apdu M_key M_cipher M_digest.

Definition same_byte (x y : Z) : Prop := x = y \/ (anybyte x /\ anybyte y /\ x mod 256 = y mod 256).
Definition same_bytes : list Z -> list Z -> Prop := Forall2 same_byte.
(** the same exception, or results that are related *)
Definition same_res {A} (R : A -> A -> Prop) (r r' : res A) : Prop :=
  match r, r' with Ok a, Ok b => R a b | Err e, Err e' => e = e' | _, _ => False end.
(** the same for calls that change a state *)
Definition same_call {S A} (RS : S -> S -> Prop) (RA : A -> A -> Prop) (x y : res A * S) : Prop :=
  same_res RA (fst x) (fst y) /\ RS (snd x) (snd y).
Definition same_opt {A} (R : A -> A -> Prop) (x y : option A) : Prop :=
  match x, y with Some a, Some b => R a b | None, None => True | _, _ => False end.
Definition same_heap (h h' : heap) : Prop := forall l, same_bytes (h l) (h' l).

(** calls with arrays that hold the same bytes *)
Definition same_big_op (o o' : M_bignumber.big_op) : Prop :=
  match o, o' with
  | M_bignumber.OpInit a x y z, M_bignumber.OpInit a' x' y' z' => same_opt same_bytes a a' /\ (x, y, z) = (x', y', z')
  | M_bignumber.OpAdd a x y z, M_bignumber.OpAdd a' x' y' z' => same_opt same_bytes a a' /\ (x, y, z) = (x', y', z')
  | M_bignumber.OpSubtract a x y z, M_bignumber.OpSubtract a' x' y' z' => same_opt same_bytes a a' /\ (x, y, z) = (x', y', z')
  | M_bignumber.OpMultiply a x y z, M_bignumber.OpMultiply a' x' y' z' => same_opt same_bytes a a' /\ (x, y, z) = (x', y', z')
  | _, _ => False
  end.
Definition same_apdu_op (o o' : M_apdu.apdu_op) : Prop :=
  match o, o' with
  | M_apdu.OpSendBytesLong d x y, M_apdu.OpSendBytesLong d' x' y' => same_bytes d d' /\ (x, y) = (x', y')
  | M_apdu.OpWriteBuffer i v, M_apdu.OpWriteBuffer i' v' => i = i' /\ same_byte v v'
  | _, _ => o = o'
  end.
(** APDU objects that differ only in how bytes are stored *)
Definition same_apdu (s s' : M_apdu.apdu) : Prop :=
  same_bytes (M_apdu.raw s) (M_apdu.raw s') /\ same_bytes (M_apdu.buf s) (M_apdu.buf s')
  /\ (M_apdu.offin s, M_apdu.st s, M_apdu.broken s, M_apdu.cdataoffs s, M_apdu.type s, M_apdu.Nc s, M_apdu.Ne s,
      M_apdu.lelength s, M_apdu.outlen s, M_apdu.curout s)
   = (M_apdu.offin s', M_apdu.st s', M_apdu.broken s', M_apdu.cdataoffs s', M_apdu.type s', M_apdu.Nc s', M_apdu.Ne s',
      M_apdu.lelength s', M_apdu.outlen s', M_apdu.curout s').
Definition same_tlv (t t' : M_bertlv.tlv) : Prop :=
  (M_bertlv.tkind t, M_bertlv.ttag t, M_bertlv.tlen t) = (M_bertlv.tkind t', M_bertlv.ttag t', M_bertlv.tlen t')
  /\ same_opt same_bytes (M_bertlv.tval t) (M_bertlv.tval t').
Definition same_ccall (c c' : M_cipher.ccall) : Prop :=
  match c, c' with
  | M_cipher.CUpdate i x y o z, M_cipher.CUpdate i' x' y' o' z' => same_bytes i i' /\ same_bytes o o' /\ (x, y, z) = (x', y', z')
  | M_cipher.CFinal i x y o z, M_cipher.CFinal i' x' y' o' z' => same_bytes i i' /\ same_bytes o o' /\ (x, y, z) = (x', y', z')
  | _, _ => False
  end.
Definition same_dcall (c c' : dcall) : Prop :=
  match c, c' with
  | DReset, DReset => True
  | DUpdate i x y, DUpdate i' x' y' => same_bytes i i' /\ (x, y) = (x', y')
  | DFinal i x y o z, DFinal i' x' y' o' z' => same_bytes i i' /\ same_bytes o o' /\ (x, y, z) = (x', y', z')
  | _, _ => False
  end.
Definition same_pin (s s' : M_ownerpin.ownerpin) : Prop :=
  (M_ownerpin.trylimit s, M_ownerpin.triesremaining s, M_ownerpin.maxpinsize s, M_ownerpin.validated s)
  = (M_ownerpin.trylimit s', M_ownerpin.triesremaining s', M_ownerpin.maxpinsize s', M_ownerpin.validated s')
  /\ same_bytes (M_ownerpin.thepin s) (M_ownerpin.thepin s').

(** C132: calls with arrays that hold the same bytes have the same outcome.  The functions on
    arrays, AIDs, PINs, ints, TLVs and RSA keys; the others are in the theorems. *)
Definition C132_full : Prop :=
  (forall a a' b b' x y n, same_bytes a a' -> same_bytes b b' -> arrayCompare a x b y n = arrayCompare a' x b' y n)
  /\ (forall a a' b b' off len, same_bytes a a' -> same_bytes b b' ->
        M_aid.equals a b off len = M_aid.equals a' b' off len /\ M_aid.partialEquals a b off len = M_aid.partialEquals a' b' off len
        /\ M_aid.RIDEquals a b = M_aid.RIDEquals a' b')
  /\ (forall s s' p p' off len, same_pin s s' -> same_bytes p p' ->
        same_call same_pin eq (M_ownerpin.check (M_ownerpin.PArr p) off len s) (M_ownerpin.check (M_ownerpin.PArr p') off len s'))
  /\ (forall a a' off, same_bytes a a' -> M_jcint.getInt a off = M_jcint.getInt a' off)
  /\ (forall a a' off len, same_bytes a a' -> same_res same_tlv (M_bertlv.getInstance a off len) (M_bertlv.getInstance a' off len))
  /\ (forall X k b b' off len, same_bytes b b' ->
        M_key.pk_the (snd (M_key.pub_setModulus X b off len k)) = M_key.pk_the (snd (M_key.pub_setModulus X b' off len k))).
