(** * Py: the fragment of Python 3 semantics the model is written in.

    Not a model of a file of /repo: this is the language the code is
    transcribed into.  Python ints are [Z]; lists and bytes are [list Z];
    exceptions are values. *)
From Coq Require Export ZArith List Bool Lia.
Export ListNotations.
Open Scope Z_scope.

(** Exceptions.  The first group are Python built-ins, the second group the
    Java-style classes of python/lang.py:5-24, the third the
    CardRuntimeException subclasses (pythoncard/framework/__init__.py:22-63,
    pythoncard/security/__init__.py:3-8, pythoncardx/framework/tlv/__init__.py:3-14,
    pythoncard/framework/service/__init__.py:3-10,
    pythoncardx/external/__init__.py:3-6) with their reason code.
    [OutOfFuel] is not an exception: it is the outcome "the fuel of a modelled
    [while] loop was exhausted" and is never caught. *)
Inductive exn : Set :=
| IndexError | TypeError | ValueError | KeyError | NameError
| AttributeError | UnboundLocalError | NotImplementedError | AssertionError
| ArrayIndexOutOfBounds | NullPointer | Arithmetic
| ISOExc (reason : Z) | PINExc (reason : Z) | APDUExc (reason : Z)
| SystemExc (reason : Z) | TransactionExc (reason : Z)
| CryptoExc (reason : Z) | TLVExc (reason : Z) | ServiceExc (reason : Z)
| ExternalExc (reason : Z)
| OutOfFuel.

Inductive res (A : Type) : Type :=
| Ok (a : A)
| Err (e : exn).
Arguments Ok {A} a.
Arguments Err {A} e.

Definition is_ok {A} (r : res A) : bool :=
  match r with Ok _ => true | Err _ => false end.

Definition rbind {A B} (r : res A) (f : A -> res B) : res B :=
  match r with Ok a => f a | Err e => Err e end.

Definition rmap {A B} (f : A -> B) (r : res A) : res B :=
  match r with Ok a => Ok (f a) | Err e => Err e end.

Notation "'let?' x ':=' r 'in' k" := (rbind r (fun x => k))
  (at level 200, x pattern, r at level 100, k at level 200, only parsing).

(** State and exceptions: the state reached when an exception is raised is
    kept, so that partial mutation stays observable. *)
Definition M (S A : Type) : Type := S -> res A * S.

Definition ret {S A} (a : A) : M S A := fun s => (Ok a, s).
Definition raise {S A} (e : exn) : M S A := fun s => (Err e, s).
Definition bind {S A B} (m : M S A) (f : A -> M S B) : M S B :=
  fun s => match m s with
           | (Ok a, s') => f a s'
           | (Err e, s') => (Err e, s')
           end.
Definition get {S} : M S S := fun s => (Ok s, s).
Definition put {S} (s' : S) : M S unit := fun _ => (Ok tt, s').
Definition lift {S A} (r : res A) : M S A := fun s => (r, s).

Notation "x <- m ;; k" := (bind m (fun x => k))
  (at level 61, m at next level, right associativity).
Notation "m ;;; k" := (bind m (fun _ => k))
  (at level 61, right associativity).

(** [try: m  except IndexError: raise e] *)
Definition catch_index {S A} (m : M S A) (e : exn) : M S A :=
  fun s => match m s with
           | (Err IndexError, s') => (Err e, s')
           | r => r
           end.

(** [for i in range(start, start+n): body(i)] *)
Fixpoint for_loop {S} (n : nat) (i : Z) (body : Z -> M S unit) : M S unit :=
  match n with
  | O => ret tt
  | Datatypes.S n' => body i ;;; for_loop n' (i + 1) body
  end.

(** [for i in range(a, b): body(i)] (empty when b <= a) *)
Definition for_range {S} (a b : Z) (body : Z -> M S unit) : M S unit :=
  for_loop (Z.to_nat (b - a)) a body.

(** ** Lists *)

Definition zlen {A} (l : list A) : Z := Z.of_nat (length l).

(** Position designated by index [i] in a list of length [n]: negative indices
    count from the end; [None] is Python's IndexError. *)
Definition py_index (n i : Z) : option nat :=
  if (0 <=? i) && (i <? n) then Some (Z.to_nat i)
  else if (- n <=? i) && (i <? 0) then Some (Z.to_nat (i + n))
  else None.

(** [l[i]] *)
Definition py_get {A} (l : list A) (i : Z) : res A :=
  match py_index (zlen l) i with
  | Some k => match nth_error l k with Some v => Ok v | None => Err IndexError end
  | None => Err IndexError
  end.

Fixpoint list_upd {A} (l : list A) (k : nat) (v : A) : list A :=
  match l, k with
  | [], _ => []
  | _ :: t, O => v :: t
  | h :: t, Datatypes.S k' => h :: list_upd t k' v
  end.

(** [l[i] = v] *)
Definition py_set {A} (l : list A) (i : Z) (v : A) : res (list A) :=
  match py_index (zlen l) i with
  | Some k => Ok (list_upd l k v)
  | None => Err IndexError
  end.

(** Slice bounds are clamped: [l[a:b]] never raises. *)
Definition py_clamp (n i : Z) : Z :=
  if i <? 0 then Z.max 0 (i + n) else Z.min i n.

(** [l[a:b]] *)
Definition py_slice {A} (l : list A) (a b : Z) : list A :=
  let lo := py_clamp (zlen l) a in
  let hi := py_clamp (zlen l) b in
  firstn (Z.to_nat (hi - lo)) (skipn (Z.to_nat lo) l).

(** [l[a:]] *)
Definition py_slice_from {A} (l : list A) (a : Z) : list A :=
  skipn (Z.to_nat (py_clamp (zlen l) a)) l.

(** [l[a:b] = vs]: the slice is replaced, the length may change. *)
Definition py_slice_set {A} (l : list A) (a b : Z) (vs : list A) : list A :=
  let lo := py_clamp (zlen l) a in
  let hi := Z.max lo (py_clamp (zlen l) b) in
  firstn (Z.to_nat lo) l ++ vs ++ skipn (Z.to_nat hi) l.

(** [[v for i in range(n)]] *)
Definition py_repeat {A} (v : A) (n : Z) : list A := repeat v (Z.to_nat n).

(** [l == l'] on lists of ints *)
Fixpoint list_eqb (l l' : list Z) : bool :=
  match l, l' with
  | [], [] => true
  | x :: t, y :: t' => (x =? y) && list_eqb t t'
  | _, _ => false
  end.
