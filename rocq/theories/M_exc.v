(** * Model of the exception classes: python/lang.py, python/io.py, python/rmi.py,
      pythoncard/framework/__init__.py, pythoncard/security/__init__.py,
      pythoncard/framework/service/__init__.py, pythoncardx/framework/tlv/__init__.py,
      pythoncardx/external/__init__.py *)
From Verif Require Import Py.

(** The classes; [CException] is Python's built-in Exception. *)
Inductive cls : Set :=
| CException
| CRuntimeException | CIndexOutOfBoundsException | CArrayIndexOutOfBoundsException
| CSecurityException | CNullPointerException | CArithmeticException | CClassCastException
| CIOException | CRemoteException
| CCardException | CUserException | CCardRuntimeException
| CISOException | CPINException | CAPDUException | CSystemException | CTransactionException
| CCryptoException | CServiceException | CTLVException | CExternalException.

(** The base class in the class statement: python/lang.py:5-24, python/io.py:1,
    python/rmi.py:3, pythoncard/framework/__init__.py:16-59,
    pythoncard/security/__init__.py:3, pythoncard/framework/service/__init__.py:3,
    pythoncardx/framework/tlv/__init__.py:3, pythoncardx/external/__init__.py:3. *)
Definition base (c : cls) : option cls :=
  match c with
  | CException => None
  | CRuntimeException => Some CException
  | CIndexOutOfBoundsException => Some CRuntimeException
  | CArrayIndexOutOfBoundsException => Some CIndexOutOfBoundsException
  | CSecurityException | CNullPointerException | CArithmeticException | CClassCastException =>
      Some CRuntimeException
  | CIOException => Some CException
  | CRemoteException => Some CIOException
  | CCardException => Some CException
  | CUserException => Some CCardException
  | CCardRuntimeException => Some CRuntimeException
  | CISOException | CPINException | CAPDUException | CSystemException | CTransactionException
  | CCryptoException | CServiceException | CTLVException | CExternalException =>
      Some CCardRuntimeException
  end.

Definition cls_eq_dec : forall c d : cls, {c = d} + {c <> d}.
Proof. decide equality. Defined.

(** Python's method resolution order: the class and its bases (single inheritance;
    no chain is longer than the number of classes, 22). *)
Fixpoint mro_fuel (n : nat) (c : cls) : list cls :=
  match n with
  | O => []
  | S n' => c :: match base c with None => [] | Some b => mro_fuel n' b end
  end.
Definition mro (c : cls) : list cls := mro_fuel 22 c.
(** [issubclass(c, d)] *)
Definition subclass (c d : cls) : bool := if in_dec cls_eq_dec d (mro c) then true else false.

(** Attribute lookup of __init__, getReason, setReason and throwIt: they are defined in
    the body of CardRuntimeException (pythoncard/framework/__init__.py:22-34) only. *)
Definition defines_reason (c : cls) : bool :=
  match c with CCardRuntimeException => true | _ => false end.
Definition has_reason (c : cls) : bool := existsb defines_reason (mro c).

(** An exception object: its class and [_reason]. *)
Record inst : Set := Inst { icls : cls; ireason : option Z }.

(** What an expression or statement raises: an object of one of the classes, or one of
    Python's own TypeError and AttributeError. *)
Inductive raised : Set :=
| Thrown (i : inst)
| PyTypeError | PyAttributeError.

(** [c( *args )]: pythoncard/framework/__init__.py:23-24 where it applies, otherwise
    Exception.__init__, which takes any arguments. *)
Definition new (c : cls) (args : list Z) : inst + raised :=
  if has_reason c then
    match args with
    | [r] => inl (Inst c (Some r))
    | _ => inr PyTypeError
    end
  else inl (Inst c None).
(** [raise c( *args )] *)
Definition raise_new (c : cls) (args : list Z) : raised :=
  match new c args with inl i => Thrown i | inr e => e end.

(** pythoncard/framework/__init__.py:32-34, a class method: [classs] is the class it is
    called on. *)
Definition throwIt (c : cls) (reason : Z) : raised :=
  if has_reason c then raise_new c [reason] else PyAttributeError.
(** pythoncard/framework/__init__.py:26-27 *)
Definition getReason (i : inst) : Z + raised :=
  if has_reason (icls i) then
    match ireason i with Some r => inl r | None => inr PyAttributeError end
  else inr PyAttributeError.
(** pythoncard/framework/__init__.py:29-30 *)
Definition setReason (i : inst) (reason : Z) : inst + raised :=
  if has_reason (icls i) then inl (Inst (icls i) (Some reason)) else inr PyAttributeError.

(** [try: <raises e> except d1 as x: .. except d2 as x: ..]: the number of the clause
    that runs and the object it gets, or None if the exception goes on.  The clauses name
    classes of this file, so TypeError and AttributeError are caught by Exception only. *)
Definition caught_by (e : raised) (d : cls) : bool :=
  match e with
  | Thrown i => subclass (icls i) d
  | PyTypeError | PyAttributeError => match d with CException => true | _ => false end
  end.
Fixpoint handle (e : raised) (clauses : list cls) : option (nat * raised) :=
  match clauses with
  | [] => None
  | d :: ds =>
      if caught_by e d then Some (0%nat, e)
      else match handle e ds with Some (k, e') => Some (S k, e') | None => None end
  end.
