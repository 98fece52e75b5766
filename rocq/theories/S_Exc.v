(** * The exception classes of the Java Card API, written down independently *)
From Verif Require Import Py M_exc.

(** The proper ancestors of each class in the API documentation (java.lang, java.io,
    java.rmi and the javacard packages), outermost last. *)
Definition api_ancestors (c : cls) : list cls :=
  match c with
  | CException => []
  | CRuntimeException | CIOException | CCardException => [CException]
  | CIndexOutOfBoundsException | CSecurityException | CNullPointerException
  | CArithmeticException | CClassCastException | CCardRuntimeException => [CRuntimeException; CException]
  | CArrayIndexOutOfBoundsException => [CIndexOutOfBoundsException; CRuntimeException; CException]
  | CRemoteException => [CIOException; CException]
  | CUserException => [CCardException; CException]
  | CISOException | CPINException | CAPDUException | CSystemException | CTransactionException
  | CCryptoException | CServiceException | CTLVException | CExternalException =>
      [CCardRuntimeException; CRuntimeException; CException]
  end.
Definition api_catches (c d : cls) : Prop := d = c \/ In d (api_ancestors c).

(** The classes that carry a reason code in the API. *)
Definition api_reason (c : cls) : Prop := api_catches c CCardRuntimeException \/ api_catches c CCardException.

(** [k] is the first clause that catches [c] *)
Definition first_clause (c : cls) (clauses : list cls) (k : nat) : Prop :=
  exists d, nth_error clauses k = Some d /\ api_catches c d
    /\ forall j d', (j < k)%nat -> nth_error clauses j = Some d' -> ~ api_catches c d'.

(** setReason called with each of the codes in turn *)
Fixpoint set_all (i : inst) (rs : list Z) : inst + raised :=
  match rs with
  | [] => inl i
  | r :: rs' => match setReason i r with inl i' => set_all i' rs' | inr e => inr e end
  end.

(** C101: throwIt(r) is caught by the first clause naming the class or an ancestor, and
    the object caught has reason r *)
Definition throws_as_api (c : cls) : Prop := forall r clauses,
  (forall k, first_clause c clauses k ->
     exists i, handle (throwIt c r) clauses = Some (k, Thrown i) /\ icls i = c /\ getReason i = inl r)
  /\ ((forall d, In d clauses -> ~ api_catches c d) -> handle (throwIt c r) clauses = None).
Definition C101_full : Prop := forall c, api_reason c -> throws_as_api c.
