(** * C101: exception classes: property theorems *)
From Verif Require Import LP_exc Py M_exc S_Exc.

(** subclassing, and so matching of except clauses, is that of the API for every pair *)
Theorem C101_hierarchy : forall c d, subclass c d = true <-> api_catches c d.
Proof. exact C101_hierarchy_pf. Qed.
Print Assumptions C101_hierarchy.

(** throwIt on CardRuntimeException and its subclasses.  Missing from the full statement:
    CardException and UserException *)
Theorem C101_throwIt_partial : forall c, api_catches c CCardRuntimeException -> throws_as_api c.
Proof. exact C101_throwIt_partial_pf. Qed.
Print Assumptions C101_throwIt_partial.

(** a caught object has the reason last set, or the one it was made with; one argument is
    required *)
Theorem C101_reason : forall c r rs, api_catches c CCardRuntimeException ->
  (exists i, new c [r] = inl i /\ exists i', set_all i rs = inl i' /\ icls i' = c /\ getReason i' = inl (last rs r))
  /\ forall args, zlen args <> 1 -> raise_new c args = PyTypeError.
Proof. exact C101_reason_pf. Qed.
Print Assumptions C101_reason.

(** the other classes have neither throwIt nor a reason *)
Theorem C101_no_reason_refuted : forall c r clauses, ~ api_catches c CCardRuntimeException ->
  throwIt c r = PyAttributeError
  /\ (forall i, new c [r] = inl i -> getReason i = inr PyAttributeError)
  /\ (~ In CException clauses -> handle (throwIt c r) clauses = None).
Proof. exact C101_no_reason_refuted_pf. Qed.
Print Assumptions C101_no_reason_refuted.

(** false in general: UserException.throwIt does not exist *)
Theorem C101_full_refuted : ~ C101_full.
Proof. exact C101_full_refuted_pf. Qed.
Print Assumptions C101_full_refuted.

Example C101_ex :
  handle (throwIt CISOException 27904) [CCryptoException; CCardException; CCardRuntimeException; CException]
    = Some (2%nat, Thrown (Inst CISOException (Some 27904)))
  /\ first_clause CISOException [CCryptoException; CCardException; CCardRuntimeException; CException] 2
  /\ subclass CArrayIndexOutOfBoundsException CRuntimeException = true
  /\ subclass CArrayIndexOutOfBoundsException CCardRuntimeException = false.
Proof.
  split; [reflexivity|]. split; [|split; reflexivity]. exists CCardRuntimeException. split; [reflexivity|].
  split; [right; left; reflexivity|]. intros j d J N. destruct j as [|[|j]]; [| |lia]; cbn in N; injection N as <-;
  intros [K|K]; cbn in K; intuition congruence.
Qed.
