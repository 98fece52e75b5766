(** * C101: exception classes: proofs *)
From Verif Require Import Py M_exc S_Exc.


Lemma C101_hierarchy_pf : forall c d, subclass c d = true <-> api_catches c d.
Proof.
  intros c d. unfold subclass, api_catches. destruct (in_dec cls_eq_dec d (mro c)) as [I|I].
  - split; [|reflexivity]. intros _. destruct c; cbn in I |- *; intuition congruence.
  - split; [discriminate|]. intros H. exfalso. apply I. destruct c; cbn in H |- *; intuition congruence.
Qed.

Lemma handle_first i clauses : forall k, first_clause (icls i) clauses k ->
  handle (Thrown i) clauses = Some (k, Thrown i).
Proof.
  induction clauses as [|d ds IH]; intros k (d' & N & A & F).
  - destruct k; discriminate.
  - cbn [handle caught_by]. destruct (subclass (icls i) d) eqn:E.
    + destruct k as [|k]; [reflexivity|]. exfalso. apply (F 0%nat d); [lia|reflexivity|]. apply C101_hierarchy_pf. exact E.
    + destruct k as [|k].
      * cbn in N. injection N as ->. apply C101_hierarchy_pf in A. congruence.
      * rewrite (IH k); [reflexivity|]. exists d'. split; [exact N|]. split; [exact A|].
        intros j e J K. apply (F (S j) e); [lia|exact K].
Qed.
Lemma handle_none i clauses : (forall d, In d clauses -> ~ api_catches (icls i) d) -> handle (Thrown i) clauses = None.
Proof.
  induction clauses as [|d ds IH]; intros H; [reflexivity|]. cbn [handle caught_by].
  destruct (subclass (icls i) d) eqn:E.
  - exfalso. apply (H d); [left; reflexivity|]. apply C101_hierarchy_pf. exact E.
  - rewrite IH; [reflexivity|]. intros e I. apply H. right. exact I.
Qed.
Lemma has_reason_spec c : has_reason c = true <-> api_catches c CCardRuntimeException.
Proof. unfold api_catches. destruct c; cbn; intuition congruence. Qed.

Lemma C101_throwIt_partial_pf : forall c, api_catches c CCardRuntimeException -> throws_as_api c.
Proof.
  intros c H r clauses. apply has_reason_spec in H. unfold throwIt, raise_new, new. rewrite H. split.
  - intros k F. exists (Inst c (Some r)). split; [apply (handle_first (Inst c (Some r))); exact F|].
    split; [reflexivity|]. unfold getReason. cbn [icls ireason]. rewrite H. reflexivity.
  - intros F. apply (handle_none (Inst c (Some r))). exact F.
Qed.

Lemma C101_reason_pf : forall c r rs, api_catches c CCardRuntimeException ->
  (exists i, new c [r] = inl i /\ exists i', set_all i rs = inl i' /\ icls i' = c /\ getReason i' = inl (last rs r))
  /\ forall args, zlen args <> 1 -> raise_new c args = PyTypeError.
Proof.
  intros c r rs H. apply has_reason_spec in H. split.
  - exists (Inst c (Some r)). split; [unfold new; rewrite H; reflexivity|].
    revert r. induction rs as [|x rs IH]; intros r.
    + exists (Inst c (Some r)). split; [reflexivity|]. split; [reflexivity|]. unfold getReason. cbn [icls ireason]. rewrite H. reflexivity.
    + cbn [set_all]. unfold setReason. cbn [icls]. rewrite H. destruct (IH x) as (i' & E & C & G).
      exists i'. split; [exact E|]. split; [exact C|]. rewrite G. f_equal.
      destruct rs as [|y rs']; [reflexivity|]. cbn [last]. clear. revert y. induction rs' as [|z rs' IH]; intros y; [reflexivity|].
      cbn [last]. apply (IH z).
  - intros args L. unfold raise_new, new. rewrite H. destruct args as [|x [|y args]]; [reflexivity| |reflexivity].
    exfalso. apply L. reflexivity.
Qed.

Lemma C101_no_reason_refuted_pf : forall c r clauses, ~ api_catches c CCardRuntimeException ->
  throwIt c r = PyAttributeError
  /\ (forall i, new c [r] = inl i -> getReason i = inr PyAttributeError)
  /\ (~ In CException clauses -> handle (throwIt c r) clauses = None).
Proof.
  intros c r clauses H. assert (K : has_reason c = false).
  { destruct (has_reason c) eqn:E; [|reflexivity]. exfalso. apply H. apply has_reason_spec. exact E. }
  unfold throwIt, new. rewrite K. split; [reflexivity|]. split.
  - intros i E. injection E as <-. unfold getReason. cbn [icls ireason]. rewrite K. reflexivity.
  - induction clauses as [|d ds IH]; intros N; [reflexivity|]. cbn [handle caught_by].
    destruct d; try (rewrite IH; [reflexivity|]; intros I; apply N; right; exact I).
    exfalso. apply N. left. reflexivity.
Qed.

Lemma C101_full_refuted_pf : ~ C101_full.
Proof.
  intros F. assert (A : api_reason CUserException) by (right; right; left; reflexivity).
  destruct (F CUserException A 1 [CUserException]) as [T _].
  destruct (T 0%nat) as (i & E & _).
  - exists CUserException. split; [reflexivity|]. split; [left; reflexivity|]. intros j d J. lia.
  - discriminate.
Qed.
