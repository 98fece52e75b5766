(** * C45: the answer of findNext for every value: property theorems *)
From Coq Require Import Relations.
From Verif Require Import LP_tlvnext Py S_Base L_Py M_bertag M_bertlv LP_bertag LP_bertlv S_TlvTerm S_TlvFind LP_tlvterm LP_tlvfind.
From Coq Require Import Lia Bool ZifyBool ZifyNat.

(** C45 for every object, value, tag, TLV and number: the answers that findNext can give are
    those of [next_answer] *)
Theorem C45_exact_partial : forall self a ga g n r, ttag a = Some ga -> r <> Err OutOfFuel ->
  ((exists fuel, findNextBound fuel self g a n = r) <-> next_answer self a ga g n r).
Proof. exact C45_exact_partial_pf. Qed.
Print Assumptions C45_exact_partial.

(** Example: children 01 01 07, 02 01 09, 01 01 07: the second occurrence of the first child ends
    at 9; after the first one the next child with tag 1 is at 6. *)
Example C45_exact_ex : let self := mkTLV true None 9 (Some [1; 1; 7; 2; 1; 9; 1; 1; 7]) in let g := mkTag 0 false 1 1 in
  let a := mkTLV false (Some g) 1 (Some [7]) in
  progress self a g 2 3 1 /\ findNextBound 4 self (Some g) a 1 = Ok (Some a) /\ findNextBound 4 self (Some g) a 2 = Ok None
  /\ next_answer self a g (Some g) 3 (Ok None).
Proof.
  intros self g a. assert (P : progress self a g 2 3 1).
  { refine (occurrence self a g 2 0 2 0 a 3 (begin self a g 2) _ _ _ _ _ _); try (vm_compute; reflexivity); try lia; [apply rtn1_refl|].
    split; [cbn; lia|]. split; [vm_compute; reflexivity|]. exists g. now split. }
  split; [exact P|]. split; [vm_compute; reflexivity|]. split; [vm_compute; reflexivity|].
  apply C45_exact_partial; [reflexivity|discriminate|]. exists 5%nat. vm_compute. reflexivity.
Qed.
