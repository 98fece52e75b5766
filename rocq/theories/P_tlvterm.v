(** * C46: find ends or never does: property theorems *)
From Verif Require Import LP_tlvterm Py S_Base L_Py M_bertag M_bertlv LP_bertag LP_bertlv S_TlvTerm.
From Coq Require Import ZifyBool ZifyNat Relations.

(** C46, exactly: find does not end if and only if the walk over the children comes back to
    where it has been, and if it has not ended after twice as many steps as there are bytes
    it never will. *)
Theorem C46_exact_partial : forall self g,
  ((forall fuel, findBound fuel self (Some g) = Err OutOfFuel) <-> comes_back self g)
  /\ (findBound (S (positions self)) self (Some g) = Err OutOfFuel -> forall fuel, findBound fuel self (Some g) = Err OutOfFuel).
Proof. exact C46_exact_partial_pf. Qed.
Print Assumptions C46_exact_partial.

Example C46_exact_ex : comes_back (mkTLV true None 3 (Some [1; 0x81 - 256; -2])) (mkTag 0 false 5 1).
Proof.
  exists 0, 0. split; [apply rtn1_refl|]. split; [|apply rtn1_refl]. split; [cbn; lia|].
  do 3 eexists. repeat (split; [vm_compute; reflexivity|]). reflexivity.
Qed.

(** C46 for findNext: it ends within a number of rounds known in advance, or never; and it ends
    if every child of the value has a positive size, as it has in a value of non-negative
    bytes. *)
Theorem C46_next_partial : forall self g aTLV N,
  (findNextBound (S (positions self) + Z.to_nat N * positions self) self g aTLV N = Err OutOfFuel ->
   forall fuel, findNextBound fuel self g aTLV N = Err OutOfFuel)
  /\ ((forall p t n, getInstance_of self p = Ok t -> tlv_size t = Ok n -> 0 < n) ->
      findNextBound (S (positions self) + Z.to_nat N * positions self) self g aTLV N <> Err OutOfFuel)
  /\ (forall v, tval self = Some v -> Forall (fun b => 0 <= b) v ->
      forall p t n, getInstance_of self p = Ok t -> tlv_size t = Ok n -> 0 < n).
Proof. exact C46_next_partial_pf. Qed.
Print Assumptions C46_next_partial.

(** the value 01 81 FE (its child has size 0): never; two children 01 01 07 twice: an answer *)
Example C46_next_ex1 : forall fuel,
  findNextBound fuel (mkTLV true None 3 (Some [1; 0x81 - 256; -2])) (Some (mkTag 0 false 5 1)) (mkTLV false (Some (mkTag 0 false 1 1)) 9 None) 1 = Err OutOfFuel.
Proof. apply (C46_next_partial_pf _ _ _ 1). vm_compute. reflexivity. Qed.

Example C46_next_ex2 :
  findNextBound 100 (mkTLV true None 6 (Some [1; 1; 7; 1; 1; 8])) (Some (mkTag 0 false 1 1)) (mkTLV false (Some (mkTag 0 false 1 1)) 1 (Some [7])) 1
  = Ok (Some (mkTLV false (Some (mkTag 0 false 1 1)) 1 (Some [8]))).
Proof. vm_compute. reflexivity. Qed.
