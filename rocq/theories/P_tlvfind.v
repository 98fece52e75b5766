(** * C44: the answer of find for every value: property theorems *)
From Coq Require Import Relations.
From Verif Require Import LP_tlvfind Py S_Base L_Py M_bertag M_bertlv LP_bertag LP_bertlv S_TlvTerm S_TlvFind LP_tlvterm S_BER LP_tagstat.
From Coq Require Import Lia Bool ZifyBool ZifyNat.

(** C44 for every object, value and tag: the answers that find can give are those of the
    places where the walk over the children stops; and there is an answer unless the walk
    comes back (C46_exact_partial). *)
Theorem C44_exact_partial : forall self g r, r <> Err OutOfFuel ->
  ((exists fuel, findBound fuel self (Some g) = r) <-> (exists p, walks self g 0 p /\ answer self g p r)).
Proof. exact C44_exact_partial_pf. Qed.
Print Assumptions C44_exact_partial.

(** The static find, for every array that holds a constructed TLV at [off] *)
Theorem C44_static_exact_partial : forall arr off ta toff t k g r, r <> Err OutOfFuel ->
  getInstance arr off None = Ok t -> tkind t = true -> ttag t = Some k -> BERTag_getInstance ta toff = Ok g ->
  ((exists fuel, findStatic fuel arr off (Some ta) toff = r)
   <-> (exists p, walks t g 0 p /\ answer_static t g (off + tag_size k + getLengthLen (tlen t)) p r)).
Proof. exact C44_static_exact_partial_pf. Qed.
Print Assumptions C44_static_exact_partial.

(** C44 is false whenever the first child has a tag number above 30.  Looked for by its tag, it is found
    with the last byte of the tag as its length.  Looked for by another tag, everything in
    the next n mod 128 bytes is skipped, so that the children there are not found. *)
Theorem C44_high_refuted : forall c k n io rest self g, identifier c k n io -> 0 <= c <= 3 -> 31 <= n ->
  Forall anybyte rest -> tval self = Some (io ++ rest) -> tlen self = zlen (io ++ rest) ->
  (tclass g = c -> tconstr g = k -> tnumber g = n -> forall fuel, (0 < fuel)%nat ->
     findBound fuel self (Some g)
     = Ok (Some (mkTLV k (Some (mkTag c k n (zlen io - 1))) (n mod 128) (Some (firstn (Z.to_nat (n mod 128)) rest)))))
  /\ (tag_eqb (mkTag c k n (zlen io - 1)) g = false -> zlen rest <= n mod 128 -> forall fuel, (1 < fuel)%nat -> findBound fuel self (Some g) = Ok None).
Proof. exact C44_high_refuted_pf. Qed.
Print Assumptions C44_high_refuted.

(** Examples: children 1F 24 01 07 (tag 36) and 02 01 09: searching for tag 2 finds nothing;
    searching for tag 36 gives a value that begins with the length byte.  Children 01 01 07,
    02 01 09: the walk stops at 3. *)
Example C44_high_ex : let self := mkTLV true None 7 (Some ([31; 36] ++ [1; 7; 2; 1; 9])) in
  identifier 0 false 36 [31; 36]
  /\ findBound 5 self (Some (mkTag 0 false 2 1)) = Ok None
  /\ findBound 5 self (Some (mkTag 0 false 36 0)) = Ok (Some (mkTLV false (Some (mkTag 0 false 36 1)) 36 (Some [1; 7; 2; 1; 9]))).
Proof.
  split; [|split; reflexivity]. apply (ident_high 0 false 36 [] 36); [lia|].
  split; [repeat constructor; lia|]. split; [reflexivity|cbn; lia].
Qed.

Example C44_exact_ex : let self := mkTLV true None 6 (Some [1; 1; 7; 2; 1; 9]) in let g := mkTag 0 false 2 1 in
  walks self g 0 3 /\ answer self g 3 (Ok (Some (mkTLV false (Some (mkTag 0 false 2 1)) 1 (Some [9]))))
  /\ findBound 2 self (Some g) = Ok (Some (mkTLV false (Some (mkTag 0 false 2 1)) 1 (Some [9]))).
Proof.
  intros self g. split; [|split; [|reflexivity]].
  - apply (Relation_Operators.rtn1_trans Z (skips self g) 0 0 3); [|apply rtn1_refl]. split; [cbn; lia|]. do 3 eexists. repeat (split; [vm_compute; reflexivity|]). reflexivity.
  - right. left. eexists. split; [|reflexivity]. split; [cbn; lia|]. split; [vm_compute; reflexivity|]. eexists. split; [reflexivity|reflexivity].
Qed.
