(** * C106-C107: OwnerPIN against a reference PIN, and guessing: property theorems *)
From Verif Require Import LP_pinref Py S_Base L_Py M_utils L_utils M_util L_util M_ownerpin S_OwnerPIN LP_ownerpin S_PinRef.
From Coq Require Import ZifyBool ZifyNat.
Ltac Zify.zify_post_hook ::= Z.div_mod_to_equations.

(** every history of calls with strings without NUL characters, whatever the ranges,
    the caller catching what is raised: every call ends as on the reference object, and
    the flag and the counter are the reference's *)
Theorem C106_history : forall tryLimit maxPINSize ops, 0 <= maxPINSize -> Forall string_op ops ->
  let '(tr, s) := pin_run ops (newOwnerPIN tryLimit maxPINSize) in
  let '(rs, a) := ref_run tryLimit maxPINSize ops ref_new in
  map snd tr = rs /\ isValidated s = (Ok (rflag a), s) /\ getTriesRemaining s = (Ok (rtries a), s).
Proof. exact C106_history_pf. Qed.
Print Assumptions C106_history.

(** two histories that end alike for the reference cannot be told apart by any further
    calls: what an object does depends on the reference's state only *)
Theorem C106_state : forall tryLimit maxPINSize ops1 ops2 ops, 0 <= maxPINSize ->
  Forall string_op ops1 -> Forall string_op ops2 -> Forall string_op ops ->
  snd (ref_run tryLimit maxPINSize ops1 ref_new) = snd (ref_run tryLimit maxPINSize ops2 ref_new) ->
  map snd (fst (pin_run ops (snd (pin_run ops1 (newOwnerPIN tryLimit maxPINSize)))))
  = map snd (fst (pin_run ops (snd (pin_run ops2 (newOwnerPIN tryLimit maxPINSize))))).
Proof. exact C106_state_pf. Qed.
Print Assumptions C106_state.

Example C106_ex : let ops := [OpCheck (PStr [49]) 0 1; OpUpdate (PStr [48; 49; 50]) 1 2; OpCheck (PStr [49; 50]) 0 2;
    OpCheck (PStr [49; 51]) 0 2; OpCheck (PStr [49]) 0 2; OpIsValidated; OpCheck (PStr [49; 50; 51; 52]) 0 4;
    OpGetTries; OpCheck (PStr [49; 50]) 0 2; OpReset; OpIsValidated] in
  map snd (fst (pin_run ops (newOwnerPIN 3 3)))
  = [Ok (VBool false); Ok VUnit; Ok (VBool true); Ok (VBool false); Err ArrayIndexOutOfBounds; Ok (VBool false);
     Err IndexError; Ok (VInt 1); Ok (VBool true); Ok VUnit; Ok (VBool false)]
  /\ snd (ref_run 3 3 ops ref_new) = mkRef [49; 50] 3 false.
Proof. split; reflexivity. Qed.

(** guessing: after an update with the PIN p, whatever came before, no history of checks,
    resets and queries has a check return true unless one of the first tryLimit checks is
    with p; checks longer than the maximal size are not counted, and tell nothing *)
Theorem C107_guesses : forall tryLimit maxPINSize before p ops,
  0 <= tryLimit -> zlen p <= maxPINSize -> ~ In 0 p ->
  Forall string_op before -> Forall string_op ops -> Forall guessing ops ->
  (forall o, In o (firstn (Z.to_nat tryLimit) (filter (counted maxPINSize) ops)) -> ~ right_guess p o) ->
  let s := snd (pin_run (before ++ [OpUpdate (PStr p) 0 (zlen p)]) (newOwnerPIN tryLimit maxPINSize)) in
  forall c off len, ~ In (OpCheck c off len, Ok (VBool true)) (fst (pin_run ops s)).
Proof. exact C107_guesses_pf. Qed.
Print Assumptions C107_guesses.

(** secrecy: two objects with the same past and the PINs p and p' answer alike, exceptions
    and counters included, to every history of checks, resets and queries in which no
    check is with p or p' *)
Theorem C107_secrecy : forall tryLimit maxPINSize before p p' ops,
  zlen p <= maxPINSize -> zlen p' <= maxPINSize -> ~ In 0 p -> ~ In 0 p' ->
  Forall string_op before -> Forall string_op ops -> Forall guessing ops ->
  (forall o, In o ops -> ~ right_guess p o /\ ~ right_guess p' o) ->
  let s q := snd (pin_run (before ++ [OpUpdate (PStr q) 0 (zlen q)]) (newOwnerPIN tryLimit maxPINSize)) in
  fst (pin_run ops (s p)) = fst (pin_run ops (s p')).
Proof. exact C107_secrecy_pf. Qed.
Print Assumptions C107_secrecy.

Example C107_ex : let ops := [OpReset; OpCheck (PStr [48]) 0 1; OpCheck (PStr [57; 57; 57; 57]) 0 4; OpCheck (PStr [49]) 0 2;
                              OpReset; OpCheck (PStr [49; 50]) 0 2; OpGetTries] in
  let s := snd (pin_run ([] ++ [OpUpdate (PStr [49; 50]) 0 2]) (newOwnerPIN 2 3)) in
  firstn 2 (filter (counted 3) ops) = [OpCheck (PStr [48]) 0 1; OpCheck (PStr [49]) 0 2]
  /\ map snd (fst (pin_run ops s))
     = [Ok VUnit; Ok (VBool false); Err IndexError; Err ArrayIndexOutOfBounds; Ok VUnit; Ok (VBool false); Ok (VInt 0)]
  /\ Forall guessing ops /\ right_guess [49; 50] (OpCheck (PStr [49; 50]) 0 2).
Proof.
  repeat split; try reflexivity; repeat constructor; vm_compute; discriminate.
Qed.
