(** * C11-C17: OwnerPIN: property theorems *)
From Verif Require Import LP_ownerpin Py S_Base L_Py M_utils M_util L_utils L_util M_ownerpin S_OwnerPIN.
From Coq Require Import ZifyBool ZifyNat.
Ltac Zify.zify_post_hook ::= Z.div_mod_to_equations.

(** C11.  Whatever the history (any calls, any arguments, exceptions caught),
    the counter read by getTriesRemaining is within 0..tryLimit, the limits
    never change and the stored PIN has maxPINSize cells. *)
Theorem C11_tries_in_range : forall tryLimit maxPINSize ops, 0 <= tryLimit ->
  let s := snd (pin_run ops (newOwnerPIN tryLimit maxPINSize)) in
  (exists t, getTriesRemaining s = (Ok t, s) /\ 0 <= t <= tryLimit)
  /\ zlen (thepin s) = Z.max 0 maxPINSize
  /\ trylimit s = tryLimit /\ maxpinsize s = maxPINSize.
Proof. exact C11_tries_in_range_pf. Qed.
Print Assumptions C11_tries_in_range.

Example C11_ex : fst (pin_run [OpGetTries; OpUpdate (PStr [49; 50]) 0 2; OpCheck (PStr [49; 51]) 0 2;
    OpGetTries; OpCheck (PStr [49; 50]) 0 2; OpGetTries] (newOwnerPIN 3 4))
  = [(OpGetTries, Ok (VInt 0)); (OpUpdate (PStr [49; 50]) 0 2, Ok VUnit);
     (OpCheck (PStr [49; 51]) 0 2, Ok (VBool false)); (OpGetTries, Ok (VInt 2));
     (OpCheck (PStr [49; 50]) 0 2, Ok (VBool true)); (OpGetTries, Ok (VInt 3))].
Proof. vm_compute. reflexivity. Qed.

(** C12.  On a blocked PIN a check returns False and clears the flag; from
    there, any history without update, resetAndUnblock and
    setValidatedFlag(True) changes nothing: every check in it returns False,
    every isValidated() is False, every getTriesRemaining() is 0. *)
Theorem C12_blocked_stays_blocked : forall s, triesremaining s = 0 ->
  (forall p off len, check p off len s
     = (Ok false, mkPIN (trylimit s) 0 (maxpinsize s) (thepin s) false))
  /\ (validated s = false -> forall ops, forallb harmless ops = true ->
      snd (pin_run ops s) = s
      /\ (forall p off len r, In (OpCheck p off len, r) (fst (pin_run ops s)) -> r = Ok (VBool false))
      /\ (forall r, In (OpIsValidated, r) (fst (pin_run ops s)) -> r = Ok (VBool false))
      /\ (forall r, In (OpGetTries, r) (fst (pin_run ops s)) -> r = Ok (VInt 0))).
Proof. exact C12_blocked_stays_blocked_pf. Qed.
Print Assumptions C12_blocked_stays_blocked.

Example C12_ex : let s := snd (pin_run [OpUpdate (PStr [49; 50]) 0 2; OpCheck (PStr [50; 50]) 0 2] (newOwnerPIN 1 4)) in
  triesremaining s = 0 /\ validated s = false
  /\ fst (check (PStr [49; 50]) 0 2 s) = Ok false.
Proof. vm_compute. auto. Qed.

(** C13.  The full statement is false: a check whose range is longer than the
    PIN size raises IndexError and costs nothing (for every PIN object with
    tries left, every str range longer than the PIN size; and every other
    sequence range longer by two). *)
Theorem C13_failed_check_refuted : forall s l off len,
  0 < triesremaining s -> 0 <= maxpinsize s -> 0 <= off -> off + len <= zlen l ->
  (maxpinsize s < len -> check (PStr l) off len s = (Err IndexError, mkPIN (trylimit s) (triesremaining s) (maxpinsize s) (thepin s) false))
  /\ (maxpinsize s + 1 < len -> check (PArr l) off len s = (Err IndexError, mkPIN (trylimit s) (triesremaining s) (maxpinsize s) (thepin s) false)).
Proof. exact C13_failed_check_refuted_pf. Qed.
Print Assumptions C13_failed_check_refuted.

Example C13_refuted_ex : let s := snd (update (PStr [49; 50]) 0 2 (newOwnerPIN 3 2)) in
  check (PStr [49; 50; 51]) 0 3 s = (Err IndexError, mkPIN 3 3 2 [49; 50] false).
Proof. vm_compute. reflexivity. Qed.

(** C13, the true fragment.  With tries left, a check on a proper range, or on
    a range past the end of its argument, never leaks IndexError: it returns
    True, or it costs exactly one try, clears the flag and returns False or
    raises AIOOBE.  Missing: ranges longer than the PIN size
    ([C13_failed_check_refuted]). *)
Theorem C13_failed_check_partial : forall p off len s,
  0 < triesremaining s -> zlen (thepin s) = maxpinsize s ->
  (proper (maxpinsize s) p off len \/ zlen (pin_cells p) < off \/ zlen (pin_cells p) < off + len) ->
  check p off len s = (Ok true, mkPIN (trylimit s) (trylimit s) (maxpinsize s) (thepin s) true)
  \/ ((fst (check p off len s) = Ok false \/ fst (check p off len s) = Err ArrayIndexOutOfBounds)
      /\ snd (check p off len s) = mkPIN (trylimit s) (triesremaining s - 1) (maxpinsize s) (thepin s) false).
Proof. exact C13_failed_check_partial_pf. Qed.
Print Assumptions C13_failed_check_partial.

(** C13, for histories: a run of [n] checks (proper or past the end) none of
    which returned True leaves exactly max 0 (t-n) tries, so after tryLimit
    wrong guesses the PIN is blocked. *)
Theorem C13_guesses_partial : forall guesses s,
  zlen (thepin s) = maxpinsize s -> 0 <= triesremaining s ->
  (forall p off len, In (p, off, len) guesses ->
     proper (maxpinsize s) p off len \/ zlen (pin_cells p) < off \/ zlen (pin_cells p) < off + len) ->
  let ops := map (fun g => OpCheck (fst (fst g)) (snd (fst g)) (snd g)) guesses in
  (forall o, ~ In (o, Ok (VBool true)) (fst (pin_run ops s))) ->
  triesremaining (snd (pin_run ops s)) = Z.max 0 (triesremaining s - zlen guesses)
  /\ thepin (snd (pin_run ops s)) = thepin s.
Proof. exact C13_guesses_partial_pf. Qed.
Print Assumptions C13_guesses_partial.

Example C13_ex : let s := snd (update (PArr [1; 2; 3]) 0 3 (newOwnerPIN 2 3)) in
  map snd (fst (pin_run [OpCheck (PArr [1; 2; 4]) 0 3; OpGetTries; OpCheck (PArr [1]) 0 3; OpGetTries;
                         OpCheck (PArr [1; 2; 3]) 0 3] s))
  = [Ok (VBool false); Ok (VInt 1); Err ArrayIndexOutOfBounds; Ok (VInt 0); Ok (VBool false)].
Proof. vm_compute. reflexivity. Qed.

(** C14, exact criterion, for every kind of argument on both sides: after an
    update and any calls but update, an unblocked check returns True iff the
    two layouts agree cell by cell.  (The layout of a non-str range over the
    old PIN is not injective and depends on the old PIN, see below.) *)
Theorem C14_check_exact_partial : forall s p off len ops c coff clen,
  zlen (thepin s) = maxpinsize s -> proper (maxpinsize s) p off len -> proper (maxpinsize s) c coff clen ->
  forallb (fun o => negb (is_update o)) ops = true ->
  let s1 := snd (update p off len s) in
  let s2 := snd (pin_run ops s1) in
  0 < triesremaining s2 ->
  fst (update p off len s) = Ok tt
  /\ (fst (check c coff clen s2) = Ok true <->
      forall j, (j < Z.to_nat (maxpinsize s))%nat ->
        cell p (Z.to_nat off) (Z.to_nat len) (Z.to_nat (maxpinsize s)) (thepin s) j
        = cell c (Z.to_nat coff) (Z.to_nat clen) (Z.to_nat (maxpinsize s)) [] j)
  /\ (fst (check c coff clen s2) = Ok true \/ fst (check c coff clen s2) = Ok false).
Proof. exact C14_check_exact_partial_pf. Qed.
Print Assumptions C14_check_exact_partial.

(** C14 holds in full for str PINs without NUL characters. *)
Theorem C14_check_str_partial : forall s p off len ops c coff clen,
  zlen (thepin s) = maxpinsize s ->
  proper (maxpinsize s) (PStr p) off len -> proper (maxpinsize s) (PStr c) coff clen ->
  ~ In 0 (sub p (Z.to_nat off) (Z.to_nat len)) -> ~ In 0 (sub c (Z.to_nat coff) (Z.to_nat clen)) ->
  forallb (fun o => negb (is_update o)) ops = true ->
  let s2 := snd (pin_run ops (snd (update (PStr p) off len s))) in
  0 < triesremaining s2 ->
  (fst (check (PStr c) coff clen s2) = Ok true <->
   sub p (Z.to_nat off) (Z.to_nat len) = sub c (Z.to_nat coff) (Z.to_nat clen)).
Proof. exact C14_check_str_partial_pf. Qed.
Print Assumptions C14_check_str_partial.

(** C14 holds in full for non-str PINs that fill the PIN exactly. *)
Theorem C14_check_full_length_partial : forall s p off ops c coff,
  let max := maxpinsize s in
  zlen (thepin s) = max -> proper max (PArr p) off max -> proper max (PArr c) coff max ->
  forallb (fun o => negb (is_update o)) ops = true ->
  let s2 := snd (pin_run ops (snd (update (PArr p) off max s))) in
  0 < triesremaining s2 ->
  (fst (check (PArr c) coff max s2) = Ok true <->
   sub p (Z.to_nat off) (Z.to_nat max) = sub c (Z.to_nat coff) (Z.to_nat max)).
Proof. exact C14_check_full_length_partial_pf. Qed.
Print Assumptions C14_check_full_length_partial.

(** C14 is false in general, first failure: on a fresh object, if
    2*length-1 <= maxPINSize, every candidate of the same length with the same
    first element is accepted, whatever the other elements. *)
Theorem C14_accepts_wrong_pin_refuted : forall lim max p c off coff len,
  0 < lim -> 0 < len -> 2 * len - 1 <= max -> proper max (PArr p) off len -> proper max (PArr c) coff len ->
  nth (Z.to_nat off) p 0 = nth (Z.to_nat coff) c 0 ->
  fst (check (PArr c) coff len (snd (update (PArr p) off len (newOwnerPIN lim max)))) = Ok true.
Proof. exact C14_accepts_wrong_pin_refuted_pf. Qed.
Print Assumptions C14_accepts_wrong_pin_refuted.

(** C14, third failure: of a candidate one element longer than maxPINSize the first
    element is not compared, the last one is compared with the first of the PIN. *)
Theorem C14_too_long_refuted : forall lim max p c off coff,
  0 < lim -> 0 < max -> proper max (PArr p) off max -> 0 <= coff -> coff + max + 1 <= zlen c ->
  nth (Z.to_nat (coff + max)) c 0 = nth (Z.to_nat off) p 0 ->
  sub c (Z.to_nat (coff + 1)) (Z.to_nat (max - 1)) = sub p (Z.to_nat (off + 1)) (Z.to_nat (max - 1)) ->
  fst (check (PArr c) coff (max + 1) (snd (update (PArr p) off max (newOwnerPIN lim max)))) = Ok true.
Proof. exact C14_too_long_refuted_pf. Qed.
Print Assumptions C14_too_long_refuted.

Example C14_too_long_ex :
  fst (check (PArr [9; 2; 3; 4; 1]) 0 5 (snd (update (PArr [1; 2; 3; 4]) 0 4 (newOwnerPIN 3 4)))) = Ok true.
Proof. reflexivity. Qed.

(** C14, second failure: after a full-length PIN with a non-zero last element,
    a shorter new PIN is not accepted by check. *)
Theorem C14_rejects_right_pin_refuted : exists lim max old new len,
  proper max (PArr old) 0 max /\ proper max (PArr new) 0 len /\
  let s := snd (update (PArr new) 0 len (snd (update (PArr old) 0 max (newOwnerPIN lim max)))) in
  fst (update (PArr new) 0 len (snd (update (PArr old) 0 max (newOwnerPIN lim max)))) = Ok tt
  /\ triesremaining s = lim /\ 0 < lim
  /\ fst (check (PArr new) 0 len s) = Ok false.
Proof. exact C14_rejects_right_pin_refuted_pf. Qed.
Print Assumptions C14_rejects_right_pin_refuted.

Example C14_ex : let s := newOwnerPIN 3 8 in
  fst (check (PArr [1; 9; 9; 9]) 0 4 (snd (update (PArr [1; 2; 3; 4]) 0 4 s))) = Ok true
  /\ fst (check (PStr [49; 50; 51]) 0 3 (snd (update (PStr [49; 50; 51]) 0 3 s))) = Ok true
  /\ fst (check (PStr [49; 50]) 0 2 (snd (update (PStr [49; 50; 51]) 0 3 s))) = Ok false.
Proof. vm_compute. auto. Qed.

(** C15 is false of every update that returns: the flag is set. *)
Theorem C15_update_validates_refuted : forall p off len s s',
  update p off len s = (Ok tt, s') -> isValidated s' = (Ok true, s').
Proof. exact C15_update_validates_refuted_pf. Qed.
Print Assumptions C15_update_validates_refuted.

(** C15, what is true: an update that raises leaves flag and counter as they
    were; one that returns restores the counter, and a reset afterwards clears
    the flag. *)
Theorem C15_update_partial : forall p off len s,
  (exists e s', update p off len s = (Err e, s')
     /\ validated s' = validated s /\ triesremaining s' = triesremaining s)
  \/ (exists s', update p off len s = (Ok tt, s') /\ triesremaining s' = trylimit s
     /\ reset s' = (Ok tt, mkPIN (trylimit s) (trylimit s) (maxpinsize s) (thepin s') false)).
Proof. exact C15_update_partial_pf. Qed.
Print Assumptions C15_update_partial.

Example C15_ex : isValidated (snd (update (PStr [49; 50]) 0 2 (newOwnerPIN 3 4)))
  = (Ok true, mkPIN 3 3 4 [49; 50; 0; 0] true)
  /\ fst (update (PStr [49; 50]) 0 5 (newOwnerPIN 3 4)) = Err (PINExc 5).
Proof. vm_compute. auto. Qed.

(** C16.  After any history on a fresh object (or on any object, starting from
    its flag), isValidated() is what the last deciding event of the trace says,
    False if there is none. *)
Theorem C16_validated_flag : forall ops s,
  validated (snd (pin_run ops s)) =
    match last_flag_event (fst (pin_run ops s)) with Some b => b | None => validated s end
  /\ isValidated (snd (pin_run ops s)) = (Ok (validated (snd (pin_run ops s))), snd (pin_run ops s)).
Proof. exact C16_validated_flag_pf. Qed.
Print Assumptions C16_validated_flag.

Example C16_ex : let tr := fst (pin_run [OpUpdate (PStr [49]) 0 1; OpCheck (PStr [49]) 0 1; OpUpdate (PStr [49]) 0 9; OpGetTries] (newOwnerPIN 3 4)) in
  last_flag_event tr = Some true
  /\ last_flag_event (fst (pin_run [OpIsValidated; OpGetTries] (newOwnerPIN 3 4))) = None.
Proof. vm_compute. auto. Qed.

(** C17. *)
Theorem C17_reset : forall s,
  resetAndUnblock s = (Ok tt, mkPIN (trylimit s) (trylimit s) (maxpinsize s) (thepin s) false)
  /\ (validated s = true ->
      reset s = (Ok tt, mkPIN (trylimit s) (trylimit s) (maxpinsize s) (thepin s) false))
  /\ (validated s = false -> reset s = (Ok tt, s)).
Proof. exact C17_reset_pf. Qed.
Print Assumptions C17_reset.

Example C17_ex : let s := mkPIN 3 1 2 [7; 8] true in
  reset s = (Ok tt, mkPIN 3 3 2 [7; 8] false) /\ reset (mkPIN 3 1 2 [7; 8] false) = (Ok tt, mkPIN 3 1 2 [7; 8] false).
Proof. vm_compute. auto. Qed.
