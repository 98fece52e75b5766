(** * A reference PIN object for PINs given as strings *)
From Verif Require Import Py S_Base M_ownerpin.

(** The current PIN, the tries that remain and the validated flag. *)
Record refpin : Set := mkRef { rpin : list Z; rtries : Z; rflag : bool }.

(** What a call does.  A check reads nothing while no tries remain; a check that fails
    (wrong PIN, range outside the string) takes one try and clears the flag; a check
    longer than the maximal size raises IndexError without taking one (the defect of C13);
    update sets the flag (the defect of C15). *)
Definition ref_step (limit max : Z) (o : pin_op) (s : refpin) : res pin_val * refpin :=
  match o with
  | OpCheck p off len =>
      let range := sub (pin_cells p) (Z.to_nat off) (Z.to_nat len) in
      let failed := mkRef (rpin s) (rtries s - 1) false in
      if rtries s <=? 0 then (Ok (VBool false), mkRef (rpin s) (rtries s) false)
      else if zlen (pin_cells p) <? off + len then (Err ArrayIndexOutOfBounds, failed)
      else if max <? len then (Err IndexError, mkRef (rpin s) (rtries s) false)
      else if list_eq_dec Z.eq_dec range (rpin s) then (Ok (VBool true), mkRef (rpin s) limit true)
      else (Ok (VBool false), failed)
  | OpUpdate p off len =>
      if max <? len then (Err (PINExc len), s)
      else if zlen (pin_cells p) <? off + len then (Err ArrayIndexOutOfBounds, s)
      else (Ok VUnit, mkRef (sub (pin_cells p) (Z.to_nat off) (Z.to_nat len)) limit true)
  | OpReset => (Ok VUnit, if rflag s then mkRef (rpin s) limit false else s)
  | OpResetAndUnblock => (Ok VUnit, mkRef (rpin s) limit false)
  | OpSetValidatedFlag b => (Ok VUnit, mkRef (rpin s) (rtries s) b)
  | OpIsValidated => (Ok (VBool (rflag s)), s)
  | OpGetTries => (Ok (VInt (rtries s)), s)
  end.
Fixpoint ref_run (limit max : Z) (ops : list pin_op) (s : refpin) : list (res pin_val) * refpin :=
  match ops with
  | [] => ([], s)
  | o :: ops' =>
      let '(r, s') := ref_step limit max o s in
      let '(rs, s'') := ref_run limit max ops' s' in
      (r :: rs, s'')
  end.
(** A new object: no PIN, no tries. *)
Definition ref_new : refpin := mkRef [] 0 false.

(** A call with a string without NUL characters and a range that does not start or end
    before the string. *)
Definition string_op (o : pin_op) : Prop :=
  match o with
  | OpCheck p off len | OpUpdate p off len =>
      (exists l, p = PStr l /\ ~ In 0 l) /\ 0 <= off /\ 0 <= len
  | _ => True
  end.

(** ** Guessing *)

(** The calls of a terminal that tries to guess the PIN. *)
Definition guessing (o : pin_op) : Prop :=
  match o with OpCheck _ _ _ | OpReset | OpIsValidated | OpGetTries => True | _ => False end.

(** A check with the PIN [p]. *)
Definition right_guess (p : list Z) (o : pin_op) : Prop :=
  match o with
  | OpCheck c off len => off + len <= zlen (pin_cells c) /\ sub (pin_cells c) (Z.to_nat off) (Z.to_nat len) = p
  | _ => False
  end.

(** A check that is compared with the PIN or fails for its range: all but those inside
    their string that are longer than the maximal size. *)
Definition counted (max : Z) (o : pin_op) : bool :=
  match o with
  | OpCheck c off len => (zlen (pin_cells c) <? off + len) || (len <=? max)
  | _ => false
  end.
