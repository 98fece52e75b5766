(** * Specification vocabulary for OwnerPIN (independent of the model's
    helpers; only the type of calls is shared) *)
From Verif Require Import Py S_Base M_ownerpin.

(** What a call tells about the validated flag, given its outcome: [Some b] =
    the flag is [b] afterwards, [None] = the call does not affect it. *)
Definition flag_event (ev : pin_op * res pin_val) : option bool :=
  match ev with
  | (OpCheck _ _ _, Ok (VBool true)) => Some true
  | (OpCheck _ _ _, _) => Some false
  | (OpUpdate _ _ _, Ok _) => Some true
  | (OpUpdate _ _ _, Err _) => None
  | (OpReset, _) => Some false
  | (OpResetAndUnblock, _) => Some false
  | (OpSetValidatedFlag b, _) => Some b
  | (OpIsValidated, _) => None
  | (OpGetTries, _) => None
  end.

(** The last deciding event of a trace (most recent first), if any. *)
Fixpoint first_some {A} (l : list (option A)) : option A :=
  match l with
  | [] => None
  | Some a :: _ => Some a
  | None :: l' => first_some l'
  end.
Definition last_flag_event (tr : list (pin_op * res pin_val)) : option bool :=
  first_some (map flag_event (rev tr)).

(** Calls that neither set a PIN nor unblock nor force the flag. *)
Definition harmless (o : pin_op) : bool :=
  match o with
  | OpUpdate _ _ _ | OpResetAndUnblock | OpSetValidatedFlag true => false
  | _ => true
  end.

Definition is_update (o : pin_op) : bool :=
  match o with OpUpdate _ _ _ => true | _ => false end.

(** A check call whose range lies inside its argument and is not longer than
    the PIN size. *)
Definition proper (maxsize : Z) (p : pinarg) (off len : Z) : Prop :=
  0 <= off /\ 0 <= len <= maxsize /\ off + len <= zlen (pin_cells p).

(** The cells a PIN range is laid out into when it is stored over [old]
    (max cells): what ownerpin.py does, as a function of the position [j].
    A str is stored from cell 0 on.  Of any other sequence, element 0 goes to
    cell 0 and element k to cell max-k, cells from [length] on are zeroed
    afterwards, and the other cells keep their old value. *)
Definition cell (p : pinarg) (off len max : nat) (old : list Z) (j : nat) : Z :=
  match p with
  | PStr l => if (j <? len)%nat then nth (off + j) l 0 else 0
  | PArr l =>
      if (len <=? j)%nat then 0
      else if (j =? 0)%nat then nth off l 0
      else if (max <? j + len)%nat then nth (off + (max - j)) l 0
      else nth j old 0
  end.
