(** * Model of pythoncard/framework/ownerpin.py *)
From Verif Require Import Py M_util.

(** The PIN argument: a [str] (list of code points) or any other sequence of
    ints (list, bytes).  The code distinguishes exactly these two
    (isinstance(pin, str), ownerpin.py:37 and 71). *)
Inductive pinarg : Set :=
| PStr (chars : list Z)
| PArr (cells : list Z).

Definition pin_cells (p : pinarg) : list Z :=
  match p with PStr l => l | PArr l => l end.

(** The attributes set in ownerpin.py:10-15. *)
Record ownerpin : Set := mkPIN {
  trylimit : Z;
  triesremaining : Z;
  maxpinsize : Z;
  thepin : list Z;
  validated : bool }.

(** ownerpin.py:10-15 *)
Definition newOwnerPIN (tryLimit maxPINSize : Z) : ownerpin :=
  mkPIN tryLimit 0 maxPINSize (py_repeat 0 maxPINSize) false.

(** attribute assignments *)
Definition set_validated (b : bool) : M ownerpin unit :=
  fun s => (Ok tt, mkPIN (trylimit s) (triesremaining s) (maxpinsize s) (thepin s) b).
Definition set_tries (t : Z) : M ownerpin unit :=
  fun s => (Ok tt, mkPIN (trylimit s) t (maxpinsize s) (thepin s) (validated s)).

(** [i = 0; for char in cs: Pin[i] = ord(char); i += 1]
    (ownerpin.py:38-41 and 72-75) *)
Fixpoint store_chars (cs : list Z) (i : Z) : M (list Z) unit :=
  match cs with
  | [] => ret tt
  | c :: cs' => aset i c ;;; store_chars cs' (i + 1)
  end.

(** ownerpin.py:36-48: fills the fresh list [Pin] *)
Definition check_fill (p : pinarg) (offset length maxsize : Z) : M (list Z) unit :=
  match p with
  | PStr pin =>
      store_chars (py_slice pin offset (offset + length)) 0 ;;;
      for_range length maxsize (fun i => aset i 0)
  | PArr pin =>
      for_range offset (offset + length) (fun i =>
        v <- lift (py_get pin i) ;; aset (offset - i) v) ;;;
      for_range length maxsize (fun i => aset i 0)
  end.

(** ownerpin.py:26-56 *)
Definition check (p : pinarg) (offset length : Z) : M ownerpin bool :=
  set_validated false ;;;
  s <- get ;;
  if triesremaining s <=? 0 then ret false
  else if (zlen (pin_cells p) <? offset) || (zlen (pin_cells p) <? offset + length)
  then set_tries (triesremaining s - 1) ;;; raise ArrayIndexOutOfBounds
  else
    match check_fill p offset length (maxpinsize s) (py_repeat 0 (maxpinsize s)) with
    | (Err e, _) => raise e
    | (Ok _, Pin) =>
        if negb (list_eqb (thepin s) Pin)
        then set_tries (triesremaining s - 1) ;;; ret false
        else set_validated true ;;; set_tries (trylimit s) ;;; ret true
    end.

(** ownerpin.py:71-81: writes self.__pin in place *)
Definition update_fill (p : pinarg) (offset length maxsize : Z) : M (list Z) unit :=
  match p with
  | PStr pin => store_chars (py_slice pin offset (offset + length)) 0
  | PArr pin =>
      for_range offset (offset + length) (fun i =>
        v <- lift (py_get pin i) ;; aset (offset - i) v)
  end ;;;
  for_range length maxsize (fun i => aset i 0).

(** run a computation on the list self.__pin *)
Definition on_pin (m : M (list Z) unit) : M ownerpin unit :=
  fun s => let '(r, l) := m (thepin s) in
           (r, mkPIN (trylimit s) (triesremaining s) (maxpinsize s) l (validated s)).

(** ownerpin.py:65-83 *)
Definition update (p : pinarg) (offset length : Z) : M ownerpin unit :=
  s <- get ;;
  if maxpinsize s <? length then raise (PINExc length)
  else if zlen (pin_cells p) <? length + offset then raise ArrayIndexOutOfBounds
  else
    on_pin (update_fill p offset length (maxpinsize s)) ;;;
    set_validated true ;;;
    set_tries (trylimit s).

(** ownerpin.py:85-87 *)
Definition resetAndUnblock : M ownerpin unit :=
  s <- get ;; set_validated false ;;; set_tries (trylimit s).

(** ownerpin.py:61-63 *)
Definition reset : M ownerpin unit :=
  s <- get ;; if validated s then resetAndUnblock else ret tt.

(** ownerpin.py:17-18, 58-59 *)
Definition isValidated : M ownerpin bool := s <- get ;; ret (validated s).
(** ownerpin.py:23-24 *)
Definition getTriesRemaining : M ownerpin Z := s <- get ;; ret (triesremaining s).
(** ownerpin.py:20-21 (the flag is a bool) *)
Definition setValidatedFlag (b : bool) : M ownerpin unit := set_validated b.

(** The calls a client can make, and the history of calls on one object: the
    client catches exceptions and goes on. *)
Inductive pin_op : Set :=
| OpCheck (p : pinarg) (offset length : Z)
| OpUpdate (p : pinarg) (offset length : Z)
| OpReset
| OpResetAndUnblock
| OpSetValidatedFlag (b : bool)
| OpIsValidated
| OpGetTries.

Inductive pin_val : Set := VUnit | VBool (b : bool) | VInt (z : Z).

Definition mmap {S A B} (f : A -> B) (m : M S A) : M S B := a <- m ;; ret (f a).

Definition pin_step (o : pin_op) : M ownerpin pin_val :=
  match o with
  | OpCheck p off len => mmap VBool (check p off len)
  | OpUpdate p off len => mmap (fun _ => VUnit) (update p off len)
  | OpReset => mmap (fun _ => VUnit) reset
  | OpResetAndUnblock => mmap (fun _ => VUnit) resetAndUnblock
  | OpSetValidatedFlag b => mmap (fun _ => VUnit) (setValidatedFlag b)
  | OpIsValidated => mmap VBool isValidated
  | OpGetTries => mmap VInt getTriesRemaining
  end.

(** Outcomes of the calls of a history, in order, and the final object. *)
Fixpoint pin_run (ops : list pin_op) (s : ownerpin) : list (pin_op * res pin_val) * ownerpin :=
  match ops with
  | [] => ([], s)
  | o :: ops' =>
      let '(r, s') := pin_step o s in
      let '(tr, s'') := pin_run ops' s' in
      ((o, r) :: tr, s'')
  end.
