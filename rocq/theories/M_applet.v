(** * Model of pythoncard/framework/applet.py: applet objects *)
From Verif Require Import Py M_utils M_util M_apdu M_world.

(** The only attribute an Applet object has is _selectingApplet, [None] while it is missing:
    no code of the library sets it (applet.py:5-6, 26-28), the surrounding system does
    (test/testApplet.py:68-71).  Applets are numbered in the order of their creation. *)
Definition applets : Set := list (option bool).

(** The calls on applets; [ASet i b] is the assignment [app._selectingApplet = b]. *)
Inductive acall : Set :=
| ANew | ASet (i : nat) (b : bool)
| ASelect (i : nat) | ADeselect (i : nat) | ASelecting (i : nat) | AReselecting (i : nat)
| AInstall | AProcess (i : nat) (s : apdu) | AShareable (i : nat) | ARegister (i : nat) | AIds (i : nat).
(** What they return *)
Inductive aval : Set := RNone | RBool (b : bool).

(** the object with number [i]; the caller has no other (a wrong number models nothing) *)
Definition with_applet (i : nat) (f : option bool -> res aval) : M applets aval :=
  fun w => match nth_error w i with Some a => (f a, w) | None => (Err NameError, w) end.

(** applet.py:5-6 (new object), 8-21 (RID, PIX, AID, deselect return None), 23-31, 33-46, 48-52
    (register warns and returns None) *)
Definition acall_step (c : acall) : M applets aval :=
  match c with
  | ANew => fun w => (Ok RNone, w ++ [None])
  | ASet i b => fun w => match nth_error w i with
                         | Some _ => (Ok RNone, list_upd w i (Some b))
                         | None => (Err NameError, w)
                         end
  | ASelect i => with_applet i (fun _ => rmap RBool applet_select)
  | ADeselect i => with_applet i (fun _ => Ok RNone)
  | ASelecting i => with_applet i (fun a => rmap RBool (applet_selectingApplet a))
  | AReselecting i => with_applet i (fun _ => rmap RBool applet_reSelectingApplet)
  | AInstall => lift (rmap (fun _ => RNone) applet_install)
  | AProcess i s => with_applet i (fun _ => rmap (fun _ => RNone) (fst (applet_process s)))
  | AShareable i => with_applet i (fun _ => Err NotImplementedError)
  | ARegister i => with_applet i (fun _ => Ok RNone)
  | AIds i => with_applet i (fun _ => Ok RNone)
  end.
(** a history; exceptions are caught *)
Fixpoint arun (l : list acall) (w : applets) : list (res aval) * applets :=
  match l with
  | [] => ([], w)
  | c :: l' => let '(r, w') := acall_step c w in let '(tr, w'') := arun l' w' in (r :: tr, w'')
  end.
