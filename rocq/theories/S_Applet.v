(** * Vocabulary for C96 (every command) and C134 (the life of an applet object) *)
From Verif Require Import Py M_apdu M_world M_applet.

(** C96: the answer of the test applet to any command, from what setIncomingAndReceive and
    setOutgoing return for it *)
Definition every_answer (cla ins : Z) (received : res Z) (le : Z) : res (list Z) :=
  if Z.testbit cla 7 then
    if ins =? 8 then
      match received with
      | Err (ISOExc sw) => Ok [sw / 256; sw mod 256]
      | Err e => Err e
      | Ok _ => if (le =? 0) || (3 <=? le) then Ok [55; 77; 99; 0x90; 0] else Err (APDUExc BAD_LENGTH)
      end
    else if (ins =? 56) || (ins =? 42) then Ok [0x90; 0]
    else Ok [0x6d; 0]
  else Ok [0x6e; 0].

(** C134: the last value the system stored for applet [i] in a history, none if it never did *)
Fixpoint last_set (i : nat) (l : list acall) : option bool :=
  match l with
  | [] => None
  | c :: l' => match last_set i l' with
               | Some b => Some b
               | None => match c with ASet j b => if Nat.eqb i j then Some b else None | _ => None end
               end
  end.
(** the number of applets created *)
Fixpoint created (l : list acall) : nat :=
  match l with [] => O | ANew :: l' => S (created l') | _ :: l' => created l' end.
(** what selectingApplet answers, after a history, for the applet created after [pre] *)
Definition asked (pre post : list acall) : res aval :=
  fst (acall_step (ASelecting (created pre)) (snd (arun (pre ++ ANew :: post) []))).

(** C134 in full: the applet is being selected exactly if the system said so last; one the
    system has said nothing about is not *)
Definition C134_full : Prop := forall pre post,
  asked pre post = Ok (RBool (match last_set (created pre) post with Some b => b | None => false end)).
