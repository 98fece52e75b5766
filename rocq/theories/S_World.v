(** * The current APDU, the logical channel, the answers of the test applet: what they
      should be (C94-C97) *)
From Verif Require Import Py S_Base S_APDU M_apdu M_util M_system M_world.

(** The APDU last created in a history *)
Fixpoint last_created (tr : list (wop * res (option nat))) (cur : option nat) : option nat :=
  match tr with
  | [] => cur
  | (WNew _, Ok (Some id)) :: tr' => last_created tr' (Some id)
  | _ :: tr' => last_created tr' cur
  end.
(** C94: getCurrentAPDU is the APDU last created, None at the beginning *)
Definition C94_full : Prop := forall h tr w, wrun h world0 = (tr, w) -> getCurrentAPDU w = last_created tr None.
(** The commands on which the constructor raises IndexError *)
Definition six_bytes (b : list Z) : Prop := length b = 6%nat /\ nth 4 b 1 = 0.

(** C95: the logical channel is in the two low bits of the class byte, whatever is
    done with the APDU *)
Definition only_calls (h : list wop) : Prop := Forall (fun o => match o with WCall _ _ => True | WNew _ => False end) h.
Definition C95_full : Prop := forall b s h h' tr w,
  newAPDU b = Ok s -> only_calls h' -> wrun (h ++ [WNew b] ++ h') world0 = (tr, w) -> getCLAChannel w = Ok (nth 0 b 0 mod 4).
(** the calls that cannot write the first cell of the buffer *)
Definition keeps_cla (o : apdu_op) : Prop :=
  match o with OpReceiveBytes b => 0 < b | OpWriteBuffer i _ => 0 < i | _ => True end.

(** C96: the answer of the test applet to a short command; [None]: an exception
    that is no ISOException *)
Definition base_answer (cla ins : Z) (le : option Z) : option (list Z) :=
  if Z.testbit cla 7 then
    if ins =? 8 then
      if match le with Some n => 3 <=? n | None => true end then Some [55; 77; 99; 0x90; 0] else None
    else if (ins =? 56) || (ins =? 42) then Some [0x90; 0]
    else Some [0x6d; 0]
  else Some [0x6e; 0].

(** C97: getAvailableMemory with a buffer writes the short 32767 *)
Definition C97_full : Prop := forall offset memoryType,
  getAvailableMemory3 offset memoryType None = (Err NullPointer, None)
  /\ forall buffer,
     if (0 <=? offset) && (offset + 2 <=? zlen buffer) then
       exists b', getAvailableMemory3 offset memoryType (Some buffer) = (Ok tt, Some b')
         /\ getShort b' offset = Ok 32767 /\ length b' = length buffer
         /\ forall i, Z.of_nat i <> offset -> Z.of_nat i <> offset + 1 -> nth_error b' i = nth_error buffer i
     else exists b', getAvailableMemory3 offset memoryType (Some buffer) = (Err ArrayIndexOutOfBounds, Some b').
