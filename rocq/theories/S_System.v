(** * What message digests, random data, dispatchers and array factories should do *)
From Coq Require Import ZArith List Bool.
From Verif Require Import S_Base.
Import ListNotations.
Open Scope Z_scope.

(** the bytes of a range *)
Definition bytes_of (buf : list Z) (off len : Z) : list Z := map (fun v => v mod 256) (sub buf (Z.to_nat off) (Z.to_nat len)).

(** the calls on a message digest, and what has been fed to it since the last
    reset: [reset] and a [doFinal] whose input range is readable forget it, a call
    whose input range is not readable changes nothing (offsets are taken to be
    non-negative) *)
Inductive dcall : Set :=
| DReset
| DUpdate (inBuff : list Z) (inOffset inLength : Z)
| DFinal (inBuff : list Z) (inOffset inLength : Z) (outBuff : list Z) (outOffset : Z).
Definition readable (off len : Z) (buf : list Z) : bool := (len <=? 0) || (off + len <=? Z.of_nat (length buf)).
Definition offset_ok (c : dcall) : Prop :=
  match c with DReset => True | DUpdate _ o _ | DFinal _ o _ _ _ => 0 <= o end.
Definition fed (h : list dcall) : list Z :=
  fold_left (fun acc c => match c with
    | DReset => []
    | DUpdate b o l => if readable o l b then acc ++ bytes_of b o l else acc
    | DFinal b o l _ _ => if readable o l b then [] else acc
    end) h [].

(** the service lists a history of [addService] calls should give: those of the
    phase, in order *)
Definition expected (phase : Z) (h : list (option Z * Z)) : list Z :=
  flat_map (fun c => match fst c with Some v => if snd c =? phase then [v] else [] | None => [] end) h.
