(** * ISO 7816-4 command APDUs: the format, written down independently *)
From Coq Require Import ZArith List.
From Verif Require Import S_Base.
Import ListNotations.
Open Scope Z_scope.

Inductive command : Set :=
| Case1
| Case2S (le : Z)
| Case3S (data : list Z)
| Case4S (data : list Z) (le : Z)
| Case2E (le : Z)
| Case3E (data : list Z)
| Case4E (data : list Z) (le : Z).

(** Length fields: Le = 0 encodes the maximum. *)
Definition le1 (le : Z) : list Z := [le mod 256].
Definition le2 (le : Z) : list Z := [le / 256 mod 256; le mod 256].

(** The body after CLA INS P1 P2. *)
Definition body (c : command) : list Z :=
  match c with
  | Case1 => []
  | Case2S le => le1 le
  | Case3S d => Z.of_nat (length d) :: d
  | Case4S d le => Z.of_nat (length d) :: d ++ le1 le
  | Case2E le => 0 :: le2 le
  | Case3E d => 0 :: le2 (Z.of_nat (length d)) ++ d
  | Case4E d le => 0 :: le2 (Z.of_nat (length d)) ++ d ++ le2 le
  end.

Definition command_data (c : command) : list Z :=
  match c with
  | Case3S d | Case4S d _ | Case3E d | Case4E d _ => d
  | _ => []
  end.

(** Expected response length, None when the command has no Le. *)
Definition command_le (c : command) : option Z :=
  match c with
  | Case2S le | Case4S _ le | Case2E le | Case4E _ le => Some le
  | _ => None
  end.

Definition bytes (l : list Z) : Prop := Forall ubyte l.

Definition wf_command (c : command) : Prop :=
  bytes (command_data c) /\
  match c with
  | Case1 => True
  | Case2S le => 1 <= le <= 256
  | Case3S d => 1 <= Z.of_nat (length d) <= 255
  | Case4S d le => 1 <= Z.of_nat (length d) <= 255 /\ 1 <= le <= 256
  | Case2E le => 1 <= le <= 65536
  | Case3E d => 1 <= Z.of_nat (length d) <= 65535
  | Case4E d le => 1 <= Z.of_nat (length d) <= 65535 /\ 1 <= le <= 65536
  end.

Definition is_short (c : command) : bool :=
  match c with Case1 | Case2S _ | Case3S _ | Case4S _ _ => true | _ => false end.

(** [raw] is the command [c] with some header; cells may be signed or unsigned
    bytes. *)
Definition encodes (raw : list Z) (c : command) : Prop :=
  Forall anybyte raw /\
  exists cla ins p1 p2, map (fun b => b mod 256) raw = [cla; ins; p1; p2] ++ body c.
