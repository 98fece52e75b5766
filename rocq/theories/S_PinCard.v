(** * C141: what a card that guards a secret with a PIN should answer *)
From Verif Require Import Py S_Base S_APDU M_ownerpin M_pincard.

(** What the terminal does: it selects the applet or sends a short command. *)
Inductive terminal : Set :=
| TSelect
| TSend (cla ins p1 p2 : Z) (c : command).
Definition terminal_ok (t : terminal) : Prop :=
  match t with
  | TSelect => True
  | TSend cla ins p1 p2 c => ubyte cla /\ ubyte ins /\ ubyte p1 /\ ubyte p2 /\ wf_command c /\ is_short c = true
  end.
(** the same as bytes *)
Definition on_wire (t : terminal) : card_event :=
  match t with
  | TSelect => CardSelect
  | TSend cla ins p1 p2 c => CardCommand ([cla; ins; p1; p2] ++ body c)
  end.

(** The card as a terminal sees it: tries left, and whether the PIN has been presented
    since the last selection. *)
Record vault : Set := mkVault { v_tries : Z; v_open : bool }.

(** The answer ([None]: the applet fails, as the secret is longer than the terminal
    asked for) and the card afterwards. *)
Definition vault_step (limit : Z) (code secret : list Z) (t : terminal) (v : vault) : option (list Z) * vault :=
  match t with
  | TSelect => (Some [], if v_open v then mkVault limit false else v)
  | TSend _ ins _ _ c =>
      if ins =? 0x20 then
        if v_tries v =? 0 then (Some [0x63; 0], mkVault 0 false)
        else if list_eqb (command_data c) code then (Some [0x90; 0], mkVault limit true)
        else (Some [0x63; 0], mkVault (v_tries v - 1) false)
      else if ins =? 0xB0 then
        (if v_open v then
           match command_le c with
           | Some n => if n <? zlen secret then None else Some (secret ++ [0x90; 0])
           | None => Some (secret ++ [0x90; 0])
           end
         else Some [0x69; 0x82], v)
      else (Some [0x6d; 0], v)
  end.
Fixpoint vault_run (limit : Z) (code secret : list Z) (ts : list terminal) (v : vault) : list (option (list Z)) :=
  match ts with
  | [] => []
  | t :: ts' => let '(r, v') := vault_step limit code secret t v in r :: vault_run limit code secret ts' v'
  end.

(** the observation of an answer *)
Definition answer (r : res (list Z)) : option (list Z) := match r with Ok l => Some l | Err _ => None end.

(** C141: every terminal sees the vault, from the installation of the applet on. *)
Definition C141_full : Prop := forall limit max code secret ts,
  0 < limit <= 127 -> 1 <= zlen code <= max -> max <= 127 -> bytes code -> zlen secret <= 256 ->
  Forall terminal_ok ts ->
  map answer (fst (card_run secret (map on_wire ts) (card_install limit max code)))
  = vault_run limit code secret ts (mkVault limit false).

(** A VERIFY carries at most [max] bytes. *)
Definition verify_fits (max : Z) (t : terminal) : Prop :=
  match t with
  | TSend _ ins _ _ c => ins = 0x20 -> zlen (command_data c) <= max
  | TSelect => True
  end.

(** a VERIFY command, of any length, well formed or not *)
Definition is_verify (e : card_event) : bool :=
  match e with CardCommand b => nth 1 b 0 mod 256 =? 0x20 | CardSelect => false end.
(** the answers to the VERIFY commands of a session *)
Definition verify_answers (h : list card_event) (rs : list (res (list Z))) : list (res (list Z)) :=
  map snd (filter (fun x => is_verify (fst x)) (combine h rs)).

(** a VERIFY does not carry the code *)
Definition wrong_guess (code : list Z) (t : terminal) : Prop :=
  match t with
  | TSend _ ins _ _ c => ins = 0x20 -> command_data c <> code
  | TSelect => True
  end.
(** how many VERIFYs there are *)
Definition guess1 (t : terminal) : Z := match t with TSend _ ins _ _ _ => if ins =? 0x20 then 1 else 0 | TSelect => 0 end.
Fixpoint guesses (ts : list terminal) : Z := match ts with [] => 0 | t :: ts' => guess1 t + guesses ts' end.
