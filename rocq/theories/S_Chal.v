(** * C144: what a card with challenge and response should answer *)
From Verif Require Import Py S_Base S_APDU S_DES S_Cipher S_DesCard M_chalcard.

(** The door: the challenge that waits for its answer, and whether the last answer was right. *)
Record door : Set := mkDoor { d_chal : option (list Z); d_open : bool }.
(** An answer with data; [None] (the applet fails) when the terminal asks for fewer bytes. *)
Definition with_data (q : request) (data : list Z) : option (list Z) :=
  if match command_le (q_body q) with Some n => n <? zlen data | None => false end then None else Some (data ++ [0x90; 0]).

(** [rnd]: the random bytes drawn if the command is GET CHALLENGE.  [accepts r d]: [d] answers
    the challenge [r]. *)
Definition chal_step (accepts : list Z -> list Z -> bool) (secret : list Z) (q : request) (rnd : list Z) (s : door)
    : option (list Z) * door :=
  let data := command_data (q_body q) in
  if q_ins q =? 0x84 then (with_data q rnd, mkDoor (Some rnd) (d_open s))
  else if q_ins q =? 0x82 then
    if negb (zlen data =? 8) then (Some [0x67; 0], s)
    else match d_chal s with
         | None => (Some [0x69; 0x85], mkDoor None false)
         | Some r => if accepts r data then (Some [0x90; 0], mkDoor None true) else (Some [0x63; 0], mkDoor None false)
         end
  else if q_ins q =? 0xB0 then
    (if d_open s then with_data q secret else Some [0x69; 0x82], s)
  else (Some [0x6d; 0], s).
Fixpoint chal_run (accepts : list Z -> list Z -> bool) (secret : list Z) (h : list (request * list Z)) (s : door) : list (option (list Z)) :=
  match h with
  | [] => []
  | (q, rnd) :: h' => let '(r, s') := chal_step accepts secret q rnd s in r :: chal_run accepts secret h' s'
  end.

(** The answers of the card *)
Definition ccard_replies (fix_ : bool) (secret : list Z) (h : list (request * list Z)) (card : ccard) : list (option (list Z)) :=
  map reply (fst (ccard_run fix_ secret (map (fun e => (bytes_of (fst e), snd e)) h) card)).
(** well-formed short commands and 8 random bytes each *)
Definition drawn (e : request * list Z) : Prop := request_ok (fst e) /\ Forall ubyte (snd e) /\ length (snd e) = 8%nat.

(** The right answer to a challenge is its encryption; no padding. *)
Definition right (alg : Z) (key r d : list Z) : bool := list_eqb d (jc_encrypt alg key (repeat 0 8) r).
(** A card with this key and secret *)
Definition chal_card (alg size : Z) (key secret : list Z) (card : ccard) : Prop :=
  (alg = 1 \/ alg = 5) /\ In size [64; 128; 192] /\ zlen key = size / 8 /\ Forall ubyte key
  /\ Forall ubyte secret /\ 1 <= zlen secret <= 128 /\ ccard_install alg size key = Ok card.

(** C144: the card opens exactly to those who can encrypt its challenge. *)
Definition C144_full : Prop := forall alg size key secret card h,
  chal_card alg size key secret card -> Forall drawn h ->
  ccard_replies false secret h card = chal_run (right alg key) secret h (mkDoor None false).

(** The commands *)
Definition asks_challenge (q : request) : Prop := q_ins q = 0x84.
Definition authenticates (q : request) : Prop := q_ins q = 0x82 /\ zlen (command_data (q_body q)) = 8.
Definition reads (q : request) : Prop := q_ins q = 0xB0.
