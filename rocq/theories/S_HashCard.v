(** * C145: what a card that hashes files should answer *)
From Verif Require Import Py S_Base S_APDU S_Cipher M_digest M_hashcard S_DesCard S_Chal.

(** a command of any case, short or extended *)
Definition request_wf (q : request) : Prop :=
  ubyte (q_cla q) /\ ubyte (q_ins q) /\ ubyte (q_p1 q) /\ ubyte (q_p2 q) /\ wf_command (q_body q).
(** hashlib delivers digests of the stated size *)
Definition sane_hash (H : hashlib) (alg : Z) : Prop :=
  0 < hl_size H alg <= 200 /\ forall m, zlen (hl_digest H alg m) = hl_size H alg /\ Forall ubyte (hl_digest H alg m).

(** [acc]: the data since the last digest *)
Definition hash_step (digest_of : list Z -> list Z) (q : request) (acc : list Z) : option (list Z) * list Z :=
  if negb (q_ins q =? 0x2A) then (Some [0x6d; 0], acc)
  else
    let acc := acc ++ command_data (q_body q) in
    if q_p1 q =? 0 then (Some [0x90; 0], acc) else (with_data q (digest_of acc), []).
Fixpoint hash_run (digest_of : list Z -> list Z) (qs : list request) (acc : list Z) : list (option (list Z)) :=
  match qs with
  | [] => []
  | q :: qs' => let '(r, acc') := hash_step digest_of q acc in r :: hash_run digest_of qs' acc'
  end.
Definition hcard_replies (H : hashlib) (qs : list request) (d : digest) : list (option (list Z)) :=
  map reply (fst (hcard_run H (map bytes_of qs) d)).

(** C145: the digest of all data, in whatever commands it came. *)
Definition C145_full : Prop := forall H alg d qs,
  sane_hash H alg -> digest_getInstance H alg = Ok d -> Forall request_wf qs ->
  hcard_replies H qs d = hash_run (hl_digest H alg) qs [].

(** the commands that the library decodes (C23, C24) *)
Definition taken (q : request) : Prop :=
  match q_body q with
  | Case3E _ => False
  | Case2E le | Case4E _ le => le = 65536 \/ le mod 256 <> 0
  | _ => True
  end.
(** HASH commands that announce more, and a last one *)
Definition part (q : request) : Prop := q_ins q = 0x2A /\ q_p1 q = 0.
Definition final (q : request) : Prop := q_ins q = 0x2A /\ q_p1 q <> 0.
