(** * C142: what a card that encrypts and decrypts with DES should answer *)
From Verif Require Import Py S_Base S_APDU S_DES S_Cipher M_descard.

(** A short command and its bytes. *)
Record request : Set := mkReq { q_cla : Z; q_ins : Z; q_p1 : Z; q_p2 : Z; q_body : command }.
Definition request_ok (q : request) : Prop :=
  ubyte (q_cla q) /\ ubyte (q_ins q) /\ ubyte (q_p1 q) /\ ubyte (q_p2 q) /\ wf_command (q_body q) /\ is_short (q_body q) = true.
Definition bytes_of (q : request) : list Z := [q_cla q; q_ins q; q_p1 q; q_p2 q] ++ body (q_body q).

(** Removing PKCS #5 padding: the last byte tells how many bytes of its value end the text.
    [None]: they do not. *)
Definition unpad5 (p : list Z) : option (list Z) :=
  let n := Z.to_nat (last p 0) in
  let m := firstn (length p - n) p in
  if ((1 <=? n) && (n <=? 8) && (n <=? length p))%nat && list_eqb p (m ++ repeat (last p 0) n) then Some m else None.
(** What the library does: nobody looks at the padding. *)
Definition cut5 (p : list Z) : option (list Z) :=
  Some (if last p 0 =? 0 then [] else firstn (length p - Z.to_nat (last p 0)) p).

(** The result of CRYPT with P1 = [mode] ([None]: an exception): encryption (2) and
    decryption (1) by FIPS 46-3 with a zero IV; [unpad] removes the padding. *)
Definition crypted (unpad : list Z -> option (list Z)) (alg : Z) (key : list Z) (mode : Z) (data : list Z) : option (list Z) :=
  if mode =? 2 then
    if negb (alg_pkcs5 alg) && negb (zlen data mod 8 =? 0) then None
    else Some (jc_encrypt alg key (repeat 0 8) data)
  else if mode =? 1 then
    if negb (zlen data mod 8 =? 0) then None
    else let p := jc_decrypt alg key (repeat 0 8) data in
         if alg_pkcs5 alg then unpad p else Some p
  else None.

(** The answer, as unsigned bytes ([None]: the applet fails), and the key afterwards. *)
Definition crypto_step (unpad : list Z -> option (list Z)) (alg size : Z) (q : request) (key : option (list Z))
    : option (list Z) * option (list Z) :=
  let data := command_data (q_body q) in
  if negb ((q_ins q =? 0x24) || (q_ins q =? 0x2A)) then (Some [0x6d; 0], key)
  else if (zlen data <? 1) || (128 <? zlen data) then (Some [0x67; 0], key)
  else if q_ins q =? 0x24 then
    if zlen data =? size / 8 then (Some [0x90; 0], Some data) else (Some [0x67; 0], key)
  else
    (match key with
     | None => None
     | Some k =>
         match crypted unpad alg k (q_p1 q) data with
         | None => None
         | Some r =>
             if match command_le (q_body q) with Some n => n <? zlen r | None => false end then None
             else Some (r ++ [0x90; 0])
         end
     end, key).
Fixpoint crypto_run (unpad : list Z -> option (list Z)) (alg size : Z) (qs : list request) (key : option (list Z))
    : list (option (list Z)) :=
  match qs with
  | [] => []
  | q :: qs' => let '(r, key') := crypto_step unpad alg size q key in r :: crypto_run unpad alg size qs' key'
  end.

(** the observation of an answer *)
Definition reply (r : res (list Z)) : option (list Z) :=
  match r with Ok l => Some (map unsigned l) | Err _ => None end.

(** C142: the card answers as the standard says, whatever commands it gets. *)
Definition C142_full : Prop := forall alg size card qs,
  des_alg alg -> In size [64; 128; 192] -> dcard_install alg size = Ok card -> Forall request_ok qs ->
  map reply (fst (dcard_run (map bytes_of qs) card)) = crypto_run unpad5 alg size qs None.

(** commands that keep the key *)
Definition keeps_key (q : request) : Prop := q_ins q <> 0x24.

(** The commands PUT KEY, ENCRYPT and DECRYPT with their data; any Le present leaves room
    for the answer. *)
Definition puts_key (key : list Z) (q : request) : Prop :=
  request_ok q /\ q_ins q = 0x24 /\ command_data (q_body q) = key.
Definition crypts (mode : Z) (data : list Z) (q : request) : Prop :=
  request_ok q /\ q_ins q = 0x2A /\ q_p1 q = mode /\ command_data (q_body q) = data
  /\ match command_le (q_body q) with Some n => 136 <= n | None => True end.
(** the answer to the last command *)
Definition last_reply (qs : list request) (card : dcard) : option (list Z) :=
  last (map reply (fst (dcard_run (map bytes_of qs) card))) None.
