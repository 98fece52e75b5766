(** * C143: what a purse should answer *)
From Verif Require Import Py S_Base S_APDU S_Number S_Cipher S_DesCard M_bignumber M_purse.

(** no nibble above 9 in BCD data *)
Definition bcd_ok (fmt : Z) (data : list Z) : bool :=
  negb (fmt =? 1) || forallb (fun b => ((b mod 256) / 16 <=? 9) && ((b mod 256) mod 16 <=? 9)) data.
(** room for the balance in [m] bytes *)
Definition in_purse (m v : Z) : bool := (0 <=? v) && (v <? 256 ^ m).

(** The purse holds the integer [v].  [fits] tells which balances it can hold, [valid] which
    amounts are well formed: an amount that is not, or leads to a balance that does not fit, is
    refused with 6A80 and changes nothing.  [None]: the applet fails. *)
Definition account_step (fits : Z -> bool) (valid : Z -> list Z -> bool) (q : request) (v : Z) : option (list Z) * Z :=
  let data := command_data (q_body q) in
  let fmt := q_p1 q in
  if (q_ins q =? 0x30) || (q_ins q =? 0x40) then
    if (zlen data <? 1) || (128 <? zlen data) then (Some [0x67; 0], v)
    else if negb ((fmt =? 1) || (fmt =? 2)) || negb (valid fmt data) then (Some [0x6a; 0x80], v)
    else
      let v' := if q_ins q =? 0x30 then v + denote fmt data else v - denote fmt data in
      if fits v' then (Some [0x90; 0], v') else (Some [0x6a; 0x80], v)
  else if q_ins q =? 0x50 then
    if 128 <? q_p2 q then (Some [0x6a; 0x86], v)
    else if negb ((fmt =? 1) || (fmt =? 2)) || (base_of fmt ^ q_p2 q <=? v) then (Some [0x6a; 0x80], v)
    else if match command_le (q_body q) with Some n => n <? q_p2 q | None => false end then (None, v)
    else (Some (map (fun d => unsigned (digit_byte fmt d)) (to_base (base_of fmt) (Z.to_nat (q_p2 q)) (Z.max 0 v)) ++ [0x90; 0]), v)
  else (Some [0x6d; 0], v).
Fixpoint account_run (fits : Z -> bool) (valid : Z -> list Z -> bool) (qs : list request) (v : Z) : list (option (list Z)) :=
  match qs with
  | [] => []
  | q :: qs' => let '(r, v') := account_step fits valid q v in r :: account_run fits valid qs' v'
  end.

(** The answers of the card *)
Definition purse_replies (guard : bool) (m : Z) (qs : list request) (b : bignum) : list (option (list Z)) :=
  map reply (fst (purse_run guard m (map bytes_of qs) b)).

(** C143: the purse that just calls add and subtract is right. *)
Definition C143_full : Prop := forall m b qs,
  1 <= m <= 128 -> purse_install m = Ok b -> Forall request_ok qs ->
  purse_replies false m qs b = account_run (in_purse m) bcd_ok qs 0.

(** What a terminal concludes from the answers: the credits answered 9000, less the debits
    answered 9000. *)
Fixpoint concluded (qs : list request) (rs : list (option (list Z))) : Z :=
  match qs, rs with
  | q :: qs', Some [0x90; 0] :: rs' =>
      (if q_ins q =? 0x30 then denote (q_p1 q) (command_data (q_body q))
       else if q_ins q =? 0x40 then - denote (q_p1 q) (command_data (q_body q)) else 0) + concluded qs' rs'
  | _ :: qs', _ :: rs' => concluded qs' rs'
  | _, _ => 0
  end.

(** CREDIT or DEBIT of the amount [data], and BALANCE in [nb] bytes *)
Definition moves (ins fmt : Z) (data : list Z) (q : request) : Prop :=
  request_ok q /\ q_ins q = ins /\ q_p1 q = fmt /\ command_data (q_body q) = data.
Definition asks_balance (fmt nb : Z) (q : request) : Prop :=
  request_ok q /\ q_ins q = 0x50 /\ q_p1 q = fmt /\ q_p2 q = nb
  /\ match command_le (q_body q) with Some n => nb <= n | None => True end.
