(** * C146: what a card that keeps data objects should answer *)
From Verif Require Import Py S_Base S_Number S_APDU S_BER S_DesCard S_Chal M_bertlv M_datacard.

(** the data are one BER object with a tag of one byte: the tag, a definite length in short or
    long form, and as many bytes as it says *)
Definition whole (data : list Z) : bool :=
  match data with
  | tb :: l :: rest =>
      negb (tb mod 32 =? 31) &&
      (if l <=? 127 then zlen rest =? l
       else (128 <? l) && (l - 128 <=? zlen rest)
            && (zlen rest - (l - 128) =? digits_value 256 (firstn (Z.to_nat (l - 128)) rest)))
  | _ => false
  end.

(** [objs]: the objects kept, as they came, the oldest first *)
Definition data_step (q : request) (objs : list (list Z)) : option (list Z) * list (list Z) :=
  let data := command_data (q_body q) in
  if q_ins q =? 0xDA then
    if (zlen data <? 2) || (128 <? zlen data) then (Some [0x67; 0], objs)
    else if whole data then (Some [0x90; 0], objs ++ [data]) else (Some [0x6a; 0x80], objs)
  else if q_ins q =? 0xCA then
    if q_p2 q mod 32 =? 31 then (Some [0x6a; 0x86], objs)
    else match find (fun o => hd 0 o =? q_p2 q) objs with
         | Some o => (with_data q o, objs)
         | None => (Some [0x6a; 0x83], objs)
         end
  else (Some [0x6d; 0], objs).
Fixpoint objects_run (qs : list request) (objs : list (list Z)) : list (option (list Z)) :=
  match qs with
  | [] => []
  | q :: qs' => let '(r, objs') := data_step q objs in r :: objects_run qs' objs'
  end.
Definition data_replies (qs : list request) (store : tlv) : list (option (list Z)) :=
  map reply (fst (data_run (map bytes_of qs) store)).

(** C146: GET DATA answers the first object put with the tag, as it was put. *)
Definition C146_full : Prop := forall store qs,
  data_install = Ok store -> Forall request_ok qs -> data_replies qs store = objects_run qs [].

(** PUT DATA with a length in short form, right or wrong *)
Definition short_form (q : request) : Prop := q_ins q = 0xDA -> nth 1 (command_data (q_body q)) 0 <= 127.
(** PUT DATA and GET DATA of a tag *)
Definition puts (tb : Z) (q : request) : Prop := q_ins q = 0xDA /\ hd 0 (command_data (q_body q)) = tb.
Definition asks (tb : Z) (q : request) : Prop := q_ins q = 0xCA /\ q_p2 q = tb.
