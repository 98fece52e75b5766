(** * The calls that change a TLV object, over its life: pythoncardx/framework/tlv/bertlv.py *)
From Verif Require Import Py M_utils M_util M_bertag M_bertlv.

(** The calls; [LAppend] exists only on ConstructedBERTLV and [LReplace] only on
    PrimitiveBERTLV (AttributeError otherwise).  The argument of [LAppend] is another
    object. *)
Inductive lcall : Set :=
| LInit (g : tag) (vArray : list Z) (vOff vLen : Z)     (* bertlv.py:103-109, 209-215 *)
| LInitBytes (bArray : list Z) (bOff bLen : Z)          (* bertlv.py:110-113, 216-219, 56-59 *)
| LAppend (aTLV : tlv)                                  (* bertlv.py:115-120 *)
| LReplace (vArray : list Z) (vOff vLen : Z).           (* bertlv.py:230-233 *)

Definition lstep (c : lcall) : M tlv (option Z) :=
  match c with
  | LInit g vArray vOff vLen =>
      fun t => let t' := init_tag t g vArray vOff vLen in (rmap Some (tlv_size t'), t')
  | LInitBytes bArray bOff bLen => n <- init_bytes bArray bOff bLen ;; ret (Some n)
  | LAppend a => fun t => if tkind t then (n <- append a ;; ret (Some n)) t else (Err AttributeError, t)
  | LReplace vArray vOff vLen =>
      fun t => if tkind t then (Err AttributeError, t) else (replaceValue vArray vOff vLen ;;; ret None) t
  end.
(** exceptions are caught *)
Definition lrun (h : list lcall) (t : tlv) : tlv := fold_left (fun t c => snd (lstep c t)) h t.

(** bertlv.py:61-65 *)
Definition getTag (t : tlv) : option tag := ttag t.
Definition getLengthBound (t : tlv) : Z := tlen t.
