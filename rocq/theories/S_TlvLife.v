(** * Specification for C124: TLV objects that have not been initialised *)
From Verif Require Import Py M_bertag M_bertlv M_tlvlife.

(** pythoncardx/framework/tlv/__init__.py:5 *)
Definition EMPTY_TLV := TLVExc 1.

Definition inits (c : lcall) : bool := match c with LInit _ _ _ _ => true | _ => false end.

(** C124 as claimed (the Java Card API): on an object that is empty size, toBytes and
    getValue raise TLVException with reason EMPTY_TLV *)
Definition C124_full : Prop := forall k off out,
  tlv_size (newTLV k) = Err EMPTY_TLV
  /\ tlv_toBytes (newTLV k) off out = (Err EMPTY_TLV, out)
  /\ (k = false -> getValue (newTLV k) off out = (Err EMPTY_TLV, out)).
