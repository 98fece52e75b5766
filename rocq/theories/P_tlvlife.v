(** * C124: TLV objects that have not been initialised; C49 for all arguments: property theorems *)
From Verif Require Import LP_tlvlife Py S_Base S_TlvLife L_Py M_utils M_util L_util M_bertag M_bertlv M_tlvlife LP_bertlv.
From Coq Require Import ZifyBool ZifyNat.

(** C124 is false: size and toBytes raise AttributeError, getValue copies nothing and
    returns 0. *)
Theorem C124_refuted : forall k off out,
  tlv_size (newTLV k) = Err AttributeError
  /\ tlv_toBytes (newTLV k) off out = (Err AttributeError, out)
  /\ getValue (newTLV k) off out = (Ok 0, out)
  /\ getTag (newTLV k) = None /\ getLengthBound (newTLV k) = 0
  /\ (forall fuel g, (0 < fuel)%nat -> findBound fuel (newTLV k) g = Ok None).
Proof. exact C124_refuted_pf. Qed.
Print Assumptions C124_refuted.

Theorem C124_full_refuted : ~ C124_full.
Proof. exact C124_full_refuted_pf. Qed.
Print Assumptions C124_full_refuted.

(** C124, what holds: whatever is called on an object, as long as it is not
    initialised with a tag it has none, and size and toBytes raise AttributeError and
    write nothing; a constructed one refuses every append and stays as it was made; and
    it cannot be appended to another. *)
Theorem C124_partial : forall k h, Forall (fun c => inits c = false) h ->
  let t := lrun h (newTLV k) in
  getTag t = None /\ tlv_size t = Err AttributeError
  /\ (forall off out, tlv_toBytes t off out = (Err AttributeError, out))
  /\ (forall self, append t self = (Err AttributeError, self))
  /\ (k = true -> t = newTLV k /\ forall a, exists e, append a t = (Err e, t)).
Proof. exact C124_partial_pf. Qed.
Print Assumptions C124_partial.

(** C124: what an init with a tag makes of an object does not depend on what was
    called before. *)
Theorem C124_init_partial : forall k h g v off n,
  lrun (h ++ [LInit g v off n]) (newTLV k)
  = mkTLV k (Some g) n (Some (py_slice v off (off + n))).
Proof. exact C124_init_partial_pf. Qed.
Print Assumptions C124_init_partial.

Example C124_ex :
  let h := [LInitBytes [4; 1; 9] 0 3; LReplace [1; 2; 3] 0 2; LAppend (newTLV false)] in
  lrun h (newTLV false) = mkTLV false None 2 (Some [1; 2]) /\ lrun h (newTLV true) = newTLV true
  /\ fst (lstep (LInitBytes [4; 1; 9] 0 3) (newTLV false)) = Ok (Some 3)
  /\ lrun (h ++ [LInit (mkTag 0 true 1 1) [5; 6] 0 2; LAppend (mkTLV false (Some (mkTag 0 false 4 1)) 1 (Some [9]))]) (newTLV true)
     = mkTLV true (Some (mkTag 0 true 1 1)) 5 (Some [5; 6; 4; 1; 9]).
Proof. vm_compute. auto. Qed.

(** C49, the static findNext for all arguments: everything it can do. *)
Theorem C49_exact_partial : forall fuel a off start ta toff, (0 < fuel)%nat ->
  findNextStatic fuel a off start ta toff
  = match getInstance a off None with
    | Err e => Err e
    | Ok t =>
        match ttag t, tval t with
        | Some g, Some v =>
            if negb (tkind t) then Err AttributeError
            else if start <=? off + tag_size g + getLengthLen (tlen t) then Err NameError
            else if tlen t <=? 0 then Ok (-1)
            else match getInstance v 0 None with Err e => Err e | Ok _ => Err AttributeError end
        | _, _ => Err AttributeError
        end
    end.
Proof. exact C49_exact_partial_pf. Qed.
Print Assumptions C49_exact_partial.

Example C49_exact_ex :
  findNextStatic 9 [33; 3; 4; 1; 9] 0 3 (Some [4]) 0 = Err AttributeError
  /\ findNextStatic 9 [33; 3; 4; 1; 9] 0 2 (Some [4]) 0 = Err NameError
  /\ findNextStatic 9 [33; 0] 0 3 (Some [4]) 0 = Ok (-1)
  /\ findNextStatic 9 [33; 1; 4] 0 3 (Some [4]) 0 = Err IndexError.
Proof. vm_compute. auto. Qed.
