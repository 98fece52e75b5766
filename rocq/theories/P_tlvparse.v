(** * C39 and C42: reading tags and TLVs from every array: property theorems *)
From Verif Require Import LP_tlvparse Py S_Base S_Number S_BER L_Py L_utils M_bertag M_bertlv LP_bertag LP_bertlv S_TlvParse.
From Coq Require Import Lia Bool ZifyBool ZifyNat.
Ltac Zify.zify_post_hook ::= Z.div_mod_to_equations.

(** C39 for every array and every integer offset: what getInstance returns and raises *)
Theorem C39_any : forall a off r, BERTag_getInstance a off = r
  <-> match r with Ok g => reads_tag (cells_from a off) (tclass g) (tconstr g) (tnumber g) (tag_size g)
      | Err e => e = ArrayIndexOutOfBounds /\ cut_tag (cells_from a off) end.
Proof. exact C39_any_pf. Qed.
Print Assumptions C39_any.

(** C42 for every array and every integer offset: the length of the TLV, and the TLV with the
    length read or given *)
Theorem C42_length_exact_partial : forall a off r, getLengthStatic a off = r
  <-> (exists c k n s, reads_tag (cells_from a off) c k n s
        /\ ((exists ll L, reads_length (py_slice_from a (off + s)) ll L /\ r = Ok (s + ll + L)) \/ (py_slice_from a (off + s) = [] /\ r = Err IndexError)))
      \/ (cut_tag (cells_from a off) /\ r = Err ArrayIndexOutOfBounds).
Proof. exact C42_length_exact_partial_pf. Qed.
Print Assumptions C42_length_exact_partial.

Theorem C42_exact_partial : forall a off len r, getInstance a off len = r
  <-> (exists c k n s, reads_tag (cells_from a off) c k n s
        /\ ((exists ll L, reads_length (py_slice_from a (off + s)) ll L
              /\ let N := match len with Some m => m - s - ll | None => L end in
                 r = Ok (mkTLV k (Some (mkTag c k n s)) N (Some (py_slice a (off + s + ll) (off + s + ll + N)))))
            \/ (py_slice_from a (off + s) = [] /\ r = Err IndexError)))
      \/ (cut_tag (cells_from a off) /\ r = Err ArrayIndexOutOfBounds).
Proof. exact C42_exact_partial_pf. Qed.
Print Assumptions C42_exact_partial.

(** Examples: a tag that starts before the end and goes on at the beginning; a length cut short. *)
Example C39_any_ex : BERTag_getInstance [5; 0; 63; 130] (-2) = Ok (mkTag 0 true 261 2)
  /\ reads_tag (cells_from [5; 0; 63; 130] (-2)) 0 true 261 2 /\ cut_tag (cells_from [1; 31; -128; -1] 1).
Proof.
  split; [vm_compute; reflexivity|]. split.
  - apply (high_tag 63 [130] 5 [0; 63; 130]); [reflexivity|repeat constructor|]. unfold goes_on. discriminate.
  - right. exists 31, [-128; -1]. repeat constructor.
Qed.

Example C42_exact_ex : getInstance [4; 130; 3; 0; 7; 8; 9; 10] 0 None = Ok (mkTLV false (Some (mkTag 0 false 4 1)) 3 (Some [0; 7; 8]))
  /\ reads_length [130; 3; 0; 7; 8; 9; 10] 2 3 /\ getInstance [1; 4] 1 None = Err IndexError
  /\ getLengthStatic [1; 4] 2 = Err ArrayIndexOutOfBounds.
Proof.
  split; [vm_compute; reflexivity|]. split; [|split; vm_compute; reflexivity].
  apply (long_length 130 [3; 0; 7; 8; 9; 10]). reflexivity.
Qed.
