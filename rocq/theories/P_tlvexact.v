(** * C43, C47: serialising and appending a TLV object with any tag: property theorems *)
From Verif Require Import LP_tlvexact Py S_Base S_Number S_BER S_TLV L_Py M_utils L_utils M_util L_util M_bertag LP_bertag M_bertlv LP_bertlv.
From Coq Require Import ZifyBool ZifyNat.

(** C43, toBytes of any TLV object whose length attribute is the length of its value,
    with whatever tag, at any offset from 0 on: the tag octets, one length byte and the
    value are written when there is room and the value has at most 127 bytes; otherwise
    it raises, and which exception says what did not fit. *)
Theorem C43_exact_partial : forall c k n sz os v kd off out, identifier c k n os -> 0 <= c <= 3 -> 0 <= off ->
  let t := mkTLV kd (Some (mkTag c k n sz)) (zlen v) (Some v) in
  let room := zlen out - off in
  fst (tlv_toBytes t off out)
  = (if room <? zlen os then Err IndexError
     else if 127 <? zlen v then Err NameError
     else if room <? zlen os + 1 then Err IndexError
     else if room <? zlen os + 1 + zlen v then Err ArrayIndexOutOfBounds
     else Ok (zlen os + 1 + zlen v))
  /\ (zlen v <= 127 -> zlen os + 1 + zlen v <= room ->
      snd (tlv_toBytes t off out) = splice (map s1 out) (Z.to_nat off) (map (twos 1) os ++ zlen v :: v)).
Proof. exact C43_exact_partial_pf. Qed.
Print Assumptions C43_exact_partial.

Example C43_exact_ex : let t := mkTLV false (Some (mkTag 2 false 300 2)) 2 (Some [7; 8]) in
  tlv_toBytes t 1 [0; 0; 0; 0; 0; 0; 5] = (Ok 6, [0; -97; -126; 44; 2; 7; 8])
  /\ fst (tlv_toBytes t 1 [0; 0; 0; 0; 0; 0]) = Err ArrayIndexOutOfBounds
  /\ fst (tlv_toBytes t 1 [0; 0; 0; 0]) = Err IndexError
  /\ identifier 2 false 300 [159; 130; 44].
Proof.
  split; [reflexivity|]. split; [reflexivity|]. split; [reflexivity|].
  apply (ident_high 2 false 300 [2] 44); [lia|]. split; [repeat constructor; lia|]. split; [reflexivity|cbn; lia].
Qed.

(** C47, append of any child whose length attribute is the length of its value: it is
    appended exactly when the size kept in its tag is at least the number of tag octets
    and the value has at most 127 bytes.  What is added is its encoding, followed by
    zeros if the kept size is too large.  In every other case the object is unchanged. *)
Theorem C47_exact_partial : forall c k n sz os v kc self P, identifier c k n os -> 0 <= c <= 3 ->
  tval self = Some P ->
  let child := mkTLV kc (Some (mkTag c k n sz)) (zlen v) (Some v) in
  (zlen v <= 127 -> zlen os <= sz ->
   let self' := mkTLV (tkind self) (ttag self) (tlen self + (sz + 1 + zlen v))
                  (Some (P ++ map (twos 1) os ++ zlen v :: v ++ repeat 0 (Z.to_nat (sz - zlen os)))) in
   append child self = (tlv_size self', self'))
  /\ (127 < zlen v \/ sz < zlen os -> exists e, append child self = (Err e, self)).
Proof. exact C47_exact_partial_pf. Qed.
Print Assumptions C47_exact_partial.

(** a tag parsed from more octets than needed: the size is too large, a zero is added *)
Example C47_exact_ex : BERTag_getInstance [31; 128; 128; 31] 0 = Ok (mkTag 0 false 31 3)
  /\ (let self := mkTLV true (Some (mkTag 0 true 1 1)) 0 (Some []) in
      append (mkTLV false (Some (mkTag 0 false 31 3)) 1 (Some [7])) self
      = (Ok 7, mkTLV true (Some (mkTag 0 true 1 1)) 5 (Some [31; 31; 1; 7; 0])))
  /\ identifier 0 false 31 [31; 31].
Proof.
  split; [reflexivity|]. split; [reflexivity|].
  apply (ident_high 0 false 31 [] 31); [lia|]. split; [repeat constructor; lia|]. split; [reflexivity|cbn; lia].
Qed.

(** C47 is false of every child with a tag number of 31 or more, however the tag was
    made: parsed from its octets or by init(class, number). *)
Theorem C47_high_tag_refuted : forall c k n os arr off g v kc self P, identifier c k n os -> 0 <= c <= 3 ->
  31 <= n -> tval self = Some P ->
  (0 <= off /\ octets (sub arr (Z.to_nat off) (length os)) = os /\ BERTag_getInstance arr off = Ok g)
  \/ (exists t, (t = newPrimitiveBERTag \/ t = newConstructedBERTag) /\ tconstr t = k /\ g = init_class_number t c n) ->
  exists e, append (mkTLV kc (Some g) (zlen v) (Some v)) self = (Err e, self).
Proof. exact C47_high_tag_refuted_pf. Qed.
Print Assumptions C47_high_tag_refuted.

Example C47_high_tag_ex : BERTag_getInstance [31; 31] 0 = Ok (mkTag 0 false 31 1)
  /\ (let self := mkTLV true (Some (mkTag 0 true 1 1)) 0 (Some []) in
      append (mkTLV false (Some (mkTag 0 false 31 1)) 1 (Some [7])) self = (Err ArrayIndexOutOfBounds, self)).
Proof. split; reflexivity. Qed.
