(** * C42-C49, C51: BERTLV: property theorems *)
From Verif Require Import LP_bertlv Py S_Base S_Number S_BER L_Py M_utils L_utils M_util L_util M_bertag LP_bertag M_bertlv S_TLV.
From Coq Require Import ZifyBool ZifyNat.
Ltac Zify.zify_post_hook ::= Z.div_mod_to_equations.

(** C42, what holds: a one-byte tag (number at most 30) and a short-form length,
    at any offset of any array of bytes. *)
Theorem C42_partial : forall c k n v io arr off, identifier c k n io -> 0 <= c <= 3 -> n <= 30 ->
  zlen v <= 127 -> 0 <= off -> Forall anybyte arr ->
  octets (sub arr (Z.to_nat off) (length (io ++ [zlen v] ++ v))) = io ++ [zlen v] ++ v ->
  exists t g w, getInstance arr off None = Ok t /\ tkind t = k
    /\ ttag t = Some g /\ tclass g = c /\ tconstr g = k /\ tnumber g = n
    /\ tlen t = zlen v /\ tval t = Some w /\ octets w = v
    /\ tlv_size t = Ok (zlen (io ++ [zlen v] ++ v))
    /\ getLengthStatic arr off = Ok (zlen (io ++ [zlen v] ++ v)).
Proof. exact C42_partial_pf. Qed.
Print Assumptions C42_partial.

Example C42_ex : getInstance [9; 0x21; 3; 1; 2; -1; 9] 1 None
   = Ok (mkTLV true (Some (mkTag 0 true 1 1)) 3 (Some [1; 2; -1]))
  /\ identifier 0 true 1 [0x21].
Proof. split; [reflexivity|]. apply (ident_low 0 true 1). lia. Qed.

(** C42 is false for every tag number above 30: the last byte of the tag is taken
    for the length, so the length is n mod 128 whatever the TLV, and the value starts
    at the length byte. *)
Theorem C42_high_tag_refuted : forall c k n io arr off, identifier c k n io -> 0 <= c <= 3 -> 31 <= n ->
  0 <= off -> Forall anybyte arr ->
  octets (sub arr (Z.to_nat off) (length io)) = io ->
  getLengthStatic arr off = Ok (zlen io + n mod 128)
  /\ getInstance arr off None
     = Ok (mkTLV k (Some (mkTag c k n (zlen io - 1))) (n mod 128)
             (Some (py_slice arr (off + zlen io) (off + zlen io + n mod 128)))).
Proof. exact C42_high_tag_refuted_pf. Qed.
Print Assumptions C42_high_tag_refuted.

Example C42_high_ex : getInstance [0x5f; 0x24; 1; 7] 0 None
   = Ok (mkTLV false (Some (mkTag 1 false 36 1)) 36 (Some [1; 7]))
  /\ identifier 1 false 36 [0x5f; 0x24].
Proof.
  split; [reflexivity|]. apply (ident_high 1 false 36 [] 36); [lia|].
  split; [repeat constructor; lia|]. split; [reflexivity|cbn; lia].
Qed.

(** C42 is false for every long-form length: the length octets are read in
    little-endian order, the total is one too small, and the value starts at the last
    length octet (arrays of unsigned bytes, one-byte tags). *)
Theorem C42_long_form_refuted : forall pre tb ds rest, anybyte tb -> tb mod 32 <> 31 ->
  (1 <= length ds <= 126)%nat ->
  let arr := pre ++ tb :: (128 + zlen ds) :: ds ++ rest in
  getLengthStatic arr (zlen pre) = Ok (1 + zlen ds + digits_value 256 (rev ds))
  /\ getInstance arr (zlen pre) None
     = Ok (mkTLV (Z.testbit tb 5) (Some (tag_of tb)) (digits_value 256 (rev ds))
             (Some (py_slice arr (zlen pre + 1 + zlen ds)
                      (zlen pre + 1 + zlen ds + digits_value 256 (rev ds))))).
Proof. exact C42_long_form_refuted_pf. Qed.
Print Assumptions C42_long_form_refuted.

Example C42_long_ex : exists t, getInstance (0x04 :: 0x81 :: 0x80 :: repeat 7 128) 0 None = Ok t
  /\ tlen t = 128 /\ tval t = Some (0x80 :: repeat 7 127)
  /\ getLengthStatic (0x04 :: 0x81 :: 0x80 :: repeat 7 128) 0 = Ok 130
  /\ zlen (0x04 :: 0x81 :: 0x80 :: repeat 7 128) = 131
  /\ length_octets 128 [0x81; 0x80].
Proof.
  eexists. split; [reflexivity|]. split; [reflexivity|]. split; [reflexivity|].
  split; [reflexivity|]. split; [reflexivity|]. apply (len_long 128 [128]); [cbn; lia|repeat constructor; lia|reflexivity].
Qed.

(** the size of the length field used by size(), find and getValueOffset is the
    shortest one exactly up to 253 and from 256 to 380 *)
Theorem C42_getLengthLen_partial : forall L, 0 <= L ->
  (min_len_octets L (getLengthLen L) <-> (L <= 253 \/ 256 <= L <= 380)).
Proof. exact C42_getLengthLen_partial_pf. Qed.
Print Assumptions C42_getLengthLen_partial.

(** C43, what holds: a TLV parsed from a one-byte tag and a short-form length
    serialises to the same octets at any offset and returns their number; an output
    array of signed bytes is changed nowhere else. *)
Theorem C43_partial : forall c k n v io arr off t out off', identifier c k n io -> 0 <= c <= 3 -> n <= 30 ->
  zlen v <= 127 -> 0 <= off -> Forall anybyte arr ->
  octets (sub arr (Z.to_nat off) (length (io ++ [zlen v] ++ v))) = io ++ [zlen v] ++ v ->
  getInstance arr off None = Ok t ->
  0 <= off' -> off' + zlen (io ++ [zlen v] ++ v) <= zlen out ->
  exists bs, octets bs = io ++ [zlen v] ++ v
    /\ tlv_toBytes t off' out = (Ok (zlen (io ++ [zlen v] ++ v)), splice (map s1 out) (Z.to_nat off') bs)
    /\ (Forall (fun b => b <= 127) out -> map s1 out = out).
Proof. exact C43_partial_pf. Qed.
Print Assumptions C43_partial.

Example C43_ex : tlv_toBytes (mkTLV false (Some (mkTag 2 false 4 1)) 2 (Some [5; -6])) 1 [0; 0; 0; 0; 0; 9]
   = (Ok 4, [0; -124; 2; 5; -6; 9]).
Proof. reflexivity. Qed.

(** C43 is false of every TLV longer than 127: it never serialises. *)
Theorem C43_refuted : forall t off out, 127 < tlen t -> exists e, fst (tlv_toBytes t off out) = Err e
  /\ (forall g io, ttag t = Some g -> identifier (tclass g) (tconstr g) (tnumber g) io -> 0 <= tclass g <= 3 ->
        0 <= off -> off + zlen io <= zlen out -> e = NameError).
Proof. exact C43_refuted_pf. Qed.
Print Assumptions C43_refuted.

Example C43_refuted_ex : fst (tlv_toBytes (mkTLV false (Some (mkTag 0 false 4 1)) 128 (Some (repeat 1 128))) 0 (repeat 0 200))
  = Err NameError.
Proof. reflexivity. Qed.

(** C44, what holds: for every list of children with one-byte tags and
    short-form lengths, find(tag) is the first child with the tag, None without one;
    find(None) is the first child. *)
Theorem C44_partial : forall cs self g fuel, Forall simple cs ->
  tval self = Some (encs cs) -> tlen self = zlen (encs cs) -> (length cs < fuel)%nat ->
  findBound fuel self (Some g) = Ok (option_map tlv_of (find (has_tag g) cs))
  /\ findBound fuel self None = Ok (option_map tlv_of (hd_error cs)).
Proof. exact C44_partial_pf. Qed.
Print Assumptions C44_partial.

Example C44_ex : Forall simple [(1, [7]); (2, [8; 9]); (1, [])]
  /\ findBound 4 (mkTLV true None 9 (Some (encs [(1, [7]); (2, [8; 9]); (1, [])]))) (Some (mkTag 0 false 2 0))
     = Ok (Some (tlv_of (2, [8; 9]))).
Proof.
  split; [|reflexivity].
  repeat constructor; cbn; try lia; unfold anybyte; cbn; lia.
Qed.

(** the static find and getValueOffset, same restriction *)
Theorem C44_static_partial : forall pre tb cs post ta toff g fuel, simple (tb, encs cs) -> Z.testbit tb 5 = true ->
  Forall simple cs -> (length cs < fuel)%nat -> BERTag_getInstance ta toff = Ok g ->
  let arr := pre ++ enc (tb, encs cs) ++ post in
  getValueOffset arr (zlen pre) = Ok (zlen pre + 2)
  /\ ((exists l1 ch l2, cs = l1 ++ ch :: l2 /\ has_tag g ch = true /\ Forall (fun c => has_tag g c = false) l1
        /\ findStatic fuel arr (zlen pre) (Some ta) toff = Ok (zlen pre + 2 + zlen (encs l1)))
      \/ (Forall (fun c => has_tag g c = false) cs
        /\ findStatic fuel arr (zlen pre) (Some ta) toff = Ok (-1)))
  /\ findStatic fuel arr (zlen pre) None toff = Ok (if 0 <? zlen (encs cs) then zlen pre + 2 else -1).
Proof. exact C44_static_partial_pf. Qed.
Print Assumptions C44_static_partial.

(** C44 is false with a tag above 30 among the children: here the second child is
    missed. *)
Theorem C44_refuted : exists self g io1 io2, identifier 0 false 31 io1 /\ identifier 0 false 5 io2
  /\ tval self = Some ((io1 ++ [1; 7]) ++ (io2 ++ [1; 9])) /\ tlen self = zlen ((io1 ++ [1; 7]) ++ (io2 ++ [1; 9]))
  /\ BERTag_getInstance io2 0 = Ok g
  /\ forall fuel, (1 < fuel)%nat -> findBound fuel self (Some g) = Ok None.
Proof. exact C44_refuted_pf. Qed.
Print Assumptions C44_refuted.

(** C45, what holds: for children with one-byte tags and short-form lengths and
    a tag to look for, findNext is the first child with the tag after the n-th child
    equal to aTLV, None if there is none. *)
Theorem C45_partial : forall cs self g ga va aTLV n fuel, Forall simple cs ->
  tval self = Some (encs cs) -> tlen self = zlen (encs cs) -> (length cs < fuel)%nat ->
  ttag aTLV = Some ga -> tval aTLV = Some va -> 1 <= n ->
  findNextBound fuel self (Some g) aTLV n
  = Ok (match after (fun ch => has_tag ga ch && list_eqb (snd ch) va) cs (Z.to_nat n) with
        | None => None
        | Some rest => option_map tlv_of (find (has_tag g) rest)
        end).
Proof. exact C45_partial_pf. Qed.
Print Assumptions C45_partial.

(** C45 is false with tag None after the last child: instead of returning None it
    raises. *)
Theorem C45_refuted : forall cs self ga va aTLV n fuel, Forall simple cs ->
  tval self = Some (encs cs) -> tlen self = zlen (encs cs) -> (length cs < fuel)%nat ->
  ttag aTLV = Some ga -> tval aTLV = Some va -> 1 <= n ->
  (after (fun ch => has_tag ga ch && list_eqb (snd ch) va) cs (Z.to_nat n) = Some [] ->
   findNextBound fuel self None aTLV n = Err ArrayIndexOutOfBounds)
  /\ (forall ch rest, after (fun ch => has_tag ga ch && list_eqb (snd ch) va) cs (Z.to_nat n) = Some (ch :: rest) ->
      findNextBound fuel self None aTLV n = Ok (Some (tlv_of ch))).
Proof. exact C45_refuted_pf. Qed.
Print Assumptions C45_refuted.

Example C45_ex : let self := mkTLV true None 9 (Some (encs [(1, [7]); (2, [8; 9]); (1, [])])) in
  findNextBound 4 self (Some (mkTag 0 false 1 0)) (tlv_of (1, [7])) 1 = Ok (Some (tlv_of (1, [])))
  /\ findNextBound 4 self (Some (mkTag 0 false 1 0)) (tlv_of (1, [7])) 2 = Ok None
  /\ findNextBound 4 self None (tlv_of (1, [])) 1 = Err ArrayIndexOutOfBounds.
Proof. split; [reflexivity|]. split; reflexivity. Qed.

(** C46 is false: find can loop forever.  The child below has a long-form length
    of -2 and so a total size of 0. *)
Theorem C46_refuted : exists self, forall g, tag_eqb (mkTag 0 false 1 1) g = false ->
  forall fuel, find_ fuel self (Some g) 0 = Err OutOfFuel /\ findBound fuel self (Some g) = Err OutOfFuel.
Proof. exact C46_refuted_pf. Qed.
Print Assumptions C46_refuted.

(** C46, what holds: on a value of non-negative bytes find always terminates,
    whatever the bytes. *)
Theorem C46_partial : forall self v g fuel, tval self = Some v -> Forall (fun b => 0 <= b) v ->
  (Z.to_nat (tlen self) < fuel)%nat ->
  find_ fuel self g 0 <> Err OutOfFuel /\ findBound fuel self g <> Err OutOfFuel.
Proof. exact C46_partial_pf. Qed.
Print Assumptions C46_partial.

Example C46_ex : find_ 100 (mkTLV true None 3 (Some [1; 0x81; 0xfe])) (Some (mkTag 0 false 2 1)) 0 = Ok (-1).
Proof. reflexivity. Qed.

(** C47, what holds: appending a child with a parsed one-byte tag and at most
    127 bytes adds its encoding at the end, adds its size to the length and returns
    the size; it is then the last child. *)
Theorem C47_partial : forall tb v self P cs, simple (tb, v) -> tval self = Some P ->
  exists r self', append (tlv_of (tb, v)) self = (r, self')
  /\ r = tlv_size self' /\ tkind self' = tkind self /\ ttag self' = ttag self
  /\ tval self' = Some (P ++ enc (twos 1 tb, v))
  /\ tlen self' = tlen self + zlen (enc (tb, v))
  /\ (P = encs cs -> tval self' = Some (encs (cs ++ [(twos 1 tb, v)])) /\ tag_of (twos 1 tb) = tag_of tb).
Proof. exact C47_partial_pf. Qed.
Print Assumptions C47_partial.

Example C47_ex : append (tlv_of (0x81, [4; 5])) (mkTLV true (Some (mkTag 1 true 1 1)) 3 (Some [2; 1; 9]))
  = (Ok 9, mkTLV true (Some (mkTag 1 true 1 1)) 7 (Some [2; 1; 9; -127; 2; 4; 5]))
  /\ simple (0x81, [4; 5]).
Proof. split; [reflexivity|]. unfold simple, anybyte. cbn. lia. Qed.

(** the static append: the enlarged TLV is written in place (over what follows it) *)
Theorem C47_static_partial : forall pre tb P post pre' ch post', simple (tb, P) -> Z.testbit tb 5 = true ->
  simple ch -> zlen P + zlen (enc ch) <= 127 ->
  let out := pre ++ enc (tb, P) ++ post in
  zlen (enc ch) <= zlen post ->
  appendStatic (pre' ++ enc ch ++ post') (zlen pre') (zlen pre) out
  = (Ok (2 + (zlen P + zlen (enc ch))),
     splice (map s1 out) (length pre) (enc (twos 1 tb, P ++ enc (twos 1 (fst ch), snd ch)))).
Proof. exact C47_static_partial_pf. Qed.
Print Assumptions C47_static_partial.

(** C47 is false: a child whose tag was built with init(class, number), or that
    is longer than 127 bytes, is never appended (the object is unchanged). *)
Theorem C47_refuted : forall g c n v kc self,
  (g = newPrimitiveBERTag \/ g = newConstructedBERTag) -> 0 <= c <= 3 -> 0 <= n <= 30 -> zlen v <= 127 ->
  exists e, append (mkTLV kc (Some (init_class_number g c n)) (zlen v) (Some v)) self = (Err e, self).
Proof. exact C47_refuted_pf. Qed.
Print Assumptions C47_refuted.

Theorem C47_long_refuted : forall aTLV self, 127 < tlen aTLV ->
  exists e, append aTLV self = (Err e, self).
Proof. exact C47_long_refuted_pf. Qed.
Print Assumptions C47_long_refuted.

(** C48 is false: init from bytes never changes the object, whatever the bytes. *)
Theorem C48_refuted : forall a off len self, snd (init_bytes a off len self) = self.
Proof. exact C48_refuted_pf. Qed.
Print Assumptions C48_refuted.

(** C48, what holds: the value returned is the size of the TLV found there
    (one-byte tag, short-form length). *)
Theorem C48_partial : forall pre ch post self, simple ch ->
  init_bytes (pre ++ enc ch ++ post) (zlen pre) (zlen (enc ch)) self = (Ok (zlen (enc ch)), self).
Proof. exact C48_partial_pf. Qed.
Print Assumptions C48_partial.

Example C48_ex : init_bytes [4; 1; 7] 0 3 (newTLV false) = (Ok 3, newTLV false).
Proof. reflexivity. Qed.

(** C49 is false: the static findNext never finds anything; it returns -1 or
    raises, whatever the arguments. *)
Theorem C49_refuted : forall fuel a off start ta toff r,
  findNextStatic fuel a off start ta toff = Ok r -> r = -1.
Proof. exact C49_refuted_pf. Qed.
Print Assumptions C49_refuted.

(** C49, what holds: -1 on an empty constructed TLV and a start after it. *)
Theorem C49_partial : forall fuel pre tb post start ta toff, simple (tb, []) -> Z.testbit tb 5 = true ->
  zlen pre + 2 < start -> (0 < fuel)%nat ->
  findNextStatic fuel (pre ++ enc (tb, []) ++ post) (zlen pre) start ta toff = Ok (-1).
Proof. exact C49_partial_pf. Qed.
Print Assumptions C49_partial.

Example C49_ex : findNextStatic 9 [0x21; 3; 1; 1; 7] 0 0 (Some [1]) 0 = Err NameError
  /\ findNextStatic 9 [0x21; 3; 1; 1; 7] 0 3 (Some [1]) 0 = Err AttributeError
  /\ findNextStatic 9 [0x21; 0] 0 3 (Some [1]) 0 = Ok (-1).
Proof. split; [reflexivity|]. split; reflexivity. Qed.

(** C51, what holds: after replaceValue of an in-bounds range, getValue copies
    exactly that range and returns its length, and the length is the new one. *)
Theorem C51_partial : forall t v off n out toff, 0 <= off -> 0 <= n -> off + n <= zlen v ->
  0 <= toff -> toff + n <= zlen out ->
  let '(r, t') := replaceValue v off n t in
  r = Ok tt /\ tlen t' = n /\ ttag t' = ttag t /\ tkind t' = tkind t
  /\ getValue t' toff out = (Ok n, splice out (Z.to_nat toff) (sub v (Z.to_nat off) (Z.to_nat n)))
  /\ (forall g, ttag t = Some g -> n <= 127 -> tlv_size t' = Ok (tag_size g + 1 + n)).
Proof. exact C51_partial_pf. Qed.
Print Assumptions C51_partial.

(** C51 is false: a replaceValue that runs past the source array raises after
    having replaced the value; the length stays the old one. *)
Theorem C51_refuted : forall t v off n, 0 <= off -> 0 < n -> zlen v < off + n ->
  exists w, replaceValue v off n t = (Err ArrayIndexOutOfBounds, mkTLV (tkind t) (ttag t) (tlen t) (Some w))
  /\ zlen w = n.
Proof. exact C51_refuted_pf. Qed.
Print Assumptions C51_refuted.

Example C51_ex : replaceValue [1; 2; 3] 1 2 (newTLV false) = (Ok tt, mkTLV false None 2 (Some [2; 3]))
  /\ replaceValue [1; 2; 3] 2 2 (mkTLV false None 1 (Some [9])) = (Err ArrayIndexOutOfBounds, mkTLV false None 1 (Some [3; 0])).
Proof. split; reflexivity. Qed.
