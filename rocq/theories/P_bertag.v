(** * C39-C41, C50: BERTag: property theorems *)
From Verif Require Import LP_bertag Py S_Base S_Number S_BER L_Py M_utils L_utils M_util L_util M_bertag.
From Coq Require Import ZifyBool ZifyNat.
Ltac Zify.zify_post_hook ::= Z.div_mod_to_equations.

(** C39, encoding: toBytes writes the identifier octets (as signed bytes) at the
    offset and returns their number. *)
Theorem C39_encode : forall c k n sz os off out, identifier c k n os -> 0 <= c <= 3 ->
  0 <= off -> off + zlen os <= zlen out ->
  let '(r, out') := tag_toBytes (mkTag c k n sz) off out in
  r = Ok (zlen os) /\ sub out' (Z.to_nat off) (length os) = map (twos 1) os /\ length out' = length out.
Proof. exact C39_encode_pf. Qed.
Print Assumptions C39_encode.

(** Every tag has identifier octets, and only one. *)
Theorem C39_identifier : forall c k n, 0 <= n ->
  exists os, identifier c k n os /\ forall os', identifier c k n os' -> os' = os.
Proof. exact C39_identifier_pf. Qed.
Print Assumptions C39_identifier.

(** C39, decoding: an array (of signed or unsigned bytes) holding the identifier
    octets at the offset decodes to the tag. *)
Theorem C39_decode : forall c k n os arr off, identifier c k n os -> 0 <= c <= 3 -> 0 <= off ->
  octets (sub arr (Z.to_nat off) (length os)) = os ->
  exists t, BERTag_getInstance arr off = Ok t /\ tclass t = c /\ tconstr t = k /\ tnumber t = n.
Proof. exact C39_decode_pf. Qed.
Print Assumptions C39_decode.

(** C39: the round trip. *)
Theorem C39_roundtrip : forall c k n sz off out, 0 <= c <= 3 -> 0 <= n -> 0 <= off ->
  forall os, identifier c k n os -> off + zlen os <= zlen out ->
  exists t, BERTag_getInstance (snd (tag_toBytes (mkTag c k n sz) off out)) off = Ok t
            /\ tag_eqb t (mkTag c k n sz) = true.
Proof. exact C39_roundtrip_pf. Qed.
Print Assumptions C39_roundtrip.

Example C39_ex : tag_toBytesStatic 2 true 300 1 [0; 0; 0; 0; 0] = (Ok 3, [0; -65; -126; 44; 0])
  /\ BERTag_getInstance [0; -65; -126; 44; 0] 1 = Ok (mkTag 2 true 300 2)
  /\ identifier 2 true 300 [191; 130; 44].
Proof.
  split; [reflexivity|]. split; [reflexivity|].
  apply (ident_high 2 true 300 [2] 44); [lia|]. split; [repeat constructor; lia|]. split; [reflexivity|cbn; lia].
Qed.

(** C40 is false: of a parsed tag with number above 30 the size is one too
    small, and of a tag built with init(class, number) it is 0. *)
Theorem C40_refuted : forall c k n os arr off, identifier c k n os -> 0 <= c <= 3 -> 0 <= off -> 31 <= n ->
  octets (sub arr (Z.to_nat off) (length os)) = os ->
  tag_sizeStatic arr off = Ok (zlen os - 1)
  /\ (exists t, BERTag_getInstance arr off = Ok t /\ tag_size t = zlen os - 1)
  /\ tag_size (init_class_number newPrimitiveBERTag c n) = 0
  /\ tag_size (init_class_number newConstructedBERTag c n) = 0.
Proof. exact C40_refuted_pf. Qed.
Print Assumptions C40_refuted.

(** C40, what holds: the size of a parsed tag with number at most 30 is 1, the
    length of its identifier. *)
Theorem C40_partial : forall c k n os arr off, identifier c k n os -> 0 <= c <= 3 -> 0 <= off -> n <= 30 ->
  octets (sub arr (Z.to_nat off) (length os)) = os ->
  tag_sizeStatic arr off = Ok (zlen os)
  /\ exists t, BERTag_getInstance arr off = Ok t /\ tag_size t = zlen os.
Proof. exact C40_partial_pf. Qed.
Print Assumptions C40_partial.

Example C40_ex : BERTag_getInstance [0x1f; 0x20] 0 = Ok (mkTag 0 false 32 1)
  /\ BERTag_getInstance [0x5e] 0 = Ok (mkTag 1 false 30 1).
Proof. split; reflexivity. Qed.

(** C41 is false: every other cell of the output array is also rewritten, to
    its signed value. *)
Theorem C41_refuted : forall c k n sz os off out j, identifier c k n os -> 0 <= c <= 3 ->
  0 <= off -> off + zlen os <= zlen out ->
  (j < length out)%nat -> (Z.of_nat j < off \/ off + zlen os <= Z.of_nat j) ->
  nth j (snd (tag_toBytes (mkTag c k n sz) off out)) 0 = s1 (nth j out 0)
  /\ (127 < nth j out 0 -> nth j (snd (tag_toBytes (mkTag c k n sz) off out)) 0 <> nth j out 0).
Proof. exact C41_refuted_pf. Qed.
Print Assumptions C41_refuted.

(** C41, what holds: an array of signed bytes is changed only in the bytes of
    the tag. *)
Theorem C41_partial : forall c k n sz os off out, identifier c k n os -> 0 <= c <= 3 ->
  0 <= off -> off + zlen os <= zlen out -> Forall (fun b => b <= 127) out ->
  tag_toBytes (mkTag c k n sz) off out
  = (Ok (zlen os), splice out (Z.to_nat off) (map (twos 1) os)).
Proof. exact C41_partial_pf. Qed.
Print Assumptions C41_partial.

Example C41_ex : tag_toBytes (mkTag 1 false 5 1) 0 [0; 200; 100] = (Ok 1, [69; -56; 100]).
Proof. reflexivity. Qed.

(** C50: MALFORMED_TAG exactly on a kind mismatch; getInstance returns the kind
    of the byte and raises nothing but ArrayIndexOutOfBoundsException. *)
Theorem C50_kind_mismatch : forall a off b, py_get a off = Ok b ->
  (Primitive_init_bytes a off = Err (TLVExc 5) <-> Z.testbit b 5 = true)
  /\ (Constructed_init_bytes a off = Err (TLVExc 5) <-> Z.testbit b 5 = false)
  /\ (forall t, BERTag_getInstance a off = Ok t -> tconstr t = Z.testbit b 5).
Proof. exact C50_kind_mismatch_pf. Qed.
Print Assumptions C50_kind_mismatch.

Theorem C50_getInstance_errors : forall a off e,
  BERTag_getInstance a off = Err e -> e = ArrayIndexOutOfBounds.
Proof. exact C50_getInstance_errors_pf. Qed.
Print Assumptions C50_getInstance_errors.

Example C50_ex : Primitive_init_bytes [0x3f; 5] 0 = Err (TLVExc 5)
  /\ Constructed_init_bytes [0x3f; 0x25] 0 = Ok (mkTag 0 true 0x25 1)
  /\ BERTag_getInstance [0x3f; 0x85] 0 = Err ArrayIndexOutOfBounds
  /\ tag_sizeStatic [0x3f; 0x85] 0 = Err IndexError.
Proof. repeat split; reflexivity. Qed.
