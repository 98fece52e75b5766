(** * C125-C126: the constants: property theorems *)
From Coq Require Import String.
From Verif Require Import LP_consts Py S_Base S_Number S_BER L_Py M_utils L_utils M_util L_util M_bertag LP_bertag S_Consts M_consts.
From Coq Require Import ZifyBool ZifyNat.
Open Scope string_scope.

(** C125, what holds: every constant of the Java Card API has its value in the library,
    except exactly the reason codes of APDUException and PINException and the protocol
    codes of APDU, which exist but are numbered differently. *)
Theorem C125_partial : forall c n v, In (c, n, v) jc_consts ->
  (named_const all_consts c n = Some v <-> own_numbering c n = false)
  /\ named_const all_consts c n <> None.
Proof. exact C125_partial_pf. Qed.
Print Assumptions C125_partial.

Example C125_ex : List.length jc_consts = 207%nat
  /\ List.length (filter (fun e => own_numbering (fst (fst e)) (snd (fst e))) jc_consts) = 16%nat
  /\ named_const all_consts "ISO7816" "SW_WRONG_LENGTH" = Some 26368%Z
  /\ named_const all_consts "APDUException" "ILLEGAL_USE" = Some 2%Z.
Proof. repeat split; vm_compute; reflexivity. Qed.

Theorem C125_full_refuted : ~ C125_full (named_const all_consts).
Proof. exact C125_full_refuted_pf. Qed.
Print Assumptions C125_full_refuted.

(** C125: two reasons of one exception class never have the same value, nor have two
    status words: the value says which it was. *)
Theorem C125_distinct : forall c n m v, named_const all_consts c n = Some v -> named_const all_consts c m = Some v ->
  exception_class c = true \/ (c = "ISO7816" /\ prefix "SW_" n = true /\ prefix "SW_" m = true) -> n = m.
Proof. exact C125_distinct_pf. Qed.
Print Assumptions C125_distinct.

(** C125: two constants naming alternatives of one choice (status words, states, protocols,
    array and memory types, algorithms, modes, paddings, formats, tag classes) are equal
    only if they are the same constant; and the states of a failed transmission are the
    negative ones. *)
Theorem C125_choices : forall c p, In (c, p) choices -> forall n m v,
  prefix p n = true -> prefix p m = true ->
  named_const all_consts c n = Some v -> named_const all_consts c m = Some v -> n = m.
Proof. exact C125_choices_pf. Qed.
Print Assumptions C125_choices.

(** C125: a length named after its number is that number: of bits for a key (of bytes for
    the block of an HMAC), and for a digest the eighth part of the bits in its name. *)
Theorem C125_lengths : forall n k v, prefix "LENGTH_" n = true -> number_in_name n = Some k ->
  (named_const all_consts "KeyBuilder" n = Some v -> v = k)
  /\ (named_const all_consts "MessageDigest" n = Some v -> (8 * v)%Z = k).
Proof. exact C125_lengths_pf. Qed.
Print Assumptions C125_lengths.

Example C125_lengths_ex : number_in_name "LENGTH_SHA3_384" = Some 384%Z /\ number_in_name "LENGTH_DES" = None
  /\ named_const all_consts "MessageDigest" "LENGTH_SHA3_384" = Some 48%Z
  /\ number_in_name "LENGTH_HMAC_SHA_384_BLOCK_128" = Some 128%Z
  /\ List.length (filter (fun e => prefix "LENGTH_" (snd (fst e))
       && match number_in_name (snd (fst e)) with Some _ => true | None => false end) all_consts) = 36%nat.
Proof. repeat split; vm_compute; reflexivity. Qed.

Theorem C125_error_states : forall n v, named_const all_consts "APDU" n = Some v -> prefix "STATE_" n = true ->
  ((v < 0)%Z <-> prefix "STATE_ERROR_" n = true).
Proof. exact C125_error_states_pf. Qed.
Print Assumptions C125_error_states.

Example C125_choices_ex : In ("APDU", "STATE_") choices /\ named_const all_consts "APDU" "STATE_ERROR_NO_T0_REISSUE" = Some (-3)%Z
  /\ named_const all_consts "APDU" "STATE_ERROR_IO" = Some (-1)%Z /\ prefix "STATE_" "STATE_ERROR_IO" = true.
Proof. repeat split; try (vm_compute; reflexivity). cbn. tauto. Qed.

(** C126 is false of every class: for each of the four, every tag made with its constant
    is encoded with the bits of another class, and every tag of the class that is parsed
    has a tagClass() that is not its constant. *)
Theorem C126_refuted : forall name bits, In (name, bits) tag_classes ->
  exists K, named_const all_consts "BERTag" name = Some K
  /\ (forall t n out off os, (t = newPrimitiveBERTag \/ t = newConstructedBERTag) -> 0 <= off ->
        identifier bits (tconstr t) n os -> off + zlen os <= zlen out ->
        exists r out', tag_toBytes (init_class_number t K n) off out = (r, out')
          /\ octets (sub out' (Z.to_nat off) (length os)) <> os)%Z
  /\ (forall k n os arr off, identifier bits k n os -> 0 <= off ->
        octets (sub arr (Z.to_nat off) (length os)) = os ->
        exists t, BERTag_getInstance arr off = Ok t /\ tclass t <> K)%Z.
Proof. exact C126_refuted_pf. Qed.
Print Assumptions C126_refuted.

Theorem C126_full_refuted : ~ C126_full (named_const all_consts).
Proof. exact C126_full_refuted_pf. Qed.
Print Assumptions C126_full_refuted.

(** C126, what holds: the four constants are 0 to 3, different, and each stands for the
    class whose bits it is: the constant called UNIVERSAL means private, APPLICATION
    universal, CONTEXT_SPECIFIC application and PRIVATE context-specific, in encoding and
    in decoding alike. *)
Theorem C126_partial : forall name bits, In (name, bits) tag_classes ->
  let K := ((bits + 3) mod 4)%Z in
  named_const all_consts "BERTag" name = Some K
  /\ (forall t n out off os, (t = newPrimitiveBERTag \/ t = newConstructedBERTag) -> 0 <= off ->
        identifier K (tconstr t) n os -> off + zlen os <= zlen out ->
        exists out', tag_toBytes (init_class_number t K n) off out = (Ok (zlen os), out')
          /\ sub out' (Z.to_nat off) (length os) = map (twos 1) os)%Z
  /\ (forall k n os arr off, identifier K k n os -> 0 <= off ->
        octets (sub arr (Z.to_nat off) (length os)) = os ->
        exists t, BERTag_getInstance arr off = Ok t /\ tclass t = K)%Z.
Proof. exact C126_partial_pf. Qed.
Print Assumptions C126_partial.

(** a tag made with the constant for application class, and octet 65 (application 1) *)
Example C126_ex : tag_toBytes (init_class_number newPrimitiveBERTag 0 1) 0 [9; 9]%Z = (Ok 1, [1; 9])%Z
  /\ named_const all_consts "BERTag" "BER_TAG_CLASS_MASK_APPLICATION" = Some 0%Z
  /\ BERTag_getInstance [65]%Z 0 = Ok (mkTag 1 false 1 1).
Proof. repeat split; vm_compute; reflexivity. Qed.
