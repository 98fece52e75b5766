(** * C103: static functions of BERTag, unambiguous encodings: property theorems *)
From Verif Require Import LP_tagstat Py S_Base S_Number S_BER S_TagStat L_Py M_utils L_utils M_util L_util M_bertag LP_bertag.
From Coq Require Import ZifyBool ZifyNat.
Ltac Zify.zify_post_hook ::= Z.div_mod_to_equations.

(** the static functions on an array that holds an identifier, and on a class, kind and
    number *)
Theorem C103_statics : forall c k n os, identifier c k n os -> 0 <= c <= 3 ->
  (forall arr off, 0 <= off -> octets (sub arr (Z.to_nat off) (length os)) = os ->
     tag_isConstructedStatic arr off = Ok k /\ tag_tagClassStatic arr off = Ok c /\ tag_tagNumberStatic arr off = Ok n)
  /\ (forall off out, 0 <= off -> off + zlen os <= zlen out ->
     tag_toBytesStatic c k n off out = (Ok (zlen os), splice (map s1 out) (Z.to_nat off) (map (twos 1) os))).
Proof. exact C103_statics_pf. Qed.
Print Assumptions C103_statics.

(** out of the array the other static functions raise ArrayIndexOutOfBoundsException, but
    size lets Python's IndexError out *)
Theorem C103_size_refuted : forall a off,
  (forall e, tag_sizeStatic a off = Err e <-> e = IndexError /\ BERTag_getInstance a off = Err ArrayIndexOutOfBounds)
  /\ (forall e, tag_tagClassStatic a off = Err e -> e = ArrayIndexOutOfBounds).
Proof. exact C103_size_refuted_pf. Qed.
Print Assumptions C103_size_refuted.

(** exactly where the identifier does not end inside the array the functions raise, and what
    they raise *)
Theorem C103_truncated : forall a off, 0 <= off ->
  (unfinished (skipn (Z.to_nat off) a) ->
     tag_isConstructedStatic a off = Err ArrayIndexOutOfBounds /\ tag_tagClassStatic a off = Err ArrayIndexOutOfBounds
     /\ tag_tagNumberStatic a off = Err ArrayIndexOutOfBounds /\ tag_sizeStatic a off = Err IndexError)
  /\ (~ unfinished (skipn (Z.to_nat off) a) ->
     exists k c n s, tag_isConstructedStatic a off = Ok k /\ tag_tagClassStatic a off = Ok c
       /\ tag_tagNumberStatic a off = Ok n /\ tag_sizeStatic a off = Ok s).
Proof. exact C103_truncated_pf. Qed.
Print Assumptions C103_truncated.

Example C103_truncated_ex : unfinished (skipn (Z.to_nat 1) [0; 0x5f; 0x85; -1])
  /\ tag_isConstructedStatic [0; 0x5f; 0x85; -1] 1 = Err ArrayIndexOutOfBounds
  /\ ~ unfinished (skipn (Z.to_nat 1) [0; 0x5f; 0x85; 1]) /\ tag_tagNumberStatic [0; 0x5f; 0x85; 1] 1 = Ok 641.
Proof.
  split; [right; exists 0x5f, [0x85; -1]; repeat split; repeat constructor; discriminate|]. split; [reflexivity|]. split; [|reflexivity].
  intros [H|(b & rest & H & _ & F)]; [discriminate|]. injection H as <- <-. inversion F as [|? ? _ F']; subst.
  inversion F' as [|? ? G _]; subst. apply G. reflexivity.
Qed.

(** no encoding is a prefix of another, so what follows a tag is determined *)
Theorem C103_prefix_free : forall c k n os c' k' n' os' rest rest',
  0 <= c <= 3 -> 0 <= c' <= 3 -> identifier c k n os -> identifier c' k' n' os' -> os ++ rest = os' ++ rest' ->
  c = c' /\ k = k' /\ n = n' /\ os = os' /\ rest = rest'.
Proof. exact C103_prefix_free_pf. Qed.
Print Assumptions C103_prefix_free.

(** two tags written by toBytes: if the bytes agree as far as the shorter goes, the tags
    are equal *)
Theorem C103_unambiguous : forall c k n s os c' k' n' s' os' o1 o2 a1 a2,
  0 <= c <= 3 -> 0 <= c' <= 3 -> identifier c k n os -> identifier c' k' n' os' -> 0 <= o1 -> 0 <= o2 ->
  o1 + zlen os <= zlen a1 -> o2 + zlen os' <= zlen a2 ->
  exists l1 b1 l2 b2, tag_toBytes (mkTag c k n s) o1 a1 = (Ok l1, b1) /\ tag_toBytes (mkTag c' k' n' s') o2 a2 = (Ok l2, b2)
    /\ (sub b1 (Z.to_nat o1) (Z.to_nat (Z.min l1 l2)) = sub b2 (Z.to_nat o2) (Z.to_nat (Z.min l1 l2)) ->
        tag_eqb (mkTag c k n s) (mkTag c' k' n' s') = true).
Proof. exact C103_unambiguous_pf. Qed.
Print Assumptions C103_unambiguous.

Example C103_ex : tag_tagNumberStatic [0; -65; -126; 44; 0] 1 = Ok 300 /\ tag_tagClassStatic [0; -65; -126; 44; 0] 1 = Ok 2
  /\ tag_isConstructedStatic [0; -65; -126; 44; 0] 1 = Ok true
  /\ tag_toBytesStatic 2 true 300 1 [0; 0; 0; 0; 0] = (Ok 3, [0; -65; -126; 44; 0])
  /\ tag_sizeStatic [0x3f; 0x85] 0 = Err IndexError /\ tag_tagClassStatic [0x3f; 0x85] 0 = Err ArrayIndexOutOfBounds.
Proof. repeat split. Qed.
