(** * C102: BERTag objects over time: property theorems *)
From Verif Require Import LP_tagobj Py S_Base S_Number S_BER L_Py M_utils L_utils M_util L_util M_bertag LP_bertag LP_tagstat M_tagobj S_TagObj.
From Coq Require Import ZifyBool ZifyNat.
Ltac Zify.zify_post_hook ::= Z.div_mod_to_equations.

(** the outcome of a call does not depend on the history; after a call that returned, class,
    kind and number are those of a new object after this call alone *)
Theorem C102_history : forall k before c rs o, run k before (new_obj k) = (rs, o) ->
  fst (step k c o) = fst (step k c (new_obj k))
  /\ (fst (step k c o) = Ok tt -> let o1 := snd (step k c (new_obj k)) in let o2 := snd (step k c o) in
      oclass o2 = oclass o1 /\ onumber o2 = onumber o1 /\ oconstr o2 = k /\ obj_eqb o2 o1 = true).
Proof. exact C102_history_pf. Qed.
Print Assumptions C102_history.

(** after any history, an init with an identifier of the right kind, or with a class and a
    number, stores that class and number, and toBytes writes that identifier *)
Theorem C102_last_partial : forall k before rs o c cl n os off out, run k before (new_obj k) = (rs, o) ->
  stores k c cl n -> 0 <= cl <= 3 -> 0 <= n -> identifier cl k n os -> 0 <= off -> off + zlen os <= zlen out ->
  exists o', step k c o = (Ok tt, o') /\ oclass o' = Some cl /\ oconstr o' = k /\ onumber o' = Some n
    /\ obj_toBytes o' off out = (Ok (zlen os), splice (map s1 out) (Z.to_nat off) (map (twos 1) os)).
Proof. exact C102_last_partial_pf. Qed.
Print Assumptions C102_last_partial.

(** before any init the object is the tag number 0 of the universal class, with size() 0 *)
Theorem C102_new : forall k off out, 0 <= off < zlen out ->
  obj_toBytes (new_obj k) off out = (Ok 1, splice (map s1 out) (Z.to_nat off) [if k then 32 else 0])
  /\ obj_eqb (new_obj k) (snd (step k (InitClass 0 0) (new_obj k))) = true /\ osize (new_obj k) = 0.
Proof. exact C102_new_pf. Qed.
Print Assumptions C102_new.

(** after any history, an identifier of the other kind makes init raise MALFORMED_TAG; then
    class and number are None, size() is what it was and toBytes raises TypeError *)
Theorem C102_kind_refuted : forall k before rs o a ioff cl n os off out, run k before (new_obj k) = (rs, o) ->
  0 <= ioff -> 0 <= cl <= 3 -> identifier cl (negb k) n os -> octets (sub a (Z.to_nat ioff) (length os)) = os ->
  exists o', step k (InitBytes a ioff) o = (Err MALFORMED_TAG, o')
    /\ oclass o' = None /\ onumber o' = None /\ osize o' = osize o /\ oconstr o' = k
    /\ obj_toBytes o' off out = (Err TypeError, out).
Proof. exact C102_kind_refuted_pf. Qed.
Print Assumptions C102_kind_refuted.

(** an identifier cut off by the end of the array: IndexError, and the object is left with
    the number of the digits read, which toBytes then writes without complaint *)
Theorem C102_truncated_refuted : forall k before rs o a ioff cl ds, run k before (new_obj k) = (rs, o) ->
  0 <= ioff -> 0 <= cl <= 3 -> Forall (fun d => 0 <= d < 128) ds ->
  octets (skipn (Z.to_nat ioff) a) = (64 * cl + (if k then 32 else 0) + 31) :: map (fun d => 128 + d) ds ->
  exists o', step k (InitBytes a ioff) o = (Err IndexError, o')
    /\ oclass o' = Some cl /\ onumber o' = Some (digits_value 128 ds) /\ osize o' = osize o /\ oconstr o' = k
    /\ forall off out os, 0 <= off -> identifier cl k (digits_value 128 ds) os -> off + zlen os <= zlen out ->
       obj_toBytes o' off out = (Ok (zlen os), splice (map s1 out) (Z.to_nat off) (map (twos 1) os)).
Proof. exact C102_truncated_refuted_pf. Qed.
Print Assumptions C102_truncated_refuted.

(** size() is what the last init from bytes made it, whatever class and number were given
    to init since; it is 0 if there was no such init *)
Theorem C102_size_refuted : forall k before rs o a off c n os c' n', run k before (new_obj k) = (rs, o) ->
  0 <= off -> 0 <= c <= 3 -> identifier c k n os -> octets (sub a (Z.to_nat off) (length os)) = os ->
  osize (snd (run k [InitBytes a off; InitClass c' n'] o)) = (if n <=? 30 then 1 else zlen os - 1)
  /\ osize (snd (run k [InitClass c' n'] (new_obj k))) = 0.
Proof. exact C102_size_refuted_pf. Qed.
Print Assumptions C102_size_refuted.

(** two tag objects, whatever their histories, are == exactly when toBytes writes the same *)
Theorem C102_equal : forall o o' c n c' n', oclass o = Some c -> onumber o = Some n -> oclass o' = Some c' -> onumber o' = Some n' ->
  0 <= c <= 3 -> 0 <= c' <= 3 -> 0 <= n -> 0 <= n' ->
  (obj_eqb o o' = true <-> forall off out, obj_toBytes o off out = obj_toBytes o' off out).
Proof. exact C102_equal_pf. Qed.
Print Assumptions C102_equal.

(** false in general *)
Theorem C102_full_refuted : ~ C102_full.
Proof. exact C102_full_refuted_pf. Qed.
Print Assumptions C102_full_refuted.

Example C102_ex :
  run false [InitBytes [31; 133; 133] 0; InitBytes [63; 5] 0; InitBytes [95; 129; 5] 0; InitClass 2 40] (new_obj false)
  = ([Err IndexError; Err MALFORMED_TAG; Ok tt; Ok tt], mkObj (Some 2) false (Some 40) 2)
  /\ run false [InitBytes [31; 133; 133] 0] (new_obj false) = ([Err IndexError], mkObj (Some 0) false (Some 645) 0).
Proof. split; reflexivity. Qed.
