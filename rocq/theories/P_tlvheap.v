(** * C115: tag objects inside TLV objects: property theorems *)
From Verif Require Import LP_tlvheap Py S_Base S_Number S_BER L_Py M_utils M_util L_utils L_util M_bertag M_tagobj S_TagObj M_bertlv M_tlvheap S_TlvHeap.
From Coq Require Import ZifyBool ZifyNat.
Ltac Zify.zify_post_hook ::= Z.div_mod_to_equations.

(** C115, what does hold: TLVs never share a tag object, and the tags the caller made (the
    arguments of TLV.init among them) are never inside a TLV, *)
Theorem C115_copies_partial : forall cs rs p j t i, trun cs tstart = (rs, p) ->
  nth_error (tlvs p) j = Some t -> ltag t = Some i ->
  ~ In i (own_tags cs rs)
  /\ forall j' t', nth_error (tlvs p) j' = Some t' -> ltag t' = Some i -> j' = j.
Proof. exact C115_copies_partial_pf. Qed.
Print Assumptions C115_copies_partial.

(** so a TLV stays what it was whatever is done with the tags the caller made, before or
    since, and with other TLVs. *)
Theorem C115_own_partial : forall cs0 rs0 p cs rs p' j t, trun cs0 tstart = (rs0, p) -> trun cs p = (rs, p') ->
  nth_error (tlvs p) j = Some t -> Forall (not_on j) cs ->
  Forall (inits_only (own_tags cs0 rs0 ++ own_tags cs rs)) cs ->
  exists t', nth_error (tlvs p') j = Some t' /\ h_size p' t' = h_size p t
    /\ forall off out, h_toBytes p' t' off out = h_toBytes p t off out.
Proof. exact C115_own_partial_pf. Qed.
Print Assumptions C115_own_partial.

(** The two models of TLVs agree: with the present state of its tag, a TLV writes itself as in M_bertlv.v. *)
Theorem C115_view_partial : forall p t v, tlv_view p t = Some v ->
  h_size p t = tlv_size v /\ forall off out, h_toBytes p t off out = tlv_toBytes v off out.
Proof. exact C115_view_partial_pf. Qed.
Print Assumptions C115_view_partial.

(** init, append and replaceValue do to a TLV what the model without references says
    (C42, C43, C47, C51): the result and the state after the call are those of `M_bertlv.v`. *)
Theorem C115_calls_partial : forall cs0 rs0 p j t v, trun cs0 tstart = (rs0, p) -> nth_error (tlvs p) j = Some t -> tlv_view p t = Some v ->
  (forall i k c kc n sz vArray vOff vLen, nth_error (tags p) i = Some (k, mkObj (Some c) kc (Some n) sz) ->
     let '(r, p') := tstep (TLVInit j i vArray vOff vLen) p in
     r = rmap RNum (tlv_size (init_tag v (mkTag c kc n sz) vArray vOff vLen))
     /\ exists t', nth_error (tlvs p') j = Some t' /\ tlv_view p' t' = Some (init_tag v (mkTag c kc n sz) vArray vOff vLen))
  /\ (forall a u w, tkind v = true -> nth_error (tlvs p) a = Some u -> tlv_view p u = Some w ->
     let '(r, p') := tstep (Append j a) p in
     r = rmap RNum (fst (append w v))
     /\ exists t', nth_error (tlvs p') j = Some t' /\ tlv_view p' t' = Some (snd (append w v)))
  /\ (forall vArray vOff vLen, tkind v = false ->
     let '(r, p') := tstep (Replace j vArray vOff vLen) p in
     r = rmap (fun _ => RNone) (fst (replaceValue vArray vOff vLen v))
     /\ exists t', nth_error (tlvs p') j = Some t' /\ tlv_view p' t' = Some (snd (replaceValue vArray vOff vLen v))).
Proof. exact C115_calls_partial_pf. Qed.
Print Assumptions C115_calls_partial.

(** C115 is false: the tag object getTag returns is the TLV's own.  Whatever the TLV,
    getTag().init(class, number) gives the TLV that class and number. *)
Theorem C115_refuted : forall cs0 rs0 p j t i c n v, trun cs0 tstart = (rs0, p) -> nth_error (tlvs p) j = Some t ->
  fst (tstep (GetTag j) p) = Ok (RTag i) -> tlv_view p t = Some v ->
  let p' := snd (trun [GetTag j; TagInit i (InitClass c n)] p) in
  exists g, ttag v = Some g /\ nth_error (tlvs p') j = Some t
    /\ tlv_view p' t = Some (mkTLV (tkind v) (Some (mkTag c (tconstr g) n (tsize g))) (tlen v) (tval v)).
Proof. exact C115_refuted_pf. Qed.
Print Assumptions C115_refuted.

Theorem C115_full_refuted : ~ C115_full.
Proof. exact C115_full_refuted_pf. Qed.
Print Assumptions C115_full_refuted.

Example C115_ex : exists p t, trun [NewTag false; TagInit 0 (InitBytes [69; 3] 0); NewTLV false; TLVInit 0 0 [1; 2; 3] 0 2;
    TagInit 0 (InitClass 0 4); NewTLV true; TLVInit 1 0 [] 0 0; GetTag 0; TagInit 1 (InitClass 2 9)] tstart
    = ([Ok (RTag 0); Ok RNone; Ok (RTLV 0); Ok (RNum 4); Ok RNone; Ok (RTLV 1); Ok (RNum 2); Ok (RTag 1); Ok RNone], p)
  /\ nth_error (tlvs p) 0 = Some t /\ h_toBytes p t 0 [0; 0; 0; 0] = (Ok 4, [-119; 2; 1; 2]).
Proof. do 2 eexists. split; [vm_compute; reflexivity|]. split; [vm_compute; reflexivity|]. vm_compute; reflexivity. Qed.
