(** * Vocabulary of the statements about C115: what a TLV depends on *)
From Verif Require Import Py S_Base S_Number S_BER M_bertag M_tagobj S_TagObj M_bertlv M_tlvheap.

(** calls that are not about TLV j: tag objects are made and initialised, other TLVs used *)
Definition not_on (j : nat) (c : tcall) : Prop :=
  match c with
  | TLVInit j' _ _ _ _ | Append j' _ | Replace j' _ _ _ => j' <> j
  | _ => True
  end.

(** the tag objects the caller made itself: the results of NewTag *)
Fixpoint own_tags (cs : list tcall) (rs : list (res tres)) : list nat :=
  match cs, rs with
  | NewTag _ :: cs', Ok (RTag i) :: rs' => i :: own_tags cs' rs'
  | _ :: cs', _ :: rs' => own_tags cs' rs'
  | _, _ => []
  end.
(** init is called on tags of that list only *)
Definition inits_only (l : list nat) (c : tcall) : Prop :=
  match c with TagInit i _ => In i l | _ => True end.

(** C115: a TLV changes by calls on it only: as long as there are none, toBytes writes what
    it wrote, and size() is what it was. *)
Definition C115_full : Prop := forall cs0 rs0 p cs rs p' j t, trun cs0 tstart = (rs0, p) -> trun cs p = (rs, p') ->
  nth_error (tlvs p) j = Some t -> Forall (not_on j) cs ->
  exists t', nth_error (tlvs p') j = Some t' /\ h_size p' t' = h_size p t
    /\ forall off out, h_toBytes p' t' off out = h_toBytes p t off out.
