(** * Vocabulary for C46: when the searches of ConstructedBERTLV end

    A walk: the search stands at a position of the value; [skips] is one step over a child
    that does not have the tag. *)
From Coq Require Import Relations.
From Verif Require Import Py M_bertag M_bertlv.

(** At [p], inside the value, there is a child without the tag [g]; the next one is at [q]. *)
Definition skips (self : tlv) (g : tag) (p q : Z) : Prop :=
  p < tlen self /\ exists t h n, getInstance_of self p = Ok t /\ ttag t = Some h /\ tag_eqb h g = false
    /\ tlv_size t = Ok n /\ q = p + n.
Definition walks (self : tlv) (g : tag) : Z -> Z -> Prop := clos_refl_trans_n1 Z (skips self g).
(** The walk from the first child comes back to a child it has been at. *)
Definition comes_back (self : tlv) (g : tag) : Prop :=
  exists p q, walks self g 0 p /\ skips self g p q /\ walks self g q p.

(** Bytes that can be the start of a child: indices Python accepts. *)
Definition positions (self : tlv) : nat := match tval self with Some v => 2 * length v | None => 0 end.
