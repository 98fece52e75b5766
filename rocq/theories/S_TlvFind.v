(** * C44, exactly: where the search of ConstructedBERTLV ends

    [walks] (S_TlvTerm.v) is the walk over the children that do not have the tag. *)
From Verif Require Import Py M_bertag M_bertlv S_TlvTerm.

(** At [p] there is a child with the tag. *)
Definition found_at (self : tlv) (g : tag) (p : Z) (t : tlv) : Prop :=
  p < tlen self /\ getInstance_of self p = Ok t /\ exists h, ttag t = Some h /\ tag_eqb h g = true.
(** The answer of find when the walk stops at [p]: beyond the value, at a child with the tag
    (a child at the index -1 counts as none), or where no TLV can be read. *)
Definition answer (self : tlv) (g : tag) (p : Z) (r : res (option tlv)) : Prop :=
  (tlen self <= p /\ r = Ok None)
  \/ (exists t, found_at self g p t /\ r = Ok (if p =? -1 then None else Some t))
  \/ (p < tlen self /\ exists e, getInstance_of self p = Err e /\ r = Err e).
(** The same for the static find; [base] is the offset of the value in the array. *)
Definition answer_static (self : tlv) (g : tag) (base p : Z) (r : res Z) : Prop :=
  (tlen self <= p /\ r = Ok (-1))
  \/ (exists t, found_at self g p t /\ r = Ok (if p =? -1 then -1 else base + p))
  \/ (p < tlen self /\ exists e, getInstance_of self p = Err e /\ r = Err e).

(** * C45, exactly *)
(** The search for the [n]-th occurrence of [a] among the children: [progress self a ga n q k] says
    that it can come to the position [q] with [k] occurrences still to be seen.  A child
    counts if it has the tag [ga] of [a] and its value. *)
Inductive progress (self a : tlv) (ga : tag) (n : Z) : Z -> Z -> Prop :=
| begin : progress self a ga n 0 n
| another : forall q k c t m, progress self a ga n q k -> 0 < k -> walks self ga q c -> found_at self ga c t -> c <> -1 ->
    tval t <> tval a -> tlv_size t = Ok m -> progress self a ga n (c + m) k
| occurrence : forall q k c t m, progress self a ga n q k -> 0 < k -> walks self ga q c -> found_at self ga c t -> c <> -1 ->
    tval t = tval a -> tlv_size t = Ok m -> progress self a ga n (c + m) (k - 1).
(** The answer of findNext: after the last occurrence, the first child with the tag [g] (with no
    tag, what can be read there); if the occurrences run out, none or the error met. *)
Definition next_answer (self a : tlv) (ga : tag) (g : option tag) (n : Z) (r : res (option tlv)) : Prop :=
  exists q k, progress self a ga n q k
  /\ ((k <= 0 /\ match g with
                | Some g => exists p, walks self g q p /\ answer self g p r
                | None => r = rmap Some (getInstance_of self q)
                end)
      \/ (0 < k /\ (forall t, r <> Ok (Some t)) /\ exists p, walks self ga q p /\ answer self ga p r)).
