(** * C133: input and output may be the same array *)
From Verif Require Import Py M_util.

(** The heap after a call: the output array holds [o], every array but it and the lists
    [tmp] that the call created is as before. *)
Definition wrote (outB : loc) (tmp : list loc) (h h' : heap) (o : list Z) : Prop :=
  h' outB = o /\ forall l, l <> outB -> ~ In l tmp -> h' l = h l.
