(** * Vocabulary of the statements about C113 and C114: who shares a list with whom *)
From Verif Require Import Py S_Base M_apdu S_ApduObs M_apduheap.

(** calls that send nothing and make nothing *)
Definition quiet (c : pcall) : Prop :=
  match c with
  | CCall _ o => match o with
                 | OpSendBytes _ _ | OpSendBytesLong _ _ _ | OpSetOutgoingAndSend _ _ => False
                 | _ => True
                 end
  | CSendFrom _ _ _ _ | CStore _ _ _ => False
  | CNew _ | CList _ => True
  end.

(** the lists of the program at its start, before any APDU exists *)
Definition start (ls : heap) : prog := mkP ls [].

(** [l] is the buffer of some APDU *)
Definition is_buffer (p : prog) (l : nat) : Prop := exists j y, nth_error (objs p) j = Some y /\ obuf y = l.

(** the call neither builds an APDU from the list nor stores into it itself *)
Definition keeps (l : nat) (c : pcall) : Prop :=
  match c with
  | CNew l' => l' <> l
  | CStore l' _ _ => l' <> l
  | _ => True
  end.

(** no other APDU uses the lists of APDU k *)
Definition unshared (p : prog) (k : nat) : Prop := forall x j y,
  nth_error (objs p) k = Some x -> nth_error (objs p) j = Some y -> j <> k ->
  oraw y <> oraw x /\ oraw y <> obuf x /\ obuf y <> oraw x.

(** the lists APDUs are built from, in order *)
Definition built_from (cs : list pcall) : list nat :=
  flat_map (fun c => match c with CNew l => [l] | _ => [] end) cs.

(** What is wished.  C113: an array belongs to the caller, an APDU built from it does not
    change it. *)
Definition C113_full : Prop := forall ls l ops rs p, (l < length ls)%nat ->
  prun (CNew l :: map (CCall 0) ops) (start ls) = (rs, p) -> hget (lists p) l = hget ls l.

(** C114: each APDU works as if it were the only one: the results of the calls on it and
    its final state are those of the same calls on an APDU with lists of its own. *)
Definition C114_full : Prop := forall ls cs0 rs0 p cs rs p' k x, 
  prun cs0 (start ls) = (rs0, p) -> prun cs p = (rs, p') -> nth_error (objs p) k = Some x ->
  Forall (keeps (oraw x)) cs -> Forall (keeps (obuf x)) cs ->
  exists x', nth_error (objs p') k = Some x'
    /\ apdu_run (map fst (calls_of k cs p)) (view (lists p) x) = (calls_of k cs p, view (lists p') x').
