(** * C113-C114: the arrays APDU objects share: property theorems *)
From Verif Require Import LP_apduheap Py S_Base S_APDU L_Py M_utils M_util L_utils L_util M_apdu S_ApduObs L_apdu LP_apdu M_apduheap S_ApduHeap.
From Coq Require Import ZifyBool ZifyNat.
Ltac Zify.zify_post_hook ::= Z.div_mod_to_equations.

(** C113, what does hold: a call on an APDU changes no list but its own two; *)
Theorem C113_frame_partial : forall ls cs rs p k x c r p' l, prun cs (start ls) = (rs, p) ->
  nth_error (objs p) k = Some x ->
  (exists o, c = CCall k o) \/ (exists d b n, c = CSendFrom k d b n) -> pstep c p = (r, p') ->
  l <> oraw x -> l <> obuf x -> hget (lists p') l = hget (lists p) l.
Proof. exact C113_frame_partial_pf. Qed.
Print Assumptions C113_frame_partial.

(** and whatever is made, received, announced and written into buffers, as long as nothing
    is sent no other list changes. *)
Theorem C113_until_send_partial : forall ls cs0 rs0 p cs rs p' l, prun cs0 (start ls) = (rs0, p) ->
  (l < length (lists p))%nat -> ~ is_buffer p l -> Forall quiet cs -> prun cs p = (rs, p') ->
  hget (lists p') l = hget (lists p) l.
Proof. exact C113_until_send_partial_pf. Qed.
Print Assumptions C113_until_send_partial.

(** C113 is false: for every command the constructor accepts, the array of the caller
    holds the response in place of its first bytes after setOutgoingAndSend (and is longer
    than before if the response is longer than the command). *)
Theorem C113_refuted : forall ls l s off n rs p, newAPDU (hget ls l) = Ok s -> in_range off n 257 -> n <= 256 ->
  (forall m, Ne s = Some m -> n <= m) ->
  prun [CNew l; CCall 0 (OpSetOutgoingAndSend off n)] (start ls) = (rs, p) ->
  rs = [Ok None; Ok None]
  /\ hget (lists p) l = sub (getBuffer s) (Z.to_nat off) (Z.to_nat n) ++ skipn (Z.to_nat n) (hget ls l).
Proof. exact C113_refuted_pf. Qed.
Print Assumptions C113_refuted.

Theorem C113_full_refuted : ~ C113_full.
Proof. exact C113_full_refuted_pf. Qed.
Print Assumptions C113_full_refuted.

Example C113_ex : exists p, prun [CNew 0; CCall 0 OpSetIncomingAndReceive; CCall 0 (OpSetOutgoingAndSend 5 2)]
    (start [[0; 16; 0; 0; 2; 77; 88]; [1; 2; 3]]) = ([Ok None; Ok (Some 2); Ok None], p)
  /\ hget (lists p) 0 = [77; 88; 0; 0; 2; 77; 88] /\ hget (lists p) 1 = [1; 2; 3].
Proof. eexists. split; [vm_compute; reflexivity|]. split; vm_compute; reflexivity. Qed.

(** C114, what does hold: an APDU whose lists no other APDU uses, and the caller does not
    write to or build another APDU from, works as if it were alone, whatever the calls on
    the other APDUs and the rest of the program do in between. *)
Theorem C114_alone_partial : forall ls cs0 rs0 p cs rs p' k x,
  prun cs0 (start ls) = (rs0, p) -> prun cs p = (rs, p') -> nth_error (objs p) k = Some x ->
  unshared p k -> Forall (keeps (oraw x)) cs -> Forall (keeps (obuf x)) cs ->
  exists x', nth_error (objs p') k = Some x'
    /\ apdu_run (map fst (calls_of k cs p)) (view (lists p) x) = (calls_of k cs p, view (lists p') x').
Proof. exact C114_alone_partial_pf. Qed.
Print Assumptions C114_alone_partial.

(** In particular, in a program that builds its APDUs from different lists that exist at
    the start, and stores itself into other lists than these only, every APDU works, from
    its making to the end, as an APDU with lists of its own. *)
Theorem C114_separate_partial : forall ls cs rs p k x, prun cs (start ls) = (rs, p) ->
  NoDup (built_from cs) -> Forall (fun l => (l < length ls)%nat) (built_from cs) ->
  (forall l i v, In (CStore l i v) cs -> (l < length ls)%nat /\ ~ In l (built_from cs)) ->
  nth_error (objs p) k = Some x ->
  exists s, newAPDU (hget ls (oraw x)) = Ok s
    /\ apdu_run (map fst (calls_of k cs (start ls))) s = (calls_of k cs (start ls), view (lists p) x).
Proof. exact C114_separate_partial_pf. Qed.
Print Assumptions C114_separate_partial.

(** C114 is false for two APDUs built from one array: whatever the command, the applet
    that owns the first can send a byte v that the second receives as the first byte of
    the command data. *)
Theorem C114_refuted : forall cla ins p1 p2 d v rs p x, 1 <= zlen d <= 128 ->
  prun [CNew 0; CNew 0; CCall 0 (OpWriteBuffer 5 v); CCall 0 (OpSetOutgoingAndSend 0 6); CCall 1 OpSetIncomingAndReceive]
    (start [[cla; ins; p1; p2; zlen d] ++ d]) = (rs, p) -> nth_error (objs p) 1 = Some x ->
  rs = [Ok None; Ok None; Ok None; Ok None; Ok (Some (zlen d))]
  /\ sub (getBuffer (view (lists p) x)) 5 (length d) = v :: skipn 1 d.
Proof. exact C114_refuted_pf. Qed.
Print Assumptions C114_refuted.

Theorem C114_full_refuted : ~ C114_full.
Proof. exact C114_full_refuted_pf. Qed.
Print Assumptions C114_full_refuted.

Example C114_ex : exists p, prun [CNew 0; CNew 1; CCall 0 (OpWriteBuffer 5 9); CCall 0 (OpSetOutgoingAndSend 0 6); CCall 1 OpSetIncomingAndReceive]
    (start [[0; 16; 0; 0; 2; 77; 88]; [0; 16; 0; 0; 2; 77; 88]]) = ([Ok None; Ok None; Ok None; Ok None; Ok (Some 2)], p)
  /\ firstn 7 (hget (lists p) 3) = [0; 16; 0; 0; 2; 77; 88].
Proof. eexists. split; [vm_compute; reflexivity|]. vm_compute; reflexivity. Qed.
