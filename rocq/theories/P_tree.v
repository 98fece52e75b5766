(** * C98: nested TLVs are built, written, found and read back: property theorems *)
From Verif Require Import LP_tree Py S_Base S_Number S_BER L_Py M_utils L_utils M_util L_util M_bertag M_bertlv S_TLV LP_bertag LP_bertlv M_tree S_Tree.
From Coq Require Import ZifyBool ZifyNat.
Ltac Zify.zify_post_hook ::= Z.div_mod_to_equations.


(** building: the object has the size of the BER encoding and is written as its octets,
    at any offset of any array *)
Theorem C98_build_partial : forall t, small t -> exists obj, build t = Ok obj
  /\ tlv_size obj = Ok (zlen (ber t))
  /\ forall off out, 0 <= off -> off + zlen (ber t) <= zlen out ->
     exists bs, octets bs = ber t /\ Forall anybyte bs
       /\ tlv_toBytes obj off out = (Ok (zlen (ber t)), splice (map s1 out) (Z.to_nat off) bs).
Proof. exact C98_build_partial_pf. Qed.
Print Assumptions C98_build_partial.

(** reading: any array of signed or unsigned bytes that holds the BER encoding of a tree at
    the offset gives the tree *)
Theorem C98_read_partial : forall t pre bs post fuel, small t -> Forall anybyte bs -> octets bs = ber t ->
  (length bs <= fuel)%nat -> read fuel (pre ++ bs ++ post) (zlen pre) = Ok t.
Proof. exact C98_read_partial_pf. Qed.
Print Assumptions C98_read_partial.

(** building, writing and reading back gives the tree *)
Theorem C98_roundtrip_partial : forall t off out fuel, small t -> 0 <= off -> off + zlen (ber t) <= zlen out ->
  (length (ber t) <= fuel)%nat -> roundtrip fuel t off out = Ok t.
Proof. exact C98_roundtrip_partial_pf. Qed.
Print Assumptions C98_roundtrip_partial.

(** find on a built object returns the object of the first child with the tag *)
Theorem C98_find_partial : forall c n cs obj c' k n' g fuel, small (Node c n cs) -> build (Node c n cs) = Ok obj ->
  0 <= c' <= 3 -> 0 <= n' <= 30 -> tag_object c' k n' = Ok g -> (length cs < fuel)%nat ->
  findBound fuel obj (Some g) = match find (has_root c' k n') cs with
    | Some ch => rmap Some (build ch)
    | None => Ok None
    end.
Proof. exact C98_find_partial_pf. Qed.
Print Assumptions C98_find_partial.

(** false in general: an object with a child longer than 127 octets cannot be built *)
Theorem C98_full_refuted : ~ C98_full.
Proof. exact C98_full_refuted_pf. Qed.
Print Assumptions C98_full_refuted.

Example C98_ex : small (Node 1 5 [Leaf 2 3 [1; 200]; Node 0 30 [Leaf 3 0 []]; Leaf 2 3 [7]])
  /\ ber (Node 1 5 [Leaf 2 3 [1; 200]; Node 0 30 [Leaf 3 0 []]; Leaf 2 3 [7]]) = [101; 11; 131; 2; 1; 200; 62; 2; 192; 0; 131; 1; 7]
  /\ roundtrip 14 (Node 1 5 [Leaf 2 3 [1; 200]; Node 0 30 [Leaf 3 0 []]; Leaf 2 3 [7]]) 1 (repeat 9 20)
     = Ok (Node 1 5 [Leaf 2 3 [1; 200]; Node 0 30 [Leaf 3 0 []]; Leaf 2 3 [7]])
  /\ find (has_root 2 false 3) [Leaf 2 3 [1; 200]; Node 0 30 [Leaf 3 0 []]; Leaf 2 3 [7]] = Some (Leaf 2 3 [1; 200]).
Proof.
  split; [cbn; unfold ubyte; repeat split; repeat constructor; lia|]. split; [reflexivity|]. split; reflexivity.
Qed.
