(** * Nested BER data objects and their octets (X.690), written down independently *)
From Verif Require Import Py S_Base M_tree.

(** class 0..3, non-negative tag number, octets as values *)
Fixpoint is_tree (t : tree) : Prop :=
  match t with
  | Leaf c n v => 0 <= c <= 3 /\ 0 <= n /\ Forall ubyte v
  | Node c n cs => 0 <= c <= 3 /\ 0 <= n /\ (fix all cs := match cs with [] => True | ch :: cs' => is_tree ch /\ all cs' end) cs
  end.

(** tags up to 30, contents up to 127 octets: one identifier octet, one length octet *)
Fixpoint ber (t : tree) : list Z :=
  match t with
  | Leaf c n v => (64 * c + n) :: zlen v :: v
  | Node c n cs => let v := concat (map ber cs) in (64 * c + 32 + n) :: zlen v :: v
  end.
Fixpoint small (t : tree) : Prop :=
  match t with
  | Leaf c n v => 0 <= c <= 3 /\ 0 <= n <= 30 /\ Forall ubyte v /\ zlen v <= 127
  | Node c n cs => 0 <= c <= 3 /\ 0 <= n <= 30 /\ zlen (concat (map ber cs)) <= 127
      /\ (fix all cs := match cs with [] => True | ch :: cs' => small ch /\ all cs' end) cs
  end.

(** C98: what is built and written is read back *)
Definition C98_full : Prop := forall t, is_tree t -> exists room, forall off out fuel,
  0 <= off -> off + room <= zlen out -> room < Z.of_nat fuel -> roundtrip fuel t off out = Ok t.

(** class, kind and number of the outermost tag *)
Definition root_tag (t : tree) : Z * bool * Z :=
  match t with Leaf c n _ => (c, false, n) | Node c n _ => (c, true, n) end.
Definition has_root (c : Z) (k : bool) (n : Z) (t : tree) : bool :=
  let '(c', k', n') := root_tag t in (c' =? c) && Bool.eqb k' k && (n' =? n).
