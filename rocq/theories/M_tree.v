(** * Client programs that build, write and read nested BER TLVs with the classes of
      bertlv.py (not in /repo: they say in which order the library is called; every
      step is a call of the library) *)
From Verif Require Import Py M_utils M_util M_bertag M_bertlv.

(** A data object: class, tag number and the value, or the nested objects. *)
Inductive tree : Set :=
| Leaf (c n : Z) (v : list Z)
| Node (c n : Z) (cs : list tree).

(** The tag object, read from its byte with BERTag.getInstance (tags made with
    init(class, number) cannot be used: C47_refuted). *)
Definition tag_object (c : Z) (k : bool) (n : Z) : res tag :=
  BERTag_getInstance [64 * c + (if k then 32 else 0) + n] 0.

(** the children are built and appended in order *)
Definition append_all (build : tree -> res tlv) : list tree -> tlv -> res tlv :=
  fix go (cs : list tree) (self : tlv) : res tlv :=
    match cs with
    | [] => Ok self
    | ch :: cs' =>
        let? child := build ch in
        match append child self with
        | (Ok _, self') => go cs' self'
        | (Err e, _) => Err e
        end
    end.
(** PrimitiveBERTLV(0).init(tag, v, 0, len(v)) for a leaf; ConstructedBERTLV(0).init(tag,
    [], 0, 0) and then one append per child for a node *)
Fixpoint build (t : tree) : res tlv :=
  match t with
  | Leaf c n v =>
      let? g := tag_object c false n in
      Ok (init_tag (newTLV false) g v 0 (zlen v))
  | Node c n cs =>
      let? g := tag_object c true n in
      append_all build cs (init_tag (newTLV true) g [] 0 0)
  end.

(** getValue into a new array, read as unsigned bytes *)
Definition read_value (t : tlv) : res (list Z) :=
  match getValue t 0 (py_repeat 0 (tlen t)) with
  | (Ok _, v) => Ok (map u1 v)
  | (Err e, _) => Err e
  end.

(** reading the object at [off]: its tag with getInstance and getTag, the nested
    objects from getValueOffset on, each [BERTLV.getLength(arr, off)] bytes long *)
Fixpoint read (fuel : nat) (arr : list Z) (off : Z) {struct fuel} : res tree :=
  match fuel with
  | O => Err OutOfFuel
  | S f =>
      let? t := getInstance arr off None in
      match ttag t with
      | None => Err AttributeError
      | Some g =>
          if tconstr g then
            let? total := getLengthStatic arr off in
            let? vo := getValueOffset arr off in
            let? cs := read_all f arr vo (off + total) in
            Ok (Node (tclass g) (tnumber g) cs)
          else
            let? v := read_value t in
            Ok (Leaf (tclass g) (tnumber g) v)
      end
  end
with read_all (fuel : nat) (arr : list Z) (off stop : Z) {struct fuel} : res (list tree) :=
  match fuel with
  | O => Err OutOfFuel
  | S f =>
      if off <? stop then
        let? n := getLengthStatic arr off in
        let? c := read f arr off in
        let? cs := read_all f arr (off + n) stop in
        Ok (c :: cs)
      else Ok []
  end.

(** build, serialise into an array, read back *)
Definition roundtrip (fuel : nat) (t : tree) (off : Z) (out : list Z) : res tree :=
  let? obj := build t in
  match tlv_toBytes obj off out with
  | (Ok _, out') => read fuel out' off
  | (Err e, _) => Err e
  end.
