(** * Vocabulary of the statements about C118: the documented interface *)
From Verif Require Import Py S_Base M_lookup.
From Coq Require Import String.
Open Scope string_scope.

(** A documented method: its class, name, whether it is static, its number of arguments. *)
Record doc : Set := mkDoc { d_cls : tlvcls; d_name : string; d_static : bool; d_args : nat }.
(** The methods of the package javacardx.framework.tlv (Java Card API 2.2.2 and later) *)
Definition jc_tlv_api : list doc :=
  [ mkDoc TTag "getInstance" true 2; mkDoc TTag "init" false 2; mkDoc TTag "equals" false 1;
    mkDoc TTag "size" false 0; mkDoc TTag "size" true 2;
    mkDoc TTag "toBytes" false 2; mkDoc TTag "toBytes" true 5;
    mkDoc TTag "tagNumber" false 0; mkDoc TTag "tagNumber" true 2;
    mkDoc TTag "tagClass" false 0; mkDoc TTag "tagClass" true 2;
    mkDoc TTag "isConstructed" false 0; mkDoc TTag "isConstructed" true 2;
    mkDoc TTag "verifyFormat" true 2;
    mkDoc TPrimTag "init" false 2; mkDoc TConsTag "init" false 2;
    mkDoc TTlv "getInstance" true 3; mkDoc TTlv "init" false 3;
    mkDoc TTlv "getTag" false 0; mkDoc TTlv "getTag" true 4;
    mkDoc TTlv "getLength" false 0; mkDoc TTlv "getLength" true 2;
    mkDoc TTlv "size" false 0; mkDoc TTlv "toBytes" false 2; mkDoc TTlv "verifyFormat" true 3;
    mkDoc TConsTlv "init" false 2; mkDoc TConsTlv "init" false 3; mkDoc TConsTlv "init" false 4;
    mkDoc TConsTlv "append" false 1; mkDoc TConsTlv "append" true 4; mkDoc TConsTlv "delete" false 2;
    mkDoc TConsTlv "find" false 1; mkDoc TConsTlv "find" true 4;
    mkDoc TConsTlv "findNext" false 3; mkDoc TConsTlv "findNext" true 5;
    mkDoc TPrimTlv "init" false 3; mkDoc TPrimTlv "init" false 4;
    mkDoc TPrimTlv "appendValue" false 3; mkDoc TPrimTlv "appendValue" true 5;
    mkDoc TPrimTlv "getValue" false 2; mkDoc TPrimTlv "getValueOffset" true 2;
    mkDoc TPrimTlv "replaceValue" false 3; mkDoc TPrimTlv "toBytes" true 7 ].

(** The classes [sub] (an application's subclasses, most derived first) and the object's
    own dictionary [dict] define none of the names of the documented methods, and none of
    the names that start with an underscore and belong to the package. *)
Definition package_names : list string :=
  map d_name jc_tlv_api ++ flat_map (fun c => map fst c) [cBERTag; cPrimTag; cConsTag; cBERTLV; cConsTLV; cPrimTLV].
Definition adds_only (sub : list cdict) (dict : list (string * got)) : Prop :=
  forall n, In n package_names -> assoc dict n = None /\ Forall (fun c => assoc c n = None) sub.

(** the documented call: on the class for a static method, on an object otherwise *)
Definition documented_call (fuel : nat) (dict : list (string * got)) (sub : list cdict) (d : doc) : res string :=
  call (if d_static d then getattr_cls fuel (sub ++ mro_of (d_cls d)) (d_name d)
        else getattr_obj fuel dict (sub ++ mro_of (d_cls d)) (d_name d)) (d_args d).

(** C118: every documented method can be called as documented *)
Definition C118_full : Prop := forall d fuel dict sub, In d jc_tlv_api -> (1 <= fuel)%nat -> adds_only sub dict ->
  exists f, documented_call fuel dict sub d = Ok f.

(** The function of the package that implements a documented method, by name *)
Definition impl (d : doc) : option string :=
  let two b s := Some (if d_static d then s else b) in
  match d_cls d with
  | TTag =>
      if String.eqb (d_name d) "getInstance" then Some "BERTag.getInstance"
      else if String.eqb (d_name d) "init" then Some "BERTag.init"
      else if String.eqb (d_name d) "size" then two "BERTag._sizeBound" "BERTag._sizeStatic"
      else if String.eqb (d_name d) "toBytes" then two "BERTag._toBytesBound" "BERTag._toBytesStatic"
      else if String.eqb (d_name d) "tagNumber" then two "BERTag._tagNumberBound" "BERTag._tagNumberStatic"
      else if String.eqb (d_name d) "tagClass" then two "BERTag._tagClassBound" "BERTag._tagClassStatic"
      else if String.eqb (d_name d) "isConstructed" then two "BERTag._isConstructedBound" "BERTag._isConstructedStatic"
      else None
  | TPrimTag => Some "PrimitiveBERTag.init"
  | TConsTag => Some "ConstructedBERTag.init"
  | TTlv =>
      if String.eqb (d_name d) "getInstance" then Some "BERTLV.getInstance"
      else if String.eqb (d_name d) "init" then Some "BERTLV.init"
      else if String.eqb (d_name d) "getTag" then (if d_static d then None else Some "BERTLV.getTag")
      else if String.eqb (d_name d) "getLength" then two "BERTLV._getLengthBound" "BERTLV._getLengthStatic"
      else if String.eqb (d_name d) "size" then Some "BERTLV.size"
      else if String.eqb (d_name d) "toBytes" then Some "BERTLV._toBytesBound"
      else None
  | TConsTlv =>
      if String.eqb (d_name d) "init" then Some "ConstructedBERTLV.init"
      else if String.eqb (d_name d) "append" then two "ConstructedBERTLV._appendBound" "ConstructedBERTLV._appendStatic"
      else if String.eqb (d_name d) "find" then two "ConstructedBERTLV._findBound" "ConstructedBERTLV._findStatic"
      else if String.eqb (d_name d) "findNext" then two "ConstructedBERTLV._findNextBound" "ConstructedBERTLV._findNextStatic"
      else None
  | TPrimTlv =>
      if String.eqb (d_name d) "init" then Some "PrimitiveBERTLV.init"
      else if String.eqb (d_name d) "getValue" then Some "PrimitiveBERTLV.getValue"
      else if String.eqb (d_name d) "getValueOffset" then Some "PrimitiveBERTLV.getValueOffset"
      else if String.eqb (d_name d) "replaceValue" then Some "PrimitiveBERTLV.replaceValue"
      else None
  end.
(** the names of the methods that are both static and not *)
Definition two_way : list (tlvcls * string * nat) :=
  [ (TTag, "size", 2%nat); (TTag, "toBytes", 5%nat); (TTag, "tagNumber", 2%nat); (TTag, "tagClass", 2%nat);
    (TTag, "isConstructed", 2%nat); (TTlv, "getLength", 2%nat); (TConsTlv, "append", 4%nat);
    (TConsTlv, "find", 4%nat); (TConsTlv, "findNext", 5%nat) ].
(** those that are only static *)
Definition one_way : list (tlvcls * string * nat * string) :=
  [ (TTag, "getInstance", 2%nat, "BERTag.getInstance"); (TTlv, "getInstance", 3%nat, "BERTLV.getInstance");
    (TPrimTlv, "getValueOffset", 2%nat, "PrimitiveBERTLV.getValueOffset") ].
