(** * Which function a call reaches: NotAlwaysStatic (pythoncard/utils.py:21-41) and the
      classes that use it (pythoncardx/framework/tlv/bertag.py, bertlv.py)

    The other files model the functions themselves.  Here: Python's attribute lookup on an
    object and on a class, for the class attributes that occur in these two files, and the
    check of the number of arguments.  Keyword arguments are not modelled. *)
From Verif Require Import Py.
From Coq Require Import String.
Open Scope string_scope.

(** What a class attribute can be: a function with its name and the least and greatest
    number of parameters (None: it has *args), the same under @staticmethod, a
    NotAlwaysStatic(boundname, staticname), or something that is not callable.  None of
    these is a data descriptor. *)
Inductive slot : Set :=
| Func (id : string) (lo : nat) (hi : option nat)
| StaticFn (id : string) (lo : nat) (hi : option nat)
| NAS (boundname staticname : string)
| Data.
Definition cdict : Set := list (string * slot).
(** What an attribute access gives: a bound method, a function, or something else. *)
Inductive got : Set :=
| Bound (id : string) (lo : nat) (hi : option nat)
| Plain (id : string) (lo : nat) (hi : option nat)
| Other.

Fixpoint assoc {A : Type} (l : list (string * A)) (n : string) : option A :=
  match l with
  | [] => None
  | (m, v) :: l' => if String.eqb m n then Some v else assoc l' n
  end.
(** lookup along the method resolution order, the class itself first *)
Fixpoint mro_find (mro : list cdict) (n : string) : option slot :=
  match mro with
  | [] => None
  | c :: r => match assoc c n with Some s => Some s | None => mro_find r n end
  end.

(** getattr(obj, name): the object's own dictionary, then the class attribute bound to the
    object; utils.py:38-39 for NotAlwaysStatic, whose __get__ looks boundname up in its
    turn (the fuel bounds these nested lookups: Python's recursion limit). *)
Fixpoint getattr_obj (fuel : nat) (dict : list (string * got)) (mro : list cdict) (name : string) : res got :=
  match assoc dict name with
  | Some v => Ok v
  | None =>
      match mro_find mro name with
      | None => Err AttributeError
      | Some (Func id lo hi) => Ok (Bound id lo hi)
      | Some (StaticFn id lo hi) => Ok (Plain id lo hi)
      | Some Data => Ok Other
      | Some (NAS b _) => match fuel with O => Err OutOfFuel | S f => getattr_obj f dict mro b end
      end
  end.
(** getattr(cls, name): a function is not bound; utils.py:40-41 for NotAlwaysStatic *)
Fixpoint getattr_cls (fuel : nat) (mro : list cdict) (name : string) : res got :=
  match mro_find mro name with
  | None => Err AttributeError
  | Some (Func id lo hi) => Ok (Plain id lo hi)
  | Some (StaticFn id lo hi) => Ok (Plain id lo hi)
  | Some Data => Ok Other
  | Some (NAS _ s) => match fuel with O => Err OutOfFuel | S f => getattr_cls f mro s end
  end.
(** A call with n positional arguments: the function that runs, or TypeError; a bound
    method passes the object as well. *)
Definition fits (n lo : nat) (hi : option nat) : bool :=
  Nat.leb lo n && match hi with None => true | Some h => Nat.leb n h end.
Definition call (r : res got) (n : nat) : res string :=
  match r with
  | Err e => Err e
  | Ok (Bound id lo hi) => if fits (S n) lo hi then Ok id else Err TypeError
  | Ok (Plain id lo hi) => if fits n lo hi then Ok id else Err TypeError
  | Ok Other => Err TypeError
  end.

(** ** The classes *)
Definition fn (id : string) (n : nat) : slot := Func id n (Some n).
Definition st (id : string) (n : nat) : slot := StaticFn id n (Some n).
(** bertag.py:18-131 *)
Definition cBERTag : cdict :=
  [ ("BER_TAG_CLASS_MASK_APPLICATION", Data); ("BER_TAG_CLASS_MASK_CONTEXT_SPECIFIC", Data);
    ("BER_TAG_CLASS_MASK_PRIVATE", Data); ("BER_TAG_CLASS_MASK_UNIVERSAL", Data);
    ("BER_TAG_TYPE_CONSTRUCTED", Data); ("BER_TAG_TYPE_PRIMITIVE", Data);
    ("__init__", fn "BERTag.__init__" 1);
    ("getInstance", st "BERTag.getInstance" 2);
    ("init", fn "BERTag.init" 3);
    ("_toBytesBound", fn "BERTag._toBytesBound" 3);
    ("_toBytesStatic", st "BERTag._toBytesStatic" 5);
    ("toBytes", NAS "_toBytesBound" "_toBytesStatic");
    ("_sizeBound", fn "BERTag._sizeBound" 1);
    ("_sizeStatic", st "BERTag._sizeStatic" 2);
    ("size", NAS "_sizeBound" "_sizeStatic");
    ("_isConstructedBound", fn "BERTag._isConstructedBound" 1);
    ("_isConstructedStatic", st "BERTag._isConstructedStatic" 2);
    ("isConstructed", NAS "_isConstructedBound" "_isConstructedStatic");
    ("_tagClassBound", fn "BERTag._tagClassBound" 1);
    ("_tagClassStatic", st "BERTag._tagClassStatic" 2);
    ("tagClass", NAS "_tagClassBound" "_tagClassStatic");
    ("_tagNumberBound", fn "BERTag._tagNumberBound" 1);
    ("_tagNumberStatic", st "BERTag._tagNumberStatic" 2);
    ("tagNumber", NAS "_tagNumberBound" "_tagNumberStatic");
    ("__str__", fn "BERTag.__str__" 1);
    ("__eq__", fn "BERTag.__eq__" 2) ].
(** bertag.py:133-150 *)
Definition cPrimTag : cdict :=
  [ ("__init__", fn "PrimitiveBERTag.__init__" 1); ("init", fn "PrimitiveBERTag.init" 3) ].
(** bertag.py:152-167 *)
Definition cConsTag : cdict :=
  [ ("__init__", fn "ConstructedBERTag.__init__" 1); ("init", fn "ConstructedBERTag.init" 3) ].
(** bertlv.py:33-96 *)
Definition cBERTLV : cdict :=
  [ ("__init__", fn "BERTLV.__init__" 1);
    ("getInstance", StaticFn "BERTLV.getInstance" 2 (Some 3%nat));
    ("init", fn "BERTLV.init" 4);
    ("getTag", fn "BERTLV.getTag" 1);
    ("_getLengthBound", fn "BERTLV._getLengthBound" 1);
    ("_getLengthStatic", st "BERTLV._getLengthStatic" 2);
    ("getLength", NAS "_getLengthBound" "_getLengthStatic");
    ("size", fn "BERTLV.size" 1);
    ("_toBytesBound", fn "BERTLV._toBytesBound" 3);
    ("toBytes", fn "BERTLV._toBytesBound" 3) ].
(** bertlv.py:98-202; line 185: _findNextStatic has no @staticmethod *)
Definition cConsTLV : cdict :=
  [ ("__init__", fn "ConstructedBERTLV.__init__" 2);
    ("init", Func "ConstructedBERTLV.init" 2 None);
    ("_appendBound", fn "ConstructedBERTLV._appendBound" 2);
    ("_appendStatic", st "ConstructedBERTLV._appendStatic" 4);
    ("append", NAS "_appendBound" "_appendStatic");
    ("_find", Func "ConstructedBERTLV._find" 2 (Some 3%nat));
    ("_findBound", fn "ConstructedBERTLV._findBound" 2);
    ("_findStatic", st "ConstructedBERTLV._findStatic" 4);
    ("find", NAS "_findBound" "_findStatic");
    ("_findNextBound", fn "ConstructedBERTLV._findNextBound" 4);
    ("_findNextStatic", fn "ConstructedBERTLV._findNextStatic" 5);
    ("findNext", NAS "_findNextBound" "_findNextStatic") ].
(** bertlv.py:204-233 *)
Definition cPrimTLV : cdict :=
  [ ("__init__", fn "PrimitiveBERTLV.__init__" 2);
    ("init", Func "PrimitiveBERTLV.init" 2 None);
    ("getValueOffset", st "PrimitiveBERTLV.getValueOffset" 2);
    ("getValue", fn "PrimitiveBERTLV.getValue" 3);
    ("replaceValue", fn "PrimitiveBERTLV.replaceValue" 4) ].

(** the classes with their bases (object has none of the names in question) *)
Inductive tlvcls : Set := TTag | TPrimTag | TConsTag | TTlv | TConsTlv | TPrimTlv.
Definition mro_of (c : tlvcls) : list cdict :=
  match c with
  | TTag => [cBERTag]
  | TPrimTag => [cPrimTag; cBERTag]
  | TConsTag => [cConsTag; cBERTag]
  | TTlv => [cBERTLV]
  | TConsTlv => [cConsTLV; cBERTLV]
  | TPrimTlv => [cPrimTLV; cBERTLV]
  end.
(** the attributes the constructors and methods give the objects: bertag.py:27-29, 46 ff.;
    bertlv.py:35-37 *)
Definition dict_of (c : tlvcls) : list (string * got) :=
  match c with
  | TTag | TPrimTag | TConsTag => [("_tagClass", Other); ("_tagNumber", Other); ("_size", Other); ("_tagConstr", Other)]
  | _ => [("_tag", Other); ("_length", Other); ("_value", Other)]
  end.
