(** * Model of pythoncardx/framework/tlv/bertlv.py *)
From Verif Require Import Py M_utils M_util M_bertag.

(** bertlv.py:13-24: (number of length bytes, length).  Reading position 0 of
    an empty list raises IndexError, which nothing catches. *)
Definition getLengthPair (bArray : list Z) : res (Z * Z) :=
  let? b := py_get bArray 0 in
  if Z.land b 128 =? 128 then
    let length := Z.land b 127 in
    Ok (length, fold_left (fun value i => Z.shiftl value 8 + i) (rev (py_slice bArray 1 (length + 1))) 0)
  else Ok (1, b).

(** bertlv.py:26-31 *)
Definition getLengthLen (length : Z) : Z :=
  if 127 <? length then length / 127 + 1 else 1.

(** The attributes (bertlv.py:34-37) and the class of the object: [tkind] is
    true for ConstructedBERTLV, false for PrimitiveBERTLV.  [None] is Python's
    None.  The value list is never shared with another object: it is built by a
    slice or a comprehension (lines 108, 214, 231). *)
Record tlv : Set := mkTLV { tkind : bool; ttag : option tag; tlen : Z; tval : option (list Z) }.

(** bertlv.py:34-37, 99-100, 205-206 *)
Definition newTLV (kind : bool) : tlv := mkTLV kind None 0 None.

(** bertlv.py:74-75; [self._tag.size()] on None raises AttributeError *)
Definition tlv_size (t : tlv) : res Z :=
  match ttag t with
  | None => Err AttributeError
  | Some g => Ok (tag_size g + getLengthLen (tlen t) + tlen t)
  end.

(** bertlv.py:103-109 and 209-215 *)
Definition init_tag (t : tlv) (g : tag) (vArray : list Z) (vOff vLen : Z) : tlv :=
  mkTLV (tkind t) (Some g) vLen (Some (py_slice vArray vOff (vOff + vLen))).

(** bertlv.py:66-71 *)
Definition getLengthStatic (berTLVArray : list Z) (bOff : Z) : res Z :=
  let? g := BERTag_getInstance berTLVArray bOff in
  let? (llen, length) := getLengthPair (py_slice_from berTLVArray (bOff + tag_size g)) in
  Ok (tag_size g + llen + length).

(** bertlv.py:39-54 *)
Definition getInstance (bArray : list Z) (bOff : Z) (bLen : option Z) : res tlv :=
  let? bLen := match bLen with Some n => Ok n | None => getLengthStatic bArray bOff end in
  let? g := BERTag_getInstance bArray bOff in
  let t := newTLV (tconstr g) in
  let bOff := bOff + tag_size g in
  let? (l, _) := getLengthPair (py_slice_from bArray bOff) in
  Ok (init_tag t g bArray (bOff + l) (bLen - tag_size g - l)).

(** bertlv.py:56-59 (called by lines 111-113 and 217-219): the assignment
    rebinds the local name [self]; the object is the state and does not
    change. *)
Definition init_bytes (bArray : list Z) (bOff bLen : Z) : M tlv Z :=
  t <- lift (getInstance bArray bOff (Some bLen)) ;;
  lift (tlv_size t).

(** bertlv.py:77-95; the state is [outBuf].  For a length above 127 lines 80-84
    only touch local names (the loop divides [length] by 256 until it is at most
    127) and line 85 uses the undefined name [chunk]. *)
Definition tlv_toBytes (t : tlv) (bOff : Z) : M (list Z) Z :=
  match ttag t with
  | None => raise AttributeError
  | Some g =>
      bLen <- tag_toBytes g bOff ;;
      if 127 <? tlen t then raise NameError
      else
        aset (bOff + bLen) (tlen t) ;;;
        match tval t with
        | None => raise TypeError
        | Some v => arrayCopy_into v 0 (bOff + (bLen + 1)) (tlen t)
        end ;;;
        ret (bLen + 1 + tlen t)
  end.

(** bertlv.py:115-120; the state is the constructed TLV.  [self._value] None
    (an uninitialised object) has no [extend]. *)
Definition append (aTLV : tlv) : M tlv Z :=
  n <- lift (tlv_size aTLV) ;;
  array <- (fun s => match tlv_toBytes aTLV 0 (py_repeat 0 n) with
                     | (Ok _, array) => (Ok array, s)
                     | (Err e, _) => (Err e, s)
                     end) ;;
  s <- get ;;
  match tval s with
  | None => raise AttributeError
  | Some v =>
      put (mkTLV (tkind s) (ttag s) (tlen s) (Some (v ++ array))) ;;;
      m <- lift (tlv_size aTLV) ;;
      s <- get ;;
      put (mkTLV (tkind s) (ttag s) (tlen s + m) (tval s)) ;;;
      s <- get ;;
      lift (tlv_size s)
  end.

(** bertlv.py:121-128; the state is [berTLVOutArray].  A PrimitiveBERTLV has no
    [append]. *)
Definition appendStatic (berTLVInArray : list Z) (bTLVInOff : Z) (bTLVOutOff : Z) : M (list Z) Z :=
  intlv <- lift (getInstance berTLVInArray bTLVInOff None) ;;
  outArray <- get ;;
  outtlv <- lift (getInstance outArray bTLVOutOff None) ;;
  if tkind outtlv then
    match append intlv outtlv with
    | (Ok _, outtlv) => tlv_toBytes outtlv bTLVOutOff
    | (Err e, _) => raise e
    end
  else raise AttributeError.

(** bertag.py:128-131 where [other] may be None: AttributeError *)
Definition tag_eq_opt (g : option tag) (other : option tag) : res bool :=
  match g, other with
  | Some g, Some h => Ok (tag_eqb g h)
  | _, _ => Err AttributeError
  end.

(** bertlv.py:131-138 *)
Fixpoint find_ (fuel : nat) (self : tlv) (g : option tag) (offset : Z) : res Z :=
  match fuel with
  | O => Err OutOfFuel
  | S f =>
      if offset <? tlen self then
        match tval self with
        | None => Err TypeError
        | Some v =>
            let? t := getInstance v offset None in
            let? b := tag_eq_opt (ttag t) g in
            if b then Ok offset
            else
              let? n := tlv_size t in
              find_ f self g (offset + n)
        end
      else Ok (-1)
  end.

Definition getInstance_of (self : tlv) (offset : Z) : res tlv :=
  match tval self with
  | None => Err TypeError
  | Some v => getInstance v offset None
  end.

(** bertlv.py:140-150 *)
Definition findBound (fuel : nat) (self : tlv) (g : option tag) : res (option tlv) :=
  match g with
  | None =>
      if 0 <? tlen self then rmap Some (getInstance_of self 0) else Ok None
  | Some _ =>
      let? offset := find_ fuel self g 0 in
      if offset =? -1 then Ok None
      else rmap Some (getInstance_of self offset)
  end.

(** bertlv.py:151-164.  [_find] is not defined on PrimitiveBERTLV. *)
Definition findStatic (fuel : nat) (berTLVArray : list Z) (bTLVOff : Z)
    (berTagArray : option (list Z)) (bTagOff : Z) : res Z :=
  let? t := getInstance berTLVArray bTLVOff None in
  match ttag t with
  | None => Err AttributeError
  | Some g =>
      let firstOff := bTLVOff + tag_size g + getLengthLen (tlen t) in
      match berTagArray with
      | None => if 0 <? tlen t then Ok firstOff else Ok (-1)
      | Some ta =>
          if tkind t then
            let? h := BERTag_getInstance ta bTagOff in
            let? offset := find_ fuel t (Some h) 0 in
            if offset =? -1 then Ok (-1) else Ok (firstOff + offset)
          else Err AttributeError
      end
  end.

(** [l == l'] where either may be None *)
Definition opt_list_eqb (l l' : option (list Z)) : bool :=
  match l, l' with
  | None, None => true
  | Some l, Some l' => list_eqb l l'
  | _, _ => false
  end.

(** bertlv.py:171-178: the loop counting occurrences.  [Ok None] is the return
    of line 174, [Ok (Some offset)] the normal exit.  [fuel] bounds both loops. *)
Fixpoint occurrence_loop (fuel : nat) (self aTLV : tlv) (i occurrenceNum offset : Z) : res (option Z) :=
  match fuel with
  | O => Err OutOfFuel
  | S f =>
      if i <? occurrenceNum then
        let? offset := find_ fuel self (ttag aTLV) offset in
        if offset =? -1 then Ok None
        else
          let? t := getInstance_of self offset in
          let? n := tlv_size t in
          occurrence_loop f self aTLV
            (if opt_list_eqb (tval t) (tval aTLV) then i + 1 else i) occurrenceNum (offset + n)
      else Ok (Some offset)
  end.

(** bertlv.py:167-184 *)
Definition findNextBound (fuel : nat) (self : tlv) (g : option tag) (aTLV : tlv) (occurrenceNum : Z)
  : res (option tlv) :=
  let? o := occurrence_loop fuel self aTLV 0 occurrenceNum 0 in
  match o with
  | None => Ok None
  | Some offset =>
      match g with
      | None => rmap Some (getInstance_of self offset)
      | Some _ =>
          let? r := find_ fuel self g offset in
          if r =? -1 then Ok None else rmap Some (getInstance_of self r)
      end
  end.

(** bertlv.py:190-193: the loop; [Ok false] is the return of line 193. *)
Fixpoint start_loop (fuel : nat) (t : tlv) (firstOff startOffset correctStartOff : Z) : res bool :=
  match fuel with
  | O => Err OutOfFuel
  | S f =>
      if firstOff + correctStartOff <? startOffset then
        let? c := (if tkind t then find_ fuel t None correctStartOff else Err AttributeError) in
        if c =? -1 then Ok false else start_loop f t firstOff startOffset c
      else Ok true
  end.
(** bertlv.py:185-201.  Line 195 uses the undefined name [startOff] (after
    looking up [tlv._find], so on a PrimitiveBERTLV the error is
    AttributeError). *)
Definition findNextStatic (fuel : nat) (berTLVArray : list Z) (bTLVOff startOffset : Z)
    (berTagArray : option (list Z)) (bTagOff : Z) : res Z :=
  let? t := getInstance berTLVArray bTLVOff None in
  match ttag t with
  | None => Err AttributeError
  | Some g =>
      let firstOff := bTLVOff + tag_size g + getLengthLen (tlen t) in
      let? b := start_loop fuel t firstOff startOffset 0 in
      if b then (if tkind t then Err NameError else Err AttributeError)
      else Ok (-1)
  end.

(** bertlv.py:221-224 *)
Definition getValueOffset (berTLVArray : list Z) (bTLVOff : Z) : res Z :=
  let? t := getInstance berTLVArray bTLVOff None in
  match ttag t with
  | None => Err AttributeError
  | Some g => Ok (bTLVOff + tag_size g + getLengthLen (tlen t))
  end.

(** bertlv.py:226-228; the state is [tlvValue].  With [self._value] None
    (uninitialised) the length is 0 and nothing is read. *)
Definition getValue (t : tlv) (tOff : Z) : M (list Z) Z :=
  arrayCopy_into (match tval t with Some v => v | None => [] end) 0 tOff (tlen t) ;;;
  ret (tlen t).

(** bertlv.py:230-233; the state is the TLV.  The new value list is installed
    before the copy. *)
Definition replaceValue (vArray : list Z) (vOff vLen : Z) : M tlv unit :=
  fun s =>
    let '(r, v) := arrayCopy_into vArray vOff 0 vLen (py_repeat 0 vLen) in
    match r with
    | Ok _ => (Ok tt, mkTLV (tkind s) (ttag s) vLen (Some v))
    | Err e => (Err e, mkTLV (tkind s) (ttag s) (tlen s) (Some v))
    end.
