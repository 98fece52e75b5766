(** * Tag objects inside TLV objects: pythoncardx/framework/tlv/bertlv.py, bertag.py

    M_bertlv.v gives every TLV its own tag.  In the code a TLV holds a reference to a tag
    object: [init] makes a copy of the tag it is given (bertlv.py:106, 212), and [getTag]
    returns the TLV's own tag object (bertlv.py:61-62), not a copy.  Here tag objects live
    in a heap and a TLV holds a position. *)
From Verif Require Import Py M_utils M_util M_bertag M_tagobj M_bertlv.

(** A TLV: its class (true: ConstructedBERTLV), [_tag] (None: Python's None), [_length]
    and [_value]. *)
Record htlv : Set := mkL { lkind : bool; ltag : option nat; llen : Z; lval : option (list Z) }.

(** The tag objects (with their class: true is ConstructedBERTag) and the TLV objects of
    the program, oldest first. *)
Record tprog : Set := mkT { tags : list (bool * tagobj); tlvs : list htlv }.
Definition tstart : tprog := mkT [] [].

(** bertlv.py:74-75 *)
Definition h_size (p : tprog) (t : htlv) : res Z :=
  match ltag t with
  | None => Err AttributeError
  | Some i =>
      match nth_error (tags p) i with
      | None => Err AttributeError
      | Some (_, g) => Ok (osize g + getLengthLen (llen t) + llen t)
      end
  end.
(** bertlv.py:77-95, as in M_bertlv.v *)
Definition h_toBytes (p : tprog) (t : htlv) (bOff : Z) : M (list Z) Z :=
  match ltag t with
  | None => raise AttributeError
  | Some i =>
      match nth_error (tags p) i with
      | None => raise AttributeError
      | Some (_, g) =>
          bLen <- obj_toBytes g bOff ;;
          if 127 <? llen t then raise NameError
          else
            aset (bOff + bLen) (llen t) ;;;
            match lval t with
            | None => raise TypeError
            | Some v => arrayCopy_into v 0 (bOff + (bLen + 1)) (llen t)
            end ;;;
            ret (bLen + 1 + llen t)
      end
  end.

(** What the caller does.  The results are positions of tag objects for [NewTag] and
    [GetTag], of TLVs for [NewTLV], and the number returned by the others. *)
Inductive tcall : Set :=
| NewTag (k : bool)                             (* PrimitiveBERTag() or ConstructedBERTag() *)
| TagInit (i : nat) (c : call)                  (* tags[i].init(...) *)
| NewTLV (k : bool)                             (* PrimitiveBERTLV(n) or ConstructedBERTLV(n) *)
| TLVInit (j i : nat) (vArray : list Z) (vOff vLen : Z)  (* tlvs[j].init(tags[i], ...) *)
| GetTag (j : nat)                              (* tlvs[j].getTag() *)
| Append (j a : nat)                            (* tlvs[j].append(tlvs[a]) *)
| Replace (j : nat) (vArray : list Z) (vOff vLen : Z).   (* tlvs[j].replaceValue(...) *)
Inductive tres : Set := RTag (i : nat) | RNone | RTLV (j : nat) | RNum (n : Z).

Definition tstep (c : tcall) (p : tprog) : res tres * tprog :=
  match c with
  | NewTag k => (Ok (RTag (length (tags p))), mkT (tags p ++ [(k, new_obj k)]) (tlvs p))
  | TagInit i c =>
      match nth_error (tags p) i with
      | None => (Err IndexError, p)
      | Some (k, g) =>
          let '(r, g') := M_tagobj.step k c g in
          (rmap (fun _ => RNone) r, mkT (list_upd (tags p) i (k, g')) (tlvs p))
      end
  | NewTLV k => (Ok (RTLV (length (tlvs p))), mkT (tags p) (tlvs p ++ [mkL k None 0 None]))
  | TLVInit j i vArray vOff vLen =>
      (* bertlv.py:103-109, 209-215; copy(tag) is a new object with the same class and attributes *)
      match nth_error (tlvs p) j, nth_error (tags p) i with
      | Some t, Some (k, g) =>
          let t' := mkL (lkind t) (Some (length (tags p))) vLen (Some (py_slice vArray vOff (vOff + vLen))) in
          let p' := mkT (tags p ++ [(k, g)]) (list_upd (tlvs p) j t') in
          (rmap RNum (h_size p' t'), p')
      | _, _ => (Err IndexError, p)
      end
  | GetTag j =>
      match nth_error (tlvs p) j with
      | None => (Err IndexError, p)
      | Some t => (Ok (match ltag t with Some i => RTag i | None => RNone end), p)
      end
  | Append j a =>
      (* bertlv.py:115-120; a PrimitiveBERTLV has no append *)
      match nth_error (tlvs p) j, nth_error (tlvs p) a with
      | Some t, Some u =>
          if lkind t then
            match h_size p u with
            | Err e => (Err e, p)
            | Ok n =>
                match h_toBytes p u 0 (py_repeat 0 n) with
                | (Err e, _) => (Err e, p)
                | (Ok _, array) =>
                    match lval t with
                    | None => (Err AttributeError, p)
                    | Some v =>
                        (* aTLV.size() again, after extend: the same as before (only _value changed) *)
                        let t' := mkL (lkind t) (ltag t) (llen t + n) (Some (v ++ array)) in
                        let p' := mkT (tags p) (list_upd (tlvs p) j t') in
                        (rmap RNum (h_size p' t'), p')
                    end
                end
            end
          else (Err AttributeError, p)
      | _, _ => (Err IndexError, p)
      end
  | Replace j vArray vOff vLen =>
      (* bertlv.py:230-233; a ConstructedBERTLV has no replaceValue *)
      match nth_error (tlvs p) j with
      | None => (Err IndexError, p)
      | Some t =>
          if lkind t then (Err AttributeError, p)
          else
            let '(r, v) := arrayCopy_into vArray vOff 0 vLen (py_repeat 0 vLen) in
            (rmap (fun _ => RNone) r,
             mkT (tags p) (list_upd (tlvs p) j
               (mkL (lkind t) (ltag t) (match r with Ok _ => vLen | Err _ => llen t end) (Some v))))
      end
  end.

Fixpoint trun (cs : list tcall) (p : tprog) : list (res tres) * tprog :=
  match cs with
  | [] => ([], p)
  | c :: cs' =>
      let '(r, p1) := tstep c p in
      let '(rs, p2) := trun cs' p1 in
      (r :: rs, p2)
  end.

(** The TLV with the present state of its tag, as in M_bertlv.v; None while the tag has no
    class or number. *)
Definition tlv_view (p : tprog) (t : htlv) : option tlv :=
  match ltag t with
  | None => Some (mkTLV (lkind t) None (llen t) (lval t))
  | Some i =>
      match nth_error (tags p) i with
      | Some (_, mkObj (Some c) k (Some n) s) => Some (mkTLV (lkind t) (Some (mkTag c k n s)) (llen t) (lval t))
      | _ => None
      end
  end.
