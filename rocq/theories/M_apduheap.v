(** * APDU objects and the lists they share: pythoncard/framework/apdu.py

    M_apdu.v gives every APDU its own two lists.  In the code [self.__buffer] is the list
    the constructor was called with (line 62: no copy), and sendBytes and sendBytesLong
    store into it (lines 219, 231), so it is shared with the caller and with every other
    APDU built from it.  Here lists live in a heap and an object holds the positions of
    its two lists.  [buffer] is a list made by the constructor (line 63) and handed out by
    getBuffer (lines 142-143), so it can be shared too, even as the [bytesarr] of another
    APDU. *)
From Verif Require Import Py M_utils M_util M_apdu.

(** The lists of the program; a position stands for the identity of the list. *)
Definition heap := list (list Z).
Definition hget (h : heap) (l : nat) : list Z := nth l h [].
Definition hset (h : heap) (l : nat) (v : list Z) : heap := list_upd h l v.

(** An APDU: the lists [__buffer] and [buffer], and the attributes that are not lists
    ([orest]; its fields [raw] and [buf] are not used). *)
Record hapdu : Set := mkH { oraw : nat; obuf : nat; orest : apdu }.
Definition with_lists (r b : list Z) (s : apdu) : apdu :=
  mkAPDU r b (offin s) (st s) (broken s) (cdataoffs s) (M_apdu.type s) (Nc s) (Ne s) (lelength s) (outlen s) (curout s).
(** the object with the present contents of its lists *)
Definition view (h : heap) (o : hapdu) : apdu := with_lists (hget h (oraw o)) (hget h (obuf o)) (orest o).

(** The program: its lists and the APDU objects it made, oldest first. *)
Record prog : Set := mkP { lists : heap; objs : list hapdu }.

(** What the caller (applet or terminal) does.  [CNew l] is APDU(l); [CCall k o] a method
    of object k (in [OpSendBytesLong d] the data is a list nobody else holds);
    [CSendFrom k l] is objs[k].sendBytesLong(l, ...) for a list l of the heap; [CList v] makes
    a list and [CStore l i v] is l[i] = v. *)
Inductive pcall : Set :=
| CNew (l : nat)
| CCall (k : nat) (o : apdu_op)
| CSendFrom (k l : nat) (bOffs len : Z)
| CList (v : list Z)
| CStore (l : nat) (i v : Z).

(** A method call: the methods assign to cells or slices of the two lists
    (lines 171, 185, 219, 231), never to the attributes that hold them. *)
Definition call_on (k : nat) (o : apdu_op) (p : prog) : res (option Z) * prog :=
  match nth_error (objs p) k with
  | None => (Err IndexError, p)
  | Some x =>
      let '(r, s) := apdu_step o (view (lists p) x) in
      (r, mkP (hset (hset (lists p) (oraw x) (raw s)) (obuf x) (buf s))
              (list_upd (objs p) k (mkH (oraw x) (obuf x) s)))
  end.

Definition pstep (c : pcall) (p : prog) : res (option Z) * prog :=
  match c with
  | CNew l =>
      (* lines 59-114; the new list [buffer] takes the next position *)
      match newAPDU (hget (lists p) l) with
      | Err e => (Err e, p)
      | Ok s => (Ok None, mkP (lists p ++ [buf s]) (objs p ++ [mkH l (length (lists p)) s]))
      end
  | CCall k o => call_on k o p
  | CSendFrom k l bOffs len => call_on k (OpSendBytesLong (hget (lists p) l) bOffs len) p
  | CList v => (Ok None, mkP (lists p ++ [v]) (objs p))
  | CStore l i v =>
      match aset i v (hget (lists p) l) with
      | (Ok _, w) => (Ok None, mkP (hset (lists p) l w) (objs p))
      | (Err e, _) => (Err e, p)
      end
  end.

Fixpoint prun (cs : list pcall) (p : prog) : list (res (option Z)) * prog :=
  match cs with
  | [] => ([], p)
  | c :: cs' =>
      let '(r, p1) := pstep c p in
      let '(rs, p2) := prun cs' p1 in
      (r :: rs, p2)
  end.

(** The calls made on object k during a run (from when it exists), with the data sent and
    the results. *)
Definition call_of (k : nat) (c : pcall) (p : prog) : option apdu_op :=
  match nth_error (objs p) k with
  | None => None
  | Some _ =>
      match c with
      | CCall j o => if Nat.eqb j k then Some o else None
      | CSendFrom j l bOffs len => if Nat.eqb j k then Some (OpSendBytesLong (hget (lists p) l) bOffs len) else None
      | _ => None
      end
  end.
Fixpoint calls_of (k : nat) (cs : list pcall) (p : prog) : list (apdu_op * res (option Z)) :=
  match cs with
  | [] => []
  | c :: cs' =>
      let '(r, p1) := pstep c p in
      match call_of k c p with
      | Some o => [(o, r)]
      | None => []
      end ++ calls_of k cs' p1
  end.
