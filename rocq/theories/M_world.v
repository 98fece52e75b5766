(** * The global variable _current of pythoncard/framework/apdu.py and the static
      methods of APDU; the applet of test/testApplet.py *)
From Verif Require Import Py M_utils M_util M_apdu.

(** ** apdu.py *)

(** apdu.py:62-76: the attribute buffer when line 78 is reached.  Nothing before
    that line assigns _current. *)
Definition header_part (b : list Z) : res (list Z) :=
  match copy_cells b 0 4 (py_repeat 0 (255 + 2)) with
  | (Err e, _) => Err e
  | (Ok _, buf4) =>
      let? P3len :=
        (if 4 <? zlen b then
           let? lc := py_get b OFFSET_LC in
           Ok (if (lc =? 0) && (OFFSET_LC + 3 <? zlen b) then 3 else 1)
         else Ok 0) in
      match copy_cells b OFFSET_LC P3len buf4 with
      | (Err e, _) => Err e
      | (Ok _, bufP3) => Ok bufP3
      end
  end.

(** The APDU objects created so far, by order of creation, and _current.  An object
    whose constructor raised after line 79 has no attributes but the two buffers,
    the incoming offset, the state and the flag _broken: [WPart] (the client can
    still reach it with getCurrentAPDU). *)
Inductive wobj : Set :=
| WFull (s : apdu)
| WPart (raw buf : list Z).
Record world : Set := mkWorld { w_objs : list wobj; w_cur : option nat }.
(** apdu.py:31 *)
Definition world0 : world := mkWorld [] None.

(** apdu.py:59-114 with lines 78-79: [APDU(b)]; the result names the object *)
Definition construct (b : list Z) : M world nat :=
  if zlen b <? 4 then raise (APDUExc BAD_LENGTH)
  else
    bf <- lift (header_part b) ;;
    w <- get ;;
    let id := length (w_objs w) in
    match newAPDU b with
    | Ok s => put (mkWorld (w_objs w ++ [WFull s]) (Some id)) ;;; ret id
    | Err e => put (mkWorld (w_objs w ++ [WPart b bf]) (Some id)) ;;; raise e
    end.

(** apdu.py:246-248 *)
Definition getCurrentAPDU (w : world) : option nat := w_cur w.
(** the attribute buffer of an object *)
Definition obj_buf (o : wobj) : list Z := match o with WFull s => buf s | WPart _ b => b end.
(** apdu.py:250-252; None has no method getBuffer *)
Definition getCurrentAPDUBuffer (w : world) : res (list Z) :=
  match w_cur w with
  | None => Err AttributeError
  | Some id => match nth_error (w_objs w) id with Some o => Ok (obj_buf o) | None => Err AttributeError end
  end.
(** apdu.py:254-256 *)
Definition getCLAChannel (w : world) : res Z :=
  let? b := getCurrentAPDUBuffer w in
  let? cla := py_get b OFFSET_CLA in
  Ok (Z.land cla 3).

(** apdu.py:145-155 *)
Definition getInBlockSize : Z := IN_BLOCKSIZE.
Definition getOutBlockSize : Z := OUT_BLOCKSIZE.
Definition getProtocol : Z := Z.lor (Z.shiftl 2 4) 6.

(** Histories: creations and calls on objects whose creation returned (not in
    /repo: what the theorems quantify over); exceptions are caught.  Methods on
    an interrupted object are not modelled ([WCall] does nothing there). *)
Inductive wop : Set :=
| WNew (b : list Z)
| WCall (id : nat) (o : apdu_op).
Definition wstep (o : wop) : M world (option nat) :=
  match o with
  | WNew b => id <- construct b ;; ret (Some id)
  | WCall id o =>
      fun w => match nth_error (w_objs w) id with
               | Some (WFull s) =>
                   let '(r, s') := apdu_step o s in
                   (rmap (fun _ => None) r, mkWorld (list_upd (w_objs w) id (WFull s')) (w_cur w))
               | _ => (Ok None, w)
               end
  end.
Fixpoint wrun (h : list wop) (w : world) : list (wop * res (option nat)) * world :=
  match h with
  | [] => ([], w)
  | o :: h' =>
      let '(r, w') := wstep o w in
      let '(tr, w'') := wrun h' w' in
      ((o, r) :: tr, w'')
  end.

(** ** test/testApplet.py *)

(** ISO7816.py: the status words used *)
Definition SW_CLA_NOT_SUPPORTED := 28160. (* 0x6E00 *)
Definition SW_INS_NOT_SUPPORTED := 27904. (* 0x6D00 *)
Definition OFFSET_INS := 1.

(** [buf[i] = v] on the list returned by getBuffer *)
Definition write_buffer (i v : Z) : M apdu unit :=
  fun s => match aset i v (buf s) with
           | (Ok _, b) => (Ok tt, with_buf b s)
           | (Err e, _) => (Err e, s)
           end.
(** testApplet.py:48-52 *)
Definition choice1 : M apdu unit :=
  setIncomingAndReceive ;;;
  write_buffer 0 55 ;;; write_buffer 1 77 ;;; write_buffer 2 99 ;;;
  setOutgoingAndSend 0 3.
(** testApplet.py:30-46 with applet.py:26-28; [selecting] is the attribute
    _selectingApplet, missing ([None]) until the surrounding system sets it *)
Definition base_process (selecting : option bool) : M apdu unit :=
  match selecting with
  | None => raise AttributeError
  | Some true => ret tt
  | Some false =>
      s <- get ;;
      inter <- lift (isISOInterindustryCLA s) ;;
      if inter : bool then raise (ISOExc SW_CLA_NOT_SUPPORTED)
      else
        ins <- lift (py_get (buf s) OFFSET_INS) ;;
        if ins =? 8 then choice1
        else if ins =? 56 then ret tt
        else if ins =? 42 then ret tt
        else raise (ISOExc SW_INS_NOT_SUPPORTED)
  end.
(** testApplet.py:72-80: what the card answers; exceptions other than ISOException
    escape *)
Definition respond (process : M apdu unit) (command : list Z) : res (list Z) :=
  let? s := newAPDU command in
  match process s with
  | (Ok _, s') => Ok (py_slice (raw s') 0 (outlen s') ++ [144; 0])
  | (Err (ISOExc sw), _) => Ok [sw / 256; sw mod 256]
  | (Err e, _) => Err e
  end.

(** ** applet.py:23-24, 30-31, 33-46: the defaults of the class Applet *)
Definition applet_select : res bool := Ok true.
Definition applet_reSelectingApplet : res bool := Ok false.
Definition applet_selectingApplet (attr : option bool) : res bool :=
  match attr with Some b => Ok b | None => Err AttributeError end.
Definition applet_install : res unit := Err NotImplementedError.
Definition applet_process : M apdu unit := raise NotImplementedError.
