(** * pyDes: getters, setters on existing objects, histories with setter calls *)
From Verif Require Import Py M_des.

(** pyDes.py:126-128, 135-137, 143-145, 153-155, 161-163: the getters *)
Definition getKey (d : des) : list Z := b_key (d_base d).
Definition getMode (d : des) : Z := b_mode (d_base d).
Definition getPadding (d : des) : list Z := b_pad (d_base d).
Definition getPadMode (d : des) : Z := b_padmode (d_base d).
Definition getIV (d : des) : list Z := b_iv (d_base d).
Definition t_getKey (d : tdes) : list Z := b_key (t_base d).
Definition t_getMode (d : tdes) : Z := b_mode (t_base d).
Definition t_getPadding (d : tdes) : list Z := b_pad (t_base d).
Definition t_getPadMode (d : tdes) : Z := b_padmode (t_base d).
Definition t_getIV (d : tdes) : list Z := b_iv (t_base d).

(** pyDes.py:712-735 as a method of an existing object: [_iv] is assigned (line
    723) before the three des objects are created; they are assigned together
    here, the creation of the second and third cannot fail when that of the
    first succeeds.  [key_size], assigned first, is only read in this method. *)
Definition tdes_rekey (key : list Z) : M tdes unit :=
  fun s =>
    let b := t_base s in
    if negb ((zlen key =? 24) || (zlen key =? 16)) then (Err ValueError, s)
    else
      let iv := if (b_mode b =? CBC) && negb (nonempty (b_iv b)) then py_slice key 0 8 else b_iv b in
      match tdes_setKey key b with
      | Ok s' => (Ok tt, s')
      | Err e => (Err e, mkTdes (mkBase (b_mode b) iv (b_pad b) (b_padmode b) (b_key b)) (t_k1 s) (t_k2 s) (t_k3 s))
      end.

(** The calls on an object, setters included (not in /repo: what the theorems
    quantify over) *)
Inductive op : Set :=
| OKey (key : list Z)
| OMode (mode : Z)
| OIV (iv : list Z)
| OPadding (pad : list Z)
| OPadMode (padmode : Z)
| OCall (c : call).
(** pyDes.py:411-414 (setKey), 139-170 (the setters of _baseDes) *)
Definition des_op (o : op) (d : des) : des :=
  match o with
  | OKey key => snd (des_setKey key d)
  | OMode mode => snd (des_setMode mode d)
  | OIV iv => snd (des_setIV iv d)
  | OPadding pad => snd (des_setPadding pad d)
  | OPadMode m => snd (des_setPadMode m d)
  | OCall c => des_call c d
  end.
Definition des_ops (h : list op) (d : des) : des := fold_left (fun d o => des_op o d) h d.
(** pyDes.py:712-761 *)
Definition tdes_op (o : op) (d : tdes) : tdes :=
  match o with
  | OKey key => snd (tdes_rekey key d)
  | OMode mode => snd (tdes_setMode mode d)
  | OIV iv => snd (tdes_setIV iv d)
  | OPadding pad => snd (tdes_setPadding pad d)
  | OPadMode m => snd (tdes_setPadMode m d)
  | OCall c => tdes_call c d
  end.
Definition tdes_ops (h : list op) (d : tdes) : tdes := fold_left (fun d o => tdes_op o d) h d.
