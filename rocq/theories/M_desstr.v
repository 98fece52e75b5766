(** * pyDes with bytes and str arguments, and the types of what it returns

    M_des.v takes every key, IV, pad and message as a list of bytes.  Here they are
    Python values: a bytes object or a str.  None for an IV or a pad is b'' (as in
    M_des.v: only the truth value is used).  The empty IV and pad have no type
    here (None, b'' and '' are not distinguished). *)
From Verif Require Import Py M_des M_desx.

(** a bytes object, or a str by its code points *)
Inductive pystr : Set := PBytes (l : list Z) | PStr (l : list Z).
Definition chars (v : pystr) : list Z := match v with PBytes l => l | PStr l => l end.
(** slicing keeps the type *)
Definition on_chars (f : list Z -> list Z) (v : pystr) : pystr :=
  match v with PBytes l => PBytes (f l) | PStr l => PStr (f l) end.

(** pyDes.py:228-242 (Python 3) *)
Definition guard (v : pystr) : res (list Z) :=
  match v with
  | PBytes l => Ok l
  | PStr l => if forallb (fun c => (0 <=? c) && (c <? 128)) l then Ok l else Err ValueError
  end.

(** ** des *)
(** pyDes.py:397-409 with 108-112; the IV and the pad are encoded before the key *)
Definition s_new (key : pystr) (mode : Z) (IV pad : pystr) (padmode : Z) : res des :=
  if negb (zlen (chars key) =? 8) then Err ValueError
  else
    let? iv := guard IV in
    let? p := guard pad in
    let? _ := base_init mode iv p padmode in
    let? k := guard key in
    des_new k mode iv p padmode.
(** pyDes.py:130-133, 411-414 *)
Definition s_setKey (key : pystr) : M des unit := k <- lift (guard key) ;; des_setKey k.
(** pyDes.py:165-170: the length is tested first *)
Definition s_setIV (IV : pystr) : M des unit :=
  if zlen (chars IV) =? 8 then iv <- lift (guard IV) ;; des_setIV iv else raise ValueError.
(** pyDes.py:147-151 *)
Definition s_setPadding (pad : pystr) : M des unit := p <- lift (guard pad) ;; des_setPadding p.
(** pyDes.py:564-640: '' for empty data (line 569), bytes otherwise (line 640).
    A str that is not empty never gets here. *)
Definition s_crypt (data : pystr) (crypt_type : Z) : M des pystr :=
  if negb (nonempty (chars data)) then ret (PStr [])
  else r <- crypt (chars data) crypt_type ;; ret (PBytes r).
(** pyDes.py:201-203: empty data is returned as it is *)
Definition s_unpad (b : base) (data : pystr) (pad : list Z) (padmode : option Z) : res pystr :=
  if negb (nonempty (chars data)) then Ok data else rmap PBytes (unpadData b (chars data) pad padmode).
(** pyDes.py:655-659 *)
Definition s_encrypt (data pad : pystr) (padmode : option Z) : M des pystr :=
  data <- lift (guard data) ;;
  pad <- lift (guard pad) ;;
  s <- get ;;
  data <- lift (padData (d_base s) data pad padmode) ;;
  s_crypt (PBytes data) ENCRYPT.
(** pyDes.py:676-680 *)
Definition s_decrypt (data pad : pystr) (padmode : option Z) : M des pystr :=
  data <- lift (guard data) ;;
  pad <- lift (guard pad) ;;
  data <- s_crypt (PBytes data) DECRYPT ;;
  s <- get ;;
  lift (s_unpad (d_base s) data pad padmode).

(** ** triple_des *)
(** [s_ivstr]: the attribute _iv is a str (pyDes.py:723 stores a slice of the key as
    it was given) *)
Record stdes : Set := mkSt { s_t : tdes; s_ivstr : bool }.
Definition on_t {A} (m : M tdes A) : M stdes A :=
  fun s => let '(r, t) := m (s_t s) in (r, mkSt t (s_ivstr s)).
(** pyDes.py:161-163 *)
Definition s_getIV (s : stdes) : pystr := if s_ivstr s then PStr (b_iv (t_base (s_t s))) else PBytes (b_iv (t_base (s_t s))).
(** what __key3 refers to when __key1 has been replaced *)
Definition old_k3 (t : tdes) : option des := match t_k3 t with None => Some (t_k1 t) | k => k end.
(** pyDes.py:712-735 as a method of an existing object, assignment by assignment *)
Definition s_rekey (key : pystr) : M stdes unit :=
  fun s =>
    let t := s_t s in
    let b := t_base t in
    if negb ((zlen (chars key) =? 24) || (zlen (chars key) =? 16)) then (Err ValueError, s)
    else
      let iv := if (b_mode b =? CBC) && negb (nonempty (b_iv b)) then on_chars (fun l => py_slice l 0 8) key else s_getIV s in
      let ivstr := match iv with PStr _ => true | PBytes _ => false end in
      let b := mkBase (b_mode b) (chars iv) (b_pad b) (b_padmode b) (b_key b) in
      if (b_mode b =? CBC) && negb (zlen (chars iv) =? 8) then (Err ValueError, mkSt (mkTdes b (t_k1 t) (t_k2 t) (t_k3 t)) ivstr)
      else
        match s_new (on_chars (fun l => py_slice l 0 8) key) (b_mode b) iv (PBytes (b_pad b)) (b_padmode b) with
        | Err e => (Err e, mkSt (mkTdes b (t_k1 t) (t_k2 t) (t_k3 t)) ivstr)
        | Ok k1 =>
            match s_new (on_chars (fun l => py_slice l 8 16) key) (b_mode b) iv (PBytes (b_pad b)) (b_padmode b) with
            | Err e => (Err e, mkSt (mkTdes b k1 (t_k2 t) (old_k3 t)) ivstr)
            | Ok k2 =>
                let finish (k3 : option des) :=
                  match guard key with
                  | Err e => (Err e, mkSt (mkTdes b k1 k2 k3) ivstr)
                  | Ok k => (Ok tt, mkSt (mkTdes (base_setKey k b) k1 k2 k3) ivstr)
                  end in
                if zlen (chars key) =? 16 then finish None
                else
                  match s_new (on_chars (fun l => py_slice_from l 16) key) (b_mode b) iv (PBytes (b_pad b)) (b_padmode b) with
                  | Err e => (Err e, mkSt (mkTdes b k1 k2 (old_k3 t)) ivstr)
                  | Ok k3 => finish (Some k3)
                  end
            end
        end.
(** pyDes.py:708-710.  The object has no des objects before setKey; when setKey
    raises, so does the constructor, and there is no object. *)
Definition no_des : des := mkDes (mkBase 0 [] [] 0 []) [] [] [] [].
Definition s_tnew (key : pystr) (mode : Z) (IV pad : pystr) (padmode : Z) : res stdes :=
  let? iv := guard IV in
  let? p := guard pad in
  let? b := base_init mode iv p padmode in
  match s_rekey key (mkSt (mkTdes b no_des no_des None) false) with
  | (Ok _, s) => Ok s
  | (Err e, _) => Err e
  end.
(** pyDes.py:745-749: the pad is encoded by each object; the first one raises *)
Definition s_tsetPadding (pad : pystr) : M stdes unit := p <- lift (guard pad) ;; on_t (tdes_setPadding p).
(** pyDes.py:757-761 *)
Definition s_tsetIV (IV : pystr) : M stdes unit :=
  if zlen (chars IV) =? 8 then
    iv <- lift (guard IV) ;;
    fun s => let '(r, t) := tdes_setIV iv (s_t s) in (r, mkSt t false)
  else raise ValueError.
(** pyDes.py:784-786: three calls of setIV(self.getIV()) *)
Definition s_keys_setIV : M stdes unit :=
  s <- get ;;
  if zlen (chars (s_getIV s)) =? 8 then iv <- lift (guard (s_getIV s)) ;; on_t (keys_setIV iv) else raise ValueError.
(** pyDes.py:776-805; in CBC mode the blocks are joined to a bytes object *)
Definition s_tencrypt (data pad : pystr) (padmode : option Z) : M stdes pystr :=
  data <- lift (guard data) ;;
  pad <- lift (guard pad) ;;
  s <- get ;;
  data <- lift (padData (t_base (s_t s)) data pad padmode) ;;
  if b_mode (t_base (s_t s)) =? CBC then
    s_keys_setIV ;;;
    r <- on_t (tdes_enc_loop (S (length data)) data 0 []) ;;
    ret (PBytes r)
  else
    data <- on_t (on_k1 (s_crypt (PBytes data) ENCRYPT)) ;;
    data <- on_t (on_k2 (s_crypt data DECRYPT)) ;;
    on_t (on_k3 (s_crypt data ENCRYPT)).
(** pyDes.py:822-852 *)
Definition s_tdecrypt (data pad : pystr) (padmode : option Z) : M stdes pystr :=
  data <- lift (guard data) ;;
  pad <- lift (guard pad) ;;
  s <- get ;;
  data <-
    (if b_mode (t_base (s_t s)) =? CBC then
       s_keys_setIV ;;;
       r <- on_t (tdes_dec_loop (S (length data)) data 0 []) ;;
       ret (PBytes r)
     else
       data <- on_t (on_k3 (s_crypt (PBytes data) DECRYPT)) ;;
       data <- on_t (on_k2 (s_crypt data ENCRYPT)) ;;
       on_t (on_k1 (s_crypt data DECRYPT))) ;;
  s <- get ;;
  lift (s_unpad (t_base (s_t s)) data pad padmode).

(** The calls on an object (not in /repo: what the theorems quantify over) *)
Inductive sop : Set :=
| SKey (key : pystr)
| SMode (mode : Z)
| SIV (iv : pystr)
| SPadding (pad : pystr)
| SPadMode (padmode : Z)
| SEnc (data pad : pystr) (padmode : option Z)
| SDec (data pad : pystr) (padmode : option Z).
(** None: the method returned None *)
Definition some_str {S} (m : M S pystr) : M S (option pystr) := r <- m ;; ret (Some r).
Definition none_str {S} (m : M S unit) : M S (option pystr) := m ;;; ret None.
Definition s_op (o : sop) : M des (option pystr) :=
  match o with
  | SKey k => none_str (s_setKey k)
  | SMode m => none_str (des_setMode m)
  | SIV v => none_str (s_setIV v)
  | SPadding p => none_str (s_setPadding p)
  | SPadMode m => none_str (des_setPadMode m)
  | SEnc data pad pm => some_str (s_encrypt data pad pm)
  | SDec data pad pm => some_str (s_decrypt data pad pm)
  end.
Definition s_ops (h : list sop) (d : des) : des := fold_left (fun d o => snd (s_op o d)) h d.
Definition s_top (o : sop) : M stdes (option pystr) :=
  match o with
  | SKey k => none_str (s_rekey k)
  | SMode m => none_str (on_t (tdes_setMode m))
  | SIV v => none_str (s_tsetIV v)
  | SPadding p => none_str (s_tsetPadding p)
  | SPadMode m => none_str (on_t (tdes_setPadMode m))
  | SEnc data pad pm => some_str (s_tencrypt data pad pm)
  | SDec data pad pm => some_str (s_tdecrypt data pad pm)
  end.
Definition s_tops (h : list sop) (d : stdes) : stdes := fold_left (fun d o => snd (s_top o d)) h d.
