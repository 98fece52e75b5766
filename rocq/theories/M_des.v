(** * Model of pyDes/pyDes.py

    Bytes objects are lists of ints in 0..255.  Absent optional byte strings
    (IV, pad) are the empty list: the code only tests their truth value, which
    is the same for None and b''.  str arguments
    (_guardAgainstUnicode, pyDes.py:228-242) and the type of what crypt returns
    for empty data ('', line 569; here the empty list) are added in M_desstr.v.  Only Python 3 branches are modelled. *)
From Verif Require Import Py.

(** pyDes.py:93-98, 393-394 *)
Definition ECB := 0.
Definition CBC := 1.
Definition PAD_NORMAL := 1.
Definition PAD_PKCS5 := 2.
Definition ENCRYPT := 0.
Definition DECRYPT := 1.

(** The attributes _mode, _iv, _padding, _padmode, __key of _baseDes;
    block_size is always 8. *)
Record base : Set := mkBase { b_mode : Z; b_iv : list Z; b_pad : list Z; b_padmode : Z; b_key : list Z }.

Definition nonempty {A} (l : list A) : bool := match l with [] => false | _ => true end.

(** pyDes.py:108-124 *)
Definition base_init (mode : Z) (IV pad : list Z) (padmode : Z) : res base :=
  if nonempty pad && (padmode =? PAD_PKCS5) then Err ValueError
  else if nonempty IV && negb (zlen IV =? 8) then Err ValueError
  else Ok (mkBase mode IV pad padmode []).

(** pyDes.py:130-133 *)
Definition base_setKey (key : list Z) (b : base) : base :=
  mkBase (b_mode b) (b_iv b) (b_pad b) (b_padmode b) key.
(** pyDes.py:139-141 *)
Definition base_setMode (mode : Z) (b : base) : base :=
  mkBase mode (b_iv b) (b_pad b) (b_padmode b) (b_key b).
(** pyDes.py:147-151 *)
Definition base_setPadding (pad : list Z) (b : base) : base :=
  mkBase (b_mode b) (b_iv b) pad (b_padmode b) (b_key b).
(** pyDes.py:157-159 *)
Definition base_setPadMode (m : Z) (b : base) : base :=
  mkBase (b_mode b) (b_iv b) (b_pad b) m (b_key b).
(** pyDes.py:165-170 *)
Definition base_setIV (IV : list Z) (b : base) : res base :=
  if zlen IV =? 8 then Ok (mkBase (b_mode b) IV (b_pad b) (b_padmode b) (b_key b))
  else Err ValueError.

(** [n * s] for a bytes object [s] *)
Definition bytes_times (n : Z) (s : list Z) : list Z := concat (repeat s (Z.to_nat n)).

(** pyDes.py:172-199; [padmode] None is the default *)
Definition padData (b : base) (data pad : list Z) (padmode : option Z) : res (list Z) :=
  let padmode := match padmode with None => b_padmode b | Some m => m end in
  if nonempty pad && (padmode =? PAD_PKCS5) then Err ValueError
  else if padmode =? PAD_NORMAL then
    if zlen data mod 8 =? 0 then Ok data
    else
      let pad := if nonempty pad then pad else b_pad b in
      if nonempty pad then Ok (data ++ bytes_times (8 - zlen data mod 8) pad)
      else Err ValueError
  else if padmode =? PAD_PKCS5 then
    let pad_len := 8 - zlen data mod 8 in
    Ok (data ++ py_repeat pad_len pad_len)
  else Ok data.

(** bytes.rstrip(chars): drop the trailing bytes that occur in [chars] *)
Fixpoint rstrip (chars l : list Z) : list Z :=
  match l with
  | [] => []
  | x :: t =>
      match rstrip chars t with
      | [] => if existsb (Z.eqb x) chars then [] else [x]
      | t' => x :: t'
      end
  end.

(** pyDes.py:201-226.  Line 205 tests the argument [padmode] before the default
    is taken. *)
Definition unpadData (b : base) (data pad : list Z) (padmode : option Z) : res (list Z) :=
  if negb (nonempty data) then Ok data
  else if nonempty pad && (match padmode with Some m => m =? PAD_PKCS5 | None => false end) then Err ValueError
  else
    let padmode := match padmode with None => b_padmode b | Some m => m end in
    if padmode =? PAD_NORMAL then
      let pad := if nonempty pad then pad else b_pad b in
      if nonempty pad then
        Ok (py_slice data 0 (-8) ++ rstrip pad (py_slice_from data (-8)))
      else Ok data
    else if padmode =? PAD_PKCS5 then
      let? pad_len := py_get data (-1) in
      Ok (py_slice data 0 (- pad_len))
    else Ok data.

(** pyDes/pyDes.py:268-276 *)
Definition pc1 : list Z :=
  [56; 48; 40; 32; 24; 16; 8; 0; 57; 49; 41; 33; 25; 17; 9; 1;
   58; 50; 42; 34; 26; 18; 10; 2; 59; 51; 43; 35; 62; 54; 46; 38;
   30; 22; 14; 6; 61; 53; 45; 37; 29; 21; 13; 5; 60; 52; 44; 36;
   28; 20; 12; 4; 27; 19; 11; 3].

(** pyDes/pyDes.py:279-281 *)
Definition left_rotations : list Z :=
  [1; 1; 2; 2; 2; 2; 2; 2; 1; 2; 2; 2; 2; 2; 2; 1].

(** pyDes/pyDes.py:284-293 *)
Definition pc2 : list Z :=
  [13; 16; 10; 23; 0; 4; 2; 27; 14; 5; 20; 9; 22; 18; 11; 3;
   25; 7; 15; 6; 26; 19; 12; 1; 40; 51; 30; 36; 46; 54; 29; 39;
   50; 44; 32; 47; 43; 48; 38; 55; 33; 52; 45; 41; 49; 35; 28; 31].

(** pyDes/pyDes.py:296-304 *)
Definition ip : list Z :=
  [57; 49; 41; 33; 25; 17; 9; 1; 59; 51; 43; 35; 27; 19; 11; 3;
   61; 53; 45; 37; 29; 21; 13; 5; 63; 55; 47; 39; 31; 23; 15; 7;
   56; 48; 40; 32; 24; 16; 8; 0; 58; 50; 42; 34; 26; 18; 10; 2;
   60; 52; 44; 36; 28; 20; 12; 4; 62; 54; 46; 38; 30; 22; 14; 6].

(** pyDes/pyDes.py:307-316 *)
Definition expansion_table : list Z :=
  [31; 0; 1; 2; 3; 4; 3; 4; 5; 6; 7; 8; 7; 8; 9; 10;
   11; 12; 11; 12; 13; 14; 15; 16; 15; 16; 17; 18; 19; 20; 19; 20;
   21; 22; 23; 24; 23; 24; 25; 26; 27; 28; 27; 28; 29; 30; 31; 0].

(** pyDes/pyDes.py:319-367 *)
Definition sbox_table : list (list Z) :=
  [[14; 4; 13; 1; 2; 15; 11; 8; 3; 10; 6; 12; 5; 9; 0; 7; 0; 15; 7; 4; 14; 2; 13; 1; 10; 6; 12; 11; 9; 5; 3; 8; 4; 1; 14; 8; 13; 6; 2; 11; 15; 12; 9; 7; 3; 10; 5; 0; 15; 12; 8; 2; 4; 9; 1; 7; 5; 11; 3; 14; 10; 0; 6; 13];
   [15; 1; 8; 14; 6; 11; 3; 4; 9; 7; 2; 13; 12; 0; 5; 10; 3; 13; 4; 7; 15; 2; 8; 14; 12; 0; 1; 10; 6; 9; 11; 5; 0; 14; 7; 11; 10; 4; 13; 1; 5; 8; 12; 6; 9; 3; 2; 15; 13; 8; 10; 1; 3; 15; 4; 2; 11; 6; 7; 12; 0; 5; 14; 9];
   [10; 0; 9; 14; 6; 3; 15; 5; 1; 13; 12; 7; 11; 4; 2; 8; 13; 7; 0; 9; 3; 4; 6; 10; 2; 8; 5; 14; 12; 11; 15; 1; 13; 6; 4; 9; 8; 15; 3; 0; 11; 1; 2; 12; 5; 10; 14; 7; 1; 10; 13; 0; 6; 9; 8; 7; 4; 15; 14; 3; 11; 5; 2; 12];
   [7; 13; 14; 3; 0; 6; 9; 10; 1; 2; 8; 5; 11; 12; 4; 15; 13; 8; 11; 5; 6; 15; 0; 3; 4; 7; 2; 12; 1; 10; 14; 9; 10; 6; 9; 0; 12; 11; 7; 13; 15; 1; 3; 14; 5; 2; 8; 4; 3; 15; 0; 6; 10; 1; 13; 8; 9; 4; 5; 11; 12; 7; 2; 14];
   [2; 12; 4; 1; 7; 10; 11; 6; 8; 5; 3; 15; 13; 0; 14; 9; 14; 11; 2; 12; 4; 7; 13; 1; 5; 0; 15; 10; 3; 9; 8; 6; 4; 2; 1; 11; 10; 13; 7; 8; 15; 9; 12; 5; 6; 3; 0; 14; 11; 8; 12; 7; 1; 14; 2; 13; 6; 15; 0; 9; 10; 4; 5; 3];
   [12; 1; 10; 15; 9; 2; 6; 8; 0; 13; 3; 4; 14; 7; 5; 11; 10; 15; 4; 2; 7; 12; 9; 5; 6; 1; 13; 14; 0; 11; 3; 8; 9; 14; 15; 5; 2; 8; 12; 3; 7; 0; 4; 10; 1; 13; 11; 6; 4; 3; 2; 12; 9; 5; 15; 10; 11; 14; 1; 7; 6; 0; 8; 13];
   [4; 11; 2; 14; 15; 0; 8; 13; 3; 12; 9; 7; 5; 10; 6; 1; 13; 0; 11; 7; 4; 9; 1; 10; 14; 3; 5; 12; 2; 15; 8; 6; 1; 4; 11; 13; 12; 3; 7; 14; 10; 15; 6; 8; 0; 5; 9; 2; 6; 11; 13; 8; 1; 4; 10; 7; 9; 5; 0; 15; 14; 2; 3; 12];
   [13; 2; 8; 4; 6; 15; 11; 1; 10; 9; 3; 14; 5; 0; 12; 7; 1; 15; 13; 8; 10; 3; 7; 4; 12; 5; 6; 11; 0; 14; 9; 2; 7; 11; 4; 1; 9; 12; 14; 2; 0; 6; 10; 13; 15; 3; 5; 8; 2; 1; 14; 7; 4; 10; 8; 13; 15; 12; 9; 0; 3; 5; 6; 11]].

(** pyDes/pyDes.py:371-378 *)
Definition p_table : list Z :=
  [15; 6; 19; 20; 28; 11; 27; 16; 0; 14; 22; 25; 4; 17; 30; 9;
   1; 7; 23; 13; 31; 26; 2; 8; 18; 12; 29; 5; 21; 10; 3; 24].

(** pyDes/pyDes.py:381-390 *)
Definition fp : list Z :=
  [39; 7; 47; 15; 55; 23; 63; 31; 38; 6; 46; 14; 54; 22; 62; 30;
   37; 5; 45; 13; 53; 21; 61; 29; 36; 4; 44; 12; 52; 20; 60; 28;
   35; 3; 43; 11; 51; 19; 59; 27; 34; 2; 42; 10; 50; 18; 58; 26;
   33; 1; 41; 9; 49; 17; 57; 25; 32; 0; 40; 8; 48; 16; 56; 24].
(** ** Class des *)

(** The attributes of a des object: those of the base class, L, R, Kn, final. *)
Record des : Set := mkDes { d_base : base; d_L : list Z; d_R : list Z; d_Kn : list (list Z); d_final : list Z }.

Definition set_base (b : base) : M des unit := fun s => (Ok tt, mkDes b (d_L s) (d_R s) (d_Kn s) (d_final s)).
Definition set_LR (L R : list Z) : M des unit := fun s => (Ok tt, mkDes (d_base s) L R (d_Kn s) (d_final s)).
Definition set_Kn (Kn : list (list Z)) : M des unit := fun s => (Ok tt, mkDes (d_base s) (d_L s) (d_R s) Kn (d_final s)).
Definition set_final (f : list Z) : M des unit := fun s => (Ok tt, mkDes (d_base s) (d_L s) (d_R s) (d_Kn s) f).

(** pyDes.py:416-435: eight bits per byte, from bit 7 to bit 0 (the loop fills a
    list allocated beforehand) *)
Definition byte_bits (ch : Z) : list Z :=
  map (fun i => if Z.land ch (Z.shiftl 1 i) =? 0 then 0 else 1) [7; 6; 5; 4; 3; 2; 1; 0].
Definition String_to_BitList (data : list Z) : list Z := flat_map byte_bits data.

(** pyDes.py:437-452 (the values appended are below 256 for lists of bits) *)
Fixpoint BitList_loop (data : list Z) (pos c : Z) (result : list Z) : list Z :=
  match data with
  | [] => result
  | x :: data' =>
      let c := c + Z.shiftl x (7 - pos mod 8) in
      if pos mod 8 =? 7 then BitList_loop data' (pos + 1) 0 (result ++ [c])
      else BitList_loop data' (pos + 1) c result
  end.
Definition BitList_to_String (data : list Z) : list Z := BitList_loop data 0 0 [].

(** pyDes.py:454-456 *)
Fixpoint permutate (table block : list Z) : res (list Z) :=
  match table with
  | [] => Ok []
  | x :: t =>
      let? v := py_get block x in
      let? r := permutate t block in
      Ok (v :: r)
  end.

(** [list(map(lambda x, y: x ^ y, a, b))]: stops with the shorter list *)
Fixpoint xor_lists (a b : list Z) : list Z :=
  match a, b with
  | x :: a', y :: b' => Z.lxor x y :: xor_lists a' b'
  | _, _ => []
  end.

(** pyDes.py:471-477: [n] times append the first element and delete it, on both
    halves *)
Fixpoint rotate (n : nat) (L R : list Z) : res (list Z * list Z) :=
  match n with
  | O => Ok (L, R)
  | S n' =>
      let? x := py_get L 0 in
      let? y := py_get R 0 in
      rotate n' (tl (L ++ [x])) (tl (R ++ [y]))
  end.

(** pyDes.py:460-482.  self.L and self.R are written once per round here, more
    often in the code; no exception can be raised in between. *)
Definition create_sub_keys : M des unit :=
  s <- get ;;
  key <- lift (permutate pc1 (String_to_BitList (b_key (d_base s)))) ;;
  set_LR (py_slice key 0 28) (py_slice_from key 28) ;;;
  for_range 0 16 (fun i =>
    n <- lift (py_get left_rotations i) ;;
    s <- get ;;
    LR <- lift (rotate (Z.to_nat n) (d_L s) (d_R s)) ;;
    set_LR (fst LR) (snd LR) ;;;
    k <- lift (permutate pc2 (fst LR ++ snd LR)) ;;
    s <- get ;;
    Kn <- lift (py_set (d_Kn s) i k) ;;
    set_Kn Kn).

(** pyDes.py:411-414 *)
Definition des_setKey (key : list Z) : M des unit :=
  s <- get ;;
  set_base (base_setKey key (d_base s)) ;;;
  create_sub_keys.

(** pyDes.py:397-409 *)
Definition des_new (key : list Z) (mode : Z) (IV pad : list Z) (padmode : Z) : res des :=
  if negb (zlen key =? 8) then Err ValueError
  else
    let? b := base_init mode IV pad padmode in
    match des_setKey key (mkDes b [] [] (py_repeat (py_repeat 0 48) 16) []) with
    | (Ok _, d) => Ok d
    | (Err e, _) => Err e
    end.

(** pyDes.py:525-538: one S-box; [B] is the list of six bits *)
Definition sbox_lookup (j : Z) (B : list Z) : res (list Z) :=
  let? b0 := py_get B 0 in
  let? b1 := py_get B 1 in
  let? b2 := py_get B 2 in
  let? b3 := py_get B 3 in
  let? b4 := py_get B 4 in
  let? b5 := py_get B 5 in
  let m := Z.shiftl b0 1 + b5 in
  let n := Z.shiftl b1 3 + Z.shiftl b2 2 + Z.shiftl b3 1 + b4 in
  let? box := py_get sbox_table j in
  let? v := py_get box (Z.shiftl m 4 + n) in
  Ok [Z.shiftr (Z.land v 8) 3; Z.shiftr (Z.land v 4) 2; Z.shiftr (Z.land v 2) 1; Z.land v 1].

(** pyDes.py:510, 521-541: the eight groups of six bits (the last one is the rest
    of the list); Bn is filled four by four *)
Definition groups (R : list Z) : list (list Z) :=
  [py_slice R 0 6; py_slice R 6 12; py_slice R 12 18; py_slice R 18 24;
   py_slice R 24 30; py_slice R 30 36; py_slice R 36 42; py_slice_from R 42].
Fixpoint sbox_loop (j : Z) (Bs : list (list Z)) : res (list Z) :=
  match Bs with
  | [] => Ok []
  | B :: Bs' =>
      let? v := sbox_lookup j B in
      let? r := sbox_loop (j + 1) Bs' in
      Ok (v ++ r)
  end.

(** pyDes.py:501-557: one round.  self.R is written once here (four times in the
    code; no exception can be raised in between on 64-bit blocks). *)
Definition des_round (iteration : Z) : M des unit :=
  s <- get ;;
  let tempR := d_R s in
  R1 <- lift (permutate expansion_table (d_R s)) ;;
  K <- lift (py_get (d_Kn s) iteration) ;;
  Bn <- lift (sbox_loop 0 (groups (xor_lists R1 K))) ;;
  R2 <- lift (permutate p_table Bn) ;;
  set_LR tempR (xor_lists R2 (d_L s)).

(** pyDes.py:485-562; [iteration] is 0, 1, ... or 15, 14, ... *)
Definition des_crypt (block : list Z) (crypt_type : Z) : M des (list Z) :=
  block <- lift (permutate ip block) ;;
  set_LR (py_slice block 0 32) (py_slice_from block 32) ;;;
  for_range 0 16 (fun i => des_round (if crypt_type =? ENCRYPT then i else 15 - i)) ;;;
  s <- get ;;
  f <- lift (permutate fp (d_R s ++ d_L s)) ;;
  set_final f ;;;
  ret f.

(** pyDes.py:588-632; [iv] is only used in CBC mode *)
Fixpoint crypt_loop (fuel : nat) (data : list Z) (crypt_type i : Z) (iv result : list Z) : M des (list Z) :=
  match fuel with
  | O => raise OutOfFuel
  | S fuel' =>
      if i <? zlen data then
        let block := String_to_BitList (py_slice data i (i + 8)) in
        s <- get ;;
        if b_mode (d_base s) =? CBC then
          let block := if crypt_type =? ENCRYPT then xor_lists block iv else block in
          processed <- des_crypt block crypt_type ;;
          let r := if crypt_type =? DECRYPT then xor_lists processed iv else processed in
          let iv := if crypt_type =? DECRYPT then block else r in
          crypt_loop fuel' data crypt_type (i + 8) iv (result ++ BitList_to_String r)
        else
          processed <- des_crypt block crypt_type ;;
          crypt_loop fuel' data crypt_type (i + 8) iv (result ++ BitList_to_String processed)
      else ret result
  end.

(** pyDes.py:564-640 *)
Definition crypt (data : list Z) (crypt_type : Z) : M des (list Z) :=
  if negb (nonempty data) then ret []
  else
    s <- get ;;
    data <-
      (if zlen data mod 8 =? 0 then ret data
       else if crypt_type =? DECRYPT then raise ValueError
       else if negb (nonempty (b_pad (d_base s))) then raise ValueError
       else ret (data ++ bytes_times (8 - zlen data mod 8) (b_pad (d_base s)))) ;;
    if (b_mode (d_base s) =? CBC) && negb (nonempty (b_iv (d_base s))) then raise ValueError
    else crypt_loop (S (length data)) data crypt_type 0 (String_to_BitList (b_iv (d_base s))) [].

(** pyDes.py:642-659 *)
Definition des_encrypt (data pad : list Z) (padmode : option Z) : M des (list Z) :=
  s <- get ;;
  data <- lift (padData (d_base s) data pad padmode) ;;
  crypt data ENCRYPT.

(** pyDes.py:661-680 *)
Definition des_decrypt (data pad : list Z) (padmode : option Z) : M des (list Z) :=
  data <- crypt data DECRYPT ;;
  s <- get ;;
  lift (unpadData (d_base s) data pad padmode).

(** setters inherited from _baseDes *)
Definition des_setIV (IV : list Z) : M des unit :=
  s <- get ;;
  b <- lift (base_setIV IV (d_base s)) ;;
  set_base b.
Definition des_setMode (mode : Z) : M des unit := s <- get ;; set_base (base_setMode mode (d_base s)).
Definition des_setPadding (pad : list Z) : M des unit := s <- get ;; set_base (base_setPadding pad (d_base s)).
Definition des_setPadMode (m : Z) : M des unit := s <- get ;; set_base (base_setPadMode m (d_base s)).

(** ** Class triple_des *)

(** The base attributes and __key1, __key2, __key3; [None] for the third: the
    same object as the first (16-byte keys). *)
Record tdes : Set := mkTdes { t_base : base; t_k1 : des; t_k2 : des; t_k3 : option des }.

(** Run a method of one of the three des objects. *)
Definition on_k1 {A} (m : M des A) : M tdes A :=
  fun s => let '(r, d) := m (t_k1 s) in (r, mkTdes (t_base s) d (t_k2 s) (t_k3 s)).
Definition on_k2 {A} (m : M des A) : M tdes A :=
  fun s => let '(r, d) := m (t_k2 s) in (r, mkTdes (t_base s) (t_k1 s) d (t_k3 s)).
Definition on_k3 {A} (m : M des A) : M tdes A :=
  fun s => match t_k3 s with
           | None => on_k1 m s
           | Some k => let '(r, d) := m k in (r, mkTdes (t_base s) (t_k1 s) (t_k2 s) (Some d))
           end.
Definition t_set_base (b : base) : M tdes unit := fun s => (Ok tt, mkTdes b (t_k1 s) (t_k2 s) (t_k3 s)).

(** pyDes.py:712-735 on an object with base attributes [b]; the three des objects
    are assigned only at the end, no exception can be raised between their
    creations for keys of the right length.  The check of line 725 cannot fail
    for keys of 16 or 24 bytes and IVs accepted by base_init. *)
Definition tdes_setKey (key : list Z) (b : base) : res tdes :=
  if negb ((zlen key =? 24) || (zlen key =? 16)) then Err ValueError
  else
    let iv := if (b_mode b =? CBC) && negb (nonempty (b_iv b)) then py_slice key 0 8 else b_iv b in
    if (b_mode b =? CBC) && negb (zlen iv =? 8) then Err ValueError
    else
      let? k1 := des_new (py_slice key 0 8) (b_mode b) iv (b_pad b) (b_padmode b) in
      let? k2 := des_new (py_slice key 8 16) (b_mode b) iv (b_pad b) (b_padmode b) in
      let? k3 := (if zlen key =? 16 then Ok None
                  else rmap Some (des_new (py_slice_from key 16) (b_mode b) iv (b_pad b) (b_padmode b))) in
      Ok (mkTdes (mkBase (b_mode b) iv (b_pad b) (b_padmode b) key) k1 k2 k3).

(** pyDes.py:708-710 *)
Definition tdes_new (key : list Z) (mode : Z) (IV pad : list Z) (padmode : Z) : res tdes :=
  let? b := base_init mode IV pad padmode in
  tdes_setKey key b.

(** pyDes.py:739-761: the setters *)
Definition tdes_setMode (mode : Z) : M tdes unit :=
  s <- get ;; t_set_base (base_setMode mode (t_base s)) ;;;
  on_k1 (des_setMode mode) ;;; on_k2 (des_setMode mode) ;;; on_k3 (des_setMode mode).
Definition tdes_setPadding (pad : list Z) : M tdes unit :=
  s <- get ;; t_set_base (base_setPadding pad (t_base s)) ;;;
  on_k1 (des_setPadding pad) ;;; on_k2 (des_setPadding pad) ;;; on_k3 (des_setPadding pad).
Definition tdes_setPadMode (m : Z) : M tdes unit :=
  s <- get ;; t_set_base (base_setPadMode m (t_base s)) ;;;
  on_k1 (des_setPadMode m) ;;; on_k2 (des_setPadMode m) ;;; on_k3 (des_setPadMode m).
(** pyDes.py:784-786, 757-761 *)
Definition keys_setIV (IV : list Z) : M tdes unit :=
  on_k1 (des_setIV IV) ;;; on_k2 (des_setIV IV) ;;; on_k3 (des_setIV IV).
Definition tdes_setIV (IV : list Z) : M tdes unit :=
  s <- get ;; b <- lift (base_setIV IV (t_base s)) ;; t_set_base b ;;; keys_setIV IV.

(** pyDes.py:787-799 *)
Fixpoint tdes_enc_loop (fuel : nat) (data : list Z) (i : Z) (result : list Z) : M tdes (list Z) :=
  match fuel with
  | O => raise OutOfFuel
  | S fuel' =>
      if i <? zlen data then
        block <- on_k1 (crypt (py_slice data i (i + 8)) ENCRYPT) ;;
        block <- on_k2 (crypt block DECRYPT) ;;
        block <- on_k3 (crypt block ENCRYPT) ;;
        keys_setIV block ;;;
        tdes_enc_loop fuel' data (i + 8) (result ++ block)
      else ret result
  end.

(** pyDes.py:763-805 *)
Definition tdes_encrypt (data pad : list Z) (padmode : option Z) : M tdes (list Z) :=
  s <- get ;;
  data <- lift (padData (t_base s) data pad padmode) ;;
  if b_mode (t_base s) =? CBC then
    keys_setIV (b_iv (t_base s)) ;;;
    tdes_enc_loop (S (length data)) data 0 []
  else
    data <- on_k1 (crypt data ENCRYPT) ;;
    data <- on_k2 (crypt data DECRYPT) ;;
    on_k3 (crypt data ENCRYPT).

(** pyDes.py:832-843 *)
Fixpoint tdes_dec_loop (fuel : nat) (data : list Z) (i : Z) (result : list Z) : M tdes (list Z) :=
  match fuel with
  | O => raise OutOfFuel
  | S fuel' =>
      if i <? zlen data then
        let iv := py_slice data i (i + 8) in
        block <- on_k3 (crypt iv DECRYPT) ;;
        block <- on_k2 (crypt block ENCRYPT) ;;
        block <- on_k1 (crypt block DECRYPT) ;;
        keys_setIV iv ;;;
        tdes_dec_loop fuel' data (i + 8) (result ++ block)
      else ret result
  end.

(** pyDes.py:807-852 *)
Definition tdes_decrypt (data pad : list Z) (padmode : option Z) : M tdes (list Z) :=
  s <- get ;;
  data <-
    (if b_mode (t_base s) =? CBC then
       keys_setIV (b_iv (t_base s)) ;;;
       tdes_dec_loop (S (length data)) data 0 []
     else
       data <- on_k3 (crypt data DECRYPT) ;;
       data <- on_k2 (crypt data ENCRYPT) ;;
       on_k1 (crypt data DECRYPT)) ;;
  s <- get ;;
  lift (unpadData (t_base s) data pad padmode).

(** ** Histories of calls on one object (not in /repo: the sequences of calls
    the theorems quantify over) *)
Inductive call : Set :=
| CEnc (data pad : list Z) (padmode : option Z)
| CDec (data pad : list Z) (padmode : option Z).
Definition des_call (c : call) (d : des) : des :=
  match c with
  | CEnc data pad padmode => snd (des_encrypt data pad padmode d)
  | CDec data pad padmode => snd (des_decrypt data pad padmode d)
  end.
Definition tdes_call (c : call) (d : tdes) : tdes :=
  match c with
  | CEnc data pad padmode => snd (tdes_encrypt data pad padmode d)
  | CDec data pad padmode => snd (tdes_decrypt data pad padmode d)
  end.
(** [d] is a des object after any calls, successful or not *)
Definition des_reach (key : list Z) (mode : Z) (iv pad : list Z) (padmode : Z) (d : des) : Prop :=
  exists d0 h, des_new key mode iv pad padmode = Ok d0 /\ d = fold_left (fun d c => des_call c d) h d0.
Definition tdes_reach (key : list Z) (mode : Z) (iv pad : list Z) (padmode : Z) (d : tdes) : Prop :=
  exists d0 h, tdes_new key mode iv pad padmode = Ok d0 /\ d = fold_left (fun d c => tdes_call c d) h d0.
