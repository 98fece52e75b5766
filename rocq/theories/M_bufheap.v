(** * Calls that read one array and write another, which may be the same array

    M_cipher.v, M_digest.v and M_bertlv.v pass the input array by value.  Here the arrays
    are locations of a heap and the calls read and write them in the order of the code.  A list
    that the code creates lives at a location given as an argument ([d], [r]); the theorems
    require that it is not the location of an array of the caller. *)
From Verif Require Import Py M_utils M_util M_key M_cipher M_digest M_bertag M_bertlv.

(** cipher.py:249-264, and 119-122 for the first test: [d] is the list of line 252, [r] that of line 262 *)
Definition des_doFinal_at (d r : loc) (inBuff : loc) (inOffset inLength : Z) (outBuff : loc) (outOffset : Z)
  : M (cipher * heap) Z :=
  fun s =>
    let '(c, h) := s in
    if negb (c_init c) then (Err (CryptoExc INVALID_INIT), (c, h))
    else
      let h := hset h d (py_repeat 0 inLength) in
      match arrayCopy inBuff inOffset d 0 inLength h with
      | (Err e, h) => (Err e, (c, h))
      | (Ok _, h) =>
          match c_mode c, c_engine c with
          | Some m, Some g =>
              let '(x, g) := engine_run (m =? MODE_ENCRYPT) (arrayTobinary (h d)) g in
              let c := mkCipher (c_alg c) (c_init c) (c_mode c) (Some g) in
              match x with
              | Err e => (Err e, (c, h))
              | Ok result =>
                  let h := hset h r (binaryToarray result) in
                  match arrayCopy r 0 outBuff outOffset (zlen (h r)) h with
                  | (Err e, h) => (Err e, (c, h))
                  | (Ok _, h) => (Ok (zlen (h r)), (c, h))
                  end
              end
          | _, _ => (Err AttributeError, (c, h))
          end
      end.

(** cipher.py:167-198: [d] is the list of line 170, [r] that of line 189 or 194.  The cipher
    does not change. *)
Definition rsa_doFinal_at (X : pycrypto) (rnd : list Z) (c : cipher) (k : akey)
    (d r : loc) (inBuff : loc) (inOffset inLength : Z) (outBuff : loc) (outOffset : Z) : M heap Z :=
  fun h =>
    if negb (c_init c) then (Err (CryptoExc INVALID_INIT), h)
    else
      let h := hset h d (py_repeat 0 inLength) in
      match arrayCopy inBuff inOffset d 0 inLength h with
      | (Err e, h) => (Err e, h)
      | (Ok _, h) =>
          match c_mode c with
          | None => (Err AttributeError, h)
          | Some m =>
              match (let? data := (if (c_alg c =? ALG_RSA_PKCS1) && (m =? MODE_ENCRYPT)
                                   then EME_enc rnd (getSize k) (h d) else Ok (h d)) in
                     if negb (zlen data =? getSize k / 8) then Err (CryptoExc ILLEGAL_VALUE)
                     else
                       let? q := the_rsa k in
                       let? x := (if m =? MODE_ENCRYPT then pc_encrypt X q (arrayTolong data)
                                  else match k with
                                       | KPub _ => pc_encrypt X q (arrayTolong data)
                                       | _ => pc_decrypt X q (arrayTolong data)
                                       end) in
                       if (c_alg c =? ALG_RSA_PKCS1) && (m =? MODE_DECRYPT) then EME_dec (longToArray x) else Ok (longToArray x)) with
              | Err e => (Err e, h)
              | Ok buf =>
                  let h := hset h r buf in
                  match arrayCopy r 0 outBuff outOffset (zlen (h r)) h with
                  | (Err e, h) => (Err e, h)
                  | (Ok _, h) => (Ok (zlen (h r)), h)
                  end
              end
          end
      end.

(** messagedigest.py:66-71: the cells are read from the array as it is at that moment *)
Definition collect_at (inBuff : loc) (inOffset inLength : Z) (h : heap) : res unit * list Z :=
  catch_index (collect (h inBuff) inOffset inLength) NameError [].
(** messagedigest.py:80-81 *)
Fixpoint write_at (i : Z) (vs : list Z) (outBuff : loc) (outOffset : Z) : M heap unit :=
  match vs with
  | [] => ret tt
  | v :: vs' => hset_at outBuff (outOffset + i) (s1 v) ;;; write_at (i + 1) vs' outBuff outOffset
  end.
(** messagedigest.py:76-86 *)
Definition digest_doFinal_at (H : hashlib) (inBuff : loc) (inOffset inLength : Z) (outBuff : loc) (outOffset : Z)
  : M (digest * heap) Z :=
  fun st =>
    let '(s, h) := st in
    match collect_at inBuff inOffset inLength h with
    | (Err e, _) => (Err e, (s, h))
    | (Ok _, b) =>
        let s := mkDigest (md_alg s) (md_fed s ++ arrayTobinary b) in
        let '(x, h) := catch_index (write_at 0 (hl_digest H (md_alg s) (md_fed s)) outBuff outOffset) NameError h in
        match digest_reset H s with
        | (Err e, s) => (Err e, (s, h))
        | (Ok _, s) =>
            match x with
            | Err e => (Err e, (s, h))
            | Ok _ => (Ok (digest_getLength H s), (s, h))
            end
        end
    end.

(** The state of a call that works on one array, at the location [l] *)
Definition on_loc {A} (l : loc) (m : M (list Z) A) : M heap A :=
  fun h => let '(x, a) := m (h l) in (x, hset h l a).
(** bertlv.py:121-128: both TLVs are read before toBytes writes; toBytes reads the object only *)
Definition appendStatic_at (inArray : loc) (inOff : Z) (outArray : loc) (outOff : Z) : M heap Z :=
  fun h =>
    match getInstance (h inArray) inOff None with
    | Err e => (Err e, h)
    | Ok t =>
        match getInstance (h outArray) outOff None with
        | Err e => (Err e, h)
        | Ok u =>
            if tkind u then
              match append t u with
              | (Ok _, u) => on_loc outArray (tlv_toBytes u outOff) h
              | (Err e, _) => (Err e, h)
              end
            else (Err AttributeError, h)
        end
    end.
