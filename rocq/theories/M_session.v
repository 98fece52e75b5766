(** * Ciphers and keys as objects of one program: pythoncardx/crypto/cipher.py and
      pythoncard/security/

    M_cipher.v passes keys by value.  In the code a cipher gets a reference to a key
    object: _PyCryptoRSACipher.init stores it (cipher.py:143) and doFinal reads the key through
    it (lines 174-190); _pyDesDESCipher.init reads the key once (lines 238-245).  Here the keys
    live in the heap of M_keyheap.v, and a program may call setters on them at any time. *)
From Verif Require Import Py M_utils M_util S_Key M_key M_des M_cipher M_keyheap.

(** a cipher with its attribute _theKey (None: missing) *)
Record cobj : Set := mkCO { co_c : cipher; co_key : option nat }.
Record sprog : Set := mkSP { sp_k : kprog; sp_c : list cobj }.
Definition sstart : sprog := mkSP kstart [].

(** What the caller does.  [iv = None]: the default arguments of init.  [rnd]: the bytes
    os.urandom delivers during the call. *)
Inductive scall : Set :=
| SKey (c : kcall)
| SNew (alg : Z)                                              (* Cipher.getInstance(alg, b) *)
| SInit (c k : nat) (mode : Z) (iv : option (list Z * Z * Z)) (* ciphers[c].init(keys[k], mode, ...) *)
| SUpdate (c : nat) (inBuff : list Z) (inOffset inLength : Z) (outBuff : list Z) (outOffset : Z)
| SFinal (c : nat) (rnd : list Z) (inBuff : list Z) (inOffset inLength : Z) (outBuff : list Z) (outOffset : Z).
(** What the caller sees: the result or exception, and outBuff after the call. *)
Inductive sres : Set :=
| AKey (r : res kres)
| ANew (r : res nat)
| AInit (r : res unit)
| AUpdate (r : res unit) (outBuff : list Z)
| AFinal (r : res Z) (outBuff : list Z)
| ANone.                                                      (* there is no such cipher or key *)

(** init of the class of the cipher (cipher.py:137-144, 224-247); for RSA the arguments after
    theMode are ignored *)
Definition any_init (key : akey) (mode : Z) (iv : option (list Z * Z * Z)) (c : cipher) : res unit * cipher :=
  if is_rsa (c_alg c) then rsa_init (Some key) mode c
  else match iv with
       | None => des_init_default (Some key) mode c
       | Some (bArray, bOff, bLen) => des_init (Some key) mode bArray bOff bLen c
       end.
(** doFinal of the class of the cipher (cipher.py:167-198, 249-264); [key]: the present state of
    the object in _theKey.  (Without _theKey an initialised RSA cipher would raise
    AttributeError: there is none.) *)
Definition any_final (X : pycrypto) (rnd : list Z) (c : cipher) (key : option akey)
    (inBuff : list Z) (inOffset inLength : Z) (outBuff : list Z) (outOffset : Z) : res Z * list Z * cipher :=
  if is_rsa (c_alg c) then
    match key with
    | Some k => (rsa_doFinal X rnd c k inBuff inOffset inLength outOffset outBuff, c)
    | None => (Err (if c_init c then AttributeError else CryptoExc INVALID_INIT), outBuff, c)
    end
  else let '(r, (c', out)) := des_doFinal inBuff inOffset inLength outOffset (c, outBuff) in (r, out, c').

Definition sstep (X : pycrypto) (call : scall) (p : sprog) : sres * sprog :=
  match call with
  | SKey k => let '(r, q) := kstep X k (sp_k p) in (AKey r, mkSP q (sp_c p))
  | SNew alg =>
      match getInstance2 alg with
      | Ok c => (ANew (Ok (length (sp_c p))), mkSP (sp_k p) (sp_c p ++ [mkCO c None]))
      | Err e => (ANew (Err e), p)
      end
  | SInit c k mode iv =>
      match nth_error (sp_c p) c, nth_error (keys (sp_k p)) k with
      | Some o, Some key =>
          let '(r, c') := any_init key mode iv (co_c o) in
          (AInit r, mkSP (sp_k p) (list_upd (sp_c p) c
             (mkCO c' (if is_rsa (c_alg (co_c o)) && is_ok r then Some k else co_key o))))
      | _, _ => (ANone, p)
      end
  | SUpdate c inBuff inOffset inLength outBuff outOffset =>
      match nth_error (sp_c p) c with
      | Some o =>
          let '(r, (c', out)) := cipher_update inBuff inOffset inLength outOffset (co_c o, outBuff) in
          (AUpdate r out, mkSP (sp_k p) (list_upd (sp_c p) c (mkCO c' (co_key o))))
      | None => (ANone, p)
      end
  | SFinal c rnd inBuff inOffset inLength outBuff outOffset =>
      match nth_error (sp_c p) c with
      | Some o =>
          let key := match co_key o with Some k => nth_error (keys (sp_k p)) k | None => None end in
          let '(r, out, c') := any_final X rnd (co_c o) key inBuff inOffset inLength outBuff outOffset in
          (AFinal r out, mkSP (sp_k p) (list_upd (sp_c p) c (mkCO c' (co_key o))))
      | None => (ANone, p)
      end
  end.

Fixpoint srun (X : pycrypto) (cs : list scall) (p : sprog) : list sres * sprog :=
  match cs with
  | [] => ([], p)
  | c :: cs' =>
      let '(r, p1) := sstep X c p in
      let '(rs, p2) := srun X cs' p1 in
      (r :: rs, p2)
  end.
