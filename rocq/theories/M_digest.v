(** * Model of pythoncard/security/messagedigest.py and random.py

    hashlib and os.urandom are outside the repository: they are arguments, over
    which the theorems quantify. *)
From Verif Require Import Py M_utils M_key S_System.

(** ** hashlib (not in /repo): a hash object is the bytes fed to it *)
Record hashlib : Type := mkHashlib {
  hl_avail : Z -> bool;               (* hashlib.new(algos[alg]) succeeds *)
  hl_size : Z -> Z;                   (* digest_size *)
  hl_digest : Z -> list Z -> list Z   (* digest() of the bytes fed *) }.

(** ** messagedigest.py *)

(** messagedigest.py:46-57: the keys of the table algos *)
Definition known_digest (alg : Z) : bool := (1 <=? alg) && (alg <=? 11).

(** Attributes _algorithm and m (the bytes fed to it) *)
Record digest : Set := mkDigest { md_alg : Z; md_fed : list Z }.

(** messagedigest.py:63-64.  An unknown algorithm raises KeyError, one that hashlib
    does not provide ValueError; the attribute m is then unchanged. *)
Definition digest_reset (H : hashlib) : M digest unit :=
  s <- get ;;
  if negb (known_digest (md_alg s)) then raise KeyError
  else if negb (hl_avail H (md_alg s)) then raise ValueError
  else put (mkDigest (md_alg s) []).

(** messagedigest.py:35-37, 59-61 *)
Definition digest_getInstance (H : hashlib) (alg : Z) : res digest :=
  match digest_reset H (mkDigest alg []) with
  | (Ok _, s) => Ok s
  | (Err e, _) => Err e
  end.
(** messagedigest.py:39-41 *)
Definition getInitializedMessageDigestInstance (alg : Z) : res digest := Err (CryptoExc NO_SUCH_ALGORITHM).
(** messagedigest.py:43-44 *)
Definition digest_getAlgorithm (s : digest) : Z := md_alg s.
(** messagedigest.py:88-89 *)
Definition digest_getLength (H : hashlib) (s : digest) : Z := hl_size H (md_alg s).

(** messagedigest.py:70-71: the state is the list buf *)
Definition collect_body (inBuff : list Z) (i : Z) : M (list Z) unit :=
  v <- lift (py_get inBuff i) ;;
  buf <- get ;;
  put (buf ++ [v]).
Definition collect (inBuff : list Z) (inOffset inLength : Z) : M (list Z) unit :=
  for_range inOffset (inOffset + inLength) (collect_body inBuff).

(** messagedigest.py:66-74.  ArrayIndexOutOfBoundsException is not imported: line 73
    raises NameError. *)
Definition digest_update (inBuff : list Z) (inOffset inLength : Z) : M digest unit :=
  s <- get ;;
  match catch_index (collect inBuff inOffset inLength) NameError [] with
  | (Err e, _) => raise e
  | (Ok _, buf) => put (mkDigest (md_alg s) (md_fed s ++ arrayTobinary buf))
  end.

(** messagedigest.py:80-81: the state is outBuff *)
Fixpoint write_loop (i : Z) (vs : list Z) (outOffset : Z) : M (list Z) unit :=
  match vs with
  | [] => ret tt
  | v :: vs' =>
      out <- get ;;
      out <- lift (py_set out (outOffset + i) (s1 v)) ;;
      put out ;;;
      write_loop (i + 1) vs' outOffset
  end.

(** messagedigest.py:76-86; the state is the object and outBuff.  inBuff is read
    before anything is written, so it is passed by value.  The [finally] clause
    runs reset; an exception of reset would replace the pending one. *)
Definition digest_doFinal (H : hashlib) (inBuff : list Z) (inOffset inLength outOffset : Z) : M (digest * list Z) Z :=
  fun st =>
    let '(s, out) := st in
    match digest_update inBuff inOffset inLength s with
    | (Err e, s) => (Err e, (s, out))
    | (Ok _, s) =>
        let '(r, out) := catch_index (write_loop 0 (hl_digest H (md_alg s) (md_fed s)) outOffset) NameError out in
        match digest_reset H s with
        | (Err e, s) => (Err e, (s, out))
        | (Ok _, s) =>
            match r with
            | Err e => (Err e, (s, out))
            | Ok _ => (Ok (digest_getLength H s), (s, out))
            end
        end
    end.

(** ** random.py *)

Definition ALG_SECURE_RANDOM := 2.
(** random.py:9-13; [tt] is the (stateless) object *)
Definition random_getInstance (alg : Z) : res unit :=
  if alg =? ALG_SECURE_RANDOM then Ok tt else Err (CryptoExc NO_SUCH_ALGORITHM).

(** random.py:27: the state is the buffer *)
Definition generate_body (rnd : nat -> Z) (offset i : Z) : M (list Z) unit :=
  buffer <- get ;;
  buffer <- lift (py_set buffer (offset + i) (rnd (Z.to_nat i))) ;;
  put buffer.
(** random.py:15-17, 22-29.  [rnd i] is the [i]-th byte os.urandom delivers; the
    state is the buffer.  ArrayIndexOutOfBoundException (sic) is not defined:
    NameError. *)
Definition generateData (rnd : nat -> Z) (offset length : Z) : M (list Z) unit :=
  if length =? 0 then raise (CryptoExc ILLEGAL_VALUE)
  else catch_index (for_range 0 length (generate_body rnd offset)) NameError.
(** random.py:19-20 *)
Definition setSeed (buffer : list Z) (offset length : Z) : unit := tt.

(** ** Histories of calls (not in /repo: what the theorems quantify over); a call
    that raises is caught by the client *)
Definition digest_call (H : hashlib) (s : digest) (c : dcall) : digest :=
  match c with
  | DReset => snd (digest_reset H s)
  | DUpdate b o l => snd (digest_update b o l s)
  | DFinal b o l out oo => fst (snd (digest_doFinal H b o l oo (s, out)))
  end.
Definition digest_run (H : hashlib) (h : list dcall) (s : digest) : digest := fold_left (digest_call H) h s.
