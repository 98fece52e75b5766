(** * Key objects and the key pairs that refer to them: pythoncard/security/keypair.py,
      and the classes of privatekey.py that the library never instantiates

    M_key.v gives every KeyPair its own two keys.  In the code it holds references: to the
    two objects the caller passed (keypair.py:35-36), or to objects the constructor made
    (lines 22-27); genKeyPair replaces the references by new objects (lines 45-53).  Here
    keys live in a heap. *)
From Verif Require Import Py M_utils M_util S_Key M_key.

(** _algorithm, _keylength (None: the attribute does not exist), _publicKey, _privateKey *)
Record hpair : Set := mkHP { hp_alg : option Z; hp_len : option Z; hp_pub : nat; hp_priv : nat }.
Record kprog : Set := mkK { keys : list akey; pairs_ : list hpair }.
Definition kstart : kprog := mkK [] [].

(** What the caller does; results are positions of keys and pairs. *)
Inductive kcall : Set :=
| KBuild (typ len : Z)            (* KeyBuilder.buildKey(typ, len, b) *)
| KSet (i : nat) (s : setter)     (* keys[i].setExponent(...) or setModulus(...) *)
| KSetDes (i : nat) (keyData : list Z) (keyOff : Z)
| KPair (alg len : Z)             (* KeyPair(alg, len) *)
| KPairOf (i j : nat)             (* KeyPair(keys[i], keys[j]) *)
| KGen (q : nat)                  (* pairs[q].genKeyPair() *)
| KGetPublic (q : nat)
| KGetPrivate (q : nat).
Inductive kres : Set := RKey (i : nat) | RPair (q : nat) | RVoid.

(** the setters of publickey.py:68-76 and privatekey.py:56-64; a DES key has none *)
Definition key_set (X : pycrypto) (s : setter) : M akey unit :=
  fun k =>
    match k with
    | KPub p => let '(r, p') := match s with SExp b f l => pub_setExponent X b f l p | SMod b f l => pub_setModulus X b f l p end in (r, KPub p')
    | KPriv v => let '(r, v') := match s with SExp b f l => priv_setExponent b f l v | SMod b f l => priv_setModulus b f l v end in (r, KPriv v')
    | KDes _ => (Err AttributeError, k)
    end.

Definition kstep (X : pycrypto) (c : kcall) (p : kprog) : res kres * kprog :=
  match c with
  | KBuild typ len =>
      match buildKey typ len with
      | Ok (Some k) => (Ok (RKey (length (keys p))), mkK (keys p ++ [k]) (pairs_ p))
      | Ok None => (Ok RVoid, p)
      | Err e => (Err e, p)
      end
  | KSet i s =>
      match nth_error (keys p) i with
      | None => (Err IndexError, p)
      | Some k => let '(r, k') := key_set X s k in (rmap (fun _ => RVoid) r, mkK (list_upd (keys p) i k') (pairs_ p))
      end
  | KSetDes i keyData keyOff =>
      match nth_error (keys p) i with
      | Some (KDes k) => let '(r, k') := setKey keyData keyOff k in (rmap (fun _ => RVoid) r, mkK (list_upd (keys p) i (KDes k')) (pairs_ p))
      | Some _ => (Err AttributeError, p)
      | None => (Err IndexError, p)
      end
  | KPair alg len =>
      (* keypair.py:19-30 *)
      if (alg =? ALG_RSA) || (alg =? ALG_RSA_CRT) then
        let n := length (keys p) in
        (Ok (RPair (length (pairs_ p))),
         mkK (keys p ++ [KPub (pubkey_new len); KPriv (privkey_new len)])
             (pairs_ p ++ [mkHP (Some alg) (Some len) n (n + 1)]))
      else (Err (CryptoExc NO_SUCH_ALGORITHM), p)
  | KPairOf i j =>
      (* keypair.py:31-36 *)
      match nth_error (keys p) i, nth_error (keys p) j with
      | Some a, Some b =>
          match a, b with
          | KPub _, KPriv _ => (Ok (RPair (length (pairs_ p))), mkK (keys p) (pairs_ p ++ [mkHP None None i j]))
          | _, _ => (Err (CryptoExc ILLEGAL_VALUE), p)
          end
      | _, _ => (Err IndexError, p)
      end
  | KGen q =>
      (* keypair.py:38-58 *)
      match nth_error (pairs_ p) q with
      | None => (Err IndexError, p)
      | Some h =>
          match nth_error (keys p) (hp_pub h), nth_error (keys p) (hp_priv h) with
          | Some a, Some b =>
              if isInitialized a || isInitialized b then (Err (CryptoExc ILLEGAL_VALUE), p)
              else if negb (pc_avail X) then (Err (CryptoExc NO_SUCH_ALGORITHM), p)
              else match hp_alg h with
                   | None => (Err AttributeError, p)
                   | Some alg =>
                       if negb ((alg =? ALG_RSA) || (alg =? ALG_RSA_CRT)) then (Err (CryptoExc ILLEGAL_VALUE), p)
                       else match hp_len h with
                            | None => (Err AttributeError, p)
                            | Some len =>
                                match pc_generate X len with
                                | Err e => (Err e, p)
                                | Ok r =>
                                    let n := length (keys p) in
                                    (Ok RVoid,
                                     mkK (keys p ++ [KPub (snd (pub_setTheKey X r (pubkey_new len)));
                                                     KPriv (snd (priv_setTheKey r (privkey_new len)))])
                                         (list_upd (pairs_ p) q (mkHP (hp_alg h) (hp_len h) n (n + 1))))
                                end
                            end
                   end
          | _, _ => (Err IndexError, p)
          end
      end
  | KGetPublic q =>
      match nth_error (pairs_ p) q with Some h => (Ok (RKey (hp_pub h)), p) | None => (Err IndexError, p) end
  | KGetPrivate q =>
      match nth_error (pairs_ p) q with Some h => (Ok (RKey (hp_priv h)), p) | None => (Err IndexError, p) end
  end.

Fixpoint krun (X : pycrypto) (cs : list kcall) (p : kprog) : list (res kres) * kprog :=
  match cs with
  | [] => ([], p)
  | c :: cs' =>
      let '(r, p1) := kstep X c p in
      let '(rs, p2) := krun X cs' p1 in
      (r :: rs, p2)
  end.

(** the pair with the present state of its keys, as in M_key.v *)
Definition pair_view (p : kprog) (h : hpair) : option keypair :=
  match nth_error (keys p) (hp_pub h), nth_error (keys p) (hp_priv h) with
  | Some (KPub a), Some (KPriv b) => Some (mkPair (hp_alg h) (hp_len h) a b)
  | _, _ => None
  end.

(** ** PyCryptoRSAPrivateCrtKey (privatekey.py:72-118)

    Attributes type, size, initialized and _theKey (None: missing). *)
Record crtkey : Set := mkCrt { ck_type : Z; ck_size : Z; ck_init : bool; ck_the : option rsa }.
(** lines 107-108: the constructor of RSAPrivateKey (lines 10-11: type 5) is called, not that of
    RSAPrivateCrtKey (lines 73-74: type 6) *)
Definition crt_new (size : Z) : crtkey := mkCrt 5 size false None.
(** The methods of lines 76-104, declared without [self]: a call with n arguments passes
    n + 1, which is the declared number of parameters only if one is missing. *)
Inductive crt_part : Set := DP1 | DQ1 | P_ | PQ_ | Q_.
Inductive crt_call : Set :=
| CrtGet (c : crt_part) (nargs : nat)     (* getDP1(buffer, offset) ... *)
| CrtSet (c : crt_part) (nargs : nat)     (* setDP1(buffer, offset, length) ... *)
| CrtTheKey (k : rsa)                     (* setTheKey(k) *)
| CrtClear.                               (* clearKey() *)
Definition crt_step (c : crt_call) : M crtkey unit :=
  match c with
  | CrtGet _ n => if Nat.eqb (n + 1) 2 then raise NotImplementedError else raise TypeError
  | CrtSet _ n => if Nat.eqb (n + 1) 3 then raise NotImplementedError else raise TypeError
  | CrtTheKey k =>
      (* lines 110-118: line 112 uses the undefined name [keypair] *)
      s <- get ;;
      put (mkCrt (ck_type s) (ck_size s) (ck_init s) (Some k)) ;;; raise NameError
  | CrtClear => ret tt
  end.
Fixpoint crt_run (cs : list crt_call) (s : crtkey) : list (res unit) * crtkey :=
  match cs with
  | [] => ([], s)
  | c :: cs' =>
      let '(r, s1) := crt_step c s in
      let '(rs, s2) := crt_run cs' s1 in
      (r :: rs, s2)
  end.
