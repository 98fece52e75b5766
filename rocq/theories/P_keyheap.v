(** * C116-C117: key objects, the pairs that refer to them, and CRT keys: property theorems *)
From Verif Require Import LP_keyheap Py S_Base S_Key L_Py M_utils M_util L_utils L_util M_key M_keyheap S_KeyHeap.
From Coq Require Import ZifyBool ZifyNat.
Ltac Zify.zify_post_hook ::= Z.div_mod_to_equations.

(** C116 is false, for every program and pair: when genKeyPair returns, the objects
    getPublic and getPrivate returned before are as they were, not initialised; getPublic
    and getPrivate now return other objects, which are. *)
Theorem C116_refuted : forall X cs rs p q i j p', krun X cs kstart = (rs, p) ->
  fst (kstep X (KGetPublic q) p) = Ok (RKey i) -> fst (kstep X (KGetPrivate q) p) = Ok (RKey j) ->
  kstep X (KGen q) p = (Ok RVoid, p') ->
  (exists k, nth_error (keys p) i = Some k /\ nth_error (keys p') i = Some k /\ isInitialized k = false)
  /\ (exists k, nth_error (keys p) j = Some k /\ nth_error (keys p') j = Some k /\ isInitialized k = false)
  /\ exists i' j' k k', fst (kstep X (KGetPublic q) p') = Ok (RKey i') /\ fst (kstep X (KGetPrivate q) p') = Ok (RKey j')
    /\ i' <> i /\ j' <> j /\ nth_error (keys p') i' = Some k /\ nth_error (keys p') j' = Some k'
    /\ isInitialized k = true /\ isInitialized k' = true.
Proof. exact C116_refuted_pf. Qed.
Print Assumptions C116_refuted.

Theorem C116_full_refuted : ~ C116_full.
Proof. exact C116_full_refuted_pf. Qed.
Print Assumptions C116_full_refuted.

(** C116, what does hold: a key object changes by its own setters only; *)
Theorem C116_frame_partial : forall X c p i k, sets_key i c = false -> nth_error (keys p) i = Some k ->
  nth_error (keys (snd (kstep X c p))) i = Some k.
Proof. exact C116_frame_partial_pf. Qed.
Print Assumptions C116_frame_partial.

(** a pair made of two keys refers to these two objects for ever, so what the caller sets
    in them is what the pair has; *)
Theorem C116_same_objects_partial : forall X i j p q p1 cs rs p', kstep X (KPairOf i j) p = (Ok (RPair q), p1) ->
  krun X cs p1 = (rs, p') ->
  fst (kstep X (KGetPublic q) p') = Ok (RKey i) /\ fst (kstep X (KGetPrivate q) p') = Ok (RKey j).
Proof. exact C116_same_objects_partial_pf. Qed.
Print Assumptions C116_same_objects_partial.

(** through the pair the caller sees all its setter calls on the two keys; *)
Theorem C116_through_partial : forall X i j p q p1 cs rs p', kstep X (KPairOf i j) p = (Ok (RPair q), p1) ->
  krun X cs p1 = (rs, p') -> exists h a b, nth_error (pairs_ p') q = Some h
  /\ nth_error (keys p) i = Some (KPub a) /\ nth_error (keys p) j = Some (KPriv b)
  /\ pair_view p' h = Some (mkPair None None (run_pub X (sets_of i cs) a) (run_priv (sets_of j cs) b)).
Proof. exact C116_through_partial_pf. Qed.
Print Assumptions C116_through_partial.

(** and genKeyPair does to the pair what the model with unshared keys says (C72). *)
Theorem C116_view_partial : forall X cs rs p q h, krun X cs kstart = (rs, p) -> nth_error (pairs_ p) q = Some h ->
  exists s h', pair_view p h = Some s /\ nth_error (pairs_ (snd (kstep X (KGen q) p))) q = Some h'
    /\ fst (kstep X (KGen q) p) = rmap (fun _ => RVoid) (fst (genKeyPair X s))
    /\ pair_view (snd (kstep X (KGen q) p)) h' = Some (snd (genKeyPair X s)).
Proof. exact C116_view_partial_pf. Qed.
Print Assumptions C116_view_partial.

Example C116_ex :
  let X := mkPyCrypto true (fun _ _ => Err ValueError) (fun _ => Ok (mkRsa 55 3 27 5 11 1)) (fun _ _ => Err ValueError) (fun _ _ => Err ValueError) in
  exists p, krun X [KPair 1 512; KGetPublic 0; KGen 0; KGetPublic 0; KGen 0; KBuild 4 512; KBuild 5 512; KPairOf 4 5; KGetPrivate 1] kstart
    = ([Ok (RPair 0); Ok (RKey 0); Ok RVoid; Ok (RKey 2); Err (CryptoExc 1); Ok (RKey 4); Ok (RKey 5); Ok (RPair 1); Ok (RKey 5)], p)
  /\ option_map isInitialized (nth_error (keys p) 0) = Some false /\ option_map isInitialized (nth_error (keys p) 2) = Some true.
Proof. eexists. split; [vm_compute; reflexivity|]. split; vm_compute; reflexivity. Qed.

(** C117 is false: whatever the size, the key and the calls, a PyCryptoRSAPrivateCrtKey is
    never initialised, says type 5, and no getter, setter or setTheKey returns; setTheKey
    remembers the key all the same. *)
Theorem C117_refuted : forall size cs rs s, crt_run cs (crt_new size) = (rs, s) ->
  ck_init s = false /\ ck_type s = 5 /\ ck_size s = size
  /\ Forall2 (fun c r => match c with
       | CrtClear => r = Ok tt
       | CrtTheKey _ => r = Err NameError
       | CrtGet _ n => r = Err (if Nat.eqb n 1 then NotImplementedError else TypeError)
       | CrtSet _ n => r = Err (if Nat.eqb n 2 then NotImplementedError else TypeError)
       end) cs rs
  /\ ck_the s = fold_left (fun a c => match c with CrtTheKey k => Some k | _ => a end) cs None.
Proof. exact C117_refuted_pf. Qed.
Print Assumptions C117_refuted.

Theorem C117_full_refuted : ~ C117_full.
Proof. exact C117_full_refuted_pf. Qed.
Print Assumptions C117_full_refuted.

Example C117_ex : crt_run [CrtTheKey (mkRsa 55 3 27 5 11 1); CrtGet DP1 2; CrtSet PQ_ 2] (crt_new 512)
  = ([Err NameError; Err TypeError; Err NotImplementedError], mkCrt 5 512 false (Some (mkRsa 55 3 27 5 11 1))).
Proof. reflexivity. Qed.
