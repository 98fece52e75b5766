(** * C73-C78: message digests, random data, dispatcher and JCSystem: property theorems *)
From Verif Require Import LP_system Py S_Base S_System L_Py M_utils L_utils M_util L_util M_key M_digest S_Samples M_system.
From Coq Require Import ZifyBool ZifyNat.
Ltac Zify.zify_post_hook ::= Z.div_mod_to_equations.

(** C73: after any calls, doFinal on a readable range digests everything fed since
    the last reset or doFinal; the digest is written as signed bytes and nothing
    else changes; its length is returned; the object is as new.  With too small
    an output array it raises, and the object is as new as well. *)
Theorem C73 : forall H alg s0 h inBuff io il out oo,
  (forall m, zlen (hl_digest H alg m) = hl_size H alg /\ Forall ubyte (hl_digest H alg m)) ->
  digest_getInstance H alg = Ok s0 -> Forall offset_ok h ->
  0 <= io -> 0 <= il -> io + il <= zlen inBuff -> 0 <= oo ->
  let s := digest_run H h s0 in
  let d := hl_digest H alg (fed h ++ bytes_of inBuff io il) in
  digest_getLength H s = hl_size H alg
  /\ (oo + hl_size H alg <= zlen out ->
      digest_doFinal H inBuff io il oo (s, out) = (Ok (hl_size H alg), (s0, splice out (Z.to_nat oo) (map (twos 1) d))))
  /\ (zlen out < oo + hl_size H alg -> 0 < hl_size H alg ->
      exists e out', digest_doFinal H inBuff io il oo (s, out) = (Err e, (s0, out'))).
Proof. exact C73_pf. Qed.
Print Assumptions C73.

(** which algorithms exist: 1 to 11, those hashlib provides *)
Theorem C73_getInstance : forall H alg,
  (exists s0, digest_getInstance H alg = Ok s0 /\ digest_getAlgorithm s0 = alg) <-> (1 <= alg <= 11 /\ hl_avail H alg = true).
Proof. exact C73_getInstance_pf. Qed.
Print Assumptions C73_getInstance.

Example C73_ex : forall s0, digest_getInstance H0 1 = Ok s0 ->
  fed [DUpdate [1; 2; 3] 0 3; DReset; DUpdate [1; -2; 3] 1 2; DUpdate [1] 0 9] = [254; 3]
  /\ digest_doFinal H0 [5; 200] 1 1 1 (digest_run H0 [DUpdate [1; 2; 3] 0 3; DReset; DUpdate [1; -2; 3] 1 2; DUpdate [1] 0 9] s0, [9; 9; 9; 9])
     = (Ok 2, (s0, [9; -55; 3; 9])).
Proof. intros s0 E. injection E as <-. split; vm_compute; reflexivity. Qed.

(** C74 is false: an unreadable range raises NameError (nothing is fed, nothing
    written, and doFinal does not reset), an output that is too small likewise;
    and negative offsets are accepted, reading from the end of the array *)
Theorem C74_refuted : forall H s inBuff io il,
  (0 <= io -> 0 < il -> zlen inBuff < io + il ->
     digest_update inBuff io il s = (Err NameError, s)
     /\ forall oo out, digest_doFinal H inBuff io il oo (s, out) = (Err NameError, (s, out)))
  /\ (- zlen inBuff <= io < 0 -> 0 <= il -> io + il <= 0 ->
     digest_update inBuff io il s = (Ok tt, mkDigest (md_alg s) (md_fed s ++ bytes_of inBuff (zlen inBuff + io) il))).
Proof. exact C74_refuted_pf. Qed.
Print Assumptions C74_refuted.

Example C74_ex : fst (digest_update [1; 2; 3] 2 2 (mkDigest 1 [])) = Err NameError
  /\ digest_update [1; 2; 3] (-2) 2 (mkDigest 1 []) = (Ok tt, mkDigest 1 [2; 3]).
Proof. split; vm_compute; reflexivity. Qed.

(** what holds of C74: the ranges that are not readable are refused, and only
    those *)
Theorem C74_partial : forall s inBuff io il, 0 <= io ->
  (fst (digest_update inBuff io il s) = Ok tt <-> (il <= 0 \/ io + il <= zlen inBuff)).
Proof. exact C74_partial_pf. Qed.
Print Assumptions C74_partial.

(** C75 in bounds: exactly the range is replaced, by the successive bytes of the
    random source; length 0 raises ILLEGAL_VALUE *)
Theorem C75_partial : forall rnd buf off n,
  (0 < n -> 0 <= off -> off + n <= zlen buf ->
     generateData rnd off n buf = (Ok tt, splice buf (Z.to_nat off) (map rnd (seq 0 (Z.to_nat n)))))
  /\ generateData rnd off 0 buf = (Err (CryptoExc 1), buf).
Proof. exact C75_partial_pf. Qed.
Print Assumptions C75_partial.

(** C75 is false out of bounds: NameError is raised, and a negative length is
    accepted *)
Theorem C75_refuted : forall rnd buf off n,
  (0 < n -> 0 <= off -> zlen buf < off + n -> fst (generateData rnd off n buf) = Err NameError)
  /\ (n < 0 -> generateData rnd off n buf = (Ok tt, buf)).
Proof. exact C75_refuted_pf. Qed.
Print Assumptions C75_refuted.

Example C75_ex : generateData (fun i => 100 + Z.of_nat i) 1 2 [0; 0; 0; 0] = (Ok tt, [0; 100; 101; 0])
  /\ fst (generateData (fun i => 100 + Z.of_nat i) 3 2 [0; 0; 0; 0]) = Err NameError.
Proof. split; vm_compute; reflexivity. Qed.

(** only the secure generator exists *)
Theorem C75_getInstance : forall alg,
  random_getInstance alg = if alg =? 2 then Ok tt else Err (CryptoExc 3).
Proof. exact C75_getInstance_pf. Qed.
Print Assumptions C75_getInstance.

(** C76 without the capacity: after any history of addService calls each phase
    holds its services in order; None and unknown phases raise ILLEGAL_PARAM and
    change nothing; a negative capacity is refused *)
Theorem C76_partial : forall maxServices s0 h phase service, dispatcher_new maxServices = Ok s0 ->
  let s := disp_run h s0 in
  (0 <= phase <= 3 -> services s phase = Ok (expected phase h))
  /\ ((service = None \/ ~ 0 <= phase <= 3) -> addService service phase s = (Err (ServiceExc 1), s))
  /\ (forall m, m < 0 -> dispatcher_new m = Err (ServiceExc 1)).
Proof. exact C76_partial_pf. Qed.
Print Assumptions C76_partial.

(** C76 is false of the capacity: however many services there are, another one is
    accepted; also in the phase PROCESS_NONE *)
Theorem C76_refuted : forall maxServices s0 h phase v, dispatcher_new maxServices = Ok s0 -> 0 <= phase <= 3 ->
  fst (addService (Some v) phase (disp_run h s0)) = Ok tt.
Proof. exact C76_refuted_pf. Qed.
Print Assumptions C76_refuted.

Example C76_ex : exists s0, dispatcher_new 0 = Ok s0
  /\ services (disp_run [(Some 7, 2); (None, 2); (Some 8, 1); (Some 9, 2); (Some 5, 12)] s0) 2 = Ok [7; 9].
Proof. eexists. split; [reflexivity|]. vm_compute. reflexivity. Qed.

(** C77 is false: whatever is done between beginTransaction and abortTransaction
    stays done; nested begins and unmatched commits and aborts are accepted *)
Theorem C77_refuted : forall (S A : Type) (f : M S A) (s : S) a s', f s = (Ok a, s') ->
  (beginTransaction ;;; (x <- f ;; (abortTransaction ;;; ret x))) s = (Ok a, s')
  /\ (beginTransaction ;;; beginTransaction) s = (Ok tt, s)
  /\ commitTransaction s = (Ok tt, s) /\ abortTransaction s = (Ok tt, s).
Proof. exact C77_refuted_pf. Qed.
Print Assumptions C77_refuted.

Example C77_ex : (beginTransaction ;;; (x <- put [1; 2] ;; (abortTransaction ;;; ret x))) [0] = (Ok tt, [1; 2]).
Proof. reflexivity. Qed.

(** C78 for non-negative lengths: exactly that many default values *)
Theorem C78_partial : forall n event, 0 <= n ->
  (exists a, makeTransientShortArray n event = Ok a /\ zlen a = n /\ forall v, In v a -> v = VInt 0)
  /\ (exists a, makeTransientByteArray n event = Ok a /\ zlen a = n /\ forall v, In v a -> v = VInt 0)
  /\ (exists a, makeTransientBooleanArray n event = Ok a /\ zlen a = n /\ forall v, In v a -> v = VBool false)
  /\ (exists a, makeTransientObjectArray n event = Ok a /\ zlen a = n /\ forall v, In v a -> v = VNone)
  /\ (forall t, 1 <= t <= 5 -> exists a, makeGlobalArray t n = Ok a /\ zlen a = n
        /\ forall v, In v a -> v = if t =? 1 then VBool false else if t =? 5 then VNone else VInt 0).
Proof. exact C78_partial_pf. Qed.
Print Assumptions C78_partial.

(** C78 is false for negative lengths: the transient factories return an empty
    array; makeGlobalArray raises, but NameError *)
Theorem C78_refuted : forall n event t, n < 0 ->
  makeTransientShortArray n event = Ok [] /\ makeTransientByteArray n event = Ok []
  /\ makeTransientBooleanArray n event = Ok [] /\ makeTransientObjectArray n event = Ok []
  /\ makeGlobalArray t n = Err NameError.
Proof. exact C78_refuted_pf. Qed.
Print Assumptions C78_refuted.

(** an unknown type raises KeyError *)
Theorem C78_unknown_type : forall t n, 0 <= n -> ~ 1 <= t <= 5 -> makeGlobalArray t n = Err KeyError.
Proof. exact C78_unknown_type_pf. Qed.
Print Assumptions C78_unknown_type.

Example C78_ex : makeGlobalArray 5 3 = Ok [VNone; VNone; VNone] /\ makeTransientBooleanArray (-1) 1 = Ok [].
Proof. split; reflexivity. Qed.
