(** * Vocabulary of the statements about C116 and C117 *)
From Verif Require Import Py S_Base S_Key M_key M_keyheap.

(** the setter calls on key i *)
Definition sets_key (i : nat) (c : kcall) : bool :=
  match c with KSet i' _ | KSetDes i' _ _ => Nat.eqb i' i | _ => false end.

(** the setter calls on key i in a program, in order *)
Definition sets_of (i : nat) (cs : list kcall) : list setter :=
  flat_map (fun c => match c with KSet i' s => if Nat.eqb i' i then [s] else [] | _ => [] end) cs.

(** C116: genKeyPair fills the keys of the pair: the objects getPublic and getPrivate
    returned before are initialised by it, and are those that getPublic and getPrivate
    return after it. *)
Definition C116_full : Prop := forall X cs rs p q i j p', krun X cs kstart = (rs, p) ->
  fst (kstep X (KGetPublic q) p) = Ok (RKey i) -> fst (kstep X (KGetPrivate q) p) = Ok (RKey j) ->
  kstep X (KGen q) p = (Ok RVoid, p') ->
  (exists k, nth_error (keys p') i = Some k /\ isInitialized k = true)
  /\ (exists k, nth_error (keys p') j = Some k /\ isInitialized k = true)
  /\ fst (kstep X (KGetPublic q) p') = Ok (RKey i) /\ fst (kstep X (KGetPrivate q) p') = Ok (RKey j).

(** C117: a CRT key can be given the five components, is then initialised, and has type 6 *)
Definition C117_full : Prop := forall size k,
  let '(r, s) := crt_step (CrtTheKey k) (crt_new size) in
  r = Ok tt /\ ck_init s = true /\ ck_type s = 6 /\ ck_size s = size
  /\ forall c, is_ok (fst (crt_step (CrtGet c 2) s)) = true.
