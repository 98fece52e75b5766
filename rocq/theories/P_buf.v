(** * Proofs of C133: input and output arrays that are the same: property theorems *)
From Verif Require Import LP_buf Py M_utils M_util M_key M_cipher M_digest M_bertag M_bertlv M_bufheap S_Base S_DES S_Cipher S_Buf L_Py L_util.
From Verif Require LP_cipher.
From Coq Require Import Lia Bool.

(** DES: the outcome, the cipher and the output array are those of the call with a copy of the
    input array, whether or not the output array is the input array; nothing else is written. *)
Theorem C133_des : forall d r inB io il outB oo c h, ~ In inB [d; r] -> ~ In outB [d; r] ->
  let x := des_doFinal_at d r inB io il outB oo (c, h) in let y := des_doFinal (h inB) io il oo (c, h outB) in
  fst x = fst y /\ fst (snd x) = fst (snd y) /\ wrote outB [d; r] h (snd (snd x)) (snd (snd y)).
Proof. exact C133_des_pf. Qed.
Print Assumptions C133_des.

(** The same for RSA, for every implementation of RSA. *)
Theorem C133_rsa : forall X rnd c k d r inB io il outB oo h, ~ In inB [d; r] -> ~ In outB [d; r] ->
  let x := rsa_doFinal_at X rnd c k d r inB io il outB oo h in let y := rsa_doFinal X rnd c k (h inB) io il oo (h outB) in
  fst x = fst y /\ wrote outB [d; r] h (snd x) (snd y).
Proof. exact C133_rsa_pf. Qed.
Print Assumptions C133_rsa.

(** Message digests, for every hash function *)
Theorem C133_digest : forall H inB io il outB oo s h,
  let x := digest_doFinal_at H inB io il outB oo (s, h) in let y := digest_doFinal H (h inB) io il oo (s, h outB) in
  fst x = fst y /\ fst (snd x) = fst (snd y) /\ wrote outB [] h (snd (snd x)) (snd (snd y)).
Proof. exact C133_digest_pf. Qed.
Print Assumptions C133_digest.

(** Appending a TLV of an array to a TLV of an array *)
Theorem C133_append : forall inA io outA oo h,
  let x := appendStatic_at inA io outA oo h in let y := appendStatic (h inA) io oo (h outA) in
  fst x = fst y /\ wrote outA [] h (snd x) (snd y).
Proof. exact C133_append_pf. Qed.
Print Assumptions C133_append.

(** Encrypting in place and decrypting in place: the message comes back as signed bytes where it was, for overlapping
    or equal ranges of one array. *)
Theorem C133_inplace : forall alg typ size keyData keyOff bArray bOff c1 c2 d r d' r' l io il oo h,
  des_alg alg -> In size [64; 128; 192] -> 0 <= keyOff -> keyOff + size / 8 <= zlen keyData -> 0 <= bOff -> bOff + 8 <= zlen bArray ->
  cipher_reach alg (snd (setKey keyData keyOff (deskey_new typ size))) MODE_ENCRYPT bArray bOff c1 ->
  cipher_reach alg (snd (setKey keyData keyOff (deskey_new typ size))) MODE_DECRYPT bArray bOff c2 ->
  0 <= io -> 0 <= il -> io + il <= zlen (h l) -> (alg_pkcs5 alg = false -> il mod 8 = 0) ->
  0 <= oo -> oo + (if alg_pkcs5 alg then 8 * (il / 8 + 1) else il) <= zlen (h l) ->
  ~ In l [d; r] -> ~ In l [d'; r'] ->
  exists n c1' h1 c2' h2,
    des_doFinal_at d r l io il l oo (c1, h) = (Ok n, (c1', h1))
    /\ des_doFinal_at d' r' l oo n l io (c2, h1) = (Ok il, (c2', h2))
    /\ h2 l = splice (h1 l) (Z.to_nat io) (map (twos 1) (sub (h l) (Z.to_nat io) (Z.to_nat il)))
    /\ (forall k, k <> l -> ~ In k [d; r; d'; r'] -> h2 k = h k).
Proof. exact C133_inplace_pf. Qed.
Print Assumptions C133_inplace.

(** Example: an in-place digest whose output overlaps its input, and a copy for comparison *)
Example C133_ex : let H := mkHashlib (fun _ => true) (fun _ => 3) (fun _ l => [zlen l; nth 0 l 0; nth 1 l 0]) in
  let h := fun k : loc => match k with O => [200; 2; 3; 4] | _ => [9; 9; 9; 9] end in
  let x := digest_doFinal_at H 0%nat 0 3 0%nat 1 (mkDigest 1 [], h) in
  fst x = Ok 3 /\ snd (snd x) 0%nat = [200; 3; -56; 2] /\ snd (snd x) 1%nat = [9; 9; 9; 9]
  /\ snd (snd (digest_doFinal_at H 0%nat 0 3 1%nat 1 (mkDigest 1 [], h))) 1%nat = [9; 3; -56; 2].
Proof. vm_compute. repeat split. Qed.

(** DES in place, with PKCS5 padding, to an overlapping range and back *)
Example C133_ex2 : let k := snd (setKey [1; 35; 69; 103; -119; -85; -51; -17] 0 (deskey_new 3 64)) in
  let c1 := snd (des_init_default (Some (KDes k)) MODE_ENCRYPT (cipher_new ALG_DES_CBC_PKCS5)) in
  let c2 := snd (des_init_default (Some (KDes k)) MODE_DECRYPT (cipher_new ALG_DES_CBC_PKCS5)) in
  let h := fun k : loc => match k with O => [1; 2; 3; 4; 5; 0; 0; 0; 0; 0; 0; 0] | _ => [9] end in
  let x := des_doFinal_at 5%nat 6%nat 0%nat 0 5 0%nat 3 (c1, h) in
  fst x = Ok 8 /\ skipn 11 (snd (snd x) 0%nat) = [0] /\ firstn 3 (snd (snd x) 0%nat) = [1; 2; 3]
  /\ sub (snd (snd x) 0%nat) 3 8 <> [4; 5; 0; 0; 0; 0; 0; 0]
  /\ (let y := des_doFinal_at 5%nat 6%nat 0%nat 3 8 0%nat 0 (c2, snd (snd x)) in
      fst y = Ok 5 /\ firstn 5 (snd (snd y) 0%nat) = [1; 2; 3; 4; 5] /\ snd (snd y) 1%nat = [9]).
Proof. vm_compute. repeat split. discriminate. Qed.
