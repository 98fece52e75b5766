(** * C56: pyDes.triple_des: property theorems *)
From Verif Require Import LP_tdes Py S_Base L_Py S_DES M_des L_des LP_des.
From Coq Require Import ZifyBool ZifyNat.
Ltac Zify.zify_post_hook ::= Z.div_mod_to_equations.

(** C56: triple_des is EDE with the three (or two) DES keys of the key bytes,
    each FIPS 46-3, in ECB mode block by block and in CBC mode chained through
    the whole EDE; the IV defaults to the first eight key bytes; whatever was
    done with the object before. *)
Theorem C56_ede : forall key mode iv pad padmode d bs, tdes_reach key mode iv pad padmode d ->
  Forall (fun b => length b = 8%nat) bs -> Forall (Forall ubyte) bs ->
  (mode = ECB -> fst (tdes_encrypt (concat bs) [] (Some PAD_NORMAL) d) = Ok (concat (ecb (EDE key) bs)))
  /\ (mode = CBC -> Forall ubyte (iv ++ key) ->
       fst (tdes_encrypt (concat bs) [] (Some PAD_NORMAL) d)
       = Ok (concat (cbc_enc (EDE key) (match iv with [] => firstn 8 key | _ => iv end) bs)))
  /\ (pad = [] -> mode = ECB -> fst (tdes_decrypt (concat bs) [] (Some PAD_NORMAL) d) = Ok (concat (ecb (DED key) bs)))
  /\ (pad = [] -> mode = CBC -> Forall ubyte (iv ++ key) ->
       fst (tdes_decrypt (concat bs) [] (Some PAD_NORMAL) d)
       = Ok (concat (cbc_dec (DED key) (match iv with [] => firstn 8 key | _ => iv end) bs))).
Proof. exact C56_ede_pf. Qed.
Print Assumptions C56_ede.

(** objects exist exactly for keys of 16 and 24 bytes *)
Theorem C56_constructible : forall key mode iv pad padmode,
  (exists d, tdes_reach key mode iv pad padmode d)
  <-> (length key = 16 \/ length key = 24)%nat /\ (iv = [] \/ length iv = 8%nat) /\ (pad = [] \/ padmode <> PAD_PKCS5).
Proof. exact C56_constructible_pf. Qed.
Print Assumptions C56_constructible.

(** with the same DES key three times (or twice), triple_des is single DES *)
Theorem C56_degenerate : forall k key mode iv pad padmode d d1 bs, (key = k ++ k \/ key = k ++ k ++ k) -> length k = 8%nat ->
  tdes_reach key mode iv pad padmode d -> des_reach k mode iv pad padmode d1 ->
  Forall (fun b => length b = 8%nat) bs -> Forall (Forall ubyte) bs -> (mode = ECB \/ mode = CBC /\ iv <> [] /\ Forall ubyte iv) ->
  fst (tdes_encrypt (concat bs) [] (Some PAD_NORMAL) d) = fst (des_encrypt (concat bs) [] (Some PAD_NORMAL) d1).
Proof. exact C56_degenerate_pf. Qed.
Print Assumptions C56_degenerate.

(** round trip *)
Theorem C56_roundtrip : forall key mode iv padmode d m,
  tdes_reach key mode iv [] padmode d -> (mode = CBC -> Forall ubyte (iv ++ key)) -> Forall ubyte m ->
  (padmode = PAD_NORMAL /\ zlen m mod 8 = 0 \/ padmode = PAD_PKCS5) ->
  exists c d1, tdes_encrypt m [] None d = (Ok c, d1)
    /\ zlen c = (if padmode =? PAD_PKCS5 then 8 * (zlen m / 8 + 1) else zlen m)
    /\ Forall ubyte c
    /\ fst (tdes_decrypt c [] None d1) = Ok m.
Proof. exact C56_roundtrip_pf. Qed.
Print Assumptions C56_roundtrip.

Example C56_ex :
  (let? d := tdes_new [1;2;3;4;5;6;7;8;9;10;11;12;13;14;15;16] CBC [] [] PAD_PKCS5 in
   let? c := fst (tdes_encrypt [1;2;3;4;5;6;7;8;9] [] None d) in
   let? m := fst (tdes_decrypt c [] None d) in Ok (zlen c, m))
  = Ok (16, [1;2;3;4;5;6;7;8;9]).
Proof. vm_compute. reflexivity. Qed.

(** C56: same result or error as on a new object, after any calls *)
Theorem C56_history : forall key mode iv pad padmode d0 d data p pm,
  tdes_new key mode iv pad padmode = Ok d0 -> tdes_reach key mode iv pad padmode d ->
  fst (tdes_encrypt data p pm d) = fst (tdes_encrypt data p pm d0)
  /\ fst (tdes_decrypt data p pm d) = fst (tdes_decrypt data p pm d0).
Proof. exact C56_history_pf. Qed.
Print Assumptions C56_history.
