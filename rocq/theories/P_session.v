(** * C120: ciphers and key objects in one program: property theorems *)
From Verif Require Import LP_session Py S_Base S_Key L_Py M_utils M_util L_utils L_util M_key M_des M_cipher M_keyheap LP_keyheap M_session S_Session.
From Coq Require Import ZifyBool ZifyNat.
Ltac Zify.zify_post_hook ::= Z.div_mod_to_equations.

(** C120 in full. *)
Theorem C120_init_fixes_key : C120_full.
Proof. exact C120_init_fixes_key_pf. Qed.
Print Assumptions C120_init_fixes_key.

(** C120 for one call: at any moment of any program, the answer of doFinal would be the same
    after any further calls on keys and key pairs. *)
Theorem C120_later_key_calls : forall X before rs p ks i rnd inBuff inOffset inLength outBuff outOffset,
  srun X before sstart = (rs, p) ->
  fst (sstep X (SFinal i rnd inBuff inOffset inLength outBuff outOffset) (snd (srun X (map SKey ks) p)))
  = fst (sstep X (SFinal i rnd inBuff inOffset inLength outBuff outOffset) p).
Proof. exact C120_later_key_calls_pf. Qed.
Print Assumptions C120_later_key_calls.

(** one program: a DES key is changed between init and doFinal (the test vector 13 34 57 79 ...),
    and the exponent of a public key with modulus 55 (exponent 3, then 7) *)
Example C120_ex :
  let X := mkPyCrypto true (fun n e => Ok (mkRsa n e 0 0 0 0)) (fun _ => Err ValueError) (fun r x => Ok (x ^ r_e r mod r_n r * 16)) (fun _ _ => Err ValueError) in
  let before := [SKey (KBuild 3 64); SKey (KSetDes 0 [0x13;0x34;0x57;0x79;0x9B;0xBC;0xDF;0xF1] 0);
                 SKey (KBuild 4 8); SKey (KSet 1 (SExp [3] 0 1)); SKey (KSet 1 (SMod [55] 0 1)); SNew 12] in
  let cs := [SInit 1 0 2 None; SInit 0 1 2 None;
             SKey (KSetDes 0 [0;0;0;0;0;0;0;0] 0); SKey (KSet 1 (SExp [7] 0 1));
             SFinal 1 [] [0x01;0x23;0x45;0x67;0x89;0xAB;0xCD;0xEF] 0 8 (repeat 0 8) 0; SFinal 0 [] [2] 0 1 [0] 0] in
  map (fun i => map snd (own_calls X i cs (snd (srun X (before ++ [SNew 5]) sstart)))) [1%nat; 0%nat]
  = [ [AInit (Ok tt); AFinal (Ok 8) (map s1 [0x85;0xE8;0x13;0x54;0x0F;0x0A;0xB4;0x05])];
      [AInit (Ok tt); AFinal (Ok 1) [8]] ].
Proof. vm_compute. reflexivity. Qed.
