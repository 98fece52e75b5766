(** * C108: the RSA example applet: property theorems *)
From Verif Require Import LP_rsaapplet Py S_Base S_Number S_Key L_Py M_utils L_utils M_util L_util M_apdu L_apdu S_APDU LP_apdu M_world M_key LP_keys M_des M_cipher LP_cipher S_RSA LP_rsa M_rsaapplet S_RsaApplet.
From Coq Require Import ZifyBool ZifyNat.
Ltac Zify.zify_post_hook ::= Z.div_mod_to_equations.

(** installing fails without pycrypto and when pycrypto fails; otherwise both keys hold the
    generated key *)
Theorem C108_install : forall X,
  rsa_install X = if pc_avail X
                  then match pc_generate X 1024 with
                       | Ok r => Ok (mkCard (mkPub 1024 true (Some (longToArray (r_e r))) (Some (longToArray (r_n r))) (Some r))
                                            (mkPriv 1024 true (Some (longToArray (r_e r))) (Some (longToArray (r_d r))) (Some r))
                                            (mkCipher 10 false None None))
                       | Err e => Err e
                       end
                  else Err (CryptoExc 3).
Proof. exact C108_install_pf. Qed.
Print Assumptions C108_install.

(** encrypting: whatever the card answered before, the answer is made from a correctly
    padded block, but it is the number pycrypto returns without its last hexadecimal digit;
    if that is longer than the expected length, APDUException BAD_LENGTH escapes.  Missing
    from the full statement: the number itself, 128 bytes, and decryption *)
Theorem C108_encrypt_partial : forall X r card rnd m p2 le,
  serving X r card -> supplies rnd 125 -> wf_cmd 0 170 1 p2 m le -> zlen m <= 117 ->
  exists block, pkcs1_block m block /\ zlen block = 128
    /\ (forall y, pc_encrypt X r (le_value block) = Ok y -> 0 <= y < 256 ^ 128 ->
        exists ct, le_value ct = y / 16 /\ Forall ubyte ct /\ zlen ct <= 128
          /\ fst (rsa_respond X rnd (Some false) (cmd 0 170 1 p2 m le) card)
             = if zlen ct <=? le then Ok (ct ++ [144; 0]) else Err (APDUExc 0))
    /\ (forall e, pc_encrypt X r (le_value block) = Err e -> e <> KeyError -> (forall sw, e <> ISOExc sw) ->
        fst (rsa_respond X rnd (Some false) (cmd 0 170 1 p2 m le) card) = Err e).
Proof. exact C108_encrypt_partial_pf. Qed.
Print Assumptions C108_encrypt_partial.

(** decrypting: for every ciphertext of a correctly padded block, CryptoException
    ILLEGAL_VALUE escapes from process *)
Theorem C108_decrypt_refuted : forall X r card rnd ct p2 le m block,
  serving X r card -> wf_cmd 0 170 2 p2 ct le -> 128 <= zlen ct -> Forall ubyte m -> pkcs1_block m block ->
  pc_decrypt X r (le_value (firstn 128 ct)) = Ok (le_value block) ->
  fst (rsa_respond X rnd (Some false) (cmd 0 170 2 p2 ct le) card) = Err (CryptoExc 1).
Proof. exact C108_decrypt_refuted_pf. Qed.
Print Assumptions C108_decrypt_refuted.

(** every other command: NameError escapes for a class other than 0, status words for
    unknown instructions and P1, and CryptoException ILLEGAL_VALUE escapes for a message
    longer than 117 bytes or a ciphertext shorter than 128 *)
Theorem C108_errors : forall X r card rnd cla ins p1 p2 d le,
  serving X r card -> wf_cmd cla ins p1 p2 d le ->
  let answer := fst (rsa_respond X rnd (Some false) (cmd cla ins p1 p2 d le) card) in
  (cla <> 0 -> answer = Err NameError)
  /\ (cla = 0 -> ins <> 170 -> answer = Ok [0x6d; 0])
  /\ (cla = 0 -> ins = 170 -> p1 <> 1 -> p1 <> 2 -> answer = Ok [0x6b; 0])
  /\ (cla = 0 -> ins = 170 -> p1 = 1 -> 117 < zlen d -> answer = Err (CryptoExc 1))
  /\ (cla = 0 -> ins = 170 -> p1 = 2 -> zlen d < 128 -> answer = Err (CryptoExc 1))
  /\ fst (rsa_respond X rnd (Some true) (cmd cla ins p1 p2 d le) card) = Ok [0x90; 0]
  /\ fst (rsa_respond X rnd None (cmd cla ins p1 p2 d le) card) = Err AttributeError.
Proof. exact C108_errors_pf. Qed.
Print Assumptions C108_errors.

(** false in general, here for a key under which encryption is the identity *)
Theorem C108_full_refuted : ~ C108_full.
Proof. exact C108_full_refuted_pf. Qed.
Print Assumptions C108_full_refuted.

(** the hypotheses are met by the card above, and its answers: the message and its padding
    shifted by four bits, nothing for a ciphertext, and the status words *)
Example C108_ex :
  let r := mkRsa 0 0 0 0 0 0 in
  let card := card_of r (cipher_new 10) in
  let m := [97; 98; 99] in
  let ct := [32] ++ repeat 16 122 ++ [0; 16; 38; 54; 6] in
  serving Xid r card /\ sound Xid r /\ supplies (repeat 1 125) 125 /\ wf_cmd 0 170 1 0 m 256
  /\ fst (rsa_respond Xid (repeat 1 125) (Some false) (cmd 0 170 1 0 m 256) card) = Ok (ct ++ [144; 0])
  /\ fst (rsa_respond Xid (repeat 1 125) (Some false) (cmd 0 170 1 0 m 127) card) = Err (APDUExc 0)
  /\ fst (rsa_respond Xid [] (Some false) (cmd 0 170 2 0 ([0; 2] ++ repeat 1 122 ++ [0; 97; 98; 99]) 256) card) = Err (CryptoExc 1)
  /\ fst (rsa_respond Xid [] (Some false) (cmd 0 171 1 0 m 256) card) = Ok [0x6d; 0].
Proof.
  cbv zeta. split; [|split; [|split; [|split]]].
  - split; [reflexivity|]. exists (card_of (mkRsa 0 0 0 0 0 0) (cipher_new 10)), []. split; reflexivity.
  - intros x Hx. exists x. auto.
  - split; [apply Forall_forall; intros x I; apply repeat_spec in I; subst; unfold ubyte; lia|]. vm_compute. discriminate.
  - repeat split; try (unfold ubyte; lia); try (vm_compute; discriminate). repeat constructor; unfold ubyte; lia.
  - repeat split; vm_compute; reflexivity.
Qed.
