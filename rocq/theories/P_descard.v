(** * C142: a card that encrypts and decrypts with DES: property theorems *)
From Verif Require Import LP_descard Py S_Base S_APDU L_Py M_utils M_util L_utils L_util M_apdu S_ApduObs L_apdu LP_apdu M_world LP_world S_DES S_Cipher M_des L_des LP_des LP_tdes LP_desx M_key M_cipher LP_cipher M_rsaapplet LP_pincard M_descard S_DesCard.
From Coq Require Import ZifyBool ZifyNat.
Ltac Zify.zify_post_hook ::= Z.div_mod_to_equations.

(** C142, what holds: every history of short commands is answered as FIPS 46-3 says, except
    that nobody looks at the padding: its last byte alone tells how much is cut off. *)
Theorem C142_exact_partial : forall alg size card qs,
  des_alg alg -> In size [64; 128; 192] -> dcard_install alg size = Ok card -> Forall request_ok qs ->
  map reply (fst (dcard_run (map bytes_of qs) card)) = crypto_run cut5 alg size qs None.
Proof. exact C142_exact_partial_pf. Qed.
Print Assumptions C142_exact_partial.

(** C142, the same for the standard's padding: whatever the standard answers, the card answers. *)
Theorem C142_agrees_partial : forall alg size card qs,
  des_alg alg -> In size [64; 128; 192] -> dcard_install alg size = Ok card -> Forall request_ok qs ->
  Forall2 (fun given wanted => wanted <> None -> given = wanted)
    (map reply (fst (dcard_run (map bytes_of qs) card))) (crypto_run unpad5 alg size qs None).
Proof. exact C142_agrees_partial_pf. Qed.
Print Assumptions C142_agrees_partial.

(** After any history and a PUT KEY, and commands that keep the key in between, ENCRYPT answers
    the cipher text and DECRYPT of it the message. *)
Theorem C142_roundtrip : forall alg size card qs1 qk qs2 e qs3 d key m,
  des_alg alg -> In size [64; 128; 192] -> dcard_install alg size = Ok card ->
  Forall request_ok qs1 -> puts_key key qk -> zlen key = size / 8 ->
  Forall request_ok qs2 -> Forall keeps_key qs2 -> Forall request_ok qs3 -> Forall keeps_key qs3 ->
  1 <= zlen m -> (if alg_pkcs5 alg then zlen m <= 127 else zlen m <= 128 /\ zlen m mod 8 = 0) ->
  let c := jc_encrypt alg key (repeat 0 8) m in
  crypts 2 m e -> crypts 1 c d ->
  last_reply (qs1 ++ qk :: qs2 ++ [e]) card = Some (c ++ [0x90; 0])
  /\ last_reply (qs1 ++ qk :: qs2 ++ e :: qs3 ++ [d]) card = Some (m ++ [0x90; 0]).
Proof. exact C142_roundtrip_pf. Qed.
Print Assumptions C142_roundtrip.

(** C142 is false: text [p] whose padding is wrong, encrypted as it is, is decrypted and cut
    somewhere, or lost altogether, instead of being refused. *)
Theorem C142_padding_refuted : forall alg size card qs1 qk qs2 d key p,
  alg = 4 \/ alg = 8 -> In size [64; 128; 192] -> dcard_install alg size = Ok card ->
  Forall request_ok qs1 -> puts_key key qk -> zlen key = size / 8 ->
  Forall request_ok qs2 -> Forall keeps_key qs2 ->
  Forall ubyte p -> 8 <= zlen p <= 128 -> zlen p mod 8 = 0 -> unpad5 p = None ->
  crypts 1 (jc_encrypt (alg - 3) key (repeat 0 8) p) d ->
  last_reply (qs1 ++ qk :: qs2 ++ [d]) card
    = Some ((if last p 0 =? 0 then [] else firstn (length p - Z.to_nat (last p 0)) p) ++ [0x90; 0])
  /\ last (crypto_run unpad5 alg size (qs1 ++ qk :: qs2 ++ [d]) None) None = None.
Proof. exact C142_padding_refuted_pf. Qed.
Print Assumptions C142_padding_refuted.

Theorem C142_full_refuted : ~ C142_full.
Proof. exact C142_full_refuted_pf. Qed.
Print Assumptions C142_full_refuted.

Example C142_ex :
  exists card, dcard_install 1 128 = Ok card
  /\ forall qs, Forall request_ok qs ->
     last_reply (qs ++ mkReq 0 0x24 0 0 (Case3S (repeat 7 16)) :: [] ++ [mkReq 0 0x2A 2 0 (Case4S (repeat 9 16) 256)]) card
     = Some (jc_encrypt 1 (repeat 7 16) (repeat 0 8) (repeat 9 16) ++ [0x90; 0]).
Proof.
  eexists. split; [reflexivity|]. intros qs Hq.
  assert (R : forall ins p1 b, wf_command b -> is_short b = true -> ubyte ins -> ubyte p1 -> request_ok (mkReq 0 ins p1 0 b)).
  { intros. unfold request_ok, ubyte in *. cbn. repeat split; try lia; try assumption; apply H. }
  assert (Hk : puts_key (repeat 7 16) (mkReq 0 0x24 0 0 (Case3S (repeat 7 16)))).
  { split; [|split; reflexivity]. apply R; try (unfold ubyte; lia); [|reflexivity]. split; [repeat constructor; lia|cbn; lia]. }
  assert (He : crypts 2 (repeat 9 16) (mkReq 0 0x2A 2 0 (Case4S (repeat 9 16) 256))).
  { split; [|repeat split; cbn; lia]. apply R; try (unfold ubyte; lia); [|reflexivity]. split; [repeat constructor; lia|cbn; lia]. }
  assert (Hd : exists d, crypts 1 (jc_encrypt 1 (repeat 7 16) (repeat 0 8) (repeat 9 16)) d).
  { let v := eval vm_compute in (jc_encrypt 1 (repeat 7 16) (repeat 0 8) (repeat 9 16)) in
    assert (Ec : jc_encrypt 1 (repeat 7 16) (repeat 0 8) (repeat 9 16) = v) by (vm_compute; reflexivity); rewrite Ec; clear Ec;
    exists (mkReq 0 0x2A 1 0 (Case3S v)).
    split; [|repeat split]. apply R; try (unfold ubyte; lia); [|reflexivity]. split; [repeat constructor; lia|cbn; lia]. }
  destruct Hd as [d Hd].
  refine (proj1 (C142_roundtrip 1 128 _ qs _ [] _ [] d (repeat 7 16) (repeat 9 16) (or_introl eq_refl) (or_intror (or_introl eq_refl)) eq_refl Hq Hk eq_refl
    (Forall_nil _) (Forall_nil _) (Forall_nil _) (Forall_nil _) _ _ He Hd)).
  - vm_compute. discriminate.
  - split; [vm_compute; discriminate|reflexivity].
Qed.

(** the round trip by hand, and an answer that should have been refused *)
Example C142_run_ex :
  let key := [1; 2; 3; 4; 5; 6; 7; 8] in
  let req p1 d := mkReq 0 0x2A p1 0 (Case3S d) in
  let c := jc_encrypt 8 key (repeat 0 8) [10; 20; 30] in
  let b := jc_encrypt 5 key (repeat 0 8) [1; 2; 3; 4; 5; 6; 7; 6] in
  match dcard_install 8 64 with
  | Ok card => map reply (fst (dcard_run (map bytes_of [req 2 [10; 20; 30]; mkReq 0 0x24 0 0 (Case3S key); req 2 [10; 20; 30]; req 1 c; req 3 c; req 1 [1]; req 1 b]) card))
      = [None; Some [0x90; 0]; Some (c ++ [0x90; 0]); Some [10; 20; 30; 0x90; 0]; None; None; Some [1; 2; 0x90; 0]]
  | Err _ => False
  end.
Proof. vm_compute. reflexivity. Qed.
