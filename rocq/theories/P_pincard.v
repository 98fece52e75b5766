(** * C141: a card that guards a secret with a PIN: property theorems *)
From Verif Require Import LP_pincard Py S_Base S_APDU L_Py M_utils M_util L_utils L_util M_ownerpin S_OwnerPIN LP_ownerpin M_apdu S_ApduObs L_apdu LP_apdu M_world LP_world M_pincard S_PinCard.
From Coq Require Import ZifyBool ZifyNat.
Ltac Zify.zify_post_hook ::= Z.div_mod_to_equations.

(** C141, what holds: with a code as long as the PIN may be and without zero bytes, and
    VERIFY commands with no more data than that, every terminal sees the vault once the
    applet has been selected. *)
Theorem C141_exact_partial : forall limit code secret ts,
  0 < limit -> 1 <= zlen code <= 127 -> ~ In 0 code -> zlen secret <= 256 ->
  Forall terminal_ok ts -> Forall (verify_fits (zlen code)) ts ->
  map answer (fst (card_run secret (map on_wire (TSelect :: ts)) (card_install limit (zlen code) code)))
  = vault_run limit code secret (TSelect :: ts) (mkVault limit true).
Proof. exact C141_exact_partial_pf. Qed.
Print Assumptions C141_exact_partial.

Example C141_exact_ex : let code := [49; 50; 51; 52] in
  Forall terminal_ok [TSend 0 0xB0 0 0 (Case2S 3); TSend 0 0x20 0 0 (Case3S [49; 50; 51; 53]); TSend 0 0x20 0 0 (Case3S code); TSend 0 0xB0 0 0 (Case2S 3)]
  /\ vault_run 3 code [7; 8; 9] [TSelect; TSend 0 0xB0 0 0 (Case2S 3); TSend 0 0x20 0 0 (Case3S [49; 50; 51; 53]); TSend 0 0x20 0 0 (Case3S code); TSend 0 0xB0 0 0 (Case2S 3)] (mkVault 3 true)
     = [Some []; Some [0x69; 0x82]; Some [0x63; 0]; Some [0x90; 0]; Some [7; 8; 9; 0x90; 0]].
Proof.
  split; [|reflexivity]. repeat constructor; unfold ubyte, wf_command, bytes, ubyte; cbn; try lia; repeat constructor; unfold ubyte; lia.
Qed.

(** C141: whatever bytes the terminal sends after a selection, and whatever the state of
    the PIN was: as long as no VERIFY has been answered with 9000, the answers, the state
    of the card and the exceptions do not depend on the secret. *)
Theorem C141_secret : forall secret1 secret2 pin h,
  (forall r, In r (verify_answers (CardSelect :: h) (fst (card_run secret1 (CardSelect :: h) pin))) -> r <> Ok [144; 0]) ->
  card_run secret1 (CardSelect :: h) pin = card_run secret2 (CardSelect :: h) pin.
Proof. exact C141_secret_pf. Qed.
Print Assumptions C141_secret.

(** C141: a PIN of exactly the maximum size, without a zero byte. After a selection the
    terminal does what it likes except presenting the right PIN in a VERIFY that fits;
    when the number of VERIFYs has reached the limit, then whatever bytes [h] it sends from
    then on (the right PIN included), no VERIFY is answered with 9000, and the session is
    the same with another secret. *)
Theorem C141_blocked : forall limit code secret secret' g h,
  0 < limit -> 1 <= zlen code <= 127 -> ~ In 0 code -> zlen secret <= 256 ->
  Forall terminal_ok g -> Forall (verify_fits (zlen code)) g -> Forall (wrong_guess code) g -> limit <= guesses g ->
  (forall r, In r (verify_answers (CardSelect :: map on_wire g ++ h) (fst (card_run secret (CardSelect :: map on_wire g ++ h) (card_install limit (zlen code) code)))) -> r <> Ok [144; 0])
  /\ card_run secret (CardSelect :: map on_wire g ++ h) (card_install limit (zlen code) code)
      = card_run secret' (CardSelect :: map on_wire g ++ h) (card_install limit (zlen code) code).
Proof. exact C141_blocked_pf. Qed.
Print Assumptions C141_blocked.

Example C141_secret_ex : let h := [CardCommand [0; 32; 0; 0; 2; 1; 1]; CardCommand [0; 176; 0; 0; 0]; CardCommand [0; 32]; CardSelect; CardCommand [0; 176; 0; 0]] in
  card_run [7; 7] (CardSelect :: h) (card_install 3 2 [1; 2]) = card_run [9] (CardSelect :: h) (card_install 3 2 [1; 2]).
Proof. intros h. apply C141_secret. vm_compute. intros r [<-|[<-|[]]]; discriminate. Qed.

Example C141_blocked_ex : let g := [TSend 0 32 0 0 (Case3S [1; 1]); TSelect; TSend 0 176 0 0 Case1; TSend 0 32 0 0 (Case3S [2; 1])] in
  Forall terminal_ok g /\ Forall (verify_fits 2) g /\ Forall (wrong_guess [1; 2]) g /\ 2 <= guesses g
  /\ map answer (fst (card_run [7; 7] (CardSelect :: map on_wire g ++ [CardCommand [0; 32; 0; 0; 2; 1; 2]; CardCommand [0; 176; 0; 0; 0]]) (card_install 2 2 [1; 2])))
    = [Some []; Some [99; 0]; Some []; Some [105; 130]; Some [99; 0]; Some [99; 0]; Some [105; 130]].
Proof.
  cbv zeta. split; [repeat constructor; unfold ubyte; cbn; lia|]. split; [repeat constructor; cbn; lia|].
  split; [repeat constructor; cbn; discriminate|]. split; [cbn; lia|reflexivity].
Qed.

(** C141, first failure: when the maximum size leaves room (twice the code, less one),
    any guess of the length of the code with its first byte gets the secret. *)
Theorem C141_wrong_pin_refuted : forall limit max code guess secret,
  0 < limit -> 1 <= zlen code <= 128 -> 2 * zlen code - 1 <= max -> bytes guess -> zlen guess = zlen code -> hd 0 guess = hd 0 code ->
  zlen secret <= 256 ->
  fst (card_run secret [CardSelect; on_wire (TSend 0 0x20 0 0 (Case3S guess)); on_wire (TSend 0 0xB0 0 0 Case1)] (card_install limit max code))
  = [Ok []; Ok [0x90; 0]; Ok (secret ++ [0x90; 0])].
Proof. exact C141_wrong_pin_refuted_pf. Qed.
Print Assumptions C141_wrong_pin_refuted.

(** C141, second failure: a code of exactly the maximum size is also presented by one
    byte too much, [x :: tl code ++ [hd code]], for any [x]. *)
Theorem C141_too_long_refuted : forall limit c code x secret,
  0 < limit -> zlen (c :: code) <= 127 -> bytes (c :: code) -> ubyte x -> zlen secret <= 256 ->
  fst (card_run secret [CardSelect; on_wire (TSend 0 0x20 0 0 (Case3S (x :: code ++ [c]))); on_wire (TSend 0 0xB0 0 0 Case1)] (card_install limit (zlen (c :: code)) (c :: code)))
  = [Ok []; Ok [0x90; 0]; Ok (secret ++ [0x90; 0])].
Proof. exact C141_too_long_refuted_pf. Qed.
Print Assumptions C141_too_long_refuted.

(** C141, third failure: the PIN is validated when it has been installed, the secret can
    be read until the first selection (or wrong VERIFY). *)
Theorem C141_unreset_refuted : forall limit max code secret, 0 <= zlen code <= max -> zlen secret <= 256 ->
  fst (card_run secret [on_wire (TSend 0 0xB0 0 0 Case1)] (card_install limit max code)) = [Ok (secret ++ [0x90; 0])].
Proof. exact C141_unreset_refuted_pf. Qed.
Print Assumptions C141_unreset_refuted.

Theorem C141_full_refuted : ~ C141_full.
Proof. exact C141_full_refuted_pf. Qed.
Print Assumptions C141_full_refuted.

Example C141_wrong_pin_ex : fst (card_run [7; 8] [CardSelect; CardCommand [0; 0x20; 0; 0; 2; 1; 9]; CardCommand [0; 0xB0; 0; 0]] (card_install 3 8 [1; 2]))
  = [Ok []; Ok [0x90; 0]; Ok [7; 8; 0x90; 0]].
Proof. reflexivity. Qed.

Example C141_too_long_ex : fst (card_run [7; 8] [CardSelect; CardCommand [0; 0x20; 0; 0; 3; 5; 2; 1]; CardCommand [0; 0xB0; 0; 0]] (card_install 3 2 [1; 2]))
  = [Ok []; Ok [0x90; 0]; Ok [7; 8; 0x90; 0]].
Proof. reflexivity. Qed.
