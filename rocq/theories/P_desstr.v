(** * C109-C111: pyDes with str and bytes: property theorems *)
From Verif Require Import LP_desstr Py S_Base L_Py S_DES M_des M_desx S_DesSettings M_desstr S_DesStr L_des LP_des LP_tdes LP_desset.
From Coq Require Import ZifyBool ZifyNat.
Ltac Zify.zify_post_hook ::= Z.div_mod_to_equations.

(** A call on a des object with str arguments: if they are all ASCII it is the
    call with their bytes, otherwise it raises ValueError and nothing changes *)
Theorem C109_des_call : forall o d,
  (forall p, call_encodes o p -> snd (s_op o d) = des_op p d
     /\ match p, fst (s_op o d) with
        | OCall (CEnc l q pm), r => rmap (option_map chars) r = rmap Some (fst (des_encrypt l q pm d))
        | OCall (CDec l q pm), r => rmap (option_map chars) r = rmap Some (fst (des_decrypt l q pm d))
        | OKey l, r => r = rmap (fun _ => None) (fst (des_setKey l d))
        | OIV l, r => r = rmap (fun _ => None) (fst (des_setIV l d))
        | _, r => r = Ok None
        end)
  /\ (refused o -> s_op o d = (Err ValueError, d)).
Proof. exact C109_des_call_pf. Qed.
Print Assumptions C109_des_call.

(** Any history of calls with str and bytes arguments leaves a des object as the
    history with bytes does in which the calls with other str are left out *)
Theorem C109_des_history : forall h, (exists h', hist h h')
  /\ forall h' key k mode IV iv pad p padmode d, hist h h' -> encodes key k -> encodes IV iv -> encodes pad p ->
     s_new key mode IV pad padmode = Ok d -> des_new k mode iv p padmode = Ok d /\ s_ops h d = des_ops h' d.
Proof. exact C109_des_history_pf. Qed.
Print Assumptions C109_des_history.

Example C109_ex : exists d,
  s_new (PStr [0x31;0x33;0x35;0x37;0x39;0x30;0x41;0x42]) ECB (PBytes []) (PBytes []) PAD_NORMAL = Ok d
  /\ let h := [SKey (PStr [233;65;65;65;65;65;65;65]); SPadding (PStr [32]); SEnc (PStr [8364]) (PBytes []) None; SMode CBC; SIV (PStr (repeat 65 8))] in
  hist h [OPadding [32]; OMode CBC; OIV (repeat 65 8)]
  /\ fst (s_op (SKey (PStr [233;65;65;65;65;65;65;65])) d) = Err ValueError
  /\ getIV (s_ops h d) = repeat 65 8 /\ getPadding (s_ops h d) = [32] /\ getKey (s_ops h d) = [0x31;0x33;0x35;0x37;0x39;0x30;0x41;0x42].
Proof.
  eexists. split; [vm_compute; reflexivity|]. cbv zeta. split.
  - apply h_refused; [intros p H; inversion H; subst; repeat match goal with Q : encodes (PStr _) _ |- _ => inversion Q; clear Q; subst | Q : Forall _ (_ :: _) |- _ => inversion Q; clear Q; subst end; lia|].
    apply h_call; [constructor; constructor; repeat constructor; lia|].
    apply h_refused; [intros p H; inversion H; subst; repeat match goal with Q : encodes (PStr _) _ |- _ => inversion Q; clear Q; subst | Q : Forall _ (_ :: _) |- _ => inversion Q; clear Q; subst end; lia|].
    apply h_call; [constructor|]. apply h_call; [constructor; constructor; cbn [repeat]; repeat constructor; lia|]. constructor.
  - split; [vm_compute; reflexivity|]. split; [vm_compute; reflexivity|]. split; vm_compute; reflexivity.
Qed.

(** Creating an object with str arguments: with the bytes if they are ASCII,
    otherwise ValueError *)
Theorem C109_new : forall key mode IV pad padmode,
  (forall k iv p, encodes key k -> encodes IV iv -> encodes pad p ->
     s_new key mode IV pad padmode = des_new k mode iv p padmode
     /\ rmap s_t (s_tnew key mode IV pad padmode) = tdes_new k mode iv p padmode)
  /\ ((forall l, ~ encodes key l) \/ (forall l, ~ encodes IV l) \/ (forall l, ~ encodes pad l) ->
     s_new key mode IV pad padmode = Err ValueError /\ s_tnew key mode IV pad padmode = Err ValueError).
Proof. exact C109_new_pf. Qed.
Print Assumptions C109_new.

(** triple_des: likewise after any history in which every key is bytes or ASCII *)
Theorem C109_tdes_history : forall key k mode IV iv pad p padmode d h h', encodes key k -> encodes IV iv -> encodes pad p ->
  s_tnew key mode IV pad padmode = Ok d -> hist h h' -> Forall good_key h ->
  exists d0, tdes_new k mode iv p padmode = Ok d0 /\ s_t (s_tops h d) = tdes_ops h' d0
  /\ (forall data l q r pm, encodes data l -> encodes q r ->
        rmap chars (fst (s_tencrypt data q pm (s_tops h d))) = fst (tdes_encrypt l r pm (tdes_ops h' d0))
        /\ rmap chars (fst (s_tdecrypt data q pm (s_tops h d))) = fst (tdes_decrypt l r pm (tdes_ops h' d0)))
  /\ (forall key l, encodes key l -> fst (s_rekey key (s_tops h d)) = fst (tdes_rekey l (tdes_ops h' d0)))
  /\ (forall o, refused o -> good_key o -> s_top o (s_tops h d) = (Err ValueError, s_tops h d)).
Proof. exact C109_tdes_history_pf. Qed.
Print Assumptions C109_tdes_history.

(** What setKey of triple_des does with a str that is not ASCII: it raises
    ValueError; if the first eight characters are ASCII, the object nevertheless
    uses them as its first key from now on, with the rest of its old key; if only
    the last eight are not, it uses the first sixteen, with the third part of the
    old key.  getKey still returns the old key. *)
Theorem C109_mixed_refuted : forall key mode iv pad padmode d0 h h' k, s_tnew (PBytes key) mode (PBytes iv) (PBytes pad) padmode = Ok d0 ->
  hist h h' -> Forall good_key h -> (length k = 16 \/ length k = 24)%nat -> ~ ascii k ->
  let st := tracks3 h' (created3 key mode iv pad padmode) in
  (st_mode st = CBC -> st_iv st <> []) -> st_pad st = [] \/ st_padmode st <> PAD_PKCS5 ->
  let d := s_tops h d0 in let after := snd (s_rekey (PStr k) d) in
  fst (s_rekey (PStr k) d) = Err ValueError /\ t_getKey (s_t after) = st_key st
  /\ (~ ascii (firstn 8 k) -> after = d)
  /\ forall key', ascii (firstn 8 k) /\ ~ ascii (firstn 8 (skipn 8 k)) /\ key' = firstn 8 k ++ skipn 8 (three_parts (st_key st))
       \/ ascii (firstn 16 k) /\ ~ ascii (skipn 16 k) /\ key' = firstn 16 k ++ skipn 16 (three_parts (st_key st)) ->
     forall d' data p pm, tdes_reach key' (st_mode st) (st_iv st) (st_pad st) (st_padmode st) d' ->
     rmap chars (fst (s_tencrypt (PBytes data) (PBytes p) pm after)) = fst (tdes_encrypt data p pm d')
     /\ rmap chars (fst (s_tdecrypt (PBytes data) (PBytes p) pm after)) = fst (tdes_decrypt data p pm d').
Proof. exact C109_mixed_refuted_pf. Qed.
Print Assumptions C109_mixed_refuted.

Theorem C109_full_refuted : ~ C109_full.
Proof. exact C109_full_refuted_pf. Qed.
Print Assumptions C109_full_refuted.

Example C109_mixed_ex : exists d, s_tnew (PBytes (repeat 1 16)) ECB (PBytes []) (PBytes []) PAD_NORMAL = Ok d
  /\ let k := repeat 65 8 ++ repeat 233 8 in
  fst (s_rekey (PStr k) d) = Err ValueError
  /\ three_parts (repeat 1 16) = repeat 1 24
  /\ exists d', tdes_new (repeat 65 8 ++ repeat 1 16) ECB [] [] PAD_NORMAL = Ok d'
  /\ rmap chars (fst (s_tencrypt (PBytes (repeat 0 8)) (PBytes []) None (snd (s_rekey (PStr k) d)))) = fst (tdes_encrypt (repeat 0 8) [] None d').
Proof.
  eexists. split; [vm_compute; reflexivity|]. cbv zeta. split; [vm_compute; reflexivity|]. split; [reflexivity|].
  eexists. split; [vm_compute; reflexivity|]. vm_compute. reflexivity.
Qed.

(** In CBC mode without an IV the first eight characters become the IV before they
    are looked at: if they are not ASCII, every encryption, decryption and setKey
    raises ValueError from then on *)
Theorem C109_stuck_refuted : forall s k, t_getMode (s_t s) = CBC -> s_getIV s = PBytes [] -> (length k = 16 \/ length k = 24)%nat ->
  ~ ascii (firstn 8 k) -> let after := snd (s_rekey (PStr k) s) in
  fst (s_rekey (PStr k) s) = Err ValueError /\ s_getIV after = PStr (firstn 8 k)
  /\ (forall data p pm, fst (s_tencrypt data p pm after) = Err ValueError /\ fst (s_tdecrypt data p pm after) = Err ValueError)
  /\ forall key, fst (s_rekey key after) = Err ValueError.
Proof. exact C109_stuck_refuted_pf. Qed.
Print Assumptions C109_stuck_refuted.

Example C109_stuck_ex : exists d0, s_tnew (PBytes (repeat 1 16)) ECB (PBytes []) (PBytes []) PAD_NORMAL = Ok d0
  /\ let d := s_tops [SMode CBC] d0 in t_getMode (s_t d) = CBC /\ s_getIV d = PBytes [] /\ ~ ascii (firstn 8 (repeat 233 16)).
Proof.
  eexists. split; [vm_compute; reflexivity|]. split; [vm_compute; reflexivity|]. split; [vm_compute; reflexivity|].
  intros H. inversion H; subst. lia.
Qed.

(** created in CBC mode without an IV, getIV returns a slice of the key, a str if
    the key was one *)
Theorem C110_created_refuted : forall key k mode IV iv pad p padmode d, encodes key k -> encodes IV iv -> encodes pad p ->
  s_tnew key mode IV pad padmode = Ok d ->
  s_getIV d = if (mode =? CBC) && negb (nonempty iv) then on_chars (firstn 8) key else PBytes iv.
Proof. exact C110_created_refuted_pf. Qed.
Print Assumptions C110_created_refuted.

(** with bytes keys getIV returns bytes, whatever else is called *)
Theorem C110_bytes_partial : forall key mode IV pad padmode d h, s_tnew (PBytes key) mode IV pad padmode = Ok d -> Forall bytes_key h ->
  exists l, s_getIV (s_tops h d) = PBytes l.
Proof. exact C110_bytes_partial_pf. Qed.
Print Assumptions C110_bytes_partial.

Theorem C110_full_refuted : ~ C110_full.
Proof. exact C110_full_refuted_pf. Qed.
Print Assumptions C110_full_refuted.

Example C110_ex : exists d, s_tnew (PBytes (repeat 1 16)) CBC (PBytes []) (PBytes []) PAD_NORMAL = Ok d
  /\ Forall bytes_key [SMode ECB; SPadding (PStr [32]); SEnc (PStr [65]) (PBytes []) None; SKey (PBytes (repeat 2 24))]
  /\ s_getIV (s_tops [SMode ECB; SPadding (PStr [32]); SEnc (PStr [65]) (PBytes []) None; SKey (PBytes (repeat 2 24))] d) = PBytes (repeat 1 8).
Proof. eexists. split; [vm_compute; reflexivity|]. split; [repeat constructor|]. vm_compute. reflexivity. Qed.

(** des: encrypt returns the str '' for an empty message without PAD_PKCS5 padding,
    decrypt for an empty ciphertext; otherwise they return bytes *)
Theorem C111_des_types : forall d data p pm v,
  (fst (s_encrypt data p pm d) = Ok v ->
     (chars data = [] /\ ~ pkcs5 (getPadMode d) pm -> v = PStr []) /\ (chars data <> [] \/ pkcs5 (getPadMode d) pm -> exists l, v = PBytes l))
  /\ (fst (s_decrypt data p pm d) = Ok v ->
     (chars data = [] -> v = PStr []) /\ (chars data <> [] -> exists l, v = PBytes l)).
Proof. exact C111_des_types_pf. Qed.
Print Assumptions C111_des_types.

(** triple_des: the same outside CBC mode; in CBC mode always bytes *)
Theorem C111_tdes_types : forall d data p pm v,
  let cbc := t_getMode (s_t d) = CBC in
  (fst (s_tencrypt data p pm d) = Ok v ->
     (~ cbc /\ chars data = [] /\ ~ pkcs5 (t_getPadMode (s_t d)) pm -> v = PStr [])
     /\ (cbc \/ chars data <> [] \/ pkcs5 (t_getPadMode (s_t d)) pm -> exists l, v = PBytes l))
  /\ (fst (s_tdecrypt data p pm d) = Ok v ->
     (~ cbc /\ chars data = [] -> v = PStr []) /\ (cbc \/ chars data <> [] -> exists l, v = PBytes l)).
Proof. exact C111_tdes_types_pf. Qed.
Print Assumptions C111_tdes_types.

Theorem C111_full_refuted : ~ C111_full.
Proof. exact C111_full_refuted_pf. Qed.
Print Assumptions C111_full_refuted.

(** So decrypting what encrypt returned gives the message back as bytes, except
    for the empty message without PAD_PKCS5 padding, *)
Theorem C111_roundtrip_partial : forall key mode iv padmode d m,
  des_reach key mode iv [] padmode d -> (mode = CBC -> iv <> [] /\ Forall ubyte iv) -> Forall ubyte m ->
  (padmode = PAD_NORMAL /\ zlen m mod 8 = 0 /\ m <> [] \/ padmode = PAD_PKCS5) ->
  exists c, fst (s_encrypt (PBytes m) (PBytes []) None d) = Ok (PBytes c)
  /\ fst (s_decrypt (PBytes c) (PBytes []) None (snd (s_encrypt (PBytes m) (PBytes []) None d))) = Ok (PBytes m).
Proof. exact C111_roundtrip_partial_pf. Qed.
Print Assumptions C111_roundtrip_partial.

(** which comes back as a str *)
Theorem C111_roundtrip_refuted : ~ C111_roundtrip_full.
Proof. exact C111_roundtrip_refuted_pf. Qed.
Print Assumptions C111_roundtrip_refuted.

Example C111_ex : exists d, des_new (repeat 1 8) ECB [] [] PAD_PKCS5 = Ok d
  /\ exists c, fst (s_encrypt (PStr [104;105]) (PBytes []) None d) = Ok (PBytes c)
  /\ fst (s_decrypt (PBytes c) (PBytes []) None d) = Ok (PBytes [104;105])
  /\ fst (s_encrypt (PBytes []) (PBytes []) (Some PAD_NORMAL) d) = Ok (PStr []).
Proof. eexists. split; [vm_compute; reflexivity|]. eexists. split; [vm_compute; reflexivity|]. split; vm_compute; reflexivity. Qed.
