(** * C85-C88: settings of pyDes objects: property theorems *)
From Verif Require Import LP_desset Py S_Base L_Py S_DES M_des M_desx S_DesSettings L_des LP_des LP_tdes.
From Coq Require Import ZifyBool ZifyNat.
Ltac Zify.zify_post_hook ::= Z.div_mod_to_equations.

(** After any calls (setKey with 8-byte keys only) the getters return what was
    last set, and encryption and decryption are those of any object created with
    these settings *)
Theorem C85_settings : forall key mode iv pad padmode d0 h, des_new key mode iv pad padmode = Ok d0 ->
  Forall (sized (fun n => n = 8%nat)) h ->
  let st := tracks h (mkSet key mode iv pad padmode) in
  let d := des_ops h d0 in
  same_settings (getKey d) (getMode d) (getIV d) (getPadding d) (getPadMode d) st
  /\ (forall d' data p pm, des_reach (st_key st) (st_mode st) (st_iv st) (st_pad st) (st_padmode st) d' ->
       fst (des_encrypt data p pm d) = fst (des_encrypt data p pm d')
       /\ fst (des_decrypt data p pm d) = fst (des_decrypt data p pm d')).
Proof. exact C85_settings_pf. Qed.
Print Assumptions C85_settings.

(** setIV refuses exactly the IVs that are not 8 bytes long, the other setters
    (and setKey with 8 bytes) refuse nothing *)
Theorem C85_setters : forall key mode iv pad padmode d0 h, des_new key mode iv pad padmode = Ok d0 ->
  Forall (sized (fun n => n = 8%nat)) h -> let d := des_ops h d0 in
  (forall v, fst (des_setIV v d) = if (length v =? 8)%nat then Ok tt else Err ValueError)
  /\ (forall v, length v <> 8%nat -> snd (des_setIV v d) = d)
  /\ (forall m, fst (des_setMode m d) = Ok tt) /\ (forall p, fst (des_setPadding p d) = Ok tt)
  /\ (forall m, fst (des_setPadMode m d) = Ok tt)
  /\ (forall k, length k = 8%nat -> fst (des_setKey k d) = Ok tt).
Proof. exact C85_setters_pf. Qed.
Print Assumptions C85_setters.

Example C85_ex : exists d0, des_new [1;1;1;1;1;1;1;1] ECB [] [] PAD_NORMAL = Ok d0
  /\ let h := [OMode CBC; OIV [8;7;6;5;4;3;2;1]; OCall (CEnc [1;2;3] [] None); OKey [0x13;0x34;0x57;0x79;0x9B;0xBC;0xDF;0xF1]; OIV [1;2]; OMode ECB] in
  tracks h (mkSet [1;1;1;1;1;1;1;1] ECB [] [] PAD_NORMAL)
  = mkSet [0x13;0x34;0x57;0x79;0x9B;0xBC;0xDF;0xF1] ECB [8;7;6;5;4;3;2;1] [] PAD_NORMAL
  /\ fst (des_encrypt [0x01;0x23;0x45;0x67;0x89;0xAB;0xCD;0xEF] [] None (des_ops h d0)) = Ok [0x85;0xE8;0x13;0x54;0x0F;0x0A;0xB4;0x05].
Proof. eexists. split; [vm_compute; reflexivity|]. cbv zeta. split; [reflexivity|]. vm_compute. reflexivity. Qed.

(** What happens instead: a shorter key raises IndexError, getKey returns it, but
    the object keeps using the key it had; a longer key is accepted and its first
    eight bytes are used *)
Theorem C86_exact_partial : forall key mode iv pad padmode d k data p pm, des_reach key mode iv pad padmode d ->
  ((length k < 8)%nat ->
     fst (des_setKey k d) = Err IndexError /\ getKey (snd (des_setKey k d)) = k
     /\ fst (des_encrypt data p pm (snd (des_setKey k d))) = fst (des_encrypt data p pm d)
     /\ fst (des_decrypt data p pm (snd (des_setKey k d))) = fst (des_decrypt data p pm d))
  /\ ((8 <= length k)%nat ->
     fst (des_setKey k d) = Ok tt /\ getKey (snd (des_setKey k d)) = k
     /\ forall d', des_reach (firstn 8 k) mode iv pad padmode d' ->
        fst (des_encrypt data p pm (snd (des_setKey k d))) = fst (des_encrypt data p pm d')
        /\ fst (des_decrypt data p pm (snd (des_setKey k d))) = fst (des_decrypt data p pm d')).
Proof. exact C86_exact_partial_pf. Qed.
Print Assumptions C86_exact_partial.

(** so wrong sizes are not refused *)
Theorem C86_full_refuted : ~ C86_full.
Proof. exact C86_full_refuted_pf. Qed.
Print Assumptions C86_full_refuted.

Example C86_ex : exists d, des_new [0x13;0x34;0x57;0x79;0x9B;0xBC;0xDF;0xF1] ECB [] [] PAD_NORMAL = Ok d
  /\ getKey (snd (des_setKey [1;2;3] d)) = [1;2;3]
  /\ fst (des_encrypt [0x01;0x23;0x45;0x67;0x89;0xAB;0xCD;0xEF] [] None (snd (des_setKey [1;2;3] d))) = Ok [0x85;0xE8;0x13;0x54;0x0F;0x0A;0xB4;0x05].
Proof. eexists. split; [vm_compute; reflexivity|]. split; vm_compute; reflexivity. Qed.

(** After any calls (setters included, with any arguments) on a triple_des object
    the getters return its settings, and unless it is in CBC mode without an IV,
    encryption and decryption are those of any object created with the settings *)
Theorem C87_settings : forall key mode iv pad padmode d0 h, tdes_new key mode iv pad padmode = Ok d0 ->
  let st := tracks3 h (created3 key mode iv pad padmode) in
  let d := tdes_ops h d0 in
  same_settings (t_getKey d) (t_getMode d) (t_getIV d) (t_getPadding d) (t_getPadMode d) st
  /\ ((st_mode st = CBC -> st_iv st <> []) ->
      forall d' data p pm, tdes_reach (st_key st) (st_mode st) (st_iv st) (st_pad st) (st_padmode st) d' ->
       fst (tdes_encrypt data p pm d) = fst (tdes_encrypt data p pm d')
       /\ fst (tdes_decrypt data p pm d) = fst (tdes_decrypt data p pm d')).
Proof. exact C87_settings_pf. Qed.
Print Assumptions C87_settings.

(** in CBC mode without an IV every encryption and decryption raises ValueError *)
Theorem C87_no_iv : forall key mode iv pad padmode d0 h data p pm, tdes_new key mode iv pad padmode = Ok d0 ->
  let st := tracks3 h (created3 key mode iv pad padmode) in
  st_mode st = CBC -> st_iv st = [] ->
  fst (tdes_encrypt data p pm (tdes_ops h d0)) = Err ValueError
  /\ fst (tdes_decrypt data p pm (tdes_ops h d0)) = Err ValueError.
Proof. exact C87_no_iv_pf. Qed.
Print Assumptions C87_no_iv.

(** what the setters refuse: setIV the IVs that are not 8 bytes long, setKey the
    keys of a wrong size and every key while a pad character is set in PAD_PKCS5
    mode; setters that refuse a size leave the object as it was *)
Theorem C87_setters : forall key mode iv pad padmode d0 h, tdes_new key mode iv pad padmode = Ok d0 -> let d := tdes_ops h d0 in
  (forall v, fst (tdes_setIV v d) = if (length v =? 8)%nat then Ok tt else Err ValueError)
  /\ (forall v, length v <> 8%nat -> snd (tdes_setIV v d) = d)
  /\ (forall m, fst (tdes_setMode m d) = Ok tt) /\ (forall q, fst (tdes_setPadding q d) = Ok tt)
  /\ (forall m, fst (tdes_setPadMode m d) = Ok tt)
  /\ (forall k, fst (tdes_rekey k d) = Ok tt \/ fst (tdes_rekey k d) = Err ValueError)
  /\ (forall k, fst (tdes_rekey k d) = Ok tt <->
        (length k = 16 \/ length k = 24)%nat /\ (t_getPadding d = [] \/ t_getPadMode d <> PAD_PKCS5))
  /\ (forall k, length k <> 16%nat -> length k <> 24%nat -> snd (tdes_rekey k d) = d).
Proof. exact C87_setters_pf. Qed.
Print Assumptions C87_setters.

(** setKey gives the object created with the new key, when an IV was given or the
    mode is not CBC *)
Theorem C87_rekey_partial : forall key mode iv pad padmode d k d' data p pm, tdes_reach key mode iv pad padmode d ->
  tdes_reach k mode iv pad padmode d' -> mode <> CBC \/ iv <> [] ->
  fst (tdes_rekey k d) = Ok tt
  /\ fst (tdes_encrypt data p pm (snd (tdes_rekey k d))) = fst (tdes_encrypt data p pm d')
  /\ fst (tdes_decrypt data p pm (snd (tdes_rekey k d))) = fst (tdes_decrypt data p pm d').
Proof. exact C87_rekey_partial_pf. Qed.
Print Assumptions C87_rekey_partial.

(** In CBC mode without an IV the first eight bytes of the old key stay the IV *)
Theorem C87_full_refuted : ~ C87_full.
Proof. exact C87_full_refuted_pf. Qed.
Print Assumptions C87_full_refuted.

Example C87_ex : exists d0, tdes_new (repeat 1 16) ECB [] [] PAD_NORMAL = Ok d0
  /\ let h := [OMode CBC; OKey [1;2;3]; OKey (repeat 2 24); OIV [1;2]; OPadMode PAD_PKCS5] in
  tracks3 h (created3 (repeat 1 16) ECB [] [] PAD_NORMAL) = mkSet (repeat 2 24) CBC (repeat 2 8) [] PAD_PKCS5
  /\ exists c, fst (tdes_encrypt [1;2;3] [] None (tdes_ops h d0)) = Ok c /\ length c = 8%nat
  /\ fst (tdes_decrypt c [] None (tdes_ops h d0)) = Ok [1;2;3].
Proof. eexists. split; [vm_compute; reflexivity|]. cbv zeta. split; [reflexivity|]. eexists. split; [vm_compute; reflexivity|]. split; vm_compute; reflexivity. Qed.

(** CBC mode without an IV: setMode on an object created in ECB mode *)
Example C87_ex_no_iv : let st := tracks3 [OMode CBC] (created3 (repeat 1 16) ECB [] [] PAD_NORMAL) in
  st_mode st = CBC /\ st_iv st = [].
Proof. split; reflexivity. Qed.
