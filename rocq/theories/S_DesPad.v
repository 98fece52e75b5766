(** * The padding arguments of encrypt and decrypt: a call with them means the same
      call on an object whose setters were given the same values *)
From Verif Require Import Py S_Base M_des M_desx.

(** what the call uses: its arguments where given, otherwise the object's settings *)
Definition eff_mode (own : Z) (pm : option Z) : Z := match pm with None => own | Some m => m end.
Definition eff_pad (own p : list Z) : list Z := match p with [] => own | _ => p end.
(** the object after setPadding(p) and setPadMode(m) *)
Definition with_padding (p : list Z) (m : Z) (d : des) : des := snd (des_setPadMode m (snd (des_setPadding p d))).
Definition t_with_padding (p : list Z) (m : Z) (d : tdes) : tdes := snd (tdes_setPadMode m (snd (tdes_setPadding p d))).
(** no pad character goes with PAD_PKCS5 *)
Definition clash (m : Z) (p : list Z) : Prop := p <> [] /\ m = PAD_PKCS5.

(** Full statement *)
(** C112: with arguments that clash encrypt and decrypt are refused, otherwise
    they do what they do without arguments after the setters *)
Definition C112_full : Prop := forall key mode iv pad padmode d data p pm, des_reach key mode iv pad padmode d ->
  let m := eff_mode (getPadMode d) pm in let d' := with_padding (eff_pad (getPadding d) p) m d in
  data <> [] ->
  (clash m p -> fst (des_encrypt data p pm d) = Err ValueError /\ fst (des_decrypt data p pm d) = Err ValueError)
  /\ (~ clash m p -> fst (des_encrypt data p pm d) = fst (des_encrypt data [] None d')
       /\ fst (des_decrypt data p pm d) = fst (des_decrypt data [] None d')).
