(** * The settings of a pyDes object, as a caller tracks them: the value last
      given to each setter *)
From Verif Require Import Py M_des M_desx.

Record settings : Set := mkSet { st_key : list Z; st_mode : Z; st_iv : list Z; st_pad : list Z; st_padmode : Z }.
(** Only 8-byte keys and IVs are settings of a des object *)
Definition track (o : op) (s : settings) : settings :=
  match o with
  | OKey k => if (length k =? 8)%nat then mkSet k (st_mode s) (st_iv s) (st_pad s) (st_padmode s) else s
  | OMode m => mkSet (st_key s) m (st_iv s) (st_pad s) (st_padmode s)
  | OIV v => if (length v =? 8)%nat then mkSet (st_key s) (st_mode s) v (st_pad s) (st_padmode s) else s
  | OPadding p => mkSet (st_key s) (st_mode s) (st_iv s) p (st_padmode s)
  | OPadMode m => mkSet (st_key s) (st_mode s) (st_iv s) (st_pad s) m
  | OCall _ => s
  end.
Definition tracks (h : list op) (s : settings) : settings := fold_left (fun s o => track o s) h s.
(** No setKey with a key of the wrong size *)
Definition sized (n : nat -> Prop) (o : op) : Prop := match o with OKey k => n (length k) | _ => True end.
Definition same_settings (key : list Z) (mode : Z) (iv pad : list Z) (padmode : Z) (s : settings) : Prop :=
  st_key s = key /\ st_mode s = mode /\ st_iv s = iv /\ st_pad s = pad /\ st_padmode s = padmode.

(** Triple DES: keys of 16 or 24 bytes; a key set in CBC mode while there is no
    IV also sets the IV; a key is refused when a pad character is set in
    PAD_PKCS5 mode (padmode 2). *)
Definition track3 (o : op) (s : settings) : settings :=
  match o with
  | OKey k =>
      if ((length k =? 16) || (length k =? 24))%nat then
        let iv := match st_iv s with [] => if st_mode s =? 1 then firstn 8 k else [] | v => v end in
        mkSet (if match st_pad s with [] => true | _ => negb (st_padmode s =? 2) end then k else st_key s)
          (st_mode s) iv (st_pad s) (st_padmode s)
      else s
  | o => track o s
  end.
Definition tracks3 (h : list op) (s : settings) : settings := fold_left (fun s o => track3 o s) h s.

(** Creation: the other settings, then the key *)
Definition created3 (key : list Z) (mode : Z) (iv pad : list Z) (padmode : Z) : settings :=
  track3 (OKey key) (mkSet [] mode iv pad padmode).

(** Full statements *)
(** C86: setKey refuses keys of the wrong size and keeps the object usable *)
Definition C86_full : Prop := forall key mode iv pad padmode d k, des_reach key mode iv pad padmode d -> length k <> 8%nat ->
  fst (des_setKey k d) = Err ValueError /\ getKey (snd (des_setKey k d)) = key.
(** C87: after setKey a triple_des object is one created with the new key *)
Definition C87_full : Prop := forall key mode iv pad padmode d k d' data, tdes_reach key mode iv pad padmode d ->
  tdes_reach k mode iv pad padmode d' ->
  fst (tdes_rekey k d) = Ok tt
  /\ fst (tdes_encrypt data [] None (snd (tdes_rekey k d))) = fst (tdes_encrypt data [] None d').
