(** * str and bytes: which values are bytes for pyDes, and which histories of calls
      with such values are histories of calls with bytes *)
From Verif Require Import Py S_Base M_des M_desx S_DesSettings M_desstr.

(** a bytes object is its bytes; a str of ASCII characters is their codes *)
Inductive encodes : pystr -> list Z -> Prop :=
| enc_bytes l : encodes (PBytes l) l
| enc_ascii l : Forall (fun c => 0 <= c < 128) l -> encodes (PStr l) l.
(** a call all of whose arguments are bytes *)
Inductive call_encodes : sop -> op -> Prop :=
| ce_key k l : encodes k l -> call_encodes (SKey k) (OKey l)
| ce_mode m : call_encodes (SMode m) (OMode m)
| ce_iv v l : encodes v l -> call_encodes (SIV v) (OIV l)
| ce_pad p l : encodes p l -> call_encodes (SPadding p) (OPadding l)
| ce_padmode m : call_encodes (SPadMode m) (OPadMode m)
| ce_enc data l p q pm : encodes data l -> encodes p q -> call_encodes (SEnc data p pm) (OCall (CEnc l q pm))
| ce_dec data l p q pm : encodes data l -> encodes p q -> call_encodes (SDec data p pm) (OCall (CDec l q pm)).
Definition refused (o : sop) : Prop := forall p, ~ call_encodes o p.
(** the history without the calls that have another str as an argument *)
Inductive hist : list sop -> list op -> Prop :=
| h_nil : hist [] []
| h_call o p h h' : call_encodes o p -> hist h h' -> hist (o :: h) (p :: h')
| h_refused o h h' : refused o -> hist h h' -> hist (o :: h) h'.
(** no setKey with a str that is not ASCII *)
Definition good_key (o : sop) : Prop := match o with SKey k => exists l, encodes k l | _ => True end.
Definition bytes_key (o : sop) : Prop := match o with SKey (PStr _) => False | _ => True end.

Definition ascii (l : list Z) : Prop := Forall (fun c => 0 <= c < 128) l.
(** the 24 bytes of a two- or three-part key *)
Definition three_parts (key : list Z) : list Z := if (length key =? 16)%nat then key ++ firstn 8 key else key.

(** The padding mode a call uses, its argument or else the object's, is PAD_PKCS5 *)
Definition pkcs5 (own : Z) (pm : option Z) : Prop := match pm with None => own | Some m => m end = PAD_PKCS5.

(** Full statements *)
(** C109: a str that is not ASCII is refused and changes nothing *)
Definition C109_full : Prop := forall key mode iv pad padmode d k data, s_tnew (PBytes key) mode (PBytes iv) (PBytes pad) padmode = Ok d ->
  (forall l, ~ encodes k l) ->
  fst (s_rekey k d) = Err ValueError
  /\ fst (s_tencrypt data (PBytes []) None (snd (s_rekey k d))) = fst (s_tencrypt data (PBytes []) None d).
(** C110: getIV returns bytes *)
Definition C110_full : Prop := forall key mode iv pad padmode d h, s_tnew key mode iv pad padmode = Ok d ->
  exists l, s_getIV (s_tops h d) = PBytes l.
(** C111: encrypt and decrypt return bytes; decrypt returns the message *)
Definition C111_full : Prop := forall key mode iv pad padmode d data p pm v, des_reach key mode iv pad padmode d ->
  fst (s_encrypt data p pm d) = Ok v \/ fst (s_decrypt data p pm d) = Ok v -> exists l, v = PBytes l.
Definition C111_roundtrip_full : Prop := forall key d m c, des_reach key ECB [] [] PAD_NORMAL d ->
  (length m mod 8 = 0)%nat -> Forall ubyte m ->
  fst (s_encrypt (PBytes m) (PBytes []) None d) = Ok c ->
  fst (s_decrypt c (PBytes []) None (snd (s_encrypt (PBytes m) (PBytes []) None d))) = Ok (PBytes m).
