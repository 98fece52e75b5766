(** * What the RSA example applet should answer *)
From Verif Require Import Py S_Base S_Number S_RSA M_key M_cipher M_rsaapplet.

(** A short command with data and an expected length [le] (1 to 256). *)
Definition cmd (cla ins p1 p2 : Z) (data : list Z) (le : Z) : list Z :=
  [cla; ins; p1; p2; zlen data] ++ data ++ [le mod 256].
Definition wf_cmd (cla ins p1 p2 : Z) (data : list Z) (le : Z) : Prop :=
  ubyte cla /\ ubyte ins /\ ubyte p1 /\ ubyte p2 /\ Forall ubyte data /\ 1 <= zlen data <= 255 /\ 1 <= le <= 256.

(** A card that was installed with the key [r] generated by pycrypto and has answered any
    commands since, each with its own random bytes. *)
Definition serving (X : pycrypto) (r : rsa) (card : rsacard) : Prop :=
  pc_generate X 1024 = Ok r /\
  exists card0 h, rsa_install X = Ok card0 /\
    card = fold_left (fun c (q : list Z * option bool * list Z) =>
             let '(rnd, sel, command) := q in snd (rsa_respond X rnd sel command c)) h card0.

(** The source delivers at least [n] non-zero bytes. *)
Definition supplies (rnd : list Z) (n : Z) : Prop :=
  Forall ubyte rnd /\ n <= zlen (filter (fun x => negb (x =? 0)) rnd).

(** pycrypto encrypts and decrypts numbers of 1024 bits under [r] *)
Definition sound (X : pycrypto) (r : rsa) : Prop :=
  forall x, 0 <= x < 256 ^ 128 ->
    exists y, pc_encrypt X r x = Ok y /\ 0 <= y < 256 ^ 128 /\ pc_decrypt X r y = Ok x.

(** C108: the card encrypts a message of up to 117 bytes to 128 bytes, which it decrypts to
    the message *)
Definition C108_full : Prop := forall X r card rnd m p2 p2',
  serving X r card -> sound X r -> supplies rnd 125 ->
  wf_cmd 0 170 1 p2 m 256 -> zlen m <= 117 -> ubyte p2' ->
  exists ct card' card'', rsa_respond X rnd (Some false) (cmd 0 170 1 p2 m 256) card = (Ok (ct ++ [144; 0]), card')
    /\ zlen ct = 128
    /\ rsa_respond X rnd (Some false) (cmd 0 170 2 p2' ct 256) card' = (Ok (m ++ [144; 0]), card'').
