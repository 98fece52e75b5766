(** * C120: a cipher works with the key as it was at init

    The reference is a cipher on its own, which takes a copy of the key at init. *)
From Verif Require Import Py S_Base S_Key M_key M_cipher M_keyheap M_session.

(** a cipher and its copy of the key *)
Record solo : Set := mkSolo { so_c : cipher; so_key : option akey }.
Inductive own : Set :=
| OInit (key : akey) (mode : Z) (iv : option (list Z * Z * Z))
| OUpdate (inBuff : list Z) (inOffset inLength : Z) (outBuff : list Z) (outOffset : Z)
| OFinal (rnd : list Z) (inBuff : list Z) (inOffset inLength : Z) (outBuff : list Z) (outOffset : Z).
Definition solo_step (X : pycrypto) (o : own) (s : solo) : sres * solo :=
  match o with
  | OInit key mode iv =>
      let '(r, c) := any_init key mode iv (so_c s) in
      (AInit r, mkSolo c (if is_ok r then Some key else so_key s))
  | OUpdate i io il out oo =>
      let '(r, (c, out)) := cipher_update i io il oo (so_c s, out) in (AUpdate r out, mkSolo c (so_key s))
  | OFinal rnd i io il out oo =>
      let '(r, out, c) := any_final X rnd (so_c s) (so_key s) i io il out oo in (AFinal r out, mkSolo c (so_key s))
  end.
Fixpoint solo_run (X : pycrypto) (os : list own) (s : solo) : list sres :=
  match os with
  | [] => []
  | o :: os' => let '(r, s') := solo_step X o s in r :: solo_run X os' s'
  end.

(** The calls of a program on cipher [i], the key of an init being the value the key object has
    then; and what the program sees of these calls. *)
Fixpoint own_calls (X : pycrypto) (i : nat) (cs : list scall) (p : sprog) : list (own * sres) :=
  match cs with
  | [] => []
  | c :: cs' =>
      let '(r, p') := sstep X c p in
      let rest := own_calls X i cs' p' in
      match c with
      | SInit j k mode iv =>
          if Nat.eqb j i then
            match nth_error (keys (sp_k p)) k with Some key => (OInit key mode iv, r) :: rest | None => rest end
          else rest
      | SUpdate j a b l o f => if Nat.eqb j i then (OUpdate a b l o f, r) :: rest else rest
      | SFinal j rnd a b l o f => if Nat.eqb j i then (OFinal rnd a b l o f, r) :: rest else rest
      | _ => rest
      end
  end.

(** The calls of a program on keys and key pairs. *)
Definition key_calls (cs : list scall) : list kcall :=
  flat_map (fun c => match c with SKey k => [k] | _ => [] end) cs.

(** C120: whatever the program does before, the calls on a new cipher answer as those on a
    cipher of its own, which copies the key at init: later calls on that key, on other keys,
    key pairs and ciphers have no effect on it.  And the keys and pairs are those of the same
    program without its cipher calls. *)
Definition C120_full : Prop := forall X before rs p alg i p' cs,
  srun X before sstart = (rs, p) -> sstep X (SNew alg) p = (ANew (Ok i), p') ->
  map snd (own_calls X i cs p') = solo_run X (map fst (own_calls X i cs p')) (mkSolo (cipher_new alg) None)
  /\ sp_k (snd (srun X cs p')) = snd (krun X (key_calls cs) (sp_k p')).
