(** * Child TLVs with a one-byte tag and a short-form length *)
From Verif Require Import Py S_Base M_bertag M_bertlv.

(** A child is its tag byte (signed or unsigned) and its value. *)
Definition child : Type := (Z * list Z)%type.
Definition simple (ch : child) : Prop :=
  anybyte (fst ch) /\ fst ch mod 32 <> 31 /\ zlen (snd ch) <= 127.

(** The bytes of the child. *)
Definition enc (ch : child) : list Z := fst ch :: zlen (snd ch) :: snd ch.
Definition encs (cs : list child) : list Z := concat (map enc cs).

(** The tag and the TLV object denoted by the child. *)
Definition tag_of (tb : Z) : tag := mkTag (tb mod 256 / 64) (Z.testbit tb 5) (tb mod 32) 1.
Definition tlv_of (ch : child) : tlv :=
  mkTLV (Z.testbit (fst ch) 5) (Some (tag_of (fst ch))) (zlen (snd ch)) (Some (snd ch)).

(** Same class, constructed bit and number. *)
Definition has_tag (g : tag) (ch : child) : bool :=
  (fst ch mod 256 / 64 =? tclass g) && Bool.eqb (Z.testbit (fst ch) 5) (tconstr g)
  && (fst ch mod 32 =? tnumber g).

(** Children after the [n]-th one that satisfies [p]; None if there are fewer. *)
Fixpoint after (p : child -> bool) (cs : list child) (n : nat) : option (list child) :=
  match n with
  | O => Some cs
  | S n' =>
      match cs with
      | [] => None
      | ch :: cs' => if p ch then after p cs' n' else after p cs' n
      end
  end.

(** Number of octets of the shortest BER length field of [n]. *)
Definition min_len_octets (n m : Z) : Prop :=
  (n <= 127 /\ m = 1) \/ (127 < n /\ 2 <= m /\ 256 ^ (m - 2) <= n < 256 ^ (m - 1)).
