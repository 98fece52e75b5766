(** * Base vocabulary of the specifications (independent of the model).

    Ranges of lists, bytes, two's complement. *)
From Coq Require Import ZArith List Lia.
Import ListNotations.
Open Scope Z_scope.

(** The [n] elements of [l] starting at position [off]. *)
Definition sub {A} (l : list A) (off n : nat) : list A := firstn n (skipn off l).

(** [l] with the [length vs] elements from position [off] on replaced by
    [vs]. *)
Definition splice {A} (l : list A) (off : nat) (vs : list A) : list A :=
  firstn off l ++ vs ++ skipn (off + length vs) l.

(** A signed byte / an unsigned byte / either. *)
Definition sbyte (b : Z) : Prop := -128 <= b <= 127.
Definition ubyte (b : Z) : Prop := 0 <= b <= 255.
Definition anybyte (b : Z) : Prop := -128 <= b <= 255.

(** The unique integer of the signed [8*d]-bit range congruent to [v]. *)
Definition twos (d v : Z) : Z :=
  let m := 2 ^ (8 * d) in
  let r := v mod m in
  if 2 * r <? m then r else r - m.
