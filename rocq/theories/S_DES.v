(** * The Data Encryption Standard, FIPS 46-3

    Written from the standard, independently of pyDes: bits are booleans
    numbered from 1, most significant first; the tables are the ones printed
    in the standard (1-based), the S-boxes have four rows of sixteen. *)
From Coq Require Import ZArith List Bool.
Import ListNotations.
Open Scope Z_scope.

Definition bits := list bool.

(** bit [i] (from 1) of [b], for each [i] of the table *)
Definition select (table : list nat) (b : bits) : bits := map (fun i => nth (i - 1) b false) table.

Fixpoint xor (a b : bits) : bits :=
  match a, b with
  | x :: a', y :: b' => xorb x y :: xor a' b'
  | _, _ => []
  end.

Definition IP : list nat := [
  58; 50; 42; 34; 26; 18; 10; 2;
  60; 52; 44; 36; 28; 20; 12; 4;
  62; 54; 46; 38; 30; 22; 14; 6;
  64; 56; 48; 40; 32; 24; 16; 8;
  57; 49; 41; 33; 25; 17;  9; 1;
  59; 51; 43; 35; 27; 19; 11; 3;
  61; 53; 45; 37; 29; 21; 13; 5;
  63; 55; 47; 39; 31; 23; 15; 7]%nat.

Definition IP_inv : list nat := [
  40; 8; 48; 16; 56; 24; 64; 32;
  39; 7; 47; 15; 55; 23; 63; 31;
  38; 6; 46; 14; 54; 22; 62; 30;
  37; 5; 45; 13; 53; 21; 61; 29;
  36; 4; 44; 12; 52; 20; 60; 28;
  35; 3; 43; 11; 51; 19; 59; 27;
  34; 2; 42; 10; 50; 18; 58; 26;
  33; 1; 41;  9; 49; 17; 57; 25]%nat.

Definition E_table : list nat := [
  32;  1;  2;  3;  4;  5;
   4;  5;  6;  7;  8;  9;
   8;  9; 10; 11; 12; 13;
  12; 13; 14; 15; 16; 17;
  16; 17; 18; 19; 20; 21;
  20; 21; 22; 23; 24; 25;
  24; 25; 26; 27; 28; 29;
  28; 29; 30; 31; 32;  1]%nat.

Definition P_table : list nat := [
  16;  7; 20; 21;
  29; 12; 28; 17;
   1; 15; 23; 26;
   5; 18; 31; 10;
   2;  8; 24; 14;
  32; 27;  3;  9;
  19; 13; 30;  6;
  22; 11;  4; 25]%nat.

(** permuted choice 1: the C half and the D half *)
Definition PC1_C : list nat := [
  57; 49; 41; 33; 25; 17;  9;
   1; 58; 50; 42; 34; 26; 18;
  10;  2; 59; 51; 43; 35; 27;
  19; 11;  3; 60; 52; 44; 36]%nat.
Definition PC1_D : list nat := [
  63; 55; 47; 39; 31; 23; 15;
   7; 62; 54; 46; 38; 30; 22;
  14;  6; 61; 53; 45; 37; 29;
  21; 13;  5; 28; 20; 12;  4]%nat.

Definition PC2 : list nat := [
  14; 17; 11; 24;  1;  5;
   3; 28; 15;  6; 21; 10;
  23; 19; 12;  4; 26;  8;
  16;  7; 27; 20; 13;  2;
  41; 52; 31; 37; 47; 55;
  30; 40; 51; 45; 33; 48;
  44; 49; 39; 56; 34; 53;
  46; 42; 50; 36; 29; 32]%nat.

Definition shifts : list nat := [1; 1; 2; 2; 2; 2; 2; 2; 1; 2; 2; 2; 2; 2; 2; 1]%nat.

Definition S1 : list (list Z) := [
  [14; 4;13; 1; 2;15;11; 8; 3;10; 6;12; 5; 9; 0; 7];
  [ 0;15; 7; 4;14; 2;13; 1;10; 6;12;11; 9; 5; 3; 8];
  [ 4; 1;14; 8;13; 6; 2;11;15;12; 9; 7; 3;10; 5; 0];
  [15;12; 8; 2; 4; 9; 1; 7; 5;11; 3;14;10; 0; 6;13]].
Definition S2 : list (list Z) := [
  [15; 1; 8;14; 6;11; 3; 4; 9; 7; 2;13;12; 0; 5;10];
  [ 3;13; 4; 7;15; 2; 8;14;12; 0; 1;10; 6; 9;11; 5];
  [ 0;14; 7;11;10; 4;13; 1; 5; 8;12; 6; 9; 3; 2;15];
  [13; 8;10; 1; 3;15; 4; 2;11; 6; 7;12; 0; 5;14; 9]].
Definition S3 : list (list Z) := [
  [10; 0; 9;14; 6; 3;15; 5; 1;13;12; 7;11; 4; 2; 8];
  [13; 7; 0; 9; 3; 4; 6;10; 2; 8; 5;14;12;11;15; 1];
  [13; 6; 4; 9; 8;15; 3; 0;11; 1; 2;12; 5;10;14; 7];
  [ 1;10;13; 0; 6; 9; 8; 7; 4;15;14; 3;11; 5; 2;12]].
Definition S4 : list (list Z) := [
  [ 7;13;14; 3; 0; 6; 9;10; 1; 2; 8; 5;11;12; 4;15];
  [13; 8;11; 5; 6;15; 0; 3; 4; 7; 2;12; 1;10;14; 9];
  [10; 6; 9; 0;12;11; 7;13;15; 1; 3;14; 5; 2; 8; 4];
  [ 3;15; 0; 6;10; 1;13; 8; 9; 4; 5;11;12; 7; 2;14]].
Definition S5 : list (list Z) := [
  [ 2;12; 4; 1; 7;10;11; 6; 8; 5; 3;15;13; 0;14; 9];
  [14;11; 2;12; 4; 7;13; 1; 5; 0;15;10; 3; 9; 8; 6];
  [ 4; 2; 1;11;10;13; 7; 8;15; 9;12; 5; 6; 3; 0;14];
  [11; 8;12; 7; 1;14; 2;13; 6;15; 0; 9;10; 4; 5; 3]].
Definition S6 : list (list Z) := [
  [12; 1;10;15; 9; 2; 6; 8; 0;13; 3; 4;14; 7; 5;11];
  [10;15; 4; 2; 7;12; 9; 5; 6; 1;13;14; 0;11; 3; 8];
  [ 9;14;15; 5; 2; 8;12; 3; 7; 0; 4;10; 1;13;11; 6];
  [ 4; 3; 2;12; 9; 5;15;10;11;14; 1; 7; 6; 0; 8;13]].
Definition S7 : list (list Z) := [
  [ 4;11; 2;14;15; 0; 8;13; 3;12; 9; 7; 5;10; 6; 1];
  [13; 0;11; 7; 4; 9; 1;10;14; 3; 5;12; 2;15; 8; 6];
  [ 1; 4;11;13;12; 3; 7;14;10;15; 6; 8; 0; 5; 9; 2];
  [ 6;11;13; 8; 1; 4;10; 7; 9; 5; 0;15;14; 2; 3;12]].
Definition S8 : list (list Z) := [
  [13; 2; 8; 4; 6;15;11; 1;10; 9; 3;14; 5; 0;12; 7];
  [ 1;15;13; 8;10; 3; 7; 4;12; 5; 6;11; 0;14; 9; 2];
  [ 7;11; 4; 1; 9;12;14; 2; 0; 6;10;13;15; 3; 5; 8];
  [ 2; 1;14; 7; 4;10; 8;13;15;12; 9; 0; 3; 5; 6;11]].

(** the integer with the given bits *)
Fixpoint value (b : bits) : Z :=
  match b with
  | [] => 0
  | x :: t => Z.b2z x * 2 ^ Z.of_nat (length t) + value t
  end.
(** the [n] low bits of an integer, most significant first *)
Definition low_bits (n : nat) (v : Z) : bits :=
  map (fun i => Z.testbit v (Z.of_nat (n - 1 - i))) (seq 0 n).

(** row = first and last bit, column = the middle four *)
Definition sbox (Sn : list (list Z)) (b : bits) : bits :=
  let row := value [nth 0 b false; nth 5 b false] in
  let col := value (firstn 4 (skipn 1 b)) in
  low_bits 4 (nth (Z.to_nat col) (nth (Z.to_nat row) Sn []) 0).

Fixpoint sboxes (Ss : list (list (list Z))) (b : bits) : bits :=
  match Ss with
  | [] => []
  | Sn :: Ss' => sbox Sn (firstn 6 b) ++ sboxes Ss' (skipn 6 b)
  end.

Definition f (R K : bits) : bits :=
  select P_table (sboxes [S1; S2; S3; S4; S5; S6; S7; S8] (xor (select E_table R) K)).

Definition rotl (n : nat) (b : bits) : bits := skipn n b ++ firstn n b.

Fixpoint subkeys (sh : list nat) (C D : bits) : list bits :=
  match sh with
  | [] => []
  | n :: sh' =>
      let C' := rotl n C in
      let D' := rotl n D in
      select PC2 (C' ++ D') :: subkeys sh' C' D'
  end.
Definition schedule (key : bits) : list bits := subkeys shifts (select PC1_C key) (select PC1_D key).

Fixpoint rounds (ks : list bits) (L R : bits) : bits * bits :=
  match ks with
  | [] => (L, R)
  | K :: ks' => rounds ks' R (xor L (f R K))
  end.

Definition cipher (ks : list bits) (b : bits) : bits :=
  let b' := select IP b in
  let '(L, R) := rounds ks (firstn 32 b') (skipn 32 b') in
  select IP_inv (R ++ L).

(** Encryption and decryption of a 64-bit block with a 64-bit key. *)
Definition DES (key b : bits) : bits := cipher (schedule key) b.
Definition DES_inv (key b : bits) : bits := cipher (rev (schedule key)) b.

(** Bytes, most significant bit first. *)
Definition to_bits (bs : list Z) : bits := flat_map (low_bits 8) bs.
Fixpoint of_bits (n : nat) (b : bits) : list Z :=
  match n with
  | O => []
  | S n' => value (firstn 8 b) :: of_bits n' (skipn 8 b)
  end.
Definition DES_bytes (key block : list Z) : list Z := of_bits 8 (DES (to_bits key) (to_bits block)).
Definition DES_inv_bytes (key block : list Z) : list Z := of_bits 8 (DES_inv (to_bits key) (to_bits block)).

(** Modes of operation (FIPS 81) over any block function; a message is a list
    of blocks. *)
Definition block := list Z.
Fixpoint xor_bytes (a b : block) : block :=
  match a, b with
  | x :: a', y :: b' => Z.lxor x y :: xor_bytes a' b'
  | _, _ => []
  end.
Definition ecb (F : block -> block) (m : list block) : list block := map F m.
Fixpoint cbc_enc (F : block -> block) (iv : block) (m : list block) : list block :=
  match m with
  | [] => []
  | p :: m' => let c := F (xor_bytes p iv) in c :: cbc_enc F c m'
  end.
Fixpoint cbc_dec (G : block -> block) (iv : block) (m : list block) : list block :=
  match m with
  | [] => []
  | c :: m' => xor_bytes (G c) iv :: cbc_dec G c m'
  end.

(** Triple DES (FIPS 46-3, TDEA): the three DES keys of a 16- or 24-byte key
    (keying options 2 and 1), encrypt-decrypt-encrypt *)
Definition key1 (key : list Z) := firstn 8 key.
Definition key2 (key : list Z) := firstn 8 (skipn 8 key).
Definition key3 (key : list Z) := if (length key =? 16)%nat then firstn 8 key else skipn 16 key.
Definition EDE (key : list Z) (b : block) : block := DES_bytes (key3 key) (DES_inv_bytes (key2 key) (DES_bytes (key1 key) b)).
Definition DED (key : list Z) (b : block) : block := DES_inv_bytes (key1 key) (DES_bytes (key2 key) (DES_inv_bytes (key3 key) b)).

(** Known answers (worked example in the literature; all-zero key and block). *)
Example DES_vector1 : DES_bytes [0x13;0x34;0x57;0x79;0x9B;0xBC;0xDF;0xF1] [0x01;0x23;0x45;0x67;0x89;0xAB;0xCD;0xEF]
  = [0x85;0xE8;0x13;0x54;0x0F;0x0A;0xB4;0x05].
Proof. vm_compute. reflexivity. Qed.
Example DES_vector2 : DES_bytes [0;0;0;0;0;0;0;0] [0;0;0;0;0;0;0;0] = [0x8C;0xA6;0x4D;0xE9;0xC1;0xB1;0x23;0xA7].
Proof. vm_compute. reflexivity. Qed.
