(** The Data Encryption Standard, FIPS PUB 46-3, on lists of bits. Bit 1 of the standard is the head of the list. *)
From Coq Require Import List Bool Arith ZArith.
Import ListNotations.

Definition bits := list bool.
Fixpoint xorl (a b : bits) : bits :=
  match a, b with x :: a, y :: b => xorb x y :: xorl a b | _, _ => [] end.

(** Selection: bit [i] of the result is bit number [nth i table] of the argument. *)
Definition select (table : list nat) (l : bits) : bits := map (fun k => nth (k - 1) l false) table.

Definition IP_table := [
  58; 50; 42; 34; 26; 18; 10; 2; 60; 52; 44; 36; 28; 20; 12; 4;
  62; 54; 46; 38; 30; 22; 14; 6; 64; 56; 48; 40; 32; 24; 16; 8;
  57; 49; 41; 33; 25; 17; 9; 1; 59; 51; 43; 35; 27; 19; 11; 3;
  61; 53; 45; 37; 29; 21; 13; 5; 63; 55; 47; 39; 31; 23; 15; 7].
Definition FP_table := [
  40; 8; 48; 16; 56; 24; 64; 32; 39; 7; 47; 15; 55; 23; 63; 31;
  38; 6; 46; 14; 54; 22; 62; 30; 37; 5; 45; 13; 53; 21; 61; 29;
  36; 4; 44; 12; 52; 20; 60; 28; 35; 3; 43; 11; 51; 19; 59; 27;
  34; 2; 42; 10; 50; 18; 58; 26; 33; 1; 41; 9; 49; 17; 57; 25].
Definition E_table := [
  32; 1; 2; 3; 4; 5; 4; 5; 6; 7; 8; 9; 8; 9; 10; 11; 12; 13; 12; 13; 14; 15; 16; 17;
  16; 17; 18; 19; 20; 21; 20; 21; 22; 23; 24; 25; 24; 25; 26; 27; 28; 29; 28; 29; 30; 31; 32; 1].
Definition P_table := [
  16; 7; 20; 21; 29; 12; 28; 17; 1; 15; 23; 26; 5; 18; 31; 10;
  2; 8; 24; 14; 32; 27; 3; 9; 19; 13; 30; 6; 22; 11; 4; 25].
Definition PC1_table := [
  57; 49; 41; 33; 25; 17; 9; 1; 58; 50; 42; 34; 26; 18; 10; 2; 59; 51; 43; 35; 27; 19; 11; 3; 60; 52; 44; 36;
  63; 55; 47; 39; 31; 23; 15; 7; 62; 54; 46; 38; 30; 22; 14; 6; 61; 53; 45; 37; 29; 21; 13; 5; 28; 20; 12; 4].
Definition PC2_table := [
  14; 17; 11; 24; 1; 5; 3; 28; 15; 6; 21; 10; 23; 19; 12; 4; 26; 8; 16; 7; 27; 20; 13; 2;
  41; 52; 31; 37; 47; 55; 30; 40; 51; 45; 33; 48; 44; 49; 39; 56; 34; 53; 46; 42; 50; 36; 29; 32].
Definition left_shifts := [1; 1; 2; 2; 2; 2; 2; 2; 1; 2; 2; 2; 2; 2; 2; 1].

Definition S_boxes : list (list nat) := [
 [14; 4; 13; 1; 2; 15; 11; 8; 3; 10; 6; 12; 5; 9; 0; 7;
  0; 15; 7; 4; 14; 2; 13; 1; 10; 6; 12; 11; 9; 5; 3; 8;
  4; 1; 14; 8; 13; 6; 2; 11; 15; 12; 9; 7; 3; 10; 5; 0;
  15; 12; 8; 2; 4; 9; 1; 7; 5; 11; 3; 14; 10; 0; 6; 13];
 [15; 1; 8; 14; 6; 11; 3; 4; 9; 7; 2; 13; 12; 0; 5; 10;
  3; 13; 4; 7; 15; 2; 8; 14; 12; 0; 1; 10; 6; 9; 11; 5;
  0; 14; 7; 11; 10; 4; 13; 1; 5; 8; 12; 6; 9; 3; 2; 15;
  13; 8; 10; 1; 3; 15; 4; 2; 11; 6; 7; 12; 0; 5; 14; 9];
 [10; 0; 9; 14; 6; 3; 15; 5; 1; 13; 12; 7; 11; 4; 2; 8;
  13; 7; 0; 9; 3; 4; 6; 10; 2; 8; 5; 14; 12; 11; 15; 1;
  13; 6; 4; 9; 8; 15; 3; 0; 11; 1; 2; 12; 5; 10; 14; 7;
  1; 10; 13; 0; 6; 9; 8; 7; 4; 15; 14; 3; 11; 5; 2; 12];
 [7; 13; 14; 3; 0; 6; 9; 10; 1; 2; 8; 5; 11; 12; 4; 15;
  13; 8; 11; 5; 6; 15; 0; 3; 4; 7; 2; 12; 1; 10; 14; 9;
  10; 6; 9; 0; 12; 11; 7; 13; 15; 1; 3; 14; 5; 2; 8; 4;
  3; 15; 0; 6; 10; 1; 13; 8; 9; 4; 5; 11; 12; 7; 2; 14];
 [2; 12; 4; 1; 7; 10; 11; 6; 8; 5; 3; 15; 13; 0; 14; 9;
  14; 11; 2; 12; 4; 7; 13; 1; 5; 0; 15; 10; 3; 9; 8; 6;
  4; 2; 1; 11; 10; 13; 7; 8; 15; 9; 12; 5; 6; 3; 0; 14;
  11; 8; 12; 7; 1; 14; 2; 13; 6; 15; 0; 9; 10; 4; 5; 3];
 [12; 1; 10; 15; 9; 2; 6; 8; 0; 13; 3; 4; 14; 7; 5; 11;
  10; 15; 4; 2; 7; 12; 9; 5; 6; 1; 13; 14; 0; 11; 3; 8;
  9; 14; 15; 5; 2; 8; 12; 3; 7; 0; 4; 10; 1; 13; 11; 6;
  4; 3; 2; 12; 9; 5; 15; 10; 11; 14; 1; 7; 6; 0; 8; 13];
 [4; 11; 2; 14; 15; 0; 8; 13; 3; 12; 9; 7; 5; 10; 6; 1;
  13; 0; 11; 7; 4; 9; 1; 10; 14; 3; 5; 12; 2; 15; 8; 6;
  1; 4; 11; 13; 12; 3; 7; 14; 10; 15; 6; 8; 0; 5; 9; 2;
  6; 11; 13; 8; 1; 4; 10; 7; 9; 5; 0; 15; 14; 2; 3; 12];
 [13; 2; 8; 4; 6; 15; 11; 1; 10; 9; 3; 14; 5; 0; 12; 7;
  1; 15; 13; 8; 10; 3; 7; 4; 12; 5; 6; 11; 0; 14; 9; 2;
  7; 11; 4; 1; 9; 12; 14; 2; 0; 6; 10; 13; 15; 3; 5; 8;
  2; 1; 14; 7; 4; 10; 8; 13; 15; 12; 9; 0; 3; 5; 6; 11]].

Definition bnat (b : bool) : nat := if b then 1 else 0.

(** One selection function: row from the first and last bit, column from the other four; four bits, highest first. *)
Definition S_box (k : nat) (v : bits) : bits :=
  let b i := bnat (nth i v false) in
  let row := 2 * b 0 + b 5 in
  let col := 8 * b 1 + 4 * b 2 + 2 * b 3 + b 4 in
  let x := nth (16 * row + col) (nth k S_boxes []) 0 in
  [Nat.testbit x 3; Nat.testbit x 2; Nat.testbit x 1; Nat.testbit x 0].

(** [n]-th group of [m] bits. *)
Definition group (m n : nat) (l : bits) : bits := firstn m (skipn (m * n) l).

(** The cipher function f(R, K). *)
Definition cipher_f (r k : bits) : bits :=
  let v := xorl (select E_table r) k in
  select P_table (flat_map (fun n => S_box n (group 6 n v)) (seq 0 8)).

(** The sixteen iterations, keys in the order of use; the result is L16, R16. *)
Fixpoint iterate (ks : list bits) (lr : bits * bits) : bits * bits :=
  match ks with
  | [] => lr
  | k :: ks => iterate ks (snd lr, xorl (fst lr) (cipher_f (snd lr) k))
  end.

(** Key schedule KS: K1, ..., K16. *)
Definition rotl (n : nat) (l : bits) : bits := skipn n l ++ firstn n l.
Fixpoint schedule (sh : list nat) (c d : bits) : list bits :=
  match sh with
  | [] => []
  | n :: sh => let c := rotl n c in let d := rotl n d in select PC2_table (c ++ d) :: schedule sh c d
  end.
Definition round_keys (key : bits) : list bits :=
  let cd := select PC1_table key in schedule left_shifts (firstn 28 cd) (skipn 28 cd).

Definition des_with (ks : list bits) (block : bits) : bits :=
  let p := select IP_table block in
  let lr := iterate ks (firstn 32 p, skipn 32 p) in
  select FP_table (snd lr ++ fst lr).

Definition DES_encipher (key block : bits) : bits := des_with (round_keys key) block.
Definition DES_decipher (key block : bits) : bits := des_with (rev (round_keys key)) block.

(** Cipher block chaining, FIPS PUB 81. *)
Fixpoint CBC_encipher (key iv : bits) (blocks : list bits) : list bits :=
  match blocks with
  | [] => []
  | b :: bs => let c := DES_encipher key (xorl b iv) in c :: CBC_encipher key c bs
  end.

(** A well-known test vector. *)
Fixpoint hex (n : nat) (x : nat) : bits := match n with O => [] | S n => Nat.testbit x n :: hex n x end.
Definition hexs (l : list nat) : bits := flat_map (hex 8) l.
Example des_vector :
  DES_encipher (hexs [19; 52; 87; 121; 155; 188; 223; 241]) (hexs [1; 35; 69; 103; 137; 171; 205; 239])
  = hexs [133; 232; 19; 84; 15; 10; 180; 5].
Proof. vm_compute. reflexivity. Qed.

(** The bits of eight bytes, the highest bit of each byte first, and those of [n] times eight bytes. *)
Definition block_of (byte : Z -> Z) : bits :=
  flat_map (fun i => map (Z.testbit (byte i)) [7; 6; 5; 4; 3; 2; 1; 0]%Z) [0; 1; 2; 3; 4; 5; 6; 7]%Z.
Definition blocks_of (byte : Z -> Z) (n : nat) : list bits :=
  map (fun i => block_of (fun j => byte (8 * Z.of_nat i + j)%Z)) (seq 0 n).
