(** Blowfish as published: B. Schneier, Description of a New Variable-Length Key, 64-Bit Block Cipher (Blowfish), Fast
    Software Encryption 1993. *)
From Coq Require Import List Bool ZArith.
Import ListNotations.
Open Scope Z_scope.

(** The P-array P1..P18 and the four S-boxes, numbered from 0. *)
Record subkeys := mkSub { P : Z -> Z; S : Z -> Z -> Z }.

(** "Divide x into four eight-bit quarters: a, b, c, and d. F(x) = ((S1,a + S2,b mod 2^32) XOR S3,c) + S4,d mod 2^32" *)
Definition quarter (x n : Z) : Z := (x / 2 ^ (8 * (3 - n))) mod 2 ^ 8.
Definition F (k : subkeys) (x : Z) : Z :=
  (Z.lxor ((S k 0 (quarter x 0) + S k 1 (quarter x 1)) mod 2 ^ 32) (S k 2 (quarter x 2)) + S k 3 (quarter x 3)) mod 2 ^ 32.

(** "For i = 1 to 16: xL = xL XOR Pi; xR = F(xL) XOR xR; swap xL and xR" *)
Definition rounds (k : subkeys) (ps : list Z) (x : Z * Z) : Z * Z :=
  fold_left (fun '(xl, xr) p => let xl := Z.lxor xl (P k p) in let xr := Z.lxor (F k xl) xr in (xr, xl)) ps x.

(** "Swap xL and xR (undo the last swap); xR = xR XOR P17; xL = xL XOR P18" *)
Definition encipher (k : subkeys) (x : Z * Z) : Z * Z :=
  let '(xl, xr) := rounds k [0; 1; 2; 3; 4; 5; 6; 7; 8; 9; 10; 11; 12; 13; 14; 15] x in
  let '(xl, xr) := (xr, xl) in
  (Z.lxor xl (P k 17), Z.lxor xr (P k 16)).

(** "Decryption is exactly the same as encryption, except that P1, P2, ..., P18 are used in the reverse order" *)
Definition decipher (k : subkeys) (x : Z * Z) : Z * Z :=
  encipher (mkSub (fun i => P k (17 - i)) (S k)) x.

(** Subkeys. "1. Initialize first the P-array and then the four S-boxes, in order, with a fixed string": [pi]. *)
Definition initial (pi : Z -> Z) : subkeys := mkSub pi (fun j i => pi (18 + 256 * j + i)).

(** "2. XOR P1 with the first 32 bits of the key, XOR P2 with the second 32 bits of the key, and so on for all bits of
    the key. Repeatedly cycle through the key bits" *)
Definition key_byte (key : list Z) (i : Z) : Z := nth (Z.to_nat (i mod Z.of_nat (length key))) key 0.
Definition key_word (key : list Z) (i : Z) : Z :=
  key_byte key (4 * i) * 2 ^ 24 + key_byte key (4 * i + 1) * 2 ^ 16 + key_byte key (4 * i + 2) * 2 ^ 8 + key_byte key (4 * i + 3).
Definition mixed (key : list Z) (k : subkeys) : subkeys := mkSub (fun i => Z.lxor (P k i) (key_word key i)) (S k).

(** "3. Encrypt the all-zero string using the subkeys described in steps (1) and (2). 4. Replace P1 and P2 with the output
    of step (3). 5. Encrypt the output of step (3) using the modified subkeys. 6. Replace P3 and P4 with the output of
    step (5). 7. Continue the process, replacing all entries of the P-array, and then all four S-boxes in order" *)
Inductive place := InP (i : Z) | InS (j i : Z).
Definition set (f : Z -> Z) (i v : Z) : Z -> Z := fun x => if x =? i then v else f x.
Definition replace (k : subkeys) (p : place) (x : Z * Z) : subkeys :=
  match p with
  | InP i => mkSub (set (set (P k) i (fst x)) (i + 1) (snd x)) (S k)
  | InS j i => mkSub (P k) (fun j' => if j' =? j then set (set (S k j) i (fst x)) (i + 1) (snd x) else S k j')
  end.
Definition evens (n : nat) : list Z := map (fun i => 2 * Z.of_nat i) (seq 0 n).
Definition places : list place := map InP (evens 9) ++ flat_map (fun j => map (InS j) (evens 128)) [0; 1; 2; 3].
Fixpoint replace_all (ps : list place) (k : subkeys) (x : Z * Z) : subkeys :=
  match ps with [] => k | p :: ps => let x := encipher k x in replace_all ps (replace k p x) x end.
Definition key_schedule (pi : Z -> Z) (key : list Z) : subkeys := replace_all places (mixed key (initial pi)) (0, 0).

(** The fixed string: "the hexadecimal digits of pi (less the initial 3)", by Machin's formula
    pi / 4 = 4 arctan(1/5) - arctan(1/239) and the series arctan x = x - x^3/3 + x^5/5 - ... *)
Fixpoint arctan_terms (n : nat) (k term d : Z) : Z :=
  match n with O => 0 | Datatypes.S n => term / d - arctan_terms n k (term / (k * k)) (d + 2) end.
Definition arctan_inv (n : nat) (one k : Z) : Z := arctan_terms n k (one / k) 1.
(** Pi times [2^b]; the terms left out are smaller than one. *)
Definition pi_fixed (b : Z) : Z :=
  let one := 2 ^ b in 4 * (4 * arctan_inv (Z.to_nat (b / 4)) one 5 - arctan_inv (Z.to_nat (b / 15)) one 239).
(** The first [n] words of the fraction. *)
Definition pi_words (n : nat) : list Z :=
  let b := 32 * Z.of_nat n + 64 in
  let p := pi_fixed b in
  map (fun i => (p / 2 ^ (b - 32 * (Z.of_nat i + 1))) mod 2 ^ 32) (seq 0 n).

(** A block of eight bytes as two words, the most significant byte first; [byte i] is byte [i]. *)
Definition word_of (byte : Z -> Z) (i : Z) : Z := byte i * 2 ^ 24 + byte (i + 1) * 2 ^ 16 + byte (i + 2) * 2 ^ 8 + byte (i + 3).
Definition words_of (byte : Z -> Z) : Z * Z := (word_of byte 0, word_of byte 4).

(** "Cipher block chaining": a ciphertext block is the cipher of the block exclusive-ored with the ciphertext block
    before it. *)
Definition xor_blocks (a b : Z * Z) : Z * Z := (Z.lxor (fst a) (fst b), Z.lxor (snd a) (snd b)).
Fixpoint BF_chain (k : subkeys) (iv : Z * Z) (blocks : list (Z * Z)) : list (Z * Z) :=
  match blocks with [] => [] | b :: bs => let c := encipher k (xor_blocks b iv) in c :: BF_chain k c bs end.
Definition all_words_of (byte : Z -> Z) (n : nat) : list (Z * Z) :=
  map (fun i => words_of (fun j => byte (8 * Z.of_nat i + j))) (seq 0 n).
