(** The data-protection protocols of libpok: Caesar, DES, Blowfish (libpok/protocols).

    DES_LONG is unsigned long (libpok/protocols/des/des_locl.h:82), 32 bits on the target; BF_LONG is uint32_t
    (libpok/protocols/blowfish/blowfish.h:93). Neither DES_PTR, DES_RISC*, DES_UNROLL nor DES_FCRYPT is
    defined; BF_PTR2 is. Memory and pointers are as in Model/Libc.v. *)
From Verif Require Import Model.Base Model.Libc Model.CryptoTables.

(** * Caesar *)

(** libpok/protocols/ceasar/ceasar.c:41-43: one byte. The sum is computed in int. *)
Definition caesar_up (b : Z) : Z := u8 (Z.rem (b + 4) 255).

(** libpok/protocols/ceasar/ceasar.c:63-65: one byte. The C remainder has the sign of the dividend. *)
Definition caesar_down (c : Z) : Z := u8 (Z.rem (c - 4) 255).

(** The loop of both functions, ceasar.c:41-43 and 63-65. *)
Fixpoint caesar_loop (f : Z -> Z) (n : nat) (m : mem) (src dst : Z) : mem :=
  match n with
  | O => m
  | S k => caesar_loop f k (upd m dst (f (m src))) (u32 (src + 1)) (u32 (dst + 1))
  end.

(** pok_protocols_ceasar_marshall, ceasar.c:31-46, and pok_protocols_ceasar_unmarshall, ceasar.c:52-68: the
    memory afterwards and the size stored. *)
Definition caesar_marshall (m : mem) (src size dst : Z) : mem * Z :=
  (caesar_loop caesar_up (Z.to_nat size) m src dst, size).
Definition caesar_unmarshall (m : mem) (src size dst : Z) : mem * Z :=
  (caesar_loop caesar_down (Z.to_nat size) m src dst, size).

(** * Words and bytes *)

Definition shl (a n : Z) : Z := u32 (Z.shiftl a n).
Definition byte_of (w n : Z) : Z := Z.land (Z.shiftr w n) 0xff.

(** rorl, libpok/protocols/des/des_locl.h:238-243. *)
Definition rotate (a n : Z) : Z := Z.lor (Z.shiftr a n) (shl a (32 - n)).

(** Two 32-bit words. *)
Definition pair := (Z * Z)%type.
Definition xor2 (p q : pair) : pair := (Z.lxor (fst p) (fst q), Z.lxor (snd p) (snd q)).

(** c2l twice, des_locl.h:158-160, and l2c twice, des_locl.h:187-191. *)
Definition c2l (m : mem) (a : Z) : Z :=
  Z.lor (Z.lor (Z.lor (m a) (shl (m (u32 (a + 1))) 8)) (shl (m (u32 (a + 2))) 16)) (shl (m (u32 (a + 3))) 24).
Definition l2c (m : mem) (l a : Z) : mem :=
  upd (upd (upd (upd m a (byte_of l 0)) (u32 (a + 1)) (byte_of l 8)) (u32 (a + 2)) (byte_of l 16))
    (u32 (a + 3)) (byte_of l 24).
Definition des_get (m : mem) (a : Z) : pair := (c2l m a, c2l m (u32 (a + 4))).
Definition des_put (m : mem) (p : pair) (a : Z) : mem := l2c (l2c m (fst p) a) (snd p) (u32 (a + 4)).

(** The byte number [i] of a partial block of [n] bytes, if it belongs to it. *)
Definition part (m : mem) (a n i sh : Z) : Z := if i <? n then shl (m (u32 (a + i))) sh else 0.

(** c2ln, des_locl.h:163-185: the switch falls through, so the bytes below [n] are loaded. *)
Definition des_getn (m : mem) (a n : Z) : pair :=
  (Z.lor (Z.lor (Z.lor (part m a n 3 24) (part m a n 2 16)) (part m a n 1 8)) (part m a n 0 0),
   Z.lor (Z.lor (Z.lor (part m a n 7 24) (part m a n 6 16)) (part m a n 5 8)) (part m a n 4 0)).

(** Store of byte [i] of a partial block of [n] bytes. *)
Definition putb (a n i w sh : Z) (m : mem) : mem :=
  if i <? n then upd m (u32 (a + i)) (byte_of w sh) else m.

(** l2cn, des_locl.h:208-229. *)
Definition des_putn (m : mem) (p : pair) (a n : Z) : mem :=
  putb a n 0 (fst p) 0 (putb a n 1 (fst p) 8 (putb a n 2 (fst p) 16 (putb a n 3 (fst p) 24
    (putb a n 4 (snd p) 0 (putb a n 5 (snd p) 8 (putb a n 6 (snd p) 16 (putb a n 7 (snd p) 24 m))))))).

(** n2l twice, libpok/protocols/blowfish/bf_locl.h:194-197; l2n twice, bf_locl.h:200-204: the same with the
    most significant byte first. *)
Definition n2l (m : mem) (a : Z) : Z :=
  Z.lor (Z.lor (Z.lor (shl (m a) 24) (shl (m (u32 (a + 1))) 16)) (shl (m (u32 (a + 2))) 8)) (m (u32 (a + 3))).
Definition l2n (m : mem) (l a : Z) : mem :=
  upd (upd (upd (upd m a (byte_of l 24)) (u32 (a + 1)) (byte_of l 16)) (u32 (a + 2)) (byte_of l 8))
    (u32 (a + 3)) (byte_of l 0).
Definition bf_get (m : mem) (a : Z) : pair := (n2l m a, n2l m (u32 (a + 4))).
Definition bf_put (m : mem) (p : pair) (a : Z) : mem := l2n (l2n m (fst p) a) (snd p) (u32 (a + 4)).

(** n2ln, bf_locl.h:145-167. *)
Definition bf_getn (m : mem) (a n : Z) : pair :=
  (Z.lor (Z.lor (Z.lor (part m a n 3 0) (part m a n 2 8)) (part m a n 1 16)) (part m a n 0 24),
   Z.lor (Z.lor (Z.lor (part m a n 7 0) (part m a n 6 8)) (part m a n 5 16)) (part m a n 4 24)).

(** l2nn, bf_locl.h:170-191. *)
Definition bf_putn (m : mem) (p : pair) (a n : Z) : mem :=
  putb a n 0 (fst p) 24 (putb a n 1 (fst p) 16 (putb a n 2 (fst p) 8 (putb a n 3 (fst p) 0
    (putb a n 4 (snd p) 24 (putb a n 5 (snd p) 16 (putb a n 6 (snd p) 8 (putb a n 7 (snd p) 0 m))))))).

(** * DES *)

(** PERM_OP(a, b, t, n, m), des_locl.h:486-487: the new [a] and [b]. *)
Definition perm_op (n mask : Z) (a b : Z) : pair :=
  let t := Z.land (Z.lxor (Z.shiftr a n) b) mask in (Z.lxor a (shl t n), Z.lxor b t).

(** IP(l, r), des_locl.h:489-497. *)
Definition des_ip (l r : Z) : pair :=
  let '(r, l) := perm_op 4 0x0f0f0f0f r l in
  let '(l, r) := perm_op 16 0x0000ffff l r in
  let '(r, l) := perm_op 2 0x33333333 r l in
  let '(l, r) := perm_op 8 0x00ff00ff l r in
  let '(r, l) := perm_op 1 0x55555555 r l in
  (l, r).

(** FP(l, r), des_locl.h:499-507. *)
Definition des_fp (l r : Z) : pair :=
  let '(l, r) := perm_op 1 0x55555555 l r in
  let '(r, l) := perm_op 8 0x00ff00ff r l in
  let '(l, r) := perm_op 2 0x33333333 l r in
  let '(r, l) := perm_op 16 0x0000ffff r l in
  let '(l, r) := perm_op 4 0x0f0f0f0f l r in
  (l, r).

(** DES_SPtrans[b][i]. *)
Definition spt (b : nat) (i : Z) : Z := nth (Z.to_nat i) (nth b sptrans []) 0.

(** D_ENCRYPT(LL, R, S), des_locl.h:435-445, with LOAD_DATA, des_locl.h:273-275: what is xored into LL. [ks]
    are the 32 words of the key schedule. *)
Definition des_f (ks : Z -> Z) (R S : Z) : Z :=
  let u := Z.lxor R (ks S) in
  let t := rotate (Z.lxor R (ks (S + 1))) 4 in
  let ix w n := Z.land (Z.shiftr w n) 0x3f in
  Z.lxor (Z.lxor (Z.lxor (Z.lxor (Z.lxor (Z.lxor (Z.lxor
    (spt 0 (ix u 2)) (spt 2 (ix u 10))) (spt 4 (ix u 18))) (spt 6 (ix u 26)))
    (spt 1 (ix t 2))) (spt 3 (ix t 10))) (spt 5 (ix t 18))) (spt 7 (ix t 26)).

(** Two rounds: D_ENCRYPT(l, r, i) then D_ENCRYPT(r, l, j). *)
Definition des_two (ks : Z -> Z) (i j : Z) (lr : pair) : pair :=
  let l := Z.lxor (fst lr) (des_f ks (snd lr) i) in
  let r := Z.lxor (snd lr) (des_f ks l j) in
  (l, r).

(** The sixteen rounds of encryption, libpok/protocols/des/des_enc.c:125-130, and of decryption,
    des_enc.c:151-156. *)
Definition des_rounds_enc (ks : Z -> Z) (lr : pair) : pair :=
  fold_left (fun p i => des_two ks (i + 4) (i + 6) (des_two ks (i + 0) (i + 2) p)) [0; 8; 16; 24] lr.
Definition des_rounds_dec (ks : Z -> Z) (lr : pair) : pair :=
  fold_left (fun p i => des_two ks (i - 4) (i - 6) (des_two ks (i - 0) (i - 2) p)) [30; 22; 14; 6] lr.

(** DES_encrypt1, des_enc.c:78-168: [data] are the two words. *)
Definition des_encrypt1 (ks : Z -> Z) (enc : bool) (data : pair) : pair :=
  let r := fst data in
  let l := snd data in
  let '(r, l) := des_ip r l in
  let r := rotate r 29 in
  let l := rotate l 29 in
  let '(l, r) := if enc then des_rounds_enc ks (l, r) else des_rounds_dec ks (l, r) in
  let l := rotate l 3 in
  let r := rotate r 3 in
  let '(r, l) := des_fp r l in
  (l, r).

(** * Cipher block chaining

    DES_ncbc_encrypt, libpok/protocols/des/ncbc_enc.c:86-169, and BF_cbc_encrypt,
    libpok/protocols/blowfish/bf_enc.c:238-310, are the same text up to the byte order and the block function,
    which are parameters here: [get]/[put] for a whole block, [getn]/[putn] for a partial one, [E]/[D] for the
    block. The initialisation vector is passed as two words and the one stored at the end is returned; the
    vector and the local variables are apart from the data. [len] is not negative. *)

Section Cbc.
Variable get : mem -> Z -> pair.
Variable put : mem -> pair -> Z -> mem.
Variable getn : mem -> Z -> Z -> pair.
Variable putn : mem -> pair -> Z -> Z -> mem.
Variable E D : pair -> pair.

(** ncbc_enc.c:101-113, bf_enc.c:249-261. *)
Fixpoint cbc_enc_loop (k : nat) (m : mem) (inp out : Z) (v : pair) : mem * pair :=
  match k with
  | O => (m, v)
  | S k' => let c := E (xor2 (get m inp) v) in
            cbc_enc_loop k' (put m c out) (u32 (inp + 8)) (u32 (out + 8)) c
  end.

(** ncbc_enc.c:98-130, bf_enc.c:245-275. *)
Definition cbc_enc (m : mem) (inp out len : Z) (iv : pair) : mem * pair :=
  let q := len / 8 in
  let '(m1, v) := cbc_enc_loop (Z.to_nat q) m inp out iv in
  if len mod 8 =? 0 then (m1, v)
  else let c := E (xor2 (getn m1 (u32 (inp + 8 * q)) (len mod 8)) v) in
       (put m1 c (u32 (out + 8 * q)), c).

(** ncbc_enc.c:134-146, bf_enc.c:280-292. *)
Fixpoint cbc_dec_loop (k : nat) (m : mem) (inp out : Z) (v : pair) : mem * pair :=
  match k with
  | O => (m, v)
  | S k' => let c := get m inp in
            cbc_dec_loop k' (put m (xor2 (D c) v) out) (u32 (inp + 8)) (u32 (out + 8)) c
  end.

(** ncbc_enc.c:132-165, bf_enc.c:277-306. *)
Definition cbc_dec (m : mem) (inp out len : Z) (iv : pair) : mem * pair :=
  let q := len / 8 in
  let '(m1, v) := cbc_dec_loop (Z.to_nat q) m inp out iv in
  if len mod 8 =? 0 then (m1, v)
  else let c := get m1 (u32 (inp + 8 * q)) in
       (putn m1 (xor2 (D c) v) (u32 (out + 8 * q)) (len mod 8), c).
End Cbc.

(** DES_ncbc_encrypt, ncbc_enc.c:86-169. *)
Definition des_ncbc (ks : Z -> Z) (enc : bool) (m : mem) (inp out len : Z) (iv : pair) : mem * pair :=
  if enc then cbc_enc des_get des_put des_getn (des_encrypt1 ks true) m inp out len iv
  else cbc_dec des_get des_put des_putn (des_encrypt1 ks false) m inp out len iv.

(** * The key schedule of DES *)

(** HPERM_OP(a, t, n, m), libpok/protocols/des/set_key.c:179-181. *)
Definition hperm_op (n mask a : Z) : Z :=
  let t := Z.land (Z.lxor (shl a (16 - n)) a) mask in
  Z.lxor (Z.lxor a t) (Z.shiftr t (16 - n)).

(** set_key.c:353-367: the two halves after the first permutation. *)
Definition des_pc1 (c d : Z) : pair :=
  let '(d, c) := perm_op 4 0x0f0f0f0f d c in
  let c := hperm_op (-2) 0xcccc0000 c in
  let d := hperm_op (-2) 0xcccc0000 d in
  let '(d, c) := perm_op 1 0x55555555 d c in
  let '(c, d) := perm_op 8 0x00ff00ff c d in
  let '(d, c) := perm_op 1 0x55555555 d c in
  let d := Z.lor (Z.lor (Z.lor (shl (Z.land d 0x000000ff) 16) (Z.land d 0x0000ff00))
                    (Z.shiftr (Z.land d 0x00ff0000) 16)) (Z.shiftr (Z.land c 0xf0000000) 4) in
  (Z.land c 0x0fffffff, d).

(** shifts2, set_key.c:336. *)
Definition shifts2 : list bool :=
  [false; false; true; true; true; true; true; true; false; true; true; true; true; true; true; false].

(** set_key.c:370-378: rotation of a half, 28 bits. *)
Definition des_shift (two : bool) (c : Z) : Z :=
  Z.land (if two then Z.lor (Z.shiftr c 2) (shl c 26) else Z.lor (Z.shiftr c 1) (shl c 27)) 0x0fffffff.

Definition skbt (b : nat) (i : Z) : Z := nth (Z.to_nat i) (nth b skb []) 0.

(** set_key.c:381-396: the two words of one round. *)
Definition des_pc2 (c d : Z) : pair :=
  let s := Z.lor (Z.lor (Z.lor
    (skbt 0 (Z.land c 0x3f))
    (skbt 1 (Z.lor (Z.land (Z.shiftr c 6) 0x03) (Z.land (Z.shiftr c 7) 0x3c))))
    (skbt 2 (Z.lor (Z.land (Z.shiftr c 13) 0x0f) (Z.land (Z.shiftr c 14) 0x30))))
    (skbt 3 (Z.lor (Z.lor (Z.land (Z.shiftr c 20) 0x01) (Z.land (Z.shiftr c 21) 0x06))
               (Z.land (Z.shiftr c 22) 0x38))) in
  let t := Z.lor (Z.lor (Z.lor
    (skbt 4 (Z.land d 0x3f))
    (skbt 5 (Z.lor (Z.land (Z.shiftr d 7) 0x03) (Z.land (Z.shiftr d 8) 0x3c))))
    (skbt 6 (Z.land (Z.shiftr d 15) 0x3f)))
    (skbt 7 (Z.lor (Z.land (Z.shiftr d 21) 0x0f) (Z.land (Z.shiftr d 22) 0x30))) in
  (rotate (Z.lor (shl t 16) (Z.land s 0x0000ffff)) 30,
   rotate (Z.lor (Z.shiftr s 16) (Z.land t 0xffff0000)) 26).

(** The loop of DES_set_key_unchecked, set_key.c:369-397: the words of the schedule in order. *)
Fixpoint des_sched (sh : list bool) (c d : Z) : list Z :=
  match sh with
  | [] => []
  | two :: sh' =>
      let c' := des_shift two c in
      let d' := des_shift two d in
      fst (des_pc2 c' d') :: snd (des_pc2 c' d') :: des_sched sh' c' d'
  end.

(** DES_set_key_unchecked, set_key.c:335-398. *)
Definition des_set_key_unchecked (m : mem) (key : Z) : Z -> Z :=
  let '(c, d) := des_get m key in
  let '(c, d) := des_pc1 c d in
  fun i => nth (Z.to_nat i) (des_sched shifts2 c d) 0.

(** DES_check_key_parity, set_key.c:117-125. *)
Definition des_check_key_parity (m : mem) (key : Z) : bool :=
  forallb (fun i => m (u32 (key + Z.of_nat i)) =? nth (Z.to_nat (m (u32 (key + Z.of_nat i)))) odd_parity 0) (seq 0 8).

(** DES_is_weak_key, set_key.c:157-170; [wk] is the address of weak_keys, and memcmp is libpok's. *)
Definition des_is_weak_key (m : mem) (wk key : Z) : bool :=
  existsb (fun i => memcmp m (u32 (wk + 8 * Z.of_nat i)) key 8 =? 0) (seq 0 16).

(** DES_set_key_checked, set_key.c:326-333: the schedule and the result. [old] is the previous contents of the
    schedule. *)
Definition des_set_key_checked (m : mem) (wk key : Z) (old : Z -> Z) : (Z -> Z) * Z :=
  if negb (des_check_key_parity m key) then (old, -1)
  else if des_is_weak_key m wk key then (old, -2)
  else (des_set_key_unchecked m key, 0).

(** pok_protocols_des_marshall, libpok/protocols/des/des.c:47-59: the memory afterwards and the size stored.
    [old] is what the stack held where the schedule is. [ivp] is the address of initVector, copied to the local
    [ivec]. *)
Definition des_marshall (m : mem) (wk key ivp : Z) (old : Z -> Z) (src size dst : Z) : mem * Z :=
  let ks := fst (des_set_key_checked m wk key old) in
  (fst (des_ncbc ks true m src dst size (des_get m ivp)), 8).

(** pok_protocols_des_unmarshall, des.c:61-74. *)
Definition des_unmarshall (m : mem) (wk key ivp : Z) (old : Z -> Z) (src size dst : Z) : mem * Z :=
  let ks := fst (des_set_key_checked m wk key old) in
  (fst (des_ncbc ks false m src dst size (des_get m ivp)), 8).

(** * Blowfish *)

(** The function of BF_ENC(LL, R, KEY, Pi), bf_locl.h:219-223: what is xored into LL apart from KEY[Pi].
    [key] is the structure BF_KEY read as an array of words: P first, then S. *)
Definition bf_f (key : Z -> Z) (R : Z) : Z :=
  let b n := Z.land (Z.shiftr R n) 0xff in
  let t := key (18 + 0 + b 24) in
  let t := u32 (t + key (18 + 256 + b 16)) in
  let t := Z.lxor t (key (18 + 512 + b 8)) in
  u32 (t + key (18 + 768 + b 0)).

(** BF_ENC(r, l, k, i) followed by BF_ENC(l, r, k, j). *)
Definition bf_two (key : Z -> Z) (i j : Z) (lr : pair) : pair :=
  let r := Z.lxor (Z.lxor (snd lr) (key i)) (bf_f key (fst lr)) in
  let l := Z.lxor (Z.lxor (fst lr) (key j)) (bf_f key r) in
  (l, r).

(** BF_encrypt, libpok/protocols/blowfish/bf_enc.c:126-158. *)
Definition bf_encrypt (key : Z -> Z) (data : pair) : pair :=
  let l := Z.lxor (fst data) (key 0) in
  let r := snd data in
  let '(l, r) := bf_two key 15 16 (bf_two key 13 14 (bf_two key 11 12 (bf_two key 9 10
                  (bf_two key 7 8 (bf_two key 5 6 (bf_two key 3 4 (bf_two key 1 2 (l, r)))))))) in
  let r := Z.lxor r (key 17) in
  (Z.land r 0xffffffff, Z.land l 0xffffffff).

(** BF_decrypt, bf_enc.c:202-235. *)
Definition bf_decrypt (key : Z -> Z) (data : pair) : pair :=
  let l := Z.lxor (fst data) (key 17) in
  let r := snd data in
  let '(l, r) := bf_two key 2 1 (bf_two key 4 3 (bf_two key 6 5 (bf_two key 8 7
                  (bf_two key 10 9 (bf_two key 12 11 (bf_two key 14 13 (bf_two key 16 15 (l, r)))))))) in
  let r := Z.lxor r (key 0) in
  (Z.land r 0xffffffff, Z.land l 0xffffffff).

(** BF_cbc_encrypt, bf_enc.c:238-310. *)
Definition bf_cbc (key : Z -> Z) (enc : bool) (m : mem) (inp out len : Z) (iv : pair) : mem * pair :=
  if enc then cbc_enc bf_get bf_put bf_getn (bf_encrypt key) m inp out len iv
  else cbc_dec bf_get bf_put bf_putn (bf_decrypt key) m inp out len iv.

(** BF_ecb_encrypt, bf_enc.c:312-329. *)
Definition bf_ecb (key : Z -> Z) (enc : bool) (m : mem) (inp out : Z) : mem :=
  let d := bf_get m inp in
  bf_put m (if enc then bf_encrypt key d else bf_decrypt key d) out.

(** The key bytes in a circle, libpok/protocols/blowfish/bf_skey.c:96-119: byte number [i] of the sequence
    read. *)
Definition bf_key_byte (data : list Z) (i : Z) : Z := nth (Z.to_nat (i mod Z.of_nat (length data))) data 0.

(** bf_skey.c:98-119: the words xored into P. *)
Definition bf_mix (data : list Z) (key : Z -> Z) : Z -> Z :=
  fun i => if (0 <=? i) && (i <? 18) then
             let b k := bf_key_byte data (4 * i + k) in
             Z.lxor (key i) (Z.lor (shl (Z.lor (shl (Z.lor (shl (b 0) 8) (b 1)) 8) (b 2)) 8) (b 3))
           else key i.

(** bf_skey.c:123-134: BF_encrypt over and over, replacing first P and then S two words at a time. The two
    arrays follow each other. *)
Fixpoint bf_fill (n : nat) (i : Z) (key : Z -> Z) (d : pair) : Z -> Z :=
  match n with
  | O => key
  | S n' => let d' := bf_encrypt key d in
            bf_fill n' (i + 2) (upd (upd key i (fst d')) (i + 1) (snd d')) d'
  end.

(** BF_set_key, bf_skey.c:82-135, for a key of one to 72 bytes. *)
Definition bf_set_key (data : list Z) : Z -> Z :=
  bf_fill 521 0 (bf_mix data (fun i => nth (Z.to_nat i) bf_init 0)) (0, 0).

(** cbc_key, libpok/protocols/blowfish/blowfish.c:29 and libpok/include/protocols/blowfish.h. *)
Definition blowfish_default_key : list Z :=
  [0x01; 0x23; 0x45; 0x67; 0x89; 0xab; 0xcd; 0xef; 0xf0; 0xe1; 0xd2; 0xc3; 0xb4; 0xa5; 0x96; 0x87].

(** pok_protocols_blowfish_marshall, blowfish.c:36-48, and pok_protocols_blowfish_unmarshall,
    blowfish.c:50-65, with a key of 16 bytes. *)
Definition blowfish_marshall (key : list Z) (m : mem) (src size dst : Z) : mem * Z :=
  (bf_ecb (bf_set_key key) true m src dst, 8).
Definition blowfish_unmarshall (key : list Z) (m : mem) (src size dst : Z) : mem * Z :=
  (bf_ecb (bf_set_key key) false m src dst, 8).
